(** Model of mpc_time.c: decoding the time stamp of an MPC observation ID. *)
From Coq Require Import String.
From Verif Require Import CBase CStr DateModel DesigModel.
Open Scope list_scope.
Local Open Scope string_scope.

(** mpc_time.c:78-121 [main] with one argument [id].  Returns the text put into buff
    (the Julian date printed after it comes from get_time_from_string( ), which is
    not modelled) and the lines printed after it, without line feeds inside a
    message.  [L] is the largest long. *)
Definition mpc_time (L : Z) (id : list Z) : outcome (list Z * list (list Z)) :=
  do ymd <- get_mutant_hex_value id 0 3;
  do hms <- get_mutant_hex_value id 3 3;
  do millisec <- get_mutant_hex_value id 6 2;
  do year <- ev IMAX (ymd / (31 * 12) + 1800)%cx;
  do month <- ev IMAX ((ymd / 31) mod 12 + 1)%cx;
  do day <- ev IMAX (ymd mod 31 + 1)%cx;
  do n_days <- days_in_month L month year CALENDAR_GREGORIAN;
  do hr <- ev IMAX (hms / 3600)%cx;
  do mi <- ev IMAX ((hms / 60) mod 60)%cx;
  do se <- ev IMAX (hms mod 60)%cx;
  let buff := firstn 79 (pad0 4 year ++ zs "-" ++ pad0 2 month ++ zs "-" ++ pad0 2 day ++ zs " " ++
                         pad0 2 hr ++ zs ":" ++ pad0 2 mi ++ zs ":" ++ pad0 2 se ++ zs "." ++ pad0 3 millisec)%list in
  let len := List.length id in
  do m6 <- ev IMAX (month mod 6)%cx;
  let line (c : bool) (t : list Z) := if c then [t] else [] in
  Ret (buff,
       line (16 <=? Z.of_nat len)%Z (zs "Submission counter: " ++ firstn 8 (skipn 8 id) ++ zs " (mutant hex)")%list ++
       line (18 <=? Z.of_nat len)%Z (zs "Sub-batch number within main batch counter: " ++ firstn 2 (skipn 16 id) ++ zs " (mutant hex)")%list ++
       line (25 <=? Z.of_nat len)%Z (zs "Observation number within the sub-batch: " ++ firstn 7 (skipn 18 id) ++ zs " (mutant hex)")%list ++
       line (n_days <? day)%Z (zs "WARNING: There are only " ++ dec n_days ++ zs " days in that month")%list ++
       line (1000 <=? millisec)%Z (zs "WARNING: milliseconds should be 999 or less") ++
       line (86400 <? hms)%Z (zs "WARNING: time of day is out of range") ++
       line ((hms =? 86400) && (negb (m6 =? 0) || negb (day =? n_days)))%Z (zs "WARNING: This is an invalid leap second.") ++
       line ((hms =? 86400) && negb (negb (m6 =? 0) || negb (day =? n_days)))%Z (zs "WARNING: This is a leap second."))%list.
