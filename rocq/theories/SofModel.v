(** sof.cpp: orbital elements from a line whose columns are named by a header line.

    Text is a list of bytes.  The header is a string: the list holds the bytes before
    its terminator.  The line is given by the array that holds it, its terminator and
    whatever follows included; reading past the array is [UB].  Numbers in the text are
    exact rationals; angles in radians and the masses are real numbers. *)
From Coq Require Import QArith Qreals.
From Coq Require Import String.
From Verif Require Import CBase CStr DateModel TstrModel MpcfModel TrigBase EllModel.
From Verif Require OrbModel.
Local Open Scope string_scope.
Local Open Scope list_scope.
Local Open Scope Z_scope.

(** A byte as a (signed) char, and a byte of a string, 0 at its end. *)
Definition schar (c : Z) : Z := if 128 <=? c then c - 256 else c.
Definition chr (s : list Z) (i : nat) : Z := nth i s 0.

(** 54-69 [extract_yyyymmdd_to_jd]; [L] is LONG_MAX.  [bytes_read] is what %n counts: all
    that was read, with blanks and sign before the digits. *)
Definition extract_yyyymmdd_to_jd (L : Z) (buff : list Z) : outcome Q :=
  do r <- scan_d L buff;
  match r with
  | None => Ret 0%Q
  | Some (t, rest) =>
      let bytes_read := (List.length buff - List.length rest)%nat in
      do rval <- (if Nat.eqb bytes_read 8 then
                    do day <- dmy_to_day L (Z.rem t 100) (Z.rem (Z.quot t 100) 100) (Z.quot t 10000) CALENDAR_GREGORIAN;
                    Ret (inject_Z day - (1 # 2))%Q
                  else Ret 0%Q);
      if chr buff bytes_read =? 46 then do f <- atof (skipn bytes_read buff); Ret (rval + f)%Q
      else Ret rval
  end.

(** 30-31, 72 *)
Definition GAUSS_K : R := 1720209895 / 10 ^ 11.
Definition SOLAR_GM : R := GAUSS_K * GAUSS_K.
Definition MASS_EARTH : R := 3003489614792921 / 10 ^ 21.

(** 33-50: the bits of fields_found *)
Definition SOF_Q_FOUND : Z := 1.
Definition SOF_ECC_FOUND : Z := 2.
Definition SOF_TPERIH_FOUND : Z := 8.
Definition SOF_TEPOCH_FOUND : Z := 16.
Definition SOF_INCL_FOUND : Z := 32.
Definition SOF_ASC_NODE_FOUND : Z := 64.
Definition SOF_ARG_PERIH_FOUND : Z := 128.
Definition SOF_ABS_MAG_FOUND : Z := 256.
Definition SOF_SLOPE_PARAM_FOUND : Z := 512.
Definition SOF_TWRITTEN_FOUND : Z := 1024.
Definition SOF_TFIRST_FOUND : Z := 2048.
Definition SOF_TLAST_FOUND : Z := 4096.
Definition MIN_FIELDS_NEEDED : Z :=
  Z.lor (Z.lor (Z.lor (Z.lor (Z.lor SOF_Q_FOUND SOF_ECC_FOUND) SOF_TPERIH_FOUND) SOF_INCL_FOUND) SOF_ASC_NODE_FOUND) SOF_ARG_PERIH_FOUND.

(** What extract_sof_data_ex( ) sets: members of *elem, extra_info[0..3], fields_found. *)
Record sof : Type := mk_sof {
  perih_time : Q; epoch : Q; q_ : Q; ecc : Q; incl : R; asc_node : R; arg_per : R; abs_mag : Q; slope_param : Q;
  central_obj : Z; gm : R; first_obs : Q; last_obs : Q; written : Q; rms : Q; found : Z }.

(** 82-87 *)
Definition sof0 : sof := mk_sof 0 0 0 0 0%R 0%R 0%R 0 (15 # 100) 0 SOLAR_GM 0 0 0 0 0.

(** Assignments, with the bit [b] added to fields_found *)
Definition set_perih (s : sof) (v : Q) (b : Z) := mk_sof v (epoch s) (q_ s) (ecc s) (incl s) (asc_node s) (arg_per s) (abs_mag s) (slope_param s) (central_obj s) (gm s) (first_obs s) (last_obs s) (written s) (rms s) (Z.lor (found s) b).
Definition set_epoch (s : sof) (v : Q) (b : Z) := mk_sof (perih_time s) v (q_ s) (ecc s) (incl s) (asc_node s) (arg_per s) (abs_mag s) (slope_param s) (central_obj s) (gm s) (first_obs s) (last_obs s) (written s) (rms s) (Z.lor (found s) b).
Definition set_q (s : sof) (v : Q) (b : Z) := mk_sof (perih_time s) (epoch s) v (ecc s) (incl s) (asc_node s) (arg_per s) (abs_mag s) (slope_param s) (central_obj s) (gm s) (first_obs s) (last_obs s) (written s) (rms s) (Z.lor (found s) b).
Definition set_ecc (s : sof) (v : Q) (b : Z) := mk_sof (perih_time s) (epoch s) (q_ s) v (incl s) (asc_node s) (arg_per s) (abs_mag s) (slope_param s) (central_obj s) (gm s) (first_obs s) (last_obs s) (written s) (rms s) (Z.lor (found s) b).
Definition set_incl (s : sof) (v : R) (b : Z) := mk_sof (perih_time s) (epoch s) (q_ s) (ecc s) v (asc_node s) (arg_per s) (abs_mag s) (slope_param s) (central_obj s) (gm s) (first_obs s) (last_obs s) (written s) (rms s) (Z.lor (found s) b).
Definition set_node (s : sof) (v : R) (b : Z) := mk_sof (perih_time s) (epoch s) (q_ s) (ecc s) (incl s) v (arg_per s) (abs_mag s) (slope_param s) (central_obj s) (gm s) (first_obs s) (last_obs s) (written s) (rms s) (Z.lor (found s) b).
Definition set_argp (s : sof) (v : R) (b : Z) := mk_sof (perih_time s) (epoch s) (q_ s) (ecc s) (incl s) (asc_node s) v (abs_mag s) (slope_param s) (central_obj s) (gm s) (first_obs s) (last_obs s) (written s) (rms s) (Z.lor (found s) b).
Definition set_mag (s : sof) (v : Q) (b : Z) := mk_sof (perih_time s) (epoch s) (q_ s) (ecc s) (incl s) (asc_node s) (arg_per s) v (slope_param s) (central_obj s) (gm s) (first_obs s) (last_obs s) (written s) (rms s) (Z.lor (found s) b).
Definition set_slope (s : sof) (v : Q) (b : Z) := mk_sof (perih_time s) (epoch s) (q_ s) (ecc s) (incl s) (asc_node s) (arg_per s) (abs_mag s) v (central_obj s) (gm s) (first_obs s) (last_obs s) (written s) (rms s) (Z.lor (found s) b).
Definition set_central (s : sof) (v : Z) (g : R) := mk_sof (perih_time s) (epoch s) (q_ s) (ecc s) (incl s) (asc_node s) (arg_per s) (abs_mag s) (slope_param s) v g (first_obs s) (last_obs s) (written s) (rms s) (found s).
Definition set_first (s : sof) (v : Q) (b : Z) := mk_sof (perih_time s) (epoch s) (q_ s) (ecc s) (incl s) (asc_node s) (arg_per s) (abs_mag s) (slope_param s) (central_obj s) (gm s) v (last_obs s) (written s) (rms s) (Z.lor (found s) b).
Definition set_last (s : sof) (v : Q) (b : Z) := mk_sof (perih_time s) (epoch s) (q_ s) (ecc s) (incl s) (asc_node s) (arg_per s) (abs_mag s) (slope_param s) (central_obj s) (gm s) (first_obs s) v (written s) (rms s) (Z.lor (found s) b).
Definition set_written (s : sof) (v : Q) (b : Z) := mk_sof (perih_time s) (epoch s) (q_ s) (ecc s) (incl s) (asc_node s) (arg_per s) (abs_mag s) (slope_param s) (central_obj s) (gm s) (first_obs s) (last_obs s) v (rms s) (Z.lor (found s) b).
Definition set_rms (s : sof) (v : Q) := mk_sof (perih_time s) (epoch s) (q_ s) (ecc s) (incl s) (asc_node s) (arg_per s) (abs_mag s) (slope_param s) (central_obj s) (gm s) (first_obs s) (last_obs s) (written s) v (found s).

(** atof( tbuff) * PI / 180. *)
Definition degrees (v : Q) : R := (Q2R v * PI / 180)%R.
(** atoi( ): a value that does not fit is undefined behaviour *)
Definition atoi (s : list Z) : outcome Z := do r <- scan_d IMAX s; Ret (match r with Some (v, _) => v | None => 0 end).

(** 100-137: a one-letter name *)
Definition one_letter (h0 : Z) (tbuff : list Z) (s : sof) : outcome sof :=
  if h0 =? 113 then do v <- atof tbuff; Ret (set_q s v SOF_Q_FOUND)
  else if h0 =? 101 then do v <- atof tbuff; Ret (set_ecc s v SOF_ECC_FOUND)
  else if h0 =? 105 then do v <- atof tbuff; Ret (set_incl s (degrees v) SOF_INCL_FOUND)
  else if h0 =? 79 then do v <- atof tbuff; Ret (set_node s (degrees v) SOF_ASC_NODE_FOUND)
  else if h0 =? 111 then do v <- atof tbuff; Ret (set_argp s (degrees v) SOF_ARG_PERIH_FOUND)
  else if h0 =? 72 then do v <- atof tbuff; Ret (set_mag s v SOF_ABS_MAG_FOUND)
  else if h0 =? 71 then do v <- atof tbuff; Ret (set_slope s v SOF_SLOPE_PARAM_FOUND)
  else if h0 =? 67 then do v <- atoi tbuff; Ret (set_central s v (if 3 =? v then (gm s * MASS_EARTH)%R else gm s))
  else Ret s.

(** 138-180: a longer name; [ex] says that extra_info is not null *)
Definition longer_name (L : Z) (ex : bool) (h0 h1 : Z) (tbuff : list Z) (s : sof) : outcome sof :=
  if h0 =? 84 then
    do jd <- extract_yyyymmdd_to_jd L tbuff;
    Ret (if h1 =? 112 then set_perih s jd SOF_TPERIH_FOUND
         else if h1 =? 101 then set_epoch s jd SOF_TEPOCH_FOUND
         else if ex then
           if h1 =? 119 then set_written s jd SOF_TWRITTEN_FOUND
           else if h1 =? 102 then set_first s jd SOF_TFIRST_FOUND
           else if h1 =? 108 then set_last s jd SOF_TLAST_FOUND
           else s
         else s)
  else if h0 =? 79 then do v <- atof tbuff; Ret (set_node s (degrees v) SOF_ASC_NODE_FOUND)
  else if h0 =? 111 then do v <- atof tbuff; Ret (set_argp s (degrees v) SOF_ARG_PERIH_FOUND)
  else Ret s.

(** 99-182: one column; [header] is the header from its name on *)
Definition column (L : Z) (ex : bool) (header tbuff : list Z) (s : sof) : outcome sof :=
  let h0 := chr header 0 in let h1 := chr header 1 in
  do s <- (if h1 =? 32 then one_letter h0 tbuff s else longer_name L ex h0 h1 tbuff s);
  if (prefix (zs "rms") header && ex)%bool then do v <- atof tbuff; Ret (set_rms s v) else Ret s.

(** 93-94: the length of a name *)
Fixpoint name_length (header : list Z) : nat :=
  match header with
  | [] => O
  | c :: r => if (32 <=? schar c) && negb (c =? 124) then S (name_length r) else O
  end.

(** 88-187: the columns.  None is the return of -1 from within. *)
Fixpoint columns (fuel : nat) (L : Z) (ex : bool) (header buff : list Z) (s : sof) : outcome (option sof) :=
  if negb (32 <=? schar (chr header 0)) then Ret (Some s)
  else match fuel with
  | O => Fuel
  | S f =>
      let i := name_length header in
      if ((i <? 2) || (80 <=? i))%nat then Ret None
      else
        do _ <- (if (i <=? List.length buff)%nat then Ret tt else UB);
        let tbuff := firstn i buff in
        do s <- column L ex header tbuff s;
        let i := if chr header i =? 124 then S i else i in
        do _ <- (if (i <=? List.length buff)%nat then Ret tt else UB);
        columns f L ex (skipn i header) (skipn i buff) s
  end.

(** The members of ELEMENTS derive_quantities( ) uses; the others are 0 (82). *)
Definition as_elements (s : sof) : OrbModel.elements :=
  OrbModel.mk_elements (Q2R (perih_time s)) (Q2R (q_ s)) (Q2R (ecc s)) (incl s) (arg_per s) (asc_node s) 0
    0 0 (0, 0, 0)%R (0, 0, 0)%R 0 0 0 0 (gm s).

(** 75-199 [extract_sof_data_ex]: the value returned, what was set, and the elements with what
    derive_quantities( ) adds.  (What is set before a return of -1 from within is left out.) *)
Definition extract_sof_data_ex (L : Z) (ex : bool) (buff header : list Z) : outcome (Z * option (sof * OrbModel.elements)) :=
  do r <- columns (S (List.length header)) L ex header buff sof0;
  match r with
  | None => Ret (-1, None)
  | Some s =>
      if Z.land (found s) MIN_FIELDS_NEEDED =? MIN_FIELDS_NEEDED then
        do e <- OrbModel.derive_quantities (as_elements s) (gm s);
        Ret (0, Some (s, e))
      else Ret (-1, None)
  end.

(** 201-204 [extract_sof_data] *)
Definition extract_sof_data (L : Z) (buff header : list Z) : outcome (Z * option (sof * OrbModel.elements)) :=
  extract_sof_data_ex L false buff header.
