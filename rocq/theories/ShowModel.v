(** showelem.cpp: of the eight lines of elements, the time of perihelion, the epoch, and distances.

    Numbers are exact rationals; a text is given by its bytes before the terminator. *)
From Coq Require Import QArith Qround String.
From Verif Require Import CBase CStr DateModel TstrModel CtimeModel.
Import ListNotations.
Local Open Scope string_scope.
Local Open Scope list_scope.
Local Open Scope Z_scope.

(** "%[w].[p]f" *)
Definition wide (w : nat) (s : list Z) : list Z := repeat 32 (w - List.length s) ++ s.
(** afuncs.h:33 *)
Definition AU_IN_KM : Q := 1495978707 # 10.

(** showelem.cpp:60-71 [decimal_day_to_dmy]: the day with its fraction, month, year.  [L] is LONG_MAX; [fuel] and [ic] are
    the bound on day_to_dmy( )'s search and the static variable of C01. *)
Definition decimal_day_to_dmy (L : Z) (fuel : nat) (ic : Z) (jd : Q) (calendar : Z) : outcome (Q * Z * Z) :=
  let jd := (jd + (1 # 2))%Q in
  let floor_jd := Qfloor jd in
  if (- L - 1 <=? floor_jd) && (floor_jd <=? L) then
    do '(day, month, year, _) <- day_to_dmy_st L fuel ic 0 floor_jd calendar;
    Ret ((inject_Z day + jd - inject_Z floor_jd)%Q, month, year)
  else UB.

(** showelem.cpp:167-173 *)
Definition perinames : list (list Z) :=
  [zs "barion"; zs "helion"; zs "mercury"; zs "venus"; zs "gee"; zs "mars"; zs "jove"; zs "saturn"; zs "uranus"; zs "neptune"; zs "pluto"; zs "lune"].
Definition pericenter_name (central_obj : Z) : outcome (list Z) :=
  if (-1 <=? central_obj) && (central_obj <? 11) then nth_ub perinames (central_obj + 1) else Ret (zs "----").
(** showelem.cpp:164-179: the line with the time of perihelion, if there is one; [room] is endptr - obuff.
    SHOWELEM_PERIH_TIME_MASK is taken not to be set. *)
Definition peri_line (L : Z) (fuel : nat) (ic : Z) (room : nat) (central_obj : Z) (perih_time : Q) (precision : nat) : outcome (option (list Z)) :=
  if negb (Qle_bool perih_time 2) && negb (Qle_bool 3000000 perih_time) then
    do name <- pericenter_name central_obj;
    do '(dday, month, year) <- decimal_day_to_dmy L fuel ic perih_time CALENDAR_JULIAN_GREGORIAN;
    do n <- month_name month;
    do s <- fit room (zs "   Peri" ++ name ++ [32] ++ dec year ++ [32] ++ n ++ [32] ++ fixed precision dday ++ zs " TT");
    Ret (Some s)
  else Ret None.

(** showelem.cpp:198-199: how many zeroes there are at the end, five at most; [s] backwards *)
Fixpoint zeroes (n : nat) (s : list Z) : nat :=
  match n, s with
  | S n, c :: t => if c =? 48 then S (zeroes n t) else O
  | _, _ => O
  end.
(** showelem.cpp:193-203: the line with the epoch *)
Definition epoch_line (L : Z) (fuel : nat) (ic : Z) (room : nat) (epoch : Q) : outcome (list Z) :=
  do '(dday, month, year) <- decimal_day_to_dmy L fuel ic epoch CALENDAR_JULIAN_GREGORIAN;
  do n <- month_name month;
  do s <- fit room (zs "Epoch " ++ padsp 4 year ++ [32] ++ n ++ [32] ++ wide 9 (fixed 6 (dday + (1 # 10000000))%Q) ++ zs " TT = JDT " ++ fixed 6 (epoch + (1 # 10000000))%Q);
  let i := zeroes 5 (rev s) in
  let s := firstn (List.length s - i) s in
  match strstr s (zs " TT =") with
  | None => UB
  | Some p => if (i <=? p)%nat then Ret (firstn (p - i) s ++ skipn p s) else UB
  end.

(** showelem.cpp:117-119: how many blanks there are, and then how many bytes before the point *)
Fixpoint blanks (s : list Z) : nat := match s with c :: t => if c =? 32 then S (blanks t) else O | [] => O end.
Fixpoint before_point (s : list Z) : outcome nat :=
  match s with [] => UB | c :: t => if c =? 46 then Ret O else do n <- before_point t; Ret (S n) end.
(** A text of [s] and its terminator in [room] bytes, [size] being given as their number *)
Definition put (room size : nat) (s : list Z) : outcome (list Z) :=
  if (List.length s <? size)%nat then if (List.length s <? room)%nat then Ret s else UB else Abort.
(** showelem.cpp:102-127: for a number that is not negative *)
Definition positive_dist (room size : nat) (dist_in_au : Q) (precision : nat) : outcome (list Z) :=
  if negb (Qle_bool dist_in_au 999999) then put room size (zs " <HUGE>")
  else
    let in_km := Qle_bool dist_in_au (999999 / AU_IN_KM) in
    do s <- put room size (if negb (Qle_bool dist_in_au 9999) then wide 23 (fixed 15 dist_in_au)
                           else if in_km then wide 23 (fixed 16 (dist_in_au * AU_IN_KM))
                           else wide 23 (fixed 18 dist_in_au));
    let i := blanks s in
    do n_digits <- before_point (skipn i s);
    let i := (i + n_digits + 1)%nat in
    let e := if (n_digits <? precision + 4)%nat then (i + (precision + 4 - n_digits))%nat else (i - 1)%nat in
    if (e <? room)%nat then
      let s := firstn e s in
      if in_km then put room size (s ++ zs "km") else Ret s
    else UB.
(** showelem.cpp:89-128 [show_formatted_dist]: the text in an array of [room] bytes whose size is given as [size]; the size
    is not changed behind a minus sign (96-97). *)
Definition show_formatted_dist (room size : nat) (dist_in_au : Q) (precision : nat) : outcome (list Z) :=
  if Qle_bool 0 dist_in_au then positive_dist room size dist_in_au precision
  else match room with
       | O => UB
       | S room => do s <- positive_dist room size (- dist_in_au)%Q precision; Ret (45 :: s)
       end.
