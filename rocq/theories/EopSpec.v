(** Independent description of the IERS files of Earth orientation parameters ("finals") and of what is to be had from
    them.  Nothing here refers to the model of eop_prec.cpp. *)
From Coq Require Import QArith Qreals Reals String.
From Verif Require Import CBase CStr TstrSpec DtSpec.
Import ListNotations.
Local Open Scope string_scope.
Local Open Scope list_scope.
Local Open Scope Z_scope.

(** One day of the file: modified Julian day; is it observed ('I') or predicted ('P'); the pole in arcseconds;
    UT1 - UTC in seconds; the corrections to the nutation in milliarcseconds, if the file has them for that day. *)
Record day := mk_day { mjd : Z; is_observed : bool; pole_x : Q; pole_y : Q; ut1_utc : Q; nutation : option (Q * Q) }.

(** A number at the right of a field of [w] columns *)
Definition field (w : nat) (t : list Z) (q : Q) : Prop :=
  exists i n, t = repeat 32 i ++ n /\ signed_number n q /\ List.length t = w.
(** [w] columns of which the first is blank *)
Definition gap (w : nat) (t : list Z) : Prop := List.length t = w /\ hd 0 t = 32.
(** Columns that make up one line with its newline: 188 bytes *)
Definition a_line (t : list Z) : Prop := exists u, t = u ++ [10] /\ List.length t = 188%nat /\ ~ In 0 u /\ ~ In 10 u.

(** Columns 1-7 year, month and day; 8-12 the modified Julian day, ".00"; 17 the flag; 19-27 and 38-46 the pole;
    59-68 UT1 - UTC; 96 the flag of the nutation, 98-106 and 117-125 its corrections *)
Definition day_line (d : day) (t : list Z) : Prop :=
  a_line t /\ exists date m x g1 y g2 u g3 n,
    t = date ++ m ++ zs ".00 " ++ [if is_observed d then 73 else 80] ++ zs " " ++ x ++ g1 ++ y ++ g2 ++ u ++ g3 ++ n /\
    List.length date = 7%nat /\ digits_of m (mjd d) /\ List.length m = 5%nat /\
    field 9 x (pole_x d) /\ nth 2 x 0 = 46 /\ gap 10 g1 /\ field 9 y (pole_y d) /\ gap 12 g2 /\
    field 10 u (ut1_utc d) /\ gap 27 g3 /\
    match nutation d with
    | None => hd 0 n = 32
    | Some (psi, eps) => exists c c' a h b r, n = c :: c' :: a ++ h ++ b ++ r /\ c <> 32 /\
        field 9 a psi /\ gap 10 h /\ field 9 b eps /\ hd 0 r = 32
    end.
(** A day without values *)
Definition empty_line (m : Z) (t : list Z) : Prop :=
  a_line t /\ exists date d r, t = date ++ d ++ zs ".00 " ++ r /\ List.length date = 7%nat /\ digits_of d m /\
    List.length d = 5%nat /\ hd 0 r = 32.

(** Day after day; the days with nutation come first; the first day is an observed one *)
Definition consecutive (days : list day) : Prop :=
  forall k d d', nth_error days k = Some d -> nth_error days (S k) = Some d' -> mjd d' = mjd d + 1.
Definition nutation_days (days : list day) (m : nat) : Prop :=
  (m <= List.length days)%nat /\ forall k d, nth_error days k = Some d -> (nutation d <> None <-> (k < m)%nat).
Definition calendar (days : list day) (m0 : Z) : Prop :=
  consecutive days /\ exists d, nth_error days 0 = Some d /\ mjd d = m0 /\ is_observed d = true.
(** The days, a line each, then [tail] *)
Definition file_of (days : list day) (tail file : list Z) : Prop :=
  exists lines, Forall2 day_line days lines /\ file = concat lines ++ tail.
(** The last observed day *)
Fixpoint last_observed (days : list day) : option Z :=
  match days with
  | [] => None
  | d :: r => match last_observed r with Some m => Some m | None => if is_observed d then Some (mjd d) else None end
  end.

(** TAI - UTC in whole seconds on each day, as UT1 - UTC shows it: from one day to the next UT1 - TAI changes by less
    than half a second *)
Definition leap_seconds (days : list day) (tai_utc : nat -> Z) : Prop :=
  forall k d d', nth_error days k = Some d -> nth_error days (S k) = Some d' ->
    (Qabs.Qabs ((inject_Z (tai_utc (S k)) - ut1_utc d') - (inject_Z (tai_utc k) - ut1_utc d)) < 1 # 2)%Q.

(** The five parameters on a day: the pole in radians, TT - UT1 in seconds, the nutation in radians *)
Definition arcsec : R := (PI / 648000)%R.
Definition on_day (days : list day) (tai_utc : nat -> Z) (i k : nat) : R :=
  match nth_error days k with
  | None => 0
  | Some d => match i with
              | 0%nat => Q2R (pole_x d) * arcsec
              | 1%nat => Q2R (pole_y d) * arcsec
              | 2%nat => Q2R ((32184 # 1000) + inject_Z (tai_utc k) - ut1_utc d)
              | 3%nat => Q2R (match nutation d with Some (psi, _) => psi | None => 0 end) / 1000 * arcsec
              | _ => Q2R (match nutation d with Some (_, eps) => eps | None => 0 end) / 1000 * arcsec
              end
  end%R.

(** Between day k and the next, at the fraction t: the cubic with the values of the two days and, at each of them, the
    slope between its two neighbours *)
Definition between (v : nat -> R) (k : nat) (t r : R) : Prop :=
  (exists a b c, r = v k + c * t + b * t ^ 2 + a * t ^ 3 /\ a + b + c = v (k + 1)%nat - v k /\
    c = (v (k + 1)%nat - v (k - 1)%nat) / 2 /\ 3 * a + 2 * b + c = (v (k + 2)%nat - v k) / 2)%R.

(** The ranges that the library takes for granted *)
Definition usual (p : nat -> R) : Prop :=
  (- (28 / 100) * arcsec < p 0%nat < 36 / 100 * arcsec /\ - (3 / 100) * arcsec < p 1%nat < 61 / 100 * arcsec /\
   - (130 / 1000) * arcsec < p 3%nat < 55 / 1000 * arcsec /\ - (18 / 1000) * arcsec < p 4%nat < 10 / 1000 * arcsec)%R.

(** What a request for the parameters in the bits of [mask] is to give for the time [K] + [t] days after the first
    day, if [count i] days have the parameter i: a value for every parameter whose two days before and two days after
    are there, zero and a bit for the others, zero for what was not asked for. *)
Definition answer (v : nat -> nat -> R) (count : nat -> Z) (mask K : Z) (t : R) (rval : Z) (p : nat -> R) : Prop :=
  0 <= rval < 32 /\
  forall i, (i < 5)%nat ->
    if Z.testbit mask (Z.of_nat i) then
      if (1 <=? K) && (K <=? count i - 3) then Z.testbit rval (Z.of_nat i) = false /\ between (v i) (Z.to_nat K) t (p i)
      else Z.testbit rval (Z.of_nat i) = true /\ p i = 0%R
    else Z.testbit rval (Z.of_nat i) = false /\ p i = 0%R.
