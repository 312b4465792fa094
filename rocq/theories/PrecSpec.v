(** Specification for C34: the precession rotations, and the histories of calls. *)
From Verif Require Import TrigBase RotSpec PrecModel.
Open Scope list_scope.

(** The angles eta, Pi and p of the IAU 1976 precession, t in Julian centuries from
    2000: polynomials in arcseconds, turned into radians. *)
Definition arcsec (x : R) : R := x * (PI / 648000).
Definition eta (t : R) : R := arcsec (470029 / 10000 * t - 3302 / 100000 * t ^ 2 + 6 / 100000 * t ^ 3).
Definition node (t : R) : R := 174876384 / 1000000 * (PI / 180) - arcsec (8698089 / 10000 * t - 3536 / 100000 * t ^ 2).
Definition general (t : R) : R := arcsec (50290966 / 10000 * t + 111113 / 100000 * t ^ 2 - 6 / 100000 * t ^ 3).

(** From the ecliptic of 2000 to that of the year y: put the node of the two
    ecliptics on the x axis, tilt by eta, and turn back by Pi + p. *)
Definition from_2000 (y : R) : list R :=
  let t := (y - 2000) / 100 in
  mul (turn 0 1 (node t + general t)) (mul (turn 1 2 (- eta t)) (turn 0 1 (- node t))).

(** What the code uses from year a to year b. *)
Definition precession (a b : R) : list R :=
  if Rlt_dec (Rabs (a - b)) (1 / 100000) then ident else mul (tr (from_2000 a)) (from_2000 b).

(** Mean obliquity: Laskar's polynomial within 100 centuries of 2000, its end values
    outside. *)
Definition obliquity_poly (t : R) : R :=
  let u := t / 100 in
  84381448 / 1000 + (- 468093 * u - 155 * u ^ 2 + 199925 * u ^ 3 - 5138 * u ^ 4 - 24967 * u ^ 5 - 3905 * u ^ 6
    + 712 * u ^ 7 + 2787 * u ^ 8 + 579 * u ^ 9 + 245 * u ^ 10) / 100.
Definition obliquity (t : R) : R :=
  if Rlt_dec 100 t then 22611485556 / 10 ^ 9 * PI / 180
  else if Rlt_dec t (- 100) then 24232841111 / 10 ^ 9 * PI / 180
  else arcsec (obliquity_poly t).

(** The angles zeta, z and theta of the IAU 1976 precession and the rotation from the
    mean equator of 2000 to that of the year y. *)
Definition zeta_a (t : R) : R := arcsec (23062181 / 10000 * t + 30188 / 100000 * t ^ 2 + 17998 / 1000000 * t ^ 3).
Definition z_a (t : R) : R := arcsec (23062181 / 10000 * t + 109468 / 100000 * t ^ 2 + 18203 / 1000000 * t ^ 3).
Definition theta_a (t : R) : R := arcsec (20043109 / 10000 * t - 42665 / 100000 * t ^ 2 - 41833 / 1000000 * t ^ 3).
Definition equator_from_2000 (y : R) : list R :=
  let t := (y - 2000) / 100 in
  mul (turn 0 1 (z_a t)) (mul (turn 0 2 (theta_a t)) (turn 0 1 (zeta_a t))).

(** From the mean to the true equator, with the mean obliquity e and the nutation
    dpsi in longitude, de in obliquity: down to the ecliptic, along it by dpsi, up to
    the true equator. *)
Definition nutate (e dpsi de : R) : list R :=
  mul (turn 1 2 (e + de)) (mul (turn 0 1 dpsi) (turn 1 2 (- e))).

(** A call of one of the functions that use the static variables. *)
Inductive step : statics -> statics -> Prop :=
| step_obliquity s t r s' : mean_obliquity s t = (r, s') -> step s s'
| step_ecliptic s m a b r s' : length m = 9%nat -> setup_ecliptic_precession s m a b = Ret (r, s') -> step s s'
| step_equatorial s m a b r s' : length m = 9%nat -> setup_precession s m a b = Ret (r, s') -> step s s'
| step_nutation f s m y dl dobl r s' : length m = 9%nat ->
    setup_precession_with_nutation_delta f s m y dl dobl = Ret (r, s') -> step s s'.

(** Any number of calls. *)
Inductive later (s : statics) : statics -> Prop :=
| later_now : later s s
| later_step s' s'' : later s s' -> step s' s'' -> later s s''.
Definition reachable (s : statics) : Prop := later initial s.

(** The two years the cache is initialised with. *)
Definition sentinel (a b : R) : Prop :=
  (a = SEMIRANDOM_GARBAGE1 /\ b = SEMIRANDOM_GARBAGE2) \/ (a = SEMIRANDOM_GARBAGE2 /\ b = SEMIRANDOM_GARBAGE1).
