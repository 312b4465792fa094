(** Vocabulary of C61: what the elements of a minor planet have to do with its entry in a file. *)
From Coq Require Import QArith Qreals Reals.
From Verif Require Import CBase TrigBase OrbModel OrbSpec MpcoModel MpcoSpec.
Local Open Scope Z_scope.

(** What is to be had from an entry whose epoch is day [jd]: the epoch at 0h; magnitude and slope, 0 if unknown; the
    angles in radians; the perihelion distance; the vectors to the perihelion and a quarter of a turn from it; the
    perihelion that is nearest to the epoch, from which the orbit gets to the mean anomaly of the entry at the epoch. *)
Definition says (o : entry) (jd : Z) (a : asteroid) : Prop :=
  let el := orbit a in let ax := Q2R (axis o) in
  epoch a = (inject_Z jd - (1 # 2))%Q /\
  abs_mag a = match H_mag o with Some h => h | None => 0%Q end /\ slope_param a = match G_slope o with Some g => g | None => 0%Q end /\
  ecc_ el = Q2R (eccentricity o) /\ major_axis el = ax /\ q_ el = (ax * (1 - Q2R (eccentricity o)))%R /\
  incl el = rad (inclination o) /\ arg_per el = rad (peri o) /\ asc_node el = rad (node o) /\ mean_anomaly el = rad (anomaly o) /\
  perih_vec el = to_perihelion (asc_node el) (incl el) (arg_per el) /\ sideways el = to_quarter (asc_node el) (incl el) (arg_per el) /\
  same_direction (daily_motion ax * (Q2R (epoch a) - perih_time el)) (rad (anomaly o)) /\
  (daily_motion ax * Rabs (Q2R (epoch a) - perih_time el) <= PI)%R.
(** An ellipse, not seen edge on, with a mean anomaly between 0 and 360 degrees. *)
Definition usable (o : entry) : Prop :=
  (0 < Q2R (axis o))%R /\ (0 <= Q2R (eccentricity o) < 1)%R /\ cos (rad (inclination o)) <> 0%R /\ (0 <= Q2R (anomaly o) <= 360)%R.
