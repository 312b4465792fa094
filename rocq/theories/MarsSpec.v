(** Specification for C41. *)
From Verif Require Import RBase MarsModel.

(** Mars true solar time at Airy: the mean time and the equation of time
    (marstime.cpp:165-171). *)
Definition true_solar_time (jd : R) : R := tt_to_mtc jd + mars_true_solar_minus_mean_solar_time jd.

(** The dates less than a million days (2700 years) from J2000. *)
Definition near_2000 (jd : R) : Prop := Rabs (jd - 2451545) < 1000000.

(** The published algorithm (Mars24: equations B-1 to B-5 and C-1, cited at
    marstime.cpp:21), all angles in degrees; dt is in days from J2000. *)
Definition sind (x : R) : R := sin (x * (PI / 180)).
Definition cosd (x : R) : R := cos (x * (PI / 180)).
Definition mean_anomaly (dt : R) : R := 19.3871 + 0.52402073 * dt.
Definition fictitious_mean_sun (dt : R) : R := 270.3871 + 0.524038496 * dt.
Definition perturbations (dt : R) : R :=
  0.0071 * cosd (360 / 365.25 * dt / 2.2353 + 49.409) +
  0.0057 * cosd (360 / 365.25 * dt / 2.7543 + 168.173) +
  0.0039 * cosd (360 / 365.25 * dt / 1.1177 + 191.837) +
  0.0037 * cosd (360 / 365.25 * dt / 15.7866 + 21.736) +
  0.0021 * cosd (360 / 365.25 * dt / 2.1354 + 15.704) +
  0.0020 * cosd (360 / 365.25 * dt / 2.4694 + 95.528) +
  0.0018 * cosd (360 / 365.25 * dt / 32.8493 + 49.095).
Definition equation_of_centre (dt : R) : R :=
  let m := mean_anomaly dt in
  (10.691 + 0.0000003 * dt) * sind m + 0.623 * sind (2 * m) + 0.050 * sind (3 * m) + 0.005 * sind (4 * m) + 0.0005 * sind (5 * m)
  + perturbations dt.
Definition equation_of_time (dt : R) : R :=
  let ls := fictitious_mean_sun dt + equation_of_centre dt in
  2.861 * sind (2 * ls) - 0.071 * sind (4 * ls) + 0.002 * sind (6 * ls) - equation_of_centre dt.
