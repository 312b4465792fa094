(** Model of marstime.cpp over the reals (pi is the real number, not its
    approximation). *)
From Verif Require Import RBase.
Open Scope list_scope.

(** marstime.cpp:46-48. *)
Definition days_per_sol : R := 10274912517 / 10000000000.
Definition zero_sol_point : R := 44796 - 9626 / 10000000.
Definition zero_jd_point : R := 24515495 / 10.

(** marstime.cpp:55-59 [tt_to_mtc]. *)
Definition tt_to_mtc (jd : R) : R := (jd - zero_jd_point) / days_per_sol + zero_sol_point.

(** marstime.cpp:61-65 [mtc_to_tt]. *)
Definition mtc_to_tt (mtc : R) : R := (mtc - zero_sol_point) * days_per_sol + zero_jd_point.

(** marstime.cpp:77. *)
Definition D2R : R := PI / 180.

(** marstime.cpp:83-92, the tables amplit, freq, phase of the perturbations. *)
Definition tconst : R := 2 * PI / (36525 / 100).
Definition perturbers : list (R * R * R) :=
  [ (71 / 10000 * D2R, tconst / (22353 / 10000), 49409 / 1000 * D2R);
    (57 / 10000 * D2R, tconst / (27543 / 10000), 168173 / 1000 * D2R);
    (39 / 10000 * D2R, tconst / (11177 / 10000), 191837 / 1000 * D2R);
    (37 / 10000 * D2R, tconst / (157866 / 10000), 21736 / 1000 * D2R);
    (21 / 10000 * D2R, tconst / (21354 / 10000), 15704 / 1000 * D2R);
    (20 / 10000 * D2R, tconst / (24694 / 10000), 95528 / 1000 * D2R);
    (18 / 10000 * D2R, tconst / (328493 / 10000), 49095 / 1000 * D2R)].

(** marstime.cpp:71-121 [mars_true_solar_minus_mean_solar_time] (IGNORE_PERTURBERS
    not defined). *)
Definition mars_true_solar_minus_mean_solar_time (jd : R) : R :=
  let jd_2000 := 2451545 in
  let t := jd - jd_2000 in
  let mars_mean_anom := 193871 / 10000 * D2R + 52402073 / 100000000 * D2R * t in
  let a_fms := 2703871 / 10000 * D2R + 524038496 / 1000000000 * D2R * t in
  let v_minus_m :=
    (10691 / 1000 * D2R + 3 / 10000000 * D2R * t) * sin mars_mean_anom
    + 623 / 1000 * D2R * sin (2 * mars_mean_anom)
    + 50 / 1000 * D2R * sin (3 * mars_mean_anom)
    + 5 / 1000 * D2R * sin (4 * mars_mean_anom)
    + 5 / 10000 * D2R * sin (5 * mars_mean_anom) in
  let pbs := fold_left (fun pbs p => let '(amplit, freq, phase) := p in pbs + amplit * cos (freq * t + phase)) perturbers 0 in
  let v_minus_m := v_minus_m + pbs in
  let longitude_sun := a_fms + v_minus_m in
  (2861 / 1000 / 360) * sin (2 * longitude_sun)
  - (71 / 1000 / 360) * sin (4 * longitude_sun)
  + (2 / 1000 / 360) * sin (6 * longitude_sun)
  - v_minus_m / (2 * PI).

(** marstime.cpp:137-151 [mtst_at_airy_to_tt]; [iter] counts down from 2. *)
Fixpoint mtst_loop (iter : nat) (approx_tt rval : R) : R :=
  match iter with
  | O => rval
  | S n => let eqn_of_time := mars_true_solar_minus_mean_solar_time rval in
           mtst_loop n approx_tt (approx_tt - eqn_of_time * days_per_sol)
  end.
Definition mtst_at_airy_to_tt (mtst : R) : R :=
  let approx_tt := mtc_to_tt mtst in mtst_loop 2 approx_tt approx_tt.
