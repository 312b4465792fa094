(** C54: from a place and a velocity to orbital elements, and back (classel.cpp, astfuncs.cpp). *)
From Coq Require Import Lia.
From Verif Require Import TrigBase OrbModel OrbSpec OrbProofs OrbKepler OrbSeries OrbNewton OrbThms ClaModel ClaSpec ClaProofs ClaOrbit ClaRun ClaThms.
Local Open Scope R_scope.

(** For every attracting mass, place and velocity that do not fall straight towards or away from it, the elements are those of the one orbit through that place with that velocity: the given state has the perihelion distance, eccentricity, direction of perihelion and pole of the result. (Squares of eccentricities closer to 1 than 1e-14, other than 1 itself, are rounded to 1 by the program and are left out.) On hyperbolas the program stores sideways vector and angular momentum with the opposite sign. *)
Theorem C54_orbit :
forall el r v t angles, 0 < gm_ el -> cross r v <> (0, 0, 0) ->
  let e := length_of (ecc_vector (gm_ el) r v) in (e = 1 \/ 1 / 10 ^ 14 <= Rabs (e * e - 1)) ->
  exists el' n, (forall fuel, (n <= fuel)%nat -> calc_classical_elements fuel el r v t angles = Ret el') /\
    gm_ el' = gm_ el /\ 0 < q_ el' /\ ecc_ el' = e /\ dot (perih_vec el') (perih_vec el') = 1 /\ dot (perih_vec el') (cross r v) = 0 /\
    on_orbit (gm_ el) (q_ el') (ecc_ el') (perih_vec el') (unit_of (cross r v)) r v /\
    (e <= 1 -> sideways el' = cross (unit_of (cross r v)) (perih_vec el') /\ angular_momentum el' = length_of (cross r v)) /\
    (1 < e -> sideways el' = scale (- 1) (cross (unit_of (cross r v)) (perih_vec el')) /\ angular_momentum el' = - length_of (cross r v)).
Proof. exact C54_orbit_proof. Qed.
Print Assumptions C54_orbit.

Example C54_orbit_example : exists el' n, (forall fuel, (n <= fuel)%nat -> calc_classical_elements fuel (mass 1) (1, 0, 0) (0, 3 / 5 * (11 / 10), 4 / 5 * (11 / 10)) 7 true = Ret el') /\ ecc_ el' = 21 / 100.
Proof.
  destruct (speed_example (11 / 10)) as (_ & _ & E). assert (E' : length_of (ecc_vector 1 (1, 0, 0) (0, 3 / 5 * (11 / 10), 4 / 5 * (11 / 10))) = 21 / 100) by (rewrite E, Rabs_right; lra).
  destruct (C54_orbit (mass 1) (1, 0, 0) (0, 3 / 5 * (11 / 10), 4 / 5 * (11 / 10)) 7 true) as (el' & n & R & _ & _ & X & _); [cbn; lra|apply speed_momentum; lra| |].
  - right. cbn [gm_ mass]. rewrite E'. rewrite Rabs_left; lra.
  - exists el', n. split; [exact R|]. rewrite X. exact E'.
Qed.

(** The three angles of the result describe the orbit: turned by argument of the perihelion, inclination and node, the axes point to the perihelion and the pole. The one exception is C54_planar_refuted. *)
Theorem C54_angles :
forall el r v t, 0 < gm_ el -> cross r v <> (0, 0, 0) ->
  let e := length_of (ecc_vector (gm_ el) r v) in (e = 1 \/ 1 / 10 ^ 14 <= Rabs (e * e - 1)) ->
  let '(hx, hy, hz) := cross r v in
  exists el' n, (forall fuel, (n <= fuel)%nat -> calc_classical_elements fuel el r v t true = Ret el') /\
    to_pole (asc_node el') (incl el') (arg_per el') = unit_of (cross r v) /\
    ((hx <> 0 \/ hy <> 0 \/ 0 <= snd (fst (perih_vec el')) * hz) -> to_perihelion (asc_node el') (incl el') (arg_per el') = perih_vec el').
Proof. exact C54_angles_proof. Qed.
Print Assumptions C54_angles.

Example C54_angles_example : exists el' n, (forall fuel, (n <= fuel)%nat -> calc_classical_elements fuel (mass 1) (1, 0, 0) (0, 3 / 5 * (11 / 10), 4 / 5 * (11 / 10)) 7 true = Ret el') /\
  to_perihelion (asc_node el') (incl el') (arg_per el') = perih_vec el'.
Proof.
  destruct (speed_example (11 / 10)) as (M & _ & E). assert (E' : length_of (ecc_vector 1 (1, 0, 0) (0, 3 / 5 * (11 / 10), 4 / 5 * (11 / 10))) = 21 / 100) by (rewrite E, Rabs_right; lra).
  pose proof (C54_angles (mass 1) (1, 0, 0) (0, 3 / 5 * (11 / 10), 4 / 5 * (11 / 10)) 7 ltac:(cbn; lra) (speed_momentum (11 / 10) ltac:(lra))) as T. cbv zeta in T. cbn [gm_ mass] in T. rewrite E' in T. change (cross (1, 0, 0) (0, 3 / 5 * (11 / 10), 4 / 5 * (11 / 10))) with (momentum (1, 0, 0) (0, 3 / 5 * (11 / 10), 4 / 5 * (11 / 10))) in T. rewrite M in T.
  destruct T as (el' & n & R & _ & X); [right; rewrite Rabs_left; lra|]. exists el', n. split; [exact R|]. apply X. right. left. lra.
Qed.

(** Finding: for an orbit lying exactly in the plane of reference, with its perihelion after the half turn from the x axis (in the sense of motion), the argument of the perihelion is wrong. The sign of the argument is taken from the z component of the direction of the perihelion, which is zero (classel.cpp:212): the angles describe a perihelion mirrored in the x axis. *)
Theorem C54_planar_refuted :
forall el r v t, 0 < gm_ el -> cross r v <> (0, 0, 0) ->
  let e := length_of (ecc_vector (gm_ el) r v) in (e = 1 \/ 1 / 10 ^ 14 <= Rabs (e * e - 1)) ->
  let '(hx, hy, hz) := cross r v in hx = 0 -> hy = 0 ->
  exists el' n, (forall fuel, (n <= fuel)%nat -> calc_classical_elements fuel el r v t true = Ret el') /\
    let '(px, py, pz) := perih_vec el' in
    (py * hz < 0 -> pz = 0 /\ to_perihelion (asc_node el') (incl el') (arg_per el') = (px, - py, pz) /\ to_perihelion (asc_node el') (incl el') (arg_per el') <> perih_vec el').
Proof. exact C54_planar_refuted_proof. Qed.
Print Assumptions C54_planar_refuted.

Example C54_planar_example : let r := (0, -1, 0) in let v := (11 / 10, 0, 0) in cross r v = (0, 0, 11 / 10) /\ ecc_vector 1 r v = (0, - (21 / 100), 0).
Proof.
  cbv zeta. split; [unfold cross; f_equal; [f_equal|]; field|]. unfold ecc_vector, length_of, dot, cross, plus, scale. replace (0 * 0 + -1 * -1 + 0 * 0) with 1 by ring. rewrite sqrt_1. f_equal; [f_equal|]; field.
Qed.

(** Finding: the step of calc_classical_elements that is to remove what rounding left of the eccentricity vector outside the orbital plane (classel.cpp:141-143) divides by the length of the angular momentum where its square is needed. What is left outside the plane is multiplied by 1 - h instead of by 0, which makes it larger when h is above 2. *)
Theorem C54_flatten_refuted :
forall e h, h <> (0, 0, 0) -> exists e', flatten e h (length_of h) = Ret e' /\ dot e' h = (1 - length_of h) * dot e h.
Proof. exact C54_flatten_refuted_proof. Qed.
Print Assumptions C54_flatten_refuted.

Example C54_flatten_example : exists e', flatten (1, 0, 1) (0, 0, 5) (length_of (0, 0, 5)) = Ret e' /\ dot e' (0, 0, 5) = - (20).
Proof.
  destruct (C54_flatten_refuted (1, 0, 1) (0, 0, 5)) as (e' & R & D); [intros H; injection H as H; lra|]. exists e'. split; [exact R|]. rewrite D. unfold length_of, dot. replace (0 * 0 + 0 * 0 + 5 * 5) with (5 * 5) by ring. rewrite sqrt_square by lra. ring.
Qed.

(** Kepler's equation holds between the place on the ellipse and the time since the reported time of perihelion. *)
Theorem C54_ellipse_time :
forall el r v t angles, 0 < gm_ el -> cross r v <> (0, 0, 0) ->
  let e := length_of (ecc_vector (gm_ el) r v) in e < 1 -> 1 / 10 ^ 14 <= Rabs (e * e - 1) ->
  exists el' n E, (forall fuel, (n <= fuel)%nat -> calc_classical_elements fuel el r v t angles = Ret el') /\
    let a := q_ el' / (1 - ecc_ el') in
    - PI < E <= PI /\ r = at_point (perih_vec el') (sideways el') (ellipse (q_ el') (ecc_ el') E) /\
    Rabs (sqrt (gm_ el / (a * a * a)) * (t - perih_time el') - (E - ecc_ el' * sin E)) <= 4 / 10 ^ 30.
Proof. exact C54_ellipse_time_proof. Qed.
Print Assumptions C54_ellipse_time.

Example C54_ellipse_time_example : let e := length_of (ecc_vector 1 (1, 0, 0) (0, 3 / 5 * (1 / 2), 4 / 5 * (1 / 2))) in e < 1 /\ 1 / 10 ^ 14 <= Rabs (e * e - 1) /\ e = 3 / 4.
Proof.
  destruct (speed_example (1 / 2)) as (_ & _ & E). cbv zeta. rewrite E. rewrite (Rabs_left (1 / 2 * (1 / 2) - 1)) by lra. split; [lra|]. split; [rewrite Rabs_left; lra|lra].
Qed.

(** The same for hyperbolas, up to the program's tolerance in summing the series it uses for eccentricities within 1e-5 of 1. *)
Theorem C54_hyperbola_time :
forall el r v t angles, 0 < gm_ el -> cross r v <> (0, 0, 0) ->
  let e := length_of (ecc_vector (gm_ el) r v) in 1 < e -> 1 / 10 ^ 14 <= Rabs (e * e - 1) ->
  exists el' n H, (forall fuel, (n <= fuel)%nat -> calc_classical_elements fuel el r v t angles = Ret el') /\
    let a := q_ el' / (ecc_ el' - 1) in
    r = at_point (perih_vec el') (cross (unit_of (cross r v)) (perih_vec el')) (hyperbola (q_ el') (ecc_ el') H) /\
    Rabs (sqrt (gm_ el / (a * a * a)) * (t - perih_time el') - (ecc_ el' * sinh H - H)) <= ecc_ el' * Rabs H * cosh H / 10 ^ 30 /\
    (100001 / 100000 <= ecc_ el' -> sqrt (gm_ el / (a * a * a)) * (t - perih_time el') = ecc_ el' * sinh H - H).
Proof. exact C54_hyperbola_time_proof. Qed.
Print Assumptions C54_hyperbola_time.

Example C54_hyperbola_time_example : let e := length_of (ecc_vector 1 (1, 0, 0) (0, 3 / 5 * 2, 4 / 5 * 2)) in 1 < e /\ 1 / 10 ^ 14 <= Rabs (e * e - 1) /\ e = 3.
Proof.
  destruct (speed_example 2) as (_ & _ & E). cbv zeta. rewrite E. rewrite (Rabs_right (2 * 2 - 1)) by lra. split; [lra|]. split; [rewrite Rabs_right; lra|lra].
Qed.

(** On a parabola the place and velocity that comet_posn_and_vel computes from the elements, for the time they were found for, are exactly the given ones; and at every other time the place is on the same parabola, with Barker's equation for the time. *)
Theorem C54_parabola_round_trip :
forall el r v t angles, 0 < gm_ el -> cross r v <> (0, 0, 0) ->
  let e := length_of (ecc_vector (gm_ el) r v) in e = 1 ->
  exists el' n, (forall fuel, (n <= fuel)%nat -> calc_classical_elements fuel el r v t angles = Ret el') /\
    (forall fuel, comet_posn_and_vel fuel el' t = Ret (r, length_of r, Some v)) /\
    forall t', let q := q_ el' in exists k v', k + k * k * k / 3 = sqrt (gm_ el / (2 * (q * q * q))) * (t' - perih_time el') /\
      let loc := at_point (perih_vec el') (sideways el') (parabola q k) in
      on_orbit (gm_ el) q 1 (perih_vec el') (unit_of (cross r v)) loc v' /\ forall fuel, comet_posn_and_vel fuel el' t' = Ret (loc, length_of loc, Some v').
Proof. exact C54_parabola_round_trip_proof. Qed.
Print Assumptions C54_parabola_round_trip.

Example C54_parabola_example : let s := sqrt 2 in length_of (ecc_vector 1 (1, 0, 0) (0, 3 / 5 * s, 4 / 5 * s)) = 1.
Proof.
  cbv zeta. destruct (speed_example (sqrt 2)) as (_ & _ & E). rewrite E, sqrt_sqrt by lra. rewrite Rabs_right; lra.
Qed.

(** On an ellipse with eccentricity below 0.9 the place that comet_posn_and_vel computes from the elements, for the time they were found for, is the given one up to the tolerance of the iteration, and the velocity is the one that belongs to it on the same orbit. *)
Theorem C54_ellipse_round_trip :
forall el r v t angles, 0 < gm_ el -> cross r v <> (0, 0, 0) ->
  let e := length_of (ecc_vector (gm_ el) r v) in e < 9 / 10 ->
  exists el' n r' v', (forall fuel, (n <= fuel)%nat -> calc_classical_elements fuel el r v t angles = Ret el') /\
    (forall fuel, (n <= fuel)%nat -> comet_posn_and_vel fuel el' t = Ret (r', length_of r', Some v')) /\
    on_orbit (gm_ el) (q_ el') (ecc_ el') (perih_vec el') (unit_of (cross r v)) r v /\
    on_orbit (gm_ el) (q_ el') (ecc_ el') (perih_vec el') (unit_of (cross r v)) r' v' /\
    let a := q_ el' / (1 - ecc_ el') in length_of (plus r' (scale (- 1) r)) <= a / (1 - ecc_ el') / 10 ^ 24.
Proof. exact C54_ellipse_round_trip_proof. Qed.
Print Assumptions C54_ellipse_round_trip.

Example C54_ellipse_round_trip_example : cross (1, 0, 0) (0, 3 / 5 * (1 / 2), 4 / 5 * (1 / 2)) <> (0, 0, 0) /\ length_of (ecc_vector 1 (1, 0, 0) (0, 3 / 5 * (1 / 2), 4 / 5 * (1 / 2))) = 3 / 4.
Proof.
  split; [apply (speed_momentum (1 / 2)); lra|]. destruct (speed_example (1 / 2)) as (_ & _ & E). rewrite E, Rabs_left; lra.
Qed.

(** At any other time, the place and velocity computed from the elements of an ellipse with eccentricity below 0.9 lie on the orbit of the given state, at the eccentric anomaly given by Kepler's equation (anomalies of exactly an odd multiple of -pi are left out, as in C53_ellipse). *)
Theorem C54_propagate :
forall el r v t angles, 0 < gm_ el -> cross r v <> (0, 0, 0) ->
  let e := length_of (ecc_vector (gm_ el) r v) in e < 9 / 10 ->
  exists el' n, (forall fuel, (n <= fuel)%nat -> calc_classical_elements fuel el r v t angles = Ret el') /\
    forall t', let a := q_ el' / (1 - ecc_ el') in let M := sqrt (gm_ el / (a * a * a)) * (t' - perih_time el') in
    (forall k, (0 <= k)%Z -> M <> - PI * (2 * IZR k + 1)) ->
    exists E r' v' n', Rabs (E - ecc_ el' * sin E - M) <= 1 / 10 ^ 24 /\ r' = at_point (perih_vec el') (sideways el') (ellipse (q_ el') (ecc_ el') E) /\
      cross r' v' = cross r v /\ ecc_vector (gm_ el) r' v' = ecc_vector (gm_ el) r v /\
      forall fuel, (n' <= fuel)%nat -> comet_posn_and_vel fuel el' t' = Ret (r', length_of r', Some v').
Proof. exact C54_propagate_proof. Qed.
Print Assumptions C54_propagate.

Example C54_propagate_example : forall k, (0 <= k)%Z -> let a := 4 / 7 in sqrt (1 / (a * a * a)) * (5 - 3) <> - PI * (2 * IZR k + 1).
Proof.
  intros k K a H. pose proof PI_RGT_0. assert (0 <= IZR k) by (apply IZR_le; lia). match type of H with ?s * _ = _ => assert (0 <= s) by apply sqrt_pos end. nra.
Qed.

(** On hyperbolas, where sideways vector, angular momentum and time scale all have the opposite sign: if the iteration for Kepler's equation ends, place and velocity lie on the orbit of the given state, and the time since perihelion is right. That it always ends is what is missing. *)
Theorem C54_hyperbola_propagate_partial :
forall el r v t angles, 0 < gm_ el -> cross r v <> (0, 0, 0) ->
  let e := length_of (ecc_vector (gm_ el) r v) in 1 < e < 10 ^ 12 -> 1 / 10 ^ 14 <= Rabs (e * e - 1) ->
  exists el' n, (forall fuel, (n <= fuel)%nat -> calc_classical_elements fuel el r v t angles = Ret el') /\
    forall t' fuel r' d vel, comet_posn_and_vel fuel el' t' = Ret (r', d, vel) ->
    let a := q_ el' / (ecc_ el' - 1) in let M := sqrt (gm_ el / (a * a * a)) * (t' - perih_time el') in
    exists H v', Rabs (ecc_ el' * sinh H - H - M) <= (1 / 10 ^ 15 + ecc_ el' * (ecc_ el' * ecc_ el') / 10 ^ 24) * cosh (Rabs H + 1) /\
      r' = at_point (perih_vec el') (cross (unit_of (cross r v)) (perih_vec el')) (hyperbola (q_ el') (ecc_ el') H) /\ d = length_of r' /\ vel = Some v' /\
      cross r' v' = cross r v /\ ecc_vector (gm_ el) r' v' = ecc_vector (gm_ el) r v.
Proof. exact C54_hyperbola_propagate_partial_proof. Qed.
Print Assumptions C54_hyperbola_propagate_partial.

Example C54_hyperbola_propagate_example : exists el' n, (forall fuel, (n <= fuel)%nat -> calc_classical_elements fuel (mass 1) (1, 0, 0) (0, 3 / 5 * 2, 4 / 5 * 2) 7 true = Ret el') /\
  exists r' d vel, comet_posn_and_vel 0 el' (perih_time el') = Ret (r', d, vel).
Proof.
  destruct (speed_example 2) as (_ & _ & E). assert (E' : length_of (ecc_vector 1 (1, 0, 0) (0, 3 / 5 * 2, 4 / 5 * 2)) = 3) by (rewrite E, Rabs_right; lra).
  destruct (calc_ok (mass 1) (1, 0, 0) (0, 3 / 5 * 2, 4 / 5 * 2) 7 true) as (P & n & el' & P1 & Ph & PE & RUN & G & Q & EC & PV & MM & AN & LO & HI & PA); [cbn; lra|apply speed_momentum; lra| |].
  { right. cbn [gm_ mass]. rewrite E'. rewrite Rabs_right; lra. }
  cbn [gm_ mass] in *. rewrite E' in *. destruct (HI ltac:(lra)) as (S1 & S2 & T0 & _). clear HI LO PA. exists el', n. split; [exact RUN|].
  destruct (orbit_of 1 (1, 0, 0) (0, 3 / 5 * 2, 4 / 5 * 2) P ltac:(lra) (speed_momentum 2 ltac:(lra))) as (Q0 & LH & _); [rewrite E'; exact PE|]. cbv zeta in Q0, LH. rewrite E' in Q0, LH.
  set (q := dot (momentum (1, 0, 0) (0, 3 / 5 * 2, 4 / 5 * 2)) (momentum (1, 0, 0) (0, 3 / 5 * 2, 4 / 5 * 2)) / 1 / (1 + 3)) in *. set (a := q / (3 - 1)) in *. assert (A0 : 0 < a) by (apply Rdiv_lt_0_compat; lra). destruct (period a 1 A0 ltac:(lra)) as [D0 _].
  unfold comet_posn_and_vel. rewrite EC. destruct (Reqb_spec 3 1); [lra|]. cbn [negb]. rewrite T0, c_div_ok by lra. cbn [obind]. destruct (Rltb_spec 3 1); [lra|]. replace ((perih_time el' - perih_time el') / - (a * sqrt (a / 1))) with 0 by (set (TS := a * sqrt (a / 1)) in *; field; lra).
  unfold comet_posn_part_ii. cbn [ecc_ set_mean_anomaly mean_anomaly minor_to_major q_ angular_momentum perih_vec sideways]. rewrite EC. destruct (Reqb_spec 3 1); [lra|]. destruct (Rltb_spec 1 3); [|lra].
  unfold kepler. destruct (Reqb_spec 0 0); [|lra]. cbn [obind]. cbv zeta. rewrite MM, (Rabs_left (1 - 3 * 3)) by lra. replace (- (1 - 3 * 3)) with (3 * 3 - 1) by ring.
  destruct (hyperbola_point q 3 0 Q0 ltac:(lra)) as [NZ _]. cbv zeta in NZ. set (nu := atan2 _ _) in *. rewrite Q. rewrite c_div_ok by lra. cbn [obind].
  set (rr := q * (1 + 3) / (1 + 3 * cos nu)). assert (R0 : 0 < rr) by (apply Rdiv_lt_0_compat; lra). destruct (Reqb_spec (angular_momentum el') 0) as [Z|Z]; cbn [negb obind]; [do 3 eexists; reflexivity|].
  rewrite c_div_ok by nra. cbn [obind]. rewrite c_div_ok by nra. cbn [obind]. do 3 eexists. reflexivity.
Qed.
