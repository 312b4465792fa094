(** C53: two-body motion (astfuncs.cpp). *)
From Coq Require Import Lia.
From Verif Require Import TrigBase OrbModel OrbSpec OrbProofs OrbKepler OrbSeries OrbNewton OrbThms.
Local Open Scope R_scope.

(** Preparing orbital elements finds the three directions of the orbit: towards the perihelion and a quarter turn further on, as turns by the argument of the perihelion about the pole, by the inclination about the line of nodes, and by the node. *)
Theorem C53_axes :
forall el gm, 0 < q_ el -> 0 <= ecc_ el -> 0 < gm -> cos (incl el) <> 0 ->
  exists d, derive_quantities el gm = Ret d /\ perih_time d = perih_time el /\ q_ d = q_ el /\ ecc_ d = ecc_ el /\
    perih_vec d = turn_z (asc_node el) (turn_x (incl el) (turn_z (arg_per el) (1, 0, 0))) /\
    sideways d = turn_z (asc_node el) (turn_x (incl el) (turn_z (arg_per el) (0, 1, 0))) /\
    angular_momentum d = sqrt (gm * q_ el * (1 + ecc_ el)).
Proof. exact C53_axes_proof. Qed.
Print Assumptions C53_axes.

Example C53_axes_example : exists d, derive_quantities (an_orbit (1 / 2)) 1 = Ret d /\ perih_vec d = turn_z 2 (turn_x (1 / 2) (turn_z 1 (1, 0, 0))).
Proof.
  destruct (C53_axes (an_orbit (1 / 2)) 1) as (d & HD & _ & _ & _ & P & _); [cbn; lra|cbn; lra|lra|apply an_orbit_incl|]. exists d. split; assumption.
Qed.

(** Finding (astfuncs.cpp:101-112): for an orbit exactly at right angles to the reference plane the direction of the perihelion is computed as zero over zero, whatever the argument of the perihelion.  (In floating point the cosine of the inclination is then a number lost in the sum with the node, and the perihelion comes out in the reference plane.) *)
Theorem C53_edge_on_refuted :
forall el gm, 0 < q_ el -> 0 <= ecc_ el -> 0 < gm -> cos (incl el) = 0 -> derive_quantities el gm = Abort.
Proof. exact C53_edge_on_refuted_proof. Qed.
Print Assumptions C53_edge_on_refuted.

Example C53_edge_on_example : derive_quantities (mk_elements 0 1 (1 / 2) (PI / 2) 1 2 0 0 0 (0, 0, 0) (0, 0, 0) 0 0 0 0 0) 1 = Abort.
Proof. apply C53_edge_on_refuted; cbn; try lra. apply cos_PI2. Qed.

(** Kepler's equation for eccentricities below 0.9: the iteration ends for every mean anomaly -- as many turns away as it may be -- and what it returns satisfies the equation to 1e-24.  (Left out: exactly half a turn before a perihelion, where in real numbers, though not in floating point, the first guess is half a turn after it.) *)
Theorem C53_kepler :
forall e M, 0 <= e < 9 / 10 -> (forall k, (0 <= k)%Z -> M <> - PI * (2 * IZR k + 1)) ->
  exists E n, Rabs (E - e * sin E - M) <= 1 / 10 ^ 24 /\ forall fuel, (n <= fuel)%nat -> kepler fuel e M = Ret E.
Proof. exact C53_kepler_proof. Qed.
Print Assumptions C53_kepler.

Example C53_kepler_example : exists E n, Rabs (E - 1 / 2 * sin E - 100) <= 1 / 10 ^ 24 /\ forall fuel, (n <= fuel)%nat -> kepler fuel (1 / 2) 100 = Ret E.
Proof. apply C53_kepler; [lra|]. intros k K H. pose proof PI_RGT_0. assert (0 <= IZR k) by (apply IZR_le; lia). nra. Qed.

(** Kepler's equation for the other ellipses, and for hyperbolas: what is returned satisfies the equation.  Missing: that the iteration converges before the assertion on the number of its steps fails. *)
Theorem C53_kepler_near_parabolic_partial :
forall fuel e M E, kepler fuel e M = Ret E ->
  (9 / 10 <= e < 1 -> Rabs (E - e * sin E - M) <= 11 / 10 ^ 16) /\
  (1 < e < 10 ^ 12 -> Rabs (e * sinh E - E - M) <= (1 / 10 ^ 15 + e * (e * e) / 10 ^ 24) * cosh (Rabs E + 1)).
Proof. exact C53_kepler_near_parabolic_partial_proof. Qed.
Print Assumptions C53_kepler_near_parabolic_partial.

Example C53_kepler_near_parabolic_example : forall fuel, kepler fuel (99 / 100) PI = Ret PI.
Proof.
  intros fuel. pose proof PI_RGT_0. unfold kepler. destruct (Reqb_spec PI 0); [lra|]. destruct (Rltb_spec (99 / 100) 1); [|lra].
  unfold within_half_turn. destruct (Rltb_spec PI (- PI)); [lra|]. destruct (Rltb_spec PI PI); [lra|]. cbn [orb]. destruct (Rltb_spec (99 / 100) (9 / 10)); [lra|]. cbv zeta.
  destruct (Rltb_spec PI 0); [lra|]. unfold first_guess. destruct (Rltb_spec 1 (99 / 100)); [lra|]. cbn [andb]. destruct (Rltb_spec PI (PI / 3)); [lra|]. rewrite Bool.andb_false_r. cbn [orb obind].
  set (th := if Rltb _ _ then _ else _). assert (T : 0 <= th < 1).
  { unfold th, THRESH, MIN_THRESH. rewrite (Rabs_right (1 - 99 / 100)) by lra. destruct (Rltb_spec (1 / 10 ^ 12 * (1 - 99 / 100)) (1 / 10 ^ 14)); lra. }
  cbn [newton_ellipse Nat.ltb Nat.leb]. rewrite Rabs_R1. destruct (Rltb_spec th 1); [|lra]. cbn [obind]. rewrite sin_PI, cos_PI, c_div_ok by lra. cbn [obind].
  replace (- (PI - 99 / 100 * 0 - PI) / (1 - 99 / 100 * -1)) with 0 by field. rewrite Rabs_R0. destruct (Rltb_spec th 0); [lra|]. cbn [obind]. f_equal. ring.
Qed.

(** The motion on an ellipse, for eccentricities below 0.9: at every time, place and velocity are found; the place is the point of the ellipse -- with its focus at the Sun, its perihelion distance and eccentricity those of the elements, in the plane and with the perihelion the elements say -- whose eccentric anomaly satisfies Kepler's equation for the mean anomaly at that time; the distance is its length; and angular momentum and eccentricity vector of place and velocity are those of the orbit. *)
Theorem C53_ellipse :
forall el gm d t, 0 < q_ el -> 0 <= ecc_ el < 9 / 10 -> 0 < gm -> cos (incl el) <> 0 -> derive_quantities el gm = Ret d ->
  let a := q_ el / (1 - ecc_ el) in
  let M := sqrt (gm / (a * a * a)) * (t - perih_time el) in
  let p := to_perihelion (asc_node el) (incl el) (arg_per el) in
  let s := to_quarter (asc_node el) (incl el) (arg_per el) in
  let w := to_pole (asc_node el) (incl el) (arg_per el) in
  (forall k, (0 <= k)%Z -> M <> - PI * (2 * IZR k + 1)) ->
  exists E v n, Rabs (E - ecc_ el * sin E - M) <= 1 / 10 ^ 24 /\
    let loc := at_point p s (ellipse (q_ el) (ecc_ el) E) in
    on_orbit gm (q_ el) (ecc_ el) p w loc v /\
    forall fuel, (n <= fuel)%nat -> comet_posn_and_vel fuel d t = Ret (loc, length_of loc, Some v).
Proof. exact C53_ellipse_proof. Qed.
Print Assumptions C53_ellipse.

Example C53_ellipse_example : exists d, derive_quantities (an_orbit (1 / 2)) 1 = Ret d /\ exists loc v n, forall fuel, (n <= fuel)%nat -> comet_posn_and_vel fuel d 1000 = Ret (loc, length_of loc, Some v).
Proof.
  destruct (C53_axes (an_orbit (1 / 2)) 1) as (d & HD & _); [cbn; lra|cbn; lra|lra|apply an_orbit_incl|]. exists d. split; [exact HD|].
  destruct (C53_ellipse (an_orbit (1 / 2)) 1 d 1000) as (E & v & n & _ & _ & R); [cbn; lra|cbn; lra|lra|apply an_orbit_incl|exact HD| |].
  - intros k K H. cbn [perih_time an_orbit ecc_ q_] in H. pose proof PI_RGT_0. assert (0 <= IZR k) by (apply IZR_le; lia). match type of H with ?s * _ = _ => assert (0 <= s) by apply sqrt_pos end. nra.
  - eexists _, v, n. exact R.
Qed.

(** The same for the other ellipses.  Missing: that the iteration for the eccentric anomaly converges before the assertion on the number of its steps fails. *)
Theorem C53_near_parabolic_ellipse_partial :
forall el gm d t fuel loc r vel, 0 < q_ el -> 9 / 10 <= ecc_ el < 1 -> 0 < gm -> cos (incl el) <> 0 -> derive_quantities el gm = Ret d ->
  let a := q_ el / (1 - ecc_ el) in
  let M := sqrt (gm / (a * a * a)) * (t - perih_time el) in
  let p := to_perihelion (asc_node el) (incl el) (arg_per el) in
  let s := to_quarter (asc_node el) (incl el) (arg_per el) in
  let w := to_pole (asc_node el) (incl el) (arg_per el) in
  comet_posn_and_vel fuel d t = Ret (loc, r, vel) ->
  exists E v, Rabs (E - ecc_ el * sin E - M) <= 11 / 10 ^ 16 /\ loc = at_point p s (ellipse (q_ el) (ecc_ el) E) /\
    r = length_of loc /\ vel = Some v /\ on_orbit gm (q_ el) (ecc_ el) p w loc v.
Proof. exact C53_near_parabolic_ellipse_partial_proof. Qed.
Print Assumptions C53_near_parabolic_ellipse_partial.

(** At the aphelion. *)
Example C53_near_parabolic_ellipse_example : exists d t loc r vel, derive_quantities (an_orbit (99 / 100)) 1 = Ret d /\ comet_posn_and_vel 9 d t = Ret (loc, r, vel) /\ t <> 0.
Proof.
  assert (Q0 : 0 < q_ (an_orbit (99 / 100))) by (cbn; lra). assert (E0 : 0 <= ecc_ (an_orbit (99 / 100)) < 1) by (cbn; lra).
  destruct (C53_axes (an_orbit (99 / 100)) 1) as (d & HD & _); [lra|lra|lra|apply an_orbit_incl|]. set (a := 1 / (1 - 99 / 100)). assert (A0 : 0 < gm_of a) by (unfold gm_of, a; apply sqrt_lt_R0; lra).
  destruct (run_ellipse (an_orbit (99 / 100)) 1 d (PI / gm_of a) Q0 E0 Rlt_0_1 (an_orbit_incl _) HD) as [R1 R2]. cbv zeta in R1, R2. cbn [an_orbit q_ ecc_ perih_time] in R1, R2. fold a in R1.
  exists d, (PI / gm_of a). destruct (R2 PI) as (v & V & _). specialize (R1 9%nat). fold (gm_of a) in R1. pose proof PI_RGT_0 as P.
  replace (gm_of a * (PI / gm_of a - 0)) with PI in R1 by (field; lra).
  assert (HP : half_turn PI = PI).
  { unfold half_turn, c_fmod, truncate. replace (PI / (PI * 2)) with (1 / 2) by (field; lra). destruct (Rltb_spec (1 / 2) 0); [lra|].
    assert (I : Int_part (1 / 2) = 0%Z). { pose proof (int_part (1 / 2)) as [B1 B2]. assert (C1 : IZR (Int_part (1 / 2)) < 1) by lra. assert (C2 : -1 < IZR (Int_part (1 / 2))) by lra. apply lt_IZR in C1. apply lt_IZR in C2. lia. }
    rewrite I. replace (PI - PI * 2 * 0) with PI by ring. cbv zeta. destruct (Rltb_spec PI (- PI)); [lra|]. destruct (Rltb_spec PI PI); lra. }
  rewrite HP, C53_kepler_near_parabolic_example in R1. cbn [obind] in R1. rewrite V in R1. do 3 eexists. split; [exact HD|]. split; [exact R1|].
  apply Rgt_not_eq. apply Rdiv_lt_0_compat; lra.
Qed.

(** The motion on a hyperbola.  Missing, again, is the convergence of the iteration in time. *)
Theorem C53_hyperbola_partial :
forall el gm d t fuel loc r vel, 0 < q_ el -> 1 < ecc_ el < 10 ^ 12 -> 0 < gm -> cos (incl el) <> 0 -> derive_quantities el gm = Ret d ->
  let a := q_ el / (ecc_ el - 1) in
  let M := sqrt (gm / (a * a * a)) * (t - perih_time el) in
  let p := to_perihelion (asc_node el) (incl el) (arg_per el) in
  let s := to_quarter (asc_node el) (incl el) (arg_per el) in
  let w := to_pole (asc_node el) (incl el) (arg_per el) in
  comet_posn_and_vel fuel d t = Ret (loc, r, vel) ->
  exists H v, Rabs (ecc_ el * sinh H - H - M) <= (1 / 10 ^ 15 + ecc_ el * (ecc_ el * ecc_ el) / 10 ^ 24) * cosh (Rabs H + 1) /\
    loc = at_point p s (hyperbola (q_ el) (ecc_ el) H) /\
    r = length_of loc /\ vel = Some v /\ on_orbit gm (q_ el) (ecc_ el) p w loc v.
Proof. exact C53_hyperbola_partial_proof. Qed.
Print Assumptions C53_hyperbola_partial.

Example C53_hyperbola_example : let e := 3 / (sinh 3 - exp (43 / 20)) in 1 < e < 10 ^ 12 /\ forall fuel, kepler fuel e (e * exp (43 / 20)) = Ret 3.
Proof.
  assert (X1 : forall x, 0 <= x < 1 -> 1 + x <= exp x <= 1 / (1 - x)).
  { intros x Hx. pose proof (exp_ineq1_le x) as A. pose proof (exp_ineq1_le (- x)) as B. split; [lra|]. rewrite exp_Ropp in B. pose proof (exp_pos x). apply Rmult_le_reg_r with (1 - x); [lra|]. replace (1 / (1 - x) * (1 - x)) with 1 by (field; lra). apply Rmult_le_reg_r with (/ exp x); [apply Rinv_0_lt_compat; lra|]. replace (exp x * (1 - x) * / exp x) with (1 - x) by (field; lra). lra. }
  assert (D2 : forall x, exp (2 * x) = exp x * exp x) by (intros x; rewrite <- exp_plus; f_equal; ring).
  assert (A : 2 + 2 / 10 <= exp (17 / 20) <= 2 + 46 / 100).
  { replace (17 / 20) with (2 * (2 * (2 * (17 / 160)))) by field. rewrite !D2. destruct (X1 (17 / 160)) as [L U]; [lra|]. replace (1 / (1 - 17 / 160)) with (160 / 143) in U by field. set (x := exp (17 / 160)) in *.
    assert (x * x <= 160 / 143 * (160 / 143)) by (apply Rmult_le_compat; lra). assert ((1 + 17 / 160) * (1 + 17 / 160) <= x * x) by (apply Rmult_le_compat; lra). set (y := x * x) in *.
    assert (y * y <= (160 / 143 * (160 / 143)) * (160 / 143 * (160 / 143))) by (apply Rmult_le_compat; lra). assert (((1 + 17 / 160) * (1 + 17 / 160)) * ((1 + 17 / 160) * (1 + 17 / 160)) <= y * y) by (apply Rmult_le_compat; lra). set (z := y * y) in *.
    assert (z * z <= 1568 / 1000 * (1568 / 1000)) by (apply Rmult_le_compat; lra). assert (1495 / 1000 * (1495 / 1000) <= z * z) by (apply Rmult_le_compat; lra). lra. }
  assert (B : 3 <= exp (43 / 20) <= 102 / 10).
  { replace (43 / 20) with (2 * (2 * (2 * (2 * (43 / 320))))) by field. rewrite !D2. destruct (X1 (43 / 320)) as [L U]; [lra|]. replace (1 / (1 - 43 / 320)) with (320 / 277) in U by field. set (x := exp (43 / 320)) in *.
    assert (x * x <= 13346 / 10000) by (apply Rle_trans with (320 / 277 * (320 / 277)); [apply Rmult_le_compat|]; lra). assert (1268 / 1000 <= x * x) by nra. set (y := x * x) in *.
    assert (y * y <= 17812 / 10000) by (apply Rle_trans with (13346 / 10000 * (13346 / 10000)); [apply Rmult_le_compat|]; lra). assert (16 / 10 <= y * y) by nra. set (z := y * y) in *.
    assert (z * z <= 3173 / 1000) by (apply Rle_trans with (17812 / 10000 * (17812 / 10000)); [apply Rmult_le_compat|]; lra). assert (25 / 10 <= z * z) by nra. set (u := z * z) in *. split; nra. }
  assert (S3 : sinh 3 - exp (43 / 20) = exp (43 / 20) * (exp (17 / 20) / 2 - 1) - exp (Ropp 3) / 2).
  { unfold sinh. replace (exp 3) with (exp (43 / 20) * exp (17 / 20)) by (rewrite <- exp_plus; f_equal; field). field. }
  assert (E3 : 0 < exp (Ropp 3) < 1 / 2).
  { split; [apply exp_pos|]. rewrite exp_Ropp. replace (exp 3) with (exp (43 / 20) * exp (17 / 20)) by (rewrite <- exp_plus; f_equal; field). set (x := exp (43 / 20)) in *. set (y := exp (17 / 20)) in *. apply Rmult_lt_reg_r with (x * y); [nra|]. rewrite Rinv_l by nra. nra. }
  assert (S4 : 1 / 100 <= sinh 3 - exp (43 / 20) <= 26 / 10) by (rewrite S3; split; nra). set (dd := sinh 3 - exp (43 / 20)) in *.
  intros e. assert (He : 1 < e < 10 ^ 12).
  { unfold e. split; apply Rmult_lt_reg_r with dd; try lra; replace (3 / dd * dd) with 3 by (field; lra); lra. }
  split; [exact He|]. intros fuel. unfold kepler. destruct (Reqb_spec (e * exp (43 / 20)) 0) as [Z|_]; [nra|]. destruct (Rltb_spec e 1); [lra|]. destruct (Rltb_spec e (9 / 10)); [lra|]. cbv zeta.
  destruct (Rltb_spec (e * exp (43 / 20)) 0); [nra|]. unfold first_guess. replace (e * exp (43 / 20) / e) with (exp (43 / 20)) by (field; lra). destruct (Rltb_spec 1 e); [|lra].
  destruct (Rltb_spec 3 (exp (43 / 20))) as [_|N]. 2: { exfalso. assert (X : 3 < exp (43 / 20)); [|lra]. replace (43 / 20) with (43 / 40 + 43 / 40) by field. rewrite exp_plus. pose proof (exp_ineq1_le (43 / 40)). nra. }
  cbn [andb obind]. rewrite ln_exp. replace (43 / 20 + 85 / 100) with 3 by field.
  set (th := if Rltb (THRESH * Rabs (1 - e)) MIN_THRESH then MIN_THRESH else THRESH * Rabs (1 - e)). assert (T : 0 < th < 1).
  { unfold th. rewrite Rabs_left by lra. unfold THRESH, MIN_THRESH. destruct (Rltb_spec (1 / 10 ^ 12 * - (1 - e)) (1 / 10 ^ 14)); lra. }
  cbn [newton_hyperbola Nat.ltb Nat.leb andb]. rewrite Rabs_R1. destruct (Rltb_spec th 1); [|lra]. pose proof (cosh_ge_1 3). cbn [obind]. rewrite c_div_ok by nra. cbn [obind].
  assert (Z : e * sinh 3 - 3 - e * exp (43 / 20) = 0). { replace (e * sinh 3 - 3 - e * exp (43 / 20)) with (e * dd - 3) by (unfold dd; ring). unfold e. field. lra. }
  rewrite Z. replace (- 0 / (e * cosh 3 - 1)) with 0 by (field; nra). rewrite Rabs_R0. destruct (Rltb_spec th 0); [lra|]. cbn [obind]. f_equal. ring.
Qed.

(** The motion on a parabola, without any iteration: the tangent of half the true anomaly satisfies Barker's equation exactly. *)
Theorem C53_parabola :
forall el gm d t fuel, 0 < q_ el -> ecc_ el = 1 -> 0 < gm -> cos (incl el) <> 0 -> derive_quantities el gm = Ret d ->
  let q := q_ el in
  let p := to_perihelion (asc_node el) (incl el) (arg_per el) in
  let s := to_quarter (asc_node el) (incl el) (arg_per el) in
  let w := to_pole (asc_node el) (incl el) (arg_per el) in
  exists k v, k + k * k * k / 3 = sqrt (gm / (2 * (q * q * q))) * (t - perih_time el) /\
    let loc := at_point p s (parabola q k) in
    on_orbit gm q 1 p w loc v /\ comet_posn_and_vel fuel d t = Ret (loc, length_of loc, Some v).
Proof. exact C53_parabola_proof. Qed.
Print Assumptions C53_parabola.

Example C53_parabola_example : exists d, derive_quantities (an_orbit 1) 1 = Ret d /\ exists loc v, comet_posn_and_vel 0 d 1000 = Ret (loc, length_of loc, Some v).
Proof.
  destruct (C53_axes (an_orbit 1) 1) as (d & HD & _); [cbn; lra|cbn; lra|lra|apply an_orbit_incl|]. exists d. split; [exact HD|].
  destruct (C53_parabola (an_orbit 1) 1 d 1000 0) as (k & v & _ & _ & R); [cbn; lra|reflexivity|lra|apply an_orbit_incl|exact HD|]. eexists _, v. exact R.
Qed.
