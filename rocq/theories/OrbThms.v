(** Theorems of C53 with their proofs; PropOrb.v states them again. *)
From Coq Require Import Lia.
From Verif Require Import TrigBase OrbModel OrbSpec OrbProofs OrbKepler OrbSeries OrbNewton.
Local Open Scope R_scope.

Lemma derive_ok el gm : 0 < q_ el -> 0 <= ecc_ el -> 0 < gm -> cos (incl el) <> 0 -> exists d, derive_quantities el gm = Ret d /\
  perih_time d = perih_time el /\ q_ d = q_ el /\ ecc_ d = ecc_ el /\
  perih_vec d = to_perihelion (asc_node el) (incl el) (arg_per el) /\ sideways d = to_quarter (asc_node el) (incl el) (arg_per el) /\
  angular_momentum d = sqrt (gm * q_ el * (1 + ecc_ el)) /\ minor_to_major d = sqrt (Rabs (1 - ecc_ el * ecc_ el)) /\
  (ecc_ el <> 1 -> let a := q_ el / Rabs (1 - ecc_ el) in 0 < a /\ t0 d = a * sqrt (a / gm)) /\
  (ecc_ el = 1 -> w0 d = 3 / sqrt 2 / (q_ el * sqrt (q_ el / gm))).
Proof.
  intros Hq He Hg Hi. unfold derive_quantities. destruct (axes_ok (ecc_ el) (incl el) (arg_per el) (asc_node el) Hi) as [l A].
  assert (S0 : 0 <= gm * q_ el * (1 + ecc_ el)) by (apply Rmult_le_pos; [apply Rmult_le_pos|]; lra).
  destruct (Reqb_spec (ecc_ el) 1) as [E|E]; cbn [negb].
  - assert (P : 0 < q_ el / gm) by (apply Rdiv_lt_0_compat; lra). pose proof (sqrt_lt_R0 _ P) as Q.
    rewrite c_div_ok by lra. cbn [obind]. rewrite c_sqrt_ok by lra. cbn [obind]. rewrite c_div_ok by nra. cbn [obind]. rewrite c_sqrt_ok by exact S0. cbn [obind]. rewrite A. cbn [obind].
    eexists. split; [reflexivity|]. repeat (split; [reflexivity|]). split; [intros X; tauto|reflexivity].
  - assert (N : 0 < Rabs (1 - ecc_ el)) by (apply Rabs_pos_lt; lra). assert (P : 0 < q_ el / Rabs (1 - ecc_ el)) by (apply Rdiv_lt_0_compat; lra). assert (P2 : 0 < q_ el / Rabs (1 - ecc_ el) / gm) by (apply Rdiv_lt_0_compat; lra).
    rewrite c_div_ok by lra. cbn [obind]. rewrite c_div_ok by lra. cbn [obind]. rewrite c_sqrt_ok by lra. cbn [obind]. rewrite c_sqrt_ok by exact S0. cbn [obind]. rewrite A. cbn [obind].
    eexists. split; [reflexivity|]. repeat (split; [reflexivity|]). split; [intros _; split; [exact P|reflexivity]|intros X; tauto].
Qed.
Lemma period a gm : 0 < a -> 0 < gm -> 0 < a * sqrt (a / gm) /\ forall x, x / (a * sqrt (a / gm)) = sqrt (gm / (a * a * a)) * x.
Proof.
  intros Ha Hg. assert (P : 0 < a / gm) by (apply Rdiv_lt_0_compat; lra). pose proof (sqrt_lt_R0 _ P) as Q. split; [apply Rmult_lt_0_compat; lra|]. intros x.
  assert (E : sqrt (gm / (a * a * a)) = 1 / (a * sqrt (a / gm))).
  { assert (A2 : 0 < a * sqrt (a / gm)) by nra. rewrite <- (sqrt_square (1 / (a * sqrt (a / gm)))) by (apply Rlt_le, Rdiv_lt_0_compat; lra). f_equal.
    replace (1 / (a * sqrt (a / gm)) * (1 / (a * sqrt (a / gm)))) with (1 / (a * a * (sqrt (a / gm) * sqrt (a / gm)))) by (field; lra). rewrite sqrt_sqrt by lra. field. lra. }
  rewrite E. field. lra.
Qed.
Definition rest_of (e : elements) (true_anom : R) : outcome (vec3 * R * option vec3) :=
  let r0 := q_ e * (1 + ecc_ e) in
  do r <- c_div r0 (1 + ecc_ e * cos true_anom);
  let x := r * cos true_anom in
  let y := r * sin true_anom in
  do vel <-
    (if negb (Reqb (angular_momentum e) 0) then
       do angular_component <- c_div (angular_momentum e) (r * r);
       do radial_component <- c_div (ecc_ e * sin true_anom * angular_momentum e) (r * r0);
       Ret (Some (in_plane (x * radial_component - y * angular_component) (perih_vec e)
                           (y * radial_component + x * angular_component) (sideways e)))
     else Ret None);
  Ret (in_plane x (perih_vec e) y (sideways e), r, vel).
Lemma finish gm d nu p s w xy : 0 < gm -> 0 < q_ d -> 0 <= ecc_ d -> 0 < 1 + ecc_ d * cos nu -> frame p s w ->
  perih_vec d = p -> sideways d = s -> angular_momentum d = sqrt (gm * q_ d * (1 + ecc_ d)) ->
  (q_ d * (1 + ecc_ d) / (1 + ecc_ d * cos nu) * cos nu, q_ d * (1 + ecc_ d) / (1 + ecc_ d * cos nu) * sin nu) = xy ->
  exists v, rest_of d nu = Ret (at_point p s xy, length_of (at_point p s xy), Some v) /\ on_orbit gm (q_ d) (ecc_ d) p w (at_point p s xy) v.
Proof.
  intros Hg Hq He Hn F <- <- HA <-. destruct (state_on_orbit gm (q_ d) (ecc_ d) nu _ _ w Hg Hq He Hn F) as (R0 & L & O). cbv zeta in R0, L, O.
  unfold rest_of. cbv zeta. rewrite c_div_ok by lra. cbn [obind]. set (r := q_ d * (1 + ecc_ d) / (1 + ecc_ d * cos nu)) in *.
  assert (H0 : 0 < angular_momentum d) by (rewrite HA; apply sqrt_lt_R0; apply Rmult_lt_0_compat; [apply Rmult_lt_0_compat|]; lra).
  destruct (Reqb_spec (angular_momentum d) 0); [lra|]. cbn [negb]. rewrite c_div_ok by nra. cbn [obind]. rewrite c_div_ok by (apply Rgt_not_eq, Rmult_lt_0_compat; [|apply Rmult_lt_0_compat]; lra). cbn [obind].
  rewrite !in_plane_eq in *. unfold at_point. cbn [fst snd]. rewrite L. rewrite HA. eexists. split; [reflexivity|]. exact O.
Qed.
(** The mean anomaly within half a turn. *)
Definition half_turn (t : R) : R := let t := c_fmod t (PI * 2) in let t := if Rltb t (- PI) then t + 2 * PI else t in if Rltb PI t then t - 2 * PI else t.
Lemma half_turn_turns t : exists k, half_turn t = t + 2 * PI * IZR k.
Proof.
  unfold half_turn. cbv zeta. destruct (fmod_bound t) as [_ [k E]]. destruct (Rltb_spec (c_fmod t (PI * 2)) (- PI)).
  - destruct (Rltb_spec PI (c_fmod t (PI * 2) + 2 * PI)); [exists k; lra|exists (k + 1)%Z; rewrite plus_IZR; lra].
  - destruct (Rltb_spec PI (c_fmod t (PI * 2))); [exists (k - 1)%Z; rewrite minus_IZR; lra|exists k; lra].
Qed.
Lemma half_turn_not t : (forall k, (0 <= k)%Z -> t <> - PI * (2 * IZR k + 1)) -> forall k, (0 <= k)%Z -> half_turn t <> - PI * (2 * IZR k + 1).
Proof.
  intros N k K H. pose proof PI_RGT_0 as P. destruct (half_turn_turns t) as [j E]. assert (K0 : 0 <= IZR k) by (apply IZR_le; lia).
  assert (B : - PI <= half_turn t /\ (0 <= t -> - PI < half_turn t)).
  { unfold half_turn. cbv zeta. destruct (fmod_bound t) as [FB _].
    assert (T1 : 0 <= t -> 0 <= c_fmod t (PI * 2)).
    { intros T0. unfold c_fmod, truncate. assert (0 <= t / (PI * 2)) by (apply Rmult_le_pos; [lra|left; apply Rinv_0_lt_compat; lra]). destruct (Rltb_spec (t / (PI * 2)) 0); [lra|]. pose proof (int_part (t / (PI * 2))). replace t with (PI * 2 * (t / (PI * 2))) at 1 by (field; lra). set (y := t / (PI * 2)) in *. nra. }
    destruct (Rltb_spec (c_fmod t (PI * 2)) (- PI)).
    - destruct (Rltb_spec PI (c_fmod t (PI * 2) + 2 * PI)); split; intros; lra.
    - destruct (Rltb_spec PI (c_fmod t (PI * 2))); split; intros; lra. }
  destruct B as [B1 B2]. assert (KZ : k = 0%Z). { assert (IZR k < 1) by nra. apply lt_IZR in H0. lia. } subst k.
  destruct (Rle_lt_dec 0 t) as [L|L]; [specialize (B2 L); lra|].
  assert (J : (0 <= j)%Z). { destruct (Z_le_dec 0 j) as [J|J]; [exact J|exfalso]. assert (IZR j <= -1) by (apply IZR_le; lia). nra. }
  apply (N j J). lra.
Qed.
Lemma ellipse_turns q e E k : ellipse q e (E + 2 * PI * IZR k) = ellipse q e E.
Proof. unfold ellipse. now rewrite turns_sin, turns_cos. Qed.
Lemma run_ellipse el gm d t : 0 < q_ el -> 0 <= ecc_ el < 1 -> 0 < gm -> cos (incl el) <> 0 -> derive_quantities el gm = Ret d ->
  let a := q_ el / (1 - ecc_ el) in let M := sqrt (gm / (a * a * a)) * (t - perih_time el) in
  let p := to_perihelion (asc_node el) (incl el) (arg_per el) in let s := to_quarter (asc_node el) (incl el) (arg_per el) in let w := to_pole (asc_node el) (incl el) (arg_per el) in
  (forall fuel, comet_posn_and_vel fuel d t = (do E <- kepler fuel (ecc_ el) (half_turn M); rest_of d (atan2 (sin E * minor_to_major d) (cos E - ecc_ el)))) /\
  forall E, let loc := at_point p s (ellipse (q_ el) (ecc_ el) E) in exists v, rest_of d (atan2 (sin E * minor_to_major d) (cos E - ecc_ el)) = Ret (loc, length_of loc, Some v) /\ on_orbit gm (q_ el) (ecc_ el) p w loc v.
Proof.
  intros Hq He Hg Hi HD a M p s w. destruct (derive_ok el gm Hq ltac:(lra) Hg Hi) as (d' & HD' & D1 & D2 & D3 & D4 & D5 & D6 & D7 & D8 & _). rewrite HD in HD'. injection HD' as <-.
  destruct D8 as [A0 D8]; [lra|]. rewrite (Rabs_right (1 - ecc_ el)) in A0, D8 by lra. fold a in A0, D8. destruct (period a gm A0 Hg) as [P0 P1].
  split.
  - intros fuel. unfold comet_posn_and_vel. rewrite D3. destruct (Reqb_spec (ecc_ el) 1); [lra|]. cbn [negb]. rewrite D8, D1, c_div_ok by lra. cbn [obind]. rewrite P1. fold M. destruct (Rltb_spec (ecc_ el) 1); [|lra].
    unfold half_turn. cbv zeta. set (hm := if Rltb PI _ then _ else _).
    unfold comet_posn_part_ii. cbn [ecc_ set_mean_anomaly mean_anomaly minor_to_major q_ angular_momentum perih_vec sideways]. rewrite D3. destruct (Reqb_spec (ecc_ el) 1); [lra|]. destruct (Rltb_spec 1 (ecc_ el)); [lra|].
    destruct (kepler fuel (ecc_ el) hm); cbv zeta; cbn [obind]; try reflexivity. unfold rest_of. rewrite D3. reflexivity.
  - intros E loc. rewrite D7, (Rabs_right (1 - ecc_ el * ecc_ el)) by nra. destruct (ellipse_point (q_ el) (ecc_ el) E Hq He) as [N X]. cbv zeta in N, X.
    assert (F : exists v, rest_of d (atan2 (sin E * sqrt (1 - ecc_ el * ecc_ el)) (cos E - ecc_ el)) = Ret (loc, length_of loc, Some v) /\ on_orbit gm (q_ d) (ecc_ d) p w loc v).
    { apply finish; rewrite ?D2, ?D3; try assumption; try lra. apply orbit_frame. }
    rewrite D2, D3 in F. exact F.
Qed.

(** Orbits for the examples: perihelion at distance 1 at time 0, inclined by half a radian. *)
Definition an_orbit (e : R) : elements := mk_elements 0 1 e (1 / 2) 1 2 0 0 0 (0, 0, 0) (0, 0, 0) 0 0 0 0 0.
Lemma an_orbit_incl e : cos (incl (an_orbit e)) <> 0.
Proof. cbn [incl an_orbit]. apply Rgt_not_eq. apply cos_gt_0; pose proof PI2_1; lra. Qed.

Lemma C53_axes_proof :
forall el gm, 0 < q_ el -> 0 <= ecc_ el -> 0 < gm -> cos (incl el) <> 0 ->
  exists d, derive_quantities el gm = Ret d /\ perih_time d = perih_time el /\ q_ d = q_ el /\ ecc_ d = ecc_ el /\
    perih_vec d = turn_z (asc_node el) (turn_x (incl el) (turn_z (arg_per el) (1, 0, 0))) /\
    sideways d = turn_z (asc_node el) (turn_x (incl el) (turn_z (arg_per el) (0, 1, 0))) /\
    angular_momentum d = sqrt (gm * q_ el * (1 + ecc_ el)).
Proof.
  intros el gm Hq He Hg Hi. destruct (derive_ok el gm Hq He Hg Hi) as (d & HD & D1 & D2 & D3 & D4 & D5 & D6 & _). exists d. repeat (split; [assumption|]). assumption.
Qed.

Lemma C53_edge_on_refuted_proof :
forall el gm, 0 < q_ el -> 0 <= ecc_ el -> 0 < gm -> cos (incl el) = 0 -> derive_quantities el gm = Abort.
Proof.
  intros el gm Hq He Hg Hi. unfold derive_quantities.
  assert (S0 : 0 <= gm * q_ el * (1 + ecc_ el)) by (apply Rmult_le_pos; [apply Rmult_le_pos|]; lra).
  assert (A : setup_orbit_vectors (ecc_ el) (incl el) (arg_per el) (asc_node el) = Abort).
  { unfold setup_orbit_vectors. cbv zeta. rewrite Hi, !Rmult_0_r. destruct (Rltb_spec 0 0); [lra|].
    assert (Z : sin (asc_node el + atan2 0 (cos (arg_per el)) - asc_node el) = 0).
    { replace (asc_node el + atan2 0 (cos (arg_per el)) - asc_node el) with (atan2 0 (cos (arg_per el))) by ring. destruct (atan2_polar 0 (cos (arg_per el))) as [_ Ps]. cbv zeta in Ps.
      set (rho := sqrt (cos (arg_per el) * cos (arg_per el) + 0 * 0)) in *. destruct (Req_dec (cos (arg_per el)) 0) as [C|C].
      - rewrite C. unfold atan2. destruct (Rltb_spec 0 0); [lra|]. destruct (Rltb_spec 0 0); [lra|]. apply sin_0.
      - assert (0 < rho) by (unfold rho; apply sqrt_lt_R0; nra). apply Rmult_eq_reg_l with rho; lra. }
    rewrite Z, !Rmult_0_r, Rplus_0_l, sqrt_0. unfold c_div. destruct (Reqb_spec 0 0); [reflexivity|lra]. }
  destruct (Reqb_spec (ecc_ el) 1) as [E|E]; cbn [negb].
  - assert (P : 0 < q_ el / gm) by (apply Rdiv_lt_0_compat; lra). pose proof (sqrt_lt_R0 _ P) as Q.
    rewrite c_div_ok by lra. cbn [obind]. rewrite c_sqrt_ok by lra. cbn [obind]. rewrite c_div_ok by nra. cbn [obind]. rewrite c_sqrt_ok by exact S0. cbn [obind]. rewrite A. reflexivity.
  - assert (N : 0 < Rabs (1 - ecc_ el)) by (apply Rabs_pos_lt; lra). assert (P2 : 0 < q_ el / Rabs (1 - ecc_ el) / gm) by (repeat apply Rdiv_lt_0_compat; lra).
    rewrite c_div_ok by lra. cbn [obind]. rewrite c_div_ok by lra. cbn [obind]. rewrite c_sqrt_ok by lra. cbn [obind]. rewrite c_sqrt_ok by exact S0. cbn [obind]. rewrite A. reflexivity.
Qed.

Lemma C53_kepler_proof :
forall e M, 0 <= e < 9 / 10 -> (forall k, (0 <= k)%Z -> M <> - PI * (2 * IZR k + 1)) ->
  exists E n, Rabs (E - e * sin E - M) <= 1 / 10 ^ 24 /\ forall fuel, (n <= fuel)%nat -> kepler fuel e M = Ret E.
Proof.
  intros e M He HM. destruct (kepler_low e M He HM) as (E & n & R1 & R2). exists E, n. split; [|exact R2]. unfold THRESH in R1. lra.
Qed.

Lemma C53_kepler_near_parabolic_partial_proof :
forall fuel e M E, kepler fuel e M = Ret E ->
  (9 / 10 <= e < 1 -> Rabs (E - e * sin E - M) <= 11 / 10 ^ 16) /\
  (1 < e < 10 ^ 12 -> Rabs (e * sinh E - E - M) <= (1 / 10 ^ 15 + e * (e * e) / 10 ^ 24) * cosh (Rabs E + 1)).
Proof.
  intros fuel e M E H. split; intros He.
  - pose proof (kepler_ellipse fuel e M E He H) as K. unfold RESIDUAL, TINY, THRESH in K. lra.
  - pose proof (kepler_hyperbola fuel e M E He H) as K. replace (TINY + e * (THRESH * e * (THRESH * e))) with (1 / 10 ^ 15 + e * (e * e) / 10 ^ 24) in K by (unfold TINY, THRESH; field). exact K.
Qed.

Lemma C53_ellipse_proof :
forall el gm d t, 0 < q_ el -> 0 <= ecc_ el < 9 / 10 -> 0 < gm -> cos (incl el) <> 0 -> derive_quantities el gm = Ret d ->
  let a := q_ el / (1 - ecc_ el) in
  let M := sqrt (gm / (a * a * a)) * (t - perih_time el) in
  let p := to_perihelion (asc_node el) (incl el) (arg_per el) in
  let s := to_quarter (asc_node el) (incl el) (arg_per el) in
  let w := to_pole (asc_node el) (incl el) (arg_per el) in
  (forall k, (0 <= k)%Z -> M <> - PI * (2 * IZR k + 1)) ->
  exists E v n, Rabs (E - ecc_ el * sin E - M) <= 1 / 10 ^ 24 /\
    let loc := at_point p s (ellipse (q_ el) (ecc_ el) E) in
    on_orbit gm (q_ el) (ecc_ el) p w loc v /\
    forall fuel, (n <= fuel)%nat -> comet_posn_and_vel fuel d t = Ret (loc, length_of loc, Some v).
Proof.
  intros el gm d t Hq He Hg Hi HD a M p s w HM. destruct (run_ellipse el gm d t Hq ltac:(lra) Hg Hi HD) as [R1 R2]. cbv zeta in R1, R2. fold a M p s w in R1, R2.
  destruct (C53_kepler_proof (ecc_ el) (half_turn M) He (half_turn_not M HM)) as (E & n & K1 & K2). destruct (half_turn_turns M) as [k KE].
  destruct (R2 E) as (v & V1 & V2). exists (E + 2 * PI * IZR (- k)), v, n. rewrite turns_sin, ellipse_turns. split; [|split; [exact V2|]].
  - rewrite opp_IZR. replace (E + 2 * PI * - IZR k - ecc_ el * sin E - M) with (E - ecc_ el * sin E - half_turn M) by lra. exact K1.
  - intros fuel F. rewrite R1, (K2 fuel F). exact V1.
Qed.

Lemma C53_near_parabolic_ellipse_partial_proof :
forall el gm d t fuel loc r vel, 0 < q_ el -> 9 / 10 <= ecc_ el < 1 -> 0 < gm -> cos (incl el) <> 0 -> derive_quantities el gm = Ret d ->
  let a := q_ el / (1 - ecc_ el) in
  let M := sqrt (gm / (a * a * a)) * (t - perih_time el) in
  let p := to_perihelion (asc_node el) (incl el) (arg_per el) in
  let s := to_quarter (asc_node el) (incl el) (arg_per el) in
  let w := to_pole (asc_node el) (incl el) (arg_per el) in
  comet_posn_and_vel fuel d t = Ret (loc, r, vel) ->
  exists E v, Rabs (E - ecc_ el * sin E - M) <= 11 / 10 ^ 16 /\ loc = at_point p s (ellipse (q_ el) (ecc_ el) E) /\
    r = length_of loc /\ vel = Some v /\ on_orbit gm (q_ el) (ecc_ el) p w loc v.
Proof.
  intros el gm d t fuel loc r vel Hq He Hg Hi HD a M p s w H. destruct (run_ellipse el gm d t Hq ltac:(lra) Hg Hi HD) as [R1 R2]. cbv zeta in R1, R2. fold a M p s w in R1, R2.
  rewrite R1 in H. destruct (kepler fuel (ecc_ el) (half_turn M)) as [E| | |] eqn:K; cbn [obind] in H; try discriminate. destruct (C53_kepler_near_parabolic_partial_proof _ _ _ _ K) as [K1 _]. specialize (K1 He). destruct (half_turn_turns M) as [k KE].
  destruct (R2 E) as (v & V1 & V2). rewrite V1 in H. injection H as <- <- <-. exists (E + 2 * PI * IZR (- k)), v. rewrite turns_sin, ellipse_turns. split; [|repeat (split; [reflexivity|]); exact V2].
  rewrite opp_IZR. replace (E + 2 * PI * - IZR k - ecc_ el * sin E - M) with (E - ecc_ el * sin E - half_turn M) by lra. exact K1.
Qed.

Definition gm_of (a : R) : R := sqrt (1 / (a * a * a)).

Lemma C53_hyperbola_partial_proof :
forall el gm d t fuel loc r vel, 0 < q_ el -> 1 < ecc_ el < 10 ^ 12 -> 0 < gm -> cos (incl el) <> 0 -> derive_quantities el gm = Ret d ->
  let a := q_ el / (ecc_ el - 1) in
  let M := sqrt (gm / (a * a * a)) * (t - perih_time el) in
  let p := to_perihelion (asc_node el) (incl el) (arg_per el) in
  let s := to_quarter (asc_node el) (incl el) (arg_per el) in
  let w := to_pole (asc_node el) (incl el) (arg_per el) in
  comet_posn_and_vel fuel d t = Ret (loc, r, vel) ->
  exists H v, Rabs (ecc_ el * sinh H - H - M) <= (1 / 10 ^ 15 + ecc_ el * (ecc_ el * ecc_ el) / 10 ^ 24) * cosh (Rabs H + 1) /\
    loc = at_point p s (hyperbola (q_ el) (ecc_ el) H) /\
    r = length_of loc /\ vel = Some v /\ on_orbit gm (q_ el) (ecc_ el) p w loc v.
Proof.
  intros el gm d t fuel loc r vel Hq He Hg Hi HD a M p s w X.
  destruct (derive_ok el gm Hq ltac:(lra) Hg Hi) as (d' & HD' & D1 & D2 & D3 & D4 & D5 & D6 & D7 & D8 & _). rewrite HD in HD'. injection HD' as <-.
  destruct D8 as [A0 D8]; [lra|]. rewrite (Rabs_left (1 - ecc_ el)) in A0, D8 by lra. replace (- (1 - ecc_ el)) with (ecc_ el - 1) in A0, D8 by ring. fold a in A0, D8. destruct (period a gm A0 Hg) as [P0 P1].
  unfold comet_posn_and_vel in X. rewrite D3 in X. destruct (Reqb_spec (ecc_ el) 1); [lra|]. cbn [negb] in X. rewrite D8, D1, c_div_ok in X by lra. cbn [obind] in X. rewrite P1 in X. fold M in X. destruct (Rltb_spec (ecc_ el) 1); [lra|].
  unfold comet_posn_part_ii in X. cbn [ecc_ set_mean_anomaly mean_anomaly minor_to_major q_ angular_momentum perih_vec sideways] in X. rewrite D3 in X. destruct (Reqb_spec (ecc_ el) 1); [lra|]. destruct (Rltb_spec 1 (ecc_ el)); [|lra].
  destruct (kepler fuel (ecc_ el) M) as [H| | |] eqn:K; cbv zeta in X; cbn [obind] in X; try discriminate. destruct (C53_kepler_near_parabolic_partial_proof _ _ _ _ K) as [_ K1]. specialize (K1 He).
  rewrite D7, (Rabs_left (1 - ecc_ el * ecc_ el)) in X by nra. replace (- (1 - ecc_ el * ecc_ el)) with (ecc_ el * ecc_ el - 1) in X by ring.
  destruct (hyperbola_point (q_ el) (ecc_ el) H Hq ltac:(lra)) as [N Y]. cbv zeta in N, Y. set (nu := atan2 (sinh H * sqrt (ecc_ el * ecc_ el - 1)) (ecc_ el - cosh H)) in *.
  assert (F : exists v, rest_of d nu = Ret (at_point p s (hyperbola (q_ el) (ecc_ el) H), length_of (at_point p s (hyperbola (q_ el) (ecc_ el) H)), Some v) /\ on_orbit gm (q_ d) (ecc_ d) p w (at_point p s (hyperbola (q_ el) (ecc_ el) H)) v).
  { apply finish; rewrite ?D2, ?D3; try assumption; try lra. apply orbit_frame. }
  destruct F as (v & V1 & V2). rewrite D2, D3 in V2. unfold rest_of in V1. rewrite D3 in V1. cbv zeta in V1, X. rewrite V1 in X. injection X as <- <- <-. exists H, v. repeat (split; [first [exact K1|reflexivity]|]). exact V2.
Qed.

Lemma C53_parabola_proof :
forall el gm d t fuel, 0 < q_ el -> ecc_ el = 1 -> 0 < gm -> cos (incl el) <> 0 -> derive_quantities el gm = Ret d ->
  let q := q_ el in
  let p := to_perihelion (asc_node el) (incl el) (arg_per el) in
  let s := to_quarter (asc_node el) (incl el) (arg_per el) in
  let w := to_pole (asc_node el) (incl el) (arg_per el) in
  exists k v, k + k * k * k / 3 = sqrt (gm / (2 * (q * q * q))) * (t - perih_time el) /\
    let loc := at_point p s (parabola q k) in
    on_orbit gm q 1 p w loc v /\ comet_posn_and_vel fuel d t = Ret (loc, length_of loc, Some v).
Proof.
  intros el gm d t fuel Hq He Hg Hi HD q p s w.
  destruct (derive_ok el gm Hq ltac:(lra) Hg Hi) as (d' & HD' & D1 & D2 & D3 & D4 & D5 & D6 & D7 & _ & D8). rewrite HD in HD'. injection HD' as <-. specialize (D8 He). rewrite He in *.
  unfold comet_posn_and_vel, comet_posn_part_ii. rewrite D3. destruct (Reqb_spec 1 1); [|lra]. cbn [negb obind]. rewrite D1, D8. fold q in D2, D6, Hq |- *.
  set (g := 3 / sqrt 2 / (q * sqrt (q / gm)) * (t - perih_time el) * (1 / 2)). destruct (barker g) as [Y B]. cbv zeta in Y, B. set (k := CUBE_ROOT (g + sqrt (g * g + 1)) - 1 / CUBE_ROOT (g + sqrt (g * g + 1))) in *.
  destruct (parabola_point q k Hq) as [N X]. cbv zeta in N, X. set (nu := 2 * atan k) in *.
  assert (F : exists v, rest_of d nu = Ret (at_point p s (parabola q k), length_of (at_point p s (parabola q k)), Some v) /\ on_orbit gm (q_ d) (ecc_ d) p w (at_point p s (parabola q k)) v).
  { apply finish; rewrite ?D2, ?D3; try assumption; try lra. apply orbit_frame. }
  destruct F as (v & V1 & V2). rewrite D2, D3 in V2. unfold rest_of in V1. rewrite D3 in V1. exists k, v. split; [|split; [exact V2|exact V1]].
  assert (P : 0 < q / gm) by (apply Rdiv_lt_0_compat; lra). pose proof (sqrt_lt_R0 _ P) as S0. assert (S2 : 0 < sqrt 2) by (apply sqrt_lt_R0; lra).
  assert (E : sqrt (gm / (2 * (q * q * q))) = 1 / (sqrt 2 * (q * sqrt (q / gm)))).
  { assert (A2 : 0 < sqrt 2 * (q * sqrt (q / gm))) by (repeat apply Rmult_lt_0_compat; lra). rewrite <- (sqrt_square (1 / (sqrt 2 * (q * sqrt (q / gm))))) by (apply Rlt_le, Rdiv_lt_0_compat; lra). f_equal.
    replace (1 / (sqrt 2 * (q * sqrt (q / gm))) * (1 / (sqrt 2 * (q * sqrt (q / gm))))) with (1 / ((sqrt 2 * sqrt 2) * (q * q * (sqrt (q / gm) * sqrt (q / gm))))) by (field; lra). rewrite !sqrt_sqrt by lra. field. lra. }
  rewrite E. replace (k + k * k * k / 3) with ((k * k * k + 3 * k) / 3) by field. rewrite B. unfold g. field. lra.
Qed.
