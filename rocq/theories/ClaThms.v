(** Theorems of C54 with their proofs; PropCla.v states them again. *)
From Coq Require Import Lia.
From Verif Require Import TrigBase OrbModel OrbSpec OrbProofs OrbKepler OrbSeries OrbNewton OrbThms ClaModel ClaSpec ClaProofs ClaOrbit ClaRun.
Local Open Scope R_scope.

Lemma orbit_of gm r v P : 0 < gm -> momentum r v <> (0, 0, 0) -> let e := length_of (ecc_vector gm r v) in let h := momentum r v in
  scale e P = ecc_vector gm r v -> let q := dot h h / gm / (1 + e) in 0 < q /\ length_of h = sqrt (gm * q * (1 + e)) /\ on_orbit gm q e P (unit_of h) r v.
Proof.
  intros Hg N e h PE q. destruct (ecc_facts gm r v Hg N) as (_ & _ & P0 & _). cbv zeta in P0. fold h in P0. assert (e0 : 0 <= e) by apply length_pos.
  assert (H0 : 0 < length_of h) by (apply length_nonzero; exact N). assert (Q0 : 0 < q) by (apply Rdiv_lt_0_compat; lra).
  assert (L : length_of h = sqrt (gm * q * (1 + e))). { unfold length_of at 1. f_equal. unfold q. field. split; lra. }
  split; [exact Q0|]. split; [exact L|]. unfold on_orbit. rewrite <- L. split; [|symmetry; exact PE].
  unfold unit_of. rewrite scale_scale. replace (length_of h * (1 / length_of h)) with 1 by (field; lra). symmetry. apply scale_1.
Qed.
Lemma quarter h P : cross (unit_of h) P = scale (1 / length_of h) (cross h P).
Proof. unfold unit_of. apply cross_scale_l. Qed.
Lemma state_frame r v P : momentum r v <> (0, 0, 0) -> let h := momentum r v in dot P P = 1 -> dot P h = 0 ->
  frame P (cross (unit_of h) P) (unit_of h) /\ r = at_point P (cross (unit_of h) P) (dot r P, dot r (scale (1 / length_of h) (cross h P))).
Proof.
  intros N h P1 Ph. assert (H0 : 0 < length_of h) by (apply length_nonzero; exact N). assert (HH : length_of h * length_of h = dot h h) by apply length_sq.
  pose proof (plane_frame h P (length_of h) H0 HH P1 Ph) as F. rewrite quarter. split; [exact F|]. apply (in_frame P _ _ r F). rewrite dot_scale_r. assert (rh : dot r h = 0) by (unfold h, momentum; rewrite dot_sym; apply cross_l). rewrite rh. ring.
Qed.
(** Motion along the orbit, for any record with consistent fields. *)
Lemma run_any d gm p s w t : 0 < gm -> 0 < q_ d -> 0 <= ecc_ d < 1 -> frame p s w -> perih_vec d = p -> sideways d = s -> angular_momentum d = sqrt (gm * q_ d * (1 + ecc_ d)) ->
  minor_to_major d = sqrt (Rabs (1 - ecc_ d * ecc_ d)) -> let a := q_ d / (1 - ecc_ d) in t0 d = a * sqrt (a / gm) -> let M := sqrt (gm / (a * a * a)) * (t - perih_time d) in
  (forall fuel, comet_posn_and_vel fuel d t = (do E <- kepler fuel (ecc_ d) (half_turn M); rest_of d (atan2 (sin E * minor_to_major d) (cos E - ecc_ d)))) /\
  forall E, let loc := at_point p s (ellipse (q_ d) (ecc_ d) E) in exists v, rest_of d (atan2 (sin E * minor_to_major d) (cos E - ecc_ d)) = Ret (loc, length_of loc, Some v) /\ on_orbit gm (q_ d) (ecc_ d) p w loc v.
Proof.
  intros Hg Hq He F D4 D5 D6 D7 a D8 M. assert (A0 : 0 < a) by (apply Rdiv_lt_0_compat; lra). destruct (period a gm A0 Hg) as [P0 P1]. split.
  - intros fuel. unfold comet_posn_and_vel. destruct (Reqb_spec (ecc_ d) 1); [lra|]. cbn [negb]. rewrite D8, c_div_ok by lra. cbn [obind]. rewrite P1. fold M. destruct (Rltb_spec (ecc_ d) 1); [|lra].
    unfold half_turn. cbv zeta. set (hm := if Rltb PI _ then _ else _).
    unfold comet_posn_part_ii. cbn [ecc_ set_mean_anomaly mean_anomaly minor_to_major q_ angular_momentum perih_vec sideways]. destruct (Reqb_spec (ecc_ d) 1); [lra|]. destruct (Rltb_spec 1 (ecc_ d)); [lra|].
    destruct (kepler fuel (ecc_ d) hm); cbv zeta; cbn [obind]; reflexivity.
  - intros E loc. rewrite D7, (Rabs_right (1 - ecc_ d * ecc_ d)) by nra. destruct (ellipse_point (q_ d) (ecc_ d) E Hq He) as [N X]. cbv zeta in N, X. apply finish; try assumption; lra.
Qed.
Lemma run_any_low d gm p s w t : 0 < gm -> 0 < q_ d -> 0 <= ecc_ d < 9 / 10 -> frame p s w -> perih_vec d = p -> sideways d = s -> angular_momentum d = sqrt (gm * q_ d * (1 + ecc_ d)) ->
  minor_to_major d = sqrt (Rabs (1 - ecc_ d * ecc_ d)) -> let a := q_ d / (1 - ecc_ d) in t0 d = a * sqrt (a / gm) -> let M := sqrt (gm / (a * a * a)) * (t - perih_time d) in
  (forall k, (0 <= k)%Z -> M <> - PI * (2 * IZR k + 1)) ->
  exists E v n, Rabs (E - ecc_ d * sin E - M) <= 1 / 10 ^ 24 /\ let loc := at_point p s (ellipse (q_ d) (ecc_ d) E) in
    on_orbit gm (q_ d) (ecc_ d) p w loc v /\ forall fuel, (n <= fuel)%nat -> comet_posn_and_vel fuel d t = Ret (loc, length_of loc, Some v).
Proof.
  intros Hg Hq He F D4 D5 D6 D7 a D8 M HM. destruct (run_any d gm p s w t Hg Hq ltac:(lra) F D4 D5 D6 D7 D8) as [R1 R2]. cbv zeta in R1, R2. fold a M in R1.
  destruct (C53_kepler_proof (ecc_ d) (half_turn M) He (half_turn_not M HM)) as (E & n & K1 & K2). destruct (half_turn_turns M) as [k KE].
  destruct (R2 E) as (v & V1 & V2). exists (E + 2 * PI * IZR (- k)), v, n. rewrite turns_sin, ellipse_turns. split; [|split; [exact V2|]].
  - rewrite opp_IZR. replace (E + 2 * PI * - IZR k - ecc_ d * sin E - M) with (E - ecc_ d * sin E - half_turn M) by lra. exact K1.
  - intros fuel Fu. rewrite R1, (K2 fuel Fu). exact V1.
Qed.
(** The same motion described from the other side. *)
Definition flip (d : elements) : elements :=
  mk_elements (perih_time d) (q_ d) (ecc_ d) (incl d) (arg_per d) (asc_node d) (mean_anomaly d) (lon_per d) (minor_to_major d) (perih_vec d) (scale (- 1) (sideways d)) (- angular_momentum d) (major_axis d) (t0 d) (w0 d) (gm_ d).
Lemma rest_flip d nu : rest_of d nu = rest_of (flip d) (- nu).
Proof.
  unfold rest_of, flip. cbn [q_ ecc_ angular_momentum perih_vec sideways]. rewrite cos_neg, sin_neg. destruct (c_div (q_ d * (1 + ecc_ d)) (1 + ecc_ d * cos nu)) as [r| | |]; cbn [obind]; try reflexivity.
  assert (IP : forall x y, in_plane x (perih_vec d) y (sideways d) = in_plane x (perih_vec d) (- y) (scale (- 1) (sideways d))).
  { intros x y. destruct (perih_vec d) as [[p0 p1] p2], (sideways d) as [[s0 s1] s2]. unfold in_plane, scale. f_equal; [f_equal|]; ring. }
  replace (r * - sin nu) with (- (r * sin nu)) by ring. rewrite <- IP.
  assert (Q : Reqb (- angular_momentum d) 0 = Reqb (angular_momentum d) 0). { destruct (Reqb_spec (- angular_momentum d) 0), (Reqb_spec (angular_momentum d) 0); try reflexivity; lra. }
  rewrite Q. destruct (Reqb (angular_momentum d) 0); cbn [negb obind]; [reflexivity|].
  replace (ecc_ d * - sin nu * - angular_momentum d) with (ecc_ d * sin nu * angular_momentum d) by ring.
  unfold c_div. destruct (Reqb (r * r) 0); [reflexivity|]. cbn [obind]. destruct (Reqb (r * (q_ d * (1 + ecc_ d))) 0); [reflexivity|]. cbn [obind].
  match goal with |- Ret (_, _, Some (in_plane ?x _ ?y _)) = _ => rewrite (IP x y) end. f_equal. f_equal. f_equal. f_equal; unfold Rdiv; ring.
Qed.
Lemma barker_unique a b : a + a * a * a / 3 = b + b * b * b / 3 -> a = b.
Proof.
  intros H. assert (Z : (a - b) * (3 + (a * a + a * b + b * b)) = 0) by lra. apply Rmult_integral in Z. destruct Z as [Z|Z]; [lra|]. exfalso. assert (0 <= (a + b / 2) * (a + b / 2)) by apply Rle_0_sqr. assert (0 <= b * b) by apply Rle_0_sqr. lra.
Qed.
(** One velocity only goes with a place on an orbit. *)
Lemma one_velocity gm q e p w r v1 v2 : 0 < gm -> 0 < q -> 0 <= e -> dot w w = 1 -> on_orbit gm q e p w r v1 -> on_orbit gm q e p w r v2 -> v1 = v2.
Proof.
  intros Hg Hq He W [A1 B1] [A2 B2]. set (H := sqrt (gm * q * (1 + e))) in *. assert (H0 : 0 < H) by (apply sqrt_lt_R0; apply Rmult_lt_0_compat; [apply Rmult_lt_0_compat|]; lra).
  assert (X : cross v1 (scale H w) = cross v2 (scale H w)).
  { rewrite A1 in B1. rewrite A2 in B2. rewrite <- B1 in B2. set (c := scale (- (1 / length_of r)) r) in *. revert B2. generalize (cross v1 (scale H w)) (cross v2 (scale H w)) c. intros [[x0 x1] x2] [[y0 y1] y2] [[c0 c1] c2]. unfold plus, scale. intros B. injection B as E0 E1 E2.
    assert (G : forall x y z, 1 / gm * y + z = 1 / gm * x + z -> x = y). { intros x y z E. apply Rmult_eq_reg_l with (1 / gm); [lra|]. apply Rgt_not_eq. apply Rdiv_lt_0_compat; lra. }
    f_equal; [f_equal|]; eapply G; eassumption. }
  assert (V1 : dot v1 w = 0). { apply Rmult_eq_reg_l with H; [|lra]. rewrite <- dot_scale_r, <- A1, dot_sym, cross_r. ring. }
  assert (V2 : dot v2 w = 0). { apply Rmult_eq_reg_l with H; [|lra]. rewrite <- dot_scale_r, <- A2, dot_sym, cross_r. ring. }
  assert (BAC : forall v, dot v w = 0 -> v = scale (1 / H) (cross w (cross v (scale H w)))).
  { intros [[x y] z] D. destruct w as [[w0 w1] w2]. unfold cross, scale, dot in *. 
    assert (E : forall u k, u = 1 / H * (H * (u * (w0 * w0 + w1 * w1 + w2 * w2) - k * (x * w0 + y * w1 + z * w2)))) by (intros u k; rewrite W, D; field; lra).
    f_equal; [f_equal|]; [rewrite (E x w0) at 1|rewrite (E y w1) at 1|rewrite (E z w2) at 1]; ring. }
  rewrite (BAC v1 V1), (BAC v2 V2), X. reflexivity.
Qed.
Lemma chord q e E F : 0 < q -> 0 <= e < 1 -> let '(x, y) := ellipse q e E in let '(u, v) := ellipse q e F in let a := q / (1 - e) in
  sqrt ((x - u) * (x - u) + (y - v) * (y - v)) <= a * Rabs (E - F).
Proof.
  intros Hq He. unfold ellipse. cbv zeta. set (a := q / (1 - e)). assert (A0 : 0 < a) by (apply Rdiv_lt_0_compat; lra).
  assert (MM : sqrt (1 - e * e) * sqrt (1 - e * e) = 1 - e * e) by (apply sqrt_sqrt; nra). set (m := sqrt (1 - e * e)) in *.
  assert (0 <= Rabs (E - F)) by apply Rabs_pos. rewrite <- (sqrt_square (a * Rabs (E - F))) by (apply Rmult_le_pos; lra). apply sqrt_le_1_alt.
  replace ((a * (cos E - e) - a * (cos F - e)) * (a * (cos E - e) - a * (cos F - e)) + (a * m * sin E - a * m * sin F) * (a * m * sin E - a * m * sin F))
    with (a * a * ((cos E - cos F) * (cos E - cos F) + (m * m) * ((sin E - sin F) * (sin E - sin F)))) by ring.
  replace (a * Rabs (E - F) * (a * Rabs (E - F))) with (a * a * (Rabs (E - F) * Rabs (E - F))) by ring. apply Rmult_le_compat_l; [nra|].
  assert (RA : Rabs (E - F) * Rabs (E - F) = (E - F) * (E - F)) by (symmetry; apply (Rsqr_abs (E - F))). rewrite RA.
  assert (S1 : 0 <= (sin E - sin F) * (sin E - sin F)) by apply Rle_0_sqr. assert (m * m <= 1) by (rewrite MM; nra).
  assert (CS : (cos E - cos F) * (cos E - cos F) + (sin E - sin F) * (sin E - sin F) <= (E - F) * (E - F)); [|nra].
  assert (EQ : (cos E - cos F) * (cos E - cos F) + (sin E - sin F) * (sin E - sin F) = 4 * (sin ((E - F) / 2) * sin ((E - F) / 2))).
  { pose proof (sc E) as S_E. pose proof (sc F) as S_F. pose proof (cos_minus E F) as CM. assert (C2 : cos (E - F) = 1 - 2 * sin ((E - F) / 2) * sin ((E - F) / 2)) by (rewrite <- cos_2a_sin; f_equal; field). nra. }
  rewrite EQ. assert (SB : Rabs (sin ((E - F) / 2)) <= Rabs ((E - F) / 2)).
  { set (z := (E - F) / 2). destruct (Rle_or_lt 0 z) as [Z|Z].
    - rewrite (Rabs_right z) by lra. destruct (Req_dec z 0) as [->|NZ]; [rewrite sin_0, Rabs_R0; lra|]. pose proof (sin_lt_x z ltac:(lra)). apply Rabs_le. split; [|lra]. destruct (Rle_or_lt z PI) as [L|L]; [pose proof (sin_ge_0 z Z L); lra|pose proof (SIN_bound z); pose proof PI2_1; lra].
    - rewrite (Rabs_left z) by lra. rewrite <- (Rabs_Ropp (sin z)), <- sin_neg. pose proof (sin_lt_x (- z) ltac:(lra)). apply Rabs_le. split; [|lra]. destruct (Rle_or_lt (- z) PI) as [L|L]; [pose proof (sin_ge_0 (- z) ltac:(lra) L); lra|pose proof (SIN_bound (- z)); pose proof PI2_1; lra]. }
  assert (Q : sin ((E - F) / 2) * sin ((E - F) / 2) <= (E - F) / 2 * ((E - F) / 2)); [|lra]. apply (Rsqr_le_abs_1 (sin ((E - F) / 2)) ((E - F) / 2)). exact SB.
Qed.
Lemma kepler_close e E F : 0 <= e < 1 -> (1 - e) * Rabs (E - F) <= Rabs ((E - e * sin E) - (F - e * sin F)).
Proof.
  intros He. assert (S : Rabs (sin E - sin F) <= Rabs (E - F)).
  { destruct (Req_dec E F) as [->|N]; [unfold Rminus; rewrite !Rplus_opp_r; lra|]. destruct (MVT_abs sin cos F E) as (c & H & _); [intros; apply derivable_pt_lim_sin|]. rewrite H. pose proof (COS_bound c). assert (Rabs (cos c) <= 1) by (apply Rabs_le; lra). pose proof (Rabs_pos (E - F)). nra. }
  replace (E - e * sin E - (F - e * sin F)) with ((E - F) - e * (sin E - sin F)) by ring. pose proof (Rabs_triang_inv (E - F) (e * (sin E - sin F))) as T. rewrite Rabs_mult, (Rabs_right e) in T by lra. pose proof (Rabs_pos (sin E - sin F)). nra.
Qed.
Lemma distance_frame p s w x y u v : frame p s w -> length_of (plus (at_point p s (x, y)) (scale (- 1) (at_point p s (u, v)))) = sqrt ((x - u) * (x - u) + (y - v) * (y - v)).
Proof.
  intros F. assert (E : plus (at_point p s (x, y)) (scale (- 1) (at_point p s (u, v))) = in_plane (x - u) p (y - v) s).
  { destruct p as [[p0 p1] p2], s as [[s0 s1] s2]. unfold at_point, plus, scale, in_plane. cbn [fst snd]. f_equal; [f_equal|]; ring. }
  rewrite E. unfold length_of. destruct (dot_plane (x - u) (y - v) p s w F) as (_ & _ & D). rewrite D. reflexivity.
Qed.
Lemma not_half_turn e E : 0 <= e < 1 -> - PI < E <= PI -> forall k, (0 <= k)%Z -> E - e * sin E <> - PI * (2 * IZR k + 1).
Proof.
  intros He B k K H. set (F := - PI * (2 * IZR k + 1)) in *. assert (SF : sin F = 0). { unfold F. replace (- PI * (2 * IZR k + 1)) with (- PI + 2 * PI * IZR (- k)) by (rewrite opp_IZR; ring). rewrite turns_sin, sin_neg, sin_PI. ring. }
  pose proof (kepler_close e E F He) as C. rewrite SF in C. replace (E - e * sin E - (F - e * 0)) with 0 in C by lra. rewrite Rabs_R0 in C. pose proof (Rabs_pos (E - F)). assert (Z : Rabs (E - F) = 0) by nra.
  assert (E = F). { destruct (Req_dec E F) as [|N]; [assumption|]. exfalso. apply (Rabs_no_R0 (E - F)); [lra|exact Z]. }
  assert (0 <= IZR k) by (apply IZR_le; lia). pose proof PI_RGT_0. unfold F in *. nra.
Qed.
(** A mass and places for the examples. *)
Definition mass (gm : R) : elements := mk_elements 0 0 0 0 0 0 0 0 0 (0, 0, 0) (0, 0, 0) 0 0 0 0 gm.
Lemma speed_example s : momentum (1, 0, 0) (0, 3 / 5 * s, 4 / 5 * s) = (0, - (4 / 5 * s), 3 / 5 * s) /\ ecc_vector 1 (1, 0, 0) (0, 3 / 5 * s, 4 / 5 * s) = (s * s - 1, 0, 0) /\
  length_of (ecc_vector 1 (1, 0, 0) (0, 3 / 5 * s, 4 / 5 * s)) = Rabs (s * s - 1).
Proof.
  assert (E : ecc_vector 1 (1, 0, 0) (0, 3 / 5 * s, 4 / 5 * s) = (s * s - 1, 0, 0)).
  { unfold ecc_vector, length_of, dot, cross, plus, scale. replace (1 * 1 + 0 * 0 + 0 * 0) with 1 by ring. rewrite sqrt_1. f_equal; [f_equal|]; field. }
  split; [unfold momentum, cross; f_equal; [f_equal|]; ring|]. split; [exact E|]. rewrite E. unfold length_of, dot. replace ((s * s - 1) * (s * s - 1) + 0 * 0 + 0 * 0) with (Rsqr (s * s - 1)) by (unfold Rsqr; ring). apply sqrt_Rsqr_abs.
Qed.
Lemma speed_momentum s : s <> 0 -> momentum (1, 0, 0) (0, 3 / 5 * s, 4 / 5 * s) <> (0, 0, 0).
Proof. intros N. destruct (speed_example s) as [-> _]. intros H. injection H as H1 H2. lra. Qed.

Lemma C54_orbit_proof :
forall el r v t angles, 0 < gm_ el -> cross r v <> (0, 0, 0) ->
  let e := length_of (ecc_vector (gm_ el) r v) in (e = 1 \/ 1 / 10 ^ 14 <= Rabs (e * e - 1)) ->
  exists el' n, (forall fuel, (n <= fuel)%nat -> calc_classical_elements fuel el r v t angles = Ret el') /\
    gm_ el' = gm_ el /\ 0 < q_ el' /\ ecc_ el' = e /\ dot (perih_vec el') (perih_vec el') = 1 /\ dot (perih_vec el') (cross r v) = 0 /\
    on_orbit (gm_ el) (q_ el') (ecc_ el') (perih_vec el') (unit_of (cross r v)) r v /\
    (e <= 1 -> sideways el' = cross (unit_of (cross r v)) (perih_vec el') /\ angular_momentum el' = length_of (cross r v)) /\
    (1 < e -> sideways el' = scale (- 1) (cross (unit_of (cross r v)) (perih_vec el')) /\ angular_momentum el' = - length_of (cross r v)).
Proof.
  intros el r v t angles Hg N e Sn.
  destruct (calc_ok el r v t angles Hg N Sn) as (P & n & el' & P1 & Ph & PE & RUN & G & Q & EC & PV & MM & AN & LO & HI & PA). cbv zeta in PE, RUN, Q, AN, LO, HI, PA.
  destruct (orbit_of (gm_ el) r v P Hg N PE) as (Q0 & LH & ON). cbv zeta in Q0, LH, ON. destruct (state_frame r v P N P1 Ph) as [FR RP]. cbv zeta in FR, RP.
  exists el', n. split; [exact RUN|]. split; [exact G|]. rewrite PV, Q, EC. fold e. change (cross r v) with (momentum r v). rewrite quarter. fold e in Q0, ON, LO, HI, PA. split; [exact Q0|]. split; [reflexivity|]. split; [exact P1|]. split; [exact Ph|]. split; [exact ON|]. split.
  - intros [L|L]; [destruct (LO L) as (S1 & S2 & _)|destruct (PA L) as (S1 & S2 & _)]; split; assumption.
  - intros L. destruct (HI L) as (S1 & S2 & _). split; assumption.
Qed.

Lemma C54_angles_proof :
forall el r v t, 0 < gm_ el -> cross r v <> (0, 0, 0) ->
  let e := length_of (ecc_vector (gm_ el) r v) in (e = 1 \/ 1 / 10 ^ 14 <= Rabs (e * e - 1)) ->
  let '(hx, hy, hz) := cross r v in
  exists el' n, (forall fuel, (n <= fuel)%nat -> calc_classical_elements fuel el r v t true = Ret el') /\
    to_pole (asc_node el') (incl el') (arg_per el') = unit_of (cross r v) /\
    ((hx <> 0 \/ hy <> 0 \/ 0 <= snd (fst (perih_vec el')) * hz) -> to_perihelion (asc_node el') (incl el') (arg_per el') = perih_vec el').
Proof.
  intros el r v t Hg N e Sn. set (angles := true).
  destruct (calc_ok el r v t angles Hg N Sn) as (P & n & el' & P1 & Ph & PE & RUN & G & Q & EC & PV & MM & AN & LO & HI & PA). cbv zeta in PE, RUN, Q, AN, LO, HI, PA.
  destruct (orbit_of (gm_ el) r v P Hg N PE) as (Q0 & LH & ON). cbv zeta in Q0, LH, ON. destruct (state_frame r v P N P1 Ph) as [FR RP]. cbv zeta in FR, RP.
  change (cross r v) with (momentum r v). specialize (AN eq_refl). unfold angles_from in AN. assert (H0 : 0 < length_of (momentum r v)) by (apply length_nonzero; exact N). assert (HH : length_of (momentum r v) * length_of (momentum r v) = dot (momentum r v) (momentum r v)) by apply length_sq.
  set (H := length_of (momentum r v)) in *. unfold unit_of. fold H. destruct (momentum r v) as [[hx hy] hz]. destruct P as [[ex ey] ez]. destruct AN as [A1 A2].
  destruct (angles_ok hx hy hz ex ey ez H _ _ _ H0 HH P1 Ph A1 A2) as (B1 & B2 & _). exists el', n. split; [exact RUN|]. split; [exact B1|]. rewrite PV. exact B2.
Qed.

Lemma C54_planar_refuted_proof :
forall el r v t, 0 < gm_ el -> cross r v <> (0, 0, 0) ->
  let e := length_of (ecc_vector (gm_ el) r v) in (e = 1 \/ 1 / 10 ^ 14 <= Rabs (e * e - 1)) ->
  let '(hx, hy, hz) := cross r v in hx = 0 -> hy = 0 ->
  exists el' n, (forall fuel, (n <= fuel)%nat -> calc_classical_elements fuel el r v t true = Ret el') /\
    let '(px, py, pz) := perih_vec el' in
    (py * hz < 0 -> pz = 0 /\ to_perihelion (asc_node el') (incl el') (arg_per el') = (px, - py, pz) /\ to_perihelion (asc_node el') (incl el') (arg_per el') <> perih_vec el').
Proof.
  intros el r v t Hg N e Sn. set (angles := true).
  destruct (calc_ok el r v t angles Hg N Sn) as (P & n & el' & P1 & Ph & PE & RUN & G & Q & EC & PV & MM & AN & LO & HI & PA). cbv zeta in PE, RUN, Q, AN, LO, HI, PA.
  destruct (orbit_of (gm_ el) r v P Hg N PE) as (Q0 & LH & ON). cbv zeta in Q0, LH, ON. destruct (state_frame r v P N P1 Ph) as [FR RP]. cbv zeta in FR, RP.
  change (cross r v) with (momentum r v). specialize (AN eq_refl). unfold angles_from in AN. assert (H0 : 0 < length_of (momentum r v)) by (apply length_nonzero; exact N). assert (HH : length_of (momentum r v) * length_of (momentum r v) = dot (momentum r v) (momentum r v)) by apply length_sq.
  set (H := length_of (momentum r v)) in *. destruct (momentum r v) as [[hx hy] hz]. destruct P as [[ex ey] ez]. destruct AN as [A1 A2]. intros X Y.
  destruct (angles_ok hx hy hz ex ey ez H _ _ _ H0 HH P1 Ph A1 A2) as (_ & _ & B3). exists el', n. split; [exact RUN|]. rewrite PV. intros Z. rewrite (B3 X Y Z). assert (NZ : hz <> 0) by (intros ->; lra). split; [|split; [reflexivity|]].
  - unfold dot in Ph. rewrite X, Y in Ph. apply Rmult_eq_reg_r with hz; lra.
  - intros W. injection W as W. nra.
Qed.

Lemma C54_flatten_refuted_proof :
forall e h, h <> (0, 0, 0) -> exists e', flatten e h (length_of h) = Ret e' /\ dot e' h = (1 - length_of h) * dot e h.
Proof.
  intros e h N. assert (H0 : 0 < length_of h) by (apply length_nonzero; exact N). assert (HH : length_of h * length_of h = dot h h) by apply length_sq. unfold flatten. rewrite dot_product_eq, c_div_ok by lra. cbn [obind]. eexists. split; [reflexivity|].
  transitivity (dot e h - dot e h / length_of h * dot h h).
  - destruct e as [[e0 e1] e2], h as [[h0 h1] h2]. unfold minus, times. set (k := dot (e0, e1, e2) (h0, h1, h2) / length_of (h0, h1, h2)). unfold dot. ring.
  - rewrite <- HH. field. lra.
Qed.

Lemma C54_ellipse_time_proof :
forall el r v t angles, 0 < gm_ el -> cross r v <> (0, 0, 0) ->
  let e := length_of (ecc_vector (gm_ el) r v) in e < 1 -> 1 / 10 ^ 14 <= Rabs (e * e - 1) ->
  exists el' n E, (forall fuel, (n <= fuel)%nat -> calc_classical_elements fuel el r v t angles = Ret el') /\
    let a := q_ el' / (1 - ecc_ el') in
    - PI < E <= PI /\ r = at_point (perih_vec el') (sideways el') (ellipse (q_ el') (ecc_ el') E) /\
    Rabs (sqrt (gm_ el / (a * a * a)) * (t - perih_time el') - (E - ecc_ el' * sin E)) <= 4 / 10 ^ 30.
Proof.
  intros el r v t angles Hg N e L Sn0. assert (Sn : e = 1 \/ 1 / 10 ^ 14 <= Rabs (e * e - 1)) by (right; exact Sn0).
  destruct (calc_ok el r v t angles Hg N Sn) as (P & n & el' & P1 & Ph & PE & RUN & G & Q & EC & PV & MM & AN & LO & HI & PA). cbv zeta in PE, RUN, Q, AN, LO, HI, PA.
  destruct (orbit_of (gm_ el) r v P Hg N PE) as (Q0 & LH & ON). cbv zeta in Q0, LH, ON. destruct (state_frame r v P N P1 Ph) as [FR RP]. cbv zeta in FR, RP.
  fold e in Q0, ON, LO, HI, PA, Q, EC. destruct (LO L) as (S1 & S2 & T0 & E & M & XY & B & K & _ & PT). exists el', n, E. split; [exact RUN|]. cbv zeta. rewrite PV, S1, Q, EC. split; [exact B|]. split.
  - rewrite <- XY. rewrite quarter in RP. exact RP.
  - assert (e0 : 0 <= e) by apply length_pos. set (a := dot (momentum r v) (momentum r v) / gm_ el / (1 + e) / (1 - e)) in *. assert (A0 : 0 < a) by (apply Rdiv_lt_0_compat; lra). destruct (period a (gm_ el) A0 Hg) as [D0 D1].
    rewrite <- D1, PT, T0. set (TS := a * sqrt (a / gm_ el)) in *. replace ((t - (t - M * TS)) / TS) with M by (field; lra). exact K.
Qed.

Lemma C54_hyperbola_time_proof :
forall el r v t angles, 0 < gm_ el -> cross r v <> (0, 0, 0) ->
  let e := length_of (ecc_vector (gm_ el) r v) in 1 < e -> 1 / 10 ^ 14 <= Rabs (e * e - 1) ->
  exists el' n H, (forall fuel, (n <= fuel)%nat -> calc_classical_elements fuel el r v t angles = Ret el') /\
    let a := q_ el' / (ecc_ el' - 1) in
    r = at_point (perih_vec el') (cross (unit_of (cross r v)) (perih_vec el')) (hyperbola (q_ el') (ecc_ el') H) /\
    Rabs (sqrt (gm_ el / (a * a * a)) * (t - perih_time el') - (ecc_ el' * sinh H - H)) <= ecc_ el' * Rabs H * cosh H / 10 ^ 30 /\
    (100001 / 100000 <= ecc_ el' -> sqrt (gm_ el / (a * a * a)) * (t - perih_time el') = ecc_ el' * sinh H - H).
Proof.
  intros el r v t angles Hg N e L Sn0. assert (Sn : e = 1 \/ 1 / 10 ^ 14 <= Rabs (e * e - 1)) by (right; exact Sn0).
  destruct (calc_ok el r v t angles Hg N Sn) as (P & n & el' & P1 & Ph & PE & RUN & G & Q & EC & PV & MM & AN & LO & HI & PA). cbv zeta in PE, RUN, Q, AN, LO, HI, PA.
  destruct (orbit_of (gm_ el) r v P Hg N PE) as (Q0 & LH & ON). cbv zeta in Q0, LH, ON. destruct (state_frame r v P N P1 Ph) as [FR RP]. cbv zeta in FR, RP.
  fold e in Q0, ON, LO, HI, PA, Q, EC. destruct (HI L) as (S1 & S2 & T0 & E & M & XY & K & K1 & PT). exists el', n, E. split; [exact RUN|]. cbv zeta. rewrite PV, Q, EC. split; [rewrite <- XY; exact RP|].
  set (a := dot (momentum r v) (momentum r v) / gm_ el / (1 + e) / (e - 1)) in *. assert (A0 : 0 < a) by (apply Rdiv_lt_0_compat; lra). destruct (period a (gm_ el) A0 Hg) as [D0 D1].
  assert (T : sqrt (gm_ el / (a * a * a)) * (t - perih_time el') = M). { rewrite <- D1, PT, T0, Rabs_Ropp, (Rabs_right (a * sqrt (a / gm_ el))) by lra. set (TS := a * sqrt (a / gm_ el)) in *. field. lra. }
  rewrite T. split.
  - replace (e * Rabs E * cosh E / 10 ^ 30) with (e * (Rabs E * TOL * cosh E)) by (unfold TOL; field). exact K.
  - intros Big. apply K1. unfold near_one. destruct (Rltb_spec e (100001 / 100000)); [lra|]. destruct (Rltb _ e); reflexivity.
Qed.

Lemma C54_parabola_round_trip_proof :
forall el r v t angles, 0 < gm_ el -> cross r v <> (0, 0, 0) ->
  let e := length_of (ecc_vector (gm_ el) r v) in e = 1 ->
  exists el' n, (forall fuel, (n <= fuel)%nat -> calc_classical_elements fuel el r v t angles = Ret el') /\
    (forall fuel, comet_posn_and_vel fuel el' t = Ret (r, length_of r, Some v)) /\
    forall t', let q := q_ el' in exists k v', k + k * k * k / 3 = sqrt (gm_ el / (2 * (q * q * q))) * (t' - perih_time el') /\
      let loc := at_point (perih_vec el') (sideways el') (parabola q k) in
      on_orbit (gm_ el) q 1 (perih_vec el') (unit_of (cross r v)) loc v' /\ forall fuel, comet_posn_and_vel fuel el' t' = Ret (loc, length_of loc, Some v').
Proof.
  intros el r v t angles Hg N e L. assert (Sn : e = 1 \/ 1 / 10 ^ 14 <= Rabs (e * e - 1)) by (left; exact L).
  destruct (calc_ok el r v t angles Hg N Sn) as (P & n & el' & P1 & Ph & PE & RUN & G & Q & EC & PV & MM & AN & LO & HI & PA). cbv zeta in PE, RUN, Q, AN, LO, HI, PA.
  destruct (orbit_of (gm_ el) r v P Hg N PE) as (Q0 & LH & ON). cbv zeta in Q0, LH, ON. destruct (state_frame r v P N P1 Ph) as [FR RP]. cbv zeta in FR, RP.
  fold e in Q0, ON, LO, HI, PA, Q, EC, LH. destruct (PA L) as (S1 & S2 & W0 & k0 & XY & PT). exists el', n. split; [exact RUN|]. set (q := dot (momentum r v) (momentum r v) / gm_ el / (1 + e)) in *. set (gm := gm_ el) in *.
  assert (Pq : 0 < q / gm) by (apply Rdiv_lt_0_compat; lra). pose proof (sqrt_lt_R0 _ Pq) as S0. assert (SQ2 : 0 < sqrt 2) by (apply sqrt_lt_R0; lra).
  assert (E : sqrt (gm / (2 * (q * q * q))) = 1 / (sqrt 2 * (q * sqrt (q / gm)))).
  { assert (A2 : 0 < sqrt 2 * (q * sqrt (q / gm))) by (apply Rmult_lt_0_compat; [lra|apply Rmult_lt_0_compat; lra]). rewrite <- (sqrt_square (1 / (sqrt 2 * (q * sqrt (q / gm))))) by (apply Rlt_le, Rdiv_lt_0_compat; lra). f_equal.
    replace (1 / (sqrt 2 * (q * sqrt (q / gm))) * (1 / (sqrt 2 * (q * sqrt (q / gm))))) with (1 / ((sqrt 2 * sqrt 2) * (q * q * (sqrt (q / gm) * sqrt (q / gm))))) by (field; lra). rewrite !sqrt_sqrt by lra. field. lra. }
  assert (ANY : forall t', exists k v', k + k * k * k / 3 = sqrt (gm / (2 * (q * q * q))) * (t' - perih_time el') /\
      let loc := at_point P (sideways el') (parabola q k) in on_orbit gm q 1 P (unit_of (momentum r v)) loc v' /\ forall fuel, comet_posn_and_vel fuel el' t' = Ret (loc, length_of loc, Some v')).
  { intros t'. unfold comet_posn_and_vel, comet_posn_part_ii. rewrite EC, L, Q, W0. destruct (Reqb_spec 1 1); [|lra]. cbn [negb obind].
    set (g := 3 / sqrt 2 / (q * sqrt (q / gm)) * (t' - perih_time el') * (1 / 2)). destruct (barker g) as [Y B]. cbv zeta in Y, B. set (k := CUBE_ROOT (g + sqrt (g * g + 1)) - 1 / CUBE_ROOT (g + sqrt (g * g + 1))) in *.
    destruct (parabola_point q k Q0) as [NZ X]. cbv zeta in NZ, X. set (nu := 2 * atan k) in *.
    assert (F : exists u, rest_of el' nu = Ret (at_point P (sideways el') (parabola q k), length_of (at_point P (sideways el') (parabola q k)), Some u) /\ on_orbit gm (q_ el') (ecc_ el') P (unit_of (momentum r v)) (at_point P (sideways el') (parabola q k)) u).
    { rewrite quarter in FR. apply finish; rewrite ?Q, ?EC, ?L; try assumption; try lra; try reflexivity. all: rewrite ?S1, ?S2; try assumption. rewrite LH, L. reflexivity. }
    destruct F as (v' & V1 & V2). rewrite Q, EC, L in V2. unfold rest_of in V1. rewrite Q, EC, L in V1. exists k, v'. split; [|split; [exact V2|intros fuel; exact V1]].
    rewrite E. replace (k + k * k * k / 3) with ((k * k * k + 3 * k) / 3) by field. rewrite B. unfold g. field. lra. }
  split; [|intros t'; cbv zeta; rewrite Q, PV; exact (ANY t')].
  destruct (ANY t) as (k & v' & BK & OK & RK). intros fuel. rewrite (RK fuel).
  assert (KK : k = k0). { apply barker_unique. rewrite BK, E, PT, W0. field. lra. }
  assert (RR : at_point P (sideways el') (parabola q k) = r). { rewrite KK, <- XY, S1. rewrite quarter in RP. symmetry. exact RP. }
  rewrite RR in OK |- *. do 2 f_equal. f_equal. apply (one_velocity gm q 1 P (unit_of (momentum r v)) r v' v); try assumption; try lra.
  - assert (H0 : 0 < length_of (momentum r v)) by (apply length_nonzero; exact N). unfold unit_of. rewrite dot_scale, dot_scale_r, <- length_sq. field. lra.
  - rewrite L in ON. exact ON.
Qed.

Lemma C54_ellipse_round_trip_proof :
forall el r v t angles, 0 < gm_ el -> cross r v <> (0, 0, 0) ->
  let e := length_of (ecc_vector (gm_ el) r v) in e < 9 / 10 ->
  exists el' n r' v', (forall fuel, (n <= fuel)%nat -> calc_classical_elements fuel el r v t angles = Ret el') /\
    (forall fuel, (n <= fuel)%nat -> comet_posn_and_vel fuel el' t = Ret (r', length_of r', Some v')) /\
    on_orbit (gm_ el) (q_ el') (ecc_ el') (perih_vec el') (unit_of (cross r v)) r v /\
    on_orbit (gm_ el) (q_ el') (ecc_ el') (perih_vec el') (unit_of (cross r v)) r' v' /\
    let a := q_ el' / (1 - ecc_ el') in length_of (plus r' (scale (- 1) r)) <= a / (1 - ecc_ el') / 10 ^ 24.
Proof.
  intros el r v t angles Hg N e L. assert (e0 : 0 <= e) by apply length_pos. assert (Sn : e = 1 \/ 1 / 10 ^ 14 <= Rabs (e * e - 1)) by (right; rewrite Rabs_left; nra).
  destruct (calc_ok el r v t angles Hg N Sn) as (P & n & el' & P1 & Ph & PE & RUN & G & Q & EC & PV & MM & AN & LO & HI & PA). cbv zeta in PE, RUN, Q, AN, LO, HI, PA.
  destruct (orbit_of (gm_ el) r v P Hg N PE) as (Q0 & LH & ON). cbv zeta in Q0, LH, ON. destruct (state_frame r v P N P1 Ph) as [FR RP]. cbv zeta in FR, RP.
  fold e in Q0, ON, LO, HI, PA, Q, EC, LH, MM. destruct (LO ltac:(lra)) as (S1 & S2 & T0 & E & M & XY & B & _ & K & PT). set (q := dot (momentum r v) (momentum r v) / gm_ el / (1 + e)) in *.
  assert (KM : M = E - e * sin E). { apply K. unfold near_one. destruct (Rltb_spec (99999 / 100000) e); [lra|reflexivity]. }
  rewrite <- Q, <- EC in T0. rewrite quarter in FR.
  assert (AM : angular_momentum el' = sqrt (gm_ el * q_ el' * (1 + ecc_ el'))) by (rewrite S2, Q, EC; exact LH).
  set (a := q_ el' / (1 - ecc_ el')) in *. assert (A0 : 0 < a) by (unfold a; rewrite Q, EC; apply Rdiv_lt_0_compat; lra). destruct (period a (gm_ el) A0 Hg) as [D0 D1].
  assert (T : sqrt (gm_ el / (a * a * a)) * (t - perih_time el') = M). { rewrite <- D1, PT, T0. set (TS := a * sqrt (a / gm_ el)) in *. field. lra. }
  destruct (run_any_low el' (gm_ el) P _ _ t Hg ltac:(rewrite Q; exact Q0) ltac:(rewrite EC; lra) FR PV S1 AM ltac:(rewrite MM, EC; reflexivity) T0) as (F & v' & n' & KF & OF & RF).
  { fold a. rewrite T, KM. apply not_half_turn; lra. }
  cbv zeta in OF, RF. fold a in KF. rewrite T in KF. exists el', (Nat.max n n'), (at_point P (scale (1 / length_of (momentum r v)) (cross (momentum r v) P)) (ellipse (q_ el') (ecc_ el') F)), v'.
  split; [intros fuel Fu; apply RUN; lia|]. split; [intros fuel Fu; apply RF; lia|]. rewrite PV. split; [rewrite Q, EC; exact ON|]. split; [exact OF|]. cbv zeta. fold a.
  rewrite quarter in RP. rewrite XY in RP. rewrite RP at 3. rewrite <- Q, <- EC in *.
  pose proof (chord (q_ el') (ecc_ el') F E Q0 ltac:(lra)) as CH. destruct (ellipse (q_ el') (ecc_ el') F) as [x1 y1]. destruct (ellipse (q_ el') (ecc_ el') E) as [x2 y2]. cbv zeta in CH. fold a in CH.
  rewrite (distance_frame P _ _ x1 y1 x2 y2 FR). apply Rle_trans with (1 := CH).
  pose proof (kepler_close (ecc_ el') F E ltac:(lra)) as KC. rewrite <- KM in KC. replace (a / (1 - ecc_ el') / 10 ^ 24) with (a * (1 / 10 ^ 24 / (1 - ecc_ el'))) by (field; lra). apply Rmult_le_compat_l; [lra|].
  apply Rmult_le_reg_l with (1 - ecc_ el'); [lra|]. replace ((1 - ecc_ el') * (1 / 10 ^ 24 / (1 - ecc_ el'))) with (1 / 10 ^ 24) by (field; lra). lra.
Qed.

Lemma C54_propagate_proof :
forall el r v t angles, 0 < gm_ el -> cross r v <> (0, 0, 0) ->
  let e := length_of (ecc_vector (gm_ el) r v) in e < 9 / 10 ->
  exists el' n, (forall fuel, (n <= fuel)%nat -> calc_classical_elements fuel el r v t angles = Ret el') /\
    forall t', let a := q_ el' / (1 - ecc_ el') in let M := sqrt (gm_ el / (a * a * a)) * (t' - perih_time el') in
    (forall k, (0 <= k)%Z -> M <> - PI * (2 * IZR k + 1)) ->
    exists E r' v' n', Rabs (E - ecc_ el' * sin E - M) <= 1 / 10 ^ 24 /\ r' = at_point (perih_vec el') (sideways el') (ellipse (q_ el') (ecc_ el') E) /\
      cross r' v' = cross r v /\ ecc_vector (gm_ el) r' v' = ecc_vector (gm_ el) r v /\
      forall fuel, (n' <= fuel)%nat -> comet_posn_and_vel fuel el' t' = Ret (r', length_of r', Some v').
Proof.
  intros el r v t angles Hg N e L. assert (e0 : 0 <= e) by apply length_pos. assert (Sn : e = 1 \/ 1 / 10 ^ 14 <= Rabs (e * e - 1)) by (right; rewrite Rabs_left; nra).
  destruct (calc_ok el r v t angles Hg N Sn) as (P & n & el' & P1 & Ph & PE & RUN & G & Q & EC & PV & MM & AN & LO & HI & PA). cbv zeta in PE, RUN, Q, AN, LO, HI, PA.
  destruct (orbit_of (gm_ el) r v P Hg N PE) as (Q0 & LH & ON). cbv zeta in Q0, LH, ON. destruct (state_frame r v P N P1 Ph) as [FR RP]. cbv zeta in FR, RP.
  fold e in Q0, ON, LO, HI, PA, Q, EC, LH, MM. destruct (LO ltac:(lra)) as (S1 & S2 & T0 & _). set (q := dot (momentum r v) (momentum r v) / gm_ el / (1 + e)) in *.
  exists el', n. split; [exact RUN|]. intros t'. rewrite <- Q, <- EC in T0. rewrite quarter in FR. cbv zeta. rewrite PV, S1.
  assert (AM : angular_momentum el' = sqrt (gm_ el * q_ el' * (1 + ecc_ el'))) by (rewrite S2, Q, EC; exact LH). intros NM.
  destruct (run_any_low el' (gm_ el) P _ _ t' Hg ltac:(rewrite Q; exact Q0) ltac:(rewrite EC; lra) FR PV S1 AM ltac:(rewrite MM, EC; reflexivity) T0 NM) as (F & v' & n' & KF & OF & RF).
  eexists F, _, v', n'. split; [exact KF|]. split; [reflexivity|]. cbv zeta in OF. destruct OF as [O1 O2]. destruct ON as [O3 O4]. rewrite Q, EC in O1. split; [rewrite Q, EC, O1, O3; reflexivity|]. split; [|exact RF].
  unfold ecc_vector at 1. rewrite O2, EC. exact PE.
Qed.

Lemma C54_hyperbola_propagate_partial_proof :
forall el r v t angles, 0 < gm_ el -> cross r v <> (0, 0, 0) ->
  let e := length_of (ecc_vector (gm_ el) r v) in 1 < e < 10 ^ 12 -> 1 / 10 ^ 14 <= Rabs (e * e - 1) ->
  exists el' n, (forall fuel, (n <= fuel)%nat -> calc_classical_elements fuel el r v t angles = Ret el') /\
    forall t' fuel r' d vel, comet_posn_and_vel fuel el' t' = Ret (r', d, vel) ->
    let a := q_ el' / (ecc_ el' - 1) in let M := sqrt (gm_ el / (a * a * a)) * (t' - perih_time el') in
    exists H v', Rabs (ecc_ el' * sinh H - H - M) <= (1 / 10 ^ 15 + ecc_ el' * (ecc_ el' * ecc_ el') / 10 ^ 24) * cosh (Rabs H + 1) /\
      r' = at_point (perih_vec el') (cross (unit_of (cross r v)) (perih_vec el')) (hyperbola (q_ el') (ecc_ el') H) /\ d = length_of r' /\ vel = Some v' /\
      cross r' v' = cross r v /\ ecc_vector (gm_ el) r' v' = ecc_vector (gm_ el) r v.
Proof.
  intros el r v t angles Hg N e L Sn0. assert (Sn : e = 1 \/ 1 / 10 ^ 14 <= Rabs (e * e - 1)) by (right; exact Sn0).
  destruct (calc_ok el r v t angles Hg N Sn) as (P & n & el' & P1 & Ph & PE & RUN & G & Q & EC & PV & MM & AN & LO & HI & PA). cbv zeta in PE, RUN, Q, AN, LO, HI, PA.
  destruct (orbit_of (gm_ el) r v P Hg N PE) as (Q0 & LH & ON). cbv zeta in Q0, LH, ON. destruct (state_frame r v P N P1 Ph) as [FR RP]. cbv zeta in FR, RP.
  fold e in Q0, ON, LO, HI, PA, Q, EC, LH, MM. destruct (HI ltac:(lra)) as (S1 & S2 & T0 & _). set (q := dot (momentum r v) (momentum r v) / gm_ el / (1 + e)) in *.
  exists el', n. split; [exact RUN|]. intros t' fuel r' d vel X. cbv zeta. rewrite PV, Q, EC. set (a := q / (e - 1)) in *. assert (A0 : 0 < a) by (apply Rdiv_lt_0_compat; lra). destruct (period a (gm_ el) A0 Hg) as [D0 D1].
  set (M := sqrt (gm_ el / (a * a * a)) * (t' - perih_time el')).
  unfold comet_posn_and_vel in X. rewrite EC in X. destruct (Reqb_spec e 1); [lra|]. cbn [negb] in X. rewrite T0, c_div_ok in X by lra. cbn [obind] in X. destruct (Rltb_spec e 1); [lra|].
  replace ((t' - perih_time el') / - (a * sqrt (a / gm_ el))) with (- M) in X by (unfold M; rewrite <- D1; set (TS := a * sqrt (a / gm_ el)) in *; field; lra).
  unfold comet_posn_part_ii in X. cbn [ecc_ set_mean_anomaly mean_anomaly minor_to_major q_ angular_momentum perih_vec sideways] in X. rewrite EC in X. destruct (Reqb_spec e 1); [lra|]. destruct (Rltb_spec 1 e); [|lra].
  destruct (kepler fuel e (- M)) as [H| | |] eqn:K; cbv zeta in X; cbn [obind] in X; try discriminate. destruct (C53_kepler_near_parabolic_partial_proof _ _ _ _ K) as [_ K1]. specialize (K1 L).
  rewrite MM, (Rabs_left (1 - e * e)) in X by nra. replace (- (1 - e * e)) with (e * e - 1) in X by ring.
  destruct (hyperbola_point q e H Q0 ltac:(lra)) as [NZ Y]. cbv zeta in NZ, Y. set (nu := atan2 (sinh H * sqrt (e * e - 1)) (e - cosh H)) in *.
  assert (HN : hyperbola q e (- H) = (fst (hyperbola q e H), - snd (hyperbola q e H))) by (unfold hyperbola; rewrite cosh_even, sinh_odd; cbn [fst snd]; f_equal; ring).
  set (S := cross (unit_of (momentum r v)) P) in *.
  assert (SF : scale (- 1) (sideways el') = S). { unfold S. rewrite S1, scale_scale, quarter. replace (- 1 * - 1) with 1 by ring. apply scale_1. }
  assert (F : exists u, rest_of (flip el') (- nu) = Ret (at_point P S (hyperbola q e (- H)), length_of (at_point P S (hyperbola q e (- H))), Some u) /\ on_orbit (gm_ el) (q_ (flip el')) (ecc_ (flip el')) P (unit_of (momentum r v)) (at_point P S (hyperbola q e (- H))) u).
  { apply finish; cbn [flip q_ ecc_ perih_vec sideways angular_momentum]; rewrite ?Q, ?EC, ?S2, ?cos_neg, ?sin_neg; try assumption; try lra.
    rewrite HN, <- Y. cbn [fst snd]. f_equal. ring. }
  rewrite <- rest_flip in F. destruct F as (v' & V1 & V2). cbn [flip q_ ecc_] in V2. rewrite Q, EC in V2. unfold rest_of in V1. rewrite EC in V1. cbv zeta in V1, X. rewrite V1 in X. injection X as <- <- <-.
  exists (- H), v'. rewrite sinh_odd, Rabs_Ropp. split; [replace (e * - sinh H - - H - M) with (- (e * sinh H - H - - M)) by ring; rewrite Rabs_Ropp; exact K1|]. split; [reflexivity|]. split; [reflexivity|]. split; [reflexivity|].
  destruct V2 as [O1 O2]. destruct ON as [O3 O4]. split; [rewrite O1, O3; reflexivity|]. unfold ecc_vector at 1. rewrite O2. exact PE.
Qed.
