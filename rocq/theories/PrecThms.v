(** Proofs of the theorems stated in [PropPrec]. *)
From Coq Require Import Lia.
From Verif Require Import TrigBase RotModel RotSpec RotProofs RotThms PrecModel PrecSpec PrecProofs.
Open Scope list_scope.

Lemma app_inv m v : rotation m -> length v = 3%nat -> app (tr m) (app m v) = v.
Proof. intros [(L & A & B) _] Lv. rewrite <- app_mul, B, app_ident by assumption. reflexivity. Qed.
Lemma rot_len m : rotation m -> length m = 9%nat.
Proof. intros [(L & _) _]. exact L. Qed.
Lemma not_sentinel_sym a b : ~ sentinel a b -> ~ sentinel b a.
Proof. unfold sentinel. tauto. Qed.

Lemma C34_ecliptic_proof :
  forall s m a b, reachable s -> length m = 9%nat -> ~ sentinel a b ->
  exists s', setup_ecliptic_precession s m a b = Ret (precession a b, s') /\ rotation (precession a b).
Proof.
  intros s m a b Hs L NS. destruct (ecliptic_ok s m a b (reachable_inv _ Hs) L) as (r & s' & E & _ & _ & Er).
  rewrite Er in E by assumption. exists s'. split; [assumption|apply prec_rot].
Qed.

Lemma C34_from_2000_proof :
  forall y, 1 / 100000 <= Rabs (y - 2000) ->
  precession 2000 y = from_2000 y /\ precession y 2000 = tr (from_2000 y) /\ rotation (from_2000 y).
Proof.
  intros y Hy. unfold precession. rewrite (Rabs_minus_sym 2000 y). destruct (Rlt_dec _ _); [lra|]. rewrite from_2000_2000, tr_ident.
  rewrite mul_1_l, mul_1_r by reflexivity. split; [reflexivity|]. split; [reflexivity|apply from_2000_rot].
Qed.

Lemma C34_ecliptic_inverse_proof :
  forall s a b m1 r1 s1 s2 m2 v w w', reachable s -> ~ sentinel a b ->
  length m1 = 9%nat -> length m2 = 9%nat -> length v = 3%nat -> length w = 3%nat -> length w' = 3%nat ->
  setup_ecliptic_precession s m1 a b = Ret (r1, s1) -> later s1 s2 ->
  exists r2 s3 v', setup_ecliptic_precession s2 m2 b a = Ret (r2, s3) /\ mul r2 r1 = ident /\ mul r1 r2 = ident /\
    precess_vector r1 v w = Ret v' /\ precess_vector r2 v' w' = Ret v.
Proof.
  intros s a b m1 r1 s1 s2 m2 v w w' Hs NS L1 L2 Lv Lw Lw' E1 Hl.
  destruct (ecliptic_ok s m1 a b (reachable_inv _ Hs) L1) as (r & s' & E & I & _ & Er). rewrite Er in E by assumption.
  rewrite E in E1. inversion E1. subst r1 s1. clear E1.
  destruct (ecliptic_ok s2 m2 b a (later_inv _ _ Hl I) L2) as (r2 & s3 & E2 & _ & _ & Er2). rewrite Er2 in E2 by (apply not_sentinel_sym; assumption).
  rewrite prec_tr in E2. exists (tr (precession a b)), s3, (app (precession a b) v). split; [assumption|].
  destruct (prec_rot a b) as [(L9 & A & B) D]. split; [assumption|]. split; [assumption|].
  rewrite !precess_ok by (assumption || reflexivity). split; [reflexivity|]. f_equal. apply app_inv; [apply prec_rot|assumption].
Qed.

Lemma C34_equatorial_inverse_proof :
  forall s a b m1 m2 v w w', reachable s -> ~ sentinel a b ->
  length m1 = 9%nat -> length m2 = 9%nat -> length v = 3%nat -> length w = 3%nat -> length w' = 3%nat ->
  exists r1 s1, setup_precession s m1 a b = Ret (r1, s1) /\ rotation r1 /\
    forall s2, later s1 s2 ->
    exists r2 s3 v', setup_precession s2 m2 b a = Ret (r2, s3) /\ mul r2 r1 = ident /\ mul r1 r2 = ident /\
      precess_vector r1 v w = Ret v' /\ precess_vector r2 v' w' = Ret v.
Proof.
  intros s a b m1 m2 v w w' Hs NS L1 L2 Lv Lw Lw'.
  destruct (equatorial_ok s m1 a b (reachable_inv _ Hs) L1) as (r1 & s1 & E1 & I & _ & Er). rewrite Er in E1 by assumption. clear r1 Er.
  assert (R : rotation (tilt (obliquity (cen a)) (obliquity (cen b)) (precession a b))) by (apply tilt_rot, prec_rot).
  eexists. exists s1. split; [eassumption|]. split; [assumption|]. intros s2 Hl.
  destruct (equatorial_ok s2 m2 b a (later_inv _ _ Hl I) L2) as (r2 & s3 & E2 & _ & _ & Er2). rewrite Er2 in E2 by (apply not_sentinel_sym; assumption).
  rewrite prec_tr, <- tilt_tr in E2. set (m := tilt _ _ (precession a b)) in *. exists (tr m), s3, (app m v). split; [assumption|].
  destruct R as [(L9 & A & B) D]. split; [assumption|]. split; [assumption|].
  rewrite !precess_ok by (assumption || reflexivity). split; [reflexivity|]. f_equal. apply app_inv; [split; [split; [|split]|]; assumption|assumption].
Qed.

Lemma C34_equatorial_proof :
  forall s m a b, reachable s -> length m = 9%nat -> ~ sentinel a b ->
  exists s', setup_precession s m a b =
    Ret (mul (turn 1 2 (obliquity ((b - 2000) / 100))) (mul (precession a b) (tr (turn 1 2 (obliquity ((a - 2000) / 100))))), s').
Proof.
  intros s m a b Hs L NS. destruct (equatorial_ok s m a b (reachable_inv _ Hs) L) as (r & s' & E & _ & _ & Er). rewrite Er in E by assumption.
  exists s'. rewrite E. unfold tilt. rewrite (turn_swap 1 2) by exact p12. reflexivity.
Qed.

Lemma C34_mean_obliquity_proof :
  forall s t, reachable s -> fst (mean_obliquity s t) = obliquity t.
Proof.
  intros s t Hs. destruct (obliquity_ok s t (proj1 (reachable_inv _ Hs))) as (s' & -> & _). reflexivity.
Qed.

Lemma C34_mean_obliquity_clip_proof :
  Rabs (obliquity 101 - obliquity 100) < arcsec (1 / 100000) /\ Rabs (obliquity (- 101) - obliquity (- 100)) < arcsec (1 / 100000).
Proof.
  pose proof PI_RGT_0. unfold obliquity. repeat (destruct (Rlt_dec _ _); try lra). unfold arcsec, obliquity_poly.
  replace (100 / 100) with 1 by field. replace (- 100 / 100) with (-1) by field. split; unfold Rabs; destruct (Rcase_abs _); lra.
Qed.

Lemma C34_composition_proof :
  forall a b v, length v = 3%nat -> 1 / 100000 <= Rabs (a - b) ->
  app (precession a b) v = app (tr (from_2000 a)) (app (from_2000 b) v).
Proof.
  intros a b v L H. unfold precession. destruct (Rlt_dec _ _); [lra|]. apply app_mul.
Qed.

Lemma C34_via_2000_refuted_proof :
  ~ (forall a b v, length v = 3%nat -> 1 / 100000 <= Rabs (a - b) -> 1 / 100000 <= Rabs (a - 2000) -> 1 / 100000 <= Rabs (b - 2000) ->
     app (precession 2000 b) (app (precession a 2000) v) = app (precession a b) v).
Proof.
  intros H.
  assert (A1 : 1 / 100000 <= Rabs (2100 - 2200)) by (rewrite Rabs_left; lra).
  assert (A2 : 1 / 100000 <= Rabs (2100 - 2000)) by (rewrite Rabs_right; lra).
  assert (A3 : 1 / 100000 <= Rabs (2200 - 2000)) by (rewrite Rabs_right; lra).
  set (A := from_2000 2100) in *. set (B := from_2000 2200) in *.
  assert (RA : rotation A) by apply from_2000_rot. assert (RB : rotation B) by apply from_2000_rot.
  assert (G : app (mul A B) [0; 0; 1] = app (mul B A) [0; 0; 1]).
  { specialize (H 2100 2200 (app A [0; 0; 1]) eq_refl A1 A2 A3).
    destruct (C34_from_2000_proof 2200 A3) as (F1 & _). destruct (C34_from_2000_proof 2100 A2) as (_ & F2 & _).
    rewrite F1, F2 in H. fold A B in H. unfold precession in H. destruct (Rlt_dec _ _) as [Q|_] in H; [clear - A1 Q; lra|].
    rewrite app_inv in H by (assumption || reflexivity). fold A B in H. rewrite app_mul in H.
    apply (f_equal (app A)) in H. rewrite <- (app_mul A (tr A)) in H. destruct RA as [(LA & OA & _) _]. rewrite OA, app_ident in H by reflexivity.
    rewrite !app_mul. exact H. }
  apply (f_equal (fun v => comp v 2)) in G.
  assert (K : forall m, comp (app m [0; 0; 1]) 2 = cell m 2 2) by (intros m; unfold app, vec, comp; cbn; ring).
  rewrite !K in G. unfold A, B in G. rewrite !prod22 in G. unfold cen in G.
  replace ((2100 - 2000) / 100) with 1 in G by field. replace ((2200 - 2000) / 100) with 2 in G by field.
  pose proof PI_RGT_0 as P.
  assert (S1 : 0 < sin (eta 1)) by (apply sin_gt_0; unfold eta, arcsec; nra).
  assert (S2 : 0 < sin (eta 2)) by (apply sin_gt_0; unfold eta, arcsec; nra).
  assert (N : cos (node 2 + general 2 - node 1) = cos (node 1 + general 1 - node 2)).
  { apply (Rmult_eq_reg_l (sin (eta 1) * sin (eta 2))); [lra|]. nra. }
  apply cos_inj in N; unfold node, general, arcsec in *; nra.
Qed.

Lemma C34_sentinel_refuted_proof :
  forall m, length m = 9%nat ->
  setup_ecliptic_precession initial m SEMIRANDOM_GARBAGE1 SEMIRANDOM_GARBAGE2 = Ret ([0; 0; 0; 0; 0; 0; 0; 0; 0], initial) /\
  ~ rotation [0; 0; 0; 0; 0; 0; 0; 0; 0].
Proof.
  intros m L. split.
  - unfold setup_ecliptic_precession. destruct (Rltb_spec (Rabs (SEMIRANDOM_GARBAGE1 - SEMIRANDOM_GARBAGE2)) (1 / 100000)) as [Q|Q].
    { exfalso. unfold SEMIRANDOM_GARBAGE1, SEMIRANDOM_GARBAGE2 in Q. rewrite Rabs_right in Q; lra. }
    cbn [prev_year_from prev_year_to initial prev_matrix].
    destruct (Reqb_spec SEMIRANDOM_GARBAGE1 SEMIRANDOM_GARBAGE1); [|tauto]. destruct (Reqb_spec SEMIRANDOM_GARBAGE2 SEMIRANDOM_GARBAGE2); [|tauto]. reflexivity.
  - intros [_ D]. unfold det, cell in D. cbn in D. lra.
Qed.

Lemma C34_equatorial_from_2000_proof :
  forall m y, length m = 9%nat ->
  setup_equatorial_precession_from_j2000 m y = Ret (equator_from_2000 y) /\ rotation (equator_from_2000 y) /\ equator_from_2000 2000 = ident.
Proof.
  intros m y L. split; [exact (equatorial2000_ok m y L)|]. split; [apply equator_rot|apply equator_2000].
Qed.

Lemma C34_with_nutation_proof :
  forall nutation s m y dl dobl, reachable s -> length m = 9%nat ->
  let t := (y - 2000) / 100 in
  let dpsi := arcsec (fst (nutation t)) + dl in
  let de := arcsec (snd (nutation t)) + dobl in
  let r := mul (turn 0 1 (- (dpsi * cos (obliquity t)))) (mul (nutate (obliquity t) dpsi de) (equator_from_2000 y)) in
  rotation r /\ exists s', setup_precession_with_nutation_delta nutation s m y dl dobl = Ret (r, s').
Proof.
  intros f s m y dl dobl Hs L t dpsi de r. destruct (nutation_ok f s m y dl dobl (proj1 (reachable_inv _ Hs)) L) as (s' & E & _). split.
  - unfold r. apply rot_mul; [apply turn_rot, p01|]. apply rot_mul; [apply nutate_rot|apply equator_rot].
  - exists s'. exact E.
Qed.

Lemma C34_without_nutation_proof :
  forall nutation s m y, reachable s -> length m = 9%nat -> nutation ((y - 2000) / 100) = (0, 0) ->
  exists s', setup_precession_with_nutation nutation s m y = Ret (equator_from_2000 y, s').
Proof.
  intros f s m y Hs L Hf. destruct (C34_with_nutation_proof f s m y 0 0 Hs L) as (_ & s' & E). exists s'. unfold setup_precession_with_nutation.
  rewrite E. f_equal. f_equal. rewrite Hf. cbn [fst snd]. unfold arcsec, nutate. rewrite !Rmult_0_l, !Rplus_0_r, Rmult_0_l, Ropp_0.
  rewrite !turn_0 by exact p01. rewrite !mul_1_l by reflexivity. rewrite turn_add by exact p12. rewrite Rplus_opp_r, turn_0 by exact p12. apply mul_1_l. reflexivity.
Qed.

Lemma C34_vectors_proof :
  forall m v w w', rotation m -> length v = 3%nat -> length w = 3%nat -> length w' = 3%nat ->
  exists p d, precess_vector m v w = Ret p /\ deprecess_vector m p w' = Ret v /\
    deprecess_vector m v w = Ret d /\ precess_vector m d w' = Ret v /\ norm p = norm v /\ norm d = norm v.
Proof.
  intros m v w w' R Lv Lw Lw'. pose proof (rot_len m R) as L. exists (app m v), (app (tr m) v).
  rewrite !precess_ok, !deprecess_ok by (assumption || reflexivity).
  split; [reflexivity|]. split; [f_equal; apply app_inv; assumption|]. split; [reflexivity|]. split.
  - f_equal. pose proof (app_inv (tr m) v (rot_tr m R) Lv) as Q. rewrite tr_tr in Q by assumption. exact Q.
  - split; unfold norm; rewrite dot_rot; auto using rot_tr.
Qed.

Lemma C34_ecliptic_equatorial_proof :
  exists k e, Rabs (k - 1) < 1 / 10 ^ 38 /\ 0 < e < PI / 4 /\ forall x y z,
    equatorial_to_ecliptic [x; y; z] = Ret (app (turn 1 2 (- e)) [x; k * y; k * z]) /\
    ecliptic_to_equatorial [x; y; z] = Ret (app (turn 1 2 e) [x; k * y; k * z]).
Proof.
  set (c := cos_obliq_2000). set (s := sin_obliq_2000).
  assert (Hc : 0 < c) by (unfold c, cos_obliq_2000; lra). assert (Hs : 0 < s) by (unfold s, sin_obliq_2000; lra).
  assert (Q : Rabs (c * c + s * s - 1) < 1 / 10 ^ 38).
  { unfold c, s, cos_obliq_2000, sin_obliq_2000. unfold Rabs. destruct (Rcase_abs _); lra. }
  set (k := sqrt (c * c + s * s)). assert (Hk : 0 < k) by (apply sqrt_lt_R0; nra).
  assert (Kk : k * k = c * c + s * s) by (apply sqrt_sqrt; nra).
  set (e := atan (s / c)).
  assert (T : tan e = s / c) by apply tan_atan. assert (B : - PI / 2 < e < PI / 2) by apply atan_bound.
  assert (Ce : 0 < cos e) by (apply cos_gt_0; lra).
  assert (E1 : sin e * c = cos e * s).
  { unfold tan in T. apply (f_equal (fun u => u * (cos e * c))) in T. field_simplify in T; lra. }
  pose proof (sin2_cos2 e) as SC. unfold Rsqr in SC.
  assert (E2 : k * cos e = c).
  { apply Rsqr_inj; [nra|lra|]. unfold Rsqr. replace (k * cos e * (k * cos e)) with ((k * k) * (cos e * cos e)) by ring. rewrite Kk.
    replace ((c * c + s * s) * (cos e * cos e)) with ((c * cos e) * (c * cos e) + (cos e * s) * (cos e * s)) by ring. rewrite <- E1.
    replace (c * cos e * (c * cos e) + sin e * c * (sin e * c)) with (c * c * (sin e * sin e + cos e * cos e)) by ring. rewrite SC. ring. }
  assert (E3 : k * sin e = s).
  { apply (Rmult_eq_reg_r c); [|lra]. rewrite Rmult_assoc, E1, <- Rmult_assoc, E2. ring. }
  exists k, e. split; [|split].
  - assert (A : Rabs (k - 1) <= Rabs (c * c + s * s - 1)); [|lra]. rewrite <- Kk. unfold Rabs. destruct (Rcase_abs (k - 1)), (Rcase_abs (k * k - 1)); nra.
  - split.
    + unfold e. rewrite <- atan_0. apply atan_increasing. apply Rdiv_lt_0_compat; assumption.
    + unfold e. rewrite <- atan_1. apply atan_increasing. apply (Rmult_lt_reg_r c); [assumption|]. unfold Rdiv. rewrite Rmult_assoc, Rinv_l by lra.
      unfold s, c, sin_obliq_2000, cos_obliq_2000. lra.
  - intros x y z. unfold equatorial_to_ecliptic, ecliptic_to_equatorial. fold c. fold s. rewrite <- E2, <- E3.
    unfold app, turn, vec, mat, cell, comp. cbn. rewrite cos_neg, sin_neg. split; f_equal; each; ring.
Qed.

Lemma C34_ecliptic_equatorial_back_proof :
  exists k, Rabs (k - 1) < 1 / 10 ^ 38 /\
  forall x y z, (do v <- equatorial_to_ecliptic [x; y; z]; ecliptic_to_equatorial v) = Ret [x; k * y; k * z] /\
    (do v <- ecliptic_to_equatorial [x; y; z]; equatorial_to_ecliptic v) = Ret [x; k * y; k * z].
Proof.
  exists (cos_obliq_2000 * cos_obliq_2000 + sin_obliq_2000 * sin_obliq_2000). split.
  - unfold cos_obliq_2000, sin_obliq_2000. unfold Rabs. destruct (Rcase_abs _); lra.
  - intros x y z. split; unfold equatorial_to_ecliptic, ecliptic_to_equatorial; cbn; f_equal; each; ring.
Qed.

Lemma lower_ok f : forall ra old, ra - old <= PI + 2 * PI * INR f ->
  exists k : Z, lower_ra f ra old = Ret (ra - 2 * PI * IZR k) /\ ra - 2 * PI * IZR k - old <= PI /\
    (- PI < ra - 2 * PI * IZR k - old \/ k = 0%Z).
Proof.
  pose proof PI_RGT_0 as P. induction f as [|f IH]; intros ra old H.
  - exists 0%Z. cbn [lower_ra]. destruct (Rltb_spec PI (ra - old)); [cbn in H; lra|]. split; [f_equal; ring|]. split; [lra|right; reflexivity].
  - cbn [lower_ra]. destruct (Rltb_spec PI (ra - old)) as [G|G].
    + rewrite S_INR in H. destruct (IH (ra - PI * 2) old ltac:(lra)) as (k & -> & B1 & B2). exists (k + 1)%Z. rewrite plus_IZR.
      split; [f_equal; ring|]. split; [lra|]. left. destruct B2 as [B2| ->]; [lra|]. lra.
    + exists 0%Z. split; [f_equal; ring|]. split; [lra|right; reflexivity].
Qed.
Lemma raise_ok f : forall ra old, - PI - 2 * PI * INR f <= ra - old -> ra - old <= PI ->
  exists k : Z, raise_ra f ra old = Ret (ra + 2 * PI * IZR k) /\ - PI <= ra + 2 * PI * IZR k - old <= PI.
Proof.
  pose proof PI_RGT_0 as P. induction f as [|f IH]; intros ra old H H'.
  - exists 0%Z. cbn [raise_ra]. destruct (Rltb_spec (ra - old) (- PI)); [cbn in H; lra|]. split; [f_equal; ring|lra].
  - cbn [raise_ra]. destruct (Rltb_spec (ra - old) (- PI)) as [G|G].
    + rewrite S_INR in H. destruct (IH (ra + PI * 2) old ltac:(lra) ltac:(lra)) as (k & -> & B). exists (k + 1)%Z. rewrite plus_IZR.
      split; [f_equal; ring|]. lra.
    + exists 0%Z. split; [f_equal; ring|lra].
Qed.
Lemma shift_cs a (k : Z) : cos (a + 2 * PI * IZR k) = cos a /\ sin (a + 2 * PI * IZR k) = sin a.
Proof.
  assert (N : forall n v, cos (v + 2 * PI * INR n) = cos v /\ sin (v + 2 * PI * INR n) = sin v).
  { intros n v. replace (2 * PI * INR n) with (2 * INR n * PI) by ring. split; [apply cos_period|apply sin_period]. }
  destruct (Z_le_dec 0 k) as [L|L].
  - rewrite <- (Z2Nat.id k) by assumption. rewrite <- INR_IZR_INZ. apply N.
  - replace k with (- Z.of_nat (Z.to_nat (- k)))%Z by lia. rewrite opp_IZR, <- INR_IZR_INZ. set (n := Z.to_nat (- k)).
    destruct (N n (a + 2 * PI * - INR n)) as [Nc Ns]. replace (a + 2 * PI * - INR n + 2 * PI * INR n) with a in Nc, Ns by ring. auto.
Qed.
Definition place (p : R * R) : list R := [cos (fst p) * cos (snd p); sin (fst p) * cos (snd p); sin (snd p)].
Lemma place_unit p : dot (place p) (place p) = 1.
Proof.
  unfold dot, place, comp. cbn. pose proof (sc (fst p)) as A. pose proof (sc (snd p)) as B.
  replace (_ + _ + _) with ((cos (fst p) * cos (fst p) + sin (fst p) * sin (fst p)) * (cos (snd p) * cos (snd p)) + sin (snd p) * sin (snd p)) by ring.
  rewrite A. lra.
Qed.
(** The place of a unit vector. *)
Lemma from_unit x y z : x * x + y * y + z * z = 1 -> exists dec, asine z = Ret dec /\ - (PI / 2) <= dec <= PI / 2 /\
  sin dec = z /\ cos dec = sqrt (x * x + y * y).
Proof.
  intros U. pose proof (Rle_0_sqr x). pose proof (Rle_0_sqr y). unfold Rsqr in *.
  assert (-1 <= z <= 1) by nra. destruct (C43_acose_asine_proof z) as (_ & d & _ & E & _ & _ & B & S).
  rewrite Rmin_right, Rmax_right in S by lra. exists d. split; [assumption|]. split; [assumption|]. split; [assumption|].
  assert (0 <= cos d) by (apply cos_ge_0; lra). symmetry. apply sqrt_lem_1; [lra|assumption|]. pose proof (sc d). rewrite S in *. lra.
Qed.
Lemma ra_dec_ok m p back : rotation m -> exists N, forall fuel, (N <= fuel)%nat ->
  exists q, precess_ra_dec fuel m p back = Ret q /\ place q = app (if back then tr m else m) (place p) /\
    - PI <= fst q - fst p <= PI /\ - (PI / 2) <= snd q <= PI / 2.
Proof.
  intros R. pose proof (rot_len m R) as L. pose proof PI_RGT_0 as P.
  set (u := app (if back then tr m else m) (place p)).
  assert (Uu : dot u u = 1).
  { unfold u. destruct back; rewrite dot_rot by (try apply rot_tr; assumption || reflexivity); apply place_unit. }
  assert (Eu : exists x y z, u = [x; y; z]) by (apply len3; reflexivity). destruct Eu as (x & y & z & Eu).
  assert (U : x * x + y * y + z * z = 1) by (rewrite Eu in Uu; exact Uu).
  destruct (from_unit x y z U) as (dec & Ed & Bd & Sd & Cd).
  set (ra0 := if (negb (Reqb y 0) || negb (Reqb x 0))%bool then atan2 y x else 0).
  assert (Pol : sqrt (x * x + y * y) * cos ra0 = x /\ sqrt (x * x + y * y) * sin ra0 = y).
  { unfold ra0. destruct (Reqb_spec y 0) as [Ey|]; [|apply atan2_polar]. destruct (Reqb_spec x 0) as [Ex|]; [|apply atan2_polar].
    cbn. rewrite Ex, Ey. replace (0 * 0 + 0 * 0) with 0 by ring. rewrite sqrt_0. lra. }
  destruct (archimed_cor1 (/ (Rabs (ra0 - fst p) + 1))) as (N & HN & HN0).
  { apply Rinv_0_lt_compat. pose proof (Rabs_pos (ra0 - fst p)). lra. }
  assert (HN' : Rabs (ra0 - fst p) < INR N).
  { assert (0 < INR N) by (apply lt_0_INR; lia). pose proof (Rabs_pos (ra0 - fst p)). apply Rnot_le_lt. intros Q. apply (Rlt_not_le _ _ HN). apply Rinv_le_contravar; lra. }
  exists N. intros fuel Hf. assert (Hf' : INR N <= INR fuel) by (apply le_INR; assumption).
  pose proof (Rle_abs (ra0 - fst p)) as A1. pose proof (Rle_abs (- (ra0 - fst p))) as A2. rewrite Rabs_Ropp in A2.
  assert (PI3 : 2 < PI) by (pose proof PI2_1; unfold PI2 in *; lra).
  destruct (lower_ok fuel ra0 (fst p)) as (k & E1 & B1 & B2); [nra|].
  destruct (raise_ok fuel (ra0 - 2 * PI * IZR k) (fst p)) as (j & E2 & B3); [destruct B2 as [B2| ->]; nra|assumption|].
  exists (ra0 + 2 * PI * IZR (j - k), dec). split; [|split; [|split; [|assumption]]].
  - unfold precess_ra_dec. fold (place p).
    replace (if back then deprecess_vector m (place p) [0; 0; 0] else precess_vector m (place p) [0; 0; 0]) with (Ret u)
      by (unfold u; destruct back; [rewrite deprecess_ok|rewrite precess_ok]; auto).
    rewrite Eu. cbn [obind get nth_error]. fold ra0. rewrite Ed. cbn [obind]. rewrite E1. cbn [obind]. rewrite E2. cbn [obind].
    do 2 f_equal. rewrite minus_IZR. ring.
  - fold u. rewrite Eu. unfold place. cbn [fst snd]. destruct (shift_cs ra0 (j - k)) as [-> ->]. rewrite Sd, Cd. destruct Pol as [Pc Ps].
    each; lra.
  - cbn [fst]. rewrite minus_IZR. lra.
Qed.

Lemma lower_any f : forall ra old r, lower_ra f ra old = Ret r -> exists k : Z, r = ra + 2 * PI * IZR k.
Proof.
  induction f as [|f IH]; intros ra old r E; cbn [lower_ra] in E; destruct (Rltb PI (ra - old)); try discriminate.
  - exists 0%Z. inversion E. ring.
  - destruct (IH _ _ _ E) as (k & ->). exists (k - 1)%Z. rewrite minus_IZR. ring.
  - exists 0%Z. inversion E. ring.
Qed.
Lemma raise_any f : forall ra old r, raise_ra f ra old = Ret r -> exists k : Z, r = ra + 2 * PI * IZR k.
Proof.
  induction f as [|f IH]; intros ra old r E; cbn [raise_ra] in E; destruct (Rltb (ra - old) (- PI)); try discriminate.
  - exists 0%Z. inversion E. ring.
  - destruct (IH _ _ _ E) as (k & ->). exists (k + 1)%Z. rewrite plus_IZR. ring.
  - exists 0%Z. inversion E. ring.
Qed.
Lemma ra_dec_any fuel m p back q : rotation m -> precess_ra_dec fuel m p back = Ret q ->
  place q = app (if back then tr m else m) (place p) /\ - (PI / 2) <= snd q <= PI / 2.
Proof.
  intros R E. pose proof (rot_len m R) as L.
  set (u := app (if back then tr m else m) (place p)).
  assert (Uu : dot u u = 1).
  { unfold u. destruct back; rewrite dot_rot by (try apply rot_tr; assumption || reflexivity); apply place_unit. }
  assert (Eu : exists x y z, u = [x; y; z]) by (apply len3; reflexivity). destruct Eu as (x & y & z & Eu).
  assert (U : x * x + y * y + z * z = 1) by (rewrite Eu in Uu; exact Uu).
  destruct (from_unit x y z U) as (dec & Ed & Bd & Sd & Cd).
  set (ra0 := if (negb (Reqb y 0) || negb (Reqb x 0))%bool then atan2 y x else 0).
  assert (Pol : sqrt (x * x + y * y) * cos ra0 = x /\ sqrt (x * x + y * y) * sin ra0 = y).
  { unfold ra0. destruct (Reqb_spec y 0) as [Ey|]; [|apply atan2_polar]. destruct (Reqb_spec x 0) as [Ex|]; [|apply atan2_polar].
    cbn. rewrite Ex, Ey. replace (0 * 0 + 0 * 0) with 0 by ring. rewrite sqrt_0. lra. }
  unfold precess_ra_dec in E. fold (place p) in E.
  replace (if back then deprecess_vector m (place p) [0; 0; 0] else precess_vector m (place p) [0; 0; 0]) with (Ret u) in E
      by (unfold u; destruct back; [rewrite deprecess_ok|rewrite precess_ok]; auto).
  rewrite Eu in E. cbn [obind get nth_error] in E. fold ra0 in E. rewrite Ed in E. cbn [obind] in E.
  destruct (lower_ra fuel ra0 (fst p)) as [r1| | |] eqn:E1; try discriminate. cbn [obind] in E.
  destruct (raise_ra fuel r1 (fst p)) as [r2| | |] eqn:E2; try discriminate. cbn [obind] in E. inversion E. subst q. clear E.
  apply lower_any in E1. destruct E1 as (k & ->). apply raise_any in E2. destruct E2 as (j & ->). cbn [snd]. split; [|assumption].
  unfold place. cbn [fst snd]. destruct (shift_cs (ra0 + 2 * PI * IZR k) j) as [-> ->]. destruct (shift_cs ra0 k) as [-> ->].
  rewrite Sd, Cd. destruct Pol as [Pc Ps]. rewrite Eu. each; lra.
Qed.

Lemma C34_precess_ra_dec_proof :
  forall m ra dec (backward : bool), rotation m -> exists enough, forall fuel, (enough <= fuel)%nat ->
  exists ra' dec', precess_ra_dec fuel m (ra, dec) backward = Ret (ra', dec') /\
    [cos ra' * cos dec'; sin ra' * cos dec'; sin dec'] =
      app (if backward then tr m else m) [cos ra * cos dec; sin ra * cos dec; sin dec] /\
    - PI <= ra' - ra <= PI /\ - (PI / 2) <= dec' <= PI / 2.
Proof.
  intros m ra dec back R. destruct (ra_dec_ok m (ra, dec) back R) as (N & H). exists N. intros fuel Hf.
  destruct (H fuel Hf) as ([ra' dec'] & E & A & B & C). exists ra', dec'. auto.
Qed.

Lemma C34_precess_ra_dec_back_proof :
  forall m ra dec fuel ra' dec' ra'' dec'', rotation m -> - (PI / 2) <= dec <= PI / 2 ->
  precess_ra_dec fuel m (ra, dec) false = Ret (ra', dec') ->
  precess_ra_dec fuel m (ra', dec') true = Ret (ra'', dec'') ->
  dec'' = dec /\ (- (PI / 2) < dec < PI / 2 -> exists k : Z, ra'' = ra + 2 * PI * IZR k).
Proof.
  intros m ra dec fuel ra' dec' ra'' dec'' R Hd E1 E2. apply ra_dec_any in E1; [|assumption]. apply ra_dec_any in E2; [|assumption].
  destruct E1 as [E1 B1]. destruct E2 as [E2 B2]. rewrite E1, app_inv in E2 by (assumption || reflexivity). cbn [fst snd] in B2.
  unfold place in E2. cbn [fst snd] in E2. injection E2 as Ex Ey Ez.
  assert (dec'' = dec) by (apply sin_inj; assumption). subst dec''. split; [reflexivity|]. intros Hd'.
  assert (0 < cos dec) by (apply cos_gt_0; lra). apply same_angle; apply (Rmult_eq_reg_r (cos dec)); lra.
Qed.
