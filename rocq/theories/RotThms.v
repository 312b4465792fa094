(** Proofs of the theorems stated in [PropRot]. *)
From Coq Require Import Lia.
From Verif Require Import TrigBase RotModel RotSpec CLemmas RotProofs.
Open Scope list_scope.

Lemma dot_rot m u v : rotation m -> length v = 3%nat -> dot (app m u) (app m v) = dot u v.
Proof. intros [(L & _ & A) _] Lv. rewrite dot_app, <- app_mul, A, app_ident by assumption. reflexivity. Qed.
Lemma third a : ((a + 1) mod 3 <> (a + 2) mod 3)%nat.
Proof.
  intros E. pose proof (Nat.mod_upper_bound a 3 ltac:(lia)) as B. rewrite (Nat.add_mod a 1), (Nat.add_mod a 2) in E by lia.
  assert (a mod 3 = 0 \/ a mod 3 = 1 \/ a mod 3 = 2)%nat as [K|[K|K]] by lia; rewrite K in E; discriminate E.
Qed.
Lemma axis_plane k : plane ((k + 1) mod 3) ((k + 2) mod 3).
Proof.
  split; [apply Nat.mod_upper_bound; lia|]. split; [apply Nat.mod_upper_bound; lia|apply third].
Qed.
Lemma spin_rot m i j a : plane i j -> rotation m -> rotation (mul (turn i j a) m).
Proof. intros H R. apply rot_mul; [apply turn_rot; assumption|assumption]. Qed.
Lemma plane_sym i j : plane i j -> plane j i.
Proof. unfold plane. lia. Qed.

Lemma C33_spin_matrix_proof :
  forall m i j a, length m = 9%nat -> (i < 3)%nat -> (j < 3)%nat -> i <> j ->
  spin_matrix m (3 * i) (3 * j) a = Ret (mul (turn i j a) m).
Proof.
  intros m i j a L Hi Hj Hn. apply spin_ok; [assumption|]. unfold plane. auto.
Qed.

Lemma C33_pre_spin_matrix_proof :
  forall m i j a, length m = 9%nat -> (i < 3)%nat -> (j < 3)%nat -> i <> j ->
  pre_spin_matrix m i j a = Ret (mul m (turn j i a)).
Proof.
  intros m i j a L Hi Hj Hn. apply pre_spin_ok; [assumption|]. unfold plane. auto.
Qed.

Lemma C33_turn_proof :
  forall i j a b, (i < 3)%nat -> (j < 3)%nat -> i <> j ->
  rotation (turn i j a) /\ mul (turn i j a) (turn i j b) = turn i j (a + b) /\ turn i j 0 = ident /\
  (forall v k, (k < 3)%nat -> k <> i -> k <> j -> comp (app (turn i j a) v) k = comp v k) /\
  (let e := vec (fun k => if Nat.eqb k i then 1 else 0) in
   comp (app (turn i j a) e) i = cos a /\ comp (app (turn i j a) e) j = sin a).
Proof.
  intros i j a b Hi Hj Hn. assert (P : plane i j) by (unfold plane; auto).
  split; [apply turn_rot; assumption|]. split; [apply turn_add; assumption|]. split; [apply turn_0; assumption|].
  split.
  - intros v k Hk Ki Kj. planes P; destruct k as [|[|[|k]]]; try lia; unfold app, turn, vec, mat, cell, comp; cbn; ring.
  - planes P; unfold app, turn, vec, mat, cell, comp; cbn; split; ring.
Qed.

Lemma C33_matrices_stay_rotations_proof :
  forall m i j a, (i < 3)%nat -> (j < 3)%nat -> i <> j ->
  (rotation m -> exists s p, spin_matrix m (3 * i) (3 * j) a = Ret s /\ pre_spin_matrix m i j a = Ret p /\ rotation s /\ rotation p) /\
  (orthonormal m -> exists s p, spin_matrix m (3 * i) (3 * j) a = Ret s /\ pre_spin_matrix m i j a = Ret p /\ orthonormal s /\ orthonormal p).
Proof.
  intros m i j a Hi Hj Hn. assert (P : plane i j) by (unfold plane; auto).
  split; intros R.
  - assert (L : length m = 9%nat) by apply R. exists (mul (turn i j a) m), (mul m (turn j i a)).
    rewrite spin_ok, pre_spin_ok by assumption.
    repeat (split; [reflexivity|]). split; apply rot_mul; try assumption; apply turn_rot; [assumption|apply plane_sym; assumption].
  - assert (L : length m = 9%nat) by apply R. exists (mul (turn i j a) m), (mul m (turn j i a)).
    rewrite spin_ok, pre_spin_ok by assumption.
    repeat (split; [reflexivity|]). split; apply ortho_mul; try assumption; apply turn_rot; [assumption|apply plane_sym; assumption].
Qed.

Lemma C33_opposite_angle_proof :
  forall m i j a, length m = 9%nat -> (i < 3)%nat -> (j < 3)%nat -> i <> j ->
  (do s <- spin_matrix m (3 * i) (3 * j) a; spin_matrix s (3 * i) (3 * j) (- a)) = Ret m /\
  (do s <- pre_spin_matrix m i j a; pre_spin_matrix s i j (- a)) = Ret m.
Proof.
  intros m i j a L Hi Hj Hn. assert (P : plane i j) by (unfold plane; auto). split.
  - rewrite spin_ok by assumption. cbn [obind]. rewrite spin_ok by (try assumption; reflexivity). f_equal.
    rewrite <- mul_assoc, turn_add by assumption. replace (- a + a) with 0 by ring. rewrite turn_0, mul_1_l by assumption. reflexivity.
  - rewrite pre_spin_ok by assumption. cbn [obind]. rewrite pre_spin_ok by (try assumption; reflexivity). f_equal.
    apply plane_sym in P. rewrite mul_assoc, turn_add by assumption. replace (a + - a) with 0 by ring. rewrite turn_0, mul_1_r by assumption. reflexivity.
Qed.

Lemma C33_identity_proof :
  forall m, length m = 9%nat -> set_identity_matrix m = Ret ident.
Proof.
  exact identity_ok.
Qed.

Lemma C33_inverse_proof :
  forall m, length m = 9%nat ->
  exists n, invert_orthonormal_matrix m = Ret n /\ n = tr m /\ invert_orthonormal_matrix n = Ret m /\
    (orthonormal m -> mul n m = ident /\ mul m n = ident) /\ (rotation m -> rotation n).
Proof.
  intros m L. exists (tr m). rewrite !invert_ok by (reflexivity || assumption). split; [reflexivity|]. split; [reflexivity|].
  split; [f_equal; apply tr_tr; assumption|]. split; [intros (_ & A & B); auto|apply rot_tr].
Qed.

Lemma C33_rotate_vector_proof :
  forall v a axis, length v = 3%nat -> (0 <= axis <= 2147483645)%Z ->
  let k := Z.to_nat (axis mod 3) in
  rotate_vector v a axis = Ret (app (turn ((k + 1) mod 3) ((k + 2) mod 3) a) v).
Proof.
  exact rotate_ok.
Qed.

Lemma C33_rotate_vector_isometry_proof :
  forall u v a axis, length u = 3%nat -> length v = 3%nat -> (0 <= axis <= 2147483645)%Z ->
  exists u' v', rotate_vector u a axis = Ret u' /\ rotate_vector v a axis = Ret v' /\
    norm v' = norm v /\ dot u' v' = dot u v /\ comp v' (Z.to_nat (axis mod 3)) = comp v (Z.to_nat (axis mod 3)) /\
    rotate_vector v' (- a) axis = Ret v.
Proof.
  intros u v a axis Lu Lv Ha. rewrite !rotate_ok by assumption. set (k := Z.to_nat (axis mod 3)).
  assert (K : (k < 3)%nat) by (pose proof (Z.mod_pos_bound axis 3 ltac:(lia)); lia).
  pose proof (axis_plane k) as P. pose proof (turn_rot _ _ a P) as R. eexists. eexists. split; [reflexivity|]. split; [reflexivity|].
  split; [unfold norm; rewrite dot_rot by assumption; reflexivity|]. split; [apply dot_rot; assumption|]. split.
  - destruct k as [|[|[|k]]]; try lia; unfold app, turn, vec, mat, cell, comp; cbn; ring.
  - rewrite rotate_ok by (reflexivity || assumption). fold k. f_equal. rewrite <- app_mul, turn_add by assumption.
    replace (- a + a) with 0 by ring. rewrite turn_0, app_ident by assumption. reflexivity.
Qed.

Lemma C33_rotate_vector_axis_refuted_proof :
  forall v a axis, length v = 3%nat -> (-2147483648 <= axis < -1)%Z -> (axis mod 3 <> 2)%Z -> rotate_vector v a axis = UB.
Proof.
  intros v a axis L H Hm. unfold rotate_vector. rewrite !ev_val by (cbn [safe val]; unfold fits, IMAX; repeat split; lia). cbn [obind val].
  assert (B := Z.mod_pos_bound axis 3 ltac:(lia)).
  assert (E : (Z.rem (axis + 1) 3 < 0)%Z).
  { assert (Q : (Z.rem (axis + 1) 3 <= 0)%Z).
    { replace (axis + 1)%Z with (- (- axis - 1))%Z by lia. rewrite Z.rem_opp_l by lia. pose proof (Z.rem_bound_pos (- axis - 1) 3 ltac:(lia) ltac:(lia)). lia. }
    destruct (Z.eq_dec (Z.rem (axis + 1) 3) 0) as [Z0|]; [|lia].
    exfalso. apply Hm. apply Z.rem_divide in Z0; [|lia]. destruct Z0 as (q & Eq). replace axis with (2 + (q - 1) * 3)%Z by lia. rewrite Z.mod_add by lia. reflexivity. }
  unfold index. destruct (Z.ltb_spec (Z.rem (axis + 1) 3) 0); [reflexivity|lia].
Qed.

Lemma C43_normalize_proof :
  forall v, length v = 3%nat ->
  exists u, normalize_vect3 v = Ret (norm v, u) /\ length u = 3%nat /\
    (forall i, comp v i = norm v * comp u i) /\ (v <> [0; 0; 0] -> norm u = 1) /\ (v = [0; 0; 0] -> u = v).
Proof.
  intros v L. lists. set (d := norm [x; x0; x1]).
  assert (D : d = sqrt (x * x + x0 * x0 + x1 * x1)) by reflexivity.
  pose proof (Rle_0_sqr x) as Q1. pose proof (Rle_0_sqr x0) as Q2. pose proof (Rle_0_sqr x1) as Q3. unfold Rsqr in *.
  unfold normalize_vect3. cbn [get nth_error obind]. rewrite <- D. destruct (Reqb_spec d 0) as [Z|Z].
  - assert (Z0 : x * x + x0 * x0 + x1 * x1 = 0) by (apply sqrt_eq_0; [lra|rewrite <- D; assumption]).
    assert (x = 0) by (apply Rsqr_0_uniq; unfold Rsqr; lra).
    assert (x0 = 0) by (apply Rsqr_0_uniq; unfold Rsqr; lra).
    assert (x1 = 0) by (apply Rsqr_0_uniq; unfold Rsqr; lra). subst.
    exists [0; 0; 0]. split; [reflexivity|]. split; [reflexivity|]. split; [|split; [tauto|reflexivity]].
    intros i. destruct i as [|[|[|i]]]; unfold comp; cbn; try (destruct i); ring.
  - exists [x / d; x0 / d; x1 / d]. split; [reflexivity|]. split; [reflexivity|]. split; [|split].
    + intros i. destruct i as [|[|[|i]]]; unfold comp; cbn; try (destruct i); field; assumption.
    + intros _. unfold norm, dot, comp. cbn.
      assert (Dd : d * d = x * x + x0 * x0 + x1 * x1) by (rewrite D; apply sqrt_sqrt; lra).
      replace (x / d * (x / d) + x0 / d * (x0 / d) + x1 / d * (x1 / d)) with ((x * x + x0 * x0 + x1 * x1) / (d * d)) by (field; assumption).
      rewrite <- Dd. rewrite <- sqrt_1. f_equal. field. assumption.
    + intros E. inversion E. subst. exfalso. apply Z. rewrite D. replace (0 * 0 + 0 * 0 + 0 * 0) with 0 by ring. apply sqrt_0.
Qed.

Lemma C43_cross_product_proof :
  forall x a b, length x = 3%nat -> length a = 3%nat -> length b = 3%nat ->
  exists c c', vector_cross_product x a b = Ret c /\ vector_cross_product x b a = Ret c' /\ length c = 3%nat /\
    dot c a = 0 /\ dot c b = 0 /\ dot c c = dot a a * dot b b - dot a b * dot a b /\
    det (a ++ b ++ c) = dot c c /\ forall i, comp c' i = - comp c i.
Proof.
  intros x a b Lx La Lb. lists. unfold vector_cross_product. cbn. eexists. eexists. split; [reflexivity|]. split; [reflexivity|].
  split; [reflexivity|]. unfold dot, det, comp, cell. cbn. repeat (split; [ring|]).
  intros i. destruct i as [|[|[|i]]]; cbn; try (destruct i); ring.
Qed.

Lemma C43_dot_and_length_proof :
  forall a b, length a = 3%nat -> length b = 3%nat ->
  dot_product a b = Ret (dot a b) /\ vector3_length a = Ret (norm a).
Proof.
  intros a b La Lb. lists. split; reflexivity.
Qed.

Lemma C43_polar_proof :
  forall v lon lat, length v = 3%nat ->
  exists u, polar3_to_cartesian v lon lat = Ret u /\ norm u = 1 /\
    u = app (turn 0 1 lon) (app (turn 0 2 lat) [1; 0; 0]).
Proof.
  intros v lon lat L. lists. unfold polar3_to_cartesian. cbn. eexists. split; [reflexivity|]. split.
  - unfold norm, dot, comp. cbn. rewrite <- sqrt_1. f_equal. pose proof (sc lon). pose proof (sc lat).
    replace (cos lon * cos lat * (cos lon * cos lat) + sin lon * cos lat * (sin lon * cos lat) + sin lat * sin lat)
      with ((cos lon * cos lon + sin lon * sin lon) * (cos lat * cos lat) + sin lat * sin lat) by ring. rewrite H. lra.
  - unfold app, turn, vec, mat, cell, comp. cbn. each; ring.
Qed.

Lemma C43_acose_asine_proof :
  forall x, exists c s, acose x = Ret c /\ asine x = Ret s /\
    0 <= c <= PI /\ cos c = Rmax (- 1) (Rmin 1 x) /\ - (PI / 2) <= s <= PI / 2 /\ sin s = Rmax (- 1) (Rmin 1 x).
Proof.
  intros x. pose proof PI_RGT_0. unfold acose, asine. destruct (Rleb_spec 1 x).
  - exists 0, (PI / 2). split; [reflexivity|]. split; [reflexivity|]. rewrite Rmin_left, Rmax_right by lra. rewrite cos_0, sin_PI2. lra.
  - destruct (Rleb_spec x (- 1)).
    + exists PI, (- PI / 2). split; [reflexivity|]. split; [reflexivity|]. rewrite Rmin_right, Rmax_left by lra. rewrite cos_PI.
      replace (- PI / 2) with (- (PI / 2)) by field. rewrite sin_neg, sin_PI2. lra.
    + exists (acos x), (asin x). rewrite c_acos_ok, c_asin_ok by lra. split; [reflexivity|]. split; [reflexivity|].
      rewrite Rmin_right, Rmax_right by lra. rewrite cos_acos, sin_asin by lra. pose proof (acos_bound x). pose proof (asin_bound x). lra.
Qed.
