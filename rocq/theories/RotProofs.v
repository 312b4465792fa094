(** Proofs about the vector and matrix functions. *)
From Coq Require Import Lia.
From Verif Require Import TrigBase RotModel RotSpec CLemmas.
Open Scope list_scope.

Lemma len9 (m : list R) : length m = 9%nat -> exists a b c d e f g h i, m = [a; b; c; d; e; f; g; h; i].
Proof.
  intros H. do 9 (destruct m as [|? m]; [discriminate H|]). destruct m; [|discriminate H]. repeat eexists.
Qed.
Lemma len3 (v : list R) : length v = 3%nat -> exists a b c, v = [a; b; c].
Proof. intros H. do 3 (destruct v as [|? v]; [discriminate H|]). destruct v; [|discriminate H]. repeat eexists. Qed.

Ltac lists := repeat match goal with
  | H : length ?m = 9%nat |- _ => destruct (len9 m H) as (? & ? & ? & ? & ? & ? & ? & ? & ? & ->); clear H
  | H : length ?m = 3%nat |- _ => destruct (len3 m H) as (? & ? & ? & ->); clear H
  end.
(** Equality of lists of given length, entry by entry. *)
Ltac each := repeat (apply (f_equal2 (@cons R))); try reflexivity.

Lemma mat_len f : length (mat f) = 9%nat. Proof. reflexivity. Qed.
Lemma tr_len m : length (tr m) = 9%nat. Proof. reflexivity. Qed.
Lemma mul_len a b : length (mul a b) = 9%nat. Proof. reflexivity. Qed.
Lemma tr_tr m : length m = 9%nat -> tr (tr m) = m.
Proof. intros. lists. reflexivity. Qed.
Lemma tr_mul a b : tr (mul a b) = mul (tr b) (tr a).
Proof. unfold tr, mul, mat, cell. cbn. each; ring. Qed.
Lemma mul_assoc a b c : mul (mul a b) c = mul a (mul b c).
Proof. unfold mul, mat, cell. cbn. each; ring. Qed.
Lemma mul_1_l m : length m = 9%nat -> mul ident m = m.
Proof. intros. lists. unfold mul, ident, mat, cell. cbn. each; ring. Qed.
Lemma mul_1_r m : length m = 9%nat -> mul m ident = m.
Proof. intros. lists. unfold mul, ident, mat, cell. cbn. each; ring. Qed.
Lemma tr_ident : tr ident = ident. Proof. reflexivity. Qed.
Lemma det_mul a b : det (mul a b) = det a * det b.
Proof. unfold det, mul, mat, cell. cbn. ring. Qed.
Lemma det_tr m : det (tr m) = det m.
Proof. unfold det, tr, mat, cell. cbn. ring. Qed.
Lemma det_ident : det ident = 1.
Proof. unfold det, ident, mat, cell. cbn. ring. Qed.
Lemma app_mul a b v : app (mul a b) v = app a (app b v).
Proof. unfold app, vec, mul, mat, cell, comp. cbn. each; ring. Qed.
Lemma app_ident v : length v = 3%nat -> app ident v = v.
Proof. intros. lists. unfold app, vec, ident, mat, cell, comp. cbn. each; ring. Qed.
Lemma app_len a v : length (app a v) = 3%nat. Proof. reflexivity. Qed.
Lemma dot_app a u v : dot (app a u) v = dot u (app (tr a) v).
Proof. unfold dot, app, vec, tr, mat, cell, comp. cbn. ring. Qed.

Lemma ortho_ident : orthonormal ident.
Proof. split; [reflexivity|]. rewrite tr_ident. split; apply mul_1_l; reflexivity. Qed.
Lemma ortho_mul a b : orthonormal a -> orthonormal b -> orthonormal (mul a b).
Proof.
  intros (La & A1 & A2) (Lb & B1 & B2). split; [reflexivity|]. rewrite tr_mul. split.
  - rewrite mul_assoc, <- (mul_assoc b), B1, mul_1_l by reflexivity. assumption.
  - rewrite mul_assoc, <- (mul_assoc (tr a)), A2, mul_1_l by assumption. assumption.
Qed.
Lemma ortho_tr a : orthonormal a -> orthonormal (tr a).
Proof. intros (L & A & B). split; [reflexivity|]. rewrite tr_tr by assumption. auto. Qed.
Lemma rot_ident : rotation ident. Proof. split; [apply ortho_ident|apply det_ident]. Qed.
Lemma rot_mul a b : rotation a -> rotation b -> rotation (mul a b).
Proof. intros [A DA] [B DB]. split; [apply ortho_mul; assumption|]. rewrite det_mul, DA, DB. ring. Qed.
Lemma rot_tr a : rotation a -> rotation (tr a).
Proof. intros [A D]. split; [apply ortho_tr; assumption|]. rewrite det_tr. assumption. Qed.

Definition plane (i j : nat) : Prop := (i < 3 /\ j < 3 /\ i <> j)%nat.
Lemma plane_cases i j : plane i j -> (i = 0 /\ j = 1 \/ i = 0 /\ j = 2 \/ i = 1 /\ j = 0 \/ i = 1 /\ j = 2 \/ i = 2 /\ j = 0 \/ i = 2 /\ j = 1)%nat.
Proof. unfold plane. lia. Qed.
Ltac planes H := apply plane_cases in H; destruct H as [[-> ->]|[[-> ->]|[[-> ->]|[[-> ->]|[[-> ->]|[-> ->]]]]]].

Lemma sc a : cos a * cos a + sin a * sin a = 1.
Proof. pose proof (sin2_cos2 a). unfold Rsqr in *. lra. Qed.

Lemma turn_rot i j a : plane i j -> rotation (turn i j a).
Proof.
  intros H. pose proof (sc a) as S. planes H; unfold rotation, orthonormal, turn, mul, tr, ident, det, mat, cell; cbn;
    (split; [split; [reflexivity|split; each; lra]|lra]).
Qed.
Lemma turn_opp i j a : plane i j -> turn i j (- a) = tr (turn i j a).
Proof. intros H. planes H; unfold turn, tr, mat, cell; cbn; rewrite cos_neg, sin_neg; each; ring. Qed.
Lemma turn_swap i j a : plane i j -> turn j i a = tr (turn i j a).
Proof. intros H. planes H; unfold turn, tr, mat, cell; cbn; each; ring. Qed.
Lemma turn_add i j a b : plane i j -> mul (turn i j a) (turn i j b) = turn i j (a + b).
Proof. intros H. planes H; unfold turn, mul, mat, cell; cbn; rewrite cos_plus, sin_plus; each; ring. Qed.
Lemma turn_0 i j : plane i j -> turn i j 0 = ident.
Proof. intros H. planes H; unfold turn, ident, mat; cbn; rewrite cos_0, sin_0; each; ring. Qed.

Lemma spin_ok m i j a : length m = 9%nat -> plane i j -> spin_matrix m (3 * i) (3 * j) a = Ret (mul (turn i j a) m).
Proof.
  intros L H. lists. planes H; unfold spin_matrix, mul, turn, mat, cell; cbn; f_equal; each; ring.
Qed.
Lemma pre_spin_ok m i j a : length m = 9%nat -> plane i j -> pre_spin_matrix m i j a = Ret (mul m (turn j i a)).
Proof.
  intros L H. lists. planes H; unfold pre_spin_matrix, mul, turn, mat, cell; cbn; f_equal; each; ring.
Qed.
Lemma identity_ok m : length m = 9%nat -> set_identity_matrix m = Ret ident.
Proof. intros L. lists. reflexivity. Qed.
Lemma invert_ok m : length m = 9%nat -> invert_orthonormal_matrix m = Ret (tr m).
Proof. intros L. lists. reflexivity. Qed.

Lemma rotate_ok v a axis : length v = 3%nat -> (0 <= axis <= 2147483645)%Z ->
  let k := Z.to_nat (axis mod 3) in
  rotate_vector v a axis = Ret (app (turn ((k + 1) mod 3) ((k + 2) mod 3) a) v).
Proof.
  intros L H k. unfold rotate_vector. rewrite !ev_val by (cbn [safe val]; unfold fits, IMAX; repeat split; lia). cbn [obind val].
  rewrite !Z.rem_mod_nonneg by lia.
  pose proof (Z.mod_pos_bound axis 3 ltac:(lia)) as B.
  rewrite (Z.add_mod axis 1), (Z.add_mod axis 2) by lia. unfold k. clear k.
  assert (axis mod 3 = 0 \/ axis mod 3 = 1 \/ axis mod 3 = 2)%Z as [->|[->| ->]] by lia;
    lists; unfold app, turn, mat, vec, cell, comp; cbn;
    change (Pos.to_nat 1) with 1%nat; change (Pos.to_nat 2) with 2%nat; cbn; f_equal; each; ring.
Qed.
