(** Theorems of C69 with their proofs; PropCol.v states them again. *)
From Coq Require Import Lra.
From Verif Require Import CBase RBase TrigBase ColModel ColSpec ColProofs.
Local Open Scope R_scope.

Lemma C69_relations_proof :
forall x,
  (-0.23 <= x <= 3.70 -> v_minus_i_to_b_minus_v x = relation coeffs_vi_to_bv x) /\
  (-0.30 <= x <= 4.00 -> v_minus_i_to_v_minus_r x = relation coeffs_vi_to_vr x) /\
  (-0.10 <= x <= 1.75 -> v_minus_r_to_b_minus_v x = relation coeffs_vr_to_bv x) /\
  (-0.23 <= x <= 1.95 -> b_minus_v_to_v_minus_r x = relation coeffs_bv_to_vr x).
Proof.
  intro x. repeat split; intro H; (etransitivity; [apply in_range; exact H|apply curve_relation; reflexivity]).
Qed.

Lemma C69_back_bv_proof :
forall bv, exists r, b_minus_v_to_v_minus_i bv = Ret r /\ ((bv < -0.231 \/ 1.879 < bv) -> r = 99) /\
  (r = 99 \/ (-0.23 <= r <= 3.70 /\ exists x, -0.23 <= x <= 3.70 /\ Rabs (x - r) <= 1 / 1000000 /\ v_minus_i_to_b_minus_v x = bv)).
Proof.
  intro bv. pose proof ends_bv as [A B]. destruct (inverse_ok coeffs_vi_to_bv bv (-0.23) 3.70 ltac:(lra) ltac:(lra)) as (r & E & O & H). exists r. split; [exact E|]. split; [|exact H].
  intro X. apply O. pose proof ends_bv_out as [C D]. lra.
Qed.

Lemma C69_back_vr_proof :
forall vr, exists r, v_minus_r_to_v_minus_i vr = Ret r /\ ((vr < -0.122 \/ 1.806 < vr) -> r = 99) /\
  (r = 99 \/ (-0.30 <= r <= 4.00 /\ exists x, -0.30 <= x <= 4.00 /\ Rabs (x - r) <= 1 / 1000000 /\ v_minus_i_to_v_minus_r x = vr)).
Proof.
  intro vr. pose proof ends_vr as [A B]. destruct (inverse_ok coeffs_vi_to_vr vr (-0.30) 4.00 ltac:(lra) ltac:(lra)) as (r & E & O & H). exists r. split; [exact E|]. split; [|exact H].
  intro X. apply O. pose proof ends_vr_out as [C D]. lra.
Qed.

Lemma C69_tycho_proof :
forall b v, -0.2 <= b < 1.8 ->
  on_table table_bv b (johnson_b_minus_v_from_tycho_b_minus_v b - 0.85 * b) /\
  on_table table_v b (johnson_v_from_tycho_b_minus_v b v - (v - 0.09 * b)).
Proof.
  intros b v H. unfold johnson_b_minus_v_from_tycho_b_minus_v, johnson_v_from_tycho_b_minus_v, table_bv, table_v. cbn [on_table]. unfold on_line.
  destruct (Rltb_spec b (-0.2)); [lra|]. destruct (Rltb_spec 1.8 b); [lra|]. cbn [orb]. cbv zeta.
  destruct (Rltb_spec b 0.1); [split; left; split; lra|]. destruct (Rltb_spec b 0.5); [split; right; left; split; lra|]. destruct (Rltb_spec b 1.4); [split; right; right; left; split; lra|]. destruct (Rltb_spec b 1.8); [|lra]. split; right; right; right; left; split; lra.
Qed.

Lemma C69_tycho_end_refuted_proof :
forall v,
  johnson_b_minus_v_from_tycho_b_minus_v 1.8 = 0.85 * 1.8 /\ ~ on_table table_bv 1.8 0 /\
  johnson_v_from_tycho_b_minus_v 1.8 v = v - 0.09 * 1.8 /\ ~ on_table table_v 1.8 0.
Proof.
  intro v. unfold johnson_b_minus_v_from_tycho_b_minus_v, johnson_v_from_tycho_b_minus_v, table_bv, table_v. cbn [on_table]. unfold on_line.
  destruct (Rltb_spec 1.8 (-0.2)); [lra|]. destruct (Rltb_spec 1.8 1.8); [lra|]. cbn [orb]. cbv zeta. destruct (Rltb_spec 1.8 0.1); [lra|]. destruct (Rltb_spec 1.8 0.5); [lra|]. destruct (Rltb_spec 1.8 1.4); [lra|]. repeat split; lra.
Qed.

Lemma C69_marker_refuted_proof :
forall x, x < -0.30 \/ 4.00 < x ->
  v_minus_i_to_b_minus_v x = 100 /\ v_minus_i_to_v_minus_r x = 100 /\ v_minus_r_to_b_minus_v x = 100 /\ b_minus_v_to_v_minus_r x = 100 /\
  b_minus_v_to_v_minus_i x = Ret 99 /\ v_minus_r_to_v_minus_i x = Ret 99 /\ johnson_b_minus_v_from_tycho_b_minus_v x = 99.
Proof.
  intros x H. split; [apply out_of_range; lra|]. split; [apply out_of_range; lra|]. split; [apply out_of_range; lra|]. split; [apply out_of_range; lra|].
  destruct (C69_back_bv_proof x) as (r & E & O & _). rewrite E, O by lra. destruct (C69_back_vr_proof x) as (r' & E' & O' & _). rewrite E', O' by lra. split; [reflexivity|]. split; [reflexivity|].
  unfold johnson_b_minus_v_from_tycho_b_minus_v. destruct (Rltb_spec x (-0.2)); [reflexivity|]. destruct (Rltb_spec 1.8 x); [reflexivity|lra].
Qed.
