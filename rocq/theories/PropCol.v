(** Property C69 (color indices; colors.cpp).

    [relation], [on_table], [table_bv] and [table_v] are those of [ColSpec]. *)
From Coq Require Import Lra.
From Verif Require Import CBase RBase TrigBase ColModel ColSpec ColProofs ColThms.
Local Open Scope R_scope.

(** Within its range each of the four conversions by a polynomial is the published relation, 1 plus a polynomial in the index less 1. *)
Theorem C69_relations :
forall x,
  (-0.23 <= x <= 3.70 -> v_minus_i_to_b_minus_v x = relation coeffs_vi_to_bv x) /\
  (-0.30 <= x <= 4.00 -> v_minus_i_to_v_minus_r x = relation coeffs_vi_to_vr x) /\
  (-0.10 <= x <= 1.75 -> v_minus_r_to_b_minus_v x = relation coeffs_vr_to_bv x) /\
  (-0.23 <= x <= 1.95 -> b_minus_v_to_v_minus_r x = relation coeffs_bv_to_vr x).
Proof. exact C69_relations_proof. Qed.
Print Assumptions C69_relations.

Example C69_relations_case : v_minus_i_to_b_minus_v 1 = 0.9313492800.
Proof. unfold v_minus_i_to_b_minus_v. rewrite in_range by lra. unfold curve, coeffs_vi_to_bv. cbn [poly_loop]. lra. Qed.

(** From B-V to V-I: the result is 99, or it is in the range and within 0.000001 of an index V-I whose B-V is exactly the given one; there is no division by zero, whatever is given. *)
Theorem C69_back_bv :
forall bv, exists r, b_minus_v_to_v_minus_i bv = Ret r /\ ((bv < -0.231 \/ 1.879 < bv) -> r = 99) /\
  (r = 99 \/ (-0.23 <= r <= 3.70 /\ exists x, -0.23 <= x <= 3.70 /\ Rabs (x - r) <= 1 / 1000000 /\ v_minus_i_to_b_minus_v x = bv)).
Proof. exact C69_back_bv_proof. Qed.
Print Assumptions C69_back_bv.

Example C69_back_bv_case : b_minus_v_to_v_minus_i (v_minus_i_to_b_minus_v (-0.23)) = Ret (-0.23).
Proof.
  unfold b_minus_v_to_v_minus_i, v_minus_i_to_b_minus_v, compute_inverse_color_polynomial. cbv zeta. pose proof ends_bv as [A B]. rewrite !in_range by lra. set (a := curve coeffs_vi_to_bv (-0.23)) in *. set (b := curve coeffs_vi_to_bv 3.70) in *.
  destruct (Rltb_spec a a); [lra|]. destruct (Rltb_spec b a); [lra|]. cbn [orb]. apply search_end; unfold b, a in *; lra.
Qed.

(** The same from V-R to V-I. *)
Theorem C69_back_vr :
forall vr, exists r, v_minus_r_to_v_minus_i vr = Ret r /\ ((vr < -0.122 \/ 1.806 < vr) -> r = 99) /\
  (r = 99 \/ (-0.30 <= r <= 4.00 /\ exists x, -0.30 <= x <= 4.00 /\ Rabs (x - r) <= 1 / 1000000 /\ v_minus_i_to_v_minus_r x = vr)).
Proof. exact C69_back_vr_proof. Qed.
Print Assumptions C69_back_vr.

Example C69_back_vr_case : v_minus_r_to_v_minus_i 2 = Ret 99.
Proof. unfold v_minus_r_to_v_minus_i, compute_inverse_color_polynomial. cbv zeta. pose proof ends_vr_out as [A B]. rewrite !in_range by lra. destruct (Rltb_spec (curve coeffs_vi_to_vr 4.00) 2); [|lra]. now rewrite Bool.orb_true_r. Qed.

(** From Tycho to Johnson: for B-V from -0.2 to 1.8, the upper end not included, the corrections are on the broken lines of the published tables. *)
Theorem C69_tycho :
forall b v, -0.2 <= b < 1.8 ->
  on_table table_bv b (johnson_b_minus_v_from_tycho_b_minus_v b - 0.85 * b) /\
  on_table table_v b (johnson_v_from_tycho_b_minus_v b v - (v - 0.09 * b)).
Proof. exact C69_tycho_proof. Qed.
Print Assumptions C69_tycho.

Example C69_tycho_case : johnson_b_minus_v_from_tycho_b_minus_v 1 = 0.866.
Proof. unfold johnson_b_minus_v_from_tycho_b_minus_v. destruct (Rltb_spec 1 (-0.2)); [lra|]. destruct (Rltb_spec 1.8 1); [lra|]. cbn [orb]. destruct (Rltb_spec 1 0.1); [lra|]. destruct (Rltb_spec 1 0.5); [lra|]. destruct (Rltb_spec 1 1.4); lra. Qed.

(** At the upper end, B-V = 1.8, which is accepted, there is no correction at all: B-V jumps by 0.032 and V by 0.015, off the tables. *)
Theorem C69_tycho_end_refuted :
forall v,
  johnson_b_minus_v_from_tycho_b_minus_v 1.8 = 0.85 * 1.8 /\ ~ on_table table_bv 1.8 0 /\
  johnson_v_from_tycho_b_minus_v 1.8 v = v - 0.09 * 1.8 /\ ~ on_table table_v 1.8 0.
Proof. exact C69_tycho_end_refuted_proof. Qed.
Print Assumptions C69_tycho_end_refuted.

(** An index that cannot be converted gives 99 from the conversions back and from Tycho, but 100 from the four polynomials. *)
Theorem C69_marker_refuted :
forall x, x < -0.30 \/ 4.00 < x ->
  v_minus_i_to_b_minus_v x = 100 /\ v_minus_i_to_v_minus_r x = 100 /\ v_minus_r_to_b_minus_v x = 100 /\ b_minus_v_to_v_minus_r x = 100 /\
  b_minus_v_to_v_minus_i x = Ret 99 /\ v_minus_r_to_v_minus_i x = Ret 99 /\ johnson_b_minus_v_from_tycho_b_minus_v x = 99.
Proof. exact C69_marker_refuted_proof. Qed.
Print Assumptions C69_marker_refuted.

Example C69_marker_refuted_case : v_minus_i_to_b_minus_v 5 = 100.
Proof. apply out_of_range. lra. Qed.
