(** Proofs about the color indices of colors.cpp. *)
From Coq Require Import Lra Psatz.
From Verif Require Import CBase RBase TrigBase ColModel ColSpec.
Local Open Scope R_scope.

Lemma poly_shift cs : forall x p a, poly_loop cs x p a = a + p * poly_loop cs x 1 0.
Proof.
  induction cs as [|c cs IH]; intros x p a; cbn [poly_loop]; [ring|]. rewrite (IH x (p * (x - 1)) (a + c * p)), (IH x (1 * (x - 1)) (0 + c * 1)). ring.
Qed.
Lemma poly_continuous cs : forall p a : R -> R, continuity p -> continuity a -> continuity (fun x => poly_loop cs x (p x) (a x)).
Proof.
  induction cs as [|c cs IH]; intros p a P A; cbn [poly_loop]; [exact A|]. apply (IH (fun x => p x * (x - 1)) (fun x => a x + c * p x)).
  - apply (continuity_mult p (fun x => x - 1) P). reg.
  - apply (continuity_plus a (fun x => c * p x) A). apply (continuity_mult (fct_cte c) p); [|exact P]. apply continuity_const. intros ? ?. reflexivity.
Qed.
Definition curve (cs : list R) (x : R) : R := poly_loop cs x 1 0 + 1.
Lemma curve_continuous cs : continuity (curve cs).
Proof. unfold curve. apply (continuity_plus (fun x => poly_loop cs x 1 0) (fct_cte 1)); [|apply continuity_const; intros ? ?; reflexivity]. apply (poly_continuous cs (fct_cte 1) (fct_cte 0)); apply continuity_const; intros ? ?; reflexivity. Qed.
Lemma curve_relation cs x : length cs = 13%nat -> curve cs x = relation cs x.
Proof.
  intro L. do 13 (destruct cs as [|? cs]; [discriminate L|]). destruct cs; [|discriminate L]. unfold curve, relation. cbn [poly_loop sum_f_R0 nth pow]. ring.
Qed.
Lemma in_range cs lo hi x : lo <= x <= hi -> compute_color_polynomial x cs lo hi = curve cs x.
Proof. intro H. unfold compute_color_polynomial. destruct (Rltb_spec x lo); [lra|]. destruct (Rltb_spec hi x); [lra|]. reflexivity. Qed.
Lemma out_of_range cs lo hi x : x < lo \/ hi < x -> compute_color_polynomial x cs lo hi = 100.
Proof. intro H. unfold compute_color_polynomial. destruct (Rltb_spec x lo); cbn [orb]; [lra|]. destruct (Rltb_spec hi x); [lra|]. lra. Qed.

Lemma crossing cs v a b : a <= b -> curve cs a <= v <= curve cs b -> exists x, a <= x <= b /\ curve cs x = v.
Proof.
  intros L H. assert (C : continuity (fun x => curve cs x - v)). { apply (continuity_minus (curve cs) (fct_cte v)); [apply curve_continuous|apply continuity_const; intros ? ?; reflexivity]. }
  destruct (IVT_cor (fun x => curve cs x - v) a b C L) as (z & Z & E); [nra|]. exists z. split; [exact Z|lra].
Qed.
Lemma cubic t : 0 <= t <= 1 -> 0 <= t + t * (t - 0.5) * (t - 1) <= 1.
Proof. intro T. split; [assert (0 <= t * (t * t - 1.5 * t + 1.5)) by (apply Rmult_le_pos; nra)|assert (0 <= (1 - t) * (t * t - 0.5 * t + 1)) by (apply Rmult_le_pos; nra)]; lra. Qed.

Lemma search_ok cs v lo hi : forall n low high cl ch, lo <= low -> low <= high -> high <= hi -> curve cs low = cl -> curve cs high = ch -> cl <= v <= ch -> cl < ch ->
  exists r, search n v cs lo hi low high cl ch = Ret r /\ (r = 99 \/ (lo <= r <= hi /\ exists x, lo <= x <= hi /\ Rabs (x - r) <= 1 / 1000000 /\ curve cs x = v)).
Proof.
  induction n as [|n IH]; intros low high cl ch A B C E1 E2 V D; cbn [search]; [exists 99; split; [reflexivity|now left]|].
  destruct (Reqb_spec (ch - cl) 0) as [X|_]; [lra|]. cbv zeta. set (t := (v - cl) / (ch - cl)).
  assert (TM : t * (ch - cl) = v - cl) by (unfold t; field; lra). assert (T : 0 <= t <= 1) by (split; [apply (Rmult_le_reg_r (ch - cl)); lra|apply (Rmult_le_reg_r (ch - cl)); lra]).
  pose proof (cubic t T) as F. set (f := t + t * (t - 0.5) * (t - 1)) in *. set (r := low + (high - low) * f). assert (RB : low <= r <= high) by (unfold r; split; nra).
  rewrite (in_range cs lo hi r) by lra.
  assert (Z : v = cl -> r = low). { intro X. assert (t = 0) as T0 by (unfold t; rewrite X; unfold Rdiv; ring). unfold r, f. rewrite T0. ring. }
  clearbody r. clear F f T TM. clear t.
  assert (Out : forall a b, lo <= a -> a <= b -> b <= hi -> curve cs a <= v <= curve cs b -> b - a <= 1 / 1000000 -> r = a \/ r = b ->
    lo <= r <= hi /\ exists x, lo <= x <= hi /\ Rabs (x - r) <= 1 / 1000000 /\ curve cs x = v).
  { intros a b Ha Hab Hb Hv Hd Hr. split; [destruct Hr; lra|]. destruct (crossing cs v a b Hab Hv) as (x & Hx & Ex). exists x. split; [lra|]. split; [|exact Ex]. apply Rabs_le. destruct Hr; lra. }
  destruct (Rltb_spec (curve cs r) v) as [L|L].
  - destruct (Rltb_spec 0.000001 (high - r)) as [G|G]; cbn [andb].
    + destruct n as [|n]; cbn [Nat.eqb negb]; [exists 99; split; [reflexivity|now left]|]. apply IH; try lra; reflexivity.
    + eexists. split; [reflexivity|]. destruct (Nat.eqb n 0); [now left|]. right. apply (Out r high); try lra; auto.
  - destruct (Rltb_spec 0.000001 (r - low)) as [G|G]; cbn [andb].
    + destruct n as [|n]; cbn [Nat.eqb negb]; [exists 99; split; [reflexivity|now left]|]. assert (v <> cl) by (intro X; specialize (Z X); lra). apply IH; try lra; reflexivity || assumption.
    + eexists. split; [reflexivity|]. destruct (Nat.eqb n 0); [now left|]. right. apply (Out low r); try lra; auto.
Qed.

Lemma inverse_ok cs v lo hi : lo < hi -> curve cs lo < curve cs hi ->
  exists r, compute_inverse_color_polynomial v cs lo hi = Ret r /\ ((v < curve cs lo \/ curve cs hi < v) -> r = 99) /\
    (r = 99 \/ (lo <= r <= hi /\ exists x, lo <= x <= hi /\ Rabs (x - r) <= 1 / 1000000 /\ compute_color_polynomial x cs lo hi = v)).
Proof.
  intros L D. unfold compute_inverse_color_polynomial. cbv zeta. rewrite !in_range by lra. destruct (Rltb_spec v (curve cs lo)) as [X|X]; cbn [orb]; [exists 99; split; [reflexivity|split; [reflexivity|now left]]|].
  destruct (Rltb_spec (curve cs hi) v) as [Y|Y]; [exists 99; split; [reflexivity|split; [reflexivity|now left]]|].
  destruct (search_ok cs v lo hi 100 lo hi (curve cs lo) (curve cs hi)) as (r & E & H); try lra; try reflexivity. exists r. split; [exact E|]. split; [lra|]. destruct H as [H|(H & x & Hx & Hd & Hv)]; [now left|]. right. split; [exact H|]. exists x. rewrite in_range by lra. auto.
Qed.
Lemma ends_bv : curve coeffs_vi_to_bv (-0.23) < -0.2304 /\ 1.878 < curve coeffs_vi_to_bv 3.70.
Proof. unfold curve, coeffs_vi_to_bv. cbn [poly_loop]. split; lra. Qed.
Lemma ends_vr : curve coeffs_vi_to_vr (-0.30) < -0.1219 /\ 1.805 < curve coeffs_vi_to_vr 4.00.
Proof. unfold curve, coeffs_vi_to_vr. cbn [poly_loop]. split; lra. Qed.
Lemma ends_bv_out : -0.231 < curve coeffs_vi_to_bv (-0.23) /\ curve coeffs_vi_to_bv 3.70 < 1.879.
Proof. unfold curve, coeffs_vi_to_bv. cbn [poly_loop]. split; lra. Qed.
Lemma ends_vr_out : -0.122 < curve coeffs_vi_to_vr (-0.30) /\ curve coeffs_vi_to_vr 4.00 < 1.806.
Proof. unfold curve, coeffs_vi_to_vr. cbn [poly_loop]. split; lra. Qed.
Lemma search_end cs lo hi n low high ch : lo <= low <= hi -> curve cs low < ch -> search (S (S n)) (curve cs low) cs lo hi low high (curve cs low) ch = Ret low.
Proof.
  intros L D. set (m := S n). cbn [search]. destruct (Reqb_spec (ch - curve cs low) 0) as [X|_]; [lra|]. cbv zeta. assert (T : (curve cs low - curve cs low) / (ch - curve cs low) = 0) by (unfold Rdiv; ring). rewrite T.
  replace (low + (high - low) * (0 + 0 * (0 - 0.5) * (0 - 1))) with low by ring. rewrite in_range by lra. destruct (Rltb_spec (curve cs low) (curve cs low)); [lra|]. replace (low - low) with 0 by ring. destruct (Rltb_spec 0.000001 0); [lra|]. reflexivity.
Qed.
