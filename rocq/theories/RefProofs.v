(** Proofs about refract.cpp. *)
From Coq Require Import Lra Psatz.
From Verif Require Import CBase RBase TrigBase RefModel RefSpec RockCentre MarsThms.
Local Open Scope R_scope.

Lemma quot_ok a b : b <> 0 -> quot a b = Ret (a / b).
Proof. intro H. unfold quot. destruct (Req_EM_T b 0); [contradiction|reflexivity]. Qed.
Lemma pi_deg : 0.01745 < PI / 180 < 0.01746. Proof. pose proof PI_lo_hi. lra. Qed.
Lemma deg_pi x : deg x = x * (PI / 180). Proof. unfold deg. field. Qed.

Lemma sin_floor x0 x : 0 <= x0 <= 1 -> x0 <= x <= PI - x0 -> x0 * (1 - x0 * x0 / 2) <= sin x.
Proof.
  intros A B. pose proof PI_lo_hi as P. assert (F : x0 * (1 - x0 * x0 / 2) <= sin x0). { pose proof (sin_near x0) as N. rewrite (Rabs_pos_eq x0) in N by lra. pose proof (Rle_abs (- (sin x0 - x0))) as M. rewrite Rabs_Ropp in M. lra. }
  eapply Rle_trans; [exact F|]. destruct (Rle_dec x (PI / 2)) as [L|L]; [apply sin_incr_1; lra|]. rewrite <- (sin_PI_x x). apply sin_incr_1; lra.
Qed.

(** The angle whose cotangent is taken. *)
Definition inner (h : R) : R := h + 7.31 / (h + 4.4).
Lemma inner_low h lo : -4.4 < h -> 0 <= (h + 4.4) * (h - lo) + 7.31 -> lo <= inner h.
Proof. intros A B. unfold inner. apply (Rmult_le_reg_r (h + 4.4)); [lra|]. replace ((h + 7.31 / (h + 4.4)) * (h + 4.4)) with (h * (h + 4.4) + 7.31) by (field; lra). lra. Qed.
Lemma inner_high h hi : -4.4 < h -> (h + 4.4) * (h - hi) + 7.31 <= 0 -> inner h <= hi.
Proof. intros A B. unfold inner. apply (Rmult_le_reg_r (h + 4.4)); [lra|]. replace ((h + 7.31 / (h + 4.4)) * (h + 4.4)) with (h * (h + 4.4) + 7.31) by (field; lra). lra. Qed.
Lemma cot_high lo x : 0 < lo <= 1 -> lo <= sin x -> cot x <= / lo.
Proof.
  intros A S. unfold cot. apply (Rmult_le_reg_r (sin x)); [lra|]. unfold Rdiv. rewrite Rmult_assoc, Rinv_l by lra. rewrite Rmult_1_r. pose proof (COS_bound x). 
  apply Rle_trans with 1; [lra|]. rewrite <- (Rinv_l lo) by lra. apply Rmult_le_compat_l; [left; apply Rinv_0_lt_compat; lra|exact S].
Qed.
Lemma cot_low x : 0 < x <= deg 91 -> - 0.018 <= cot x.
Proof.
  intros [A B]. pose proof pi_deg as P. rewrite deg_pi in B. assert (Q : PI = 180 * (PI / 180)) by field. assert (S : 0 < sin x) by (apply sin_gt_0; lra). unfold cot. apply (Rmult_le_reg_r (sin x)); [exact S|]. unfold Rdiv. rewrite Rmult_assoc, Rinv_l, Rmult_1_r by lra.
  destruct (Rle_dec x (PI / 2)) as [L|L]; [assert (0 <= cos x) by (apply cos_ge_0; lra); lra|].
  set (d := x - PI / 2). assert (D : 0 <= d <= 0.01746) by (unfold d; lra). assert (C : cos x = - sin d). { replace x with (PI / 2 + d) by (unfold d; ring). symmetry. rewrite sin_cos. ring. }
  assert (S2 : sin x = cos d). { replace x with (PI / 2 + d) by (unfold d; ring). symmetry. apply cos_sin. } rewrite C, S2. pose proof (sin_abs d) as SA. rewrite (Rabs_pos_eq d) in SA by lra. pose proof (Rle_abs (sin d)). destruct (cos_near d). nra.
Qed.
Lemma bennett_bounds h lo k : 0 < k <= 1 -> -4.4 < h -> h <= 90.6 -> 1 <= lo -> 0 <= (h + 4.4) * (h - lo) + 7.31 -> (h + 4.4) * (h - 91) + 7.31 <= 0 -> k <= lo * 0.01745 * (1 - lo * 0.01745 * (lo * 0.01745) / 2) -> lo * 0.01745 <= 1 ->
  0 < inner h <= 91 /\ k <= sin (deg (inner h)) /\ - 0.08 <= bennett h <= / k + 0.06.
Proof.
  intros K A A2 L B C D D1. pose proof pi_deg as P. assert (Q : PI = 180 * (PI / 180)) by field. pose proof (inner_low h lo A B) as I1. pose proof (inner_high h 91 A C) as I2.
  assert (I3 : lo * 0.01745 <= deg (inner h) <= 91 * (PI / 180)). { rewrite deg_pi. split; apply Rmult_le_compat; lra. }
  assert (S : k <= sin (deg (inner h))). { eapply Rle_trans; [exact D|]. apply sin_floor; lra. }
  split; [lra|]. split; [exact S|]. unfold bennett. fold (inner h). cbv zeta. set (c := cot (deg (inner h))).
  assert (C1 : c <= / k) by (apply cot_high; assumption). assert (C2 : - 0.018 <= c) by (apply cot_low; rewrite (deg_pi 91); lra). pose proof (SIN_bound (deg (14.7 * c + 13))). lra.
Qed.

Lemma cot_lip k x y : 0 < k -> k <= sin x -> k <= sin y -> Rabs (cot x - cot y) <= / (k * k) * Rabs (x - y).
Proof.
  intros K X Y. unfold cot. replace (cos x / sin x - cos y / sin y) with (/ (sin x * sin y) * (sin y * cos x - cos y * sin x)) by (field; lra). rewrite <- sin_minus, Rabs_mult.
  apply Rmult_le_compat; [apply Rabs_pos|apply Rabs_pos| |rewrite (Rabs_minus_sym x); apply sin_abs].
  rewrite Rabs_pos_eq by (left; apply Rinv_0_lt_compat; nra). apply Rinv_le_contravar; [nra|apply Rmult_le_compat; lra].
Qed.
Lemma inner_lip x y : -0.002 <= x -> -0.002 <= y -> Rabs (inner x - inner y) <= Rabs (x - y).
Proof.
  intros X Y. unfold inner. replace (x + 7.31 / (x + 4.4) - (y + 7.31 / (y + 4.4))) with ((x - y) * (1 - 7.31 * / ((x + 4.4) * (y + 4.4)))) by (field; lra). rewrite Rabs_mult.
  rewrite <- (Rmult_1_r (Rabs (x - y))) at 2. apply Rmult_le_compat_l; [apply Rabs_pos|]. assert (M : 19 <= (x + 4.4) * (y + 4.4)) by nra. set (m := (x + 4.4) * (y + 4.4)) in *.
  assert (0 < / m <= / 19) by (split; [apply Rinv_0_lt_compat; lra|apply Rinv_le_contravar; lra]). apply Rabs_le. lra.
Qed.
(** Apparent altitudes that occur: from a little below the horizon. *)
Definition seen (h : R) : Prop := -0.002 <= h <= 90.6.
Lemma seen_bounds h : seen h -> 0 < inner h <= 91 /\ 0.02895 <= sin (deg (inner h)) /\ - 0.08 <= bennett h <= 36.
Proof.
  intros [A B]. destruct (bennett_bounds h 1.66 0.02895) as (X & Y & Z); try lra; try nra.
Qed.
Lemma bennett_lip x y : seen x -> seen y -> Rabs (bennett x - bennett y) <= 21.6 * Rabs (x - y).
Proof.
  intros X Y. destruct (seen_bounds x X) as (_ & SX & _). destruct (seen_bounds y Y) as (_ & SY & _). pose proof pi_deg as P.
  pose proof (cot_lip 0.02895 _ _ ltac:(lra) SX SY) as C. pose proof (inner_lip x y (proj1 X) (proj1 Y)) as I. unfold bennett. cbv zeta. fold (inner x) (inner y). set (c := cot (deg (inner x))) in *. set (d := cot (deg (inner y))) in *.
  assert (I2 : Rabs (deg (inner x) - deg (inner y)) <= 0.01746 * Rabs (x - y)). { rewrite !deg_pi, <- Rmult_minus_distr_r, Rabs_mult, (Rabs_pos_eq (PI / 180)) by lra. rewrite Rmult_comm. apply Rmult_le_compat; try lra; apply Rabs_pos. }
  assert (C2 : Rabs (c - d) <= 20.9 * Rabs (x - y)). { eapply Rle_trans; [exact C|]. apply Rle_trans with (/ (0.02895 * 0.02895) * (0.01746 * Rabs (x - y))); [apply Rmult_le_compat_l; [left; apply Rinv_0_lt_compat; lra|exact I2]|].
    rewrite <- Rmult_assoc. apply Rmult_le_compat_r; [apply Rabs_pos|]. apply (Rmult_le_reg_l (0.02895 * 0.02895)); [lra|]. rewrite <- Rmult_assoc, Rinv_r by lra. lra. }
  pose proof (sin_lip (deg (14.7 * c + 13)) (deg (14.7 * d + 13))) as S. replace (deg (14.7 * c + 13) - deg (14.7 * d + 13)) with (14.7 * (PI / 180) * (c - d)) in S by (rewrite !deg_pi; ring). rewrite Rabs_mult, (Rabs_pos_eq (14.7 * (PI / 180))) in S by lra.
  set (s := sin (deg (14.7 * c + 13)) - sin (deg (14.7 * d + 13))) in *. replace (c - 0.06 * sin (deg (14.7 * c + 13)) - (d - 0.06 * sin (deg (14.7 * d + 13)))) with ((c - d) + (-0.06) * s) by (unfold s; lra).
  eapply Rle_trans; [apply Rabs_triang|]. rewrite (Rabs_mult (-0.06)), (Rabs_left (-0.06)) by lra. assert (S2 : Rabs s <= 0.26 * Rabs (c - d)) by (eapply Rle_trans; [exact S|]; apply Rmult_le_compat_r; [apply Rabs_pos|lra]). pose proof (Rabs_pos (x - y)). lra.
Qed.

(** The code, in the units of the publication. *)
Lemma refraction_bennett h : h + 4.4 <> 0 -> sin (deg (inner h)) <> 0 -> refraction (deg h) = Ret (arcmin (bennett h)).
Proof.
  intros A B. pose proof PI_lo_hi as P. unfold refraction. replace (deg h * 180 / PI) with h by (unfold deg; field; lra). rewrite quot_ok by assumption. cbn [obind]. cbv zeta.
  replace (deg h + 7.31 * PI / 180 / (h + 4.4)) with (deg (inner h)) by (unfold deg, inner; field; assumption). rewrite quot_ok by assumption. cbn [obind]. f_equal.
  unfold arcmin, bennett. fold (inner h). cbv zeta. fold (cot (deg (inner h))). set (c := cot _). replace ((14.7 * c + 13) * PI / 180) with (deg (14.7 * c + 13)) by reflexivity. set (s := sin _). rewrite deg_pi. field.
Qed.
Lemma refraction_seen h : seen h -> refraction (deg h) = Ret (arcmin (bennett h)).
Proof. intro S. destruct (seen_bounds h S) as (_ & B & _). destruct S. apply refraction_bennett; lra. Qed.
Lemma deg_plus a b : deg a + arcmin b = deg (a + b / 60). Proof. unfold arcmin, deg. field. Qed.
Lemma guess_ok t : 0 <= t <= 90 -> exists g, first_guess (deg t) = Ret (arcmin g) /\ - 0.08 <= g <= 36.
Proof.
  intros T. pose proof PI_lo_hi as P. pose proof pi_deg as D. assert (Q : PI = 180 * (PI / 180)) by field. unfold first_guess. replace (deg t * 180 / PI) with t by (unfold deg; field; lra). rewrite quot_ok by lra. cbn [obind]. cbv zeta.
  set (w := t + 10.3 / (t + 5.11)). replace (deg t + 10.3 * PI / 180 / (t + 5.11)) with (deg w) by (unfold deg, w; field; lra).
  assert (W : 1.7 <= w <= 91). { unfold w. split; apply (Rmult_le_reg_r (t + 5.11)); try lra; (replace ((t + 10.3 / (t + 5.11)) * (t + 5.11)) with (t * (t + 5.11) + 10.3) by (field; lra)); nra. }
  assert (I : 0.0296 <= deg w <= deg 91). { rewrite !deg_pi. split; [nra|apply Rmult_le_compat_r; lra]. }
  assert (S : 0.02957 <= sin (deg w)). { eapply Rle_trans; [|apply (sin_floor 0.0296); [lra|rewrite (deg_pi 91) in I; lra]]. lra. }
  rewrite quot_ok by lra. cbn [obind]. exists (1.02 * cot (deg w)). split; [f_equal; unfold arcmin; fold (cot (deg w)); set (c := cot (deg w)); rewrite deg_pi; field|].
  pose proof (cot_high 0.02957 _ ltac:(lra) S). pose proof (cot_low (deg w) ltac:(lra)). assert (/ 0.02957 <= 34) by (apply (Rmult_le_reg_r 0.02957); [lra|]; rewrite Rinv_l; lra). lra.
Qed.

(** The loop shrinks its step by 0.36 each time. *)
Lemma seen_sum t r : 0 <= t <= 90 -> - 0.08 <= r <= 36 -> seen (t + r / 60).
Proof. intros. unfold seen. lra. Qed.
Lemma contract t r s : 0 <= t <= 90 -> - 0.08 <= r <= 36 -> - 0.08 <= s <= 36 -> Rabs (bennett (t + r / 60) - bennett (t + s / 60)) <= 0.36 * Rabs (r - s).
Proof.
  intros T A B. eapply Rle_trans; [apply bennett_lip; now apply seen_sum|]. replace (t + r / 60 - (t + s / 60)) with (/ 60 * (r - s)) by field. rewrite Rabs_mult, (Rabs_pos_eq (/ 60)) by lra. pose proof (Rabs_pos (r - s)). lra.
Qed.
Lemma arcmin_minus a b : arcmin a - arcmin b = arcmin (a - b). Proof. unfold arcmin, deg. field. Qed.
Lemma stop d : (Rltb tolerance (arcmin d) || Rltb (arcmin d) (- tolerance))%bool = false -> Rabs d <= 0.01 / 60.
Proof.
  intro H. apply Bool.orb_false_iff in H. destruct H as [H1 H2]. destruct (Rltb_spec tolerance (arcmin d)) as [|N1]; [discriminate|]. destruct (Rltb_spec (arcmin d) (- tolerance)) as [|N2]; [discriminate|].
  pose proof pi_deg as P. unfold tolerance, arcmin in *. rewrite deg_pi in *. set (p := PI / 180) in *. apply Rabs_le. split; apply (Rmult_le_reg_r (p / 60)); lra.
Qed.
Lemma improve_ok n : forall t p r, 0 <= t <= 90 -> - 0.08 <= r <= 36 -> - 0.08 <= p <= 36 -> r = bennett (t + p / 60) ->
  exists s, improve n (deg t) (arcmin r) (arcmin (p - r)) = Ret (arcmin s) /\ - 0.08 <= s <= 36 /\ (Rabs (bennett (t + s / 60) - s) <= 0.36 * (0.01 / 60) \/ Rabs (bennett (t + s / 60) - s) <= 0.36 ^ S n * Rabs (p - r)).
Proof.
  induction n as [|n IH]; intros t p r T A B E; cbn [improve].
  - exists r. split; [reflexivity|]. split; [exact A|]. right. rewrite E at 2. rewrite pow_1, (Rabs_minus_sym p). now apply contract.
  - destruct (Rltb tolerance (arcmin (p - r)) || Rltb (arcmin (p - r)) (- tolerance))%bool eqn:G.
    + rewrite deg_plus, refraction_seen by now apply seen_sum. cbn [obind]. rewrite arcmin_minus. destruct (seen_bounds _ (seen_sum t r T A)) as (_ & _ & Z).
      destruct (IH t r (bennett (t + r / 60)) T Z A eq_refl) as (s & X & Y & W). exists s. split; [exact X|]. split; [exact Y|]. destruct W as [W|W]; [now left|right]. eapply Rle_trans; [exact W|].
      replace (0.36 ^ S (S n) * Rabs (p - r)) with (0.36 ^ S n * (0.36 * Rabs (p - r))) by (cbn [pow]; ring). apply Rmult_le_compat_l; [apply pow_le; lra|].
      pose proof (contract t p r T B A) as C. rewrite <- E in C. exact C.
    + exists r. split; [reflexivity|]. split; [exact A|]. left. rewrite E at 2. eapply Rle_trans; [now apply contract|]. rewrite (Rabs_minus_sym r). apply Rmult_le_compat_l; [lra|now apply stop].
Qed.
