(** Lemmas for C53: Newton's iteration for Kepler's equation. *)
From Coq Require Import Lia.
From Verif Require Import TrigBase OrbModel OrbSpec OrbProofs.
Local Open Scope R_scope.

(** * Sines and cosines *)
Lemma abs_le x y : Rabs x <= y -> - y <= x <= y.
Proof. intros H. unfold Rabs in H. destruct (Rcase_abs x); lra. Qed.
Lemma cos_lip a b : Rabs (cos b - cos a) <= Rabs (b - a).
Proof.
  destruct (MVT_abs cos (fun x => - sin x) a b) as (c & E & _); [intros c _; apply derivable_pt_lim_cos|].
  rewrite E, Rabs_Ropp. pose proof (SIN_bound c) as B. assert (Rabs (sin c) <= 1) by (apply Rabs_le; lra). pose proof (Rabs_pos (b - a)). nra.
Qed.
(** Distance from the tangent. *)
Lemma sin_tangent a b : Rabs (sin b - sin a - (b - a) * cos a) <= (b - a) * (b - a).
Proof.
  destruct (Req_dec a b) as [->|N]; [replace (sin b - sin b - (b - b) * cos b) with 0 by ring; rewrite Rabs_R0; pose proof (Rle_0_sqr (b - b)) as S; unfold Rsqr in S; lra|].
  assert (G : exists c, sin b - sin a = cos c * (b - a) /\ Rabs (c - a) <= Rabs (b - a)).
  { destruct (Rlt_dec a b) as [L|L].
    - destruct (MVT_cor2 sin cos a b L) as (c & E & I); [intros; apply derivable_pt_lim_sin|]. exists c. split; [exact E|]. rewrite !Rabs_right; lra.
    - destruct (MVT_cor2 sin cos b a) as (c & E & I); [lra|intros; apply derivable_pt_lim_sin|]. exists c. split; [lra|]. rewrite (Rabs_left1 (c - a)), (Rabs_left1 (b - a)); lra. }
  destruct G as (c & E & I). rewrite E. replace (cos c * (b - a) - (b - a) * cos a) with ((cos c - cos a) * (b - a)) by ring. rewrite Rabs_mult.
  pose proof (cos_lip a c) as L. pose proof (Rabs_pos (b - a)). replace ((b - a) * (b - a)) with (Rabs (b - a) * Rabs (b - a)) by (rewrite <- Rabs_mult; apply Rabs_right; pose proof (Rle_0_sqr (b - a)) as S; unfold Rsqr in S; lra).
  apply Rmult_le_compat_r; lra.
Qed.
(** The sine is concave from 0 to pi. *)
Lemma sin_concave a b : 0 <= a <= PI -> 0 <= b <= PI -> sin b <= sin a + (b - a) * cos a.
Proof.
  intros Ha Hb. destruct (Req_dec a b) as [->|N]; [lra|]. destruct (Rlt_dec a b) as [L|L].
  - destruct (MVT_cor2 sin cos a b L) as (c & E & I); [intros; apply derivable_pt_lim_sin|]. assert (cos c < cos a) by (apply cos_decreasing_1; lra). nra.
  - destruct (MVT_cor2 sin cos b a) as (c & E & I); [lra|intros; apply derivable_pt_lim_sin|]. assert (cos a < cos c) by (apply cos_decreasing_1; lra). nra.
Qed.

(** * Low eccentricities *)
Definition above (e M c : R) : Prop := 0 <= c <= PI /\ 0 <= c - e * sin c - M.

Lemma slope_pos e c : 0 <= e < 1 -> 0 < 1 - e * cos c.
Proof. intros He. pose proof (COS_bound c). nra. Qed.

Lemma step_above e M c : 0 <= e < 1 -> 0 <= M <= PI -> above e M c -> let err := (c - e * sin c - M) / (1 - e * cos c) in
  0 <= err /\ above e M (c - err) /\ c - err - e * sin (c - err) - M <= e * (err * err).
Proof.
  intros He HM [Hc Hf] err. pose proof (slope_pos e c He) as D. assert (E : err * (1 - e * cos c) = c - e * sin c - M) by (unfold err; field; lra).
  assert (E0 : 0 <= err) by (unfold err; apply Rmult_le_pos; [exact Hf|left; apply Rinv_0_lt_compat; exact D]).
  assert (L : 0 <= c - err).
  { pose proof (sin_concave c 0 Hc ltac:(pose proof PI_RGT_0; lra)) as K. rewrite sin_0 in K.
    assert (c - e * sin c <= c * (1 - e * cos c)) by nra. assert (err * (1 - e * cos c) <= c * (1 - e * cos c)) by lra. apply Rmult_le_reg_r in H0; lra. }
  split; [exact E0|]. split.
  - split; [lra|]. pose proof (sin_concave c (c - err) Hc ltac:(lra)) as K. nra.
  - pose proof (sin_tangent c (c - err)) as T. apply abs_le in T. replace (c - err - c) with (- err) in T by ring.
    assert (K : e * (sin (c - err) - sin c + err * cos c) >= - (e * (err * err))) by nra. nra.
Qed.

Lemma newton_low_ends e M : 0 <= e < 1 -> 0 <= M <= PI -> forall n c, above e M c -> c <= INR n * THRESH -> exists E, above e M E /\ E - e * sin E - M <= e * (THRESH * THRESH) /\
  forall fuel, (S n <= fuel)%nat -> newton_low fuel e M c = Ret E.
Proof.
  intros He HM. assert (T0 : 0 < THRESH) by (unfold THRESH; lra).
  induction n as [|n IH]; intros c HA HB.
  - destruct (step_above e M c He HM HA) as (E0 & A' & B'). cbv zeta in A', B'. set (err := (c - e * sin c - M) / (1 - e * cos c)) in *.
    assert (Z : err = 0). { cbn [INR] in HB. destruct HA as [HA _], A' as [A' _]. lra. }
    exists (c - err). split; [exact A'|]. split; [rewrite Z in *; nra|]. intros [|fuel] HF; [lia|]. cbn [newton_low]. rewrite c_div_ok by (pose proof (slope_pos e c He); lra). cbn [obind]. fold err.
    destruct (Rltb_spec THRESH (Rabs err)) as [G|_]; [rewrite Z, Rabs_R0 in G; lra|]. reflexivity.
  - destruct (step_above e M c He HM HA) as (E0 & A' & B'). cbv zeta in A', B'. set (err := (c - e * sin c - M) / (1 - e * cos c)) in *.
    assert (U : forall fuel, newton_low (S fuel) e M c = if Rltb THRESH (Rabs err) then newton_low fuel e M (c - err) else Ret (c - err)).
    { intros fuel. cbn [newton_low]. rewrite c_div_ok by (pose proof (slope_pos e c He); lra). reflexivity. }
    destruct (Rltb_spec THRESH (Rabs err)) as [G|G].
    + rewrite Rabs_right in G by lra. destruct (IH (c - err) A') as (E & EA & EB & EF); [rewrite S_INR in HB; lra|].
      exists E. split; [exact EA|]. split; [exact EB|]. intros [|fuel] HF; [lia|]. rewrite U. apply EF. lia.
    + rewrite Rabs_right in G by lra. exists (c - err). split; [exact A'|]. split; [apply Rle_trans with (1 := B'); apply Rmult_le_compat_l; [lra|]; apply Rmult_le_compat; lra|]. intros [|fuel] HF; [lia|]. rewrite U. reflexivity.
Qed.

Lemma start_above e M : 0 <= e < 1 -> 0 <= M <= PI -> above e M (atan2 (sin M) (cos M - e)).
Proof.
  intros He HM. pose proof PI_RGT_0 as PP. pose proof (sc M) as SM. assert (S0 : 0 <= sin M) by (apply sin_ge_0; lra).
  set (c := atan2 (sin M) (cos M - e)). destruct (atan2_polar (sin M) (cos M - e)) as [Pc Ps]. cbv zeta in Pc, Ps. fold c in Pc, Ps. pose proof (atan2_bound (sin M) (cos M - e)) as B. fold c in B.
  assert (H0 : 0 < (cos M - e) * (cos M - e) + sin M * sin M).
  { destruct (Req_dec (sin M) 0) as [Z|Z]; [|pose proof (Rlt_0_sqr _ Z) as Q; pose proof (Rle_0_sqr (cos M - e)) as Q2; unfold Rsqr in *; lra].
    assert (N : cos M - e <> 0) by (intros W; nra). pose proof (Rlt_0_sqr _ N) as Q. unfold Rsqr in Q. nra. }
  assert (R0 : 0 < sqrt ((cos M - e) * (cos M - e) + sin M * sin M)) by (apply sqrt_lt_R0; exact H0). set (r := sqrt _) in *.
  assert (SC : 0 <= sin c) by nra.
  assert (C0 : 0 <= c). { destruct (Rle_dec 0 c) as [L|L]; [exact L|]. exfalso. pose proof (sin_gt_0 (- c) ltac:(lra) ltac:(lra)) as K. rewrite sin_neg in K. lra. }
  assert (SD : sin (c - M) = e * sin c).
  { rewrite sin_minus. apply Rmult_eq_reg_l with r; [|lra]. transitivity (r * sin c * cos M - r * cos c * sin M); [ring|]. rewrite Ps, Pc. transitivity (e * (r * sin c)); [rewrite Ps; ring|ring]. }
  split; [lra|]. rewrite <- SD.
  destruct (Rle_dec 0 (c - M)) as [L|L].
  - assert (K : sin (c - M) <= c - M). { destruct (Req_dec (c - M) 0) as [Z|Z]; [rewrite Z, sin_0; lra|]. left. apply sin_lt_x. lra. } lra.
  - exfalso. assert (K : 0 <= sin (M - c)) by (apply sin_ge_0; lra). replace (M - c) with (- (c - M)) in K by ring. rewrite sin_neg, SD in K.
    assert (Z : e * sin c = 0) by nra. assert (Z2 : sin (M - c) = 0) by (replace (M - c) with (- (c - M)) by ring; rewrite sin_neg, SD; lra).
    assert (W : M - c = PI). { destruct (Rlt_dec (M - c) PI) as [G|G]; [|lra]. pose proof (sin_gt_0 (M - c) ltac:(lra) G). lra. }
    assert (M = PI) by lra. assert (c = 0) by lra. rewrite H, H1 in Pc. rewrite cos_0, cos_PI in Pc. lra.
Qed.

(** With the signs turned round. *)
Lemma newton_low_neg fuel e M : forall c, newton_low fuel e (- M) (- c) = (do E <- newton_low fuel e M c; Ret (- E)).
Proof.
  induction fuel as [|fuel IH]; intros c; cbn [newton_low]; [reflexivity|]. rewrite sin_neg, cos_neg. unfold c_div. destruct (Reqb_spec (1 - e * cos c) 0) as [Z|Z]; cbn [obind]; [reflexivity|].
  replace ((- c - e * - sin c - - M) / (1 - e * cos c)) with (- ((c - e * sin c - M) / (1 - e * cos c))) by (field; exact Z). set (err := (c - e * sin c - M) / (1 - e * cos c)).
  rewrite Rabs_Ropp. destruct (Rltb_spec THRESH (Rabs err)); cbn [obind].
  - replace (- c - - err) with (- (c - err)) by ring. apply IH.
  - f_equal. ring.
Qed.
Lemma atan2_neg y x : (y <> 0 \/ 0 < x) -> atan2 (- y) x = - atan2 y x.
Proof.
  intros H. unfold atan2. assert (D : forall z, - y / z = - (y / z)) by (intros; unfold Rdiv; ring). rewrite !D, !atan_opp.
  destruct (Rltb_spec 0 x); [reflexivity|]. destruct H as [H|H]; [|lra]. destruct (Rltb_spec x 0).
  - destruct (Rleb_spec 0 y), (Rleb_spec 0 (- y)); lra.
  - destruct (Rltb_spec 0 y), (Rltb_spec 0 (- y)), (Rltb_spec y 0), (Rltb_spec (- y) 0); lra.
Qed.
Lemma enough (c : R) : exists n, c <= INR n * THRESH.
Proof.
  assert (T0 : 0 < THRESH) by (unfold THRESH; lra). exists (Z.to_nat (Z.max 0 (up (c / THRESH)))). rewrite INR_IZR_INZ, Z2Nat.id by lia.
  destruct (archimed (c / THRESH)) as [A _]. assert (IZR (up (c / THRESH)) <= IZR (Z.max 0 (up (c / THRESH)))) by (apply IZR_le; lia).
  assert (c / THRESH <= IZR (Z.max 0 (up (c / THRESH)))) by lra. apply Rmult_le_compat_r with (r := THRESH) in H0; [|lra]. replace (c / THRESH * THRESH) with c in H0 by (field; lra). exact H0.
Qed.
Lemma newton_low_total e M : 0 <= e < 1 -> - PI < M <= PI -> exists E n, Rabs (E - e * sin E - M) <= e * (THRESH * THRESH) /\ - PI <= E <= PI /\
  forall fuel, (n <= fuel)%nat -> newton_low fuel e M (atan2 (sin M) (cos M - e)) = Ret E.
Proof.
  intros He HM. destruct (Rle_dec 0 M) as [P|N].
  - pose proof (start_above e M He ltac:(lra)) as A. destruct (enough (atan2 (sin M) (cos M - e))) as [n Hn].
    destruct (newton_low_ends e M He ltac:(lra) n _ A Hn) as (E & [EA1 EA2] & EB & EF). exists E, (S n). split; [rewrite Rabs_right; lra|]. split; [lra|exact EF].
  - pose proof (start_above e (- M) He ltac:(lra)) as A. destruct (enough (atan2 (sin (- M)) (cos (- M) - e))) as [n Hn].
    destruct (newton_low_ends e (- M) He ltac:(lra) n _ A Hn) as (E & [EA1 EA2] & EB & EF). exists (- E), (S n). rewrite sin_neg. split; [rewrite Rabs_left1; lra|]. split; [lra|].
    intros fuel HF. replace M with (- - M) at 1 by ring. replace (atan2 (sin M) (cos M - e)) with (- atan2 (sin (- M)) (cos (- M) - e)).
    + rewrite newton_low_neg, (EF fuel HF). reflexivity.
    + rewrite sin_neg, cos_neg. rewrite atan2_neg; [ring|]. left. assert (0 < sin (- M)) by (apply sin_gt_0; lra). rewrite sin_neg in H. lra.
Qed.

(** * Whole turns *)
Lemma turns_sin x k : sin (x + 2 * PI * IZR k) = sin x.
Proof.
  assert (N : forall n y, sin (y + 2 * PI * IZR (Z.of_nat n)) = sin y). { intros n y. rewrite <- INR_IZR_INZ. replace (2 * PI * INR n) with (2 * INR n * PI) by ring. apply sin_period. }
  destruct (Z_le_dec 0 k) as [L|L]; [rewrite <- (Z2Nat.id k) by assumption; apply N|].
  rewrite <- (N (Z.to_nat (- k)) (x + _)). f_equal. rewrite Z2Nat.id by lia. rewrite opp_IZR. ring.
Qed.
Lemma turns_cos x k : cos (x + 2 * PI * IZR k) = cos x.
Proof.
  assert (N : forall n y, cos (y + 2 * PI * IZR (Z.of_nat n)) = cos y). { intros n y. rewrite <- INR_IZR_INZ. replace (2 * PI * INR n) with (2 * INR n * PI) by ring. apply cos_period. }
  destruct (Z_le_dec 0 k) as [L|L]; [rewrite <- (Z2Nat.id k) by assumption; apply N|].
  rewrite <- (N (Z.to_nat (- k)) (x + _)). f_equal. rewrite Z2Nat.id by lia. rewrite opp_IZR. ring.
Qed.
Lemma int_part x : IZR (Int_part x) <= x < IZR (Int_part x) + 1.
Proof. pose proof (base_Int_part x). lra. Qed.
Lemma fmod_bound x : - (2 * PI) < c_fmod x (PI * 2) < 2 * PI /\ exists k, c_fmod x (PI * 2) = x + 2 * PI * IZR k.
Proof.
  pose proof PI_RGT_0 as P. unfold c_fmod. split.
  - unfold truncate. destruct (Rltb_spec (x / (PI * 2)) 0) as [L|L].
    + pose proof (int_part (- (x / (PI * 2)))) as I. rewrite opp_IZR. assert (E : x = PI * 2 * (x / (PI * 2))) by (field; lra). set (y := x / (PI * 2)) in *. rewrite E. clear E. split; nra.
    + pose proof (int_part (x / (PI * 2))) as I. assert (E : x = PI * 2 * (x / (PI * 2))) by (field; lra). set (y := x / (PI * 2)) in *. rewrite E. clear E. split; nra.
  - exists (- truncate (x / (PI * 2)))%Z. rewrite opp_IZR. ring.
Qed.
Lemma half_turn_ok M : let '(m, o) := within_half_turn M in m + o = M /\ - PI <= m <= PI /\ exists k, o = 2 * PI * IZR k.
Proof.
  pose proof PI_RGT_0 as P. unfold within_half_turn. destruct (Rltb_spec M (- PI)) as [A|A]; cbn [orb].
  2: destruct (Rltb_spec PI M) as [B|B]; cbn [orb].
  3: { split; [ring|]. split; [lra|]. exists 0%Z. ring. }
  all: cbv zeta; destruct (fmod_bound M) as [F (k & K)]; set (t := c_fmod M (PI * 2)) in *;
    destruct (Rltb_spec PI t); [|destruct (Rltb_spec t (- PI))]; (split; [ring|]; split; [lra|]);
    [exists (1 - k)%Z; rewrite minus_IZR|exists (- 1 - k)%Z; rewrite minus_IZR|exists (- k)%Z; rewrite opp_IZR]; rewrite K; ring.
Qed.
