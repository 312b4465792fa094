(** Theorems of C70 with their proofs; PropRef.v states them again. *)
From Coq Require Import Lra Psatz.
From Verif Require Import CBase RBase TrigBase RefModel RefSpec RockCentre MarsThms RefProofs.
Local Open Scope R_scope.

Lemma C70_bennett_proof :
forall h, h + 4.4 <> 0 -> sin (deg (h + 7.31 / (h + 4.4))) <> 0 -> refraction (deg h) = Ret (arcmin (bennett h)).
Proof.
  exact refraction_bennett.
Qed.

Lemma C70_defined_proof :
forall h, -4 <= h <= 90 -> exists r, refraction (deg h) = Ret r /\ arcmin (-0.08) <= r <= arcmin 58.
Proof.
  intros h H. assert (Q1 : 0 <= (h + 4.4) * (h - 1) + 7.31) by (pose proof (Rle_0_sqr (h + 1.7)) as Q; unfold Rsqr in Q; lra). assert (Q2 : (h + 4.4) * (h - 91) + 7.31 <= 0) by (assert (0 <= (h + 4) * (90 - h)) by (apply Rmult_le_pos; lra); lra).
  destruct (bennett_bounds h 1 0.01744 ltac:(lra) ltac:(lra) ltac:(lra) ltac:(lra) Q1 Q2 ltac:(lra) ltac:(lra)) as (_ & S & B). exists (arcmin (bennett h)). split; [apply refraction_bennett; lra|]. pose proof pi_deg as P.
  assert (/ 0.01744 <= 57.4) by (apply (Rmult_le_reg_r 0.01744); [lra|]; rewrite Rinv_l; lra). unfold arcmin. rewrite !deg_pi. split; apply Rmult_le_compat_r; lra.
Qed.

Lemma reverse_ok t : 0 <= t <= 90 -> exists s, reverse_refraction (deg t) = Ret (arcmin s) /\ -0.08 <= s <= 36 /\ Rabs (bennett (t + s / 60) - s) <= 0.1 / 60.
Proof.
  intro T. pose proof pi_deg as P. destruct (guess_ok t T) as (g & G & B). unfold reverse_refraction. rewrite G. cbn [obind]. change 10%nat with (S 9). set (n := 9%nat). cbn [improve].
  destruct (Rltb_spec tolerance 1) as [_|N]; [|exfalso; apply N; unfold tolerance; lra]. cbn [orb]. rewrite deg_plus, refraction_seen by now apply seen_sum. cbn [obind]. destruct (seen_bounds _ (seen_sum t g T B)) as (_ & _ & Z). rewrite arcmin_minus.
  destruct (improve_ok n t g (bennett (t + g / 60)) T Z B eq_refl) as (s & X & Y & W). exists s. split; [exact X|]. split; [exact Y|]. destruct W as [W|W]; [lra|]. eapply Rle_trans; [exact W|]. unfold n.
  assert (D : Rabs (g - bennett (t + g / 60)) <= 36.08) by (apply Rabs_le; lra). assert (Q : 0.36 ^ 10 <= 0.00004) by (cbn [pow]; lra). assert (Q0 : 0 <= 0.36 ^ 10) by (apply pow_le; lra).
  apply Rle_trans with (0.00004 * 36.08); [apply Rmult_le_compat; try assumption; apply Rabs_pos|lra].
Qed.
Lemma arcmin_abs a : Rabs (arcmin a) = arcmin (Rabs a).
Proof. pose proof pi_deg as P. unfold arcmin. rewrite !deg_pi. replace (a / 60 * (PI / 180)) with (a * (PI / 180 / 60)) by field. rewrite Rabs_mult, (Rabs_pos_eq (PI / 180 / 60)) by lra. field. Qed.
Lemma arcmin_sec a b : a <= b / 60 -> arcmin a <= arcsec b.
Proof. intro H. pose proof pi_deg as P. unfold arcmin, arcsec. rewrite !deg_pi. apply Rmult_le_compat_r; lra. Qed.

Lemma C70_reverse_proof :
forall t, 0 <= t <= 90 -> exists r s, reverse_refraction (deg t) = Ret r /\ refraction (deg t + r) = Ret s /\ Rabs (s - r) <= arcsec 0.1.
Proof.
  intros t T. destruct (reverse_ok t T) as (s & X & Y & W). exists (arcmin s), (arcmin (bennett (t + s / 60))). split; [exact X|]. split; [rewrite deg_plus; apply refraction_seen; now apply seen_sum|].
  rewrite arcmin_minus, arcmin_abs. now apply arcmin_sec.
Qed.

Lemma C70_round_trip_proof :
forall h r, 0 <= h <= 90 -> refraction (deg h) = Ret r -> 0 <= deg h - r <= deg 90 ->
  exists s, reverse_refraction (deg h - r) = Ret s /\ Rabs (s - r) <= arcsec 0.16.
Proof.
  intros h r H E T. pose proof pi_deg as P. assert (SH : seen h) by (unfold seen; lra). rewrite (refraction_seen h SH) in E. injection E as <-. destruct (seen_bounds h SH) as (_ & _ & B). set (b := bennett h) in *.
  assert (D : deg h - arcmin b = deg (h - b / 60)) by (unfold arcmin, deg; field). rewrite D in *. assert (T2 : 0 <= h - b / 60 <= 90). { rewrite !deg_pi in T. set (p := PI / 180) in *. split; apply (Rmult_le_reg_r p); lra. }
  destruct (reverse_ok _ T2) as (s & X & Y & W). exists (arcmin s). split; [exact X|]. rewrite arcmin_minus, arcmin_abs. apply arcmin_sec.
  pose proof (contract (h - b / 60) s b T2 Y B) as C. replace (h - b / 60 + b / 60) with h in C by ring. fold b in C.
  pose proof (Rabs_triang (bennett (h - b / 60 + s / 60) - b) (- (bennett (h - b / 60 + s / 60) - s))) as Q. rewrite Rabs_Ropp in Q. replace (bennett (h - b / 60 + s / 60) - b + - (bennett (h - b / 60 + s / 60) - s)) with (s - b) in Q by ring. lra.
Qed.

Lemma C70_zenith_refuted_proof :
exists r, refraction (deg 90) = Ret r /\ r < arcsec (-0.75).
Proof.
  pose proof pi_deg as P. assert (Q : PI = 180 * (PI / 180)) by field. assert (SH : seen 90) by (unfold seen; lra). exists (arcmin (bennett 90)). split; [now apply refraction_seen|].
  assert (B : bennett 90 < -0.75 / 60); [|unfold arcmin, arcsec; rewrite !deg_pi; apply Rmult_lt_compat_r; lra].
  assert (I : 90 <= inner 90 <= 91) by (unfold inner; lra). unfold bennett. cbv zeta. fold (inner 90). set (c := cot (deg (inner 90))).
  assert (DI : PI / 2 <= deg (inner 90) <= deg 91). { rewrite !deg_pi. split; [|apply Rmult_le_compat_r; lra]. replace (PI / 2) with (90 * (PI / 180)) by field. apply Rmult_le_compat_r; lra. }
  assert (C0 : c <= 0). { unfold c, cot. assert (S : 0 < sin (deg (inner 90))) by (apply sin_gt_0; rewrite (deg_pi 91) in DI; lra). assert (K : cos (deg (inner 90)) <= 0) by (apply cos_le_0; rewrite (deg_pi 91) in DI; lra).
    unfold Rdiv. assert (0 < / sin (deg (inner 90))) by (now apply Rinv_0_lt_compat). nra. }
  assert (C1 : -0.018 <= c) by (apply cot_low; lra).
  assert (A : 0.222 <= deg (14.7 * c + 13) <= 0.24). { rewrite deg_pi. split; nra. }
  pose proof (sin_floor 0.222 (deg (14.7 * c + 13)) ltac:(lra) ltac:(lra)). lra.
Qed.

Lemma C70_saastamoinen_proof :
forall z pressure temperature humidity, 0 < temperature -> - PI / 2 < z < PI / 2 ->
  saasta_refraction (PI / 2 - z) pressure temperature humidity = Ret (arcsec (saastamoinen z pressure temperature humidity)).
Proof.
  intros z p T hu HT Z. assert (C : 0 < cos z) by (apply cos_gt_0; lra). unfold saasta_refraction. rewrite cos_shift, sin_shift, quot_ok by lra. cbn [obind]. cbv zeta. destruct (Rleb_spec T 0); [lra|].
  rewrite ?quot_ok by lra. cbn [obind]. f_equal. unfold saastamoinen, vapour, Rpower. cbv zeta. fold (tan z). set (x := tan z). set (pw := exp _). unfold arcsec. rewrite deg_pi. field. lra.
Qed.

Lemma C70_saasta_proof :
forall pressure temperature humidity, 0 < temperature ->
  saasta_refraction (PI / 2) pressure temperature humidity = Ret 0 /\
  forall alt, 0 < alt < PI -> exists r, saasta_refraction alt pressure temperature humidity = Ret r /\ saasta_refraction (PI - alt) pressure temperature humidity = Ret (- r).
Proof.
  intros p T hu HT. split.
  - unfold saasta_refraction. rewrite cos_PI2, sin_PI2, quot_ok by lra. cbn [obind]. cbv zeta. destruct (Rleb_spec T 0); [lra|]. rewrite quot_ok by lra. cbn [obind]. f_equal. field. lra.
  - intros alt A. assert (S : 0 < sin alt) by (apply sin_gt_0; lra). unfold saasta_refraction. rewrite sin_PI_x, Rtrigo_facts.cos_pi_minus, !quot_ok by lra. cbn [obind]. cbv zeta. destruct (Rleb_spec T 0); [lra|]. rewrite ?quot_ok by lra. cbn [obind].
    eexists. split; [reflexivity|]. f_equal. field. lra.
Qed.
