(** How near the two terms of the equation of the centre are to Kepler's motion. *)
From Coq Require Import Lra Psatz QArith Qreals.
From Verif Require Import TrigBase RockModel RockSpec RockProofs.
Local Open Scope R_scope.

Lemma sin_lip a b : Rabs (sin a - sin b) <= Rabs (a - b).
Proof.
  assert (G : forall x y, x < y -> Rabs (sin y - sin x) <= Rabs (y - x)).
  { intros x y H. destruct (MVT_cor2 sin cos x y H) as (c & M & _); [intros; apply derivable_pt_lim_sin|]. rewrite M, Rabs_mult. rewrite <- (Rmult_1_l (Rabs (y - x))) at 2. apply Rmult_le_compat_r; [apply Rabs_pos|]. apply Rabs_le. pose proof (COS_bound c). lra. }
  destruct (Rtotal_order a b) as [H|[->|H]]; [rewrite (Rabs_minus_sym (sin a)), (Rabs_minus_sym a); auto|rewrite !Rminus_eq_0; lra|auto].
Qed.
Lemma sin_abs y : Rabs (sin y) <= Rabs y.
Proof. pose proof (sin_lip y 0) as H. rewrite sin_0, !Rminus_0_r in H. exact H. Qed.
Lemma cos_near d : 0 <= 1 - cos d <= d * d / 2.
Proof.
  pose proof (COS_bound d). split; [lra|]. replace (cos d) with (cos (2 * (d / 2))) by (f_equal; field). rewrite cos_2a_sin. pose proof (sin_abs (d / 2)) as A. apply Rsqr_le_abs_1 in A. unfold Rsqr in A. lra.
Qed.
Lemma sin_near d : Rabs (sin d - d) <= Rabs d * (d * d / 2).
Proof.
  assert (G : forall x, 0 < x -> Rabs (sin x - x) <= x * (x * x / 2)).
  { intros x H. destruct (MVT_cor2 sin cos 0 x H) as (c & M & C); [intros; apply derivable_pt_lim_sin|]. rewrite sin_0, !Rminus_0_r in M. rewrite M. replace (cos c * x - x) with (- (x * (1 - cos c))) by ring. rewrite Rabs_Ropp. destruct (cos_near c) as [A B].
    rewrite Rabs_pos_eq by nra. apply Rmult_le_compat_l; [lra|]. assert (c * c <= x * x) by nra. lra. }
  destruct (Rtotal_order d 0) as [H|[->|H]].
  - specialize (G (- d) ltac:(lra)). rewrite sin_neg in G. rewrite (Rabs_left d H). replace (sin d - d) with (- (- sin d - - d)) by ring. rewrite Rabs_Ropp. replace (d * d / 2) with (- d * - d / 2) by field. exact G.
  - rewrite sin_0, Rminus_eq_0, Rabs_R0. lra.
  - rewrite (Rabs_right d) by lra. auto.
Qed.
Lemma atan_near x : Rabs (atan x - x) <= Rabs x * (x * x).
Proof.
  assert (G : forall y, 0 < y -> Rabs (atan y - y) <= y * (y * y)).
  { intros y H. destruct (MVT_cor2 atan (fun x => / (1 + x ^ 2)) 0 y H) as (c & M & C); [intros c _; apply derivable_pt_lim_atan|]. rewrite atan_0, !Rminus_0_r in M. rewrite M.
    assert (D : 0 <= c ^ 2 <= y * y) by (split; [apply pow2_ge_0|nra]). set (z := c ^ 2) in *. clearbody z. replace (/ (1 + z) * y - y) with (- (y * (z * / (1 + z)))) by (field; lra). rewrite Rabs_Ropp.
    assert (I : 0 < / (1 + z) <= 1) by (split; [apply Rinv_0_lt_compat; lra|rewrite <- Rinv_1; apply Rinv_le_contravar; lra]). set (w := / (1 + z)) in *. clearbody w.
    assert (0 <= z * w <= z) by nra. rewrite Rabs_pos_eq by nra. apply Rmult_le_compat_l; lra. }
  destruct (Rtotal_order x 0) as [H|[->|H]].
  - specialize (G (- x) ltac:(lra)). rewrite atan_opp in G. rewrite (Rabs_left x H). replace (atan x - x) with (- (- atan x - - x)) by ring. rewrite Rabs_Ropp. replace (x * x) with (- x * - x) by ring. exact G.
  - rewrite atan_0, Rminus_eq_0, Rabs_R0. lra.
  - rewrite (Rabs_right x) by lra. auto.
Qed.

(** Kepler's equation has a solution. *)
Lemma eccentric e m : 0 <= e < 1 -> exists ea, ea - e * sin ea = m.
Proof.
  intros E. set (f := fun x => x - e * sin x - m). assert (C : continuity f) by (unfold f; reg).
  destruct (IVT f (m - 2) (m + 2) C ltac:(lra)) as (z & _ & Z).
  - unfold f. pose proof (SIN_bound (m - 2)). nra.
  - unfold f. pose proof (SIN_bound (m + 2)). nra.
  - exists z. unfold f in Z. lra.
Qed.

(** The half-angle form. *)
Lemma beta_facts e : 0 <= e < 1 / 50 -> exists b, 0 <= b <= 51 / 100 * e /\ e * (1 + b * b) = 2 * b /\ sqrt (1 - e * e) * (1 + b * b) = 1 - b * b.
Proof.
  intros E. set (r := sqrt (1 - e * e)). assert (R0 : 0 <= r) by apply sqrt_pos. assert (RR : r * r = 1 - e * e) by (apply sqrt_sqrt; nra). assert (R1 : 99 / 100 <= r) by (apply Rnot_lt_le; intro X; nra).
  exists (e / (1 + r)). assert (K : e / (1 + r) * (e / (1 + r)) = (1 - r) / (1 + r)). { apply (Rmult_eq_reg_r ((1 + r) * (1 + r))); [|nra]. replace (e / (1 + r) * (e / (1 + r)) * ((1 + r) * (1 + r))) with (e * e) by (field; lra). replace ((1 - r) / (1 + r) * ((1 + r) * (1 + r))) with (1 - r * r) by (field; lra). lra. }
  rewrite K. split; [|split; field; lra]. assert (M : e / (1 + r) * (1 + r) = e) by (field; lra). set (b := e / (1 + r)) in *. clearbody b. split; nra.
Qed.

Lemma true_anomaly e b ea : 0 <= e < 1 / 50 -> 0 <= b <= 51 / 100 * e -> e * (1 + b * b) = 2 * b -> sqrt (1 - e * e) * (1 + b * b) = 1 - b * b ->
  let nu := ea + 2 * atan (b * sin ea / (1 - b * cos ea)) in (1 - e * cos ea) * cos nu = cos ea - e /\ (1 - e * cos ea) * sin nu = sqrt (1 - e * e) * sin ea.
Proof.
  intros E B H1 H2. cbv zeta. set (x := b * sin ea / (1 - b * cos ea)). set (q := sqrt (1 - e * e)) in *.
  pose proof (sin2_cos2 ea) as P. unfold Rsqr in P. pose proof (COS_bound ea) as C. pose proof (SIN_bound ea) as S.
  assert (D : 0 < 1 - b * cos ea) by nra. rewrite cos_plus, sin_plus, cos_2a, sin_2a, cos_atan, sin_atan.
  assert (XX : 1 + x² = (1 + b * b - 2 * b * cos ea) / ((1 - b * cos ea) * (1 - b * cos ea))).
  { unfold x, Rsqr. apply (Rmult_eq_reg_r ((1 - b * cos ea) * (1 - b * cos ea))); [|nra]. replace ((1 + b * b - 2 * b * cos ea) / ((1 - b * cos ea) * (1 - b * cos ea)) * ((1 - b * cos ea) * (1 - b * cos ea))) with (1 + b * b - 2 * b * cos ea) by (field; lra).
    replace ((1 + b * sin ea / (1 - b * cos ea) * (b * sin ea / (1 - b * cos ea))) * ((1 - b * cos ea) * (1 - b * cos ea))) with ((1 - b * cos ea) * (1 - b * cos ea) + b * b * (sin ea * sin ea)) by (field; lra).
    replace (sin ea * sin ea) with (1 - cos ea * cos ea) by lra. ring. }
  assert (W0 : 0 < 1 + b * b - 2 * b * cos ea) by nra. assert (SQ : sqrt (1 + x²) * sqrt (1 + x²) = 1 + x²) by (apply sqrt_sqrt; pose proof (Rle_0_sqr x); lra).
  assert (SP : 0 < sqrt (1 + x²)) by (apply sqrt_lt_R0; pose proof (Rle_0_sqr x); lra). set (z := sqrt (1 + x²)) in *. rewrite XX in SQ.
  assert (Z1 : 1 / z * (1 / z) = (1 - b * cos ea) * (1 - b * cos ea) / (1 + b * b - 2 * b * cos ea)).
  { replace (1 / z * (1 / z)) with (/ (z * z)) by (field; lra). rewrite SQ. field. split; nra. }
  set (s := sin ea) in *. set (c := cos ea) in *. set (w := 1 + b * b - 2 * b * c) in *. set (g := 1 - b * c) in *.
  assert (CC : 1 / z * (1 / z) - x / z * (x / z) = (g * g - b * b * (s * s)) / w). { replace (x / z * (x / z)) with (x * x * (1 / z * (1 / z))) by (field; lra). rewrite Z1. unfold x. fold g. field. split; lra. }
  assert (SS : 2 * (x / z) * (1 / z) = 2 * (b * s * g) / w). { replace (2 * (x / z) * (1 / z)) with (2 * x * (1 / z * (1 / z))) by (field; lra). rewrite Z1. unfold x. fold g. field. split; lra. }
  rewrite CC, SS. clear CC SS Z1 SQ SP XX. assert (T : (1 - e * c) * (1 + b * b) = w). { replace ((1 - e * c) * (1 + b * b)) with (1 + b * b - e * (1 + b * b) * c) by ring. rewrite H1. unfold w. ring. } assert (BB : 0 < 1 + b * b) by nra.
  assert (Q : s * s = 1 - c * c) by lra.
  split; apply (Rmult_eq_reg_r (1 + b * b)); try lra.
  - replace ((1 - e * c) * (c * ((g * g - b * b * (s * s)) / w) - s * (2 * (b * s * g) / w)) * (1 + b * b)) with ((1 - e * c) * (1 + b * b) / w * (c * (g * g - b * b * (s * s)) - 2 * b * g * (s * s))) by (field; lra).
    rewrite T. replace (w / w) with 1 by (field; lra). replace ((c - e) * (1 + b * b)) with (c * (1 + b * b) - 2 * b) by lra. rewrite Q. unfold g. ring.
  - replace ((1 - e * c) * (s * ((g * g - b * b * (s * s)) / w) + c * (2 * (b * s * g) / w)) * (1 + b * b)) with ((1 - e * c) * (1 + b * b) / w * (s * (g * g - b * b * (s * s) + 2 * b * g * c))) by (field; lra).
    rewrite T. replace (w / w) with 1 by (field; lra). replace (q * s * (1 + b * b)) with (s * (1 - b * b)) by (rewrite <- H2; ring). rewrite Q. unfold g. ring.
Qed.

Lemma scaled a b c d : 0 <= b -> Rabs a <= b -> 0 <= d -> Rabs c <= d -> Rabs (a * c) <= b * d.
Proof. intros B A D C. rewrite Rabs_mult. apply Rmult_le_compat; try apply Rabs_pos; assumption. Qed.

(** The terms of the code, in the eccentric anomaly. *)
Lemma centre_terms e ea : 0 <= e < 1 / 50 -> let m := ea - e * sin ea in
  Rabs (m + 2 * e * sin m + 5 / 4 * e ^ 2 * sin (2 * m) - (ea + e * sin ea + 1 / 2 * e ^ 2 * (sin ea * cos ea))) <= 36 / 10 * e ^ 3.
Proof.
  intros E. cbv zeta. set (s := sin ea). set (c := cos ea). set (d := e * s).
  assert (S : -1 <= s <= 1) by apply SIN_bound. assert (C : -1 <= c <= 1) by apply COS_bound. assert (DA : Rabs d <= e) by (rewrite <- (Rmult_1_r e); apply scaled; [lra|rewrite Rabs_pos_eq; lra|lra|apply Rabs_le; lra]). assert (DD : 0 <= d * d <= e * e) by (split; [apply Rle_0_sqr|]; assert (Q : Rabs d * Rabs d = d * d) by (rewrite <- Rabs_mult; apply Rabs_pos_eq, Rle_0_sqr); rewrite <- Q; apply Rmult_le_compat; try apply Rabs_pos; exact DA).
  pose proof (sin_lip (2 * (ea - d)) (2 * ea)) as L2. assert (X2 : Rabs (2 * (ea - d) - 2 * ea) <= 2 * e). { replace (2 * (ea - d) - 2 * ea) with (2 * - d) by ring. rewrite Rabs_mult, Rabs_Ropp, (Rabs_right 2) by lra. lra. }
  assert (R2 : Rabs (sin (2 * (ea - d)) - sin (2 * ea)) <= 2 * e) by lra. clear L2 X2. set (r2 := sin (2 * (ea - d)) - sin (2 * ea)) in *.
  assert (R1 : Rabs (sin (ea - d) - (s - c * d)) <= 51 / 100 * (e * e)).
  { rewrite sin_minus. fold s c. replace (s * cos d - c * sin d - (s - c * d)) with (- (s * (1 - cos d)) + - (c * (sin d - d))) by ring.
    eapply Rle_trans; [apply Rabs_triang|]. rewrite !Rabs_Ropp. destruct (cos_near d) as [K1 K2]. pose proof (sin_near d) as K3.
    assert (A1 : Rabs (s * (1 - cos d)) <= 1 * (e * e / 2)) by (apply scaled; [lra|apply Rabs_le; lra|nra|rewrite Rabs_pos_eq; lra]).
    assert (A2 : Rabs (c * (sin d - d)) <= 1 * (e * (e * e / 2))). { apply scaled; [lra|apply Rabs_le; lra|nra|]. eapply Rle_trans; [exact K3|]. apply Rmult_le_compat; try apply Rabs_pos; lra. }
    nra. }
  set (r1 := sin (ea - d) - (s - c * d)) in *.
  replace (sin (ea - d)) with (s - c * d + r1) by (unfold r1; ring). replace (sin (2 * (ea - d))) with (2 * s * c + r2) by (unfold r2; rewrite (sin_2a ea); fold s c; ring).
  replace (ea - d + 2 * e * (s - c * d + r1) + 5 / 4 * e ^ 2 * (2 * s * c + r2) - (ea + d + 1 / 2 * e ^ 2 * (s * c))) with (2 * e * r1 + 5 / 4 * e ^ 2 * r2) by (unfold d; field).
  clearbody r1 r2. eapply Rle_trans; [apply Rabs_triang|]. assert (EE : 0 <= e * e) by apply Rle_0_sqr. assert (A1 : Rabs (2 * e * r1) <= 2 * e * (51 / 100 * (e * e))) by (apply scaled; [lra|rewrite Rabs_pos_eq; lra|lra|assumption]).
  assert (A2 : Rabs (5 / 4 * e ^ 2 * r2) <= 5 / 4 * e ^ 2 * (2 * e)) by (apply scaled; [lra|rewrite Rabs_pos_eq; lra|lra|assumption]).
  assert (0 <= e ^ 3) by (apply pow_le; lra). lra.
Qed.

(** The true anomaly, in the eccentric one. *)
Lemma anomaly_terms e b ea : 0 <= e < 1 / 50 -> 0 <= b <= 51 / 100 * e -> e * (1 + b * b) = 2 * b ->
  let x := b * sin ea / (1 - b * cos ea) in Rabs x <= 6 / 10 * e /\ Rabs (2 * atan x - (e * sin ea + 1 / 2 * e ^ 2 * (sin ea * cos ea))) <= 14 / 10 * e ^ 3.
Proof.
  intros E B H. cbv zeta. set (s := sin ea). set (c := cos ea). assert (S : -1 <= s <= 1) by apply SIN_bound. assert (C : -1 <= c <= 1) by apply COS_bound.
  assert (D : 98 / 100 <= 1 - b * c) by nra. assert (I : 0 < / (1 - b * c) <= 103 / 100). { split; [apply Rinv_0_lt_compat; lra|]. apply (Rmult_le_reg_r (1 - b * c)); [lra|]. rewrite Rinv_l by lra. lra. }
  set (x := b * s / (1 - b * c)). assert (XA : Rabs x <= 6 / 10 * e).
  { unfold x, Rdiv. assert (Y : Rabs (b * s) <= b * 1) by (apply scaled; [lra|rewrite Rabs_pos_eq; lra|lra|apply Rabs_le; lra]). assert (Y2 : Rabs (b * s * / (1 - b * c)) <= b * 1 * (103 / 100)) by (apply scaled; [lra|exact Y|lra|rewrite Rabs_pos_eq; lra]). lra. }
  split; [exact XA|]. assert (T1 : 0 <= 2 * b - e <= 27 / 100 * (e * e * e)). { replace (2 * b - e) with (e * (b * b)) by lra. assert (0 <= b * b <= 51 / 100 * e * (51 / 100 * e)) by (split; nra). split; [nra|]. nra. }
  assert (EX : x = b * s + b * b * (s * c) + b * b * b * (s * (c * c)) * / (1 - b * c)) by (unfold x; field; lra).
  pose proof (atan_near x) as AN. assert (AN' : Rabs (atan x - x) <= 6 / 10 * e * (6 / 10 * e * (6 / 10 * e))). { eapply Rle_trans; [exact AN|]. apply Rmult_le_compat; [apply Rabs_pos|apply Rle_0_sqr|exact XA|]. assert (Q : Rabs x * Rabs x = x * x) by (rewrite <- Rabs_mult; apply Rabs_pos_eq, Rle_0_sqr). rewrite <- Q. apply Rmult_le_compat; try apply Rabs_pos; exact XA. }
  replace (2 * atan x - (e * s + 1 / 2 * e ^ 2 * (s * c))) with (2 * (atan x - x) + ((2 * b - e) * s + (2 * b - e) * ((b + e / 2) * (s * c)) + 2 * (b * b * b) * ((s * (c * c)) * / (1 - b * c)))) by (rewrite EX at 2; field; lra).
  assert (SC : Rabs (s * c) <= 1) by (apply Rabs_le; split; nra). assert (SCC : Rabs (s * (c * c)) <= 1) by (apply Rabs_le; split; nra).
  assert (B3 : 0 <= b * b * b <= 14 / 100 * (e * e * e)). { assert (0 <= b * b <= 51 / 100 * e * (51 / 100 * e)) by (split; nra). split; [nra|]. assert (b * b * b <= 51 / 100 * e * (51 / 100 * e) * (51 / 100 * e)) by (apply Rmult_le_compat; lra). assert (0 <= e * e * e) by (repeat apply Rmult_le_pos; lra). lra. }
  set (i := / (1 - b * c)) in *. set (u := atan x - x) in *. clearbody i u. set (t := 2 * b - e) in *. set (w := b * b * b) in *. clearbody t w.
  assert (A0 : Rabs (2 * u) <= 2 * (6 / 10 * e * (6 / 10 * e * (6 / 10 * e)))) by (rewrite Rabs_mult, (Rabs_pos_eq 2) by lra; lra).
  assert (A1 : Rabs (t * s) <= 27 / 100 * (e * e * e) * 1) by (apply scaled; [lra|rewrite Rabs_pos_eq; lra|lra|apply Rabs_le; lra]).
  assert (A2 : Rabs (t * ((b + e / 2) * (s * c))) <= 27 / 100 * (e * e * e) * (1 / 40 * 1)). { apply scaled; [lra|rewrite Rabs_pos_eq; lra|lra|]. apply scaled; [lra|rewrite Rabs_pos_eq; lra|lra|exact SC]. }
  assert (A3 : Rabs (2 * w * (s * (c * c) * i)) <= 2 * (14 / 100 * (e * e * e)) * (1 * (103 / 100))). { apply scaled; [lra|rewrite Rabs_pos_eq; lra|lra|]. apply scaled; [lra|exact SCC|lra|rewrite Rabs_pos_eq; lra]. }
  assert (E3 : 0 <= e * e * e) by (repeat apply Rmult_le_pos; lra). replace (e ^ 3) with (e * e * e) by ring.
  eapply Rle_trans; [apply Rabs_triang|]. eapply Rle_trans; [apply Rplus_le_compat_l, Rabs_triang|]. eapply Rle_trans; [apply Rplus_le_compat_l, Rplus_le_compat_r, Rabs_triang|]. lra.
Qed.

Lemma centre_near e peri mean : 0 <= e < 1 / 50 -> exists ea nu, kepler e (mean - peri) ea nu /\ Rabs (with_centre e peri mean - (peri + nu)) <= 5 * e ^ 3.
Proof.
  intros E. destruct (eccentric e (mean - peri) ltac:(lra)) as (ea & M). destruct (beta_facts e E) as (b & B & H1 & H2). destruct (true_anomaly e b ea E B H1 H2) as [T1 T2].
  destruct (anomaly_terms e b ea E B H1) as [X A]. cbv zeta in *. set (x := b * sin ea / (1 - b * cos ea)) in *. exists ea, (ea + 2 * atan x). split.
  - split; [exact M|]. split; [exact T1|]. split; [exact T2|]. replace (ea + 2 * atan x - ea) with (2 * atan x) by ring. pose proof (atan_bound x). apply Rabs_def1; lra.
  - pose proof (centre_terms e ea E) as K. cbv zeta in K. rewrite M in K. unfold with_centre. set (g := 2 * e * sin (mean - peri) + 5 / 4 * e ^ 2 * sin (2 * (mean - peri))).
    replace (mean + 2 * e * sin (mean - peri) + 5 / 4 * e ^ 2 * sin (2 * (mean - peri)) - (peri + (ea + 2 * atan x))) with
      ((mean - peri + 2 * e * sin (mean - peri) + 5 / 4 * e ^ 2 * sin (2 * (mean - peri)) - (ea + e * sin ea + 1 / 2 * e ^ 2 * (sin ea * cos ea))) + - (2 * atan x - (e * sin ea + 1 / 2 * e ^ 2 * (sin ea * cos ea)))) by ring.
    eapply Rle_trans; [apply Rabs_triang|]. rewrite Rabs_Ropp. lra.
Qed.

Lemma cos_lip a b : Rabs (cos a - cos b) <= Rabs (a - b).
Proof. rewrite !cos_sin. eapply Rle_trans; [apply sin_lip|]. replace (PI / 2 + a - (PI / 2 + b)) with (a - b) by ring. lra. Qed.

(** Two points of one ellipse, at longitudes that differ by little. *)
Lemma points_dot ra dec a e i node peri l1 l2 : let r l := a * (1 - e * e) / (1 + e * cos (l - peri)) in
  dot (orbit_point ra dec a e i node peri l1) (orbit_point ra dec a e i node peri l2) = r l1 * r l2 * cos (l1 - l2).
Proof.
  cbv zeta. unfold orbit_point. set (r1 := a * (1 - e * e) / (1 + e * cos (l1 - peri))). set (r2 := a * (1 - e * e) / (1 + e * cos (l2 - peri))).
  replace (cos (l1 - l2)) with (cos (l1 - node) * cos (l2 - node) + sin (l1 - node) * sin (l2 - node)) by (rewrite <- cos_minus; f_equal; ring).
  unfold orbit_pole, in_plane, rising, direction, add, times, cross, dot. rewrite cos_0, sin_0, cos_plus, sin_plus, cos_PI2, sin_PI2.
  pose proof (sin2_cos2 ra) as P1. pose proof (sin2_cos2 dec) as P2. pose proof (sin2_cos2 node) as P3. pose proof (sin2_cos2 i) as P5. unfold Rsqr in P1, P2, P3, P5.
  set (sr := sin ra) in *. set (cr := cos ra) in *. set (sd := sin dec) in *. set (cd := cos dec) in *.
  set (sn := sin node) in *. set (cn := cos node) in *. set (x1 := cos (l1 - node)) in *. set (y1 := sin (l1 - node)) in *. set (x2 := cos (l2 - node)) in *. set (y2 := sin (l2 - node)) in *. set (ci := cos i) in *. set (si := sin i) in *.
  clearbody sr cr sd cd sn cn x1 y1 x2 y2 ci si r1 r2. clear - P1 P2 P3 P5.
  assert (Q1 : sr * sr = 1 - cr * cr) by lra. assert (Q2 : sd * sd = 1 - cd * cd) by lra. assert (Q3 : sn * sn = 1 - cn * cn) by lra. assert (Q5 : si * si = 1 - ci * ci) by lra.
  ring [Q1 Q2 Q3 Q5].
Qed.
Lemma radius_bounds a e c : 0 < a -> 0 <= e < 1 / 50 -> -1 <= c <= 1 -> 0 <= a * (1 - e * e) / (1 + e * c) <= 51 / 50 * a.
Proof.
  intros A E C. assert (D : 0 < 1 + e * c) by nra. assert (M : a * (1 - e * e) / (1 + e * c) * (1 + e * c) = a * (1 - e * e)) by (field; lra). set (r := a * (1 - e * e) / (1 + e * c)) in *. clearbody r.
  assert (N : 0 <= a * (1 - e * e)) by (apply Rmult_le_pos; nra). assert (U : 1 - e * e <= 51 / 50 * (1 + e * c)) by nra. split; apply (Rmult_le_reg_r (1 + e * c)); try assumption; rewrite M; [lra|].
  replace (51 / 50 * a * (1 + e * c)) with (a * (51 / 50 * (1 + e * c))) by ring. apply Rmult_le_compat_l; lra.
Qed.
Lemma radius_lip a e c1 c2 d : 0 < a -> 0 <= e < 1 / 50 -> -1 <= c1 <= 1 -> -1 <= c2 <= 1 -> Rabs (c1 - c2) <= d ->
  Rabs (a * (1 - e * e) / (1 + e * c1) - a * (1 - e * e) / (1 + e * c2)) <= 3 / 100 * a * d.
Proof.
  intros A E C1 C2 D. assert (D1 : 98 / 100 <= 1 + e * c1) by nra. assert (D2 : 98 / 100 <= 1 + e * c2) by nra.
  replace (a * (1 - e * e) / (1 + e * c1) - a * (1 - e * e) / (1 + e * c2)) with (- (a * ((1 - e * e) * e) * (/ (1 + e * c1) * / (1 + e * c2)) * (c1 - c2))) by (field; lra). rewrite Rabs_Ropp.
  assert (I : forall z, 98 / 100 <= z -> 0 < / z <= 103 / 100). { intros z Z. split; [apply Rinv_0_lt_compat; lra|]. apply (Rmult_le_reg_r z); [lra|]. rewrite Rinv_l by lra. lra. }
  pose proof (I _ D1) as I1. pose proof (I _ D2) as I2. set (u := / (1 + e * c1)) in *. set (v := / (1 + e * c2)) in *. clearbody u v. assert (UV : 0 <= u * v <= 107 / 100) by (split; nra).
  assert (EE : 0 <= (1 - e * e) * e <= 1 / 50) by (split; [apply Rmult_le_pos; nra|nra]). set (w := (1 - e * e) * e) in *. clearbody w.
  apply scaled; [lra| |eapply Rle_trans; [apply Rabs_pos|exact D]|exact D]. assert (Z : 0 <= w * (u * v) <= 3 / 100) by (split; [apply Rmult_le_pos; lra|nra]).
  replace (a * w * (u * v)) with (a * (w * (u * v))) by ring. rewrite Rabs_pos_eq by (apply Rmult_le_pos; lra). rewrite (Rmult_comm (3 / 100)). apply Rmult_le_compat_l; lra.
Qed.
Lemma points_near ra dec a e i node peri l1 l2 d : 0 < a -> 0 <= e < 1 / 50 -> Rabs (l1 - l2) <= d ->
  size (add (orbit_point ra dec a e i node peri l1) (times (-1) (orbit_point ra dec a e i node peri l2))) <= 6 / 5 * a * d.
Proof.
  intros A E D. assert (D0 : 0 <= d) by (eapply Rle_trans; [apply Rabs_pos|exact D]). pose proof (points_dot ra dec a e i node peri l1 l1) as X11. pose proof (points_dot ra dec a e i node peri l1 l2) as X12. pose proof (points_dot ra dec a e i node peri l2 l2) as X22. cbv zeta in *.
  rewrite Rminus_eq_0, cos_0 in X11, X22. pose proof (radius_bounds a e _ A E (COS_bound (l1 - peri))) as R1. pose proof (radius_bounds a e _ A E (COS_bound (l2 - peri))) as R2.
  assert (CL : Rabs (cos (l1 - peri) - cos (l2 - peri)) <= d). { eapply Rle_trans; [apply cos_lip|]. replace (l1 - peri - (l2 - peri)) with (l1 - l2) by ring. exact D. }
  pose proof (radius_lip a e _ _ d A E (COS_bound (l1 - peri)) (COS_bound (l2 - peri)) CL) as RL. set (r1 := a * (1 - e * e) / (1 + e * cos (l1 - peri))) in *. set (r2 := a * (1 - e * e) / (1 + e * cos (l2 - peri))) in *.
  destruct (cos_near (l1 - l2)) as [_ CN]. set (P := orbit_point ra dec a e i node peri l1) in *. set (Q := orbit_point ra dec a e i node peri l2) in *.
  unfold size. assert (X : dot (add P (times (-1) Q)) (add P (times (-1) Q)) = dot P P - 2 * dot P Q + dot Q Q). { destruct P as [[p1 p2] p3], Q as [[q1 q2] q3]. cbn. ring. }
  rewrite X, X11, X12, X22. clear X X11 X12 X22. clearbody r1 r2. clear P Q. assert (DD : (l1 - l2) * (l1 - l2) <= d * d). { assert (Y : Rabs (l1 - l2) * Rabs (l1 - l2) = (l1 - l2) * (l1 - l2)) by (rewrite <- Rabs_mult; apply Rabs_pos_eq, Rle_0_sqr). rewrite <- Y. apply Rmult_le_compat; try apply Rabs_pos; exact D. }
  assert (RR : (r1 - r2) * (r1 - r2) <= 3 / 100 * a * d * (3 / 100 * a * d)). { assert (Y : Rabs (r1 - r2) * Rabs (r1 - r2) = (r1 - r2) * (r1 - r2)) by (rewrite <- Rabs_mult; apply Rabs_pos_eq, Rle_0_sqr). rewrite <- Y. apply Rmult_le_compat; try apply Rabs_pos; exact RL. }
  assert (PR : 0 <= r1 * r2 <= 51 / 50 * a * (51 / 50 * a)) by (split; [apply Rmult_le_pos; lra|apply Rmult_le_compat; lra]).
  assert (T : r1 * r2 * (2 * (1 - cos (l1 - l2))) <= 51 / 50 * a * (51 / 50 * a) * (d * d)). { pose proof (COS_bound (l1 - l2)). apply Rmult_le_compat; lra. }
  assert (S0 : 0 <= 6 / 5 * a * d) by (apply Rmult_le_pos; lra). rewrite <- (sqrt_square (6 / 5 * a * d)) by exact S0. apply sqrt_le_1_alt.
  assert (AD : 0 <= a * a * (d * d)) by (apply Rmult_le_pos; apply Rle_0_sqr). set (k := a * a * (d * d)) in *.
  replace (3 / 100 * a * d * (3 / 100 * a * d)) with (9 / 10000 * k) in RR by (unfold k; field). replace (51 / 50 * a * (51 / 50 * a) * (d * d)) with (2601 / 2500 * k) in T by (unfold k; field).
  replace (6 / 5 * a * d * (6 / 5 * a * d)) with (36 / 25 * k) by (unfold k; field). lra.
Qed.

(** For the moons of the table, 6 a e^3 is at most 8 km. *)
Definition near_enough (rk : rock) : bool :=
  (let s := el_h rk * el_h rk + el_k rk * el_k rk in Qle_bool (36 * (semi_a rk * semi_a rk) * (s * s * s)) 64)%Q.
Lemma all_near : forallb near_enough rocks = true. Proof. vm_compute. reflexivity. Qed.
Lemma error_small rk e : In rk rocks -> 0 <= e -> e * e = Q2R (el_h rk) * Q2R (el_h rk) + Q2R (el_k rk) * Q2R (el_k rk) -> 6 * Q2R (semi_a rk) * e ^ 3 <= 8.
Proof.
  intros H E S. pose proof (proj1 (forallb_forall near_enough rocks) all_near rk H) as F. unfold near_enough in F. cbv zeta in F. apply Qle_bool_iff, Qle_Rle in F.
  rewrite !Q2R_mult, !Q2R_plus, !Q2R_mult, <- S in F. assert (E1 : Q2R 36 = 36) by (unfold Q2R; cbn; lra). assert (E2 : Q2R 64 = 64) by (unfold Q2R; cbn; lra). rewrite E1, E2 in F.
  destruct (fine_in rk H) as (A & _). set (a := Q2R (semi_a rk)) in *. apply Rsqr_incr_0_var; [|lra]. unfold Rsqr. replace (6 * a * e ^ 3 * (6 * a * e ^ 3)) with (36 * (a * a) * (e * e * (e * e) * (e * e))) by ring. lra.
Qed.
