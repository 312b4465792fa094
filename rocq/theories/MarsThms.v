(** Proofs of the theorems stated in [PropMars]. *)
From Coq Require Import Lia.
From Verif Require Import RBase MarsModel MarsSpec.
Open Scope list_scope.

Lemma PI_lo_hi : 3141 / 1000 < PI < 3142 / 1000.
Proof. pose proof (PI_2_3_7_ineq 2) as [A B]. unfold tg_alt, PI_2_3_7_tg, Ratan_seq in A, B. cbn in A, B. lra. Qed.
Lemma Rabs_def2b x a : Rabs x <= a -> - a <= x <= a.
Proof. intros H. pose proof (Rle_abs x). pose proof (Rle_abs (- x)). rewrite Rabs_Ropp in *. lra. Qed.
Lemma sin_lip0 x y : x <= y -> Rabs (sin x - sin y) <= Rabs (x - y).
Proof.
  intros [L|<-]; [|rewrite !Rminus_diag_eq by reflexivity; lra].
  destruct (MVT_cor2 sin cos x y L) as (c & E & _); [intros; apply derivable_pt_lim_sin|].
  rewrite (Rabs_minus_sym (sin x)), (Rabs_minus_sym x), E, Rabs_mult. pose proof (COS_bound c). pose proof (Rabs_pos (y - x)).
  assert (Rabs (cos c) <= 1) by (apply Rabs_le; lra). nra.
Qed.
Lemma sin_lip x y : Rabs (sin x - sin y) <= Rabs (x - y).
Proof. destruct (Rle_lt_dec x y); [apply sin_lip0; assumption|]. rewrite (Rabs_minus_sym (sin x)), (Rabs_minus_sym x). apply sin_lip0. lra. Qed.
Lemma cos_lip x y : Rabs (cos x - cos y) <= Rabs (x - y).
Proof. rewrite !cos_sin. pose proof (sin_lip (PI / 2 + x) (PI / 2 + y)). replace (PI / 2 + x - (PI / 2 + y)) with (x - y) in H by ring. assumption. Qed.
(** Lipschitz and bounded functions on |t| <= 1000001. *)
Definition T : R := 1000001.
Definition lip (K : R) (f : R -> R) : Prop := forall x y, Rabs x <= T -> Rabs y <= T -> Rabs (f x - f y) <= K * Rabs (x - y).
Definition bnd (B : R) (f : R -> R) : Prop := forall x, Rabs x <= T -> Rabs (f x) <= B.
Lemma lip_le K K' f : lip K f -> K <= K' -> lip K' f.
Proof. intros H L x y X Y. pose proof (H x y X Y). pose proof (Rabs_pos (x - y)). nra. Qed.
Lemma lip_plus K L f g : lip K f -> lip L g -> lip (K + L) (fun t => f t + g t).
Proof.
  intros F G x y X Y. replace (f x + g x - (f y + g y)) with ((f x - f y) + (g x - g y)) by ring. eapply Rle_trans; [apply Rabs_triang|].
  pose proof (F x y X Y). pose proof (G x y X Y). lra.
Qed.
Lemma lip_scal c K f : lip K f -> lip (Rabs c * K) (fun t => c * f t).
Proof. intros F x y X Y. replace (c * f x - c * f y) with (c * (f x - f y)) by ring. rewrite Rabs_mult. pose proof (F x y X Y). pose proof (Rabs_pos c). nra. Qed.
Lemma lip_minus K L f g : lip K f -> lip L g -> lip (K + L) (fun t => f t - g t).
Proof.
  intros F G x y X Y. replace (f x - g x - (f y - g y)) with ((f x - f y) + - (g x - g y)) by ring. eapply Rle_trans; [apply Rabs_triang|]. rewrite Rabs_Ropp.
  pose proof (F x y X Y). pose proof (G x y X Y). lra.
Qed.
Lemma lip_affine a b : lip (Rabs b) (fun t => a + b * t).
Proof. intros x y X Y. replace (a + b * x - (a + b * y)) with (b * (x - y)) by ring. rewrite Rabs_mult. lra. Qed.
Lemma lip_sin K f : lip K f -> lip K (fun t => sin (f t)).
Proof. intros F x y X Y. eapply Rle_trans; [apply sin_lip|]. apply F; assumption. Qed.
Lemma lip_cos K f : lip K f -> lip K (fun t => cos (f t)).
Proof. intros F x y X Y. eapply Rle_trans; [apply cos_lip|]. apply F; assumption. Qed.
Lemma lip_mult A B K L f g : lip K f -> lip L g -> bnd A f -> bnd B g -> lip (K * B + A * L) (fun t => f t * g t).
Proof.
  intros F G bF bG x y X Y. replace (f x * g x - f y * g y) with ((f x - f y) * g x + f y * (g x - g y)) by ring.
  eapply Rle_trans; [apply Rabs_triang|]. rewrite !Rabs_mult. pose proof (F x y X Y). pose proof (G x y X Y). pose proof (bF y Y). pose proof (bG x X).
  pose proof (Rabs_pos (f x - f y)). pose proof (Rabs_pos (g x - g y)). pose proof (Rabs_pos (f y)). pose proof (Rabs_pos (g x)).
  assert (Rabs (f x - f y) * Rabs (g x) <= (K * Rabs (x - y)) * B) by (apply Rmult_le_compat; assumption).
  assert (Rabs (f y) * Rabs (g x - g y) <= A * (L * Rabs (x - y))) by (apply Rmult_le_compat; assumption). lra.
Qed.
Lemma lip_ext K f g : (forall t, f t = g t) -> lip K f -> lip K g.
Proof. intros E F x y X Y. rewrite <- !E. apply F; assumption. Qed.
Lemma bnd_sin f : bnd 1 (fun t => sin (f t)).
Proof. intros x _. apply Rabs_le. pose proof (SIN_bound (f x)). lra. Qed.
Lemma abs_sin x : -1 <= sin x <= 1. Proof. pose proof (SIN_bound x). lra. Qed.
Lemma abs_cos x : -1 <= cos x <= 1. Proof. pose proof (COS_bound x). lra. Qed.
(** The parts of the equation of time, in units of D2R. *)
Definition M (t : R) : R := 193871 / 10000 * D2R + 52402073 / 100000000 * D2R * t.
Definition pert (t : R) : R :=
  71 / 10000 * cos (tconst / (22353 / 10000) * t + 49409 / 1000 * D2R) + 57 / 10000 * cos (tconst / (27543 / 10000) * t + 168173 / 1000 * D2R)
  + 39 / 10000 * cos (tconst / (11177 / 10000) * t + 191837 / 1000 * D2R) + 37 / 10000 * cos (tconst / (157866 / 10000) * t + 21736 / 1000 * D2R)
  + 21 / 10000 * cos (tconst / (21354 / 10000) * t + 15704 / 1000 * D2R) + 20 / 10000 * cos (tconst / (24694 / 10000) * t + 95528 / 1000 * D2R)
  + 18 / 10000 * cos (tconst / (328493 / 10000) * t + 49095 / 1000 * D2R).
Definition vm (t : R) : R :=
  (10691 / 1000 + 3 / 10000000 * t) * sin (M t) + 623 / 1000 * sin (2 * M t) + 50 / 1000 * sin (3 * M t) + 5 / 1000 * sin (4 * M t)
  + 5 / 10000 * sin (5 * M t) + pert t.
Definition lon (t : R) : R := 2703871 / 10000 * D2R + 524038496 / 1000000000 * D2R * t + D2R * vm t.
Definition eot (t : R) : R :=
  2861 / 1000 / 360 * sin (2 * lon t) - 71 / 1000 / 360 * sin (4 * lon t) + 2 / 1000 / 360 * sin (6 * lon t) - / 360 * vm t.
Lemma eot_ok jd : mars_true_solar_minus_mean_solar_time jd = eot (jd - 2451545).
Proof.
  unfold mars_true_solar_minus_mean_solar_time. set (t := jd - 2451545). unfold perturbers. cbn [fold_left]. fold (M t).
  match goal with |- context [2 * (_ + ?v)] => set (w := v) end.
  assert (W : w = D2R * vm t) by (unfold w, vm, pert; ring). rewrite W. unfold eot, lon. f_equal. unfold D2R. field. pose proof PI_RGT_0. lra.
Qed.
Lemma D_bnd : 1745 / 100000 <= D2R <= 17456 / 1000000.
Proof. unfold D2R. pose proof PI_lo_hi. lra. Qed.
Lemma tc_bnd : 0 <= tconst <= 17205 / 1000000.
Proof. unfold tconst. pose proof PI_lo_hi. lra. Qed.
Lemma lip_M n : 0 <= n -> lip (n * (9148 / 1000000)) (fun t => n * M t).
Proof.
  intros N. pose proof D_bnd. eapply lip_le; [apply lip_scal; apply lip_affine|]. rewrite (Rabs_pos_eq n) by assumption.
  apply Rmult_le_compat_l; [assumption|]. rewrite Rabs_pos_eq; lra.
Qed.
Lemma lip_term a n : 0 <= a -> 0 <= n -> lip (a * (n * (9148 / 1000000))) (fun t => a * sin (n * M t)).
Proof. intros A N. pose proof (lip_scal a _ _ (lip_sin _ _ (lip_M n N))) as H. rewrite (Rabs_pos_eq a) in H by assumption. assumption. Qed.
Lemma lip_pert1 a p ph : 0 <= a -> 0 < p -> lip (a * (17205 / 1000000 / p)) (fun t => a * cos (tconst / p * t + ph)).
Proof.
  intros A P. pose proof tc_bnd. eapply lip_le; [apply lip_scal; apply lip_cos; eapply lip_ext; [|apply (lip_affine ph (tconst / p))]; intros; cbv beta; ring|].
  rewrite (Rabs_pos_eq a) by assumption. apply Rmult_le_compat_l; [assumption|]. unfold Rdiv at 1. rewrite Rabs_pos_eq.
  - apply Rmult_le_compat_r; [|lra]. left. apply Rinv_0_lt_compat. assumption.
  - apply Rmult_le_pos; [lra|]. left. apply Rinv_0_lt_compat. assumption.
Qed.
Lemma lip_pert : lip (2 / 10000) pert.
Proof.
  unfold pert. eapply lip_le.
  - apply lip_plus; [apply lip_plus; [apply lip_plus; [apply lip_plus; [apply lip_plus; [apply lip_plus|]|]|]|]|]; apply lip_pert1; lra.
  - lra.
Qed.
Lemma lip_first : lip (10056 / 100000) (fun t => (10691 / 1000 + 3 / 10000000 * t) * sin (M t)).
Proof.
  eapply lip_le.
  - apply (lip_mult (10992 / 1000) 1).
    + apply lip_affine.
    + apply lip_sin. eapply lip_ext; [|apply (lip_M 1); lra]. intros; cbv beta; ring.
    + intros x X. unfold T in X. apply Rabs_def2b in X. apply Rabs_le. lra.
    + apply bnd_sin.
  - rewrite Rabs_pos_eq by lra. lra.
Qed.
Lemma lip_vm : lip (11375 / 100000) vm.
Proof.
  unfold vm. eapply lip_le.
  - apply lip_plus; [apply lip_plus; [apply lip_plus; [apply lip_plus; [apply lip_plus|]|]|]|]; [apply lip_first|apply lip_term; lra|apply lip_term; lra|apply lip_term; lra|apply lip_term; lra|apply lip_pert].
  - lra.
Qed.
Lemma lip_lon n : 0 <= n -> lip (n * (11134 / 1000000)) (fun t => n * lon t).
Proof.
  intros N. pose proof D_bnd. unfold lon. eapply lip_le; [apply lip_scal; apply lip_plus; [apply lip_affine|apply lip_scal; apply lip_vm]|].
  rewrite (Rabs_pos_eq n) by assumption. apply Rmult_le_compat_l; [assumption|]. rewrite !Rabs_pos_eq by lra. lra.
Qed.
Lemma lip_lterm a n : 0 <= a -> 0 <= n -> lip (a * (n * (11134 / 1000000))) (fun t => a * sin (n * lon t)).
Proof. intros A N. pose proof (lip_scal a _ _ (lip_sin _ _ (lip_lon n N))) as H. rewrite (Rabs_pos_eq a) in H by assumption. assumption. Qed.
Lemma lip_eot : lip (51 / 100000) eot.
Proof.
  unfold eot. eapply lip_le.
  - apply lip_minus; [apply lip_plus; [apply lip_minus|]|]; [apply lip_lterm; lra|apply lip_lterm; lra|apply lip_lterm; lra|apply lip_scal; apply lip_vm].
  - rewrite Rabs_pos_eq by lra. lra.
Qed.
Lemma bnd_eot : bnd (41 / 1000) eot.
Proof.
  intros t X. unfold T in X. apply Rabs_def2b in X. 
  assert (P : -263 / 10000 <= pert t <= 263 / 10000).
  { unfold pert. repeat match goal with |- context [cos ?a] => let c := fresh "c" in pose proof (abs_cos a); set (c := cos a) in *; clearbody c end. lra. }
  assert (V : -117 / 10 <= vm t <= 117 / 10).
  { unfold vm. set (q := pert t) in *. clearbody q. pose proof (abs_sin (M t)). pose proof (abs_sin (2 * M t)). pose proof (abs_sin (3 * M t)). pose proof (abs_sin (4 * M t)). pose proof (abs_sin (5 * M t)).
    set (s1 := sin (M t)) in *. set (s2 := sin (2 * M t)) in *. set (s3 := sin (3 * M t)) in *. set (s4 := sin (4 * M t)) in *. set (s5 := sin (5 * M t)) in *. clearbody s1 s2 s3 s4 s5.
    assert (-10992 / 1000 <= (10691 / 1000 + 3 / 10000000 * t) * s1 <= 10992 / 1000) by nra. lra. }
  unfold eot. set (v := vm t) in *. pose proof (abs_sin (2 * lon t)). pose proof (abs_sin (4 * lon t)). pose proof (abs_sin (6 * lon t)).
  set (s1 := sin (2 * lon t)) in *. set (s2 := sin (4 * lon t)) in *. set (s3 := sin (6 * lon t)) in *. clearbody s1 s2 s3 v.
  apply Rabs_le. lra.
Qed.
Lemma dps_pos : 0 < days_per_sol. Proof. unfold days_per_sol. lra. Qed.
Lemma near_T jd : near_2000 jd -> Rabs (jd - 2451545) <= T.
Proof. unfold near_2000, T. lra. Qed.

Lemma C41_inverse_proof :
  (forall jd, mtc_to_tt (tt_to_mtc jd) = jd) /\ (forall mtc, tt_to_mtc (mtc_to_tt mtc) = mtc).
Proof.
  unfold mtc_to_tt, tt_to_mtc, days_per_sol. split; intros x; field.
Qed.

Lemma C41_rate_proof :
  (forall jd x, tt_to_mtc (jd + x * (10274912517 / 10000000000)) = tt_to_mtc jd + x) /\
  tt_to_mtc (24515495 / 10) = 447959990374 / 10000000.
Proof.
  unfold tt_to_mtc, days_per_sol, zero_jd_point, zero_sol_point. split; [intros jd x|]; field.
Qed.

Lemma C41_equation_of_time_proof :
  forall jd, near_2000 jd ->
  Rabs (mars_true_solar_minus_mean_solar_time jd) <= 41 / 1000 /\
  forall jd', near_2000 jd' ->
    Rabs (mars_true_solar_minus_mean_solar_time jd' - mars_true_solar_minus_mean_solar_time jd) <= 51 / 100000 * Rabs (jd' - jd).
Proof.
  intros jd N. rewrite !eot_ok. split; [apply bnd_eot; apply near_T; assumption|]. intros jd' N'. rewrite eot_ok.
  replace (jd' - jd) with (jd' - 2451545 - (jd - 2451545)) by ring. apply lip_eot; apply near_T; assumption.
Qed.

Lemma C41_monotone_proof :
  forall jd jd', near_2000 jd -> near_2000 jd' -> jd < jd' -> true_solar_time jd < true_solar_time jd'.
Proof.
  intros jd jd' N N' L. unfold true_solar_time. rewrite !eot_ok. pose proof (lip_eot (jd' - 2451545) (jd - 2451545) (near_T _ N') (near_T _ N)) as H.
  replace (jd' - 2451545 - (jd - 2451545)) with (jd' - jd) in H by ring. rewrite (Rabs_pos_eq (jd' - jd)) in H by lra. apply Rabs_def2b in H.
  assert (Q : tt_to_mtc jd' - tt_to_mtc jd = (jd' - jd) * (10000000000 / 10274912517)) by (unfold tt_to_mtc, days_per_sol; field).
  lra.
Qed.

Lemma one_round jd r : near_2000 jd -> Rabs (r - jd) <= 1 / 2 ->
  Rabs ((mtc_to_tt (true_solar_time jd) - mars_true_solar_minus_mean_solar_time r * days_per_sol) - jd) <= 5241 / 10000000 * Rabs (r - jd).
Proof.
  intros N B. unfold true_solar_time. rewrite !eot_ok.
  replace (mtc_to_tt (tt_to_mtc jd + eot (jd - 2451545)) - eot (r - 2451545) * days_per_sol - jd) with (days_per_sol * (eot (jd - 2451545) - eot (r - 2451545))) by (unfold mtc_to_tt, tt_to_mtc, days_per_sol; field).
  assert (R0 : Rabs (r - 2451545) <= T). { unfold near_2000, T in *. apply Rabs_def2 in N. apply Rabs_def2b in B. apply Rabs_le. lra. }
  rewrite Rabs_mult, (Rabs_minus_sym (eot _)). pose proof (lip_eot _ _ R0 (near_T _ N)) as H. replace (r - 2451545 - (jd - 2451545)) with (r - jd) in H by ring.
  rewrite (Rabs_pos_eq days_per_sol) by (unfold days_per_sol; lra). pose proof (Rabs_pos (r - jd)). unfold days_per_sol. nra.
Qed.

Lemma C41_true_solar_back_proof :
  forall jd, near_2000 jd -> Rabs (mtst_at_airy_to_tt (true_solar_time jd) - jd) <= 12 / 1000000000.
Proof.
  intros jd N. unfold mtst_at_airy_to_tt. set (a := mtc_to_tt (true_solar_time jd)). cbn [mtst_loop].
  assert (A : Rabs (a - jd) <= 4213 / 100000).
  { unfold a, true_solar_time. replace (mtc_to_tt (tt_to_mtc jd + mars_true_solar_minus_mean_solar_time jd) - jd) with (days_per_sol * mars_true_solar_minus_mean_solar_time jd) by (unfold mtc_to_tt, tt_to_mtc, days_per_sol; field).
    rewrite eot_ok, Rabs_mult, (Rabs_pos_eq days_per_sol) by (unfold days_per_sol; lra). pose proof (bnd_eot _ (near_T _ N)). unfold days_per_sol. nra. }
  pose proof (one_round jd a N ltac:(lra)) as B. fold a in B. set (b := a - mars_true_solar_minus_mean_solar_time a * days_per_sol) in *.
  pose proof (one_round jd b N ltac:(lra)) as C. fold a in C. lra.
Qed.

Lemma C41_true_solar_unique_proof :
  forall jd jd', near_2000 jd -> near_2000 jd' -> true_solar_time jd = true_solar_time jd' -> jd = jd'.
Proof.
  intros jd jd' N N' E. destruct (Rtotal_order jd jd') as [L|[L|L]]; [|assumption|].
  - pose proof (C41_monotone_proof jd jd' N N' L). lra.
  - pose proof (C41_monotone_proof jd' jd N' N L). lra.
Qed.

Lemma sind_eq x y : x * D2R = y -> sind x = sin y. Proof. intros <-. reflexivity. Qed.
Lemma cosd_eq x y : x * D2R = y -> cosd x = cos y. Proof. intros <-. reflexivity. Qed.
Lemma pert_spec t : perturbations t = pert t.
Proof.
  unfold perturbations, pert.
  rewrite (cosd_eq _ (tconst / (22353 / 10000) * t + 49409 / 1000 * D2R)) by (unfold tconst, D2R; unfold Q2R; cbn [QArith_base.Qnum QArith_base.Qden]; field).
  rewrite (cosd_eq _ (tconst / (27543 / 10000) * t + 168173 / 1000 * D2R)) by (unfold tconst, D2R; unfold Q2R; cbn [QArith_base.Qnum QArith_base.Qden]; field).
  rewrite (cosd_eq _ (tconst / (11177 / 10000) * t + 191837 / 1000 * D2R)) by (unfold tconst, D2R; unfold Q2R; cbn [QArith_base.Qnum QArith_base.Qden]; field).
  rewrite (cosd_eq _ (tconst / (157866 / 10000) * t + 21736 / 1000 * D2R)) by (unfold tconst, D2R; unfold Q2R; cbn [QArith_base.Qnum QArith_base.Qden]; field).
  rewrite (cosd_eq _ (tconst / (21354 / 10000) * t + 15704 / 1000 * D2R)) by (unfold tconst, D2R; unfold Q2R; cbn [QArith_base.Qnum QArith_base.Qden]; field).
  rewrite (cosd_eq _ (tconst / (24694 / 10000) * t + 95528 / 1000 * D2R)) by (unfold tconst, D2R; unfold Q2R; cbn [QArith_base.Qnum QArith_base.Qden]; field).
  rewrite (cosd_eq _ (tconst / (328493 / 10000) * t + 49095 / 1000 * D2R)) by (unfold tconst, D2R; unfold Q2R; cbn [QArith_base.Qnum QArith_base.Qden]; field).
  lra.
Qed.
Lemma vm_spec t : equation_of_centre t = vm t.
Proof.
  unfold equation_of_centre, vm. rewrite pert_spec. cbv zeta.
  rewrite (sind_eq (mean_anomaly t) (M t)) by (unfold mean_anomaly, M; lra).
  rewrite (sind_eq (2 * mean_anomaly t) (2 * M t)) by (unfold mean_anomaly, M; lra).
  rewrite (sind_eq (3 * mean_anomaly t) (3 * M t)) by (unfold mean_anomaly, M; lra).
  rewrite (sind_eq (4 * mean_anomaly t) (4 * M t)) by (unfold mean_anomaly, M; lra).
  rewrite (sind_eq (5 * mean_anomaly t) (5 * M t)) by (unfold mean_anomaly, M; lra).
  set (a := sin (M t)). set (p := t * a). replace ((10.691 + 0.0000003 * t) * a) with (10.691 * a + 0.0000003 * p) by (unfold p; ring).
  replace ((10691 / 1000 + 3 / 10000000 * t) * a) with (10691 / 1000 * a + 3 / 10000000 * p) by (unfold p; ring). lra.
Qed.

Lemma C41_published_proof :
  forall jd, 360 * mars_true_solar_minus_mean_solar_time jd = equation_of_time (jd - 2451545).
Proof.
  intros jd. rewrite eot_ok. set (t := jd - 2451545). unfold equation_of_time. rewrite vm_spec. cbv zeta. unfold eot.
  assert (L : (fictitious_mean_sun t + vm t) * D2R = lon t) by (unfold fictitious_mean_sun, lon; lra).
  rewrite (sind_eq (2 * (fictitious_mean_sun t + vm t)) (2 * lon t)) by (rewrite <- L; ring).
  rewrite (sind_eq (4 * (fictitious_mean_sun t + vm t)) (4 * lon t)) by (rewrite <- L; ring).
  rewrite (sind_eq (6 * (fictitious_mean_sun t + vm t)) (6 * lon t)) by (rewrite <- L; ring). lra.
Qed.
