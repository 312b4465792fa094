(** The C library's inverse trigonometric functions over the reals.  Nothing here
    models a particular function of /repo.  The literals for pi in /repo (60 or so
    digits) are modelled by the number itself. *)
From Verif Require Export RBase.

(** acos( ) and asin( ) give NaN outside [-1, 1]; here [Abort]. *)
Definition c_acos (x : R) : outcome R := if (Rleb (- 1) x && Rleb x 1)%bool then Ret (acos x) else Abort.
Definition c_asin (x : R) : outcome R := if (Rleb (- 1) x && Rleb x 1)%bool then Ret (asin x) else Abort.

(** atan2( y, x). *)
Definition atan2 (y x : R) : R :=
  if Rltb 0 x then atan (y / x)
  else if Rltb x 0 then (if Rleb 0 y then atan (y / x) + PI else atan (y / x) - PI)
  else if Rltb 0 y then PI / 2 else if Rltb y 0 then - (PI / 2) else 0.

Lemma c_acos_ok x : -1 <= x <= 1 -> c_acos x = Ret (acos x).
Proof. intros H. unfold c_acos. destruct (Rleb_spec (- 1) x); [|lra]. destruct (Rleb_spec x 1); [reflexivity|lra]. Qed.
Lemma c_asin_ok x : -1 <= x <= 1 -> c_asin x = Ret (asin x).
Proof. intros H. unfold c_asin. destruct (Rleb_spec (- 1) x); [|lra]. destruct (Rleb_spec x 1); [reflexivity|lra]. Qed.

Lemma hyp_scale x y : x <> 0 -> sqrt (x * x + y * y) = Rabs x * sqrt (1 + (y / x)²).
Proof.
  intros Hx. rewrite <- (sqrt_Rsqr_abs x), <- sqrt_mult; [f_equal; unfold Rsqr; field; assumption|apply Rle_0_sqr|].
  pose proof (Rle_0_sqr (y / x)). lra.
Qed.

Lemma atan2_polar y x : let r := sqrt (x * x + y * y) in
  r * cos (atan2 y x) = x /\ r * sin (atan2 y x) = y.
Proof.
  intros r. unfold atan2. assert (S : forall q, 0 < sqrt (1 + q²)) by (intros q; apply sqrt_lt_R0; pose proof (Rle_0_sqr q); lra).
  destruct (Rltb_spec 0 x) as [Hx|Hx].
  { unfold r. rewrite hyp_scale by lra. rewrite Rabs_right by lra. rewrite cos_atan, sin_atan. specialize (S (y / x)).
    set (q := sqrt (1 + (y / x)²)) in *. clearbody q. split; field; lra. }
  destruct (Rltb_spec x 0) as [Hx'|Hx'].
  { assert (E : r * cos (atan (y / x)) = - x /\ r * sin (atan (y / x)) = - y).
    { unfold r. rewrite hyp_scale by lra. rewrite Rabs_left by lra. rewrite cos_atan, sin_atan. specialize (S (y / x)).
      set (q := sqrt (1 + (y / x)²)) in *. clearbody q. split; field; lra. }
    destruct E as [Ec Es].
    destruct (Rleb_spec 0 y).
    - rewrite neg_cos, neg_sin. lra.
    - replace (atan (y / x) - PI) with (atan (y / x) + PI - 2 * PI) by ring. rewrite cos_minus, sin_minus, cos_2PI, sin_2PI, neg_cos, neg_sin. lra. }
  assert (x = 0) by lra. subst x. assert (Hr : r = Rabs y) by (unfold r; rewrite Rmult_0_l, Rplus_0_l; apply sqrt_Rsqr_abs).
  rewrite Hr. destruct (Rltb_spec 0 y) as [Hy|Hy].
  { rewrite cos_PI2, sin_PI2, Rabs_right by lra. lra. }
  destruct (Rltb_spec y 0).
  { rewrite cos_neg, sin_neg, cos_PI2, sin_PI2, Rabs_left by lra. lra. }
  assert (y = 0) by lra. subst y. rewrite Rabs_R0. lra.
Qed.

Lemma atan2_bound y x : - PI < atan2 y x <= PI.
Proof.
  pose proof PI_RGT_0. unfold atan2. pose proof (atan_bound (y / x)) as B.
  destruct (Rltb_spec 0 x); [lra|]. destruct (Rltb_spec x 0) as [Hx|Hx].
  - destruct (Rleb_spec 0 y) as [Hy|Hy].
    + assert (y / x <= 0). { unfold Rdiv. pose proof (Rinv_lt_0_compat x Hx). nra. }
      assert (atan (y / x) <= 0). { destruct (Rle_lt_or_eq_dec (y / x) 0) as [L|L]; [assumption|apply atan_increasing in L; rewrite atan_0 in L; lra|rewrite L, atan_0; lra]. }
      lra.
    + assert (0 < y / x). { unfold Rdiv. pose proof (Rinv_lt_0_compat x Hx). nra. }
      assert (L : 0 < atan (y / x)) by (rewrite <- atan_0; apply atan_increasing; assumption). lra.
  - destruct (Rltb_spec 0 y); [lra|]. destruct (Rltb_spec y 0); lra.
Qed.

(** Two angles with the same sine and cosine differ by whole turns. *)
Lemma same_angle a b : cos a = cos b -> sin a = sin b -> exists k : Z, a = b + 2 * PI * IZR k.
Proof.
  intros C S. assert (D : cos (a - b) = 1). { rewrite cos_minus, C, S. pose proof (sin2_cos2 b). unfold Rsqr in *. lra. }
  pose proof PI_RGT_0 as P. set (k := Int_part ((a - b) / (2 * PI))). exists k.
  assert (I : IZR k <= (a - b) / (2 * PI) < IZR k + 1). { unfold k. pose proof (base_Int_part ((a - b) / (2 * PI))). lra. }
  set (u := a - b - 2 * PI * IZR k).
  assert (Hu : 0 <= u < 2 * PI).
  { assert (E : a - b = 2 * PI * ((a - b) / (2 * PI))) by (field; lra). unfold u. split; [|]; rewrite E at 1; nra. }
  assert (cos u = 1).
  { rewrite <- D. replace (a - b) with (u + 2 * PI * IZR k) by (unfold u; ring). clearbody k. clear.
    assert (forall n v, cos (v + 2 * PI * IZR (Z.of_nat n)) = cos v) as N.
    { intros n v. rewrite <- INR_IZR_INZ. replace (2 * PI * INR n) with (2 * INR n * PI) by ring. apply cos_period. }
    destruct (Z_le_dec 0 k) as [L|L].
    - rewrite <- (Z2Nat.id k) by assumption. symmetry. apply N.
    - replace k with (- Z.of_nat (Z.to_nat (- k)))%Z.
      + rewrite opp_IZR. rewrite <- (N (Z.to_nat (- k)) (u + _)). f_equal. ring.
      + destruct k; cbn in *; try tauto; try (exfalso; apply L; discriminate). rewrite positive_nat_Z. reflexivity. }
  assert (u = 0); [|unfold u in *; lra].
  destruct (Req_dec u 0); [assumption|]. exfalso.
  assert (0 < sin (u / 2)) by (apply sin_gt_0; lra).
  assert (cos u = 1 - 2 * sin (u / 2) * sin (u / 2)) by (rewrite <- cos_2a_sin; f_equal; field). nra.
Qed.

Lemma cos_inj a b : 0 <= a <= PI -> 0 <= b <= PI -> cos a = cos b -> a = b.
Proof. intros Ha Hb E. rewrite <- (acos_cos a), <- (acos_cos b) by assumption. congruence. Qed.
Lemma sin_inj a b : - (PI / 2) <= a <= PI / 2 -> - (PI / 2) <= b <= PI / 2 -> sin a = sin b -> a = b.
Proof. intros Ha Hb E. rewrite <- (asin_sin a), <- (asin_sin b) by assumption. congruence. Qed.
