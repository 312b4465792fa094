(** Proofs about alt_az.cpp. *)
From Coq Require Import Lia Nsatz.
From Verif Require Import TrigBase EllModel RotModel RotSpec RotProofs RotThms PrecModel PrecSpec PrecProofs PrecThms AzModel AzSpec.
From Verif Require OrbModel OrbKepler.
Open Scope list_scope.

Lemma csq a : cos a * cos a + sin a * sin a = 1.
Proof. pose proof (sin2_cos2 a). unfold Rsqr in *. lra. Qed.

Lemma l3 (a b c a' b' c' : R) : a = a' -> b = b' -> c = c' -> [a; b; c] = [a'; b'; c'].
Proof. intros -> -> ->. reflexivity. Qed.

(** acose( ) of a quotient. *)
Lemma acose_polar x y w : 0 < w -> w * w = x * x + y * y -> exists t, acose (x / w) = Ret t /\ 0 <= t <= PI /\ w * cos t = x /\ w * sin t = Rabs y.
Proof.
  intros W E. assert (B : -1 <= x / w <= 1).
  { assert (x * x <= w * w) by (pose proof (Rle_0_sqr y); unfold Rsqr in *; lra). assert (- w <= x <= w) by nra.
    split; apply (Rmult_le_reg_r w); try lra; unfold Rdiv; rewrite Rmult_assoc, Rinv_l by lra; lra. }
  destruct (C43_acose_asine_proof (x / w)) as (t & _ & A & _ & Bt & Ct & _). rewrite Rmin_right, Rmax_right in Ct by lra.
  exists t. split; [exact A|]. split; [exact Bt|]. assert (C : w * cos t = x) by (rewrite Ct; field; lra). split; [exact C|].
  assert (S0 : 0 <= sin t) by (apply sin_ge_0; lra).
  apply Rsqr_inj; [apply Rmult_le_pos; lra|apply Rabs_pos|]. rewrite <- Rsqr_abs. unfold Rsqr. pose proof (csq t). replace (w * sin t * (w * sin t)) with (w * w * (sin t * sin t)) by ring.
  replace (sin t * sin t) with (1 - cos t * cos t) by lra. replace (w * w * (1 - cos t * cos t)) with (w * w - (w * cos t) * (w * cos t)) by ring. rewrite C. lra.
Qed.

Lemma neu_sq lat d : let v := north_east_up lat d in dot v v = dot d d.
Proof. cbv zeta. unfold north_east_up, dot, comp. cbn [nth]. pose proof (csq lat) as Q. set (c := cos lat) in *. set (s := sin lat) in *. clearbody c s. nsatz. Qed.

Lemma direction_unit a b : dot (direction a b) (direction a b) = 1.
Proof. unfold direction. exact (place_unit (a, b)). Qed.

(** From the hour angle to the azimuth. *)
Lemma forward_ok h d lat : 1 / 100000 <= cos lat -> - (PI / 2) <= d <= PI / 2 -> -1 < comp (north_east_up lat (direction h d)) 2 < 1 ->
  exists alt az, ra_dec_to_alt_az h d lat = Ret (alt, az) /\ from_south az alt = north_east_up lat (direction h d) /\ - (PI / 2) < alt < PI / 2 /\ - PI <= az <= PI.
Proof.
  intros L D U. pose proof (neu_sq lat (direction h d)) as Q. cbv zeta in Q. rewrite direction_unit in Q.
  set (n := comp (north_east_up lat (direction h d)) 0). set (e := comp (north_east_up lat (direction h d)) 1). set (u := comp (north_east_up lat (direction h d)) 2) in *.
  assert (EN : north_east_up lat (direction h d) = [n; e; u]) by reflexivity. rewrite EN in *. cbv [dot comp nth] in Q.
  assert (E1 : sin d = cos lat * n + sin lat * u). { unfold n, u, north_east_up, direction, comp. cbn [nth]. pose proof (csq lat) as P. set (c := cos lat) in *. set (s := sin lat) in *. clearbody c s. nsatz. }
  assert (E2 : e = sin h * cos d) by reflexivity.
  assert (E3 : u = sin lat * sin d + cos lat * cos d * cos h). { unfold u, north_east_up, direction, comp. cbn [nth]. ring. }
  assert (Cd : 0 <= cos d) by (apply cos_ge_0; lra).
  destruct (from_unit n e u Q) as (alt & Ea & Ba & Sa & Ca). assert (W : 0 < cos alt). { rewrite Ca. apply sqrt_lt_R0. nra. }
  assert (W2 : cos alt * cos alt = n * n + e * e). { rewrite Ca. apply sqrt_sqrt. nra. }
  destruct (acose_polar n e (cos alt) W W2) as (a & Aa & Ba' & C & S).
  unfold ra_dec_to_alt_az. cbv zeta. rewrite <- E3, Ea. cbn [obind]. destruct (Rltb_spec (cos lat) (1 / 100000)); [lra|].
  unfold c_div. destruct (Reqb_spec (cos alt * cos lat) 0) as [Z|_]; [exfalso; assert (0 < cos alt * cos lat) by (apply Rmult_lt_0_compat; lra); lra|].
  cbn [obind]. replace ((sin d - sin alt * sin lat) / (cos alt * cos lat)) with (n / cos alt). 2:{ rewrite Sa, E1. field. lra. }
  rewrite Aa. cbn [obind]. assert (B : - (PI / 2) < alt < PI / 2).
  { destruct Ba as [B1 B2]. split.
    - destruct (Rle_lt_or_eq_dec _ _ B1) as [|X]; [assumption|]. rewrite <- X, cos_neg, cos_PI2 in W. lra.
    - destruct (Rle_lt_or_eq_dec _ _ B2) as [|X]; [assumption|]. rewrite X, cos_PI2 in W. lra. }
  assert (Cp : cos (PI - a) = - cos a) by (rewrite cos_minus, cos_PI, sin_PI; ring).
  assert (Sp : sin (PI - a) = sin a) by (rewrite sin_minus, cos_PI, sin_PI; ring).
  exists alt. destruct (Rltb_spec (sin h) 0) as [N|N].
  - exists (PI - a). split; [reflexivity|]. split; [|lra]. unfold from_south. rewrite Cp, Sp, Sa.
    assert (e <= 0) by (rewrite E2; nra). rewrite Rabs_left1 in S by assumption. apply l3; lra.
  - exists (- (PI - a)). split; [reflexivity|]. split; [|lra]. unfold from_south. rewrite cos_neg, sin_neg, Cp, Sp, Sa.
    assert (0 <= e) by (rewrite E2; nra). rewrite Rabs_right in S by lra. apply l3; lra.
Qed.

(** The part towards the pole and the meridian of a direction given by north, east and up. *)
Definition pole_part (lat : R) (v : list R) : R := sin lat * comp v 2 + cos lat * comp v 0.
Definition meridian_part (lat : R) (v : list R) : R := cos lat * comp v 2 - sin lat * comp v 0.

Lemma back_ok0 alt az lat : 1 / 100000 <= cos lat -> - (PI / 2) <= alt <= PI / 2 -> -1 < pole_part lat (from_north az alt) < 1 ->
  exists h d, (do dec <- asine (sin lat * sin alt + cos lat * cos alt * cos az);
    do temp <- c_div (sin alt - sin lat * (sin lat * sin alt + cos lat * cos alt * cos az)) (cos lat * cos dec);
    do temp <- acose (- temp); Ret (if Rltb 0 (sin az) then PI - temp else PI + temp, dec)) = Ret (h, d) /\
    north_east_up lat (direction h d) = from_north az alt /\ - (PI / 2) < d < PI / 2 /\ 0 <= h <= 2 * PI.
Proof.
  intros L A Z. set (x := meridian_part lat (from_north az alt)). set (z := pole_part lat (from_north az alt)) in *. set (e := cos alt * sin az).
  assert (Ez : sin lat * sin alt + cos lat * cos alt * cos az = z) by (unfold z, pole_part, from_north, comp; cbn [nth]; ring).
  pose proof (csq lat) as P. assert (Q : x * x + e * e + z * z = 1).
  { unfold x, z, e, meridian_part, pole_part, from_north, comp. cbn [nth]. pose proof (csq alt). pose proof (csq az). set (c := cos lat) in *. set (s := sin lat) in *. clearbody c s. nsatz. }
  assert (Eu : sin alt = sin lat * z + cos lat * x). { unfold x, z, meridian_part, pole_part, from_north, comp. cbn [nth]. set (c := cos lat) in *. set (s := sin lat) in *. clearbody c s. nsatz. }
  assert (En : cos alt * cos az = cos lat * z - sin lat * x). { unfold x, z, meridian_part, pole_part, from_north, comp. cbn [nth]. set (c := cos lat) in *. set (s := sin lat) in *. clearbody c s. nsatz. }
  assert (Ca0 : 0 <= cos alt) by (apply cos_ge_0; lra).
  rewrite Ez. destruct (from_unit x e z Q) as (d & Ed & Bd & Sd & Cd). assert (W : 0 < cos d) by (rewrite Cd; apply sqrt_lt_R0; nra).
  assert (W2 : cos d * cos d = (- x) * (- x) + e * e) by (rewrite Cd, sqrt_sqrt by nra; ring).
  destruct (acose_polar (- x) e (cos d) W W2) as (t & At & Bt & C & S). rewrite Ed. cbn [obind]. unfold c_div.
  destruct (Reqb_spec (cos lat * cos d) 0) as [Y|_]; [exfalso; assert (0 < cos lat * cos d) by (apply Rmult_lt_0_compat; lra); lra|]. cbn [obind].
  replace (- ((sin alt - sin lat * z) / (cos lat * cos d))) with (- x / cos d). 2:{ rewrite Eu. field. lra. }
  rewrite At. cbn [obind]. assert (B : - (PI / 2) < d < PI / 2).
  { destruct Bd as [B1 B2]. split.
    - destruct (Rle_lt_or_eq_dec _ _ B1) as [|X]; [assumption|]. rewrite <- X, cos_neg, cos_PI2 in W. lra.
    - destruct (Rle_lt_or_eq_dec _ _ B2) as [|X]; [assumption|]. rewrite X, cos_PI2 in W. lra. }
  exists (if Rltb 0 (sin az) then PI - t else PI + t), d. split; [reflexivity|]. split; [|split; [exact B|destruct (Rltb 0 (sin az)); lra]].
  assert (R2 : cos (if Rltb 0 (sin az) then PI - t else PI + t) * cos d = x /\ sin (if Rltb 0 (sin az) then PI - t else PI + t) * cos d = e).
  { destruct (Rltb_spec 0 (sin az)) as [G|G].
    - rewrite cos_minus, sin_minus, cos_PI, sin_PI. assert (0 <= e) by (unfold e; nra). rewrite Rabs_right in S by lra. lra.
    - rewrite cos_plus, sin_plus, cos_PI, sin_PI. assert (e <= 0) by (unfold e; nra). rewrite Rabs_left1 in S by lra. lra. }
  destruct R2 as [R2 R3]. unfold north_east_up, direction, from_north, comp. cbn [nth]. rewrite R2, R3, Sd. fold e. apply l3; lra.
Qed.

Lemma back_ok alt az lat : 1 / 100000 <= cos lat -> - (3 * PI / 2) <= alt <= 5 * PI / 2 -> -1 < pole_part lat (from_north az alt) < 1 ->
  exists h d, alt_az_to_ra_dec alt az lat = Ret (h, d) /\
    north_east_up lat (direction h d) = from_north az alt /\ - (PI / 2) < d < PI / 2 /\ 0 <= h <= 2 * PI.
Proof.
  intros L A Z. pose proof PI_RGT_0 as P0. unfold alt_az_to_ra_dec. cbv zeta.
  assert (K : exists alt' az', (let '(alt, az) := if Rltb (PI / 2) alt then (PI - alt, az + PI) else (alt, az) in if Rltb alt (- PI / 2) then (- PI - alt, az - PI) else (alt, az)) = (alt', az')
    /\ - (PI / 2) <= alt' <= PI / 2 /\ from_north az' alt' = from_north az alt).
  { assert (F1 : forall b c, from_north (c + PI) (PI - b) = from_north c b).
    { intros b c. unfold from_north. rewrite cos_minus, sin_minus, cos_plus, sin_plus, cos_PI, sin_PI. apply l3; ring. }
    assert (F2 : forall b c, from_north (c - PI) (- PI - b) = from_north c b).
    { intros b c. unfold from_north. rewrite !cos_minus, !sin_minus, cos_neg, sin_neg, cos_PI, sin_PI. apply l3; ring. }
    destruct (Rltb_spec (PI / 2) alt).
    - destruct (Rltb_spec (PI - alt) (- PI / 2)).
      + eexists _, _. split; [reflexivity|]. split; [lra|]. rewrite F2. apply F1.
      + eexists _, _. split; [reflexivity|]. split; [lra|]. apply F1.
    - destruct (Rltb_spec alt (- PI / 2)).
      + eexists _, _. split; [reflexivity|]. split; [lra|]. apply F2.
      + eexists _, _. split; [reflexivity|]. split; [lra|]. reflexivity. }
  destruct K as (alt' & az' & K & B & F). destruct (if Rltb (PI / 2) alt then _ else _) as [a1 z1]. rewrite K. clear K. rewrite <- F in *.
  destruct (Rltb_spec (cos lat) (1 / 100000)); [lra|]. apply back_ok0; assumption.
Qed.
