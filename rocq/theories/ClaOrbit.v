(** Lemmas for C54: the elements of the orbit of a place and a velocity. *)
From Coq Require Import Lia.
From Verif Require Import TrigBase OrbModel OrbSpec OrbProofs OrbKepler OrbSeries OrbNewton ClaModel ClaSpec ClaProofs.
Local Open Scope R_scope.

(** * Axes *)
Lemma plane_frame h P H : 0 < H -> H * H = dot h h -> dot P P = 1 -> dot P h = 0 -> frame P (scale (1 / H) (cross h P)) (scale (1 / H) h).
Proof.
  intros H0 HH P1 Ph. assert (hP : dot h P = 0) by (rewrite dot_sym; exact Ph). unfold frame. split; [exact P1|]. split; [|split].
  - rewrite dot_scale, dot_scale_r, cross_norm, <- HH, P1, hP. field. lra.
  - rewrite dot_scale_r, dot_sym, cross_r. ring.
  - rewrite cross_scale_r, cross_cross, P1, Ph, scale_1. f_equal. vec. f_equal; [f_equal|]; ring.
Qed.
Lemma in_frame P S W r : frame P S W -> dot r W = 0 -> r = at_point P S (dot r P, dot r S).
Proof.
  intros (P1 & S1 & PS & PW) rW. unfold at_point. cbn [fst snd].
  assert (WW : dot W W = 1) by (rewrite <- PW, cross_norm, P1, S1, PS; ring).
  assert (A : cross W (cross W r) = scale (- 1) r). { rewrite cross_cross, WW, (dot_sym W r), rW. vec. f_equal; [f_equal|]; ring. }
  assert (B : cross W r = plus (scale (dot r P) S) (scale (- dot r S) P)) by (rewrite <- PW; clear; vec; f_equal; [f_equal|]; ring).
  assert (WS : cross W S = scale (- 1) P). { rewrite <- PW. transitivity (plus (scale (dot P S) S) (scale (- dot S S) P)); [clear; vec; f_equal; [f_equal|]; ring|]. rewrite PS, S1. vec. f_equal; [f_equal|]; ring. }
  assert (WP : cross W P = S). { rewrite <- PW. transitivity (plus (scale (dot P P) S) (scale (- dot P S) P)); [clear; vec; f_equal; [f_equal|]; ring|]. rewrite PS, P1. vec. f_equal; [f_equal|]; ring. }
  assert (C : cross W (cross W r) = scale (- 1) (plus (scale (dot r P) P) (scale (dot r S) S))).
  { rewrite B. transitivity (plus (scale (dot r P) (cross W S)) (scale (- dot r S) (cross W P))); [clear; set (u := dot r P); set (w := dot r S); clearbody u w; vec; f_equal; [f_equal|]; ring|]. rewrite WS, WP. set (u := dot r P). set (w := dot r S). clearbody u w. clear. vec. f_equal; [f_equal|]; ring. }
  rewrite A in C. assert (D : scale (- 1) (scale (- 1) r) = scale (- 1) (scale (- 1) (plus (scale (dot r P) P) (scale (dot r S) S)))) by (rewrite C; reflexivity).
  rewrite !scale_scale in D. replace (- 1 * - 1) with 1 in D by ring. rewrite !scale_1 in D. exact D.
Qed.

(** * Node, inclination, argument of the perihelion *)
Lemma node_ok hx hy hz H : 0 < H -> H * H = hx * hx + hy * hy + hz * hz -> let n0 := sqrt (hx * hx + hy * hy) in
  exists node i, node_and_incl (hx, hy, hz) n0 H = Ret (node, i) /\ sin i = n0 / H /\ cos i = hz / H /\ n0 * sin node = hx /\ n0 * cos node = - hy /\ (n0 = 0 -> node = 0).
Proof.
  intros H0 HH n0. assert (N2 : n0 * n0 = hx * hx + hy * hy) by (apply sqrt_sqrt; nra). assert (N0 : 0 <= n0) by apply sqrt_pos.
  unfold node_and_incl. rewrite c_div_ok by lra. cbn [obind]. assert (R : 0 <= n0 / H <= 1).
  { split; [apply Rmult_le_pos; [lra|left; apply Rinv_0_lt_compat; lra]|]. apply Rmult_le_reg_r with H; [lra|]. replace (n0 / H * H) with n0 by (field; lra). nra. }
  assert (A : exists a, asine (n0 / H) = Ret a /\ sin a = n0 / H /\ cos a = Rabs hz / H).
  { assert (SQ : forall a, 0 <= cos a -> sin a = n0 / H -> cos a = Rabs hz / H).
    { intros a C S. assert (E : cos a * cos a = Rabs hz / H * (Rabs hz / H)).
      { pose proof (sc a) as T. rewrite S in T. replace (cos a * cos a) with (1 - n0 / H * (n0 / H)) by lra. replace (Rabs hz / H * (Rabs hz / H)) with (Rabs hz * Rabs hz / (H * H)) by (field; lra). replace (Rabs hz * Rabs hz) with (hz * hz) by apply (Rsqr_abs hz).
        replace (n0 / H * (n0 / H)) with (n0 * n0 / (H * H)) by (field; lra). rewrite N2. replace (hx * hx + hy * hy) with (H * H - hz * hz) by lra. field. lra. }
      assert (0 <= Rabs hz / H) by (apply Rmult_le_pos; [apply Rabs_pos|left; apply Rinv_0_lt_compat; lra]). nra. }
    unfold asine. destruct (Rleb_spec 1 (n0 / H)) as [L|L].
    - exists (PI / 2). split; [reflexivity|]. assert (S : sin (PI / 2) = n0 / H) by (rewrite sin_PI2; lra). split; [exact S|]. apply SQ; [rewrite cos_PI2; lra|exact S].
    - destruct (Rleb_spec (n0 / H) (- 1)); [lra|]. rewrite c_asin_ok by lra. exists (asin (n0 / H)). split; [reflexivity|]. assert (S : sin (asin (n0 / H)) = n0 / H) by (apply sin_asin; lra). split; [exact S|]. apply SQ; [|exact S].
      apply cos_ge_0; pose proof (asin_bound (n0 / H)); lra. }
  destruct A as (a & E & S & C). rewrite E. cbn [obind]. eexists _, _. split; [reflexivity|].
  assert (IJ : sin (if Rltb hz 0 then PI - a else a) = n0 / H /\ cos (if Rltb hz 0 then PI - a else a) = hz / H).
  { destruct (Rltb_spec hz 0) as [L|L].
    - rewrite Rabs_left in C by lra. replace (PI - a) with (- a + PI) by ring. rewrite neg_sin, neg_cos, sin_neg, cos_neg. split; [lra|]. rewrite C. field. lra.
    - rewrite Rabs_right in C by lra. split; assumption. }
  destruct IJ as [I J]. split; [exact I|]. split; [exact J|]. destruct (Reqb_spec n0 0) as [Z|Z].
  - assert (hx = 0) by nra. assert (hy = 0) by nra. subst hx hy. rewrite sin_0, cos_0, Z. repeat split; intros; ring.
  - destruct (atan2_polar hx (- hy)) as [Pc Ps]. cbv zeta in Pc, Ps. replace (- hy * - hy + hx * hx) with (hx * hx + hy * hy) in Pc, Ps by ring. fold n0 in Pc, Ps. split; [exact Ps|]. split; [exact Pc|]. intros; lra.
Qed.
(** The angle from its cosine [c] and, in size, its sine [s]. *)
Lemma angle_ok c s sg : c * c + s * s = 1 -> (sg = s \/ sg = - s) -> exists a,
  (if Rltb c (7 / 10) && Rltb (- (7 / 10)) c then c_acos c else do b <- c_asin sg; Ret (if Rltb c 0 then PI - Rabs b else Rabs b)) = Ret a /\ cos a = c /\ sin a = Rabs s.
Proof.
  intros CS SG. assert (B : -1 <= c <= 1) by nra. assert (AA : Rabs s * Rabs s = s * s) by (symmetry; apply (Rsqr_abs)). pose proof (Rabs_pos s) as A0.
  assert (SQ : forall x, 0 <= x -> x * x = s * s -> x = Rabs s) by (intros; nra).
  destruct (Rltb c (7 / 10) && Rltb (- (7 / 10)) c).
  - rewrite c_acos_ok by lra. exists (acos c). split; [reflexivity|]. rewrite cos_acos by lra. split; [reflexivity|]. apply SQ; [apply sin_ge_0; pose proof (acos_bound c); lra|]. pose proof (sc (acos c)) as T. rewrite cos_acos in T by lra. lra.
  - assert (G : -1 <= sg <= 1) by (destruct SG; subst; nra). rewrite c_asin_ok by lra. cbn [obind]. set (b := asin sg). assert (Sb : sin b = sg) by (apply sin_asin; lra). pose proof (asin_bound sg) as Bb. fold b in Bb.
    set (a := Rabs b). assert (Ba : 0 <= a <= PI / 2) by (unfold a; split; [apply Rabs_pos|apply Rabs_le; lra]).
    assert (Sa : sin a = Rabs s). { apply SQ; [apply sin_ge_0; pose proof PI_RGT_0; lra|]. assert (sin a * sin a = sg * sg) by (unfold a, Rabs; destruct (Rcase_abs b); rewrite ?sin_neg, Sb; ring). destruct SG; subst sg; lra. }
    assert (Ca : cos a = Rabs c). { assert (CC : Rabs c * Rabs c = c * c) by (symmetry; apply (Rsqr_abs)). pose proof (Rabs_pos c). assert (0 <= cos a) by (apply cos_ge_0; lra). pose proof (sc a) as T. rewrite Sa in T. nra. }
    eexists. split; [reflexivity|]. destruct (Rltb_spec c 0) as [L|L].
    + replace (PI - a) with (- a + PI) by ring. rewrite neg_sin, neg_cos, sin_neg, cos_neg, Sa, Ca, (Rabs_left c) by lra. split; ring.
    + rewrite Ca, Rabs_right by lra. split; [reflexivity|exact Sa].
Qed.
Lemma argument_ok hx hy hz ex ey ez H : 0 < H -> H * H = hx * hx + hy * hy + hz * hz -> dot (ex, ey, ez) (ex, ey, ez) = 1 -> dot (ex, ey, ez) (hx, hy, hz) = 0 ->
  let n0 := sqrt (hx * hx + hy * hy) in exists a, argument (hx, hy, hz) (ex, ey, ez) n0 H = Ret a /\
  (n0 <> 0 -> cos a = (hx * ey - hy * ex) / n0 /\ sin a = ez * H / n0) /\ (n0 = 0 -> cos a = ex /\ sin a = Rabs ey).
Proof.
  intros H0 HH P1 Ph n0. unfold dot in P1, Ph. assert (N2 : n0 * n0 = hx * hx + hy * hy) by (apply sqrt_sqrt; nra). assert (N0 : 0 <= n0) by apply sqrt_pos.
  unfold argument. destruct (Reqb_spec n0 0) as [Z|Z]; cbn [negb].
  - cbn [obind]. assert (hx = 0) by nra. assert (hy = 0) by nra. subst hx hy. assert (Hz : hz <> 0) by (intros ->; assert (0 < H * H) by (apply Rmult_lt_0_compat; lra); lra). assert (ez = 0) by (apply Rmult_eq_reg_r with hz; lra). subst ez. rewrite c_div_ok by lra. cbn [obind].
    destruct (angle_ok ex ey (ey * hz / H)) as (a & E & C & S); [lra| |].
    { assert (F : (hz / H - 1) * (hz / H + 1) = 0). { replace ((hz / H - 1) * (hz / H + 1)) with ((hz * hz - H * H) / (H * H)) by (field; lra). rewrite HH. replace (hz * hz - (0 * 0 + 0 * 0 + hz * hz)) with 0 by ring. unfold Rdiv. ring. }
      replace (ey * hz / H) with (ey * (hz / H)) by (field; lra). apply Rmult_integral in F. destruct F as [F|F]; [left; replace (hz / H) with 1 by lra; ring|right; replace (hz / H) with (- 1) by lra; ring]. }
    cbv zeta. rewrite E. cbn [obind]. destruct (Rltb_spec 0 0); [lra|]. exists a. split; [reflexivity|]. split; [intros; lra|]. intros _. split; assumption.
  - assert (N1 : 0 < n0) by lra. rewrite !c_div_ok by nra. cbn [obind]. set (c := (hx * ey - hy * ex) / n0). set (s := ez * H / n0).
    assert (CS : c * c + s * s = 1).
    { unfold c, s. replace ((hx * ey - hy * ex) / n0 * ((hx * ey - hy * ex) / n0) + ez * H / n0 * (ez * H / n0)) with (((hx * ey - hy * ex) * (hx * ey - hy * ex) + ez * ez * (H * H)) / (n0 * n0)) by (field; lra).
      rewrite HH. replace ((hx * ey - hy * ex) * (hx * ey - hy * ex) + ez * ez * (hx * hx + hy * hy + hz * hz)) with ((hx * hx + hy * hy) * (ex * ex + ey * ey + ez * ez) - (ex * hx + ey * hy + ez * hz) * (ex * hx + ey * hy - ez * hz)) by ring. rewrite P1, Ph, <- N2. field. lra. }
    destruct (angle_ok c s ((ex * hx * hz + ey * hy * hz - ez * n0 * n0) / (n0 * H)) CS) as (a & E & C & S).
    { right. unfold s. replace (ex * hx * hz + ey * hy * hz - ez * n0 * n0) with ((ex * hx + ey * hy + ez * hz) * hz - ez * (hz * hz + n0 * n0)) by ring. rewrite Ph, N2. replace (hz * hz + (hx * hx + hy * hy)) with (H * H) by lra. field. lra. }
    cbv zeta. rewrite E. cbn [obind]. eexists. split; [reflexivity|]. split; [|intros; lra]. intros _. destruct (Rltb_spec ez 0) as [L|L].
    + replace (PI + PI - a) with (- a + 2 * PI * IZR 1) by ring. rewrite turns_cos, turns_sin, cos_neg, sin_neg, C, S. split; [reflexivity|]. rewrite Rabs_left; [ring|]. unfold s. replace (ez * H / n0) with (- (- ez * H / n0)) by (field; lra). assert (0 < - ez * H / n0) by (apply Rdiv_lt_0_compat; nra). lra.
    + rewrite C, S. split; [reflexivity|]. apply Rabs_right. unfold s. apply Rle_ge. apply Rmult_le_pos; [nra|left; apply Rinv_0_lt_compat; lra].
Qed.
Lemma angles_ok hx hy hz ex ey ez H node i a : 0 < H -> H * H = hx * hx + hy * hy + hz * hz -> dot (ex, ey, ez) (ex, ey, ez) = 1 -> dot (ex, ey, ez) (hx, hy, hz) = 0 ->
  let n0 := sqrt (hx * hx + hy * hy) in node_and_incl (hx, hy, hz) n0 H = Ret (node, i) -> argument (hx, hy, hz) (ex, ey, ez) n0 H = Ret a ->
  to_pole node i a = scale (1 / H) (hx, hy, hz) /\
  ((hx <> 0 \/ hy <> 0 \/ 0 <= ey * hz) -> to_perihelion node i a = (ex, ey, ez)) /\
  (hx = 0 -> hy = 0 -> ey * hz < 0 -> to_perihelion node i a = (ex, - ey, ez)).
Proof.
  intros H0 HH P1 Ph n0 EN EA.
    destruct (node_ok hx hy hz H H0 HH) as (node' & i' & EN' & Si & Ci & Sn & Cn & Zn).
    fold n0 in EN', Si, Sn, Cn, Zn.
    rewrite EN in EN'.
    injection EN' as <- <-.
  destruct (argument_ok hx hy hz ex ey ez H H0 HH P1 Ph) as (a' & EA' & A1 & A0).
    fold n0 in EA', A1, A0.
    rewrite EA in EA'.
    injection EA' as <-.
    unfold dot in P1, Ph.
  assert (N2 : n0 * n0 = hx * hx + hy * hy) by (apply sqrt_sqrt; nra).
    assert (N0 : 0 <= n0) by apply sqrt_pos.
  clear EN EA.
    clearbody n0.
    rewrite pole_eq, perihelion_eq, Si, Ci.
    unfold scale.
    split.
  { f_equal; [f_equal|]; [transitivity ((n0 * sin node) / H); [field; lra|rewrite Sn; field; lra]|transitivity (- (n0 * cos node) / H); [field; lra|rewrite Cn; field; lra]|field; lra].
    }
  destruct (Req_dec n0 0) as [Z|Z].
  - assert (hx = 0) by (rewrite <- Sn, Z; ring).
    assert (hy = 0) by (rewrite Z in Cn; lra).
    clear Sn Cn. subst hx hy.
    assert (Hz : hz <> 0) by (intros ->; assert (0 < H * H) by (apply Rmult_lt_0_compat; lra); lra).
    assert (ez = 0) by (apply Rmult_eq_reg_r with hz; lra).
    subst ez.
    rewrite (Zn Z), cos_0, sin_0, Z.
    destruct (A0 Z) as [-> ->].
    assert (ZZ : 0 / H = 0) by (field; lra).
    rewrite ZZ.
    assert (HZ : H = Rabs hz).
    { pose proof (Rabs_pos hz).
    assert (Rabs hz * Rabs hz = hz * hz) by (symmetry; apply (Rsqr_abs)).
    nra.
    }
    assert (FS : forall u, hz / H = u -> (u = 1 /\ 0 < hz \/ u = -1 /\ hz < 0)).
    { intros u <-.
    unfold Rabs in HZ.
    destruct (Rcase_abs hz) as [L|L]; [right|left]; (split; [rewrite HZ; field; lra|lra]).
    }
    split.
    + intros [K|[K|K]]; [lra|lra|].
    destruct (FS _ eq_refl) as [[-> L]|[-> L]].
      * assert (0 <= ey) by nra.
    rewrite Rabs_right by lra.
    f_equal; [f_equal|]; ring.
      * assert (ey <= 0) by nra.
    rewrite Rabs_left1 by lra.
    f_equal; [f_equal|]; ring.
    + intros _ _ K.
    destruct (FS _ eq_refl) as [[-> L]|[-> L]].
      * assert (ey < 0) by nra.
    rewrite Rabs_left by lra.
    f_equal; [f_equal|]; ring.
      * assert (0 < ey) by nra.
    rewrite Rabs_right by lra.
    f_equal; [f_equal|]; ring.
  - split; [|intros -> -> _; exfalso; apply Z; nra].
    intros _.
    destruct (A1 Z) as [-> ->].
    assert (Sn' : sin node = hx / n0) by (apply Rmult_eq_reg_l with n0; [rewrite Sn; field; exact Z|exact Z]).
    assert (Cn' : cos node = - hy / n0) by (apply Rmult_eq_reg_l with n0; [rewrite Cn; field; exact Z|exact Z]).
    rewrite Sn', Cn'.
    f_equal; [f_equal|].
    + transitivity (((hx * hx + hy * hy) * ex - hx * (ex * hx + ey * hy + ez * hz)) / (n0 * n0)); [field; split; lra|].
    rewrite Ph, N2.
    field.
    nra.
    + transitivity (((hx * hx + hy * hy) * ey - hy * (ex * hx + ey * hy + ez * hz)) / (n0 * n0)); [field; split; lra|].
    rewrite Ph, N2.
    field.
    nra.
    + field.
    split; [exact Z|lra].
Qed.

(** * Anomalies *)
Definition ARC : R := 4 / 10 ^ 30.
Lemma anomaly_ellipse e p x y d t0 t : 0 <= e < 1 -> 0 < p -> d * d = x * x + y * y -> d = p - e * x ->
  exists E M n, (x, y) = ellipse (p / (1 + e)) e E /\ - PI < E <= PI /\ Rabs (M - (E - e * sin E)) <= ARC /\ (near_one e = false -> M = E - e * sin E) /\
  forall fuel, (n <= fuel)%nat -> anomaly fuel e ((1 - e * e) / p) (sqrt (1 - e * e)) x y t0 t = Ret (M, t - M * t0).
Proof.
  intros He Hp DD D. assert (M0 : 0 < 1 - e * e) by nra. pose proof (sqrt_lt_R0 _ M0) as S0. pose proof (sqrt_sqrt (1 - e * e) ltac:(lra)) as SS. set (m := sqrt (1 - e * e)) in *.
  assert (I0 : 0 < (1 - e * e) / p) by (apply Rdiv_lt_0_compat; lra). unfold anomaly. rewrite c_div_ok by lra. cbn [obind]. destruct (Rltb_spec 0 ((1 - e * e) / p)); [|lra]. cbv zeta.
  set (sE := y * ((1 - e * e) / p) / m). set (cE := x * ((1 - e * e) / p) + e). set (E := atan2 sE cE).
  assert (EQ : sE * p = y * m). { unfold sE. rewrite <- SS. field. lra. } assert (EC : cE * p = x * (m * m) + e * p) by (unfold cE; rewrite SS; field; lra).
  assert (U : cE * cE + sE * sE = 1 * 1).
  { apply Rmult_eq_reg_r with (p * p); [|nra]. transitivity ((cE * p) * (cE * p) + (sE * p) * (sE * p)); [ring|]. rewrite EQ, EC.
    replace (y * m * (y * m)) with ((d * d - x * x) * (m * m)) by (rewrite DD; ring). rewrite D, SS. ring. }
  destruct (polar_unique 1 cE sE Rlt_0_1 U) as [PC PS]. fold E in PC, PS. assert (PC' : cos E = cE) by lra. assert (PS' : sin E = sE) by lra.
  assert (XY : (x, y) = ellipse (p / (1 + e)) e E).
  { unfold ellipse. fold m. rewrite PC', PS'. assert (AX : p / (1 + e) / (1 - e) = p / (m * m)) by (rewrite SS; field; nra). rewrite AX. f_equal.
    - transitivity ((cE * p - e * p) / (m * m)); [rewrite EC; field; lra|field; lra].
    - transitivity (sE * p / m); [rewrite EQ; field; lra|field; lra]. }
  destruct (near_one e) eqn:N.
  - destruct (remaining_sin E) as (nf & s & B & F). exists E, (E * (1 - e) - e * E * s), nf. split; [exact XY|]. split; [apply atan2_bound|]. split; [|split; [discriminate|intros fuel Hf; rewrite (F fuel Hf); reflexivity]].
    replace (E * (1 - e) - e * E * s - (E - e * sin E)) with (- (e * (E + E * s - sin E))) by ring. rewrite Rabs_Ropp, Rabs_mult, (Rabs_right e) by lra.
    assert (BE : Rabs E <= 4). { pose proof (atan2_bound sE cE) as AB. fold E in AB. pose proof PI_4. apply Rabs_le. lra. }
    assert (T0 : 0 < TOL) by (unfold TOL; lra). assert (Rabs E * TOL <= 4 * TOL) by (apply Rmult_le_compat_r; lra). assert (A4 : 4 * TOL = ARC) by (unfold TOL, ARC; field). pose proof (Rabs_pos (E + E * s - sin E)). nra.
  - exists E, (E - e * sin E), O. split; [exact XY|]. split; [apply atan2_bound|]. split; [|split; [reflexivity|intros fuel _; cbn [obind]; rewrite PS'; reflexivity]].
    replace (E - e * sin E - (E - e * sin E)) with 0 by ring. rewrite Rabs_R0. unfold ARC. lra.
Qed.
Lemma anomaly_hyperbola e p x y d t0 t : 1 < e -> 0 < p -> 0 < d -> d * d = x * x + y * y -> d = p - e * x -> t0 <= 0 ->
  exists H M n, (x, y) = hyperbola (p / (1 + e)) e H /\ Rabs (M - (e * sinh H - H)) <= e * (Rabs H * TOL * cosh H) /\ (near_one e = false -> M = e * sinh H - H) /\
  forall fuel, (n <= fuel)%nat -> anomaly fuel e ((1 - e * e) / p) (sqrt (Rabs (1 - e * e))) x y t0 t = Ret (M, t - M * Rabs t0).
Proof.
  intros He Hp Hd DD D T0. assert (M0 : 0 < e * e - 1) by nra. rewrite (Rabs_left (1 - e * e)) by lra. replace (- (1 - e * e)) with (e * e - 1) by ring.
  pose proof (sqrt_lt_R0 _ M0) as S0. pose proof (sqrt_sqrt (e * e - 1) ltac:(lra)) as SS. set (m := sqrt (e * e - 1)) in *.
  assert (I0 : (1 - e * e) / p < 0). { assert (0 < (e * e - 1) / p) by (apply Rdiv_lt_0_compat; lra). replace ((1 - e * e) / p) with (- ((e * e - 1) / p)) by (field; lra). lra. }
  unfold anomaly. rewrite c_div_ok by lra. cbn [obind]. destruct (Rltb_spec 0 ((1 - e * e) / p)); [lra|]. cbv zeta.
  set (sE := y * ((1 - e * e) / p) / m). set (A := arcsinh sE). assert (SA : sinh A = sE) by apply sinh_arcsinh. destruct (Rleb_spec t0 0); [|lra].
  assert (EQ : sE * p = - (y * m)). { unfold sE. replace (1 - e * e) with (- (m * m)) by lra. field. lra. }
  set (c := e - x * (m * m) / p). assert (EC : c * p = e * p - x * (m * m)) by (unfold c; field; lra).
  assert (CP : 0 < c). { assert (0 < e * (c * p)); [|apply Rmult_lt_reg_r with p; [lra|]; nra]. rewrite EC. replace (e * (e * p - x * (m * m))) with (p + (p - e * x) * (m * m)) by (rewrite SS; ring). rewrite <- D. assert (0 < d * (m * m)) by (apply Rmult_lt_0_compat; nra). lra. }
  assert (CC : c = cosh A).
  { pose proof (cosh_sinh A) as CS. pose proof (cosh_ge_1 A) as C1. rewrite SA in CS. assert (U : c * c = 1 + sE * sE).
    { apply Rmult_eq_reg_r with (p * p); [|nra]. transitivity ((c * p) * (c * p)); [ring|]. transitivity (p * p + (sE * p) * (sE * p)); [|ring]. rewrite EQ, EC. replace (- (y * m) * - (y * m)) with ((d * d - x * x) * (m * m)) by (rewrite DD; ring). rewrite D, SS. ring. }
    nra. }
  assert (XY : (x, y) = hyperbola (p / (1 + e)) e (- A)).
  { unfold hyperbola. fold m. rewrite cosh_even, sinh_odd, <- CC, SA. assert (AX : p / (1 + e) / (e - 1) = p / (m * m)) by (rewrite SS; field; nra). rewrite AX. f_equal.
    - transitivity ((e * p - c * p) / (m * m)); [rewrite EC; field; lra|field; lra].
    - transitivity (- (sE * p) / m); [rewrite EQ; field; lra|field; lra]. }
  destruct (near_one e) eqn:N.
  - destruct (remaining_sinh A) as (nf & s & B & F). exists (- A), (A * (1 - e) - e * A * s), nf. split; [exact XY|]. rewrite sinh_odd, cosh_even, Rabs_Ropp. split; [|split; [discriminate|intros fuel Hf; rewrite (F fuel Hf); reflexivity]].
    replace (A * (1 - e) - e * A * s - (e * - sinh A - - A)) with (- (e * (A + A * s - sinh A))) by ring. rewrite Rabs_Ropp, Rabs_mult, (Rabs_right e) by lra. apply Rmult_le_compat_l; [lra|exact B].
  - exists (- A), (A - e * sE), O. split; [exact XY|]. rewrite sinh_odd, cosh_even, Rabs_Ropp, SA. split; [|split; [intros _; ring|intros fuel _; reflexivity]].
    replace (A - e * sE - (e * - sE - - A)) with 0 by ring. rewrite Rabs_R0. pose proof (Rabs_pos A). pose proof (cosh_ge_1 A). assert (0 < TOL) by (unfold TOL; lra). apply Rmult_le_pos; [lra|]. apply Rmult_le_pos; [apply Rmult_le_pos; lra|lra].
Qed.
