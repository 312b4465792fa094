(** Lemmas on the model of places on a flattened planet. *)
From Coq Require Import Lia Psatz.
From Verif Require Import TrigBase EllModel EllSpec.
Local Open Scope R_scope.

Lemma sc1 a : cos a * cos a + sin a * sin a = 1.
Proof. pose proof (sin2_cos2 a). unfold Rsqr in *. lra. Qed.
Lemma div_ok x y : y <> 0 -> c_div x y = Ret (x / y).
Proof. intros H. unfold c_div. now destruct (Reqb_spec y 0). Qed.
Lemma sqrt_ok x : 0 <= x -> c_sqrt x = Ret (sqrt x).
Proof. intros H. unfold c_sqrt. destruct (Rltb_spec x 0); [lra|reflexivity]. Qed.

(** Cube roots. *)
Lemma cbrt_cube z : cbrt z * cbrt z * cbrt z = z.
Proof.
  assert (P : forall w, 0 < w -> Rpower w (1 / 3) * Rpower w (1 / 3) * Rpower w (1 / 3) = w).
  { intros w Hw. rewrite <- !Rpower_plus. replace (1 / 3 + 1 / 3 + 1 / 3) with 1 by field. now apply Rpower_1. }
  unfold cbrt. destruct (Rltb_spec 0 z); [now apply P|]. destruct (Rltb_spec z 0).
  - pose proof (P (- z) ltac:(lra)). set (k := Rpower (- z) (1 / 3)) in *. clearbody k. lra.
  - assert (z = 0) by lra. subst z. ring.
Qed.
Lemma cube_le x y : x * x * x <= y * y * y -> x <= y.
Proof.
  intros H. destruct (Rle_lt_dec x y) as [L|L]; [assumption|exfalso].
  assert (0 < (x - y) * (x * x + x * y + y * y)); [|lra].
  apply Rmult_lt_0_compat; [lra|]. assert (0 < (x - y) * (x - y)) by nra. nra.
Qed.
Lemma cube_inj x y : x * x * x = y * y * y -> x = y.
Proof. intros H. apply Rle_antisym; apply cube_le; lra. Qed.

(** The root taken of the cubic: the largest. *)
Lemma root_ok p q : q <= 0 -> exists v, ellipse_root p q = Ret v /\ v * v * v + 3 * p * v + 2 * q = 0 /\ 0 <= v /\ 0 <= v * v + p.
Proof.
  intros Hq. unfold ellipse_root. set (d := p * p * p + q * q) in *.
  destruct (Rleb_spec 0 d) as [Hd|Hd].
  - rewrite sqrt_ok by assumption. cbn [obind]. eexists. split; [reflexivity|].
    pose proof (sqrt_sqrt d Hd) as Es. set (s := sqrt d) in *. clearbody s.
    pose proof (cbrt_cube (s - q)) as E1. pose proof (cbrt_cube (s + q)) as E2.
    set (x := cbrt (s - q)) in *. set (y := cbrt (s + q)) in *. clearbody x y.
    assert (Ep : x * y = p).
    { apply cube_inj. replace (x * y * (x * y) * (x * y)) with ((x * x * x) * (y * y * y)) by ring. rewrite E1, E2.
      transitivity (s * s - q * q); [ring|]. rewrite Es. unfold d. ring. }
    split; [|split].
    + rewrite <- Ep. transitivity ((x * x * x) - (y * y * y) + 2 * q); [ring|]. rewrite E1, E2. ring.
    + assert (y <= x); [|lra]. apply cube_le. lra.
    + rewrite <- Ep. pose proof (Rle_0_sqr (x - y)). pose proof (Rle_0_sqr x). pose proof (Rle_0_sqr y). unfold Rsqr in *. lra.
  - assert (Hp : p < 0). { destruct (Rlt_le_dec p 0); [assumption|]. exfalso. apply Hd. unfold d. assert (0 <= p * p * p) by (apply Rmult_le_pos; nra). nra. }
    rewrite sqrt_ok by lra. cbn [obind]. pose proof (sqrt_sqrt (- p) ltac:(lra)) as Es. assert (S0 : 0 < sqrt (- p)) by (apply sqrt_lt_R0; lra).
    set (s := sqrt (- p)) in *. clearbody s. assert (Ep : p = - (s * s)) by lra. unfold d in Hd. clear d. subst p.
    assert (S3 : 0 < s * s * s) by (apply Rmult_lt_0_compat; nra).
    rewrite div_ok by nra. cbn [obind].
    assert (Er : q / (s * - (s * s)) = - q / (s * s * s)) by (field; lra). rewrite Er. clear Er.
    assert (B : 0 <= - q / (s * s * s) <= 1).
    { split; [apply Rmult_le_pos; [lra|apply Rlt_le, Rinv_0_lt_compat; assumption]|].
      apply Rmult_le_reg_r with (s * s * s); [assumption|]. unfold Rdiv. rewrite Rmult_assoc, Rinv_l by lra. rewrite Rmult_1_l, Rmult_1_r.
      assert (q * q <= (s * s * s) * (s * s * s)) by nra. nra. }
    rewrite c_acos_ok by lra. cbn [obind]. eexists. split; [reflexivity|].
    set (k := - q / (s * s * s)) in *. assert (Ek : k * (s * s * s) = - q) by (unfold k; field; lra). clearbody k.
    pose proof (acos_bound k) as Bk. assert (Ck : cos (acos k) = k) by (apply cos_acos; lra).
    set (th := acos k) in *. clearbody th. pose proof PI_RGT_0 as P0.
    assert (C3 : cos th = 4 * (cos (th / 3) * cos (th / 3) * cos (th / 3)) - 3 * cos (th / 3)).
    { replace th with (th / 3 + (th / 3 + th / 3)) at 1 by field. rewrite !cos_plus, sin_plus. pose proof (sc1 (th / 3)) as S1.
      set (c := cos (th / 3)) in *. set (w := sin (th / 3)) in *. clearbody c w. assert (W : w * w = 1 - c * c) by lra.
      transitivity (c * (c * c) - c * (w * w) - 2 * c * (w * w)); [ring|]. rewrite W. ring. }
    assert (CH : 1 / 2 <= cos (th / 3)).
    { rewrite <- cos_PI3. destruct (Req_dec (th / 3) (PI / 3)) as [->|N]; [lra|]. apply Rlt_le, cos_decreasing_1; lra. }
    set (c := cos (th / 3)) in *. clearbody c.
    split; [|split].
    + transitivity (2 * (s * s * s) * (4 * (c * c * c) - 3 * c) + 2 * q); [ring|]. rewrite <- C3, Ck. lra.
    + nra.
    + assert (0 <= (4 * (c * c) - 1) * (s * s)) by (apply Rmult_le_pos; nra). lra.
Qed.
Lemma root_largest p q v z : v * v * v + 3 * p * v + 2 * q = 0 -> 0 <= v -> 0 <= v * v + p -> z * z * z + 3 * p * z + 2 * q = 0 -> z <= v.
Proof.
  intros E V0 Vp Ez. destruct (Rle_lt_dec z v) as [L|L]; [assumption|exfalso].
  assert (0 < (z - v) * (z * z + z * v + v * v + 3 * p)); [|lra].
  apply Rmult_lt_0_compat; [lra|]. nra.
Qed.

(** The quartic t^4 + 2 e t^3 + 2 f t - 1 and its factors. *)
Lemma quartic_root e f : Rabs e <= f -> (e <> 0 \/ f <> 0) -> exists v s w z,
  ellipse_root (4 / 3 * (e * f + 1)) (2 * (e * e - f * f)) = Ret v /\ c_sqrt (e * e + v) = Ret s /\
  (let g := (s + e) * (1 / 2) in c_div (f - v * g) (2 * g - e) = Ret w /\ c_sqrt (g * g + w) = Ret z /\
   let t := z - g in 0 < t <= 1 /\ t * t * t * t + 2 * e * (t * t * t) + 2 * f * t - 1 = 0 /\ (t = 1 -> f <= 1)).
Proof.
  intros Hf Hn. pose proof (Rabs_pos e) as A0. assert (Hef : - f <= e <= f) by (unfold Rabs in Hf; destruct (Rcase_abs e); lra). clear Hf A0.
  destruct (root_ok (4 / 3 * (e * f + 1)) (2 * (e * e - f * f)) ltac:(nra)) as (v & Ev & Rv & V0 & Vp).
  assert (Rv' : v * v * v + 4 * e * f * v + 4 * v + 4 * e * e - 4 * f * f = 0) by lra.
  exists v. rewrite Ev. rewrite (sqrt_ok (e * e + v)) by nra.
  assert (S2 : 0 < e * e + v).
  { destruct (Req_dec e 0) as [->|Ne]; [|nra]. destruct (Req_dec v 0) as [->|Nv]; [|lra]. exfalso. assert (f * f = 0) by lra. assert (f = 0) by nra. lra. }
  pose proof (sqrt_sqrt (e * e + v) ltac:(lra)) as Es. assert (S0 : 0 < sqrt (e * e + v)) by (apply sqrt_lt_R0; lra).
  set (s := sqrt (e * e + v)) in *. clearbody s. exists s.
  cbv zeta. set (g := (s + e) * (1 / 2)). assert (Eg : 2 * g - e = s) by (unfold g; lra). rewrite Eg. rewrite div_ok by lra.
  assert (R2 : 0 <= v * v + 4) by nra. pose proof (sqrt_sqrt (v * v + 4) R2) as Ek. assert (K0 : 0 < sqrt (v * v + 4)) by (apply sqrt_lt_R0; nra).
  set (k := sqrt (v * v + 4)) in *. clearbody k.
  assert (Sq : (2 * f - v * e) * (2 * f - v * e) = (s * k) * (s * k)).
  { transitivity ((s * s) * (k * k)); [|ring]. rewrite Es, Ek. lra. }
  assert (Po : 0 <= 2 * f - v * e).
  { destruct (Rle_lt_dec e 0) as [L|L]; [nra|]. destruct (Rle_lt_dec 0 (2 * f - v * e)) as [L'|L']; [assumption|exfalso].
    assert (0 < v * v * v + 4 * v) by nra. nra. }
  assert (Ef : 2 * f - v * e = s * k) by (assert (0 < s * k) by nra; nra).
  assert (Kv : v < k) by nra.
  assert (Ew : (f - v * g) / s = (k - v) / 2).
  { apply Rmult_eq_reg_r with s; [|lra]. unfold Rdiv at 1. rewrite Rmult_assoc, Rinv_l, Rmult_1_r by lra. unfold g. lra. }
  rewrite Ew. exists ((k - v) / 2). rewrite (sqrt_ok (g * g + (k - v) / 2)) by nra.
  pose proof (sqrt_sqrt (g * g + (k - v) / 2) ltac:(nra)) as Ez. pose proof (sqrt_pos (g * g + (k - v) / 2)) as Z0.
  set (z := sqrt (g * g + (k - v) / 2)) in *. clearbody z. exists z.
  split; [reflexivity|]. split; [reflexivity|]. split; [reflexivity|]. split; [reflexivity|].
  set (A := - ((k - v) / 2)) in *. set (B := (k + v) / 2) in *.
  assert (AB : A * B = - 1) by (unfold A, B; lra). assert (ApB : A + B = v) by (unfold A, B; lra). assert (BA : B - A = k) by (unfold A, B; lra).
  assert (A0 : A < 0) by (unfold A; lra). assert (B0 : 0 < B) by (unfold B; lra).
  assert (EA : z * z = g * g - A) by (unfold A; lra). clearbody A B. clear Ez Ew.
  set (t := z - g) in *. assert (Ft : t * t + 2 * g * t + A = 0) by (unfold t; lra).
  assert (zg : z * z > g * g) by lra.
  assert (T0 : 0 < t) by (unfold t; destruct (Rle_lt_dec g 0); nra).
  assert (Fac : forall T, T * T * T * T + 2 * e * (T * T * T) + 2 * f * T - 1 = (T * T + 2 * g * T + A) * (T * T + 2 * (e - g) * T + B)).
  { intros T. symmetry. transitivity (T * T * T * T + 2 * e * (T * T * T) + (A + B + (s * s) * 0 + (e * e - s * s)) * (T * T) + (s * (B - A) + e * (A + B)) * T + A * B).
    - unfold g. field.
    - rewrite ApB, BA, AB, Es. replace (s * k) with (2 * f - v * e) by lra. ring. }
  set (n := - g - z) in *. assert (N0 : n < 0) by (unfold n; destruct (Rle_lt_dec 0 g); nra).
  assert (Nt : forall T, T * T + 2 * g * T + A = (T - t) * (T - n)) by (intros T; unfold t, n; transitivity (T * T + 2 * g * T + (g * g - z * z)); [rewrite EA; ring|ring]).
  split; [split; [assumption|]|split; [rewrite Fac, Ft; ring|]].
  - (* no larger than 1 *)
    destruct (Rle_lt_dec t 1) as [L|L]; [assumption|exfalso].
    assert (H1 : 1 * 1 + 2 * g * 1 + A < 0) by (rewrite Nt; nra).
    assert (H2 : 1 + 2 * (e - g) + B <= 0).
    { pose proof (Fac 1) as F1. assert (0 <= 1 * 1 * 1 * 1 + 2 * e * (1 * 1 * 1) + 2 * f * 1 - 1) by lra. rewrite F1 in H. replace (1 * 1 + 2 * (e - g) * 1 + B) with (1 + 2 * (e - g) + B) in H by ring. nra. }
    set (m := g - e) in *. assert (M1 : B + 1 <= 2 * m) by (unfold m; lra).
    assert (Dm : 0 <= m * m - B) by nra.
    pose proof (sqrt_sqrt _ Dm) as Ey. pose proof (sqrt_pos (m * m - B)) as Y0. set (y := sqrt (m * m - B)) in *. clearbody y.
    set (r2 := m - y) in *. set (r3 := m + y) in *.
    assert (F2 : forall T, T * T + 2 * (e - g) * T + B = (T - r2) * (T - r3)).
    { intros T. unfold r2, r3. transitivity (T * T - 2 * m * T + (m * m - y * y)); [rewrite Ey; unfold m; ring|ring]. }
    assert (R21 : r2 <= 1). { unfold r2. pose proof (F2 1) as G. unfold r2, r3 in G. nra. }
    assert (R30 : 0 < r3) by (unfold r3; lra).
    pose (v' := r2 * n + t * r3).
    assert (Vv : v = r2 * r3 + t * n).
    { rewrite <- ApB. pose proof (F2 0) as G2. pose proof (Nt 0) as G1. lra. }
    assert (Lt : v < v'). { unfold v'. rewrite Vv. assert (0 < (t - r2) * (r3 - n)) by (apply Rmult_lt_0_compat; lra). lra. }
    assert (Rz : v' * v' * v' + 3 * (4 / 3 * (e * f + 1)) * v' + 2 * (2 * (e * e - f * f)) = 0).
    { assert (C1 : 2 * e = - (t + n + r2 + r3)).
      { pose proof (Nt 1) as G1. pose proof (Nt 0) as G0. pose proof (F2 1) as G3. pose proof (F2 0) as G2. lra. }
      assert (C2 : t * n + r2 * r3 + (t + n) * (r2 + r3) = 0).
      { pose proof (Fac 1) as Q1. pose proof (Fac (-1)) as Q2. pose proof (Fac 0) as Q0. rewrite Nt, F2 in Q1, Q2, Q0. lra. }
      assert (C3 : 2 * f = - (t * n * (r2 + r3) + r2 * r3 * (t + n))).
      { pose proof (Fac 1) as Q1. pose proof (Fac (-1)) as Q2. rewrite Nt, F2 in Q1, Q2. lra. }
      assert (C4 : t * n * r2 * r3 = - 1). { pose proof (Fac 0) as Q0. rewrite Nt, F2 in Q0. lra. }
      transitivity (v' * v' * v' + (2 * e) * (2 * f) * v' + 4 * v' + (2 * e) * (2 * e) - (2 * f) * (2 * f)); [field|]. rewrite C1, C3.
      transitivity (v' * v' * v' - (t * n + r2 * r3 + (t + n) * (r2 + r3)) * v' * v' + ((t + n + r2 + r3) * (t * n * (r2 + r3) + r2 * r3 * (t + n)) - 4 * (t * n * r2 * r3)) * v'
         - ((t * n * (r2 + r3) + r2 * r3 * (t + n)) * (t * n * (r2 + r3) + r2 * r3 * (t + n)) + (t + n + r2 + r3) * (t + n + r2 + r3) * (t * n * r2 * r3) - 4 * (t * n + r2 * r3 + (t + n) * (r2 + r3)) * (t * n * r2 * r3))).
      - rewrite C2, C4. ring.
      - unfold v'. ring. }
    pose proof (root_largest _ _ _ _ Rv V0 Vp Rz). lra.
  - (* when it is 1 *)
    intros T1. assert (Efe : f = - e).
    { assert (H : t * t * t * t + 2 * e * (t * t * t) + 2 * f * t - 1 = 0) by (rewrite Fac, Ft; ring). rewrite T1 in H. lra. }
    rewrite T1 in Ft.
    destruct (Rle_lt_dec f 1) as [L|L]; [assumption|exfalso].
    assert (Qv : v * (v * v + 4 - 4 * f * f) = 0) by (replace e with (- f) in Rv' by lra; lra).
    assert (Vp' : 0 <= v * v + 4 / 3 * (1 - f * f)) by (replace e with (- f) in Vp by lra; lra).
    assert (V1 : 0 < v) by nra.
    assert (V4 : v * v + 4 - 4 * f * f = 0) by nra.
    assert (k = 2 * f) by nra.
    assert (Ge : s = 1 + v / 2) by (assert (s * s = (1 + v / 2) * (1 + v / 2)) by nra; nra).
    assert (f = 1 + v / 2) by (unfold g in Ft; lra). nra.
Qed.

(** The first quadrant. *)
Definition quadrant (a b fx fy : R) : outcome (R * R) :=
  let c_squared := a * a - b * b in
  do e <- c_div (b * fy - c_squared) (a * fx);
  do f <- c_div (b * fy + c_squared) (a * fx);
  let p := 4 / 3 * (e * f + 1) in
  let q := 2 * (e * e - f * f) in
  do v <- ellipse_root p q;
  do s <- c_sqrt (e * e + v);
  let g := (s + e) * (1 / 2) in
  do w <- c_div (f - v * g) (2 * g - e);
  do z <- c_sqrt (g * g + w);
  let t := z - g in
  let lat := atan2 (a * (1 - t * t)) (2 * b * t) in
  Ret (lat, (fx - a * t) * cos lat + (fy - b) * sin lat).

Lemma atan2_right y x : 0 < x -> - (PI / 2) < atan2 y x < PI / 2.
Proof. intros H. unfold atan2. destruct (Rltb_spec 0 x); [pose proof (atan_bound (y / x)); lra|lra]. Qed.

Lemma quadrant_ok a b x y : 0 < b -> b <= a -> 0 < x -> 0 <= y -> (b < a \/ y <> 0) -> exists lat d C S n,
  quadrant a b x y = Ret (lat, d) /\ C * C + S * S = 1 /\ 0 < C /\ 0 <= S /\ 0 < n /\ n * cos lat = b * C /\ n * sin lat = a * S /\
  x - a * C = d * cos lat /\ y - b * S = d * sin lat /\ (S = 0 -> a * a - b * b <= a * x) /\ - (PI / 2) < lat < PI / 2.
Proof.
  intros Hb Ha Hx Hy Hn. unfold quadrant. assert (X0 : 0 < a * x) by nra. rewrite !div_ok by lra. cbn [obind].
  set (c2 := a * a - b * b) in *. assert (C0 : 0 <= c2) by (unfold c2; nra).
  set (e := (b * y - c2) / (a * x)). set (f := (b * y + c2) / (a * x)).
  assert (Ee : e * (a * x) = b * y - c2) by (unfold e; field; nra). assert (Ef : f * (a * x) = b * y + c2) by (unfold f; field; nra). clearbody e f.
  assert (BY : 0 <= b * y) by nra.
  assert (Q1 : Rabs e <= f). { unfold Rabs. destruct (Rcase_abs e); nra. }
  assert (Q2 : e <> 0 \/ f <> 0).
  { right. intros ->. assert (b * y = 0) by lra. assert (c2 = 0) by lra. unfold c2 in *. destruct Hn as [L|N]; [assert (0 < (a - b) * (a + b)) by (apply Rmult_lt_0_compat; lra); lra|apply N, Rmult_eq_reg_l with b; lra]. }
  destruct (quartic_root e f Q1 Q2) as (v & s & w & z & E1 & E2 & H). cbv zeta in H. destruct H as (E3 & E4 & [T0 T1] & Qt & Tf).
  rewrite E1. cbn [obind]. rewrite E2. cbn [obind]. rewrite E3. cbn [obind]. rewrite E4. cbn [obind].
  set (t := z - (s + e) * (1 / 2)) in *. clearbody t. clear E1 E2 E3 E4 v s w z Q1 Q2.
  assert (Qt' : (1 + t * t) * (a * x * (t * t - 1) + 2 * (b * y) * t) + 2 * c2 * t * (1 - t * t) = 0).
  { transitivity ((t * t * t * t + 2 * e * (t * t * t) + 2 * f * t - 1) * (a * x)); [|rewrite Qt; ring].
    transitivity (t * t * t * t * (a * x) + 2 * (e * (a * x)) * (t * t * t) + 2 * (f * (a * x)) * t - a * x); [rewrite Ee, Ef; ring|ring]. }
  set (lat := atan2 (a * (1 - t * t)) (2 * b * t)). set (d := (x - a * t) * cos lat + (y - b) * sin lat).
  pose proof (atan2_polar (a * (1 - t * t)) (2 * b * t)) as P. cbv zeta in P. fold lat in P.
  assert (BT : 0 < 2 * b * t) by nra.
  assert (R0 : 0 < sqrt (2 * b * t * (2 * b * t) + a * (1 - t * t) * (a * (1 - t * t)))) by (apply sqrt_lt_R0; pose proof (Rle_0_sqr (a * (1 - t * t))); pose proof (Rmult_lt_0_compat _ _ BT BT); unfold Rsqr in *; lra).
  set (r := sqrt _) in *. clearbody r. destruct P as [Pc Ps].
  set (u := 1 + t * t). assert (U0 : 0 < u) by (unfold u; nra).
  exists lat, d, (2 * t / u), ((1 - t * t) / u), (r / u).
  assert (L : - (PI / 2) < lat < PI / 2) by (apply atan2_right; assumption).
  pose proof (sc1 lat) as S1. clearbody lat.
  split; [reflexivity|]. split; [unfold u; field; unfold u in U0; lra|]. split; [apply Rdiv_lt_0_compat; nra|].
  split; [apply Rmult_le_pos; [nra|apply Rlt_le, Rinv_0_lt_compat; assumption]|]. split; [apply Rdiv_lt_0_compat; assumption|].
  split; [transitivity ((r * cos lat) / u); [field; lra|rewrite Pc; field; lra]|]. split; [transitivity ((r * sin lat) / u); [field; lra|rewrite Ps; field; lra]|].
  set (C := 2 * t / u). set (S := (1 - t * t) / u).
  assert (EC : C * u = 2 * t) by (unfold C; field; lra). assert (ES : S * u = 1 - t * t) by (unfold S; field; lra).
  assert (Dd : d = (x - a * C) * cos lat + (y - b * S) * sin lat).
  { unfold d. assert (Z : a * (t - C) * cos lat + b * (1 - S) * sin lat = 0); [|lra].
    apply Rmult_eq_reg_r with (u * r); [|nra]. rewrite Rmult_0_l.
    transitivity (a * (t * u - C * u) * (r * cos lat) + b * (u - S * u) * (r * sin lat)); [ring|]. rewrite EC, ES, Pc, Ps. unfold u. ring. }
  assert (Cr : (x - a * C) * sin lat = (y - b * S) * cos lat).
  { apply Rmult_eq_reg_r with (r * u); [|nra].
    transitivity ((x * u - a * (C * u)) * (r * sin lat)); [ring|]. transitivity ((y * u - b * (S * u)) * (r * cos lat)); [|ring].
    rewrite EC, ES, Pc, Ps. unfold u. fold u.
    assert (Z : a * x * (1 - t * t) * u - 2 * a * a * t * (1 - t * t) = 2 * (b * y) * t * u - 2 * b * b * t * (1 - t * t)).
    { unfold u in *. unfold c2 in Qt'. lra. }
    lra. }
  clearbody d. rewrite Dd.
  split; [transitivity ((x - a * C) * (cos lat * cos lat) + ((x - a * C) * sin lat) * sin lat); [transitivity ((x - a * C) * (cos lat * cos lat + sin lat * sin lat)); [rewrite S1; ring|ring]|rewrite Cr; ring]|].
  split; [transitivity ((y - b * S) * (sin lat * sin lat) + ((y - b * S) * cos lat) * cos lat); [transitivity ((y - b * S) * (cos lat * cos lat + sin lat * sin lat)); [rewrite S1; ring|ring]|rewrite <- Cr; ring]|].
  split; [|assumption]. intros Z. rewrite Z in ES. assert (t = 1) by nra. specialize (Tf H). nra.
Qed.

Lemma located a b x y : 0 < b -> b <= a -> x <> 0 -> (b < a \/ y <> 0) -> exists lat d X Y k,
  point_to_ellipse a b x y = Ret (lat, d) /\ on_ellipse a b (X, Y) /\ 0 < k /\ X / (a * a) = k * cos lat /\ Y / (b * b) = k * sin lat /\
  x = X + d * cos lat /\ y = Y + d * sin lat /\ - (b * b) * k <= d /\ 0 < x * cos lat /\ - PI < lat <= PI /\ (0 < x -> - (PI / 2) < lat < PI / 2).
Proof.
  intros Hb Ha Hx Hn. assert (X0 : 0 < Rabs x) by (apply Rabs_pos_lt; assumption).
  assert (Hn' : b < a \/ Rabs y <> 0). { destruct Hn as [L|N]; [now left|right; now apply Rabs_no_R0]. }
  destruct (quadrant_ok a b (Rabs x) (Rabs y) Hb Ha X0 (Rabs_pos y) Hn') as (lat & d & C & S & n & E & CS & C0 & S0 & N0 & Nc & Ns & Ex & Ey & Sz & L).
  pose proof PI_RGT_0 as P0.
  set (lat1 := if Rltb x 0 then PI - lat else lat). set (lat2 := if Rltb y 0 then - lat1 else lat1).
  exists lat2, d, (if Rltb x 0 then - (a * C) else a * C), (if Rltb y 0 then - (b * S) else b * S), (n / (a * b)).
  split.
  { unfold point_to_ellipse. destruct (Reqb_spec x 0) as [Z|_]; [tauto|]. fold (quadrant a b (Rabs x) (Rabs y)). rewrite E. reflexivity. }
  assert (AB : 0 < a * b) by nra.
  assert (Cl : cos lat2 = if Rltb x 0 then - cos lat else cos lat).
  { unfold lat2, lat1. destruct (Rltb_spec y 0); destruct (Rltb_spec x 0); rewrite ?cos_neg; try reflexivity; rewrite cos_minus, cos_PI, sin_PI; ring. }
  assert (Sl : sin lat2 = if Rltb y 0 then - sin lat else sin lat).
  { unfold lat2, lat1. destruct (Rltb_spec y 0); destruct (Rltb_spec x 0); rewrite ?sin_neg; try reflexivity; rewrite sin_minus, cos_PI, sin_PI; ring. }
  assert (CC : 0 < cos lat) by nra.
  assert (Ck : C / a = n / (a * b) * cos lat) by (transitivity ((n * cos lat) / (a * b)); [rewrite Nc; field; lra|field; lra]).
  assert (Sk : S / b = n / (a * b) * sin lat) by (transitivity ((n * sin lat) / (a * b)); [rewrite Ns; field; lra|field; lra]).
  rewrite Cl, Sl.
  split; [unfold on_ellipse; cbn [fst snd]; destruct (Rltb x 0); destruct (Rltb y 0); (transitivity (C * C + S * S); [field; lra|assumption])|].
  split; [apply Rdiv_lt_0_compat; assumption|].
  split; [destruct (Rltb x 0); [transitivity (- (C / a)); [field; lra|rewrite Ck; ring]|transitivity (C / a); [field; lra|assumption]]|].
  split; [destruct (Rltb y 0); [transitivity (- (S / b)); [field; lra|rewrite Sk; ring]|transitivity (S / b); [field; lra|assumption]]|].
  split; [destruct (Rltb_spec x 0); [rewrite Rabs_left in Ex by lra|rewrite Rabs_right in Ex by lra]; lra|].
  split; [destruct (Rltb_spec y 0); [rewrite Rabs_left in Ey by lra|rewrite Rabs_right in Ey by lra]; lra|].
  split.
  { assert (Ek : - (b * b) * (n / (a * b)) = - (b * n) / a) by (field; lra). rewrite Ek.
    apply Rmult_le_reg_r with a; [lra|]. replace (- (b * n) / a * a) with (- (b * n)) by (field; lra).
    destruct (Req_dec S 0) as [Z|Z].
    - rewrite Z in *. specialize (Sz eq_refl). assert (sin lat = 0) by nra. pose proof (sc1 lat) as S1. rewrite H in S1. assert (cos lat = 1) by nra.
      assert (C = 1) by nra. rewrite H0, H1 in *. nra.
    - pose proof (Rabs_pos y) as Y0. assert (0 <= (b * S + d * sin lat) * n) by nra.
      assert (0 <= S * (b * n + d * a)) by (replace (S * (b * n + d * a)) with ((b * S + d * sin lat) * n) by (transitivity (b * S * n + d * (n * sin lat)); [ring|rewrite Ns; ring]); assumption).
      nra. }
  split; [destruct (Rltb_spec x 0); nra|].
  split.
  - unfold lat2, lat1. destruct (Rltb_spec y 0); destruct (Rltb_spec x 0); try lra.
    + (* below, to the left *) split; [|lra]. assert (0 < lat); [|lra].
      assert (0 < sin lat). { rewrite Rabs_left in Ey by lra. destruct (Req_dec S 0) as [Z|Z]; [|nra]. exfalso. rewrite Z in *. assert (sin lat = 0) by nra. rewrite H in Ey. lra. }
      destruct (Rlt_le_dec 0 lat) as [G|G]; [assumption|exfalso]. assert (0 <= sin (- lat)) by (apply sin_ge_0; lra). rewrite sin_neg in H0. lra.
    + split; [lra|]. assert (0 <= lat); [|lra]. destruct (Rle_lt_dec 0 lat) as [G|G]; [assumption|exfalso]. assert (0 < sin (- lat)) by (apply sin_gt_0; lra). rewrite sin_neg in H. nra.
  - intros G. unfold lat2, lat1. destruct (Rltb_spec y 0); destruct (Rltb_spec x 0); lra.
Qed.
