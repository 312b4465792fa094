(** Proofs of the theorems stated in [PropEll]. *)
From Coq Require Import Lia Psatz.
From Verif Require Import TrigBase EllModel EllSpec EllProofs.
Local Open Scope R_scope.

Lemma normal_pos a b lat : 0 < a -> 0 < b -> 0 < (a * cos lat) * (a * cos lat) + (b * sin lat) * (b * sin lat).
Proof.
  intros Ha Hb. pose proof (sc1 lat) as S1. destruct (Req_dec (cos lat) 0) as [Z|Z].
  - rewrite Z in *. assert (0 < sin lat * sin lat) by lra. assert (0 < (b * b) * (sin lat * sin lat)) by (apply Rmult_lt_0_compat; nra). nra.
  - assert (0 < cos lat * cos lat) by (destruct (Rdichotomy _ _ Z); nra). assert (0 < (a * a) * (cos lat * cos lat)) by (apply Rmult_lt_0_compat; nra).
    assert (0 <= (b * sin lat) * (b * sin lat)) by nra. nra.
Qed.
(** Only one point of the ellipse has its outward normal at a given latitude. *)
Lemma ground_k a b lat q : 0 < a -> 0 < b -> ground a b lat q ->
  exists k, 0 < k /\ fst q = k * (a * a) * cos lat /\ snd q = k * (b * b) * sin lat /\ k * k * ((a * cos lat) * (a * cos lat) + (b * sin lat) * (b * sin lat)) = 1.
Proof.
  intros Ha Hb [E (k & K & Ec & Es)]. exists k. split; [assumption|]. unfold on_ellipse in E.
  assert (X : fst q = k * (a * a) * cos lat). { transitivity (fst q / (a * a) * (a * a)); [field; lra|rewrite Ec; ring]. }
  assert (Y : snd q = k * (b * b) * sin lat). { transitivity (snd q / (b * b) * (b * b)); [field; lra|rewrite Es; ring]. }
  split; [assumption|]. split; [assumption|]. rewrite <- E, X, Y. field. lra.
Qed.
Lemma ground_unique a b lat q q' : 0 < a -> 0 < b -> ground a b lat q -> ground a b lat q' -> q = q'.
Proof.
  intros Ha Hb G G'. destruct (ground_k _ _ _ _ Ha Hb G) as (k & K & X & Y & N). destruct (ground_k _ _ _ _ Ha Hb G') as (k' & K' & X' & Y' & N').
  pose proof (normal_pos a b lat Ha Hb) as P. set (w := _ + _) in *. clearbody w.
  assert (k = k'). { assert (k * k = k' * k') by (apply Rmult_eq_reg_r with w; lra). nra. }
  subst k'. destruct q, q'. cbn [fst snd] in *. congruence.
Qed.
Lemma place_unique a b lat h p p' : 0 < a -> 0 < b -> place a b lat h p -> place a b lat h p' -> p = p'.
Proof.
  intros Ha Hb (q & G & X & Y) (q' & G' & X' & Y'). pose proof (ground_unique _ _ _ _ _ Ha Hb G G'). subst q'. destruct p, p'. cbn [fst snd] in *. congruence.
Qed.
Lemma parallax_place a b lat h : 0 < a -> 0 < b -> exists rc rs, lat_alt_to_parallax lat h a b = Ret (rc, rs) /\ place a b lat h (a * rc, a * rs).
Proof.
  intros Ha Hb. unfold lat_alt_to_parallax. rewrite !div_ok by lra. cbn [obind]. eexists _, _. split; [reflexivity|].
  set (u := atan2 _ _). pose proof (atan2_polar (sin lat * (b / a)) (cos lat)) as P. cbv zeta in P. fold u in P.
  pose proof (normal_pos a b lat Ha Hb) as N0.
  assert (R2 : 0 < cos lat * cos lat + sin lat * (b / a) * (sin lat * (b / a))).
  { replace (cos lat * cos lat + sin lat * (b / a) * (sin lat * (b / a))) with (((a * cos lat) * (a * cos lat) + (b * sin lat) * (b * sin lat)) / (a * a)) by (field; lra).
    apply Rdiv_lt_0_compat; nra. }
  assert (R0 : 0 < sqrt (cos lat * cos lat + sin lat * (b / a) * (sin lat * (b / a)))) by (apply sqrt_lt_R0; assumption).
  set (r := sqrt _) in *. destruct P as [Pc Ps]. clearbody r u.
  exists (a * cos u, b * sin u). split; [split|].
  - unfold on_ellipse. cbn [fst snd]. transitivity (cos u * cos u + sin u * sin u); [field; lra|apply sc1].
  - exists (1 / (a * r)). split; [apply Rdiv_lt_0_compat; nra|]. cbn [fst snd]. rewrite <- Pc. split; [field; lra|].
    assert (Es : sin lat = r * sin u * (a / b)) by (rewrite Ps; field; lra). rewrite Es. field. lra.
  - cbn [fst snd]. split; field; lra.
Qed.
(** How much farther another point of the ellipse is. *)
Lemma farther a b lat h q q' p : 0 < b -> b <= a -> ground a b lat q -> on_ellipse a b q' -> fst p = fst q + h * cos lat -> snd p = snd q + h * sin lat ->
  exists k, 0 < k /\ fst q / (a * a) = k * cos lat /\ snd q / (b * b) = k * sin lat /\
  apart2 p q' - apart2 p q = (fst q' - fst q) * (fst q' - fst q) * (1 + h / (k * (a * a))) + (snd q' - snd q) * (snd q' - snd q) * (1 + h / (k * (b * b))).
Proof.
  intros Hb Ha [E (k & K & Ec & Es)] E' Px Py. exists k. split; [assumption|]. split; [assumption|]. split; [assumption|]. unfold apart2. rewrite Px, Py.
  unfold on_ellipse in *. set (x := fst q) in *. set (y := snd q) in *. set (x' := fst q') in *. set (y' := snd q') in *. clearbody x y x' y'.
  assert (Hc : h * cos lat = h / k * (x / (a * a))) by (rewrite Ec; field; lra). assert (Hs : h * sin lat = h / k * (y / (b * b))) by (rewrite Es; field; lra).
  rewrite Hc, Hs.
  assert (D : 2 * (x / (a * a) * (x' - x) + y / (b * b) * (y' - y)) = - ((x' - x) * (x' - x) / (a * a) + (y' - y) * (y' - y) / (b * b))).
  { assert (Z : x' / a * (x' / a) + y' / b * (y' / b) - (x / a * (x / a) + y / b * (y / b)) = 0) by lra.
    transitivity (- ((x' - x) * (x' - x) / (a * a) + (y' - y) * (y' - y) / (b * b)) + (x' / a * (x' / a) + y' / b * (y' / b) - (x / a * (x / a) + y / b * (y / b)))); [field; lra|rewrite Z; ring]. }
  transitivity ((x' - x) * (x' - x) + (y' - y) * (y' - y) - h / k * (2 * (x / (a * a) * (x' - x) + y / (b * b) * (y' - y)))); [field; lra|]. rewrite D. field. lra.
Qed.
Lemma apart_foot lat h q p : fst p = fst q + h * cos lat -> snd p = snd q + h * sin lat -> apart2 p q = h * h.
Proof. intros X Y. unfold apart2. rewrite X, Y. transitivity (h * h * (cos lat * cos lat + sin lat * sin lat)); [ring|]. rewrite sc1. ring. Qed.
Lemma closest a b lat h k q q' p : 0 < b -> b <= a -> on_ellipse a b q -> 0 < k -> fst q / (a * a) = k * cos lat -> snd q / (b * b) = k * sin lat ->
  on_ellipse a b q' -> fst p = fst q + h * cos lat -> snd p = snd q + h * sin lat ->
  - (b * b) * k <= h -> h * h <= apart2 p q' /\ (- (b * b) * k < h -> apart2 p q' <= h * h -> q' = q).
Proof.
  intros Hb Ha Eq K Ec Es E' Px Py Hh.
  assert (G : ground a b lat q) by (split; [assumption|exists k; now repeat split]).
  destruct (farther a b lat h q q' p Hb Ha G E' Px Py) as (k' & K' & Ec' & Es' & D).
  assert (k' = k).
  { pose proof (sc1 lat) as S1. assert (A1 : k * cos lat = k' * cos lat) by lra. assert (A2 : k * sin lat = k' * sin lat) by lra.
    assert (A3 : (k - k') * (k - k') * (cos lat * cos lat + sin lat * sin lat) = 0).
    { transitivity ((k * cos lat - k' * cos lat) * (k * cos lat - k' * cos lat) + (k * sin lat - k' * sin lat) * (k * sin lat - k' * sin lat)); [ring|]. rewrite A1, A2. ring. }
    rewrite S1 in A3. nra. }
  subst k'. rewrite (apart_foot lat h q p Px Py) in D.
  assert (Kb : 0 < k * (b * b)) by (apply Rmult_lt_0_compat; nra). assert (Ka : 0 < k * (a * a)) by (apply Rmult_lt_0_compat; nra).
  assert (Hb1 : 1 + h / (k * (b * b)) = (k * (b * b) + h) / (k * (b * b))) by (field; lra).
  assert (Ha1 : 1 + h / (k * (a * a)) = (k * (a * a) + h) / (k * (a * a))) by (field; lra).
  assert (AB : k * (b * b) <= k * (a * a)) by (apply Rmult_le_compat_l; nra).
  rewrite Hb1, Ha1 in D.
  pose proof (Rle_0_sqr (fst q' - fst q)) as U. pose proof (Rle_0_sqr (snd q' - snd q)) as V. unfold Rsqr in U, V.
  pose proof (Rinv_0_lt_compat _ Kb) as IB. pose proof (Rinv_0_lt_compat _ Ka) as IA.
  split.
  - assert (0 <= (fst q' - fst q) * (fst q' - fst q) * ((k * (a * a) + h) / (k * (a * a)))) by (apply Rmult_le_pos; [assumption|unfold Rdiv; apply Rmult_le_pos; lra]).
    assert (0 <= (snd q' - snd q) * (snd q' - snd q) * ((k * (b * b) + h) / (k * (b * b)))) by (apply Rmult_le_pos; [assumption|unfold Rdiv; apply Rmult_le_pos; lra]).
    lra.
  - intros Hs Hl.
    assert (Pa : 0 < (k * (a * a) + h) / (k * (a * a))) by (apply Rmult_lt_0_compat; lra).
    assert (Pb : 0 < (k * (b * b) + h) / (k * (b * b))) by (apply Rmult_lt_0_compat; lra).
    set (ca := (k * (a * a) + h) / (k * (a * a))) in *. set (cb := (k * (b * b) + h) / (k * (b * b))) in *. clearbody ca cb.
    assert (0 <= (fst q' - fst q) * (fst q' - fst q) * ca) by (apply Rmult_le_pos; lra). assert (0 <= (snd q' - snd q) * (snd q' - snd q) * cb) by (apply Rmult_le_pos; lra).
    assert (Zx : (fst q' - fst q) * (fst q' - fst q) = 0) by (apply Rmult_eq_reg_r with ca; lra). assert (Zy : (snd q' - snd q) * (snd q' - snd q) = 0) by (apply Rmult_eq_reg_r with cb; lra).
    assert (fst q' = fst q) by nra. assert (snd q' = snd q) by nra. destruct q, q'. cbn [fst snd] in *. congruence.
Qed.
Lemma k_bounds a b lat q k : 0 < b -> b <= a -> on_ellipse a b q -> 0 < k -> fst q / (a * a) = k * cos lat -> snd q / (b * b) = k * sin lat -> 1 <= a * k /\ b * k <= 1.
Proof.
  intros Hb Ha E K Ec Es. unfold on_ellipse in E. pose proof (sc1 lat) as S1.
  assert (N : (a * k * (a * k)) * (cos lat * cos lat) + (b * k * (b * k)) * (sin lat * sin lat) = 1).
  { rewrite <- E. assert (X : fst q / a = a * (k * cos lat)) by (rewrite <- Ec; field; lra). assert (Y : snd q / b = b * (k * sin lat)) by (rewrite <- Es; field; lra). rewrite X, Y. ring. }
  set (c := cos lat * cos lat) in *. set (s := sin lat * sin lat) in *. assert (0 <= c) by (unfold c; nra). assert (0 <= s) by (unfold s; nra). clearbody c s.
  assert (BA : b * k <= a * k) by nra. assert (B0 : 0 < b * k) by nra.
  assert (SQ : b * k * (b * k) <= a * k * (a * k)) by nra.
  assert (A1 : 1 <= a * k * (a * k)). { assert ((b * k * (b * k)) * s <= (a * k * (a * k)) * s) by (apply Rmult_le_compat_r; assumption). replace c with (1 - s) in N by lra. lra. }
  assert (B1 : b * k * (b * k) <= 1). { assert ((b * k * (b * k)) * c <= (a * k * (a * k)) * c) by (apply Rmult_le_compat_r; assumption). replace s with (1 - c) in N by lra. lra. }
  split; nra.
Qed.

Lemma C51_parallax_proof :
forall lat h major minor, 0 < major -> 0 < minor ->
  exists rho_cos_phi rho_sin_phi, lat_alt_to_parallax lat h major minor = Ret (rho_cos_phi, rho_sin_phi) /\
    place major minor lat h (major * rho_cos_phi, major * rho_sin_phi) /\
    forall p, place major minor lat h p -> p = (major * rho_cos_phi, major * rho_sin_phi).
Proof.
  intros lat h a b Ha Hb. destruct (parallax_place a b lat h Ha Hb) as (rc & rs & E & P). exists rc, rs. split; [assumption|]. split; [assumption|].
  intros p Hp. exact (place_unique _ _ _ _ _ _ Ha Hb Hp P).
Qed.

Lemma C51_latitude_proof :
forall a b x y, 0 < b <= a -> x <> 0 -> (b < a \/ y <> 0) ->
  exists lat h, point_to_ellipse a b x y = Ret (lat, h) /\ place a b lat h (x, y) /\ - PI < lat <= PI /\ (0 < x -> - (PI / 2) < lat < PI / 2).
Proof.
  intros a b x y [Hb Ha] Hx Hn. destruct (located a b x y Hb Ha Hx Hn) as (lat & d & X & Y & k & E & G & K & Ec & Es & Px & Py & _ & _ & L & R).
  exists lat, d. split; [assumption|]. split; [|now split]. exists (X, Y). split; [|now split]. split; [assumption|]. exists k. now split.
Qed.

Lemma C51_closest_proof :
forall a b x y lat h, 0 < b <= a -> x <> 0 -> (b < a \/ y <> 0) -> point_to_ellipse a b x y = Ret (lat, h) ->
  (forall q, on_ellipse a b q -> h * h <= apart2 (x, y) q) /\
  (exists q, on_ellipse a b q /\ apart2 (x, y) q = h * h) /\
  (h < 0 <-> (x / a) * (x / a) + (y / b) * (y / b) < 1).
Proof.
  intros a b x y lat h [Hb Ha] Hx Hn E'. destruct (located a b x y Hb Ha Hx Hn) as (lat0 & d & X & Y & k & E & G & K & Ec & Es & Px & Py & Hd & _ & _ & _).
  rewrite E in E'. injection E' as -> ->. split; [|split].
  - intros q Hq. apply (closest a b lat h k (X, Y) q (x, y)); assumption.
  - exists (X, Y). split; [assumption|]. apply (apart_foot lat); assumption.
  - assert (Kb : 0 < k * (b * b)) by (apply Rmult_lt_0_compat; nra). assert (Ka : 0 < k * (a * a)) by (apply Rmult_lt_0_compat; nra). assert (AB : k * (b * b) <= k * (a * a)) by (apply Rmult_le_compat_l; nra).
    assert (Fx : x / a = X / a * ((k * (a * a) + h) / (k * (a * a)))).
    { rewrite Px. assert (X = k * (a * a) * cos lat) by (transitivity (X / (a * a) * (a * a)); [field; lra|rewrite Ec; ring]). rewrite H. field. lra. }
    assert (Fy : y / b = Y / b * ((k * (b * b) + h) / (k * (b * b)))).
    { rewrite Py. assert (Y = k * (b * b) * sin lat) by (transitivity (Y / (b * b) * (b * b)); [field; lra|rewrite Es; ring]). rewrite H. field. lra. }
    rewrite Fx, Fy. unfold on_ellipse in G. cbn [fst snd] in G.
    set (u := X / a) in *. set (w := Y / b) in *. clearbody u w.
    set (ca := (k * (a * a) + h) / (k * (a * a))). set (cb := (k * (b * b) + h) / (k * (b * b))).
    assert (Ea : ca * (k * (a * a)) = k * (a * a) + h) by (unfold ca; field; lra). assert (Eb : cb * (k * (b * b)) = k * (b * b) + h) by (unfold cb; field; lra).
    clearbody ca cb. assert (C0 : 0 <= cb) by nra. assert (C1 : 0 <= ca) by nra.
    replace (u * ca * (u * ca) + w * cb * (w * cb)) with ((u * u) * (ca * ca) + (w * w) * (cb * cb)) by ring.
    assert (U : 0 <= u * u) by nra. assert (W : 0 <= w * w) by nra. set (uu := u * u) in *. set (ww := w * w) in *. clearbody uu ww.
    split; intros H.
    + assert (ca < 1) by nra. assert (cb < 1) by nra. assert (ca * ca < 1) by nra. assert (cb * cb < 1) by nra.
      destruct (Req_dec uu 0) as [Z|Z]; [rewrite Z in *; assert (ww = 1) by lra; subst ww; lra|].
      assert (uu * (ca * ca) < uu) by nra. assert (ww * (cb * cb) <= ww) by nra. lra.
    + destruct (Rlt_le_dec h 0) as [L|L]; [assumption|exfalso]. assert (1 <= ca) by nra. assert (1 <= cb) by nra.
      assert (1 <= ca * ca) by nra. assert (1 <= cb * cb) by nra. assert (uu <= uu * (ca * ca)) by nra. assert (ww <= ww * (cb * cb)) by nra. lra.
Qed.

Lemma C51_roundtrip_proof :
forall a b lat h, 0 < b <= a -> - (PI / 2) < lat < PI / 2 -> - (b * b / a) < h -> (b < a \/ lat <> 0) ->
  exists rho_cos_phi rho_sin_phi, lat_alt_to_parallax lat h a b = Ret (rho_cos_phi, rho_sin_phi) /\
    point_to_ellipse a b (a * rho_cos_phi) (a * rho_sin_phi) = Ret (lat, h).
Proof.
  intros a b lat h [Hb Ha] L Hh Hn. assert (A0 : 0 < a) by lra. pose proof PI_RGT_0 as P0.
  destruct (parallax_place a b lat h A0 Hb) as (rc & rs & E & q & G & Px & Py). exists rc, rs. split; [assumption|]. cbn [fst snd] in Px, Py.
  set (x := a * rc) in *. set (y := a * rs) in *. clearbody x y. clear E rc rs.
  destruct G as [Eq (k & K & Ec & Es)]. destruct (k_bounds a b lat q k Hb Ha Eq K Ec Es) as [K1 K2].
  assert (CL : 0 < cos lat) by (apply cos_gt_0; lra).
  assert (Hk : - (b * b) * k < h).
  { destruct (Rle_lt_dec 0 h) as [N|N]; [assert (0 < b * b * k) by nra; lra|].
    assert (b * b / a <= b * b * k); [|lra]. replace (b * b / a) with (b * b * (1 / a)) by (field; lra).
    assert (1 / a <= k). { apply Rmult_le_reg_r with a; [lra|]. replace (1 / a * a) with 1 by (field; lra). lra. } nra. }
  assert (Ka : b * b * k <= a * a * k) by (apply Rmult_le_compat_r; nra).
  assert (X0 : 0 < x).
  { assert (F : fst q = k * (a * a) * cos lat) by (transitivity (fst q / (a * a) * (a * a)); [field; lra|rewrite Ec; ring]). rewrite Px, F.
    replace (k * (a * a) * cos lat + h * cos lat) with ((a * a * k + h) * cos lat) by ring. apply Rmult_lt_0_compat; lra. }
  assert (Y0 : b < a \/ y <> 0).
  { destruct Hn as [N|N]; [now left|right]. intros Z.
    assert (F : snd q = k * (b * b) * sin lat) by (transitivity (snd q / (b * b) * (b * b)); [field; lra|rewrite Es; ring]).
    assert (Z2 : (b * b * k + h) * sin lat = 0) by (rewrite <- Z, Py, F; ring). assert (SZ : sin lat = 0) by (apply Rmult_eq_reg_l with (b * b * k + h); lra).
    apply N. apply sin_inj; [lra|lra|]. now rewrite sin_0. }
  destruct (located a b x y Hb Ha ltac:(lra) Y0) as (lat' & d & X & Y & k' & E & G' & K' & Ec' & Es' & Px' & Py' & Hd & _ & _ & R). specialize (R X0).
  rewrite E. clear E.
  assert (C1 : d * d <= apart2 (x, y) q). { apply (closest a b lat' d k' (X, Y) q (x, y)); assumption. }
  assert (Q : (X, Y) = q).
  { destruct (closest a b lat h k q (X, Y) (x, y)) as [_ U]; try assumption; [lra|]. apply U; [assumption|].
    rewrite (apart_foot lat' d (X, Y) (x, y)) by assumption. rewrite (apart_foot lat h q (x, y)) in C1 by assumption. assumption. }
  subst q. cbn [fst snd] in *.
  assert (Kc : k' * cos lat' = k * cos lat) by lra. assert (Ks : k' * sin lat' = k * sin lat) by lra.
  pose proof (sc1 lat) as S1. pose proof (sc1 lat') as S2.
  assert (k' = k).
  { assert (k' * k' * (cos lat' * cos lat' + sin lat' * sin lat') = k * k * (cos lat * cos lat + sin lat * sin lat)).
    { transitivity ((k' * cos lat') * (k' * cos lat') + (k' * sin lat') * (k' * sin lat')); [ring|]. rewrite Kc, Ks. ring. }
    rewrite S1, S2 in H. nra. }
  subst k'. assert (SE : sin lat' = sin lat) by (apply Rmult_eq_reg_l with k; lra). assert (lat' = lat) by (apply sin_inj; lra). subst lat'.
  assert (d = h) by (apply Rmult_eq_reg_r with (cos lat); lra). now subst d.
Qed.

Lemma C51_pole_proof :
forall a b y, 0 < b <= a -> y <> 0 -> exists h, point_to_ellipse a b 0 y = Ret (if Rltb y 0 then - (PI / 2) else PI / 2, h).
Proof.
  intros a b y _ _. unfold point_to_ellipse. destruct (Reqb_spec 0 0); [|lra]. cbn [obind]. destruct (Rltb_spec 0 0); [lra|]. eexists. reflexivity.
Qed.

Lemma C51_pole_height_refuted_proof :
forall a b h, 0 < b < a -> 0 <= h ->
  place a b (PI / 2) h (0, b + h) /\ point_to_ellipse a b 0 (b + h) = Ret (PI / 2, h - (a - b)).
Proof.
  intros a b h [Hb Ha] Hh. pose proof PI_RGT_0 as P0. split.
  - exists (0, b). rewrite cos_PI2, sin_PI2. cbn [fst snd]. split; [|split; ring]. split; [unfold on_ellipse; cbn [fst snd]; field; lra|].
    exists (1 / b). rewrite cos_PI2, sin_PI2. cbn [fst snd]. split; [apply Rdiv_lt_0_compat; lra|]. split; field; lra.
  - unfold point_to_ellipse. destruct (Reqb_spec 0 0); [|lra]. cbn [obind]. destruct (Rltb_spec 0 0); [lra|]. destruct (Rltb_spec (b + h) 0); [lra|].
    rewrite Rabs_right by lra. do 2 f_equal. ring.
Qed.

Lemma C51_sphere_refuted_proof :
forall a x, 0 < a -> x <> 0 -> point_to_ellipse a a x 0 = Abort /\ (0 < x -> place a a 0 (x - a) (x, 0)).
Proof.
  intros a x Ha Hx. assert (X0 : 0 < Rabs x) by (apply Rabs_pos_lt; assumption). split.
  - unfold point_to_ellipse. destruct (Reqb_spec x 0) as [Z|_]; [tauto|]. rewrite !div_ok by nra. cbn [obind]. rewrite Rabs_R0.
    replace (a * 0 - (a * a - a * a)) with 0 by ring. replace (a * 0 + (a * a - a * a)) with 0 by ring.
    assert (Z : 0 / (a * Rabs x) = 0) by (field; lra). rewrite Z. replace (4 / 3 * (0 * 0 + 1)) with (4 / 3) by field. replace (2 * (0 * 0 - 0 * 0)) with 0 by ring.
    unfold ellipse_root. destruct (Rleb_spec 0 (4 / 3 * (4 / 3) * (4 / 3) + 0 * 0)) as [_|N]; [|lra]. rewrite sqrt_ok by lra. cbn [obind].
    replace (cbrt (sqrt (4 / 3 * (4 / 3) * (4 / 3) + 0 * 0) - 0) - cbrt (sqrt (4 / 3 * (4 / 3) * (4 / 3) + 0 * 0) + 0)) with 0 by (rewrite Rminus_0_r, Rplus_0_r; ring).
    replace (0 * 0 + 0) with 0 by ring. rewrite sqrt_ok by lra. cbn [obind]. rewrite sqrt_0. unfold c_div. destruct (Reqb_spec (2 * ((0 + 0) * (1 / 2)) - 0) 0) as [_|N]; [reflexivity|exfalso; apply N; ring].
  - intros G. exists (a, 0). rewrite cos_0, sin_0. cbn [fst snd]. split; [|split; ring]. split; [unfold on_ellipse; cbn [fst snd]; field; lra|].
    exists (1 / a). rewrite cos_0, sin_0. cbn [fst snd]. split; [apply Rdiv_lt_0_compat; lra|]. split; field; lra.
Qed.
