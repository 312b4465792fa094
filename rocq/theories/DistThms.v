(** Proofs of the theorems stated in [PropDist]. *)
From Coq Require Import Lia.
From Verif Require Import TrigBase DistModel DistSpec.
Open Scope list_scope.

Lemma sc1 a : cos a * cos a + sin a * sin a = 1.
Proof. pose proof (sin2_cos2 a). unfold Rsqr in *. lra. Qed.
(** The second point in the frame of the first: east, north, up. *)
Definition ex (p q : R * R) : R := sin (fst q - fst p) * cos (snd q).
Definition ny (p q : R * R) : R := sin (snd q - snd p) + (1 - cos (fst p - fst q)) * sin (snd p) * cos (snd q).
Definition uz (p q : R * R) : R := cos (snd q - snd p) - (1 - cos (fst p - fst q)) * cos (snd p) * cos (snd q).
Lemma ex_dot p q : ex p q = dot3 (east p) (onsphere q).
Proof. unfold ex, dot3, east, onsphere. rewrite sin_minus. ring. Qed.
Lemma ny_dot p q : ny p q = dot3 (north p) (onsphere q).
Proof. unfold ny, dot3, north, onsphere. rewrite sin_minus, cos_minus. ring. Qed.
Lemma uz_dot p q : uz p q = dot3 (onsphere p) (onsphere q).
Proof. unfold uz, dot3, onsphere. rewrite !cos_minus. ring. Qed.
Lemma frame p u : let '(a, b, c) := u in
  (a = dot3 (east p) u * - sin (fst p) + dot3 (north p) u * - (cos (fst p) * sin (snd p)) + dot3 (onsphere p) u * (cos (fst p) * cos (snd p))) /\
  (b = dot3 (east p) u * cos (fst p) + dot3 (north p) u * - (sin (fst p) * sin (snd p)) + dot3 (onsphere p) u * (sin (fst p) * cos (snd p))) /\
  (c = dot3 (north p) u * cos (snd p) + dot3 (onsphere p) u * sin (snd p)).
Proof.
  destruct u as [[a b] c]. unfold dot3, east, north, onsphere. pose proof (sc1 (fst p)) as A. pose proof (sc1 (snd p)) as B.
  set (ca := cos (fst p)) in *. set (sa := sin (fst p)) in *. set (cb := cos (snd p)) in *. set (sb := sin (snd p)) in *. clearbody ca sa cb sb.
  assert (Hs : sa * sa = 1 - ca * ca) by lra. assert (Hb : sb * sb = 1 - cb * cb) by lra.
  split; [|split].
  - replace (_ + _ + _) with (a * (sa * sa) + b * (- ca * sa) + a * ca * ca * (sb * sb + cb * cb) + b * sa * ca * (sb * sb + cb * cb)) by ring. rewrite Hb. replace (1 - cb * cb + cb * cb) with 1 by ring. rewrite Hs. ring.
  - replace (_ + _ + _) with (b * (ca * ca) + a * (- ca * sa) + b * (sa * sa) * (sb * sb + cb * cb) + a * sa * ca * (sb * sb + cb * cb)) by ring. rewrite Hb. replace (1 - cb * cb + cb * cb) with 1 by ring. rewrite Hs. ring.
  - replace (_ + _) with (c * (sb * sb + cb * cb)) by ring. rewrite Hb. ring.
Qed.
Lemma frame_inj p u v : dot3 (east p) u = dot3 (east p) v -> dot3 (north p) u = dot3 (north p) v -> dot3 (onsphere p) u = dot3 (onsphere p) v -> u = v.
Proof.
  intros A B C. pose proof (frame p u) as Fu. pose proof (frame p v) as Fv. destruct u as [[a b] c]. destruct v as [[a' b'] c'].
  cbv zeta iota beta in Fu, Fv. rewrite A, B, C in Fu. destruct Fu as (U1 & U2 & U3). destruct Fv as (V1 & V2 & V3).
  assert (a = a') by lra. assert (b = b') by lra. assert (c = c') by lra. congruence.
Qed.
Lemma unit1 p q : ex p q * ex p q + ny p q * ny p q + uz p q * uz p q = 1.
Proof.
  rewrite ex_dot, ny_dot, uz_dot. unfold dot3, east, north, onsphere.
  pose proof (sc1 (fst p)). pose proof (sc1 (snd p)). pose proof (sc1 (fst q)). pose proof (sc1 (snd q)).
  set (a := fst p) in *. set (b := snd p) in *. set (c := fst q) in *. set (d := snd q) in *.
  transitivity ((cos a * cos a + sin a * sin a) * ((- sin a * (cos c * cos d) + cos a * (sin c * cos d)) * (- sin a * (cos c * cos d) + cos a * (sin c * cos d)))
    + (cos b * cos b + sin b * sin b) * ((cos a * cos c + sin a * sin c) * cos d * ((cos a * cos c + sin a * sin c) * cos d) + sin d * sin d)
    + (1 - (cos a * cos a + sin a * sin a)) * ((- sin a * (cos c * cos d) + cos a * (sin c * cos d)) * (- sin a * (cos c * cos d) + cos a * (sin c * cos d)))); [ring|].
  rewrite H, H0.
  transitivity ((cos a * cos a + sin a * sin a) * (cos c * cos c + sin c * sin c) * (cos d * cos d) + sin d * sin d); [ring|]. rewrite H, H1. lra.
Qed.
Lemma calc_ok p q : exists d pa e, calc_dist_and_posn_ang p q = Ret (d, pa, e) /\
  0 <= d <= PI /\ cos d = uz p q /\ sin d = sqrt (ex p q * ex p q + ny p q * ny p q) /\ 0 <= pa < 2 * PI /\
  ex p q = - (sin d * sin pa) /\ ny p q = sin d * cos pa /\
  (e = 0%Z /\ (ex p q <> 0 \/ ny p q <> 0) \/ e = (-1)%Z /\ pa = 0 /\ ex p q = 0 /\ ny p q = 0).
Proof.
  pose proof PI_RGT_0 as P. pose proof (unit1 p q) as U. unfold calc_dist_and_posn_ang.
  fold (ex p q). fold (ny p q). fold (uz p q). set (x := ex p q) in *. set (y := ny p q) in *. set (z := uz p q) in *. clearbody x y z.
  pose proof (Rle_0_sqr x) as X2. pose proof (Rle_0_sqr y) as Y2. pose proof (Rle_0_sqr z) as Z2. unfold Rsqr in *.
  set (r := sqrt (x * x + y * y)) in *. assert (R0 : 0 <= r) by apply sqrt_pos. assert (Rr : r * r = x * x + y * y) by (apply sqrt_sqrt; lra).
  assert (R1 : r <= 1) by nra.
  assert (D : exists d, (if (Rltb (- (7 / 10)) z && Rltb z (7 / 10))%bool then c_acos z
     else do dist <- c_asin r; Ret (if Rltb z 0 then PI - dist else dist)) = Ret d /\ 0 <= d <= PI /\ cos d = z).
  { destruct (Rltb_spec (- (7 / 10)) z) as [G1|G1]; [destruct (Rltb_spec z (7 / 10)) as [G2|G2]|]; cbn [andb].
    - rewrite c_acos_ok by lra. exists (acos z). split; [reflexivity|]. split; [apply acos_bound|apply cos_acos; lra].
    - rewrite c_asin_ok by lra. cbn [obind]. pose proof (asin_bound r). destruct (Rltb_spec z 0); [lra|]. exists (asin r). split; [reflexivity|].
      assert (0 <= asin r). { destruct (Rle_lt_dec 0 (asin r)); [assumption|]. assert (sin (asin r) < 0) by (apply sin_lt_0_var; lra). rewrite sin_asin in *; lra. }
      split; [lra|]. rewrite cos_asin by lra. apply sqrt_lem_1; unfold Rsqr; lra.
    - rewrite c_asin_ok by lra. cbn [obind]. pose proof (asin_bound r). destruct (Rltb_spec z 0); [|lra]. exists (PI - asin r). split; [reflexivity|].
      assert (0 <= asin r). { destruct (Rle_lt_dec 0 (asin r)); [assumption|]. assert (sin (asin r) < 0) by (apply sin_lt_0_var; lra). rewrite sin_asin in *; lra. }
      split; [lra|]. rewrite Rtrigo_facts.cos_pi_minus, cos_asin by lra. replace z with (- - z) by ring. f_equal. apply sqrt_lem_1; unfold Rsqr; lra. }
  destruct D as (d & -> & Bd & Cd). cbn [obind].
  assert (Sd : sin d = r). { assert (0 <= sin d) by (apply sin_ge_0; lra). symmetry. apply sqrt_lem_1; [lra|assumption|]. pose proof (sc1 d). rewrite Cd in *. lra. }
  pose proof (atan2_polar y x) as [Pc Ps]. fold r in Pc, Ps. pose proof (atan2_bound y x) as Ba.
  destruct (Reqb_spec x 0) as [Ex|Ex]; [destruct (Reqb_spec y 0) as [Ey|Ey]|]; cbn [negb orb].
  - exists d, 0, (-1)%Z. split; [reflexivity|]. split; [assumption|]. split; [assumption|]. split; [assumption|]. split; [lra|].
    rewrite Sd, sin_0, cos_0. assert (r = 0) by nra. split; [lra|]. split; [lra|]. right. auto.
  - set (a := atan2 y x) in *. exists d, (if Rltb (a - PI / 2) 0 then a - PI / 2 + (PI + PI) else a - PI / 2), 0%Z.
    split; [reflexivity|]. split; [assumption|]. split; [assumption|]. split; [assumption|]. split; [destruct (Rltb_spec (a - PI / 2) 0); lra|].
    assert (Q : sin (a - PI / 2) = - cos a /\ cos (a - PI / 2) = sin a) by (rewrite sin_minus, cos_minus, sin_PI2, cos_PI2; split; ring).
    assert (Q' : sin (a - PI / 2 + (PI + PI)) = - cos a /\ cos (a - PI / 2 + (PI + PI)) = sin a).
    { replace (PI + PI) with (2 * PI) by ring. rewrite sin_plus, cos_plus, sin_2PI, cos_2PI. lra. }
    rewrite Sd. destruct (Rltb_spec (a - PI / 2) 0); [destruct Q' as [-> ->]|destruct Q as [-> ->]]; (split; [lra|]; split; [lra|]; left; auto).
  - set (a := atan2 y x) in *. exists d, (if Rltb (a - PI / 2) 0 then a - PI / 2 + (PI + PI) else a - PI / 2), 0%Z.
    split; [reflexivity|]. split; [assumption|]. split; [assumption|]. split; [assumption|]. split; [destruct (Rltb_spec (a - PI / 2) 0); lra|].
    assert (Q : sin (a - PI / 2) = - cos a /\ cos (a - PI / 2) = sin a) by (rewrite sin_minus, cos_minus, sin_PI2, cos_PI2; split; ring).
    assert (Q' : sin (a - PI / 2 + (PI + PI)) = - cos a /\ cos (a - PI / 2 + (PI + PI)) = sin a).
    { replace (PI + PI) with (2 * PI) by ring. rewrite sin_plus, cos_plus, sin_2PI, cos_2PI. lra. }
    rewrite Sd. destruct (Rltb_spec (a - PI / 2) 0); [destruct Q' as [-> ->]|destruct Q as [-> ->]]; (split; [lra|]; split; [lra|]; left; auto).
Qed.
(** Where reverse_dist_and_posn_ang leads. *)
Definition goal_ok (p : R * R) (d pa : R) (q : R * R) : Prop :=
  dot3 (east p) (onsphere q) = - (sin d * sin pa) /\ dot3 (north p) (onsphere q) = sin d * cos pa /\
  dot3 (onsphere p) (onsphere q) = cos d.
Lemma reverse_ok p d pa : exists q, reverse_dist_and_posn_ang p d pa = Ret q /\ - (PI / 2) <= snd q <= PI / 2 /\ goal_ok p d pa q.
Proof.
  pose proof PI_RGT_0 as P. unfold reverse_dist_and_posn_ang. pose proof (sc1 d) as Hd. pose proof (sc1 pa) as Ha. pose proof (sc1 (snd p)) as Hp.
  set (x := cos (snd p) * cos d - sin (snd p) * (sin d * cos pa)). set (y := sin d * sin pa). set (z := sin (snd p) * cos d + cos (snd p) * (sin d * cos pa)).
  assert (U : x * x + y * y + z * z = 1).
  { unfold x, y, z. transitivity ((cos (snd p) * cos (snd p) + sin (snd p) * sin (snd p)) * (cos d * cos d + sin d * sin d * (cos pa * cos pa)) + sin d * sin d * (sin pa * sin pa)); [ring|].
    rewrite Hp. transitivity (cos d * cos d + sin d * sin d * (cos pa * cos pa + sin pa * sin pa)); [ring|]. rewrite Ha. lra. }
  pose proof (Rle_0_sqr x) as X2. pose proof (Rle_0_sqr y) as Y2. pose proof (Rle_0_sqr z) as Z2. unfold Rsqr in *.
  set (r := sqrt (x * x + y * y)) in *. assert (R0 : 0 <= r) by apply sqrt_pos. assert (Rr : r * r = x * x + y * y) by (apply sqrt_sqrt; lra).
  assert (R1 : r <= 1) by nra. assert (-1 <= z <= 1) by nra.
  assert (L : exists t, (if (Rltb z (7 / 10) && Rltb (- (7 / 10)) z)%bool then c_asin z
     else do t <- c_acos r; Ret (if Rltb z 0 then - t else t)) = Ret t /\ - (PI / 2) <= t <= PI / 2 /\ sin t = z /\ cos t = r).
  { assert (Rz : sqrt (1 - z * z) = r) by (apply sqrt_lem_1; lra). assert (Rz' : forall w, 0 <= w -> w * w = z * z -> sqrt (1 - r * r) = w) by (intros w W0 W; apply sqrt_lem_1; lra).
    destruct (Rltb_spec z (7 / 10)) as [G1|G1]; [destruct (Rltb_spec (- (7 / 10)) z) as [G2|G2]|]; cbn [andb].
    - rewrite c_asin_ok by lra. exists (asin z). split; [reflexivity|]. split; [apply asin_bound|]. rewrite sin_asin, cos_asin by lra. auto.
    - rewrite c_acos_ok by lra. cbn [obind]. destruct (Rltb_spec z 0); [|lra]. exists (- acos r). split; [reflexivity|].
      assert (acos r <= PI / 2). { rewrite acos_asin by lra. assert (0 <= asin r); [|lra]. destruct (Rle_lt_dec 0 (asin r)); [assumption|]. pose proof (asin_bound r). assert (sin (asin r) < 0) by (apply sin_lt_0_var; lra). rewrite sin_asin in *; lra. }
      pose proof (acos_bound r). split; [lra|]. rewrite cos_neg, sin_neg, cos_acos, sin_acos by lra. unfold Rsqr. rewrite (Rz' (- z)) by lra. split; ring.
    - rewrite c_acos_ok by lra. cbn [obind]. destruct (Rltb_spec z 0); [lra|]. exists (acos r). split; [reflexivity|].
      assert (acos r <= PI / 2). { rewrite acos_asin by lra. assert (0 <= asin r); [|lra]. destruct (Rle_lt_dec 0 (asin r)); [assumption|]. pose proof (asin_bound r). assert (sin (asin r) < 0) by (apply sin_lt_0_var; lra). rewrite sin_asin in *; lra. }
      pose proof (acos_bound r). split; [lra|]. rewrite cos_acos, sin_acos by lra. unfold Rsqr. rewrite (Rz' z) by lra. split; ring. }
  destruct L as (t & -> & Bt & St & Ct). cbn [obind].
  set (to0 := if (negb (Reqb x 0) || negb (Reqb y 0))%bool then fst p - atan2 y x else fst p). exists (to0, t). split; [reflexivity|]. split; [assumption|].
  pose proof (atan2_polar y x) as [Pc Ps]. fold r in Pc, Ps.
  assert (T : cos (fst p - to0) * r = x /\ sin (fst p - to0) * r = y).
  { unfold to0. destruct (Reqb_spec x 0) as [Ex|Ex]; [destruct (Reqb_spec y 0) as [Ey|Ey]|]; cbn [negb orb].
    - assert (r = 0) by nra. rewrite H0. lra.
    - replace (fst p - (fst p - atan2 y x)) with (atan2 y x) by ring. lra.
    - replace (fst p - (fst p - atan2 y x)) with (atan2 y x) by ring. lra. }
  destruct T as [Tc Ts]. unfold goal_ok, dot3, east, north, onsphere. cbn [fst snd]. rewrite St, Ct.
  rewrite cos_minus in Tc. rewrite sin_minus in Ts.
  split; [|split].
  - fold y. lra.
  - transitivity (- sin (snd p) * ((cos (fst p) * cos to0 + sin (fst p) * sin to0) * r) + cos (snd p) * z); [ring|]. rewrite Tc. unfold x, z.
    transitivity ((cos (snd p) * cos (snd p) + sin (snd p) * sin (snd p)) * (sin d * cos pa)); [ring|]. rewrite Hp. ring.
  - transitivity (cos (snd p) * ((cos (fst p) * cos to0 + sin (fst p) * sin to0) * r) + sin (snd p) * z); [ring|]. rewrite Tc. unfold x, z.
    transitivity ((cos (snd p) * cos (snd p) + sin (snd p) * sin (snd p)) * cos d); [ring|]. rewrite Hp. ring.
Qed.

Lemma C35_distance_proof :
  forall p q, exists d pa e, calc_dist_and_posn_ang p q = Ret (d, pa, e) /\ distance p q d.
Proof.
  intros p q. destruct (calc_ok p q) as (d & pa & e & E & B & C & _). exists d, pa, e. split; [assumption|]. split; [assumption|].
  rewrite C. apply uz_dot.
Qed.

Lemma C35_symmetric_proof :
  forall p q d pa e d' pa' e', calc_dist_and_posn_ang p q = Ret (d, pa, e) -> calc_dist_and_posn_ang q p = Ret (d', pa', e') ->
  d' = d.
Proof.
  intros p q d pa e d' pa' e' E E'. destruct (calc_ok p q) as (d1 & pa1 & e1 & E1 & B1 & C1 & _). destruct (calc_ok q p) as (d2 & pa2 & e2 & E2 & B2 & C2 & _).
  rewrite E in E1. rewrite E' in E2. inversion E1. inversion E2. subst. apply cos_inj; [assumption|assumption|]. rewrite C1, C2, !uz_dot.
  unfold dot3, onsphere. ring.
Qed.

Lemma C35_zero_proof :
  forall p q d pa e, calc_dist_and_posn_ang p q = Ret (d, pa, e) ->
  (d = 0 <-> onsphere q = onsphere p) /\
  (d = PI <-> onsphere q = let '(x, y, z) := onsphere p in (- x, - y, - z)).
Proof.
  intros p q d pa e E. destruct (calc_ok p q) as (d1 & pa1 & e1 & E1 & B1 & C1 & S1 & _ & X1 & Y1 & _). rewrite E in E1. inversion E1. subst. clear E1.
  pose proof (sc1 (fst p)) as A. pose proof (sc1 (snd p)) as A'.
  assert (U : dot3 (onsphere p) (onsphere p) = 1).
  { unfold dot3, onsphere. transitivity ((cos (fst p) * cos (fst p) + sin (fst p) * sin (fst p)) * (cos (snd p) * cos (snd p)) + sin (snd p) * sin (snd p)); [ring|]. rewrite A. lra. }
  assert (Z1 : dot3 (east p) (onsphere p) = 0) by (unfold dot3, east, onsphere; ring).
  assert (Z2 : dot3 (north p) (onsphere p) = 0).
  { unfold dot3, north, onsphere. transitivity ((1 - (cos (fst p) * cos (fst p) + sin (fst p) * sin (fst p))) * (cos (snd p) * sin (snd p))); [ring|]. rewrite A. ring. }
  assert (N : forall u, dot3 u (let '(x, y, z) := onsphere p in (- x, - y, - z)) = - dot3 u (onsphere p)).
  { intros [[a b] c]. unfold dot3, onsphere. ring. }
  rewrite ex_dot in X1. rewrite ny_dot in Y1. rewrite uz_dot in C1. split; split.
  - intros ->. rewrite sin_0 in X1, Y1. rewrite cos_0 in C1. apply (frame_inj p); lra.
  - intros H. rewrite H in *. apply cos_inj; [lra|pose proof PI_RGT_0; lra|]. rewrite cos_0. lra.
  - intros ->. rewrite sin_PI in X1, Y1. rewrite cos_PI in C1. apply (frame_inj p); rewrite N; lra.
  - intros H. rewrite H in *. rewrite N in C1. apply cos_inj; [lra|pose proof PI_RGT_0; lra|]. rewrite cos_PI. lra.
Qed.

Lemma C35_position_angle_proof :
  forall p q d pa e, calc_dist_and_posn_ang p q = Ret (d, pa, e) ->
  0 <= pa < 2 * PI /\ dot3 (north p) (onsphere q) = sin d * cos pa /\ dot3 (east p) (onsphere q) = - (sin d * sin pa).
Proof.
  intros p q d pa e E. destruct (calc_ok p q) as (d1 & pa1 & e1 & E1 & B1 & C1 & S1 & P1 & X1 & Y1 & _). rewrite E in E1. inversion E1. subst.
  rewrite <- ex_dot, <- ny_dot. auto.
Qed.

Lemma C35_undefined_angle_proof :
  forall p q d pa e, calc_dist_and_posn_ang p q = Ret (d, pa, e) ->
  (e = (-1)%Z <-> d = 0 \/ d = PI) /\ (e = 0%Z <-> 0 < d < PI) /\ (e = (-1)%Z -> pa = 0).
Proof.
  intros p q d pa e E. destruct (calc_ok p q) as (d1 & pa1 & e1 & E1 & B1 & C1 & S1 & P1 & X1 & Y1 & W). rewrite E in E1. inversion E1. subst. clear E1 E.
  pose proof PI_RGT_0. destruct W as [[-> W]|(-> & -> & W1 & W2)].
  - assert (sin d1 <> 0) by (intros Z; rewrite Z in *; destruct W; lra).
    assert (d1 <> 0) by (intros ->; rewrite sin_0 in *; tauto). assert (d1 <> PI) by (intros ->; rewrite sin_PI in *; tauto).
    split; [split; [discriminate|tauto]|]. split; [split; [intros _; lra|reflexivity]|discriminate].
  - assert (sin d1 = 0) by (rewrite S1, W1, W2; replace (0 * 0 + 0 * 0) with 0 by ring; apply sqrt_0).
    assert (~ 0 < d1 < PI) by (intros G; pose proof (sin_gt_0 d1 (proj1 G) (proj2 G)); lra).
    split; [split; [intros _; lra|reflexivity]|]. split; [split; [discriminate|tauto]|reflexivity].
Qed.

Lemma C35_reverse_proof :
  forall p q d pa e, calc_dist_and_posn_ang p q = Ret (d, pa, e) ->
  exists r, reverse_dist_and_posn_ang p d pa = Ret r /\ - (PI / 2) <= snd r <= PI / 2 /\ onsphere r = onsphere q.
Proof.
  intros p q d pa e E. destruct (calc_ok p q) as (d1 & pa1 & e1 & E1 & B1 & C1 & S1 & P1 & X1 & Y1 & W). rewrite E in E1. inversion E1. subst. clear E1 E.
  destruct (reverse_ok p d1 pa1) as (r & E & B & (G1 & G2 & G3)). exists r. split; [assumption|]. split; [assumption|].
  rewrite ex_dot in X1. rewrite ny_dot in Y1. rewrite uz_dot in C1. apply (frame_inj p); lra.
Qed.

Lemma C35_reverse_coordinates_proof :
  forall p q d pa e r, calc_dist_and_posn_ang p q = Ret (d, pa, e) -> reverse_dist_and_posn_ang p d pa = Ret r ->
  - (PI / 2) <= snd q <= PI / 2 ->
  snd r = snd q /\ (- (PI / 2) < snd q < PI / 2 -> exists k : Z, fst r = fst q + 2 * PI * IZR k).
Proof.
  intros p q d pa e r E F Hq. destruct (C35_reverse_proof p q d pa e E) as (r1 & E1 & B & S). rewrite F in E1. inversion E1. subst r1.
  unfold onsphere in S. injection S as Sx Sy Sz. assert (Q : snd r = snd q) by (apply sin_inj; assumption). split; [assumption|]. intros Hq'.
  rewrite Q in Sx, Sy. assert (0 < cos (snd q)) by (apply cos_gt_0; lra). apply same_angle; apply (Rmult_eq_reg_r (cos (snd q))); lra.
Qed.

Lemma C35_there_proof :
  forall p d pa, 0 <= d <= PI ->
  exists q d' pa' e, reverse_dist_and_posn_ang p d pa = Ret q /\ calc_dist_and_posn_ang p q = Ret (d', pa', e) /\
    d' = d /\ (0 < d < PI -> e = 0%Z /\ exists k : Z, pa' = pa + 2 * PI * IZR k).
Proof.
  intros p d pa Hd. destruct (reverse_ok p d pa) as (q & E & B & (G1 & G2 & G3)). exists q.
  destruct (calc_ok p q) as (d1 & pa1 & e1 & E1 & B1 & C1 & S1 & P1 & X1 & Y1 & W). exists d1, pa1, e1. split; [assumption|]. split; [assumption|].
  rewrite ex_dot in X1. rewrite ny_dot in Y1. rewrite uz_dot in C1. assert (d1 = d) by (apply cos_inj; lra). subst d1. split; [reflexivity|].
  intros Hd'. assert (0 < sin d) by (apply sin_gt_0; lra). split.
  - apply (C35_undefined_angle_proof p q d pa1 e1 E1). assumption.
  - apply same_angle; apply (Rmult_eq_reg_l (sin d)); lra.
Qed.
