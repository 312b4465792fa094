(** Proofs about evaluate_rock( ) of rocks.cpp. *)
From Coq Require Import Lra Lia QArith Qreals.
From Verif Require Import TrigBase RockModel RockSpec.
Local Open Scope R_scope.

Lemma half_angle i : 0 <= i < PI -> tan (i / 2) * sin i = 1 - cos i /\ 2 * tan (i / 2) = sin i * (1 + tan (i / 2) * tan (i / 2)).
Proof.
  intros H. assert (C : cos (i / 2) > 0) by (apply cos_gt_0; lra). pose proof (sin2_cos2 (i / 2)) as P. unfold Rsqr in P.
  replace (sin i) with (2 * sin (i / 2) * cos (i / 2)) by (rewrite <- sin_2a; f_equal; lra).
  replace (cos i) with (1 - 2 * sin (i / 2) * sin (i / 2)) by (rewrite <- cos_2a_sin; f_equal; lra).
  unfold tan. set (s := sin (i / 2)) in *. set (c := cos (i / 2)) in *. clearbody s c. split; [field; lra|].
  replace (2 * s * c * (1 + s / c * (s / c))) with (2 * s * (s * s + c * c) / c) by (field; lra). rewrite P. field. lra.
Qed.

Lemma turned e u x y s : e * sin u = x -> e * cos u = y -> y * sin s + x * cos s = e * sin (u + s) /\ y * cos s - x * sin s = e * cos (u + s).
Proof. intros <- <-. rewrite sin_plus, cos_plus. split; ring. Qed.

Lemma size_of e u : 0 <= e -> sqrt (e * sin u * (e * sin u) + e * cos u * (e * cos u)) = e.
Proof.
  intro E. replace (e * sin u * (e * sin u) + e * cos u * (e * cos u)) with (e * e); [apply sqrt_square; assumption|].
  pose proof (sin2_cos2 u) as P. unfold Rsqr in P. replace (e * sin u * (e * sin u) + e * cos u * (e * cos u)) with (e * e * (sin u * sin u + cos u * cos u)) by ring. rewrite P. ring.
Qed.

(** The body of the loop gives a point of a precessing ellipse. *)
Lemma position_ellipse rk e peri0 i node0 jde : 0 <= e -> 0 <= i < PI ->
  e * sin peri0 = Q2R (el_h rk) -> e * cos peri0 = Q2R (el_k rk) ->
  tan (i / 2) * sin node0 = Q2R (el_p rk) -> tan (i / 2) * cos node0 = Q2R (el_q rk) ->
  let t := (jde - Q2R (epoch_jd rk)) * 86400 in
  let peri := peri0 + t * rad (apsis_rate rk) in
  let mean := rad (mean_lon0 rk) + t * rad (mean_motion rk) in
  position rk jde = orbit_point (rad (pole_ra rk)) (rad (pole_dec rk)) (Q2R (semi_a rk)) e i (node0 + t * rad (node_rate rk)) peri (with_centre e peri mean).
Proof.
  intros E I Hh Hk Hp Hq. cbv zeta. unfold position. cbv zeta. set (t := (jde - Q2R (epoch_jd rk)) * 86400).
  destruct (turned _ _ _ _ (t * rad (apsis_rate rk)) Hh Hk) as [T1 T2]. rewrite T1, T2. set (peri := peri0 + t * rad (apsis_rate rk)). rewrite size_of by assumption.
  destruct (turned _ _ _ _ (t * rad (node_rate rk)) Hp Hq) as [T3 T4]. rewrite T3, T4. set (node := node0 + t * rad (node_rate rk)).
  set (mean := rad (mean_lon0 rk) + t * rad (mean_motion rk)).
  destruct (atan2_polar (e * sin peri) (e * cos peri)) as [A1 A2]. cbv zeta in A1, A2.
  replace (e * cos peri * (e * cos peri) + e * sin peri * (e * sin peri)) with (e * sin peri * (e * sin peri) + e * cos peri * (e * cos peri)) in A1, A2 by ring.
  rewrite size_of in A1, A2 by assumption. set (om := atan2 (e * sin peri) (e * cos peri)) in *.
  assert (S : forall x, e * sin (x - om) = e * sin (x - peri)).
  { intro x. rewrite !sin_minus. replace (e * (sin x * cos om - cos x * sin om)) with (sin x * (e * cos om) - cos x * (e * sin om)) by ring. rewrite A1, A2. ring. }
  assert (C : forall x, e * cos (x - om) = e * cos (x - peri)).
  { intro x. rewrite !cos_minus. replace (e * (cos x * cos om + sin x * sin om)) with (cos x * (e * cos om) + sin x * (e * sin om)) by ring. rewrite A1, A2. ring. }
  replace (mean + 2 * e * sin (mean - om) + 1.25 * e * e * sin (2 * (mean - om))) with (with_centre e peri mean).
  2:{ unfold with_centre. rewrite !sin_2a. replace (2 * e * sin (mean - om)) with (2 * (e * sin (mean - om))) by ring.
      replace (1.25 * e * e * (2 * sin (mean - om) * cos (mean - om))) with (1.25 * 2 * (e * sin (mean - om)) * (e * cos (mean - om))) by ring. rewrite S, C. lra. }
  set (l := with_centre e peri mean). rewrite C. destruct (half_angle i I) as [U V].
  assert (W : 1 + tan (i / 2) * sin node * (tan (i / 2) * sin node) + tan (i / 2) * cos node * (tan (i / 2) * cos node) = 1 + tan (i / 2) * tan (i / 2)).
  { pose proof (sin2_cos2 node) as P. unfold Rsqr in P. replace (1 + tan (i / 2) * tan (i / 2)) with (1 + tan (i / 2) * tan (i / 2) * (sin node * sin node + cos node * cos node)) by (rewrite P; ring). ring. }
  rewrite W. set (T := tan (i / 2)) in *.
  assert (D : 2 * (T * cos node * sin l - T * sin node * cos l) / (1 + T * T) = sin i * sin (l - node)).
  { replace (2 * (T * cos node * sin l - T * sin node * cos l)) with (2 * T * sin (l - node)) by (rewrite sin_minus; ring). rewrite V. field. assert (0 <= T * T) by apply Rle_0_sqr. lra. }
  rewrite D. unfold orbit_point. set (r := Q2R (semi_a rk) * (1 - e * e) / (1 + e * cos (l - peri))).
  assert (FA : cos l + T * sin node * (sin i * sin (l - node)) = cos (l - node) * cos node - sin (l - node) * (cos i * sin node)).
  { replace (T * sin node * (sin i * sin (l - node))) with (T * sin i * (sin node * sin (l - node))) by ring. rewrite U.
    assert (cos l = cos (l - node) * cos node - sin (l - node) * sin node) as -> by (rewrite <- cos_plus; f_equal; ring). ring. }
  assert (FB : sin l - T * cos node * (sin i * sin (l - node)) = cos (l - node) * sin node + sin (l - node) * (cos i * cos node)).
  { replace (T * cos node * (sin i * sin (l - node))) with (T * sin i * (cos node * sin (l - node))) by ring. rewrite U.
    assert (sin l = sin (l - node) * cos node + cos (l - node) * sin node) as -> by (rewrite <- sin_plus; f_equal; ring). ring. }
  rewrite FA, FB. unfold orbit_pole, in_plane, rising, direction, add, times, cross. rewrite cos_0, sin_0, cos_plus, sin_plus, cos_PI2, sin_PI2.
  pose proof (sin2_cos2 (rad (pole_ra rk))) as P1. pose proof (sin2_cos2 (rad (pole_dec rk))) as P2. pose proof (sin2_cos2 node) as P3. unfold Rsqr in P1, P2, P3.
  set (sr := sin (rad (pole_ra rk))) in *. set (cr := cos (rad (pole_ra rk))) in *. set (sd := sin (rad (pole_dec rk))) in *. set (cd := cos (rad (pole_dec rk))) in *.
  set (sn := sin node) in *. set (cn := cos node) in *. set (x := cos (l - node)). set (y := sin (l - node)). set (ci := cos i). set (si := sin i).
  clearbody sr cr sd cd sn cn x y ci si r. clear - P1 P2 P3.
  assert (Q1 : sr * sr = 1 - cr * cr) by lra. assert (Q2 : sd * sd = 1 - cd * cd) by lra. assert (Q3 : sn * sn = 1 - cn * cn) by lra.
  f_equal; [f_equal|]; ring_simplify; ring [Q1 Q2 Q3].
Qed.

(** The directions are at right angles and of length one. *)
Lemma orbit_point_dots ra dec a e i node peri l : let v := orbit_point ra dec a e i node peri l in let r := a * (1 - e * e) / (1 + e * cos (l - peri)) in
  dot v v = r * r /\ dot v (orbit_pole ra dec i node) = 0 /\ dot v (direction ra dec) = r * (sin i * sin (l - node)).
Proof.
  cbv zeta. unfold orbit_point. set (r := a * (1 - e * e) / (1 + e * cos (l - peri))).
  unfold orbit_pole, in_plane, rising, direction, add, times, cross, dot. rewrite cos_0, sin_0, cos_plus, sin_plus, cos_PI2, sin_PI2.
  pose proof (sin2_cos2 ra) as P1. pose proof (sin2_cos2 dec) as P2. pose proof (sin2_cos2 node) as P3. pose proof (sin2_cos2 (l - node)) as P4. pose proof (sin2_cos2 i) as P5. unfold Rsqr in P1, P2, P3, P4, P5.
  set (sr := sin ra) in *. set (cr := cos ra) in *. set (sd := sin dec) in *. set (cd := cos dec) in *.
  set (sn := sin node) in *. set (cn := cos node) in *. set (x := cos (l - node)) in *. set (y := sin (l - node)) in *. set (ci := cos i) in *. set (si := sin i) in *.
  clearbody sr cr sd cd sn cn x y ci si r. clear - P1 P2 P3 P4 P5.
  assert (Q1 : sr * sr = 1 - cr * cr) by lra. assert (Q2 : sd * sd = 1 - cd * cd) by lra. assert (Q3 : sn * sn = 1 - cn * cn) by lra. assert (Q4 : y * y = 1 - x * x) by lra. assert (Q5 : si * si = 1 - ci * ci) by lra.
  split; [|split]; ring [Q1 Q2 Q3 Q4 Q5].
Qed.

(** The table, checked number by number. *)
Definition fine (rk : rock) : bool :=
  (Qle_bool 1 (semi_a rk) && Qle_bool (el_h rk * el_h rk + el_k rk * el_k rk) (1 # 2600) && Qle_bool (el_p rk * el_p rk + el_q rk * el_q rk) (1 # 20))%bool.
Lemma all_fine : forallb fine rocks = true. Proof. vm_compute. reflexivity. Qed.
Lemma fine_in rk : In rk rocks -> 1 <= Q2R (semi_a rk) /\ Q2R (el_h rk) * Q2R (el_h rk) + Q2R (el_k rk) * Q2R (el_k rk) <= 1 / 2600 /\ Q2R (el_p rk) * Q2R (el_p rk) + Q2R (el_q rk) * Q2R (el_q rk) <= 1 / 20.
Proof.
  intro H. pose proof (proj1 (forallb_forall fine rocks) all_fine rk H) as F. unfold fine in F. apply andb_prop in F. destruct F as [F F3]. apply andb_prop in F. destruct F as [F1 F2].
  apply Qle_bool_iff, Qle_Rle in F1. apply Qle_bool_iff, Qle_Rle in F2. apply Qle_bool_iff, Qle_Rle in F3. rewrite !Q2R_plus, !Q2R_mult in *.
  assert (E1 : Q2R 1 = 1) by (unfold Q2R; cbn; lra). assert (E2 : Q2R (1 # 2600) = 1 / 2600) by (unfold Q2R; cbn; lra). assert (E3 : Q2R (1 # 20) = 1 / 20) by (unfold Q2R; cbn; lra). rewrite E1, E2, E3 in *. auto.
Qed.
Lemma ids : map jpl_id rocks = moons. Proof. reflexivity. Qed.
Lemma ids_once : NoDup (map jpl_id rocks).
Proof. rewrite ids. unfold moons. repeat (constructor; [cbn; lia|]). constructor. Qed.
Lemma search_in l rk jde out : NoDup (map jpl_id l) -> In rk l -> search l jde (jpl_id rk) out = (0%Z, position rk jde).
Proof.
  induction l as [|a l IH]; intros N I; [destruct I|]. cbn [search]. cbn [map] in N. inversion N as [|x y N1 N2]; subst. destruct I as [->|I]; [now rewrite Z.eqb_refl|].
  destruct (Z.eqb_spec (jpl_id a) (jpl_id rk)) as [E|]; [|auto]. exfalso. apply N1. rewrite E. now apply in_map.
Qed.
Lemma search_out l jde id out : ~ In id (map jpl_id l) -> search l jde id out = ((-1)%Z, out).
Proof. induction l as [|a l IH]; intro N; [reflexivity|]. cbn [search]. destruct (Z.eqb_spec (jpl_id a) id) as [E|]; [destruct N; now left|]. apply IH. intro H. apply N. now right. Qed.
Lemma evaluate_in rk jde out : In rk rocks -> evaluate_rock jde (jpl_id rk) out = (0%Z, position rk jde).
Proof. apply search_in, ids_once. Qed.

(** Eccentricities, inclinations and the directions they go with. *)
Lemma elements_exist rk : In rk rocks -> exists e peri0 i node0, 0 <= e < 1 / 50 /\ 0 <= i < 1 / 2 /\
  e * sin peri0 = Q2R (el_h rk) /\ e * cos peri0 = Q2R (el_k rk) /\ tan (i / 2) * sin node0 = Q2R (el_p rk) /\ tan (i / 2) * cos node0 = Q2R (el_q rk).
Proof.
  intro H. destruct (fine_in rk H) as (_ & F2 & F3). set (h := Q2R (el_h rk)) in *. set (k := Q2R (el_k rk)) in *. set (p := Q2R (el_p rk)) in *. set (q := Q2R (el_q rk)) in *. clearbody h k p q.
  destruct (atan2_polar h k) as [A1 A2]. destruct (atan2_polar p q) as [B1 B2]. cbv zeta in A1, A2, B1, B2. set (e := sqrt (k * k + h * h)) in *. set (T := sqrt (q * q + p * p)) in *.
  assert (E0 : 0 <= e) by apply sqrt_pos. assert (T0 : 0 <= T) by apply sqrt_pos.
  assert (EE : e * e = k * k + h * h) by (apply sqrt_sqrt; pose proof (Rle_0_sqr k); pose proof (Rle_0_sqr h); unfold Rsqr in *; lra).
  assert (TT : T * T = q * q + p * p) by (apply sqrt_sqrt; pose proof (Rle_0_sqr p); pose proof (Rle_0_sqr q); unfold Rsqr in *; lra).
  assert (E1 : e < 1 / 50) by (apply Rnot_le_lt; intro X; nra). assert (T1 : T < 1 / 4) by (apply Rnot_le_lt; intro X; nra).
  exists e, (atan2 h k), (2 * atan T), (atan2 p q). replace (2 * atan T / 2) with (atan T) by field. rewrite tan_atan. repeat split; try assumption.
  - destruct (Rle_lt_or_eq_dec 0 T T0) as [X|X]; [|rewrite <- X, atan_0; lra]. pose proof (atan_increasing 0 T X) as Y. rewrite atan_0 in Y. lra.
  - destruct (Rle_lt_or_eq_dec 0 T T0) as [X|X]; [|rewrite <- X, atan_0; lra].
    destruct (MVT_cor2 atan (fun x => / (1 + x ^ 2)) 0 T X) as (c & M & Hc); [intros c _; exact (derivable_pt_lim_atan c)|].
    rewrite atan_0 in M. assert (0 <= c ^ 2) by apply pow2_ge_0. assert (/ (1 + c ^ 2) <= 1) by (rewrite <- Rinv_1; apply Rinv_le_contravar; lra). nra.
Qed.
