(** Lemmas for C53: what Newton's iteration leaves of Kepler's equation. *)
From Coq Require Import Lia.
From Verif Require Import TrigBase OrbModel OrbSpec OrbProofs OrbKepler OrbSeries.
Local Open Scope R_scope.

(** * Ellipses *)
Lemma newton_ellipse_ok fuel e M thresh : 9 / 10 <= e < 1 -> 0 <= thresh ->
  let good E := Rabs (E - e * sin E - M) <= TINY + e * (thresh * thresh) in
  forall k c d E, (Rabs d <= thresh -> good c) -> newton_ellipse k fuel e M thresh c d = Ret E -> good E.
Proof.
  intros He Ht good. assert (T0 : 0 < TINY) by (unfold TINY; lra).
  induction k as [|k IH]; intros c d E HG H; cbn [newton_ellipse] in H; destruct (Rltb_spec thresh (Rabs d)) as [L|L]; try discriminate; try (injection H as <-; apply HG; lra).
  match type of H with (do err <- ?X; _) = _ => assert (S1 : forall err, X = Ret err -> Rabs (err - (c - e * sin c - M)) <= TINY) end.
  { intros err X. destruct (S k <? 13)%nat.
    - destruct (near_parabolic fuel c e) as [p| | |] eqn:N; cbn [obind] in X; try discriminate. injection X as <-. pose proof (near_ellipse _ _ _ _ He N) as B. replace (p - M - (c - e * sin c - M)) with (p - (c - e * sin c)) by ring. exact B.
    - injection X as <-. replace (c - e * sin c - M - (c - e * sin c - M)) with 0 by ring. rewrite Rabs_R0. lra. }
  match type of H with (do err <- ?X; _) = _ => destruct X as [err| | |] eqn:X1; cbn [obind] in H; try discriminate end. specialize (S1 err eq_refl). clear X1.
  assert (D : 0 < 1 - e * cos c) by (pose proof (COS_bound c); nra). rewrite c_div_ok in H by lra. cbn [obind] in H. set (dl := - err / (1 - e * cos c)) in *.
  assert (ED : dl * (1 - e * cos c) = - err) by (unfold dl; field; lra).
  destruct k as [|k']; [discriminate|]. apply (IH (c + dl) dl E); [|exact H]. intros G. unfold good.
  pose proof (sin_tangent c (c + dl)) as T. apply abs_le in T. apply abs_le in S1. apply abs_le in G. replace (c + dl - c) with dl in T by ring.
  assert (Q : dl * dl <= thresh * thresh) by nra.
  assert (EQ : c + dl - e * sin (c + dl) - M = - (err - (c - e * sin c - M)) - e * (sin (c + dl) - sin c - dl * cos c)) by lra.
  rewrite EQ. set (u := sin (c + dl) - sin c - dl * cos c) in *. assert (e * u <= e * (thresh * thresh) /\ - (e * (thresh * thresh)) <= e * u) by nra. apply Rabs_le. lra.
Qed.

(** * Hyperbolas *)
Lemma cosh_mono a b : 0 <= a <= b -> cosh a <= cosh b.
Proof.
  intros H. destruct (Req_dec a b) as [->|N]; [lra|]. destruct (MVT_cor2 cosh sinh a b) as (c & E & I); [lra|intros; apply d_cosh|]. pose proof (sinh_pos c ltac:(lra)). nra.
Qed.
Lemma cosh_abs x : cosh x = cosh (Rabs x).
Proof. unfold Rabs. destruct (Rcase_abs x); [rewrite cosh_even; reflexivity|reflexivity]. Qed.
Lemma sinh_abs_le x : Rabs (sinh x) <= cosh x.
Proof. apply Rabs_le. unfold sinh, cosh. pose proof (exp_pos x). pose proof (exp_pos (- x)). lra. Qed.
Lemma sinh_tangent a b B : Rabs a <= B -> Rabs b <= B -> Rabs (sinh b - sinh a - (b - a) * cosh a) <= (b - a) * (b - a) * cosh B.
Proof.
  intros HA HB. assert (CB : forall x, Rabs x <= B -> cosh x <= cosh B) by (intros x Hx; rewrite cosh_abs; apply cosh_mono; split; [apply Rabs_pos|exact Hx]).
  assert (G : forall f f', (forall x, derivable_pt_lim f x (f' x)) -> forall u v, exists c, f v - f u = f' c * (v - u) /\ Rabs (c - u) <= Rabs (v - u) /\ (Rmin u v <= c <= Rmax u v)).
  { intros f f' D u v. destruct (Req_dec u v) as [->|N]; [exists v; split; [ring|]; split; [lra|]; rewrite Rmin_left, Rmax_left by lra; lra|]. destruct (Rlt_dec u v) as [L|L].
    - destruct (MVT_cor2 f f' u v L) as (c & E & I); [intros; apply D|]. exists c. split; [exact E|]. rewrite !Rabs_right, Rmin_left, Rmax_right by lra. lra.
    - destruct (MVT_cor2 f f' v u) as (c & E & I); [lra|intros; apply D|]. exists c. split; [lra|]. rewrite (Rabs_left1 (c - u)), (Rabs_left1 (v - u)), Rmin_right, Rmax_left by lra. lra. }
  assert (IN : forall u v c, Rabs u <= B -> Rabs v <= B -> Rmin u v <= c <= Rmax u v -> Rabs c <= B).
  { intros u v c U V C. apply abs_le in U. apply abs_le in V. apply Rabs_le. unfold Rmin, Rmax in C. destruct (Rle_dec u v); lra. }
  destruct (G sinh cosh d_sinh a b) as (c & E & I & C). destruct (G cosh sinh d_cosh a c) as (c' & E' & I' & C').
  pose proof (IN a b c HA HB C) as Bc. pose proof (IN a c c' HA Bc C') as Bc'. rewrite E.
  replace (cosh c * (b - a) - (b - a) * cosh a) with ((cosh c - cosh a) * (b - a)) by ring. rewrite E', !Rabs_mult.
  pose proof (sinh_abs_le c'). pose proof (CB c' Bc'). replace ((b - a) * (b - a)) with (Rabs (b - a) * Rabs (b - a)) by (rewrite <- Rabs_mult; apply Rabs_right; pose proof (Rle_0_sqr (b - a)) as S; unfold Rsqr in S; lra).
  pose proof (Rabs_pos (b - a)). pose proof (Rabs_pos (c - a)). pose proof (Rabs_pos (sinh c')).
  assert (Rabs (sinh c') * Rabs (c - a) <= cosh B * Rabs (b - a)) by (apply Rmult_le_compat; lra). apply Rmult_le_compat_r with (r := Rabs (b - a)) in H4; [|lra]. lra.
Qed.
Lemma newton_hyperbola_ok fuel e M thresh : 1 < e -> 0 <= thresh <= 1 ->
  let good E := Rabs (e * sinh E - E - M) <= (TINY + e * (thresh * thresh)) * cosh (Rabs E + 1) in
  forall k c d E, (Rabs d <= thresh -> good c) -> newton_hyperbola k fuel e M thresh c d = Ret E -> good E.
Proof.
  intros He Ht good. assert (T0 : 0 < TINY) by (unfold TINY; lra).
  induction k as [|k IH]; intros c d E HG H; cbn [newton_hyperbola] in H; destruct (Rltb_spec thresh (Rabs d)) as [L|L]; try discriminate; try (injection H as <-; apply HG; lra).
  match type of H with (do err <- ?X; _) = _ => assert (S1 : forall err, X = Ret err -> Rabs (err - (e * sinh c - c - M)) <= TINY * cosh c) end.
  { intros err X. destruct ((S k <? 13)%nat && Rltb e (101 / 100)).
    - destruct (near_parabolic fuel c e) as [p| | |] eqn:N; cbn [obind] in X; try discriminate. injection X as <-. pose proof (near_hyperbola _ _ _ _ He N) as B. replace (- p - M - (e * sinh c - c - M)) with (- (p - (c - e * sinh c))) by ring. rewrite Rabs_Ropp. exact B.
    - injection X as <-. replace (e * sinh c - c - M - (e * sinh c - c - M)) with 0 by ring. rewrite Rabs_R0. pose proof (cosh_ge_1 c). nra. }
  match type of H with (do err <- ?X; _) = _ => destruct X as [err| | |] eqn:X1; cbn [obind] in H; try discriminate end. specialize (S1 err eq_refl). clear X1.
  assert (D : 0 < e * cosh c - 1) by (pose proof (cosh_ge_1 c); nra). rewrite c_div_ok in H by lra. cbn [obind] in H. set (dl := - err / (e * cosh c - 1)) in *.
  assert (ED : dl * (e * cosh c - 1) = - err) by (unfold dl; field; lra).
  destruct k as [|k']; [discriminate|]. apply (IH (c + dl) dl E); [|exact H]. intros G. unfold good.
  assert (A1 : Rabs c <= Rabs (c + dl) + 1). { replace c with (c + dl + - dl) at 1 by ring. apply Rle_trans with (1 := Rabs_triang _ _). rewrite Rabs_Ropp. lra. }
  assert (A2 : Rabs (c + dl) <= Rabs (c + dl) + 1) by lra.
  pose proof (sinh_tangent c (c + dl) _ A1 A2) as T. apply abs_le in T. apply abs_le in S1. apply abs_le in G. replace (c + dl - c) with dl in T by ring.
  assert (CC : cosh c <= cosh (Rabs (c + dl) + 1)) by (rewrite cosh_abs; apply cosh_mono; split; [apply Rabs_pos|exact A1]). set (B := cosh (Rabs (c + dl) + 1)) in *. assert (B1 : 1 <= B) by apply cosh_ge_1.
  assert (Q : dl * dl <= thresh * thresh) by nra. assert (QB : dl * dl * B <= thresh * thresh * B) by (apply Rmult_le_compat_r; lra).
  assert (EQ : e * sinh (c + dl) - (c + dl) - M = - (err - (e * sinh c - c - M)) + e * (sinh (c + dl) - sinh c - dl * cosh c)) by lra.
  rewrite EQ. set (u := sinh (c + dl) - sinh c - dl * cosh c) in *. assert (TC : TINY * cosh c <= TINY * B) by (apply Rmult_le_compat_l; lra).
  assert (U : e * u <= e * (thresh * thresh * B) /\ - (e * (thresh * thresh * B)) <= e * u) by (split; [apply Rmult_le_compat_l; lra|replace (- (e * (thresh * thresh * B))) with (e * - (thresh * thresh * B)) by ring; apply Rmult_le_compat_l; lra]).
  apply Rabs_le. lra.
Qed.

(** * kepler( ) *)
Lemma thresh_low e : 9 / 10 <= e < 1 -> forall M c th, first_guess e M = Ret (c, th) -> 0 < th <= THRESH.
Proof.
  intros He M c th H. unfold first_guess in H. cbv zeta in H. assert (T0 : 0 < MIN_THRESH < THRESH) by (unfold MIN_THRESH, THRESH; lra).
  set (th0 := if Rltb (THRESH * Rabs (1 - e)) MIN_THRESH then MIN_THRESH else THRESH * Rabs (1 - e)) in *.
  assert (P : 0 < th0 <= THRESH). { unfold th0. destruct (Rltb_spec (THRESH * Rabs (1 - e)) MIN_THRESH); [lra|]. assert (Rabs (1 - e) <= 1) by (apply Rabs_le; lra). nra. }
  destruct (Rltb 1 e && Rltb 3 (M / e)); [injection H as <- <-; exact P|].
  destruct ((Rltb (8 / 10) e && Rltb M (PI / 3)) || Rltb 1 e); [|injection H as <- <-; exact P].
  unfold c_div in H. destruct (Reqb (Rabs (1 - e)) 0); cbn [obind] in H; [discriminate|]. injection H as <- <-. destruct (Rltb_spec THRESH th0); lra.
Qed.
Lemma thresh_high e : 1 < e -> forall M c th, first_guess e M = Ret (c, th) -> 0 < th <= THRESH * e.
Proof.
  intros He M c th H. unfold first_guess in H. cbv zeta in H. assert (T0 : 0 < MIN_THRESH < THRESH) by (unfold MIN_THRESH, THRESH; lra).
  set (th0 := if Rltb (THRESH * Rabs (1 - e)) MIN_THRESH then MIN_THRESH else THRESH * Rabs (1 - e)) in *.
  assert (P : 0 < th0 <= THRESH * e). { unfold th0. destruct (Rltb_spec (THRESH * Rabs (1 - e)) MIN_THRESH); [nra|]. rewrite Rabs_left in * by lra. nra. }
  destruct (Rltb 1 e && Rltb 3 (M / e)); [injection H as <- <-; exact P|].
  destruct ((Rltb (8 / 10) e && Rltb M (PI / 3)) || Rltb 1 e); [|injection H as <- <-; exact P].
  unfold c_div in H. destruct (Reqb (Rabs (1 - e)) 0); cbn [obind] in H; [discriminate|]. injection H as <- <-. destruct (Rltb_spec THRESH th0); nra.
Qed.

Lemma kepler_low e M : 0 <= e < 9 / 10 -> (forall k, (0 <= k)%Z -> M <> - PI * (2 * IZR k + 1)) ->
  exists E n, Rabs (E - e * sin E - M) <= THRESH * THRESH /\ forall fuel, (n <= fuel)%nat -> kepler fuel e M = Ret E.
Proof.
  intros He HM. assert (T0 : 0 < THRESH) by (unfold THRESH; lra). unfold kepler. destruct (Reqb_spec M 0) as [->|N].
  { exists 0, O. split; [|reflexivity]. rewrite sin_0. replace (0 - e * 0 - 0) with 0 by ring. rewrite Rabs_R0. nra. }
  destruct (Rltb_spec e 1); [|lra]. pose proof (half_turn_ok M) as HT. destruct (within_half_turn M) as [m o] eqn:W. destruct HT as (E1 & B & k & E2).
  assert (NM : m <> - PI).
  { intros ->. destruct (Z_le_dec k 0) as [K|K].
    - apply (HM (- k)%Z); [lia|]. rewrite opp_IZR. lra.
    - assert (1 <= IZR k) by (apply IZR_le; lia). pose proof PI_RGT_0 as P.
      unfold within_half_turn in W. destruct (Rltb_spec M (- PI)); [nra|]. cbn [orb] in W. destruct (Rltb_spec PI M); [|injection W as W1 W2; nra].
      assert (T1 : 0 <= c_fmod M (PI * 2)).
      { unfold c_fmod, truncate. assert (0 <= M / (PI * 2)) by (apply Rmult_le_pos; [lra|left; apply Rinv_0_lt_compat; lra]). destruct (Rltb_spec (M / (PI * 2)) 0); [lra|]. pose proof (int_part (M / (PI * 2))). replace M with (PI * 2 * (M / (PI * 2))) at 1 by (field; lra). set (y := M / (PI * 2)) in *. nra. }
      pose proof (fmod_bound M) as [FB _]. destruct (Rltb_spec PI (c_fmod M (PI * 2))); [injection W as W1 W2; lra|]. destruct (Rltb_spec (c_fmod M (PI * 2)) (- PI)); injection W as W1 W2; lra. }
  destruct (Rltb_spec e (9 / 10)); [|lra]. destruct (newton_low_total e m ltac:(lra) ltac:(lra)) as (E & n & R1 & _ & R2).
  exists (E + o), n. split.
  - rewrite E2 at 2. rewrite turns_sin. replace (E + o - e * sin E - M) with (E - e * sin E - m) by lra. apply Rle_trans with (1 := R1). assert (0 <= THRESH * THRESH) by nra. nra.
  - intros fuel F. rewrite (R2 fuel F). reflexivity.
Qed.

Definition RESIDUAL : R := TINY + THRESH * THRESH.
Lemma kepler_ellipse fuel e M E : 9 / 10 <= e < 1 -> kepler fuel e M = Ret E -> Rabs (E - e * sin E - M) <= RESIDUAL.
Proof.
  intros He. assert (T0 : 0 < THRESH < 1) by (unfold THRESH; lra). assert (R0 : 0 < RESIDUAL) by (unfold RESIDUAL, TINY; nra). unfold kepler. destruct (Reqb_spec M 0) as [->|N].
  { intros H. injection H as <-. rewrite sin_0. replace (0 - e * 0 - 0) with 0 by ring. rewrite Rabs_R0. lra. }
  destruct (Rltb_spec e 1); [|lra]. pose proof (half_turn_ok M) as HT. destruct (within_half_turn M) as [m o]. destruct HT as (E1 & B & k & E2). destruct (Rltb_spec e (9 / 10)); [lra|]. cbv zeta.
  assert (G : forall m' c th x, first_guess e m' = Ret (c, th) -> newton_ellipse 20 fuel e m' th c 1 = Ret x -> Rabs (x - e * sin x - m') <= RESIDUAL).
  { intros m' c th x F Nw. pose proof (thresh_low e He _ _ _ F) as T. pose proof (newton_ellipse_ok fuel e m' th He ltac:(lra) 20 c 1 x) as K. cbv zeta in K. apply Rle_trans with (TINY + e * (th * th)).
    - apply K; [|exact Nw]. rewrite Rabs_R1. intros L. exfalso. lra.
    - unfold RESIDUAL. assert (th * th <= THRESH * THRESH) by nra. nra. }
  intros H. destruct (first_guess e (if Rltb m 0 then - m else m)) as [[c th]| | |] eqn:F; cbn [obind] in H; try discriminate.
  destruct (newton_ellipse 20 fuel e (if Rltb m 0 then - m else m) th c 1) as [x| | |] eqn:Nw; cbn [obind] in H; try discriminate. injection H as <-.
  pose proof (G _ c th x F Nw) as K. destruct (Rltb_spec m 0).
  - replace (o - x) with (- x + o) by ring. rewrite E2 at 2. rewrite turns_sin, sin_neg. replace (- x + o - e * - sin x - M) with (- (x - e * sin x - - m)) by lra. rewrite Rabs_Ropp. exact K.
  - replace (o + x) with (x + o) by ring. rewrite E2 at 2. rewrite turns_sin. replace (x + o - e * sin x - M) with (x - e * sin x - m) by lra. exact K.
Qed.

Lemma kepler_hyperbola fuel e M H : 1 < e < 10 ^ 12 -> kepler fuel e M = Ret H ->
  Rabs (e * sinh H - H - M) <= (TINY + e * ((THRESH * e) * (THRESH * e))) * cosh (Rabs H + 1).
Proof.
  intros He. assert (T0 : 0 < THRESH < 1) by (unfold THRESH; lra). assert (T1 : 0 < TINY) by (unfold TINY; lra). assert (TE : 0 < THRESH * e < 1) by (unfold THRESH; lra).
  assert (P0 : 0 < TINY + e * (THRESH * e * (THRESH * e))) by (apply Rplus_lt_0_compat; [lra|]; repeat apply Rmult_lt_0_compat; lra). unfold kepler. destruct (Reqb_spec M 0) as [->|N].
  { intros X. injection X as <-. rewrite sinh_0. replace (e * 0 - 0 - 0) with 0 by ring. rewrite Rabs_R0. pose proof (cosh_ge_1 (0 + 1)). apply Rmult_le_pos; lra. }
  destruct (Rltb_spec e 1); [lra|]. destruct (Rltb_spec e (9 / 10)); [lra|]. cbv zeta. intros X.
  destruct (first_guess e (if Rltb M 0 then - M else M)) as [[c th]| | |] eqn:F; cbn [obind] in X; try discriminate.
  destruct (newton_hyperbola 20 fuel e (if Rltb M 0 then - M else M) th c 1) as [x| | |] eqn:Nw; cbn [obind] in X; try discriminate. injection X as <-.
  pose proof (thresh_high e ltac:(lra) _ _ _ F) as T.
  assert (G : Rabs (e * sinh x - x - (if Rltb M 0 then - M else M)) <= (TINY + e * ((THRESH * e) * (THRESH * e))) * cosh (Rabs x + 1)).
  { pose proof (newton_hyperbola_ok fuel e (if Rltb M 0 then - M else M) th ltac:(lra) ltac:(lra) 20 c 1 x) as K. cbv zeta in K. apply Rle_trans with ((TINY + e * (th * th)) * cosh (Rabs x + 1)).
    - apply K; [|exact Nw]. rewrite Rabs_R1. intros L. exfalso. lra.
    - pose proof (cosh_ge_1 (Rabs x + 1)). assert (th * th <= THRESH * e * (THRESH * e)) by (apply Rmult_le_compat; lra). apply Rmult_le_compat_r; [lra|]. apply Rplus_le_compat_l. apply Rmult_le_compat_l; lra. }
  destruct (Rltb_spec M 0).
  - replace (0 - x) with (- x) by ring. rewrite sinh_odd, Rabs_Ropp. replace (e * - sinh x - - x - M) with (- (e * sinh x - x - - M)) by ring. rewrite Rabs_Ropp. exact G.
  - replace (0 + x) with x by ring. exact G.
Qed.
