(** Lemmas for C54. *)
From Coq Require Import Lia.
From Verif Require Import TrigBase OrbModel OrbSpec OrbProofs OrbKepler OrbSeries OrbNewton ClaModel ClaSpec.
Local Open Scope R_scope.

Ltac vec := repeat match goal with a : vec3 |- _ => destruct a as [[? ?] ?] end; unfold dot, cross, plus, scale.

(** * Vectors *)
Lemma dot_product_eq a b : dot_product a b = dot a b. Proof. reflexivity. Qed.
Lemma cross_product_eq a b : cross_product a b = cross a b. Proof. reflexivity. Qed.
Lemma length_eq a : vector3_length a = length_of a. Proof. destruct a as [[? ?] ?]. reflexivity. Qed.
Lemma dot_sym a b : dot a b = dot b a. Proof. vec. ring. Qed.
Lemma dot_plus a b c : dot (plus a b) c = dot a c + dot b c. Proof. vec. ring. Qed.
Lemma dot_plus_r a b c : dot c (plus a b) = dot c a + dot c b. Proof. vec. ring. Qed.
Lemma dot_scale s a b : dot (scale s a) b = s * dot a b. Proof. vec. ring. Qed.
Lemma dot_scale_r s a b : dot b (scale s a) = s * dot b a. Proof. vec. ring. Qed.
Lemma cross_l a b : dot (cross a b) a = 0. Proof. vec. ring. Qed.
Lemma cross_r a b : dot (cross a b) b = 0. Proof. vec. ring. Qed.
Lemma cross_shift a b c : dot a (cross b c) = dot (cross a b) c. Proof. vec. ring. Qed.
Lemma cross_cross a b c : cross a (cross b c) = plus (scale (dot a c) b) (scale (- dot a b) c).
Proof. vec. f_equal; [f_equal|]; ring. Qed.
Lemma cross_norm a b : dot (cross a b) (cross a b) = dot a a * dot b b - dot a b * dot a b. Proof. vec. ring. Qed.
Lemma scale_scale s t a : scale s (scale t a) = scale (s * t) a. Proof. vec. f_equal; [f_equal|]; ring. Qed.
Lemma scale_1 a : scale 1 a = a. Proof. vec. f_equal; [f_equal|]; ring. Qed.
Lemma cross_scale_l s a b : cross (scale s a) b = scale s (cross a b). Proof. vec. f_equal; [f_equal|]; ring. Qed.
Lemma cross_scale_r s a b : cross a (scale s b) = scale s (cross a b). Proof. vec. f_equal; [f_equal|]; ring. Qed.
Lemma dot_pos a : 0 <= dot a a. Proof. vec. nra. Qed.
Lemma dot_zero a : dot a a = 0 -> a = (0, 0, 0).
Proof. vec. intros H. assert (r = 0) by nra. assert (r0 = 0) by nra. assert (r1 = 0) by nra. now subst. Qed.
Lemma dot_nonzero a : a <> (0, 0, 0) -> 0 < dot a a.
Proof. intros N. destruct (dot_pos a) as [L|E]; [exact L|]. exfalso. apply N, dot_zero. symmetry. exact E. Qed.
Lemma length_sq a : length_of a * length_of a = dot a a.
Proof. unfold length_of. apply sqrt_sqrt, dot_pos. Qed.
Lemma length_pos a : 0 <= length_of a.
Proof. apply sqrt_pos. Qed.
Lemma length_nonzero a : a <> (0, 0, 0) -> 0 < length_of a.
Proof. intros N. apply sqrt_lt_R0, dot_nonzero, N. Qed.
Lemma over_ok a x : x <> 0 -> over a x = Ret (scale (1 / x) a).
Proof. intros N. destruct a as [[a0 a1] a2]. unfold over, scale. rewrite !c_div_ok by exact N. cbn [obind]. assert (E : forall y, y / x = 1 / x * y) by (intros y; field; exact N). rewrite (E a0), (E a1), (E a2). reflexivity. Qed.
Lemma minus_eq a b : minus a b = plus a (scale (- 1) b).
Proof. vec. unfold minus. f_equal; [f_equal|]; ring. Qed.

(** * Constants of the motion *)
Lemma moving r v : momentum r v <> (0, 0, 0) -> r <> (0, 0, 0) /\ v <> (0, 0, 0).
Proof.
  intros N. split; intros ->; apply N; unfold momentum; vec; (f_equal; [f_equal|]; ring).
Qed.
Lemma ecc_facts gm r v : 0 < gm -> momentum r v <> (0, 0, 0) ->
  let h := momentum r v in let d := length_of r in let e := ecc_vector gm r v in let p := dot h h / gm in
  0 < d /\ 0 < dot v v /\ 0 < p /\ dot e h = 0 /\ dot r e = p - d /\ dot e e = 1 - (2 / d - dot v v / gm) * p.
Proof.
  intros Hg N h d e p. destruct (moving r v N) as [Nr Nv]. assert (D : 0 < d) by (apply length_nonzero, Nr). assert (DD : d * d = dot r r) by apply length_sq.
  pose proof (dot_nonzero _ N) as Hh. fold h in Hh. assert (V0 : 0 < dot v v) by (apply dot_nonzero, Nv).
  assert (Hv : dot v h = 0) by (unfold h, momentum; rewrite dot_sym; apply cross_r). assert (Hr : dot r h = 0) by (unfold h, momentum; rewrite dot_sym; apply cross_l).
  assert (E0 : e = plus (scale (1 / gm) (cross v h)) (scale (- (1 / d)) r)) by reflexivity.
  assert (RC : dot r (cross v h) = dot h h) by (rewrite cross_shift; reflexivity).
  assert (CC : dot (cross v h) (cross v h) = dot v v * dot h h) by (rewrite cross_norm, Hv; ring).
  assert (CR : dot (cross v h) r = dot h h) by (rewrite dot_sym; exact RC).
  split; [exact D|]. split; [exact V0|]. split; [unfold p; apply Rdiv_lt_0_compat; lra|]. split; [|split].
  - rewrite E0, dot_plus, !dot_scale, cross_r, Hr. ring.
  - rewrite E0, dot_plus_r, !dot_scale_r, RC, <- DD. unfold p. field. lra.
  - rewrite E0, dot_plus, !dot_plus_r, !dot_scale, !dot_scale_r, CC, RC, CR, <- DD. unfold p. field. lra.
Qed.

(** The perihelion distance. *)
Lemma perihelion_ok gm e p H : 0 < gm -> 0 < H -> p = H * H / gm -> 0 <= e -> let inv := (1 - e * e) / p in
  perihelion gm e inv H = Ret (p / (1 + e), inv).
Proof.
  intros Hg HH Hp He inv. assert (P : 0 < p) by (rewrite Hp; apply Rdiv_lt_0_compat; nra). unfold perihelion.
  assert (Q : 0 < p / (1 + e)) by (apply Rdiv_lt_0_compat; lra).
  destruct (Rltb_spec e (9 / 10)) as [L|L].
  - assert (I : inv <> 0). { unfold inv. apply Rgt_not_eq. apply Rdiv_lt_0_compat; nra. } rewrite c_div_ok by exact I. cbn [obind].
    replace ((1 - e) / inv) with (p / (1 + e)) by (unfold inv; field; repeat split; nra). destruct (Rltb_spec 0 (p / (1 + e))); [reflexivity|lra].
  - rewrite !c_div_ok by lra. cbn [obind]. replace (1 - inv * H * H / gm) with (e * e).
    2: { replace (inv * H * H / gm) with (inv * p) by (rewrite Hp; field; lra). unfold inv. field. lra. }
    rewrite c_sqrt_ok by nra. cbn [obind]. rewrite sqrt_square by exact He.
    assert (G : 0 < gm / H) by (apply Rdiv_lt_0_compat; lra). assert (S : 0 < gm / H * (1 + e)) by nra.
    destruct (Reqb_spec H 0); [lra|]. destruct (Reqb_spec (gm / H) 0); [lra|]. destruct (Reqb_spec (gm / H * (1 + e)) 0); [lra|]. cbn [orb]. rewrite c_div_ok by lra. cbn [obind].
    assert (E : H / (gm / H * (1 + e)) = p / (1 + e)) by (rewrite Hp; field; lra). rewrite E. destruct (Reqb_spec (p / (1 + e)) 0); [lra|]. rewrite c_div_ok by lra. cbn [obind].
    replace ((1 - e) / (p / (1 + e))) with inv by (unfold inv; field; lra). destruct (Rltb_spec 0 (p / (1 + e))); [reflexivity|lra].
Qed.

(** * remaining_terms( ) *)
Definition zterm (k : nat) (x : R) : R := x ^ (2 * k) / INR (fact (2 * k + 1)).
Lemma zterm_sterm k x : x * zterm k x = sterm k x.
Proof. unfold zterm, sterm. rewrite pow_add, pow_1. pose proof (fact_pos (2 * k + 1)). field. lra. Qed.
Lemma zterm_pos k x : 0 <= zterm k x.
Proof. unfold zterm. rewrite pow_mult. apply Rmult_le_pos; [apply pow_le; nra|left; apply Rinv_0_lt_compat, fact_pos]. Qed.
Lemma zterm_next k x : zterm (S k) x = zterm k x * (x * x / IZR ((2 * Z.of_nat k + 2) * (2 * Z.of_nat k + 2 + 1))).
Proof.
  unfold zterm. replace (2 * S k + 1)%nat with (S (S (2 * k + 1))) by lia. replace (2 * S k)%nat with (S (S (2 * k))) by lia. rewrite !fact_simpl, !mult_INR. cbn [pow].
  assert (E1 : INR (S (2 * k + 1)) = IZR (2 * Z.of_nat k + 2)) by (rewrite INR_IZR_INZ; f_equal; lia). assert (E2 : INR (S (S (2 * k + 1))) = IZR (2 * Z.of_nat k + 2 + 1)) by (rewrite INR_IZR_INZ; f_equal; lia).
  rewrite E1, E2, mult_IZR. pose proof (fact_pos (2 * k + 1)). assert (0 < IZR (2 * Z.of_nat k + 2)) by (apply IZR_lt; lia). assert (0 < IZR (2 * Z.of_nat k + 2 + 1)) by (apply IZR_lt; lia). field. repeat split; lra.
Qed.
Lemma zterm_small x eps : 0 < eps -> exists k, zterm k x <= eps.
Proof.
  intros He. destruct (cv_speed_pow_fact (Rabs x) (eps * Rmin 1 (Rabs x) + (if Req_EM_T x 0 then eps else 0))) as [N HN].
  { destruct (Req_EM_T x 0) as [->|Nx]; [rewrite Rabs_R0, Rmin_right by lra; lra|]. assert (0 < Rabs x) by (apply Rabs_pos_lt; exact Nx). assert (0 < Rmin 1 (Rabs x)) by (apply Rmin_glb_lt; lra). nra. }
  exists (S N). specialize (HN (2 * S N + 1)%nat ltac:(lia)). unfold R_dist in HN. rewrite Rminus_0_r in HN.
  destruct (Req_EM_T x 0) as [->|Nx].
  - unfold zterm. rewrite pow_ne_zero by lia. unfold Rdiv. rewrite Rmult_0_l. lra.
  - assert (A : 0 < Rabs x) by (apply Rabs_pos_lt; exact Nx). assert (E : Rabs x ^ (2 * S N + 1) / INR (fact (2 * S N + 1)) = Rabs x * zterm (S N) x).
    { unfold zterm. rewrite pow_add, pow_1, pow_mult. replace (Rabs x ^ 2) with (x ^ 2) by (rewrite <- !Rsqr_pow2; apply Rsqr_abs). rewrite <- pow_mult. pose proof (fact_pos (2 * S N + 1)). field. lra. }
    rewrite E in HN. pose proof (zterm_pos (S N) x). rewrite Rabs_right in HN by nra. assert (Rmin 1 (Rabs x) <= Rabs x) by apply Rmin_r. assert (eps * Rmin 1 (Rabs x) <= eps * Rabs x) by nra.
    apply Rmult_le_reg_l with (Rabs x); [exact A|]. lra.
Qed.
Fixpoint zsum (g : R) (k : nat) (x : R) : R := match k with O => 0 | S m => zsum g m x + g ^ k * zterm k x end.
Lemma zsum_ssum g k x : x + x * zsum g k x = ssum g (S k) x.
Proof.
  induction k as [|k IH].
  - cbn [zsum ssum pow]. rewrite <- zterm_sterm. unfold zterm. cbn. field.
  - change (zsum g (S k) x) with (zsum g k x + g ^ S k * zterm (S k) x). change (ssum g (S (S k)) x) with (ssum g (S k) x + g ^ S k * sterm (S k) x). rewrite <- IH, <- zterm_sterm. ring.
Qed.
Definition TOL : R := 1 / 10 ^ 30.
Lemma remaining_run g x : Rabs g = 1 -> forall n k, (exists j, (j <= n)%nat /\ zterm (k + j + 1) x <= TOL) -> exists k', (k < k')%nat /\ zterm k' x <= TOL /\ (k' = S k \/ TOL < zterm (k' - 1) x) /\
  forall fuel, (S n <= fuel)%nat -> remaining_terms_loop fuel (g * (x * x)) (zsum g k x) (g ^ k * zterm k x) (2 * Z.of_nat k + 2) = Ret (zsum g k' x).
Proof.
  intros Hg. induction n as [|n IH]; intros k (j & J1 & J2).
  - assert (j = 0%nat) by lia. subst j. replace (k + 0 + 1)%nat with (S k) in J2 by lia. exists (S k). split; [lia|]. split; [exact J2|]. split; [now left|]. intros fuel F. destruct fuel as [|fuel]; [lia|]. cbn [remaining_terms_loop].
    replace (g ^ k * zterm k x * (g * (x * x) / IZR ((2 * Z.of_nat k + 2) * (2 * Z.of_nat k + 2 + 1)))) with (g ^ S k * zterm (S k) x) by (rewrite zterm_next; cbn [pow]; field; apply not_0_IZR; nia).
    cbv zeta. rewrite Rabs_mult, <- RPow_abs, Hg, pow1, Rmult_1_l, Rabs_right by (apply Rle_ge, zterm_pos). fold TOL. destruct (Rltb_spec TOL (zterm (S k) x)); [lra|]. reflexivity.
  - destruct (Rle_lt_dec (zterm (S k) x) TOL) as [L|L].
    + exists (S k). split; [lia|]. split; [exact L|]. split; [now left|]. intros fuel F. destruct fuel as [|fuel]; [lia|]. cbn [remaining_terms_loop].
      replace (g ^ k * zterm k x * (g * (x * x) / IZR ((2 * Z.of_nat k + 2) * (2 * Z.of_nat k + 2 + 1)))) with (g ^ S k * zterm (S k) x) by (rewrite zterm_next; cbn [pow]; field; apply not_0_IZR; nia).
      cbv zeta. rewrite Rabs_mult, <- RPow_abs, Hg, pow1, Rmult_1_l, Rabs_right by (apply Rle_ge, zterm_pos). fold TOL. destruct (Rltb_spec TOL (zterm (S k) x)); [lra|]. reflexivity.
    + destruct (IH (S k)) as (k' & K1 & K2 & K3 & K4).
      { destruct j as [|j]; [replace (k + 0 + 1)%nat with (S k) in J2 by lia; lra|]. exists j. split; [lia|]. replace (S k + j + 1)%nat with (k + S j + 1)%nat by lia. exact J2. }
      exists k'. split; [lia|]. split; [exact K2|]. split; [right; destruct K3 as [->|K3]; [replace (S (S k) - 1)%nat with (S k) by lia; exact L|exact K3]|].
      intros fuel F. destruct fuel as [|fuel]; [lia|]. cbn [remaining_terms_loop].
      replace (g ^ k * zterm k x * (g * (x * x) / IZR ((2 * Z.of_nat k + 2) * (2 * Z.of_nat k + 2 + 1)))) with (g ^ S k * zterm (S k) x) by (rewrite zterm_next; cbn [pow]; field; apply not_0_IZR; nia).
      cbv zeta. rewrite Rabs_mult, <- RPow_abs, Hg, pow1, Rmult_1_l, Rabs_right by (apply Rle_ge, zterm_pos). fold TOL. destruct (Rltb_spec TOL (zterm (S k) x)); [|lra].
      replace (2 * Z.of_nat k + 2 + 2)%Z with (2 * Z.of_nat (S k) + 2)%Z by lia. apply K4. lia.
Qed.
Lemma remaining_ok g x : Rabs g = 1 -> exists n k, (1 <= k)%nat /\ zterm (S k) x <= TOL /\ forall fuel, (n <= fuel)%nat -> remaining_terms fuel (g * (x * x)) = Ret (zsum g k x).
Proof.
  intros Hg. assert (T0 : 0 < TOL) by (unfold TOL; lra). assert (Z0 : zterm 0 x = 1) by (unfold zterm; cbn; field).
  destruct (zterm_small x TOL T0) as [j J]. assert (J1 : (1 <= j)%nat) by (destruct j; [rewrite Z0 in J; unfold TOL in J; lra|lia]).
  destruct (remaining_run g x Hg j 0) as (k & K1 & K2 & K3 & K4).
  { exists (j - 1)%nat. split; [lia|]. replace (0 + (j - 1) + 1)%nat with j by lia. exact J. }
  exists (S j), k. split; [lia|]. split.
  - assert (B : x * x <= IZR ((2 * Z.of_nat (k - 1) + 2) * (2 * Z.of_nat (k - 1) + 2 + 1))).
    { destruct k as [|k]; [lia|]. replace (S k - 1)%nat with k in * by lia. set (N := IZR _). assert (N0 : 0 < N) by (unfold N; apply IZR_lt; nia). destruct (Rle_lt_dec (x * x) N) as [L|L]; [exact L|exfalso].
      rewrite zterm_next in K2. fold N in K2. assert (Q : 1 < x * x / N) by (apply Rmult_lt_reg_r with N; [lra|]; replace (x * x / N * N) with (x * x) by (field; lra); lra).
      pose proof (zterm_pos k x). destruct K3 as [E|K3]; [|nra]. assert (k = 0)%nat by lia. subst k. rewrite Z0 in K2. unfold TOL in K2. lra. }
    rewrite zterm_next. set (N := IZR ((2 * Z.of_nat k + 2) * (2 * Z.of_nat k + 2 + 1))). assert (N1 : x * x <= N) by (apply Rle_trans with (1 := B); apply IZR_le; nia). assert (N0 : 0 < N) by (unfold N; apply IZR_lt; nia).
    assert (x * x / N <= 1) by (apply Rmult_le_reg_r with N; [lra|]; replace (x * x / N * N) with (x * x) by (field; lra); lra). pose proof (zterm_pos k x). assert (0 <= x * x / N) by (apply Rmult_le_pos; [nra|left; apply Rinv_0_lt_compat; lra]). nra.
  - intros fuel F. unfold remaining_terms. specialize (K4 fuel F). cbn [zsum pow] in K4. rewrite Z0, Rmult_1_l in K4. exact K4.
Qed.
Lemma remaining_sin x : exists n s, Rabs (x + x * s - sin x) <= Rabs x * TOL /\ forall fuel, (n <= fuel)%nat -> remaining_terms fuel (- x * x) = Ret s.
Proof.
  destruct (remaining_ok (-1) x) as (n & k & K1 & K2 & K3); [rewrite Rabs_left; lra|]. exists n, (zsum (-1) k x). split.
  - rewrite zsum_ssum. assert (Q : forall y, 0 <= y -> zterm (S k) y <= TOL -> Rabs (ssum (-1) (S k) y - sin y) <= Rabs y * TOL).
    { intros y Hy Hz. rewrite Rabs_minus_sym. apply Rle_trans with (1 := sin_remainder k y Hy). rewrite <- zterm_sterm, (Rabs_right y) by lra. apply Rmult_le_compat_l; lra. }
    destruct (Rle_lt_dec 0 x) as [L|L]; [apply Q; assumption|]. specialize (Q (- x) ltac:(lra)). rewrite ssum_odd, sin_neg in Q. replace (- ssum (-1) (S k) x - - sin x) with (- (ssum (-1) (S k) x - sin x)) in Q by ring. rewrite !Rabs_Ropp in Q. apply Q.
    unfold zterm in *. rewrite pow_mult in *. replace ((- x) ^ 2) with (x ^ 2) by ring. exact K2.
  - intros fuel F. rewrite <- (K3 fuel F). f_equal. ring.
Qed.
Lemma remaining_sinh x : exists n s, Rabs (x + x * s - sinh x) <= Rabs x * TOL * cosh x /\ forall fuel, (n <= fuel)%nat -> remaining_terms fuel (x * x) = Ret s.
Proof.
  destruct (remaining_ok 1 x) as (n & k & K1 & K2 & K3); [rewrite Rabs_right; lra|]. exists n, (zsum 1 k x). split.
  - rewrite zsum_ssum. assert (Q : forall y, 0 <= y -> zterm (S k) y <= TOL -> Rabs (ssum 1 (S k) y - sinh y) <= Rabs y * TOL * cosh y).
    { intros y Hy Hz. rewrite Rabs_minus_sym. destruct (one_sided (S k) y Hy) as [_ [A B]]. rewrite Rabs_right by lra. apply Rle_trans with (1 := B). pose proof (cosh_ge_1 y). apply Rmult_le_compat_r; [lra|]. rewrite <- zterm_sterm, (Rabs_right y) by lra. apply Rmult_le_compat_l; lra. }
    destruct (Rle_lt_dec 0 x) as [L|L]; [apply Q; assumption|]. specialize (Q (- x) ltac:(lra)). rewrite ssum_odd, sinh_odd, cosh_even in Q. replace (- ssum 1 (S k) x - - sinh x) with (- (ssum 1 (S k) x - sinh x)) in Q by ring. rewrite !Rabs_Ropp in Q. apply Q.
    unfold zterm in *. rewrite pow_mult in *. replace ((- x) ^ 2) with (x ^ 2) by ring. exact K2.
  - intros fuel F. rewrite <- (K3 fuel F). f_equal. ring.
Qed.
