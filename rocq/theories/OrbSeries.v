(** Lemmas for C53: the series for nearly parabolic orbits, and Newton's iteration with it. *)
From Coq Require Import Lia.
From Verif Require Import TrigBase OrbModel OrbSpec OrbProofs OrbKepler.
Local Open Scope R_scope.

(** * Partial sums of the sine, cosine and their hyperbolic counterparts *)
Definition sterm (k : nat) (x : R) : R := x ^ (2 * k + 1) / INR (fact (2 * k + 1)).
Definition cterm (k : nat) (x : R) : R := x ^ (2 * k) / INR (fact (2 * k)).
Fixpoint ssum (g : R) (n : nat) (x : R) : R := match n with O => 0 | S m => ssum g m x + g ^ m * sterm m x end.
Fixpoint csum (g : R) (n : nat) (x : R) : R := match n with O => 0 | S m => csum g m x + g ^ m * cterm m x end.

Lemma fact_pos n : 0 < INR (fact n).
Proof. apply lt_0_INR. apply lt_O_fact. Qed.
Lemma d_power n x : derivable_pt_lim (fun y => y ^ S n / INR (fact (S n))) x (x ^ n / INR (fact n)).
Proof.
  pose proof (fact_pos n) as F. replace (x ^ n / INR (fact n)) with (/ INR (fact (S n)) * (INR (S n) * x ^ pred (S n))).
  - pose proof (derivable_pt_lim_scal (fun y => y ^ S n) (/ INR (fact (S n))) x _ (derivable_pt_lim_pow x (S n))) as D. unfold mult_real_fct in D.
    intros eps He. destruct (D eps He) as [dl Hd]. exists dl. intros h H1 H2. unfold Rdiv in *. rewrite (Rmult_comm _ (/ INR (fact (S n)))), (Rmult_comm (x ^ S n) (/ INR (fact (S n)))). apply Hd; assumption.
  - cbn [pred]. rewrite fact_simpl, mult_INR. field. split; [lra|]. apply not_0_INR. lia.
Qed.
Lemma d_sterm k x : derivable_pt_lim (sterm k) x (cterm k x).
Proof. unfold sterm, cterm. rewrite Nat.add_1_r. apply d_power. Qed.
Lemma d_cterm k x : derivable_pt_lim (cterm (S k)) x (sterm k x).
Proof. unfold sterm, cterm. replace (2 * S k)%nat with (S (2 * k + 1)) by lia. apply d_power. Qed.
Lemma d_ssum g n x : derivable_pt_lim (ssum g n) x (csum g n x).
Proof.
  induction n as [|n IH]; [apply derivable_pt_lim_const|]. cbn [ssum csum]. apply (derivable_pt_lim_plus (ssum g n) (fun y => g ^ n * sterm n y)); [exact IH|]. apply (derivable_pt_lim_scal (sterm n)), d_sterm.
Qed.
Lemma d_csum g n x : derivable_pt_lim (csum g (S n)) x (g * ssum g n x).
Proof.
  induction n as [|n IH].
  - cbn [csum ssum]. replace (g * 0) with (0 + g ^ 0 * 0) by ring. apply (derivable_pt_lim_plus (fun _ => 0) (fun y => g ^ 0 * cterm 0 y)); [apply derivable_pt_lim_const|].
    apply (derivable_pt_lim_scal (cterm 0)). apply (derivable_pt_lim_const (1 / 1)).
  - change (csum g (S (S n))) with (fun y => csum g (S n) y + g ^ S n * cterm (S n) y). cbn [ssum]. replace (g * (ssum g n x + g ^ n * sterm n x)) with (g * ssum g n x + g ^ S n * sterm n x) by (cbn [pow]; ring).
    apply (derivable_pt_lim_plus (csum g (S n)) (fun y => g ^ S n * cterm (S n) y)); [exact IH|]. apply (derivable_pt_lim_scal (cterm (S n))), d_cterm.
Qed.
Lemma sterm_0 k : sterm k 0 = 0.
Proof. unfold sterm. rewrite pow_i by lia. unfold Rdiv. ring. Qed.
Lemma cterm_0 k : cterm (S k) 0 = 0.
Proof. unfold cterm. rewrite pow_i by lia. unfold Rdiv. ring. Qed.
Lemma ssum_0 g n : ssum g n 0 = 0.
Proof. induction n as [|n IH]; [reflexivity|]. cbn [ssum]. rewrite IH, sterm_0. ring. Qed.
Lemma csum_0 g n : csum g (S n) 0 = 1.
Proof. induction n as [|n IH]; [cbn [csum]; unfold cterm; cbn; field|]. change (csum g (S (S n)) 0) with (csum g (S n) 0 + g ^ S n * cterm (S n) 0). rewrite IH, cterm_0. ring. Qed.
Lemma sterm_pos k x : 0 <= x -> 0 <= sterm k x.
Proof. intros H. unfold sterm. apply Rmult_le_pos; [now apply pow_le|]. left. apply Rinv_0_lt_compat, fact_pos. Qed.
Lemma cterm_pos k x : 0 <= x -> 0 <= cterm k x.
Proof. intros H. unfold cterm. apply Rmult_le_pos; [now apply pow_le|]. left. apply Rinv_0_lt_compat, fact_pos. Qed.

(** Functions that start at 0 and increase. *)
Lemma from_0 f f' : (forall x, derivable_pt_lim f x (f' x)) -> (forall x, 0 <= x -> 0 <= f' x) -> f 0 = 0 -> forall x, 0 <= x -> 0 <= f x.
Proof.
  intros D P Z x Hx. destruct (Req_dec x 0) as [->|N]; [lra|]. destruct (MVT_cor2 f f' 0 x) as (c & E & I); [lra|intros; apply D|]. pose proof (P c ltac:(lra)). rewrite Z in E. nra.
Qed.

Lemma d_minus f g x l m : derivable_pt_lim f x l -> derivable_pt_lim g x m -> derivable_pt_lim (fun y => f y - g y) x (l - m).
Proof. apply derivable_pt_lim_minus. Qed.
Lemma d_scal a f x l : derivable_pt_lim f x l -> derivable_pt_lim (fun y => a * f y) x (a * l).
Proof. apply derivable_pt_lim_scal. Qed.

(** The partial sums lie on alternating sides. *)
Lemma alternating n : forall x, 0 <= x -> 0 <= (-1) ^ S n * (cos x - csum (-1) (S n) x) /\ 0 <= (-1) ^ S n * (sin x - ssum (-1) (S n) x).
Proof.
  assert (B : forall n, (forall x, 0 <= x -> 0 <= (-1) ^ S n * (cos x - csum (-1) (S n) x)) -> forall x, 0 <= x -> 0 <= (-1) ^ S n * (sin x - ssum (-1) (S n) x)).
  { intros m H. apply (from_0 _ (fun x => (-1) ^ S m * (cos x - csum (-1) (S m) x))); [|exact H|rewrite sin_0, ssum_0; ring].
    intros x. apply d_scal, d_minus; [apply derivable_pt_lim_sin|apply d_ssum]. }
  induction n as [|n IH].
  - assert (A : forall x, 0 <= x -> 0 <= (-1) ^ 1 * (cos x - csum (-1) 1 x)). { intros x _. cbn [csum]. unfold cterm. cbn. pose proof (COS_bound x). lra. }
    intros x Hx. split; [exact (A x Hx)|exact (B 0%nat A x Hx)].
  - assert (A : forall x, 0 <= x -> 0 <= (-1) ^ S (S n) * (cos x - csum (-1) (S (S n)) x)).
    { apply (from_0 _ (fun x => (-1) ^ S (S n) * (- sin x - -1 * ssum (-1) (S n) x))).
      - intros x. apply d_scal, d_minus; [apply derivable_pt_lim_cos|apply d_csum].
      - intros x Hx. destruct (IH x Hx) as [_ K]. replace ((-1) ^ S (S n) * (- sin x - -1 * ssum (-1) (S n) x)) with ((-1) ^ S n * (sin x - ssum (-1) (S n) x)); [exact K|]. cbn [pow]. ring.
      - rewrite cos_0, csum_0. ring. }
    intros x Hx. split; [exact (A x Hx)|exact (B (S n) A x Hx)].
Qed.
Lemma sign_cases n : (-1) ^ n = 1 \/ (-1) ^ n = -1.
Proof. induction n as [|n [IH|IH]]; cbn [pow]; [left; reflexivity|right; rewrite IH; ring|left; rewrite IH; ring]. Qed.
Lemma sin_remainder n x : 0 <= x -> Rabs (sin x - ssum (-1) (S n) x) <= sterm (S n) x.
Proof.
  intros Hx. destruct (alternating n x Hx) as [_ A]. destruct (alternating (S n) x Hx) as [_ B].
  change (ssum (-1) (S (S n)) x) with (ssum (-1) (S n) x + (-1) ^ S n * sterm (S n) x) in B. set (d := sin x - ssum (-1) (S n) x) in *.
  replace (sin x - (ssum (-1) (S n) x + (-1) ^ S n * sterm (S n) x)) with (d - (-1) ^ S n * sterm (S n) x) in B by (unfold d; ring).
  destruct (sign_cases (S n)) as [E|E]; rewrite E in *; change ((-1) ^ S (S n)) with (-1 * (-1) ^ S n) in B; rewrite E in B; apply Rabs_le; lra.
Qed.

Lemma d_sinh x : derivable_pt_lim sinh x (cosh x).
Proof. apply derivable_pt_lim_sinh. Qed.
Lemma d_cosh x : derivable_pt_lim cosh x (sinh x).
Proof. apply derivable_pt_lim_cosh. Qed.
Lemma sinh_pos x : 0 <= x -> 0 <= sinh x.
Proof. apply (from_0 sinh cosh); [apply d_sinh|intros y _; pose proof (cosh_ge_1 y); lra|apply sinh_0]. Qed.
Lemma d_mult f g x l m : derivable_pt_lim f x l -> derivable_pt_lim g x m -> derivable_pt_lim (fun y => f y * g y) x (l * g x + f x * m).
Proof. apply derivable_pt_lim_mult. Qed.
Lemma one_sided n : forall x, 0 <= x -> (0 <= cosh x - csum 1 n x <= cterm n x * cosh x) /\ (0 <= sinh x - ssum 1 n x <= sterm n x * cosh x).
Proof.
  assert (B : forall n, (forall x, 0 <= x -> 0 <= cosh x - csum 1 n x <= cterm n x * cosh x) -> forall x, 0 <= x -> 0 <= sinh x - ssum 1 n x <= sterm n x * cosh x).
  { intros m H x Hx. split.
    - revert x Hx. apply (from_0 _ (fun x => cosh x - csum 1 m x)); [intros x; apply d_minus; [apply d_sinh|apply d_ssum]|intros x Hx; apply (H x Hx)|rewrite sinh_0, ssum_0; ring].
    - cut (0 <= sterm m x * cosh x - (sinh x - ssum 1 m x)); [lra|]. revert x Hx. apply (from_0 _ (fun x => (cterm m x * cosh x + sterm m x * sinh x) - (cosh x - csum 1 m x))).
      + intros x. apply d_minus; [apply d_mult; [apply d_sterm|apply d_cosh]|apply d_minus; [apply d_sinh|apply d_ssum]].
      + intros x Hx. pose proof (H x Hx). pose proof (Rmult_le_pos _ _ (sterm_pos m x Hx) (sinh_pos x Hx)). lra.
      + rewrite sterm_0, sinh_0, ssum_0. ring. }
  induction n as [|n IH].
  - assert (A : forall x, 0 <= x -> 0 <= cosh x - csum 1 0 x <= cterm 0 x * cosh x). { intros x _. cbn [csum]. unfold cterm. cbn. pose proof (cosh_ge_1 x). lra. }
    intros x Hx. split; [exact (A x Hx)|exact (B 0%nat A x Hx)].
  - assert (A : forall x, 0 <= x -> 0 <= cosh x - csum 1 (S n) x <= cterm (S n) x * cosh x).
    { intros x Hx. split.
      - revert x Hx. apply (from_0 _ (fun x => sinh x - 1 * ssum 1 n x)); [intros x; apply d_minus; [apply d_cosh|apply d_csum]|intros x Hx; destruct (IH x Hx); lra|rewrite cosh_0, csum_0; ring].
      - cut (0 <= cterm (S n) x * cosh x - (cosh x - csum 1 (S n) x)); [lra|]. revert x Hx. apply (from_0 _ (fun x => (sterm n x * cosh x + cterm (S n) x * sinh x) - (sinh x - 1 * ssum 1 n x))).
        + intros x. apply d_minus; [apply d_mult; [apply d_cterm|apply d_cosh]|apply d_minus; [apply d_cosh|apply d_csum]].
        + intros x Hx. destruct (IH x Hx) as [_ K]. pose proof (Rmult_le_pos _ _ (cterm_pos (S n) x Hx) (sinh_pos x Hx)). lra.
        + rewrite cterm_0, cosh_0, csum_0. ring. }
    intros x Hx. split; [exact (A x Hx)|exact (B (S n) A x Hx)].
Qed.

(** * The series in near_parabolic( ) *)
Lemma sterm_next k x : sterm (S k) x = sterm k x * (x * x / IZR ((2 * Z.of_nat k + 2) * (2 * Z.of_nat k + 2 + 1))).
Proof.
  unfold sterm. replace (2 * S k + 1)%nat with (S (S (2 * k + 1))) by lia. rewrite !fact_simpl, !mult_INR. cbn [pow].
  assert (E1 : INR (S (2 * k + 1)) = IZR (2 * Z.of_nat k + 2)) by (rewrite INR_IZR_INZ; f_equal; lia). assert (E2 : INR (S (S (2 * k + 1))) = IZR (2 * Z.of_nat k + 2 + 1)) by (rewrite INR_IZR_INZ; f_equal; lia).
  rewrite E1, E2, mult_IZR. pose proof (fact_pos (2 * k + 1)) as F. assert (IZR (2 * Z.of_nat k + 2) <> 0) by (apply not_0_IZR; lia). assert (IZR (2 * Z.of_nat k + 2 + 1) <> 0) by (apply not_0_IZR; lia). field. repeat split; lra.
Qed.
Definition TINY : R := 1 / 10 ^ 15.
Lemma series_loop fuel g e x : Rabs g = 1 -> forall k p, (1 <= k)%nat -> (k = 1%nat \/ TINY < Rabs (e * sterm (k - 1) x)) ->
  near_parabolic_loop fuel (g * (x * x)) (e * g ^ k * sterm k x) (x - e * ssum g (S k) x) (2 * Z.of_nat k + 2) = Ret p ->
  exists k', (1 <= k')%nat /\ (k' = 1%nat \/ TINY < Rabs (e * sterm (k' - 1) x)) /\ Rabs (e * sterm k' x) <= TINY /\ p = x - e * ssum g (S k') x.
Proof.
  intros Hg. assert (Gk : forall k, Rabs (g ^ k) = 1) by (intros k; rewrite <- RPow_abs, Hg; apply pow1).
  assert (T : forall k, Rabs (e * g ^ k * sterm k x) = Rabs (e * sterm k x)) by (intros k; rewrite !Rabs_mult, Gk; ring).
  induction fuel as [|fuel IH]; intros k p Hk Hp H; cbn [near_parabolic_loop] in H; fold TINY in H; rewrite T in H; destruct (Rltb_spec TINY (Rabs (e * sterm k x))) as [L|L]; try discriminate.
  - injection H as <-. exists k. repeat split; try assumption. lra.
  - apply (IH (S k) p); [lia|right; replace (S k - 1)%nat with k by lia; exact L|].
    replace (2 * Z.of_nat (S k) + 2)%Z with (2 * Z.of_nat k + 2 + 2)%Z by lia. rewrite <- H. clear H IH.
    assert (E : e * g ^ S k * sterm (S k) x = e * g ^ k * sterm k x * (g * (x * x) / IZR ((2 * Z.of_nat k + 2) * (2 * Z.of_nat k + 2 + 1)))). { rewrite sterm_next. cbn [pow]. unfold Rdiv. ring. }
    f_equal; [exact E|]. rewrite <- E. change (ssum g (S (S k)) x) with (ssum g (S k) x + g ^ S k * sterm (S k) x). ring.
  - injection H as <-. exists k. repeat split; try assumption. lra.
Qed.
Lemma sterm_odd k x : sterm k (- x) = - sterm k x.
Proof.
  unfold sterm. assert (E : (- x) ^ (2 * k + 1) = - x ^ (2 * k + 1)). { rewrite !pow_add, !pow_1. rewrite (pow_mult (- x)), (pow_mult x). replace ((- x) ^ 2) with (x ^ 2) by ring. ring. } rewrite E. unfold Rdiv. ring.
Qed.
Lemma ssum_odd g n x : ssum g n (- x) = - ssum g n x.
Proof. induction n as [|n IH]; cbn [ssum]; [ring|]. rewrite IH, sterm_odd. ring. Qed.

(** The first term left out is tiny, too. *)
Lemma next_tiny e x k : 9 / 10 <= e -> 0 <= x -> (1 <= k)%nat -> (k = 1%nat \/ TINY < Rabs (e * sterm (k - 1) x)) -> Rabs (e * sterm k x) <= TINY -> e * sterm (S k) x <= TINY.
Proof.
  intros He Hx Hk Hp Ht. pose proof (sterm_pos k x Hx) as P. rewrite Rabs_right in Ht by nra.
  set (N := IZR ((2 * Z.of_nat k + 2) * (2 * Z.of_nat k + 2 + 1))). assert (HN : 20 <= N) by (unfold N; apply IZR_le; nia).
  assert (X : x * x <= N).
  { destruct Hp as [->|Hp].
    - unfold sterm in Ht. cbn [Nat.mul Nat.add fact pow] in Ht. destruct (Rle_dec x 1) as [L|L]; [nra|]. exfalso. unfold TINY in Ht. cbn [INR] in Ht. assert (1 < x * (x * (x * 1))) by nra. nra.
    - destruct k as [|k]; [lia|]. replace (S k - 1)%nat with k in Hp by lia. pose proof (sterm_pos k x Hx) as P'. rewrite Rabs_right in Hp by nra. rewrite sterm_next in Ht.
      set (N' := IZR ((2 * Z.of_nat k + 2) * (2 * Z.of_nat k + 2 + 1))) in *. assert (HN' : 0 < N' <= N) by (unfold N', N; split; [apply IZR_lt; nia|apply IZR_le; nia]).
      destruct (Rle_dec (x * x) N') as [L|L]; [lra|]. exfalso. assert (1 < x * x / N') by (apply Rmult_lt_reg_r with N'; [lra|]; unfold Rdiv; rewrite Rmult_assoc, Rinv_l, Rmult_1_r by lra; lra).
      assert (0 < TINY) by (unfold TINY; lra). assert (0 < e * sterm k x) by lra. nra. }
  rewrite sterm_next. fold N. assert (x * x / N <= 1) by (apply Rmult_le_reg_r with N; [lra|]; unfold Rdiv; rewrite Rmult_assoc, Rinv_l, Rmult_1_r by lra; lra).
  assert (0 <= e * sterm k x) by nra. assert (0 <= x * x / N) by (apply Rmult_le_pos; [nra|left; apply Rinv_0_lt_compat; lra]). nra.
Qed.
Lemma near_sum fuel x e p : near_parabolic fuel x e = Ret p ->
  let g := if Rltb 1 e then 1 else -1 in
  exists k, (1 <= k)%nat /\ (k = 1%nat \/ TINY < Rabs (e * sterm (k - 1) x)) /\ Rabs (e * sterm k x) <= TINY /\ p = x - e * ssum g (S k) x.
Proof.
  intros H g. apply (series_loop fuel g e x) with (k := 1%nat); [unfold g; destruct (Rltb 1 e); [apply Rabs_R1|rewrite Rabs_left; lra]|lia|left; reflexivity|]. rewrite <- H. unfold near_parabolic.
  assert (E : (if Rltb 1 e then x * x else - x * x) = g * (x * x)) by (unfold g; destruct (Rltb 1 e); ring). rewrite E. f_equal; [unfold sterm; cbn; field|]. cbn [ssum]. unfold sterm; cbn. field.
Qed.
Lemma near_ellipse fuel x e p : 9 / 10 <= e < 1 -> near_parabolic fuel x e = Ret p -> Rabs (p - (x - e * sin x)) <= TINY.
Proof.
  intros He H. destruct (near_sum _ _ _ _ H) as (k & K1 & K2 & K3 & ->). destruct (Rltb_spec 1 e) as [G|_]; [lra|].
  assert (Q : forall y, 0 <= y -> (k = 1%nat \/ TINY < Rabs (e * sterm (k - 1) y)) -> Rabs (e * sterm k y) <= TINY -> Rabs (y - e * ssum (-1) (S k) y - (y - e * sin y)) <= TINY).
  { intros y Hy A B. replace (y - e * ssum (-1) (S k) y - (y - e * sin y)) with (e * (sin y - ssum (-1) (S k) y)) by ring. rewrite Rabs_mult, (Rabs_right e) by lra.
    pose proof (sin_remainder k y Hy). pose proof (next_tiny e y k ltac:(lra) Hy K1 A B). nra. }
  destruct (Rle_dec 0 x) as [L|L]; [now apply Q|]. specialize (Q (- x) ltac:(lra)). rewrite !sterm_odd, ssum_odd, sin_neg in Q.
  replace (e * - sterm (k - 1) x) with (- (e * sterm (k - 1) x)) in Q by ring. replace (e * - sterm k x) with (- (e * sterm k x)) in Q by ring. rewrite !Rabs_Ropp in Q. specialize (Q K2 K3).
  replace (- x - e * - ssum (-1) (S k) x - (- x - e * - sin x)) with (- (x - e * ssum (-1) (S k) x - (x - e * sin x))) in Q by ring. rewrite Rabs_Ropp in Q. exact Q.
Qed.
Lemma sinh_odd x : sinh (- x) = - sinh x.
Proof. unfold sinh. rewrite Ropp_involutive. field. Qed.
Lemma cosh_even x : cosh (- x) = cosh x.
Proof. unfold cosh. rewrite Ropp_involutive. field. Qed.
Lemma near_hyperbola fuel x e p : 1 < e -> near_parabolic fuel x e = Ret p -> Rabs (p - (x - e * sinh x)) <= TINY * cosh x.
Proof.
  intros He H. destruct (near_sum _ _ _ _ H) as (k & K1 & K2 & K3 & ->). destruct (Rltb_spec 1 e) as [_|G]; [|lra].
  assert (Q : forall y, 0 <= y -> (k = 1%nat \/ TINY < Rabs (e * sterm (k - 1) y)) -> Rabs (e * sterm k y) <= TINY -> Rabs (y - e * ssum 1 (S k) y - (y - e * sinh y)) <= TINY * cosh y).
  { intros y Hy A B. replace (y - e * ssum 1 (S k) y - (y - e * sinh y)) with (e * (sinh y - ssum 1 (S k) y)) by ring. rewrite Rabs_mult, (Rabs_right e) by lra.
    destruct (one_sided (S k) y Hy) as [_ O]. rewrite Rabs_right by lra. pose proof (next_tiny e y k ltac:(lra) Hy K1 A B). pose proof (cosh_ge_1 y). nra. }
  destruct (Rle_dec 0 x) as [L|L]; [now apply Q|]. specialize (Q (- x) ltac:(lra)). rewrite !sterm_odd, ssum_odd, sinh_odd, cosh_even in Q.
  replace (e * - sterm (k - 1) x) with (- (e * sterm (k - 1) x)) in Q by ring. replace (e * - sterm k x) with (- (e * sterm k x)) in Q by ring. rewrite !Rabs_Ropp in Q. specialize (Q K2 K3).
  replace (- x - e * - ssum 1 (S k) x - (- x - e * - sinh x)) with (- (x - e * ssum 1 (S k) x - (x - e * sinh x))) in Q by ring. rewrite Rabs_Ropp in Q. exact Q.
Qed.
