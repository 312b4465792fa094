(** Proofs of the theorems stated in [PropSpline]. *)
From Coq Require Import Lia.
From Verif Require Import RBase SplineModel SplineSpec SplineProofs SplineCubic.
Open Scope list_scope.

Lemma clamp_in m i : (4 <= m)%Z -> (1 <= clamp m i <= m - 3)%Z.
Proof. intros H. unfold clamp. destruct (Z.ltb_spec i 1); [lia|]. destruct (Z.ltb_spec (m - 3) i); lia. Qed.
Lemma clamp_id m i : (1 <= i <= m - 3)%Z -> clamp m i = i.
Proof. intros H. unfold clamp. destruct (Z.ltb_spec i 1); [lia|]. destruct (Z.ltb_spec (m - 3) i); lia. Qed.
Lemma clamp_lo m i : (i <= 1)%Z -> (4 <= m)%Z -> clamp m i = 1%Z.
Proof. intros H M. unfold clamp. destruct (Z.ltb_spec i 1); [lia|]. destruct (Z.ltb_spec (m - 3) i); lia. Qed.
Lemma clamp_hi m i : (m - 3 <= i)%Z -> (4 <= m)%Z -> clamp m i = (m - 3)%Z.
Proof. intros H M. unfold clamp. destruct (Z.ltb_spec i 1); [lia|]. destruct (Z.ltb_spec (m - 3) i); lia. Qed.
Lemma int_IZR i : Int_part (IZR i) = i.
Proof. apply IntP_unique. lra. Qed.
Lemma IZR_range i m : (0 <= i < m)%Z -> (m <= 2147483648)%Z -> -2147483648 <= IZR i < 2147483648.
Proof. intros H M. split; [apply (IZR_le (-2147483648)); lia|apply (IZR_lt _ 2147483648); lia]. Qed.

(** Sums and products of polynomials. *)
Fixpoint padd (p q : list R) : list R :=
  match p, q with [], _ => q | _, [] => p | a :: p, b :: q => (a + b) :: padd p q end.
Lemma padd_val p : forall q x, poly (padd p q) x = poly p x + poly q x.
Proof. induction p as [|a p IH]; intros [|b q] x; cbn; try ring. rewrite IH. ring. Qed.
Lemma padd_len p : forall q, length (padd p q) = Nat.max (length p) (length q).
Proof. induction p as [|a p IH]; intros [|b q]; cbn; try lia. rewrite IH. reflexivity. Qed.
Lemma pscale_val k p x : poly (map (Rmult k) p) x = k * poly p x.
Proof. induction p as [|a p IH]; cbn; [ring|]. rewrite IH. ring. Qed.
Definition plin (a : R) (p : list R) : list R := padd (0 :: p) (map (Rmult (- a)) p).
Lemma plin_val a p x : poly (plin a p) x = (x - a) * poly p x.
Proof. unfold plin. rewrite padd_val, pscale_val. cbn. ring. Qed.
Lemma plin_len a p : length (plin a p) = S (length p).
Proof. unfold plin. rewrite padd_len, map_length. change (length (0 :: p)) with (S (length p)). lia. Qed.
Lemma prod_poly a n : exists p, length p = S n /\ forall x, poly p (a + x) = cc n x.
Proof.
  induction n as [|n (p & L & H)].
  - exists [1]. split; [reflexivity|]. intros x. cbn. ring.
  - exists (plin (a + INR n) p). split; [rewrite plin_len, L; reflexivity|]. intros x. rewrite plin_val, H. cbn. ring.
Qed.
Lemma cc_zero n i : (i < n)%nat -> cc n (INR i) = 0.
Proof.
  induction n; intros H; [lia|]. cbn. destruct (Nat.eq_dec i n) as [->|]; [ring|]. rewrite IHn by lia. ring.
Qed.
Lemma interp_exists a (y : nat -> R) n : exists p, (length p <= n)%nat /\ forall i, (i < n)%nat -> poly p (a + INR i) = y i.
Proof.
  induction n as [|n (p & L & H)].
  - exists []. split; [apply le_n|]. intros i Hi. inversion Hi.
  - destruct (prod_poly a n) as (q & Lq & Hq). pose proof (cc_off n (INR n) (off_nat n)) as N.
    exists (padd p (map (Rmult ((y n - poly p (a + INR n)) / cc n (INR n))) q)). split.
    { rewrite padd_len, map_length, Lq. apply Nat.max_lub; [apply le_S, L|apply le_n]. }
    intros i Hi. rewrite padd_val, pscale_val, Hq. destruct (Nat.eq_dec i n) as [->|].
    + field. assumption.
    + rewrite (cc_zero n i), (H i) by lia. ring.
Qed.
Definition through (t : list R) (w : Z) (n : nat) (p : list R) : Prop :=
  (length p <= n)%nat /\ forall i, (w <= i < w + Z.of_nat n)%Z -> poly p (IZR i) = entry t i.
Lemma through_exists t w n : exists p, through t w n p.
Proof.
  destruct (interp_exists (IZR w) (fun i => entry t (w + Z.of_nat i)) n) as (p & L & H). exists p. split; [assumption|].
  intros i Hi. specialize (H (Z.to_nat (i - w)) ltac:(lia)). rewrite INR_IZR_INZ, <- plus_IZR, Z2Nat.id in H by lia.
  replace (w + (i - w))%Z with i in H by lia. exact H.
Qed.
Lemma floor_half x n : - 1000000000 <= x <= 1000000000 -> (1 <= n <= 2000000000)%Z ->
  floor_int (x - IZR n / 2) = Ret (Int_part (x - IZR n / 2)) /\ (Int_part (x - IZR n / 2) < 2147483647)%Z.
Proof.
  intros Hx Hn. assert (1 <= IZR n <= 2000000000) by (split; [apply (IZR_le 1)|apply (IZR_le _ 2000000000)]; lia).
  split; [apply floor_ok; lra|]. pose proof (IntP (x - IZR n / 2)). apply lt_IZR. lra.
Qed.
Lemma lagrange_all t n x w p : let m := Z.of_nat (length t) in (1 <= Z.of_nat n <= m)%Z -> (Z.of_nat n <= 2000000000)%Z ->
  - 1000000000 <= x <= 1000000000 -> window m (Z.of_nat n) x w -> through t w n p ->
  lagrange_value t m x (Z.of_nat n) = Ret (poly p x).
Proof.
  intros m Hn Hb Hx Hw [Lp Hp]. destruct (floor_half x (Z.of_nat n) Hx ltac:(lia)) as [F1 F2].
  unfold lagrange_value. rewrite F1. cbn [obind]. destruct (Z.ltb_spec (Int_part (x - IZR (Z.of_nat n) / 2)) 2147483647); [|lia]. cbn [obind].
  pose proof (clampw_window m (Z.of_nat n) x ltac:(lia)) as Hw'.
  pose proof (window_unique _ _ _ _ _ Hw Hw') as Ew.
  destruct (grid_test m x Hx ltac:(lia)) as (i & -> & C); cbn [obind]; destruct C as [(G & Ex & Hi & ->)|(G & ->)].
  - rewrite rd_ok by (fold m; lia). f_equal. rewrite Ex. symmetry. apply Hp.
    destruct Hw as (W0 & W1 & W2).
    assert (1 <= IZR (Z.of_nat n)) by (apply (IZR_le 1); lia).
    split.
    + destruct (Z.lt_ge_cases 0 w); [|lia]. specialize (W1 ltac:(lia)). apply Z.lt_succ_r. apply lt_IZR. rewrite succ_IZR. lra.
    + destruct (Z.lt_ge_cases w (m - Z.of_nat n)); [|lia]. specialize (W2 ltac:(lia)). apply lt_IZR. rewrite plus_IZR. lra.
  - rewrite (off_ok false t x n _ w) by (try assumption; try apply Hw; lia). cbn [obind]. f_equal. fold m.
    assert (Ho : off n (x - IZR w)) by (apply (off_grid_off m); [apply Hw|destruct Hw; lia|assumption]).
    pose proof (cc_off _ _ Ho) as Nc.
    rewrite (sum_ext _ (fun i => poly p (IZR w + INR i) / (tt n i * (x - IZR w - INR i)))).
    + rewrite lagrange_sum by assumption. replace (IZR w + (x - IZR w)) with x by ring. field. assumption.
    + intros j Hj. f_equal. symmetry. rewrite INR_IZR_INZ, <- plus_IZR. apply Hp. lia.
Qed.

Lemma C36_cubic_in_bounds_proof :
  forall t x, (4 <= length t)%nat -> - 2147483648 <= x < 2147483648 ->
  exists v e, cubic_spline_interpolate_within_table t (Z.of_nat (length t)) x = Ret (v, e).
Proof.
  intros t x Ht Hx. rewrite cubic_eq by (assumption || lia). eauto.
Qed.

Lemma C36_cubic_short_refuted_proof :
  forall t x, (length t < 4)%nat -> - 2147483648 <= x < 2147483648 ->
  cubic_spline_interpolate_within_table t (Z.of_nat (length t)) x = UB.
Proof.
  intros t x Ht Hx. unfold cubic_spline_interpolate_within_table. rewrite floor_ok by assumption. cbn [obind].
  set (z := Int_part x). set (m := Z.of_nat (length t)). assert (Hm : (m < 4)%Z) by lia.
  assert (forall i e, (i = 1 \/ i <= 0)%Z -> (let '(idx, err_code) := (i, e) in
    let x := x - IZR idx in
    do t1 <- rd t (idx + 1); do tm <- rd t (idx - 1); do t0 <- rd t idx; do t2 <- rd t (idx + 2);
    let c := (t1 - tm) * (1 / 2) in let y1 := t1 - t0 in let a := (t2 - t0) * (1 / 2) - 2 * y1 + c in
    let b := y1 - a - c in Ret (t0 + x * (c + x * (b + x * a)), err_code : Z)) = UB) as H.
  { intros i e Hi. cbv iota zeta. 
    destruct (rd t (i + 1)) eqn:E1; unfold rd in E1; destruct (_ && _)%bool in E1; try discriminate; [|reflexivity]. cbn [obind].
    destruct Hi as [->|Hi]; [|rewrite (rd_ub t (i - 1)) by lia; reflexivity].
    rewrite (rd_ub t (1 + 2)) by (fold m; lia).
    destruct (rd t (1 - 1)) eqn:E2; unfold rd in E2; destruct (_ && _)%bool in E2; try discriminate; [|reflexivity]. cbn [obind].
    destruct (rd t 1) eqn:E3; unfold rd in E3; destruct (_ && _)%bool in E3; try discriminate; reflexivity. }
  destruct (Z.ltb_spec z 1); [apply H; lia|]. destruct (Z.ltb_spec (m - 3) z); [apply H; lia|]. lia.
Qed.

Lemma C36_cubic_nodes_partial_proof :
  forall t i, (4 <= length t)%nat -> (Z.of_nat (length t) <= 2147483648)%Z -> (1 <= i <= Z.of_nat (length t) - 2)%Z ->
  exists e, cubic_spline_interpolate_within_table t (Z.of_nat (length t)) (IZR i) = Ret (entry t i, e).
Proof.
  intros t i Ht Hm Hi. rewrite cubic_eq; [|lia|apply (IZR_range i (Z.of_nat (length t))); lia]. rewrite int_IZR.
  eexists. f_equal. f_equal. destruct (Z.eq_dec i (Z.of_nat (length t) - 2)) as [->|].
  - rewrite clamp_hi by lia. set (m := Z.of_nat (length t)) in *. replace (m - 2)%Z with (m - 3 + 1)%Z by lia. apply K_next.
  - rewrite clamp_id by lia. apply K_node.
Qed.

Lemma C36_cubic_end_nodes_proof :
  forall t, (4 <= length t)%nat -> (Z.of_nat (length t) <= 2147483648)%Z ->
  let n := Z.of_nat (length t) in let third i := entry t (i + 3) - 3 * entry t (i + 2) + 3 * entry t (i + 1) - entry t i in
  (exists e, cubic_spline_interpolate_within_table t n 0 = Ret (entry t 0 - third 0%Z, e)) /\
  (exists e, cubic_spline_interpolate_within_table t n (IZR (n - 1)) = Ret (entry t (n - 1) + third (n - 4)%Z, e)).
Proof.
  intros t Ht Hm n third. split.
  - rewrite cubic_eq by (lia || lra). rewrite (int_IZR 0). rewrite clamp_lo by lia. eexists. f_equal. f_equal.
    unfold K, Kb, Ka, Kc, third. change (1 + 2)%Z with (0 + 3)%Z. change (1 + 1)%Z with (0 + 2)%Z.
    change (1 - 1)%Z with 0%Z. change (0 + 1)%Z with 1%Z. field.
  - fold n in Hm. unfold n at 1. rewrite cubic_eq; [|lia|apply (IZR_range (n - 1) n); lia].
    fold n. rewrite (int_IZR (n - 1)). rewrite clamp_hi by lia. eexists. f_equal. f_equal.
    unfold K, Kb, Ka, Kc, third. rewrite !minus_IZR.
    replace (n - 3 + 2)%Z with (n - 1)%Z by lia. replace (n - 4 + 3)%Z with (n - 1)%Z by lia.
    replace (n - 3 + 1)%Z with (n - 2)%Z by lia. replace (n - 4 + 2)%Z with (n - 2)%Z by lia.
    replace (n - 4 + 1)%Z with (n - 3)%Z by lia. replace (n - 3 - 1)%Z with (n - 4)%Z by lia. field.
Qed.

Lemma C36_cubic_end_nodes_refuted_proof :
  ~ (forall t i, (4 <= length t)%nat -> (0 <= i < Z.of_nat (length t))%Z ->
     exists e, cubic_spline_interpolate_within_table t (Z.of_nat (length t)) (IZR i) = Ret (entry t i, e)).
Proof.
  intros H. destruct (H [0; 0; 0; 1] 0%Z ltac:(cbn; lia) ltac:(cbn; lia)) as (e & E).
  destruct (C36_cubic_end_nodes_proof [0; 0; 0; 1] ltac:(cbn; lia) ltac:(cbn; lia)) as ((e' & E') & _).
  rewrite E in E'.
  assert (Ev : forall a b : R * Z, Ret a = Ret b -> fst a = fst b) by congruence. apply Ev in E'. clear - E'. unfold entry in E'. simpl in E'. lra.
Qed.

Lemma C36_cubic_smooth_proof :
  forall t, (4 <= length t)%nat ->
  exists f g, (forall x, - 2147483648 <= x < 2147483648 ->
      exists e, cubic_spline_interpolate_within_table t (Z.of_nat (length t)) x = Ret (f x, e)) /\
    forall x, - 2147483647 <= x <= 2147483647 -> derivable_pt_lim f x (g x) /\ continuity_pt g x.
Proof.
  intros t Ht. set (m := Z.of_nat (length t)). exists (fun x => K t (clamp m (Int_part x)) x), (fun x => Kd t (clamp m (Int_part x)) x).
  split.
  - intros x Hx. unfold m. rewrite cubic_eq by (assumption || lia). eauto.
  - intros x Hx. apply smooth; [lia|reflexivity|assumption].
Qed.

Lemma C36_cubic_quadratics_proof :
  forall t p x, (4 <= length t)%nat -> - 2147483648 <= x < 2147483648 -> (length p <= 3)%nat ->
  (forall i, (0 <= i < Z.of_nat (length t))%Z -> entry t i = poly p (IZR i)) ->
  exists e, cubic_spline_interpolate_within_table t (Z.of_nat (length t)) x = Ret (poly p x, e).
Proof.
  intros t p x Ht Hx Lp H. rewrite cubic_eq by (assumption || lia). eexists. f_equal. f_equal.
  set (i := clamp (Z.of_nat (length t)) (Int_part x)). assert (Hi := clamp_in (Z.of_nat (length t)) (Int_part x) ltac:(lia)). fold i in Hi. clearbody i.
  assert (exists a b c, forall u, poly p u = a + u * (b + u * c)) as (a & b & c & E).
  { destruct p as [|a [|b [|c [|]]]]; cbn in Lp; [exists 0, 0, 0|exists a, 0, 0|exists a, b, 0|exists a, b, c|lia]; intros u; cbn; ring. }
  unfold K, Kb, Ka, Kc. rewrite !H, !E, !minus_IZR, !plus_IZR by lia. field.
Qed.

Lemma C36_cubic_err_code_proof :
  forall t x v e, (4 <= length t)%nat -> - 2147483648 <= x < 2147483648 ->
  let n := IZR (Z.of_nat (length t)) in
  cubic_spline_interpolate_within_table t (Z.of_nat (length t)) x = Ret (v, e) ->
  (e = 0%Z <-> 1 <= x < n - 2) /\ (e = (-1)%Z <-> 0 <= x < 1 \/ n - 2 <= x < n - 1) /\
  (e = (-2)%Z <-> x < 0 \/ n - 1 <= x).
Proof.
  intros t x v e Ht Hx n. rewrite cubic_eq by (assumption || lia). intros E. assert (Ee : e = err (Z.of_nat (length t)) (Int_part x)) by congruence. clear E v.
  pose proof (IntP x) as I. set (z := Int_part x) in *. clearbody z. unfold n. set (m := Z.of_nat (length t)) in *.
  assert (Hm : (4 <= m)%Z) by lia. clearbody m. clear n Ht Hx.
  assert (A : forall k, (z < k)%Z -> x < IZR k).
  { intros k Hk. assert (z + 1 <= k)%Z as L by lia. apply IZR_le in L. rewrite plus_IZR in L. lra. }
  assert (B : forall k, (k <= z)%Z -> IZR k <= x) by (intros k Hk; apply IZR_le in Hk; lra).
  assert (4 <= IZR m) by (apply (IZR_le 4); assumption).
  unfold err in *. destruct (Z.ltb_spec z 1); [destruct (Z.ltb_spec z 0)|destruct (Z.ltb_spec (m - 3) z); [destruct (Z.ltb_spec (m - 2) z)|]].
  - pose proof (A 0%Z ltac:(lia)). repeat split; intros; try discriminate; try lia; try lra.
  - pose proof (A 1%Z ltac:(lia)). pose proof (B 0%Z ltac:(lia)). repeat split; intros; try discriminate; try lia; try lra.
  - pose proof (B (m - 1)%Z ltac:(lia)) as Q. rewrite minus_IZR in Q. repeat split; intros; try discriminate; try lia; try lra.
  - pose proof (B (m - 2)%Z ltac:(lia)) as Q. rewrite minus_IZR in Q. pose proof (A (m - 1)%Z ltac:(lia)) as S. rewrite minus_IZR in S.
    repeat split; intros; try discriminate; try lia; try lra.
  - pose proof (B 1%Z ltac:(lia)) as Q. pose proof (A (m - 2)%Z ltac:(lia)) as S. rewrite minus_IZR in S.
    repeat split; intros; try discriminate; try lia; try lra.
Qed.

Lemma C36_lagrange_proof :
  forall t n x, (1 <= n <= length t)%nat -> (Z.of_nat n <= 2000000000)%Z -> - 1000000000 <= x <= 1000000000 ->
  exists w p, window (Z.of_nat (length t)) (Z.of_nat n) x w /\ (length p <= n)%nat /\
    (forall i, (w <= i < w + Z.of_nat n)%Z -> poly p (IZR i) = entry t i) /\
    lagrange_value t (Z.of_nat (length t)) x (Z.of_nat n) = Ret (poly p x).
Proof.
  intros t n x Hn Hb Hx. pose proof (clampw_window (Z.of_nat (length t)) (Z.of_nat n) x ltac:(lia)) as W.
  set (w := clampw _ _ _) in W. clearbody w. destruct (through_exists t w n) as (p & Hp). exists w, p.
  split; [assumption|]. split; [apply Hp|]. split; [apply Hp|]. apply (lagrange_all t n x w p); auto; lia.
Qed.

Lemma C36_lagrange_polynomials_proof :
  forall t n x w p, (1 <= n <= length t)%nat -> (Z.of_nat n <= 2000000000)%Z -> - 1000000000 <= x <= 1000000000 ->
  window (Z.of_nat (length t)) (Z.of_nat n) x w -> (length p <= n)%nat ->
  (forall i, (w <= i < w + Z.of_nat n)%Z -> poly p (IZR i) = entry t i) ->
  lagrange_value t (Z.of_nat (length t)) x (Z.of_nat n) = Ret (poly p x).
Proof.
  intros t n x w p Hn Hb Hx W L H. apply (lagrange_all t n x w p); auto; [lia|split; assumption].
Qed.

Lemma C36_lagrange_nodes_proof :
  forall t n i, (1 <= n <= length t)%nat -> (Z.of_nat n <= 2000000000)%Z -> (0 <= i < Z.of_nat (length t))%Z -> (i <= 1000000000)%Z ->
  lagrange_value t (Z.of_nat (length t)) (IZR i) (Z.of_nat n) = Ret (entry t i).
Proof.
  intros t n i Hn Hb Hi Hx. assert (R : -1000000000 <= IZR i <= 1000000000) by (split; [apply (IZR_le (-1000000000))|apply (IZR_le _ 1000000000)]; lia).
  destruct (floor_half (IZR i) (Z.of_nat n) R ltac:(lia)) as [F1 F2]. unfold lagrange_value. rewrite F1. cbn [obind].
  destruct (Z.ltb_spec (Int_part (IZR i - IZR (Z.of_nat n) / 2)) 2147483647); [|lia]. cbn [obind].
  destruct (grid_test (Z.of_nat (length t)) (IZR i) R ltac:(lia)) as (j & -> & C); cbn [obind]; destruct C as [(G & Ex & Hj & ->)|(G & _)].
  - apply eq_IZR in Ex. subst j. apply rd_ok. lia.
  - exfalso. apply G. exists i. auto.
Qed.

Lemma C36_lagrange_slope_proof :
  forall t n x w p, (1 <= n <= length t)%nat -> (Z.of_nat n <= 2000000000)%Z -> - 1000000000 <= x <= 1000000000 ->
  (forall i, (0 <= i < Z.of_nat (length t))%Z -> x <> IZR i) ->
  window (Z.of_nat (length t)) (Z.of_nat n) x w -> (length p <= n)%nat ->
  (forall i, (w <= i < w + Z.of_nat n)%Z -> poly p (IZR i) = entry t i) ->
  exists d, lagrange_deriv t (Z.of_nat (length t)) x (Z.of_nat n) = Ret (poly p x, d) /\ derivable_pt_lim (poly p) x d.
Proof.
  intros t n x w p Hn Hb Hx Ng W L H. set (m := Z.of_nat (length t)) in *.
  destruct (floor_half x (Z.of_nat n) Hx ltac:(lia)) as [F1 F2]. unfold lagrange_deriv. rewrite F1. cbn [obind].
  destruct (Z.ltb_spec (Int_part (x - IZR (Z.of_nat n) / 2)) 2147483647); [|lia]. cbn [obind].
  assert (G : ~ on_grid m x) by (intros (i & Hi & E); exact (Ng i Hi E)).
  destruct (grid_test m x Hx ltac:(lia)) as (i & -> & C); cbn [obind]; destruct C as [(G' & _)|(_ & ->)]; [tauto|].
  pose proof (window_unique _ _ _ _ _ W (clampw_window m (Z.of_nat n) x ltac:(lia))) as Ew.
  assert (W0 := W). destruct W0 as (W0 & _).
  unfold m at 1. rewrite (off_ok true t x n _ w) by (try assumption; lia).
  assert (Ho : off n (x - IZR w)) by (apply (off_grid_off m); [lia|lia|assumption]).
  pose proof (cc_off _ _ Ho) as Nc. eexists. split.
  - f_equal. f_equal. rewrite (sum_ext _ (fun i => poly p (IZR w + INR i) / (tt n i * (x - IZR w - INR i)))).
    + rewrite lagrange_sum by assumption. replace (IZR w + (x - IZR w)) with x by ring. field. assumption.
    + intros j Hj. f_equal. symmetry. rewrite INR_IZR_INZ, <- plus_IZR. apply H. lia.
  - pose proof (lagrange_slope n p (IZR w) (x - IZR w) L Ho) as D. replace (IZR w + (x - IZR w)) with x in D by ring.
    rewrite (sum_ext _ (fun i => (rs n (x - IZR w) - 1 / (x - IZR w - INR i)) * poly p (IZR w + INR i) / (tt n i * (x - IZR w - INR i)))); [exact D|].
    intros j Hj. do 2 f_equal. rewrite INR_IZR_INZ, <- plus_IZR. symmetry. apply H. lia.
Qed.

Lemma C36_lagrange_slope_nodes_proof :
  forall t n i p, (1 <= n <= length t)%nat -> (Z.of_nat n <= 2000000000)%Z -> (0 <= i < Z.of_nat (length t))%Z -> (i < 1000000000)%Z ->
  (length p <= n)%nat -> (forall j, (0 <= j < Z.of_nat (length t))%Z -> poly p (IZR j) = entry t j) ->
  let h := 1 / 100000 in
  lagrange_deriv t (Z.of_nat (length t)) (IZR i) (Z.of_nat n) =
    Ret (poly p (IZR i), (poly p (IZR i + h) - poly p (IZR i - h)) / (2 * h)).
Proof.
  intros t n i p Hn Hb Hi Hx L H h. set (m := Z.of_nat (length t)) in *.
  assert (R : 0 <= IZR i <= 999999999) by (split; [apply (IZR_le 0)|apply (IZR_le _ 999999999)]; lia).
  destruct (floor_half (IZR i) (Z.of_nat n) ltac:(lra) ltac:(lia)) as [F1 F2]. unfold lagrange_deriv. rewrite F1. cbn [obind].
  destruct (Z.ltb_spec (Int_part (IZR i - IZR (Z.of_nat n) / 2)) 2147483647); [|lia]. cbn [obind].
  destruct (grid_test m (IZR i) ltac:(lra) ltac:(lia)) as (j & -> & C); cbn [obind]; destruct C as [(G & Ex & Hj & ->)|(G & _)]; [|exfalso; apply G; exists i; auto].
  assert (V : forall x, - 1000000000 <= x <= 1000000000 -> lagrange_value t m x (Z.of_nat n) = Ret (poly p x)).
  { intros x Hx'. pose proof (clampw_window m (Z.of_nat n) x ltac:(lia)) as W.
    apply (lagrange_all t n x (clampw m (Z.of_nat n) (Int_part (x - IZR (Z.of_nat n) / 2) + 1)) p); auto; [fold m; lia|].
    split; [assumption|]. intros k Hk. apply H. destruct W as (W & _). lia. }
  fold h. rewrite !V by (unfold h; lra). cbn [obind]. apply eq_IZR in Ex. subst j. rewrite rd_ok by (fold m; lia). cbn [obind].
  rewrite H by lia. reflexivity.
Qed.

Lemma loop1_any x k : forall i c t, t <> 0 -> exists c' t', loop1 false k i x c t 0 = Ret (c', t', 0) /\ t' <> 0.
Proof.
  induction k as [|k IH]; intros i c t Ht; cbn [loop1 obind]; [eauto|]. apply IH.
  destruct (Z.eqb_spec i 0); [assumption|]. apply Rmult_integral_contrapositive_currified; [assumption|].
  apply Ropp_neq_0_compat. apply not_0_IZR. assumption.
Qed.
Lemma loop2_beyond table base n x y0 k : forall i t v, t <> 0 -> (0 <= i)%Z -> (i + Z.of_nat k = n)%Z -> (base <= 0)%Z ->
  (Z.of_nat (length table) <= base + i + Z.of_nat k - 1)%Z -> (k <> 0)%nat ->
  (forall j, (0 <= base + j < Z.of_nat (length table))%Z -> x <> IZR j) ->
  loop2 false table base n k i x y0 0 t v 0 = UB.
Proof.
  induction k as [|k IH]; intros i t v Ht Hi Hk Hb Hl Hk0 Hx; [lia|]. cbn [loop2].
  assert (exists t', (if Z.eqb i 0 then Ret t else do q <- fdiv (IZR i) (IZR (i - n)); Ret (t * q)) = Ret t' /\ t' <> 0) as (t' & -> & Ht').
  { destruct (Z.eqb_spec i 0); [eauto|]. assert (IZR (i - n) <> 0) by (apply not_0_IZR; lia).
    rewrite fdiv_ok by assumption. cbn [obind]. eexists. split; [reflexivity|].
    apply Rmult_integral_contrapositive_currified; [assumption|]. apply Rmult_integral_contrapositive_currified; [apply not_0_IZR; lia|apply Rinv_neq_0_compat; assumption]. }
  cbn [obind]. destruct (Z_le_dec 0 (base + i)); [|rewrite rd_ub by lia; reflexivity].
  destruct (Z_lt_dec (base + i) (Z.of_nat (length table))); [|rewrite rd_ub by lia; reflexivity].
  rewrite rd_ok by lia. cbn [obind]. rewrite fdiv_ok.
  - cbn [obind]. apply IH; try assumption; lia.
  - apply Rmult_integral_contrapositive_currified; [assumption|]. specialize (Hx i ltac:(lia)). lra.
Qed.

Lemma C36_lagrange_many_refuted_proof :
  forall t n x, (length t < n)%nat -> (Z.of_nat n <= 2000000000)%Z -> - 1000000000 <= x <= 1000000000 ->
  (forall i, (0 <= i < Z.of_nat (length t))%Z -> x <> IZR i) ->
  lagrange_value t (Z.of_nat (length t)) x (Z.of_nat n) = UB.
Proof.
  intros t n x Hn Hb Hx Ng. set (m := Z.of_nat (length t)) in *.
  destruct (floor_half x (Z.of_nat n) Hx ltac:(lia)) as [F1 F2]. unfold lagrange_value. rewrite F1. cbn [obind].
  destruct (Z.ltb_spec (Int_part (x - IZR (Z.of_nat n) / 2)) 2147483647); [|lia]. cbn [obind].
  assert (G : ~ on_grid m x) by (intros (i & Hi & E); exact (Ng i Hi E)).
  destruct (grid_test m x Hx ltac:(lia)) as (i & -> & C); cbn [obind]; destruct C as [(G' & _)|(_ & ->)]; [tauto|].
  unfold lagrange_off. fold (clampw m (Z.of_nat n) (Int_part (x - IZR (Z.of_nat n) / 2) + 1)).
  assert (W : (clampw m (Z.of_nat n) (Int_part (x - IZR (Z.of_nat n) / 2) + 1) = 0 \/ clampw m (Z.of_nat n) (Int_part (x - IZR (Z.of_nat n) / 2) + 1) = m - Z.of_nat n)%Z).
  { unfold clampw. destruct (Z.ltb_spec (Int_part (x - IZR (Z.of_nat n) / 2) + 1) 0); [lia|].
    destruct (Z.ltb_spec (m - Z.of_nat n) (Int_part (x - IZR (Z.of_nat n) / 2) + 1)); lia. }
  set (w := clampw _ _ _) in *. clearbody w. destruct (rd t (w + Z.quot (Z.of_nat n) 2)) as [y0| | |] eqn:Ey.
  2: reflexivity. 2, 3: unfold rd in Ey; destruct (_ && _)%bool in Ey; discriminate.
  cbn [obind]. destruct (loop1_any (x - IZR w) (Z.to_nat (Z.of_nat n)) 0 1 1 R1_neq_R0) as (c' & t' & -> & Ht'). cbn [obind].
  destruct W as [->|W].
  - rewrite (loop2_beyond t 0 (Z.of_nat n) (x - 0) y0); [reflexivity|assumption|lia|lia|lia|lia|lia|].
    intros j Hj. rewrite Rminus_0_r. apply Ng. fold m in Hj. lia.
  - destruct (Z.to_nat (Z.of_nat n)) as [|k] eqn:Ek; [lia|]. cbn [loop2 Z.eqb obind]. rewrite (rd_ub t (w + 0)) by (fold m; lia). reflexivity.
Qed.
