(** Proofs about the model of spline.cpp. *)
From Coq Require Import Lia.
From Verif Require Import RBase SplineModel SplineSpec.
Open Scope list_scope.

Lemma IntP x : IZR (Int_part x) <= x < IZR (Int_part x) + 1.
Proof. destruct (base_Int_part x). lra. Qed.
Lemma IntP_unique x z : IZR z <= x < IZR z + 1 -> Int_part x = z.
Proof.
  intros H. pose proof (IntP x) as I. apply Z.le_antisymm; apply Z.lt_succ_r; apply lt_IZR; rewrite succ_IZR; lra.
Qed.
Lemma rd_ok t i : (0 <= i < Z.of_nat (length t))%Z -> rd t i = Ret (entry t i).
Proof. intros H. unfold rd. replace (Z.leb 0 i) with true by (symmetry; apply Z.leb_le; lia). replace (Z.ltb i (Z.of_nat (length t))) with true by (symmetry; apply Z.ltb_lt; lia). reflexivity. Qed.
Lemma rd_ub t i : ~ (0 <= i < Z.of_nat (length t))%Z -> rd t i = UB.
Proof.
  intros H. unfold rd. destruct (Z.leb_spec 0 i); [|reflexivity]. destruct (Z.ltb_spec i (Z.of_nat (length t))); [lia|reflexivity].
Qed.
Lemma floor_ok x : - 2147483648 <= x < 2147483648 -> floor_int x = Ret (Int_part x).
Proof.
  intros H. pose proof (IntP x). unfold floor_int.
  assert (-2147483648 < Int_part x + 1)%Z by (apply lt_IZR; rewrite plus_IZR; lra).
  assert (Int_part x < 2147483648)%Z by (apply lt_IZR; lra).
  destruct (Z.leb_spec (-2147483648) (Int_part x)); [|lia]. destruct (Z.leb_spec (Int_part x) 2147483647); [reflexivity|lia].
Qed.

(** * Sums and products over 0..n-1 *)
Fixpoint sum (f : nat -> R) (n : nat) : R := match n with O => 0 | S n => sum f n + f n end.
Fixpoint cc (n : nat) (x : R) : R := match n with O => 1 | S n => cc n x * (x - INR n) end.
Fixpoint tt (n i : nat) : R :=
  match n with O => 1 | S n => if Nat.eqb n i then tt n i else tt n i * (INR i - INR n) end.
Definition off (n : nat) (x : R) : Prop := forall i, (i < n)%nat -> x <> INR i.

Lemma sum_ext f g n : (forall i, (i < n)%nat -> f i = g i) -> sum f n = sum g n.
Proof. induction n; intros H; [reflexivity|]. cbn. rewrite IHn, (H n) by (auto with arith). reflexivity. Qed.
Lemma sum_plus f g n : sum (fun i => f i + g i) n = sum f n + sum g n.
Proof. induction n; cbn; [lra|]. rewrite IHn. lra. Qed.
Lemma sum_scale k f n : sum (fun i => k * f i) n = k * sum f n.
Proof. induction n; cbn; [lra|]. rewrite IHn. lra. Qed.

Lemma cc_off n x : off n x -> cc n x <> 0.
Proof.
  induction n; intros H; cbn; [lra|]. apply Rmult_integral_contrapositive_currified.
  - apply IHn. intros i Hi. apply H. lia.
  - specialize (H n ltac:(lia)). lra.
Qed.
Lemma tt_off n i : tt n i <> 0.
Proof.
  induction n; cbn; [lra|]. destruct (Nat.eqb_spec n i); [assumption|].
  apply Rmult_integral_contrapositive_currified; [assumption|]. intros E. apply n0. apply INR_eq. lra.
Qed.
Lemma tt_big n i : (n <= i)%nat -> tt n i = cc n (INR i).
Proof. induction n; intros H; cbn; [reflexivity|]. destruct (Nat.eqb_spec n i); [lia|]. rewrite IHn by lia. reflexivity. Qed.
Lemma tt_last n : tt (S n) n = cc n (INR n).
Proof. cbn. rewrite Nat.eqb_refl. apply tt_big. lia. Qed.
Lemma tt_step n i : (i < n)%nat -> tt (S n) i = tt n i * (INR i - INR n).
Proof. intros H. cbn. destruct (Nat.eqb_spec n i); [lia|reflexivity]. Qed.
Lemma off_nat n : off n (INR n).
Proof. intros i Hi E. apply INR_eq in E. lia. Qed.

(** Partial fractions of 1 / ((x - 0) (x - 1) ...). *)
Lemma unity n x : (0 < n)%nat -> off n x -> sum (fun i => 1 / (tt n i * (x - INR i))) n = 1 / cc n x.
Proof.
  intros Hn. destruct n as [|n]; [lia|]. clear Hn. revert x.
  induction n as [|n IH]; intros x Hx.
  - cbn. specialize (Hx 0%nat ltac:(lia)). cbn in Hx. field. lra.
  - set (m := S n) in *. cbn [sum]. rewrite tt_last.
    assert (Hm : off m x) by (intros i Hi; apply Hx; lia). assert (Nx : x - INR m <> 0) by (specialize (Hx m ltac:(lia)); lra).
    rewrite (sum_ext _ (fun i => (1 / (x - INR m)) * (1 / (tt m i * (x - INR i))) + (- (1 / (x - INR m))) * (1 / (tt m i * (INR m - INR i))))).
    + rewrite sum_plus, !sum_scale, !IH by (assumption || apply off_nat).
      cbn [cc]. pose proof (cc_off m x Hm). pose proof (cc_off m (INR m) (off_nat m)). field. repeat split; assumption.
    + intros i Hi. rewrite tt_step by assumption. pose proof (tt_off m i). pose proof (off_nat m i Hi). specialize (Hx i ltac:(lia)).
      field. repeat split; lra.
Qed.

(** Division of a polynomial by x - a. *)
Lemma poly_div p a : exists r, (length r <= pred (length p))%nat /\ forall x, poly p x = poly p a + (x - a) * poly r x.
Proof.
  induction p as [|c p (r & L & H)].
  - exists []. split; [cbn; lia|]. intros x. cbn. lra.
  - destruct p as [|d p].
    + exists []. split; [cbn; lia|]. intros x. cbn. lra.
    + exists (poly (d :: p) a :: r). split; [cbn in *; lia|]. intros x.
      change (poly (c :: d :: p) x) with (c + x * poly (d :: p) x). change (poly (c :: d :: p) a) with (c + a * poly (d :: p) a).
      change (poly (poly (d :: p) a :: r) x) with (poly (d :: p) a + x * poly r x). rewrite (H x). ring.
Qed.

(** Lagrange's formula. *)
Lemma lagrange_sum n : forall p a x, (length p <= n)%nat -> off n x ->
  sum (fun i => poly p (a + INR i) / (tt n i * (x - INR i))) n = poly p (a + x) / cc n x.
Proof.
  induction n as [|n IH]; intros p a x L Hx.
  - destruct p; [|cbn in L; lia]. cbn. field.
  - destruct (poly_div p (a + INR n)) as (r & Lr & Hr).
    assert (Hm : off n x) by (intros i Hi; apply Hx; lia). assert (Nx : x - INR n <> 0) by (specialize (Hx n ltac:(lia)); lra).
    assert (E : sum (fun i => poly p (a + INR i) / (tt (S n) i * (x - INR i))) (S n) =
      poly p (a + INR n) * sum (fun i => 1 / (tt (S n) i * (x - INR i))) (S n) + sum (fun i => poly r (a + INR i) / (tt n i * (x - INR i))) n).
    { rewrite <- sum_scale. cbn [sum]. rewrite (sum_ext (fun i => poly p (a + INR i) / (tt (S n) i * (x - INR i)))
        (fun i => poly p (a + INR n) * (1 / (tt (S n) i * (x - INR i))) + poly r (a + INR i) / (tt n i * (x - INR i)))).
      - rewrite sum_plus. unfold Rdiv. ring.
      - intros i Hi. rewrite (Hr (a + INR i)), tt_step by assumption.
        pose proof (tt_off n i). pose proof (off_nat n i Hi). specialize (Hx i ltac:(lia)). field. repeat split; lra. }
    rewrite E, unity, IH by (assumption || lia). rewrite (Hr (a + x)). cbn [cc].
    pose proof (cc_off n x Hm). field. split; assumption.
Qed.

(** The products that the loops compute. *)
Lemma cc_shift n x : cc (S n) (x + 1) = (x + 1) * cc n x.
Proof. induction n; [cbn; ring|]. cbn [cc] in *. rewrite IHn. rewrite (S_INR n). ring. Qed.
Lemma tt_next n i : (0 < i < n)%nat -> tt n i = tt n (pred i) * (INR i / (INR i - INR n)).
Proof.
  intros [H0 H]. destruct i as [|i]; [lia|]. cbn [pred]. clear H0.
  induction n as [|n IH]; [lia|]. destruct (Nat.eq_dec n (S i)) as [->|Hn].
  - rewrite tt_last. rewrite tt_step by lia. rewrite tt_last. rewrite (S_INR i) at 1. rewrite cc_shift. rewrite !S_INR. field. lra.
  - rewrite !(tt_step n) by lia. rewrite IH by lia. rewrite (S_INR n).
    assert (INR (S i) < INR n) by (apply lt_INR; lia). rewrite S_INR in *. field. lra.
Qed.

Definition rs (n : nat) (x : R) : R := sum (fun i => 1 / (x - INR i)) n.
Lemma off_le n m x : off n x -> (m <= n)%nat -> off m x.
Proof. intros H L i Hi. apply H. lia. Qed.

Lemma fdiv_ok a b : b <> 0 -> fdiv a b = Ret (a / b).
Proof. intros H. unfold fdiv. destruct (Reqb_spec b 0); [tauto|reflexivity]. Qed.

Lemma loop1_ok (d : bool) x k : forall j, off (j + k) x ->
  loop1 d k (Z.of_nat j) x (cc j x) (tt j 0) (if d then rs j x else 0) = Ret (cc (j + k) x, tt (j + k) 0, if d then rs (j + k) x else 0).
Proof.
  induction k as [|k IH]; intros j H.
  - cbn. rewrite Nat.add_0_r. reflexivity.
  - cbn [loop1]. replace (j + S k)%nat with (S j + k)%nat in * by lia. rewrite <- INR_IZR_INZ.
    assert (N : x - INR j <> 0) by (specialize (H j ltac:(lia)); lra).
    assert (E : (if Z.eqb (Z.of_nat j) 0 then tt j 0 else tt j 0 * - INR j) = tt (S j) 0).
    { cbn [tt]. destruct j; [reflexivity|]. cbn [Nat.eqb Z.of_nat Z.eqb]. change (INR 0) with 0. rewrite Rminus_0_l. reflexivity. }
    replace (Z.of_nat j + 1)%Z with (Z.of_nat (S j)) by lia.
    destruct d; rewrite ?fdiv_ok by assumption; cbn [obind]; rewrite E; apply (IH (S j)); assumption.
Qed.

(** The second loop, for the entries [y]. *)
Lemma loop2_ok (d : bool) table base n x y0 sr k : forall j, (j + k = n)%nat -> off n x ->
  (0 <= base)%Z -> (base + Z.of_nat n <= Z.of_nat (length table))%Z ->
  let y i := entry table (base + Z.of_nat i) in
  let v m := sum (fun i => (y i - y0) / (tt n i * (x - INR i))) m in
  let w m := if d then sum (fun i => (sr - 1 / (x - INR i)) * y i / (tt n i * (x - INR i))) m else 0 in
  loop2 d table base (Z.of_nat n) k (Z.of_nat j) x y0 sr (tt n (pred j)) (v j) (w j) = Ret (v n, w n).
Proof.
  induction k as [|k IH]; intros j Hj Hx Hb Hl y v w.
  - cbn. rewrite Nat.add_0_r in Hj. subst j. reflexivity.
  - cbn [loop2]. rewrite <- INR_IZR_INZ.
    assert (N : x - INR j <> 0) by (specialize (Hx j ltac:(lia)); lra). pose proof (tt_off n j) as Nt.
    assert (Nd : tt n j * (x - INR j) <> 0) by (apply Rmult_integral_contrapositive_currified; assumption).
    assert (E : (if Z.eqb (Z.of_nat j) 0 then Ret (tt n (pred j)) else do q <- fdiv (INR j) (IZR (Z.of_nat j - Z.of_nat n)); Ret (tt n (pred j) * q)) = Ret (tt n j)).
    { destruct j as [|j]; [reflexivity|]. cbn [Z.eqb Z.of_nat]. change (Z.pos (Pos.of_succ_nat j)) with (Z.of_nat (S j)).
      rewrite minus_IZR, <- !INR_IZR_INZ. assert (INR (S j) < INR n) by (apply lt_INR; lia).
      rewrite fdiv_ok by lra. cbn [obind]. rewrite <- tt_next by lia. reflexivity. }
    rewrite E. cbn [obind]. rewrite rd_ok by lia. fold (y j). cbn [obind]. rewrite fdiv_ok by assumption. cbn [obind].
    replace (Z.of_nat j + 1)%Z with (Z.of_nat (S j)) by lia.
    specialize (IH (S j) ltac:(lia) Hx Hb Hl). cbv zeta in IH. cbn [pred] in IH.
    destruct d; rewrite ?fdiv_ok by assumption; cbn [obind]; rewrite ?fdiv_ok by assumption; cbn [obind]; exact IH.
Qed.

Definition clampw (m n i : Z) : Z := if Z.ltb i 0 then 0%Z else if Z.ltb (m - n) i then (m - n)%Z else i.

Lemma clampw_window m n x : (1 <= n <= m)%Z -> window m n x (clampw m n (Int_part (x - IZR n / 2) + 1)).
Proof.
  intros H. pose proof (IntP (x - IZR n / 2)) as I. set (z := Int_part (x - IZR n / 2)) in *. clearbody z. unfold window, clampw.
  destruct (Z.ltb_spec (z + 1) 0).
  - split; [lia|]. split; [lia|]. intros _. apply IZR_lt in H0. rewrite plus_IZR in H0. lra.
  - destruct (Z.ltb_spec (m - n) (z + 1)).
    + split; [lia|]. split; [|lia]. intros _. apply IZR_lt in H1. rewrite plus_IZR in H1. lra.
    + split; [lia|]. rewrite plus_IZR. split; intros; lra.
Qed.
Lemma window_unique m n x v w : window m n x v -> window m n x w -> v = w.
Proof.
  intros (V0 & V1 & V2) (W0 & W1 & W2). destruct (Z.lt_trichotomy v w) as [L|[L|L]]; [exfalso|assumption|exfalso].
  - specialize (V2 ltac:(lia)). specialize (W1 ltac:(lia)). assert (v + 1 <= w)%Z by lia. apply IZR_le in H. rewrite plus_IZR in H. lra.
  - specialize (W2 ltac:(lia)). specialize (V1 ltac:(lia)). assert (w + 1 <= v)%Z by lia. apply IZR_le in H. rewrite plus_IZR in H. lra.
Qed.

(** Where x lies exactly on an entry. *)
Definition on_grid (m : Z) (x : R) : Prop := exists i, (0 <= i < m)%Z /\ x = IZR i.

Lemma off_grid_off m n w x : (0 <= w)%Z -> (w + Z.of_nat n <= m)%Z -> ~ on_grid m x -> off n (x - IZR w).
Proof.
  intros H0 H N i Hi E. apply N. exists (w + Z.of_nat i)%Z. split; [lia|]. rewrite plus_IZR, <- INR_IZR_INZ. lra.
Qed.

Lemma off_ok (d : bool) table x n idx w : let m := Z.of_nat (length table) in (0 < n)%nat ->
  w = clampw m (Z.of_nat n) idx -> (0 <= w <= m - Z.of_nat n)%Z -> ~ on_grid m x ->
  let u := x - IZR w in
  let y i := entry table (w + Z.of_nat i) in
  lagrange_off d table m x (Z.of_nat n) idx =
    Ret (sum (fun i => y i / (tt n i * (u - INR i))) n * cc n u,
         if d then sum (fun i => (rs n u - 1 / (u - INR i)) * y i / (tt n i * (u - INR i))) n * cc n u else 0).
Proof.
  intros m Hn Ew Hw Hg u y. unfold lagrange_off. fold (clampw m (Z.of_nat n) idx). rewrite <- Ew. fold u.
  assert (Q : (0 <= Z.quot (Z.of_nat n) 2 < Z.of_nat n)%Z).
  { rewrite Z.quot_div_nonneg by lia. split; [apply Z.div_pos; lia|apply Z.div_lt; lia]. }
  rewrite rd_ok by (fold m; lia). cbn [obind]. set (y0 := entry table (w + Z.quot (Z.of_nat n) 2)). clearbody y0.
  rewrite Nat2Z.id.
  assert (Ho : off n u) by (apply (off_grid_off m); [lia|lia|assumption]).
  pose proof (loop1_ok d u n 0 Ho) as L1. cbn [Nat.add cc tt Z.of_nat] in L1.
  replace (if d then rs 0 u else 0) with 0 in L1 by (destruct d; reflexivity). rewrite L1. cbn [obind].
  pose proof (loop2_ok d table w n u y0 (if d then rs n u else 0) n 0 eq_refl Ho ltac:(lia) ltac:(fold m; lia)) as L2.
  cbv zeta in L2. cbn [pred Z.of_nat sum] in L2.
  replace (if d then 0 else 0) with 0 in L2 by (destruct d; reflexivity). rewrite L2. cbn [obind].
  f_equal. f_equal.
  - pose proof (cc_off n u Ho).
    rewrite (sum_ext _ (fun i => y i / (tt n i * (u - INR i)) + (- y0) * (1 / (tt n i * (u - INR i))))).
    + rewrite sum_plus, sum_scale, unity by assumption. field. assumption.
    + intros i Hi. fold (y i). unfold Rdiv. ring.
  - destruct d; [reflexivity|ring].
Qed.

Lemma round_half x : 0 <= x -> to_int (x + 1 / 2) = floor_int (x + 1 / 2).
Proof. intros H. unfold to_int, floor_int. destruct (Rltb_spec (x + 1 / 2) 0); [lra|reflexivity]. Qed.

Lemma int_val i : Int_part (IZR i + 1 / 2) = i.
Proof. apply IntP_unique. lra. Qed.

Lemma to_int_ok x : - 2147483648 < x < 2147483648 -> exists z, to_int x = Ret z.
Proof.
  intros H. unfold to_int. destruct (Rltb_spec x 0).
  - pose proof (IntP (- x)) as I. set (z := Int_part (- x)) in *. clearbody z.
    assert (-1 < z)%Z by (apply lt_IZR; lra). assert (z < 2147483648)%Z by (apply lt_IZR; lra).
    exists (- z)%Z. destruct (Z.leb_spec (-2147483648) (- z)); [|lia]. destruct (Z.leb_spec (- z) 2147483647); [reflexivity|lia].
  - exists (Int_part x). apply floor_ok. lra.
Qed.

(** What the grid test decides. *)
Lemma grid_test m x : - 1000000000 <= x <= 1000000000 -> (0 <= m)%Z ->
  exists i, to_int (x + 1 / 2) = Ret i /\
    ((on_grid m x /\ x = IZR i /\ (0 <= i < m)%Z /\ (Reqb x (IZR i) && Z.leb 0 i && Z.ltb i m)%bool = true) \/
     (~ on_grid m x /\ (Reqb x (IZR i) && Z.leb 0 i && Z.ltb i m)%bool = false)).
Proof.
  intros H Hm. destruct (to_int_ok (x + 1 / 2) ltac:(lra)) as (i & E). exists i. split; [assumption|].
  assert (D : on_grid m x -> x = IZR i /\ (0 <= i < m)%Z).
  { intros (j & Hj & ->). assert (0 <= IZR j) by (apply (IZR_le 0); lia).
    rewrite round_half, floor_ok, int_val in E by lra. inversion E. subst. split; [reflexivity|assumption]. }
  destruct (Reqb_spec x (IZR i)) as [Ex|Ex].
  - destruct (Z.leb_spec 0 i); [destruct (Z.ltb_spec i m)|].
    + left. split; [exists i; split; [lia|assumption]|]. repeat split; auto.
    + right. split; [|reflexivity]. intros G. apply D in G. lia.
    + right. split; [|reflexivity]. intros G. apply D in G. lia.
  - right. split; [|reflexivity]. intros G. apply D in G. tauto.
Qed.

(** * The derivative of the sum *)
Lemma dlim_ext f g x l : (forall u, f u = g u) -> derivable_pt_lim f x l -> derivable_pt_lim g x l.
Proof. intros E H eps He. destruct (H eps He) as (d & Hd). exists d. intros h. rewrite <- !E. apply Hd. Qed.
Lemma dlim_local f g x l d : 0 < d -> (forall u, Rabs (u - x) < d -> f u = g u) -> derivable_pt_lim f x l -> derivable_pt_lim g x l.
Proof.
  intros Hd E H eps He. destruct (H eps He) as (d1 & H1).
  assert (Hm : 0 < Rmin d d1) by (apply Rmin_glb_lt; [assumption|apply (cond_pos d1)]).
  exists (mkposreal _ Hm). cbn. intros h Nh Lh. rewrite <- !E.
  - apply H1; [assumption|]. eapply Rlt_le_trans; [exact Lh|apply Rmin_r].
  - replace (x - x) with 0 by ring. rewrite Rabs_R0. assumption.
  - replace (x + h - x) with h by ring. eapply Rlt_le_trans; [exact Lh|apply Rmin_l].
Qed.
Lemma dlim_lin a x : derivable_pt_lim (fun u => u - a) x 1.
Proof.
  eapply dlim_ext; [|replace 1 with (1 - 0) by ring; apply (derivable_pt_lim_minus id (fct_cte a));
    [apply derivable_pt_lim_id|apply derivable_pt_lim_const]]. reflexivity.
Qed.
Lemma cc_deriv n x : off n x -> derivable_pt_lim (cc n) x (cc n x * rs n x).
Proof.
  induction n as [|n IH]; intros H.
  - unfold rs. cbn. rewrite Rmult_0_r. apply (derivable_pt_lim_const 1).
  - assert (N : x - INR n <> 0) by (specialize (H n ltac:(lia)); lra).
    eapply dlim_ext; [|replace (cc (S n) x * rs (S n) x) with (cc n x * rs n x * (x - INR n) + cc n x * 1);
      [apply (derivable_pt_lim_mult (cc n) (fun u => u - INR n)); [apply IH; apply (off_le (S n)); [assumption|lia]|apply dlim_lin]|]].
    + reflexivity.
    + unfold rs. cbn. field. assumption.
Qed.
Lemma sum_deriv (y t : nat -> R) n x : off n x -> (forall i, t i <> 0) ->
  derivable_pt_lim (fun u => sum (fun i => y i / (t i * (u - INR i))) n) x (sum (fun i => - (1 / (x - INR i)) * (y i / (t i * (x - INR i)))) n).
Proof.
  intros H Ht. induction n as [|n IH].
  - cbn. apply (derivable_pt_lim_const 0).
  - assert (N : x - INR n <> 0) by (specialize (H n ltac:(lia)); lra). specialize (Ht n).
    cbn [sum]. apply (derivable_pt_lim_plus (fun u => sum (fun i => y i / (t i * (u - INR i))) n) (fun u => y n / (t n * (u - INR n)))).
    + apply IH. apply (off_le (S n)); [assumption|lia].
    + eapply (dlim_ext (div_fct (fct_cte (y n)) (fun u => t n * (u - INR n)))); [reflexivity|].
      replace (- (1 / (x - INR n)) * (y n / (t n * (x - INR n)))) with
        ((0 * (t n * (x - INR n)) - (t n * 1) * y n) / Rsqr (t n * (x - INR n))) by (unfold Rsqr; field; split; assumption).
      apply (derivable_pt_lim_div (fct_cte (y n)) (fun u => t n * (u - INR n))).
      * apply derivable_pt_lim_const.
      * apply (derivable_pt_lim_scal (fun u => u - INR n)). apply dlim_lin.
      * apply Rmult_integral_contrapositive_currified; assumption.
Qed.
Lemma off_open n x : off n x -> exists d, 0 < d /\ forall u, Rabs (u - x) < d -> off n u.
Proof.
  induction n as [|n IH]; intros H.
  - exists 1. split; [lra|]. intros u _ i Hi. lia.
  - destruct IH as (d & Hd & E); [apply (off_le (S n)); [assumption|lia]|].
    assert (N : x - INR n <> 0) by (specialize (H n ltac:(lia)); lra). apply Rabs_pos_lt in N.
    exists (Rmin d (Rabs (x - INR n))). split; [apply Rmin_glb_lt; assumption|].
    intros u Hu i Hi. destruct (Nat.eq_dec i n) as [->|Ni].
    + intros ->. assert (Rabs (INR n - x) < Rabs (x - INR n)) by (eapply Rlt_le_trans; [exact Hu|apply Rmin_r]).
      rewrite Rabs_minus_sym in H0. lra.
    + apply E; [|lia]. eapply Rlt_le_trans; [exact Hu|apply Rmin_l].
Qed.

Lemma lagrange_slope n p a u : (length p <= n)%nat -> off n u ->
  derivable_pt_lim (poly p) (a + u)
    (sum (fun i => (rs n u - 1 / (u - INR i)) * poly p (a + INR i) / (tt n i * (u - INR i))) n * cc n u).
Proof.
  intros L H. set (y i := poly p (a + INR i)).
  set (G v := sum (fun i => y i / (tt n i * (v - INR i))) n).
  assert (D : derivable_pt_lim (fun v => cc n v * G v) u
     (sum (fun i => (rs n u - 1 / (u - INR i)) * y i / (tt n i * (u - INR i))) n * cc n u)).
  { replace (sum (fun i => (rs n u - 1 / (u - INR i)) * y i / (tt n i * (u - INR i))) n * cc n u) with
      (cc n u * rs n u * G u + cc n u * sum (fun i => - (1 / (u - INR i)) * (y i / (tt n i * (u - INR i)))) n).
    - apply (derivable_pt_lim_mult (cc n) G); [apply cc_deriv; assumption|apply sum_deriv; [assumption|apply tt_off]].
    - rewrite (sum_ext (fun i => (rs n u - 1 / (u - INR i)) * y i / (tt n i * (u - INR i)))
        (fun i => rs n u * (y i / (tt n i * (u - INR i))) + - (1 / (u - INR i)) * (y i / (tt n i * (u - INR i))))) by (intros; unfold Rdiv; ring).
      rewrite sum_plus, sum_scale. fold (G u). ring. }
  destruct (off_open n u H) as (d & Hd & E).
  assert (D2 : derivable_pt_lim (fun v => poly p (a + v)) u
     (sum (fun i => (rs n u - 1 / (u - INR i)) * y i / (tt n i * (u - INR i))) n * cc n u)).
  { apply (dlim_local (fun v => cc n v * G v) _ u _ d Hd); [|exact D]. intros v Hv. specialize (E v Hv). unfold G, y.
    rewrite lagrange_sum by assumption. pose proof (cc_off n v E). field. assumption. }
  intros eps He. destruct (D2 eps He) as (d2 & H2). exists d2. intros h Nh Lh. specialize (H2 h Nh Lh). cbv beta in H2.
  rewrite Rplus_assoc. exact H2.
Qed.
