(** Facts about [CBase]: when checked arithmetic is defined and what it yields. *)
From Coq Require Import Lia ZifyBool.
From Verif Require Import CBase.

Ltac Zify.zify_post_hook ::= Z.to_euclidean_division_equations.

(** Mathematical value of a C expression, and the condition under which every
    intermediate result fits the type. *)
Fixpoint val (e : cexpr) : Z :=
  match e with
  | EC z => z
  | EAdd a b => val a + val b
  | ESub a b => val a - val b
  | EMul a b => val a * val b
  | EQuot a b => Z.quot (val a) (val b)
  | ERem a b => Z.rem (val a) (val b)
  | ENeg a => - val a
  end.

Definition fits (L z : Z) : Prop := - L - 1 <= z <= L.

Fixpoint safe (L : Z) (e : cexpr) : Prop :=
  match e with
  | EC z => fits L z
  | EAdd a b => safe L a /\ safe L b /\ fits L (val a + val b)
  | ESub a b => safe L a /\ safe L b /\ fits L (val a - val b)
  | EMul a b => safe L a /\ safe L b /\ fits L (val a * val b)
  | EQuot a b => safe L a /\ safe L b /\ val b <> 0 /\ fits L (Z.quot (val a) (val b))
  | ERem a b => safe L a /\ safe L b /\ val b <> 0 /\ fits L (Z.quot (val a) (val b))
                /\ fits L (Z.rem (val a) (val b))
  | ENeg a => safe L a /\ fits L (- val a)
  end.

Lemma chk_ok L z : fits L z -> chk L z = Ret z.
Proof.
  unfold chk, in_rng, fits. intros H.
  destruct (Z.leb_spec (- L - 1) z); destruct (Z.leb_spec z L); simpl; try reflexivity; lia.
Qed.

Lemma chk_inv L z v : chk L z = Ret v -> v = z /\ fits L z.
Proof.
  unfold chk, in_rng, fits. intros H.
  destruct (Z.leb_spec (- L - 1) z); destruct (Z.leb_spec z L); simpl in H;
    inversion H; subst; lia.
Qed.

Lemma chk_ub L z : ~ fits L z -> chk L z = UB.
Proof.
  unfold chk, in_rng, fits. intros H.
  destruct (Z.leb_spec (- L - 1) z); destruct (Z.leb_spec z L); simpl; try reflexivity; lia.
Qed.

Lemma ev_val L e : safe L e -> ev L e = Ret (val e).
Proof.
  induction e as [z|a IHa b IHb|a IHa b IHb|a IHa b IHb|a IHa b IHb|a IHa b IHb|a IHa];
    cbn [safe val ev]; intros H.
  - apply chk_ok; exact H.
  - destruct H as (Ha & Hb & Hf). rewrite (IHa Ha), (IHb Hb). cbn [obind]. apply chk_ok, Hf.
  - destruct H as (Ha & Hb & Hf). rewrite (IHa Ha), (IHb Hb). cbn [obind]. apply chk_ok, Hf.
  - destruct H as (Ha & Hb & Hf). rewrite (IHa Ha), (IHb Hb). cbn [obind]. apply chk_ok, Hf.
  - destruct H as (Ha & Hb & Hn & Hf). rewrite (IHa Ha), (IHb Hb). cbn [obind].
    destruct (Z.eqb_spec (val b) 0); [contradiction|]. apply chk_ok, Hf.
  - destruct H as (Ha & Hb & Hn & Hf & Hg). rewrite (IHa Ha), (IHb Hb). cbn [obind].
    destruct (Z.eqb_spec (val b) 0); [contradiction|].
    rewrite (chk_ok _ _ Hf). cbn [obind]. apply chk_ok, Hg.
  - destruct H as (Ha & Hf). rewrite (IHa Ha). cbn [obind]. apply chk_ok, Hf.
Qed.

Lemma ev_inv L e v : ev L e = Ret v -> safe L e /\ v = val e.
Proof.
  revert v.
  induction e as [z|a IHa b IHb|a IHa b IHb|a IHa b IHb|a IHa b IHb|a IHa b IHb|a IHa];
    cbn [safe val ev]; intros v H.
  - apply chk_inv in H. tauto.
  - destruct (ev L a) as [x| | |] eqn:Ea; cbn [obind] in H; try discriminate.
    destruct (ev L b) as [y| | |] eqn:Eb; cbn [obind] in H; try discriminate.
    destruct (IHa x eq_refl) as [Sa ->], (IHb y eq_refl) as [Sb ->].
    apply chk_inv in H. tauto.
  - destruct (ev L a) as [x| | |] eqn:Ea; cbn [obind] in H; try discriminate.
    destruct (ev L b) as [y| | |] eqn:Eb; cbn [obind] in H; try discriminate.
    destruct (IHa x eq_refl) as [Sa ->], (IHb y eq_refl) as [Sb ->].
    apply chk_inv in H. tauto.
  - destruct (ev L a) as [x| | |] eqn:Ea; cbn [obind] in H; try discriminate.
    destruct (ev L b) as [y| | |] eqn:Eb; cbn [obind] in H; try discriminate.
    destruct (IHa x eq_refl) as [Sa ->], (IHb y eq_refl) as [Sb ->].
    apply chk_inv in H. tauto.
  - destruct (ev L a) as [x| | |] eqn:Ea; cbn [obind] in H; try discriminate.
    destruct (ev L b) as [y| | |] eqn:Eb; cbn [obind] in H; try discriminate.
    destruct (IHa x eq_refl) as [Sa ->], (IHb y eq_refl) as [Sb ->].
    destruct (Z.eqb_spec (val b) 0); [discriminate|].
    apply chk_inv in H. tauto.
  - destruct (ev L a) as [x| | |] eqn:Ea; cbn [obind] in H; try discriminate.
    destruct (ev L b) as [y| | |] eqn:Eb; cbn [obind] in H; try discriminate.
    destruct (IHa x eq_refl) as [Sa ->], (IHb y eq_refl) as [Sb ->].
    destruct (Z.eqb_spec (val b) 0); [discriminate|].
    destruct (chk L (val a ÷ val b)) as [q| | |] eqn:Eq; cbn [obind] in H; try discriminate.
    apply chk_inv in Eq. apply chk_inv in H. tauto.
  - destruct (ev L a) as [x| | |] eqn:Ea; cbn [obind] in H; try discriminate.
    destruct (IHa x eq_refl) as [Sa ->].
    apply chk_inv in H. tauto.
Qed.

(** Rewrite the first checked expression of the goal; the range conditions go
    to [lia]. *)
Ltac ev_step :=
  rewrite ev_val by (cbn [safe val]; unfold fits; repeat split; lia); cbn [val obind].

Lemma wrap8_id z : -128 <= z <= 127 -> to_char z = z.
Proof. intros H. unfold to_char, wrap. change (2 ^ (8 - 1)) with 128. change (2 ^ 8) with 256. lia. Qed.

Lemma wrap32_id z : -2147483648 <= z <= 2147483647 -> to_int z = z.
Proof.
  intros H. unfold to_int, wrap. change (2 ^ (32 - 1)) with 2147483648.
  change (2 ^ 32) with 4294967296. lia.
Qed.

Lemma obind_ret {A B} (a : A) (k : A -> outcome B) : obind (Ret a) k = k a.
Proof. reflexivity. Qed.

Lemma obind_inv {A B} (m : outcome A) (k : A -> outcome B) b :
  obind m k = Ret b -> exists a, m = Ret a /\ k a = Ret b.
Proof. destruct m; simpl; intros H; try discriminate. eauto. Qed.

Lemma nth_ub_ok {A} (l : list A) i d :
  0 <= i < Z.of_nat (length l) -> nth_ub l i = Ret (nth (Z.to_nat i) l d).
Proof.
  intros H. unfold nth_ub. destruct (Z.ltb_spec i 0); [lia|].
  rewrite (nth_error_nth' l d) by lia. reflexivity.
Qed.

Lemma div_uniq a d q r : 0 <= r < d -> a = d * q + r -> a / d = q.
Proof. intros H ->. symmetry. apply Z.div_unique_pos with (r := r); lia. Qed.
Lemma mod_uniq a d q r : 0 <= r < d -> a = d * q + r -> a mod d = r.
Proof. intros H ->. symmetry. apply Z.mod_unique_pos with (q := q); lia. Qed.

(** Exhaustive check of an interval of integers (used for finite domains). *)
Fixpoint zall (f : Z -> bool) (n : nat) (z : Z) : bool :=
  match n with
  | O => true
  | S n' => f z && zall f n' (z + 1)
  end.

Lemma zall_spec f n z : zall f n z = true ->
  forall x, z <= x < z + Z.of_nat n -> f x = true.
Proof.
  revert z. induction n as [|n IH]; cbn [zall]; intros z H x Hx; [lia|].
  apply andb_prop in H. destruct H as [H0 H].
  destruct (Z.eq_dec x z) as [->|Hne]; [exact H0|]. apply (IH (z + 1)); [exact H|lia].
Qed.
