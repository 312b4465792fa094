(** Lemmas for C60: formulae. *)
From Coq Require Import QArith Qreals Reals String Lia Lra.
From Verif Require Import CBase CStr RBase TstrModel TstrSpec TstrNum CospModel CospSpec CospText.
From Verif Require SofModel DesigBase.
Import ListNotations.
Local Open Scope string_scope.
Local Open Scope list_scope.
Local Open Scope Z_scope.

Lemma dec_digits v : 0 <= v < 10 ^ 20 -> digits_of (dec v) v.
Proof. intro H. destruct (DesigBase.dec_ok v H) as (A & B & C). now repeat split. Qed.
Lemma atoi_num s v r : digits_of s v -> no_digit r -> 0 <= v <= IMAX -> SofModel.atoi (s ++ r) = Ret v.
Proof. intros H Hr Hv. unfold SofModel.atoi. now rewrite (scan_d_num IMAX s v r H Hr Hv). Qed.
Lemma one_digit k : 0 <= k <= 9 -> digits_of [48 + k] k.
Proof.
  intro H. assert (D : isdigit (48 + k) = true) by (apply digit_range; lia). split; [discriminate|]. split.
  - now intros c [<-|[]].
  - cbn [dig_val]. rewrite D. lia.
Qed.
Lemma alpha_not_digit p : isalpha p = true -> isdigit p = false.
Proof.
  unfold isalpha, isupper, islower, isdigit. intro H. apply andb_false_iff. rewrite !Z.leb_gt.
  apply orb_true_iff in H. rewrite !andb_true_iff, !Z.leb_le in H. lia.
Qed.
Lemma alpha_range p : isalpha p = true -> 65 <= p <= 122.
Proof. unfold isalpha, isupper, islower. intro H. apply orb_true_iff in H. rewrite !andb_true_iff, !Z.leb_le in H. lia. Qed.

Lemma behind_app u r : ~ In 61 u -> behind_equals (u ++ 61 :: r) = Ret r.
Proof.
  induction u as [|c u IH]; intro H; cbn [app behind_equals]; [reflexivity|].
  assert (c <> 61) by (intro; subst; apply H; now left). apply Z.eqb_neq in H0. rewrite H0. apply IH. intro; apply H; now right.
Qed.
Lemma digits_no (c : Z) s v : digits_of s v -> isdigit c = false -> ~ In c s.
Proof. intros (_ & D & _) H I. apply D in I. congruence. Qed.

(** The lines of the angles *)
Definition table_ok (C : setting) (angles : list angle) : Prop :=
  0 < s_ang C /\
  forall i a, nth_error angles i = Some a -> exists t j, 0 <= j < 10 ^ 20 /\ angle_line (s_planet C) j a t /\
    s_ang C + Z.of_nat i + 1 <= IMAX /\ nth_error (s_lines C) (Z.to_nat (s_ang C + Z.of_nat i + 1)) = Some t.

Lemma at_ret t i : (i <= List.length t)%nat -> at_ t i = Ret (nth i t 0).
Proof. intro H. unfold at_. now rewrite (proj2 (Nat.leb_le _ _) H). Qed.
Lemma from_ret t i : (i <= List.length t)%nat -> from t i = Ret (skipn i t).
Proof. intro H. unfold from. now rewrite (proj2 (Nat.leb_le _ _) H). Qed.

Definition trig_text (is_sin : bool) : list Z := if is_sin then zs "sin" else zs "cos".
Lemma periodic_text C angles (is_sin : bool) m i a ts :
  isalpha (s_planet C) = true -> table_ok C angles -> nth_error angles i = Some a ->
  (match m with Some k => 1 <= k <= 9 | None => True end) -> no_digit ts ->
  let x := (degrees a (s_d C) * (IZR (match m with Some k => k | None => 1 end) * PI / 180))%R in
  x <> 0%R ->
  CospModel.periodic C ((trig_text is_sin ++ (match m with Some k => [48 + k] | None => [] end) ++ s_planet C :: dec (Z.of_nat i + 1)) ++ ts) 0
  = Ret ((if is_sin then sin x else cos x), 0).
Proof.
  intros Hp (Ha & Ht) Hi Hm Hts x Hx.
  destruct (Ht i a Hi) as (t & j & Hj & (n1 & n2 & more & H1 & H2 & ->) & Hb & Hl).
  pose proof (alpha_range _ Hp) as Rp. set (p := s_planet C) in *.
  assert (Di : digits_of (dec (Z.of_nat i + 1)) (Z.of_nat i + 1)).
  { apply dec_digits. unfold IMAX in Hb. lia. }
  assert (Ri : 0 <= Z.of_nat i + 1 <= IMAX) by lia.
  set (k := match m with Some k => k | None => 1 end) in *.
  assert (Rk : 1 <= k <= 9) by (unfold k; destruct m; lia).
  unfold CospModel.periodic. fold p.
  assert (P1 : forall err, err = 0 ->
    (do c3 <- at_ ((trig_text is_sin ++ (match m with Some k => [48 + k] | None => [] end) ++ p :: dec (Z.of_nat i + 1)) ++ ts) 3;
     (if c3 =? p then do u <- from ((trig_text is_sin ++ (match m with Some k => [48 + k] | None => [] end) ++ p :: dec (Z.of_nat i + 1)) ++ ts) 4;
                      do i <- SofModel.atoi u; Ret (1, i, err)
     else do u <- from ((trig_text is_sin ++ (match m with Some k => [48 + k] | None => [] end) ++ p :: dec (Z.of_nat i + 1)) ++ ts) 3;
          do m0 <- SofModel.atoi u;
          do u <- from ((trig_text is_sin ++ (match m with Some k => [48 + k] | None => [] end) ++ p :: dec (Z.of_nat i + 1)) ++ ts) 5;
          do i0 <- SofModel.atoi u;
          do c4 <- at_ ((trig_text is_sin ++ (match m with Some k => [48 + k] | None => [] end) ++ p :: dec (Z.of_nat i + 1)) ++ ts) 4;
          Ret (m0, i0, if c4 =? p then err else -4))) = Ret (k, Z.of_nat i + 1, 0)).
  { intros err ->. assert (E3 : exists c1 c2 c3, trig_text is_sin = [c1; c2; c3]) by (destruct is_sin; now repeat eexists).
    destruct E3 as (c1 & c2 & c3 & ->). destruct m as [k'|]; cbn [app].
    - rewrite at_ret by (cbn [List.length]; lia). cbn [nth obind].
      replace (48 + k' =? p) with false by (symmetry; apply Z.eqb_neq; lia).
      rewrite from_ret by (cbn [List.length]; lia). cbn [skipn obind].
      assert (E1 : SofModel.atoi (48 + k' :: p :: dec (Z.of_nat i + 1) ++ ts) = Ret k').
      { apply (atoi_num [48 + k'] k' (p :: dec (Z.of_nat i + 1) ++ ts)).
        - apply one_digit. lia.
        - cbn. now apply alpha_not_digit.
        - unfold IMAX. lia. }
      rewrite E1. cbn [obind]. rewrite from_ret by (cbn [List.length]; lia). cbn [skipn obind].
      rewrite (atoi_num _ _ ts Di Hts Ri). cbn [obind]. rewrite at_ret by (cbn [List.length]; lia). cbn [nth obind].
      rewrite Z.eqb_refl. reflexivity.
    - rewrite at_ret by (cbn [List.length]; lia). cbn [nth obind]. rewrite Z.eqb_refl.
      rewrite from_ret by (cbn [List.length]; lia). cbn [skipn obind].
      rewrite (atoi_num _ _ ts Di Hts Ri). reflexivity. }
  specialize (P1 0 eq_refl).
  set (T := (trig_text is_sin ++ (match m with Some k => [48 + k] | None => [] end) ++ p :: dec (Z.of_nat i + 1)) ++ ts) in *.
  destruct (at_ T 3) as [c3| | |]; try discriminate P1. cbn [obind] in P1 |- *. rewrite P1. cbn [obind].
  replace (s_ang C =? 0) with false by (symmetry; apply Z.eqb_neq; lia). cbn [negb check obind].
  assert (Ev : ev IMAX (s_ang C + (Z.of_nat i + 1)%Z)%cx = Ret (s_ang C + Z.of_nat i + 1)).
  { assert (B : forall z, 0 <= z <= IMAX -> chk IMAX z = Ret z).
    { intros z Hz. unfold chk, in_rng. now rewrite !(proj2 (Z.leb_le _ _)) by (unfold IMAX in *; lia). }
    cbn [ev]. rewrite !B by lia. cbn [obind]. rewrite B by lia. f_equal. lia. }
  rewrite Ev. cbn [obind]. replace (s_ang C + Z.of_nat i + 1 <? 0) with false by (symmetry; apply Z.ltb_ge; lia).
  rewrite Hl. cbn [obind].
  change (p :: dec j ++ 61 :: n1 ++ n2 ++ (if by_day a then 100 else 84) :: more)
    with ((p :: dec j) ++ 61 :: n1 ++ n2 ++ (if by_day a then 100 else 84) :: more).
  rewrite behind_app; [|intros [E|E]; [lia|revert E; eapply digits_no; [apply dec_digits; exact Hj|reflexivity]]].
  cbn [obind]. rewrite (strtold_first n1 (constant a)) by (assumption || now apply signed_end with (linear a)).
  cbn [obind]. rewrite (strtold_signed n2 (linear a)); [|assumption|destruct (by_day a); cbn; repeat split; discriminate].
  cbn [obind].
  replace ((((if by_day a then 100 else 84) =? 100) || ((if by_day a then 100 else 84) =? 84))) with true by (destruct (by_day a); reflexivity).
  cbn [check obind].
  replace ((if by_day a then 100 else 84) =? 100) with (by_day a) by (destruct (by_day a); reflexivity).
  replace (k =? 0) with false by (symmetry; apply Z.eqb_neq; lia).
  change (Q2R (constant a) + Q2R (linear a) * (if by_day a then s_d C else t_cen C))%R with (degrees a (s_d C)).
  fold x. destruct (Reqb_spec x 0) as [E|_]; [contradiction|].
  unfold T, trig_text. destruct is_sin; reflexivity.
Qed.

(** Characters that are no signs are passed over *)
Definition no_sign (c : Z) : Prop := c <> 43 /\ c <> 45.
Lemma pass_over C k : Forall no_sign k -> forall fuel ts v r e, term_loop (List.length k + fuel) C (k ++ ts) v r e = term_loop fuel C ts v r e.
Proof.
  induction 1 as [|c k (H1 & H2) _ IH]; intros; [reflexivity|]. cbn [List.length Nat.add app term_loop].
  apply Z.eqb_neq in H1, H2. rewrite H1, H2. cbn [negb andb]. apply IH.
Qed.
Lemma digits_no_sign s v : digits_of s v -> Forall no_sign s.
Proof. intros (_ & D & _). apply Forall_forall. intros c I. apply D, digit_range in I. split; lia. Qed.
Lemma factor_text p angles d k f lin : isalpha p = true -> factor p angles d k f lin -> (List.length angles < Z.to_nat IMAX)%nat ->
  Forall no_sign k /\ exists c r, k = c :: r /\ In c [100; 84; 115; 99].
Proof.
  intros Hp H Hl. pose proof (alpha_range _ Hp) as Rp. destruct H as [| | | |is_sin m i a Hi Hm x Hx]; unfold zs; cbn [map].
  1-4: split; [repeat constructor; discriminate|eexists _, _; split; [reflexivity|cbn; tauto]].
  split.
  - apply Forall_app. split; [destruct is_sin; repeat constructor; discriminate|]. apply Forall_app. split.
    + destruct m as [k|]; repeat constructor; lia.
    + constructor; [split; lia|]. apply digits_no_sign with (Z.of_nat i + 1). apply dec_digits.
      assert (i < List.length angles)%nat by (apply nth_error_Some; congruence). unfold IMAX in Hl. lia.
  - destruct is_sin; eexists _, _; (split; [reflexivity|cbn; tauto]).
Qed.
Lemma kind_end c r : In c [100; 84; 115; 99] -> num_end (c :: r).
Proof. intros [<-|[<-|[<-|[<-|[]]]]]; cbn; repeat split; discriminate. Qed.
Lemma terms_head p angles d ts s neg : terms p angles d ts s neg -> no_digit ts /\ nth 0 ts 0 <> 50 /\ num_end ts.
Proof.
  intro H. destruct H as [|n q k f lin ts v neg H _ _]; [repeat split; cbn; discriminate|].
  destruct (signed_head n q H) as (c & t & -> & [-> | ->]); cbn; repeat split; discriminate.
Qed.
Lemma signed_length n q : signed_num n q -> (2 <= List.length n)%nat.
Proof.
  assert (K : forall n q, numeral n q -> (1 <= List.length n)%nat).
  { intros m x [m' y H|m' y s ds e H _ _]; destruct (number_first _ _ H) as (c & t & -> & _); cbn [List.length app]; lia. }
  intros [m x H|m x H]; apply K in H; cbn [List.length]; lia.
Qed.

Lemma terms_loop p angles d ts s neg : terms p angles d ts s neg -> isalpha p = true -> (List.length angles < Z.to_nat IMAX)%nat ->
  forall C, s_planet C = p -> s_d C = d -> (angles <> [] -> table_ok C angles) -> (s_poles C = true \/ s_omega C = false) ->
  forall fuel v r, (List.length ts < fuel)%nat ->
  term_loop fuel C ts v r 0 = Ret ((v + s)%R, r || (neg && s_omega C), 0, false).
Proof.
  intros H Hp Hl C EC ED HT HS. induction H as [|n q k f lin ts s neg Hn Hk Hts IH]; intros fuel v r Hf.
  - destruct fuel; [cbn in Hf; lia|]. cbn [term_loop]. rewrite Rplus_0_r. cbn [andb]. now rewrite orb_false_r.
  - destruct (factor_text p angles d k f lin Hp Hk Hl) as (Ns & c & kr & Ek & Ic).
    pose proof (signed_length n q Hn) as L2. rewrite !app_length in Hf.
    destruct (terms_head _ _ _ _ _ _ Hts) as (Td & T50 & Te).
    assert (Hs : exists fuel', fuel = S (List.length k + fuel') /\ (List.length ts < fuel')%nat)
      by (exists (fuel - 1 - List.length k)%nat; lia).
    destruct Hs as (fuel' & -> & Hf').
    assert (Go : forall f' r', r' = r || (lin && qlt q 0 && s_omega C) -> f' = (v + Q2R q * f)%R ->
      term_loop (List.length k + fuel') C (k ++ ts) f' r' 0 = Ret ((v + (Q2R q * f + s))%R, r || ((lin && negb (Qle_bool 0 q) || neg) && s_omega C), 0, false)).
    { intros f' r' -> ->. rewrite pass_over by assumption. rewrite IH by assumption. f_equal. f_equal; f_equal; f_equal; try lra.
      unfold qlt. destruct r, lin, (Qle_bool 0 q), neg, (s_omega C); reflexivity. }
    destruct (signed_head n q Hn) as (sg & n' & En & Hsg).
    assert (E0 : term_loop (S (List.length k + fuel')) C (n ++ k ++ ts) v r 0 =
      (do '(q, t) <- strtold (n ++ k ++ ts);
            let c := nth 0 t 0 in
            if c =? 100 then
              let square := nth 1 t 0 =? 50 in
              let retro := r || (negb square && qlt q 0 && s_omega C) in
              let coeff := if square then (Q2R q * s_d C)%R else Q2R q in
              if s_omega C && negb (s_poles C) then Ret (coeff, retro, 0, true)
              else term_loop (List.length k + fuel') C t (v + coeff * s_d C)%R retro 0
            else if c =? 84 then
              let square := nth 1 t 0 =? 50 in
              let retro := r || (negb square && qlt q 0 && s_omega C) in
              let coeff := if square then (Q2R q * t_cen C)%R else Q2R q in
              term_loop (List.length k + fuel') C t (v + coeff * t_cen C)%R retro 0
            else do '(f, err) <- CospModel.periodic C t 0; term_loop (List.length k + fuel') C t (v + Q2R q * f)%R r err)).
    { rewrite En. cbn [app term_loop]. destruct Hsg as [-> | ->]; reflexivity. }
    rewrite E0. rewrite (strtold_signed n q) by (assumption || (rewrite Ek; now apply kind_end)). cbn [obind]. cbv zeta.
    assert (E50 : (nth 0 ts 0 =? 50) = false) by now apply Z.eqb_neq.
    assert (Eo : s_omega C && negb (s_poles C) = false) by (destruct HS as [-> | ->]; [apply andb_false_r|reflexivity]).
    destruct Hk as [| | | |is_sin m i a Hi Hm x Hx].
    + change (nth 0 (zs "d" ++ ts) 0 =? 100) with true. cbv iota. change (nth 1 (zs "d" ++ ts) 0) with (nth 0 ts 0). rewrite E50, Eo.
      cbn [negb]. apply Go; [reflexivity|]. rewrite ED. reflexivity.
    + change (nth 0 (zs "d2" ++ ts) 0 =? 100) with true. cbv iota. change (nth 1 (zs "d2" ++ ts) 0 =? 50) with true. rewrite Eo.
      cbn [negb]. apply Go; [reflexivity|]. rewrite ED. lra.
    + change (nth 0 (zs "T" ++ ts) 0 =? 100) with false. change (nth 0 (zs "T" ++ ts) 0 =? 84) with true. cbv iota.
      change (nth 1 (zs "T" ++ ts) 0) with (nth 0 ts 0). rewrite E50.
      cbn [negb]. apply Go; [reflexivity|]. unfold t_cen. rewrite ED. reflexivity.
    + change (nth 0 (zs "T2" ++ ts) 0 =? 100) with false. change (nth 0 (zs "T2" ++ ts) 0 =? 84) with true. cbv iota.
      change (nth 1 (zs "T2" ++ ts) 0 =? 50) with true.
      cbn [negb]. apply Go; [reflexivity|]. unfold t_cen. rewrite ED. lra.
    + assert (Hne : angles <> []) by (intro; subst; destruct i; discriminate).
      pose proof (periodic_text C angles is_sin m i a ts) as P. rewrite EC, ED in P.
      specialize (P Hp (HT Hne) Hi Hm Td Hx). cbv zeta in P. fold x in P.
      change (if is_sin then zs "sin" else zs "cos") with (trig_text is_sin) in *.
      set (K := trig_text is_sin ++ (match m with Some k => [48 + k] | None => [] end) ++ p :: dec (Z.of_nat i + 1)) in *.
      replace (nth 0 (K ++ ts) 0 =? 100) with false by (unfold K; destruct is_sin; reflexivity).
      replace (nth 0 (K ++ ts) 0 =? 84) with false by (unfold K; destruct is_sin; reflexivity).
      rewrite P. cbn [obind]. apply Go; [cbn [andb]; now rewrite orb_false_r|reflexivity].
Qed.

(** A formula *)
Lemma number_no_sign n q : number_of n q -> Forall no_sign n.
Proof. intro H. destruct (number_chars n q H) as (_ & K). apply Forall_forall. intros c I. apply K in I. unfold num_char in I. split; lia. Qed.
Lemma after_minus n q ts : first_num n q ->
  exists m, (match n ++ ts with 45 :: r => r | _ => n ++ ts end) = m ++ ts /\ (List.length m <= List.length n)%nat /\ Forall no_sign m.
Proof.
  intros [m x H|m x H].
  - exists m. split; [|split; [lia|now apply number_no_sign with x]].
    destruct (number_first m x H) as (c & t & -> & K). cbn [app]. unfold num_char in K.
    destruct c as [|y|y]; try lia. do 6 (destruct y as [y|y|]; try reflexivity); lia.
  - exists m. cbn [app List.length]. split; [reflexivity|split; [lia|now apply number_no_sign with x]].
Qed.
Lemma value_text p angles d u t v neg : formula p angles d t v neg -> isalpha p = true -> (List.length angles < Z.to_nat IMAX)%nat -> ~ In 61 u ->
  forall C, s_planet C = p -> s_d C = d -> (angles <> [] -> table_ok C angles) -> (s_poles C = true \/ s_omega C = false) ->
  forall fuel r, (List.length t < fuel)%nat ->
  value fuel C (u ++ 61 :: t) r 0 = Ret (v, r || (neg && s_omega C), 0, false).
Proof.
  intros (n & q & ts & s & Hn & Hts & -> & ->) Hp Hl Hu C EC ED HT HS fuel r Hf.
  unfold value. rewrite behind_app by assumption. cbn [obind].
  destruct (terms_head _ _ _ _ _ _ Hts) as (Td & T50 & Te).
  rewrite (strtold_first n q) by assumption. cbn [obind].
  destruct (after_minus n q ts Hn) as (m & -> & Lm & Ns). rewrite app_length in Hf.
  assert (E : exists f', fuel = (List.length m + f')%nat /\ (List.length ts < f')%nat) by (exists (fuel - List.length m)%nat; lia).
  destruct E as (f' & -> & Hf'). rewrite pass_over by assumption.
  now apply terms_loop with p angles d.
Qed.
