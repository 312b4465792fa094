(** Proofs of the theorems stated in [PropMpcd]. *)
From Coq Require Import Lia QArith Qround Qabs Lqa.
From Coq Require Import String.
From Verif Require Import CBase CLemmas CStr DateModel DateVocab DateFacts TstrModel CtimeSpec CtimeRound MpcfModel MpcfRead MpcdSpec MpcdProofs.
Local Open Scope string_scope.
Local Open Scope list_scope.
Local Open Scope Z_scope.

Lemma radar_round v : ~ (v == 0)%Q -> forall note, radar_note note -> exists k, (radar note v == inject_Z k / 86400)%Q /\ (Qabs (radar note v - v) <= 1 # 172800)%Q.
Proof.
  intros Hv note Hn. unfold radar.
  assert (E0 : Qeq_bool v 0 = false) by (destruct (Qeq_bool v 0) eqn:K; [elim Hv; now apply Qeq_bool_eq|reflexivity]).
  assert (E1 : (note =? 82) || (note =? 114) = true) by (destruct Hn as [-> | ->]; reflexivity).
  rewrite E0, E1. cbn [negb andb]. cbv zeta.
  set (fl := Qfloor v). set (x := (v - inject_Z fl + (1 # 172800))%Q). set (g := Qfloor (x * 86400)).
  assert (EQ : (v + ((1 # 172800) - (x - inject_Z g / 86400)) == inject_Z fl + inject_Z g / 86400)%Q) by (unfold x; ring).
  exists (fl * 86400 + g). split.
  - rewrite EQ, inject_Z_plus, inject_Z_mult. change (inject_Z 86400) with 86400%Q. field.
  - pose proof (Qfloor_le (x * 86400)) as B1. pose proof (Qlt_floor (x * 86400)) as B2. fold g in B1, B2. rewrite inject_Z_plus in B2. change (inject_Z 1) with 1%Q in B2.
    assert (D1 : (inject_Z g / 86400 <= x)%Q) by (apply Qle_shift_div_r; [reflexivity|]; exact B1).
    assert (D2 : (x < (inject_Z g + 1) / 86400)%Q) by (apply Qlt_shift_div_l; [reflexivity|]; exact B2).
    assert (D3 : ((inject_Z g + 1) / 86400 == inject_Z g / 86400 + (2 # 172800))%Q) by field.
    rewrite D3 in D2. apply Qabs_Qle_condition. set (G := (inject_Z g / 86400)%Q) in *. split; lra.
Qed.
Lemma radar_zero v note : (v == 0)%Q -> (radar note v == 0)%Q.
Proof. intros H. unfold radar. assert (E : Qeq_bool v 0 = true) by (now apply Qeq_eq_bool). rewrite E. exact H. Qed.
Lemma invalid_code s : (3 <= List.length s)%nat -> ~ (forall i, (i < 3)%nat -> 33 <= nth i s 0 <= 122) -> is_valid_mpc_code s = Ret false.
Proof.
  intros L H. destruct s as [|a [|b [|c s]]]; cbn [List.length] in L; try lia.
  assert (A0 : forall k x, (k < 3)%nat -> nth k (a :: b :: c :: s) 0 = x -> at_ (a :: b :: c :: s) (Z.of_nat k) = Ret x).
  { intros k x Hk E. unfold at_. cbn [List.length]. destruct (Z.eqb_spec (Z.of_nat k) (Z.of_nat (S (S (S (List.length s)))))); [lia|].
    unfold nth_ub. destruct (Z.ltb_spec (Z.of_nat k) 0); [lia|]. rewrite Nat2Z.id. destruct k as [|[|[|k]]]; [| | |lia]; cbn in E |- *; now rewrite E. }
  unfold is_valid_mpc_code, tst. pose proof (A0 0%nat a ltac:(lia) eq_refl) as E0. pose proof (A0 1%nat b ltac:(lia) eq_refl) as E1. pose proof (A0 2%nat c ltac:(lia) eq_refl) as E2.
  change (Z.of_nat 0) with 0 in E0. change (Z.of_nat 1) with 1 in E1. change (Z.of_nat 2) with 2 in E2. rewrite E0, E1, E2. cbn [obind].
  destruct (Z.leb_spec a 32), (Z.ltb_spec 122 a); try reflexivity. destruct (Z.leb_spec b 32), (Z.ltb_spec 122 b); try reflexivity.
  destruct (Z.leb_spec c 32), (Z.ltb_spec 122 c); try reflexivity. elim H. intros i Hi. destruct i as [|[|[|i]]]; cbn [nth]; lia.
Qed.
Lemma valid_total s : (3 <= List.length s)%nat -> exists b : bool, is_valid_mpc_code s = Ret b.
Proof.
  intros L. destruct s as [|a [|b [|c s]]]; cbn [List.length] in L; try lia.
  assert (D : forall i, (i < 3)%nat -> {33 <= nth i (a :: b :: c :: s) 0 <= 122} + {~ 33 <= nth i (a :: b :: c :: s) 0 <= 122}).
  { intros i _. set (z := nth i (a :: b :: c :: s) 0). destruct (Z_le_dec 33 z), (Z_le_dec z 122); [left|right|right|right]; lia. }
  destruct (D 0%nat ltac:(lia)) as [A|A], (D 1%nat ltac:(lia)) as [B|B], (D 2%nat ltac:(lia)) as [C|C].
  1: exists true; apply valid_code; [cbn [List.length]; lia|]; intros i Hi; destruct i as [|[|[|i]]]; [assumption|assumption|assumption|lia].
  all: exists false; apply invalid_code; [cbn [List.length]; lia|]; intro H; first [apply A, (H 0%nat); lia|apply B, (H 1%nat); lia|apply C, (H 2%nat); lia].
Qed.
(* ---------- it always returns ---------- *)
Definition bytes (s : list Z) : Prop := forall c, In c s -> -128 <= c <= 127.
Lemma nth_bytes s i : bytes s -> -128 <= nth i s 0 <= 127.
Proof. intros H. destruct (Nat.lt_ge_cases i (List.length s)) as [K|K]; [apply H, nth_In; exact K|rewrite nth_overflow by exact K; lia]. Qed.
Lemma at_nth s i : 0 <= i < Z.of_nat (List.length s) -> at_ s i = Ret (nth (Z.to_nat i) s 0).
Proof.
  intros H. unfold at_. destruct (Z.eqb_spec i (Z.of_nat (List.length s))) as [K|K]; [lia|]. unfold nth_ub. destruct (Z.ltb_spec i 0); [lia|].
  rewrite (nth_error_nth' s 0) by lia. reflexivity.
Qed.
Lemma two_total s i : bytes s -> 0 <= i < Z.of_nat (List.length s) - 1 ->
  exists v, get_two_digits s i = Ret v /\ v = nth (Z.to_nat i) s 0 * 10 + nth (Z.to_nat (i + 1)) s 0 - 528.
Proof.
  intros H K. unfold get_two_digits. rewrite !at_nth by lia. cbn [obind]. pose proof (nth_bytes s (Z.to_nat i) H). pose proof (nth_bytes s (Z.to_nat (i + 1)) H).
  rewrite ev_val by (cbn [safe val]; unfold fits, IMAX; lia). cbn [val]. eexists. split; [reflexivity|]. ring.
Qed.
Lemma atof_total s : unmodelled_number (snd (sign_of (skip_ws s))) = false -> exists q, atof s = Ret q.
Proof.
  intros H. unfold atof, strtold. destruct (sign_of (skip_ws s)) as [neg t]. cbn [snd] in H. rewrite H.
  destruct (mantissa t) as [[[m k] r]|]; [|eexists; reflexivity]. destruct (exponent r) as [[[e r']|]|]; eexists; reflexivity.
Qed.
Lemma a_report note date : List.length date = 17%nat -> report note date (a_line note date).
Proof.
  intros H. exists (repeat 32 14), (repeat 32 45 ++ zs "568"). split; [reflexivity|]. split; [reflexivity|]. split; [now left|]. split; [exact H|]. split; [cbn; lia|].
  intros i Hi. assert (K : i = 45%nat \/ i = 46%nat \/ i = 47%nat) by lia. destruct K as [->|[->| ->]]; vm_compute; split; discriminate.
Qed.
Lemma a_day : day_number L64 13 2 2013 2456337.
Proof. repeat split; try lia. Qed.
Lemma bit_digit l : forall i, Z.testbit (digit_bits l 1) (Z.of_nat i) = match nth_error l i with Some c => isdigit c | None => false end.
Proof.
  induction l as [|c l IH]; intros i; cbn [digit_bits]; [rewrite Z.testbit_0_l; now destruct i|].
  rewrite bits_scale. replace ((if isdigit c then 1 else 0) + digit_bits l 1 * 2) with (2 * digit_bits l 1 + Z.b2z (isdigit c)) by (destruct (isdigit c); cbn [Z.b2z]; ring).
  destruct i as [|i]; [apply Z.testbit_0_r|]. rewrite Nat2Z.inj_succ, Z.testbit_succ_r by lia. apply IH.
Qed.
Lemma mask_digit l k v i : Z.land (digit_bits l 1) k = v -> Z.testbit v (Z.of_nat i) = true -> isdigit (nth i l 0) = true.
Proof.
  intros H B. rewrite <- H, Z.land_spec in B. apply Bool.andb_true_iff in B. destruct B as [B _]. rewrite bit_digit in B.
  destruct (nth_error l i) as [c|] eqn:E; [|discriminate]. now rewrite (nth_error_nth l i 0 E).
Qed.
Lemma firstn_skipn_in (l : list Z) a b c : In c (firstn a (skipn b l)) -> In c l.
Proof. intros H. rewrite <- (firstn_skipn b l). apply in_or_app. right. rewrite <- (firstn_skipn a (skipn b l)). apply in_or_app. now left. Qed.
Lemma digits_stop n : forall u r acc, (List.length u <= n)%nat -> 0 <= acc -> (acc + 1) * 10 ^ Z.of_nat n <= IMAX -> stops r ->
  exists v t, int_digits (u ++ r) acc = Ret (v, t) /\ 0 <= v < (acc + 1) * 10 ^ Z.of_nat n.
Proof.
  induction n as [|n IH]; intros s r acc Hl Ha Hb Hr.
  - destruct s; [|cbn in Hl; lia]. exists acc, r. cbn [app]. rewrite stops_int by exact Hr. split; [reflexivity|]. change (10 ^ Z.of_nat 0) with 1. lia.
  - pose proof (Z.pow_pos_nonneg 10 (Z.of_nat n) ltac:(lia) ltac:(lia)) as P. rewrite Nat2Z.inj_succ, Z.pow_succ_r in * by lia.
    destruct s as [|c s].
    + exists acc, r. cbn [app]. rewrite stops_int by exact Hr. split; [reflexivity|]. nia.
    + cbn [app int_digits]. destruct (isdigit c) eqn:D; [|exists acc, (c :: s ++ r); split; [reflexivity|nia]].
      unfold isdigit in D. assert (HQ : (acc + 1) * 10 <= IMAX) by nia. assert (HP : IMAX = 2147483647) by reflexivity. rewrite ev_val by (cbn [safe val]; unfold fits; lia). cbn [obind val].
      destruct (IH s r (acc * 10 + (c - 48))) as (v & t & E & B); [cbn in Hl; lia|lia|nia|exact Hr|]. exists v, t. split; [exact E|nia].
Qed.
Lemma not_space c : isdigit c = true -> isspace c = false.
Proof. unfold isdigit, isspace. lia. Qed.
Lemma atof_digit c1 c2 r : isdigit c1 = true -> isdigit c2 = true \/ c2 = 46 -> exists q, atof (c1 :: c2 :: r) = Ret q.
Proof.
  intros H1 H2. apply atof_total. unfold skip_ws. cbn [span]. rewrite not_space by exact H1. cbn [skipn].
  assert (S : sign_of (c1 :: c2 :: r) = (false, c1 :: c2 :: r)).
  { unfold isdigit in H1. unfold sign_of. destruct c1 as [|c|c]; try reflexivity. do 6 (destruct c as [c|c|]; try reflexivity); exfalso; lia. }
  rewrite S. cbn [snd]. unfold unmodelled_number. unfold isdigit in *. apply Bool.orb_false_iff. split; [apply Bool.orb_false_iff; split|]; change (zs "inf") with [105; 110; 102]; change (zs "nan") with [110; 97; 110]; change (zs "0x") with [48; 120]; cbn [prefix]; try (apply Bool.andb_false_iff; left; lia).
  apply Bool.andb_false_iff. right. apply Bool.andb_false_iff. left. lia.
Qed.
Lemma atof_any_digit c0 c1 c2 r : isdigit c1 = true -> isdigit c2 = true -> exists q, atof (c0 :: c1 :: c2 :: r) = Ret q.
Proof.
  intros H1 H2. apply atof_total. unfold skip_ws. cbn [span].
  assert (SG : forall x y, isdigit x = true -> sign_of (x :: y) = (false, x :: y)).
  { intros x y H. unfold isdigit in H. unfold sign_of. destruct x as [|c|c]; try reflexivity. do 6 (destruct c as [c|c|]; try reflexivity); exfalso; lia. }
  assert (U : unmodelled_number (c1 :: c2 :: r) = false).
  { unfold unmodelled_number, isdigit in *. apply Bool.orb_false_iff. split; [apply Bool.orb_false_iff; split|]; change (zs "inf") with [105; 110; 102]; change (zs "nan") with [110; 97; 110]; change (zs "0x") with [48; 120]; cbn [prefix]; try (apply Bool.andb_false_iff; left; lia).
    apply Bool.andb_false_iff. right. apply Bool.andb_false_iff. left. lia. }
  destruct (isspace c0).
  - rewrite not_space by exact H1. cbn [skipn]. rewrite SG by exact H1. exact U.
  - cbn [skipn]. assert (K : sign_of (c0 :: c1 :: c2 :: r) = (true, c1 :: c2 :: r) \/ sign_of (c0 :: c1 :: c2 :: r) = (false, c1 :: c2 :: r) \/ sign_of (c0 :: c1 :: c2 :: r) = (false, c0 :: c1 :: c2 :: r)).
    { unfold sign_of. destruct c0 as [|c|c]; auto. do 6 (destruct c as [c|c|]; auto). }
    destruct K as [-> |[-> | ->]]; cbn [snd]; try exact U. unfold unmodelled_number, isdigit in *. clear - H1.
    apply Bool.orb_false_iff. split; [apply Bool.orb_false_iff; split|]; change (zs "inf") with [105; 110; 102]; change (zs "nan") with [110; 97; 110]; change (zs "0x") with [48; 120]; cbn [prefix]; apply Bool.andb_false_iff; right; apply Bool.andb_false_iff; left; lia.
Qed.
Lemma atof_point s : exists q, atof (46 :: s) = Ret q.
Proof. apply atof_total. reflexivity. Qed.
Lemma add_total L r y mo : long_ok L -> -10000 <= y <= 10000 -> exists q, add_month L r y mo = Ret q.
Proof.
  intros HL Hy. unfold add_month. destruct ((1 <=? mo) && (mo <=? 12) && qlt 0 r && qlt r 99) eqn:E; [|eexists; reflexivity].
  assert (Hm : 1 <= mo <= 12) by lia.
  rewrite DateJG.jg_dmy_to_day. set (c := dmy_calendar_to_use 0 mo y CALENDAR_JULIAN_GREGORIAN).
  assert (R : rule_cal c).
  { unfold c, dmy_calendar_to_use. change (CALENDAR_JULIAN_GREGORIAN =? CALENDAR_JULIAN_GREGORIAN) with true. cbv iota.
    destruct ((1582 <? y) || (y =? 1582) && ((10 <? mo) || (mo =? 10) && (5 <? 0))); unfold rule_cal; tauto. }
  rewrite dmy_to_dayA; [cbn [obind]; eexists; reflexivity|exact HL|left; split; [exact R|]; unfold year_ok, long_ok in *; lia|lia|lia|lia].
Qed.
Lemma fill_cases D m tb m' : fill_zeroes D m = (tb, m') -> bytes D -> List.length D = 17%nat ->
  (tb = D /\ m' = m) \/ (nth 7 tb 0 = 32 /\ bytes tb /\ List.length tb = 17%nat /\ isdigit (nth 0 tb 0) = isdigit (nth 0 D 0)).
Proof.
  intros E B LD. unfold fill_zeroes in E.
  destruct (negb (Z.land m 1023 =? 879) && (Z.land m 735 =? 591) && (nth 7 D 0 =? 32) && (nth 10 D 0 =? 46)) eqn:C; [|left; injection E as <- <-; now split].
  right. assert (D7 : nth 7 D 0 = 32) by lia. clear C.
  assert (UB : forall l k, bytes l -> bytes (upd l k 48)).
  { induction l as [|x l IH]; intros k Hl; [destruct k; exact Hl|]. destruct k as [|k]; cbn [upd]; intros c [<-|Hc].
    - lia. - apply Hl. now right. - apply Hl. now left. - apply (IH k); [intros z Hz; apply Hl; now right|exact Hc]. }
  destruct D as [|z D]; [discriminate LD|]. destruct D as [|z0 D]; [discriminate LD|]. destruct D as [|z1 D]; [discriminate LD|]. destruct D as [|z2 D]; [discriminate LD|]. destruct D as [|z3 D]; [discriminate LD|]. destruct D as [|z4 D]; [discriminate LD|]. destruct D as [|z5 D]; [discriminate LD|]. destruct D as [|z6 D]; [discriminate LD|]. destruct D as [|z7 D]; [discriminate LD|].
  do 8 (destruct D as [|? D]; [discriminate LD|]). destruct D; [|discriminate LD]. cbn [nth] in *. subst.
  cbv zeta in E. injection E as <- <-.
  match goal with |- context [bytes ?g] => assert (BG : bytes g) by (destruct (z4 =? 32); cbn [upd nth]; destruct (z7 =? 32); first [exact B|exact (UB _ 5%nat B)|exact (UB _ 8%nat B)|exact (UB _ 8%nat (UB _ 5%nat B))]) end.
  split; [|split; [exact BG|]]; destruct (z4 =? 32); cbn [upd nth]; destruct (z7 =? 32); try reflexivity; split; reflexivity.
Qed.
Lemma fields_total D : List.length D = 17%nat -> bytes D -> exists tb m r y mo ff sd,
  fill_zeroes D (digit_bits D 1) = (tb, m) /\ date_fields tb m = Ret (r, y, mo, ff, sd) /\ -10000 <= y <= 10000.
Proof.
  intros LD BD. destruct (fill_zeroes D (digit_bits D 1)) as [tb m] eqn:EF. exists tb, m.
  pose proof (fill_cases D _ tb m EF BD LD) as FC.
  assert (BT : bytes tb /\ List.length tb = 17%nat) by (destruct FC as [[-> _]|(_ & H1 & H2 & _)]; now split). destruct BT as [BT LT].
  assert (N : exists r y mo ff sd, (@Ret (Q * Z * Z * Z * nat) (0%Q, 0, 0, 0, 0%nat)) = Ret (r, y, mo, ff, sd) /\ -10000 <= y <= 10000) by (repeat eexists; lia).
  assert (G : exists r y mo ff sd, date_fields tb m = Ret (r, y, mo, ff, sd) /\ -10000 <= y <= 10000).
  2:{ destruct G as (r & y & mo & ff & sd & G1 & G2). exists r, y, mo, ff, sd. now repeat split. }
  unfold date_fields. destruct (Z.eqb_spec (nth 4 tb 0) 32) as [T4|T4].
  - destruct ((Z.land m 1023 =? 879) && (nth 7 tb 0 =? 32) && (nth 10 tb 0 =? 46)); [|exact N].
    assert (Q1 : exists y, quick_atoi tb = Ret y /\ 0 <= y < 10000).
    { assert (ST : tb = firstn 4 tb ++ skipn 4 tb) by (symmetry; apply firstn_skipn). unfold quick_atoi. rewrite ST.
      destruct (digits_stop 4 (firstn 4 tb) (skipn 4 tb) 0) as (v & t & E & B); [rewrite firstn_length; lia|lia|unfold IMAX; cbn; lia| |].
      { do 5 (destruct tb as [|? tb]; [discriminate LT|]). cbn [nth] in T4. subst. reflexivity. }
      rewrite E. cbn [obind]. exists v. split; [reflexivity|exact B]. }
    destruct Q1 as (y & Q1 & QB). rewrite Q1. cbn [obind].
    destruct (two_total tb 5 BT) as (mo & Q2 & _); [lia|]. rewrite Q2. cbn [obind].
    destruct (two_total tb 8 BT) as (d & Q3 & _); [lia|]. rewrite Q3. cbn [obind].
    assert (Q4 : exists f, quick_atoi (skipn 11 tb) = Ret f).
    { unfold quick_atoi. destruct (digits_stop 6 (skipn 11 tb) [] 0) as (v & t & E & B); [rewrite skipn_length; lia|lia|unfold IMAX; cbn; lia|exact I|].
      rewrite app_nil_r in E. rewrite E. now exists v. }
    destruct Q4 as (f & Q4). rewrite Q4. cbn [obind]. repeat eexists; lia.
  - destruct (Z.leb_spec 72 (nth 0 tb 0)) as [H0|H0], (Z.leb_spec (nth 0 tb 0) 75) as [H1|H1]; cbn [andb].
    1:{ destruct (((nth 7 tb 0 =? 46) || (nth 7 tb 0 =? 58)) && (Z.land m 1023 =? 894)) eqn:C; [|exact N].
      assert (TB : tb = D /\ m = digit_bits D 1) by (destruct FC as [K|(K & _)]; [exact K|exfalso; lia]). destruct TB as [-> ->].
      assert (M : Z.land (digit_bits D 1) 1023 = 894) by lia.
      destruct (two_total D 1 BT) as (y2 & Q1 & V1); [lia|]. rewrite Q1. cbn [obind].
      pose proof (nth_bytes D 1 BD) as B1. pose proof (nth_bytes D 2 BD) as B2. change (Z.to_nat 1) with 1%nat in V1. change (Z.to_nat (1 + 1)) with 2%nat in V1.
      rewrite ev_val by (cbn [safe val]; unfold fits, IMAX; lia). cbn [obind val].
      destruct (two_total D 3 BT) as (mo & Q2 & _); [lia|]. rewrite Q2. cbn [obind].
      assert (Q3 : exists q, atof (skipn 5 D) = Ret q).
      { pose proof (mask_digit D 1023 894 5 M eq_refl) as D5. pose proof (mask_digit D 1023 894 6 M eq_refl) as D6. clear - D5 D6 LD.
        do 17 (destruct D as [|? D]; [discriminate LD|]). cbn [nth skipn] in *. apply atof_digit; auto. }
      destruct Q3 as (q & Q3). rewrite Q3. cbn [obind].
      destruct (nth 7 D 0 =? 58); [|repeat eexists; lia].
      destruct (two_total D 8 BT) as (hh & Q4 & _); [lia|]. rewrite Q4. cbn [obind].
      destruct (two_total D 10 BT) as (mm & Q5 & _); [lia|]. rewrite Q5. cbn [obind].
      destruct (negb (nth 12 D 0 =? 32)); [|repeat eexists; lia].
      destruct (two_total D 12 BT) as (ss & Q6 & _); [lia|]. rewrite Q6. cbn [obind].
      assert (Q7 : exists f, atof (skipn 13 (upd D 13 46)) = Ret f).
      { clear - LD. do 17 (destruct D as [|? D]; [discriminate LD|]). cbn [upd skipn]. apply atof_point. }
      destruct Q7 as (f & Q7). rewrite Q7. cbn [obind]. repeat eexists; lia. }
    all: destruct (Z.eqb_spec (nth 7 tb 0) 46) as [T7|T7]; [|exact N]; destruct (Z.eqb_spec (Z.land m 1022) 894) as [M|M]; [|exact N];
      (assert (TB : tb = D /\ m = digit_bits D 1) by (destruct FC as [K|(K & _)]; [exact K|exfalso; lia])); destruct TB as [-> ->];
      pose proof (mask_digit D 1022 894 1 M eq_refl) as D1; pose proof (mask_digit D 1022 894 2 M eq_refl) as D2;
      (assert (Q1 : exists q, atof (skipn 1 D) = Ret q) by
        (clear - D1 D2 LD; do 17 (destruct D as [|? D]; [discriminate LD|]); cbn [nth skipn] in *; apply atof_digit; auto));
      (assert (Q2 : exists q, atof D = Ret q) by
        (clear - D1 D2 LD; do 17 (destruct D as [|? D]; [discriminate LD|]); cbn [nth] in *; now apply atof_any_digit));
      destruct Q1 as (q1 & Q1); destruct Q2 as (q2 & Q2);
      (destruct (nth 0 D 0 =? 77); [rewrite Q1|rewrite Q2]); cbn [obind]; repeat eexists; lia.
Qed.

Lemma C49_usual_proof :
  forall L note y zm m zd day n d jd line,
    long_ok L -> 0 <= y <= 9999 -> (zm = 48 \/ zm = 32) -> (zd = 48 \/ zd = 32) ->
    (n <= 6)%nat -> 0 <= d < 10 ^ Z.of_nat n -> ~ change_month y m day ->
    day_number L day m y jd -> ~ radar_note note ->
    report note (usual_date y zm m zd day n d) line ->
    date_reads L line (inject_Z jd - (1 # 2) + part n d) (Z.of_nat n).
Proof.
  intros L note y zm m zd day n d jd line HL Hy Zm Zd Hn Hd Hc D Hnote HR. now apply (usual_read L note y zm m zd day n d jd line).
Qed.

Lemma C49_packed_proof :
  forall L note c yy y m day n d jd line,
    long_ok L -> century c yy y -> (2 <= n <= 9)%nat -> 0 <= d < 10 ^ Z.of_nat n ->
    day_number L day m y jd -> ~ radar_note note ->
    report note (packed_date c yy m day n d) line ->
    date_reads L line (inject_Z jd - (1 # 2) + part n d) (30 + Z.of_nat n).
Proof.
  intros L note c yy y m day n d jd line HL HC Hn Hd D Hnote HR. now apply (packed_read L note c yy y m day n d jd line).
Qed.

Lemma C49_clock_proof :
  forall L note c yy y m day hh mm ss n d jd line,
    long_ok L -> century c yy y -> 0 <= hh < 24 -> 0 <= mm < 60 -> 0 <= ss < 60 -> (n <= 3)%nat -> 0 <= d < 10 ^ Z.of_nat n ->
    day_number L day m y jd -> ~ radar_note note ->
    report note (packed_time c yy m day hh mm ss n d) line ->
    date_reads L line (inject_Z jd - (1 # 2) + (inject_Z (hh * 3600 + mm * 60 + ss) + part n d) / 86400) (20 + Z.of_nat n).
Proof.
  intros L note c yy y m day hh mm ss n d jd line HL HC Hh Hm Hs Hn Hd D Hnote HR. now apply (packed_time_read L note c yy y m day hh mm ss n d jd line).
Qed.

Lemma C49_minutes_proof :
  forall L note c yy y m day hh mm jd line,
    long_ok L -> century c yy y -> 0 <= hh < 24 -> 0 <= mm < 60 ->
    day_number L day m y jd -> ~ radar_note note ->
    report note (packed_minutes c yy m day hh mm) line ->
    date_reads L line (inject_Z jd - (1 # 2) + inject_Z (hh * 60 + mm) / 1440) (50).
Proof.
  intros L note c yy y m day hh mm jd line HL HC Hh Hm D Hnote HR. now apply (packed_minutes_read L note c yy y m day hh mm jd line).
Qed.

Lemma C49_julian_proof :
  forall L note j n d line, (2 <= n <= 9)%nat -> 0 <= d < 10 ^ Z.of_nat n -> ~ radar_note note ->
    (0 <= j < 10000000 -> report note (jd_date j n d) line ->
       date_reads L line (inject_Z j + part n d) (10 + Z.of_nat n)) /\
    (0 <= j < 1000000 -> report note (mjd_date j n d) line ->
       date_reads L line (inject_Z j + part n d + (24000005 # 10)) (40 + Z.of_nat n)).
Proof.
  intros L note j n d line Hn Hd Hnote. split; intros Hj HR; [now apply (jd_read L note)|].
  destruct (mjd_read L note j n d line Hj Hn Hd Hnote HR) as (v & E & Ev). exists v. split; [exact E|]. rewrite Ev, inject_Z_plus. change (inject_Z 2400000) with 2400000%Q.
  set (x := inject_Z j). set (z := part n d). ring.
Qed.

Lemma C49_columns_proof :
  forall L note date line line', report note date line -> report note date line' ->
    extract_date_from_mpc_report L line = extract_date_from_mpc_report L line'.
Proof.
  intros L note date line line' H H'. now rewrite (extract_line L _ _ _ H), (extract_line L _ _ _ H').
Qed.

Lemma C49_radar_proof :
  forall L note note' date line line' v f, radar_note note -> ~ radar_note note' ->
    report note date line -> report note' date line' ->
    extract_date_from_mpc_report L line' = Ret (v, f) ->
    exists w, extract_date_from_mpc_report L line = Ret (w, f) /\
      ((v == 0)%Q -> (w == 0)%Q) /\
      (~ (v == 0)%Q -> exists k, (w == inject_Z k / 86400)%Q /\ (Qabs (w - v) <= 1 # 172800)%Q).
Proof.
  intros L note note' date line line' v f Hn Hn' H H' E. rewrite (extract_line L _ _ _ H') in E. rewrite (extract_line L _ _ _ H).
  destruct (fill_zeroes date (digit_bits date 1)) as [tb m]. destruct (date_fields tb m) as [[[[[r y] mo] ff] sd]| | |]; try discriminate. cbn [obind] in E |- *.
  destruct (add_month L r y mo) as [q| | |]; try discriminate. cbn [obind] in E |- *. rewrite radar_not in E by exact Hn'. injection E as <- <-.
  eexists. split; [reflexivity|]. split; [apply radar_zero|intros Hq; now apply radar_round].
Qed.

Lemma C49_reject_proof :
  forall L line, long_ok L -> (forall c, In c line -> -128 <= c <= 127) ->
    ((exists v, extract_date_from_mpc_report L line = Ret (v, None)) <->
     ~ ((80 <= List.length line <= 82)%nat /\ In (nth 12 line 0) (zs " *-") /\
        (forall i, (77 <= i < 80)%nat -> 33 <= nth i line 0 <= 122))) /\
    (forall v, extract_date_from_mpc_report L line = Ret (v, None) -> v = 0%Q).
Proof.
  intros L line HL HB.
  assert (N12 : In (nth 12 line 0) (zs " *-") <-> negb (nth 12 line 0 =? 32) && negb (nth 12 line 0 =? 42) && negb (nth 12 line 0 =? 45) = false).
  { set (z := nth 12 line 0). cbn. split; [intros [<-|[<-|[<-|[]]]]; reflexivity|]. destruct (Z.eqb_spec z 32); [auto|]. destruct (Z.eqb_spec z 42); [auto|]. destruct (Z.eqb_spec z 45); [auto|]. cbn. discriminate. }
  assert (NS : forall j k (q : list Z), nth j (skipn k q) 0 = nth (k + j) q 0).
  { intros j k. induction k as [|k IH]; intros q; [reflexivity|]. destruct q as [|x q]; [destruct j; reflexivity|]. cbn [skipn Nat.add nth]. apply IH. }
  unfold extract_date_from_mpc_report. cbv zeta.
  destruct ((Z.of_nat (List.length line) <? 80) || (82 <? Z.of_nat (List.length line))) eqn:E1.
  { split; [split; [intros _ (K & _)|intros _; now exists 0%Q]|intros v E; now injection E as <-].
    apply Bool.orb_true_iff in E1. destruct E1 as [E1|E1]; apply Z.ltb_lt in E1; lia. }
  apply Bool.orb_false_iff in E1. destruct E1 as [E1 E2]. apply Z.ltb_ge in E1. apply Z.ltb_ge in E2.
  destruct (negb (nth 12 line 0 =? 32) && negb (nth 12 line 0 =? 42) && negb (nth 12 line 0 =? 45)) eqn:E3.
  { split; [split; [intros _ (_ & K & _)|intros _; now exists 0%Q]|intros v E; now injection E as <-]. apply N12 in K. discriminate. }
  assert (LS : (3 <= List.length (skipn 77 line))%nat) by (rewrite skipn_length; lia).
  destruct (valid_total (skipn 77 line) LS) as [[|] EV]; rewrite EV; cbn [obind negb].
  - assert (NO : forall v, (do tbuff <- copy_bytes 17 (skipn 15 line); let '(tb, m) := fill_zeroes tbuff (digit_bits tbuff 1) in
      do '(rval, year, month, ff, sd) <- date_fields tb m; do rv <- add_month L rval year month;
      Ret (radar (nth 14 line 0) rv, Some match sd with O => ff | s => ff + count_digits tb s end)) <> Ret (v, None)).
    { intros v. destruct (copy_bytes 17 (skipn 15 line)) as [tb| | |]; try discriminate. cbn [obind]. destruct (fill_zeroes tb (digit_bits tb 1)) as [b m].
      destruct (date_fields b m) as [[[[[r y] mo] ff] sd]| | |]; try discriminate. cbn [obind]. destruct (add_month L r y mo); discriminate. }
    split; [|intros v E; elim (NO v); destruct (copy_bytes 17 (skipn 15 line)); exact E].
    split; [intros [v E]; elim (NO v); exact E|]. intros K. elim K. split; [lia|]. split; [now apply N12|].
    intros i Hi. replace i with (77 + (i - 77))%nat by lia. rewrite <- NS. 
    destruct (Z_le_dec 33 (nth (i - 77) (skipn 77 line) 0)) as [P|P]; [destruct (Z_le_dec (nth (i - 77) (skipn 77 line) 0) 122) as [Q|Q]; [lia|]|];
      exfalso; rewrite invalid_code in EV; try discriminate; try exact LS; intro F; pose proof (F (i - 77)%nat ltac:(lia)); lia.
  - split; [split; [intros _ (_ & _ & K)|intros _; now exists 0%Q]|intros v E; now injection E as <-].
    rewrite valid_code in EV; [discriminate|exact LS|]. intros i Hi. rewrite NS. apply K. lia.
Qed.

Lemma C49_total_proof :
  forall L line, long_ok L -> (forall c, In c line -> -128 <= c <= 127 /\ c <> 0) ->
    exists v f, extract_date_from_mpc_report L line = Ret (v, f).
Proof.
  intros L line HL HB0. assert (HB : bytes line) by (intros c Hc; now apply HB0).
  unfold extract_date_from_mpc_report. cbv zeta.
  destruct ((Z.of_nat (List.length line) <? 80) || (82 <? Z.of_nat (List.length line))) eqn:E1; [eexists; eexists; reflexivity|].
  apply Bool.orb_false_iff in E1. destruct E1 as [E1 E2]. apply Z.ltb_ge in E1. apply Z.ltb_ge in E2.
  destruct (negb (nth 12 line 0 =? 32) && negb (nth 12 line 0 =? 42) && negb (nth 12 line 0 =? 45)); [eexists; eexists; reflexivity|].
  assert (LS : (3 <= List.length (skipn 77 line))%nat) by (rewrite skipn_length; lia).
  destruct (valid_total (skipn 77 line) LS) as [[|] EV]; rewrite EV; cbn [obind negb]; [|eexists; eexists; reflexivity].
  set (D := firstn 17 (skipn 15 line)).
  assert (LD : List.length D = 17%nat) by (unfold D; rewrite firstn_length, skipn_length; lia).
  assert (EC : copy_bytes 17 (skipn 15 line) = Ret D).
  { rewrite <- (firstn_skipn 17 (skipn 15 line)). now apply copy_n. }
  rewrite EC. cbn [obind].
  assert (BD : bytes D) by (intros c Hc; apply HB; unfold D in Hc; apply (firstn_skipn_in line 17 15); exact Hc).
  destruct (fields_total D LD BD) as (tb & m & r & y & mo & ff & sd & F1 & F2 & F3). rewrite F1. cbv iota. rewrite F2. cbn [obind].
  destruct (add_total L r y mo HL F3) as [q ->]. cbn [obind]. eexists. eexists. reflexivity.
Qed.

Lemma C49_october_1582_refuted_proof :
  exists v, extract_date_from_mpc_report L64 (a_line 67 (zs "1582 10 15.5     ")) = Ret (v, Some 1) /\
    dmy_to_day L64 15 10 1582 CALENDAR_JULIAN_GREGORIAN = Ret 2299161 /\
    dmy_to_day L64 25 10 1582 CALENDAR_JULIAN_GREGORIAN = Ret 2299171 /\
    (v == inject_Z 2299171)%Q.
Proof.
  eexists. split; [vm_compute; reflexivity|]. repeat split.
Qed.

Lemma C49_month_refuted_proof :
  forall note date line, ~ radar_note note -> date = zs "2013 13 13.25    " -> report note date line ->
    date_reads L64 line (1325 # 100) 2.
Proof.
  intros note date line Hn -> HR. eexists. rewrite (extract_line L64 _ _ _ HR).
  split; [|shelve]. vm_compute (fill_zeroes _ _). cbv iota. vm_compute (date_fields _ _). cbn [obind]. vm_compute (add_month _ _ _ _). cbn [obind]. rewrite radar_not by exact Hn. reflexivity.
  Unshelve. reflexivity.
Qed.

Lemma C49_short_month_refuted_proof :
  exists v, extract_date_from_mpc_report L64 (a_line 67 (zs "2013 02 31.0     ")) = Ret (v, Some 1) /\
    exists w, extract_date_from_mpc_report L64 (a_line 67 (zs "2013 03 03.0     ")) = Ret (w, Some 1) /\ (v == w)%Q.
Proof.
  eexists. split; [vm_compute; reflexivity|]. eexists. split; [vm_compute; reflexivity|reflexivity].
Qed.

Lemma C49_not_a_digit_refuted_proof :
  exists v, extract_date_from_mpc_report L64 (a_line 67 (zs "2013 02 /1.5     ")) = Ret (v, Some 1) /\ (v == - (85 # 10))%Q.
Proof.
  eexists. split; [vm_compute; reflexivity|reflexivity].
Qed.

Lemma C49_decimals_refuted_proof :
  exists v, extract_date_from_mpc_report L64 (a_line 67 (zs "2013 02 13.14x   ")) = Ret (v, Some 2) /\
    (v == inject_Z 2456337 - (1 # 2) + (14 # 1000))%Q.
Proof.
  eexists. split; [vm_compute; reflexivity|reflexivity].
Qed.

Lemma C49_no_minutes_refuted_proof :
  exists v, extract_date_from_mpc_report L64 (a_line 67 (zs "K130213:03       ")) = Ret (v, Some 50) /\
    (v == inject_Z 2456337 - (1 # 2) + (3 * 60 - 176) / 1440)%Q.
Proof.
  eexists. split; [vm_compute; reflexivity|reflexivity].
Qed.
