(** Lemmas about the model of showelem.cpp: days, the epoch, and the time of perihelion. *)
From Coq Require Import QArith Qround Qabs String Lia Lqa.
From Verif Require Import CBase CStr DateModel DateVocab DateSpec DateJG DateCount DateRound DateThms TstrModel TstrNum TstrSpec CtimeModel CtimeSpec CtimeBuf ShowModel ShowSpec ShowProofs.
From Verif Require CtimeJd CtimeProofs DesigBase.
Import ListNotations.
Local Open Scope string_scope.
Local Open Scope list_scope.
Local Open Scope Z_scope.

Lemma switch_range d m y : switch_valid (d, m, y) -> 1 <= m <= 12 /\ 1 <= d <= 31.
Proof.
  intros [((Hm & Hd) & _)|((Hm & Hd) & _)].
  - assert (m <> 13) by (intros ->; cbn in Hd; lia). rewrite julian_len in Hd by exact Hm. pose proof (lenA_le31 CALENDAR_JULIAN m y ltac:(unfold rule_cal; tauto)). lia.
  - assert (m <> 13) by (intros ->; cbn in Hd; lia). rewrite gregorian_len in Hd by exact Hm. pose proof (lenA_le31 CALENDAR_GREGORIAN m y ltac:(unfold rule_cal; tauto)). lia.
Qed.
Lemma month_ok m : 1 <= m <= 12 -> month_name m = Ret (nth (Z.to_nat (m - 1)) months3 []) /\ List.length (nth (Z.to_nat (m - 1)) months3 []) = 3%nat /\ ~ In 84 (nth (Z.to_nat (m - 1)) months3 []).
Proof. intro H. assert (m = 1 \/ m = 2 \/ m = 3 \/ m = 4 \/ m = 5 \/ m = 6 \/ m = 7 \/ m = 8 \/ m = 9 \/ m = 10 \/ m = 11 \/ m = 12) as X by lia. repeat (destruct X as [->|X]; [split; [reflexivity|]; split; [reflexivity|]; intro I; vm_compute in I; repeat (destruct I as [I|I]; [discriminate|]); destruct I|]). subst m. split; [reflexivity|]. split; [reflexivity|]. intro I; vm_compute in I; repeat (destruct I as [I|I]; [discriminate|]); destruct I. Qed.
Lemma digits_short m : forall v acc, (List.length (digits m v acc) <= m + List.length acc)%nat.
Proof. induction m as [|m IH]; intros v acc; cbn [digits]; [lia|]. destruct (v / 10 =? 0); [cbn; lia|]. specialize (IH (v / 10) ((48 + v mod 10) :: acc)). cbn [List.length] in IH. lia. Qed.
Lemma digits_in m : forall v acc c, In c (digits m v acc) -> 48 <= c <= 57 \/ In c acc.
Proof. induction m as [|m IH]; intros v acc c; cbn [digits]; [tauto|]. pose proof (Z.mod_pos_bound v 10 ltac:(lia)). destruct (v / 10 =? 0); [intros [<-|I]; [lia|tauto]|]. intro I. apply IH in I. destruct I as [I|[<-|I]]; [tauto|lia|tauto]. Qed.
Lemma dec_any v : (List.length (dec v) <= 21)%nat /\ ~ In 84 (dec v).
Proof.
  unfold dec. destruct (v <? 0).
  - split; [cbn [List.length]; pose proof (digits_short 20 (- v) []); cbn [List.length] in *; lia|]. intros [I|I]; [discriminate|]. apply digits_in in I. destruct I as [I|[]]; lia.
  - split; [pose proof (digits_short 20 v []); cbn [List.length] in *; lia|]. intros I. apply digits_in in I. destruct I as [I|[]]; lia.
Qed.
(** The calendar date of an instant *)
Lemma day_ok L jd : long_ok L -> jd_ok L (Qfloor (jd + (1 # 2))) ->
  exists d m y, dmy_result L (Qfloor (jd + (1 # 2))) CALENDAR_JULIAN_GREGORIAN d m y /\ switch_valid (d, m, y) /\
    exists N, forall fuel ic, (N <= fuel)%nat -> decimal_day_to_dmy L fuel ic jd CALENDAR_JULIAN_GREGORIAN = Ret ((inject_Z d + (jd + (1 # 2)) - inject_Z (Qfloor (jd + (1 # 2))))%Q, m, y).
Proof.
  intros HL HJ. destruct (jg_day_ok L _ HL HJ) as (d & m & y & R & _ & V & _). exists d, m, y. split; [exact R|]. split; [exact V|]. destruct R as (N & R). exists N. intros fuel ic F. unfold decimal_day_to_dmy.
  set (J := Qfloor (jd + (1 # 2))) in *. unfold jd_ok in HJ. replace ((- L - 1 <=? J) && (J <=? L)) with true by lia. destruct (R fuel ic 0 F) as (ic' & E). rewrite E. reflexivity.
Qed.
Lemma floor_shift q z : Qfloor (q + inject_Z z) = Qfloor q + z.
Proof. apply floor_intro; rewrite inject_Z_plus; pose proof (floor_bounds q); lra. Qed.
Lemma nearest_comp a b : (a == b)%Q -> nearest a = nearest b.
Proof. intros E. unfold nearest. cbv zeta. rewrite (Qfloor_comp _ _ E). setoid_rewrite E at 1. reflexivity. Qed.
Lemma nearest_shift q z : nearest (q + inject_Z (2 * z)) = nearest q + 2 * z.
Proof.
  unfold nearest. cbv zeta. rewrite floor_shift. assert (E : (q + inject_Z (2 * z) - inject_Z (Qfloor q + 2 * z) == q - inject_Z (Qfloor q))%Q) by (rewrite inject_Z_plus; ring).
  setoid_rewrite E. rewrite Z.even_add, Z.even_mul. cbn [Z.even orb]. destruct (Z.even (Qfloor q)); destruct (Qcompare (q - inject_Z (Qfloor q)) (1 # 2)); cbn [eqb Bool.eqb]; lia.
Qed.
Lemma zeroes_ok P : forall m v r, (m < P)%nat -> 0 <= v -> exists i, zeroes m (rev (ndig P v) ++ r) = i /\ (i <= m)%nat /\ v mod 10 ^ Z.of_nat i = 0 /\ (i = m \/ (v / 10 ^ Z.of_nat i) mod 10 <> 0).
Proof.
  induction P as [|P IH]; intros m v r Hm Hv; [lia|]. rewrite CtimeJd.ndig_snoc, rev_app_distr. cbn [rev app]. destruct m as [|m]; [exists 0%nat; split; [reflexivity|]; split; [lia|]; split; [apply Z.mod_1_r|now left]|]. cbn [zeroes].
  destruct (Z.eqb_spec (48 + v mod 10) 48) as [E|E].
  - destruct (IH m (v / 10) r ltac:(lia) ltac:(apply Z.div_pos; lia)) as (i & Z0 & Hi & M & O). exists (S i). rewrite Z0. split; [reflexivity|]. split; [lia|]. pose proof (pow_pos i) as Pi.
    rewrite Nat2Z.inj_succ, Z.pow_succ_r by lia. split; [rewrite Z.rem_mul_r by lia; lia|]. destruct O as [->|O]; [now left|]. right. rewrite <- Z.div_div by lia. exact O.
  - exists 0%nat. split; [reflexivity|]. split; [lia|]. split; [apply Z.mod_1_r|]. right. change (10 ^ Z.of_nat 0) with 1. rewrite Z.div_1_r. lia.
Qed.
Lemma strstr_tt u v : ~ In 84 u -> strstr (u ++ [32; 84; 84; 32; 61] ++ v) [32; 84; 84; 32; 61] = Some (List.length u).
Proof.
  induction u as [|c u IH]; intro H; [reflexivity|].
  assert (X : prefix [32; 84; 84; 32; 61] ((c :: u) ++ [32; 84; 84; 32; 61] ++ v) = false).
  { cbn [app prefix]. destruct u as [|b u]; cbn [app prefix]; [destruct (32 =? c); reflexivity|]. assert (b <> 84) by (intros ->; apply H; right; now left). replace (84 =? b) with false by lia. now destruct (32 =? c). }
  cbn [strstr app] in X |- *. rewrite X. cbn [app] in IH. rewrite IH; [reflexivity|]. intro I. apply H. now right.
Qed.
Lemma value_exact i V : (i <= 5)%nat -> V mod 10 ^ Z.of_nat i = 0 -> (value (6 - i) (V / 10 ^ Z.of_nat i) == inject_Z V / 1000000)%Q.
Proof.
  intros Hi M. pose proof (pow_pos i) as Pi. pose proof (qpow_pos i) as Qi. pose proof (qpow_pos (6 - i)) as Q6. pose proof (Z.div_mod V (10 ^ Z.of_nat i) ltac:(lia)) as D. rewrite M, Z.add_0_r in D.
  assert (E : 10 ^ Z.of_nat i * 10 ^ Z.of_nat (6 - i) = 1000000) by (rewrite <- Z.pow_add_r by lia; replace (Z.of_nat i + Z.of_nat (6 - i)) with 6 by lia; reflexivity).
  unfold value. set (a := V / 10 ^ Z.of_nat i) in *. rewrite D. rewrite inject_Z_mult. assert (E' : (1000000 == inject_Z (10 ^ Z.of_nat i) * inject_Z (10 ^ Z.of_nat (6 - i)))%Q) by (rewrite <- inject_Z_mult, E; reflexivity). rewrite E'. field. split; lra.
Qed.
Lemma last_cut (A : list Z) P V i : (i < P)%nat -> 0 <= V -> firstn (List.length (A ++ fixed_text P V) - i) (A ++ fixed_text P V) = A ++ fixed_text (P - i) (V / 10 ^ Z.of_nat i).
Proof.
  intros Hi HV. assert (ET : fixed_text P V = dec (V / 10 ^ Z.of_nat P) ++ 46 :: ndig P (V mod 10 ^ Z.of_nat P)) by (unfold fixed_text, decimals; destruct P; [lia|reflexivity]).
  pose proof (text_cut P (P - i) V ltac:(lia) HV) as C. replace (P - (P - i))%nat with i in C by lia. rewrite <- C, ET, !app_length. cbn [List.length]. rewrite ndig_length.
  replace (List.length A + (List.length (dec (V / 10 ^ Z.of_nat P)) + S P) - i)%nat with (List.length A + (List.length (dec (V / 10 ^ Z.of_nat P)) + S (P - i)))%nat by lia. rewrite !firstn_app_2. reflexivity.
Qed.
Lemma tens i : (i <= 5)%nat -> exists q, 1000000 = q * 10 * 10 ^ Z.of_nat i /\ exists q', 500000 = q' * 10 ^ Z.of_nat i.
Proof.
  intro H. destruct i as [|[|[|[|[|[|i]]]]]]; [exists 100000; split; [reflexivity|exists 500000; reflexivity]|exists 10000; split; [reflexivity|exists 50000; reflexivity]|exists 1000; split; [reflexivity|exists 5000; reflexivity]|
    exists 100; split; [reflexivity|exists 500; reflexivity]|exists 10; split; [reflexivity|exists 50; reflexivity]|exists 1; split; [reflexivity|exists 5; reflexivity]|lia].
Qed.
Lemma epoch_ok L room epoch : long_ok L -> (0 <= epoch)%Q -> (epoch <= 1000000000)%Q -> jd_ok L (Qfloor (epoch + (1 # 2))) -> (100 <= room)%nat ->
  exists d m y t, dmy_result L (Qfloor (epoch + (1 # 2))) CALENDAR_JULIAN_GREGORIAN d m y /\ switch_valid (d, m, y) /\ says_epoch epoch d m y (Qfloor (epoch + (1 # 2))) t /\
    exists N, forall fuel ic, (N <= fuel)%nat -> epoch_line L fuel ic room epoch = Ret t.
Proof.
  intros HL H0 H1 HJ HR. destruct (day_ok L epoch HL HJ) as (d & m & y & R & SV & N & E). destruct (switch_range d m y SV) as (Hm & Hd). destruct (month_ok m Hm) as (EM & LM & NM). set (J := Qfloor (epoch + (1 # 2))) in *. set (mn := nth (Z.to_nat (m - 1)) months3 []) in *.
  set (x := (epoch + (1 # 10000000))%Q). set (dd := (inject_Z d + (epoch + (1 # 2)) - inject_Z J + (1 # 10000000))%Q).
  pose proof (floor_bounds (epoch + (1 # 2))) as FB. fold J in FB.
  assert (QD : (1 <= inject_Z d)%Q /\ (inject_Z d <= 31)%Q) by (change 1%Q with (inject_Z 1); change 31%Q with (inject_Z 31); rewrite <- !Zle_Qle; lia).
  assert (DD : (1 <= dd)%Q /\ (dd <= 33)%Q) by (unfold dd; lra).
  assert (T19 : (1000000002 <= inject_Z (10 ^ 19))%Q) by discriminate.
  destruct (fixed_pos 6 x ltac:(lia) ltac:(unfold x; lra) ltac:(unfold x; lra)) as (FX & VX & AX). destruct (fixed_pos 6 dd ltac:(lia) ltac:(lra) ltac:(lra)) as (FD & VD & AD).
  change (inject_Z (10 ^ Z.of_nat 6)) with 1000000%Q in *. set (V := nearest (x * 1000000)) in *. set (W := nearest (dd * 1000000)) in *.
  assert (WV : W = V + (500000 + (d - J) * 1000000)).
  { unfold W. rewrite (nearest_comp (dd * 1000000) (x * 1000000 + inject_Z (2 * (250000 + (d - J) * 500000)))); [rewrite nearest_shift; fold V; lia|].
    unfold dd, x. rewrite inject_Z_mult, inject_Z_plus, inject_Z_mult. unfold Z.sub. rewrite inject_Z_plus, inject_Z_opp. change (inject_Z 2) with 2%Q. change (inject_Z 250000) with 250000%Q. change (inject_Z 500000) with 500000%Q. ring. }
  assert (WB : 0 <= W / 1000000 < 100).
  { split; [apply Z.div_pos; lia|]. apply Z.div_lt_upper_bound; [lia|]. apply Qabs_Qle_condition in AD. destruct AD as (_ & AD). assert (X : (inject_Z W < inject_Z 100000000)%Q) by (change (inject_Z 100000000) with 100000000%Q; lra). rewrite <- Zlt_Qlt in X. lia. }
  set (A := zs "Epoch " ++ padsp 4 y ++ [32] ++ mn ++ [32]). set (T := A ++ wide 9 (fixed_text 6 W) ++ zs " TT = JDT ").
  destruct (dec_any y) as (LY & NY).
  assert (LW : (List.length (dec (W / 1000000)) <= 2)%nat) by (unfold dec; destruct (Z.ltb_spec (W / 1000000) 0); [lia|]; apply CtimeProofs.digits_len; [exact WB|lia]).
  assert (LFW : List.length (fixed_text 6 W) = (List.length (dec (W / 1000000)) + 7)%nat) by (unfold fixed_text; rewrite app_length; change (10 ^ Z.of_nat 6) with 1000000; cbn [decimals List.length]; now rewrite ndig_length).
  assert (VB : 0 <= V / 1000000 < 10 ^ 20) by (split; [apply Z.div_pos; lia|apply Z.div_lt_upper_bound; change (10 ^ Z.of_nat 6) with 1000000 in VX; lia]).
  destruct (dec_any (V / 1000000)) as (LV & _).
  assert (LFV : List.length (fixed_text 6 V) = (List.length (dec (V / 1000000)) + 7)%nat) by (unfold fixed_text; rewrite app_length; change (10 ^ Z.of_nat 6) with 1000000; cbn [decimals List.length]; now rewrite ndig_length).
  assert (LA : (List.length A <= 40)%nat). { unfold A, padsp. rewrite !app_length, repeat_length, LM. change (List.length (zs "Epoch ")) with 6%nat. cbn [List.length]. lia. }
  assert (LT : (List.length T <= 60)%nat). { unfold T, wide. rewrite !app_length, repeat_length, LFW. change (List.length (zs " TT = JDT ")) with 10%nat. lia. }
  assert (E6 : fixed_text 6 V = dec (V / 1000000) ++ 46 :: ndig 6 (V mod 1000000)) by reflexivity.
  destruct (zeroes_ok 6 5 (V mod 1000000) (rev (T ++ dec (V / 1000000) ++ [46])) ltac:(lia) ltac:(apply Z.mod_pos_bound; lia)) as (i & Zi & Hi & Mi & Oi).
  pose proof (pow_pos i) as Pi.
  assert (TEN : exists q, 1000000 = q * 10 * 10 ^ Z.of_nat i /\ exists q', 500000 = q' * 10 ^ Z.of_nat i).
  { now apply tens. }
  destruct TEN as (q & Q1 & q' & Q2).
  pose proof (Z.div_mod V 1000000 ltac:(lia)) as DV.
  assert (MV : V mod 10 ^ Z.of_nat i = 0). { rewrite DV. replace (1000000 * (V / 1000000) + V mod 1000000) with (V mod 1000000 + (q * 10 * (V / 1000000)) * 10 ^ Z.of_nat i) by nia. rewrite Z.mod_add by lia. exact Mi. }
  assert (MW : W mod 10 ^ Z.of_nat i = 0). { rewrite WV. replace (V + (500000 + (d - J) * 1000000)) with (V + (q' + (d - J) * (q * 10)) * 10 ^ Z.of_nat i) by nia. rewrite Z.mod_add by lia. exact MV. }
  assert (OV : i = 5%nat \/ (V / 10 ^ Z.of_nat i) mod 10 <> 0).
  { destruct Oi as [Oi|Oi]; [now left|right]. intro X. apply Oi. rewrite <- X. rewrite DV at 2. replace (1000000 * (V / 1000000) + V mod 1000000) with (V mod 1000000 + (q * 10 * (V / 1000000)) * 10 ^ Z.of_nat i) by nia. rewrite Z.div_add by lia. replace (q * 10 * (V / 1000000)) with ((q * (V / 1000000)) * 10) by lia. now rewrite Z.mod_add by lia. }
  exists d, m, y, (epoch_text y m (6 - i) (W / 10 ^ Z.of_nat i) (V / 10 ^ Z.of_nat i)). split; [exact R|]. split; [exact SV|]. split.
  - exists (6 - i)%nat, (W / 10 ^ Z.of_nat i), (V / 10 ^ Z.of_nat i). split; [reflexivity|]. split; [lia|].
    pose proof (value_exact i V Hi MV) as EV. pose proof (value_exact i W Hi MW) as EW. split; [|split].
    + rewrite EV. apply Qabs_Qle_condition in AX. apply Qabs_Qlt_condition. assert (X : (inject_Z V / 1000000 == inject_Z V * (1 # 1000000))%Q) by reflexivity. rewrite X. unfold x in AX. lra.
    + rewrite EW, EV, WV, !inject_Z_plus, inject_Z_mult. unfold Z.sub. rewrite inject_Z_plus, inject_Z_opp. change (inject_Z 500000) with 500000%Q. change (inject_Z 1000000) with 1000000%Q. field.
    + destruct OV as [->|OV]; [now left|now right].
  - exists N. intros fuel ic F. unfold epoch_line. rewrite E by exact F. cbn [obind]. rewrite EM. cbn [obind]. fold dd. fold x. rewrite FX, FD.
    replace (zs "Epoch " ++ padsp 4 y ++ [32] ++ mn ++ [32] ++ wide 9 (fixed_text 6 W) ++ zs " TT = JDT " ++ fixed_text 6 V) with (T ++ fixed_text 6 V) by (unfold T, A; now rewrite <- !app_assoc).
    unfold fit. replace (List.length (T ++ fixed_text 6 V) <? room)%nat with true by (symmetry; apply Nat.ltb_lt; rewrite app_length, LFV; lia). cbn [obind].
    assert (Z5 : zeroes 5 (rev (T ++ fixed_text 6 V)) = i). { rewrite E6. replace (T ++ dec (V / 1000000) ++ 46 :: ndig 6 (V mod 1000000)) with ((T ++ dec (V / 1000000) ++ [46]) ++ ndig 6 (V mod 1000000)) by (rewrite <- !app_assoc; reflexivity). rewrite rev_app_distr. exact Zi. }
    rewrite Z5. rewrite last_cut by lia.
    set (B := A ++ wide 9 (fixed_text 6 W)). set (v6 := fixed_text (6 - i) (V / 10 ^ Z.of_nat i)).
    replace (T ++ v6) with (B ++ [32; 84; 84; 32; 61] ++ (zs " JDT " ++ v6)) by (unfold T, B; rewrite <- !app_assoc; reflexivity).
    assert (NB : ~ In 84 B).
    { unfold B, A, wide, padsp. intro I. rewrite !in_app_iff in I. destruct I as [[I|[[I|I]|[[I|[]]|[I|[I|[]]]]]]|[I|I]]; try discriminate.
      - vm_compute in I. repeat (destruct I as [I|I]; [discriminate|]). destruct I.
      - apply repeat_spec in I. discriminate.
      - now apply NY.
      - now apply NM.
      - apply repeat_spec in I. discriminate.
      - unfold fixed_text in I. apply in_app_or in I. destruct I as [I|[I|I]]; [now apply (dec_any (W / 10 ^ Z.of_nat 6))|discriminate|]. apply (ndig_digit 6) in I. discriminate. }
    change (zs " TT =") with [32; 84; 84; 32; 61]. rewrite strstr_tt by exact NB.
    assert (LB : (i <= List.length B)%nat) by (unfold B, wide; rewrite !app_length, LFW; lia). replace (i <=? List.length B)%nat with true by (symmetry; apply Nat.leb_le; exact LB).
    rewrite skipn_app_l. rewrite firstn_app. replace (List.length B - i - List.length B)%nat with 0%nat by lia. cbn [firstn]. rewrite app_nil_r.
    pose proof (last_cut (A ++ repeat 32 (9 - List.length (fixed_text 6 W))) 6 W i ltac:(lia) ltac:(lia)) as LC. rewrite <- !app_assoc in LC. unfold B, wide. rewrite LC. unfold epoch_text, day_text, A, padsp.
    assert (DW : W / 10 ^ Z.of_nat i / 10 ^ Z.of_nat (6 - i) = W / 1000000). { rewrite Z.div_div by (pose proof (pow_pos (6 - i)); lia). rewrite <- Z.pow_add_r by lia. replace (Z.of_nat i + Z.of_nat (6 - i)) with 6 by lia. reflexivity. }
    rewrite DW, LFW. replace (9 - (List.length (dec (W / 1000000)) + 7))%nat with (2 - List.length (dec (W / 1000000)))%nat by lia. fold mn. fold v6. rewrite <- !app_assoc. reflexivity.
Qed.
Lemma name_ok central : exists n, pericenter_name central = Ret n /\ zs "Peri" ++ n = peri_name central /\ (List.length n <= 7)%nat.
Proof.
  unfold pericenter_name, peri_name. destruct (Z.leb_spec (-1) central) as [A|A]; cbn [andb]; [|exists (zs "----"); split; [reflexivity|]; split; [reflexivity|cbn; lia]].
  destruct (Z.ltb_spec central 11) as [B|B]; destruct (Z.leb_spec central 10) as [C|C]; try lia; [|exists (zs "----"); split; [reflexivity|]; split; [reflexivity|cbn; lia]].
  assert (central = -1 \/ central = 0 \/ central = 1 \/ central = 2 \/ central = 3 \/ central = 4 \/ central = 5 \/ central = 6 \/ central = 7 \/ central = 8 \/ central = 9 \/ central = 10) as X by lia.
  repeat (destruct X as [->|X]; [eexists; split; [reflexivity|]; split; [reflexivity|cbn; lia]|]). subst central. eexists; split; [reflexivity|]; split; [reflexivity|cbn; lia].
Qed.
Lemma peri_ok L room central t p : long_ok L -> (2 < t)%Q -> (t < 3000000)%Q -> (p <= 15)%nat -> (100 <= room)%nat ->
  exists d m y line, dmy_result L (Qfloor (t + (1 # 2))) CALENDAR_JULIAN_GREGORIAN d m y /\ switch_valid (d, m, y) /\
    says_perihelion central (inject_Z d + (t + (1 # 2)) - inject_Z (Qfloor (t + (1 # 2)))) m y p line /\
    exists N, forall fuel ic, (N <= fuel)%nat -> peri_line L fuel ic room central t p = Ret (Some line).
Proof.
  intros HL H0 H1 HP HR. pose proof (floor_bounds (t + (1 # 2))) as FB.
  assert (HJ : jd_ok L (Qfloor (t + (1 # 2)))).
  { unfold jd_ok, long_ok in *. assert (A : (inject_Z 0 < inject_Z (Qfloor (t + (1 # 2))))%Q) by (change (inject_Z 0) with 0%Q; lra). assert (B : (inject_Z (Qfloor (t + (1 # 2))) < inject_Z 3000001)%Q) by (change (inject_Z 3000001) with 3000001%Q; lra). rewrite <- Zlt_Qlt in A, B. lia. }
  destruct (day_ok L t HL HJ) as (d & m & y & R & SV & N & E). destruct (switch_range d m y SV) as (Hm & Hd). destruct (month_ok m Hm) as (EM & LM & NM). set (J := Qfloor (t + (1 # 2))) in *. set (dd := (inject_Z d + (t + (1 # 2)) - inject_Z J)%Q) in *.
  assert (QD : (1 <= inject_Z d)%Q /\ (inject_Z d <= 31)%Q) by (change 1%Q with (inject_Z 1); change 31%Q with (inject_Z 31); rewrite <- !Zle_Qle; lia).
  assert (T19 : (1000000002 <= inject_Z (10 ^ 19))%Q) by discriminate.
  destruct (fixed_pos p dd ltac:(lia) ltac:(unfold dd; lra) ltac:(unfold dd; lra)) as (FD & VD & AD). set (v := nearest (dd * inject_Z (10 ^ Z.of_nat p))) in *.
  destruct (name_ok central) as (n & EN & NN & LN).
  exists d, m, y, (zs "   " ++ peri_name central ++ [32] ++ dec y ++ [32] ++ nth (Z.to_nat (m - 1)) months3 [] ++ [32] ++ fixed_text p v ++ zs " TT"). split; [exact R|]. split; [exact SV|]. split.
  - exists v. split; [reflexivity|]. unfold value. pose proof (qpow_pos p) as QP. set (b := inject_Z (10 ^ Z.of_nat p)) in *. change (inject_Z 1) with 1%Q. apply Qabs_Qle_condition in AD. destruct AD as (A1 & A2). apply Qabs_Qle_condition.
    assert (EV : (inject_Z v == inject_Z v / b * b)%Q) by (field; lra). assert (E1 : (1 == 1 / b * b)%Q) by (field; lra). set (u := (inject_Z v / b)%Q) in *. set (z := (1 / b)%Q) in *.
    assert (EZ : (z / 2 == z * (1 # 2))%Q) by reflexivity. rewrite EZ.
    assert (X1 : (z * (1 # 2) * b == 1 # 2)%Q) by (transitivity ((z * b) * (1 # 2))%Q; [ring|rewrite <- E1; reflexivity]). assert (X2 : ((u - dd) * b == inject_Z v - dd * b)%Q) by (clearbody u dd b; lra). assert (X3 : (- (z * (1 # 2)) * b == - (1 # 2))%Q) by (clearbody z b; lra).
    split; apply Qmult_le_r with (z := b); try exact QP; fold dd; clearbody u z dd b; lra.
  - exists N. intros fuel ic F. unfold peri_line. assert (B1 : Qle_bool t 2 = false) by (apply Bool.not_true_iff_false; rewrite Qle_bool_iff; lra). assert (B2 : Qle_bool 3000000 t = false) by (apply Bool.not_true_iff_false; rewrite Qle_bool_iff; lra). rewrite B1, B2. cbn [negb andb]. rewrite EN. cbn [obind]. rewrite E by exact F. cbn [obind]. rewrite EM. cbn [obind]. fold dd. rewrite FD. rewrite <- NN.
    destruct (dec_any y) as (LY & _). destruct (CtimeJd.fixed_text_facts p v VD ltac:(lia)) as (LV & _).
    unfold fit. match goal with |- context [(List.length ?l <? room)%nat] => assert (X : (List.length l < room)%nat) by (rewrite !app_length, LM; change (List.length (zs "   Peri")) with 7%nat; change (List.length (zs " TT")) with 3%nat; cbn [List.length]; lia) end. apply Nat.ltb_lt in X. rewrite X. reflexivity.
Qed.
