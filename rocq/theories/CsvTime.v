(** Lemmas about the model of csv2ades.c: times. *)
From Coq Require Import QArith Qround String Lia Lqa.
From Verif Require Import CBase CLemmas CStr DateModel DateVocab DateSpec DateRound DateFacts DateCount DateJG DateThms TstrSpec CtimeModel CtimeSpec CtimeText CtimeThms CsvModel CsvSpec.
From Verif Require CtimeJd CtimeRound MpcdProofs.
Import ListNotations.
Local Open Scope string_scope.
Local Open Scope list_scope.
Local Open Scope Z_scope.

Lemma greg_year L jd : long_ok L -> 2087000 <= jd <= 5373000 ->
  exists d m y, dmy_result L jd CALENDAR_GREGORIAN d m y /\ 1000 <= y <= 9999 /\ valid gregorian (d, m, y) /\
    forall f, counts_days gregorian (1, 1, 2000) 2451545 f -> f (d, m, y) = jd.
Proof.
  intros HL R. assert (G : rule_cal CALENDAR_GREGORIAN) by (unfold rule_cal; tauto).
  assert (D : day_dom L CALENDAR_GREGORIAN jd) by (left; split; [exact G|unfold jd_ok, long_ok in *; lia]).
  destruct (day_to_dmyA L jd CALENDAR_GREGORIAN HL D) as (d & m & y & Hr & Hy & Hm & Hd & E). exists d, m, y.
  assert (Y1 : year_dom L CALENDAR_GREGORIAN 1000) by (left; split; [exact G|unfold year_ok, long_ok in *; lia]).
  assert (Y2 : year_dom L CALENDAR_GREGORIAN 10000) by (left; split; [exact G|unfold year_ok, long_ok in *; lia]).
  pose proof (dayA_in_year L CALENDAR_GREGORIAN d m y Hy Hm Hd) as In. rewrite E in In. pose proof (msum_rule CALENDAR_GREGORIAN y G) as Ms.
  assert (A : nyA CALENDAR_GREGORIAN 1000 = 2086303) by (vm_compute; reflexivity).
  assert (B : nyA CALENDAR_GREGORIAN 10000 = 5373485) by (vm_compute; reflexivity).
  assert (YR : 1000 <= y <= 9999).
  { split.
    - destruct (Z_lt_le_dec y 1000) as [H|H]; [|lia]. pose proof (nyA_mono L CALENDAR_GREGORIAN y 1000 Hy Y1 H). lia.
    - destruct (Z_lt_le_dec 9999 y) as [H|H]; [|lia]. destruct (Z.eq_dec y 10000) as [->|]; [lia|]. pose proof (nyA_mono L CALENDAR_GREGORIAN 10000 y Y2 Hy ltac:(lia)). lia. }
  assert (V : valid gregorian (d, m, y)) by (split; [exact Hm|rewrite gregorian_len by exact Hm; exact Hd]).
  split; [exact Hr|]. split; [exact YR|]. split; [exact V|]. intros f Hf.
  pose proof (C05_gregorian_is_day_count_proof f Hf L d m y HL ltac:(unfold year_ok, long_ok in *; lia) V) as C.
  rewrite (result_back L jd CALENDAR_GREGORIAN d m y HL D Hr) in C. now injection C as <-.
Qed.

Lemma wr_at a x b r c i : i = Z.of_nat (List.length a) -> wr (map Some (a ++ x :: b) ++ r) i c = Ret (map Some (a ++ c :: b) ++ r).
Proof.
  intros ->. unfold wr, set_ub. rewrite app_length, map_length, app_length. cbn [List.length].
  destruct (Z.ltb_spec (Z.of_nat (List.length a)) 0); [lia|]. destruct (Z.leb_spec (Z.of_nat (List.length a + S (List.length b) + List.length r)) (Z.of_nat (List.length a))); [lia|]. cbn [orb]. rewrite Nat2Z.id. f_equal.
  rewrite !map_app. cbn [map]. rewrite <- !app_assoc. cbn [app]. clear. induction a as [|y a IH]; cbn [map app List.length upd]; [reflexivity|]. now rewrite IH.
Qed.
Lemma string_of_ok s r : no_nul s -> string_of (map Some s ++ Some 0 :: r) = Ret s.
Proof.
  induction s as [|c s IH]; intro N; [reflexivity|]. cbn [map app string_of]. destruct (Z.eqb_spec c 0) as [->|_]; [exfalso; apply (N 0); [now left|reflexivity]|].
  rewrite IH by (intros x I; apply N; now right). reflexivity.
Qed.
Lemma ndig_nul p v : no_nul (ndig p v).
Proof. induction p as [|p IH]; intros c I; [destruct I|]. cbn [ndig] in I. destruct I as [<-|I]; [|now apply IH]. pose proof (Z.mod_pos_bound (v / 10 ^ Z.of_nat p) 10 eq_refl). lia. Qed.

Lemma places_tf : places time_format = 3%nat. Proof. reflexivity. Qed.
Lemma text_tf jd j0 d m y k : 1000 <= y <= 9999 -> 1 <= m <= 13 -> 1 <= d <= 31 -> 0 <= k < 86400000 ->
  whole_text time_format jd j0 d m y k =
    ndig 4 y ++ 32 :: ndig 2 m ++ 32 :: ndig 2 d ++ 32 :: (ndig 2 (k / 3600000) ++ 58 :: ndig 2 (k / 60000 mod 60) ++ 58 :: ndig 2 (k / 1000 mod 60) ++ 46 :: ndig 3 (k mod 1000)).
Proof.
  intros Hy Hm Hd Hk. unfold whole_text.
  change (has time_format 262144) with false. change (has time_format 16384) with false. change (style time_format =? 768) with false. change (has time_format 524288) with false.
  change (has time_format 1048576) with false. change (has time_format 4194304) with false. unfold date_text.
  change (has time_format 2048) with true. change (has time_format 131072) with false. change (style time_format =? 768) with false. change (has time_format 8388608) with false. change (has time_format 4096) with true.
  unfold month_text, year_text, zero_or_space, time_text. change (has time_format 8192) with true. change (has time_format 32768) with true. change (has time_format 65536) with false. change (style time_format =? 0) with true.
  change (zero_or_space time_format) with 48. rewrite places_tf. cbn [negb andb decimals]. change (10 ^ Z.of_nat 3) with 1000.
  rewrite CtimeJd.pad0_is_ndig by (cbn; lia).
  assert (K0 : 0 <= k / 1000 < 86400) by (split; [apply Z.div_pos; lia|apply Z.div_lt_upper_bound; lia]).
  assert (K1 : k / 1000 / 3600 = k / 3600000) by (rewrite Z.div_div by lia; reflexivity).
  assert (K2 : k / 1000 / 60 = k / 60000) by (rewrite Z.div_div by lia; reflexivity).
  assert (K3 : 0 <= k / 3600000 < 24) by (split; [apply Z.div_pos; lia|apply Z.div_lt_upper_bound; lia]).
  rewrite K1, K2. pose proof (Z.mod_pos_bound (k / 60000) 60 eq_refl). pose proof (Z.mod_pos_bound (k / 1000) 60 eq_refl).
  rewrite !CtimeRound.two_48 by lia. rewrite ?app_nil_r, <- ?app_assoc. cbn [app]. rewrite <- ?app_assoc. cbn [app]. rewrite <- ?app_assoc. cbn [app]. reflexivity.
Qed.
Lemma obs_time_ok L dy : long_ok L -> (-368000 <= dy)%Q -> (dy <= 2917000)%Q ->
  exists t N, (forall fuel ic, (N <= fuel)%nat -> obs_time L fuel ic (dy + jd_epoch)%Q = Ret t) /\
    forall f, counts_days gregorian (1, 1, 2000) 2451545 f -> time_says f dy (t ++ zs "Z").
Proof.
  intros HL Q1 Q2. set (t := (dy + jd_epoch - (2451545 # 1))%Q). set (jd := day_of (t + nudge time_format 86400)).
  assert (NG : nudge time_format 86400 == 1 # 1728000000) by (vm_compute; reflexivity).
  assert (TT : t == dy + (36525 # 10)) by (unfold t, jd_epoch; ring).
  assert (FL : 2087000 <= jd <= 5373000).
  { unfold jd, day_of. set (q := (t + nudge time_format 86400 + (1 # 2))%Q). assert (EQ : q == dy + (36525 # 10) + (1 # 1728000000) + (1 # 2)) by (unfold q; rewrite NG, TT; reflexivity).
    pose proof (Qfloor_le q) as A. pose proof (Qlt_floor q) as B. set (n := Qfloor q) in *. clearbody n q. rewrite inject_Z_plus in B. change (inject_Z 1) with 1%Q in B.
    assert (C1 : (inject_Z (-364349) < inject_Z n + 1)%Q) by (change (inject_Z (-364349)) with (-364349)%Q; Lqa.lra). assert (C2 : (inject_Z n <= inject_Z 2920655)%Q) by (change (inject_Z 2920655) with 2920655%Q; Lqa.lra).
    change 1%Q with (inject_Z 1) in C1. rewrite <- inject_Z_plus, <- Zlt_Qlt in C1. rewrite <- Zle_Qle in C2. lia. }
  destruct (greg_year L jd HL FL) as (d & m & y & Hr & Hy & Hv & Hf).
  assert (G : calendar_of time_format = CALENDAR_GREGORIAN) by reflexivity.
  destruct (C46_text_proof L t time_format 86400 d m y HL) as (j1 & k & _ & W & Hk & S1 & S2).
  - left. reflexivity.
  - left. rewrite G. unfold rule_cal. tauto.
  - fold jd. unfold jd_ok, long_ok in *. lia.
  - fold jd. rewrite G. exact Hr.
  - intros _. split; [lia|]. split; [discriminate|]. split; [discriminate|]. discriminate.
  - fold jd in W, S1, S2. destruct W as (NN & N & W). rewrite places_tf in Hk. change (86400 * 10 ^ Z.of_nat 3) with 86400000 in Hk.
    assert (Hd : 1 <= d <= 31).
    { destruct Hv as (Hm & Hd). rewrite gregorian_len in Hd by exact Hm. pose proof (lenA_le31 CALENDAR_GREGORIAN m y ltac:(unfold rule_cal; tauto)). lia. }
    rewrite text_tf in W, NN by (destruct Hv; lia).
    set (rest := ndig 2 (k / 3600000) ++ 58 :: ndig 2 (k / 60000 mod 60) ++ 58 :: ndig 2 (k / 1000 mod 60) ++ 46 :: ndig 3 (k mod 1000)) in *.
    exists (ndig 4 y ++ 45 :: ndig 2 m ++ 45 :: ndig 2 d ++ 84 :: rest), N. split.
    + intros fuel ic F. unfold obs_time, full_ctime. fold t. change (repeat None tbuff_size) with (repeat (@None Z) 80 ++ repeat None 10).
      destruct (W fuel ic 0 (repeat None 80) (repeat None 10) F (repeat_length _ _)) as (r & -> & _). cbn [obind].
      replace (ndig 4 y ++ 32 :: ndig 2 m ++ 32 :: ndig 2 d ++ 32 :: rest) with ((ndig 4 y ++ 32 :: ndig 2 m) ++ 32 :: ndig 2 d ++ 32 :: rest) by (rewrite <- app_assoc; reflexivity).
      rewrite wr_at by reflexivity. cbn [obind]. rewrite <- app_assoc. cbn [app].
      rewrite wr_at by reflexivity. cbn [obind].
      replace (ndig 4 y ++ 45 :: ndig 2 m ++ 45 :: ndig 2 d ++ 32 :: rest) with ((ndig 4 y ++ 45 :: ndig 2 m ++ 45 :: ndig 2 d) ++ 32 :: rest) by (rewrite <- app_assoc; cbn [app]; rewrite <- app_assoc; reflexivity).
      rewrite wr_at by reflexivity. cbn [obind]. rewrite string_of_ok; [rewrite <- app_assoc; cbn [app]; rewrite <- app_assoc; reflexivity|].
      intros c I. rewrite <- app_assoc in I. cbn [app] in I. rewrite <- app_assoc in I. cbn [app] in I. 
      assert (P : forall a x b, no_nul a -> x <> 0 -> no_nul b -> no_nul (a ++ x :: b)).
      { clear. intros a x b A X B c I. apply in_app_or in I. destruct I as [I|[<-|I]]; [now apply A|exact X|now apply B]. }
      revert c I. fold (no_nul (ndig 4 y ++ 45 :: ndig 2 m ++ 45 :: ndig 2 d ++ 84 :: rest)). unfold rest. repeat (apply P; [apply ndig_nul|discriminate|]). apply ndig_nul.
    + intros f Cf. exists y, m, d, k. split; [unfold iso_time, rest; cbn [app]; rewrite <- ?app_assoc; cbn [app]; rewrite <- ?app_assoc; cbn [app]; rewrite <- ?app_assoc; cbn [app]; rewrite <- ?app_assoc; cbn [app]; rewrite <- ?app_assoc; cbn [app]; reflexivity|]. split; [exact Hv|]. split; [exact Hk|].
      rewrite (Hf f Cf). unfold shown in S1, S2. assert (LP : last_place time_format 86400 == 1 # 86400000) by (vm_compute; reflexivity).
      rewrite LP, NG, TT in S1. rewrite LP, NG, TT in S2. unfold Z.sub in S1, S2. rewrite inject_Z_plus in S1, S2. change (inject_Z (- (2451545))) with (-2451545)%Q in S1, S2.
      cbv zeta. change (inject_Z 2455197) with 2455197%Q. change (inject_Z 86400000) with 86400000%Q. rewrite inject_Z_plus. change (inject_Z 1) with 1%Q. split; Lqa.lra.
Qed.
