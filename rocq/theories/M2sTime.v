(** Lemmas about the model of mpc2sof.cpp: times, numbers, and the records of comets. *)
From Coq Require Import QArith Qround Qabs String Lia Lqa.
From Verif Require Import CBase CLemmas CStr DateModel DateVocab DateSpec DateRound DateFacts DateCount DateJG DateThms TstrModel TstrNum TstrSpec CtimeModel CtimeSpec CtimeText CtimeThms EopSpec EopProofs MpcoProofs M2sModel M2sSpec M2sProofs.
From Verif Require CtimeJd CtimeRound CsvModel CsvTime TstrThms MpcfModel.
Import ListNotations.
Local Open Scope string_scope.
Local Open Scope list_scope.
Local Open Scope Z_scope.

Lemma greg_facts L d m y : long_ok L -> valid gregorian (d, m, y) -> 0 <= y <= 9999 ->
  exists jd, dmy_to_day L d m y CALENDAR_GREGORIAN = Ret jd /\ dmy_result L jd CALENDAR_GREGORIAN d m y /\ 1721060 <= jd < 5374000 /\
    (forall f, counts_days gregorian (1, 1, 2000) 2451545 f -> f (d, m, y) = jd) /\ 1 <= m <= 13 /\ 1 <= d <= 31.
Proof.
  intros HL V Hy. destruct (V) as (Hm & Hd). assert (G : rule_cal CALENDAR_GREGORIAN) by (unfold rule_cal; tauto).
  assert (YD : year_dom L CALENDAR_GREGORIAN y) by (left; split; [exact G|unfold year_ok, long_ok in *; lia]).
  rewrite gregorian_len in Hd by exact Hm.
  destruct (C02_date_to_jd_and_back_proof L CALENDAR_GREGORIAN d m y (lenA CALENDAR_GREGORIAN m y) HL ltac:(unfold year_mid, long_ok in *; lia) G ltac:(discriminate) Hm (days_in_monthA L m y _ HL YD Hm) Hd) as (jd & E & R).
  exists jd. split; [exact E|]. split; [exact R|]. pose proof (lenA_le31 CALENDAR_GREGORIAN m y G) as L31.
  assert (ED : jd = dayA CALENDAR_GREGORIAN d m y).
  { pose proof (lenA_bound L _ m y YD). rewrite dmy_to_dayA in E by (try assumption; lia). now injection E as <-. }
  pose proof (dayA_in_year L CALENDAR_GREGORIAN d m y YD Hm Hd) as IN. rewrite <- ED in IN. pose proof (msum_rule CALENDAR_GREGORIAN y G) as Ms.
  assert (Y1 : year_dom L CALENDAR_GREGORIAN 0) by (left; split; [exact G|unfold year_ok, long_ok in *; lia]).
  assert (Y2 : year_dom L CALENDAR_GREGORIAN 10000) by (left; split; [exact G|unfold year_ok, long_ok in *; lia]).
  assert (A : nyA CALENDAR_GREGORIAN 0 = 1721060) by (vm_compute; reflexivity). assert (B : nyA CALENDAR_GREGORIAN 10000 = 5373485) by (vm_compute; reflexivity).
  split.
  - pose proof (nyA_mono L CALENDAR_GREGORIAN y 10000 YD Y2 ltac:(lia)). destruct (Z.eq_dec y 0) as [->|]; [lia|]. pose proof (nyA_mono L CALENDAR_GREGORIAN 0 y Y1 YD ltac:(lia)). lia.
  - split; [|lia]. intros f Hf. pose proof (C05_gregorian_is_day_count_proof f Hf L d m y HL ltac:(unfold year_ok, long_ok in *; lia) V) as C. rewrite E in C. now injection C as <-.
Qed.
(** Days on which the year is 0 to 9999 *)
Lemma greg_day L jd : long_ok L -> 1721500 <= jd <= 5373000 -> exists d m y, valid gregorian (d, m, y) /\ 0 <= y <= 9999 /\ dmy_to_day L d m y CALENDAR_GREGORIAN = Ret jd /\
  forall f, counts_days gregorian (1, 1, 2000) 2451545 f -> f (d, m, y) = jd.
Proof.
  intros HL R. assert (G : rule_cal CALENDAR_GREGORIAN) by (unfold rule_cal; tauto).
  assert (D : day_dom L CALENDAR_GREGORIAN jd) by (left; split; [exact G|unfold jd_ok, long_ok in *; lia]).
  destruct (day_to_dmyA L jd CALENDAR_GREGORIAN HL D) as (d & m & y & Hr & Hy & Hm & Hd & E). exists d, m, y.
  assert (Y1 : year_dom L CALENDAR_GREGORIAN 0) by (left; split; [exact G|unfold year_ok, long_ok in *; lia]).
  assert (Y2 : year_dom L CALENDAR_GREGORIAN 10000) by (left; split; [exact G|unfold year_ok, long_ok in *; lia]).
  pose proof (dayA_in_year L CALENDAR_GREGORIAN d m y Hy Hm Hd) as In. rewrite E in In. pose proof (msum_rule CALENDAR_GREGORIAN y G) as Ms.
  assert (A : nyA CALENDAR_GREGORIAN 0 = 1721060) by (vm_compute; reflexivity). assert (B : nyA CALENDAR_GREGORIAN 10000 = 5373485) by (vm_compute; reflexivity).
  assert (YR : 0 <= y <= 9999).
  { split.
    - destruct (Z_lt_le_dec y 0) as [H|H]; [|lia]. pose proof (nyA_mono L CALENDAR_GREGORIAN y 0 Hy Y1 H). lia.
    - destruct (Z_lt_le_dec 9999 y) as [H|H]; [|lia]. destruct (Z.eq_dec y 10000) as [->|]; [lia|]. pose proof (nyA_mono L CALENDAR_GREGORIAN 10000 y Y2 Hy ltac:(lia)). lia. }
  assert (V : valid gregorian (d, m, y)) by (split; [exact Hm|rewrite gregorian_len by exact Hm; exact Hd]).
  split; [exact V|]. split; [exact YR|]. split; [exact (result_back L jd CALENDAR_GREGORIAN d m y HL D Hr)|]. intros f Hf.
  pose proof (C05_gregorian_is_day_count_proof f Hf L d m y HL ltac:(unfold year_ok, long_ok in *; lia) V) as C.
  rewrite (result_back L jd CALENDAR_GREGORIAN d m y HL D Hr) in C. now injection C as <-.
Qed.

Lemma no_blank_ndig p v : filter (fun c => negb (c =? 32)) (ndig p v) = ndig p v.
Proof. induction p as [|p IH]; [reflexivity|]. cbn [ndig filter]. pose proof (Z.mod_pos_bound (v / 10 ^ Z.of_nat p) 10 eq_refl). destruct (Z.eqb_spec (48 + v / 10 ^ Z.of_nat p mod 10) 32); [lia|]. cbn [negb]. now rewrite IH. Qed.
Definition tf (p : Z) : Z := base_time_format + 16 * p.
Lemma text_day p jd j0 d m y k : p = 0 \/ p = 7 -> 0 <= y <= 9999 -> 1 <= m <= 13 -> 1 <= d <= 31 ->
  whole_text (tf p) jd j0 d m y k = ymd y m d ++ decimals (Z.to_nat p) k.
Proof.
  intros P Hy Hm Hd.
  assert (F : has (tf p) 262144 = false /\ has (tf p) 16384 = false /\ style (tf p) = 768 /\ has (tf p) 524288 = false /\ has (tf p) 1048576 = true /\ has (tf p) 4194304 = false /\
    has (tf p) 2048 = true /\ has (tf p) 131072 = false /\ has (tf p) 8388608 = false /\ has (tf p) 4096 = true /\ has (tf p) 8192 = true /\ has (tf p) 32768 = true /\ has (tf p) 65536 = false /\ places (tf p) = Z.to_nat p).
  { destruct P as [-> | ->]; vm_compute; repeat split. }
  destruct F as (F1 & F2 & F3 & F4 & F5 & F6 & F7 & F8 & F9 & F10 & F11 & F12 & F13 & F14).
  unfold whole_text. rewrite F1, F2, F3, F4, F5, F6. change (768 =? 768) with true. cbv iota. unfold date_text, month_text, year_text, zero_or_space. rewrite F3, F7, F8, F9, F10, F11, F12, F13, F14. change (768 =? 768) with true. cbn [negb andb app]. cbv iota.
  rewrite CtimeJd.pad0_is_ndig by (cbn; lia). rewrite !CtimeRound.two_48 by lia. rewrite !app_nil_r. rewrite <- ?app_assoc. cbn [app]. rewrite !filter_app, no_blank_ndig. unfold ymd. rewrite <- !app_assoc. f_equal.
  cbn [filter Z.eqb Pos.eqb negb]. rewrite filter_app, no_blank_ndig. f_equal. cbn [filter Z.eqb Pos.eqb negb]. rewrite filter_app, no_blank_ndig. f_equal.
  destruct P as [-> | ->]; [reflexivity|]. change (decimals (Z.to_nat 7) k) with (46 :: ndig 7 k). cbn [filter Z.eqb Pos.eqb negb]. now rewrite no_blank_ndig.
Qed.
Lemma ymd_nul y m d : no_nul (ymd y m d).
Proof. intros c I. unfold ymd in I. apply in_app_or in I. destruct I as [I|I]; [now apply CsvTime.ndig_nul in I|]. apply in_app_or in I. destruct I as [I|I]; now apply CsvTime.ndig_nul in I. Qed.
(** A time on a known day, with [k] units of the last place *)
Lemma time_text_ok L p t jd d m y k : long_ok L -> p = 0 \/ p = 7 -> valid gregorian (d, m, y) -> 0 <= y <= 9999 -> dmy_to_day L d m y CALENDAR_GREGORIAN = Ret jd ->
  0 <= k < 10 ^ p -> (t == inject_Z jd - (1 # 2) + inject_Z k / inject_Z (10 ^ p))%Q ->
  exists N, forall fuel ic, (N <= fuel)%nat -> time_text L fuel ic t (tf p) = Ret (ymd y m d ++ decimals (Z.to_nat p) k).
Proof.
  intros HL P V Hy ED Hk Ht. destruct (greg_facts L d m y HL V Hy) as (jd' & E' & R & Rj & _ & Hm & Hd). rewrite ED in E'. injection E' as <-.
  set (x := (t - (2451545 # 1))%Q).
  assert (Q0 : exists e, (inject_Z k / inject_Z (10 ^ p) == e)%Q /\ (0 <= e)%Q /\ (e + nudge (tf p) 1 < 1)%Q /\ (0 < nudge (tf p) 1)%Q /\ (nudge (tf p) 1 < last_place (tf p) 1)%Q /\ (inject_Z k * last_place (tf p) 1 == e)%Q /\ (0 < last_place (tf p) 1)%Q /\ (forall a b : Z, (inject_Z a * last_place (tf p) 1 < inject_Z b * last_place (tf p) 1)%Q -> a < b)).
  { exists (inject_Z k * last_place (tf p) 1)%Q.
    assert (LP : (last_place (tf p) 1 == (if p =? 0 then 1 else 1 # 10000000))%Q) by (destruct P as [-> | ->]; vm_compute; reflexivity).
    assert (NG : (nudge (tf p) 1 == (if p =? 0 then 1 # 1728000 else 1 # 17280000000000))%Q) by (destruct P as [-> | ->]; vm_compute; reflexivity).
    assert (KQ : (0 <= inject_Z k)%Q /\ (inject_Z k <= inject_Z (10 ^ p) - 1)%Q).
    { split; [change 0%Q with (inject_Z 0); rewrite <- Zle_Qle; lia|]. change 1%Q with (inject_Z 1). unfold Qminus. rewrite <- inject_Z_opp, <- inject_Z_plus, <- Zle_Qle. lia. }
    destruct KQ as (K1 & K2). rewrite LP, NG. destruct P as [-> | ->]; cbn [Z.eqb] in *.
    - change (inject_Z (10 ^ 0)) with 1%Q in *. repeat split; try Lqa.lra; try reflexivity; try (field; fail). intros a b H. rewrite LP in H. rewrite Zlt_Qlt. Lqa.lra.
    - change (inject_Z (10 ^ 7)) with 10000000%Q in *. repeat split; try Lqa.lra; try reflexivity; try (field; fail). intros a b H. rewrite LP in H. rewrite Zlt_Qlt. Lqa.lra. }
  destruct Q0 as (e & E1 & E2 & E3 & E4 & E5 & E6 & E7 & E8).
  assert (DJ : day_of (x + nudge (tf p) 1) = jd).
  { unfold day_of. replace jd with (jd - 2451545 + 2451545) at 2 by lia. f_equal.
    assert (XX : (x + nudge (tf p) 1 + (1 # 2) == inject_Z (jd - 2451545) + (e + nudge (tf p) 1))%Q) by (unfold x; rewrite Ht, E1; unfold Z.sub; rewrite inject_Z_plus; change (inject_Z (- (2451545))) with (- (2451545 # 1))%Q; ring).
    rewrite (Qfloor_comp _ _ XX). clear XX. set (w := (e + nudge (tf p) 1)%Q) in *. assert (W : (0 <= w)%Q) by (unfold w; Lqa.lra). clearbody w.
    pose proof (Qfloor_le (inject_Z (jd - 2451545) + w)) as A. pose proof (Qlt_floor (inject_Z (jd - 2451545) + w)) as B. set (n := Qfloor _) in *. rewrite inject_Z_plus in B. change (inject_Z 1) with 1%Q in B.
    assert (A1 : (inject_Z n < inject_Z (jd - 2451545 + 1))%Q) by (rewrite inject_Z_plus; change (inject_Z 1) with 1%Q; Lqa.lra). assert (B1 : (inject_Z (jd - 2451545) < inject_Z (n + 1))%Q) by (rewrite inject_Z_plus; change (inject_Z 1) with 1%Q; Lqa.lra).
    rewrite <- Zlt_Qlt in A1, B1. lia. }
  assert (G : calendar_of (tf p) = CALENDAR_GREGORIAN) by (destruct P as [-> | ->]; reflexivity).
  destruct (C46_text_proof L x (tf p) 1 d m y HL) as (j1 & k' & _ & W & Hk' & S1 & S2).
  - unfold per_day. destruct P as [-> | ->]; cbn; tauto.
  - left. rewrite G. unfold rule_cal. tauto.
  - rewrite DJ. unfold jd_ok, long_ok in *. lia.
  - rewrite DJ, G. exact R.
  - intros _. split; [lia|]. split; [destruct P as [-> | ->]; discriminate|]. split; [destruct P as [-> | ->]; discriminate|]. destruct P as [-> | ->]; intros _; vm_compute; lia.
  - rewrite DJ in W, S1, S2. destruct W as (NN & N & W). rewrite text_day in W, NN by assumption.
    assert (KK : k' = k).
    { unfold shown in S1, S2. assert (XX : (x == inject_Z (jd - 2451545) - (1 # 2) + e)%Q) by (unfold x; rewrite Ht, E1; unfold Z.sub; rewrite inject_Z_plus; change (inject_Z (- (2451545))) with (- (2451545 # 1))%Q; ring).
      rewrite XX in S1, S2. assert (A1 : k' < k + 1) by (apply E8; rewrite inject_Z_plus; change (inject_Z 1) with 1%Q; set (lp := last_place (tf p) 1) in *; rewrite Qmult_plus_distr_l, E6; Lqa.lra).
      assert (A2 : k < k' + 1) by (apply E8; rewrite inject_Z_plus; change (inject_Z 1) with 1%Q; set (lp := last_place (tf p) 1) in *; rewrite Qmult_plus_distr_l, E6; Lqa.lra). lia. }
    subst k'. exists N. intros fuel ic F. unfold time_text, full_ctime. fold x. rewrite <- (app_nil_r (repeat None 80)).
    destruct (W fuel ic 0 (repeat None 80) [] F (repeat_length _ _)) as (r & -> & _). cbn [obind]. apply CsvTime.string_of_ok. exact NN.
Qed.

(** ---- numbers ---- *)
Lemma fixed_length p n x : (p = 6%nat \/ p = 8%nat) -> (1 <= n <= 3)%nat -> (0 <= x)%Q -> (x * inject_Z (10 ^ Z.of_nat p) <= inject_Z (10 ^ Z.of_nat (n + p) - 1))%Q -> (List.length (fixed p x) <= n + 1 + p)%nat.
Proof.
  intros P Hn X0 X1. assert (PP : 1 <= 10 ^ Z.of_nat p) by (pose proof (Z.pow_pos_nonneg 10 (Z.of_nat p)); lia).
  assert (B : (x <= inject_Z (10 ^ 19))%Q).
  { apply Qle_trans with (x * inject_Z (10 ^ Z.of_nat p))%Q.
    - rewrite <- (Qmult_1_r x) at 1. rewrite !(Qmult_comm x). apply Qmult_le_compat_r; [|exact X0]. change 1%Q with (inject_Z 1). now rewrite <- Zle_Qle.
    - eapply Qle_trans; [exact X1|]. rewrite <- Zle_Qle. assert (10 ^ Z.of_nat (n + p) <= 10 ^ 11) by (apply Z.pow_le_mono_r; lia). assert (10 ^ 11 <= 10 ^ 19) by (vm_compute; discriminate). lia. }
  assert (XA : (Qabs x == x)%Q) by (apply Qabs_pos; exact X0).
  destruct (CtimeJd.fixed_ok p x) as (v & E & V & N & _); [lia|rewrite XA; exact B|].
  rewrite XA in N. apply Qabs_Qle_condition in N. rewrite E. unfold minus. assert (Qle_bool 0 x = true) as -> by now apply Qle_bool_iff. cbn [app]. unfold fixed_text. rewrite app_length.
  assert (V2 : v <= 10 ^ Z.of_nat (n + p) - 1).
  { assert (inject_Z v < inject_Z (10 ^ Z.of_nat (n + p) - 1 + 1))%Q as A by (rewrite inject_Z_plus; change (inject_Z 1) with 1%Q; Lqa.lra). rewrite <- Zlt_Qlt in A. lia. }
  assert (D : 0 <= v / 10 ^ Z.of_nat p < 10 ^ Z.of_nat n).
  { split; [apply Z.div_pos; lia|]. apply Z.div_lt_upper_bound; [lia|]. rewrite <- Z.pow_add_r by lia. replace (Z.of_nat p + Z.of_nat n) with (Z.of_nat (n + p)) by lia. lia. }
  assert (List.length (dec (v / 10 ^ Z.of_nat p)) <= n)%nat.
  { unfold dec. destruct (Z.ltb_spec (v / 10 ^ Z.of_nat p) 0); [lia|]. apply CtimeProofs.digits_len; [exact D|lia]. }
  assert (List.length (decimals p (v mod 10 ^ Z.of_nat p)) <= 1 + p)%nat by (destruct P as [-> | ->]; cbn [decimals List.length]; rewrite ?CtimeBuf.ndig_length; lia). lia.
Qed.
Lemma right_field n p x : number_field n p x = at_right n (fixed p x). Proof. reflexivity. Qed.
Lemma at_right_length n s : (List.length s <= n)%nat -> List.length (at_right n s) = n.
Proof. intro. unfold at_right, blanks. rewrite app_length, repeat_length. lia. Qed.
Lemma at_left_length n s : (List.length s <= n)%nat -> List.length (at_left n s) = n.
Proof. intro. unfold at_left, blanks. rewrite app_length, repeat_length. lia. Qed.
Lemma field_of n p w x y : (p = 6%nat \/ p = 8%nat) -> (1 <= n <= 3)%nat -> (n + 1 + p <= w)%nat -> (0 <= x)%Q -> (x <= y)%Q -> (y * inject_Z (10 ^ Z.of_nat p) <= inject_Z (10 ^ Z.of_nat (n + p) - 1))%Q ->
  List.length (number_field w p x) = w.
Proof.
  intros P Hn W X0 X1 Y. rewrite right_field. apply at_right_length. pose proof (fixed_length p n x P Hn X0) as F. assert (XX : (x * inject_Z (10 ^ Z.of_nat p) <= inject_Z (10 ^ Z.of_nat (n + p) - 1))%Q).
  { eapply Qle_trans; [|exact Y]. apply Qmult_le_compat_r; [exact X1|]. change 0%Q with (inject_Z 0). rewrite <- Zle_Qle. apply Z.pow_nonneg. lia. }
  specialize (F XX). lia.
Qed.
Lemma ndig75 u : 0 <= u -> decimals 7 (100 * u) = 46 :: ndig 5 u ++ zs "00".
Proof.
  intros _. cbn [decimals ndig app]. f_equal. change (zs "00") with [48; 48].
  assert (D : forall k, 0 <= k -> 100 * u / 10 ^ (k + 2) = u / 10 ^ k) by (intros k K; rewrite Z.pow_add_r, Z.mul_comm by lia; apply Z.div_mul_cancel_r; [pose proof (Z.pow_pos_nonneg 10 k); lia|discriminate]).
  change (Z.of_nat 6) with (4 + 2). change (Z.of_nat 5) with (3 + 2). change (Z.of_nat 4) with (2 + 2). change (Z.of_nat 3) with (1 + 2). change (Z.of_nat 2) with (0 + 2). rewrite !D by lia.
  assert (A : 48 + (100 * u / 10 ^ Z.of_nat 1) mod 10 = 48).
  { change (10 ^ Z.of_nat 1) with 10. replace (100 * u) with (10 * u * 10) by ring. rewrite Z.div_mul by discriminate. rewrite (Z.mul_comm 10), Z.mod_mul by discriminate. reflexivity. }
  assert (B : 48 + (100 * u / 10 ^ Z.of_nat 0) mod 10 = 48).
  { change (10 ^ Z.of_nat 0) with 1. rewrite Z.div_1_r. replace (100 * u) with (10 * u * 10) by ring. rewrite Z.mod_mul by discriminate. reflexivity. }
  rewrite A, B. reflexivity.
Qed.

(** ---- a line of ELEMENTS.COMET ---- *)
Lemma perihelion_read L now ph y m d u jd : long_ok L -> valid gregorian (d, m, y) -> 0 <= y <= 9999 -> 0 <= u < 100000 -> dmy_to_day L d m y CALENDAR_GREGORIAN = Ret jd ->
  reads L now ph (0 - J2000)%Q (ymd y m d ++ 46 :: ndig 5 u) 0 (instant jd 0 + (u # Z.to_pos (10 ^ Z.of_nat 5)))%Q 0.
Proof.
  intros HL V Hy Hu ED. destruct (greg_facts L d m y HL V Hy) as (jd' & E' & R & Rj & _ & Hm & Hd). rewrite ED in E'. injection E' as <-.
  assert (DO : day_of (0 - J2000)%Q = 0) by (vm_compute; reflexivity).
  destruct (C01_jd_to_date_and_back_proof L 0 CALENDAR_GREGORIAN HL) as ((d0 & m0 & y0 & R0) & _); [unfold jd_ok, long_ok in *; lia|left; unfold rule_cal; tauto|].
  change (u # Z.to_pos (10 ^ Z.of_nat 5)) with (u # Z.to_pos (10 ^ Z.of_nat (List.length (ndig 5 u)))). apply (TstrThms.C45_compact_proof L now ph (0 - J2000)%Q _ (ndig 4 y) y (ndig 2 m) m (ndig 2 d) d (46 :: ndig 5 u) _ [] 0%Q 0 d0 m0 y0).
  - unfold date_of_start. rewrite DO. split; [exact HL|]. split; [unfold jd_ok, long_ok in *; lia|exact R0].
  - assert (DD : forall c, In c (ymd y m d ++ 46 :: ndig 5 u) -> isdigit c = true \/ c = 46).
    { intros c I. unfold ymd in I. rewrite <- !app_assoc in I. repeat (apply in_app_or in I; destruct I as [I|I]; [left; now apply CtimeBuf.ndig_digit in I|]). destruct I as [I|I]; [now right|left; now apply CtimeBuf.ndig_digit in I]. }
    assert (NA : forall c, In c (ymd y m d ++ 46 :: ndig 5 u) -> isalpha c = false).
    { intros c I. destruct (DD c I) as [H| ->]; [|reflexivity]. now apply CtimeRound.digit_alpha. }
    assert (LL : List.length (ymd y m d ++ 46 :: ndig 5 u) = 14%nat) by reflexivity.
    unfold text. split; [intros c I; destruct (DD c I) as [H| ->]; [unfold isdigit in H; lia|discriminate]|].
    split; [intro N; change (48 + (y / 10 ^ Z.of_nat 3) mod 10 = 32) in N; pose proof (CtimeBuf.ndig_digit 4 y _ (or_introl eq_refl)) as H; rewrite N in H; discriminate H|].
    split; [discriminate|]. rewrite LL. split; [lia|]. rewrite (CtimeRound.spread_plain _ NA). split; [unfold ymd; rewrite app_nil_r, <- !app_assoc; reflexivity|]. unfold ymd. rewrite !app_length. cbn [List.length]. rewrite !CtimeBuf.ndig_length. lia.
  - apply MpcdProofs.ndig_is_digits. change (10 ^ Z.of_nat 4) with 10000. lia.
  - apply MpcdProofs.ndig_is_digits. change (10 ^ Z.of_nat 2) with 100. lia.
  - apply MpcdProofs.ndig_is_digits. change (10 ^ Z.of_nat 2) with 100. lia.
  - right. reflexivity.
  - reflexivity.
  - reflexivity.
  - right. exists (ndig 5 u), u. split; [apply MpcdProofs.ndig_is_digits; change (10 ^ Z.of_nat 5) with 100000; lia|]. split; [rewrite CtimeBuf.ndig_length; lia|]. split; reflexivity.
  - apply TstrThms.no_clock.
  - exact ED.
  - unfold jd_ok, long_ok in *. lia.
Qed.
Lemma comet_line_ok L now ph f line c : long_ok L -> counts_days gregorian (1, 1, 2000) 2451545 f -> comet_line_says line c -> fits_sof c ->
  exists te, is_date f (mjd c + 2400001) te /\ List.length (sof_line c te) = 144%nat /\
    exists N, forall fuel dfuel, (N <= fuel)%nat -> (N <= dfuel)%nat -> exists M, forall fuel2 ic, (M <= fuel2)%nat ->
      comet_line L fuel {| e_long := L; e_now := now; e_fuel := dfuel; e_phase := ph |} fuel2 ic line = Ret (Some (sof_line c te)).
Proof.
  intros HL Hf (nm & te & tq & tx & ti & tw & tn & rest & y & m & d & u & -> & NM & Fe & Fq & Fx & Fi & Fw & Fn & EP & V & Hy & Hu & HM) FS.
  destruct (greg_facts L d m y HL V Hy) as (jp & Ep & Rp & Rj & _ & Hm & Hd).
  destruct (greg_day L (mjd c + 2400001) HL ltac:(lia)) as (d2 & m2 & y2 & V2 & Hy2 & E2 & F2).
  exists (ymd y2 m2 d2). split; [exists y2, m2, d2; split; [reflexivity|]; split; [exact V2|]; split; [exact Hy2|exact (F2 f Hf)]|].
  destruct FS as (Q1 & Q2 & I1 & I2 & O1 & O2 & W1 & W2 & X1 & X2).
  pose proof (field_of 2 8 11 _ _ ltac:(tauto) ltac:(lia) ltac:(lia) Q1 Q2 ltac:(vm_compute; discriminate)) as Lq.
  pose proof (field_of 3 6 10 _ _ ltac:(tauto) ltac:(lia) ltac:(lia) I1 I2 ltac:(vm_compute; discriminate)) as Li.
  pose proof (field_of 3 6 10 _ _ ltac:(tauto) ltac:(lia) ltac:(lia) O1 O2 ltac:(vm_compute; discriminate)) as Ln.
  pose proof (field_of 3 6 10 _ _ ltac:(tauto) ltac:(lia) ltac:(lia) W1 W2 ltac:(vm_compute; discriminate)) as Lw.
  pose proof (field_of 1 8 10 _ _ ltac:(tauto) ltac:(lia) ltac:(lia) X1 X2 ltac:(vm_compute; discriminate)) as Lx.
  assert (LP : List.length (perihelion c) = 14%nat) by (rewrite EP; reflexivity).
  set (buff := nm ++ te ++ 32 :: tq ++ 32 :: tx ++ 32 :: ti ++ 32 :: tw ++ 32 :: tn ++ 32 :: perihelion c ++ rest).
  destruct (comet_name_ok nm (cname c) (te ++ 32 :: tq ++ 32 :: tx ++ 32 :: ti ++ 32 :: tw ++ 32 :: tn ++ 32 :: perihelion c ++ rest) NM) as (t & CN & CE & CL). fold buff in CN.
  assert (SL : List.length (sof_line c (ymd y2 m2 d2)) = 144%nat).
  { unfold sof_line. rewrite <- !right_field, !app_length, (at_left_length 12 _ CL), LP, Lq, Li, Ln, Lw, Lx. reflexivity. }
  split; [exact SL|].
  assert (L0 : List.length nm = 44%nat) by (destruct NM; assumption).
  pose proof (field_length _ _ _ Fe) as Le. pose proof (field_length _ _ _ Fq) as Lqq. pose proof (field_length _ _ _ Fx) as Lxx. pose proof (field_length _ _ _ Fi) as Lii. pose proof (field_length _ _ _ Fw) as Lww. pose proof (field_length _ _ _ Fn) as Lnn.
  assert (A1 : MpcfModel.atof (skipn 51 buff) = Ret (qdist c)).
  { replace buff with ((nm ++ te) ++ (32 :: tq) ++ 32 :: tx ++ 32 :: ti ++ 32 :: tw ++ 32 :: tn ++ 32 :: perihelion c ++ rest) by (unfold buff; repeat (progress (rewrite <- ?app_assoc; cbn [app])); reflexivity).
    apply (atof_at _ 12); [rewrite app_length; lia|now apply field_blank|apply blank_end]. }
  assert (A2 : MpcfModel.atof (skipn 44 buff) = Ret (inject_Z (mjd c))).
  { apply (atof_at _ 7); [exact L0|exact Fe|apply blank_end]. }
  assert (A3 : MpcfModel.atof (skipn 64 buff) = Ret (eccentricity c)).
  { replace buff with ((nm ++ te ++ 32 :: tq ++ [32]) ++ tx ++ 32 :: ti ++ 32 :: tw ++ 32 :: tn ++ 32 :: perihelion c ++ rest) by (unfold buff; repeat (progress (rewrite <- ?app_assoc; cbn [app])); reflexivity).
    apply (atof_at _ 10); [rewrite !app_length; cbn [List.length]; rewrite app_length; cbn [List.length]; lia|exact Fx|apply blank_end]. }
  assert (A4 : MpcfModel.atof (skipn 75 buff) = Ret (inclination c)).
  { replace buff with ((nm ++ te ++ [32] ++ tq ++ [32] ++ tx ++ [32]) ++ ti ++ 32 :: tw ++ 32 :: tn ++ 32 :: perihelion c ++ rest) by (unfold buff; repeat (progress (rewrite <- ?app_assoc; cbn [app])); reflexivity).
    apply (atof_at _ 9); [rewrite !app_length; cbn [List.length]; lia|exact Fi|apply blank_end]. }
  assert (A5 : MpcfModel.atof (skipn 85 buff) = Ret (peri c)).
  { replace buff with ((nm ++ te ++ [32] ++ tq ++ [32] ++ tx ++ [32] ++ ti ++ [32]) ++ tw ++ 32 :: tn ++ 32 :: perihelion c ++ rest) by (unfold buff; repeat (progress (rewrite <- ?app_assoc; cbn [app])); reflexivity).
    apply (atof_at _ 9); [rewrite !app_length; cbn [List.length]; lia|exact Fw|apply blank_end]. }
  assert (A6 : MpcfModel.atof (skipn 95 buff) = Ret (node c)).
  { replace buff with ((nm ++ te ++ [32] ++ tq ++ [32] ++ tx ++ [32] ++ ti ++ [32] ++ tw ++ [32]) ++ tn ++ 32 :: perihelion c ++ rest) by (unfold buff; repeat (progress (rewrite <- ?app_assoc; cbn [app])); reflexivity).
    apply (atof_at _ 9); [rewrite !app_length; cbn [List.length]; lia|exact Fn|apply blank_end]. }
  set (pre := nm ++ te ++ [32] ++ tq ++ [32] ++ tx ++ [32] ++ ti ++ [32] ++ tw ++ [32] ++ tn ++ [32]).
  assert (LPre : List.length pre = 105%nat) by (unfold pre; rewrite !app_length; cbn [List.length]; lia).
  assert (EB : buff = pre ++ perihelion c ++ rest) by (unfold buff, pre; repeat (progress (rewrite <- ?app_assoc; cbn [app])); reflexivity).
  assert (A7 : bytes_at buff 105 14 = perihelion c) by (unfold bytes_at; rewrite EB, skip_at by exact LPre; rewrite <- LP; apply firstn_app_l).
  assert (A8 : (116 <? List.length buff)%nat = true) by (apply Nat.ltb_lt; rewrite EB, !app_length; lia).
  assert (A9 : nth 113 buff 0 = 46) by (rewrite EB; change 113%nat with (105 + 8)%nat; rewrite (nth_off _ _ 105 8 LPre), EP; reflexivity).
  destruct (perihelion_read L now ph y m d u jp HL V Hy Hu Ep) as (N & RD). rewrite <- EP in RD.
  destruct (time_text_ok L 0 (inject_Z (mjd c) + (24000005 # 10))%Q (mjd c + 2400001) d2 m2 y2 0 HL ltac:(tauto) V2 Hy2 E2 ltac:(lia)) as (M2 & T2).
  { rewrite inject_Z_plus. change (inject_Z 2400001) with (2400001 # 1). change (inject_Z 0 / inject_Z (10 ^ 0))%Q with (0 / 1)%Q. field. }
  exists N. intros fuel dfuel HF HD. destruct (RD fuel dfuel HF HD) as (t' & ER & Et').
  destruct (time_text_ok L 7 (t' + J2000)%Q jp d m y (100 * u) HL ltac:(tauto) V Hy Ep ltac:(change (10 ^ 7) with 10000000; lia)) as (M1 & T1).
  { rewrite Et'. unfold instant, J2000. change (Z.to_pos (10 ^ Z.of_nat 5)) with 100000%positive. change (inject_Z (10 ^ 7)) with (10000000 # 1). rewrite inject_Z_mult. unfold Z.sub. rewrite inject_Z_plus. change (inject_Z (- (2451545))) with (- (2451545 # 1))%Q. change (inject_Z 100) with (100 # 1).
    rewrite (Qmake_Qdiv u 100000). change (inject_Z (Zpos 100000)) with (100000 # 1). field. }
  exists (M1 + M2)%nat. intros fuel2 ic HF2. unfold comet_line, parse_elements_dot_comet. rewrite A8, A9. cbn [Z.eqb Pos.eqb andb]. rewrite A1, A2, A3, A4, A5, A6, A7. cbn [obind]. unfold get_time_from_string. rewrite ER. cbn [obind].
  cbn [epoch]. assert (Qle_bool (inject_Z (mjd c) + (24000005 # 10)) 1721000 = false) as ->.
  { destruct (Qle_bool _ _) eqn:Q; [|reflexivity]. apply Qle_bool_iff in Q. exfalso. assert (inject_Z (-678000) <= inject_Z (mjd c))%Q as H by (rewrite <- Zle_Qle; lia). change (inject_Z (-678000)) with (-678000 # 1) in H. Lqa.lra. }
  unfold comet_record. rewrite CN. cbn [obind]. unfold output_sof. cbn [perih_time epoch q incl asc_node arg_per ecc].
  change (base_time_format + 112) with (tf 7). rewrite T1 by lia. cbn [obind]. change base_time_format with (tf 0). rewrite T2 by lia. cbn [obind].
  change (decimals (Z.to_nat 0) 0) with (@nil Z). rewrite app_nil_r. change (Z.to_nat 7) with 7%nat. rewrite (ndig75 u) by lia.
  set (text := (ymd y m d ++ _) ++ _).
  assert (ET : left_justified 12 t ++ [32] ++ text ++ zs "           " ++ zs "                                     " ++ [10] = sof_line c (ymd y2 m2 d2)).
  { rewrite left_right, CE. unfold text, sof_line. rewrite <- !right_field, EP. repeat (progress (rewrite <- ?app_assoc; cbn [app])). reflexivity. }
  assert (LT : List.length text = 82%nat).
  { unfold text. rewrite !app_length. cbn [List.length]. rewrite !app_length, Lq, Li, Ln, Lw, Lx. reflexivity. }
  rewrite LT. cbn [Nat.ltb Nat.leb obind]. rewrite ET, SL. reflexivity.
Qed.
