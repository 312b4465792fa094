(** Proofs of the theorems stated in [PropCtime]. *)
From Coq Require Import Lia QArith Qround Qabs Lqa.
From Coq Require Import String.
From Verif Require Import CBase CStr CLemmas DateModel DateVocab DateThms TstrModel TstrSpec TstrMore TstrThms CtimeModel CtimeSpec CtimeBuf CtimeProofs CtimeText CtimeJd CtimeRound CtimeBad.
From Verif Require Import DateFacts DateMore .
Local Open Scope string_scope.
Local Open Scope list_scope.
Local Open Scope Z_scope.

(** ---- for the examples ---- *)
Lemma long64 : long_ok LMAX64.
Proof. unfold long_ok, LMAX64; lia. Qed.
Definition run_b (jd c d m y : Z) : bool :=
  match day_to_dmy_st LMAX64 10 0 0 jd c with Ret (d', m', y', _) => (d' =? d) && (m' =? m) && (y' =? y) | _ => false end.
Lemma run_eval jd c d m y : rule_cal c -> jd_ok LMAX64 jd -> run_b jd c d m y = true -> dmy_result LMAX64 jd c d m y.
Proof.
  intros Hc Hj H. assert (Hd : day_dom LMAX64 c jd) by (left; split; assumption).
  destruct (day_to_dmyA LMAX64 _ _ long64 Hd) as (d1 & m1 & y1 & Hr & _).
  unfold run_b in H. destruct (day_to_dmy_st LMAX64 10 0 0 jd c) as [[[[d' m'] y'] ic']| | |] eqn:E; try discriminate.
  rewrite !andb_true_iff, !Z.eqb_eq in H. destruct H as ((-> & ->) & ->).
  destruct (result_of_run LMAX64 c jd 10 0 0 d m y ic' d1 m1 y1) as (-> & -> & ->); [exact E|exact Hr|exact Hr].
Qed.

Lemma C46_text_proof :
  forall L t fmt n d m y,
  long_ok L -> per_day fmt n ->
  rule_cal (calendar_of fmt) \/ calendar_of fmt = CALENDAR_JULIAN_GREGORIAN ->
  jd_ok L (day_of (t + nudge fmt n)) -> dmy_result L (day_of (t + nudge fmt n)) (calendar_of fmt) d m y ->
  (has fmt FULL_CTIME_TIME_ONLY = false ->
     Z.abs y <= 10 ^ 15 /\ (has fmt FULL_CTIME_TWO_DIGIT_YEAR = true -> Z.abs y <= 2147483647) /\
     (has fmt FULL_CTIME_MONTHS_AS_DIGITS = false -> m <= 12) /\ (style fmt = 768 -> (places fmt <= 11)%nat)) ->
  let jd := day_of (t + nudge fmt n) in
  exists j1 k, dmy_to_day L 1 1 y (calendar_of fmt) = Ret j1 /\
    writes L t fmt (whole_text fmt jd (j1 - 1) d m y k) /\
    0 <= k < n * 10 ^ Z.of_nat (places fmt) /\
    (shown fmt n jd k <= t + nudge fmt n)%Q /\ (t + nudge fmt n < shown fmt n jd k + last_place fmt n)%Q.
Proof.
  intros L t fmt n d m y HL Hn Hc Hj Hr Hfit jd.
  destruct (date_facts L jd (calendar_of fmt) d m y HL Hj Hc Hr) as (Hd & Hm & _ & j0 & Hst & Rj & Dj).
  destruct (Hst 1 ltac:(lia) 0) as (ic1 & E1). destruct (shown_bounds t fmt n Hn) as (S1 & S2 & Hk).
  exists (j0 + 1), (count_shown t fmt n). split; [unfold dmy_to_day; rewrite E1; reflexivity|].
  replace (j0 + 1 - 1) with j0 by lia. split; [|split; [exact Hk|split; assumption]].
  apply calendar_text; [exact HL|exact Hn|exact Hc|exact Hj|exact Hr| |exact Rj|].
  - pose proof (Hst 0 ltac:(lia)) as H0. rewrite Z.add_0_r in H0. exact H0.
  - intro Ht. destruct (Hfit Ht) as (A & B & C & D). unfold date_fits. split; [lia|]. split; [lia|]. split; [exact A|].
    split; [fold jd; change (day_shown t fmt n) with jd; lia|]. split; [exact C|]. split; [exact D|exact B].
Qed.

Lemma C46_rounding_proof :
  forall L t fmt n d m y,
  long_ok L -> per_day fmt n ->
  rule_cal (calendar_of fmt) \/ calendar_of fmt = CALENDAR_JULIAN_GREGORIAN ->
  jd_ok L (day_of (t + nudge fmt n)) -> dmy_result L (day_of (t + nudge fmt n)) (calendar_of fmt) d m y ->
  (has fmt FULL_CTIME_TIME_ONLY = false ->
     Z.abs y <= 10 ^ 15 /\ (has fmt FULL_CTIME_TWO_DIGIT_YEAR = true -> Z.abs y <= 2147483647) /\
     (has fmt FULL_CTIME_MONTHS_AS_DIGITS = false -> m <= 12) /\ (style fmt = 768 -> (places fmt <= 11)%nat)) ->
  let jd := day_of (t + nudge fmt n) in
  exists j1 k, writes L t fmt (whole_text fmt jd (j1 - 1) d m y k) /\
    (has fmt FULL_CTIME_ROUNDING = true -> (Qabs (shown fmt n jd k - t) <= (1 # 2) * last_place fmt n)%Q) /\
    (has fmt FULL_CTIME_ROUNDING = false ->
       (shown fmt n jd k - t <= (1 # 20) / 86400 / inject_Z (10 ^ Z.of_nat (places fmt)))%Q /\
       (t - shown fmt n jd k < last_place fmt n)%Q).
Proof.
  intros L t fmt n d m y HL Hn Hc Hj Hr Hfit jd.
  destruct (C46_text_proof L t fmt n d m y HL Hn Hc Hj Hr Hfit) as (j1 & k & _ & W & _ & S1 & S2). fold jd in W, S1, S2.
  exists j1, k. split; [exact W|]. set (T := shown fmt n jd k) in *. set (u := last_place fmt n) in *.
  split; intro H; unfold nudge in S1, S2; change FULL_CTIME_ROUNDING with 2097152 in H; rewrite H in S1, S2; fold u in S1, S2.
  - apply Qabs_Qle_condition. split; lra.
  - assert (P : 0 < 10 ^ Z.of_nat (places fmt)) by (apply Z.pow_pos_nonneg; lia).
    assert (QP : (0 < inject_Z (10 ^ Z.of_nat (places fmt)))%Q) by (change 0%Q with (inject_Z 0); now rewrite <- Zlt_Qlt).
    assert (E : ((1 # 20) / 86400 / inject_Z (10 ^ Z.of_nat (places fmt)) == 1 / inject_Z (1728000 * 10 ^ Z.of_nat (places fmt)))%Q).
    { rewrite inject_Z_mult. change (inject_Z 1728000) with 1728000%Q. field. lra. }
    assert (N0 : (0 < 1 / inject_Z (1728000 * 10 ^ Z.of_nat (places fmt)))%Q).
    { apply Qlt_shift_div_l; [change 0%Q with (inject_Z 0); rewrite <- Zlt_Qlt; lia|lra]. }
    rewrite E. split; lra.
Qed.

Lemma C46_round_trip_proof :
  forall L now ph t0 t fmt n d m y,
  long_ok L -> per_day fmt n ->
  rule_cal (calendar_of fmt) \/ calendar_of fmt = CALENDAR_JULIAN_GREGORIAN ->
  jd_ok L (day_of (t + nudge fmt n)) -> dmy_result L (day_of (t + nudge fmt n)) (calendar_of fmt) d m y ->
  in_full fmt -> has fmt FULL_CTIME_DAY_OF_YEAR = false -> start_ok L t0 fmt -> 33 <= y < 10 ^ 9 ->
  m <= 12 \/ (has fmt FULL_CTIME_MONTHS_AS_DIGITS = true /\ m <= 13 /\ calendar_of fmt = CALENDAR_HEBREW) ->
  exists s T, writes L t fmt s /\ reads L now ph t0 s fmt T 0 /\
    (T <= t + nudge fmt n)%Q /\ (t + nudge fmt n < T + last_place fmt n)%Q.
Proof.
  intros L now ph t0 t fmt n d m y HL Hn Hc Hj Hr Hf Hdoy Hst Hy Hm.
  exact (round_trip L now ph t0 t fmt n d m y HL Hn Hf Hdoy Hc Hst Hj Hr Hy Hm).
Qed.

Lemma C46_round_trip_day_of_year_proof :
  forall L now ph t0 t fmt n d m y d0 m0 y0,
  long_ok L -> per_day fmt n ->
  rule_cal (calendar_of fmt) \/ calendar_of fmt = CALENDAR_JULIAN_GREGORIAN ->
  jd_ok L (day_of (t + nudge fmt n)) -> dmy_result L (day_of (t + nudge fmt n)) (calendar_of fmt) d m y ->
  in_full fmt -> (style fmt = 768 -> (places fmt <= 5)%nat) -> has fmt FULL_CTIME_DAY_OF_YEAR = true ->
  date_of_start L t0 fmt d0 m0 y0 -> 500 <= y < 10 ^ 9 ->
  (has fmt FULL_CTIME_MONTHS_AS_DIGITS = false -> m <= 12) ->
  exists s T, writes L t fmt s /\ reads L now ph t0 s fmt T 0 /\
    (T <= t + nudge fmt n)%Q /\ (t + nudge fmt n < T + last_place fmt n)%Q.
Proof.
  intros L now ph t0 t fmt n d m y d0 m0 y0 HL Hn Hc Hj Hr Hf H5 Hdoy Hst Hy Hm.
  exact (round_trip_doy L now ph t0 t fmt n d m y d0 m0 y0 HL Hn Hf H5 Hdoy Hc Hst Hj Hr Hy Hm).
Qed.

Lemma C46_julian_days_proof :
  forall L t fmt, style fmt = 1280 \/ style fmt = 1536 ->
  let x := (t + nudge fmt 1 + jd_base fmt)%Q in (Qabs x <= inject_Z (10 ^ 19))%Q ->
  exists v, 0 <= v /\ writes L t fmt (jd_mark fmt ++ minus x ++ fixed_text (places fmt) v) /\
    (Qabs (inject_Z v - Qabs x * inject_Z (10 ^ Z.of_nat (places fmt))) <= 1 # 2)%Q.
Proof.
  intros L t fmt Hs x Hx. destruct (jd_text L t fmt Hs Hx) as (W & Hv & Hb). eexists. split; [|split; [exact W|exact Hb]]. apply Hv.
Qed.

Lemma C46_julian_days_round_trip_proof :
  forall L now ph t0 t fmt, style fmt = 1280 \/ style fmt = 1536 ->
  let x := (t + nudge fmt 1 + jd_base fmt)%Q in (0 <= x)%Q -> (x <= inject_Z (10 ^ 19))%Q -> (style fmt = 1280 -> (1 <= x)%Q) ->
  exists s T, writes L t fmt s /\ reads L now ph t0 s fmt T 1 /\ (Qabs (T - (t + nudge fmt 1)) <= (1 # 2) * last_place fmt 1)%Q.
Proof.
  exact jd_round_trip.
Qed.

Lemma C46_years_proof :
  forall L t fmt, style fmt = 1024 ->
  let x := ((t + nudge fmt 1) / (36525 # 100) + 2000)%Q in (0 <= x)%Q -> (x <= 999999 # 100)%Q ->
  exists w, 0 <= w /\ writes L t fmt (four_text (zero_or_space fmt) (w / 10 ^ Z.of_nat (places fmt)) ++ decimals (places fmt) w) /\
    (inject_Z w / inject_Z (10 ^ Z.of_nat (places fmt)) - (1 # 20000000000000000) <= x)%Q /\
    (x < inject_Z (w + 1) / inject_Z (10 ^ Z.of_nat (places fmt)))%Q.
Proof.
  exact year_text_ok.
Qed.

Lemma C46_picodays_refuted_proof :
  (forall L t fmt d m y,
     long_ok L -> rule_cal (calendar_of fmt) \/ calendar_of fmt = CALENDAR_JULIAN_GREGORIAN ->
     jd_ok L (day_of (t + nudge fmt 1)) -> dmy_result L (day_of (t + nudge fmt 1)) (calendar_of fmt) d m y ->
     style fmt = 768 -> (12 <= places fmt)%nat -> has fmt FULL_CTIME_TIME_ONLY = false -> Z.abs y <= 10 ^ 15 ->
     (has fmt FULL_CTIME_MONTHS_AS_DIGITS = false -> m <= 12) ->
     (has fmt FULL_CTIME_TWO_DIGIT_YEAR = true -> Z.abs y <= 2147483647) ->
     writing_crashes L t fmt) /\
  writing_crashes LMAX64 0 (768 + 12 * 16) /\ writing_crashes LMAX64 0 (768 + 15 * 16).
Proof.
  assert (G : forall L t fmt d m y,
     long_ok L -> rule_cal (calendar_of fmt) \/ calendar_of fmt = CALENDAR_JULIAN_GREGORIAN ->
     jd_ok L (day_of (t + nudge fmt 1)) -> dmy_result L (day_of (t + nudge fmt 1)) (calendar_of fmt) d m y ->
     style fmt = 768 -> (12 <= places fmt)%nat -> has fmt FULL_CTIME_TIME_ONLY = false -> Z.abs y <= 10 ^ 15 ->
     (has fmt FULL_CTIME_MONTHS_AS_DIGITS = false -> m <= 12) ->
     (has fmt FULL_CTIME_TWO_DIGIT_YEAR = true -> Z.abs y <= 2147483647) ->
     writing_crashes L t fmt).
  { intros L t fmt d m y HL Hc Hj Hr Es Hp Ht Hy Hm H2. exact (picodays_crash L t fmt d m y HL Es Hp Hc Hj Hr Ht Hm Hy H2). }
  split; [exact G|].
  split; apply (G _ _ _ 1 1 2000); [exact long64|left; unfold rule_cal; tauto|apply jd_eval; vm_compute; reflexivity| |reflexivity|apply Nat.leb_le; reflexivity|reflexivity|lia|lia|discriminate| exact long64|left; unfold rule_cal; tauto|apply jd_eval; vm_compute; reflexivity| |reflexivity|apply Nat.leb_le; reflexivity|reflexivity|lia|lia|discriminate];
    (apply run_eval; [unfold rule_cal; tauto|apply jd_eval; vm_compute; reflexivity|vm_compute; reflexivity]).
Qed.

Lemma C46_month_13_refuted_proof :
  (forall L t fmt n d y,
     long_ok L -> per_day fmt n -> jd_ok L (day_of (t + nudge fmt n)) ->
     dmy_result L (day_of (t + nudge fmt n)) (calendar_of fmt) d 13 y ->
     has fmt FULL_CTIME_TIME_ONLY = false -> has fmt FULL_CTIME_MONTHS_AS_DIGITS = false -> writing_crashes L t fmt) /\
  writing_crashes LMAX64 (2451817 - 2451545) CALENDAR_HEBREW.
Proof.
  assert (G : forall L t fmt n d y,
     long_ok L -> per_day fmt n -> jd_ok L (day_of (t + nudge fmt n)) ->
     dmy_result L (day_of (t + nudge fmt n)) (calendar_of fmt) d 13 y ->
     has fmt FULL_CTIME_TIME_ONLY = false -> has fmt FULL_CTIME_MONTHS_AS_DIGITS = false -> writing_crashes L t fmt).
  { intros L t fmt n d y HL Hn Hj Hr Ht Hm. exact (month_13_crash L t fmt n d y HL Hn Hj Hr Ht Hm). }
  split; [exact G|]. apply (G _ _ _ 86400 29 5760); try reflexivity; [exact long64|vm_compute; tauto|apply jd_eval; vm_compute; reflexivity|].
  apply run_eval; [unfold rule_cal; cbn; tauto|apply jd_eval; vm_compute; reflexivity|vm_compute; reflexivity].
Qed.

Lemma C46_jd_rounding_refuted_proof :
  (forall L t fmt v f, style fmt = 1280 \/ style fmt = 1536 -> has fmt FULL_CTIME_ROUNDING = true ->
     0 <= v -> (0 < f)%Q -> (f < 1 # 2)%Q ->
     (t + jd_base fmt == (inject_Z v + f) * last_place fmt 1)%Q -> v < 10 ^ 18 ->
     writes L t fmt (jd_mark fmt ++ fixed_text (places fmt) (v + 1))) /\
  writes LMAX64 (1 # 10) (1280 + FULL_CTIME_ROUNDING) (zs "JD 2451546").
Proof.
  assert (G : forall L t fmt v f, style fmt = 1280 \/ style fmt = 1536 -> has fmt FULL_CTIME_ROUNDING = true ->
     0 <= v -> (0 < f)%Q -> (f < 1 # 2)%Q ->
     (t + jd_base fmt == (inject_Z v + f) * last_place fmt 1)%Q -> v < 10 ^ 18 ->
     writes L t fmt (jd_mark fmt ++ fixed_text (places fmt) (v + 1))).
  { intros L t fmt v f Hs Hr Hv F0 F1 E Hv2. set (x := (t + nudge fmt 1 + jd_base fmt)%Q).
    set (B := 10 ^ Z.of_nat (places fmt)) in *.
    assert (P : 1 <= B) by (assert (0 < B) by (apply Z.pow_pos_nonneg; lia); lia).
    assert (QB : (1 <= inject_Z B)%Q) by (change 1%Q with (inject_Z 1); now rewrite <- Zle_Qle).
    assert (V0 : (0 <= inject_Z v)%Q) by (change 0%Q with (inject_Z 0); now rewrite <- Zle_Qle).
    assert (V1 : (inject_Z v <= inject_Z (10 ^ 18))%Q) by (rewrite <- Zle_Qle; lia).
    change (inject_Z (10 ^ 18)) with (1000000000000000000 # 1)%Q in V1.
    assert (LP : (last_place fmt 1 == 1 / inject_Z B)%Q) by (unfold last_place; fold B; now rewrite Z.mul_1_l).
    assert (Ex : (x * inject_Z B == inject_Z v + f + (1 # 2))%Q).
    { unfold x, nudge. change FULL_CTIME_ROUNDING with 2097152 in Hr. rewrite Hr.
      setoid_replace (t + (1 # 2) * last_place fmt 1 + jd_base fmt)%Q with ((t + jd_base fmt) + (1 # 2) * last_place fmt 1)%Q by ring.
      rewrite E, LP. field. lra. }
    assert (X0 : (0 <= x)%Q). { apply Qnot_lt_le. intro H. assert ((x * inject_Z B < 0)%Q) by (setoid_replace 0%Q with (0 * inject_Z B)%Q by ring; apply Qmult_lt_compat_r; lra). lra. }
    assert (X1 : (x <= x * inject_Z B)%Q) by (setoid_replace x with (x * 1)%Q at 1 by ring; rewrite !(Qmult_comm x); apply Qmult_le_compat_r; assumption).
    assert (Ax : (Qabs x == x)%Q) by (now apply Qabs_pos).
    destruct (jd_text L t fmt Hs) as (W & _ & Hb); fold x.
    { rewrite Ax. change (inject_Z (10 ^ 19)) with (10000000000000000000 # 1)%Q. lra. }
    cbv zeta in W, Hb. fold x in W, Hb. fold B in W, Hb.
    set (w := nearest (Qabs x * inject_Z B)) in *. rewrite Ax in Hb.
    assert (Em : minus x = []) by (unfold minus; apply Qle_bool_iff in X0; now rewrite X0). rewrite Em in W. cbn [app] in W.
    apply Qabs_Qle_condition in Hb. destruct Hb as [B1 B2].
    assert (W1 : v < w) by (rewrite Zlt_Qlt; lra).
    assert (W2 : w < v + 2) by (rewrite Zlt_Qlt, inject_Z_plus; change (inject_Z 2) with 2%Q; lra).
    replace (v + 1) with w by lia. exact W. }
  split; [exact G|].
  change (zs "JD 2451546") with (jd_mark (1280 + FULL_CTIME_ROUNDING) ++ fixed_text (places (1280 + FULL_CTIME_ROUNDING)) (2451545 + 1)).
  apply (G _ _ _ 2451545 (1 # 10)%Q); [left; reflexivity|reflexivity|lia|reflexivity|reflexivity|reflexivity|lia].
Qed.

Lemma C46_five_digit_year_refuted_proof :
  forall L fmt y, style fmt = 1024 -> places fmt = 0%nat -> 10000 <= y <= 99999 ->
  writes L (inject_Z (y - 2000) * (36525 # 100)) fmt (dec (y / 10)).
Proof.
  intros L fmt y Hs Hp Hy. set (t := (inject_Z (y - 2000) * (36525 # 100))%Q).
  set (x := ((t + nudge fmt 1) / (36525 # 100) + 2000)%Q).
  assert (Hn : (0 <= nudge fmt 1 <= 1 # 2)%Q).
  { unfold nudge, last_place. rewrite Hp. destruct (has fmt 2097152); split; vm_compute; discriminate. }
  assert (Ex : (x == inject_Z y + nudge fmt 1 * (100 # 36525))%Q).
  { unfold x, t. unfold Z.sub. rewrite inject_Z_plus. change (inject_Z (- 2000)) with (- (2000))%Q. unfold Qdiv. change (/ (36525 # 100))%Q with (100 # 36525)%Q. setoid_replace (((inject_Z y + - (2000)) * (36525 # 100) + nudge fmt 1) * (100 # 36525) + 2000)%Q with ((inject_Z y - 2000) * ((36525 # 100) * (100 # 36525)) + nudge fmt 1 * (100 # 36525) + 2000)%Q by ring. setoid_replace ((36525 # 100) * (100 # 36525))%Q with 1%Q by reflexivity. ring. }
  destruct Hn as [N0 N1].
  assert (Y0 : (10000 <= inject_Z y)%Q) by (change 10000%Q with (inject_Z 10000); rewrite <- Zle_Qle; lia).
  assert (Y1 : (inject_Z y <= 99999)%Q) by (change 99999%Q with (inject_Z 99999); rewrite <- Zle_Qle; lia).
  assert (X0 : (0 <= x)%Q) by lra. assert (Ax : (Qabs x == x)%Q) by (now apply Qabs_pos).
  destruct (fixed_ok 16 x ltac:(lia)) as (v & E & Hv & Hb & _). { rewrite Ax. change (inject_Z (10 ^ 19)) with (10000000000000000000 # 1)%Q. lra. }
  rewrite Ax in Hb. change (10 ^ Z.of_nat 16) with 10000000000000000 in *. change (inject_Z 10000000000000000) with (10000000000000000 # 1)%Q in Hb.
  apply Qabs_Qle_condition in Hb. destruct Hb as [B1 B2].
  assert (Em : minus x = []) by (unfold minus; apply Qle_bool_iff in X0; now rewrite X0). rewrite Em in E. cbn [app] in E.
  assert (Ey : v / 10000000000000000 = y).
  { symmetry. apply (Z.div_unique v 10000000000000000 y (v - y * 10000000000000000)); [left|ring].
    assert (y * 10000000000000000 <= v). { apply Z.lt_succ_r. rewrite Zlt_Qlt. unfold Z.succ. rewrite inject_Z_plus, inject_Z_mult. change (inject_Z 10000000000000000) with (10000000000000000 # 1)%Q. change (inject_Z 1) with 1%Q. lra. }
    assert (v < y * 10000000000000000 + 10000000000000000). { rewrite Zlt_Qlt, inject_Z_plus, inject_Z_mult. change (inject_Z 10000000000000000) with (10000000000000000 # 1)%Q. lra. }
    lia. }
  destruct (fixed_text_facts 16 v ltac:(change (10 ^ Z.of_nat 16) with 10000000000000000; lia) ltac:(lia)) as [Lf Nf].
  assert (Ef : fixed 16 x = dec y ++ 46 :: ndig 16 v).
  { rewrite E. unfold fixed_text. change (10 ^ Z.of_nat 16) with 10000000000000000. rewrite Ey. cbn [decimals].
    rewrite (ndig_mod 16 v). reflexivity. }
  destruct (dec_cut y Hy) as [D1 D2].
  assert (D3 : firstn 4 (fixed 16 x) = dec (y / 10)) by (rewrite Ef, firstn_app, D2; cbn [Nat.sub firstn]; rewrite app_nil_r; exact D1).
  assert (Y10 : 0 <= y / 10 < 10 ^ 20) by (split; [apply Z.div_pos; lia|apply Z.div_lt_upper_bound; lia]).
  destruct (DesigBase.dec_ok (y / 10) Y10) as (Dd & _ & Dn).
  destruct (dec (y / 10)) as [|c0 cs] eqn:Ed; [congruence|].
  assert (C0 : c0 <> 32) by (intros ->; specialize (Dd 32 (or_introl eq_refl)); discriminate Dd).
  apply (year_writes L t fmt c0 0 cs Hs); fold x; [rewrite E; lia|rewrite E; exact Nf| |exact C0].
  rewrite Hp. cbn [Nat.eqb]. replace (21 - List.length (fixed 16 x))%nat with 0%nat by (rewrite Ef, app_length; cbn [List.length]; rewrite ndig_length; lia).
  cbn [repeat app]. rewrite D3. reflexivity.
Qed.

Lemma C46_no_zeroes_refuted_proof :
  forall now ph,
  (exists T u, writes LMAX64 3657 FULL_CTIME_MONTH_DAY (zs "Jan  5 2010 12:00:00") /\
     reads LMAX64 now ph 0 (zs "Jan  5 2010 12:00:00") FULL_CTIME_MONTH_DAY T u /\ (T < - (700000))%Q) /\
  (exists T u, writes LMAX64 3657 (FULL_CTIME_YEAR_FIRST + FULL_CTIME_MONTH_DAY + FULL_CTIME_MONTHS_AS_DIGITS) (zs "2010  1  5 12:00:00") /\
     reads LMAX64 now ph 0 (zs "2010  1  5 12:00:00") (FULL_CTIME_YEAR_FIRST + FULL_CTIME_MONTH_DAY + FULL_CTIME_MONTHS_AS_DIGITS) T u /\ (T == 3653)%Q).
Proof.
  intros now ph.
  assert (W : forall fmt s, per_day fmt 86400 -> calendar_of fmt = 0 -> places fmt = 0%nat -> has fmt 2097152 = false -> has fmt 65536 = false -> style fmt = 0 ->
    (forall j0 k, 0 <= k - 43200 < 1 -> j0 = 2455197 -> whole_text fmt 2455202 j0 5 1 2010 k = s) -> writes LMAX64 3657 fmt s).
  { intros fmt s Hn Hc Hp Hr H2 Hs HW.
    assert (EN : (nudge fmt 86400 == 1 # 1728000)%Q) by (unfold nudge; rewrite Hr, Hp; reflexivity).
    assert (EJ : day_of (3657 + nudge fmt 86400) = 2455202).
    { unfold day_of. rewrite (Qfloor_comp _ ((6319296001 # 1728000) + (1 # 2))%Q) by (rewrite EN; reflexivity). vm_compute. reflexivity. }
    destruct (C46_text_proof LMAX64 3657 fmt 86400 5 1 2010 long64 Hn) as (j1 & k & E1 & Wr & Hk & S1 & S2).
    - left. rewrite Hc. unfold rule_cal. tauto.
    - rewrite EJ. apply jd_eval. reflexivity.
    - rewrite EJ, Hc. apply run_eval; [unfold rule_cal; tauto|apply jd_eval; reflexivity|vm_compute; reflexivity].
    - intros _. split; [lia|]. split; [lia|]. split; [lia|]. rewrite Hs. discriminate.
    - rewrite EJ in Wr, S1, S2. rewrite HW in Wr; [exact Wr| |].
      + unfold shown in S1, S2. rewrite EN in S1, S2. unfold last_place in S1, S2. rewrite Hp in S1, S2.
        change (86400 * 10 ^ Z.of_nat 0) with 86400 in *. change (2455202 - 2451545) with 3657 in *.
        change (1 / inject_Z 86400)%Q with (1 # 86400)%Q in *. change (inject_Z 3657) with 3657%Q in *.
        assert (A1 : (inject_Z k < 43201)%Q) by lra. assert (A2 : (43199 < inject_Z k)%Q) by lra.
        change 43201%Q with (inject_Z 43201) in A1. change 43199%Q with (inject_Z 43199) in A2. rewrite <- Zlt_Qlt in A1, A2. lia.
      + rewrite Hc in E1. assert (E2 : dmy_to_day LMAX64 1 1 2010 0 = Ret 2455198) by (vm_compute; reflexivity). rewrite E2 in E1. injection E1 as <-. reflexivity. }
  split; eexists _, _.
  - split; [apply W; try reflexivity; [vm_compute; tauto|]; intros j0 k Hk ->; replace k with 43200 by lia; vm_compute; reflexivity|].
    split; [concrete; eexists; (split; [vm_compute; reflexivity|]); reflexivity|]. vm_compute. reflexivity.
  - split; [apply W; try reflexivity; [vm_compute; tauto|]; intros j0 k Hk ->; replace k with 43200 by lia; vm_compute; reflexivity|].
    split; [concrete; eexists; (split; [vm_compute; reflexivity|]); reflexivity|]. vm_compute. reflexivity.
Qed.
