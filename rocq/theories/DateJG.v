(** The combined Julian/Gregorian calendar, error reporting, and the Chinese
    calendar's missing days. *)
From Coq Require Import Lia ZifyBool.
From Verif Require Import CBase CLemmas ChineseData DateModel DatePure
  DatePureIslRev DatePurePersian DatePureHebrew DateRound DateChart DateSpec DateFacts DateCount.

(* ---------- Julian/Gregorian ---------- *)
Lemma jg_day_to_dmy L fuel ic m0 jd :
  day_to_dmy_st L fuel ic m0 jd CALENDAR_JULIAN_GREGORIAN
  = day_to_dmy_st L fuel ic m0 jd (if 2299160 <? jd then CALENDAR_GREGORIAN else CALENDAR_JULIAN).
Proof.
  unfold day_to_dmy_st, GREGORIAN_SWITCHOVER_JD.
  change (CALENDAR_JULIAN_GREGORIAN =? CALENDAR_JULIAN_GREGORIAN) with true. cbv iota zeta.
  destruct (2299160 <? jd); reflexivity.
Qed.

Lemma jg_result L jd d m y c : c = (if 2299160 <? jd then CALENDAR_GREGORIAN else CALENDAR_JULIAN) ->
  dmy_result L jd c d m y -> dmy_result L jd CALENDAR_JULIAN_GREGORIAN d m y.
Proof.
  intros -> [N H]. exists N. intros fuel ic m0 Hf. rewrite jg_day_to_dmy. apply H, Hf.
Qed.

Lemma jg_dmy_to_day L d m y :
  dmy_to_day L d m y CALENDAR_JULIAN_GREGORIAN
  = dmy_to_day L d m y (dmy_calendar_to_use d m y CALENDAR_JULIAN_GREGORIAN).
Proof.
  unfold dmy_to_day, dmy_to_day_st, dmy_calendar_to_use.
  change (CALENDAR_JULIAN_GREGORIAN =? CALENDAR_JULIAN_GREGORIAN) with true. cbv iota.
  destruct ((1582 <? y) || (y =? 1582) && ((10 <? m) || (m =? 10) && (5 <? d))); reflexivity.
Qed.

Lemma jg_use_greg d m y : date_lt (5, 10, 1582) (d, m, y) ->
  dmy_calendar_to_use d m y CALENDAR_JULIAN_GREGORIAN = CALENDAR_GREGORIAN.
Proof.
  unfold date_lt, dmy_calendar_to_use. intros H.
  change (CALENDAR_JULIAN_GREGORIAN =? CALENDAR_JULIAN_GREGORIAN) with true. cbv iota.
  destruct ((1582 <? y) || (y =? 1582) && ((10 <? m) || (m =? 10) && (5 <? d))) eqn:E; [reflexivity|lia].
Qed.
Lemma jg_use_jul d m y : ~ date_lt (5, 10, 1582) (d, m, y) ->
  dmy_calendar_to_use d m y CALENDAR_JULIAN_GREGORIAN = CALENDAR_JULIAN.
Proof.
  unfold date_lt, dmy_calendar_to_use. intros H.
  change (CALENDAR_JULIAN_GREGORIAN =? CALENDAR_JULIAN_GREGORIAN) with true. cbv iota.
  destruct ((1582 <? y) || (y =? 1582) && ((10 <? m) || (m =? 10) && (5 <? d))) eqn:E; [lia|reflexivity].
Qed.

Lemma gdom L y : year_ok L y -> year_dom L CALENDAR_GREGORIAN y.
Proof. left. split; [left; reflexivity|assumption]. Qed.
Lemma jdom L y : year_ok L y -> year_dom L CALENDAR_JULIAN y.
Proof. left. split; [right; left; reflexivity|assumption]. Qed.

Lemma dom_year_ok L c y : rule_cal c -> year_dom L c y -> year_ok L y.
Proof.
  intros H [[_ Hy]|[[-> _]|[-> _]]]; [exact Hy| |];
    apply rule_not57 in H; destruct H as (H5 & H7 & _); discriminate.
Qed.

(** A Gregorian date of a day after the switch is after 14 October 1582, etc. *)
Lemma greg_after L d m y : long_ok L -> year_ok L y -> 1 <= m <= 13 ->
  1 <= d <= lenA CALENDAR_GREGORIAN m y ->
  2299160 < dayA CALENDAR_GREGORIAN d m y <-> date_lt (14, 10, 1582) (d, m, y).
Proof.
  intros HL Hy Hm Hd. assert (H0 : year_ok L 1582) by (unfold long_ok, year_ok in *; lia).
  assert (E : dayA CALENDAR_GREGORIAN 14 10 1582 = 2299160) by reflexivity.
  split; intros H.
  - assert (Hc : date_lt (14, 10, 1582) (d, m, y) \/ date_lt (d, m, y) (14, 10, 1582) \/
       (d = 14 /\ m = 10 /\ y = 1582)) by (unfold date_lt; lia).
    destruct Hc as [Hc|[Hc|(-> & -> & ->)]]; [exact Hc| |lia].
    pose proof (dayA_order L CALENDAR_GREGORIAN d m y 14 10 1582 (gdom L y Hy) (gdom L _ H0)
      eq_refl Hm Hd ltac:(lia) ltac:(vm_compute; split; discriminate) Hc). lia.
  - pose proof (dayA_order L CALENDAR_GREGORIAN 14 10 1582 d m y (gdom L _ H0) (gdom L y Hy)
      eq_refl ltac:(lia) ltac:(vm_compute; split; discriminate) Hm Hd H). lia.
Qed.

Lemma jul_before L d m y : long_ok L -> year_ok L y -> 1 <= m <= 13 ->
  1 <= d <= lenA CALENDAR_JULIAN m y ->
  dayA CALENDAR_JULIAN d m y <= 2299160 <-> date_lt (d, m, y) (5, 10, 1582).
Proof.
  intros HL Hy Hm Hd. assert (H0 : year_ok L 1582) by (unfold long_ok, year_ok in *; lia).
  assert (E : dayA CALENDAR_JULIAN 5 10 1582 = 2299161) by reflexivity.
  split; intros H.
  - assert (Hc : date_lt (5, 10, 1582) (d, m, y) \/ date_lt (d, m, y) (5, 10, 1582) \/
       (d = 5 /\ m = 10 /\ y = 1582)) by (unfold date_lt; lia).
    destruct Hc as [Hc|[Hc|(-> & -> & ->)]]; [|exact Hc|lia].
    pose proof (dayA_order L CALENDAR_JULIAN 5 10 1582 d m y (jdom L _ H0) (jdom L y Hy)
      eq_refl ltac:(lia) ltac:(vm_compute; split; discriminate) Hm Hd Hc). lia.
  - pose proof (dayA_order L CALENDAR_JULIAN d m y 5 10 1582 (jdom L y Hy) (jdom L _ H0)
      eq_refl Hm Hd ltac:(lia) ltac:(vm_compute; split; discriminate) H). lia.
Qed.

(** day_to_dmy( ) in the combined calendar. *)
Lemma jg_day_ok L jd : long_ok L -> jd_ok L jd ->
  exists d m y, dmy_result L jd CALENDAR_JULIAN_GREGORIAN d m y /\ year_ok L y /\
    switch_valid (d, m, y) /\ dmy_to_day L d m y CALENDAR_JULIAN_GREGORIAN = Ret jd.
Proof.
  intros HL Hj. destruct (Z.ltb_spec 2299160 jd) as [Hl|Hl].
  - destruct (day_to_dmyA L jd CALENDAR_GREGORIAN HL) as (d & m & y & Hr & Hy & Hm & Hd & E).
    { left. split; [left; reflexivity|exact Hj]. }
    exists d, m, y. pose proof (dom_year_ok L _ y (or_introl eq_refl) Hy) as Hyo.
    split; [apply jg_result with (c := CALENDAR_GREGORIAN); [|exact Hr]|].
    { destruct (Z.ltb_spec 2299160 jd); [reflexivity|lia]. }
    assert (Hlt : date_lt (14, 10, 1582) (d, m, y)) by (apply (greg_after L); try assumption; lia).
    split; [exact Hyo|]. split.
    + right. split; [|exact Hlt]. split; [exact Hm|]. rewrite gregorian_len by exact Hm. exact Hd.
    + rewrite jg_dmy_to_day, jg_use_greg by (unfold date_lt in *; lia).
      pose proof (lenA_bound L _ m y Hy). rewrite dmy_to_dayA by (try assumption; lia). congruence.
  - destruct (day_to_dmyA L jd CALENDAR_JULIAN HL) as (d & m & y & Hr & Hy & Hm & Hd & E).
    { left. split; [right; left; reflexivity|exact Hj]. }
    exists d, m, y. pose proof (dom_year_ok L _ y (or_intror (or_introl eq_refl)) Hy) as Hyo.
    split; [apply jg_result with (c := CALENDAR_JULIAN); [|exact Hr]|].
    { destruct (Z.ltb_spec 2299160 jd); [lia|reflexivity]. }
    assert (Hlt : date_lt (d, m, y) (5, 10, 1582)) by (apply (jul_before L); try assumption; lia).
    split; [exact Hyo|]. split.
    + left. split; [|exact Hlt]. split; [exact Hm|]. rewrite julian_len by exact Hm. exact Hd.
    + rewrite jg_dmy_to_day, jg_use_jul by (unfold date_lt in *; lia).
      pose proof (lenA_bound L _ m y Hy). rewrite dmy_to_dayA by (try assumption; lia). congruence.
Qed.

(** Value of dmy_to_day( ) on the dates in use. *)
Lemma jg_value L d m y : long_ok L -> year_ok L y -> switch_valid (d, m, y) ->
  exists jd, dmy_to_day L d m y CALENDAR_JULIAN_GREGORIAN = Ret jd /\
    ((2299160 < jd /\ jd = dayA CALENDAR_GREGORIAN d m y /\ valid gregorian (d, m, y)) \/
     (jd <= 2299160 /\ jd = dayA CALENDAR_JULIAN d m y /\ valid julian (d, m, y))).
Proof.
  intros HL Hy [[Hv Hlt]|[Hv Hlt]].
  - pose proof Hv as [Hm Hd]. rewrite julian_len in Hd by exact Hm.
    exists (dayA CALENDAR_JULIAN d m y). split.
    + rewrite jg_dmy_to_day, jg_use_jul by (unfold date_lt in *; lia).
      pose proof (lenA_bound L _ m y (jdom L y Hy)).
      apply dmy_to_dayA; try assumption; try lia. apply jdom, Hy.
    + right. split; [|split; [reflexivity|exact Hv]]. apply (jul_before L); assumption.
  - pose proof Hv as [Hm Hd]. rewrite gregorian_len in Hd by exact Hm.
    exists (dayA CALENDAR_GREGORIAN d m y). split.
    + rewrite jg_dmy_to_day, jg_use_greg by (unfold date_lt in *; lia).
      pose proof (lenA_bound L _ m y (gdom L y Hy)).
      apply dmy_to_dayA; try assumption; try lia. apply gdom, Hy.
    + left. split; [|split; [reflexivity|exact Hv]]. apply (greg_after L); assumption.
Qed.

Lemma jg_inj L d1 m1 y1 d2 m2 y2 jd : long_ok L -> year_ok L y1 -> year_ok L y2 ->
  switch_valid (d1, m1, y1) -> switch_valid (d2, m2, y2) ->
  dmy_to_day L d1 m1 y1 CALENDAR_JULIAN_GREGORIAN = Ret jd ->
  dmy_to_day L d2 m2 y2 CALENDAR_JULIAN_GREGORIAN = Ret jd ->
  (d1, m1, y1) = (d2, m2, y2).
Proof.
  intros HL H1 H2 V1 V2 E1 E2.
  destruct (jg_value L _ _ _ HL H1 V1) as (j1 & F1 & C1).
  destruct (jg_value L _ _ _ HL H2 V2) as (j2 & F2 & C2).
  assert (j1 = jd) by congruence. assert (j2 = jd) by congruence. subst j1 j2.
  destruct C1 as [(A1 & B1 & [Hm1 Hd1])|(A1 & B1 & [Hm1 Hd1])];
    destruct C2 as [(A2 & B2 & [Hm2 Hd2])|(A2 & B2 & [Hm2 Hd2])]; try lia.
  - rewrite gregorian_len in Hd1, Hd2 by assumption.
    apply (dayA_inj L CALENDAR_GREGORIAN); try assumption; try reflexivity; try (apply gdom; assumption).
    congruence.
  - rewrite julian_len in Hd1, Hd2 by assumption.
    apply (dayA_inj L CALENDAR_JULIAN); try assumption; try reflexivity; try (apply jdom; assumption).
    congruence.
Qed.

Lemma year_mid_ok L y : year_mid L y -> year_ok L y.
Proof. unfold year_mid, year_ok. lia. Qed.

Lemma rule_jd_ok L c d m y : rule_cal c -> year_mid L y -> 1 <= m <= 13 -> 1 <= d <= lenA c m y ->
  jd_ok L (dayA c d m y).
Proof.
  intros H Hy Hm Hd. assert (Hdom : year_dom L c y) by (left; split; [exact H|apply year_mid_ok, Hy]).
  pose proof (dayA_in_year L c d m y Hdom Hm Hd) as Hb.
  unfold nyA in Hb. destruct (rule_not57 c H) as (E5 & E7 & _). rewrite E5, E7 in Hb.
  pose proof (ny_abs c y H). destruct (rule_shape c y H) as [Hl Hf].
  pose proof (msum_bound _ Hf) as Hs. rewrite Hl in Hs.
  unfold jd_ok, year_mid in *. lia.
Qed.

(** The day after a date in use is in use, and has the next number. *)
Lemma jg_date_round L d m y : long_ok L -> year_mid L y -> switch_valid (d, m, y) ->
  exists jd, dmy_to_day L d m y CALENDAR_JULIAN_GREGORIAN = Ret jd /\
    dmy_result L jd CALENDAR_JULIAN_GREGORIAN d m y.
Proof.
  intros HL Hy Hv. pose proof (year_mid_ok L y Hy) as Hyo.
  destruct (jg_value L _ _ _ HL Hyo Hv) as (jd & F & C). exists jd. split; [exact F|].
  assert (Hj : jd_ok L jd).
  { destruct C as [(_ & -> & [Hm Hd])|(_ & -> & [Hm Hd])].
    - rewrite gregorian_len in Hd by exact Hm. apply rule_jd_ok; try assumption. left; reflexivity.
    - rewrite julian_len in Hd by exact Hm. apply rule_jd_ok; try assumption. right; left; reflexivity. }
  destruct (jg_day_ok L jd HL Hj) as (d' & m' & y' & Hr & Hy' & Hv' & E').
  assert (E : (d, m, y) = (d', m', y')) by (apply (jg_inj L) with (jd := jd); assumption).
  injection E as -> -> ->. exact Hr.
Qed.

(* ---------- errors ---------- *)
Lemma unknown_data L ic y c : ~ (0 <= c <= 5) -> c <> 7 -> c <> 8 ->
  get_calendar_data L ic y c = Ret (DataErr (-1), ic).
Proof.
  intros H7 H8 H9. unfold get_calendar_data, calendar_switch, CALENDAR_GREGORIAN, CALENDAR_JULIAN,
    CALENDAR_HEBREW, CALENDAR_ISLAMIC, CALENDAR_REVOLUTIONARY, CALENDAR_PERSIAN, CALENDAR_CHINESE,
    CALENDAR_MODERN_PERSIAN.
  destruct (Z.eqb_spec c 0); [lia|]. destruct (Z.eqb_spec c 1); [lia|].
  destruct (Z.eqb_spec c 2); [lia|]. destruct (Z.eqb_spec c 3); [lia|].
  destruct (Z.eqb_spec c 4); [lia|]. destruct (Z.eqb_spec c 5); [lia|].
  destruct (Z.eqb_spec c 7); [lia|]. destruct (Z.eqb_spec c 8); [lia|]. reflexivity.
Qed.

Lemma unknown_approx L jd c : ~ (0 <= c <= 5) -> c <> 7 -> c <> 8 -> approx_year L jd c = Ret (-1).
Proof.
  intros H7 H8 H9. unfold approx_year, approx_params, CALENDAR_GREGORIAN, CALENDAR_JULIAN,
    CALENDAR_HEBREW, CALENDAR_ISLAMIC, CALENDAR_REVOLUTIONARY, CALENDAR_PERSIAN, CALENDAR_CHINESE,
    CALENDAR_MODERN_PERSIAN.
  destruct (Z.eqb_spec c 0); [lia|]. destruct (Z.eqb_spec c 1); [lia|].
  destruct (Z.eqb_spec c 2); [lia|]. destruct (Z.eqb_spec c 3); [lia|].
  destruct (Z.eqb_spec c 4); [lia|]. destruct (Z.eqb_spec c 5); [lia|].
  destruct (Z.eqb_spec c 8); [lia|]. destruct (Z.eqb_spec c 7); [lia|]. reflexivity.
Qed.

Lemma unknown_error L jd c : c < 0 \/ 8 < c -> dmy_error L jd c.
Proof.
  intros H. exists 1%nat. intros fuel ic m0 Hf. exists (-1), ic.
  unfold day_to_dmy_st. unfold CALENDAR_JULIAN_GREGORIAN. destruct (Z.eqb_spec c 6); [lia|].
  rewrite unknown_approx by lia. cbn [obind]. destruct fuel as [|fuel]; [lia|]. cbn [year_search].
  rewrite unknown_data by lia. reflexivity.
Qed.

Lemma unknown_zero L d m y c : c < 0 \/ 8 < c -> dmy_to_day L d m y c = Ret 0.
Proof.
  intros H. unfold dmy_to_day, dmy_to_day_st, dmy_calendar_to_use, CALENDAR_JULIAN_GREGORIAN.
  destruct (Z.eqb_spec c 6); [lia|]. rewrite unknown_data by lia. reflexivity.
Qed.

Lemma jal_zero L d m y : long_ok L -> year_ok L y -> y < -1096 \/ 2327 < y ->
  dmy_to_day L d m y CALENDAR_PERSIAN = Ret 0.
Proof.
  intros HL Hy Hr. unfold dmy_to_day, dmy_to_day_st, dmy_calendar_to_use.
  change (CALENDAR_PERSIAN =? CALENDAR_JULIAN_GREGORIAN) with false. cbv iota zeta.
  rewrite jal_data_err by assumption. reflexivity.
Qed.

Lemma jal_error L jd : long_ok L -> jd_ok L jd -> jd < 1547650 \/ 2798239 <= jd ->
  dmy_error L jd CALENDAR_PERSIAN.
Proof.
  intros HL Hj Hr. exists 1%nat. intros fuel ic m0 Hf. exists (apx 5 jd), ic.
  assert (K : known_cal 5) by (right; left; reflexivity).
  unfold day_to_dmy_st. change (CALENDAR_PERSIAN =? CALENDAR_JULIAN_GREGORIAN) with false. cbv iota zeta.
  change CALENDAR_PERSIAN with 5.
  rewrite approx_year_ok by assumption. cbn [obind]. destruct fuel as [|fuel]; [lia|]. cbn [year_search].
  pose proof (apx_bound 5 jd K) as Hb.
  change 5 with CALENDAR_PERSIAN at 2.
  rewrite jal_data_err; [reflexivity|exact HL|unfold year_ok, jd_ok, long_ok in *; lia|].
  destruct Hr as [Hr|Hr].
  - left. pose proof (apx_mono 5 jd 1547649 K ltac:(lia)) as A. change (apx 5 1547649) with (-1097) in A. lia.
  - right. pose proof (apx_mono 5 2798239 jd K ltac:(lia)) as A. change (apx 5 2798239) with 2328 in A. lia.
Qed.

Lemma chin_zero L d m y : long_ok L -> -2147483000 <= y <= 2147483000 -> y < -363 \/ 9636 < y ->
  dmy_to_day L d m y CALENDAR_CHINESE = Ret 0.
Proof.
  intros HL Hy Hr. unfold dmy_to_day, dmy_to_day_st, dmy_calendar_to_use.
  change (CALENDAR_CHINESE =? CALENDAR_JULIAN_GREGORIAN) with false. cbv iota zeta.
  rewrite chin_data_err by (try assumption; lia). reflexivity.
Qed.

Lemma chin_error L jd : long_ok L -> jd_ok L jd -> Z.abs jd <= 700000000000 ->
  jd < 625379 \/ 4277781 <= jd -> dmy_error L jd CALENDAR_CHINESE.
Proof.
  intros HL Hj Hi Hr. exists 2%nat. intros fuel ic m0 Hf.
  assert (K : known_cal 7) by (right; right; reflexivity).
  unfold day_to_dmy_st. change (CALENDAR_CHINESE =? CALENDAR_JULIAN_GREGORIAN) with false. cbv iota zeta.
  change (approx_year L jd CALENDAR_CHINESE) with (approx_year L jd 7).
  rewrite approx_year_ok by assumption. cbn [obind].
  pose proof (apx_bound 7 jd K) as Hb.
  destruct fuel as [|fuel]; [lia|]. destruct fuel as [|fuel]; [lia|].
  assert (Hy : apx 7 jd < -363 \/ 9636 < apx 7 jd \/ (apx 7 jd = -363 /\ jd < 625379) \/
               (apx 7 jd = 9636 /\ 4277781 <= jd)).
  { destruct Hr as [Hr|Hr].
    - pose proof (apx_mono 7 jd 625378 K ltac:(lia)) as A. change (apx 7 625378) with (-363) in A. lia.
    - pose proof (apx_mono 7 4277781 jd K ltac:(lia)) as A. change (apx 7 4277781) with 9636 in A. lia. }
  set (y0 := apx 7 jd) in *. clearbody y0.
  destruct Hy as [Hy|[Hy|[[-> Hy]|[-> Hy]]]].
  - exists y0, ic. cbn [year_search]. rewrite chin_data_err by (try assumption; lia). reflexivity.
  - exists y0, ic. cbn [year_search]. rewrite chin_data_err by (try assumption; lia). reflexivity.
  - exists (-364), (chin_ic (-363)). remember (S fuel) as f eqn:Ef. cbn [year_search].
    rewrite chin_data_ok by (try assumption; lia). cbn [obind].
    pose proof chin_ny_0 as E0. destruct (chin_shape (-363) ltac:(lia)) as (_ & _ & S3 & _).
    destruct (Z.ltb_spec jd (chin_ny (-363))); [|lia]. unfold long_ok in HL. ev_step.
    destruct (Z.leb_spec (chin_ny (-363) + msum (chin_months (-363))) jd); [lia|]. cbn [obind orb].
    change (-363 - 1) with (-364). subst f. cbn [year_search].
    rewrite chin_data_err by (unfold long_ok; lia). reflexivity.
  - exists 9637, (chin_ic 9636). remember (S fuel) as f eqn:Ef. cbn [year_search].
    rewrite chin_data_ok by (try assumption; lia). cbn [obind].
    pose proof chin_ny_last as E0. destruct (chin_shape 9636 ltac:(lia)) as (_ & _ & S3 & _).
    destruct (Z.ltb_spec jd (chin_ny 9636)); [lia|]. cbn [obind].
    destruct (Z.leb_spec (chin_ny 9636 + msum (chin_months 9636)) jd); [|lia].
    unfold long_ok in HL. ev_step. cbn [orb].
    change (9636 + 1) with 9637. subst f. cbn [year_search].
    rewrite chin_data_err by (unfold long_ok; lia). reflexivity.
Qed.

(* ---------- the days day_to_dmy( ) never finds ---------- *)
Lemma chin_gap_search L g : long_ok L -> -363 <= g <= 9635 -> chin_gap g = true ->
  forall fuel ic, let jd := chin_ny g + msum (chin_months g) in
    year_search L fuel ic jd g CALENDAR_CHINESE = Fuel /\
    year_search L fuel ic jd (g + 1) CALENDAR_CHINESE = Fuel.
Proof.
  intros HL Hg Hgap. cbv zeta. induction fuel as [|fuel IH]; intros ic; [split; reflexivity|].
  pose proof (chin_link_ok g Hg) as E. rewrite Hgap in E.
  destruct (chin_shape g ltac:(lia)) as (_ & _ & A & _).
  destruct (chin_shape (g + 1) ltac:(lia)) as (_ & _ & B & _).
  unfold long_ok in HL. split; cbn [year_search].
  - rewrite chin_data_ok by (unfold long_ok; lia). cbn [obind].
    destruct (Z.ltb_spec (chin_ny g + msum (chin_months g)) (chin_ny g)); [lia|]. cbn [obind].
    rewrite Z.leb_refl. ev_step. cbn [orb]. apply IH.
  - rewrite chin_data_ok by (unfold long_ok; lia). cbn [obind].
    destruct (Z.ltb_spec (chin_ny g + msum (chin_months g)) (chin_ny (g + 1))); [|lia]. ev_step.
    destruct (Z.leb_spec (chin_ny (g + 1) + msum (chin_months (g + 1)))
                (chin_ny g + msum (chin_months g))); [lia|]. cbn [obind orb].
    replace (g + 1 - 1) with g by lia. apply IH.
Qed.
