(** Proofs of the theorems stated in [PropDates]. *)
From Coq Require Import Lia ZifyBool.
From Verif Require Import CBase CLemmas ChineseData DateModel DatePure
  DatePureIslRev DatePurePersian DatePureHebrew DateRound DateChart DateSpec DateFacts
  DateCount DateJG DateHebSpec DateMore.

Lemma days_jg_len L m y : long_ok L -> year_ok L y -> 1 <= m <= 13 ->
  days_in_month L m y CALENDAR_JULIAN_GREGORIAN
  = Ret (if (1582 <? y) || ((y =? 1582) && (10 <? m)) then gregorian m y else julian m y).
Proof.
  intros HL Hy Hm.
  assert (E : days_in_month L m y CALENDAR_JULIAN_GREGORIAN =
    days_in_month L m y (if (1582 <? y) || ((y =? 1582) && (10 <? m))
      then CALENDAR_GREGORIAN else CALENDAR_JULIAN)).
  { unfold days_in_month, dmy_to_day, dmy_to_day_st, dmy_calendar_to_use.
    change (CALENDAR_JULIAN_GREGORIAN =? CALENDAR_JULIAN_GREGORIAN) with true. cbv iota.
    change (5 <? RETURN_DAYS_IN_MONTH) with false. rewrite andb_false_r, orb_false_r.
    destruct ((1582 <? y) || ((y =? 1582) && (10 <? m))); reflexivity. }
  rewrite E. destruct ((1582 <? y) || ((y =? 1582) && (10 <? m))).
  - rewrite gregorian_len by assumption. apply days_in_monthA; [exact HL|apply gdom, Hy|exact Hm].
  - rewrite julian_len by assumption. apply days_in_monthA; [exact HL|apply jdom, Hy|exact Hm].
Qed.

Lemma lenA_le31 c m y : rule_cal c -> lenA c m y <= 31.
Proof.
  intros H. destruct (months_shape c y H) as [Hl Hf]. unfold lenA, msA.
  destruct (rule_not57 c H) as (-> & -> & _).
  destruct (Nat.lt_ge_cases (Z.to_nat (m - 1)) 13) as [Hn|Hn].
  - rewrite Forall_forall in Hf.
    assert (In (nth (Z.to_nat (m - 1)) (months_of c y) 0) (months_of c y)) as Hin by (apply nth_In; lia).
    specialize (Hf _ Hin). cbv beta in Hf. lia.
  - rewrite nth_overflow by lia. lia.
Qed.

Lemma lenA_13 c y : rule_cal c -> c <> CALENDAR_HEBREW -> c <> CALENDAR_REVOLUTIONARY -> lenA c 13 y = 0.
Proof.
  intros H H1 H2. rewrite <- rule_of_len by (try assumption; lia).
  rule_cases H; try contradiction; reflexivity.
Qed.

(** What is known of a result in the domain of a single calendar. *)
Lemma result_facts L jd c d m y : long_ok L -> day_dom L c jd -> dmy_result L jd c d m y ->
  year_dom L c y /\ 1 <= m <= 13 /\ 1 <= d <= lenA c m y /\ dayA c d m y = jd.
Proof.
  intros HL Hd Hr. destruct (day_to_dmyA L jd c HL Hd) as (d' & m' & y' & Hr' & F).
  pose proof (dmy_result_unique L jd c d m y d' m' y' Hr Hr') as E. inversion E; subst. exact F.
Qed.
Lemma result_back L jd c d m y : long_ok L -> day_dom L c jd -> dmy_result L jd c d m y ->
  dmy_to_day L d m y c = Ret jd.
Proof.
  intros HL Hd Hr. destruct (result_facts L jd c d m y HL Hd Hr) as (Hy & Hm & Hdd & E).
  pose proof (lenA_bound L c m y Hy). rewrite dmy_to_dayA; try assumption; try lia. congruence.
Qed.

(** A valid date comes back, in a single calendar. *)
Lemma date_back L c d m y : long_ok L -> year_dom L c y -> overlapA c y = false ->
  (rule_cal c -> overlapA c (y - 1) = false) ->
  1 <= m <= 13 -> 1 <= d <= lenA c m y -> day_dom L c (dayA c d m y) ->
  (c = CALENDAR_PERSIAN -> y <= 2326) ->
  dmy_to_day L d m y c = Ret (dayA c d m y) /\ dmy_result L (dayA c d m y) c d m y.
Proof.
  intros HL Hy Ho Ho1 Hm Hd Hdom H5.
  pose proof (lenA_bound L c m y Hy) as Hb.
  split; [apply dmy_to_dayA; try assumption; lia|].
  destruct (day_to_dmyA L _ c HL Hdom) as (d' & m' & y' & Hr & Hy' & Hm' & Hd' & E).
  assert (Ho' : overlapA c y' = false).
  { destruct (overlapA c y') eqn:Eo; [|reflexivity]. exfalso.
    (* the result lies in an overlapping year: it would have to be the year before *)
    assert (A := dayA_in_year L c d m y Hy Hm Hd).
    assert (B := dayA_in_year L c d' m' y' Hy' Hm' Hd'). rewrite E in B.
    unfold overlapA in Eo. apply orb_prop in Eo. destruct Eo as [Eo|Eo].
    - unfold odd_year in Eo. apply andb_prop in Eo. destruct Eo as [Ec Eo].
      apply Z.eqb_eq in Ec. assert (Hc : rule_cal c) by (subst c; unfold rule_cal; tauto).
      specialize (Ho1 Hc). unfold overlapA, odd_year in Ho1, Ho. subst c.
      change (CALENDAR_HEBREW =? CALENDAR_HEBREW) with true in *.
      change (CALENDAR_HEBREW =? 5) with false in *. cbn [andb] in *. rewrite orb_false_r in *.
      change (nyA CALENDAR_HEBREW y) with (heb_ny y) in *.
      change (nyA CALENDAR_HEBREW y') with (heb_ny y') in *.
      change (msum (msA CALENDAR_HEBREW y)) with (fold_right Z.add 0 (heb_months y)) in *.
      change (msum (msA CALENDAR_HEBREW y')) with (fold_right Z.add 0 (heb_months y')) in *.
      pose proof (heb_months_sum y) as S1. pose proof (heb_months_sum y') as S2.
      rewrite Ho in S1. rewrite Eo in S2.
      assert (Hne : y' <> y) by (intros ->; congruence).
      assert (Hne1 : y' <> y - 1) by (intros ->; congruence).
      destruct (Z_lt_le_dec y' y) as [Hlt|Hge].
      + pose proof (ny_mono CALENDAR_HEBREW (y' + 1) y Hc ltac:(lia)) as M.
        change (ny_of CALENDAR_HEBREW) with heb_ny in M. lia.
      + destruct (Z.eq_dec (y + 1) y') as [<-|]; [lia|].
        pose proof (ny_mono CALENDAR_HEBREW (y + 1) y' Hc ltac:(lia)) as M.
        change (ny_of CALENDAR_HEBREW) with heb_ny in M. lia.
    - apply andb_prop in Eo. destruct Eo as [Ec Ey]. apply Z.eqb_eq in Ec, Ey.
      subst c y'. specialize (H5 eq_refl).
      assert (year_dom L 5 2327) by exact Hy'.
      destruct (nyA_next L 5 y Hy) as [N _];
        [apply (dom_convex L 5 y 2327); [exact Hy|exact Hy'|lia]|].
      specialize (N Ho). destruct (Z.eq_dec (y + 1) 2327) as [Eq|]; [rewrite Eq in N; lia|].
      assert (year_dom L 5 (y + 1)) by (apply (dom_convex L 5 y 2327); [exact Hy|exact Hy'|lia]).
      pose proof (nyA_mono L 5 (y + 1) 2327 ltac:(assumption) Hy' ltac:(lia)). lia. }
  symmetry in E.
  pose proof (dayA_inj L c d m y d' m' y' Hy Hy' Ho Ho' Hm Hd Hm' Hd' E) as Ei.
  inversion Ei; subst. exact Hr.
Qed.

Lemma nonheb_no_overlap c y : rule_cal c -> c <> CALENDAR_HEBREW -> overlapA c y = false.
Proof.
  intros H Hn. unfold overlapA, odd_year. destruct (rule_not57 c H) as (-> & _ & _).
  destruct (Z.eqb_spec c CALENDAR_HEBREW); [contradiction|reflexivity].
Qed.
Lemma heb_no_overlap mc y : hebrew_month_count mc -> ~ hebrew_edge_year mc y ->
  overlapA CALENDAR_HEBREW y = false.
Proof.
  intros Hc He. unfold overlapA, odd_year. change (CALENDAR_HEBREW =? CALENDAR_HEBREW) with true.
  change (CALENDAR_HEBREW =? 5) with false. cbn [andb]. rewrite orb_false_r.
  destruct (heb_oddb y) eqn:E; [|reflexivity]. exfalso. apply He. apply (heb_edge mc y Hc). exact E.
Qed.

Lemma C01_jd_to_date_and_back_proof :
  forall L jd c, long_ok L -> jd_ok L jd -> rule_cal c \/ c = CALENDAR_JULIAN_GREGORIAN ->
    (exists d m y, dmy_result L jd c d m y) /\
    (forall d m y, dmy_result L jd c d m y -> dmy_to_day L d m y c = Ret jd).
Proof.
  intros L jd c HL Hj [Hc| ->].
  - assert (Hd : day_dom L c jd) by (left; split; assumption). split.
    + destruct (day_to_dmyA L jd c HL Hd) as (d & m & y & Hr & _). eauto.
    + intros d m y. apply result_back; assumption.
  - destruct (jg_day_ok L jd HL Hj) as (d & m & y & Hr & Hy & Hv & E). split; [eauto|].
    intros d' m' y' Hr'. pose proof (dmy_result_unique _ _ _ _ _ _ _ _ _ Hr' Hr) as Ei.
    inversion Ei; subst. exact E.
Qed.

Lemma C01_jalali_proof :
  forall L jd, long_ok L -> 1547650 <= jd < 2798239 ->
    (exists d m y, dmy_result L jd CALENDAR_PERSIAN d m y) /\
    (forall d m y, dmy_result L jd CALENDAR_PERSIAN d m y ->
       dmy_to_day L d m y CALENDAR_PERSIAN = Ret jd).
Proof.
  intros L jd HL Hj. assert (Hd : day_dom L CALENDAR_PERSIAN jd) by (right; left; split; [reflexivity|exact Hj]).
  split.
  - destruct (day_to_dmyA L jd _ HL Hd) as (d & m & y & Hr & _). eauto.
  - intros d m y. apply result_back; assumption.
Qed.

Lemma C02_date_to_jd_and_back_proof :
  forall L c d m y n, long_ok L -> year_mid L y -> rule_cal c -> c <> CALENDAR_HEBREW ->
    1 <= m <= 13 -> days_in_month L m y c = Ret n -> 1 <= d <= n ->
    exists jd, dmy_to_day L d m y c = Ret jd /\ dmy_result L jd c d m y.
Proof.
  intros L c d m y n HL Hy Hc Hh Hm Hn Hd.
  assert (Hyd : year_dom L c y) by (left; split; [exact Hc|apply year_mid_ok, Hy]).
  rewrite (days_in_monthA L m y c HL Hyd Hm) in Hn. inversion Hn; subst n.
  exists (dayA c d m y). apply date_back; try assumption.
  - apply nonheb_no_overlap; assumption.
  - intros _. apply nonheb_no_overlap; assumption.
  - left. split; [exact Hc|]. eapply rule_jd_ok; eassumption.
  - intros ->. apply rule_not57 in Hc. destruct Hc as [Hc _]. discriminate.
Qed.

Lemma C02_switchover_proof :
  forall L d m y, long_ok L -> year_mid L y -> switch_valid (d, m, y) ->
    exists jd, dmy_to_day L d m y CALENDAR_JULIAN_GREGORIAN = Ret jd /\
      dmy_result L jd CALENDAR_JULIAN_GREGORIAN d m y.
Proof.
  intros. apply jg_date_round; assumption.
Qed.

Lemma C02_jalali_proof :
  forall L d m y n, long_ok L -> -1096 <= y <= 2326 -> 1 <= m <= 13 ->
    days_in_month L m y CALENDAR_PERSIAN = Ret n -> 1 <= d <= n ->
    exists jd, dmy_to_day L d m y CALENDAR_PERSIAN = Ret jd /\ dmy_result L jd CALENDAR_PERSIAN d m y.
Proof.
  intros L d m y n HL Hy Hm Hn Hd.
  assert (Hyd : year_dom L CALENDAR_PERSIAN y) by (right; left; split; [reflexivity|lia]).
  rewrite (days_in_monthA L m y _ HL Hyd Hm) in Hn. inversion Hn; subst n.
  exists (dayA CALENDAR_PERSIAN d m y).
  assert (Ho : overlapA CALENDAR_PERSIAN y = false).
  { unfold overlapA, odd_year. change (CALENDAR_PERSIAN =? CALENDAR_HEBREW) with false.
    change (CALENDAR_PERSIAN =? 5) with true. cbn [andb orb]. destruct (Z.eqb_spec y 2327); [lia|reflexivity]. }
  apply date_back; try assumption.
  - intros Hc. apply rule_not57 in Hc. destruct Hc as [Hc _]. discriminate.
  - right; left. split; [reflexivity|].
    pose proof (dayA_in_year L _ d m y Hyd Hm Hd) as A.
    change (nyA CALENDAR_PERSIAN y) with (jal_ny y) in A. change (msA CALENDAR_PERSIAN y) with (jal_months y) in A.
    destruct (jal_shape y ltac:(lia)) as (_ & _ & _ & J & _). rewrite <- J in A by lia.
    assert (Hmono : forall a b, -1096 <= a -> b <= 2328 -> a < b -> jal_ny a < jal_ny b).
    { apply range_mono. intros z Hz. pose proof (jal_step2 z ltac:(lia)). lia. }
    assert (E1 : jal_ny (-1096) = 1547650) by reflexivity.
    assert (E2 : jal_ny 2328 = 2798239) by reflexivity.
    pose proof (Hmono (y + 1) 2328 ltac:(lia) ltac:(lia) ltac:(lia)).
    destruct (Z.eq_dec y (-1096)) as [->|]; [lia|]. pose proof (Hmono (-1096) y ltac:(lia) ltac:(lia) ltac:(lia)). lia.
  - lia.
Qed.

Lemma C02_jalali_last_year_refuted_proof :
  days_in_month LMAX64 12 2327 CALENDAR_PERSIAN = Ret 126 /\
  exists jd, dmy_to_day LMAX64 30 12 2327 CALENDAR_PERSIAN = Ret jd /\ dmy_error LMAX64 jd CALENDAR_PERSIAN.
Proof.
  split; [vm_compute; reflexivity|].
  exists 2798239. split; [vm_compute; reflexivity|].
  apply jal_error; [unfold long_ok, LMAX64; lia|unfold jd_ok, LMAX64; lia|lia].
Qed.

Lemma C02_hebrew_partial_proof :
  forall L mc d m y n, long_ok L -> year_mid L y -> hebrew_month_count mc ->
    ~ hebrew_edge_year mc y -> ~ hebrew_edge_year mc (y - 1) -> 1 <= m <= 13 ->
    days_in_month L m y CALENDAR_HEBREW = Ret n -> 1 <= d <= n ->
    exists jd, dmy_to_day L d m y CALENDAR_HEBREW = Ret jd /\ dmy_result L jd CALENDAR_HEBREW d m y.
Proof.
  intros L mc d m y n HL Hy Hmc He He1 Hm Hn Hd.
  assert (Hc : rule_cal CALENDAR_HEBREW) by (unfold rule_cal; tauto).
  assert (Hyd : year_dom L CALENDAR_HEBREW y) by (left; split; [exact Hc|apply year_mid_ok, Hy]).
  rewrite (days_in_monthA L m y _ HL Hyd Hm) in Hn. inversion Hn; subst n.
  exists (dayA CALENDAR_HEBREW d m y). apply date_back; try assumption.
  - eapply heb_no_overlap; eassumption.
  - intros _. eapply heb_no_overlap; eassumption.
  - left. split; [exact Hc|]. eapply rule_jd_ok; eassumption.
  - discriminate.
Qed.

Lemma C02_hebrew_case_proof : exists mc, hebrew_month_count mc /\
  ~ hebrew_edge_year mc 5785 /\ ~ hebrew_edge_year mc 5784.
Proof.
  exists heb_lunations. split; [exact month_count_exists|].
  split; intros [_ E]; vm_compute in E; discriminate.
Qed.

Lemma C02_hebrew_refuted_proof :
  exists jd, dmy_to_day LMAX64 1 1 193152 CALENDAR_HEBREW = Ret jd /\
    days_in_month LMAX64 1 193152 CALENDAR_HEBREW = Ret 30 /\
    dmy_result LMAX64 jd CALENDAR_HEBREW 28 13 193151.
Proof.
  exists 70895760. split; [vm_compute; reflexivity|]. split; [vm_compute; reflexivity|].
  assert (Hd : day_dom LMAX64 CALENDAR_HEBREW 70895760).
  { left. split; [unfold rule_cal; tauto|unfold jd_ok, LMAX64; lia]. }
  destruct (day_to_dmyA LMAX64 _ _ ltac:(unfold long_ok, LMAX64; lia) Hd) as (d & m & y & Hr & _).
  destruct (result_of_run LMAX64 CALENDAR_HEBREW 70895760 10 0 0 28 13 193151 0 d m y) as (-> & -> & ->);
    [vm_compute; reflexivity|exact Hr|exact Hr].
Qed.

Lemma C03_dates_well_formed_proof :
  forall L jd c d m y, long_ok L -> jd_ok L jd -> rule_cal c \/ c = CALENDAR_JULIAN_GREGORIAN ->
    dmy_result L jd c d m y ->
    1 <= m <= 13 /\ (c <> CALENDAR_HEBREW -> c <> CALENDAR_REVOLUTIONARY -> m <= 12) /\
    exists n, days_in_month L m y c = Ret n /\ 1 <= d <= n /\ n <= 31.
Proof.
  intros L jd c d m y HL Hj [Hc| ->] Hr.
  - assert (Hd : day_dom L c jd) by (left; split; assumption).
    destruct (result_facts L jd c d m y HL Hd Hr) as (Hy & Hm & Hdd & _).
    split; [exact Hm|]. split.
    + intros H1 H2. destruct (Z.eq_dec m 13) as [->|]; [|lia].
      rewrite lenA_13 in Hdd by assumption. lia.
    + exists (lenA c m y). split; [apply days_in_monthA; assumption|]. split; [exact Hdd|apply lenA_le31, Hc].
  - destruct (jg_day_ok L jd HL Hj) as (d' & m' & y' & Hr' & Hy & Hv & E).
    pose proof (dmy_result_unique _ _ _ _ _ _ _ _ _ Hr' Hr) as Ei. inversion Ei; subst d' m' y'. clear Ei Hr'.
    assert (Hb : 1 <= m <= 13 /\ 1 <= d <= 31 /\ m <= 12 /\
      d <= (if (1582 <? y) || ((y =? 1582) && (10 <? m)) then gregorian m y else julian m y)).
    { destruct Hv as [[[Hm Hd] Ho]|[[Hm Hd] Ho]]; unfold date_lt in Ho.
      - assert (m <> 13) by (intros ->; cbn in Hd; lia).
        assert (Hle : julian m y <= 31) by (rewrite julian_len by exact Hm; apply lenA_le31; unfold rule_cal; tauto).
        split; [exact Hm|]. split; [lia|]. split; [lia|].
        replace ((1582 <? y) || ((y =? 1582) && (10 <? m))) with false by lia. lia.
      - assert (m <> 13) by (intros ->; cbn in Hd; lia).
        assert (Hle : gregorian m y <= 31) by (rewrite gregorian_len by exact Hm; apply lenA_le31; unfold rule_cal; tauto).
        split; [exact Hm|]. split; [lia|]. split; [lia|].
        destruct ((1582 <? y) || ((y =? 1582) && (10 <? m))) eqn:Eb; [lia|].
        assert (y = 1582 /\ m = 10) as [-> ->] by lia. change (julian 10 1582) with 31. lia. }
    destruct Hb as (Hm & Hd & Hm2 & Hle). split; [exact Hm|]. split; [intros; lia|].
    exists (if (1582 <? y) || ((y =? 1582) && (10 <? m)) then gregorian m y else julian m y).
    split; [apply days_jg_len; assumption|]. split; [lia|].
    destruct ((1582 <? y) || ((y =? 1582) && (10 <? m)));
      [rewrite gregorian_len by exact Hm|rewrite julian_len by exact Hm]; apply lenA_le31; unfold rule_cal; tauto.
Qed.

Lemma C03_charts_well_formed_proof :
  forall L jd c d m y, long_ok L ->
    (c = CALENDAR_PERSIAN /\ 1547650 <= jd < 2798239) \/
    (c = CALENDAR_CHINESE /\ 625379 <= jd < 4277781) ->
    dmy_result L jd c d m y ->
    1 <= m <= 13 /\ exists n, days_in_month L m y c = Ret n /\ 1 <= d <= n /\
      (y <> 2327 -> n <= 31).
Proof.
  intros L jd c d m y HL Hd Hr.
  assert (Hdom : day_dom L c jd).
  { destruct Hd as [[-> H]|[-> H]]; [right; left; split; [reflexivity|exact H]|].
    right; right. split; [reflexivity|]. split; [exact H|]. intros Hin.
    pose proof (chin_lost L jd HL Hin) as Hf. destruct Hr as [N HN].
    destruct (HN N 0 0 ltac:(lia)) as (ic' & E). rewrite Hf in E. discriminate. }
  destruct (result_facts L jd c d m y HL Hdom Hr) as (Hy & Hm & Hdd & _).
  split; [exact Hm|]. exists (lenA c m y). split; [apply days_in_monthA; assumption|]. split; [exact Hdd|].
  intros Hn. destruct Hd as [[-> H]|[-> H]].
  - destruct Hy as [[Hc _]|[[_ Hy]|[Hc _]]]; [apply rule_not57 in Hc; destruct Hc; discriminate| |discriminate].
    change (lenA CALENDAR_PERSIAN m y) with (nth (Z.to_nat (m - 1)) (jal_months y) 0).
    pose proof (jal_step2 y Hy). unfold jal_months. destruct (Z.eqb_spec y 2327); [lia|].
    generalize dependent (jal_ny (y + 1) - jal_ny y). intros k Hk.
    month_cases m Hm;
      match goal with |- context [nth (Z.to_nat ?j) ?l 0] => let n := eval vm_compute in (Z.to_nat j) in
        change (Z.to_nat j) with n end; cbn [nth]; lia.
  - destruct Hy as [[Hc _]|[[Hc _]|[_ Hy]]]; [apply rule_not57 in Hc; destruct Hc as (_ & Hc & _); discriminate|discriminate|].
    change (lenA CALENDAR_CHINESE m y) with (nth (Z.to_nat (m - 1)) (chin_months y) 0).
    destruct (chin_month_len y m Hy Hm) as [->|[->|(_ & _ & ->)]]; lia.
Qed.

Lemma C04_terminates_proof :
  forall L jd c, long_ok L -> jd_ok L jd -> c <> CALENDAR_CHINESE ->
    (exists d m y, dmy_result L jd c d m y) \/ dmy_error L jd c.
Proof.
  intros L jd c HL Hj Hc.
  destruct (Z_lt_le_dec c 0) as [|H0]; [right; apply unknown_error; lia|].
  destruct (Z_lt_le_dec 8 c) as [|H8]; [right; apply unknown_error; lia|].
  destruct (Z.eq_dec c 5) as [->|N5].
  - assert (Hdec : (1547650 <= jd < 2798239) \/ (jd < 1547650 \/ 2798239 <= jd)) by lia.
    destruct Hdec as [Hin|Hout].
    + left. apply (C01_jalali_proof L jd HL Hin).
    + right. apply jal_error; assumption.
  - left. apply (C01_jd_to_date_and_back_proof L jd c HL Hj).
    unfold rule_cal, CALENDAR_GREGORIAN, CALENDAR_JULIAN, CALENDAR_HEBREW, CALENDAR_ISLAMIC,
      CALENDAR_REVOLUTIONARY, CALENDAR_MODERN_PERSIAN, CALENDAR_JULIAN_GREGORIAN, CALENDAR_CHINESE in *. lia.
Qed.

Lemma C04_chinese_partial_proof :
  forall L jd, long_ok L -> jd_ok L jd -> Z.abs jd <= 700000000000 -> ~ In jd [746276; 801793; 826629; 868267; 882146; 1018016; 1146947; 1425627] ->
    (exists d m y, dmy_result L jd CALENDAR_CHINESE d m y) \/ dmy_error L jd CALENDAR_CHINESE.
Proof.
  intros L jd HL Hj Hb Hn.
  assert (Hdec : (625379 <= jd < 4277781) \/ (jd < 625379 \/ 4277781 <= jd)) by lia.
  destruct Hdec as [Hin|Hout].
  - left. destruct (day_to_dmyA L jd CALENDAR_CHINESE HL) as (d & m & y & Hr & _); [|eauto].
    right; right. split; [reflexivity|]. split; assumption.
  - right. apply chin_error; assumption.
Qed.

Lemma C04_chinese_refuted_proof :
  forall L jd, long_ok L -> In jd [746276; 801793; 826629; 868267; 882146; 1018016; 1146947; 1425627] -> dmy_never_returns L jd CALENDAR_CHINESE.
Proof.
  intros. apply chin_lost; assumption.
Qed.

Lemma C05_gregorian_is_day_count_proof :
  forall f, counts_days gregorian (1, 1, 2000) 2451545 f ->
  forall L d m y, long_ok L -> year_ok L y -> valid gregorian (d, m, y) ->
    dmy_to_day L d m y CALENDAR_GREGORIAN = Ret (f (d, m, y)).
Proof.
  intros f Hf L d m y HL Hy Hv.
  apply (dmy_to_day_is_count L CALENDAR_GREGORIAN f (1, 1, 2000) 2451545); try assumption.
  - unfold rule_cal; tauto.
  - discriminate.
  - vm_compute. intuition congruence.
  - vm_compute. reflexivity.
Qed.

Lemma C05_gregorian_is_day_count_exists_proof :
  exists f, counts_days gregorian (1, 1, 2000) 2451545 f.
Proof.
  exists (dayR CALENDAR_GREGORIAN). split; [vm_compute; reflexivity|].
  apply (rule_counts CALENDAR_GREGORIAN); [unfold rule_cal; tauto|discriminate].
Qed.

Lemma C05_julian_is_day_count_proof :
  forall f, counts_days julian (1, 1, 2000) 2451558 f ->
  forall L d m y, long_ok L -> year_ok L y -> valid julian (d, m, y) ->
    dmy_to_day L d m y CALENDAR_JULIAN = Ret (f (d, m, y)).
Proof.
  intros f Hf L d m y HL Hy Hv.
  apply (dmy_to_day_is_count L CALENDAR_JULIAN f (1, 1, 2000) 2451558); try assumption.
  - unfold rule_cal; tauto.
  - discriminate.
  - vm_compute. intuition congruence.
  - vm_compute. reflexivity.
Qed.

Lemma C05_julian_is_day_count_exists_proof :
  exists f, counts_days julian (1, 1, 2000) 2451558 f.
Proof.
  exists (dayR CALENDAR_JULIAN). split; [vm_compute; reflexivity|].
  apply (rule_counts CALENDAR_JULIAN); [unfold rule_cal; tauto|discriminate].
Qed.

Lemma C06_no_overflow_dmy_to_day_proof :
  forall L d m y c, long_ok L -> year_ok L y -> (c = CALENDAR_CHINESE -> Z.abs y <= 2147483000) ->
    1 <= m <= 13 -> -1000000 <= d <= 1000000 ->
    (exists jd, dmy_to_day L d m y c = Ret jd) /\ (exists n, days_in_month L m y c = Ret n).
Proof.
  intros L d m y c HL Hy H7 Hm Hd.
  assert (G : forall c' d', year_dom L c' y -> -1000000 <= d' <= 1000000 -> exists jd, dmy_to_day L d' m y c' = Ret jd).
  { intros c' d' Hc' Hd'. destruct (Z.eq_dec d' (-999)) as [->|Hn].
    - pose proof (days_in_monthA L m y c' HL Hc' Hm) as E. unfold days_in_month in E.
      destruct (dmy_to_day L RETURN_DAYS_IN_MONTH m y c') as [v| | |] eqn:E1; try discriminate. exists v. exact E1.
    - eexists. apply dmy_to_dayA; assumption. }
  assert (K : forall d', -1000000 <= d' <= 1000000 -> exists jd, dmy_to_day L d' m y c = Ret jd).
  { intros d' Hd'.
    destruct (Z_lt_le_dec c 0) as [|H0]; [exists 0; apply unknown_zero; lia|].
    destruct (Z_lt_le_dec 8 c) as [|H8]; [exists 0; apply unknown_zero; lia|].
    destruct (Z.eq_dec c 6) as [->|N6].
    { rewrite jg_dmy_to_day. unfold dmy_calendar_to_use.
      change (CALENDAR_JULIAN_GREGORIAN =? CALENDAR_JULIAN_GREGORIAN) with true. cbv iota.
      match goal with |- context [if ?t then _ else _] => destruct t end;
        apply G; try exact Hd'; [apply gdom, Hy|apply jdom, Hy]. }
    destruct (Z.eq_dec c 5) as [->|N5].
    { assert (Hdec : (-1096 <= y <= 2327) \/ (y < -1096 \/ 2327 < y)) by lia.
      destruct Hdec as [Hin|Hout]; [apply G; [right; left; split; [reflexivity|exact Hin]|exact Hd']|].
      exists 0. apply jal_zero; assumption. }
    destruct (Z.eq_dec c 7) as [->|N7].
    { specialize (H7 eq_refl).
      assert (Hdec : (-363 <= y <= 9636) \/ (y < -363 \/ 9636 < y)) by lia.
      destruct Hdec as [Hin|Hout]; [apply G; [right; right; split; [reflexivity|exact Hin]|exact Hd']|].
      exists 0. apply chin_zero; try assumption; lia. }
    apply G; [|exact Hd']. left. split; [|exact Hy].
    unfold rule_cal, CALENDAR_GREGORIAN, CALENDAR_JULIAN, CALENDAR_HEBREW, CALENDAR_ISLAMIC,
      CALENDAR_REVOLUTIONARY, CALENDAR_MODERN_PERSIAN. lia. }
  split; [apply K, Hd|]. unfold days_in_month.
  destruct (K RETURN_DAYS_IN_MONTH ltac:(unfold RETURN_DAYS_IN_MONTH; lia)) as (v & ->).
  eexists. reflexivity.
Qed.

Lemma C06_no_overflow_day_to_dmy_proof :
  forall L jd c, long_ok L -> jd_ok L jd -> (c = CALENDAR_CHINESE -> Z.abs jd <= 700000000000) ->
    forall fuel ic month0, day_to_dmy_st L fuel ic month0 jd c <> UB.
Proof.
  intros L jd c HL Hj H7 fuel ic m0.
  destruct (Z.eq_dec c CALENDAR_CHINESE) as [->|Hc].
  - destruct (in_dec Z.eq_dec jd [746276; 801793; 826629; 868267; 882146; 1018016; 1146947; 1425627]) as [Hin|Hin].
    + rewrite (chin_lost L jd HL Hin). discriminate.
    + destruct (C04_chinese_partial_proof L jd HL Hj (H7 eq_refl) Hin) as [(d & m & y & Hr)|He];
        [eapply result_no_ub; eassumption|apply error_no_ub; assumption].
  - destruct (C04_terminates_proof L jd c HL Hj Hc) as [(d & m & y & Hr)|He];
      [eapply result_no_ub; eassumption|apply error_no_ub; assumption].
Qed.

Lemma C06_month_out_of_range_refuted_proof :
  dmy_to_day LMAX64 1 15 2000 CALENDAR_GREGORIAN = UB /\
  days_in_month LMAX64 0 2000 CALENDAR_GREGORIAN = UB.
Proof.
  split; vm_compute; reflexivity.
Qed.

Lemma julian_1 y : 0 < julian 1 y. Proof. reflexivity. Qed.
Lemma gregorian_1 y : 0 < gregorian 1 y. Proof. reflexivity. Qed.
Lemma jul_valid_A (L : Z) d m y : valid julian (d, m, y) -> 1 <= m <= 13 /\ 1 <= d <= lenA CALENDAR_JULIAN m y.
Proof. intros [Hm Hd]. rewrite julian_len in Hd by exact Hm. split; assumption. Qed.
Lemma greg_valid_A (L : Z) d m y : valid gregorian (d, m, y) -> 1 <= m <= 13 /\ 1 <= d <= lenA CALENDAR_GREGORIAN m y.
Proof. intros [Hm Hd]. rewrite gregorian_len in Hd by exact Hm. split; assumption. Qed.
Lemma julian_next_day dt : valid julian dt -> dayR CALENDAR_JULIAN (next_date julian dt) = dayR CALENDAR_JULIAN dt + 1.
Proof. apply (rule_counts CALENDAR_JULIAN); [unfold rule_cal; tauto|discriminate]. Qed.
Lemma gregorian_next_day dt : valid gregorian dt -> dayR CALENDAR_GREGORIAN (next_date gregorian dt) = dayR CALENDAR_GREGORIAN dt + 1.
Proof. apply (rule_counts CALENDAR_GREGORIAN); [unfold rule_cal; tauto|discriminate]. Qed.

Lemma switch_next_jul L d m y : long_ok L -> year_ok L y -> year_ok L (y + 1) -> valid julian (d, m, y) ->
  date_lt (d, m, y) (4, 10, 1582) ->
  let '(d', m', y') := next_date julian (d, m, y) in
  switch_valid (d', m', y') /\
  dmy_to_day L d' m' y' CALENDAR_JULIAN_GREGORIAN = Ret (dayA CALENDAR_JULIAN d m y + 1).
Proof.
  intros HL Hy Hy1 Hv Hlt. pose proof (julian_next_day _ Hv) as En.
  pose proof (valid_next julian _ julian_1 Hv) as Hv'.
  destruct (next_date julian (d, m, y)) as [[d' m'] y'] eqn:E. apply next_year in E.
  assert (Hy' : year_ok L y') by (destruct E; subst y'; assumption).
  cbn [dayR] in En.
  destruct (jul_valid_A L _ _ _ Hv) as [Hm Hd]. destruct (jul_valid_A L _ _ _ Hv') as [Hm' Hd'].
  assert (H0 : year_ok L 1582) by (unfold long_ok, year_ok in *; lia).
  assert (Ho : dayA CALENDAR_JULIAN d m y < dayA CALENDAR_JULIAN 4 10 1582).
  { apply (dayA_order L); try assumption; try (apply jdom; assumption); try lia; try reflexivity.
    change (lenA CALENDAR_JULIAN 10 1582) with 31. lia. }
  change (dayA CALENDAR_JULIAN 4 10 1582) with 2299160 in Ho.
  assert (Hl : date_lt (d', m', y') (5, 10, 1582)) by (apply (jul_before L); try assumption; lia).
  split; [left; split; assumption|].
  rewrite jg_dmy_to_day, jg_use_jul by (unfold date_lt in *; lia).
  pose proof (lenA_bound L _ m' y' (jdom L y' Hy')).
  rewrite dmy_to_dayA; [congruence|assumption|apply jdom; assumption|assumption|lia|lia].
Qed.
Lemma switch_next_greg L d m y : long_ok L -> year_ok L y -> year_ok L (y + 1) -> valid gregorian (d, m, y) ->
  date_lt (14, 10, 1582) (d, m, y) ->
  let '(d', m', y') := next_date gregorian (d, m, y) in
  switch_valid (d', m', y') /\
  dmy_to_day L d' m' y' CALENDAR_JULIAN_GREGORIAN = Ret (dayA CALENDAR_GREGORIAN d m y + 1).
Proof.
  intros HL Hy Hy1 Hv Hlt. pose proof (gregorian_next_day _ Hv) as En.
  pose proof (valid_next gregorian _ gregorian_1 Hv) as Hv'.
  destruct (next_date gregorian (d, m, y)) as [[d' m'] y'] eqn:E. apply next_year in E.
  assert (Hy' : year_ok L y') by (destruct E; subst y'; assumption).
  cbn [dayR] in En.
  destruct (greg_valid_A L _ _ _ Hv) as [Hm Hd]. destruct (greg_valid_A L _ _ _ Hv') as [Hm' Hd'].
  assert (Ho : 2299160 < dayA CALENDAR_GREGORIAN d m y) by (apply (greg_after L); assumption).
  assert (Hl : date_lt (14, 10, 1582) (d', m', y')) by (apply (greg_after L); try assumption; lia).
  split; [right; split; assumption|].
  rewrite jg_dmy_to_day, jg_use_greg by (unfold date_lt in *; lia).
  pose proof (lenA_bound L _ m' y' (gdom L y' Hy')).
  rewrite dmy_to_dayA; [congruence|assumption|apply gdom; assumption|assumption|lia|lia].
Qed.

Lemma C07_four_then_fifteen_proof :
  forall L, long_ok L ->
    dmy_to_day L 4 10 1582 CALENDAR_JULIAN_GREGORIAN = Ret 2299160 /\
    dmy_to_day L 15 10 1582 CALENDAR_JULIAN_GREGORIAN = Ret 2299161 /\
    dmy_result L 2299160 CALENDAR_JULIAN_GREGORIAN 4 10 1582 /\
    dmy_result L 2299161 CALENDAR_JULIAN_GREGORIAN 15 10 1582.
Proof.
  intros L HL.
  assert (Hy : year_ok L 1582) by (unfold year_ok, long_ok in *; lia).
  assert (Hym : year_mid L 1582) by (unfold year_mid, long_ok in *; lia).
  assert (V4 : switch_valid (4, 10, 1582)) by (left; vm_compute; intuition congruence).
  assert (V15 : switch_valid (15, 10, 1582)) by (right; vm_compute; intuition congruence).
  destruct (jg_date_round L 4 10 1582 HL Hym V4) as (j4 & E4 & R4).
  destruct (jg_date_round L 15 10 1582 HL Hym V15) as (j15 & E15 & R15).
  assert (A4 : dmy_to_day L 4 10 1582 CALENDAR_JULIAN_GREGORIAN = Ret 2299160).
  { rewrite jg_dmy_to_day. change (dmy_calendar_to_use 4 10 1582 CALENDAR_JULIAN_GREGORIAN) with CALENDAR_JULIAN.
    rewrite dmy_to_dayA; [vm_compute; reflexivity|exact HL|apply jdom, Hy|lia|lia|lia]. }
  assert (A15 : dmy_to_day L 15 10 1582 CALENDAR_JULIAN_GREGORIAN = Ret 2299161).
  { rewrite jg_dmy_to_day. change (dmy_calendar_to_use 15 10 1582 CALENDAR_JULIAN_GREGORIAN) with CALENDAR_GREGORIAN.
    rewrite dmy_to_dayA; [vm_compute; reflexivity|exact HL|apply gdom, Hy|lia|lia|lia]. }
  rewrite A4 in E4. rewrite A15 in E15. inversion E4; inversion E15; subst. tauto.
Qed.

Lemma C07_consecutive_proof :
  forall L d m y jd, long_ok L -> year_ok L y -> year_ok L (y + 1) -> switch_valid (d, m, y) ->
    dmy_to_day L d m y CALENDAR_JULIAN_GREGORIAN = Ret jd ->
    let '(d', m', y') := switch_next (d, m, y) in
    switch_valid (d', m', y') /\ dmy_to_day L d' m' y' CALENDAR_JULIAN_GREGORIAN = Ret (jd + 1).
Proof.
  intros L d m y jd HL Hy Hy1 Hv E.
  destruct (Z.eq_dec y 1582) as [Ey|Ny]; [destruct (Z.eq_dec m 10) as [Em|Nm]; [destruct (Z.eq_dec d 4) as [Ed|Nd]|]|].
  { subst. destruct (C07_four_then_fifteen_proof L HL) as (A & B & _).
    rewrite A in E. inversion E; subst.
    change (switch_next (4, 10, 1582)) with (15, 10, 1582). cbv iota. split; [|exact B].
    right; vm_compute; intuition congruence. }
  all: assert (Hn : ~ (d = 4 /\ m = 10 /\ y = 1582)) by lia.
  all: assert (F : (d =? 4) && (m =? 10) && (y =? 1582) = false) by lia.
  all: unfold switch_next; rewrite F; destruct Hv as [[Hv Hl]|[Hv Hl]].
  all: match type of Hv with
    | valid julian _ =>
        replace ((y <? 1582) || ((y =? 1582) && (m <? 10)) || ((y =? 1582) && (m =? 10) && (d <? 4)))
          with true by (unfold date_lt in Hl; lia);
        destruct (jul_valid_A L _ _ _ Hv) as [Hm Hd];
        rewrite jg_dmy_to_day, jg_use_jul in E by (unfold date_lt in *; lia);
        pose proof (lenA_bound L _ m y (jdom L y Hy));
        rewrite dmy_to_dayA in E by (try assumption; try (apply jdom; assumption); lia);
        inversion E; subst jd;
        apply switch_next_jul; try assumption; unfold date_lt in *; lia
    | valid gregorian _ =>
        replace ((y <? 1582) || ((y =? 1582) && (m <? 10)) || ((y =? 1582) && (m =? 10) && (d <? 4)))
          with false by (unfold date_lt in Hl; lia);
        destruct (greg_valid_A L _ _ _ Hv) as [Hm Hd];
        rewrite jg_dmy_to_day, jg_use_greg in E by (unfold date_lt in *; lia);
        pose proof (lenA_bound L _ m y (gdom L y Hy));
        rewrite dmy_to_dayA in E by (try assumption; try (apply gdom; assumption); lia);
        inversion E; subst jd;
        apply switch_next_greg; assumption
    end.
Qed.

Lemma C07_injective_proof :
  forall L d1 m1 y1 d2 m2 y2 jd, long_ok L -> year_ok L y1 -> year_ok L y2 ->
    switch_valid (d1, m1, y1) -> switch_valid (d2, m2, y2) ->
    dmy_to_day L d1 m1 y1 CALENDAR_JULIAN_GREGORIAN = Ret jd ->
    dmy_to_day L d2 m2 y2 CALENDAR_JULIAN_GREGORIAN = Ret jd ->
    (d1, m1, y1) = (d2, m2, y2).
Proof.
  intros. eapply jg_inj; eassumption.
Qed.

Lemma C07_result_in_use_proof :
  forall L jd, long_ok L -> jd_ok L jd -> exists d m y,
    dmy_result L jd CALENDAR_JULIAN_GREGORIAN d m y /\ switch_valid (d, m, y) /\
    dmy_to_day L d m y CALENDAR_JULIAN_GREGORIAN = Ret jd.
Proof.
  intros L jd HL Hj. destruct (jg_day_ok L jd HL Hj) as (d & m & y & A & B & C & D). eauto 6.
Qed.

Lemma C07_skipped_dates_proof :
  forall L d, long_ok L -> 5 <= d <= 14 ->
    exists jd d' m', dmy_to_day L d 10 1582 CALENDAR_JULIAN_GREGORIAN = Ret jd /\
      ~ switch_valid (d, 10, 1582) /\ switch_valid (d', m', 1582) /\
      dmy_to_day L d' m' 1582 CALENDAR_JULIAN_GREGORIAN = Ret jd.
Proof.
  intros L d HL Hd.
  assert (Hy : year_ok L 1582) by (unfold year_ok, long_ok in *; lia).
  assert (Hj : jd_ok L (if d =? 5 then 2299161 else 2299146 + d)) by (unfold jd_ok, long_ok in *; destruct (d =? 5); lia).
  exists (if d =? 5 then 2299161 else 2299146 + d).
  assert (Hval : dmy_to_day L d 10 1582 CALENDAR_JULIAN_GREGORIAN = Ret (if d =? 5 then 2299161 else 2299146 + d)).
  { rewrite jg_dmy_to_day. unfold dmy_calendar_to_use.
    change (CALENDAR_JULIAN_GREGORIAN =? CALENDAR_JULIAN_GREGORIAN) with true. cbv iota.
    change (1582 <? 1582) with false. change (1582 =? 1582) with true. change (10 <? 10) with false.
    change (10 =? 10) with true. cbn [andb orb].
    destruct (Z.ltb_spec 5 d).
    - rewrite dmy_to_dayA by (try assumption; try (apply gdom, Hy); lia).
      destruct (Z.eqb_spec d 5); [lia|]. unfold dayA.
      change (nyA CALENDAR_GREGORIAN 1582) with 2298874.
      change (msum (firstn (Z.to_nat (10 - 1)) (msA CALENDAR_GREGORIAN 1582))) with 273. f_equal. lia.
    - assert (d = 5) by lia. subst d.
      rewrite dmy_to_dayA by (try assumption; try (apply jdom, Hy); lia). reflexivity. }
  assert (Hns : ~ switch_valid (d, 10, 1582)).
  { intros [[_ Hl]|[_ Hl]]; unfold date_lt in Hl; lia. }
  destruct (Z.eq_dec d 5) as [->|N].
  - exists 15, 10. split; [exact Hval|]. split; [exact Hns|]. split; [right; vm_compute; intuition congruence|].
    apply C07_four_then_fifteen_proof, HL.
  - assert (Hk : exists d' m', dayA CALENDAR_JULIAN d' m' 1582 = 2299146 + d /\ valid julian (d', m', 1582) /\ date_lt (d', m', 1582) (5, 10, 1582)).
    { destruct (Z_lt_le_dec d 11); [exists (20 + d), 9|exists (d - 10), 10]; unfold dayA, valid, date_lt;
        change (nyA CALENDAR_JULIAN 1582) with 2298884;
        change (msum (firstn (Z.to_nat (9 - 1)) (msA CALENDAR_JULIAN 1582))) with 243;
        change (msum (firstn (Z.to_nat (10 - 1)) (msA CALENDAR_JULIAN 1582))) with 273;
        change (julian 9 1582) with 30; change (julian 10 1582) with 31; lia. }
    destruct Hk as (d' & m' & E & Hv & Hl). exists d', m'.
    split; [exact Hval|]. split; [exact Hns|]. split; [left; split; assumption|].
    destruct (jg_value L d' m' 1582 HL Hy ltac:(left; split; assumption)) as (jd & Ej & _).
    rewrite jg_dmy_to_day, jg_use_jul in * by (unfold date_lt in *; lia).
    destruct (jul_valid_A L _ _ _ Hv) as [Hm Hd']. pose proof (lenA_bound L _ m' 1582 (jdom L 1582 Hy)).
    rewrite dmy_to_dayA by (try assumption; try (apply jdom, Hy); lia).
    destruct (Z.eqb_spec d 5); [lia|]. congruence.
Qed.

Lemma C08_new_year_partial_proof :
  forall L mc y, long_ok L -> year_ok L y -> hebrew_month_count mc ->
    molad (mc y) mod parts_per_day <> hms 18 0 ->
    dmy_to_day L 1 1 y CALENDAR_HEBREW
    = Ret (347997 + hebrew_new_year_day (molad (mc y)) (hebrew_leap y) (hebrew_leap (y - 1))).
Proof.
  intros L mc y HL Hy Hmc Hn.
  assert (Hyd : year_dom L CALENDAR_HEBREW y) by (left; split; [unfold rule_cal; tauto|exact Hy]).
  rewrite dmy_to_dayA by (try assumption; lia). rewrite <- (heb_ny_spec mc y Hmc Hn).
  unfold dayA. change (nyA CALENDAR_HEBREW y) with (heb_ny y).
  change (msum (firstn (Z.to_nat (1 - 1)) (msA CALENDAR_HEBREW y))) with 0. f_equal. lia.
Qed.

Lemma C08_case_proof : exists mc, hebrew_month_count mc /\ molad (mc 5785) mod parts_per_day <> hms 18 0 /\
  dmy_to_day LMAX64 1 1 5785 CALENDAR_HEBREW = Ret 2460587.
Proof.
  exists heb_lunations. split; [exact month_count_exists|]. vm_compute. split; [discriminate|reflexivity].
Qed.

Lemma C08_new_year_refuted_proof :
  forall mc, hebrew_month_count mc ->
    dmy_to_day LMAX64 1 1 75795 CALENDAR_HEBREW = Ret 28031512 /\
    347997 + hebrew_new_year_day (molad (mc 75795)) (hebrew_leap 75795) (hebrew_leap 75794) = 28031514.
Proof.
  intros mc Hmc. rewrite (month_count_ok mc 75795 Hmc). split; vm_compute; reflexivity.
Qed.

Lemma C08_weekday_proof :
  forall L y, long_ok L -> year_ok L y ->
    exists jd, dmy_to_day L 1 1 y CALENDAR_HEBREW = Ret jd /\
      jd mod 7 <> 6 /\ jd mod 7 <> 2 /\ jd mod 7 <> 4.
Proof.
  intros L y HL Hy.
  assert (Hyd : year_dom L CALENDAR_HEBREW y) by (left; split; [unfold rule_cal; tauto|exact Hy]).
  exists (heb_ny y). rewrite dmy_to_dayA by (try assumption; lia).
  unfold dayA. change (nyA CALENDAR_HEBREW y) with (heb_ny y).
  change (msum (firstn (Z.to_nat (1 - 1)) (msA CALENDAR_HEBREW y))) with 0.
  split; [f_equal; lia|apply heb_weekday].
Qed.

Lemma C08_year_and_months_partial_proof :
  forall L mc y, long_ok L -> year_ok L y -> year_ok L (y + 1) -> hebrew_month_count mc ->
    ~ hebrew_edge_year mc y ->
    exists a n, dmy_to_day L 1 1 y CALENDAR_HEBREW = Ret a /\
      dmy_to_day L 1 1 (y + 1) CALENDAR_HEBREW = Ret (a + n) /\
      (if hebrew_leap y then 383 <= n <= 385 else 353 <= n <= 355) /\
      (forall m, 1 <= m <= 13 ->
         days_in_month L m y CALENDAR_HEBREW = Ret (hebrew_month (hebrew_leap y) n m)) /\
      fold_right Z.add 0 (map (hebrew_month (hebrew_leap y) n) [1; 2; 3; 4; 5; 6; 7; 8; 9; 10; 11; 12; 13]) = n.
Proof.
  intros L mc y HL Hy Hy1 Hmc He.
  assert (Hc : rule_cal CALENDAR_HEBREW) by (unfold rule_cal; tauto).
  assert (Hyd : year_dom L CALENDAR_HEBREW y) by (left; split; assumption).
  assert (Hyd1 : year_dom L CALENDAR_HEBREW (y + 1)) by (left; split; assumption).
  assert (Ho : heb_oddb y = false).
  { destruct (heb_oddb y) eqn:E; [|reflexivity]. exfalso. apply He. apply (heb_edge mc y Hmc). exact E. }
  exists (heb_ny y), (heb_ny (y + 1) - heb_ny y).
  rewrite !dmy_to_dayA by (try assumption; lia).
  unfold dayA. change (nyA CALENDAR_HEBREW) with heb_ny.
  change (msum (firstn (Z.to_nat (1 - 1)) (msA CALENDAR_HEBREW y))) with 0.
  change (msum (firstn (Z.to_nat (1 - 1)) (msA CALENDAR_HEBREW (y + 1)))) with 0.
  split; [f_equal; lia|]. split; [f_equal; lia|].
  pose proof (heb_step y Ho) as Hs. rewrite hebrew_leap_ok.
  split; [unfold heb_len_ok in Hs; destruct (heb_leapb y); lia|].
  split.
  - intros m Hm. rewrite days_in_monthA by assumption.
    rewrite heb_month_len by assumption. rewrite hebrew_leap_ok. reflexivity.
  - unfold heb_len_ok in Hs. set (n := heb_ny (y + 1) - heb_ny y) in *. clearbody n.
    assert (Hn : n = 353 \/ n = 354 \/ n = 355 \/ n = 383 \/ n = 384 \/ n = 385) by (destruct (heb_leapb y); lia).
    destruct Hn as [->|[->|[->|[->|[->| ->]]]]]; destruct (heb_leapb y); try discriminate; reflexivity.
Qed.

Lemma C08_edge_years_refuted_proof :
  forall L mc y, long_ok L -> year_ok L y -> year_ok L (y + 1) -> hebrew_month_count mc ->
    hebrew_edge_year mc y ->
    exists a, dmy_to_day L 1 1 y CALENDAR_HEBREW = Ret a /\
      dmy_to_day L 1 1 (y + 1) CALENDAR_HEBREW = Ret (a + 352) /\
      dmy_to_day L 29 13 y CALENDAR_HEBREW = Ret (a + 353).
Proof.
  intros L mc y HL Hy Hy1 Hmc He.
  assert (Hc : rule_cal CALENDAR_HEBREW) by (unfold rule_cal; tauto).
  assert (Hyd : year_dom L CALENDAR_HEBREW y) by (left; split; assumption).
  assert (Hyd1 : year_dom L CALENDAR_HEBREW (y + 1)) by (left; split; assumption).
  apply (heb_edge mc y Hmc) in He.
  exists (heb_ny y). rewrite !dmy_to_dayA by (try assumption; lia).
  unfold dayA. change (nyA CALENDAR_HEBREW) with heb_ny. change (msA CALENDAR_HEBREW) with heb_months.
  change (msum (firstn (Z.to_nat (1 - 1)) (heb_months y))) with 0.
  change (msum (firstn (Z.to_nat (1 - 1)) (heb_months (y + 1)))) with 0.
  destruct (heb_step_odd y He) as [El En].
  split; [f_equal; lia|]. split; [f_equal; lia|].
  unfold heb_months. cbv zeta. rewrite El, En. change (Z.to_nat (13 - 1)) with 12%nat.
  cbn [firstn msum fold_right Z.eqb Pos.eqb orb]. f_equal. lia.
Qed.

Lemma C08_edge_case_proof : exists mc, hebrew_month_count mc /\ hebrew_edge_year mc 193151.
Proof. exists heb_lunations. split; [exact month_count_exists|]. vm_compute. split; reflexivity. Qed.

Lemma C09_islamic_is_day_count_proof :
  forall f, counts_days islamic (1, 1, 1) 1948440 f ->
  forall L d m y, long_ok L -> year_ok L y -> valid islamic (d, m, y) ->
    dmy_to_day L d m y CALENDAR_ISLAMIC = Ret (f (d, m, y)).
Proof.
  intros f Hf L d m y HL Hy Hv.
  apply (dmy_to_day_is_count L CALENDAR_ISLAMIC f (1, 1, 1) 1948440); try assumption.
  - unfold rule_cal; tauto.
  - discriminate.
  - vm_compute. intuition congruence.
  - vm_compute. reflexivity.
Qed.

Lemma C09_islamic_is_day_count_exists_proof :
  exists f, counts_days islamic (1, 1, 1) 1948440 f.
Proof.
  exists (dayR CALENDAR_ISLAMIC). split; [vm_compute; reflexivity|].
  apply (rule_counts CALENDAR_ISLAMIC); [unfold rule_cal; tauto|discriminate].
Qed.

Lemma C09_cycle_proof :
  forall L y jd, long_ok L -> year_ok L y -> year_ok L (y + 30) ->
    dmy_to_day L 1 1 y CALENDAR_ISLAMIC = Ret jd ->
    dmy_to_day L 1 1 (y + 30) CALENDAR_ISLAMIC = Ret (jd + 10631).
Proof.
  intros L y jd HL Hy Hy1 E.
  assert (Hyd : year_dom L CALENDAR_ISLAMIC y) by (left; split; [unfold rule_cal; tauto|exact Hy]).
  assert (Hyd1 : year_dom L CALENDAR_ISLAMIC (y + 30)) by (left; split; [unfold rule_cal; tauto|exact Hy1]).
  rewrite dmy_to_dayA in * by (try assumption; lia). inversion E; subst jd.
  unfold dayA. change (nyA CALENDAR_ISLAMIC) with isl_ny.
  change (msum (firstn (Z.to_nat (1 - 1)) (msA CALENDAR_ISLAMIC y))) with 0.
  change (msum (firstn (Z.to_nat (1 - 1)) (msA CALENDAR_ISLAMIC (y + 30)))) with 0.
  f_equal. unfold isl_ny. lia.
Qed.

Lemma C10_modern_persian_is_day_count_proof :
  forall f, counts_days modern_persian (1, 1, 1) 1948321 f ->
  forall L d m y, long_ok L -> year_ok L y -> valid modern_persian (d, m, y) ->
    dmy_to_day L d m y CALENDAR_MODERN_PERSIAN = Ret (f (d, m, y)).
Proof.
  intros f Hf L d m y HL Hy Hv.
  apply (dmy_to_day_is_count L CALENDAR_MODERN_PERSIAN f (1, 1, 1) 1948321); try assumption.
  - unfold rule_cal; tauto.
  - discriminate.
  - vm_compute. intuition congruence.
  - vm_compute. reflexivity.
Qed.

Lemma C10_modern_persian_is_day_count_exists_proof :
  exists f, counts_days modern_persian (1, 1, 1) 1948321 f.
Proof.
  exists (dayR CALENDAR_MODERN_PERSIAN). split; [vm_compute; reflexivity|].
  apply (rule_counts CALENDAR_MODERN_PERSIAN); [unfold rule_cal; tauto|discriminate].
Qed.

Lemma french_leap_eq y : french_leap y = french_leapb y.
Proof.
  unfold french_leap, french_leapb, french_leap_days. pose proof (rev_step y) as Hs.
  unfold rev_ny in *. change (rev_delta) with french_phase in *.
  destruct (Z.ltb_spec ((french_phase y + 683 * y) / 2820) ((french_phase (y + 1) + 683 * (y + 1)) / 2820)); lia.
Qed.
Lemma french_rule_len m y : 1 <= m <= 13 -> french french_leap m y = lenA CALENDAR_REVOLUTIONARY m y.
Proof. intros Hm. rewrite <- french_len by exact Hm. unfold french. rewrite french_leap_eq. reflexivity. Qed.
Lemma next_date_ext len1 len2 : (forall m y, 1 <= m <= 13 -> len1 m y = len2 m y) ->
  forall dt, valid len1 dt -> next_date len1 dt = next_date len2 dt.
Proof.
  intros H [[d m] y] [Hm Hd]. unfold next_date. rewrite <- H by exact Hm.
  destruct (d <? len1 m y); [reflexivity|].
  assert (E : forall n k, 1 <= k -> k + Z.of_nat n <= 14 -> first_month len1 y k n = first_month len2 y k n).
  { induction n as [|n IH]; intros k Hk Hn; [reflexivity|]. cbn [first_month]. rewrite <- H by lia.
    destruct (0 <? len1 k y); [reflexivity|]. apply IH; lia. }
  rewrite E by lia. reflexivity.
Qed.
Definition spacing_ok (leap : Z -> bool) (y : Z) : bool :=
  negb (leap y) || (negb (leap (y + 1)) && negb (leap (y + 2)) && negb (leap (y + 3)) &&
    (leap (y + 4) || leap (y + 5))).
Lemma french_spacing_mid : zall (spacing_ok french_leap) (Z.to_nat 1500) (-850) = true.
Proof. vm_compute. reflexivity. Qed.
Lemma jalali_spacing_mid : zall (spacing_ok jalali_leap) (Z.to_nat 3419) (-1096) = true.
Proof. vm_compute. reflexivity. Qed.
Lemma french_spacing y : spacing_ok french_leap y = true.
Proof.
  assert (C : -850 <= y < 650 \/ y < -850 \/ 650 <= y) by lia.
  destruct C as [C|C]; [apply (zall_spec _ _ _ french_spacing_mid); lia|].
  unfold spacing_ok, french_leap, french_leap_days.
  assert (P : exists p, (p = 404 \/ p = 92) /\ forall k, 0 <= k <= 6 -> french_phase (y + k) = p).
  { destruct C; [exists 404|exists 92]; (split; [lia|]); intros k Hk; unfold french_phase;
    repeat match goal with |- context [if ?a <? ?b then _ else _] => destruct (Z.ltb_spec a b) end; lia. }
  destruct P as (p & Hp & P). pose proof (P 0 ltac:(lia)) as P0. rewrite Z.add_0_r in P0.
  replace (y + 2 + 1) with (y + 3) by lia. replace (y + 3 + 1) with (y + 4) by lia.
  replace (y + 4 + 1) with (y + 5) by lia. replace (y + 5 + 1) with (y + 6) by lia.
  replace (y + 1 + 1) with (y + 2) by lia.
  rewrite P0, !P by lia. clear P P0 C. lia.
Qed.

Lemma C10_french_is_day_count_proof :
  forall f, counts_days (french french_leap) (1, 1, 1) 2375840 f ->
  forall L d m y, long_ok L -> year_ok L y -> valid (french french_leap) (d, m, y) ->
    dmy_to_day L d m y CALENDAR_REVOLUTIONARY = Ret (f (d, m, y)).
Proof.
  intros f Hf L d m y HL Hy Hv.
  assert (X : forall m y, 1 <= m <= 13 -> french french_leap m y = french french_leapb m y).
  { intros m' y' Hm'. rewrite french_rule_len, french_len by exact Hm'. reflexivity. }
  apply (dmy_to_day_is_count L CALENDAR_REVOLUTIONARY f (1, 1, 1) 2375840); try assumption.
  - unfold rule_cal; tauto.
  - discriminate.
  - vm_compute. intuition congruence.
  - vm_compute. reflexivity.
  - change (rule_of CALENDAR_REVOLUTIONARY) with (french french_leapb).
    destruct Hf as [H1 H2]. split; [exact H1|]. intros [[d' m'] y'] Hv'.
    assert (V : valid (french french_leap) (d', m', y')).
    { destruct Hv' as [A B]. split; [exact A|]. rewrite X by exact A. exact B. }
    rewrite <- (next_date_ext _ _ X) by exact V. apply H2, V.
  - destruct Hv as [A B]. split; [exact A|].
    change (rule_of CALENDAR_REVOLUTIONARY) with (french french_leapb). rewrite <- X by exact A. exact B.
Qed.

Lemma C10_french_leap_spacing_proof :
  forall L y, long_ok L -> year_ok L y -> year_ok L (y + 5) ->
    days_in_month L 13 y CALENDAR_REVOLUTIONARY = Ret 6 ->
    exists k, (k = 4 \/ k = 5) /\ days_in_month L 13 (y + k) CALENDAR_REVOLUTIONARY = Ret 6 /\
      forall j, 0 < j < k -> days_in_month L 13 (y + j) CALENDAR_REVOLUTIONARY = Ret 5.
Proof.
  intros L y HL Hy Hy5 H.
  assert (D : forall k, 0 <= k <= 5 -> days_in_month L 13 (y + k) CALENDAR_REVOLUTIONARY
     = Ret (if french_leap (y + k) then 6 else 5)).
  { intros k Hk. rewrite days_in_monthA; [|exact HL| |lia].
    - rewrite <- french_rule_len by lia. reflexivity.
    - left. split; [unfold rule_cal; tauto|unfold year_ok in *; lia]. }
  pose proof (D 0 ltac:(lia)) as D0. rewrite Z.add_0_r in D0. rewrite D0 in H.
  pose proof (french_spacing y) as S. unfold spacing_ok in S.
  destruct (french_leap y); [|discriminate]. cbn [negb orb] in S.
  destruct (french_leap (y + 4)) eqn:E4.
  - exists 4. split; [lia|]. rewrite D, E4 by lia. split; [reflexivity|].
    intros j Hj. rewrite D by lia. assert (C : j = 1 \/ j = 2 \/ j = 3) by lia.
    destruct C as [->|[->| ->]]; [destruct (french_leap (y + 1))|destruct (french_leap (y + 2))|destruct (french_leap (y + 3))];
      try reflexivity; cbn in S; rewrite ?andb_false_r in S; discriminate.
  - exists 5. split; [lia|]. rewrite D by lia.
    destruct (french_leap (y + 5)) eqn:E5; [|rewrite andb_false_r in S; discriminate]. split; [reflexivity|].
    intros j Hj. rewrite D by lia. assert (C : j = 1 \/ j = 2 \/ j = 3 \/ j = 4) by lia.
    destruct C as [->|[->|[->| ->]]]; [destruct (french_leap (y + 1))|destruct (french_leap (y + 2))|destruct (french_leap (y + 3))|rewrite E4];
      try reflexivity; cbn in S; rewrite ?andb_false_r in S; discriminate.
Qed.

Lemma C10_years_proof :
  forall L c y, long_ok L -> year_ok L y -> year_ok L (y + 1) ->
    c = CALENDAR_REVOLUTIONARY \/ c = CALENDAR_MODERN_PERSIAN ->
    exists a n k last, dmy_to_day L 1 1 y c = Ret a /\ dmy_to_day L 1 1 (y + 1) c = Ret (a + n) /\
      (n = 365 \/ n = 366) /\ (k = 12 \/ k = 13) /\ days_in_month L k y c = Ret last /\
      1 <= last /\ dmy_to_day L last k y c = Ret (a + n - 1).
Proof.
  intros L c y HL Hy Hy1 Hc.
  assert (Hr : rule_cal c) by (unfold rule_cal; tauto).
  assert (Hyd : year_dom L c y) by (left; split; assumption).
  assert (Hyd1 : year_dom L c (y + 1)) by (left; split; assumption).
  exists (nyA c y), (nyA c (y + 1) - nyA c y).
  assert (E1 : forall z, year_dom L c z -> dmy_to_day L 1 1 z c = Ret (nyA c z)).
  { intros z Hz. rewrite dmy_to_dayA by (try assumption; lia). unfold dayA.
    change (Z.to_nat (1 - 1)) with O. cbn [firstn msum fold_right]. f_equal. lia. }
  destruct Hc as [-> | ->].
  - exists 13, (lenA CALENDAR_REVOLUTIONARY 13 y).
    rewrite !E1 by assumption. split; [reflexivity|]. split; [f_equal; lia|].
    change (nyA CALENDAR_REVOLUTIONARY) with rev_ny in *. pose proof (rev_step y) as Hs.
    split; [lia|]. split; [lia|]. split; [apply days_in_monthA; try assumption; lia|].
    assert (El : lenA CALENDAR_REVOLUTIONARY 13 y = rev_ny (y + 1) - rev_ny y - 360) by reflexivity.
    split; [lia|]. rewrite dmy_to_dayA by (try assumption; lia). unfold dayA.
    change (nyA CALENDAR_REVOLUTIONARY) with rev_ny in *.
    change (msum (firstn (Z.to_nat (13 - 1)) (msA CALENDAR_REVOLUTIONARY y))) with 360. f_equal. lia.
  - exists 12, (lenA CALENDAR_MODERN_PERSIAN 12 y).
    rewrite !E1 by assumption. split; [reflexivity|]. split; [f_equal; lia|].
    change (nyA CALENDAR_MODERN_PERSIAN) with mp_ny in *. pose proof (mp_step y) as Hs.
    split; [lia|]. split; [lia|]. split; [apply days_in_monthA; try assumption; lia|].
    assert (El : lenA CALENDAR_MODERN_PERSIAN 12 y = mp_ny (y + 1) - mp_ny y - 336) by reflexivity.
    split; [lia|]. rewrite dmy_to_dayA by (try assumption; lia). unfold dayA.
    change (nyA CALENDAR_MODERN_PERSIAN) with mp_ny in *.
    change (msum (firstn (Z.to_nat (12 - 1)) (msA CALENDAR_MODERN_PERSIAN y))) with 336. f_equal. lia.
Qed.

Lemma C11_jalali_years_proof :
  forall L y, long_ok L -> -1096 <= y <= 2326 ->
    let last := if jalali_leap y then 30 else 29 in
    exists a, dmy_to_day L 1 1 y CALENDAR_PERSIAN = Ret a /\
      dmy_to_day L 1 1 (y + 1) CALENDAR_PERSIAN = Ret (a + 336 + last) /\
      forall m, 1 <= m <= 13 -> days_in_month L m y CALENDAR_PERSIAN
        = Ret (if m <=? 6 then 31 else if m <=? 11 then 30 else if m =? 12 then last else 0).
Proof.
  intros L y HL Hy.
  assert (Hd : forall z, -1096 <= z <= 2327 -> year_dom L CALENDAR_PERSIAN z) by (intros z Hz; right; left; split; [reflexivity|lia]).
  assert (El : (if jalali_leap y then 30 else 29) = jal_ny (y + 1) - jal_ny y - 336).
  { pose proof (jal_step2 y ltac:(lia)) as Hs. unfold jal_ny in *. unfold jalali_leap, jalali_leap_days.
    change jal_delta with jalali_phase in *.
    destruct (Z.ltb_spec ((jalali_phase y + 303 * y) / 1250) ((jalali_phase (y + 1) + 303 * (y + 1)) / 1250)); lia. }
  cbv zeta. rewrite El. exists (jal_ny y).
  assert (E1 : forall z, -1096 <= z <= 2327 -> dmy_to_day L 1 1 z CALENDAR_PERSIAN = Ret (jal_ny z)).
  { intros z Hz. rewrite dmy_to_dayA by (try assumption; try (apply Hd; lia); lia). unfold dayA.
    change (Z.to_nat (1 - 1)) with O. change (nyA CALENDAR_PERSIAN z) with (jal_ny z). cbn [firstn msum fold_right]. f_equal. lia. }
  rewrite !E1 by lia. split; [reflexivity|]. split; [f_equal; lia|].
  intros m Hm. rewrite days_in_monthA by (try assumption; try (apply Hd; lia); lia). f_equal.
  change (lenA CALENDAR_PERSIAN m y) with (nth (Z.to_nat (m - 1)) (jal_months y) 0). unfold jal_months.
  destruct (Z.eqb_spec y 2327); [lia|].
  clear El. generalize (jal_ny (y + 1) - jal_ny y). intros k. month_cases m Hm; reflexivity.
Qed.

Lemma C11_jalali_anchor_and_spacing_proof :
  (forall L, long_ok L -> dmy_to_day L 1 1 1 CALENDAR_PERSIAN = Ret 1948321) /\
  (forall y, -1096 <= y <= 2321 -> jalali_leap y = true ->
     jalali_leap (y + 1) = false /\ jalali_leap (y + 2) = false /\ jalali_leap (y + 3) = false /\
     (jalali_leap (y + 4) = true \/ jalali_leap (y + 5) = true)).
Proof.
  split.
  - intros L HL. rewrite dmy_to_dayA; [vm_compute; reflexivity|exact HL| |lia|lia|lia].
    right; left. split; [reflexivity|lia].
  - intros y Hy Hl. pose proof (zall_spec _ _ _ jalali_spacing_mid y ltac:(lia)) as S. unfold spacing_ok in S.
    rewrite Hl in S. cbn [negb orb] in S.
    destruct (jalali_leap (y + 1)), (jalali_leap (y + 2)), (jalali_leap (y + 3)); try discriminate.
    cbn in S. apply orb_prop in S. tauto.
Qed.

Lemma C11_jalali_errors_proof :
  forall L, long_ok L ->
    (forall d m y, year_ok L y -> y < -1096 \/ 2327 < y -> dmy_to_day L d m y CALENDAR_PERSIAN = Ret 0) /\
    (forall jd, jd_ok L jd -> jd < 1547650 \/ 2798239 <= jd -> dmy_error L jd CALENDAR_PERSIAN).
Proof.
  intros L HL. split; intros; [apply jal_zero|apply jal_error]; assumption.
Qed.

Lemma C11_jalali_last_year_refuted_proof :
  dmy_to_day LMAX64 1 12 2327 CALENDAR_PERSIAN = Ret 2798210 /\
  days_in_month LMAX64 12 2327 CALENDAR_PERSIAN = Ret 126.
Proof.
  split; vm_compute; reflexivity.
Qed.

Lemma C12_chinese_months_proof :
  forall L y m, long_ok L -> -363 <= y <= 9636 -> 1 <= m <= 13 ->
    exists n, days_in_month L m y CALENDAR_CHINESE = Ret n /\
      (n = 29 \/ n = 30 \/ (m = 13 /\ n = 0)).
Proof.
  intros L y m HL Hy Hm.
  assert (Hd : year_dom L CALENDAR_CHINESE y) by (right; right; split; [reflexivity|exact Hy]).
  exists (lenA CALENDAR_CHINESE m y). split; [apply days_in_monthA; assumption|].
  change (lenA CALENDAR_CHINESE m y) with (nth (Z.to_nat (m - 1)) (chin_months y) 0).
  destruct (chin_month_len y m Hy Hm) as [H|[H|(A & B & C)]]; auto.
Qed.

Lemma C12_chinese_join_partial_proof :
  forall L y, long_ok L -> -363 <= y < 9636 ->
    exists a ms, dmy_to_day L 1 1 y CALENDAR_CHINESE = Ret a /\
      Forall2 (fun m n => days_in_month L m y CALENDAR_CHINESE = Ret n)
        [1; 2; 3; 4; 5; 6; 7; 8; 9; 10; 11; 12; 13] ms /\
      dmy_to_day L 1 1 (y + 1) CALENDAR_CHINESE
      = Ret (a + fold_right Z.add 0 ms +
             if existsb (Z.eqb y) [-33; 119; 187; 301; 339; 711; 1064; 1827] then 1 else 0).
Proof.
  intros L y HL Hy.
  assert (Hd : forall z, -363 <= z <= 9636 -> year_dom L CALENDAR_CHINESE z) by (intros z Hz; right; right; split; [reflexivity|exact Hz]).
  assert (E1 : forall z, -363 <= z <= 9636 -> dmy_to_day L 1 1 z CALENDAR_CHINESE = Ret (chin_ny z)).
  { intros z Hz. rewrite dmy_to_dayA by (try assumption; try (apply Hd; lia); lia). unfold dayA.
    change (Z.to_nat (1 - 1)) with O. change (nyA CALENDAR_CHINESE z) with (chin_ny z). cbn [firstn msum fold_right]. f_equal. lia. }
  exists (chin_ny y), (chin_months y). rewrite !E1 by lia. split; [reflexivity|]. split.
  - destruct (chin_shape y ltac:(lia)) as (Hl & _).
    assert (F : forall m, 1 <= m <= 13 -> days_in_month L m y CALENDAR_CHINESE = Ret (nth (Z.to_nat (m - 1)) (chin_months y) 0)).
    { intros m Hm. apply days_in_monthA; try assumption. apply Hd. lia. }
    generalize dependent (chin_months y). intros ms Hl F.
    do 13 (destruct ms as [|? ms]; [discriminate|]). destruct ms; [|discriminate].
    repeat (apply Forall2_cons; [rewrite F by lia; reflexivity|]). apply Forall2_nil.
  - pose proof (chin_link_ok y ltac:(lia)) as E. f_equal. unfold chin_gap, msum in E. lia.
Qed.

Lemma C12_chinese_join_refuted_proof :
  exists a, dmy_to_day LMAX64 1 1 1828 CALENDAR_CHINESE = Ret a /\
    days_in_month LMAX64 13 1827 CALENDAR_CHINESE = Ret 29 /\
    dmy_to_day LMAX64 29 13 1827 CALENDAR_CHINESE = Ret (a - 2).
Proof.
  exists 1425628. repeat split; vm_compute; reflexivity.
Qed.

Lemma C12_chinese_days_partial_proof :
  forall L jd, long_ok L -> 625379 <= jd < 4277781 -> ~ In jd [746276; 801793; 826629; 868267; 882146; 1018016; 1146947; 1425627] ->
    (exists d m y, dmy_result L jd CALENDAR_CHINESE d m y) /\
    (forall d m y, dmy_result L jd CALENDAR_CHINESE d m y ->
       dmy_to_day L d m y CALENDAR_CHINESE = Ret jd /\ -363 <= y <= 9636) /\
    (forall d m y ic' fuel ic m0,
       day_to_dmy_st L fuel ic m0 jd CALENDAR_CHINESE = Ret (d, m, y, ic') ->
       0 <= ic' <= 13 /\ (ic' = 0 <-> days_in_month L 13 y CALENDAR_CHINESE = Ret 0)).
Proof.
  intros L jd HL Hj Hn.
  assert (Hd : day_dom L CALENDAR_CHINESE jd) by (right; right; split; [reflexivity|split; assumption]).
  destruct (day_to_dmyA L jd _ HL Hd) as (d0 & m0 & y0 & Hr0 & Hy0 & Hm0 & Hd0 & E0).
  assert (Hyr : -363 <= y0 <= 9636).
  { destruct Hy0 as [[Hc _]|[[Hc _]|[_ Hy]]]; [apply rule_not57 in Hc; destruct Hc as (_ & Hc & _); discriminate|discriminate|exact Hy]. }
  split; [eauto|]. split.
  - intros d m y Hr. split; [apply result_back; assumption|].
    pose proof (dmy_result_unique _ _ _ _ _ _ _ _ _ Hr Hr0) as Ei. inversion Ei; subst. exact Hyr.
  - intros d m y ic' fuel ic mm Er.
    destruct (result_of_run _ _ _ _ _ _ _ _ _ _ _ _ _ Er Hr0) as (-> & -> & ->).
    rewrite (chin_result_ic L jd fuel ic mm d0 m0 y0 ic' HL Hyr ltac:(lia) Er).
    split; [apply chin_ic_bound, Hyr|].
    rewrite days_in_monthA by (try assumption; lia).
    change (lenA CALENDAR_CHINESE 13 y0) with (nth (Z.to_nat (13 - 1)) (chin_months y0) 0).
    pose proof (chin_month_len y0 13 Hyr ltac:(lia)) as Hc.
    assert (H13 := fun h => chin_ic_13 y0 h Hyr).
    split; [intros H; rewrite (H13 H); reflexivity|].
    intros H. assert (H' : nth (Z.to_nat (13 - 1)) (chin_months y0) 0 = 0) by congruence.
    destruct Hc as [Hc|[Hc|(_ & Hc & _)]]; [lia|lia|exact Hc].
Qed.

Lemma C13_unknown_calendar_proof :
  forall L c, c < 0 \/ 8 < c ->
    (forall d m y, dmy_to_day L d m y c = Ret 0) /\ (forall jd, dmy_error L jd c).
Proof.
  intros L c Hc. split; intros; [apply unknown_zero|apply unknown_error]; exact Hc.
Qed.

Lemma C13_outside_charts_partial_proof :
  forall L, long_ok L ->
    (forall d m y, year_ok L y -> y < -1096 \/ 2327 < y -> dmy_to_day L d m y CALENDAR_PERSIAN = Ret 0) /\
    (forall d m y, -2147483000 <= y <= 2147483000 -> y < -363 \/ 9636 < y ->
       dmy_to_day L d m y CALENDAR_CHINESE = Ret 0) /\
    (forall jd, jd_ok L jd -> jd < 1547650 \/ 2798239 <= jd -> dmy_error L jd CALENDAR_PERSIAN) /\
    (forall jd, jd_ok L jd -> Z.abs jd <= 700000000000 -> jd < 625379 \/ 4277781 <= jd ->
       dmy_error L jd CALENDAR_CHINESE).
Proof.
  intros L HL. repeat split; intros;
    [apply jal_zero|apply chin_zero|apply jal_error|apply chin_error]; assumption.
Qed.

Lemma C13_chinese_year_refuted_proof :
  exists jd, dmy_to_day LMAX64 1 1 4294971933 CALENDAR_CHINESE = Ret jd /\ jd <> 0.
Proof.
  exists 1568739256444. split; [vm_compute; reflexivity|discriminate].
Qed.

Lemma C13_month_untouched_proof :
  forall L fuel ic month0 jd c d m y ic',
    day_to_dmy_st L fuel ic month0 jd c = Ret (d, m, y, ic') ->
    dmy_error L jd c -> d = -1 /\ m = month0.
Proof.
  intros L fuel ic month0 jd c d m y ic' Er [N HN].
  destruct (HN (Nat.max N fuel) ic month0 ltac:(lia)) as (y2 & ic2 & E).
  rewrite (day_to_dmy_stable L c jd fuel (Nat.max N fuel)) in E by (try lia; rewrite Er; discriminate).
  rewrite Er in E. inversion E; subst. split; reflexivity.
Qed.

Lemma C14_dates_ordered_proof :
  forall L c d1 m1 y1 n1 d2 m2 y2 n2 j1 j2, long_ok L -> rule_cal c -> c <> CALENDAR_HEBREW ->
    year_ok L y1 -> year_ok L y2 -> 1 <= m1 <= 13 -> 1 <= m2 <= 13 ->
    days_in_month L m1 y1 c = Ret n1 -> 1 <= d1 <= n1 ->
    days_in_month L m2 y2 c = Ret n2 -> 1 <= d2 <= n2 ->
    dmy_to_day L d1 m1 y1 c = Ret j1 -> dmy_to_day L d2 m2 y2 c = Ret j2 ->
    (date_lt (d1, m1, y1) (d2, m2, y2) <-> j1 < j2).
Proof.
  intros L c d1 m1 y1 n1 d2 m2 y2 n2 j1 j2 HL Hc Hh Hy1 Hy2 Hm1 Hm2 Hn1 Hd1 Hn2 Hd2 E1 E2.
  assert (D1 : year_dom L c y1) by (left; split; assumption).
  assert (D2 : year_dom L c y2) by (left; split; assumption).
  rewrite days_in_monthA in Hn1, Hn2 by assumption. inversion Hn1; inversion Hn2; subst.
  pose proof (lenA_bound L c m1 y1 D1). pose proof (lenA_bound L c m2 y2 D2).
  rewrite dmy_to_dayA in E1, E2 by (try assumption; lia). inversion E1; inversion E2; subst.
  assert (O1 := nonheb_no_overlap c y1 Hc Hh). assert (O2 := nonheb_no_overlap c y2 Hc Hh).
  split.
  - apply (dayA_order L); assumption.
  - intros Hlt.
    assert (Hcases : date_lt (d1, m1, y1) (d2, m2, y2) \/ date_lt (d2, m2, y2) (d1, m1, y1) \/
                   (y1 = y2 /\ m1 = m2 /\ d1 = d2)) by (unfold date_lt; lia).
    destruct Hcases as [Hx|[Hx|(-> & -> & ->)]]; [exact Hx| |lia].
    pose proof (dayA_order L c _ _ _ _ _ _ D2 D1 O2 Hm2 Hd2 Hm1 Hd1 Hx). lia.
Qed.

Lemma C14_charts_ordered_proof :
  forall L c d1 m1 y1 n1 d2 m2 y2 n2 j1 j2, long_ok L ->
    (c = CALENDAR_PERSIAN /\ -1096 <= y1 <= 2326 /\ -1096 <= y2 <= 2326) \/
    (c = CALENDAR_CHINESE /\ -363 <= y1 <= 9636 /\ -363 <= y2 <= 9636) ->
    1 <= m1 <= 13 -> 1 <= m2 <= 13 ->
    days_in_month L m1 y1 c = Ret n1 -> 1 <= d1 <= n1 ->
    days_in_month L m2 y2 c = Ret n2 -> 1 <= d2 <= n2 ->
    dmy_to_day L d1 m1 y1 c = Ret j1 -> dmy_to_day L d2 m2 y2 c = Ret j2 ->
    date_lt (d1, m1, y1) (d2, m2, y2) -> j1 < j2.
Proof.
  intros L c d1 m1 y1 n1 d2 m2 y2 n2 j1 j2 HL Hc Hm1 Hm2 Hn1 Hd1 Hn2 Hd2 E1 E2.
  assert (D : year_dom L c y1 /\ year_dom L c y2 /\ overlapA c y1 = false).
  { destruct Hc as [(-> & A & B)|(-> & A & B)].
    - split; [right; left; split; [reflexivity|lia]|]. split; [right; left; split; [reflexivity|lia]|].
      unfold overlapA, odd_year. change (CALENDAR_PERSIAN =? CALENDAR_HEBREW) with false.
      change (CALENDAR_PERSIAN =? 5) with true. cbn [andb orb]. lia.
    - split; [right; right; split; [reflexivity|lia]|]. split; [right; right; split; [reflexivity|lia]|]. reflexivity. }
  destruct D as (D1 & D2 & O1).
  rewrite days_in_monthA in Hn1, Hn2 by assumption. inversion Hn1; inversion Hn2; subst.
  pose proof (lenA_bound L c m1 y1 D1). pose proof (lenA_bound L c m2 y2 D2).
  rewrite dmy_to_dayA in E1, E2 by (try assumption; lia). inversion E1; inversion E2; subst.
  apply (dayA_order L); assumption.
Qed.

Lemma C14_hebrew_partial_proof :
  forall L mc d1 m1 y1 n1 d2 m2 y2 n2 j1 j2, long_ok L -> hebrew_month_count mc ->
    ~ hebrew_edge_year mc y1 ->
    year_ok L y1 -> year_ok L y2 -> 1 <= m1 <= 13 -> 1 <= m2 <= 13 ->
    days_in_month L m1 y1 CALENDAR_HEBREW = Ret n1 -> 1 <= d1 <= n1 ->
    days_in_month L m2 y2 CALENDAR_HEBREW = Ret n2 -> 1 <= d2 <= n2 ->
    dmy_to_day L d1 m1 y1 CALENDAR_HEBREW = Ret j1 -> dmy_to_day L d2 m2 y2 CALENDAR_HEBREW = Ret j2 ->
    date_lt (d1, m1, y1) (d2, m2, y2) -> j1 < j2.
Proof.
  intros L mc d1 m1 y1 n1 d2 m2 y2 n2 j1 j2 HL Hmc He Hy1 Hy2 Hm1 Hm2 Hn1 Hd1 Hn2 Hd2 E1 E2.
  assert (Hc : rule_cal CALENDAR_HEBREW) by (unfold rule_cal; tauto).
  assert (D1 : year_dom L CALENDAR_HEBREW y1) by (left; split; assumption).
  assert (D2 : year_dom L CALENDAR_HEBREW y2) by (left; split; assumption).
  rewrite days_in_monthA in Hn1, Hn2 by assumption. inversion Hn1; inversion Hn2; subst.
  pose proof (lenA_bound L _ m1 y1 D1). pose proof (lenA_bound L _ m2 y2 D2).
  rewrite dmy_to_dayA in E1, E2 by (try assumption; lia). inversion E1; inversion E2; subst.
  apply (dayA_order L); try assumption. eapply heb_no_overlap; eassumption.
Qed.

Lemma C14_switchover_proof :
  forall L d1 m1 y1 d2 m2 y2 j1 j2, long_ok L -> year_ok L y1 -> year_ok L y2 ->
    switch_valid (d1, m1, y1) -> switch_valid (d2, m2, y2) ->
    dmy_to_day L d1 m1 y1 CALENDAR_JULIAN_GREGORIAN = Ret j1 ->
    dmy_to_day L d2 m2 y2 CALENDAR_JULIAN_GREGORIAN = Ret j2 ->
    date_lt (d1, m1, y1) (d2, m2, y2) -> j1 < j2.
Proof.
  intros L d1 m1 y1 d2 m2 y2 j1 j2 HL Hy1 Hy2 V1 V2 E1 E2 Hlt.
  destruct (jg_value L d1 m1 y1 HL Hy1 V1) as (k1 & K1 & C1). rewrite K1 in E1. inversion E1; subst k1.
  destruct (jg_value L d2 m2 y2 HL Hy2 V2) as (k2 & K2 & C2). rewrite K2 in E2. inversion E2; subst k2.
  destruct C1 as [(A1 & B1 & W1)|(A1 & B1 & W1)]; destruct C2 as [(A2 & B2 & W2)|(A2 & B2 & W2)]; subst; try lia.
  - destruct (greg_valid_A L _ _ _ W1), (greg_valid_A L _ _ _ W2).
    apply (dayA_order L); try assumption; try (apply gdom; assumption). reflexivity.
  - destruct (greg_valid_A L _ _ _ W1), (jul_valid_A L _ _ _ W2).
    apply (greg_after L) in A1; try assumption. apply (jul_before L) in A2; try assumption.
    unfold date_lt in *. lia.
  - destruct (jul_valid_A L _ _ _ W1), (jul_valid_A L _ _ _ W2).
    apply (dayA_order L); try assumption; try (apply jdom; assumption). reflexivity.
Qed.

Lemma C15_days_in_month_proof :
  forall L c m y, long_ok L -> year_dom L c y -> 1 <= m <= 12 ->
    exists a n, dmy_to_day L 1 m y c = Ret a /\ days_in_month L m y c = Ret n /\
      dmy_to_day L 1 (m + 1) y c = Ret (a + n).
Proof.
  intros L c m y HL Hy Hm. exists (dayA c 1 m y), (lenA c m y).
  split; [apply dmy_to_dayA; try assumption; lia|].
  split; [apply days_in_monthA; try assumption; lia|].
  rewrite dmy_to_dayA by (try assumption; lia). f_equal. unfold dayA, lenA.
  destruct (shapeA L c y Hy) as (Hl & _).
  replace (Z.to_nat (m + 1 - 1)) with (S (Z.to_nat (m - 1))) by lia.
  rewrite firstn_S_sum by lia. lia.
Qed.

Lemma C15_additive_partial_proof :
  forall L c m y d jd, long_ok L -> year_dom L c y -> 1 <= m <= 13 ->
    -1000000 <= d <= 1000000 -> d <> -999 ->
    dmy_to_day L 1 m y c = Ret jd -> dmy_to_day L d m y c = Ret (jd + (d - 1)).
Proof.
  intros L c m y d jd HL Hy Hm Hd Hn E. rewrite dmy_to_dayA in * by (try assumption; lia).
  inversion E. f_equal. unfold dayA. lia.
Qed.

Lemma C15_additive_refuted_proof :
  dmy_to_day LMAX64 1 1 2000 CALENDAR_GREGORIAN = Ret 2451545 /\
  dmy_to_day LMAX64 (-999) 1 2000 CALENDAR_GREGORIAN = Ret 31.
Proof.
  split; vm_compute; reflexivity.
Qed.
