(** Facts about dmy_to_day / day_to_dmy / days_in_month for all calendars. *)
From Coq Require Import Lia ZifyBool.
From Verif Require Import CBase CLemmas ChineseData DateModel DatePure
  DatePureIslRev DatePurePersian DatePureHebrew DateRound DateChart DateSpec.

(** Years for which the model of calendar [c] is analysed. *)
Definition year_dom (L c y : Z) : Prop :=
  (rule_cal c /\ year_ok L y) \/
  (c = CALENDAR_PERSIAN /\ -1096 <= y <= 2327) \/
  (c = CALENDAR_CHINESE /\ -363 <= y <= 9636).

Definition nyA (c y : Z) : Z :=
  if c =? 5 then jal_ny y else if c =? 7 then chin_ny y else ny_of c y.
Definition msA (c y : Z) : list Z :=
  if c =? 5 then jal_months y else if c =? 7 then chin_months y else months_of c y.
Definition icA (c ic y : Z) : Z := if c =? 7 then chin_ic y else ic.
Definition dayA (c d m y : Z) : Z :=
  nyA c y + msum (firstn (Z.to_nat (m - 1)) (msA c y)) + d - 1.
Definition lenA (c m y : Z) : Z := nth (Z.to_nat (m - 1)) (msA c y) 0.

(** Years in which the rules of the code make the months overlap the next year. *)
Definition overlapA (c y : Z) : bool :=
  odd_year c y || ((c =? 5) && (y =? 2327)).

Lemma rule_not57 c : rule_cal c -> (c =? 5) = false /\ (c =? 7) = false /\ (c =? 6) = false.
Proof. intros H. rule_cases H; repeat split. Qed.

Lemma dataA L ic c y : long_ok L -> year_dom L c y ->
  get_calendar_data L ic y c
  = Ret (DataOk (nyA c y) (nyA c y + msum (msA c y)) (msA c y), icA c ic y).
Proof.
  intros HL [[H1 H2]|[[-> H]|[-> H]]]; unfold nyA, msA, icA.
  - destruct (rule_not57 c H1) as (-> & -> & _).
    apply calendar_data_ok; assumption.
  - apply jal_data_ok; assumption.
  - apply chin_data_ok; assumption.
Qed.

Lemma shapeA L c y : year_dom L c y ->
  length (msA c y) = 13%nat /\ Forall (fun m => 0 <= m <= 127) (msA c y) /\
  348 <= msum (msA c y).
Proof.
  intros [[H1 H2]|[[-> H]|[-> H]]]; unfold msA.
  - destruct (rule_not57 c H1) as (-> & -> & _). destruct (months_shape127 c y H1) as [A B].
    split; [exact A|]. split; [exact B|].
    pose proof (ye_of_ny c y H1) as E. unfold ye_of in E. pose proof (ny_step c y H1).
    destruct (odd_year c y); lia.
  - destruct (jal_shape y H) as (A & B & C & _). cbn [Z.eqb Pos.eqb].
    change (CALENDAR_PERSIAN =? 5) with true. cbv iota. split; [exact A|]. split; [exact B|].
    pose proof (jal_step2 y H). lia.
  - change (CALENDAR_CHINESE =? 5) with false. change (CALENDAR_CHINESE =? 7) with true. cbv iota.
    destruct (chin_shape y H) as (A & B & C & _). split; [exact A|]. split; [exact B|lia].
Qed.

Lemma ny_absA L c y : long_ok L -> year_dom L c y ->
  Z.abs (nyA c y) + 12000000 <= L + 5000000.
Proof.
  intros HL [[H1 H2]|[[-> H]|[-> H]]]; unfold nyA.
  - destruct (rule_not57 c H1) as (-> & -> & _).
    pose proof (ny_abs c y H1). unfold long_ok, year_ok in *. lia.
  - change (CALENDAR_PERSIAN =? 5) with true. cbv iota.
    pose proof (jal_shape y H). unfold long_ok in *. lia.
  - change (CALENDAR_CHINESE =? 5) with false. change (CALENDAR_CHINESE =? 7) with true. cbv iota.
    pose proof (chin_shape y H). unfold long_ok in *. lia.
Qed.

Lemma dom_not6 L c y : year_dom L c y -> (c =? CALENDAR_JULIAN_GREGORIAN) = false.
Proof. intros [[H1 H2]|[[-> H]|[-> H]]]; try reflexivity. apply rule_not57 in H1. tauto. Qed.

Lemma firstn_bound l n : Forall (fun m => 0 <= m <= 127) l ->
  0 <= msum (firstn n l) <= msum l /\ msum (firstn n l) <= 127 * Z.of_nat (length l).
Proof.
  intros Hf. revert n. induction Hf as [|m t Hm Ht IH]; intros n.
  - rewrite firstn_nil. cbn. lia.
  - pose proof (msum_bound t Ht) as Hb. unfold msum in *.
    destruct n as [|n]; cbn [firstn length fold_right]; [lia|]. specialize (IH n). lia.
Qed.

Lemma dmy_to_dayA L d m y c :
  long_ok L -> year_dom L c y -> 1 <= m <= 13 ->
  -1000000 <= d <= 1000000 -> d <> -999 ->
  dmy_to_day L d m y c = Ret (dayA c d m y).
Proof.
  intros HL Hy Hm Hd Hd9. unfold dmy_to_day, dmy_to_day_st, dmy_calendar_to_use.
  rewrite (dom_not6 L c y Hy). rewrite dataA by assumption. cbn [obind].
  unfold RETURN_DAYS_IN_MONTH. destruct (Z.eqb_spec d (-999)); [lia|].
  unfold IMAX. pose proof (ny_absA L c y HL Hy) as Hb. unfold long_ok in *. ev_step.
  pose proof (shapeA L c y Hy) as (Hlen & Hf & _).
  rewrite add_first_ok; [|exact Hf|lia|lia|rewrite Hlen; lia]. cbn [obind].
  pose proof (firstn_bound _ (Z.to_nat (m - 1)) Hf) as Hfb. rewrite Hlen in Hfb.
  ev_step. unfold dayA. f_equal. lia.
Qed.

Lemma days_in_monthA L m y c :
  long_ok L -> year_dom L c y -> 1 <= m <= 13 ->
  days_in_month L m y c = Ret (lenA c m y).
Proof.
  intros HL Hy Hm. unfold days_in_month, dmy_to_day, dmy_to_day_st, dmy_calendar_to_use.
  rewrite (dom_not6 L c y Hy). rewrite dataA by assumption. cbn [obind].
  unfold RETURN_DAYS_IN_MONTH. cbn [Z.eqb Pos.eqb]. unfold IMAX. ev_step.
  pose proof (shapeA L c y Hy) as (Hlen & Hf & _).
  rewrite nth_ub_ok with (d := 0) by (rewrite Hlen; lia). cbn [obind].
  unfold lenA. rewrite wrap32_id; [reflexivity|].
  rewrite Forall_forall in Hf.
  assert (In (nth (Z.to_nat (m - 1)) (msA c y) 0) (msA c y)) as Hin by (apply nth_In; lia).
  specialize (Hf _ Hin). cbv beta in Hf. lia.
Qed.

(* ---------- years of the calendar are ordered ---------- *)
Lemma nyA_next L c y : year_dom L c y -> year_dom L c (y + 1) ->
  (overlapA c y = false -> nyA c y + msum (msA c y) <= nyA c (y + 1)) /\
  nyA c y < nyA c (y + 1).
Proof.
  intros [[H1 H2]|[[-> H]|[-> H]]] Hn; unfold nyA, msA, overlapA.
  - destruct (rule_not57 c H1) as (-> & -> & _). cbn [andb]. rewrite orb_false_r.
    pose proof (ye_of_ny c y H1) as E. unfold ye_of in E. pose proof (ny_step c y H1).
    split; [intros Ho; rewrite Ho in E; lia|lia].
  - destruct Hn as [[Hn _]|[[_ Hn]|[Hn _]]]; [apply rule_not57 in Hn; destruct Hn; discriminate| |discriminate].
    change (CALENDAR_PERSIAN =? 5) with true. cbv iota. destruct (jal_shape y H) as (_ & _ & C & D & _).
    pose proof (jal_step2 y H). split; [intros _; rewrite D by lia; lia|lia].
  - destruct Hn as [[Hn _]|[[Hn _]|[_ Hn]]]; [apply rule_not57 in Hn; destruct Hn as [_ [Hn _]]; discriminate|discriminate|].
    change (CALENDAR_CHINESE =? 5) with false. change (CALENDAR_CHINESE =? 7) with true. cbv iota.
    pose proof (chin_link_ok y ltac:(lia)) as E. destruct (chin_shape y H) as (_ & _ & C & _).
    destruct (chin_gap y); split; intros; lia.
Qed.

Lemma dom_convex L c a b y : year_dom L c a -> year_dom L c b -> a <= y <= b -> year_dom L c y.
Proof.
  intros [[H1 H2]|[[-> H]|[-> H]]] [[G1 G2]|[[G0 G]|[G0 G]]] Hy;
    try (subst c; apply rule_not57 in H1; destruct H1 as (E1 & E2 & _); discriminate);
    try (apply rule_not57 in G1; destruct G1 as (E1 & E2 & _); discriminate); try discriminate.
  - left. split; [exact H1|unfold year_ok in *; lia].
  - right; left. split; [reflexivity|lia].
  - right; right. split; [reflexivity|lia].
Qed.

Lemma nyA_mono L c a b : year_dom L c a -> year_dom L c b -> a < b -> nyA c a < nyA c b.
Proof.
  intros Ha Hb Hab. apply (range_mono (nyA c) a b); try lia.
  intros y Hy. apply (nyA_next L c y).
  - apply (dom_convex L c a b); [exact Ha|exact Hb|lia].
  - apply (dom_convex L c a b); [exact Ha|exact Hb|lia].
Qed.


Lemma prefix_lt l n k : Forall (fun m => 0 <= m <= 127) l -> (n < k)%nat -> (k <= length l)%nat ->
  msum (firstn n l) + nth n l 0 <= msum (firstn k l).
Proof.
  intros Hf. revert n k. induction Hf as [|x t Hx Ht IH]; intros n k Hnk Hk; [cbn in Hk; lia|].
  destruct k as [|k]; [lia|]. cbn [length] in Hk.
  pose proof (firstn_bound t k Ht) as Hb.
  destruct n as [|n]; cbn [firstn nth]; unfold msum in *; cbn [fold_right]; [lia|].
  specialize (IH n k ltac:(lia) ltac:(lia)). lia.
Qed.

Lemma dayA_in_year L c d m y : year_dom L c y -> 1 <= m <= 13 -> 1 <= d <= lenA c m y ->
  nyA c y <= dayA c d m y < nyA c y + msum (msA c y).
Proof.
  intros Hy Hm Hd. destruct (shapeA L c y Hy) as (Hlen & Hf & _). unfold dayA, lenA in *.
  pose proof (prefix_lt (msA c y) (Z.to_nat (m - 1)) 13 Hf ltac:(lia) ltac:(lia)) as Hp.
  rewrite <- Hlen in Hp. rewrite firstn_all in Hp.
  pose proof (firstn_bound _ (Z.to_nat (m - 1)) Hf). lia.
Qed.

Lemma dayA_order L c d1 m1 y1 d2 m2 y2 :
  year_dom L c y1 -> year_dom L c y2 -> overlapA c y1 = false ->
  1 <= m1 <= 13 -> 1 <= d1 <= lenA c m1 y1 ->
  1 <= m2 <= 13 -> 1 <= d2 <= lenA c m2 y2 ->
  date_lt (d1, m1, y1) (d2, m2, y2) -> dayA c d1 m1 y1 < dayA c d2 m2 y2.
Proof.
  intros H1 H2 Ho Hm1 Hd1 Hm2 Hd2 Hlt. unfold date_lt in Hlt.
  destruct (Z_lt_le_dec y1 y2) as [Hy|Hy].
  - pose proof (dayA_in_year L c d1 m1 y1 H1 Hm1 Hd1) as A.
    pose proof (dayA_in_year L c d2 m2 y2 H2 Hm2 Hd2) as B.
    assert (Hy1 : year_dom L c (y1 + 1)) by (apply (dom_convex L c y1 y2); [exact H1|exact H2|lia]).
    destruct (nyA_next L c y1 H1 Hy1) as [C _]. specialize (C Ho).
    assert (nyA c (y1 + 1) <= nyA c y2).
    { destruct (Z.eq_dec (y1 + 1) y2) as [->|]; [lia|].
      pose proof (nyA_mono L c (y1 + 1) y2 Hy1 H2 ltac:(lia)). lia. }
    lia.
  - assert (y1 = y2) by lia. subst y2. destruct Hlt as [Hlt|[_ [Hlt|[-> Hlt]]]]; [lia| |].
    + destruct (shapeA L c y1 H1) as (Hlen & Hf & _). unfold dayA, lenA in *.
      pose proof (prefix_lt (msA c y1) (Z.to_nat (m1 - 1)) (Z.to_nat (m2 - 1)) Hf ltac:(lia) ltac:(lia)).
      lia.
    + unfold dayA. lia.
Qed.

Lemma dayA_inj L c d1 m1 y1 d2 m2 y2 :
  year_dom L c y1 -> year_dom L c y2 -> overlapA c y1 = false -> overlapA c y2 = false ->
  1 <= m1 <= 13 -> 1 <= d1 <= lenA c m1 y1 ->
  1 <= m2 <= 13 -> 1 <= d2 <= lenA c m2 y2 ->
  dayA c d1 m1 y1 = dayA c d2 m2 y2 -> (d1, m1, y1) = (d2, m2, y2).
Proof.
  intros H1 H2 O1 O2 Hm1 Hd1 Hm2 Hd2 E.
  assert (Hcases : date_lt (d1, m1, y1) (d2, m2, y2) \/ date_lt (d2, m2, y2) (d1, m1, y1) \/
                   (y1 = y2 /\ m1 = m2 /\ d1 = d2)) by (unfold date_lt; lia).
  destruct Hcases as [Hc|[Hc|(-> & -> & ->)]]; [| |reflexivity].
  - pose proof (dayA_order L c _ _ _ _ _ _ H1 H2 O1 Hm1 Hd1 Hm2 Hd2 Hc). lia.
  - pose proof (dayA_order L c _ _ _ _ _ _ H2 H1 O2 Hm2 Hd2 Hm1 Hd1 Hc). lia.
Qed.

(* ---------- day_to_dmy ---------- *)
(** Days covered by the table of a calendar. *)
Definition day_dom (L c jd : Z) : Prop :=
  (rule_cal c /\ jd_ok L jd) \/
  (c = CALENDAR_PERSIAN /\ 1547650 <= jd < 2798239) \/
  (c = CALENDAR_CHINESE /\ 625379 <= jd < 4277781 /\
   ~ In jd [746276; 801793; 826629; 868267; 882146; 1018016; 1146947; 1425627]).

Lemma jal_jd L jd : long_ok L -> 1547650 <= jd < 2798239 ->
  exists y0 ys, approx_year L jd CALENDAR_PERSIAN = Ret y0 /\ -1096 <= y0 <= 2327 /\
    -1096 <= ys <= 2327 /\ jal_ny ys <= jd < jal_ny (ys + 1).
Proof.
  intros HL Hj. exists (apx 5 jd).
  destruct (year_in_range jal_ny (-1096) 2328 jd) as (ys & H1 & H2);
    [lia|change (jal_ny (-1096)) with 1547650; lia|change (jal_ny 2328) with 2798239; lia|].
  exists ys. assert (K : known_cal 5) by (right; left; reflexivity).
  split; [apply approx_year_ok; [exact HL|unfold jd_ok, long_ok in *; lia|exact K]|].
  pose proof (apx_mono 5 1547650 jd K ltac:(lia)) as A. pose proof (apx_mono 5 jd 2798238 K ltac:(lia)) as B.
  change (apx 5 1547650) with (-1096) in A. change (apx 5 2798238) with 2327 in B. lia.
Qed.

Lemma chin_ny_0 : chin_ny (-363) = 625379.
Proof. vm_compute. reflexivity. Qed.
Lemma chin_ny_last : chin_ny 9636 + msum (chin_months 9636) = 4277781.
Proof. vm_compute. reflexivity. Qed.
Lemma chin_gap_days :
  map (fun y => chin_ny y + msum (chin_months y)) [-33; 119; 187; 301; 339; 711; 1064; 1827]
  = [746276; 801793; 826629; 868267; 882146; 1018016; 1146947; 1425627].
Proof. vm_compute. reflexivity. Qed.

Lemma chin_jd L jd : long_ok L -> 625379 <= jd < 4277781 ->
  ~ In jd [746276; 801793; 826629; 868267; 882146; 1018016; 1146947; 1425627] ->
  exists y0 ys, approx_year L jd CALENDAR_CHINESE = Ret y0 /\ -363 <= y0 <= 9636 /\
    -363 <= ys <= 9636 /\ chin_ny ys <= jd < chin_ny ys + msum (chin_months ys).
Proof.
  intros HL Hj Hg. exists (apx 7 jd).
  assert (Hys : exists ys, -363 <= ys <= 9636 /\ chin_ny ys <= jd < chin_ny ys + msum (chin_months ys)).
  { pose proof chin_ny_0. pose proof chin_ny_last.
    destruct (Z_lt_le_dec jd (chin_ny 9636)) as [Hlt|Hge]; [|exists 9636; lia].
    destruct (year_in_range chin_ny (-363) 9636 jd) as (ys & H1 & H2); try lia.
    exists ys. split; [lia|]. pose proof (chin_link_ok ys ltac:(lia)) as E.
    destruct (chin_gap ys) eqn:G; [|lia].
    destruct (Z.eq_dec jd (chin_ny ys + msum (chin_months ys))) as [Ej|]; [|lia].
    exfalso. apply Hg. rewrite <- chin_gap_days, Ej.
    apply (in_map (fun y => chin_ny y + msum (chin_months y))).
    unfold chin_gap in G. apply existsb_exists in G. destruct G as (x & Hx & Ex).
    apply Z.eqb_eq in Ex. subst x. exact Hx. }
  destruct Hys as (ys & H1 & H2).
  exists ys. assert (K : known_cal 7) by (right; right; reflexivity).
  split; [apply approx_year_ok; [exact HL|unfold jd_ok, long_ok in *; lia|exact K]|].
  pose proof (apx_mono 7 625379 jd K ltac:(lia)) as A. pose proof (apx_mono 7 jd 4277780 K ltac:(lia)) as B.
  change (apx 7 625379) with (-363) in A. change (apx 7 4277780) with 9636 in B. lia.
Qed.

Lemma chin_mono y : -363 <= y < 9636 -> chin_ny y < chin_ny (y + 1).
Proof.
  intros H. pose proof (chin_link_ok y ltac:(lia)). destruct (chin_shape y ltac:(lia)) as (_ & _ & C & _).
  destruct (chin_gap y); lia.
Qed.

(** What is known about the result of day_to_dmy( ). *)
Definition dmy_good (L jd c d m y : Z) : Prop :=
  dmy_result L jd c d m y /\ year_dom L c y /\
  1 <= m <= 13 /\ 1 <= d <= lenA c m y /\ dayA c d m y = jd.

Lemma day_to_dmyA L jd c :
  long_ok L -> day_dom L c jd -> exists d m y, dmy_good L jd c d m y.
Proof.
  intros HL [[H1 H2]|[[-> H]|[-> [H Hg]]]]; unfold dmy_good.
  - destruct (day_to_dmy_rule L jd c HL H2 H1) as (N & d & m & y & Hr & Hy & Hm & Hd & Ej & _).
    exists d, m, y. destruct (rule_not57 c H1) as (E5 & E7 & _).
    split; [exists N; intros fuel ic month0 Hf; exists ic; apply Hr; exact Hf|].
    split; [left; split; assumption|]. unfold lenA, dayA, nyA, msA. rewrite E5, E7.
    split; [exact Hm|]. split; [exact Hd|exact Ej].
  - destruct (jal_jd L jd HL H) as (y0 & ys & E0 & Hy0 & Hys & Hin).
    destruct (jal_shape ys Hys) as (_ & _ & C & _).
    assert (Hmono : forall a b, -1096 <= a -> b <= 2328 -> a < b -> jal_ny a < jal_ny b).
    { apply range_mono. intros z Hz. pose proof (jal_step2 z ltac:(lia)). lia. }
    destruct (chart_search L CALENDAR_PERSIAN jd jal_ny jal_months (fun ic _ => ic) (-1096) 2327 ys)
      with (k := Z.to_nat (Z.abs (y0 - ys))) (y0 := y0) as (y & Hy & Hjy & Hs);
      try (unfold long_ok in HL; lia).
    + intros ic y Hy. apply jal_data_ok; assumption.
    + intros y Hy1 Hy2. pose proof (Hmono y ys ltac:(lia) ltac:(lia) ltac:(lia)). lia.
    + intros y Hy1 Hy2. destruct (Z.eq_dec (ys + 1) y) as [E|]; [subst y; lia|].
      pose proof (Hmono (ys + 1) y ltac:(lia) ltac:(lia) ltac:(lia)). lia.
    + intros y Hy. destruct (jal_shape y Hy) as (_ & B & _). pose proof (msum_bound _ B). lia.
    + assert (Hd : year_dom L CALENDAR_PERSIAN y) by (right; left; split; [reflexivity|exact Hy]).
      destruct (shapeA L CALENDAR_PERSIAN y Hd) as (Sl & Sf & _).
      change (msA CALENDAR_PERSIAN y) with (jal_months y) in *.
      destruct (jal_shape y Hy) as (_ & _ & _ & _ & Hb).
      destruct (month_search_ok L jd (jal_months y) (jal_ny y) 0 (-1) Sf HL Hjy)
        as (n & d & Em & Hn & Hdd & Hjd); [unfold long_ok in HL; rewrite Sl; lia|lia|rewrite Sl; lia|].
      exists d, (0 + Z.of_nat n + 1), y. split; [|split; [exact Hd|]].
      * exists (S (Z.to_nat (Z.abs (y0 - ys)))). intros fuel ic month0 Hf.
        destruct (Hs ic fuel ltac:(lia)) as (ic0 & Es). exists ic0.
        unfold day_to_dmy_st. change (CALENDAR_PERSIAN =? CALENDAR_JULIAN_GREGORIAN) with false.
        cbv iota zeta. rewrite E0. cbn [obind]. rewrite Es. cbn [obind]. rewrite Em. reflexivity.
      * rewrite Sl in Hn. unfold lenA, dayA.
        change (msA CALENDAR_PERSIAN y) with (jal_months y). change (nyA CALENDAR_PERSIAN y) with (jal_ny y).
        replace (Z.to_nat (0 + Z.of_nat n + 1 - 1)) with n by lia.
        split; [lia|]. split; [exact Hdd|lia].
  - destruct (chin_jd L jd HL H Hg) as (y0 & ys & E0 & Hy0 & Hys & Hin).
    pose proof (range_mono chin_ny (-363) 9636 chin_mono) as Hmono.
    destruct (chart_search L CALENDAR_CHINESE jd chin_ny chin_months (fun _ y => chin_ic y) (-363) 9636 ys)
      with (k := Z.to_nat (Z.abs (y0 - ys))) (y0 := y0) as (y & Hy & Hjy & Hs);
      try (unfold long_ok in HL; lia).
    + intros ic y Hy. apply chin_data_ok; assumption.
    + intros y Hy1 Hy2. pose proof (Hmono y ys ltac:(lia) ltac:(lia) ltac:(lia)). lia.
    + intros y Hy1 Hy2. pose proof (chin_link_ok ys ltac:(lia)) as Hl.
      assert (jd < chin_ny (ys + 1)) by (destruct (chin_gap ys); lia).
      destruct (Z.eq_dec (ys + 1) y) as [E|]; [subst y; lia|].
      pose proof (Hmono (ys + 1) y ltac:(lia) ltac:(lia) ltac:(lia)). lia.
    + intros y Hy. destruct (chin_shape y Hy) as (_ & B & _). pose proof (msum_bound _ B). lia.
    + assert (Hd : year_dom L CALENDAR_CHINESE y) by (right; right; split; [reflexivity|exact Hy]).
      destruct (chin_shape y Hy) as (Sl & Sf & _ & Hb).
      destruct (month_search_ok L jd (chin_months y) (chin_ny y) 0 (-1) Sf HL Hjy)
        as (n & d & Em & Hn & Hdd & Hjd); [unfold long_ok in HL; rewrite Sl; lia|lia|rewrite Sl; lia|].
      exists d, (0 + Z.of_nat n + 1), y. split; [|split; [exact Hd|]].
      * exists (S (Z.to_nat (Z.abs (y0 - ys)))). intros fuel ic month0 Hf.
        destruct (Hs ic fuel ltac:(lia)) as (ic0 & Es). exists (chin_ic y).
        unfold day_to_dmy_st. change (CALENDAR_CHINESE =? CALENDAR_JULIAN_GREGORIAN) with false.
        cbv iota zeta. rewrite E0. cbn [obind]. rewrite Es. cbn [obind]. rewrite Em. reflexivity.
      * rewrite Sl in Hn. unfold lenA, dayA.
        change (msA CALENDAR_CHINESE y) with (chin_months y). change (nyA CALENDAR_CHINESE y) with (chin_ny y).
        replace (Z.to_nat (0 + Z.of_nat n + 1 - 1)) with n by lia.
        split; [lia|]. split; [exact Hdd|lia].
Qed.

(** Results are unique. *)
Lemma dmy_result_unique L jd c d m y d' m' y' :
  dmy_result L jd c d m y -> dmy_result L jd c d' m' y' -> (d, m, y) = (d', m', y').
Proof.
  intros [N H] [N' H']. destruct (H (max N N') 0 0 ltac:(lia)) as (a & Ea).
  destruct (H' (max N N') 0 0 ltac:(lia)) as (b & Eb). rewrite Ea in Eb. congruence.
Qed.
