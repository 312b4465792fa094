(** Proofs of the theorems stated in [PropTime]. *)
From Coq Require Import Lia ZifyBool.
From Verif Require Import CBase CLemmas DateModel DatePure DateRound DateSpec DateFacts DateCount
  TimeModel TimeSpec TimeProofs LeapProofs EasterProofs.

Lemma gregorian_inj d1 m1 y1 d2 m2 y2 :
  1 <= m1 <= 13 -> 1 <= d1 <= lenA CALENDAR_GREGORIAN m1 y1 ->
  1 <= m2 <= 13 -> 1 <= d2 <= lenA CALENDAR_GREGORIAN m2 y2 ->
  dayA CALENDAR_GREGORIAN d1 m1 y1 = dayA CALENDAR_GREGORIAN d2 m2 y2 -> (d1, m1, y1) = (d2, m2, y2).
Proof.
  set (L := 700 * (Z.abs y1 + Z.abs y2) + 2147483647).
  apply (dayA_inj L); try reflexivity; left; (split; [left; reflexivity|]); unfold year_ok, L; lia.
Qed.

Lemma gregorian_exists : exists f, gregorian_jd f.
Proof.
  exists (dayR CALENDAR_GREGORIAN). split; [vm_compute; reflexivity|].
  apply (rule_counts CALENDAR_GREGORIAN); [left; reflexivity|discriminate].
Qed.

Lemma jd_unique f : gregorian_jd f -> forall d m y, 1 <= m <= 12 ->
  1 <= d <= lenA CALENDAR_GREGORIAN m y -> f (d, m, y) = dayA CALENDAR_GREGORIAN d m y.
Proof.
  intros [H0 H1] d m y Hm Hd.
  assert (H : gregorian_mjd (fun dt => f dt - 2400001)).
  { split; [lia|]. intros dt V. rewrite (H1 dt V). lia. }
  pose proof (mjd_unique _ H d m y Hm Hd) as X. cbv beta in X. lia.
Qed.

Lemma julian_unique f : julian_jd f -> forall d m y, 1 <= m <= 12 ->
  1 <= d <= lenA CALENDAR_JULIAN m y -> f (d, m, y) = dayA CALENDAR_JULIAN d m y.
Proof.
  intros H d m y Hm Hd.
  pose proof (rule_unique CALENDAR_JULIAN f (1, 1, -4712) 0) as U.
  assert (E0 : dayR CALENDAR_JULIAN (1, 1, -4712) = 0) by (vm_compute; reflexivity).
  apply (U ltac:(right; left; reflexivity) ltac:(discriminate) ltac:(split; cbn; lia) E0 H (d, m, y)).
  split; [lia|]. change (rule_of CALENDAR_JULIAN) with julian. rewrite julian_len by lia. exact Hd.
Qed.

Lemma roman_len_34 c t y : c = CALENDAR_GREGORIAN \/ c = CALENDAR_JULIAN -> 114 <= t <= 148 ->
  3 <= t / 31 <= 4 /\ 1 <= t mod 31 + 1 <= lenA c (t / 31) y.
Proof.
  intros Hc Ht. assert (t / 31 = 3 \/ t / 31 = 4) as [E|E] by lia; rewrite E.
  - assert (lenA c 3 y = 31) as -> by (destruct Hc as [->| ->]; reflexivity). lia.
  - assert (lenA c 4 y = 30) as -> by (destruct Hc as [->| ->]; reflexivity). lia.
Qed.

Lemma C16_two_gregorian_conversions_proof :
  forall L jd, long_ok L -> jd_ok L jd ->
    exists d m y, greg_day_to_dmy L jd = Ret (d, m, y) /\ dmy_result L jd CALENDAR_GREGORIAN d m y.
Proof.
  intros L jd HL Hj. destruct (greg_day_to_dmy_date L jd HL Hj) as (d & m & y & E & Hm & Hd & Hjd).
  exists d, m, y. split; [exact E|].
  destruct (day_to_dmyA L jd CALENDAR_GREGORIAN HL) as (d' & m' & y' & R & _ & Hm' & Hd' & Hjd').
  { left. split; [left; reflexivity|exact Hj]. }
  rewrite <- Hjd' in Hjd.
  assert (X : (d, m, y) = (d', m', y')) by (apply gregorian_inj; try assumption; lia).
  congruence.
Qed.

Lemma C16_gregorian_conversion_inverse_proof :
  forall f, gregorian_jd f ->
  forall L jd, long_ok L -> jd_ok L jd ->
    exists d m y, greg_day_to_dmy L jd = Ret (d, m, y) /\ valid gregorian (d, m, y) /\ f (d, m, y) = jd.
Proof.
  intros f Hf L jd HL Hj. destruct (greg_day_to_dmy_date L jd HL Hj) as (d & m & y & E & Hm & Hd & Hjd).
  exists d, m, y. split; [exact E|]. split.
  - split; [lia|]. rewrite gregorian_len by lia. exact Hd.
  - rewrite (jd_unique f Hf) by assumption. exact Hjd.
Qed.

Lemma C17_month_macros_proof :
  forall f, gregorian_mjd f ->
  forall L m y, long_ok L -> year_ok L y -> 1 <= m <= 12 ->
    month_macro m L y = Ret (f (1, m, y)).
Proof.
  intros f Hf L m y HL Hy Hm. rewrite month_macro_ok by assumption. f_equal. symmetry.
  apply mjd_unique; [exact Hf|exact Hm|].
  assert (m = 2 \/ In m [1; 3; 5; 7; 8; 10; 12] \/ In m [4; 6; 9; 11]) as [->|[Hi|Hi]] by (cbn; lia).
  - rewrite greg_len_2. destruct (greg_leapb y); lia.
  - rewrite greg_len_31 by exact Hi. lia.
  - rewrite greg_len_30 by exact Hi. lia.
Qed.

Lemma C17_macros_match_dmy_to_day_proof :
  forall L m y, long_ok L -> year_ok L y -> 1 <= m <= 12 ->
    exists mjd, month_macro m L y = Ret mjd /\ dmy_to_day L 1 m y CALENDAR_GREGORIAN = Ret (mjd + 2400001).
Proof.
  intros L m y HL Hy Hm. exists (dayA CALENDAR_GREGORIAN 1 m y - 2400001).
  split; [apply month_macro_ok; assumption|].
  rewrite (dmy_to_dayA L 1 m y CALENDAR_GREGORIAN); [f_equal; lia|exact HL| |lia|unfold RETURN_DAYS_IN_MONTH; lia..].
  left. split; [left; reflexivity|exact Hy].
Qed.

Lemma C18_half_year_proof :
  forall f, gregorian_mjd f ->
  forall L limit n, long_ok L -> f (1, 12, 2021) <= n -> f (1, 12, 2021) <= limit ->
  Z.min n limit <= 1000000000 ->
    exists low high y, td_minus_utc_int L limit n = Ret (Predicted low high) /\
      low <= Z.min n limit < high /\
      ((low = f (1, 1, y) /\ high = f (1, 7, y)) \/ (low = f (1, 7, y) /\ high = f (1, 1, y + 1))).
Proof.
  intros f Hf L limit n HL Hn Hl Hm.
  assert (J : forall y, f (1, 1, y) = greg_ny y - 2400001).
  { intros y. rewrite (mjd_unique f Hf) by (try rewrite greg_len_31 by (cbn; tauto); lia).
    rewrite greg_day_early by lia. lia. }
  assert (J7 : forall y, f (1, 7, y) = greg_ny (y + 1) - 184 - 2400001).
  { intros y. rewrite (mjd_unique f Hf) by (try rewrite greg_len_31 by (cbn; tauto); lia).
    rewrite greg_day_late by lia. change (before_next 7) with 184. lia. }
  assert (D : f (1, 12, 2021) = 59549).
  { rewrite (mjd_unique f Hf) by (try rewrite greg_len_31 by (cbn; tauto); lia). vm_compute. reflexivity. }
  rewrite D in *.
  destruct (td_utc_predicted L limit n HL Hn Hl Hm) as (low & high & E & Eh).
  destruct (half_year_ok L (Z.min n limit) HL ltac:(lia)) as (y & Hy & Ey).
  rewrite Ey in Eh. exists low, high, y. split; [exact E|]. rewrite !J, !J7.
  destruct (Z.ltb_spec (Z.min n limit) (greg_ny (y + 1) - 184 - 2400001)); injection Eh as <- <-; lia.
Qed.

Lemma C19_leap_seconds_proof :
  forall f, gregorian_mjd f ->
  forall L limit n, long_ok L -> f (1, 1, 1972) <= n < f (1, 12, 2021) -> n <= limit ->
    td_minus_utc_int L limit n = Ret (Tabulated (tai_minus_utc f n)).
Proof.
  intros f Hf L limit n HL Hn Hl.
  assert (D : f (1, 12, 2021) = 59549).
  { rewrite (mjd_unique f Hf) by (try rewrite greg_len_31 by (cbn; tauto); lia). vm_compute. reflexivity. }
  assert (J : f (1, 1, 1972) = 41317).
  { rewrite (mjd_unique f Hf) by (try rewrite greg_len_31 by (cbn; tauto); lia). vm_compute. reflexivity. }
  rewrite D, J in Hn. apply td_utc_table; assumption.
Qed.

Lemma C19_numbering_exists_proof :
  (exists f, gregorian_mjd f) /\ (exists f, gregorian_jd f) /\ (exists f, julian_jd f).
Proof.
  destruct gregorian_exists as [f [H0 H1]]. split; [|split].
  - exists (fun dt => f dt - 2400001). split; [lia|]. intros dt V. rewrite (H1 dt V). lia.
  - exists f. split; assumption.
  - exists (dayR CALENDAR_JULIAN). split; [vm_compute; reflexivity|].
    apply (rule_counts CALENDAR_JULIAN); [right; left; reflexivity|discriminate].
Qed.

Lemma C20_easter_proof :
  forall f, gregorian_jd f ->
  forall L y, long_ok L -> 0 <= y <= L ->
    exists m d, easter_date L y = Ret (m, d) /\ valid gregorian (d, m, y) /\
      first_sunday_after (f (19, 4, y) - gregorian_epact y) (f (d, m, y)) /\
      f (22, 3, y) <= f (d, m, y) <= f (25, 4, y).
Proof.
  intros f Hf L y HL Hy. destruct (easter_ok L y HL Hy) as (t & E & Ht & S & P).
  destruct (roman_len_34 CALENDAR_GREGORIAN t y ltac:(left; reflexivity) Ht) as [Hm Hd].
  exists (t / 31), (t mod 31 + 1). split; [exact E|].
  split; [split; [lia|rewrite gregorian_len by lia; exact Hd]|].
  assert (F : f (t mod 31 + 1, t / 31, y) = greg_ny (y + 1) - 306 + (t - 93)).
  { rewrite (jd_unique f Hf) by (exact Hd || lia). apply march_day. lia. }
  assert (F3 : f (22, 3, y) = greg_ny (y + 1) - 306 + 21).
  { rewrite (jd_unique f Hf), greg_day_late by (try rewrite greg_len_31 by (cbn; tauto); lia).
    change (before_next 3) with 306. lia. }
  assert (F4 : forall d, 1 <= d <= 30 -> f (d, 4, y) = greg_ny (y + 1) - 275 + d - 1).
  { intros d H. rewrite (jd_unique f Hf), greg_day_late by (try rewrite greg_len_30 by (cbn; tauto); lia).
    change (before_next 4) with 275. lia. }
  rewrite F, F3, !F4 by lia. unfold first_sunday_after, sunday. cbv zeta in S, P.
  split; [split; [exact S|lia]|lia].
Qed.

Lemma C20_easter_period_proof :
  forall L y, long_ok L -> 0 <= y -> y + 5700000 <= L -> easter_date L (y + 5700000) = easter_date L y.
Proof.
  intros L y HL H0 H1.
  destruct gregorian_exists as [f Hf].
  destruct (easter_ok L y HL ltac:(lia)) as (t & E & Ht & S & P).
  destruct (easter_ok L (y + 5700000) HL ltac:(lia)) as (t' & E' & Ht' & S' & P').
  cbv zeta in *. rewrite E, E'.
  assert (Ep : gregorian_epact (y + 5700000) = gregorian_epact y).
  { unfold gregorian_epact. cbv zeta.
    replace ((y + 5700000) mod 19) with (y mod 19) by lia.
    replace ((y + 5700000) / 100) with (y / 100 + 57000) by lia.
    replace (3 * (y / 100 + 57000 + 1) / 4) with (3 * (y / 100 + 1) / 4 + 42750) by lia.
    replace ((5 + 8 * (y / 100 + 57000 + 1)) / 25) with ((5 + 8 * (y / 100 + 1)) / 25 + 18240) by lia.
    generalize (3 * (y / 100 + 1) / 4) ((5 + 8 * (y / 100 + 1)) / 25) (y mod 19). intros u v w.
    replace ((14 + 11 * w - (u + 42750) + (v + 18240)) mod 30) with ((14 + 11 * w - u + v) mod 30) by lia.
    reflexivity. }
  rewrite Ep in P'.
  assert (En : greg_ny (y + 5700000 + 1) = greg_ny (y + 1) + 297411750 * 7).
  { unfold greg_ny.
    replace ((y + 5700000 + 1 + 3) / 4) with ((y + 1 + 3) / 4 + 1425000) by lia.
    replace ((y + 5700000 + 1 + 99) / 100) with ((y + 1 + 99) / 100 + 57000) by lia.
    replace ((y + 5700000 + 1 + 399) / 400) with ((y + 1 + 399) / 400 + 14250) by lia. lia. }
  rewrite En in *. clear En Ep E E'. revert S S' P P'. generalize (greg_ny (y + 1)) (gregorian_epact y).
  intros N e S S' P P'. assert (t = t') by lia. subst t'. reflexivity.
Qed.

Lemma C20_easter_negative_refuted_proof :
  easter_date LMAX64 (-7) = Ret (2, 30) /\ ~ valid gregorian (30, 2, -7).
Proof.
  split; [vm_compute; reflexivity|]. cbn. lia.
Qed.

Lemma C20_orthodox_easter_proof :
  forall f, julian_jd f ->
  forall L y, long_ok L -> 0 <= y <= L ->
    exists m d, easter_date_julian L y = Ret (m, d) /\ valid julian (d, m, y) /\
      first_sunday_after (f (19, 4, y) - julian_epact y) (f (d, m, y)) /\
      f (22, 3, y) <= f (d, m, y) <= f (25, 4, y).
Proof.
  intros f Hf L y HL Hy. destruct (easter_julian_ok L y HL Hy) as (t & E & Ht & S & P).
  destruct (roman_len_34 CALENDAR_JULIAN t y ltac:(right; reflexivity) Ht) as [Hm Hd].
  exists (t / 31), (t mod 31 + 1). split; [exact E|].
  split; [split; [lia|rewrite julian_len by lia; exact Hd]|].
  assert (F : f (t mod 31 + 1, t / 31, y) = jul_ny (y + 1) - 306 + (t - 93)).
  { rewrite (julian_unique f Hf) by (exact Hd || lia). apply march_day_julian. lia. }
  assert (F3 : f (22, 3, y) = jul_ny (y + 1) - 306 + 21).
  { rewrite (julian_unique f Hf), jul_day_late
      by (try change (lenA CALENDAR_JULIAN 3 y) with 31; lia).
    change (before_next 3) with 306. lia. }
  assert (F4 : forall d, 1 <= d <= 30 -> f (d, 4, y) = jul_ny (y + 1) - 275 + d - 1).
  { intros d H. rewrite (julian_unique f Hf), jul_day_late
      by (try change (lenA CALENDAR_JULIAN 4 y) with 30; lia).
    change (before_next 4) with 275. lia. }
  rewrite F, F3, !F4 by lia. unfold first_sunday_after, sunday. cbv zeta in S, P.
  split; [split; [exact S|lia]|lia].
Qed.

Lemma C20_orthodox_easter_period_proof :
  forall L y, long_ok L -> 0 <= y -> y + 532 <= L -> easter_date_julian L (y + 532) = easter_date_julian L y.
Proof.
  intros L y HL H0 H1.
  destruct (easter_julian_ok L y HL ltac:(lia)) as (t & E & Ht & S & P).
  destruct (easter_julian_ok L (y + 532) HL ltac:(lia)) as (t' & E' & Ht' & S' & P').
  cbv zeta in *. rewrite E, E'.
  assert (Ep : julian_epact (y + 532) = julian_epact y).
  { unfold julian_epact. replace ((y + 532) mod 19) with (y mod 19) by lia. reflexivity. }
  rewrite Ep in P'.
  assert (En : jul_ny (y + 532 + 1) = jul_ny (y + 1) + 27759 * 7).
  { unfold jul_ny. replace ((y + 532 + 1 + 3) / 4) with ((y + 1 + 3) / 4 + 133) by lia. lia. }
  rewrite En in *. clear En Ep E E'. revert S S' P P'. generalize (jul_ny (y + 1)) (julian_epact y).
  intros N e S S' P P'. assert (t = t') by lia. subst t'. reflexivity.
Qed.
