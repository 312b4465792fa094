(** Properties C01-C15: calendar conversion (date.cpp).

    L is LONG_MAX; the ranges [year_ok], [year_mid], [jd_ok] and the
    observations [dmy_result], [dmy_error], [dmy_never_returns] are defined in
    [DateVocab], the calendars' own rules in [DateSpec], the code in
    [DateModel]. *)
From Coq Require Import Lia.
From Verif Require Import CBase DateModel DateVocab DateSpec DateFacts DateThms.

(** The ranges are not empty: every date within millions of years, with 32-bit
    and with 64-bit long. *)
Example ranges_32 : long_ok LMAX32 /\ year_ok LMAX32 (-3000000) /\ year_mid LMAX32 2000000
  /\ jd_ok LMAX32 1000000000.
Proof. unfold long_ok, year_ok, year_mid, jd_ok, LMAX32. lia. Qed.
Example ranges_64 : long_ok LMAX64 /\ year_ok LMAX64 (-10000000000000000) /\
  year_mid LMAX64 9000000000000000 /\ jd_ok LMAX64 4000000000000000000.
Proof. unfold long_ok, year_ok, year_mid, jd_ok, LMAX64. lia. Qed.

(** C01.  Every day number has a date in each rule-based calendar, and
    dmy_to_day( ) of that date is the same day number. *)
Theorem C01_jd_to_date_and_back :
  forall L jd c, long_ok L -> jd_ok L jd -> rule_cal c \/ c = CALENDAR_JULIAN_GREGORIAN ->
    (exists d m y, dmy_result L jd c d m y) /\
    (forall d m y, dmy_result L jd c d m y -> dmy_to_day L d m y c = Ret jd).
Proof. exact C01_jd_to_date_and_back_proof. Qed.
Print Assumptions C01_jd_to_date_and_back.

Example C01_case : jd_ok LMAX32 (-987654321) /\ rule_cal CALENDAR_HEBREW /\
  day_to_dmy LMAX32 10 0 2451545 CALENDAR_HEBREW = Ret (23, 4, 5760) /\
  day_to_dmy LMAX32 10 0 0 CALENDAR_JULIAN_GREGORIAN = Ret (1, 1, -4712).
Proof. unfold jd_ok, rule_cal, LMAX32. repeat split; try lia; vm_compute; reflexivity. Qed.

(** C01, Jalali (observational Persian) calendar: inside its range of days. *)
Theorem C01_jalali :
  forall L jd, long_ok L -> 1547650 <= jd < 2798239 ->
    (exists d m y, dmy_result L jd CALENDAR_PERSIAN d m y) /\
    (forall d m y, dmy_result L jd CALENDAR_PERSIAN d m y ->
       dmy_to_day L d m y CALENDAR_PERSIAN = Ret jd).
Proof. exact C01_jalali_proof. Qed.
Print Assumptions C01_jalali.

Example C01_jalali_case : day_to_dmy LMAX64 10 0 2451545 CALENDAR_PERSIAN = Ret (11, 10, 1378).
Proof. vm_compute. reflexivity. Qed.

(** C02.  In the calendars with plain rules every valid date comes back. *)
Theorem C02_date_to_jd_and_back :
  forall L c d m y n, long_ok L -> year_mid L y -> rule_cal c -> c <> CALENDAR_HEBREW ->
    1 <= m <= 13 -> days_in_month L m y c = Ret n -> 1 <= d <= n ->
    exists jd, dmy_to_day L d m y c = Ret jd /\ dmy_result L jd c d m y.
Proof. exact C02_date_to_jd_and_back_proof. Qed.
Print Assumptions C02_date_to_jd_and_back.

Example C02_case : year_mid LMAX32 (-2000000) /\ days_in_month LMAX32 2 (-2000000) CALENDAR_GREGORIAN = Ret 29.
Proof. unfold year_mid, LMAX32. split; [lia|vm_compute; reflexivity]. Qed.

(** C02, combined Julian/Gregorian calendar: every date that was in use comes back. *)
Theorem C02_switchover :
  forall L d m y, long_ok L -> year_mid L y -> switch_valid (d, m, y) ->
    exists jd, dmy_to_day L d m y CALENDAR_JULIAN_GREGORIAN = Ret jd /\
      dmy_result L jd CALENDAR_JULIAN_GREGORIAN d m y.
Proof. exact C02_switchover_proof. Qed.
Print Assumptions C02_switchover.

Example C02_switchover_case : switch_valid (4, 10, 1582) /\ switch_valid (15, 10, 1582) /\
  switch_valid (29, 2, 1500) /\ switch_valid (29, 2, 2000).
Proof.
  repeat split; (left; vm_compute; intuition congruence) || (right; vm_compute; intuition congruence).
Qed.

(** C02, Jalali calendar, all but the last year of its range. *)
Theorem C02_jalali :
  forall L d m y n, long_ok L -> -1096 <= y <= 2326 -> 1 <= m <= 13 ->
    days_in_month L m y CALENDAR_PERSIAN = Ret n -> 1 <= d <= n ->
    exists jd, dmy_to_day L d m y CALENDAR_PERSIAN = Ret jd /\ dmy_result L jd CALENDAR_PERSIAN d m y.
Proof. exact C02_jalali_proof. Qed.
Print Assumptions C02_jalali.

Example C02_jalali_case : days_in_month LMAX64 12 1399 CALENDAR_PERSIAN = Ret 30.
Proof. vm_compute. reflexivity. Qed.

(** C02 fails in the last Jalali year: month 12 of 2327 has, according to
    days_in_month( ), 126 days, and its 30th day is reported back as an error. *)
Theorem C02_jalali_last_year_refuted :
  days_in_month LMAX64 12 2327 CALENDAR_PERSIAN = Ret 126 /\
  exists jd, dmy_to_day LMAX64 30 12 2327 CALENDAR_PERSIAN = Ret jd /\ dmy_error LMAX64 jd CALENDAR_PERSIAN.
Proof. exact C02_jalali_last_year_refuted_proof. Qed.
Print Assumptions C02_jalali_last_year_refuted.

(** C02, Hebrew calendar.  Partial: neither the year nor the one before may be
    an edge year (molad exactly on Tuesday, 9h 204p of a common year). *)
Theorem C02_hebrew_partial :
  forall L mc d m y n, long_ok L -> year_mid L y -> hebrew_month_count mc ->
    ~ hebrew_edge_year mc y -> ~ hebrew_edge_year mc (y - 1) -> 1 <= m <= 13 ->
    days_in_month L m y CALENDAR_HEBREW = Ret n -> 1 <= d <= n ->
    exists jd, dmy_to_day L d m y CALENDAR_HEBREW = Ret jd /\ dmy_result L jd CALENDAR_HEBREW d m y.
Proof. exact C02_hebrew_partial_proof. Qed.
Print Assumptions C02_hebrew_partial.

Example C02_hebrew_case : exists mc, hebrew_month_count mc /\
  ~ hebrew_edge_year mc 5785 /\ ~ hebrew_edge_year mc 5784.
Proof. exact C02_hebrew_case_proof. Qed.

(** C02 fails in Hebrew edge years: 1 Tishri 193152 converts to the day number
    that converts back to 28 Elul 193151. *)
Theorem C02_hebrew_refuted :
  exists jd, dmy_to_day LMAX64 1 1 193152 CALENDAR_HEBREW = Ret jd /\
    days_in_month LMAX64 1 193152 CALENDAR_HEBREW = Ret 30 /\
    dmy_result LMAX64 jd CALENDAR_HEBREW 28 13 193151.
Proof. exact C02_hebrew_refuted_proof. Qed.
Print Assumptions C02_hebrew_refuted.

(** C03.  Dates returned by day_to_dmy( ) are well formed. *)
Theorem C03_dates_well_formed :
  forall L jd c d m y, long_ok L -> jd_ok L jd -> rule_cal c \/ c = CALENDAR_JULIAN_GREGORIAN ->
    dmy_result L jd c d m y ->
    1 <= m <= 13 /\ (c <> CALENDAR_HEBREW -> c <> CALENDAR_REVOLUTIONARY -> m <= 12) /\
    exists n, days_in_month L m y c = Ret n /\ 1 <= d <= n /\ n <= 31.
Proof. exact C03_dates_well_formed_proof. Qed.
Print Assumptions C03_dates_well_formed.

Example C03_case : day_to_dmy LMAX64 10 0 2460310 CALENDAR_GREGORIAN = Ret (31, 12, 2023) /\
  days_in_month LMAX64 12 2023 CALENDAR_GREGORIAN = Ret 31.
Proof. vm_compute. split; reflexivity. Qed.

(** C03 for the two calendars with a limited range (Jalali, Chinese). *)
Theorem C03_charts_well_formed :
  forall L jd c d m y, long_ok L ->
    (c = CALENDAR_PERSIAN /\ 1547650 <= jd < 2798239) \/
    (c = CALENDAR_CHINESE /\ 625379 <= jd < 4277781) ->
    dmy_result L jd c d m y ->
    1 <= m <= 13 /\ exists n, days_in_month L m y c = Ret n /\ 1 <= d <= n /\
      (y <> 2327 -> n <= 31).
Proof. exact C03_charts_well_formed_proof. Qed.
Print Assumptions C03_charts_well_formed.

Example C03_charts_case : day_to_dmy LMAX64 10 0 2451545 CALENDAR_CHINESE = Ret (25, 11, 4636).
Proof. vm_compute. reflexivity. Qed.

(** C04.  day_to_dmy( ) returns for every day number and every calendar code
    other than the Chinese one: with a date, or with the error day = -1. *)
Theorem C04_terminates :
  forall L jd c, long_ok L -> jd_ok L jd -> c <> CALENDAR_CHINESE ->
    (exists d m y, dmy_result L jd c d m y) \/ dmy_error L jd c.
Proof. exact C04_terminates_proof. Qed.
Print Assumptions C04_terminates.

Example C04_case : jd_ok LMAX32 1000000000 /\ CALENDAR_PERSIAN <> CALENDAR_CHINESE /\
  day_to_dmy LMAX32 10 7 1000000000 CALENDAR_PERSIAN = Ret (-1, 7, 2732575).
Proof. unfold jd_ok, LMAX32. split; [lia|]. split; [discriminate|vm_compute; reflexivity]. Qed.

(** C04, Chinese calendar.  Partial: all but eight days. *)
Theorem C04_chinese_partial :
  forall L jd, long_ok L -> jd_ok L jd -> Z.abs jd <= 700000000000 -> ~ In jd [746276; 801793; 826629; 868267; 882146; 1018016; 1146947; 1425627] ->
    (exists d m y, dmy_result L jd CALENDAR_CHINESE d m y) \/ dmy_error L jd CALENDAR_CHINESE.
Proof. exact C04_chinese_partial_proof. Qed.
Print Assumptions C04_chinese_partial.

Example C04_chinese_case : ~ In 2451545 [746276; 801793; 826629; 868267; 882146; 1018016; 1146947; 1425627].
Proof. cbn [In]. lia. Qed.

(** C04 fails on exactly those eight days: the search alternates between two
    years for ever. *)
Theorem C04_chinese_refuted :
  forall L jd, long_ok L -> In jd [746276; 801793; 826629; 868267; 882146; 1018016; 1146947; 1425627] -> dmy_never_returns L jd CALENDAR_CHINESE.
Proof. exact C04_chinese_refuted_proof. Qed.
Print Assumptions C04_chinese_refuted.

Example C04_chinese_refuted_case : long_ok LMAX64 /\ In 1425627 [746276; 801793; 826629; 868267; 882146; 1018016; 1146947; 1425627].
Proof. unfold long_ok, LMAX64. split; [lia|cbn [In]; lia]. Qed.

(** C05.  dmy_to_day( ) in the Gregorian calendar is the one numbering of days
    with 1 January 2000 = 2451545. *)
Theorem C05_gregorian_is_day_count :
  forall f, counts_days gregorian (1, 1, 2000) 2451545 f ->
  forall L d m y, long_ok L -> year_ok L y -> valid gregorian (d, m, y) ->
    dmy_to_day L d m y CALENDAR_GREGORIAN = Ret (f (d, m, y)).
Proof. exact C05_gregorian_is_day_count_proof. Qed.
Print Assumptions C05_gregorian_is_day_count.

Example C05_case : valid gregorian (29, 2, -4) /\ ~ valid gregorian (29, 2, -100) /\
  dmy_to_day LMAX64 29 2 (-4) CALENDAR_GREGORIAN = Ret 1719658.
Proof. vm_compute. intuition congruence. Qed.

(** Such a numbering exists, so the theorem above is not empty. *)
Theorem C05_gregorian_is_day_count_exists :
  exists f, counts_days gregorian (1, 1, 2000) 2451545 f.
Proof. exact C05_gregorian_is_day_count_exists_proof. Qed.
Print Assumptions C05_gregorian_is_day_count_exists.

(** C05.  The same for the Julian calendar, with 1 January 2000 = 2451558. *)
Theorem C05_julian_is_day_count :
  forall f, counts_days julian (1, 1, 2000) 2451558 f ->
  forall L d m y, long_ok L -> year_ok L y -> valid julian (d, m, y) ->
    dmy_to_day L d m y CALENDAR_JULIAN = Ret (f (d, m, y)).
Proof. exact C05_julian_is_day_count_proof. Qed.
Print Assumptions C05_julian_is_day_count.

Example C05_julian_case : valid julian (29, 2, -100) /\
  dmy_to_day LMAX64 1 1 (-4712) CALENDAR_JULIAN = Ret 0.
Proof. vm_compute. intuition congruence. Qed.

(** Such a numbering exists, so the theorem above is not empty. *)
Theorem C05_julian_is_day_count_exists :
  exists f, counts_days julian (1, 1, 2000) 2451558 f.
Proof. exact C05_julian_is_day_count_exists_proof. Qed.
Print Assumptions C05_julian_is_day_count_exists.

(** C06.  dmy_to_day( ) and days_in_month( ): no overflow and no access outside
    the month table, for every calendar code, every year in the stated range
    (for the Chinese calendar, of an int), every month 1..13 and any day within
    a million days. *)
Theorem C06_no_overflow_dmy_to_day :
  forall L d m y c, long_ok L -> year_ok L y -> (c = CALENDAR_CHINESE -> Z.abs y <= 2147483000) ->
    1 <= m <= 13 -> -1000000 <= d <= 1000000 ->
    (exists jd, dmy_to_day L d m y c = Ret jd) /\ (exists n, days_in_month L m y c = Ret n).
Proof. exact C06_no_overflow_dmy_to_day_proof. Qed.
Print Assumptions C06_no_overflow_dmy_to_day.

Example C06_case : year_ok LMAX32 (-3000000) /\ year_ok LMAX64 13000000000000000.
Proof. unfold year_ok, LMAX32, LMAX64. lia. Qed.

(** C06.  day_to_dmy( ): no overflow, for every calendar code and every day in
    the stated range (Chinese: within 7e11 days), at any moment of its search. *)
Theorem C06_no_overflow_day_to_dmy :
  forall L jd c, long_ok L -> jd_ok L jd -> (c = CALENDAR_CHINESE -> Z.abs jd <= 700000000000) ->
    forall fuel ic month0, day_to_dmy_st L fuel ic month0 jd c <> UB.
Proof. exact C06_no_overflow_day_to_dmy_proof. Qed.
Print Assumptions C06_no_overflow_day_to_dmy.

Example C06_overflow_beyond : day_to_dmy LMAX32 10 0 (-2147483648) CALENDAR_GREGORIAN = UB.
Proof. vm_compute. reflexivity. Qed.

(** Outside month 1..13 the table is read out of bounds: month 15, and month 0
    with days_in_month( ). *)
Theorem C06_month_out_of_range_refuted :
  dmy_to_day LMAX64 1 15 2000 CALENDAR_GREGORIAN = UB /\
  days_in_month LMAX64 0 2000 CALENDAR_GREGORIAN = UB.
Proof. exact C06_month_out_of_range_refuted_proof. Qed.
Print Assumptions C06_month_out_of_range_refuted.

(** C07.  The switchover itself. *)
Theorem C07_four_then_fifteen :
  forall L, long_ok L ->
    dmy_to_day L 4 10 1582 CALENDAR_JULIAN_GREGORIAN = Ret 2299160 /\
    dmy_to_day L 15 10 1582 CALENDAR_JULIAN_GREGORIAN = Ret 2299161 /\
    dmy_result L 2299160 CALENDAR_JULIAN_GREGORIAN 4 10 1582 /\
    dmy_result L 2299161 CALENDAR_JULIAN_GREGORIAN 15 10 1582.
Proof. exact C07_four_then_fifteen_proof. Qed.
Print Assumptions C07_four_then_fifteen.

(** C07.  The dates in use are numbered consecutively: the day after a date has
    the next number (so 4 October 1582 is followed directly by the 15th). *)
Theorem C07_consecutive :
  forall L d m y jd, long_ok L -> year_ok L y -> year_ok L (y + 1) -> switch_valid (d, m, y) ->
    dmy_to_day L d m y CALENDAR_JULIAN_GREGORIAN = Ret jd ->
    let '(d', m', y') := switch_next (d, m, y) in
    switch_valid (d', m', y') /\ dmy_to_day L d' m' y' CALENDAR_JULIAN_GREGORIAN = Ret (jd + 1).
Proof. exact C07_consecutive_proof. Qed.
Print Assumptions C07_consecutive.

Example C07_consecutive_case : switch_valid (28, 2, 1700) /\ switch_next (28, 2, 1700) = (1, 3, 1700) /\
  switch_valid (28, 2, 1500) /\ switch_next (28, 2, 1500) = (29, 2, 1500).
Proof.
  repeat split; try reflexivity;
    ((left; vm_compute; intuition congruence) || (right; vm_compute; intuition congruence)).
Qed.

(** C07.  Two dates in use never share a day number. *)
Theorem C07_injective :
  forall L d1 m1 y1 d2 m2 y2 jd, long_ok L -> year_ok L y1 -> year_ok L y2 ->
    switch_valid (d1, m1, y1) -> switch_valid (d2, m2, y2) ->
    dmy_to_day L d1 m1 y1 CALENDAR_JULIAN_GREGORIAN = Ret jd ->
    dmy_to_day L d2 m2 y2 CALENDAR_JULIAN_GREGORIAN = Ret jd ->
    (d1, m1, y1) = (d2, m2, y2).
Proof. exact C07_injective_proof. Qed.
Print Assumptions C07_injective.

(** C07.  Every day number has a date in use, and only dates in use are returned. *)
Theorem C07_result_in_use :
  forall L jd, long_ok L -> jd_ok L jd -> exists d m y,
    dmy_result L jd CALENDAR_JULIAN_GREGORIAN d m y /\ switch_valid (d, m, y) /\
    dmy_to_day L d m y CALENDAR_JULIAN_GREGORIAN = Ret jd.
Proof. exact C07_result_in_use_proof. Qed.
Print Assumptions C07_result_in_use.

(** C07.  The ten dates that were skipped, 5-14 October 1582, are accepted and
    share their day number with a date in use. *)
Theorem C07_skipped_dates :
  forall L d, long_ok L -> 5 <= d <= 14 ->
    exists jd d' m', dmy_to_day L d 10 1582 CALENDAR_JULIAN_GREGORIAN = Ret jd /\
      ~ switch_valid (d, 10, 1582) /\ switch_valid (d', m', 1582) /\
      dmy_to_day L d' m' 1582 CALENDAR_JULIAN_GREGORIAN = Ret jd.
Proof. exact C07_skipped_dates_proof. Qed.
Print Assumptions C07_skipped_dates.

(** C08.  1 Tishri is where the molad and the four postponements put it.
    Partial: except when the molad falls at exactly 18 h (see the refutation). *)
Theorem C08_new_year_partial :
  forall L mc y, long_ok L -> year_ok L y -> hebrew_month_count mc ->
    molad (mc y) mod parts_per_day <> hms 18 0 ->
    dmy_to_day L 1 1 y CALENDAR_HEBREW
    = Ret (347997 + hebrew_new_year_day (molad (mc y)) (hebrew_leap y) (hebrew_leap (y - 1))).
Proof. exact C08_new_year_partial_proof. Qed.
Print Assumptions C08_new_year_partial.

Example C08_case : exists mc, hebrew_month_count mc /\ molad (mc 5785) mod parts_per_day <> hms 18 0 /\
  dmy_to_day LMAX64 1 1 5785 CALENDAR_HEBREW = Ret 2460587.
Proof. exact C08_case_proof. Qed.

(** C08 fails when the molad is at exactly 18 h: tradition postpones (molad
    zaken), the code does not; 1 Tishri 75795 comes out two days early. *)
Theorem C08_new_year_refuted :
  forall mc, hebrew_month_count mc ->
    dmy_to_day LMAX64 1 1 75795 CALENDAR_HEBREW = Ret 28031512 /\
    347997 + hebrew_new_year_day (molad (mc 75795)) (hebrew_leap 75795) (hebrew_leap 75794) = 28031514.
Proof. exact C08_new_year_refuted_proof. Qed.
Print Assumptions C08_new_year_refuted.

(** C08.  1 Tishri is never a Sunday, Wednesday or Friday (day number mod 7 =
    6, 2, 4), in any year. *)
Theorem C08_weekday :
  forall L y, long_ok L -> year_ok L y ->
    exists jd, dmy_to_day L 1 1 y CALENDAR_HEBREW = Ret jd /\
      jd mod 7 <> 6 /\ jd mod 7 <> 2 /\ jd mod 7 <> 4.
Proof. exact C08_weekday_proof. Qed.
Print Assumptions C08_weekday.

Example C08_weekday_case : dmy_to_day LMAX64 1 1 2000 CALENDAR_GREGORIAN = Ret 2451545 /\ 2451545 mod 7 = 5.
Proof. vm_compute. split; reflexivity. Qed. (* 1 January 2000 was a Saturday *)

(** C08.  Year lengths, month lengths, and their sum.  Partial: not for edge years. *)
Theorem C08_year_and_months_partial :
  forall L mc y, long_ok L -> year_ok L y -> year_ok L (y + 1) -> hebrew_month_count mc ->
    ~ hebrew_edge_year mc y ->
    exists a n, dmy_to_day L 1 1 y CALENDAR_HEBREW = Ret a /\
      dmy_to_day L 1 1 (y + 1) CALENDAR_HEBREW = Ret (a + n) /\
      (if hebrew_leap y then 383 <= n <= 385 else 353 <= n <= 355) /\
      (forall m, 1 <= m <= 13 ->
         days_in_month L m y CALENDAR_HEBREW = Ret (hebrew_month (hebrew_leap y) n m)) /\
      fold_right Z.add 0 (map (hebrew_month (hebrew_leap y) n) [1; 2; 3; 4; 5; 6; 7; 8; 9; 10; 11; 12; 13]) = n.
Proof. exact C08_year_and_months_partial_proof. Qed.
Print Assumptions C08_year_and_months_partial.

Example C08_year_case : exists mc, hebrew_month_count mc /\ ~ hebrew_edge_year mc 5785.
Proof. destruct C02_hebrew_case as (mc & A & B & _). exists mc. split; assumption. Qed.

(** C08 fails in every edge year: it has 352 days, two fewer than its months. *)
Theorem C08_edge_years_refuted :
  forall L mc y, long_ok L -> year_ok L y -> year_ok L (y + 1) -> hebrew_month_count mc ->
    hebrew_edge_year mc y ->
    exists a, dmy_to_day L 1 1 y CALENDAR_HEBREW = Ret a /\
      dmy_to_day L 1 1 (y + 1) CALENDAR_HEBREW = Ret (a + 352) /\
      dmy_to_day L 29 13 y CALENDAR_HEBREW = Ret (a + 353).
Proof. exact C08_edge_years_refuted_proof. Qed.
Print Assumptions C08_edge_years_refuted.

Example C08_edge_case : exists mc, hebrew_month_count mc /\ hebrew_edge_year mc 193151.
Proof. exact C08_edge_case_proof. Qed.

(** C09.  Islamic calendar: the one numbering of days with leap years
    2 5 7 10 13 16 18 21 24 26 29 of 30 and 1 Muharram 1 = 1948440. *)
Theorem C09_islamic_is_day_count :
  forall f, counts_days islamic (1, 1, 1) 1948440 f ->
  forall L d m y, long_ok L -> year_ok L y -> valid islamic (d, m, y) ->
    dmy_to_day L d m y CALENDAR_ISLAMIC = Ret (f (d, m, y)).
Proof. exact C09_islamic_is_day_count_proof. Qed.
Print Assumptions C09_islamic_is_day_count.

Example C09_case : valid islamic (30, 12, 2) /\ ~ valid islamic (30, 12, 1) /\ valid islamic (30, 12, -1).
Proof. vm_compute. intuition congruence. Qed.

(** Such a numbering exists, so the theorem above is not empty. *)
Theorem C09_islamic_is_day_count_exists :
  exists f, counts_days islamic (1, 1, 1) 1948440 f.
Proof. exact C09_islamic_is_day_count_exists_proof. Qed.
Print Assumptions C09_islamic_is_day_count_exists.

(** C09.  Thirty Islamic years are 10631 days. *)
Theorem C09_cycle :
  forall L y jd, long_ok L -> year_ok L y -> year_ok L (y + 30) ->
    dmy_to_day L 1 1 y CALENDAR_ISLAMIC = Ret jd ->
    dmy_to_day L 1 1 (y + 30) CALENDAR_ISLAMIC = Ret (jd + 10631).
Proof. exact C09_cycle_proof. Qed.
Print Assumptions C09_cycle.

(** C10.  Modern Persian calendar: the one numbering of days by Birashk's
    2820-year rule with 1 Farvardin 1 = 1948321. *)
Theorem C10_modern_persian_is_day_count :
  forall f, counts_days modern_persian (1, 1, 1) 1948321 f ->
  forall L d m y, long_ok L -> year_ok L y -> valid modern_persian (d, m, y) ->
    dmy_to_day L d m y CALENDAR_MODERN_PERSIAN = Ret (f (d, m, y)).
Proof. exact C10_modern_persian_is_day_count_proof. Qed.
Print Assumptions C10_modern_persian_is_day_count.

Example C10_case : valid modern_persian (30, 12, 1375) /\ ~ valid modern_persian (30, 12, 1376).
Proof. vm_compute. intuition congruence. Qed.

(** Such a numbering exists, so the theorem above is not empty. *)
Theorem C10_modern_persian_is_day_count_exists :
  exists f, counts_days modern_persian (1, 1, 1) 1948321 f.
Proof. exact C10_modern_persian_is_day_count_exists_proof. Qed.
Print Assumptions C10_modern_persian_is_day_count_exists.

(** C10.  French Revolutionary calendar: the one numbering of days with twelve
    months of 30 days and then 5 or 6, by the explicit leap-year rule
    [french_leap], with 1 Vendemiaire 1 = 2375840. *)
Theorem C10_french_is_day_count :
  forall f, counts_days (french french_leap) (1, 1, 1) 2375840 f ->
  forall L d m y, long_ok L -> year_ok L y -> valid (french french_leap) (d, m, y) ->
    dmy_to_day L d m y CALENDAR_REVOLUTIONARY = Ret (f (d, m, y)).
Proof. exact C10_french_is_day_count_proof. Qed.
Print Assumptions C10_french_is_day_count.

Example C10_french_case : valid (french french_leap) (6, 13, 3) /\ ~ valid (french french_leap) (6, 13, 4) /\
  map french_leap [3; 7; 11; 15] = [true; true; true; true].
Proof. vm_compute. intuition congruence. Qed.

(** C10.  French leap years are four or five years apart, for ever. *)
Theorem C10_french_leap_spacing :
  forall L y, long_ok L -> year_ok L y -> year_ok L (y + 5) ->
    days_in_month L 13 y CALENDAR_REVOLUTIONARY = Ret 6 ->
    exists k, (k = 4 \/ k = 5) /\ days_in_month L 13 (y + k) CALENDAR_REVOLUTIONARY = Ret 6 /\
      forall j, 0 < j < k -> days_in_month L 13 (y + j) CALENDAR_REVOLUTIONARY = Ret 5.
Proof. exact C10_french_leap_spacing_proof. Qed.
Print Assumptions C10_french_leap_spacing.

Example C10_french_spacing_case : days_in_month LMAX64 13 15 CALENDAR_REVOLUTIONARY = Ret 6 /\
  days_in_month LMAX64 13 20 CALENDAR_REVOLUTIONARY = Ret 6.
Proof. vm_compute. split; reflexivity. Qed.

(** C10.  New year is strictly increasing, by 365 or 366 days, and is the day
    after the last day of the year before; with 32- and 64-bit long. *)
Theorem C10_years :
  forall L c y, long_ok L -> year_ok L y -> year_ok L (y + 1) ->
    c = CALENDAR_REVOLUTIONARY \/ c = CALENDAR_MODERN_PERSIAN ->
    exists a n k last, dmy_to_day L 1 1 y c = Ret a /\ dmy_to_day L 1 1 (y + 1) c = Ret (a + n) /\
      (n = 365 \/ n = 366) /\ (k = 12 \/ k = 13) /\ days_in_month L k y c = Ret last /\
      1 <= last /\ dmy_to_day L last k y c = Ret (a + n - 1).
Proof. exact C10_years_proof. Qed.
Print Assumptions C10_years.

(** C11.  Jalali years -1096..2326: 365 or 366 days, six months of 31, five of
    30 and one of 29 or 30, and the next year begins the day after. *)
Theorem C11_jalali_years :
  forall L y, long_ok L -> -1096 <= y <= 2326 ->
    let last := if jalali_leap y then 30 else 29 in
    exists a, dmy_to_day L 1 1 y CALENDAR_PERSIAN = Ret a /\
      dmy_to_day L 1 1 (y + 1) CALENDAR_PERSIAN = Ret (a + 336 + last) /\
      forall m, 1 <= m <= 13 -> days_in_month L m y CALENDAR_PERSIAN
        = Ret (if m <=? 6 then 31 else if m <=? 11 then 30 else if m =? 12 then last else 0).
Proof. exact C11_jalali_years_proof. Qed.
Print Assumptions C11_jalali_years.

(** C11.  1 Farvardin 1 is day 1948321 and Jalali leap years are four or five
    years apart. *)
Theorem C11_jalali_anchor_and_spacing :
  (forall L, long_ok L -> dmy_to_day L 1 1 1 CALENDAR_PERSIAN = Ret 1948321) /\
  (forall y, -1096 <= y <= 2321 -> jalali_leap y = true ->
     jalali_leap (y + 1) = false /\ jalali_leap (y + 2) = false /\ jalali_leap (y + 3) = false /\
     (jalali_leap (y + 4) = true \/ jalali_leap (y + 5) = true)).
Proof. exact C11_jalali_anchor_and_spacing_proof. Qed.
Print Assumptions C11_jalali_anchor_and_spacing.

(** C11.  Outside the range an error is reported. *)
Theorem C11_jalali_errors :
  forall L, long_ok L ->
    (forall d m y, year_ok L y -> y < -1096 \/ 2327 < y -> dmy_to_day L d m y CALENDAR_PERSIAN = Ret 0) /\
    (forall jd, jd_ok L jd -> jd < 1547650 \/ 2798239 <= jd -> dmy_error L jd CALENDAR_PERSIAN).
Proof. exact C11_jalali_errors_proof. Qed.
Print Assumptions C11_jalali_errors.

(** C11 fails in the last year of the documented range: year 2327 is accepted,
    but its twelfth month has 126 days. *)
Theorem C11_jalali_last_year_refuted :
  dmy_to_day LMAX64 1 12 2327 CALENDAR_PERSIAN = Ret 2798210 /\
  days_in_month LMAX64 12 2327 CALENDAR_PERSIAN = Ret 126.
Proof. exact C11_jalali_last_year_refuted_proof. Qed.
Print Assumptions C11_jalali_last_year_refuted.

(** C12.  Every tabulated Chinese year: twelve months of 29 or 30 days and a
    thirteenth in leap years. *)
Theorem C12_chinese_months :
  forall L y m, long_ok L -> -363 <= y <= 9636 -> 1 <= m <= 13 ->
    exists n, days_in_month L m y CALENDAR_CHINESE = Ret n /\
      (n = 29 \/ n = 30 \/ (m = 13 /\ n = 0)).
Proof. exact C12_chinese_months_proof. Qed.
Print Assumptions C12_chinese_months.

(** C12.  Each tabulated year ends where the next begins.  Partial: all but the
    eight years listed, which end one day early. *)
Theorem C12_chinese_join_partial :
  forall L y, long_ok L -> -363 <= y < 9636 ->
    exists a ms, dmy_to_day L 1 1 y CALENDAR_CHINESE = Ret a /\
      Forall2 (fun m n => days_in_month L m y CALENDAR_CHINESE = Ret n)
        [1; 2; 3; 4; 5; 6; 7; 8; 9; 10; 11; 12; 13] ms /\
      dmy_to_day L 1 1 (y + 1) CALENDAR_CHINESE
      = Ret (a + fold_right Z.add 0 ms +
             if existsb (Z.eqb y) [-33; 119; 187; 301; 339; 711; 1064; 1827] then 1 else 0).
Proof. exact C12_chinese_join_partial_proof. Qed.
Print Assumptions C12_chinese_join_partial.

(** C12 fails in those eight years: the year ends one day before the next begins. *)
Theorem C12_chinese_join_refuted :
  exists a, dmy_to_day LMAX64 1 1 1828 CALENDAR_CHINESE = Ret a /\
    days_in_month LMAX64 13 1827 CALENDAR_CHINESE = Ret 29 /\
    dmy_to_day LMAX64 29 13 1827 CALENDAR_CHINESE = Ret (a - 2).
Proof. exact C12_chinese_join_refuted_proof. Qed.
Print Assumptions C12_chinese_join_refuted.

(** C12.  Every covered day converts to a date and back, and the intercalary
    month reported is 0..13, non-zero exactly when the year has 13 months.
    Partial: all but eight days. *)
Theorem C12_chinese_days_partial :
  forall L jd, long_ok L -> 625379 <= jd < 4277781 -> ~ In jd [746276; 801793; 826629; 868267; 882146; 1018016; 1146947; 1425627] ->
    (exists d m y, dmy_result L jd CALENDAR_CHINESE d m y) /\
    (forall d m y, dmy_result L jd CALENDAR_CHINESE d m y ->
       dmy_to_day L d m y CALENDAR_CHINESE = Ret jd /\ -363 <= y <= 9636) /\
    (forall d m y ic' fuel ic m0,
       day_to_dmy_st L fuel ic m0 jd CALENDAR_CHINESE = Ret (d, m, y, ic') ->
       0 <= ic' <= 13 /\ (ic' = 0 <-> days_in_month L 13 y CALENDAR_CHINESE = Ret 0)).
Proof. exact C12_chinese_days_partial_proof. Qed.
Print Assumptions C12_chinese_days_partial.

Example C12_case : 625379 <= 2460351 < 4277781 /\ day_to_dmy LMAX64 10 0 2460351 CALENDAR_CHINESE = Ret (1, 1, 4661).
Proof. split; [lia|vm_compute; reflexivity]. Qed.

(** C13.  An unknown calendar code is reported: 0, or day = -1. *)
Theorem C13_unknown_calendar :
  forall L c, c < 0 \/ 8 < c ->
    (forall d m y, dmy_to_day L d m y c = Ret 0) /\ (forall jd, dmy_error L jd c).
Proof. exact C13_unknown_calendar_proof. Qed.
Print Assumptions C13_unknown_calendar.

Example C13_case : dmy_to_day LMAX64 1 1 2000 9 = Ret 0 /\ day_to_dmy LMAX64 10 5 2451545 (-1) = Ret (-1, 5, -1).
Proof. vm_compute. split; reflexivity. Qed.

(** C13.  Years and days outside the Jalali and Chinese ranges are reported.
    Partial: for the Chinese calendar the year must fit an int (see the refutation). *)
Theorem C13_outside_charts_partial :
  forall L, long_ok L ->
    (forall d m y, year_ok L y -> y < -1096 \/ 2327 < y -> dmy_to_day L d m y CALENDAR_PERSIAN = Ret 0) /\
    (forall d m y, -2147483000 <= y <= 2147483000 -> y < -363 \/ 9636 < y ->
       dmy_to_day L d m y CALENDAR_CHINESE = Ret 0) /\
    (forall jd, jd_ok L jd -> jd < 1547650 \/ 2798239 <= jd -> dmy_error L jd CALENDAR_PERSIAN) /\
    (forall jd, jd_ok L jd -> Z.abs jd <= 700000000000 -> jd < 625379 \/ 4277781 <= jd ->
       dmy_error L jd CALENDAR_CHINESE).
Proof. exact C13_outside_charts_partial_proof. Qed.
Print Assumptions C13_outside_charts_partial.

Example C13_charts_case : dmy_to_day LMAX32 1 1 9637 CALENDAR_CHINESE = Ret 0 /\
  dmy_to_day LMAX32 1 1 (-364) CALENDAR_CHINESE = Ret 0.
Proof. vm_compute. split; reflexivity. Qed.

(** C13 fails with 64-bit long: the year is narrowed to int before the range
    check, so the year 2^32 + 4637 is accepted. *)
Theorem C13_chinese_year_refuted :
  exists jd, dmy_to_day LMAX64 1 1 4294971933 CALENDAR_CHINESE = Ret jd /\ jd <> 0.
Proof. exact C13_chinese_year_refuted_proof. Qed.
Print Assumptions C13_chinese_year_refuted.

(** C13.  When day_to_dmy( ) reports an error it leaves *month as it was: a
    caller that prints it without checking the day prints stale data. *)
Theorem C13_month_untouched :
  forall L fuel ic month0 jd c d m y ic',
    day_to_dmy_st L fuel ic month0 jd c = Ret (d, m, y, ic') ->
    dmy_error L jd c -> d = -1 /\ m = month0.
Proof. exact C13_month_untouched_proof. Qed.
Print Assumptions C13_month_untouched.

(** C14.  Later dates have larger day numbers. *)
Theorem C14_dates_ordered :
  forall L c d1 m1 y1 n1 d2 m2 y2 n2 j1 j2, long_ok L -> rule_cal c -> c <> CALENDAR_HEBREW ->
    year_ok L y1 -> year_ok L y2 -> 1 <= m1 <= 13 -> 1 <= m2 <= 13 ->
    days_in_month L m1 y1 c = Ret n1 -> 1 <= d1 <= n1 ->
    days_in_month L m2 y2 c = Ret n2 -> 1 <= d2 <= n2 ->
    dmy_to_day L d1 m1 y1 c = Ret j1 -> dmy_to_day L d2 m2 y2 c = Ret j2 ->
    (date_lt (d1, m1, y1) (d2, m2, y2) <-> j1 < j2).
Proof. exact C14_dates_ordered_proof. Qed.
Print Assumptions C14_dates_ordered.

Example C14_case : date_lt (31, 12, -1) (1, 1, 0) /\ days_in_month LMAX64 12 (-1) CALENDAR_JULIAN = Ret 31.
Proof. split; [unfold date_lt; lia|vm_compute; reflexivity]. Qed.

(** C14 for the Jalali and Chinese calendars (Jalali: all but the last year). *)
Theorem C14_charts_ordered :
  forall L c d1 m1 y1 n1 d2 m2 y2 n2 j1 j2, long_ok L ->
    (c = CALENDAR_PERSIAN /\ -1096 <= y1 <= 2326 /\ -1096 <= y2 <= 2326) \/
    (c = CALENDAR_CHINESE /\ -363 <= y1 <= 9636 /\ -363 <= y2 <= 9636) ->
    1 <= m1 <= 13 -> 1 <= m2 <= 13 ->
    days_in_month L m1 y1 c = Ret n1 -> 1 <= d1 <= n1 ->
    days_in_month L m2 y2 c = Ret n2 -> 1 <= d2 <= n2 ->
    dmy_to_day L d1 m1 y1 c = Ret j1 -> dmy_to_day L d2 m2 y2 c = Ret j2 ->
    date_lt (d1, m1, y1) (d2, m2, y2) -> j1 < j2.
Proof. exact C14_charts_ordered_proof. Qed.
Print Assumptions C14_charts_ordered.

(** C14, Hebrew calendar.  Partial: the earlier date is not in an edge year. *)
Theorem C14_hebrew_partial :
  forall L mc d1 m1 y1 n1 d2 m2 y2 n2 j1 j2, long_ok L -> hebrew_month_count mc ->
    ~ hebrew_edge_year mc y1 ->
    year_ok L y1 -> year_ok L y2 -> 1 <= m1 <= 13 -> 1 <= m2 <= 13 ->
    days_in_month L m1 y1 CALENDAR_HEBREW = Ret n1 -> 1 <= d1 <= n1 ->
    days_in_month L m2 y2 CALENDAR_HEBREW = Ret n2 -> 1 <= d2 <= n2 ->
    dmy_to_day L d1 m1 y1 CALENDAR_HEBREW = Ret j1 -> dmy_to_day L d2 m2 y2 CALENDAR_HEBREW = Ret j2 ->
    date_lt (d1, m1, y1) (d2, m2, y2) -> j1 < j2.
Proof. exact C14_hebrew_partial_proof. Qed.
Print Assumptions C14_hebrew_partial.

(** C14, combined Julian/Gregorian calendar. *)
Theorem C14_switchover :
  forall L d1 m1 y1 d2 m2 y2 j1 j2, long_ok L -> year_ok L y1 -> year_ok L y2 ->
    switch_valid (d1, m1, y1) -> switch_valid (d2, m2, y2) ->
    dmy_to_day L d1 m1 y1 CALENDAR_JULIAN_GREGORIAN = Ret j1 ->
    dmy_to_day L d2 m2 y2 CALENDAR_JULIAN_GREGORIAN = Ret j2 ->
    date_lt (d1, m1, y1) (d2, m2, y2) -> j1 < j2.
Proof. exact C14_switchover_proof. Qed.
Print Assumptions C14_switchover.

(** C15.  days_in_month( ) is the distance between the firsts of two months. *)
Theorem C15_days_in_month :
  forall L c m y, long_ok L -> year_dom L c y -> 1 <= m <= 12 ->
    exists a n, dmy_to_day L 1 m y c = Ret a /\ days_in_month L m y c = Ret n /\
      dmy_to_day L 1 (m + 1) y c = Ret (a + n).
Proof. exact C15_days_in_month_proof. Qed.
Print Assumptions C15_days_in_month.

Example C15_case : year_dom LMAX64 CALENDAR_HEBREW (-5000) /\ year_dom LMAX64 CALENDAR_CHINESE 4636.
Proof.
  split; [left; split; [unfold rule_cal; tauto|unfold year_ok, LMAX64; lia]|].
  right; right. split; [reflexivity|lia].
Qed.

(** C15.  dmy_to_day( ) is additive in the day.  Partial: all days but -999. *)
Theorem C15_additive_partial :
  forall L c m y d jd, long_ok L -> year_dom L c y -> 1 <= m <= 13 ->
    -1000000 <= d <= 1000000 -> d <> -999 ->
    dmy_to_day L 1 m y c = Ret jd -> dmy_to_day L d m y c = Ret (jd + (d - 1)).
Proof. exact C15_additive_partial_proof. Qed.
Print Assumptions C15_additive_partial.

(** C15 fails for day -999, which dmy_to_day( ) takes as a request for the
    number of days in the month. *)
Theorem C15_additive_refuted :
  dmy_to_day LMAX64 1 1 2000 CALENDAR_GREGORIAN = Ret 2451545 /\
  dmy_to_day LMAX64 (-999) 1 2000 CALENDAR_GREGORIAN = Ret 31.
Proof. exact C15_additive_refuted_proof. Qed.
Print Assumptions C15_additive_refuted.
