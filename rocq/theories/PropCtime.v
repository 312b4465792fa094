(** Property C46 (writing a time as text).

    [writes L t fmt s]: full_ctimel( buff, t, fmt), t in days since J2000, puts the text s into the
    80 bytes of buff and nothing after them; [L] is LONG_MAX.  [whole_text fmt jd j0 d m y k] is the text for the
    instant k units of the last place shown after 0h of day number jd, that is day d of month m of
    year y, a year that begins with day j0 + 1; [shown] is that instant.  [nudge fmt n] is what the function adds to
    the time before it cuts it: half of the [last_place] if rounding is asked for.  These and the rest
    of the vocabulary are in [CtimeSpec]; [reads], the reading of a text as a time, is in [TstrSpec]. *)
From Coq Require Import Lia QArith Qround Qabs.
From Coq Require Import String.
From Verif Require Import CBase CStr DateModel DateVocab TstrModel TstrSpec TstrMore TstrThms CtimeModel CtimeSpec CtimeThms.
Local Open Scope string_scope.
Local Open Scope list_scope.
Local Open Scope Z_scope.

(** C46: a time written as seconds, minutes, hours or days.  The text shows the instant reached after the
    nudge, cut to the last place: its day, month and year in the calendar of the format, its time of
    day, its day of the year and day of the week, as the format asks, for every format and every
    calendar but the Persian and the Chinese.  Nothing is written outside of the 80
    bytes.  (With month names there must be at most twelve months, and days have at most eleven decimals: see the
    findings below.) *)
Theorem C46_text :
  forall L t fmt n d m y,
  long_ok L -> per_day fmt n ->
  rule_cal (calendar_of fmt) \/ calendar_of fmt = CALENDAR_JULIAN_GREGORIAN ->
  jd_ok L (day_of (t + nudge fmt n)) -> dmy_result L (day_of (t + nudge fmt n)) (calendar_of fmt) d m y ->
  (has fmt FULL_CTIME_TIME_ONLY = false ->
     Z.abs y <= 10 ^ 15 /\ (has fmt FULL_CTIME_TWO_DIGIT_YEAR = true -> Z.abs y <= 2147483647) /\
     (has fmt FULL_CTIME_MONTHS_AS_DIGITS = false -> m <= 12) /\ (style fmt = 768 -> (places fmt <= 11)%nat)) ->
  let jd := day_of (t + nudge fmt n) in
  exists j1 k, dmy_to_day L 1 1 y (calendar_of fmt) = Ret j1 /\
    writes L t fmt (whole_text fmt jd (j1 - 1) d m y k) /\
    0 <= k < n * 10 ^ Z.of_nat (places fmt) /\
    (shown fmt n jd k <= t + nudge fmt n)%Q /\ (t + nudge fmt n < shown fmt n jd k + last_place fmt n)%Q.
Proof. exact C46_text_proof. Qed.
Print Assumptions C46_text.

(** 2000 Jan 1.5, in seconds with two decimals, day of the week first, rounded. *)
Example C46_text_case : let fmt := 32 + 2048 + 262144 + 2097152 in
  per_day fmt 86400 /\ dmy_result LMAX64 (day_of (0 + nudge fmt 86400)) (calendar_of fmt) 1 1 2000 /\
  whole_text fmt 2451545 2451544 1 1 2000 4320000 = zs "Sat 2000  1 Jan 12:00:00.00".
Proof.
  cbv zeta. split; [vm_compute; tauto|]. split; [|vm_compute; reflexivity].
  apply run_eval; [unfold rule_cal; tauto|apply jd_eval; vm_compute; reflexivity|vm_compute; reflexivity].
Qed.

(** C46: if rounding is asked for, the instant the text shows differs from the time by at most half
    of the last place; else it is late by at most a twentieth of a second (less with decimals) and early by
    less than one in the last place. *)
Theorem C46_rounding :
  forall L t fmt n d m y,
  long_ok L -> per_day fmt n ->
  rule_cal (calendar_of fmt) \/ calendar_of fmt = CALENDAR_JULIAN_GREGORIAN ->
  jd_ok L (day_of (t + nudge fmt n)) -> dmy_result L (day_of (t + nudge fmt n)) (calendar_of fmt) d m y ->
  (has fmt FULL_CTIME_TIME_ONLY = false ->
     Z.abs y <= 10 ^ 15 /\ (has fmt FULL_CTIME_TWO_DIGIT_YEAR = true -> Z.abs y <= 2147483647) /\
     (has fmt FULL_CTIME_MONTHS_AS_DIGITS = false -> m <= 12) /\ (style fmt = 768 -> (places fmt <= 11)%nat)) ->
  let jd := day_of (t + nudge fmt n) in
  exists j1 k, writes L t fmt (whole_text fmt jd (j1 - 1) d m y k) /\
    (has fmt FULL_CTIME_ROUNDING = true -> (Qabs (shown fmt n jd k - t) <= (1 # 2) * last_place fmt n)%Q) /\
    (has fmt FULL_CTIME_ROUNDING = false ->
       (shown fmt n jd k - t <= (1 # 20) / 86400 / inject_Z (10 ^ Z.of_nat (places fmt)))%Q /\
       (t - shown fmt n jd k < last_place fmt n)%Q).
Proof. exact C46_rounding_proof. Qed.
Print Assumptions C46_rounding.

Example C46_rounding_case : let fmt := 32 + 2097152 in
  per_day fmt 86400 /\ has fmt FULL_CTIME_ROUNDING = true /\ (last_place fmt 86400 == 1 # 8640000)%Q /\
  dmy_result LMAX64 (day_of (0 + nudge fmt 86400)) (calendar_of fmt) 1 1 2000.
Proof.
  cbv zeta. split; [vm_compute; tauto|]. split; [reflexivity|]. split; [reflexivity|].
  apply run_eval; [unfold rule_cal; tauto|apply jd_eval; vm_compute; reflexivity|vm_compute; reflexivity].
Qed.

(** C46: a text that names an instant in full (see [in_full]) is read again as the instant it shows:
    whatever the starting time, it differs from the time written, after the nudge, by less than one in
    the last place.  For years 33 to 999999999 of every calendar but the Persian and the Chinese. *)
Theorem C46_round_trip :
  forall L now ph t0 t fmt n d m y,
  long_ok L -> per_day fmt n ->
  rule_cal (calendar_of fmt) \/ calendar_of fmt = CALENDAR_JULIAN_GREGORIAN ->
  jd_ok L (day_of (t + nudge fmt n)) -> dmy_result L (day_of (t + nudge fmt n)) (calendar_of fmt) d m y ->
  in_full fmt -> has fmt FULL_CTIME_DAY_OF_YEAR = false -> start_ok L t0 fmt -> 33 <= y < 10 ^ 9 ->
  m <= 12 \/ (has fmt FULL_CTIME_MONTHS_AS_DIGITS = true /\ m <= 13 /\ calendar_of fmt = CALENDAR_HEBREW) ->
  exists s T, writes L t fmt s /\ reads L now ph t0 s fmt T 0 /\
    (T <= t + nudge fmt n)%Q /\ (t + nudge fmt n < T + last_place fmt n)%Q.
Proof. exact C46_round_trip_proof. Qed.
Print Assumptions C46_round_trip.

(** Year first, month names, seconds with three decimals, leading zeroes. *)
Example C46_round_trip_case : let fmt := 48 + 2048 + 4096 + 32768 + 2097152 in
  in_full fmt /\ per_day fmt 86400 /\ start_ok LMAX64 0 fmt /\ has fmt FULL_CTIME_DAY_OF_YEAR = false /\
  dmy_result LMAX64 (day_of (0 + nudge fmt 86400)) (calendar_of fmt) 1 1 2000.
Proof.
  cbv zeta. split; [unfold in_full; repeat split; left; reflexivity|]. split; [vm_compute; tauto|]. split; [apply start_0; discriminate|].
  split; [reflexivity|].
  apply run_eval; [unfold rule_cal; tauto|apply jd_eval; vm_compute; reflexivity|vm_compute; reflexivity].
Qed.

(** C46: the same with days of the year for day and month, for years 500 to 999999999. *)
Theorem C46_round_trip_day_of_year :
  forall L now ph t0 t fmt n d m y d0 m0 y0,
  long_ok L -> per_day fmt n ->
  rule_cal (calendar_of fmt) \/ calendar_of fmt = CALENDAR_JULIAN_GREGORIAN ->
  jd_ok L (day_of (t + nudge fmt n)) -> dmy_result L (day_of (t + nudge fmt n)) (calendar_of fmt) d m y ->
  in_full fmt -> (style fmt = 768 -> (places fmt <= 5)%nat) -> has fmt FULL_CTIME_DAY_OF_YEAR = true ->
  date_of_start L t0 fmt d0 m0 y0 -> 500 <= y < 10 ^ 9 ->
  (has fmt FULL_CTIME_MONTHS_AS_DIGITS = false -> m <= 12) ->
  exists s T, writes L t fmt s /\ reads L now ph t0 s fmt T 0 /\
    (T <= t + nudge fmt n)%Q /\ (t + nudge fmt n < T + last_place fmt n)%Q.
Proof. exact C46_round_trip_day_of_year_proof. Qed.
Print Assumptions C46_round_trip_day_of_year.

Example C46_round_trip_day_of_year_case : let fmt := 768 + 48 + 2048 + 32768 + 8388608 in
  in_full fmt /\ per_day fmt 1 /\ places fmt = 3%nat /\ date_of_start LMAX64 0 fmt 1 1 2000 /\ has fmt FULL_CTIME_DAY_OF_YEAR = true /\
  dmy_result LMAX64 (day_of (0 + nudge fmt 1)) (calendar_of fmt) 1 1 2000.
Proof.
  cbv zeta. split; [unfold in_full; repeat split; right; right; split; [reflexivity|vm_compute; lia]|]. split; [vm_compute; tauto|].
  split; [reflexivity|]. split; [apply start_2000; reflexivity|]. split; [reflexivity|].
  apply run_eval; [unfold rule_cal; tauto|apply jd_eval; vm_compute; reflexivity|vm_compute; reflexivity].
Qed.

(** C46: Julian days and modified Julian days are written with their mark, their sign, and the nearest number with the
    decimals asked for. *)
Theorem C46_julian_days :
  forall L t fmt, style fmt = 1280 \/ style fmt = 1536 ->
  let x := (t + nudge fmt 1 + jd_base fmt)%Q in (Qabs x <= inject_Z (10 ^ 19))%Q ->
  exists v, 0 <= v /\ writes L t fmt (jd_mark fmt ++ minus x ++ fixed_text (places fmt) v) /\
    (Qabs (inject_Z v - Qabs x * inject_Z (10 ^ Z.of_nat (places fmt))) <= 1 # 2)%Q.
Proof. exact C46_julian_days_proof. Qed.
Print Assumptions C46_julian_days.

Example C46_julian_days_case : style (1280 + 48) = 1280 /\
  jd_mark (1280 + 48) ++ minus 2451545 ++ fixed_text 3 2451545000 = zs "JD 2451545.000".
Proof. now vm_compute. Qed.

(** C46: a Julian day (1 or more) or modified Julian day (0 or more) is read again within half of its last
    place, and is taken as such ( *is_ut is 1). *)
Theorem C46_julian_days_round_trip :
  forall L now ph t0 t fmt, style fmt = 1280 \/ style fmt = 1536 ->
  let x := (t + nudge fmt 1 + jd_base fmt)%Q in (0 <= x)%Q -> (x <= inject_Z (10 ^ 19))%Q -> (style fmt = 1280 -> (1 <= x)%Q) ->
  exists s T, writes L t fmt s /\ reads L now ph t0 s fmt T 1 /\ (Qabs (T - (t + nudge fmt 1)) <= (1 # 2) * last_place fmt 1)%Q.
Proof. exact C46_julian_days_round_trip_proof. Qed.
Print Assumptions C46_julian_days_round_trip.

Example C46_julian_days_round_trip_case : let fmt := 1536 + 80 in let x := (0 + nudge fmt 1 + jd_base fmt)%Q in
  style fmt = 1536 /\ (0 <= x)%Q /\ (x <= inject_Z (10 ^ 19))%Q.
Proof. cbv zeta. split; [reflexivity|]. split; vm_compute; discriminate. Qed.

(** C46: years, with decimals, are written in four places and cut: the number w shown is less than one in
    the last place below the year, up to an error of 5e-17. *)
Theorem C46_years :
  forall L t fmt, style fmt = 1024 ->
  let x := ((t + nudge fmt 1) / (36525 # 100) + 2000)%Q in (0 <= x)%Q -> (x <= 999999 # 100)%Q ->
  exists w, 0 <= w /\ writes L t fmt (four_text (zero_or_space fmt) (w / 10 ^ Z.of_nat (places fmt)) ++ decimals (places fmt) w) /\
    (inject_Z w / inject_Z (10 ^ Z.of_nat (places fmt)) - (1 # 20000000000000000) <= x)%Q /\
    (x < inject_Z (w + 1) / inject_Z (10 ^ Z.of_nat (places fmt)))%Q.
Proof. exact C46_years_proof. Qed.
Print Assumptions C46_years.

Example C46_years_case : style (1024 + 32) = 1024 /\ four_text 32 (200000 / 100) ++ decimals 2 200000 = zs "2000.00".
Proof. now vm_compute. Qed.

(** C46, a claim that fails: days can be written with twelve or more decimals (the formats for picodays and
    femtodays).  Every such call stores outside of an array of 15 bytes. *)
Theorem C46_picodays_refuted :
  (forall L t fmt d m y,
     long_ok L -> rule_cal (calendar_of fmt) \/ calendar_of fmt = CALENDAR_JULIAN_GREGORIAN ->
     jd_ok L (day_of (t + nudge fmt 1)) -> dmy_result L (day_of (t + nudge fmt 1)) (calendar_of fmt) d m y ->
     style fmt = 768 -> (12 <= places fmt)%nat -> has fmt FULL_CTIME_TIME_ONLY = false -> Z.abs y <= 10 ^ 15 ->
     (has fmt FULL_CTIME_MONTHS_AS_DIGITS = false -> m <= 12) ->
     (has fmt FULL_CTIME_TWO_DIGIT_YEAR = true -> Z.abs y <= 2147483647) ->
     writing_crashes L t fmt) /\
  writing_crashes LMAX64 0 (768 + 12 * 16) /\ writing_crashes LMAX64 0 (768 + 15 * 16).
Proof. exact C46_picodays_refuted_proof. Qed.
Print Assumptions C46_picodays_refuted.

(** C46, a claim that fails: dates of every calendar can be written with the names of their months.  There are twelve names, and
    writing a date in a thirteenth month (of the Hebrew or the Revolutionary calendar) is undefined. *)
Theorem C46_month_13_refuted :
  (forall L t fmt n d y,
     long_ok L -> per_day fmt n -> jd_ok L (day_of (t + nudge fmt n)) ->
     dmy_result L (day_of (t + nudge fmt n)) (calendar_of fmt) d 13 y ->
     has fmt FULL_CTIME_TIME_ONLY = false -> has fmt FULL_CTIME_MONTHS_AS_DIGITS = false -> writing_crashes L t fmt) /\
  writing_crashes LMAX64 (2451817 - 2451545) CALENDAR_HEBREW.
Proof. exact C46_month_13_refuted_proof. Qed.
Print Assumptions C46_month_13_refuted.

(** C46, a claim that fails: with rounding, Julian days are written as the nearest number with the decimals asked
    for.  They are rounded twice: v and less than a half units of the last place are written as v + 1. *)
Theorem C46_jd_rounding_refuted :
  (forall L t fmt v f, style fmt = 1280 \/ style fmt = 1536 -> has fmt FULL_CTIME_ROUNDING = true ->
     0 <= v -> (0 < f)%Q -> (f < 1 # 2)%Q ->
     (t + jd_base fmt == (inject_Z v + f) * last_place fmt 1)%Q -> v < 10 ^ 18 ->
     writes L t fmt (jd_mark fmt ++ fixed_text (places fmt) (v + 1))) /\
  writes LMAX64 (1 # 10) (1280 + FULL_CTIME_ROUNDING) (zs "JD 2451546").
Proof. exact C46_jd_rounding_refuted_proof. Qed.
Print Assumptions C46_jd_rounding_refuted.

(** C46, a claim that fails: years are written in full.  Of the years 10000 to 99999 the last digit is lost. *)
Theorem C46_five_digit_year_refuted :
  forall L fmt y, style fmt = 1024 -> places fmt = 0%nat -> 10000 <= y <= 99999 ->
  writes L (inject_Z (y - 2000) * (36525 # 100)) fmt (dec (y / 10)).
Proof. exact C46_five_digit_year_refuted_proof. Qed.
Print Assumptions C46_five_digit_year_refuted.

Example C46_five_digit_year_case : style 1024 = 1024 /\ places 1024 = 0%nat /\ dec (12345 / 10) = zs "1234".
Proof. now vm_compute. Qed.

(** C46, a claim that fails: a text written without leading zeroes is read again as the instant it shows.  Noon of
    2010 January 5, written as "Jan  5 2010 12:00:00" or "2010  1  5 12:00:00" in two formats, is read in the same formats as an instant before
    the common era and as 2010 January 1. *)
Theorem C46_no_zeroes_refuted :
  forall now ph,
  (exists T u, writes LMAX64 3657 FULL_CTIME_MONTH_DAY (zs "Jan  5 2010 12:00:00") /\
     reads LMAX64 now ph 0 (zs "Jan  5 2010 12:00:00") FULL_CTIME_MONTH_DAY T u /\ (T < - (700000))%Q) /\
  (exists T u, writes LMAX64 3657 (FULL_CTIME_YEAR_FIRST + FULL_CTIME_MONTH_DAY + FULL_CTIME_MONTHS_AS_DIGITS) (zs "2010  1  5 12:00:00") /\
     reads LMAX64 now ph 0 (zs "2010  1  5 12:00:00") (FULL_CTIME_YEAR_FIRST + FULL_CTIME_MONTH_DAY + FULL_CTIME_MONTHS_AS_DIGITS) T u /\ (T == 3653)%Q).
Proof. exact C46_no_zeroes_refuted_proof. Qed.
Print Assumptions C46_no_zeroes_refuted.
