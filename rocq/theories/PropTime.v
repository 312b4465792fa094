(** Properties C16-C20: the other calendar code (jd.cpp, mjd_defs.h, the leap
    seconds of delta_t.cpp, easter.cpp).

    L is LONG_MAX; [long_ok], [year_ok], [jd_ok], [dmy_result] are defined in
    [DateVocab], calendars in [DateSpec], leap seconds and the paschal moon in
    [TimeSpec], the code in [TimeModel]. *)
From Coq Require Import Lia.
From Verif Require Import CBase DateModel DateVocab DateSpec TimeModel TimeSpec TimeThms.

(** C16.  greg_day_to_dmy( ) of jd.cpp returns what day_to_dmy( ) returns for the
    Gregorian calendar, for every JD for which that does not overflow. *)
Theorem C16_two_gregorian_conversions :
  forall L jd, long_ok L -> jd_ok L jd ->
    exists d m y, greg_day_to_dmy L jd = Ret (d, m, y) /\ dmy_result L jd CALENDAR_GREGORIAN d m y.
Proof. exact C16_two_gregorian_conversions_proof. Qed.
Print Assumptions C16_two_gregorian_conversions.

Example C16_case : greg_day_to_dmy LMAX64 1721119 = Ret (29, 2, 0) /\
  greg_day_to_dmy LMAX32 (-1000000) = Ret (28, 12, -7451) /\ jd_ok LMAX32 (-1000000).
Proof. vm_compute. repeat split; congruence. Qed.

(** C16.  Independently of day_to_dmy( ): the result is a valid Gregorian date and
    it is the one with that Julian day number. *)
Theorem C16_gregorian_conversion_inverse :
  forall f, gregorian_jd f ->
  forall L jd, long_ok L -> jd_ok L jd ->
    exists d m y, greg_day_to_dmy L jd = Ret (d, m, y) /\ valid gregorian (d, m, y) /\ f (d, m, y) = jd.
Proof. exact C16_gregorian_conversion_inverse_proof. Qed.
Print Assumptions C16_gregorian_conversion_inverse.

(** C17.  JAN_1( y) ... DEC_1( y) are the modified Julian days of the first days of
    the months, negative years included. *)
Theorem C17_month_macros :
  forall f, gregorian_mjd f ->
  forall L m y, long_ok L -> year_ok L y -> 1 <= m <= 12 ->
    month_macro m L y = Ret (f (1, m, y)).
Proof. exact C17_month_macros_proof. Qed.
Print Assumptions C17_month_macros.

Example C17_case : MAR_1 LMAX32 (-4) = Ret (-680342) /\ DEC_1 LMAX64 2021 = Ret 59549 /\ year_ok LMAX32 (-4).
Proof. vm_compute. repeat split; congruence. Qed.

(** C17.  The macros agree with dmy_to_day( ): MJD = JD - 2400001 at 0 h. *)
Theorem C17_macros_match_dmy_to_day :
  forall L m y, long_ok L -> year_ok L y -> 1 <= m <= 12 ->
    exists mjd, month_macro m L y = Ret mjd /\ dmy_to_day L 1 m y CALENDAR_GREGORIAN = Ret (mjd + 2400001).
Proof. exact C17_macros_match_dmy_to_day_proof. Qed.
Print Assumptions C17_macros_match_dmy_to_day.

(** C18.  From 1 December 2021 on, the half-year used to predict leap seconds is the
    one (1 January - 30 June or 1 July - 31 December) that contains the date, or
    the end of predictions if that is earlier. *)
Theorem C18_half_year :
  forall f, gregorian_mjd f ->
  forall L limit n, long_ok L -> f (1, 12, 2021) <= n -> f (1, 12, 2021) <= limit ->
  Z.min n limit <= 1000000000 ->
    exists low high y, td_minus_utc_int L limit n = Ret (Predicted low high) /\
      low <= Z.min n limit < high /\
      ((low = f (1, 1, y) /\ high = f (1, 7, y)) \/ (low = f (1, 7, y) /\ high = f (1, 1, y + 1))).
Proof. exact C18_half_year_proof. Qed.
Print Assumptions C18_half_year.

Example C18_case : td_minus_utc_int LMAX64 2147483647 60309 = Ret (Predicted 60126 60310) /\
  td_minus_utc_int LMAX64 60000 99999 = Ret (Predicted 59945 60126).
Proof. vm_compute. split; reflexivity. Qed.

(** C19.  From 1972 to the end of November 2021, TD-UTC is 32.184 s plus TAI-UTC as
    published: 10 s in 1972 and one more from each announced date on. *)
Theorem C19_leap_seconds :
  forall f, gregorian_mjd f ->
  forall L limit n, long_ok L -> f (1, 1, 1972) <= n < f (1, 12, 2021) -> n <= limit ->
    td_minus_utc_int L limit n = Ret (Tabulated (tai_minus_utc f n)).
Proof. exact C19_leap_seconds_proof. Qed.
Print Assumptions C19_leap_seconds.

Example C19_case : td_minus_utc_int LMAX64 2147483647 57753 = Ret (Tabulated 36) /\
  td_minus_utc_int LMAX64 2147483647 57754 = Ret (Tabulated 37).
Proof. vm_compute. split; reflexivity. Qed.

(** Such a numbering of the days exists, so the theorems above are not empty. *)
Theorem C19_numbering_exists :
  (exists f, gregorian_mjd f) /\ (exists f, gregorian_jd f) /\ (exists f, julian_jd f).
Proof. exact C19_numbering_exists_proof. Qed.
Print Assumptions C19_numbering_exists.

(** C20.  easter_date( ) returns the first Sunday after the paschal full moon, between
    22 March and 25 April, for every year >= 0. *)
Theorem C20_easter :
  forall f, gregorian_jd f ->
  forall L y, long_ok L -> 0 <= y <= L ->
    exists m d, easter_date L y = Ret (m, d) /\ valid gregorian (d, m, y) /\
      first_sunday_after (f (19, 4, y) - gregorian_epact y) (f (d, m, y)) /\
      f (22, 3, y) <= f (d, m, y) <= f (25, 4, y).
Proof. exact C20_easter_proof. Qed.
Print Assumptions C20_easter.

Example C20_case : easter_date LMAX64 2038 = Ret (4, 25) /\ easter_date LMAX64 1818 = Ret (3, 22) /\
  gregorian_epact 1981 = 1.
Proof. vm_compute. repeat split; reflexivity. Qed.

(** C20.  The date of Easter repeats after 5,700,000 years. *)
Theorem C20_easter_period :
  forall L y, long_ok L -> 0 <= y -> y + 5700000 <= L -> easter_date L (y + 5700000) = easter_date L y.
Proof. exact C20_easter_period_proof. Qed.
Print Assumptions C20_easter_period.

(** C20 fails for negative years, for which the C remainders are negative: for the
    year -7 the function returns 30 February. *)
Theorem C20_easter_negative_refuted :
  easter_date LMAX64 (-7) = Ret (2, 30) /\ ~ valid gregorian (30, 2, -7).
Proof. exact C20_easter_negative_refuted_proof. Qed.
Print Assumptions C20_easter_negative_refuted.

(** C20.  easter_date_julian( ) returns the first Sunday after the paschal full moon of
    the Julian calendar, between 22 March and 25 April of that calendar. *)
Theorem C20_orthodox_easter :
  forall f, julian_jd f ->
  forall L y, long_ok L -> 0 <= y <= L ->
    exists m d, easter_date_julian L y = Ret (m, d) /\ valid julian (d, m, y) /\
      first_sunday_after (f (19, 4, y) - julian_epact y) (f (d, m, y)) /\
      f (22, 3, y) <= f (d, m, y) <= f (25, 4, y).
Proof. exact C20_orthodox_easter_proof. Qed.
Print Assumptions C20_orthodox_easter.

Example C20_orthodox_case : easter_date_julian LMAX64 2021 = Ret (4, 19) /\
  easter_date_julian LMAX64 1582 = Ret (4, 15).
Proof. vm_compute. split; reflexivity. Qed.

(** C20.  That date repeats after 532 years. *)
Theorem C20_orthodox_easter_period :
  forall L y, long_ok L -> 0 <= y -> y + 532 <= L -> easter_date_julian L (y + 532) = easter_date_julian L y.
Proof. exact C20_orthodox_easter_period_proof. Qed.
Print Assumptions C20_orthodox_easter_period.
