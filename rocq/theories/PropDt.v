(** Property C57 (TD - UT, TD - UTC and TDB - UTC; delta_t.cpp).  Dates and differences in seconds
    are exact rationals; the sines of TDB - TD are real.  No file of Earth orientation
    parameters is loaded.

    The first argument of td_minus_ut( ) is the string of formulae that reset_td_minus_dt_string( )
    has set; [td_minus_dt_string0] is its value before any call.  The observed values, the formulae
    for the past, strings of formulae and the published TAI - UTC of the 1960s are in
    [DtSpec]; leap seconds and [gregorian_mjd] in [TimeSpec]; [number_of] in [TstrSpec]. *)
From Coq Require Import QArith Qround Qabs Qreals Reals String Lia.
From Verif Require Import CBase CStr DateModel DateVocab DateSpec TimeModel TimeSpec TstrModel TstrSpec DtModel DtSpec DtProofs DtTable DtThms.
Local Open Scope string_scope.
Local Open Scope list_scope.
Local Open Scope Z_scope.

(** From 1620 to 2024, td_minus_ut( ) interpolates between the values observed at the start of every second
    year, which are those listed. *)
Theorem C57_table :
forall jd y v w, observed y v -> observed (y + 2) w -> (inject_Z y <= year_of jd)%Q -> (year_of jd <= inject_Z (y + 2))%Q ->
  exists r, td_minus_ut td_minus_dt_string0 jd = Ret r /\
    (r == (inject_Z v + inject_Z (w - v) * ((year_of jd - inject_Z y) / 2)) / 100)%Q.
Proof. exact C57_table_proof. Qed.
Print Assumptions C57_table.

Example C57_table_example : observed 2000 6383 /\ observed 2002 6430 /\ exists r, td_minus_ut td_minus_dt_string0 (24519102500 # 10000) = Ret r /\ (r == (6383 # 100) + (47 # 200))%Q.
Proof.
  split; [exists 2000, [6383; 6430; 6457; 6485; 6546; 6607; 6660; 6728; 6810; 6897], 0%nat; vm_compute; tauto|].
  split; [exists 2000, [6383; 6430; 6457; 6485; 6546; 6607; 6660; 6728; 6810; 6897], 1%nat; vm_compute; tauto|].
  eexists. split; [vm_compute; reflexivity|reflexivity].
Qed.

(** In those years TD - UT never changes faster than 9 s in two years. *)
Theorem C57_steady :
forall jd1 jd2, (1620 <= year_of jd1)%Q -> (jd1 <= jd2)%Q -> (year_of jd2 <= 2024)%Q ->
  exists r1 r2, td_minus_ut td_minus_dt_string0 jd1 = Ret r1 /\ td_minus_ut td_minus_dt_string0 jd2 = Ret r2 /\
    (Qabs (r2 - r1) <= 9 * ((jd2 - jd1) / (7305 # 10)))%Q.
Proof. exact C57_steady_proof. Qed.
Print Assumptions C57_steady.

Example C57_steady_example : (year_of 2451545 == 2000)%Q /\ (1620 <= year_of 2312750)%Q /\ (year_of 2460311 == 2024)%Q.
Proof. split; [reflexivity|]. split; [vm_compute; discriminate|reflexivity]. Qed.

(** After 2024, up to the year 4294968915, TD - UT goes on from the last two observed values, with a
    parabola of 32.5 s per squared century added; it is never undefined. *)
Theorem C57_future :
forall jd, (2024 <= year_of jd)%Q -> (year_of jd < 4294968916)%Q ->
  exists r, td_minus_ut td_minus_dt_string0 jd = Ret r /\
    (r == (6918 # 100) + (6918 - 6929) / 100 * ((year_of jd - 2024) / 2) + (325 # 10) * ((year_of jd - 2024) / 100) ^ 2)%Q.
Proof. exact C57_future_proof. Qed.
Print Assumptions C57_future.

Example C57_future_example : exists r, td_minus_ut td_minus_dt_string0 2497027 = Ret r /\ (9649 # 100 < r)%Q /\ (r < 9650 # 100)%Q.
Proof. eexists. split; [vm_compute; reflexivity|split; reflexivity]. Qed.

(** Later than that the result is not defined: the year is made an int before the test that is there
    for such dates (JD > 30000000) comes. *)
Theorem C57_huge_refuted :
forall jd, (4294968916 <= year_of jd)%Q -> td_minus_ut td_minus_dt_string0 jd = UB.
Proof. exact C57_huge_refuted_proof. Qed.
Print Assumptions C57_huge_refuted.

Example C57_huge_example : (4294968916 <= year_of 1568800000000)%Q /\ td_minus_ut td_minus_dt_string0 1568800000000 = UB.
Proof. split; [vm_compute; discriminate|vm_compute; reflexivity]. Qed.

(** Before 1620, td_minus_ut( ) gives the polynomials of the default string: one up to the year -500 (a
    parabola), one from there to 500, one to 1600 and one to 1620. *)
Theorem C57_past :
forall jd a b o l, In (a, b, o, l) past_formulae -> (a <= year_of jd)%Q -> (year_of jd < b)%Q ->
  exists r, td_minus_ut td_minus_dt_string0 jd = Ret r /\ (r == poly l ((year_of jd - o) / 100))%Q.
Proof. exact C57_past_proof. Qed.
Print Assumptions C57_past.

Example C57_past_example : (500 <= year_of 2086302)%Q /\ (year_of 2086302 < 1600)%Q /\
  exists r, td_minus_ut td_minus_dt_string0 2086302 = Ret r /\ (1574 < r)%Q /\ (r < 1575)%Q.
Proof. split; [vm_compute; discriminate|]. split; [reflexivity|]. eexists. split; [vm_compute; reflexivity|split; reflexivity]. Qed.

(** TD - UT is not continuous: where the polynomials meet the table, at the start of 1620 (JD 2312750), it goes up
    by more than 28 s at once. *)
Theorem C57_jump_refuted :
forall d, (0 < d)%Q -> (d <= 1)%Q -> exists r1 r2,
  td_minus_ut td_minus_dt_string0 (2312750 - d) = Ret r1 /\ td_minus_ut td_minus_dt_string0 2312750 = Ret r2 /\ (28 < r2 - r1)%Q.
Proof. exact C57_jump_refuted_proof. Qed.
Print Assumptions C57_jump_refuted.

(** reset_td_minus_dt_string( ) with a null pointer or an empty string gives back the state before any call, for every
    date. *)
Theorem C57_reset :
forall jd, td_minus_ut (reset_td_minus_dt_string None) jd = td_minus_ut td_minus_dt_string0 jd /\
  td_minus_ut (reset_td_minus_dt_string (Some [])) jd = td_minus_ut td_minus_dt_string0 jd.
Proof. exact C57_reset_proof. Qed.
Print Assumptions C57_reset.

(** A string of formulae set by the user: where one of them covers the year, TD - UT is the
    polynomial of the first that does (in centuries from the given year, or from 2000); where none
    does, TD - UT is as without the string.  A semicolon at the end does no harm. *)
Theorem C57_string :
forall ps s e jd, formulae_text ps s -> (e = [] \/ e = zs ";") ->
  (forall before p after, ps = before ++ p :: after -> covers (year_of jd) p -> (forall q, In q before -> ~ covers (year_of jd) q) ->
     exists r, td_minus_ut (reset_td_minus_dt_string (Some (s ++ e))) jd = Ret r /\ (r == formula_value (year_of jd) p)%Q) /\
  ((forall q, In q ps -> ~ covers (year_of jd) q) ->
     td_minus_ut (reset_td_minus_dt_string (Some (s ++ e))) jd = td_minus_ut td_minus_dt_string0 jd).
Proof. exact C57_string_proof. Qed.
Print Assumptions C57_string.

Example C57_string_example : formulae_text [Build_formula (-500 # 1) (16005 # 10) None [3; 4]%Q; Build_formula 1900 2100 (Some 1950%Q) [64; -5 # 10]%Q] (zs "-500,1600.5:3,+4;1900,2100:o1950,64,-.5") /\
  exists r, td_minus_ut (reset_td_minus_dt_string (Some (zs "-500,1600.5:3,+4;1900,2100:o1950,64,-.5;"))) 2451545 = Ret r /\ (r == 64 - (1 # 4))%Q.
Proof.
  split.
  - change (zs "-500,1600.5:3,+4;1900,2100:o1950,64,-.5") with (zs "-500,1600.5:3,+4" ++ zs ";" ++ zs "1900,2100:o1950,64,-.5"). apply formulae_more; [|apply formulae_one].
    + exists (zs "-500"), (zs "1600.5"), [], (zs "3,+4"). split; [a_signed|]. split; [a_signed|]. split; [|split; reflexivity].
      change (zs "3,+4") with (zs "3" ++ zs "," ++ zs "+4"). apply coeffs_more; [a_signed|]. apply coeffs_one. right. left. exists (zs "4"). split; [reflexivity|a_number].
    + exists (zs "1900"), (zs "2100"), (zs "o1950,"), (zs "64,-.5"). split; [a_signed|]. split; [a_signed|]. split; [cbn [coeffs]; coeffs_ok|]. split; [exists (zs "1950"); split; [a_signed|reflexivity]|reflexivity].
  - eexists. split; [vm_compute; reflexivity|reflexivity].
Qed.

(** Strings that are not exactly so are not rejected.  A blank (or a newline) at the end makes the last
    coefficient count once more, with the next power, or is read past; so is a missing colon, and a year after
    "o" that no comma follows. *)
Theorem C57_string_refuted :
td_minus_ut (reset_td_minus_dt_string (Some (zs "1900,2100:64,50 "))) 2451545 = UB /\
  (exists r, td_minus_ut (reset_td_minus_dt_string (Some (zs "1900,2100:64,5 "))) (24332825 # 10) = Ret r /\ (r == 64 + 5 * (- (1 # 2)) + 5 * (- (1 # 2)) ^ 2)%Q) /\
  (exists r, td_minus_ut (reset_td_minus_dt_string (Some (zs "1900,2100:64,5"))) (24332825 # 10) = Ret r /\ (r == 64 + 5 * (- (1 # 2)))%Q) /\
  td_minus_ut (reset_td_minus_dt_string (Some (zs "1900,2100"))) 2451545 = UB /\
  td_minus_ut (reset_td_minus_dt_string (Some (zs "1900,2100:o1950"))) 2451545 = UB.
Proof. exact C57_string_refuted_proof. Qed.
Print Assumptions C57_string_refuted.

(** From 1961 to 1971, TD - UTC is 32.184 s plus TAI - UTC as published, with its steps and its rates. *)
Theorem C57_utc_sixties :
forall f, gregorian_mjd f -> forall L limit str jd d, long_ok L -> In d drifts ->
  (inject_Z (f (1, month d, year d)%Z) <= mjd_of jd)%Q -> (mjd_of jd < inject_Z (f (1, next_month d, next_year d)%Z))%Q ->
  exists r, td_minus_utc L limit str jd = Ret r /\ (r == (32184 # 1000) + (constant d + (mjd_of jd - inject_Z (base d)) * rate d))%Q.
Proof. exact C57_utc_sixties_proof. Qed.
Print Assumptions C57_utc_sixties.

Example C57_utc_sixties_example : exists r, td_minus_utc LMAX64 IMAX None (24398565 # 10) = Ret r /\ (r == (32184 # 1000) + (43131700 # 10000000) + 730 * (2592 # 1000000))%Q.
Proof. eexists. split; [vm_compute; reflexivity|reflexivity]. Qed.

(** From 1972 to November 2021, at any time of the day, TD - UTC is 32.184 s plus the leap seconds
    announced before that day began. *)
Theorem C57_utc_leap :
forall f, gregorian_mjd f -> forall L limit str jd, long_ok L ->
  (inject_Z (f (1, 1, 1972)%Z) <= mjd_of jd)%Q -> (mjd_of jd < inject_Z (f (1, 12, 2021)%Z))%Q -> Qfloor (mjd_of jd) <= limit ->
  exists r, td_minus_utc L limit str jd = Ret r /\ (r == (32184 # 1000) + inject_Z (tai_minus_utc f (Qfloor (mjd_of jd))))%Q.
Proof. exact C57_utc_leap_proof. Qed.
Print Assumptions C57_utc_leap.

Example C57_utc_leap_example : exists r, td_minus_utc LMAX64 IMAX None (24577544 # 10) = Ret r /\ (r == (32184 # 1000) + 36)%Q.
Proof. eexists. split; [vm_compute; reflexivity|reflexivity]. Qed.

(** In those years, TD - UTC is always within 0.9 s of the TD - UT that td_minus_ut( ) gives, as it must be. *)
Theorem C57_utc_near :
forall f, gregorian_mjd f -> forall L limit jd, long_ok L ->
  (inject_Z (f (1, 1, 1972)%Z) <= mjd_of jd)%Q -> (mjd_of jd < inject_Z (f (1, 12, 2021)%Z))%Q -> Qfloor (mjd_of jd) <= limit ->
  exists utc ut, td_minus_utc L limit td_minus_dt_string0 jd = Ret utc /\ td_minus_ut td_minus_dt_string0 jd = Ret ut /\
    (Qabs (utc - ut) < 9 # 10)%Q.
Proof. exact C57_utc_near_proof. Qed.
Print Assumptions C57_utc_near.

Example C57_utc_near_example : exists utc ut, td_minus_utc LMAX64 IMAX None (24416835 # 10) = Ret utc /\ td_minus_ut td_minus_dt_string0 (24416835 # 10) = Ret ut /\ (83 # 100 < utc - ut)%Q.
Proof. eexists. eexists. split; [vm_compute; reflexivity|]. split; [vm_compute; reflexivity|reflexivity]. Qed.

(** From December 2021 on, TD - UTC is 32.184 s plus a whole number of seconds, within half a second of TD - UT
    at the middle of the half-year (of the calendar) that contains the date; after
    mjd_end_of_predictive_leap_seconds it does not change. *)
Theorem C57_utc_predicted :
forall f, gregorian_mjd f -> forall L limit str jd, long_ok L ->
  (inject_Z (f (1, 12, 2021)%Z) <= mjd_of jd)%Q -> Qfloor (mjd_of jd) <= 1000000000 -> f (1, 12, 2021) <= limit ->
  exists low high y, low <= Z.min (Qfloor (mjd_of jd)) limit < high /\
    ((low = f (1, 1, y) /\ high = f (1, 7, y)) \/ (low = f (1, 7, y) /\ high = f (1, 1, y + 1))) /\
    forall middle d, (mjd_of middle == (inject_Z low + inject_Z high) / 2)%Q -> (forall j, (j == middle)%Q -> exists d', td_minus_ut str j = Ret d' /\ (d' == d)%Q) ->
      exists r n, td_minus_utc L limit str jd = Ret r /\ (r == (32184 # 1000) + inject_Z n)%Q /\ (r - (1 # 2) <= d < r + (1 # 2))%Q.
Proof. exact C57_utc_predicted_proof. Qed.
Print Assumptions C57_utc_predicted.

Example C57_utc_predicted_example : exists r, td_minus_utc LMAX64 IMAX None (25000005 # 10) = Ret r /\ (r == (32184 # 1000) + 69)%Q.
Proof. eexists. split; [vm_compute; reflexivity|reflexivity]. Qed.

(** Before 1961, UTC is UT. *)
Theorem C57_utc_before :
forall f, gregorian_mjd f -> forall L limit str jd, long_ok L -> (mjd_of jd < inject_Z (f (1, 1, 1961)%Z))%Q -> td_minus_utc L limit str jd = td_minus_ut str jd.
Proof. exact C57_utc_before_proof. Qed.
Print Assumptions C57_utc_before.

Example C57_utc_before_example : exists r, td_minus_utc LMAX64 IMAX None (24372995 # 10) = Ret r /\ td_minus_ut None (24372995 # 10) = Ret r /\ (33 < r)%Q.
Proof. eexists. split; [vm_compute; reflexivity|]. split; [vm_compute; reflexivity|reflexivity]. Qed.

(** TDB - TD, of which tdb_minus_utc( ) makes use, is never more than 2 milliseconds. *)
Theorem C57_tdb :
forall t, (Rabs (tdb_minus_tdt t) < 2 / 1000)%R.
Proof. exact C57_tdb_proof. Qed.
Print Assumptions C57_tdb.

(** tdb_minus_utc( ) is not (TDB - TD) + (TD - UTC): it divides the first, which is in seconds, by the seconds in a day.  On
    4 April 2000 its result is 1.6 ms too small, which is nearly all of TDB - TD. *)
Theorem C57_tdb_refuted :
forall L limit str, long_ok L -> 51638 <= limit ->
  exists d r, td_minus_utc L limit str 2451639 = Ret d /\ tdb_minus_utc L limit str 2451639 = Ret r /\
    (r + 16 / 10000 < tdb_minus_tdt (94 / 36525) + Q2R d)%R.
Proof. exact C57_tdb_refuted_proof. Qed.
Print Assumptions C57_tdb_refuted.
