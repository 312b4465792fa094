(** Property C58 (Earth orientation parameters; eop_prec.cpp).  Numbers in the file are exact
    rationals, what is computed from them is real.

    The lines of the IERS files, the parameters of a day and what a request is to give are in [EopSpec];
    [EopVocab] names what can be had from a state of the library: [serves], [reports], [nothing_loaded].
    The arguments of [load] are LONG_MAX, mjd_end_of_predictive_leap_seconds, the string of
    formulae for TD - UT, whether calloc( ) succeeds, what is in the uninitialised buffer, the state,
    the file (None for NULL, Some None if it cannot be opened) and whether file_date is given. *)
From Coq Require Import QArith Qround Qabs Qreals Reals String Lia.
From Verif Require Import RBase CBase CStr DateModel DateVocab DateSpec TimeModel TimeSpec TstrModel TstrSpec DtModel DtSpec RotModel RotSpec PrecModel PrecSpec AzModel EopModel EopSpec EopVocab EopSample EopThms.
Import ListNotations.
Local Open Scope string_scope.
Local Open Scope list_scope.
Local Open Scope Z_scope.

(** A file as the IERS provides it: load_earth_orientation_params( ) gives the last day with values, and in
    *file_date the last day with observed values; from then on, whatever was loaded before, every request is answered from
    the days of the file, with TT - UT1 free of leap seconds. *)
Theorem C58_load :
forall f days m m0 tai L limit file str buff s fd, iers_file f days m m0 tai L limit file ->
  exists s' x, last_observed days = Some x /\
    load L limit str true buff s (Some (Some file)) fd = Ret (m0 + Z.of_nat (List.length days) - 1, s', if fd then [x] else []) /\
    serves days m m0 tai s' /\ reports s' [m0; m0 + Z.of_nat (List.length days); m0 + Z.of_nat m].
Proof. exact C58_load_proof. Qed.
Print Assumptions C58_load.

Example C58_load_example : exists f, iers_file f sample (Z.to_nat 12000) 41684 sample_tai LMAX64 IMAX sample_file /\
  nth_error sample 364 = Some (mk_day 42048 true (120000 # 1000000) (320000 # 1000000) (9000000 # 10000000) (Some (-10440 # 1000, 1200 # 1000)%Q)).
Proof. exact sample_ok. Qed.

(** At 0h of a day of the file that is not among its first or last ones, the parameters are the numbers of its line. *)
Theorem C58_day :
forall days m m0 tai s, serves days m m0 tai s -> (m <= List.length days)%nat ->
  forall str k d psi eps jd, (1 <= k)%nat -> (k + 3 <= m)%nat -> nth_error days k = Some d -> nutation d = Some (psi, eps) ->
  (mjd_of jd == inject_Z (m0 + Z.of_nat k))%Q -> Z.of_nat k <= 2147483647 ->
  (-28 # 100 < pole_x d < 36 # 100)%Q -> (-3 # 100 < pole_y d < 61 # 100)%Q -> (-130 # 1 < psi < 55)%Q -> (-18 # 1 < eps < 10)%Q ->
  ~ ((32184 # 1000) + inject_Z (tai k) - ut1_utc d == 0)%Q ->
  get_earth_orientation_params str s jd true 31 =
    Ret (0%Z, mk_params (Q2R (pole_x d) * arcsec) (Q2R (pole_y d) * arcsec) (Q2R ((32184 # 1000) + inject_Z (tai k) - ut1_utc d))
              (Q2R psi / 1000 * arcsec) (Q2R eps / 1000 * arcsec))%R.
Proof. exact C58_day_proof. Qed.
Print Assumptions C58_day.

Example C58_day_example : exists s, get_earth_orientation_params None s (24420485 # 10) true 31 =
  Ret (0%Z, mk_params (Q2R (12 # 100) * arcsec) (Q2R (32 # 100) * arcsec) (Q2R (44284 # 1000)) (Q2R (-1044 # 100) / 1000 * arcsec) (Q2R (12 # 10) / 1000 * arcsec))%R.
Proof. exact day_example. Qed.

(** Before the first call, after load_earth_orientation_params( NULL, NULL), with a file that is missing or
    empty and with one whose first line is not 188 bytes long, nothing is loaded, whatever was before. *)
Theorem C58_nothing :
nothing_loaded statics0 /\ forall L limit str alloc buff s fd,
  (exists s', load L limit str alloc buff s None false = Ret (0, s', []) /\ nothing_loaded s') /\
  (forall file, file = None \/ file = Some [] -> exists s', load L limit str alloc buff s (Some file) fd = Ret (EOP_FILE_NOT_FOUND, s', []) /\ nothing_loaded s') /\
  (forall first rest, ~ In 10 first -> ~ In 0 first -> List.length first <> 187%nat ->
     exists s', load L limit str alloc buff s (Some (Some (first ++ 10 :: rest))) fd = Ret (EOP_FILE_WRONG_FORMAT, s', []) /\ nothing_loaded s').
Proof. exact C58_nothing_proof. Qed.
Print Assumptions C58_nothing.

Example C58_nothing_example : exists s', load LMAX64 IMAX None true [] statics0 (Some (Some (zs "<html>" ++ 10 :: zs "<head>"))) true = Ret (EOP_FILE_WRONG_FORMAT, s', []) /\ nothing_loaded s'.
Proof. apply C58_nothing; [vm_compute; intuition discriminate|vm_compute; intuition discriminate|discriminate]. Qed.

(** Whatever calls were made before, with whatever files, a request never reads outside the array, for times
    within 2^31 - 1 days of the first day. *)
Theorem C58_safe :
forall s, history s -> exists jd0, forall str jd mask, Z.testbit mask 2 = false -> (Qabs (jd - jd0) <= 2147483647)%Q ->
  get_earth_orientation_params str s jd true mask <> UB.
Proof. exact C58_safe_proof. Qed.
Print Assumptions C58_safe.

Example C58_safe_example : history statics0. Proof. apply history_start. Qed.

(** The matrix of setup_precession_with_nutation_eops( ) is a rotation: precession and nutation with the
    corrections of that time, then the sidereal time of UT1, then the pole. *)
Theorem C58_matrix :
forall str nut s p m y rval eo, reachable p -> List.length m = 9%nat ->
  get_earth_orientation_params str s (2451545 + (y - 2000) * (36525 # 100))%Q true 31 = Ret (rval, eo) ->
  let t := ((Q2R y - 2000) / 100)%R in
  let dpsi := (PrecSpec.arcsec (fst (nut t)) + dPsi eo)%R in
  let de := (PrecSpec.arcsec (snd (nut t)) + dEps eo)%R in
  let ut1 := (2451545 + (Q2R y - 2000) * (36525 / 100) - tdt_minus_ut1 eo / 86400)%R in
  let r := mul (turn 1 2 (dY eo)) (mul (turn 0 2 (- dX eo)) (mul (turn 0 1 (- green_sidereal_time ut1))
             (mul (turn 0 1 (- (dpsi * cos (obliquity t)))) (mul (nutate (obliquity t) dpsi de) (equator_from_2000 (Q2R y)))))) in
  rotation r /\ exists p', setup_precession_with_nutation_eops str nut s p m y = Ret (rval, r, p').
Proof. exact C58_matrix_proof. Qed.
Print Assumptions C58_matrix.

Example C58_matrix_example : exists eo, reachable initial /\ get_earth_orientation_params None statics0 (2451545 + (2000 - 2000) * (36525 # 100))%Q true 31 = Ret (-1, eo).
Proof. exact matrix_example. Qed.

(** FINDING: the second date that load_earth_orientation_params( NULL, dates) gives, the last "fully usable" day, is the day
    after the last one of the file; from two days before it on, the pole and UT1 are not to be had: the request fails, with zeroes and
    the TD - UT of td_minus_ut( ). *)
Theorem C58_info_refuted :
forall days m m0 tai s, serves days m m0 tai s -> forall str jd K t d, (mjd_of jd == inject_Z (m0 + K) + t)%Q -> (0 <= t < 1)%Q ->
  Z.of_nat (List.length days) - 2 <= K <= 2147483647 -> 0 <= K -> td_minus_ut str jd = Ret d ->
  get_earth_orientation_params str s jd true 7 = Ret (7%Z, mk_params 0 0 (Q2R d) 0 0)%R.
Proof. exact C58_info_refuted_proof. Qed.
Print Assumptions C58_info_refuted.

Example C58_info_refuted_example : exists days m m0 tai s, List.length days = Z.to_nat 16371 /\ serves days m m0 tai s /\ reports s [m0; m0 + 16371; m0 + Z.of_nat m].
Proof. exact loaded_example. Qed.

(** FINDING: if the file ends with the last day that has values, the result of load_earth_orientation_params( ) is
    not that day, as documented, but the one before it. *)
Theorem C58_end_refuted :
forall f days m m0 tai L limit file str buff s fd, finals f days m m0 tai -> 16371 <= Z.of_nat (List.length days) -> long_ok L -> m0 <= limit ->
  Z.of_nat (List.length file) < 80000000000 -> file_of days [] file ->
  exists s' dates, load L limit str true buff s (Some (Some file)) fd = Ret (m0 + Z.of_nat (List.length days) - 2, s', dates) /\ serves days m m0 tai s' /\
    exists d, nth_error days (List.length days - 1) = Some d /\ mjd d = m0 + Z.of_nat (List.length days) - 1.
Proof. exact C58_end_refuted_proof. Qed.
Print Assumptions C58_end_refuted.

Example C58_end_refuted_example : exists f file, finals f sample (Z.to_nat 12000) 41684 sample_tai /\ 16371 <= Z.of_nat (List.length sample) /\ 41684 <= IMAX /\
  Z.of_nat (List.length file) < 80000000000 /\ file_of sample [] file.
Proof. exact plain_example. Qed.

(** FINDING: with some text behind the days, 188 bytes or more, load_earth_orientation_params( ) gives
    EOP_FILE_NOT_FOUND, yet the parameters are loaded. *)
Theorem C58_trailer_refuted :
forall f days m m0 tai L limit file str buff s fd start c line more, finals f days m m0 tai -> 16371 <= Z.of_nat (List.length days) -> long_ok L -> m0 <= limit ->
  Z.of_nat (List.length file) < 80000000000 -> file_of days (start ++ c :: line ++ 10 :: more) file ->
  List.length start = 7%nat -> 65 <= c <= 122 -> (forall x, In x (start ++ line) -> x <> 0 /\ x <> 10) -> (List.length line < 179)%nat -> (179 <= List.length line + List.length more)%nat ->
  exists s' dates, load L limit str true buff s (Some (Some file)) fd = Ret (EOP_FILE_NOT_FOUND, s', dates) /\ serves days m m0 tai s'.
Proof. exact C58_trailer_refuted_proof. Qed.
Print Assumptions C58_trailer_refuted.

Example C58_trailer_refuted_example : let start := zs "<!-- th" in let line := zs "is page was made at the server of the archive of the observatory" in let more := zs "with the kind help of others, which may be found in the list of contributors" ++ zs "; see the other pages for more" ++ zs " of them -->" in
  List.length start = 7%nat /\ (forall x, In x (start ++ line) -> x <> 0 /\ x <> 10) /\ (List.length line < 179)%nat /\ (179 <= List.length line + List.length more)%nat.
Proof. cbv zeta. split; [reflexivity|]. split; [|split; apply Nat.leb_le; reflexivity]. assert (H : forallb (fun x => negb (x =? 0) && negb (x =? 10)) (zs "<!-- th" ++ zs "is page was made at the server of the archive of the observatory") = true) by reflexivity. rewrite forallb_forall in H. intros x I. specialize (H x I). rewrite andb_true_iff, !negb_true_iff, !Z.eqb_neq in H. exact H. Qed.

(** FINDING: the files finals.daily (180 days) and finals.data (since 1992; so until 2036), which are documented as
    usable, are refused for having less than 16371 days, with EOP_FILE_WRONG_FORMAT. *)
Theorem C58_short_refuted :
forall f days m m0 tai L limit file str buff s fd line more, finals f days m m0 tai -> Z.of_nat (List.length days) < 16371 -> long_ok L -> m0 <= limit ->
  Z.of_nat (List.length file) < 80000000000 -> empty_line (m0 + Z.of_nat (List.length days)) line -> file_of days (line ++ more) file ->
  exists s' dates, load L limit str true buff s (Some (Some file)) fd = Ret (EOP_FILE_WRONG_FORMAT, s', dates) /\ nothing_loaded s'.
Proof. exact C58_short_refuted_proof. Qed.
Print Assumptions C58_short_refuted.

Example C58_short_refuted_example : exists f days file line more, finals f days 180 41684 sample_tai /\ List.length days = 180%nat /\ empty_line (41684 + 180) line /\
  file_of days (line ++ more) file /\ Z.of_nat (List.length file) < 80000000000.
Proof. exact short_example. Qed.

(** FINDING: if there is no memory, the result is not EOP_ALLOC_FAILED, as documented, but EOP_FILE_WRONG_FORMAT. *)
Theorem C58_alloc_refuted :
forall f days m m0 tai L limit file str buff s fd, iers_file f days m m0 tai L limit file ->
  exists s', load L limit str false buff s (Some (Some file)) fd = Ret (EOP_FILE_WRONG_FORMAT, s', []) /\ nothing_loaded s'.
Proof. exact C58_alloc_refuted_proof. Qed.
Print Assumptions C58_alloc_refuted.

Example C58_alloc_refuted_example : exists f, iers_file f sample (Z.to_nat 12000) 41684 sample_tai LMAX64 IMAX sample_file.
Proof. destruct sample_ok as (f & H & _). now exists f. Qed.

(** FINDING: a request for a time 2^31 days or more after the first day (or before it) is undefined behaviour: the
    day does not fit in an int. *)
Theorem C58_far_refuted :
forall f days m m0 tai L limit file str buff s fd, iers_file f days m m0 tai L limit file ->
  exists s' dates, load L limit str true buff s (Some (Some file)) fd = Ret (m0 + Z.of_nat (List.length days) - 1, s', dates) /\
    forall str jd mask, Z.testbit mask 0 = true -> (inject_Z (m0 + 2147483648) <= mjd_of jd)%Q \/ (mjd_of jd < inject_Z (m0 - 2147483648))%Q ->
      get_earth_orientation_params str s' jd true mask = UB.
Proof. exact C58_far_refuted_proof. Qed.
Print Assumptions C58_far_refuted.

Example C58_far_refuted_example : exists f, iers_file f sample (Z.to_nat 12000) 41684 sample_tai LMAX64 IMAX sample_file.
Proof. destruct sample_ok as (f & H & _). now exists f. Qed.

(** FINDING: get_earth_orientation_params( ) checks whether its second argument is NULL, and then writes to it all the
    same: undefined behaviour. *)
Theorem C58_null_refuted :
forall str s jd mask, get_earth_orientation_params str s jd false mask = UB.
Proof. exact C58_null_refuted_proof. Qed.
Print Assumptions C58_null_refuted.

Example C58_null_refuted_example : get_earth_orientation_params None statics0 2451545 false 31 = UB. Proof. apply C58_null_refuted. Qed.
