(** Property C50: angles and places written by people.

    The vocabulary -- [angle], [place], [height] and so on -- is in [AngSpec]; the functions are those of [AngModel].
    Values are in degrees; the bytes read are given as a number, as the C functions do. *)
From Coq Require Import Lia QArith Qround Qabs Lqa.
From Coq Require Import String.
From Verif Require Import CBase CStr CtimeSpec AngModel AngSpec AngThms.
Local Open Scope string_scope.
Local Open Scope list_scope.
Local Open Scope Z_scope.

(** A latitude and a longitude, in either order, with compass signs before or after, and perhaps an altitude, are read as what they say. *)
Theorem C50_place :
forall p1 c1 p2 c2 h k neg1 v1 neg2 v2 alt,
  place p1 k neg1 v1 (c1 ++ p2 ++ c2 ++ h) -> place p2 (other k) neg2 v2 (c2 ++ h) -> comma c1 -> comma c2 -> height h alt ->
  (v1 <= limit k)%Q -> (v2 <= limit (other k))%Q ->
  exists lat lon, get_lat_lon_info true (p1 ++ c1 ++ p2 ++ c2 ++ h) = Ret (0, Some (lat, lon, Some alt)) /\
    match k with
    | latitude => (lat == signed neg1 v1)%Q /\ (lon == east neg2 v2)%Q
    | longitude => (lat == signed neg2 v2)%Q /\ (lon == east neg1 v1)%Q
    end.
Proof. exact C50_place_proof. Qed.
Print Assumptions C50_place.

Example C50_place_ex : exists p1 p2 h, zs "n44 01 12.0, 69.9W, alt. 18m" = p1 ++ [44] ++ p2 ++ [44] ++ h /\
  place p1 latitude false (inject_Z 44 + inject_Z 1 / 60 + (inject_Z 12 + inject_Z 0 / inject_Z 10) / 3600) ([44] ++ p2 ++ [44] ++ h) /\
  place p2 longitude true (inject_Z 69 + inject_Z 9 / inject_Z 10) ([44] ++ h) /\ height h (inject_Z 18).
Proof.
  exists (zs "n44 01 12.0"), (zs " 69.9W"), (zs " alt. 18m"). split; [reflexivity|]. split; [|split].
  - apply (place_before 0 110 latitude false 0 (zs "44 01 12.0") _ 3 true 0); [apply sign_n; vm_compute; now left| |cbn [app follows]; split; [lia|split; intros; lia]].
    apply (angle_three (ndig 2 44) (inject_Z 44) 0 (ndig 2 1) (inject_Z 1) 0 (zs "12.0") _ false).
    + constructor; [lia|vm_compute; split; discriminate || reflexivity].
    + constructor; [lia|vm_compute; split; discriminate || reflexivity].
    + discriminate.
    + apply (number_decimal 2 12 1 0); first [lia|vm_compute; split; discriminate || reflexivity].
    + discriminate.
  - apply (place_after 1 (zs "69.9") _ 1 true 0 87 longitude true); [apply sign_w; vm_compute; right; now left|]. apply (angle_one _ _ false).
    apply (number_decimal 2 69 1 9); first [lia|vm_compute; split; discriminate || reflexivity].
  - apply (height_metres 1 (zs "alt. ") (ndig 2 18) (inject_Z 18) true 0 []).
    + right. exists (zs "alt."), 1%nat. split; [vm_compute; right; right; now left|reflexivity].
    + constructor; [lia|vm_compute; split; discriminate || reflexivity].
Qed.

(** Latitudes above 90 and longitudes above 360 degrees are refused, whatever follows them. *)
Theorem C50_outside :
forall p1 c1 p2 c2 t k neg1 v1 neg2 v2,
  place p1 k neg1 v1 (c1 ++ p2 ++ c2 ++ t) -> place p2 (other k) neg2 v2 (c2 ++ t) -> comma c1 -> comma c2 -> no_comma t ->
  (limit k < v1)%Q \/ (limit (other k) < v2)%Q ->
  exists r, get_lat_lon_info true (p1 ++ c1 ++ p2 ++ c2 ++ t) = Ret (-1, r).
Proof. exact C50_outside_proof. Qed.
Print Assumptions C50_outside.

Example C50_outside_ex : exists p2, zs "N91E9" = (zs "N91") ++ [] ++ p2 ++ [] ++ [] /\
  place (zs "N91") latitude false (inject_Z 91) ([] ++ p2 ++ [] ++ []) /\ place p2 longitude false (inject_Z 9) ([] ++ []) /\ (limit latitude < inject_Z 91)%Q.
Proof.
  exists (zs "E9"). split; [reflexivity|]. split; [|split; [|reflexivity]].
  - apply (place_before 0 78 latitude false 0 (ndig 2 91) (inject_Z 91) 1 false 0); [apply sign_n; vm_compute; right; now left| |].
    + apply (angle_one _ _ true). constructor; first [lia|vm_compute; split; discriminate || reflexivity].
    + change (zs "E9") with [69; 57]. cbn [app follows]. split; [lia|split; intros; lia].
  - apply (place_before 0 69 longitude false 0 (ndig 1 9) (inject_Z 9) 1 false 0); [apply sign_e; vm_compute; right; now left| |exact I].
    apply (angle_one _ _ true). constructor; first [lia|vm_compute; split; discriminate || reflexivity].
Qed.

(** Two latitudes, or two longitudes, are not a place. *)
Theorem C50_same_kind :
forall b p1 c1 p2 t k neg1 v1 neg2 v2,
  place p1 k neg1 v1 (c1 ++ p2 ++ t) -> place p2 k neg2 v2 t -> comma c1 -> get_lat_lon_info b (p1 ++ c1 ++ p2 ++ t) = Ret (-1, None).
Proof. exact C50_same_kind_proof. Qed.
Print Assumptions C50_same_kind.

Example C50_same_kind_ex : place (zs "N9") latitude false (inject_Z 9) ([44] ++ zs "N9" ++ []) /\ place (zs "N9") latitude false (inject_Z 9) [].
Proof.
  split; (apply (place_before 0 78 latitude false 0 (ndig 1 9) (inject_Z 9) 1 false 0); [apply sign_n; vm_compute; right; now left| |]).
  1, 3: apply (angle_one _ _ true); constructor; first [lia|vm_compute; split; discriminate || reflexivity].
  - cbn [app follows]. split; [lia|split; intros; lia].
  - exact I.
Qed.

(** Right ascensions: one or two numbers are degrees (and minutes), three are hours, minutes and seconds.  Up to 360 degrees, the blanks around the angle count as read. *)
Theorem C50_ra :
forall i s v n full j t, angle s v n full -> follows full j t ->
  exists ra bytes, get_ra_from_string (blanks i ++ s ++ blanks j ++ t) = Ret (ra, bytes) /\
    (ra == if n =? 3 then 15 * v else v)%Q /\
    bytes = if Qle_bool ra 360 then Z.of_nat (List.length (blanks i ++ s ++ blanks j)) else 0.
Proof. exact C50_ra_proof. Qed.
Print Assumptions C50_ra.

Example C50_ra_ex : exists v, angle (zs "12 34 56.75") v 3 true /\ follows true 1 (zs "-7 8") /\ (Qle_bool (15 * v) 360 = true) /\
  (v == (12 * 3600 + 34 * 60 + 56 + (3 # 4)) / 3600)%Q.
Proof.
  exists (inject_Z 12 + inject_Z 34 / 60 + (inject_Z 56 + inject_Z 75 / inject_Z 100) / 3600)%Q. split; [|split; [|split]].
  - apply (angle_three (ndig 2 12) (inject_Z 12) 0 (ndig 2 34) (inject_Z 34) 0 (ndig 2 56 ++ 46 :: ndig 2 75) (inject_Z 56 + inject_Z 75 / inject_Z 100)%Q false); try discriminate.
    + constructor; first [lia|vm_compute; split; discriminate || reflexivity].
    + constructor; first [lia|vm_compute; split; discriminate || reflexivity].
    + apply (number_decimal 2 56 2 75); first [lia|vm_compute; split; discriminate || reflexivity].
  - change (zs "-7 8") with [45; 55; 32; 56]. cbn [follows]. split; [lia|split; intros; lia].
  - reflexivity.
  - reflexivity.
Qed.

(** Declinations: a sign, then degrees, minutes and seconds; up to 90 degrees, the sign and the blanks around the angle count as read. *)
Theorem C50_dec :
forall c i s v n full j t, In c (zs "+-") -> angle s v n full -> follows full j t -> (v <= 90)%Q ->
  get_dec_from_string (c :: blanks i ++ s ++ blanks j ++ t) = Ret (signed (c =? 45) v, Z.of_nat (List.length (c :: blanks i ++ s ++ blanks j))).
Proof. exact C50_dec_proof. Qed.
Print Assumptions C50_dec.

Example C50_dec_ex : angle (zs "7 30") (inject_Z 7 + inject_Z 30 / 60) 2 false /\ follows false 0 [] /\ (inject_Z 7 + inject_Z 30 / 60 <= 90)%Q.
Proof.
  split; [|split; [exact I|discriminate]].
  apply (angle_two (ndig 1 7) (inject_Z 7) 0 (ndig 2 30) (inject_Z 30) true); try discriminate; constructor; first [lia|vm_compute; split; discriminate || reflexivity].
Qed.

(** More than 60 minutes or seconds are refused: nothing counts as read of a right ascension or declination, and a place with such an angle is refused. *)
Theorem C50_over :
forall i s t, over s -> number_ends t ->
  (exists ra, get_ra_from_string (blanks i ++ s ++ t) = Ret (ra, 0)) /\
  (forall c, In c (zs "+-") -> exists dec, get_dec_from_string (c :: blanks i ++ s ++ t) = Ret (dec, 0)) /\
  (forall b pre, pre = [] \/ (exists c k neg j, sign c k neg /\ pre = c :: blanks j) ->
     get_lat_lon_info b (blanks i ++ pre ++ s ++ t) = Ret (-1, None) /\
     forall p1 c1 k neg v, place p1 k neg v (c1 ++ blanks i ++ pre ++ s ++ t) -> comma c1 ->
       get_lat_lon_info b (p1 ++ c1 ++ blanks i ++ pre ++ s ++ t) = Ret (-1, None)).
Proof. exact C50_over_proof. Qed.
Print Assumptions C50_over.

Example C50_over_ex : over (zs "12 61") /\ number_ends (zs "N").
Proof.
  split; [|vm_compute; intuition discriminate].
  apply (over_minutes (ndig 2 12) (inject_Z 12) 0 (ndig 2 61) (inject_Z 61) true); [constructor|constructor|reflexivity]; first [lia|vm_compute; split; discriminate || reflexivity].
Qed.

(** Text without runs of more than nine digits whose last byte is not a digit, point or blank is read without undefined behaviour; for right ascensions and declinations the last byte does not matter. *)
Theorem C50_total :
forall s, short_runs s ->
  (exists r, get_ra_from_string s = Ret r) /\ (exists r, get_dec_from_string s = Ret r) /\
  (well_ended s -> forall b, exists r, get_lat_lon_info b s = Ret r).
Proof. exact C50_total_proof. Qed.
Print Assumptions C50_total.

Example C50_total_ex : short_runs (zs "n44 01 12.0, hello") /\ well_ended (zs "n44 01 12.0, hello").
Proof.
  split.
  - intros a b c E D. assert (H : (List.length b <= 18)%nat) by (apply (f_equal (@List.length Z)) in E; rewrite !app_length in E; change (List.length (zs "n44 01 12.0, hello")) with 18%nat in E; lia).
    assert (A : (List.length a <= 18)%nat) by (apply (f_equal (@List.length Z)) in E; rewrite !app_length in E; change (List.length (zs "n44 01 12.0, hello")) with 18%nat in E; lia).
    destruct (Nat.le_gt_cases (List.length b) 9) as [L|L]; [exact L|exfalso].
    assert (X : forall i, (i < List.length b)%nat -> 48 <= nth (List.length a + i) (zs "n44 01 12.0, hello") 0 <= 57).
    { intros i Hi. rewrite E, app_nth2_plus, app_nth1 by exact Hi. apply D, nth_In, Hi. }
    assert (Y : forall k, (k < 18)%nat -> exists i, (i < 10)%nat /\ ~ 48 <= nth (k + i) (zs "n44 01 12.0, hello") 0 <= 57).
    { intros k Hk. destruct (Nat.le_gt_cases k 0); [exists 0%nat|]; [replace k with 0%nat by lia; split; [lia|vm_compute; intuition discriminate]|].
      destruct (Nat.le_gt_cases k 3); [exists (3 - k)%nat; replace (k + (3 - k))%nat with 3%nat by lia; split; [lia|vm_compute; intuition discriminate]|].
      destruct (Nat.le_gt_cases k 11); [exists (11 - k)%nat; replace (k + (11 - k))%nat with 11%nat by lia; split; [lia|vm_compute; intuition discriminate]|].
      exists (17 - k)%nat. replace (k + (17 - k))%nat with 17%nat by lia. split; [lia|vm_compute; intuition discriminate]. }
    destruct (Nat.eq_dec (List.length a) 18) as [EA|NA].
    + apply (f_equal (@List.length Z)) in E. rewrite !app_length in E. change (List.length (zs "n44 01 12.0, hello")) with 18%nat in E. lia.
    + destruct (Y (List.length a) ltac:(lia)) as (i & Hi & N). apply N, X. lia.
  - exists (zs "n44 01 12.0, hell"), 111. split; [reflexivity|lia].
Qed.

(** Whatever the text: a place that is accepted has a latitude of -90 to 90 and a longitude of 0 to 360 degrees; a right ascension of which something counts as read is in 0 to 360 degrees, and not more is read than there is; a declination with more than its sign read is in -90 to 90. *)
Theorem C50_range :
forall s,
  (forall r, get_lat_lon_info true s = Ret (0, r) ->
     exists lat lon alt, r = Some (lat, lon, Some alt) /\ (-(90) <= lat <= 90)%Q /\ (0 <= lon <= 360)%Q) /\
  (short_runs s -> forall v n, get_ra_from_string s = Ret (v, n) -> 0 <= n <= Z.of_nat (List.length s) /\ (n <> 0 -> (0 <= v <= 360)%Q)) /\
  (short_runs s -> forall v n, get_dec_from_string s = Ret (v, n) -> 0 <= n <= Z.of_nat (List.length s) /\ (1 < n -> (-(90) <= v <= 90)%Q)).
Proof. exact C50_range_proof. Qed.
Print Assumptions C50_range.

Example C50_range_ex : exists lat lon alt n, get_lat_lon_info true (zs "w 69.91, n 44.012, 1700ft") = Ret (0, Some (lat, lon, Some alt)) /\
  (lat == 44012 # 1000)%Q /\ (lon == 29009 # 100)%Q /\ (alt == 51816 # 100)%Q /\ get_ra_from_string (zs "12 34 56 ") = Ret n /\ snd n = 9.
Proof. eexists _, _, _, _. split; [vm_compute; reflexivity|]. split; [reflexivity|]. split; [reflexivity|]. split; [reflexivity|]. split; vm_compute; reflexivity. Qed.

(** Text without digits is no place, no right ascension and no declination. *)
Theorem C50_no_digits :
forall s, (forall c, In c s -> ~ 48 <= c <= 57) ->
  (forall b, get_lat_lon_info b s = Ret (-1, None)) /\ get_ra_from_string s = Ret (0%Q, 0) /\
  (exists v, get_dec_from_string s = Ret (v, 0) /\ (v == 0)%Q) /\
  (exists r, (r = -1 \/ r = -2) /\ get_xxx_location_info s = Ret (r, None)).
Proof. exact C50_no_digits_proof. Qed.
Print Assumptions C50_no_digits.

Example C50_no_digits_ex : forall c, In c (zs "+ north, west, alt. m") -> ~ 48 <= c <= 57.
Proof.
  intros c Hc. assert (A : forallb (fun c => negb ((48 <=? c) && (c <=? 57))) (zs "+ north, west, alt. m") = true) by (vm_compute; reflexivity).
  rewrite forallb_forall in A. specialize (A c Hc). lia.
Qed.

(** A comment on the place of an observatory without a code ("COM Long. 239 18 45 E, Lat. 33 54 11 N, Alt. 100m, Google Earth") is read as what it says. *)
Theorem C50_xxx :
forall p1 t1 p2 t2 a neg1 v1 neg2 v2 alt,
  place p1 longitude neg1 v1 (t1 ++ zs "Lat." ++ p2 ++ t2 ++ zs "Alt." ++ a) ->
  place p2 latitude neg2 v2 (t2 ++ zs "Alt." ++ a) -> quiet t1 -> quiet t2 -> metres a alt ->
  exists lon lat alt', get_xxx_location_info (zs "COM Long." ++ p1 ++ t1 ++ zs "Lat." ++ p2 ++ t2 ++ zs "Alt." ++ a) = Ret (0, Some (lon, lat, alt')) /\
    (lon == east neg1 v1)%Q /\ (lat == signed neg2 v2)%Q /\ (alt' == alt)%Q.
Proof. exact C50_xxx_proof. Qed.
Print Assumptions C50_xxx.

Example C50_xxx_ex : exists p1 p2 a v, zs "COM Long. 239 18 45 E, Lat. 33.5 N, Alt. 100m, Google Earth" = zs "COM Long." ++ p1 ++ zs ", " ++ zs "Lat." ++ p2 ++ zs ", " ++ zs "Alt." ++ a /\
  place p1 longitude false v (zs ", " ++ zs "Lat." ++ p2 ++ zs ", " ++ zs "Alt." ++ a) /\ place p2 latitude false (inject_Z 33 + inject_Z 5 / inject_Z 10) (zs ", " ++ zs "Alt." ++ a) /\
  quiet (zs ", ") /\ metres a (inject_Z 100).
Proof.
  exists (zs " 239 18 45 E"), (zs " 33.5 N"), (zs " 100m, Google Earth"), (inject_Z 239 + inject_Z 18 / 60 + inject_Z 45 / 3600)%Q. split; [reflexivity|]. split; [|split; [|split]].
  - apply (place_after 1 (zs "239 18 45") _ 3 true 1 69 longitude false); [apply sign_e; vm_compute; right; now left|].
    apply (angle_three (ndig 3 239) (inject_Z 239) 0 (ndig 2 18) (inject_Z 18) 0 (ndig 2 45) (inject_Z 45) true); try discriminate; constructor; first [lia|vm_compute; split; discriminate || reflexivity].
  - apply (place_after 1 (zs "33.5") _ 1 true 1 78 latitude false); [apply sign_n; vm_compute; right; now left|].
    apply (angle_one _ _ false). apply (number_decimal 2 33 1 5); first [lia|vm_compute; split; discriminate || reflexivity].
  - intros c Hc. vm_compute in Hc. intuition (subst; discriminate).
  - apply (metres_up 1 (ndig 3 100) (inject_Z 100) true (zs "m, Google Earth")); [constructor; first [lia|vm_compute; split; discriminate || reflexivity]|vm_compute; intuition discriminate|vm_compute; intuition discriminate].
Qed.

(** An angle at the end of the text without a compass sign or unit -- "44.5", or an altitude as in "n44, w70, 1700" -- makes the reader look behind the end of the text: strchr( ) finds the terminator among the compass signs. *)
Theorem C50_bare_number_refuted :
forall i s v n full j, angle s v n full ->
  (forall b, get_lat_lon_info b (blanks i ++ s ++ blanks j) = UB) /\
  (forall p1 c1 p2 k neg1 v1 neg2 v2, place p1 k neg1 v1 (c1 ++ p2 ++ 44 :: blanks i ++ s ++ blanks j) -> place p2 (other k) neg2 v2 (44 :: blanks i ++ s ++ blanks j) -> comma c1 ->
     (v1 <= limit k)%Q -> (v2 <= limit (other k))%Q -> get_lat_lon_info true (p1 ++ c1 ++ p2 ++ 44 :: blanks i ++ s ++ blanks j) = UB).
Proof. exact C50_bare_number_refuted_proof. Qed.
Print Assumptions C50_bare_number_refuted.

Example C50_bare_number_refuted_ex : get_lat_lon_info true (zs "44.5") = UB /\ get_lat_lon_info true (zs "n44, w70, 1700") = UB.
Proof. split; vm_compute; reflexivity. Qed.

(** The comment in get_ra_from_string( ) says that "HH MM.mm" is taken as hours; any angle of two numbers is taken as degrees and minutes. *)
Theorem C50_hours_refuted :
forall i s v full j t, angle s v 2 full -> follows full j t -> exists bytes, get_ra_from_string (blanks i ++ s ++ blanks j ++ t) = Ret (v, bytes).
Proof. exact C50_hours_refuted_proof. Qed.
Print Assumptions C50_hours_refuted.

Example C50_hours_refuted_ex : get_ra_from_string (zs "12 30.0") = Ret ((inject_Z 12 + (inject_Z 30 + inject_Z 0 / inject_Z 10) / 60)%Q, 7).
Proof. vm_compute. reflexivity. Qed.

(** Of a declination beyond 90 degrees one byte, the sign, still counts as read, so a caller that checks for zero takes it. *)
Theorem C50_beyond_pole_refuted :
forall c i s v n full j t, In c (zs "+-") -> angle s v n full -> follows full j t -> (90 < v)%Q ->
  get_dec_from_string (c :: blanks i ++ s ++ blanks j ++ t) = Ret (signed (c =? 45) v, 1).
Proof. exact C50_beyond_pole_refuted_proof. Qed.
Print Assumptions C50_beyond_pole_refuted.

Example C50_beyond_pole_refuted_ex : get_dec_from_string (zs "-123.5") = Ret ((- (inject_Z 123 + inject_Z 5 / inject_Z 10))%Q, 1).
Proof. vm_compute. reflexivity. Qed.

(** An angle with ten or more decimals overflows an int, for all functions. *)
Theorem C50_decimals_refuted :
forall n i k d t, (1 <= n <= 9)%nat -> 0 <= i < 10 ^ Z.of_nat n -> (10 <= k)%nat ->
  get_ra_from_string (ndig n i ++ 46 :: ndig k d ++ t) = UB /\
  (forall c, In c (zs "+-") -> get_dec_from_string (c :: ndig n i ++ 46 :: ndig k d ++ t) = UB) /\
  (forall b, get_lat_lon_info b (ndig n i ++ 46 :: ndig k d ++ t) = UB).
Proof. exact C50_decimals_refuted_proof. Qed.
Print Assumptions C50_decimals_refuted.

Example C50_decimals_refuted_ex : get_dec_from_string (zs "+1.0000000000") = UB.
Proof. vm_compute. reflexivity. Qed.

(** Two ways around the limits: without a place for the result get_lat_lon_info( ) accepts any latitude and longitude, and get_xxx_location_info( ) never checks them. *)
Theorem C50_unchecked_refuted :
(forall p1 c1 p2 c2 t k neg1 v1 neg2 v2,
   place p1 k neg1 v1 (c1 ++ p2 ++ c2 ++ t) -> place p2 (other k) neg2 v2 (c2 ++ t) -> comma c1 ->
   get_lat_lon_info false (p1 ++ c1 ++ p2 ++ c2 ++ t) = Ret (0, None)) /\
  (exists lon lat alt, get_xxx_location_info (zs "COM Long. 999 W, Lat. 91 S, Alt. 0m") = Ret (0, Some (lon, lat, alt)) /\
    (lon == - (639))%Q /\ (lat == - (91))%Q).
Proof. exact C50_unchecked_refuted_proof. Qed.
Print Assumptions C50_unchecked_refuted.

(** get_xxx_location_info( ) computes a code that tells whether the latitude or the altitude is missing, but a caller only ever sees 0, -1 or -2. *)
Theorem C50_xxx_codes_refuted :
forall s r x, get_xxx_location_info s = Ret (r, x) -> r = 0 \/ r = -1 \/ r = -2.
Proof. exact C50_xxx_codes_refuted_proof. Qed.
Print Assumptions C50_xxx_codes_refuted.

Example C50_xxx_codes_refuted_ex : get_xxx_location_info (zs "COM Long. 239 E, Alt. 0m") = Ret (-2, None).
Proof. vm_compute. reflexivity. Qed.
