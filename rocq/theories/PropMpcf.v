(** Properties C47 (right ascensions and declinations of 80-column reports) and C48 (search and replace).

    [format_of l n] is the number that stands for layout l with n decimals; [angle_text l n k] is the
    text of k units of its last place, [angle_of l n k] the angle, in hours or degrees; [columns] adds blanks up to
    twelve columns.  [prints], [prints_signed]: what output_angle_to_buff( ) and output_signed_angle_to_buff( )
    store; [reads_angle]: what is read from such columns.  See [MpcfSpec]. *)
From Coq Require Import Lia QArith Qround Qabs.
From Coq Require Import String.
From Verif Require Import CBase CStr CtimeSpec MpcfModel MpcfSpec MpcfThms.
Local Open Scope string_scope.
Local Open Scope list_scope.
Local Open Scope Z_scope.

(** C47: an angle that has room in the layout is written as the nearest number of units of the last place, with blanks
    up to twelve columns and a terminator, and nothing else is touched; what is shown
    differs from the angle by at most half a unit. *)
Theorem C47_write :
  forall l n a, can_write l n -> (0 <= a)%Q -> fits_layout l n (units l n a) ->
  prints a (format_of l n) (columns (angle_text l n (units l n a))) /\
  (Qabs (angle_of l n (units l n a) - a) <= (1 # 2) / inject_Z (per l * 10 ^ Z.of_nat n))%Q.
Proof. exact C47_write_proof. Qed.
Print Assumptions C47_write.

(** 12 h 34 m 56.789 s *)
Example C47_write_case : let a := (45296789 # 3600000)%Q in
  can_write Seconds 3 /\ (0 <= a)%Q /\ fits_layout Seconds 3 (units Seconds 3 a) /\
  columns (angle_text Seconds 3 (units Seconds 3 a)) = zs "12 34 56.789" /\
  columns (angle_text Minutes 1 (units Minutes 1 a)) = zs "12 34.9     " /\
  columns (angle_text Packed 5 (units Packed 5 a)) = zs "12345678900 ".
Proof. cbv zeta. unfold fits_layout. split; [cbn; lia|]. split; [discriminate|]. split; [vm_compute; intuition discriminate|]. repeat split; vm_compute; reflexivity. Qed.

(** C47: with a sign, whatever the sign of the angle. *)
Theorem C47_write_signed :
  forall l n a, can_write l n -> fits_layout l n (units l n (Qabs a)) ->
  prints_signed a (format_of l n) (sign_char a :: columns (angle_text l n (units l n (Qabs a)))).
Proof. exact C47_write_signed_proof. Qed.
Print Assumptions C47_write_signed.

Example C47_write_signed_case : fits_layout Seconds 1 (units Seconds 1 (Qabs (- (1 # 7)))) /\
  sign_char (- (1 # 7)) :: columns (angle_text Seconds 1 (units Seconds 1 (Qabs (- (1 # 7))))) = zs "-00 08 34.3  ".
Proof. unfold fits_layout. split; vm_compute; [intuition discriminate|reflexivity]. Qed.

(** C47: the columns of an angle, followed by anything, are read as that angle, in its format, with one unit of the last
    place as precision. *)
Theorem C47_read :
  forall l n k rest, can_read l n -> fits_layout l n k -> packed_ok l n k ->
  reads_angle (columns (angle_text l n k) ++ rest) (angle_of l n k) (format_of l n) (unit_of l n).
Proof. exact C47_read_proof. Qed.
Print Assumptions C47_read.

Example C47_read_case : can_read Packed 3 /\ fits_layout Packed 3 45296789 /\ packed_ok Packed 3 45296789 /\
  columns (angle_text Packed 3 45296789) = zs "123456789   " /\ unit_of Packed 3 = (3600 # 3600000)%Q.
Proof.
  split; [cbn; lia|]. split; [unfold fits_layout; cbn; lia|]. split; [intros _; vm_compute; discriminate|]. split; reflexivity.
Qed.

(** C47: with a sign; the layout "ddd mm ss" is for right ascensions only. *)
Theorem C47_read_signed :
  forall l n k (neg : bool) rest, can_read l n -> fits_layout l n k -> packed_ok l n k -> l <> Seconds3 ->
  reads_angle ((if neg then 45 else 43) :: columns (angle_text l n k) ++ rest)
              (if neg then - angle_of l n k else angle_of l n k)%Q (format_of l n) (unit_of l n).
Proof. exact C47_read_signed_proof. Qed.
Print Assumptions C47_read_signed.

Example C47_read_signed_case : can_read Minutes 2 /\ fits_layout Minutes 2 12345 /\ packed_ok Minutes 2 12345 /\ Minutes <> Seconds3 /\
  45 :: columns (angle_text Minutes 2 12345) = zs "-02 03.45    ".
Proof. split; [cbn; lia|]. split; [unfold fits_layout; cbn; lia|]. split; [discriminate|]. split; [discriminate|reflexivity]. Qed.

(** C47: an angle written to a report and read again comes back in the same format, off by at most half of the
    precision read. *)
Theorem C47_round_trip :
  forall l n a rest, can_read l n -> (0 <= a)%Q -> fits_layout l n (units l n a) -> packed_ok l n (units l n a) ->
  exists s v, prints a (format_of l n) s /\ List.length s = 12%nat /\
    reads_angle (s ++ rest) v (format_of l n) (unit_of l n) /\ (Qabs (v - a) * 3600 <= unit_of l n / 2)%Q.
Proof. exact C47_round_trip_proof. Qed.
Print Assumptions C47_round_trip.

Example C47_round_trip_case : let a := (45296789 # 3600000)%Q in
  can_read Decimal3 8 /\ fits_layout Decimal3 8 (units Decimal3 8 a) /\ packed_ok Decimal3 8 (units Decimal3 8 a) /\
  columns (angle_text Decimal3 8 (units Decimal3 8 a)) = zs "188.73662083".
Proof. cbv zeta. split; [cbn; lia|]. split; [unfold fits_layout; vm_compute; intuition discriminate|]. split; [discriminate|vm_compute; reflexivity]. Qed.

(** C47: the same for signed angles. *)
Theorem C47_round_trip_signed :
  forall l n a rest, can_read l n -> l <> Seconds3 -> fits_layout l n (units l n (Qabs a)) -> packed_ok l n (units l n (Qabs a)) ->
  exists s v, prints_signed a (format_of l n) s /\ List.length s = 13%nat /\
    reads_angle (s ++ rest) v (format_of l n) (unit_of l n) /\ (Qabs (v - a) * 3600 <= unit_of l n / 2)%Q.
Proof. exact C47_round_trip_signed_proof. Qed.
Print Assumptions C47_round_trip_signed.

Example C47_round_trip_signed_case : can_read Seconds 1 /\ Seconds <> Seconds3 /\ fits_layout Seconds 1 (units Seconds 1 (Qabs (- (1 # 7)))) /\
  packed_ok Seconds 1 (units Seconds 1 (Qabs (- (1 # 7)))).
Proof. split; [cbn; lia|]. split; [discriminate|]. split; [unfold fits_layout; vm_compute; intuition discriminate|discriminate]. Qed.

(** C47: more decimals than there are columns for, as in ephemerides, are cut when the text is read from a report: what is lost is less than
    one unit of the last column. *)
Theorem C47_long_formats :
  forall l j k rest, can_read l (most_decimals l) -> fits_layout l (most_decimals l + j) k ->
  packed_ok l (most_decimals l) (k / 10 ^ Z.of_nat j) ->
  let v := angle_of l (most_decimals l) (k / 10 ^ Z.of_nat j) in
  reads_angle (columns (angle_text l (most_decimals l + j) k) ++ rest) v (format_of l (most_decimals l)) (unit_of l (most_decimals l)) /\
  (v <= angle_of l (most_decimals l + j) k)%Q /\ (angle_of l (most_decimals l + j) k < v + unit_of l (most_decimals l) / 3600)%Q.
Proof. exact C47_long_formats_proof. Qed.
Print Assumptions C47_long_formats.

Example C47_long_formats_case : fits_layout Seconds (most_decimals Seconds + 2) 4529678999 /\
  columns (angle_text Seconds 5 4529678999) = zs "12 34 56.78999" /\ format_of Seconds (most_decimals Seconds) = 3.
Proof. split; [unfold fits_layout; cbn; lia|]. split; reflexivity. Qed.

(** C47: a report with a right ascension in columns 33-44 and a declination in columns 45-57 is read as both; the precisions are in arcseconds. *)
Theorem C47_report :
  forall front l n k l' n' k' (neg : bool) rest, List.length front = 32%nat ->
  can_read l n -> fits_layout l n k -> packed_ok l n k ->
  can_read l' n' -> fits_layout l' n' k' -> packed_ok l' n' k' -> l' <> Seconds3 ->
  exists ra dec p p',
    get_ra_dec_from_mpc_report (front ++ columns (angle_text l n k) ++
                                (if neg then 45 else 43) :: columns (angle_text l' n' k') ++ rest)
    = Ret (0, (format_of l n, ra, p), (format_of l' n', dec, p')) /\
    (ra == angle_of l n k)%Q /\ (p == 15 * unit_of l n)%Q /\
    (dec == if neg then - angle_of l' n' k' else angle_of l' n' k')%Q /\ (p' == unit_of l' n')%Q.
Proof. exact C47_report_proof. Qed.
Print Assumptions C47_report.

Example C47_report_case :
  zs "     K12A34B  C2012 01 01.12345 12 34 56.78 -02 03.4          15.0 V      500" =
  zs "     K12A34B  C2012 01 01.12345 " ++ columns (angle_text Seconds 2 4529678) ++ 45 :: columns (angle_text Minutes 1 1234) ++
  zs "     15.0 V      500".
Proof. reflexivity. Qed.

(** C47: columns without any digit, and without a point in the third or fourth, are not an angle. *)
Theorem C47_no_digits :
  forall s rest, List.length s = 12%nat -> (forall c, In c s -> isdigit c = false /\ c <> 45 /\ c <> 43) -> nth 2 s 0 <> 46 -> nth 3 s 0 <> 46 ->
  exists v p, get_ra_dec (s ++ rest) = Ret (v, BAD_RA_DEC_FMT, p) /\
  forall sg, sg = 43 \/ sg = 45 -> exists v' p', get_ra_dec (sg :: s ++ rest) = Ret (v', BAD_RA_DEC_FMT, p').
Proof. exact C47_no_digits_proof. Qed.
Print Assumptions C47_no_digits.

(** The blank columns of a radar observation. *)
Example C47_no_digits_case : let s := repeat 32 12 in
  List.length s = 12%nat /\ (forall c, In c s -> isdigit c = false /\ c <> 45 /\ c <> 43) /\ nth 2 s 0 <> 46 /\ nth 3 s 0 <> 46.
Proof.
  cbv zeta. split; [reflexivity|]. split; [intros c Hc; apply repeat_spec in Hc; subst c; split; [reflexivity|split; discriminate]|].
  split; discriminate.
Qed.

(** C47, finding: format 307, seven digits and no blanks, is written but not read: every such angle
    is taken to be malformed (mpc_fmt.cpp:362 asks for more than seven digits). *)
Theorem C47_seven_digits_refuted :
  forall k a rest, fits_layout Packed 1 k -> (0 <= a)%Q -> units Packed 1 a = k ->
  prints a 307 (columns (angle_text Packed 1 k)) /\
  exists v p, get_ra_dec (columns (angle_text Packed 1 k) ++ rest) = Ret (v, BAD_RA_DEC_FMT, p).
Proof. exact C47_seven_digits_refuted_proof. Qed.
Print Assumptions C47_seven_digits_refuted.

Example C47_seven_digits_case : fits_layout Packed 1 452967 /\ columns (angle_text Packed 1 452967) = zs "1234567     ".
Proof. split; [unfold fits_layout; cbn; lia|reflexivity]. Qed.

(** C47, finding: reading packed digits overflows an int whenever, as one number, they exceed
    2147483647, as from format 310 on for most angles (quick_atof( ) is called before the format is known). *)
Theorem C47_packed_overflow_refuted :
  forall n k rest, (2 <= n <= 6)%nat -> fits_layout Packed n k -> IMAX < packed_number n k ->
  get_ra_dec (columns (angle_text Packed n k) ++ rest) = UB.
Proof. exact C47_packed_overflow_refuted_proof. Qed.
Print Assumptions C47_packed_overflow_refuted.

(** 23 h 59 m 59.9999 s *)
Example C47_packed_overflow_case : fits_layout Packed 4 863999999 /\ IMAX < packed_number 4 863999999 /\
  columns (angle_text Packed 4 863999999) = zs "2359599999  ".
Proof. split; [unfold fits_layout; cbn; lia|]. split; reflexivity. Qed.

(** C47, finding: format 200, whole degrees of right ascension, is written as whole hours in two digits
    (mpc_fmt2.cpp:54 has "<= 200"), and formats 100 and 200 are written without a point, so that what is
    read is format -1: whole minutes. *)
Theorem C47_whole_degrees_refuted :
  forall a rest, (0 <= a)%Q -> (a < 99)%Q -> let k := Qfloor (a + (1 # 2)) in
  prints a 200 (columns (ndig 2 k)) /\ prints a 100 (columns (ndig 2 k)) /\
  reads_angle (columns (ndig 2 k) ++ rest) (inject_Z k) (-1) 60.
Proof. exact C47_whole_degrees_refuted_proof. Qed.
Print Assumptions C47_whole_degrees_refuted.

Example C47_whole_degrees_case : (0 <= 10)%Q /\ (10 < 99)%Q /\ columns (ndig 2 (Qfloor (10 + (1 # 2)))) = zs "10          ".
Proof. repeat split; try discriminate. Qed.

(** C48: text_search_and_replace( ) replaces every occurrence of a non-empty oldstr, from left to right and
    without overlap, and returns how many there were; it ends after at most one round per byte of the string. *)
Theorem C48_replace :
  forall str oldstr newstr, oldstr <> [] ->
  exists t n, replaced oldstr newstr str t n /\
    forall fuel, (List.length str <= fuel)%nat -> text_search_and_replace fuel str oldstr newstr = Ret (t, n).
Proof. exact C48_replace_proof. Qed.
Print Assumptions C48_replace.

Example C48_replace_case : text_search_and_replace 9 (zs "aaab aab") (zs "aa") (zs "x") = Ret (zs "xab xb", 2) /\ zs "aa" <> [].
Proof. split; [reflexivity|discriminate]. Qed.

(** C48: what is asked for is unambiguous: [replaced] determines the string and the count. *)
Theorem C48_unique :
  forall old new s t n t' n', old <> [] -> replaced old new s t n -> replaced old new s t' n' -> t = t' /\ n = n'.
Proof. exact C48_unique_proof. Qed.
Print Assumptions C48_unique.

Example C48_unique_case : replaced (zs "a") (zs "b") (zs "cad") (zs "cbd") 1.
Proof.
  apply (replaced_next (zs "a") (zs "b") (zs "c") (zs "d") (zs "d") 0).
  - intros q r E. destruct q as [|x q]; [discriminate E|cbn; lia].
  - apply replaced_none. intros p r E. destruct p as [|x [|y p]]; discriminate E.
Qed.

(** C48, finding: with an empty oldstr it never ends, whatever the string. *)
Theorem C48_empty_refuted :
  forall fuel str newstr, text_search_and_replace fuel str [] newstr = Fuel.
Proof. exact C48_empty_refuted_proof. Qed.
Print Assumptions C48_empty_refuted.
