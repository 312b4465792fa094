(** Properties C21 to C26 and C32: packed designations.

    The vocabulary of the statements ([round_trip], the forms of names, Roman
    numerals) is in [DesigSpec].  Names are lists of character codes. *)
From Coq Require Import Lia String.
From Verif Require Import CBase CStr DesigModel DesigSpec DesigThms.
Open Scope list_scope.

(** C21.  int_to_mutant_hex_char( ) of 0..61 is the digit of that value. *)
Theorem C21_digit_of_value :
  forall v, 0 <= v < 62 -> is_digit62 (int_to_mutant_hex_char v) v.
Proof. exact C21_digit_of_value_proof. Qed.
Print Assumptions C21_digit_of_value.

Example C21_digit_of_value_case : int_to_mutant_hex_char 35 = 90 /\ is_digit62 90 35.
Proof. vm_compute. repeat split; congruence. Qed.

(** C21.  mutant_hex_char_to_int( ) gives a value for the digits, and only for them; a
    character that is no digit gives -1. *)
Theorem C21_value_of_digit :
  forall c, (forall v, 0 <= v -> (mutant_hex_char_to_int c = v <-> is_digit62 c v)) /\
            ((forall v, ~ is_digit62 c v) -> mutant_hex_char_to_int c = -1).
Proof. exact C21_value_of_digit_proof. Qed.
Print Assumptions C21_value_of_digit.

Example C21_value_of_digit_case : mutant_hex_char_to_int 122 = 61 /\ mutant_hex_char_to_int 64 = -1 /\ ~ In 64 base62.
Proof. vm_compute. repeat split. intuition discriminate. Qed.

(** C21.  Other values have no digit: the result is NUL. *)
Theorem C21_no_digit_of_value :
  forall v, v < 0 \/ 62 <= v -> int_to_mutant_hex_char v = 0.
Proof. exact C21_no_digit_of_value_proof. Qed.
Print Assumptions C21_no_digit_of_value.

(** C21.  encode_value_in_mutant_hex( ) writes the n base-62 digits of the value into
    the n bytes of its destination [dst] and nothing else; it returns what did
    not fit. *)
Theorem C21_encode :
  forall (pre dst post : buf) v, 0 <= v ->
  let n := length dst in
  exists s ds, length s = n /\ Forall2 is_digit62 s ds /\ number62 ds = v mod 62 ^ Z.of_nat n /\
  encode_value_in_mutant_hex (pre ++ dst ++ post) (Z.of_nat (length pre)) n v
  = Ret (v / 62 ^ Z.of_nat n, pre ++ map Some s ++ post).
Proof. exact C21_encode_proof. Qed.
Print Assumptions C21_encode.

Example C21_encode_case :
  encode_value_in_mutant_hex [Some 126; None; None; None; None; Some 0] 1 4 14776335
  = Ret (0, [Some 126; Some 122; Some 122; Some 122; Some 122; Some 0]).
Proof. vm_compute. reflexivity. Qed.

(** C21.  get_mutant_hex_value( ) of digits within a string is their value, if it is an
    int. *)
Theorem C21_decode :
  forall (before s after ds : list Z), Forall2 is_digit62 s ds -> number62 ds <= 2147483647 ->
  get_mutant_hex_value (before ++ s ++ after) (Z.of_nat (length before)) (length s) = Ret (number62 ds).
Proof. exact C21_decode_proof. Qed.
Print Assumptions C21_decode.

Example C21_decode_case : get_mutant_hex_value (zs "~zzzz") 1 4 = Ret 14776335.
Proof. vm_compute. reflexivity. Qed.

(** C21.  Encoding a value that fits in n digits and decoding them gives the value. *)
Theorem C21_round_trip :
  forall (pre dst post : buf) v, 0 <= v < 62 ^ Z.of_nat (length dst) -> v <= 2147483647 ->
  exists s, encode_value_in_mutant_hex (pre ++ dst ++ post) (Z.of_nat (length pre)) (length dst) v
            = Ret (0, pre ++ map Some s ++ post) /\ length s = length dst /\
  forall before after,
  get_mutant_hex_value (before ++ s ++ after) (Z.of_nat (length before)) (length dst) = Ret v.
Proof. exact C21_round_trip_proof. Qed.
Print Assumptions C21_round_trip.

(** C21.  If a character that is no digit follows digits whose value is an int, the
    result is -1. *)
Theorem C21_decode_rejects :
  forall (before s after ds : list Z) c n, Forall2 is_digit62 s ds -> number62 ds <= 2147483647 ->
  (forall v, ~ is_digit62 c v) -> (length s < n)%nat ->
  get_mutant_hex_value (before ++ s ++ c :: after) (Z.of_nat (length before)) n = Ret (-1).
Proof. exact C21_decode_rejects_proof. Qed.
Print Assumptions C21_decode_rejects.

Example C21_decode_rejects_case : get_mutant_hex_value (zs "~zz-z") 1 4 = Ret (-1) /\ ~ In 45 base62.
Proof. vm_compute. split; [reflexivity|intuition discriminate]. Qed.

(** C21.  Six digits can overflow the int: get_mutant_hex_value( ) does not check. *)
Theorem C21_decode_overflow_refuted :
  get_mutant_hex_value (zs "zzzzzz") 0 6 = UB.
Proof. exact C21_decode_overflow_refuted_proof. Qed.
Print Assumptions C21_decode_overflow_refuted.

(** C22.  "(n)" round-trips for every number that can be packed: five digits, a letter
    and four digits, or a tilde and four base-62 digits. *)
Theorem C22_number :
  forall n, 1 <= n < 620000 + 62 ^ 4 ->
  round_trip (zs "(" ++ dec n ++ zs ")") OBJ_DESIG_ASTEROID_NUMBERED.
Proof. exact C22_number_proof. Qed.
Print Assumptions C22_number.

Example C22_number_case :
  create_mpc_packed_desig (repeat None 13) (zs "(619999)") = Ret (0, map Some (zs "z9999       " ++ [0])) /\
  create_mpc_packed_desig (repeat None 13) (zs "(620000)") = Ret (0, map Some (zs "~0000       " ++ [0])).
Proof. vm_compute. split; reflexivity. Qed.

(** C22.  Above 2^32 the number is reduced modulo 2^32 without notice: "(4294967297)"
    is packed as "(1)". *)
Theorem C22_number_too_large_refuted :
  create_mpc_packed_desig (repeat None 13) (zs "(4294967297)") = Ret (0, map Some (zs "00001       " ++ [0])).
Proof. exact C22_number_too_large_refuted_proof. Qed.
Print Assumptions C22_number_too_large_refuted.

(** C23.  "1995 XA", "2016 JQ123": provisional designations round-trip, with all
    letters and cycle counts below 620. *)
Theorem C23_asteroid :
  forall year half second k, 1600 <= year < 2100 -> capital half -> capital second -> 0 <= k < 620 ->
  round_trip (asteroid_name year half second k) OBJ_DESIG_ASTEROID_PROVISIONAL.
Proof. exact C23_asteroid_proof. Qed.
Print Assumptions C23_asteroid.

Example C23_asteroid_case :
  asteroid_name 2016 74 81 123 = zs "2016 JQ123" /\
  create_mpc_packed_desig (repeat None 13) (zs "2016 JQ123") = Ret (0, map Some (zs "     K16JC3Q" ++ [0])).
Proof. vm_compute. split; reflexivity. Qed.

(** C23.  The extended scheme, for cycle counts of 620 and more in 2000-2061: names
    with one of the 25 second letters in use round-trip while the number of the
    designation fits in four base-62 digits. *)
Theorem C23_asteroid_extended :
  forall year half i k, 2000 <= year < 2062 -> capital half -> (i < 25)%nat -> 620 <= k ->
  25 * (k - 620) + Z.of_nat i < 62 ^ 4 ->
  round_trip (asteroid_name year half (nth i second_letters 0) k) OBJ_DESIG_ASTEROID_PROVISIONAL.
Proof. exact C23_asteroid_extended_proof. Qed.
Print Assumptions C23_asteroid_extended.

Example C23_asteroid_extended_case :
  create_mpc_packed_desig (repeat None 13) (zs "2016 JQ620") = Ret (0, map Some (zs "     _GJ000F" ++ [0])) /\
  asteroid_name 2016 74 (nth 15 second_letters 0) 620 = zs "2016 JQ620".
Proof. vm_compute. split; reflexivity. Qed.

(** C23.  Refuted for cycle counts from 620 in other years: the count is dropped, and
    success is reported. *)
Theorem C23_extended_year_refuted :
  create_mpc_packed_desig (repeat None 13) (zs "1995 XA620") = Ret (0, map Some (zs "     J95X  A" ++ [0])) /\
  create_mpc_packed_desig (repeat None 13) (zs "1995 XA777") = Ret (0, map Some (zs "     J95X  A" ++ [0])).
Proof. exact C23_extended_year_refuted_proof. Qed.
Print Assumptions C23_extended_year_refuted.

(** C23.  In the extended scheme the (unused) second letter I is packed as J. *)
Theorem C23_second_letter_I_refuted :
  create_mpc_packed_desig (repeat None 13) (zs "2016 JI620")
  = create_mpc_packed_desig (repeat None 13) (zs "2016 JJ620").
Proof. exact C23_second_letter_I_refuted_proof. Qed.
Print Assumptions C23_second_letter_I_refuted.

(** C23.  The designations of the surveys round-trip, for numbers below 9000. *)
Theorem C23_survey :
  forall n survey, 1000 <= n < 9000 -> In survey [zs "P-L"; zs "T-1"; zs "T-2"; zs "T-3"] ->
  round_trip (dec n ++ [32] ++ survey) OBJ_DESIG_ASTEROID_PROVISIONAL.
Proof. exact C23_survey_proof. Qed.
Print Assumptions C23_survey.

Example C23_survey_case :
  create_mpc_packed_desig (repeat None 13) (zs "2040 P-L") = Ret (0, map Some (zs "     PLS2040" ++ [0])).
Proof. vm_compute. reflexivity. Qed.

(** C23.  Refuted from 9000 on: the designation "9602 P-L" is not recognised. *)
Theorem C23_survey_refuted :
  create_mpc_packed_desig (repeat None 13) (zs "9602 P-L") = Ret (-1, map Some (zs "$9602 P-L   " ++ [0])).
Proof. exact C23_survey_refuted_proof. Qed.
Print Assumptions C23_survey_refuted.

(** C23.  Comets: "C/1995 O1", and fragments, "D/1993 F2-A". *)
Theorem C23_comet :
  forall kind year half k, In kind (zs "PCXD") -> 1600 <= year < 2100 -> capital half -> 1 <= k < 620 ->
  forall fragment, fragment = [] \/ (exists f, capital f /\ fragment = [45; f]) ->
  round_trip (comet_name kind year half k fragment) OBJ_DESIG_COMET_PROVISIONAL.
Proof. exact C23_comet_proof. Qed.
Print Assumptions C23_comet.

Example C23_comet_case :
  comet_name 68 1993 70 2 (zs "-A") = zs "D/1993 F2-A" /\
  create_mpc_packed_desig (repeat None 13) (zs "D/1993 F2-A") = Ret (0, map Some (zs "    DJ93F02a" ++ [0])).
Proof. vm_compute. split; reflexivity. Qed.

(** C23.  Comets with an asteroid's designation: "P/2016 JQ123". *)
Theorem C23_comet_asteroidal :
  forall kind year half second k, In kind (zs "PCXD") -> 1600 <= year < 2100 -> capital half -> capital second -> 0 <= k < 620 ->
  round_trip ([kind; 47] ++ asteroid_name year half second k) OBJ_DESIG_COMET_PROVISIONAL.
Proof. exact C23_comet_asteroidal_proof. Qed.
Print Assumptions C23_comet_asteroidal.

(** C23.  Numbered comets: "1P", "73P-B", "73P-AZ". *)
Theorem C23_numbered_comet :
  forall n kind fragment, 1 <= n < 10000 -> In kind (zs "PDI") ->
  fragment = [] \/ (exists letters, fragment = 45 :: letters /\ (1 <= length letters <= 2)%nat /\ forall c, In c letters -> capital c) ->
  round_trip (dec n ++ [kind] ++ fragment) OBJ_DESIG_COMET_NUMBERED.
Proof. exact C23_numbered_comet_proof. Qed.
Print Assumptions C23_numbered_comet.

Example C23_numbered_comet_case :
  create_mpc_packed_desig (repeat None 13) (zs "73P-AZ") = Ret (0, map Some (zs "0073P     az" ++ [0])).
Proof. vm_compute. reflexivity. Qed.

(** C23.  Refuted for three letters of a fragment (the third is dropped) and for the
    fragment of a comet with an asteroid's designation (it replaces the second
    letter); success is reported. *)
Theorem C23_fragment_refuted :
  create_mpc_packed_desig (repeat None 13) (zs "73P-ABC") = Ret (0, map Some (zs "0073P     ab" ++ [0])) /\
  create_mpc_packed_desig (repeat None 13) (zs "P/2016 JQ123-A") = Ret (0, map Some (zs "    PK16JC3a" ++ [0])).
Proof. exact C23_fragment_refuted_proof. Qed.
Print Assumptions C23_fragment_refuted.

(** C23.  Names that round-trip and differ have different packed forms. *)
Theorem C23_injective :
  forall name1 type1 name2 type2 (b : buf), no_nul name1 -> no_nul name2 ->
  round_trip name1 type1 -> round_trip name2 type2 -> (13 <= length b)%nat ->
  create_mpc_packed_desig b name1 = create_mpc_packed_desig b name2 -> name1 = name2.
Proof. exact C23_injective_proof. Qed.
Print Assumptions C23_injective.

(** C24.  "Jupiter XIII": numbered satellites round-trip if the name has at most 15
    characters.  Missing: longer names, see the next theorem. *)
Theorem C24_satellite_partial :
  forall planet n, In planet satellite_planets -> 1 <= n < 1000 ->
  (length (satellite_name planet n) < 16)%nat ->
  round_trip (satellite_name planet n) OBJ_DESIG_NATSAT_NUMBERED.
Proof. exact C24_satellite_partial_proof. Qed.
Print Assumptions C24_satellite_partial.

Example C24_satellite_case :
  satellite_name (zs "Jupiter") 13 = zs "Jupiter XIII" /\ satellite_name (zs "Saturn") 88 = zs "Saturn LXXXVIII" /\
  create_mpc_packed_desig (repeat None 13) (zs "Saturn LXXXVIII") = Ret (0, map Some (zs "S088S       " ++ [0])).
Proof. vm_compute. repeat split; reflexivity. Qed.

(** C24.  Refuted for every longer name: packing reports success, and unpacking the
    result ends the program. *)
Theorem C24_long_satellite_refuted :
  forall planet n, In planet satellite_planets -> 1 <= n < 1000 ->
  (16 <= length (satellite_name planet n))%nat ->
  forall b o : buf, (13 <= length b)%nat -> (24 <= length o)%nat ->
  exists packed b', create_mpc_packed_desig b (satellite_name planet n) = Ret (0, b') /\ holds b' 0 packed /\
    length packed = 12%nat /\ unpack_mpc_desig (Some o) packed = Abort.
Proof. exact C24_long_satellite_refuted_proof. Qed.
Print Assumptions C24_long_satellite_refuted.

Example C24_long_satellite_case :
  satellite_name (zs "Jupiter") 88 = zs "Jupiter LXXXVIII" /\ length (zs "Jupiter LXXXVIII") = 16%nat.
Proof. vm_compute. split; reflexivity. Qed.

(** C24.  "S/2003 J 23": provisional satellites round-trip for numbers below 620 except
    100 to 109.  Missing: these ten, see the next theorem. *)
Theorem C24_provisional_satellite_partial :
  forall year initial n, 1901 <= year < 2100 -> In initial (zs "MVEJSUNP") -> 1 <= n < 620 -> n < 100 \/ 110 <= n ->
  round_trip (provisional_satellite_name year initial n) OBJ_DESIG_NATSAT_PROVISIONAL.
Proof. exact C24_provisional_satellite_partial_proof. Qed.
Print Assumptions C24_provisional_satellite_partial.

Example C24_provisional_satellite_case :
  provisional_satellite_name 2003 74 23 = zs "S/2003 J 23" /\
  create_mpc_packed_desig (repeat None 13) (zs "S/2003 J 23") = Ret (0, map Some (zs "    SK03J230" ++ [0])).
Proof. vm_compute. split; reflexivity. Qed.

(** C24.  Refuted for 100 to 109: the digit 1 is lost, "S/2003 J 105" is unpacked as
    "S/2003 J 05". *)
Theorem C24_provisional_satellite_refuted :
  forall year initial n, 1901 <= year < 2100 -> In initial (zs "MVEJSUNP") -> 100 <= n < 110 ->
  forall b o : buf, (13 <= length b)%nat -> (24 <= length o)%nat ->
  exists packed b' o', create_mpc_packed_desig b (provisional_satellite_name year initial n) = Ret (0, b') /\
    holds b' 0 packed /\ length packed = 12%nat /\
    unpack_mpc_desig (Some o) packed = Ret (OBJ_DESIG_NATSAT_PROVISIONAL, Some o') /\
    holds o' 0 (zs "S/" ++ dec year ++ [32; initial; 32; 48; 48 + n mod 10]).
Proof. exact C24_provisional_satellite_refuted_proof. Qed.
Print Assumptions C24_provisional_satellite_refuted.

(** C24.  "1998-067A": designations of artificial satellites round-trip. *)
Theorem C24_artificial_satellite :
  forall year launch letters, 1957 <= year < 2100 -> 0 <= launch < 1000 ->
  (1 <= length letters <= 3)%nat -> (forall c, In c letters -> capital c) ->
  round_trip (artsat_name year launch letters) OBJ_DESIG_ARTSAT.
Proof. exact C24_artificial_satellite_proof. Qed.
Print Assumptions C24_artificial_satellite.

Example C24_artificial_satellite_case : artsat_name 1998 67 (zs "A") = zs "1998-067A".
Proof. vm_compute. reflexivity. Qed.

(** C25.  For a name that is not blank, without a number of more than seven digits and
    without 620 or 621 after a capital letter, create_mpc_packed_desig( ) returns
    0 or -1, having written 12 characters and a terminator into its destination
    and nothing behind it.  Missing: the other names, see the next theorems. *)
Theorem C25_twelve_characters_partial :
  forall (b : buf) name, (13 <= length b)%nat -> no_nul name -> (exists c, In c name /\ c <> 32) ->
  short_numbers name -> no_620 name -> Z.of_nat (length name) <= 2000000 ->
  exists r b' packed, create_mpc_packed_desig b name = Ret (r, b') /\ (r = 0 \/ r = -1) /\
    holds b' 0 packed /\ length packed = 12%nat /\ no_nul packed /\ skipn 13 b' = skipn 13 b.
Proof. exact C25_twelve_characters_partial_proof. Qed.
Print Assumptions C25_twelve_characters_partial.

Example C25_twelve_characters_case :
  let name := zs "2016 JQ123" in
  no_nul name /\ (exists c, In c name /\ c <> 32) /\ Z.of_nat (length name) <= 2000000 /\
  create_mpc_packed_desig (repeat None 14) (zs "some very long object name")
  = Ret (-1, map Some (zs "$some very l" ++ [0]) ++ [None]).
Proof.
  split; [intros c H; repeat (destruct H as [<-|H]; [discriminate|]); destruct H|].
  split; [exists 50; split; [left; reflexivity|discriminate]|]. split; [vm_compute; discriminate|vm_compute; reflexivity].
Qed.

(** C25.  The restrictions on numbers hold of ordinary names. *)
Theorem C25_hypotheses_met :
  short_numbers (zs "2016 JQ123") /\ no_620 (zs "2016 JQ123") /\
  short_numbers (zs "(1234567)") /\ no_620 (zs "C/1995 O1-A").
Proof. exact C25_hypotheses_met_proof. Qed.
Print Assumptions C25_hypotheses_met.

(** C25.  Refuted for blank names: the byte behind the terminator is read. *)
Theorem C25_blank_name_refuted :
  forall (b : buf) n, (13 <= length b)%nat -> create_mpc_packed_desig b (repeat 32 n) = UB.
Proof. exact C25_blank_name_refuted_proof. Qed.
Print Assumptions C25_blank_name_refuted.

(** C25.  Refuted for long numbers: an int overflows. *)
Theorem C25_long_number_refuted :
  create_mpc_packed_desig (repeat None 13) (zs "2016 JA99999999999") = UB.
Proof. exact C25_long_number_refuted_proof. Qed.
Print Assumptions C25_long_number_refuted.

(** C25.  Refuted for "2016 J620": only 11 characters are written. *)
Theorem C25_620_refuted :
  create_mpc_packed_desig (repeat None 13) (zs "2016 J620") = Ret (-1, map Some (zs "$2016 J6200" ++ [0; 0])).
Proof. exact C25_620_refuted_proof. Qed.
Print Assumptions C25_620_refuted.

(** C26.  For each 12-character field, except the two kinds named, unpack_mpc_desig( )
    returns one of the types and leaves a terminated string in its destination
    (of at least 24 bytes).  Missing: the two kinds, see the next theorems. *)
Theorem C26_total_partial :
  forall packed (o : buf), length packed = 12%nat -> no_nul packed -> (24 <= length o)%nat ->
  ~ long_satellite packed -> ~ number_and_extended packed ->
  exists ty o' text, unpack_mpc_desig (Some o) packed = Ret (ty, Some o') /\ In ty designation_types /\
    length o' = length o /\ holds o' 0 text.
Proof. exact C26_total_partial_proof. Qed.
Print Assumptions C26_total_partial.

Example C26_total_case :
  unpack_mpc_desig (Some (repeat None 24)) (zs "    CAbcdefg")
  = Ret (OBJ_DESIG_OTHER, Some (map Some (zs "C/CAbcdefg" ++ [0]) ++ repeat None 13)) /\
  ~ number_and_extended (zs "    CAbcdefg").
Proof. split; [vm_compute; reflexivity|intros (H & _); discriminate]. Qed.

(** C26.  Refuted for each field of a numbered satellite with a long name: the program
    ends. *)
Theorem C26_long_satellite_refuted :
  forall packed (o : buf), (24 <= length o)%nat -> long_satellite packed -> unpack_mpc_desig (Some o) packed = Abort.
Proof. exact C26_long_satellite_refuted_proof. Qed.
Print Assumptions C26_long_satellite_refuted.

Example C26_long_satellite_case : long_satellite (zs "J088S       ").
Proof. exists (zs "Jupiter"), 88. repeat split; try (vm_compute; congruence); [cbn; tauto|vm_compute; lia]. Qed.

(** C26.  Refuted for fields with a number and an extended provisional designation: an
    invalid one makes it read uninitialised memory, and a valid one can end the
    program. *)
Theorem C26_number_and_extended_refuted :
  unpack_mpc_desig (Some (repeat (Some 0) 24)) (zs "00001_!A0000") = UB /\
  unpack_mpc_desig (Some (repeat (Some 0) 24)) (zs "~zzzz_!A0000") = UB /\
  unpack_mpc_desig (Some (repeat (Some 0) 24)) (zs "a0001_GAzzzz") = Abort /\
  unpack_mpc_desig (Some (repeat (Some 0) 24)) (zs "~zzzz_GAzzzz") = Abort.
Proof. exact C26_number_and_extended_refuted_proof. Qed.
Print Assumptions C26_number_and_extended_refuted.

(** C26.  With a NULL destination, allowed by the comment in unpack.cpp, a valid extended
    designation is written to NULL. *)
Theorem C26_no_destination_refuted :
  unpack_mpc_desig None (zs "     _GA0000") = UB.
Proof. exact C26_no_destination_refuted_proof. Qed.
Print Assumptions C26_no_destination_refuted.

(** C26.  After a number an invalid cycle count is accepted, and printed with a
    number that was never packed. *)
Theorem C26_invalid_cycle_refuted :
  unpack_mpc_desig (Some (repeat None 24)) (zs "00001K06S-3X")
  = Ret (OBJ_DESIG_ASTEROID_NUMBERED, Some (map Some (zs "(1) = 2006 SX-7" ++ [0]) ++ repeat None 8)).
Proof. exact C26_invalid_cycle_refuted_proof. Qed.
Print Assumptions C26_invalid_cycle_refuted.

(** C32.  extract_roman_numeral( ) yields the value of every canonical Roman numeral
    (values above 3999 have as many M as needed). *)
Theorem C32_roman_numeral :
  forall n, 0 <= n <= 2147483647 -> extract_roman_numeral (roman_numeral n) = Ret n.
Proof. exact C32_roman_numeral_proof. Qed.
Print Assumptions C32_roman_numeral.

Example C32_roman_numeral_case : roman_numeral 1994 = zs "MCMXCIV" /\ extract_roman_numeral (zs "MCMXCIV") = Ret 1994.
Proof. vm_compute. split; reflexivity. Qed.
