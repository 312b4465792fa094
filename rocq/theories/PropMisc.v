(** Properties C30 (variable-star designations) and C31 (catalogue codes).

    [star_name], [catalogues], [other_spelling] and [significant] are defined in
    [MiscSpec]. *)
From Coq Require Import Lia String.
From Verif Require Import CBase CStr MiscModel MiscSpec MiscThms.
Open Scope list_scope.

(** C30.  Numbers 1 to 9999: the buffer receives the standard name and its
    terminator, and nothing behind it changes.  Missing: numbers from 10000 on;
    see C30_five_digits_refuted. *)
Theorem C30_make_partial :
  forall n (b : buf), 1 <= n < 10000 -> (length (star_name n) < length b)%nat ->
  make_var_desig b n = Ret (map Some (star_name n) ++ [Some 0] ++ skipn (length (star_name n) + 1) b).
Proof. exact C30_make_partial_proof. Qed.
Print Assumptions C30_make_partial.

Example C30_make_case : star_name 334 = zs "QZ" /\ star_name 10 = zs "RR" /\ star_name 55 = zs "AA" /\
  star_name 335 = zs "V335" /\ make_var_desig (repeat None 3) 64 = Ret [Some 65; Some 75; Some 0] /\ star_name 64 = zs "AK".
Proof. vm_compute. repeat split. Qed.

(** C30.  Every number that an int can hold: its standard name, in capital or small
    letters (but see C30_one_letter for "u"), at the end of the text or before a
    blank, is decoded to the number. *)
Theorem C30_decode :
  forall n s tail, 1 <= n <= IMAX -> map toupper s = star_name n -> s <> zs "u" ->
  tail = [] \/ (exists t, tail = 32 :: t) ->
  decipher_var_desig (s ++ tail) = Ret n.
Proof. exact C30_decode_proof. Qed.
Print Assumptions C30_decode.

Example C30_decode_case : map toupper (zs "v12345") = star_name 12345 /\ map toupper (zs "aK") = star_name 64 /\
  decipher_var_desig (zs "v12345") = Ret 12345 /\ decipher_var_desig (zs "aK Peg") = Ret 64.
Proof. vm_compute. repeat split. Qed.

(** C30.  Numbers 1 to 9999: what make_var_desig( ) writes is decoded to the same
    number. *)
Theorem C30_round_trip :
  forall n (b : buf), 1 <= n < 10000 -> (6 <= length b)%nat ->
  exists b' s, make_var_desig b n = Ret b' /\ holds b' 0 s /\ no_nul s /\ decipher_var_desig s = Ret n.
Proof. exact C30_round_trip_proof. Qed.
Print Assumptions C30_round_trip.

Example C30_round_trip_case : make_var_desig (repeat None 6) 9999 = Ret (map Some (zs "V9999") ++ [Some 0]) /\
  decipher_var_desig (zs "V9999") = Ret 9999.
Proof. vm_compute. split; reflexivity. Qed.

(** C30.  Distinct numbers have distinct names. *)
Theorem C30_distinct :
  forall n m, 1 <= n <= IMAX -> 1 <= m <= IMAX -> star_name n = star_name m -> n = m.
Proof. exact C30_distinct_proof. Qed.
Print Assumptions C30_distinct.

Example C30_distinct_case : star_name 1 = zs "R" /\ star_name 2 = zs "S" /\ length lettered_names = 334%nat.
Proof. vm_compute. repeat split. Qed.

(** C30.  Every two-character word: the result is the number of the standard name
    that it spells (in capital or small letters), or -1 if it spells none. *)
Theorem C30_two_letters :
  forall c d tail, byte c -> byte d -> c <> 32 -> d <> 32 ->
  tail = [] \/ (exists t, tail = 32 :: t) ->
  exists v, decipher_var_desig (c :: d :: tail) = Ret v /\
    (1 <= v <= 334 /\ star_name v = map toupper [c; d] \/
     v = -1 /\ forall n, 1 <= n <= IMAX -> star_name n <> map toupper [c; d]).
Proof. exact C30_two_letters_proof. Qed.
Print Assumptions C30_two_letters.

Example C30_two_letters_case : decipher_var_desig (zs "AJ") = Ret (-1) /\ decipher_var_desig (zs "ba Cet") = Ret (-1) /\
  decipher_var_desig (zs "qz") = Ret 334.
Proof. vm_compute. repeat split. Qed.

(** C30.  Every one-character word: R to Z are 1 to 9, and r to z as well except u; a
    to q and u are 9101 to 9117 and 9121, A to Q are 9201 to 9217 (Bayer
    letters); anything else gives -1. *)
Theorem C30_one_letter :
  forall c tail, byte c -> c <> 32 -> tail = [] \/ (exists t, tail = 32 :: t) ->
  decipher_var_desig (c :: tail) = Ret
    (if (97 <=? c) && (c <=? 113) || (c =? 117) then 9101 + (c - 97)
     else if (65 <=? c) && (c <=? 81) then 9201 + (c - 65)
     else if (82 <=? toupper c) && (toupper c <=? 90) then toupper c - 81
     else -1).
Proof. exact C30_one_letter_proof. Qed.
Print Assumptions C30_one_letter.

Example C30_one_letter_case : decipher_var_desig (zs "u Her") = Ret 9121 /\ decipher_var_desig (zs "U Her") = Ret 4 /\
  decipher_var_desig (zs "t Her") = Ret 3.
Proof. vm_compute. repeat split. Qed.

(** C30.  From 10000 on make_var_desig( ) writes only the last four digits: the numbers
    n and n + 10000 get the same name (V10000 has been assigned). *)
Theorem C30_five_digits_refuted :
  (forall n (b : buf), 1000 <= n -> (6 <= length b)%nat -> make_var_desig b (n + 10000) = make_var_desig b n) /\
  make_var_desig (repeat None 6) 12345 = Ret (map Some (zs "V2345") ++ [Some 0]) /\
  star_name 12345 = zs "V12345" /\ decipher_var_desig (zs "V12345") = Ret 12345.
Proof. exact C30_five_digits_refuted_proof. Qed.
Print Assumptions C30_five_digits_refuted.

(** C30.  Number 0 is named "Q", which is decoded to 9217; and words that are no
    names are decoded to numbers: "VAB" to 0, "V7" is refused but "V07" is 7. *)
Theorem C30_zero_refuted :
  make_var_desig (repeat None 2) 0 = Ret [Some 81; Some 0] /\ decipher_var_desig (zs "Q") = Ret 9217 /\
  decipher_var_desig (zs "VAB") = Ret 0 /\ decipher_var_desig (zs "V7") = Ret (-1) /\ decipher_var_desig (zs "V07") = Ret 7.
Proof. exact C30_zero_refuted_proof. Qed.
Print Assumptions C30_zero_refuted.

(** C30.  The empty text is read beyond its terminator; a V number that is too large
    for an int is undefined. *)
Theorem C30_undefined_refuted :
  decipher_var_desig [] = UB /\ decipher_var_desig (zs "V2147483648") = UB.
Proof. exact C30_undefined_refuted_proof. Qed.
Print Assumptions C30_undefined_refuted.

(** C31.  Every code of the list gives its catalogue's name. *)
Theorem C31_code_to_name :
  forall c name, In (c, name) catalogues -> byte_code_to_net_name c = Ret (Some name).
Proof. exact C31_code_to_name_proof. Qed.
Print Assumptions C31_code_to_name.

Example C31_code_case : byte_code_to_net_name 86 = Ret (Some (zs "Gaia-DR2")) /\ length catalogues = 52%nat.
Proof. vm_compute. split; reflexivity. Qed.

(** C31.  Every other byte gives NULL. *)
Theorem C31_code_unknown :
  forall c, (forall name, ~ In (c, name) catalogues) -> byte_code_to_net_name c = Ret None.
Proof. exact C31_code_unknown_proof. Qed.
Print Assumptions C31_code_unknown.

Example C31_code_unknown_case : (forall name, ~ In (33, name) catalogues) /\ byte_code_to_net_name 33 = Ret None.
Proof. split; [|vm_compute; reflexivity]. intros name H. vm_compute in H. intuition discriminate. Qed.

(** C31.  Every text that differs from a catalogue's name (or its second spelling)
    only in insignificant ways gives the catalogue's code. *)
Theorem C31_name_to_code :
  forall text c name, no_nul text -> In (c, name) (other_spelling :: catalogues) ->
  significant text = significant name -> net_name_to_byte_code text = Ret c.
Proof. exact C31_name_to_code_proof. Qed.
Print Assumptions C31_name_to_code.

Example C31_name_case : significant (zs "GAIA DR1.0") = significant (zs "Gaia-DR1") /\
  net_name_to_byte_code (zs "GAIA DR1.0") = Ret 85 /\ net_name_to_byte_code (zs "gaia1") = Ret 85.
Proof. vm_compute. repeat split. Qed.

(** C31.  Every other text of fewer than 80 significant characters gives '?'. *)
Theorem C31_name_unknown :
  forall text, no_nul text -> (length (significant text) < 80)%nat ->
  (forall c name, In (c, name) (other_spelling :: catalogues) -> significant text <> significant name) ->
  net_name_to_byte_code text = Ret 63.
Proof. exact C31_name_unknown_proof. Qed.
Print Assumptions C31_name_unknown.

Example C31_name_unknown_case : net_name_to_byte_code (zs "Gaia-DR9") = Ret 63 /\ net_name_to_byte_code [] = Ret 63.
Proof. vm_compute. split; reflexivity. Qed.

(** C31.  The name that a code gives is decoded to that code. *)
Theorem C31_inverse :
  forall c name, byte_code_to_net_name c = Ret (Some name) -> net_name_to_byte_code name = Ret c.
Proof. exact C31_inverse_proof. Qed.
Print Assumptions C31_inverse.

Example C31_inverse_case : byte_code_to_net_name 71 = Ret (Some (zs "Lick Gaspra Catalogue")) /\
  net_name_to_byte_code (zs "Lick Gaspra Catalogue") = Ret 71.
Proof. vm_compute. split; reflexivity. Qed.

(** C31.  Every text of 80 or more significant characters is written beyond the end of
    an 80-byte buffer. *)
Theorem C31_long_name_refuted :
  forall text, no_nul text -> (80 <= length (significant text))%nat -> net_name_to_byte_code text = UB.
Proof. exact C31_long_name_refuted_proof. Qed.
Print Assumptions C31_long_name_refuted.

Example C31_long_name_case : net_name_to_byte_code (repeat 65 80) = UB /\ net_name_to_byte_code (repeat 65 79) = Ret 63.
Proof. vm_compute. split; reflexivity. Qed.

(** C31.  A spelling that the source's comment promises, "Gaiadr1", is not
    recognised: only capital DR is dropped. *)
Theorem C31_small_dr_refuted :
  net_name_to_byte_code (zs "Gaiadr1") = Ret 63.
Proof. exact C31_small_dr_refuted_proof. Qed.
Print Assumptions C31_small_dr_refuted.
