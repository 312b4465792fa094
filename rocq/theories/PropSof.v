(** Property C56 (orbital elements from a table whose columns are named by a header line; sof.cpp).
    Numbers in the text are exact rationals, angles and masses real numbers.  The header is a
    string; the line is the array that holds it.

    Columns, headers, lines and what the columns are called are in [SofSpec]; [ndig] (the digits
    of a number) in [CtimeSpec], [part] in [MpcdSpec], [gregorian] and [counts_days] in
    [DateSpec]. *)
From Coq Require Import QArith Qreals String Lia.
From Verif Require Import CBase CLemmas CStr DateModel DateVocab DateSpec TstrModel TstrSpec TstrNum CtimeModel CtimeSpec CtimeBuf MpcfModel MpcdSpec MpcdProofs TrigBase SofModel SofSpec SofProofs SofDate SofThms.
From Verif Require OrbModel.
Local Open Scope string_scope.
Local Open Scope list_scope.
Local Open Scope Z_scope.

(** Whatever extract_sof_data_ex( ) reports, each member it sets is what the last column with that
    name reads, in whatever order and with whatever other columns; members without a column
    have their default.  The first two letters of the name count ("Tp", "Te", "Tf", "Tl",
    "Tw"; "q ", "e ", "i ", "H ", "G ", "C " with the blank), or one ("O", "o"), or three
    ("rms").  With no extra_info its four numbers are not touched.  The mass is that of the
    Sun, times that of the Earth for every column that says so. *)
Theorem C56_values :
forall L ex cs buff e r s el, (forall c, In c cs -> good c) -> line_of cs buff -> ended e ->
  extract_sof_data_ex L ex buff (header_of cs ++ e) = Ret (r, Some (s, el)) -> r = 0 /\
  value "q " cs number 0%Q (q_ s) /\ value "e " cs number 0%Q (ecc s) /\ value "i " cs angle 0%R (incl s) /\ value "O" cs angle 0%R (asc_node s) /\ value "o" cs angle 0%R (arg_per s) /\
  value "H " cs number 0%Q (abs_mag s) /\ value "G " cs number (15 # 100)%Q (slope_param s) /\ value "C " cs whole 0 (central_obj s) /\
  value "Tp" cs (calendar_day L) 0%Q (perih_time s) /\ value "Te" cs (calendar_day L) 0%Q (epoch s) /\
  (if ex then value "Tf" cs (calendar_day L) 0%Q (first_obs s) /\ value "Tl" cs (calendar_day L) 0%Q (last_obs s) /\ value "Tw" cs (calendar_day L) 0%Q (written s) /\ value "rms" cs number 0%Q (rms s)
   else first_obs s = 0%Q /\ last_obs s = 0%Q /\ written s = 0%Q /\ rms s = 0%Q) /\
  gm s = (SOLAR_GM * MASS_EARTH ^ List.length (filter geocentric cs))%R /\
  OrbModel.perih_time el = Q2R (perih_time s) /\ OrbModel.q_ el = Q2R (q_ s) /\ OrbModel.ecc_ el = Q2R (ecc s) /\
  OrbModel.incl el = incl s /\ OrbModel.asc_node el = asc_node s /\ OrbModel.arg_per el = arg_per s.
Proof. exact C56_values_proof. Qed.
Print Assumptions C56_values.

Example C56_values_example : (forall c, In c a_table -> good c) /\ ended [13; 10] /\ complete a_table = true /\ List.length (filter geocentric a_table) = 1%nat /\
  option_map ctext (last_named "o" a_table) = Some (zs " 30.0000") /\ number (zs "1.250000") (1250000 # 1000000) /\ calendar_day LMAX64 (zs "20240229.2500") (49207395000 # 20000).
Proof.
  split; [intros c H; apply goodb_ok; revert c H; apply forallb_forall; vm_compute; reflexivity|]. split; [cbn; lia|]. repeat split; vm_compute; reflexivity.
Qed.
Example C56_values_line : line_of a_table (zs "  2024 AA1 20240229.2500 1.250000 0.500000  12.5000 100.0000  30.0000  3 0.43 " ++ [10; 0; 77]).
Proof. exact (line_text_ok a_table [10; 0; 77] ltac:(discriminate)). Qed.

(** If the texts can be read, the result is -1 just if one of the six columns every orbit needs is
    missing; else it is 0 (for orbits derive_quantities( ) can deal with, C53).  No byte after
    the last column is looked at. *)
Theorem C56_result :
forall L ex cs buff e, (forall c, In c cs -> readable L c) -> (forall c, In c cs -> good c) -> line_of cs buff -> ended e ->
  (complete cs = false -> extract_sof_data_ex L ex buff (header_of cs ++ e) = Ret (-1, None)) /\
  (complete cs = true -> (forall v, value "q " cs number 0%Q v -> (0 < v)%Q) -> (forall v, value "e " cs number 0%Q v -> (0 <= v)%Q) ->
   (forall v, value "i " cs angle 0%R v -> cos v <> 0%R) -> exists s el, extract_sof_data_ex L ex buff (header_of cs ++ e) = Ret (0, Some (s, el))).
Proof. exact C56_result_proof. Qed.
Print Assumptions C56_result.

Example C56_result_example : (forall c, In c a_table -> readable LMAX64 c) /\ complete (tl (tl a_table)) = false.
Proof.
  split; [|vm_compute; reflexivity]. intros c H. cbn [In a_table] in H.
  repeat (destruct H as [<-|H]; [repeat split; intros; try discriminate; eexists; vm_compute; reflexivity|]). destruct H.
Qed.

(** A name of fewer than two or more than 79 bytes makes the result -1, whatever columns come before
    it (their texts readable) and whatever follows. *)
Theorem C56_width :
forall L ex cs n e buff rest, (forall c, In c cs -> good c) -> (forall c, In c cs -> readable L c) -> starts cs buff rest -> bad_name n e ->
  extract_sof_data_ex L ex buff (header_start cs ++ n ++ e) = Ret (-1, None).
Proof. exact C56_width_proof. Qed.
Print Assumptions C56_width.

Example C56_width_example : starts [mk_col (zs "q       ") (zs "1.250000")] (zs "1.250000 x") (zs "x") /\ bad_name (zs "e") (zs "|i ") /\ bad_name [] (zs "|i ") /\ ~ bad_name (zs "ec") (zs "|i ").
Proof.
  split; [exact (starts_more (mk_col (zs "q       ") (zs "1.250000")) 32 [] (zs "x") (zs "x") (starts_none _))|]. split; [split; [intros x H; change (zs "e") with [101] in H; cbn in H; lia|right; split; [left; reflexivity|right; reflexivity]]|]. split; [split; [cbn; lia|left; split; [reflexivity|now eexists]]|].
  intros (_ & [(H & _)|(H & _)]); cbn in H; lia.
Qed.

(** A claim that fails: a line shorter than its header is an error that is reported.  The bytes the
    header asks for are copied, wherever the line and the array that holds it end. *)
Theorem C56_short_refuted :
forall L ex c e buff, good c -> ended e \/ (exists e', e = 124 :: e') -> (List.length buff < List.length (cname c))%nat ->
  extract_sof_data_ex L ex buff (cname c ++ e) = UB.
Proof. exact C56_short_refuted_proof. Qed.
Print Assumptions C56_short_refuted.

Example C56_short_example : extract_sof_data LMAX64 (zs "2024 AA1" ++ [0]) (zs "Name             |Tp      |q       ") = UB.
Proof. vm_compute. reflexivity. Qed.

(** A date of eight digits, YYYYMMDD, is 0h of that day of the Gregorian calendar; decimals after it
    are the part of the day. *)
Theorem C56_date :
forall f, counts_days gregorian (1, 1, 2000) 2451545 f -> forall L y m d, long_ok L -> 0 <= y < 10000 -> valid gregorian (d, m, y) ->
  (forall t, num_end t -> extract_yyyymmdd_to_jd L (ndig 8 (y * 10000 + m * 100 + d) ++ t) = Ret (inject_Z (f (d, m, y)) - (1 # 2))%Q) /\
  forall n v t, (1 <= n)%nat -> 0 <= v < 10 ^ Z.of_nat n -> num_end t ->
    exists q, extract_yyyymmdd_to_jd L (ndig 8 (y * 10000 + m * 100 + d) ++ 46 :: ndig n v ++ t) = Ret q /\ (q == inject_Z (f (d, m, y)) - (1 # 2) + part n v)%Q.
Proof. exact C56_date_proof. Qed.
Print Assumptions C56_date.

Example C56_date_example : valid gregorian (29, 2, 2024) /\ ndig 8 (2024 * 10000 + 2 * 100 + 29) = zs "20240229" /\ num_end (zs " ").
Proof. repeat split; cbn; try lia; discriminate. Qed.

(** A claim that fails: a date that cannot be used is reported.  A number that does not take exactly
    eight bytes, blanks before it included, counts as day 0. *)
Theorem C56_date_refuted :
forall L n v t, long_ok L -> n <> 7%nat -> 0 <= v < 10 ^ Z.of_nat (S n) -> v <= L -> num_end t -> extract_yyyymmdd_to_jd L (ndig (S n) v ++ t) = Ret 0%Q.
Proof. exact C56_date_refuted_proof. Qed.
Print Assumptions C56_date_refuted.

Example C56_date_refuted_example : extract_yyyymmdd_to_jd LMAX64 (zs "2024229 ") = Ret 0%Q /\ extract_yyyymmdd_to_jd LMAX64 (zs "120240229") = Ret 0%Q /\ extract_yyyymmdd_to_jd LMAX64 (zs " 20240229") = Ret 0%Q.
Proof. repeat split; vm_compute; reflexivity. Qed.

(** A claim that fails: no text makes the program read where it should not.  A month of 15 or more (a
    date with a digit missing after a blank has them) reads past the table of the lengths of
    the months. *)
Theorem C56_month_refuted :
forall L y m d t, long_ok L -> 0 <= y < 10000 -> 15 <= m < 100 -> 0 <= d < 100 -> (match t with [] => True | c :: _ => isdigit c = false end) ->
  extract_yyyymmdd_to_jd L (ndig 8 (y * 10000 + m * 100 + d) ++ t) = UB.
Proof. exact C56_month_refuted_proof. Qed.
Print Assumptions C56_month_refuted.

Example C56_month_example : extract_sof_data LMAX64 (zs " 2024010 " ++ [0]) (zs "Tp       ") = UB.
Proof. vm_compute. reflexivity. Qed.

(** A claim that fails: a column with a name of its own is left alone.  Any column whose name begins with
    "o" is the argument of perihelion, the number of observations ("obs") too, if it comes last. *)
Theorem C56_name_refuted :
forall L ex cs c buff e r s el v, named "o" c = true -> number (ctext c) v -> (forall x, In x (cs ++ [c]) -> good x) -> line_of (cs ++ [c]) buff -> ended e ->
  extract_sof_data_ex L ex buff (header_of (cs ++ [c]) ++ e) = Ret (r, Some (s, el)) -> arg_per s = (Q2R v * PI / 180)%R.
Proof. exact C56_name_refuted_proof. Qed.
Print Assumptions C56_name_refuted.

Example C56_name_example : named "o" (mk_col (zs "obs ") (zs " 123")) = true /\ number (zs " 123") (inject_Z 123) /\ good (mk_col (zs "obs ") (zs " 123")) /\ complete (a_table ++ [mk_col (zs "obs ") (zs " 123")]) = true.
Proof. split; [reflexivity|]. split; [vm_compute; reflexivity|]. split; [apply goodb_ok; reflexivity|vm_compute; reflexivity]. Qed.
