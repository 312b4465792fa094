(** Property C62 (observations by Gaia, from comma separated values to ADES; csv2ades.c).

    [table_line], [row_says] and [file_has] say what a row and a file say; [block] is what is to be printed
    of an observation, [prints] of a list of them.  See [CsvSpec].  [f], the numbering of days, is that of C05; [rms] is the text of
    the error of a magnitude, which takes a logarithm and is left open. *)
From Coq Require Import QArith String Lia.
From Verif Require Import CBase CStr DateModel DateVocab DateSpec TstrModel TstrNum TstrSpec CospSpec CtimeModel CtimeSpec CsvModel CsvSpec CsvThms.
Import ListNotations.
Local Open Scope string_scope.
Local Open Scope list_scope.
Local Open Scope Z_scope.

(** C62: a row of a table.  If the object's number is in the range asked for, the observation is printed, with the place in km, the velocity
    in km/s, and the time to the last millisecond; if not, nothing is. *)
Theorem C62_row :
  forall L rms low high names row header line o, long_ok L ->
  table_line names header -> table_line row line -> row_says names row o -> (-368000 <= days o)%Q -> (days o <= 2917000)%Q ->
  exists N out, (forall fuel ic, (N <= fuel)%nat -> csv_to_ades L fuel ic rms line header low high = Ret out) /\
    (low <= num o <= high -> forall f, counts_days gregorian (1, 1, 2000) 2451545 f -> exists t, time_says f (days o) t /\ out = block o t rms) /\
    (~ low <= num o <= high -> out = []).
Proof. exact C62_row_proof. Qed.
Print Assumptions C62_row.

Example C62_row_case : table_line the_names (with_commas the_names ++ [10]) /\ table_line the_row (with_commas the_row ++ [10]) /\ row_says the_names the_row eros /\ (-368000 <= days eros)%Q /\ (days eros <= 2917000)%Q.
Proof. split; [exact the_header_ok|]. split; [exact the_row_ok|]. split; [exact eros_ok|]. split; discriminate. Qed.

(** C62: a file is read if, and only if, an object asked for may be in it. *)
Theorem C62_file_needed :
  forall k low high, 0 <= low -> low + 31 <= IMAX ->
  exists b, file_needed k low high = Ret b /\ (b = true <-> exists n, low <= n <= high /\ file_of n = k).
Proof. exact C62_file_needed_proof. Qed.
Print Assumptions C62_file_needed.

Example C62_file_needed_case : file_needed 4 433 433 = Ret true /\ file_needed 5 433 433 = Ret false /\ file_needed 5 433 600 = Ret true.
Proof. vm_compute. auto. Qed.

(** C62: the program.  gaia.hdr is copied, in the place of its line that starts with an asterisk all observations of objects
    in the range asked for are printed, in the order of the files, and no others. *)
Theorem C62_program :
  forall L rms arg low high files obs before star after, long_ok L -> range_text arg low high -> low + 31 <= IMAX -> high <= IMAX ->
  (forall k, 0 <= k < 20 -> exists t, files k = Some t /\ file_has [] t (obs k)) ->
  (forall k o, 0 <= k < 20 -> In o (obs k) -> file_of (num o) = k) ->
  Forall (fun t => text_line t /\ nth 0 t 0 <> 42) (before ++ after) -> text_line (42 :: star) ->
  exists N out, (forall fuel ic, (N <= fuel)%nat -> csv2ades L fuel ic rms (concat before ++ (42 :: star) ++ concat after) files arg = Ret (concat before ++ out ++ concat after, 0)) /\
    forall f, counts_days gregorian (1, 1, 2000) 2451545 f ->
      prints f rms (filter (fun o => (low <=? num o) && (num o <=? high)) (concat (map (fun k => obs (Z.of_nat k)) (seq 0 20)))) out.
Proof. exact C62_program_proof. Qed.
Print Assumptions C62_program.

Example C62_program_case : let files := fun k => Some (if k =? 4 then eros_file else []) in let obs := fun k => if k =? 4 then [eros] else [] in
  range_text (zs "430,440") 430 440 /\ (forall k, 0 <= k < 20 -> exists t, files k = Some t /\ file_has [] t (obs k)) /\
  (forall k o, 0 <= k < 20 -> In o (obs k) -> file_of (num o) = k) /\ filter (asked 430 440) (obs 4) = [eros].
Proof.
  cbv zeta. split; [right; exists (zs "430"), (zs "440"); split; [reflexivity|]; split; (split; [discriminate|split; [now apply forallb_forall|reflexivity]])|]. split; [|split; [|reflexivity]].
  - intros k _. destruct (k =? 4); eexists; (split; [reflexivity|]); [exact eros_file_ok|constructor].
  - intros k o _. destruct (Z.eqb_spec k 4) as [->|]; [|intros []]. intros [<-|[]]. reflexivity.
Qed.

(** C62: the program ends with status -2 if a file it needs is not there, having printed what comes before. *)
Theorem C62_missing_file :
  forall L rms arg low high files before star rest, range_text arg low high -> low + 31 <= IMAX -> high <= IMAX ->
  (forall k, 0 <= k < 20 -> files k = None) -> low <= high ->
  Forall (fun t => text_line t /\ nth 0 t 0 <> 42) before -> text_line (42 :: star) ->
  exists N, forall fuel ic, (N <= fuel)%nat -> csv2ades L fuel ic rms (concat before ++ (42 :: star) ++ rest) files arg = Ret (concat before, -2).
Proof. exact C62_missing_file_proof. Qed.
Print Assumptions C62_missing_file.

Example C62_missing_file_case : range_text (zs "433") 433 433 /\ 433 + 31 <= IMAX /\ text_line (42 :: [10]).
Proof. split; [left; split; [split; [discriminate|split; [now apply forallb_forall|reflexivity]]|reflexivity]|]. split; [unfold IMAX; lia|]. exists [42]. split; [reflexivity|]. split; [|cbn; lia]. intros [I|[]]; discriminate. Qed.

(** C62 (finding): a row of observations before the line with the names of the columns fails an assertion, whatever it says. *)
Theorem C62_no_names_refuted :
  forall L n fuel ic rms low high line rest, text_line line -> ~ starts [35] line -> ~ starts (zs "solution_id") line ->
  rows (S n) (fun buff header => csv_to_ades L fuel ic rms buff header low high) (line ++ rest) [] = Abort.
Proof. exact C62_no_names_refuted_proof. Qed.
Print Assumptions C62_no_names_refuted.

(** C62 (finding): a column is not found if it is the last one; an assertion fails, though the row and the names are all there. *)
Theorem C62_last_column_refuted :
  exists names row, table_line names (with_commas names ++ [10]) /\ table_line row (with_commas row ++ [10]) /\ List.length row = List.length names /\ nth_error names 18 = Some (zs "number_mp") /\ nth_error row 18 = Some (zs "433") /\
    forall L fuel ic rms low high, csv_to_ades L fuel ic rms (with_commas row ++ [10]) (with_commas names ++ [10]) low high = Abort.
Proof. exact C62_last_column_refuted_proof. Qed.
Print Assumptions C62_last_column_refuted.

(** C62 (finding): a cell of 90 bytes or more, here a time with many decimals, is written past the end of a buffer. *)
Theorem C62_long_cell_refuted :
  exists row, table_line row (with_commas row ++ [10]) /\ (forall k, k <> 2%nat -> nth_error row k = nth_error the_row k) /\
    (exists c, nth_error row 2 = Some c /\ number_of c (182725 * 10 ^ 98 # 10 ^ 100)) /\
    forall L fuel ic rms, csv_to_ades L fuel ic rms (with_commas row ++ [10]) (with_commas the_names ++ [10]) 433 433 = UB.
Proof. exact C62_long_cell_refuted_proof. Qed.
Print Assumptions C62_long_cell_refuted.

(** C62 (finding): for numbers close to INT_MAX a sum overflows. *)
Theorem C62_high_numbers_refuted :
  forall k low high, IMAX - 20 < low <= high -> low <= IMAX -> file_needed k low high = UB.
Proof. exact C62_high_numbers_refuted_proof. Qed.
Print Assumptions C62_high_numbers_refuted.

Example C62_high_numbers_case : IMAX - 20 < 2147483640 <= 2147483647. Proof. unfold IMAX. lia. Qed.
