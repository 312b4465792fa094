(** Theorems of C62 with their proofs; PropCsv.v states them again. *)
From Coq Require Import QArith String Lia.
From Verif Require Import CBase CStr DateModel DateVocab DateSpec TstrModel TstrNum TstrSpec CospSpec CtimeModel CtimeSpec CsvModel CsvSpec CsvProofs CsvTime CsvRow CsvFile.
Import ListNotations.
Local Open Scope string_scope.
Local Open Scope list_scope.
Local Open Scope Z_scope.

(** For the examples. *)
Definition ends_b (s n : list Z) : bool := prefix (rev s) (rev n).
Lemma ends_b_ok s n : ends_b s n = true <-> ends_in s n.
Proof.
  unfold ends_b. rewrite AdesProofs.prefix_spec. split; intros (r & E).
  - exists (rev r). rewrite <- (rev_involutive n), E, rev_app_distr, rev_involutive. reflexivity.
  - exists (rev r). rewrite E, rev_app_distr. reflexivity.
Qed.
Definition has_b (s n : list Z) : bool := match strstr n s with Some _ => true | None => false end.
Lemma has_b_ok s n : has_b s n = true <-> has_in s n.
Proof.
  unfold has_b. split.
  - destruct (strstr n s) as [k|] eqn:E; [|discriminate]. intros _. destruct (strstr_some _ _ _ E) as (v & V). exists (firstn k n), v. exact V.
  - intros (p & r & ->). destruct (strstr_le s r p) as (k & -> & _). reflexivity.
Qed.
Definition col_b (b : list Z -> bool) (names : list (list Z)) (k : nat) : bool := (S k <? List.length names)%nat && b (nth k names []) && forallb (fun n => negb (b n)) (firstn k names).
Lemma col_b_ok b P names k : (forall n, b n = true <-> P n) -> col_b b names k = true -> first_col P names k.
Proof.
  intros H E. unfold col_b in E. apply andb_prop in E. destruct E as (E & E3). apply andb_prop in E. destruct E as (E1 & E2). apply Nat.ltb_lt in E1.
  split; [exact E1|]. split.
  - exists (nth k names []). split; [apply nth_error_nth'; lia|now apply H].
  - intros j n J N. rewrite <- H. rewrite forallb_forall in E3. specialize (E3 n). rewrite <- (firstn_skipn k names) in N. rewrite nth_error_app1 in N by (rewrite firstn_length; lia). apply nth_error_In in N. specialize (E3 N). now destruct (b n).
Qed.
Lemma under_ex name names row k c : col_b (ends_b (zs name)) names k = true -> nth_error row k = Some c -> under name names row c.
Proof. intros E N. exists k. split; [|exact N]. apply (col_b_ok (ends_b (zs name))); [apply ends_b_ok|exact E]. Qed.
Lemma part_ex name names row k c : col_b (has_b (zs name)) names k = true -> nth_error row k = Some c -> under_part name names row c.
Proof. intros E N. exists k. split; [|exact N]. apply (col_b_ok (has_b (zs name))); [apply has_b_ok|exact E]. Qed.
Definition the_names : list (list Z) :=
  map zs ["solution_id"; "number_mp"; "epoch_utc"; "ra"; "dec"; "ra_error_random"; "dec_error_random"; "ra_dec_correlation_random"; "x_gaia_geocentric"; "y_gaia_geocentric"; "z_gaia_geocentric";
          "vx_gaia_geocentric"; "vy_gaia_geocentric"; "vz_gaia_geocentric"; "g_mag"; "g_flux"; "g_flux_error"; "level"].
Definition the_row : list (list Z) :=
  map zs ["420"; "433"; "1827.25"; "10.5"; "-3.25"; "0.5"; "0.25"; "0.8517344532"; "-0.01"; "0.5"; "0.25"; "1e-2"; "-2.5e-1"; "0.125"; "11.5"; "200"; "2"; "x"].
Definition eros : gaia_obs :=
  mk_obs (zs "433") 433 (- (1 # 100), 5 # 10, 25 # 100)%Q ((1 # 1) * (10 # 1) ^ (-2), - ((25 # 10) * (10 # 1) ^ (-1)), 125 # 1000)%Q (182725 # 100) (105 # 10) (- (325 # 100)) (5 # 10) (25 # 100) (zs "0.85173445") (Some (zs "11.5", 200 # 1, 2 # 1)).
Lemma num_int w s v : forallb isdigit s = true -> s <> [] -> dig_val 0 s = v -> (List.length s <= w)%nat -> number_text w s (v # 1).
Proof.
  intros D N E L0. split; [exact L0|]. exists [], s, (v # 1). split; [reflexivity|]. split; [|left; split; [now left|reflexivity]].
  apply num_plain. left. exists v. split; [|reflexivity]. split; [exact N|]. split; [|exact E]. now apply forallb_forall.
Qed.
Lemma of_point a b v p : forallb isdigit (a ++ b) = true -> a ++ b <> [] -> dig_val 0 (a ++ b) = v -> Z.pos p = 10 ^ Z.of_nat (List.length b) -> number_of (a ++ 46 :: b) (v # p).
Proof.
  intros D N E P. right. exists a, b, v. split; [now apply forallb_forall|]. split; [exact N|]. split; [reflexivity|]. 
  split; [exact E|]. now rewrite <- P, Pos2Z.id.
Qed.
Lemma num_pt w s a b v p : s = a ++ 46 :: b -> forallb isdigit (a ++ b) = true -> a ++ b <> [] -> dig_val 0 (a ++ b) = v -> Z.pos p = 10 ^ Z.of_nat (List.length b) -> (List.length s <= w)%nat -> number_text w s (v # p).
Proof.
  intros -> D N E P L0. split; [exact L0|]. exists [], (a ++ 46 :: b), (v # p). split; [reflexivity|]. split; [|left; split; [now left|reflexivity]]. apply num_plain. now apply of_point.
Qed.
Lemma num_neg w s a b v p : s = 45 :: a ++ 46 :: b -> forallb isdigit (a ++ b) = true -> a ++ b <> [] -> dig_val 0 (a ++ b) = v -> Z.pos p = 10 ^ Z.of_nat (List.length b) -> (List.length s <= w)%nat -> number_text w s (- (v # p)).
Proof.
  intros -> D N E P L0. split; [exact L0|]. exists [45], (a ++ 46 :: b), (v # p). split; [reflexivity|]. split; [|right; split; reflexivity]. apply num_plain. now apply of_point.
Qed.
Lemma the_header_ok : table_line the_names (with_commas the_names ++ [10]).
Proof. split; [|split; [reflexivity|vm_compute; lia]]. repeat (constructor; [split; [intro I; vm_compute in I; intuition discriminate|split; intro I; vm_compute in I; intuition discriminate]|]). constructor. Qed.
Lemma the_row_ok : table_line the_row (with_commas the_row ++ [10]).
Proof. split; [|split; [reflexivity|vm_compute; lia]]. repeat (constructor; [split; [intro I; vm_compute in I; intuition discriminate|split; intro I; vm_compute in I; intuition discriminate]|]). constructor. Qed.
Ltac numpt A B := eapply (num_pt _ _ (zs A) (zs B)); [reflexivity|reflexivity|discriminate|reflexivity|reflexivity|cbn; lia].
Ltac numneg A B := eapply (num_neg _ _ (zs A) (zs B)); [reflexivity|reflexivity|discriminate|reflexivity|reflexivity|cbn; lia].
Lemma eros_ok : row_says the_names the_row eros.
Proof.
  unfold row_says. cbn [place velocity eros]. split; [reflexivity|]. split; [now apply (under_ex _ _ _ 1)|]. split; [split; [discriminate|split; [now apply forallb_forall|reflexivity]]|]. split; [cbn; lia|].
  split; [eexists; split; [now apply (part_ex _ _ _ 8)|numneg "0" "01"]|].
  split; [eexists; split; [now apply (part_ex _ _ _ 9)|numpt "0" "5"]|].
  split; [eexists; split; [now apply (part_ex _ _ _ 10)|numpt "0" "25"]|].
  split; [eexists; split; [now apply (part_ex _ _ _ 11)|]|].
  { split; [cbn; lia|]. exists [], (zs "1e-2"), ((1 # 1) * (10 # 1) ^ (-2))%Q. split; [reflexivity|]. split; [|left; split; [now left|reflexivity]].
    apply (num_scaled (zs "1") (1 # 1) [45] (zs "2") 2); [|split; [discriminate|split; [now apply forallb_forall|reflexivity]]|cbn; tauto]. left. exists 1. split; [split; [discriminate|split; [now apply forallb_forall|reflexivity]]|reflexivity]. }
  split; [eexists; split; [now apply (part_ex _ _ _ 12)|]|].
  { split; [cbn; lia|]. exists [45], (zs "2.5e-1"), ((25 # 10) * (10 # 1) ^ (-1))%Q. split; [reflexivity|]. split; [|right; split; reflexivity].
    apply (num_scaled (zs "2.5") (25 # 10) [45] (zs "1") 1); [|split; [discriminate|split; [now apply forallb_forall|reflexivity]]|cbn; tauto]. now apply (of_point (zs "2") (zs "5")). }
  split; [eexists; split; [now apply (part_ex _ _ _ 13)|numpt "0" "125"]|].
  split; [eexists; split; [now apply (under_ex _ _ _ 2)|numpt "1827" "25"]|].
  split; [eexists; split; [now apply (under_ex _ _ _ 3)|numpt "10" "5"]|].
  split; [eexists; split; [now apply (under_ex _ _ _ 4)|numneg "3" "25"]|].
  split; [eexists; split; [now apply (under_ex _ _ _ 5)|numpt "0" "5"]|].
  split; [eexists; split; [now apply (under_ex _ _ _ 6)|numpt "0" "25"]|].
  split; [eexists; split; [now apply (under_ex _ _ _ 7)|reflexivity]|].
  cbn [phot eros]. split; [eexists; split; [now apply (under_ex _ _ _ 14)|reflexivity]|]. split; [reflexivity|].
  split; (eexists; split; [first [now apply (part_ex _ _ _ 15)|now apply (part_ex _ _ _ 16)]|apply num_int; [reflexivity|discriminate|reflexivity|cbn; lia]]).
Qed.
(** A file with that row, and one with nothing in it. *)
Definition eros_file : list Z := (zs "# Gaia" ++ [10]) ++ (with_commas the_names ++ [10]) ++ (with_commas the_row ++ [10]) ++ [].
Lemma eros_file_ok : file_has [] eros_file [eros].
Proof.
  unfold eros_file. apply (comment [] (zs " Gaia" ++ [10])); [exists (zs "# Gaia"); split; [reflexivity|]; split; [intro I; vm_compute in I; intuition discriminate|cbn; lia]|].
  apply (column_names [] the_names); [apply the_header_ok|now eexists|]. apply (observation the_names the_row); [apply the_header_ok|apply the_row_ok| | |apply eros_ok|discriminate|discriminate|constructor].
  - intros (r & E). discriminate.
  - intros (r & E). discriminate.
Qed.

Lemma C62_row_proof :
  forall L rms low high names row header line o, long_ok L ->
  table_line names header -> table_line row line -> row_says names row o -> (-368000 <= days o)%Q -> (days o <= 2917000)%Q ->
  exists N out, (forall fuel ic, (N <= fuel)%nat -> csv_to_ades L fuel ic rms line header low high = Ret out) /\
    (low <= num o <= high -> forall f, counts_days gregorian (1, 1, 2000) 2451545 f -> exists t, time_says f (days o) t /\ out = block o t rms) /\
    (~ low <= num o <= high -> out = []).
Proof.
  intros L rms low high names row header line o HL TH TR S D1 D2. destruct (one_row L HL rms low high names row header line o TH TR S D1 D2) as (N & out & E & P). exists N, out. split; [exact E|].
  destruct (asked low high o) eqn:A; cbn [filter] in P; rewrite A in P; unfold asked in A.
  - apply andb_prop in A. destruct A as (A1 & A2). apply Z.leb_le in A1, A2. split; [|lia]. intros _ f Cf. destruct (P f Cf) as (bs & B & ->). inversion B as [|? b ? r (t & T & Eb) R]; subst. inversion R; subst. exists t. split; [exact T|]. cbn. now rewrite app_nil_r.
  - split; [intros (A1 & A2); apply Z.leb_le in A1, A2; rewrite A1, A2 in A; discriminate|]. intros _. edestruct row_says_number as (LE & U & D & N9); [exact S|].
    specialize (E N 0 (le_n N)). rewrite (row_num names row header line TH TR LE o) in E by assumption. rewrite A in E. now injection E as <-.
Qed.

Lemma C62_file_needed_proof :
  forall k low high, 0 <= low -> low + 31 <= IMAX ->
  exists b, file_needed k low high = Ret b /\ (b = true <-> exists n, low <= n <= high /\ file_of n = k).
Proof.
  exact file_needed_ok.
Qed.

Lemma C62_program_proof :
  forall L rms arg low high files obs before star after, long_ok L -> range_text arg low high -> low + 31 <= IMAX -> high <= IMAX ->
  (forall k, 0 <= k < 20 -> exists t, files k = Some t /\ file_has [] t (obs k)) ->
  (forall k o, 0 <= k < 20 -> In o (obs k) -> file_of (num o) = k) ->
  Forall (fun t => text_line t /\ nth 0 t 0 <> 42) (before ++ after) -> text_line (42 :: star) ->
  exists N out, (forall fuel ic, (N <= fuel)%nat -> csv2ades L fuel ic rms (concat before ++ (42 :: star) ++ concat after) files arg = Ret (concat before ++ out ++ concat after, 0)) /\
    forall f, counts_days gregorian (1, 1, 2000) 2451545 f ->
      prints f rms (filter (fun o => (low <=? num o) && (num o <=? high)) (concat (map (fun k => obs (Z.of_nat k)) (seq 0 20)))) out.
Proof.
  intros L rms arg low high files obs before star after HL HA B1 B2 HF HO HH HS.
  assert (P : 0 <= low).
  { assert (Q : forall s v, digits_of s v -> 0 <= v) by (intros s v (_ & _ & <-); apply DesigBase.dig_val_mono; lia). destruct HA as [(D & _)|(a & b & _ & D & _)]; now apply Q in D. }
  assert (FN : forall k, In k file_nums -> 0 <= k < 20) by (intros k I; unfold file_nums in I; cbn in I; lia).
  destruct (files_ok L HL rms low high files obs P B1 file_nums) as (N & out & R & Pr); [intros k I; apply HF; now apply FN|intros k o I; apply HO; now apply FN|].
  exists (N + (List.length before + S (List.length after)))%nat, out. split.
  - intros fuel ic F. unfold csv2ades. rewrite (arguments_ok arg low high) by (assumption || (unfold IMAX in *; lia)). cbn [obind].
    rewrite (header_ok _ out before star after fuel HH HS) by (first [lia | apply R; lia]). reflexivity.
  - intros f Cf. exact (Pr f Cf).
Qed.

Lemma C62_missing_file_proof :
  forall L rms arg low high files before star rest, range_text arg low high -> low + 31 <= IMAX -> high <= IMAX ->
  (forall k, 0 <= k < 20 -> files k = None) -> low <= high ->
  Forall (fun t => text_line t /\ nth 0 t 0 <> 42) before -> text_line (42 :: star) ->
  exists N, forall fuel ic, (N <= fuel)%nat -> csv2ades L fuel ic rms (concat before ++ (42 :: star) ++ rest) files arg = Ret (concat before, -2).
Proof.
  intros L rms arg low high files before star rest HA B1 B2 HF LH HH HS.
  assert (P : 0 <= low).
  { assert (Q : forall s v, digits_of s v -> 0 <= v) by (intros s v (_ & _ & <-); apply DesigBase.dig_val_mono; lia). destruct HA as [(D & _)|(a & b & _ & D & _)]; now apply Q in D. }
  assert (FN : forall k, In k file_nums -> 0 <= k < 20) by (intros k I; unfold file_nums in I; cbn in I; lia).
  exists (List.length before + 1)%nat. intros fuel ic F. unfold csv2ades. rewrite (arguments_ok arg low high) by (assumption || (unfold IMAX in *; lia)). cbn [obind].
  assert (A : forall g l, (forall k, In k l -> 0 <= k < 20) -> (exists k, In k l /\ k = file_of low) -> all_files fuel g files low high l = Ret ([], false)).
  { intros g l. induction l as [|k l IH]; intros Hl (j & J & EJ); [destruct J|]. cbn [all_files]. destruct (file_needed_ok k low high P B1) as (b & E & Eb). rewrite E. cbn [obind]. destruct b; [rewrite HF by (apply Hl; now left); reflexivity|].
    apply IH; [intros i I; apply Hl; now right|]. exists j. split; [|exact EJ]. destruct J as [->|J]; [|exact J]. exfalso. assert (X : false = true) by (apply Eb; exists low; split; [lia|now symmetry]). discriminate. }
  replace fuel with (List.length before + S (fuel - List.length before - 1))%nat at 1 by lia. rewrite header_plain by exact HH.
  destruct (first_line (42 :: star) rest HS) as (E & _). cbn [header_lines]. rewrite E, firstn_app_l, skipn_app_l. cbn [app nth Z.eqb Pos.eqb].
  rewrite A; [cbn [obind]; now rewrite app_nil_r|exact FN|]. exists (file_of low). split; [|reflexivity]. pose proof (Z.mod_pos_bound (low + 11) 20 eq_refl) as M. fold (file_of low) in M. unfold file_nums. cbn [In]. lia.
Qed.

Lemma C62_no_names_refuted_proof :
  forall L n fuel ic rms low high line rest, text_line line -> ~ starts [35] line -> ~ starts (zs "solution_id") line ->
  rows (S n) (fun buff header => csv_to_ades L fuel ic rms buff header low high) (line ++ rest) [] = Abort.
Proof.
  intros L n fuel ic rms low high line rest T N1 N2. rewrite rows_step by exact T. destruct (prefix (zs "solution_id") line) eqn:X; [exfalso; now apply N2, starts_prefix|].
  destruct (Z.eqb_spec (nth 0 line 0) 35) as [Y|]; [|reflexivity]. exfalso. apply N1. destruct line as [|c line]; [discriminate|]. cbn in Y. subst c. now exists line.
Qed.

Lemma C62_last_column_refuted_proof :
  exists names row, table_line names (with_commas names ++ [10]) /\ table_line row (with_commas row ++ [10]) /\ List.length row = List.length names /\ nth_error names 18 = Some (zs "number_mp") /\ nth_error row 18 = Some (zs "433") /\
    forall L fuel ic rms low high, csv_to_ades L fuel ic rms (with_commas row ++ [10]) (with_commas names ++ [10]) low high = Abort.
Proof.
  exists (map zs ["solution_id"; "number"; "epoch_utc"; "ra"; "dec"; "ra_error_random"; "dec_error_random"; "ra_dec_correlation_random"; "x_gaia_geocentric"; "y_gaia_geocentric"; "z_gaia_geocentric";
          "vx_gaia_geocentric"; "vy_gaia_geocentric"; "vz_gaia_geocentric"; "g_mag"; "g_flux"; "g_flux_error"; "level"; "number_mp"]), (the_row ++ [zs "433"]).
  split; [|split; [|split; [reflexivity|split; [reflexivity|split; [reflexivity|]]]]].
  - split; [|split; [reflexivity|vm_compute; lia]]. repeat (constructor; [split; [intro I; vm_compute in I; intuition discriminate|split; intro I; vm_compute in I; intuition discriminate]|]). constructor.
  - split; [|split; [reflexivity|vm_compute; lia]]. repeat (constructor; [split; [intro I; vm_compute in I; intuition discriminate|split; intro I; vm_compute in I; intuition discriminate]|]). constructor.
  - intros. reflexivity.
Qed.

Lemma C62_long_cell_refuted_proof :
  exists row, table_line row (with_commas row ++ [10]) /\ (forall k, k <> 2%nat -> nth_error row k = nth_error the_row k) /\
    (exists c, nth_error row 2 = Some c /\ number_of c (182725 * 10 ^ 98 # 10 ^ 100)) /\
    forall L fuel ic rms, csv_to_ades L fuel ic rms (with_commas row ++ [10]) (with_commas the_names ++ [10]) 433 433 = UB.
Proof.
  exists (firstn 2 the_row ++ [zs "1827.25" ++ repeat 48 98] ++ skipn 3 the_row). split; [|split; [|split]].
  - split; [|split; [reflexivity|vm_compute; lia]]. repeat (constructor; [split; [intro I; vm_compute in I; intuition discriminate|split; intro I; vm_compute in I; intuition discriminate]|]). constructor.
  - intros [|[|[|k]]] H; try reflexivity. contradiction.
  - exists (zs "1827.25" ++ repeat 48 98). split; [reflexivity|]. apply (of_point (zs "1827") (zs "25" ++ repeat 48 98)); [reflexivity|discriminate|vm_compute; reflexivity|vm_compute; reflexivity].
  - intros. vm_compute. reflexivity.
Qed.

Lemma C62_high_numbers_refuted_proof :
  forall k low high, IMAX - 20 < low <= high -> low <= IMAX -> file_needed k low high = UB.
Proof.
  intros k low high H H2. unfold file_needed, IMAX in *. cbn [needed_loop]. rewrite (proj2 (Z.leb_le low high)) by lia. cbn [ev obind]. unfold IMAX in *.
  unfold chk at 1. replace (in_rng 2147483647 low) with true by (symmetry; unfold in_rng; lia). cbn [obind]. replace (chk 2147483647 20) with (@Ret Z 20) by reflexivity. cbn [obind]. unfold chk. replace (in_rng 2147483647 (low + 20)) with false by (symmetry; unfold in_rng; lia). reflexivity.
Qed.
