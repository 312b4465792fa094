(** Lemmas about the model of csv2ades.c: files and the program. *)
From Coq Require Import QArith String Lia.
From Verif Require Import CBase CLemmas CStr DateModel DateVocab DateSpec TstrModel TstrNum TstrSpec CtimeModel CtimeSpec CsvModel CsvSpec CsvProofs CsvTime CsvRow.
From Verif Require AdesProofs EopModel EopProofs.
Import ListNotations.
Local Open Scope string_scope.
Local Open Scope list_scope.
Local Open Scope Z_scope.

(** ---- which files are read ---- *)
Lemma chk_int z : - 2147483648 <= z <= 2147483647 -> chk IMAX z = Ret z.
Proof. intro H. apply chk_ok. unfold fits, IMAX. lia. Qed.
Lemma needed_ok k low high : 0 <= low -> low + 31 <= IMAX -> forall fuel i, low <= i <= low + 20 -> (Z.to_nat (low + 20 - i) < fuel)%nat ->
  exists b, needed_loop fuel k i low high = Ret b /\ (b = true <-> exists n, i <= n <= high /\ n < low + 20 /\ file_of n = k).
Proof.
  intros H0 H1. unfold IMAX in H1. induction fuel as [|fuel IH]; intros i Hi F; [lia|]. cbn [needed_loop].
  destruct (Z.leb_spec i high) as [A|A].
  - cbn [ev obind]. repeat (rewrite chk_int by lia; cbn [obind]).
    destruct (Z.ltb_spec i (low + 20)) as [B|B].
    + cbn [ev obind]. repeat (rewrite chk_int by lia; cbn [obind]). rewrite Z.rem_mod_nonneg by lia. destruct (Z.eqb_spec ((i + 11) mod 20) k) as [C|C].
      * exists true. split; [reflexivity|]. split; [|reflexivity]. intros _. exists i. split; [lia|]. split; [lia|exact C].
      * cbn [ev obind]. repeat (rewrite chk_int by lia; cbn [obind]).
        destruct (IH (i + 1) ltac:(lia) ltac:(lia)) as (b & -> & Eb). exists b. split; [reflexivity|]. rewrite Eb. split; intros (n & N1 & N2 & N3).
        -- exists n. repeat split; lia || assumption.
        -- exists n. repeat split; try lia; try assumption. destruct (Z.eq_dec n i) as [->|]; [exfalso; apply C; exact N3|lia].
    + exists false. split; [reflexivity|]. split; [discriminate|]. intros (n & N1 & N2 & _). lia.
  - exists false. split; [reflexivity|]. split; [discriminate|]. intros (n & N1 & _). lia.
Qed.
Lemma file_needed_ok k low high : 0 <= low -> low + 31 <= IMAX ->
  exists b, file_needed k low high = Ret b /\ (b = true <-> exists n, low <= n <= high /\ file_of n = k).
Proof.
  intros H0 H1. destruct (needed_ok k low high H0 H1 21 low ltac:(lia) ltac:(lia)) as (b & E & Eb). exists b. split; [exact E|]. rewrite Eb.
  split; intros (n & N1 & N2); [exists n; tauto|]. exists (low + (n - low) mod 20). pose proof (Z.mod_pos_bound (n - low) 20 eq_refl) as B.
  pose proof (Z.div_mod (n - low) 20 ltac:(lia)) as D. pose proof (Z.div_pos (n - low) 20 ltac:(lia) eq_refl).
  split; [lia|]. split; [lia|]. rewrite <- N2. unfold file_of. replace (n + 11) with (low + (n - low) mod 20 + 11 + (n - low) / 20 * 20) by lia. now rewrite Z.mod_add.
Qed.

(** ---- lines ---- *)
Lemma table_text cells line : table_line cells line -> text_line line.
Proof.
  intros (F & -> & L). exists (with_commas cells). split; [reflexivity|]. rewrite app_length in L. cbn in L. split; [|lia].
  induction cells as [|c cells IH]; [intros []|]. inversion F as [|? ? (_ & N & _) F']; subst. destruct cells as [|d cells]; [exact N|].
  change (with_commas (c :: d :: cells)) with (c ++ [44] ++ with_commas (d :: cells)) in *. intro I. apply in_app_or in I. destruct I as [I|I]; [now apply N|].
  cbn in I. destruct I as [I|I]; [discriminate|]. apply IH; [exact F'| |exact I]. rewrite app_length in L. cbn in L. cbn. lia.
Qed.
Lemma first_line t r : text_line t -> EopModel.line_length 799 (t ++ r) = List.length t /\ t <> [].
Proof.
  intros (u & -> & N & L). split; [|destruct u; discriminate]. rewrite <- app_assoc. cbn [app]. rewrite EopProofs.line_length_line by (assumption || lia). rewrite app_length. cbn. lia.
Qed.
Lemma starts_prefix p s : prefix p s = true <-> starts p s.
Proof. rewrite AdesProofs.prefix_spec. reflexivity. Qed.
Lemma rows_step fuel g t r h : text_line t -> rows (S fuel) g (t ++ r) h =
  if prefix (zs "solution_id") t then rows fuel g r t
  else do a <- (if nth 0 t 0 =? 35 then Ret [] else g t h); do b <- rows fuel g r h; Ret (a ++ b).
Proof.
  intro T. destruct (first_line t r T) as (E & N). cbn [rows]. rewrite E, firstn_app_l, skipn_app_l. destruct (t ++ r) eqn:X; [|reflexivity]. destruct t; [contradiction|discriminate].
Qed.
Lemma rows_nil fuel g h : rows fuel g [] h = Ret []. Proof. destruct fuel; reflexivity. Qed.

Lemma prints_app f rms a b x y : prints f rms a x -> prints f rms b y -> prints f rms (a ++ b) (x ++ y).
Proof. intros (p & P & ->) (q & Q & ->). exists (p ++ q). split; [now apply Forall2_app|now rewrite concat_app]. Qed.
Lemma prints_none f rms : prints f rms [] []. Proof. exists []. split; [constructor|reflexivity]. Qed.

Lemma row_says_number names row o : row_says names row o -> List.length row = List.length names /\ under "number_mp" names row (number o) /\ digits_of (number o) (num o) /\ (List.length (number o) <= 9)%nat.
Proof. unfold row_says. destruct (place o) as [[x y] z], (velocity o) as [[vx vy] vz]. tauto. Qed.
Section files.
Variable L : Z.
Hypothesis HL : long_ok L.
Variable rms : Q -> Q -> list Z.
Variables low high : Z.
Notation g fuel ic := (fun buff header => csv_to_ades L fuel ic rms buff header low high).

Lemma one_row names row header line o : table_line names header -> table_line row line -> row_says names row o -> (-368000 <= days o)%Q -> (days o <= 2917000)%Q ->
  exists N out, (forall fuel ic, (N <= fuel)%nat -> csv_to_ades L fuel ic rms line header low high = Ret out) /\
    forall f, counts_days gregorian (1, 1, 2000) 2451545 f -> prints f rms (filter (asked low high) [o]) out.
Proof.
  intros TH TR S D1 D2. destruct (row_says_number _ _ _ S) as (LE & U & D & N). cbn [filter]. destruct (asked low high o) eqn:A.
  - destruct (obs_time_ok L (days o) HL D1 D2) as (t & M & E & T). exists M, (block o (t ++ zs "Z") rms). split.
    + intros fuel ic F. now apply (row_block names row header line TH TR LE o L fuel ic rms low high t S (E fuel ic F)).
    + intros f Cf. exists [block o (t ++ zs "Z") rms]. split; [|cbn; now rewrite app_nil_r]. constructor; [|constructor]. exists (t ++ zs "Z"). split; [now apply T|reflexivity].
  - exists O, []. split; [|intros; apply prints_none]. intros fuel ic _. rewrite (row_num names row header line TH TR LE o) by assumption. unfold asked in A. now rewrite A.
Qed.
Lemma file_rows names file l : file_has names file l -> forall header, (header = with_commas names ++ [10] \/ names = []) ->
  exists N out, (forall n fuel ic, (N <= n)%nat -> (N <= fuel)%nat -> rows n (g fuel ic) file header = Ret out) /\
    forall f, counts_days gregorian (1, 1, 2000) 2451545 f -> prints f rms (filter (asked low high) l) out.
Proof.
  induction 1 as [names|names u t l T F IH|names new line t l T St F IH|names row line o t l TN T N1 N2 Sy D1 D2 F IH]; intros header EH.
  - exists O, []. split; [intros; apply rows_nil|intros; apply prints_none].
  - destruct (IH header EH) as (N & out & R & P). exists (S N), out. split; [|exact P]. intros [|n] fuel ic Hn Hf; [lia|]. rewrite rows_step by exact T.
    change (prefix (zs "solution_id") (35 :: u)) with false. cbn [nth Z.eqb Pos.eqb obind]. rewrite R by lia. reflexivity.
  - destruct (IH line) as (N & out & R & P); [left; now destruct T as (_ & -> & _)|]. exists (S N), out. split; [|exact P]. intros [|n] fuel ic Hn Hf; [lia|].
    rewrite rows_step by (now apply table_text in T). rewrite (proj2 (starts_prefix _ _) St). apply R; lia.
  - destruct EH as [EH|EH].
    2: { subst names. exfalso. destruct (row_says_number _ _ _ Sy) as (_ & (k & (K & _) & _) & _). cbn in K. lia. }
    destruct (IH header (or_introl EH)) as (N & out & R & P). rewrite <- EH in TN. destruct (one_row _ _ _ _ o TN T Sy D1 D2) as (M & b & E & Q).
    exists (S (N + M)), (b ++ out). split.
    + intros [|n] fuel ic Hn Hf; [lia|]. rewrite rows_step by (now apply table_text in T).
      destruct (prefix (zs "solution_id") line) eqn:X; [exfalso; now apply N2, starts_prefix|].
      assert (Y : (nth 0 line 0 =? 35) = false).
      { destruct (Z.eqb_spec (nth 0 line 0) 35) as [Y|]; [|reflexivity]. exfalso. apply N1. destruct line as [|c line]; [discriminate|]. cbn in Y. subst c. now exists line. }
      rewrite Y, E by lia. cbn [obind]. rewrite R by lia. reflexivity.
    + intros f Cf. change (o :: l) with ([o] ++ l). rewrite filter_app. apply prints_app; [now apply Q|now apply P].
Qed.

Variable files : Z -> option (list Z).
Variable obs : Z -> list gaia_obs.
Hypothesis H0 : 0 <= low.
Hypothesis H1 : low + 31 <= IMAX.
Lemma files_ok l : (forall k, In k l -> exists t, files k = Some t /\ file_has [] t (obs k)) -> (forall k o, In k l -> In o (obs k) -> file_of (num o) = k) ->
  exists N out, (forall n fuel ic, (N <= n)%nat -> (N <= fuel)%nat -> all_files n (g fuel ic) files low high l = Ret (out, true)) /\
    forall f, counts_days gregorian (1, 1, 2000) 2451545 f -> prints f rms (filter (asked low high) (concat (map obs l))) out.
Proof.
  induction l as [|k l IH]; intros HF HO.
  - exists O, []. split; [reflexivity|intros; apply prints_none].
  - destruct IH as (N & out & R & P); [intros j J; apply HF; now right|intros j o J; apply HO; now right|].
    destruct (file_needed_ok k low high H0 H1) as (b & E & Eb). cbn [map concat].
    destruct b.
    + destruct (HF k (or_introl eq_refl)) as (t & Ft & Ht). destruct (file_rows _ _ _ Ht [] (or_intror eq_refl)) as (M & b & Rb & Pb).
      exists (N + M)%nat, (b ++ out). split.
      * intros n fuel ic Hn Hf. cbn [all_files]. rewrite E. cbn [obind]. rewrite Ft, Rb by lia. cbn [obind]. rewrite R by lia. reflexivity.
      * intros f Cf. rewrite filter_app. apply prints_app; [now apply Pb|now apply P].
    + exists N, out. split.
      * intros n fuel ic Hn Hf. cbn [all_files]. rewrite E. cbn [obind]. now apply R.
      * intros f Cf. rewrite filter_app. replace (filter (asked low high) (obs k)) with (@nil gaia_obs); [now apply P|].
        assert (A : forall o, In o (obs k) -> asked low high o = false).
        { intros o I. destruct (asked low high o) eqn:A; [|reflexivity]. exfalso. unfold asked in A. apply andb_prop in A. destruct A as (A1 & A2). apply Z.leb_le in A1, A2.
          assert (X : false = true) by (apply Eb; exists (num o); split; [lia|apply HO; [now left|exact I]]). discriminate. }
        clear -A. induction (obs k) as [|o l IH]; [reflexivity|]. cbn [filter]. rewrite A by now left. apply IH. intros x I. apply A. now right.
Qed.
End files.

(** ---- gaia.hdr ---- *)
Lemma header_plain star : forall ls r, Forall (fun t => text_line t /\ nth 0 t 0 <> 42) ls -> forall n,
  header_lines (List.length ls + n) star (concat ls ++ r) = do '(b, ok) <- header_lines n star r; Ret (concat ls ++ b, ok).
Proof.
  induction ls as [|t ls IH]; intros r F n; cbn [concat app List.length plus].
  - destruct (header_lines n star r) as [[b ok]| | |]; reflexivity.
  - inversion F as [|? ? (T & N) F']; subst. rewrite <- app_assoc. destruct (first_line t (concat ls ++ r) T) as (E & NE). cbn [header_lines]. rewrite E, firstn_app_l, skipn_app_l.
    destruct (t ++ concat ls ++ r) eqn:X; [destruct t; [contradiction|discriminate]|]. destruct (Z.eqb_spec (nth 0 t 0) 42); [contradiction|]. cbn [obind]. rewrite IH by exact F'.
    destruct (header_lines n star r) as [[b ok]| | |]; cbn [obind]; try reflexivity. now rewrite app_assoc.
Qed.
Lemma header_plain_end star ls n : Forall (fun t => text_line t /\ nth 0 t 0 <> 42) ls -> (List.length ls <= n)%nat -> header_lines n star (concat ls) = Ret (concat ls, true).
Proof.
  intros F H. replace n with (List.length ls + (n - List.length ls))%nat by lia. rewrite <- (app_nil_r (concat ls)) at 1. rewrite header_plain by exact F.
  replace (header_lines (n - List.length ls) star []) with (@Ret (list Z * bool) ([], true)) by (destruct (n - List.length ls)%nat; reflexivity). cbn [obind]. now rewrite app_nil_r.
Qed.
Lemma header_ok star out a s b n : Forall (fun t => text_line t /\ nth 0 t 0 <> 42) (a ++ b) -> text_line (42 :: s) -> star = Ret (out, true) -> (List.length a + S (List.length b) <= n)%nat ->
  header_lines n star (concat a ++ (42 :: s) ++ concat b) = Ret (concat a ++ out ++ concat b, true).
Proof.
  intros F T ES H. apply Forall_app in F. destruct F as (Fa & Fb). replace n with (List.length a + S (n - List.length a - 1))%nat by lia. rewrite header_plain by exact Fa.
  destruct (first_line (42 :: s) (concat b) T) as (E & _). cbn [header_lines]. rewrite E, firstn_app_l, skipn_app_l. cbn [app nth Z.eqb Pos.eqb]. rewrite ES. cbn [obind].
  rewrite header_plain_end by (assumption || lia). reflexivity.
Qed.
Lemma arguments_ok arg low high : range_text arg low high -> low <= IMAX -> high <= IMAX -> arguments arg = Ret (Some (low, high)).
Proof.
  assert (P : forall s v, digits_of s v -> 0 <= v) by (intros s v (_ & _ & <-); apply DesigBase.dig_val_mono; lia).
  intros [(D & ->)|(a & b & -> & Da & Db)] B1 B2; unfold arguments.
  - rewrite <- (app_nil_r arg). rewrite (scan_d_num IMAX arg low [] D I) by (specialize (P _ _ D); lia). reflexivity.
  - rewrite (scan_d_num IMAX a low (44 :: b) Da) by (first [reflexivity | specialize (P _ _ Da); lia]). cbn [obind lit Z.eqb Pos.eqb].
    rewrite <- (app_nil_r b). rewrite (scan_d_num IMAX b high [] Db I) by (specialize (P _ _ Db); lia). cbn [obind]. specialize (P _ _ Db). destruct (Z.ltb_spec high 0); [lia|reflexivity].
Qed.
