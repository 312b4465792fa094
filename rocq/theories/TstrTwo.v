(** Two fields; a month or a day of the week alone; a time of day alone; FITS times. *)
From Coq Require Import QArith Qround Lia Permutation.
From Coq Require Import Ascii String.
From Verif Require Import CBase CLemmas CStr DateModel DateVocab DateThms TstrModel TstrSpec TstrCopy TstrNum TstrOff TstrDate TstrSplit TstrField TstrThree TstrRoles TstrRead TstrOther TstrForms.
Local Open Scope list_scope.
Local Open Scope Z_scope.

Lemma read_two f1 q1 m1 f2 q2 m2 s u : fld f1 q1 m1 -> fld f2 q2 m2 -> date_sep s ->
  (List.length f1 < 80)%nat -> (List.length f2 < 80)%nat ->
  read_fields (f1 ++ s :: f2) (List.length f1) s u =
  Ret (q1, q2, 0%Q, (if m2 then 2 else if m1 then 1 else 0),
       (if has_dot f2 then 2 else if has_dot f1 then 1 else 0), 2, u).
Proof.
  intros F1 F2 Hs L1 L2. unfold read_fields. rewrite firstn_app_l.
  unfold to_tstr at 1. replace (Z.of_nat (List.length f1) <? 80) with true by (symmetry; apply Z.ltb_lt; lia). cbn [obind].
  rewrite (read_field_ok f1 q1 m1) by assumption. cbn [obind].
  replace (skipn (List.length f1 + 1) (f1 ++ s :: f2)) with f2.
  2:{ replace (List.length f1 + 1)%nat with (List.length (f1 ++ [s])) by (rewrite app_length; reflexivity).
      replace (f1 ++ s :: f2) with ((f1 ++ [s]) ++ f2) by (rewrite <- app_assoc; reflexivity).
      now rewrite skipn_app_l. }
  rewrite span_all.
  2:{ intros x Hx. destruct (fld_chars f2 q2 m2 F2) as [_ K]. specialize (K x Hx).
      pose proof (sep_no_char s x Hs K) as K1. destruct (char_no_space x K) as (_ & K2 & _).
      now rewrite (proj2 (Z.eqb_neq _ _) K1), (proj2 (Z.eqb_neq _ _) K2). }
  rewrite firstn_all. unfold to_tstr at 1.
  replace (Z.of_nat (List.length f2) <? 80) with true by (symmetry; apply Z.ltb_lt; lia). cbn [obind].
  rewrite (read_field_ok f2 q2 m2) by assumption. cbn [obind]. rewrite skipn_all. cbn [lit].
  destruct m2, (has_dot f2); reflexivity.
Qed.
Lemma two_not_fits f1 q1 m1 f2 q2 m2 s clk t : fld f1 q1 m1 -> fld f2 q2 m2 -> date_sep s -> clock_suffix clk t ->
  fits_time (f1 ++ s :: f2 ++ clk) = Ret false.
Proof.
  intros F1 F2 Hs Hc. rewrite fits_bool. f_equal. apply not_true_iff_false. intro K.
  repeat rewrite andb_true_iff in K. rewrite !Z.eqb_eq, Z.ltb_lt in K. destruct K as ((((K & K11) & K4) & K7) & K15).
  assert (N45 : forall f q m, fld f q m -> ~ In 45 f) by (intros f q m H; apply (fld_no f q m); [assumption|unfold fld_char, num_char; lia]).
  assert (NC : ~ In 45 (f2 ++ clk)).
  { intro I0. apply in_app_or in I0. destruct I0 as [I0|I0]; [eapply N45; eassumption|exact (suffix_no_dash clk t Hc I0)]. }
  pose proof (nth_unique f1 s _ 45 4 0 (N45 _ _ _ F1) K4 ltac:(lia)) as B1.
  rewrite app_nth2 in K7 by lia. destruct (7 - List.length f1)%nat as [|k7] eqn:E7; [lia|]. cbn [nth] in K7.
  rewrite app_length in K. cbn [List.length] in K. apply NC. rewrite <- K7. apply nth_In. lia.
Qed.
Lemma two_ordinary f1 q1 m1 f2 q2 m2 s clk t : fld f1 q1 m1 -> fld f2 q2 m2 -> date_sep s ->
  clock_suffix clk t -> ordinary (f1 ++ s :: f2 ++ clk).
Proof.
  intros F1 F2 Hs Hc. destruct (fld_chars f1 q1 m1 F1) as [N1 C1]. destruct f1 as [|c g]; [congruence|].
  assert (K : fld_char c) by (apply C1; now left).
  apply (fin_ordinary _ c (g ++ s :: f2 ++ clk)); [| |reflexivity|apply char_no_space; assumption|].
  - replace ((c :: g) ++ s :: f2 ++ clk) with (((c :: g) ++ [s]) ++ f2 ++ clk) by (rewrite <- app_assoc; reflexivity).
    apply fin_app. eapply fin_suffix; [eapply fin_fld; eassumption|eassumption].
  - apply good_sep; [now apply date_sep_char|eapply fld_good; eassumption|].
    eapply suffix_good; [eapply fld_good; eassumption|eassumption].
  - unfold fld_char, num_char in K. unfold is_sign. rewrite orb_false_iff, !Z.eqb_neq. lia.
Qed.
Lemma two_fields_run L now dfuel ph t0 fmt f1 q1 m1 f2 q2 m2 s clk t y m d h0 mi sec :
  fld f1 q1 m1 -> fld f2 q2 m2 -> date_sep s -> (List.length f1 <= 9)%nat -> clock_suffix clk t ->
  split_time {| e_long := L; e_now := now; e_fuel := dfuel; e_phase := ph |} t0 (Z.land fmt CALENDAR_MASK) = Ret (y, m, d, h0, mi, sec) ->
  exists h b, 0 <= h < 10000 /\ (inject_Z (h * 60 + 0) / 1440 + b / 86400 == t / 86400)%Q /\
    date_and_time {| e_long := L; e_now := now; e_fuel := dfuel; e_phase := ph |} t0 fmt (f1 ++ s :: f2 ++ clk) false 0 0 =
    (do '(y, m, dd, u) <- date_fields {| e_long := L; e_now := now; e_fuel := dfuel; e_phase := ph |} fmt
                            (f1 ++ s :: f2) (List.length f1) s 0 false y (inject_Z d);
     do r <- finish {| e_long := L; e_now := now; e_fuel := dfuel; e_phase := ph |} (calendar_of fmt) false y m dd h 0 b 0;
     Ret (r, u)).
Proof.
  intros F1 F2 Hs L1 Hc Es. set (date := f1 ++ s :: f2).
  assert (ED : f1 ++ s :: f2 ++ clk = date ++ clk) by (unfold date; rewrite <- app_assoc; reflexivity).
  assert (N58 : ~ In 58 date).
  { assert (X : ~ fld_char 58) by (unfold fld_char, num_char; lia).
    unfold date. intro K. apply in_app_or in K. destruct K as [K|[K|K]]; [exact (fld_no _ _ _ 58 F1 X K)|unfold date_sep in Hs; lia|].
    exact (fld_no _ _ _ 58 F2 X K). }
  destruct (clock_any date clk t h0 mi sec Hc N58) as (h & b & Ec & Hh & Ht).
  exists h, b. split; [assumption|]. split; [assumption|].
  unfold date_and_time. rewrite (dots_same f1 q1 m1 s (f2 ++ clk)) by assumption. cbn [obind]. rewrite Es. cbn [obind].
  rewrite (two_not_fits f1 q1 m1 f2 q2 m2 s clk t) by assumption. cbn [obind].
  rewrite am_pm_plain by (destruct (two_ordinary f1 q1 m1 f2 q2 m2 s clk t) as (G & _); assumption).
  rewrite ED, Ec. cbn [obind].
  destruct (fld_chars f1 q1 m1 F1) as [N1 C1]. destruct f1 as [|c g1]; [congruence|].
  assert (Ei : match date with [] => O | _ :: r => S (span (fun c => negb (is_sep c)) r) end = List.length (c :: g1)).
  { unfold date. cbn [app List.length]. f_equal. apply span_stop.
    - intros x Hx. assert (K : fld_char x) by (apply C1; now right). unfold fld_char, num_char in K. apply no_sep_is. lia.
    - destruct Hs as [->|[->| ->]]; reflexivity. }
  cbv zeta. rewrite Ei.
  assert (Ea : at_ date (Z.of_nat (List.length (c :: g1))) = Ret s).
  { rewrite at_nth by (unfold date; rewrite app_length; cbn [List.length]; lia).
    rewrite Nat2Z.id. unfold date. rewrite app_nth2 by lia. now rewrite Nat.sub_diag. }
  rewrite Ea. cbn [obind].
  assert (Em : match date with [] => 0 | _ => s end = s) by reflexivity. rewrite Em.
  replace (s =? 58) with false by (symmetry; apply Z.eqb_neq; unfold date_sep in Hs; lia).
  replace (s =? 0) with false by (symmetry; apply Z.eqb_neq; unfold date_sep in Hs; lia).
  reflexivity.
Qed.
Definition choose2 (E : env) (fmt : Z) (v1 v2 : Q) (mf df y0 : Z) (d0 : Q) : outcome (Z * Z * Q) :=
  do yf <- find_year [v1; v2] [v1; v2] 0 0;
  two_fields E fmt [v1; v2] mf yf (find_day [v1; v2] (max_month (Z.land fmt CALENDAR_MASK)) 0 yf df) y0 d0.
Lemma two_reads L now ph t0 txt fmt f1 q1 m1 f2 q2 m2 s clk secs y0 mm0 d0 y y' m q jd :
  date_of_start L t0 fmt d0 mm0 y0 -> text txt (f1 ++ s :: f2 ++ clk) ->
  fld f1 q1 m1 -> fld f2 q2 m2 -> date_sep s -> (List.length f1 <= 9)%nat -> clock_suffix clk secs ->
  (forall E, e_long E = L -> exists q', choose2 E fmt q1 q2 (if m2 then 2 else if m1 then 1 else 0)
     (if has_dot f2 then 2 else if has_dot f1 then 1 else 0) y0 (inject_Z d0) = Ret (y, m, q') /\ (q' == q)%Q) ->
  (forall dfuel, two_digit_year {| e_long := L; e_now := now; e_fuel := dfuel; e_phase := ph |} fmt false y = Ret y') ->
  (0 <= q)%Q -> (q <= 1000)%Q ->
  dmy_to_day L (Qfloor q) m y' (calendar_of fmt) = Ret jd -> jd_ok L jd ->
  reads L now ph t0 txt fmt (instant jd secs + day_fraction q)%Q 0.
Proof.
  intros HS HT F1 F2 Hs L1 Hc Hch Hy Hq0 Hq Hj Hjd.
  destruct (split_date L t0 fmt d0 mm0 y0 HS) as (N & HN). exists (S (S N)). intros fuel dfuel Hf Hdf.
  destruct fuel as [|[|fuel]]; [lia|lia|].
  rewrite (run_date fuel _ t0 txt _ fmt HT);
    [|eapply two_ordinary; eassumption|eapply fld_no_keyword; eassumption].
  destruct (HN now ph dfuel ltac:(lia)) as (h0 & mi & sec & Es).
  destruct (two_fields_run L now dfuel ph t0 fmt f1 q1 m1 f2 q2 m2 s clk secs y0 mm0 d0 h0 mi sec F1 F2 Hs L1 Hc Es)
    as (h & b & Hh & Ht & ->).
  assert (L2 : (List.length f2 < 80)%nat).
  { destruct HT as (_ & _ & _ & _ & _ & K). rewrite app_length in K. cbn [List.length] in K. rewrite app_length in K. lia. }
  unfold date_fields. rewrite (read_two f1 q1 m1 f2 q2 m2) by (assumption || lia). cbn [obind].
  change (2 =? 2) with true. cbv iota zeta.
  destruct (Hch {| e_long := L; e_now := now; e_fuel := dfuel; e_phase := ph |} eq_refl) as (q' & Ech & Eq_).
  unfold choose2 in Ech. destruct (find_year [q1; q2] [q1; q2] 0 0) as [yf| | |]; try discriminate. cbn [obind] in Ech |- *.
  rewrite orb_true_r. rewrite Ech. cbn [obind]. rewrite Hy. cbn [obind].
  destruct HS as (HL & _).
  destruct (finish_frac {| e_long := L; e_now := now; e_fuel := dfuel; e_phase := ph |} fmt y' m q' h b jd secs) as (r & -> & Hr); try assumption.
  - now rewrite Eq_.
  - now rewrite Eq_.
  - now rewrite (Qfloor_comp _ _ Eq_).
  - cbn [obind]. exists r. split; [reflexivity|]. rewrite Hr. unfold day_fraction. rewrite (Qfloor_comp _ _ Eq_), Eq_. reflexivity.
Qed.
(** The year already has four digits, or is not to be changed. *)
Lemma plain_year L now dfuel ph fmt y : two_digit_years fmt = false \/ y <= 0 \/ 100 <= y ->
  two_digit_year {| e_long := L; e_now := now; e_fuel := dfuel; e_phase := ph |} fmt false y = Ret y.
Proof.
  intro H. unfold two_digit_year. change (flag fmt TWO_DIGIT_YEAR) with (two_digit_years fmt).
  destruct H as [-> |H]; [rewrite andb_false_r; reflexivity|].
  replace ((0 <? y) && (y <? 100)) with false; [reflexivity|]. symmetry. apply andb_false_iff. rewrite !Z.ltb_ge. lia.
Qed.
(** "mar 5", "5 mar": the year of the starting time. *)
Lemma name_day_ok L now ph t0 txt fmt ms m ds q sep order clk secs d0 m0 y0 jd :
  date_of_start L t0 fmt d0 m0 y0 -> separator sep -> (order = [Month; Day] \/ order = [Day; Month]) ->
  text txt (written sep (tx [] ms ds) order ++ clk) -> clock_suffix clk secs ->
  In (ms, m) month_texts -> day_text ds q -> (1 <= q)%Q -> (q < 32)%Q ->
  two_digit_years fmt = false \/ y0 <= 0 \/ 100 <= y0 ->
  dmy_to_day L (Qfloor q) m y0 (calendar_of fmt) = Ret jd -> jd_ok L jd ->
  reads L now ph t0 txt fmt (instant jd secs + day_fraction q)%Q 0.
Proof.
  intros HS Hsep Ho HT Hc Hm Hd Q1 Q32 Hy Hj Hjd. pose proof (month_range ms m Hm) as Rm.
  pose proof (month_fld ms m Hm) as Fm. pose proof (day_fld ds q Hd) as Fd. pose proof Hd as (Nd & _ & Ld & _).
  pose proof (number_nonneg ds q Nd) as Q0. pose proof (small_vals m ltac:(lia)) as Vm.
  pose proof (small_day q Q0 (Qlt_le_weak _ _ Q32)) as Vd.
  assert (QQ : qlt (999 # 1000) q && qlt q 32 = true).
  { apply andb_true_iff. rewrite !qlt_true. split; [eapply Qlt_le_trans; [|exact Q1]; reflexivity|assumption]. }
  assert (Hq : (q <= 1000)%Q) by (apply Qlt_le_weak; eapply Qlt_trans; [exact Q32|reflexivity]).
  destruct Vm as [Vm0 Vm1], Vd as [Vd0 Vd1].
  destruct Ho as [-> | ->]; unfold written in HT; cbn [map concat tx] in HT; rewrite app_nil_r in HT;
    rewrite <- app_assoc in HT; cbn [app] in HT.
  - eapply (two_reads L now ph t0 txt fmt ms (inject_Z m) true ds q false sep clk secs y0 m0 d0 y0 y0 m q); try eassumption;
      [eapply month_len; eassumption| |intros; now apply plain_year].
    intros E HE. exists q. split; [|reflexivity]. unfold choose2. cbn [find_year]. rewrite Vm0, Vm1, Vd0, Vd1. cbn [obind].
    unfold two_fields. change (negb (1 =? 0)) with true. cbv iota. change (nth_val [inject_Z m; q] (2 - 1)) with (Ret q). change (nth_val [inject_Z m; q] (1 - 1)) with (Ret (inject_Z m)). cbn [obind].
    rewrite to_integer_inject by (unfold IMAX; lia). cbn [obind]. rewrite QQ. reflexivity.
  - eapply (two_reads L now ph t0 txt fmt ds q false ms (inject_Z m) true sep clk secs y0 m0 d0 y0 y0 m q); try eassumption;
      [|intros; now apply plain_year].
    intros E HE. exists q. split; [|reflexivity]. unfold choose2. cbn [find_year]. rewrite Vm0, Vm1, Vd0, Vd1. cbn [obind].
    unfold two_fields. change (negb (2 =? 0)) with true. cbv iota. change (nth_val [q; inject_Z m] (2 - 2)) with (Ret q). change (nth_val [q; inject_Z m] (2 - 1)) with (Ret (inject_Z m)). cbn [obind].
    rewrite to_integer_inject by (unfold IMAX; lia). cbn [obind]. rewrite QQ. reflexivity.
Qed.

(** "mar 2010", "2010 mar": the day of the starting time. *)
Lemma name_year_ok L now ph t0 txt fmt ys y y' ms m sep order clk secs d0 m0 y0 jd :
  date_of_start L t0 fmt d0 m0 y0 -> 0 <= d0 <= 1000 -> separator sep -> (order = [Month; Year] \/ order = [Year; Month]) ->
  text txt (written sep (tx ys ms []) order ++ clk) -> clock_suffix clk secs ->
  In (ms, m) month_texts -> year_text ys y -> 32 <= y -> year_meant now fmt y y' ->
  dmy_to_day L d0 m y' (calendar_of fmt) = Ret jd -> jd_ok L jd ->
  reads L now ph t0 txt fmt (instant jd secs) 0.
Proof.
  intros HS Hd0 Hsep Ho HT Hc Hm (Hy & Ly) H32 HY Hj Hjd. pose proof (month_range ms m Hm) as Rm.
  pose proof (month_fld ms m Hm) as Fm. pose proof (digits_fld ys y Hy) as Fy. pose proof (short_digits ys y Hy Ly) as By.
  pose proof (small_vals m ltac:(lia)) as Vm. destruct Vm as [Vm0 Vm1].
  assert (Y0 : qlt (inject_Z y) 0 = false) by (rewrite qlt_false; apply (inj_le 0); lia).
  assert (QQ : qlt (999 # 1000) (inject_Z y) && qlt (inject_Z y) 32 = false).
  { apply andb_false_iff. right. rewrite qlt_false. apply (inj_le 32). lia. }
  assert (HL : long_ok L) by apply HS.
  assert (HT2 : forall dfuel, two_digit_year {| e_long := L; e_now := now; e_fuel := dfuel; e_phase := ph |} fmt false y = Ret y').
  { intro dfuel. apply two_digit_ok; [assumption|lia|assumption]. }
  eapply reads_eq with (t := (instant jd secs + day_fraction (inject_Z d0))%Q); [rewrite frac_int; ring|].
  assert (D0 : (0 <= inject_Z d0)%Q) by (apply (inj_le 0); lia). assert (D1 : (inject_Z d0 <= 1000)%Q) by (apply (inj_le d0 1000); lia).
  assert (Hj' : dmy_to_day L (Qfloor (inject_Z d0)) m y' (calendar_of fmt) = Ret jd) by now rewrite Qfloor_Z.
  destruct Ho as [-> | ->]; unfold written in HT; cbn [map concat tx] in HT; rewrite app_nil_r in HT;
    rewrite <- app_assoc in HT; cbn [app] in HT.
  - eapply (two_reads L now ph t0 txt fmt ms (inject_Z m) true ys (inject_Z y) false sep clk secs y0 m0 d0 y y' m (inject_Z d0)); try eassumption;
      [eapply month_len; eassumption|].
    intros E HE. exists (inject_Z d0). split; [|reflexivity]. unfold choose2. cbn [find_year]. rewrite Vm0, Vm1, Y0.
    assert (X : exists k, (if qlt 32 (inject_Z y) then Ret (0 + 1 + 1) else Ret 0) = Ret k) by (destruct (qlt 32 (inject_Z y)); eexists; reflexivity).
    change (0 =? 0) with true. cbv iota. destruct X as [k X]. rewrite X. cbn [obind].
    unfold two_fields. change (negb (1 =? 0)) with true. cbv iota. change (nth_val [inject_Z m; inject_Z y] (2 - 1)) with (Ret (inject_Z y)). change (nth_val [inject_Z m; inject_Z y] (1 - 1)) with (Ret (inject_Z m)). cbn [obind].
    rewrite to_integer_inject by (unfold IMAX; lia). cbn [obind]. rewrite QQ.
    rewrite to_integer_inject by (unfold long_ok in HL; rewrite HE; lia). reflexivity.
  - eapply (two_reads L now ph t0 txt fmt ys (inject_Z y) false ms (inject_Z m) true sep clk secs y0 m0 d0 y y' m (inject_Z d0)); try eassumption.
    intros E HE. exists (inject_Z d0). split; [|reflexivity]. unfold choose2. cbn [find_year]. rewrite Vm0, Vm1, Y0.
    assert (X : exists k, (if qlt 32 (inject_Z y) then Ret (0 + 1) else Ret 0) = Ret k) by (destruct (qlt 32 (inject_Z y)); eexists; reflexivity).
    change (0 =? 0) with true. cbv iota. destruct X as [k X]. rewrite X. cbn [obind].
    unfold two_fields. change (negb (2 =? 0)) with true. cbv iota. change (nth_val [inject_Z y; inject_Z m] (2 - 2)) with (Ret (inject_Z y)). change (nth_val [inject_Z y; inject_Z m] (2 - 1)) with (Ret (inject_Z m)). cbn [obind].
    rewrite to_integer_inject by (unfold IMAX; lia). cbn [obind]. rewrite QQ.
    rewrite to_integer_inject by (unfold long_ok in HL; rewrite HE; lia). reflexivity.
Qed.
(** "2010-123": year and day of the year. *)
Lemma year_doy_ok L now ph t0 txt fmt ys y y' ns q sep (swap : bool) clk secs d0 m0 y0 jd :
  date_of_start L t0 fmt d0 m0 y0 -> separator sep ->
  text txt ((if swap then ns ++ sep :: ys else ys ++ sep :: ns) ++ clk) -> clock_suffix clk secs ->
  year_text ys y -> 33 <= y -> number_of ns q -> isdigit (last ns 0) = true -> (List.length ns <= 9)%nat ->
  (q < inject_Z y)%Q -> (q <= 1000)%Q -> year_meant now fmt y y' ->
  dmy_to_day L (Qfloor q) 1 y' (calendar_of fmt) = Ret jd -> jd_ok L jd ->
  reads L now ph t0 txt fmt (instant jd secs + day_fraction q)%Q 0.
Proof.
  intros HS Hsep HT Hc (Hy & Ly) H33 Hn Hl Ln Hqy Hq HY Hj Hjd. pose proof (number_nonneg ns q Hn) as Q0.
  assert (Fn : fld ns q false) by (left; tauto). pose proof (digits_fld ys y Hy) as Fy. pose proof (short_digits ys y Hy Ly) as By.
  destruct (year_vals y H33) as (Y0 & Y1 & Y2). assert (N0 : qlt q 0 = false) by now rewrite qlt_false.
  assert (NY : qlt (inject_Z y) q = false) by (rewrite qlt_false; now apply Qlt_le_weak).
  assert (YN : qlt q (inject_Z y) = true) by now rewrite qlt_true.
  assert (HL : long_ok L) by apply HS.
  assert (HT2 : forall dfuel, two_digit_year {| e_long := L; e_now := now; e_fuel := dfuel; e_phase := ph |} fmt false y = Ret y').
  { intro dfuel. apply two_digit_ok; [assumption|lia|assumption]. }
  destruct swap; rewrite <- app_assoc in HT; cbn [app] in HT.
  - eapply (two_reads L now ph t0 txt fmt ns q false ys (inject_Z y) false sep clk secs y0 m0 d0 y y' 1 q); try eassumption.
    intros E HE. exists q. split; [|reflexivity]. unfold choose2. cbn [find_year]. rewrite Y0, Y1, N0.
    change (nth_val [q; inject_Z y] (0 + 1 - 1)) with (Ret q). cbn [obind]. rewrite YN.
    replace (if qlt 32 q then _ else _) with (@Ret Z 2) by (destruct (qlt 32 q); reflexivity). cbn [obind].
    unfold two_fields. change (negb (0 =? 0)) with false. change (negb (2 =? 0)) with true. cbv iota.
    change (nth_val [q; inject_Z y] (2 - 1)) with (Ret (inject_Z y)). change (nth_val [q; inject_Z y] (2 - 2)) with (Ret q). cbn [obind].
    rewrite to_integer_inject by (unfold long_ok in HL; rewrite HE; lia). reflexivity.
  - eapply (two_reads L now ph t0 txt fmt ys (inject_Z y) false ns q false sep clk secs y0 m0 d0 y y' 1 q); try eassumption.
    intros E HE. exists q. split; [|reflexivity]. unfold choose2. cbn [find_year]. rewrite Y0, Y1, N0.
    change (0 =? 0) with true. cbv iota. change (0 + 1 =? 0) with false. cbv iota.
    change (nth_val [inject_Z y; q] (0 + 1 - 1)) with (Ret (inject_Z y)). cbn [obind]. rewrite NY.
    replace (if qlt 32 q then _ else _) with (@Ret Z 1) by (destruct (qlt 32 q); reflexivity). cbn [obind].
    unfold two_fields. change (negb (0 =? 0)) with false. change (negb (1 =? 0)) with true. cbv iota.
    change (nth_val [inject_Z y; q] (1 - 1)) with (Ret (inject_Z y)). change (nth_val [inject_Z y; q] (2 - 1)) with (Ret q). cbn [obind].
    rewrite to_integer_inject by (unfold long_ok in HL; rewrite HE; lia). reflexivity.
Qed.
(** "5/3", "3/5": day and month in numbers. *)
Lemma day_month_ok L now ph t0 txt fmt ms m ds q sep order clk secs d0 m0 y0 jd :
  date_of_start L t0 fmt d0 m0 y0 -> separator sep -> (order = [Month; Day] \/ order = [Day; Month]) ->
  text txt (written sep (tx [] ms ds) order ++ clk) -> clock_suffix clk secs ->
  month_digits ms m -> m <= last_month fmt -> day_text ds q ->
  (In 46 ds \/ ((inject_Z (last_month fmt + 1) <= q)%Q /\ (q < 32)%Q) \/
   order = if month_first fmt then [Month; Day] else [Day; Month]) ->
  two_digit_years fmt = false \/ y0 <= 0 \/ 100 <= y0 ->
  dmy_to_day L (Qfloor q) m y0 (calendar_of fmt) = Ret jd -> jd_ok L jd ->
  reads L now ph t0 txt fmt (instant jd secs + day_fraction q)%Q 0.
Proof.
  intros HS Hsep Ho HT Hc (Hm & Lm) Hml Hd Hor Hy Hj Hjd. pose proof (digits_bound ms m Hm) as [Rm _].
  pose proof (last_month_range fmt). pose proof (digits_dot ms m Hm) as Dm.
  pose proof (digits_fld ms m Hm) as Fm. pose proof (day_fld ds q Hd) as Fd. pose proof Hd as (Nd & _ & Ld & Q32).
  pose proof (number_nonneg ds q Nd) as Q0. pose proof (small_vals m ltac:(lia)) as [Vm0 Vm1].
  pose proof (small_day q Q0 Q32) as [Vd0 Vd1].
  assert (Hq : (q <= 1000)%Q) by (eapply Qle_trans; [exact Q32|discriminate]).
  pose proof (month_not_day fmt m ltac:(lia)) as Xm. unfold looks_day in Xm.
  assert (NI : has_dot ds = false -> exists z, q = inject_Z z /\ 0 <= z <= 32).
  { intro K. destruct Nd as [(v & Hv & ->)|(a & b & v & _ & _ & E & _)].
    - exists v. split; [reflexivity|]. pose proof (digits_bound ds v Hv). split; [lia|]. rewrite Zle_Qle. exact Q32.
    - exfalso. unfold has_dot in K. assert (In 46 ds) by (rewrite E; apply in_or_app; right; now left).
      apply existsb_in in H0. congruence. }
  assert (HX : has_dot ds = true \/ looks_day fmt q = true \/ order = if flag fmt MONTH_DAY then [Month; Day] else [Day; Month]).
  { destruct Hor as [K|[[K1 K2]|K]]; [left; now apply existsb_in|right; left; now apply day_looks|right; right; exact K]. }
  unfold looks_day in HX. clear Hor.
  destruct Ho as [-> | ->]; unfold written in HT; cbn [map concat tx] in HT; rewrite app_nil_r in HT;
    rewrite <- app_assoc in HT; cbn [app] in HT.
  - eapply (two_reads L now ph t0 txt fmt ms (inject_Z m) false ds q false sep clk secs y0 m0 d0 y0 y0 m q); try eassumption;
      [|intros; now apply plain_year].
    intros E HE. exists q. split; [|reflexivity]. unfold choose2. cbn [find_year]. rewrite Vm0, Vm1, Vd0, Vd1. cbn [obind].
    rewrite Dm. set (mx := max_month (Z.land fmt CALENDAR_MASK)) in *.
    assert (DF : find_day [inject_Z m; q] mx 0 0 (if has_dot ds then 2 else 0) =
                 if has_dot ds || (qlt (inject_Z mx + (1 # 10000)) q && qlt q 32) then 2 else 0).
    { cbn [find_day]. rewrite Xm. destruct (has_dot ds), (qlt (inject_Z mx + (1 # 10000)) q && qlt q 32); reflexivity. }
    rewrite DF. clear DF.
    assert (M : nth_val [inject_Z m; q] 0 = Ret (inject_Z m)) by reflexivity.
    assert (D : nth_val [inject_Z m; q] 1 = Ret q) by reflexivity.
    unfold two_fields. change (negb (0 =? 0)) with false. cbv iota.
    destruct (has_dot ds || (qlt (inject_Z mx + (1 # 10000)) q && qlt q 32)) eqn:Ed.
    + change (negb (2 =? 0)) with true. cbv iota. change (2 - 1) with 1. change (2 - 2) with 0. rewrite D, M. cbn [obind].
      rewrite to_integer_inject by (unfold IMAX; lia). reflexivity.
    + apply orb_false_iff in Ed. destruct Ed as [Ed Ek]. change (negb (0 =? 0)) with false. cbv iota. rewrite M, D. cbn [obind].
      destruct HX as [K|[K|K]]; [congruence|congruence|]. destruct (flag fmt MONTH_DAY); [|discriminate].
      destruct (NI Ed) as (z & Ez & Rz). rewrite Ez.
      rewrite to_integer_inject by (unfold IMAX; lia). cbn [obind]. rewrite to_integer_inject by (unfold IMAX; lia). reflexivity.
  - eapply (two_reads L now ph t0 txt fmt ds q false ms (inject_Z m) false sep clk secs y0 m0 d0 y0 y0 m q); try eassumption;
      [|intros; now apply plain_year].
    intros E HE. exists q. split; [|reflexivity]. unfold choose2. cbn [find_year]. rewrite Vm0, Vm1, Vd0, Vd1. cbn [obind].
    rewrite Dm. set (mx := max_month (Z.land fmt CALENDAR_MASK)) in *.
    assert (DF : find_day [q; inject_Z m] mx 0 0 (if has_dot ds then 1 else 0) =
                 if has_dot ds || (qlt (inject_Z mx + (1 # 10000)) q && qlt q 32) then 1 else 0).
    { cbn [find_day]. rewrite Xm. destruct (has_dot ds), (qlt (inject_Z mx + (1 # 10000)) q && qlt q 32); reflexivity. }
    rewrite DF. clear DF.
    assert (M : nth_val [q; inject_Z m] 1 = Ret (inject_Z m)) by reflexivity.
    assert (D : nth_val [q; inject_Z m] 0 = Ret q) by reflexivity.
    unfold two_fields. change (negb (0 =? 0)) with false. cbv iota.
    destruct (has_dot ds || (qlt (inject_Z mx + (1 # 10000)) q && qlt q 32)) eqn:Ed.
    + change (negb (1 =? 0)) with true. cbv iota. change (1 - 1) with 0. change (2 - 1) with 1. rewrite D, M. cbn [obind].
      rewrite to_integer_inject by (unfold IMAX; lia). reflexivity.
    + apply orb_false_iff in Ed. destruct Ed as [Ed Ek]. change (negb (0 =? 0)) with false. cbv iota. rewrite D, M. cbn [obind].
      destruct HX as [K|[K|K]]; [congruence|congruence|]. destruct (flag fmt MONTH_DAY); [discriminate|].
      destruct (NI Ed) as (z & Ez & Rz). rewrite Ez.
      rewrite to_integer_inject by (unfold IMAX; lia). cbn [obind]. rewrite to_integer_inject by (unfold IMAX; lia). reflexivity.
Qed.
