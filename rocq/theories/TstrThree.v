(** A date in three fields, with or without a time of day. *)
From Coq Require Import QArith Qround Lia Permutation.
From Coq Require Import Ascii String.
From Verif Require Import CBase CLemmas CStr DateModel DateVocab TstrModel TstrSpec TstrCopy TstrNum TstrOff TstrDate TstrSplit TstrField.
Local Open Scope list_scope.
Local Open Scope Z_scope.

(** ---- dots_to_slashes leaves it alone ---- *)
Lemma scan_d_none L c r : isspace c = false -> isdigit c = false -> is_sign c = false -> scan_d L (c :: r) = Ret None.
Proof.
  intros H1 H2 H3. unfold scan_d, skip_ws. cbn [span]. rewrite H1. cbn [skipn].
  assert (E : sign_of (c :: r) = (false, c :: r)).
  { unfold is_sign in H3. rewrite orb_false_iff, !Z.eqb_neq in H3. unfold sign_of.
    destruct c as [|p|p]; try reflexivity. do 6 (destruct p as [p|p|]; try reflexivity); lia. }
  rewrite E. cbn [span]. rewrite H2. reflexivity.
Qed.
Lemma lit_ne c d r : c <> d -> lit d (c :: r) = None.
Proof. intro H. unfold lit. now rewrite (proj2 (Z.eqb_neq c d) H). Qed.
Lemma short_digits s v : digits_of s v -> (List.length s <= 9)%nat -> 0 <= v < 1000000000.
Proof.
  intros H Hl. pose proof (digits_bound s v H). split; [lia|].
  assert (10 ^ Z.of_nat (List.length s) <= 10 ^ 9) by (apply Z.pow_le_mono_r; lia). lia.
Qed.
Lemma sep_nodigit s : date_sep s -> isdigit s = false /\ s <> 46.
Proof. intros [->|[->| ->]]; split; (reflexivity || lia). Qed.
Lemma dots_same f1 q1 m1 s rest : fld f1 q1 m1 -> (List.length f1 <= 9)%nat -> date_sep s ->
  dots_to_slashes (f1 ++ s :: rest) = Ret (f1 ++ s :: rest).
Proof.
  intros F Hl Hs. destruct (sep_nodigit s Hs) as [Sd S46].
  destruct F as [(_ & [(v & H & _)|(a & b & v & Hd & Hn & -> & _)] & Hla)|(_ & m & H & _)].
  - unfold dots_to_slashes. pose proof (short_digits f1 v H Hl).
    rewrite (scan_d_num IMAX f1 v (s :: rest) H Sd) by (unfold IMAX; lia). cbn [obind].
    now rewrite lit_ne.
  - rewrite app_length in Hl. cbn [List.length] in Hl. rewrite <- app_assoc. cbn [app].
    destruct a as [|c a].
    { unfold dots_to_slashes. cbn [app]. rewrite scan_d_none by reflexivity. reflexivity. }
    assert (Ha : digits_of (c :: a) (dig_val 0 (c :: a))).
    { split; [discriminate|]. split; [|reflexivity]. intros x Hx. apply Hd. apply in_or_app. now left. }
    assert (Hb : digits_of b (dig_val 0 b)).
    { split; [|split; [|reflexivity]].
      - intros ->. rewrite last_last in Hla. discriminate.
      - intros x Hx. apply Hd. apply in_or_app. now right. }
    pose proof (short_digits _ _ Ha ltac:(lia)). pose proof (short_digits _ _ Hb ltac:(lia)).
    unfold dots_to_slashes. rewrite (scan_d_num IMAX (c :: a) _ (46 :: b ++ s :: rest) Ha eq_refl) by (unfold IMAX; lia).
    cbn [obind]. rewrite lit_same. rewrite (scan_d_num IMAX b _ (s :: rest) Hb Sd) by (unfold IMAX; lia).
    cbn [obind]. now rewrite lit_ne.
  - pose proof (month_nonempty f1 m H). destruct f1 as [|c f1]; [congruence|]. unfold dots_to_slashes. cbn [app].
    pose proof (month_chars (c :: f1) m c H (or_introl eq_refl)).
    rewrite scan_d_none; [reflexivity| | |].
    + unfold isspace. rewrite orb_false_iff, andb_false_iff, Z.eqb_neq, !Z.leb_gt. lia.
    + unfold isdigit. rewrite andb_false_iff, !Z.leb_gt. lia.
    + unfold is_sign. rewrite orb_false_iff, !Z.eqb_neq. lia.
Qed.

(** ---- the text is ordinary ---- *)
Definition fin_ok (w : list Z) : Prop :=
  exists p y, w = p ++ [y] /\ y <> 32 /\ y <> 109 /\ y <> 113 /\
    (strchr (zs "smhdwlyc") y = false \/ exists p' x, p = p' ++ [x] /\ x <> 32).
Lemma fin_app p w : fin_ok w -> fin_ok (p ++ w).
Proof.
  intros (p0 & y & -> & H1 & H2 & H3 & H4). exists (p ++ p0), y. rewrite <- app_assoc. repeat split; try assumption.
  destruct H4 as [H4|(p' & x & -> & H4)]; [now left|right]. exists (p ++ p'), x. now rewrite app_assoc.
Qed.
Lemma fin_digit w : w <> [] -> (isdigit (last w 0) = true \/ last w 0 = 46) -> fin_ok w.
Proof.
  intros Hn H. destruct (exists_last Hn) as (p & y & ->). rewrite last_last in H. exists p, y.
  rewrite digit_range in H. repeat split; try lia. left.
  unfold strchr. cbn [zs existsb]. repeat (rewrite (proj2 (Z.eqb_neq y _)) by (vm_compute; lia)). reflexivity.
Qed.
Lemma fin_month w m : In (w, m) month_texts -> fin_ok w.
Proof.
  intro H. unfold month_texts in H. cbn [In] in H.
  repeat (destruct H as [H|H]; [injection H as <- <-|]); [..|destruct H];
  match goal with |- fin_ok ?w => let r := eval vm_compute in (removelast w) in let y := eval vm_compute in (last w 0) in
    let r2 := eval vm_compute in (removelast r) in let x := eval vm_compute in (last r 0) in
    exists r, y; split; [reflexivity|]; repeat split; try lia; right; exists r2, x; split; [reflexivity|lia] end.
Qed.
Lemma fin_fld f q mo : fld f q mo -> fin_ok f.
Proof.
  intro F. pose proof (proj1 (fld_chars f q mo F)) as Hn.
  destruct F as [(_ & _ & H)|(_ & m & H & _)]; [apply fin_digit; tauto|eapply fin_month; eassumption].
Qed.
Lemma fin_clock s t : clock_text s t -> fin_ok s.
Proof. intro H. destruct (clock_chars s t H) as (Hn & _ & _ & _ & Hl). now apply fin_digit. Qed.
Lemma fin_suffix f clk t : fin_ok f -> clock_suffix clk t -> fin_ok (f ++ clk).
Proof.
  intros Hf [[-> _]|(c & -> & H)]; [now rewrite app_nil_r|]. apply fin_app.
  change (32 :: c) with ([32] ++ c). apply fin_app. eapply fin_clock; eassumption.
Qed.
Lemma fin_no_phase s : fin_ok s -> no_phase_end s.
Proof.
  intros (p & y & -> & _ & H1 & H2 & _). unfold no_phase_end. rewrite rev_app_distr. cbn [rev app].
  destruct (rev p) as [|a r]; [exact I|]. unfold get_phase_idx.
  rewrite !(proj2 (Z.eqb_neq y _)) by assumption. now rewrite !andb_false_r.
Qed.
Lemma fin_no_offset s : fin_ok s -> is_sign (hd 0 s) = false -> no_offset_end s.
Proof.
  intros (p & y & -> & _ & _ & _ & H) Hs. split; [assumption|].
  rewrite last_last. destruct H as [H|(p' & x & -> & H)]; [now left|right].
  rewrite !rev_app_distr. cbn [rev app tl hd]. assumption.
Qed.
Lemma fin_ordinary s c r : fin_ok s -> good s = true -> s = c :: r -> c <> 32 -> is_sign c = false -> ordinary s.
Proof.
  intros Hf Hg E Hc Hs. repeat split; try assumption.
  - now rewrite E.
  - destruct Hf as (p & y & -> & H & _). now rewrite last_last.
  - now rewrite E.
  - now rewrite E.
  - apply fin_no_offset; [assumption|]. now rewrite E.
  - now apply fin_no_phase.
Qed.
Lemma suffix_good f clk t : good f = true -> clock_suffix clk t -> good (f ++ clk) = true.
Proof.
  intros Hg [[-> _]|(c & -> & H)]; [now rewrite app_nil_r|]. apply good_sep; [now left|assumption|].
  apply good_plain. intros x Hx. destruct (clock_chars c t H) as (_ & K & _). specialize (K x Hx).
  unfold clock_char, num_char in K. lia.
Qed.
Lemma date_sep_char s : date_sep s -> sep_char s.
Proof. unfold date_sep, sep_char. tauto. Qed.
Lemma three_ordinary f1 q1 m1 f2 q2 m2 f3 q3 m3 s clk t : fld f1 q1 m1 -> fld f2 q2 m2 -> fld f3 q3 m3 -> date_sep s ->
  clock_suffix clk t -> ordinary (f1 ++ s :: f2 ++ s :: f3 ++ clk).
Proof.
  intros F1 F2 F3 Hs Hc. destruct (fld_chars f1 q1 m1 F1) as [N1 C1]. destruct f1 as [|c f1]; [congruence|].
  assert (K : fld_char c) by (apply C1; now left).
  apply (fin_ordinary _ c (f1 ++ s :: f2 ++ s :: f3 ++ clk)); [| |reflexivity|apply char_no_space; assumption|].
  - replace ((c :: f1) ++ s :: f2 ++ s :: f3 ++ clk) with (((c :: f1) ++ s :: f2 ++ [s]) ++ f3 ++ clk)
      by (rewrite <- app_assoc; cbn [app]; rewrite <- app_assoc; reflexivity).
    apply fin_app. eapply fin_suffix; [eapply fin_fld; eassumption|eassumption].
  - apply good_sep; [now apply date_sep_char|eapply fld_good; eassumption|].
    apply good_sep; [now apply date_sep_char|eapply fld_good; eassumption|].
    eapply suffix_good; [eapply fld_good; eassumption|eassumption].
  - unfold fld_char, num_char in K. unfold is_sign. rewrite orb_false_iff, !Z.eqb_neq. lia.
Qed.

(** ---- no keyword ---- *)
Lemma num_no_keyword c r : num_char c -> no_keyword (c :: r).
Proof.
  intros H E t0. unfold num_char in H.
  assert (K : c = 46 \/ c = 48 \/ c = 49 \/ c = 50 \/ c = 51 \/ c = 52 \/ c = 53 \/ c = 54 \/ c = 55 \/ c = 56 \/ c = 57) by lia.
  repeat (destruct K as [->|K]; [reflexivity|]). subst c. reflexivity.
Qed.
Lemma month_no_keyword f m s r : In (f, m) month_texts -> date_sep s -> no_keyword (f ++ s :: r).
Proof.
  intros H Hs E t0. unfold month_texts in H. cbn [In] in H.
  destruct Hs as [->|[->| ->]];
  (repeat (destruct H as [H|H]; [injection H as <- <-; reflexivity|]); destruct H).
Qed.
Lemma fld_no_keyword f q mo s r : fld f q mo -> date_sep s -> no_keyword (f ++ s :: r).
Proof.
  intros [(_ & H & _)|(_ & m & H & _)] Hs.
  - destruct (number_first f q H) as (c & t & -> & Hc). now apply num_no_keyword.
  - eapply month_no_keyword; eassumption.
Qed.

(** ---- from the text to the fields ---- *)
Lemma three_fields_run L now dfuel ph t0 fmt f1 q1 m1 f2 q2 m2 f3 q3 m3 s clk t :
  fld f1 q1 m1 -> fld f2 q2 m2 -> fld f3 q3 m3 -> date_sep s -> (List.length f1 <= 9)%nat -> clock_suffix clk t ->
  (exists y m d h mi sec, split_time {| e_long := L; e_now := now; e_fuel := dfuel; e_phase := ph |} t0 (Z.land fmt CALENDAR_MASK)
    = Ret (y, m, d, h, mi, sec)) ->
  exists h b y0 d0, 0 <= h < 10000 /\ (inject_Z (h * 60 + 0) / 1440 + b / 86400 == t / 86400)%Q /\
    date_and_time {| e_long := L; e_now := now; e_fuel := dfuel; e_phase := ph |} t0 fmt (f1 ++ s :: f2 ++ s :: f3 ++ clk) false 0 0 =
    (do '(y, m, dd, u) <- date_fields {| e_long := L; e_now := now; e_fuel := dfuel; e_phase := ph |} fmt
                            (f1 ++ s :: f2 ++ s :: f3) (List.length f1) s 0 false y0 d0;
     do r <- finish {| e_long := L; e_now := now; e_fuel := dfuel; e_phase := ph |} (calendar_of fmt) false y m dd h 0 b 0;
     Ret (r, u)).
Proof.
  intros F1 F2 F3 Hs L1 Hc (y & m & d & h0 & mi & sec & Es).
  set (date := f1 ++ s :: f2 ++ s :: f3).
  assert (ED : f1 ++ s :: f2 ++ s :: f3 ++ clk = date ++ clk).
  { unfold date. rewrite <- app_assoc. cbn [app]. rewrite <- app_assoc. reflexivity. }
  assert (N58 : ~ In 58 date).
  { assert (X : ~ fld_char 58) by (unfold fld_char, num_char; lia).
    unfold date. intro K. apply in_app_or in K. destruct K as [K|[K|K]]; [exact (fld_no _ _ _ 58 F1 X K)|unfold date_sep in Hs; lia|].
    apply in_app_or in K. destruct K as [K|[K|K]]; [exact (fld_no _ _ _ 58 F2 X K)|unfold date_sep in Hs; lia|exact (fld_no _ _ _ 58 F3 X K)]. }
  destruct (clock_any date clk t h0 mi sec Hc N58) as (h & b & Ec & Hh & Ht).
  exists h, b, y, (inject_Z d). split; [assumption|]. split; [assumption|].
  unfold date_and_time. rewrite (dots_same f1 q1 m1 s (f2 ++ s :: f3 ++ clk)) by assumption. cbn [obind]. rewrite Es. cbn [obind].
  rewrite (date_not_fits f1 q1 m1 f2 q2 m2 f3 q3 m3 s clk t) by assumption. cbn [obind].
  rewrite am_pm_plain by (destruct (three_ordinary f1 q1 m1 f2 q2 m2 f3 q3 m3 s clk t) as (G & _); assumption).
  rewrite ED, Ec. cbn [obind].
  destruct (fld_chars f1 q1 m1 F1) as [N1 C1]. destruct f1 as [|c g1]; [congruence|].
  assert (Ei : match date with [] => O | _ :: r => S (span (fun c => negb (is_sep c)) r) end = List.length (c :: g1)).
  { unfold date. cbn [app List.length]. f_equal. apply span_stop.
    - intros x Hx. assert (K : fld_char x) by (apply C1; now right). unfold fld_char, num_char in K.
      unfold is_sep, strchr. cbn [zs existsb]. repeat (rewrite (proj2 (Z.eqb_neq x _)) by (vm_compute; lia)). reflexivity.
    - destruct Hs as [->|[->| ->]]; reflexivity. }
  cbv zeta. rewrite Ei.
  assert (Ea : at_ date (Z.of_nat (List.length (c :: g1))) = Ret s).
  { rewrite at_nth by (unfold date; rewrite app_length; cbn [List.length]; lia).
    rewrite Nat2Z.id. unfold date. rewrite app_nth2 by lia. now rewrite Nat.sub_diag. }
  rewrite Ea. cbn [obind].
  assert (Em : match date with [] => 0 | _ => s end = s) by reflexivity. rewrite Em.
  replace (s =? 58) with false by (symmetry; apply Z.eqb_neq; unfold date_sep in Hs; lia).
  replace (s =? 0) with false by (symmetry; apply Z.eqb_neq; unfold date_sep in Hs; lia).
  reflexivity.
Qed.
