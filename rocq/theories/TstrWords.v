(** Names alone, times of day alone, FITS times, keywords, phases of the moon. *)
From Coq Require Import QArith Qround Qabs Lia Permutation.
From Coq Require Import Ascii String.
From Verif Require Import CBase CLemmas CStr DateModel DateVocab DateSpec DateFacts DateCount DateJG DateThms TstrModel TstrSpec TstrCopy TstrNum TstrOff TstrDate TstrSplit TstrField TstrThree TstrRoles TstrRead TstrOther TstrForms.
Local Open Scope list_scope.
Local Open Scope Z_scope.

(** ---- names ---- *)
Lemma word_suffix_keyword (P : list Z -> Prop) f clk t : clock_suffix clk t -> P (f ++ []) -> (forall r, P (f ++ 32 :: r)) -> P (f ++ clk).
Proof. intros [[-> _]|(c & -> & _)] H1 H2; [assumption|apply H2]. Qed.
Lemma month_keyword f m clk t : In (f, m) month_texts -> clock_suffix clk t -> no_keyword (f ++ clk).
Proof.
  intros H Hc. apply (word_suffix_keyword no_keyword f clk t Hc).
  - rewrite app_nil_r. intros E t0. unfold month_texts in H. cbn [In] in H.
    repeat (destruct H as [H|H]; [injection H as <- <-; reflexivity|]). destruct H.
  - intro r. eapply month_no_keyword; [eassumption|now left].
Qed.
Lemma name_ordinary f clk t : f <> [] -> (forall c, In c f -> 97 <= c <= 122) -> fin_ok f -> good f = true -> clock_suffix clk t -> ordinary (f ++ clk).
Proof.
  intros Hn Hch Hf Hg Hc. destruct f as [|c r]; [congruence|]. pose proof (Hch c (or_introl eq_refl)) as K.
  apply (fin_ordinary _ c (r ++ clk)); [eapply fin_suffix; eassumption|eapply suffix_good; eassumption|reflexivity|lia|].
  unfold is_sign. rewrite orb_false_iff, !Z.eqb_neq. lia.
Qed.
Lemma letter_no_sep f : (forall c, In c f -> 97 <= c <= 122) -> no_sep f.
Proof. intros H c Hc. specialize (H c Hc). lia. Qed.
Lemma letter_dots c r : 97 <= c <= 122 -> dots_to_slashes (c :: r) = Ret (c :: r).
Proof.
  intro H. unfold dots_to_slashes. rewrite scan_d_none; [reflexivity| | |].
  - unfold isspace. rewrite orb_false_iff, andb_false_iff, Z.eqb_neq, !Z.leb_gt. lia.
  - unfold isdigit. rewrite andb_false_iff, !Z.leb_gt. lia.
  - unfold is_sign. rewrite orb_false_iff, !Z.eqb_neq. lia.
Qed.
Lemma name_dots f r : f <> [] -> (forall c, In c f -> 97 <= c <= 122) -> dots_to_slashes (f ++ r) = Ret (f ++ r).
Proof. destruct f as [|c f]; [congruence|]. intros _ H. cbn [app]. apply letter_dots. apply H. now left. Qed.
Lemma month_alone_ok L now ph t0 txt fmt ms m clk secs d0 m0 y0 jd : date_of_start L t0 fmt d0 m0 y0 -> 0 <= d0 <= 1000 ->
  text txt (ms ++ clk) -> In (ms, m) month_texts -> clock_suffix clk secs ->
  dmy_to_day L d0 m y0 (calendar_of fmt) = Ret jd -> jd_ok L jd ->
  reads L now ph t0 txt fmt (instant jd secs) 0.
Proof.
  intros HS Hd HT Hm Hc Hj Hjd. pose proof (month_nonempty ms m Hm) as Hn. pose proof (month_range ms m Hm) as Rm.
  assert (Hch : forall c, In c ms -> 97 <= c <= 122) by (intros; eapply month_chars; eassumption).
  eapply reads_eq with (t := (instant jd secs + day_fraction (inject_Z d0))%Q); [rewrite frac_int; ring|].
  eapply (single_reads L now ph t0 txt fmt ms clk secs y0 m0 d0 y0 m (inject_Z d0)); try eassumption.
  - eapply name_ordinary; try eassumption; [eapply fin_month; eassumption|eapply month_good; eassumption].
  - eapply month_keyword; eassumption.
  - now apply letter_no_sep.
  - now apply name_dots.
  - intro dfuel. unfold single_field. destruct ms as [|c ms]; [congruence|]. rewrite (month_index _ _ Hm). cbv zeta.
    rewrite (proj2 (Z.eqb_neq m 0)) by lia. reflexivity.
  - apply (inj_le 0). lia.
  - apply (inj_le d0 1000). lia.
  - now rewrite Qfloor_Z.
Qed.

(** ---- days of the week ---- *)
Lemma day_forall (P : list Z -> Z -> bool) s i : In (s, i) day_texts ->
  forallb (fun e => P (fst e) (snd e)) day_texts = true -> P s i = true.
Proof. intros H K. rewrite forallb_forall in K. exact (K _ H). Qed.
Lemma day_facts s i : In (s, i) day_texts -> s <> [] /\ (forall c, In c s -> 97 <= c <= 122) /\ 0 <= i <= 6 /\
  month_name_to_index s = 0 /\ day_of_week_name_to_index s = i /\ good s = true /\ fin_ok s.
Proof.
  intro H. 
  pose proof (day_forall (fun s i => negb (List.length s =? 0)%nat && forallb (fun c => (97 <=? c) && (c <=? 122)) s && (0 <=? i) && (i <=? 6) &&
     (month_name_to_index s =? 0) && (day_of_week_name_to_index s =? i) && good s) s i H ltac:(vm_compute; reflexivity)) as K.
  cbv beta in K. rewrite !andb_true_iff, !Z.eqb_eq, !Z.leb_le in K. destruct K as ((((((K1 & K2) & K3) & K4) & K5) & K6) & K7).
  split; [intros ->; discriminate|]. split.
  { intros c Hc. rewrite forallb_forall in K2. specialize (K2 c Hc). rewrite andb_true_iff, !Z.leb_le in K2. exact K2. }
  repeat (split; [assumption || lia|]).
  unfold day_texts in H. cbn [In] in H.
  repeat (destruct H as [H|H]; [injection H as <- <-|]); [..|destruct H];
  match goal with |- fin_ok ?w => let r := eval vm_compute in (removelast w) in let y := eval vm_compute in (last w 0) in
    let r' := eval vm_compute in (removelast r) in let x := eval vm_compute in (last r 0) in
    exists r, y; split; [reflexivity|]; repeat split; try lia; right; exists r', x; split; [reflexivity|lia] end.
Qed.
Lemma day_keyword f i clk t : In (f, i) day_texts -> clock_suffix clk t -> no_keyword (f ++ clk).
Proof.
  intros H Hc. apply (word_suffix_keyword no_keyword f clk t Hc).
  - rewrite app_nil_r. intros E t0. unfold day_texts in H. cbn [In] in H.
    repeat (destruct H as [H|H]; [injection H as <- <-; reflexivity|]). destruct H.
  - intros r E t0. unfold day_texts in H. cbn [In] in H.
    repeat (destruct H as [H|H]; [injection H as <- <-; reflexivity|]). destruct H.
Qed.
Lemma date_shift L t0 fmt d m y s : date_of_start L t0 fmt d m y -> rule_cal (calendar_of fmt) -> -3 <= s <= 3 ->
  1 <= d <= 127 /\ dmy_to_day L (d + s) m y (calendar_of fmt) = Ret (day_of t0 + s).
Proof.
  intros (HL & Hj & HR) Hc Hs.
  destruct (result_facts L _ _ d m y HL (or_introl (conj Hc Hj)) HR) as (Hy & Hm & Hd & E).
  pose proof (lenA_bound L _ m y Hy). split; [lia|].
  rewrite dmy_to_dayA by (try assumption; lia). f_equal. unfold dayA in *. lia.
Qed.
Lemma floor_add_int q z : Qfloor (q + inject_Z z) = Qfloor q + z.
Proof.
  destruct q as [n d]. unfold Qplus, inject_Z, Qfloor. cbn [Qnum Qden]. rewrite Pos.mul_1_r, Z.mul_1_r. now rewrite Z.div_add by lia.
Qed.
Lemma week_shift t0 i : (- (13 # 2) <= t0)%Q -> 0 <= i <= 6 ->
  let d := trunc (t0 + (13 # 2)) in
  let s0 := i - Z.rem d 7 in
  let s := if s0 <? -3 then s0 + 7 else if 3 <? s0 then s0 - 7 else s0 in
  d = day_of t0 - 2451539 /\ -3 <= s <= 3 /\ weekday (day_of t0 + s) = i.
Proof.
  intros Ht Hi d s0 s. assert (Hq : (0 <= t0 + (13 # 2))%Q).
  { apply Qplus_le_l with (- (13 # 2))%Q. ring_simplify. ring_simplify in Ht. exact Ht. }
  assert (Ed : d = day_of t0 - 2451539).
  { unfold d. rewrite trunc_floor by assumption. unfold day_of.
    assert (E : (t0 + (13 # 2) == (t0 + (1 # 2)) + inject_Z 6)%Q) by (change (inject_Z 6) with (6#1); ring).
    rewrite (Qfloor_comp _ _ E). rewrite floor_add_int. lia. }
  split; [assumption|].
  assert (D0 : 0 <= d). { unfold d. rewrite trunc_floor by assumption. change 0 with (Qfloor 0). now apply Qfloor_resp_le. }
  assert (Er : Z.rem d 7 = (day_of t0 + 1) mod 7).
  { rewrite Z.rem_mod_nonneg by lia. rewrite Ed. replace (day_of t0 - 2451539) with (day_of t0 + 1 + (-350220) * 7) by lia.
    now rewrite Z.mod_add by lia. }
  pose proof (Z.mod_pos_bound (day_of t0 + 1) 7 ltac:(lia)) as B. unfold s, s0. rewrite Er. clear s s0. set (w := (day_of t0 + 1) mod 7) in *.
  assert (Ew : day_of t0 + 1 = 7 * ((day_of t0 + 1) / 7) + w) by (apply Z.div_mod; lia).
  unfold weekday. destruct (i - w <? -3) eqn:E1; [apply Z.ltb_lt in E1|apply Z.ltb_ge in E1; destruct (3 <? i - w) eqn:E2; [apply Z.ltb_lt in E2|apply Z.ltb_ge in E2]];
    (split; [lia|]); symmetry.
  - apply (Z.mod_unique _ 7 ((day_of t0 + 1) / 7 + 1)); [left; lia|lia].
  - apply (Z.mod_unique _ 7 ((day_of t0 + 1) / 7 - 1)); [left; lia|lia].
  - apply (Z.mod_unique _ 7 ((day_of t0 + 1) / 7)); [left; lia|lia].
Qed.

Lemma single_reads_int L now ph t0 txt fmt a clk t y0 m0 d0 y m q z jd :
  date_of_start L t0 fmt d0 m0 y0 -> text txt (a ++ clk) -> ordinary (a ++ clk) -> no_keyword (a ++ clk) ->
  a <> [] -> no_sep a -> dots_to_slashes (a ++ clk) = Ret (a ++ clk) -> clock_suffix clk t ->
  (forall dfuel, single_field {| e_long := L; e_now := now; e_fuel := dfuel; e_phase := ph |} t0 0 a 0 y0 m0 (inject_Z d0) = Ret (inr (y, m, q))) ->
  trunc q = z -> (q == inject_Z z)%Q -> -1000 <= z <= 1000 -> dmy_to_day L z m y (calendar_of fmt) = Ret jd -> jd_ok L jd ->
  reads L now ph t0 txt fmt (instant jd t) 0.
Proof.
  intros HS HT Ho Hk Ha Hs Hd Hc HP Qt Qz Q1 Hj Hjd. destruct (split_date L t0 fmt d0 m0 y0 HS) as (N & HN).
  exists (S (S N)). intros fuel dfuel Hf Hdf. destruct fuel as [|[|fuel]]; [lia|lia|].
  rewrite (run_date fuel _ t0 txt _ fmt HT Ho Hk).
  destruct (HN now ph dfuel ltac:(lia)) as (h0 & mi & sec & Es).
  destruct (single_run L now dfuel ph t0 fmt a clk t y0 m0 d0 h0 mi sec Ha Hs Hd ltac:(apply Ho) Hc Es) as (h & b & Hh & Ht & ->).
  rewrite HP. cbn [obind go]. destruct HS as (HL & _). unfold finish. cbn [obind e_long]. unfold to_integer. rewrite Qt.
  rewrite chk_ok by (unfold fits, IMAX; lia). cbn [obind]. rewrite Hj. cbn [obind]. unfold jd_ok, long_ok in *.
  rewrite ev_val by (cbn [safe val]; unfold fits; repeat split; lia). cbn [obind val].
  rewrite ev_val by (cbn [safe val]; unfold fits, IMAX; repeat split; lia). cbn [obind val].
  eexists. split; [reflexivity|]. unfold instant. rewrite <- Ht, Qz. ring.
Qed.
Lemma weekday_ok L now ph t0 txt fmt ws i clk secs :
  long_ok L -> jd_ok L (day_of t0) -> (forall k, -3 <= k <= 3 -> jd_ok L (day_of t0 + k)) -> rule_cal (calendar_of fmt) ->
  (- (13 # 2) <= t0)%Q -> text txt (ws ++ clk) -> In (ws, i) day_texts -> clock_suffix clk secs ->
  exists jd, weekday jd = i /\ -3 <= jd - day_of t0 <= 3 /\ reads L now ph t0 txt fmt (instant jd secs) 0.
Proof.
  intros HL Hj Hjk Hcal Ht HT Hw Hc. destruct (day_facts ws i Hw) as (F1 & F2 & F3 & F4 & F5 & F6 & F7).
  destruct (C01_jd_to_date_and_back_proof L (day_of t0) (calendar_of fmt) HL Hj (or_introl Hcal)) as ((d0 & m0 & y0 & HR) & _).
  assert (HS : date_of_start L t0 fmt d0 m0 y0) by (repeat split; assumption).
  pose proof (week_shift t0 i Ht F3) as W. cbv zeta in W. destruct W as (Wd & Ws & Ww).
  set (s := if i - Z.rem (trunc (t0 + (13 # 2))) 7 <? -3 then _ else _) in *.
  destruct (date_shift L t0 fmt d0 m0 y0 s HS Hcal Ws) as [D0 Dj].
  exists (day_of t0 + s). split; [assumption|]. split; [lia|].
  eapply (single_reads_int L now ph t0 txt fmt ws clk secs y0 m0 d0 y0 m0 (inject_Z d0 + inject_Z s)%Q (d0 + s)); try eassumption.
  - eapply name_ordinary; eassumption.
  - eapply day_keyword; eassumption.
  - now apply letter_no_sep.
  - now apply name_dots.
  - intro dfuel. unfold single_field. destruct ws as [|c ws]; [congruence|]. rewrite F4. cbv zeta. change (negb (0 =? 0)) with false. cbv iota.
    rewrite F5. rewrite (proj2 (Z.leb_le 0 i)) by lia. unfold to_integer. cbn [e_long].
    rewrite chk_ok by (rewrite Wd; unfold fits, jd_ok, long_ok in *; lia). reflexivity.
  - unfold trunc, Qplus, inject_Z. cbn [Qnum Qden]. rewrite !Z.mul_1_r. apply Z.quot_1_r.
  - now rewrite inject_Z_plus.
  - lia.
  - apply Hjk. lia.
Qed.

(** ---- a time of day alone ---- *)
Lemma clock_only s t h mi sec : clock_text s t -> exists h' b, clock s 0 h mi sec = Ret ([], h', 0, b) /\
    0 <= h' < 10000 /\ (inject_Z (h' * 60 + 0) / 1440 + b / 86400 == t / 86400)%Q.
Proof.
  intro H. destruct (clock_chars s t H) as (Hn & Hc & H58 & Hd & _).
  destruct (scan_clock s t H) as (hv & a & b & Es & Hh & Ht).
  exists hv, (b + a * 60)%Q. split; [|split; assumption].
  unfold clock. rewrite span_all by (intros x Hx; apply clock_char_in; apply Hc; now apply in_rev). rewrite rev_length.
  rewrite Nat.sub_diag. cbn [skipn]. cbv zeta. rewrite (proj2 (existsb_in 58 s) H58).
  destruct s as [|c r]; [congruence|]. cbn [hd] in Hd. apply digit_range in Hd.
  replace (streq (c :: r) (zs ":")) with false.
  2:{ symmetry. change (zs ":") with [58]. cbn [streq]. rewrite (proj2 (Z.eqb_neq c 58)) by lia. reflexivity. }
  assert (M : match c :: r with 58 :: r0 => do '(dminute, s0) <- scan_lf_lf r0 0 0; Ret (h, 0, (s0 + dminute * 60)%Q)
     | _ => do '(h1, dminute, s0) <- scan_d_lf_lf (c :: r); do h2 <- Ret h1; Ret (h2, 0, (s0 + dminute * 60)%Q) end =
     Ret (hv, 0, (b + a * 60)%Q)).
  { rewrite Es. cbn [obind]. assert (K : c = 48 \/ c = 49 \/ c = 50 \/ c = 51 \/ c = 52 \/ c = 53 \/ c = 54 \/ c = 55 \/ c = 56 \/ c = 57) by lia.
    repeat (destruct K as [->|K]; [reflexivity|]). subst c. reflexivity. }
  change (0 =? 1) with false. change (0 =? 2) with false. cbv iota. rewrite M. reflexivity.
Qed.
Lemma day_bounds L t0 fmt d m y : date_of_start L t0 fmt d m y -> rule_cal (calendar_of fmt) \/ calendar_of fmt = CALENDAR_JULIAN_GREGORIAN ->
  0 <= d <= 1000 /\ dmy_to_day L d m y (calendar_of fmt) = Ret (day_of t0).
Proof.
  intros HS Hc. pose proof HS as (HL & Hj & HR).
  destruct (C01_jd_to_date_and_back_proof L (day_of t0) (calendar_of fmt) HL Hj Hc) as (_ & HB).
  split; [|now apply HB]. destruct Hc as [Hc|Hc].
  - destruct (date_shift L t0 fmt d m y 0 HS Hc ltac:(lia)) as [K _]. lia.
  - rewrite Hc in HR. destruct (jg_day_ok L (day_of t0) HL Hj) as (d' & m' & y' & Hr & Hy & Hv & _).
    pose proof (dmy_result_unique _ _ _ _ _ _ _ _ _ HR Hr) as E. injection E as -> -> ->.
    destruct Hv as [[[K1 K2] _]|[[K1 K2] _]].
    + rewrite julian_len in K2 by assumption. pose proof (lenA_bound L _ m' y' (jdom L y' Hy)). lia.
    + rewrite gregorian_len in K2 by assumption. pose proof (lenA_bound L _ m' y' (gdom L y' Hy)). lia.
Qed.
Lemma clock_alone_ok L now ph t0 txt fmt clk secs :
  long_ok L -> jd_ok L (day_of t0) -> rule_cal (calendar_of fmt) \/ calendar_of fmt = CALENDAR_JULIAN_GREGORIAN ->
  text txt clk -> clock_text clk secs ->
  reads L now ph t0 txt fmt (instant (day_of t0) secs) 0.
Proof.
  intros HL Hj Hcal HT Hc.
  destruct (C01_jd_to_date_and_back_proof L (day_of t0) (calendar_of fmt) HL Hj Hcal) as ((d0 & m0 & y0 & HR) & _).
  assert (HS : date_of_start L t0 fmt d0 m0 y0) by (repeat split; assumption).
  destruct (day_bounds L t0 fmt d0 m0 y0 HS Hcal) as [D0 Dj].
  destruct (split_date L t0 fmt d0 m0 y0 HS) as (N & HN).
  destruct (clock_chars clk secs Hc) as (Hn & Hch & H58 & Hd & Hl).
  assert (P : plain_first clk) by (intros x Hx; specialize (Hch x Hx); unfold clock_char, num_char in Hch; lia).
  destruct clk as [|c r]; [congruence|]. cbn [hd] in Hd. pose proof Hd as Hd'. apply digit_range in Hd'.
  exists (S (S N)). intros fuel dfuel Hf Hdf. destruct fuel as [|[|fuel]]; [lia|lia|].
  rewrite (run_date fuel _ t0 txt _ fmt HT).
  2:{ apply (fin_ordinary _ c r); [now apply (fin_clock _ secs)|now apply good_plain|reflexivity|lia|].
      unfold is_sign. rewrite orb_false_iff, !Z.eqb_neq. lia. }
  2:{ apply num_no_keyword. left. exact Hd'. }
  destruct (HN now ph dfuel ltac:(lia)) as (h0 & mi & sec & Es).
  destruct (clock_only (c :: r) secs h0 mi sec Hc) as (h & b & Ec & Hh & Ht).
  unfold date_and_time.
  assert (Ed : dots_to_slashes (c :: r) = Ret (c :: r)).
  { destruct Hc as (hh & hv & mm & mv & Hh1 & _ & Hl4 & Hx).
    assert (X : exists rest, c :: r = hh ++ 58 :: rest) by (destruct Hx as [[-> _]|(x & xv & _ & -> & _)]; eexists; reflexivity).
    destruct X as [rest ->]. unfold dots_to_slashes. pose proof (short_digits hh hv Hh1 ltac:(lia)).
    rewrite (scan_d_num IMAX hh hv (58 :: rest) Hh1 eq_refl) by (unfold IMAX; lia). reflexivity. }
  rewrite Ed. cbn [obind]. rewrite Es. cbn [obind].
  rewrite no_dash_fits by (intro K; specialize (Hch _ K); unfold clock_char, num_char in Hch; lia).
  cbn [obind]. rewrite am_pm_plain by now apply good_plain. rewrite Ec. cbn [obind]. cbv zeta.
  change (at_ [] (Z.of_nat 0)) with (@Ret Z 0). cbn [obind]. change (0 =? 58) with false. change (0 =? 0) with true. cbv iota.
  unfold single_field. cbn [obind].
  destruct (finish_ok {| e_long := L; e_now := now; e_fuel := dfuel; e_phase := ph |} fmt y0 m0 d0 h b (day_of t0) secs) as (q & Eq_ & Hq); try assumption.
  change (Z.land fmt CALENDAR_MASK) with (calendar_of fmt). rewrite Eq_. cbn [obind]. exists q. split; [reflexivity|assumption].
Qed.
