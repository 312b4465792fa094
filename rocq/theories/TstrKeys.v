(** FITS times, keywords, phases of the moon, and texts that go wrong. *)
From Coq Require Import QArith Qround Qabs Lia Permutation.
From Coq Require Import Ascii String.
From Verif Require Import CBase CLemmas CStr DateModel DateVocab DateThms TstrModel TstrSpec TstrCopy TstrNum TstrOff TstrDate TstrSplit TstrField TstrThree TstrRoles TstrRead TstrOther TstrForms TstrWords.
Local Open Scope list_scope.
Local Open Scope Z_scope.

(** ---- FITS ---- *)
Lemma scan_d_num' L s v c r : digits_of s v -> isdigit c = false -> 0 <= v <= L -> scan_d L (s ++ c :: r) = Ret (Some (v, c :: r)).
Proof. intros H Hc Hv. now apply scan_d_num. Qed.
Lemma digits_no s v c : digits_of s v -> isdigit c = false -> ~ In c s.
Proof. intros (_ & H & _) Hc K. specialize (H c K). congruence. Qed.
Lemma nth_after {A} (a r : list A) k d : (List.length a <= k)%nat -> nth k (a ++ r) d = nth (k - List.length a) r d.
Proof. intro H. now rewrite app_nth2. Qed.
Lemma fits_ok L now ph t0 txt fmt ys y ms m ds d clk secs jd : start_ok L t0 fmt ->
  text txt (ys ++ 45 :: ms ++ 45 :: ds ++ zs " t " ++ clk) ->
  digits_of ys y -> digits_of ms m -> digits_of ds d ->
  List.length ys = 4%nat -> List.length ms = 2%nat -> List.length ds = 2%nat ->
  clock_text clk secs -> (6 <= List.length clk)%nat -> nth 2 clk 0 = 58 ->
  dmy_to_day L d m y (calendar_of fmt) = Ret jd -> jd_ok L jd ->
  reads L now ph t0 txt fmt (instant jd secs) 0.
Proof.
  intros HS HT Hy Hm Hd Ly Lm Ld Hc Lc Nc Hj Hjd.
  destruct (split_some L t0 fmt HS) as (N & HN). exists (S (S N)). intros fuel dfuel Hf Hdf.
  destruct fuel as [|[|fuel]]; [lia|lia|].
  set (date := ys ++ 45 :: ms ++ 45 :: ds ++ zs " t").
  assert (EN : ys ++ 45 :: ms ++ 45 :: ds ++ zs " t " ++ clk = date ++ 32 :: clk).
  { unfold date. change (zs " t ") with (zs " t" ++ [32]). repeat (rewrite <- app_assoc; cbn [app]). reflexivity. }
  rewrite EN in HT.
  assert (Gd : good date = true).
  { apply good_plain. intros x Hx. unfold date in Hx. apply in_app_or in Hx. destruct Hx as [Hx|[<-|Hx]]; [pose proof (in_digits x ys y Hy Hx); lia|lia|].
    apply in_app_or in Hx. destruct Hx as [Hx|[<-|Hx]]; [pose proof (in_digits x ms m Hm Hx); lia|lia|].
    apply in_app_or in Hx. destruct Hx as [Hx|Hx]; [pose proof (in_digits x ds d Hd Hx); lia|]. vm_compute in Hx. lia. }
  assert (Hsuf : clock_suffix (32 :: clk) secs) by (right; exists clk; split; [reflexivity|assumption]).
  assert (Hg : good (date ++ 32 :: clk) = true) by (eapply suffix_good; eassumption).
  pose proof Hy as (Ny & Dy & _). destruct ys as [|c ys']; [congruence|].
  assert (C0 : 48 <= c <= 57) by (apply digit_range; apply Dy; now left).
  rewrite (run_date fuel _ t0 txt _ fmt HT).
  2:{ apply (fin_ordinary _ c (ys' ++ 45 :: ms ++ 45 :: (ds ++ zs " t") ++ 32 :: clk)); [|assumption| |lia|].
      - change (32 :: clk) with ([32] ++ clk). rewrite app_assoc. apply fin_app. eapply fin_clock; eassumption.
      - unfold date. cbn [app]. repeat (rewrite <- app_assoc; cbn [app]). reflexivity.
      - unfold is_sign. rewrite orb_false_iff, !Z.eqb_neq. lia. }
  2:{ unfold date. cbn [app]. apply num_no_keyword. left. exact C0. }
  destruct (HN now ph dfuel ltac:(lia)) as (y0 & m0 & d0 & h0 & mi & sec & Es).
  destruct (clock_some date clk secs h0 mi sec Hc) as (h & b & Ec & Hh & Ht).
  pose proof (digits_bound _ _ Hy) as By. pose proof (digits_bound _ _ Hm) as Bm. pose proof (digits_bound _ _ Hd) as Bd.
  rewrite Ly in By. rewrite Lm in Bm. rewrite Ld in Bd. change (10 ^ Z.of_nat 4) with 10000 in By. change (10 ^ Z.of_nat 2) with 100 in Bm, Bd.
  unfold date_and_time.
  assert (Ed : dots_to_slashes (date ++ 32 :: clk) = Ret (date ++ 32 :: clk)).
  { unfold date, dots_to_slashes. rewrite <- app_assoc. rewrite <- (app_comm_cons _ _ 45).
    rewrite (scan_d_num' IMAX (c :: ys') y 45 _ Hy eq_refl) by (unfold IMAX; lia). reflexivity. }
  rewrite Ed. cbn [obind]. rewrite Es. cbn [obind]. rewrite fits_bool.
  assert (F : (18 <? Z.of_nat (List.length (date ++ 32 :: clk))) &&
    (nth 11 (date ++ 32 :: clk) 0 =? 116) && (nth 4 (date ++ 32 :: clk) 0 =? 45) && (nth 7 (date ++ 32 :: clk) 0 =? 45) &&
    (nth 15 (date ++ 32 :: clk) 0 =? 58) = true).
  { destruct ys' as [|y2 [|y3 [|y4 [|? ?]]]]; try discriminate. destruct ms as [|m1 [|m2 [|? ?]]]; try discriminate.
    destruct ds as [|d1 [|d2 [|? ?]]]; try discriminate. destruct clk as [|k1 [|k2 [|k3 kr]]]; try (cbn in Lc; lia).
    cbn [nth] in Nc. subst k3. cbn [List.length] in Lc.
    unfold date. change (zs " t") with [32; 116]. cbn [app nth]. rewrite !andb_true_iff, !Z.eqb_eq, Z.ltb_lt. cbn [List.length]. repeat split; lia. }
  rewrite F. cbn [obind].
  assert (Ey : scan_ymd {| e_long := L; e_now := now; e_fuel := dfuel; e_phase := ph |} (date ++ 32 :: clk) y0 m0 d0 = Ret (y, m, d)).
  { unfold date, scan_ymd. cbn [e_long]. repeat (rewrite <- app_assoc || rewrite <- (app_comm_cons _ _ 45)).
    destruct HS as (HL & _). unfold long_ok in HL.
    rewrite (scan_d_num' L (c :: ys') y 45 _ Hy eq_refl) by lia. cbn [obind]. rewrite lit_same.
    rewrite (scan_d_num' IMAX ms m 45 _ Hm eq_refl) by (unfold IMAX; lia). cbn [obind]. rewrite lit_same.
    change (zs " t" ++ 32 :: clk) with (32 :: 116 :: 32 :: clk).
    rewrite (scan_d_num' IMAX ds d 32 _ Hd eq_refl) by (unfold IMAX; lia). reflexivity. }
  rewrite Ey. cbn [obind]. rewrite am_pm_plain by assumption. rewrite Ec. cbn [obind].
  destruct HS as (HL & _).
  destruct (finish_ok {| e_long := L; e_now := now; e_fuel := dfuel; e_phase := ph |} fmt y m d h b jd secs) as (q & Eq_ & Hq); try assumption; [lia|].
  change (Z.land fmt CALENDAR_MASK) with (calendar_of fmt). rewrite Eq_. cbn [obind]. exists q. split; [reflexivity|assumption].
Qed.

(** ---- keywords ---- *)
Lemma number_last n q : number_of n q -> isdigit (last n 0) = true \/ last n 0 = 46.
Proof.
  intro H. destruct (number_chars n q H) as [Hn Hc]. destruct (exists_last Hn) as (p & x & E). rewrite E, last_last.
  assert (K : num_char x) by (apply Hc; rewrite E; apply in_or_app; right; now left).
  destruct K as [K|K]; [left; now apply digit_range|now right].
Qed.
Lemma key_ordinary k n q : (exists c r, k = c :: r /\ c <> 32 /\ is_sign c = false) -> plain_first k -> number_of n q -> ordinary (k ++ n).
Proof.
  intros (c & r & -> & H1 & H2) Hk Hn. destruct (number_chars n q Hn) as [Hne Hc].
  apply (fin_ordinary _ c (r ++ n)); [|apply good_plain|reflexivity|assumption|assumption].
  - apply fin_app. apply fin_digit; [assumption|]. eapply number_last; eassumption.
  - intros x Hx. apply in_app_or in Hx. destruct Hx as [Hx|Hx]; [now apply Hk|]. specialize (Hc x Hx). unfold num_char in Hc. lia.
Qed.
Lemma strtold_sp n q : number_of n q -> strtold (32 :: n) = Ret (q, []).
Proof.
  intro H. pose proof (strtold_num n q [] H I) as E. rewrite app_nil_r in E. unfold strtold in *. rewrite skip_ws_sp.
  destruct (sign_of (skip_ws n)) as [neg t]. destruct (unmodelled_number t); [discriminate|].
  destruct (mantissa t) as [[[mm kk] rr]|] eqn:Em; [exact E|].
  exfalso. pose proof (skip_ws_num n q [] H) as K. rewrite app_nil_r in K.
  injection E as _ E. destruct (number_chars n q H) as [Hne _]. congruence.
Qed.
Lemma unset_false q : ~ (q == - 2451545)%Q -> is_rval_unset q = false.
Proof. intro H. unfold is_rval_unset. apply not_true_iff_false. intro K. apply Qeq_bool_iff in K. now apply H. Qed.
Lemma keyword_reads L now ph t0 txt norm fmt r u t : text txt norm -> ordinary norm ->
  (forall dfuel, exists s t1, keywords {| e_long := L; e_now := now; e_fuel := dfuel; e_phase := ph |} t0 norm = Ret (r, u, s, t1)) ->
  ~ (r == - 2451545)%Q -> (r == t)%Q -> reads L now ph t0 txt fmt t u.
Proof.
  intros HT Ho Hk Hr Ht. exists 2%nat. intros fuel dfuel Hf _. destruct fuel as [|[|fuel]]; [lia|lia|].
  rewrite (run_keywords fuel _ t0 txt norm fmt HT Ho). destruct (Hk dfuel) as (s & t1 & ->). cbn [obind].
  rewrite unset_false by assumption. cbn [negb]. eexists. split; [reflexivity|]. rewrite Ht. ring.
Qed.
Ltac plain := intros x Hx; vm_compute in Hx; lia.
Ltac key_start := eexists _, _; split; [reflexivity|split; [vm_compute; lia|reflexivity]].
Lemma nonneg_ne a b q : (0 <= q)%Q -> (0 < b)%Q -> (0 < a)%Q -> ~ (q * b + (a - 2451545) == - 2451545)%Q.
Proof.
  intros Hq Hb Ha K. assert (P : (0 <= q * b)%Q) by (apply Qmult_le_0_compat; [assumption|now apply Qlt_le_weak]).
  assert (X : (q * b + (a - 2451545) + 2451545 == 0)%Q) by (rewrite K; ring).
  assert (Y : (q * b + (a - 2451545) + 2451545 == q * b + a)%Q) by ring.
  assert (Z0 : (0 < q * b + a)%Q) by (rewrite Qplus_comm; rewrite <- (Qplus_0_l 0); apply Qplus_lt_le_compat; assumption).
  rewrite <- Y, X in Z0. discriminate.
Qed.
Lemma jd_ok_key L now ph t0 txt fmt n q : text txt (zs "jd " ++ n) -> number_of n q -> ~ (q == 0)%Q ->
  reads L now ph t0 txt fmt (q - 2451545)%Q 1.
Proof.
  intros HT Hn H0. assert (NU : ~ (q - 2451545 == - 2451545)%Q).
  { intro K. apply H0. apply (Qplus_inj_r _ _ (- 2451545)). rewrite Qplus_0_l. exact K. }
  eapply (keyword_reads L now ph t0 txt _ fmt (q - J2000)%Q 1); [eassumption| | |exact NU|reflexivity].
  - eapply key_ordinary; [key_start|plain|eassumption].
  - intro dfuel. unfold keywords. change (zs "jd " ++ n) with (106 :: 100 :: 32 :: n). cbv iota. cbn [tl].
    rewrite (strtold_sp n q Hn). cbn [obind].
    change (prefix (zs "mjd") (100 :: 32 :: n)) with false. change (prefix (zs "gps ") (100 :: 32 :: n)) with false.
    change (prefix (zs "unix ") (100 :: 32 :: n)) with false. change (prefix (zs "now") (100 :: 32 :: n)) with false.
    cbv iota zeta. cbn [obind]. unfold J2000. rewrite unset_false by exact NU. eexists _, _. reflexivity.
Qed.
Lemma mjd_ok L now ph t0 txt fmt n q : text txt (zs "mjd " ++ n) -> number_of n q ->
  reads L now ph t0 txt fmt (q + 2400000 + (1 # 2) - 2451545)%Q 1.
Proof.
  intros HT Hn. pose proof (number_nonneg n q Hn) as Q0.
  eapply (keyword_reads L now ph t0 txt _ fmt (q + (24000005 # 10) - J2000)%Q 1); [eassumption| | | |].
  - eapply key_ordinary; [key_start|plain|eassumption].
  - intro dfuel. unfold keywords. change (zs "mjd " ++ n) with (109 :: 106 :: 100 :: 32 :: n). cbv iota. cbn [obind].
    change (prefix (zs "mjd") (109 :: 106 :: 100 :: 32 :: n)) with true. cbv iota. cbn [skipn].
    rewrite (strtold_sp n q Hn). cbn [obind].
    change (prefix (zs "gps ") (109 :: 106 :: 100 :: 32 :: n)) with false.
    change (prefix (zs "unix ") (109 :: 106 :: 100 :: 32 :: n)) with false. change (prefix (zs "now") (109 :: 106 :: 100 :: 32 :: n)) with false.
    cbv iota zeta. cbn [obind]. eexists _, _. reflexivity.
  - intro K. apply (nonneg_ne (24000005 # 10) 1 q Q0); [reflexivity|reflexivity|]. rewrite <- K. unfold J2000. ring.
  - unfold J2000. assert (E : (24000005 # 10 == 2400000 + (1 # 2))%Q) by reflexivity. rewrite E. ring.
Qed.
Lemma y_ok L now ph t0 txt fmt n q : text txt (zs "y " ++ n) -> number_of n q ->
  reads L now ph t0 txt fmt ((q - 2000) * (36525 # 100) - (1 # 2))%Q 0.
Proof.
  intros HT Hn. pose proof (number_nonneg n q Hn) as Q0.
  eapply (keyword_reads L now ph t0 txt _ fmt ((q - 2000) * (36525 # 100) - (1 # 2))%Q 0); [eassumption| | | |reflexivity].
  - eapply key_ordinary; [key_start|plain|eassumption].
  - intro dfuel. unfold keywords. change (zs "y " ++ n) with (121 :: 32 :: n). cbv iota. cbn [obind].
    rewrite (strtold_sp n q Hn). cbn [obind].
    change (prefix (zs "mjd") (121 :: 32 :: n)) with false. change (prefix (zs "gps ") (121 :: 32 :: n)) with false.
    change (prefix (zs "unix ") (121 :: 32 :: n)) with false. change (prefix (zs "now") (121 :: 32 :: n)) with false.
    cbv iota zeta. cbn [obind]. eexists _, _. reflexivity.
  - intro K. apply (nonneg_ne (3442089 # 2) (36525 # 100) q Q0); [reflexivity|reflexivity|].
    rewrite <- K. assert (E : (3442089 # 2 == 2451545 - 2000 * (36525 # 100) - (1 # 2))%Q) by reflexivity. rewrite E. ring.
Qed.
Lemma unix_ok L now ph t0 txt fmt n q : text txt (zs "unix " ++ n) -> number_of n q ->
  reads L now ph t0 txt fmt (q / 86400 + 2440587 + (1 # 2) - 2451545)%Q 0.
Proof.
  intros HT Hn. pose proof (number_nonneg n q Hn) as Q0.
  eapply (keyword_reads L now ph t0 txt _ fmt (q / 86400 + ((24405875 # 10) - J2000))%Q 0); [eassumption| | | |].
  - eapply key_ordinary; [key_start|plain|eassumption].
  - intro dfuel. unfold keywords. change (zs "unix " ++ n) with (117 :: 110 :: 105 :: 120 :: 32 :: n). cbv iota. cbn [obind].
    change (prefix (zs "mjd") (117 :: 110 :: 105 :: 120 :: 32 :: n)) with false. change (prefix (zs "gps ") (117 :: 110 :: 105 :: 120 :: 32 :: n)) with false.
    change (prefix (zs "unix ") (117 :: 110 :: 105 :: 120 :: 32 :: n)) with true. change (prefix (zs "now") (117 :: 110 :: 105 :: 120 :: 32 :: n)) with false.
    cbv iota zeta. cbn [skipn obind]. pose proof (strtold_num n q [] Hn I) as E. rewrite app_nil_r in E. rewrite E. cbn [obind]. eexists _, _. reflexivity.
  - intro K. apply (nonneg_ne (24405875 # 10) (1 # 86400) q Q0); [reflexivity|reflexivity|]. rewrite <- K. unfold J2000.
    unfold Qdiv. change (/ 86400)%Q with (1 # 86400). ring.
  - unfold J2000. assert (E : (24405875 # 10 == 2440587 + (1 # 2))%Q) by reflexivity. rewrite E. ring.
Qed.
(** "gps 23456": GPS week 2345, day 6. *)
Lemma gps_ok L now ph t0 txt fmt ws w ds d : text txt (zs "gps " ++ ws ++ ds) -> digits_of ws w -> digits_of ds d ->
  List.length ws = 4%nat -> List.length ds = 1%nat ->
  reads L now ph t0 txt fmt (inject_Z (w * 7 + d) + 2444244 + (1 # 2) - 2451545)%Q 0.
Proof.
  intros HT Hw Hd Lw Ld. pose proof (digits_app ws w ds d Hw Hd) as Hn. rewrite Ld in Hn. change (10 ^ Z.of_nat 1) with 10 in Hn.
  pose proof (digits_bound _ _ Hw) as Bw. pose proof (digits_bound _ _ Hd) as Bd. rewrite Ld in Bd. change (10 ^ Z.of_nat 1) with 10 in Bd.
  eapply (keyword_reads L now ph t0 txt _ fmt (inject_Z (w * 7 + d) + (24442445 # 10) - J2000)%Q 0); [eassumption| | | |].
  - destruct (number_chars _ _ (digits_number _ _ Hn)) as [Hne Hc].
    apply (fin_ordinary _ 103 (112 :: 115 :: 32 :: ws ++ ds)); [| |reflexivity|lia|reflexivity].
    + apply fin_app. apply fin_digit; [assumption|]. eapply number_last. apply digits_number. eassumption.
    + change (zs "gps " ++ ws ++ ds) with (zs "gps" ++ 32 :: ws ++ ds). apply good_sep; [now left|reflexivity|].
      now apply num_chars_plain.
  - intro dfuel. unfold keywords. set (n := ws ++ ds) in *. change (zs "gps " ++ n) with (103 :: 112 :: 115 :: 32 :: n). cbv iota. cbn [obind].
    change (prefix (zs "mjd") (103 :: 112 :: 115 :: 32 :: n)) with false. change (prefix (zs "gps ") (103 :: 112 :: 115 :: 32 :: n)) with true.
    change (prefix (zs "unix ") (103 :: 112 :: 115 :: 32 :: n)) with false. change (prefix (zs "now") (103 :: 112 :: 115 :: 32 :: n)) with false.
    cbv iota zeta. cbn [skipn obind].
    assert (Ln : List.length n = 5%nat) by (unfold n; rewrite app_length; lia).
    rewrite (firstn_all2 n) by lia. pose proof Hn as (_ & Dn & Vn).
    rewrite span_all by assumption. rewrite Ln. cbn [Nat.eqb].
    rewrite Vn. replace (Z.quot (w * 10 + d) 10) with w.
    2:{ rewrite Z.quot_div_nonneg by lia. apply (Z.div_unique _ 10 w d); [left; lia|lia]. }
    replace (Z.rem (w * 10 + d) 10) with d.
    2:{ rewrite Z.rem_mod_nonneg by lia. apply (Z.mod_unique _ 10 w d); [left; lia|lia]. }
    eexists _, _. reflexivity.
  - intro K. apply (nonneg_ne (24442445 # 10) 1 (inject_Z (w * 7 + d))); [apply (inj_le 0); lia|reflexivity|reflexivity|]. rewrite <- K. unfold J2000. ring.
  - unfold J2000. assert (E : (24442445 # 10 == 2444244 + (1 # 2))%Q) by reflexivity. rewrite E. ring.
Qed.
Lemma now_ok L now ph t0 txt fmt : text txt (zs "now") -> 0 <= now ->
  reads L now ph t0 txt fmt (inject_Z now / 86400 + 2440587 + (1 # 2) - 2451545)%Q 0.
Proof.
  intros HT Hn.
  eapply (keyword_reads L now ph t0 txt _ fmt ((24405875 # 10) - J2000 + inject_Z now / 86400)%Q 0); [eassumption| | | |].
  - apply (fin_ordinary _ 110 [111; 119]); [|reflexivity|reflexivity|lia|reflexivity].
    exists [110; 111], 119. repeat split; try lia. right. exists [110], 111. split; [reflexivity|lia].
  - intro dfuel. eexists _, _. reflexivity.
  - intro K. apply (nonneg_ne (24405875 # 10) (1 # 86400) (inject_Z now)); [apply (inj_le 0); lia|reflexivity|reflexivity|]. rewrite <- K. unfold J2000.
    unfold Qdiv. change (/ 86400)%Q with (1 # 86400). ring.
  - unfold J2000. assert (E : (24405875 # 10 == 2440587 + (1 # 2))%Q) by reflexivity. rewrite E. ring.
Qed.

(** ---- phases of the moon ---- *)
Lemma floor_near x : (Qabs (x - inject_Z (Qfloor (x + (1 # 2)))) <= 1 # 2)%Q.
Proof.
  destruct (frac_range (x + (1 # 2))) as [A B]. apply Qabs_Qle_condition. split.
  - apply Qplus_le_l with (1 # 2)%Q. eapply Qle_trans; [|eapply Qle_trans; [exact A|]]; [discriminate|]. apply Qle_lteq. right. ring.
  - apply Qlt_le_weak. apply Qplus_lt_l with (1 # 2)%Q. eapply Qle_lt_trans; [|eapply Qlt_le_trans; [exact B|discriminate]]. apply Qle_lteq. right. ring.
Qed.
Lemma phase_ok L now ph t0 txt body pt idx fmt t u :
  text txt (body ++ pt) -> In (pt, idx) phase_texts -> is_sign (hd 0 txt) = false ->
  reads L now ph t0 body fmt t u -> ~ (t == - 2451545)%Q ->
  exists n, let k := (inject_Z n + inject_Z idx * (1 # 4))%Q in
    (Qabs ((t - (509765 # 100000)) / (29530588853 # 1000000000) - k) <= 1 # 2)%Q /\
    reads L now ph t0 txt fmt (ph idx k) 1.
Proof.
  intros HT Hp Hs (N & HR) Ht.
  set (x := ((t - lunar_phase_t0) / lunation - inject_Z idx * (1 # 4))%Q).
  exists (Qfloor (x + (1 # 2))). cbv zeta. split.
  - setoid_replace ((t - (509765 # 100000)) / (29530588853 # 1000000000) - (inject_Z (Qfloor (x + (1 # 2))) + inject_Z idx * (1 # 4)))%Q
      with (x - inject_Z (Qfloor (x + (1 # 2))))%Q by (unfold x, lunar_phase_t0, lunation; ring). apply floor_near.
  - exists (S (S N)). intros fuel dfuel Hf Hdf. destruct fuel as [|[|fuel]]; [lia|lia|].
    rewrite get_time_step. rewrite (copy_text_ok _ _ HT). cbn [obind].
    assert (P : exists a b, pt = [a; b] /\ b <> 32 /\ a <> 32 /\ get_phase_idx a b = idx /\ 0 <= idx <= 3).
    { unfold phase_texts in Hp. cbn [In] in Hp. repeat (destruct Hp as [Hp|Hp]; [injection Hp as <- <-; eexists _, _; split; [reflexivity|]; repeat split; vm_compute; congruence|]). destruct Hp. }
    destruct P as (a & b & -> & Hb & Ha & Hi & Hr).
    assert (Et : trim_end (body ++ [a; b]) = body ++ [a; b]).
    { change [a; b] with ([a] ++ [b]). rewrite app_assoc. now apply trim_id. }
    rewrite Et.
    assert (Hno : no_offset_end (body ++ [a; b])).
    { split.
      - destruct HT as (_ & _ & Hne & _ & Esp & _). destruct txt as [|c r]; [congruence|]. cbn [hd] in Hs.
        destruct (spread_nonempty c r) as [r' Er]. rewrite Er in Esp. rewrite <- Esp. cbn [hd].
        unfold is_sign in *. rewrite orb_false_iff, !Z.eqb_neq in *. unfold tolower. destruct (isupper c) eqn:Eu; [|assumption].
        unfold isupper in Eu. rewrite andb_true_iff, !Z.leb_le in Eu. lia.
      - right. rewrite rev_app_distr. cbn [rev app tl hd]. assumption. }
    rewrite offsets_none by (assumption || (destruct body; discriminate)). cbn [obind]. cbv zeta.
    rewrite rev_app_distr. cbn [rev app]. rewrite Hi. rewrite (proj2 (Z.eqb_neq idx (-1))) by lia. cbn [negb].
    rewrite app_length. cbn [List.length]. replace (List.length body + 2 - 2)%nat with (List.length body) by lia.
    rewrite firstn_app_l. destruct (HR (S fuel) dfuel ltac:(lia) ltac:(lia)) as (t' & -> & Et'). cbn [obind].
    rewrite unset_false by now rewrite Et'.
    eexists. split; [reflexivity|]. unfold find_nearest_lunar_phase_time. cbn [e_phase].
    assert (Ek : Qfloor ((t' - lunar_phase_t0) / lunation - inject_Z idx * (1 # 4) + (1 # 2)) = Qfloor (x + (1 # 2))).
    { apply Qfloor_comp. unfold x. rewrite Et'. reflexivity. }
    rewrite Ek. ring.
Qed.
