(** Single fields, times of day, keywords. *)
From Coq Require Import QArith Qround Lia Permutation.
From Coq Require Import Ascii String.
From Verif Require Import CBase CLemmas CStr DateModel DateVocab DateThms TstrModel TstrSpec TstrCopy TstrNum TstrOff TstrDate TstrSplit TstrField TstrThree TstrRoles TstrRead TstrOther.
Local Open Scope list_scope.
Local Open Scope Z_scope.

Lemma split_no_suffix s k v f : split_number s k v f -> ordinary s /\ no_keyword s /\ s <> [] /\ no_sep s.
Proof. intro H. rewrite <- (app_nil_r s) at 1 2. eapply split_ordinary; [eassumption|left; split; reflexivity]. Qed.
Lemma split_dots0 s k v f : split_number s k v f -> (k <= 9)%nat -> dots_to_slashes s = Ret s.
Proof. intros H Hk. rewrite <- (app_nil_r s). eapply split_dots; [eassumption|assumption|exact I]. Qed.
Lemma jd_digits_ok L now ph t0 txt s v f fmt : start_ok L t0 fmt -> text txt s -> split_number s 7 v f ->
  reads L now ph t0 txt fmt (inject_Z v + f - 2451545)%Q 1.
Proof.
  intros HS HT H. destruct (split_no_suffix s 7 v f H) as (O1 & O2 & O3 & O4).
  eapply single_direct; try eassumption; [eapply split_dots0; [eassumption|lia]|].
  intros dfuel y0 m0 d0. destruct (split_field {| e_long := L; e_now := now; e_fuel := dfuel; e_phase := ph |} t0 s 7 v f 0 y0 m0 d0 H) as (g & Eg & _ & ->); [lia|].
  cbv zeta. cbn [Z.of_nat Pos.of_succ_nat Pos.succ Z.eqb Pos.eqb orb]. eexists. split; [reflexivity|].
  rewrite Eg. unfold J2000. ring.
Qed.
Lemma decimal_year_ok L now ph t0 txt s k v f fmt : start_ok L t0 fmt -> text txt s -> split_number s k v f ->
  (k = 4 \/ k = 5)%nat -> ~ (f == 0)%Q ->
  reads L now ph t0 txt fmt ((inject_Z v + f - 2000) * (36525 # 100) - (1 # 2))%Q 0.
Proof.
  intros HS HT H Hk Hf. destruct (split_no_suffix s k v f H) as (O1 & O2 & O3 & O4).
  eapply single_direct; try eassumption; [eapply split_dots0; [eassumption|lia]|].
  intros dfuel y0 m0 d0. destruct (split_field {| e_long := L; e_now := now; e_fuel := dfuel; e_phase := ph |} t0 s k v f 0 y0 m0 d0 H) as (g & Eg & _ & ->); [lia|].
  cbv zeta. replace (Qeq_bool (inject_Z v) (g + inject_Z v)) with false.
  2:{ symmetry. apply not_true_iff_false. intro K. apply Qeq_bool_iff in K. apply Hf. rewrite <- Eg.
      apply (Qplus_inj_r _ _ (inject_Z v)). rewrite <- K. ring. }
  destruct Hk as [->| ->]; cbn [Z.of_nat Pos.of_succ_nat Pos.succ Z.eqb Pos.eqb orb]; (eexists; split; [reflexivity|]); rewrite Eg; ring.
Qed.
Lemma digits_split s v : digits_of s v -> split_number s (List.length s) v 0%Q.
Proof. intro H. exists s. split; [assumption|]. split; [reflexivity|]. left. split; reflexivity. Qed.
Lemma frac_int z : (day_fraction (inject_Z z) == 0)%Q.
Proof. unfold day_fraction. rewrite Qfloor_Z. ring. Qed.
Lemma reads_eq L now ph t0 txt fmt t t' u : (t == t')%Q -> reads L now ph t0 txt fmt t u -> reads L now ph t0 txt fmt t' u.
Proof.
  intros E (N & H). exists N. intros fuel dfuel H1 H2. destruct (H fuel dfuel H1 H2) as (r & Er & Hr). exists r.
  split; [assumption|]. now rewrite Hr.
Qed.
Lemma jd_floor L y m z q fmt jd : (q == inject_Z z)%Q -> dmy_to_day L z m y (calendar_of fmt) = Ret jd ->
  dmy_to_day L (Qfloor q) m y (calendar_of fmt) = Ret jd.
Proof. intros E H. rewrite (Qfloor_comp _ _ E), Qfloor_Z. exact H. Qed.
Lemma year_alone_ok L now ph t0 txt s v clk secs fmt d0 m0 y0 jd : date_of_start L t0 fmt d0 m0 y0 -> text txt (s ++ clk) ->
  digits_of s v -> (List.length s = 4 \/ List.length s = 5)%nat -> clock_suffix clk secs ->
  dmy_to_day L 1 1 v (calendar_of fmt) = Ret jd -> jd_ok L jd ->
  reads L now ph t0 txt fmt (instant jd secs) 0.
Proof.
  intros HS HT Hs Hk Hc Hj Hjd. pose proof (digits_split s v Hs) as H.
  destruct (split_ordinary s _ v _ clk secs H Hc) as (O1 & O2 & O3 & O4).
  eapply reads_eq with (t := (instant jd secs + day_fraction (inject_Z 1))%Q); [rewrite frac_int; ring|].
  eapply (single_reads L now ph t0 txt fmt s clk secs y0 m0 d0 v 1 (inject_Z 1)); try eassumption;
    [eapply split_dots; [eassumption|lia|eapply suffix_clean; eassumption]| |discriminate|discriminate].
  intros dfuel.
  destruct (split_field {| e_long := L; e_now := now; e_fuel := dfuel; e_phase := ph |} t0 s _ v _ 0 y0 m0 (inject_Z d0) H) as (g & Eg & Eg0 & ->); [lia|].
  rewrite Eg0 by reflexivity. cbv zeta. replace (Qeq_bool (inject_Z v) (0 + inject_Z v)) with true by (symmetry; apply Qeq_bool_iff; ring).
  destruct Hk as [-> | ->]; reflexivity.
Qed.
Lemma trunc_day v f : 0 <= v -> (0 <= f)%Q -> (f < 1)%Q -> Qfloor (inject_Z v + f) = v.
Proof.
  intros Hv H0 H1. assert (K : (inject_Z v <= inject_Z v + f)%Q) by (rewrite <- (Qplus_0_r (inject_Z v)) at 1; now apply Qplus_le_r).
  assert (K2 : (inject_Z v + f < inject_Z (v + 1))%Q) by (rewrite inject_Z_plus; now apply Qplus_lt_r).
  pose proof (Qfloor_resp_le _ _ K) as A. rewrite Qfloor_Z in A.
  assert (B : Qfloor (inject_Z v + f) < v + 1) by (rewrite Zlt_Qlt; eapply Qle_lt_trans; [apply Qfloor_le|exact K2]). lia.
Qed.
Lemma frac_day q v f : (q == inject_Z v + f)%Q -> 0 <= v -> (0 <= f)%Q -> (f < 1)%Q -> Qfloor q = v /\ (day_fraction q == f)%Q.
Proof.
  intros E Hv H0 H1. assert (F : Qfloor q = v) by (rewrite (Qfloor_comp _ _ E); now apply trunc_day).
  split; [assumption|]. unfold day_fraction. rewrite F, E. ring.
Qed.
(** One to three digits: the day of the month or of the year. *)
Lemma day_alone_ok L now ph t0 txt s k v f clk secs fmt d0 m0 y0 jd : date_of_start L t0 fmt d0 m0 y0 -> text txt (s ++ clk) ->
  split_number s k v f -> (k <= 3)%nat -> clock_suffix clk secs ->
  dmy_to_day L v (if (k =? 3)%nat then 1 else m0) y0 (calendar_of fmt) = Ret jd -> jd_ok L jd ->
  reads L now ph t0 txt fmt (instant jd secs + f)%Q 0.
Proof.
  intros HS HT H Hk Hc Hj Hjd. destruct (split_ordinary s _ v _ clk secs H Hc) as (O1 & O2 & O3 & O4).
  destruct (split_range s k v f H) as (Rv & F0 & F1). destruct (split_chars s k v f H) as (K0 & _).
  assert (Rv' : 0 <= v < 1000).
  { split; [lia|]. assert (10 ^ Z.of_nat k <= 10 ^ 3) by (apply Z.pow_le_mono_r; lia). lia. }
  destruct (split_field {| e_long := L; e_now := now; e_fuel := 0%nat; e_phase := ph |} t0 s k v f 0 y0 m0 (inject_Z d0) H) as (g & Eg & _ & E0); [lia|].
  assert (Eq_ : (g + inject_Z v == inject_Z v + f)%Q) by (rewrite Eg; ring).
  destruct (frac_day _ v f Eq_ ltac:(lia) F0 F1) as [Fl Fr].
  eapply reads_eq; [|eapply (single_reads L now ph t0 txt fmt s clk secs y0 m0 d0 y0 (if (k =? 3)%nat then 1 else m0) (g + inject_Z v)%Q); try eassumption].
  - now rewrite Fr.
  - eapply split_dots; [eassumption|lia|eapply suffix_clean; eassumption].
  - intros dfuel.
    assert (E1 : single_field {| e_long := L; e_now := now; e_fuel := dfuel; e_phase := ph |} t0 0 s 0 y0 m0 (inject_Z d0) =
            single_field {| e_long := L; e_now := now; e_fuel := 0%nat; e_phase := ph |} t0 0 s 0 y0 m0 (inject_Z d0)) by reflexivity.
    rewrite E1, E0. cbv zeta. destruct k as [|[|[|[|k]]]]; try lia; reflexivity.
  - rewrite Eq_. rewrite <- (Qplus_0_r 0). apply Qplus_le_compat; [apply (inj_le 0); lia|assumption].
  - rewrite Eq_. apply Qle_trans with (inject_Z 999 + 1)%Q; [|discriminate]. apply Qplus_le_compat; [apply inj_le; lia|now apply Qlt_le_weak].
  - rewrite Fl. exact Hj.
Qed.
(** YYYYMMDD and YYMMDD *)
Lemma dig_val_app a : forall acc b, (forall c, In c a -> isdigit c = true) -> dig_val acc (a ++ b) = dig_val (dig_val acc a) b.
Proof.
  induction a as [|c a IH]; intros acc b H; [reflexivity|]. cbn [app dig_val]. rewrite (H c) by now left.
  apply IH. intros x Hx. apply H. now right.
Qed.
Lemma dig_val_acc b : (forall c, In c b -> isdigit c = true) -> forall acc, dig_val acc b = acc * 10 ^ Z.of_nat (List.length b) + dig_val 0 b.
Proof.
  induction b as [|c b IH]; intros H acc; [cbn; lia|]. cbn [dig_val List.length]. rewrite (H c) by now left.
  rewrite IH by (intros; apply H; now right). rewrite (IH ltac:(intros; apply H; now right) (0 * 10 + (c - 48))).
  rewrite Nat2Z.inj_succ, Z.pow_succ_r by lia. ring.
Qed.
Lemma digits_app a va b vb : digits_of a va -> digits_of b vb -> digits_of (a ++ b) (va * 10 ^ Z.of_nat (List.length b) + vb).
Proof.
  intros (Ha & Da & Va) (Hb & Db & Vb). split; [destruct a; [congruence|discriminate]|]. split.
  - intros c Hc. apply in_app_or in Hc. destruct Hc; auto.
  - rewrite dig_val_app by assumption. rewrite dig_val_acc by assumption. now rewrite Va, Vb.
Qed.
Lemma compact_ok L now ph t0 txt ys y ms m ds d dec f clk secs fmt d0 m0 y0 jd : date_of_start L t0 fmt d0 m0 y0 ->
  text txt (ys ++ ms ++ ds ++ dec ++ clk) -> digits_of ys y -> digits_of ms m -> digits_of ds d ->
  (List.length ys = 2 \/ List.length ys = 4)%nat -> List.length ms = 2%nat -> List.length ds = 2%nat ->
  ((dec = [] /\ f = 0%Q) \/ exists b u, digits_of b u /\ (List.length b <= 9)%nat /\ dec = 46 :: b /\ f = (u # Z.to_pos (10 ^ Z.of_nat (List.length b)))%Q) ->
  clock_suffix clk secs ->
  dmy_to_day L d m (if (List.length ys =? 4)%nat then y else if y <? 40 then 2000 + y else 1900 + y) (calendar_of fmt) = Ret jd -> jd_ok L jd ->
  reads L now ph t0 txt fmt (instant jd secs + f)%Q 0.
Proof.
  intros HS HT Hy Hm Hd Ly Lm Ld Hf Hc Hj Hjd.
  assert (H : split_number ((ys ++ ms ++ ds) ++ dec) (List.length ys + 4) (y * 10000 + (m * 100 + d)) f).
  { exists (ys ++ ms ++ ds). split.
    - pose proof (digits_app _ _ _ _ Hm Hd) as K. rewrite Ld in K. change (10 ^ Z.of_nat 2) with 100 in K.
      pose proof (digits_app _ _ _ _ Hy K) as K2. rewrite app_length, Lm, Ld in K2. exact K2.
    - split; [rewrite !app_length; lia|]. destruct Hf as [[-> ->]|(b & u & Hb & Lb & -> & ->)]; [left; split; [apply app_nil_r|reflexivity]|right].
      exists b, u. repeat split; try assumption; try reflexivity; try apply Hb. }
  set (s := (ys ++ ms ++ ds) ++ dec) in *. set (v := y * 10000 + (m * 100 + d)) in *.
  assert (ET : ys ++ ms ++ ds ++ dec ++ clk = s ++ clk) by (unfold s; rewrite <- !app_assoc; reflexivity).
  rewrite ET in HT. destruct (split_ordinary s _ v _ clk secs H Hc) as (O1 & O2 & O3 & O4).
  destruct (split_range s _ v f H) as (Rv & F0 & F1).
  pose proof (digits_bound ys y Hy) as By. pose proof (digits_bound ms m Hm) as Bm. pose proof (digits_bound ds d Hd) as Bd.
  rewrite Lm in Bm. rewrite Ld in Bd. change (10 ^ Z.of_nat 2) with 100 in Bm, Bd.
  assert (V1 : Z.quot v 10000 = y).
  { rewrite Z.quot_div_nonneg by lia. symmetry. apply (Z.div_unique v 10000 y (m * 100 + d)); [left; lia|unfold v; lia]. }
  assert (V2 : Z.rem (Z.quot v 100) 100 = m).
  { rewrite Z.quot_div_nonneg by lia. rewrite Z.rem_mod_nonneg by (try apply Z.div_pos; lia).
    replace (v / 100) with (y * 100 + m) by (apply (Z.div_unique v 100 (y * 100 + m) d); [left; lia|unfold v; lia]).
    symmetry. apply (Z.mod_unique _ _ y m); [left; lia|lia]. }
  assert (V3 : Z.rem v 100 = d).
  { rewrite Z.rem_mod_nonneg by lia. symmetry. apply (Z.mod_unique _ _ (y * 100 + m) d); [left; lia|unfold v; lia]. }
  destruct (split_field {| e_long := L; e_now := now; e_fuel := 0%nat; e_phase := ph |} t0 s _ v f 0 y0 m0 (inject_Z d0) H) as (g & Eg & _ & E0); [lia|].
  set (q := (inject_Z d + (g + inject_Z v - inject_Z v))%Q).
  assert (Eq_ : (q == inject_Z d + f)%Q) by (unfold q; rewrite Eg; ring).
  destruct (frac_day _ d f Eq_ ltac:(lia) F0 F1) as [Fl Fr].
  eapply reads_eq; [|eapply (single_reads L now ph t0 txt fmt s clk secs y0 m0 d0 (if (List.length ys =? 4)%nat then y else if y <? 40 then 2000 + y else 1900 + y) m q); try eassumption].
  - now rewrite Fr.
  - eapply split_dots; [eassumption|lia|eapply suffix_clean; eassumption].
  - intros dfuel.
    assert (E1 : single_field {| e_long := L; e_now := now; e_fuel := dfuel; e_phase := ph |} t0 0 s 0 y0 m0 (inject_Z d0) =
            single_field {| e_long := L; e_now := now; e_fuel := 0%nat; e_phase := ph |} t0 0 s 0 y0 m0 (inject_Z d0)) by reflexivity.
    rewrite E1, E0. cbv zeta. rewrite V1, V2, V3. fold q. destruct Ly as [-> | ->]; cbn [Nat.eqb Nat.add Z.of_nat Pos.of_succ_nat Pos.succ Z.eqb Pos.eqb orb]; [|reflexivity].
    repeat f_equal. destruct (y <? 40); lia.
  - rewrite Eq_. rewrite <- (Qplus_0_r 0). apply Qplus_le_compat; [apply (inj_le 0); lia|assumption].
  - rewrite Eq_. apply Qle_trans with (inject_Z 99 + 1)%Q; [|discriminate]. apply Qplus_le_compat; [apply inj_le; lia|now apply Qlt_le_weak].
  - rewrite Fl. exact Hj.
Qed.
