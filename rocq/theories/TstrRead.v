(** Three fields are read as written. *)
From Coq Require Import QArith Qround Lia Permutation.
From Coq Require Import Ascii String.
From Verif Require Import CBase CLemmas CStr DateModel DateVocab TstrModel TstrSpec TstrCopy TstrNum TstrOff TstrDate TstrSplit TstrField TstrThree TstrRoles.
Local Open Scope list_scope.
Local Open Scope Z_scope.

Lemma finish_frac E fmt y m q h b jd t : long_ok (e_long E) -> (0 <= q)%Q -> (q <= 1000)%Q ->
  dmy_to_day (e_long E) (Qfloor q) m y (calendar_of fmt) = Ret jd -> jd_ok (e_long E) jd ->
  0 <= h < 10000 -> (inject_Z (h * 60 + 0) / 1440 + b / 86400 == t / 86400)%Q ->
  exists r, finish E (calendar_of fmt) false y m q h 0 b 0 = Ret r /\ (r == instant jd t + day_fraction q)%Q.
Proof.
  intros HL Hd0 Hd Hj Hjd Hh Ht. unfold finish. cbn [obind].
  unfold to_integer. rewrite trunc_floor by assumption.
  assert (0 <= Qfloor q < 1001).
  { apply floor_range; [assumption|]. eapply Qle_lt_trans; [exact Hd|reflexivity]. }
  rewrite chk_ok by (unfold IMAX, fits; lia). cbn [obind]. rewrite Hj. cbn [obind].
  unfold jd_ok, long_ok in *.
  rewrite ev_val by (cbn [safe val]; unfold fits; repeat split; lia). cbn [obind val].
  rewrite ev_val by (cbn [safe val]; unfold fits, IMAX; repeat split; lia). cbn [obind val].
  eexists. split; [reflexivity|]. unfold instant, day_fraction. rewrite <- Ht. ring.
Qed.
Lemma add_centuries_ok L low : 2147483647 <= L -> low <= 1000000000 -> forall f y, (Z.to_nat (low - y) <= f)%nat -> 0 <= y <= 1000000000 ->
  exists y', add_centuries f L y low = Ret y' /\ y' mod 100 = y mod 100 /\ y <= y' /\ low <= y' /\ (y' = y \/ y' < low + 100).
Proof.
  intros HL Hl. induction f as [|f IH]; intros y Hf Hy; cbn [add_centuries].
  - replace (y <? low) with false by (symmetry; apply Z.ltb_ge; lia). exists y. repeat split; try lia.
  - destruct (y <? low) eqn:E; [|exists y; apply Z.ltb_ge in E; repeat split; lia]. apply Z.ltb_lt in E.
    rewrite ev_val by (cbn [safe val]; unfold fits; repeat split; lia). cbn [obind val].
    destruct (Z_lt_le_dec (y + 100) 1000000001) as [B|B].
    + destruct (IH (y + 100)) as (y' & E1 & E2 & E3 & E4 & E5); [lia|lia|]. exists y'. split; [assumption|].
      split; [rewrite E2; replace (y + 100) with (y + 1 * 100) by lia; apply Z.mod_add; lia|]. repeat split; try lia.
    + exists (y + 100). destruct f; cbn [add_centuries];
      (replace (y + 100 <? low) with false by (symmetry; apply Z.ltb_ge; lia); split; [reflexivity|];
       split; [replace (y + 100) with (y + 1 * 100) by lia; apply Z.mod_add; lia|]; repeat split; lia).
Qed.
Lemma mod_window a b lo : lo <= a < lo + 100 -> lo <= b < lo + 100 -> a mod 100 = b mod 100 -> a = b.
Proof. intros Ha Hb H. pose proof (Z.div_mod a 100). pose proof (Z.div_mod b 100). lia. Qed.
Lemma two_digit_ok L now dfuel ph fmt y y' : long_ok L -> 0 <= y -> year_meant now fmt y y' ->
  two_digit_year {| e_long := L; e_now := now; e_fuel := dfuel; e_phase := ph |} fmt false y = Ret y'.
Proof.
  intros HL Hy H. unfold two_digit_year, year_meant in *. change (flag fmt TWO_DIGIT_YEAR) with (two_digit_years fmt).
  cbn [negb e_now e_long]. rewrite andb_true_r.
  destruct (two_digit_years fmt); [|rewrite andb_false_r; cbn [andb] in H; now subst].
  cbn [andb] in H. rewrite andb_true_r. destruct ((0 <? y) && (y <? 100)) eqn:E; [|now subst].
  apply andb_true_iff in E. rewrite !Z.ltb_lt in E. destruct H as (Hn & Hm & Hw). cbv zeta in Hw.
  assert (B : 0 <= now / 31557600 <= 31688087).
  { split; [apply Z.div_pos; lia|]. enough (now / 31557600 < 31688088) by lia. apply Z.div_lt_upper_bound; lia. }
  rewrite Z.quot_div_nonneg by lia. rewrite wrap32_id by lia. set (ty := now / 31557600) in *.
  rewrite ev_val by (cbn [safe val]; unfold fits, IMAX; repeat split; lia). cbn [obind val].
  unfold long_ok in HL.
  rewrite ev_val by (cbn [safe val]; unfold fits; repeat split; lia). cbn [obind val].
  destruct (add_centuries_ok L (1970 + ty - 60) HL ltac:(lia) (Z.to_nat (1970 + ty - 60 - (y + 1900))) (y + 1900)) as (z & E1 & E2 & E3 & E4 & E5); [lia|lia|].
  rewrite E1. f_equal. apply (mod_window z y' (1970 + ty - 60)); [lia|lia|]. rewrite E2, Hm.
  replace (y + 1900) with (y + 19 * 100) by lia. rewrite Z.mod_add by lia. apply Z.mod_small. lia.
Qed.
Lemma number_nonneg s q : number_of s q -> (0 <= q)%Q.
Proof.
  intros [(v & H & ->)|(a & b & v & Hd & _ & _ & Hv & ->)].
  - apply (inj_le 0). apply (digits_bound s v H).
  - unfold Qle. cbn [Qnum Qden]. pose proof (dig_val_nonneg (a ++ b) 0 ltac:(lia)). lia.
Qed.
Definition mpos (m1 m2 m3 : bool) : Z := if m3 then 3 else if m2 then 2 else if m1 then 1 else 0.
Definition dpos (f1 f2 f3 : list Z) : Z := if has_dot f3 then 3 else if has_dot f2 then 2 else if has_dot f1 then 1 else 0.
Lemma answer_ok E y m q : long_ok (e_long E) -> 0 <= y < 1000000000 -> 0 <= m < 1000000000 ->
  answer E (inject_Z y) (inject_Z m) q = Ret (y, m, q).
Proof.
  unfold long_ok. intros HL Hy Hm. unfold answer. rewrite floor_half. rewrite chk_ok by (unfold fits; lia). cbn [obind].
  unfold to_integer. rewrite trunc_half by lia. rewrite chk_ok by (unfold fits, IMAX; lia). reflexivity.
Qed.
Lemma three_reads L now ph t0 txt fmt f1 q1 m1 f2 q2 m2 f3 q3 m3 s clk secs y y' m q jd :
  start_ok L t0 fmt -> text txt (f1 ++ s :: f2 ++ s :: f3 ++ clk) ->
  fld f1 q1 m1 -> fld f2 q2 m2 -> fld f3 q3 m3 -> date_sep s -> (List.length f1 <= 9)%nat -> clock_suffix clk secs ->
  (forall E, e_long E = L -> choose E fmt q1 q2 q3 (mpos m1 m2 m3) (dpos f1 f2 f3) = answer E (inject_Z y) (inject_Z m) q) ->
  year_meant now fmt y y' -> 0 <= y < 1000000000 -> 0 <= m < 1000000000 -> (0 <= q)%Q -> (q <= 32)%Q ->
  dmy_to_day L (Qfloor q) m y' (calendar_of fmt) = Ret jd -> jd_ok L jd ->
  reads L now ph t0 txt fmt (instant jd secs + day_fraction q)%Q 0.
Proof.
  intros HS HT F1 F2 F3 Hs L1 Hc Hch Hy Hyr Hmr Hq0 Hq Hj Hjd.
  destruct (split_some L t0 fmt HS) as (N & HN). exists (S (S N)). intros fuel dfuel Hf Hdf.
  destruct fuel as [|[|fuel]]; [lia|lia|].
  rewrite (run_date fuel _ t0 txt _ fmt HT);
    [|eapply three_ordinary; eassumption|eapply fld_no_keyword; eassumption].
  destruct (three_fields_run L now dfuel ph t0 fmt f1 q1 m1 f2 q2 m2 f3 q3 m3 s clk secs F1 F2 F3 Hs L1 Hc (HN now ph dfuel ltac:(lia)))
    as (h & b & y0 & d0 & Hh & Ht & ->).
  assert (L2 : (List.length f2 < 80)%nat).
  { destruct HT as (_ & _ & _ & _ & _ & K). rewrite app_length in K. cbn [List.length] in K. rewrite app_length in K. lia. }
  rewrite (date_fields_three _ fmt f1 q1 m1 f2 q2 m2 f3 q3 m3) by (assumption || lia).
  fold (mpos m1 m2 m3). fold (dpos f1 f2 f3).
  destruct HS as (HL & _). rewrite Hch by reflexivity. rewrite answer_ok by assumption. cbn [obind].
  rewrite (two_digit_ok L now dfuel ph fmt y y') by (assumption || lia). cbn [obind].
  destruct (finish_frac {| e_long := L; e_now := now; e_fuel := dfuel; e_phase := ph |} fmt y' m q h b jd secs) as (r & -> & Hr); try assumption.
  { eapply Qle_trans; [exact Hq|discriminate]. }
  cbn [obind]. exists r. split; [reflexivity|assumption].
Qed.
(** ---- the values ---- *)
Lemma year_vals y : 33 <= y -> year_val (inject_Z y).
Proof.
  intro H. unfold year_val. rewrite !qlt_false, qlt_true. repeat split.
  - apply (inj_le 0). lia.
  - apply (inj_lt 32). lia.
  - apply (inj_le 32). lia.
Qed.
Lemma small_vals z : 0 <= z <= 32 -> small_val (inject_Z z).
Proof.
  intro H. unfold small_val. rewrite !qlt_false. split; [apply (inj_le 0); lia|apply (inj_le z 32); lia].
Qed.
Lemma small_day q : (0 <= q)%Q -> (q <= 32)%Q -> small_val q.
Proof. intros H1 H2. unfold small_val. rewrite !qlt_false. tauto. Qed.
Lemma max_last fmt : max_month (Z.land fmt CALENDAR_MASK) = last_month fmt.
Proof. reflexivity. Qed.
Lemma last_month_range fmt : 12 <= last_month fmt <= 13.
Proof. unfold last_month. destruct (_ || _); lia. Qed.
Lemma month_not_day fmt m : m <= last_month fmt -> looks_day fmt (inject_Z m) = false.
Proof.
  intro H. unfold looks_day. rewrite max_last. apply andb_false_iff. left. rewrite qlt_false.
  apply Qle_trans with (inject_Z (last_month fmt)); [now apply inj_le|].
  rewrite <- (Qplus_0_r (inject_Z (last_month fmt))) at 1. apply Qplus_le_r. discriminate.
Qed.
Lemma day_looks fmt q : (inject_Z (last_month fmt + 1) <= q)%Q -> (q < 32)%Q -> looks_day fmt q = true.
Proof.
  intros H1 H2. unfold looks_day. rewrite max_last. apply andb_true_iff. rewrite !qlt_true. split; [|assumption].
  eapply Qlt_le_trans; [|exact H1]. rewrite inject_Z_plus. apply Qplus_lt_r. reflexivity.
Qed.
Lemma perm_orders order : Permutation order [Year; Month; Day] ->
  order = [Year; Month; Day] \/ order = [Year; Day; Month] \/ order = [Month; Year; Day] \/
  order = [Month; Day; Year] \/ order = [Day; Year; Month] \/ order = [Day; Month; Year].
Proof.
  intro H. pose proof (Permutation_length H) as K. destruct order as [|a [|b [|c [|? ?]]]]; try discriminate.
  assert (I1 : In Year [a; b; c]) by (eapply Permutation_in; [apply Permutation_sym; exact H|now left]).
  assert (I2 : In Month [a; b; c]) by (eapply Permutation_in; [apply Permutation_sym; exact H|now right; left]).
  assert (I3 : In Day [a; b; c]) by (eapply Permutation_in; [apply Permutation_sym; exact H|now right; right; left]).
  cbn [In] in *. destruct a, b, c; intuition congruence.
Qed.
Lemma digits_fld s v : digits_of s v -> fld s (inject_Z v) false.
Proof.
  intro H. left. split; [reflexivity|]. split; [now apply digits_number|]. destruct H as (Hn & Hd & _).
  destruct (exists_last Hn) as (p & c & ->). rewrite last_last. apply Hd. apply in_or_app. right. now left.
Qed.
Lemma digits_dot s v : digits_of s v -> has_dot s = false.
Proof. intros (_ & H & _). apply existsb_notin. intro K. specialize (H _ K). discriminate. Qed.
Lemma day_fld s q : day_text s q -> fld s q false.
Proof. intros (H1 & H2 & _). left. tauto. Qed.
Lemma month_fld s m : In (s, m) month_texts -> fld s (inject_Z m) true.
Proof. intro H. right. split; [reflexivity|]. exists m. tauto. Qed.
Lemma month_dot s m : In (s, m) month_texts -> has_dot s = false.
Proof. intro H. eapply fld_dot. eapply month_fld. eassumption. Qed.
Lemma month_len s m : In (s, m) month_texts -> (List.length s <= 9)%nat.
Proof.
  intro H. pose proof (month_forall (fun s _ => (List.length s <=? 9)%nat) s m H eq_refl) as K. now apply Nat.leb_le in K.
Qed.
(** Putting the parts in their places: what is needed of the choice. *)
Lemma orders_reads L now ph t0 txt fmt ys ms ds mo sep order clk secs y y' m q jd :
  start_ok L t0 fmt -> separator sep -> Permutation order [Year; Month; Day] ->
  text txt (written sep (tx ys ms ds) order ++ clk) -> clock_suffix clk secs ->
  year_text ys y -> fld ms (inject_Z m) mo -> has_dot ms = false -> (List.length ms <= 9)%nat -> day_text ds q ->
  year_meant now fmt y y' -> 0 <= m < 1000000000 ->
  let val p := match p with Year => inject_Z y | Month => inject_Z m | Day => q end in
  let is_m p := match p with Month => mo | _ => false end in
  (forall E a b c, e_long E = L -> order = [a; b; c] ->
     choose E fmt (val a) (val b) (val c) (mpos (is_m a) (is_m b) (is_m c))
       (dpos (tx ys ms ds a) (tx ys ms ds b) (tx ys ms ds c)) = answer E (inject_Z y) (inject_Z m) q) ->
  dmy_to_day L (Qfloor q) m y' (calendar_of fmt) = Ret jd -> jd_ok L jd ->
  reads L now ph t0 txt fmt (instant jd secs + day_fraction q)%Q 0.
Proof.
  intros HS Hsep Hp HT Hc (Hy & Ly) Fm Dm Lm Hd HY Hm val is_m Hch Hj Hjd.
  pose proof (day_fld ds q Hd) as Fd. pose proof (digits_fld ys y Hy) as Fy.
  pose proof Hd as (Nd & _ & Ld & Qd). pose proof (number_nonneg ds q Nd) as Q0. pose proof (short_digits ys y Hy Ly) as By.
  assert (X : exists a b c, order = [a; b; c]).
  { pose proof (Permutation_length Hp) as K. destruct order as [|a [|b [|c [|? ?]]]]; try discriminate. eauto. }
  destruct X as (a & b & c & Eo).
  assert (F : forall p, fld (tx ys ms ds p) (val p) (is_m p)) by (intros []; assumption).
  assert (Ln : forall p, (List.length (tx ys ms ds p) <= 9)%nat) by (intros []; assumption).
  apply (three_reads L now ph t0 txt fmt (tx ys ms ds a) (val a) (is_m a) (tx ys ms ds b) (val b) (is_m b)
           (tx ys ms ds c) (val c) (is_m c) sep clk secs y y' m q jd); try assumption; try apply F; try apply Ln.
  - subst order. unfold written in HT. cbn [map concat] in HT. rewrite app_nil_r in HT.
    repeat (rewrite <- app_assoc in HT; cbn [app] in HT). exact HT.
  - intros E HE. now apply Hch.
Qed.

(** ---- the month is named, the year is 33 or more ---- *)
Ltac roles_of a b c :=
  eapply three_answer with (y := a) (m := b) (d := c); [unfold roles; cbn [Z.eqb Pos.eqb andb orb]; try reflexivity|reflexivity|reflexivity|reflexivity|reflexivity].
Lemma month_name_ok L now ph t0 txt fmt ys ms ds sep order clk secs y y' m q jd :
  start_ok L t0 fmt -> separator sep -> Permutation order [Year; Month; Day] ->
  text txt (written sep (tx ys ms ds) order ++ clk) -> clock_suffix clk secs ->
  year_text ys y -> 33 <= y -> In (ms, m) month_texts -> day_text ds q ->
  year_meant now fmt y y' -> dmy_to_day L (Qfloor q) m y' (calendar_of fmt) = Ret jd -> jd_ok L jd ->
  reads L now ph t0 txt fmt (instant jd secs + day_fraction q)%Q 0.
Proof.
  intros HS Hsep Hp HT Hc Hy H33 Hm Hd HY Hj Hjd. pose proof (month_range ms m Hm) as Rm.
  eapply (orders_reads L now ph t0 txt fmt ys ms ds true); try eassumption;
    [now apply month_fld|eapply month_dot; eassumption|eapply month_len; eassumption|lia|].
  intros E a b c HE Eo. pose proof (year_vals y H33) as Vy. pose proof (small_vals m ltac:(lia)) as Vm.
  destruct Hd as (Nd & _ & _ & Qd). pose proof (small_day q (number_nonneg ds q Nd) Qd) as Vd.
  pose proof (last_month_range fmt). pose proof (month_not_day fmt m ltac:(lia)) as Xm.
  destruct Hy as [Hy _]. pose proof (digits_dot ys y Hy) as Dy. pose proof (month_dot ms m Hm) as Dm.
  destruct (choose_year E fmt
    (match a with Year => inject_Z y | Month => inject_Z m | Day => q end)
    (match b with Year => inject_Z y | Month => inject_Z m | Day => q end)
    (match c with Year => inject_Z y | Month => inject_Z m | Day => q end)
    (mpos (match a with Month => true | _ => false end) (match b with Month => true | _ => false end) (match c with Month => true | _ => false end))
    (dpos (tx ys ms ds a) (tx ys ms ds b) (tx ys ms ds c)) I) as (C1 & C2 & C3 & _).
  destruct (perm_orders order Hp) as [P|[P|[P|[P|[P|P]]]]]; rewrite P in Eo; injection Eo as <- <- <-; cbn [tx] in *;
    unfold dpos, mpos in *; rewrite ?Dy, ?Dm in *.
  - rewrite C1 by assumption. rewrite Xm. destruct (has_dot ds), (looks_day fmt q); roles_of 1 2 3.
  - rewrite C1 by assumption. rewrite Xm. destruct (has_dot ds), (looks_day fmt q); roles_of 1 3 2.
  - rewrite C2 by assumption. rewrite Xm. destruct (has_dot ds), (looks_day fmt q); roles_of 2 1 3.
  - rewrite C3 by assumption. rewrite Xm. destruct (has_dot ds), (looks_day fmt q); roles_of 3 1 2.
  - rewrite C2 by assumption. rewrite Xm. destruct (has_dot ds), (looks_day fmt q); roles_of 2 3 1.
  - rewrite C3 by assumption. rewrite Xm. destruct (has_dot ds), (looks_day fmt q); roles_of 3 2 1.
Qed.
(** ---- the month is a number, the year is 33 or more ---- *)
Definition is_year (p : part) : bool := match p with Year => true | _ => false end.
Lemma numbers_ok L now ph t0 txt fmt ys ms ds sep order clk secs y y' m q jd :
  start_ok L t0 fmt -> separator sep -> Permutation order [Year; Month; Day] ->
  text txt (written sep (tx ys ms ds) order ++ clk) -> clock_suffix clk secs ->
  year_text ys y -> 33 <= y -> month_digits ms m -> m <= last_month fmt -> day_text ds q ->
  (In 46 ds \/ ((inject_Z (last_month fmt + 1) <= q)%Q /\ (q < 32)%Q) \/
   filter (fun p => match p with Year => false | _ => true end) order = if month_first fmt then [Month; Day] else [Day; Month]) ->
  year_meant now fmt y y' -> dmy_to_day L (Qfloor q) m y' (calendar_of fmt) = Ret jd -> jd_ok L jd ->
  reads L now ph t0 txt fmt (instant jd secs + day_fraction q)%Q 0.
Proof.
  intros HS Hsep Hp HT Hc Hy H33 (Hm & Lm) Hml Hd Hor HY Hj Hjd. pose proof (digits_bound ms m Hm) as [Rm _].
  pose proof (last_month_range fmt). pose proof (digits_dot ms m Hm) as Dm.
  eapply (orders_reads L now ph t0 txt fmt ys ms ds false); try eassumption;
    [now apply digits_fld|lia|].
  intros E a b c HE Eo. pose proof (year_vals y H33) as Vy. pose proof (small_vals m ltac:(lia)) as Vm.
  destruct Hd as (Nd & _ & _ & Qd). pose proof (small_day q (number_nonneg ds q Nd) Qd) as Vd.
  pose proof (month_not_day fmt m ltac:(lia)) as Xm.
  destruct Hy as [Hy _]. pose proof (digits_dot ys y Hy) as Dy.
  assert (Hor' : has_dot ds = true \/ looks_day fmt q = true \/
    filter (fun p => match p with Year => false | _ => true end) order = if flag fmt MONTH_DAY then [Month; Day] else [Day; Month]).
  { destruct Hor as [K|[[K1 K2]|K]]; [left; now apply existsb_in|right; left; now apply day_looks|right; right; exact K]. }
  destruct (choose_year E fmt
    (match a with Year => inject_Z y | Month => inject_Z m | Day => q end)
    (match b with Year => inject_Z y | Month => inject_Z m | Day => q end)
    (match c with Year => inject_Z y | Month => inject_Z m | Day => q end)
    (mpos (match a with Month => false | _ => false end) (match b with Month => false | _ => false end) (match c with Month => false | _ => false end))
    (dpos (tx ys ms ds a) (tx ys ms ds b) (tx ys ms ds c)) I) as (C1 & C2 & C3 & _).
  destruct (perm_orders order Hp) as [P|[P|[P|[P|[P|P]]]]]; rewrite P in Eo, Hor'; injection Eo as <- <- <-; cbn [tx] in *;
    unfold dpos, mpos in *; rewrite ?Dy, ?Dm in *; cbn [filter] in Hor'.
  - rewrite C1 by assumption. rewrite Xm.
    destruct (has_dot ds), (looks_day fmt q), (flag fmt MONTH_DAY) eqn:EF; try (exfalso; intuition congruence);
    (eapply three_answer with (y := 1) (m := 2) (d := 3); [unfold roles; rewrite EF; reflexivity|reflexivity|reflexivity|reflexivity|reflexivity]).
  - rewrite C1 by assumption. rewrite Xm.
    destruct (has_dot ds), (looks_day fmt q), (flag fmt MONTH_DAY) eqn:EF; try (exfalso; intuition congruence);
    (eapply three_answer with (y := 1) (m := 3) (d := 2); [unfold roles; rewrite EF; reflexivity|reflexivity|reflexivity|reflexivity|reflexivity]).
  - rewrite C2 by assumption. rewrite Xm.
    destruct (has_dot ds), (looks_day fmt q), (flag fmt MONTH_DAY) eqn:EF; try (exfalso; intuition congruence);
    (eapply three_answer with (y := 2) (m := 1) (d := 3); [unfold roles; rewrite EF; reflexivity|reflexivity|reflexivity|reflexivity|reflexivity]).
  - rewrite C3 by assumption. rewrite Xm.
    destruct (has_dot ds), (looks_day fmt q), (flag fmt MONTH_DAY) eqn:EF; try (exfalso; intuition congruence);
    (eapply three_answer with (y := 3) (m := 1) (d := 2); [unfold roles; rewrite EF; reflexivity|reflexivity|reflexivity|reflexivity|reflexivity]).
  - rewrite C2 by assumption. rewrite Xm.
    destruct (has_dot ds), (looks_day fmt q), (flag fmt MONTH_DAY) eqn:EF; try (exfalso; intuition congruence);
    (eapply three_answer with (y := 2) (m := 3) (d := 1); [unfold roles; rewrite EF; reflexivity|reflexivity|reflexivity|reflexivity|reflexivity]).
  - rewrite C3 by assumption. rewrite Xm.
    destruct (has_dot ds), (looks_day fmt q), (flag fmt MONTH_DAY) eqn:EF; try (exfalso; intuition congruence);
    (eapply three_answer with (y := 3) (m := 2) (d := 1); [unfold roles; rewrite EF; reflexivity|reflexivity|reflexivity|reflexivity|reflexivity]).
Qed.
(** ---- the year is below 33: the order decides ---- *)
Lemma small_year_ok L now ph t0 txt fmt ys ms ds sep order clk secs y y' m q jd :
  start_ok L t0 fmt -> separator sep -> Permutation order [Year; Month; Day] ->
  text txt (written sep (tx ys ms ds) order ++ clk) -> clock_suffix clk secs ->
  year_text ys y -> y <= 32 -> month_digits ms m -> m <= 32 -> day_text ds q ->
  (~ In 46 ds /\ order = default_order fmt \/
   In 46 ds /\ (order = [Day; Month; Year] \/ order = [Year; Month; Day] \/
                order = if year_first fmt then [Year; Day; Month] else [Month; Day; Year])) ->
  year_meant now fmt y y' -> dmy_to_day L (Qfloor q) m y' (calendar_of fmt) = Ret jd -> jd_ok L jd ->
  reads L now ph t0 txt fmt (instant jd secs + day_fraction q)%Q 0.
Proof.
  intros HS Hsep Hp HT Hc Hy H33 (Hm & Lm) Hml Hd Hor HY Hj Hjd. pose proof (digits_bound ms m Hm) as [Rm _].
  pose proof (digits_dot ms m Hm) as Dm.
  eapply (orders_reads L now ph t0 txt fmt ys ms ds false); try eassumption;
    [now apply digits_fld|lia|].
  intros E a b c HE Eo. destruct Hy as [Hy _]. pose proof (digits_bound ys y Hy) as [Ry _].
  pose proof (small_vals y ltac:(lia)) as Vy. pose proof (small_vals m ltac:(lia)) as Vm.
  destruct Hd as (Nd & _ & _ & Qd). pose proof (small_day q (number_nonneg ds q Nd) Qd) as Vd.
  pose proof (digits_dot ys y Hy) as Dy.
  assert (Hor' : has_dot ds = false /\ order = default_order fmt \/ has_dot ds = true /\
     (order = [Day; Month; Year] \/ order = [Year; Month; Day] \/ order = if flag fmt YEAR_FIRST then [Year; Day; Month] else [Month; Day; Year])).
  { destruct Hor as [[K1 K2]|[K1 K2]]; [left|right]; (split; [|assumption]); [now apply existsb_notin|now apply existsb_in]. }
  unfold default_order in Hor'. change (year_first fmt) with (flag fmt YEAR_FIRST) in Hor'. change (month_first fmt) with (flag fmt MONTH_DAY) in Hor'.
  destruct (choose_year E fmt
    (match a with Year => inject_Z y | Month => inject_Z m | Day => q end)
    (match b with Year => inject_Z y | Month => inject_Z m | Day => q end)
    (match c with Year => inject_Z y | Month => inject_Z m | Day => q end)
    (mpos (match a with Month => false | _ => false end) (match b with Month => false | _ => false end) (match c with Month => false | _ => false end))
    (dpos (tx ys ms ds a) (tx ys ms ds b) (tx ys ms ds c)) I) as (_ & _ & _ & C4).
  destruct (perm_orders order Hp) as [P|[P|[P|[P|[P|P]]]]]; rewrite P in Eo, Hor'; injection Eo as <- <- <-; cbn [tx] in *;
    unfold dpos, mpos in *; rewrite ?Dy, ?Dm in *; rewrite C4 by assumption; clear - Hor';
    destruct (has_dot ds), (flag fmt MONTH_DAY) eqn:EF, (flag fmt YEAR_FIRST) eqn:EG; try (exfalso; intuition congruence).
  all: try (eapply three_answer with (y := 1) (m := 2) (d := 3); [unfold roles; rewrite EF, EG; reflexivity|reflexivity|reflexivity|reflexivity|reflexivity]; fail).
  all: try (eapply three_answer with (y := 1) (m := 3) (d := 2); [unfold roles; rewrite EF, EG; reflexivity|reflexivity|reflexivity|reflexivity|reflexivity]; fail).
  all: try (eapply three_answer with (y := 3) (m := 1) (d := 2); [unfold roles; rewrite EF, EG; reflexivity|reflexivity|reflexivity|reflexivity|reflexivity]; fail).
  all: try (eapply three_answer with (y := 3) (m := 2) (d := 1); [unfold roles; rewrite EF, EG; reflexivity|reflexivity|reflexivity|reflexivity|reflexivity]; fail).
Qed.
(** ---- the month is named, the year is below 33 ---- *)
Lemma small_year_name_ok L now ph t0 txt fmt ys ms ds sep order clk secs y y' m q jd :
  start_ok L t0 fmt -> separator sep ->
  In order [[Month; Day; Year]; [Year; Day; Month]; if year_first fmt then [Year; Month; Day] else [Day; Month; Year]] ->
  text txt (written sep (tx ys ms ds) order ++ clk) -> clock_suffix clk secs ->
  year_text ys y -> y <= 32 -> In (ms, m) month_texts -> day_text ds q -> ~ In 46 ds ->
  year_meant now fmt y y' -> dmy_to_day L (Qfloor q) m y' (calendar_of fmt) = Ret jd -> jd_ok L jd ->
  reads L now ph t0 txt fmt (instant jd secs + day_fraction q)%Q 0.
Proof.
  intros HS Hsep Ho HT Hc Hy H33 Hm Hd H46 HY Hj Hjd. pose proof (month_range ms m Hm) as Rm.
  assert (Hp : Permutation order [Year; Month; Day]).
  { cbn [In] in Ho. assert (T : forall x y z : part, Permutation [x; y; z] [y; x; z]) by (intros; apply perm_swap).
    assert (P1 : Permutation [Month; Day; Year] [Year; Month; Day]) by (apply Permutation_sym; apply (Permutation_cons_append [Month; Day] Year)).
    destruct Ho as [<-|[<-|[<-|[]]]]; [assumption|apply perm_skip; apply perm_swap|].
    destruct (year_first fmt); [apply Permutation_refl|]. eapply Permutation_trans; [apply T|]. exact P1. }
  eapply (orders_reads L now ph t0 txt fmt ys ms ds true); try eassumption;
    [now apply month_fld|eapply month_dot; eassumption|eapply month_len; eassumption|lia|].
  intros E a b c HE Eo. destruct Hy as [Hy _]. pose proof (digits_bound ys y Hy) as [Ry _].
  pose proof (small_vals y ltac:(lia)) as Vy. pose proof (small_vals m ltac:(lia)) as Vm.
  destruct Hd as (Nd & _ & _ & Qd). pose proof (small_day q (number_nonneg ds q Nd) Qd) as Vd.
  pose proof (digits_dot ys y Hy) as Dy. pose proof (month_dot ms m Hm) as Dm.
  assert (Dd : has_dot ds = false) by now apply existsb_notin.
  destruct (choose_year E fmt
    (match a with Year => inject_Z y | Month => inject_Z m | Day => q end)
    (match b with Year => inject_Z y | Month => inject_Z m | Day => q end)
    (match c with Year => inject_Z y | Month => inject_Z m | Day => q end)
    (mpos (match a with Month => true | _ => false end) (match b with Month => true | _ => false end) (match c with Month => true | _ => false end))
    (dpos (tx ys ms ds a) (tx ys ms ds b) (tx ys ms ds c)) I) as (_ & _ & _ & C4).
  change (year_first fmt) with (flag fmt YEAR_FIRST) in Ho.
  cbn [In] in Ho. destruct Ho as [P|[P|[P|[]]]].
  - rewrite <- P in Eo; injection Eo as <- <- <-; cbn [tx] in *; unfold dpos, mpos in *; rewrite ?Dy, ?Dm, ?Dd in *; rewrite C4 by assumption.
    eapply three_answer with (y := 3) (m := 1) (d := 2); reflexivity.
  - rewrite <- P in Eo; injection Eo as <- <- <-; cbn [tx] in *; unfold dpos, mpos in *; rewrite ?Dy, ?Dm, ?Dd in *; rewrite C4 by assumption.
    eapply three_answer with (y := 1) (m := 3) (d := 2); reflexivity.
  - destruct (flag fmt YEAR_FIRST) eqn:EG; rewrite <- P in Eo; injection Eo as <- <- <-; cbn [tx] in *; unfold dpos, mpos in *; rewrite ?Dy, ?Dm, ?Dd in *; rewrite C4 by assumption.
    + eapply three_answer with (y := 1) (m := 2) (d := 3); [unfold roles; rewrite EG; reflexivity|reflexivity|reflexivity|reflexivity|reflexivity].
    + eapply three_answer with (y := 3) (m := 2) (d := 1); [unfold roles; rewrite EG; reflexivity|reflexivity|reflexivity|reflexivity|reflexivity].
Qed.
