(** Proofs of the theorems stated in [PropTstr]. *)
From Coq Require Import Lia QArith Qround Qabs Permutation.
From Coq Require Import String.
From Verif Require Import CBase CStr CLemmas DateModel DateVocab TstrModel TstrSpec TstrCopy TstrOff TstrRead TstrForms TstrTwo TstrWords TstrKeys TstrBad TstrMore.
Local Open Scope string_scope.
Local Open Scope list_scope.
Local Open Scope Z_scope.

(** ---- for the examples ---- *)
Definition text_b (txt norm : list Z) : bool :=
  forallb (fun c => negb (c =? 0)) txt && negb (hd 0 txt =? 32) && (0 <? Z.of_nat (List.length txt)) &&
  (Z.of_nat (List.length txt) <? 80) && (if list_eq_dec Z.eq_dec (spread txt) norm then true else false) &&
  (Z.of_nat (List.length norm) <=? 79).
Lemma nul_eval txt : forallb (fun c => negb (c =? 0)) txt = true -> no_nul txt.
Proof. intros H c Hc. rewrite forallb_forall in H. specialize (H c Hc). apply negb_true_iff, Z.eqb_neq in H. exact H. Qed.
Lemma text_eval txt norm : text_b txt norm = true -> text txt norm.
Proof.
  unfold text_b. rewrite !andb_true_iff. intros (((((H1 & H2) & H3) & H4) & H5) & H6).
  destruct (list_eq_dec _ _ _) as [E|]; [|discriminate]. apply negb_true_iff, Z.eqb_neq in H2. apply Z.ltb_lt in H3, H4. apply Z.leb_le in H6.
  split; [now apply nul_eval|]. split; [assumption|]. split; [intros ->; cbn in H3; lia|]. split; [lia|]. split; [assumption|lia].
Qed.
Definition digits_b (s : list Z) (v : Z) : bool := negb (Nat.eqb (List.length s) 0) && forallb isdigit s && (dig_val 0 s =? v).
Lemma digits_eval s v : digits_b s v = true -> digits_of s v.
Proof.
  unfold digits_b. rewrite !andb_true_iff. intros ((H1 & H2) & H3). apply Z.eqb_eq in H3. split; [intros ->; discriminate|].
  split; [intros c Hc; rewrite forallb_forall in H2; now apply H2|assumption].
Qed.
Lemma number_int s v : digits_b s v = true -> number_of s (inject_Z v).
Proof. intro H. left. exists v. split; [now apply digits_eval|reflexivity]. Qed.
Lemma number_dec a b v : digits_b (a ++ b) v = true -> number_of (a ++ 46 :: b) (v # Z.to_pos (10 ^ Z.of_nat (List.length b)))%Q.
Proof.
  intro H. apply digits_eval in H. destruct H as (H1 & H2 & H3). right. exists a, b, v. repeat split; assumption.
Qed.
Lemma split_int s v : digits_b s v = true -> split_number s (List.length s) v 0%Q.
Proof. intro H. exists s. split; [now apply digits_eval|]. split; [reflexivity|]. left. now split. Qed.
Lemma split_dec a b v w : digits_b a v = true -> digits_b b w = true -> (List.length b <= 9)%nat ->
  split_number (a ++ 46 :: b) (List.length a) v (w # Z.to_pos (10 ^ Z.of_nat (List.length b)))%Q.
Proof. intros H K Hl. exists a. split; [now apply digits_eval|]. split; [reflexivity|]. right. exists b, w. split; [now apply digits_eval|]. now repeat split. Qed.
Lemma clock2 h m hv mv : digits_b h hv = true -> digits_b m mv = true -> (List.length h <= 4)%nat ->
  clock_text (h ++ 58 :: m) (inject_Z (hv * 3600 + mv * 60)).
Proof. intros H K Hl. exists h, hv, m, mv. split; [now apply digits_eval|]. split; [now apply digits_eval|]. split; [assumption|]. left. now split. Qed.
Lemma clock3 h m x hv mv q : digits_b h hv = true -> digits_b m mv = true -> (List.length h <= 4)%nat -> number_of x q ->
  clock_text (h ++ 58 :: m ++ 58 :: x) (inject_Z (hv * 3600 + mv * 60) + q)%Q.
Proof. intros H K Hl N. exists h, hv, m, mv. split; [now apply digits_eval|]. split; [now apply digits_eval|]. split; [assumption|]. right. exists x, q. now repeat split. Qed.
Lemma no_clock : clock_suffix [] 0%Q.
Proof. left. now split. Qed.
Lemma with_clock c t : clock_text c t -> clock_suffix (32 :: c) t.
Proof. intro H. right. exists c. now split. Qed.
Lemma start_0 fmt : calendar_of fmt <> CALENDAR_CHINESE -> start_ok LMAX64 0 fmt.
Proof. intro H. split; [unfold long_ok, LMAX64; lia|]. split; [vm_compute; discriminate|assumption]. Qed.
Lemma jd_eval L jd : (2 * Z.abs jd + 20000000 <=? L) = true -> jd_ok L jd.
Proof. apply Z.leb_le. Qed.
Lemma dot_free s : existsb (Z.eqb 46) s = false -> ~ In 46 s.
Proof. intros H K. enough (existsb (Z.eqb 46) s = true) by congruence. apply existsb_exists. exists 46. split; [assumption|reflexivity]. Qed.
Ltac teval := apply text_eval; vm_compute; reflexivity.
Ltac deval := apply digits_eval; vm_compute; reflexivity.
Ltac small := vm_compute; lia.
Ltac concrete := exists 12%nat; let f := fresh in let d := fresh in intros f d ? ?;
  do 12 (destruct f as [|f]; [lia|]); do 12 (destruct d as [|d]; [lia|]).

Lemma C42_copy_proof :
  forall txt, no_nul txt -> let s := drop_spaces txt in
  ((s = [] \/ (80 <= List.length s)%nat) -> copy_text txt = Ret None) /\
  (s <> [] -> (List.length s < 80)%nat -> overruns s -> copy_text txt = UB) /\
  (s <> [] -> (List.length s < 80)%nat -> ~ overruns s ->
     exists r, copy_text txt = Ret (Some r) /\ r = trim_end (firstn 79 (spread s)) /\ (List.length r <= 79)%nat /\ no_nul r).
Proof.
  intros txt Hn s. split; [apply copy_reject|]. split.
  - intros H1 H2. exact (proj1 (copy_cases txt Hn H1 H2)).
  - intros H1 H2 H3. destruct (proj2 (copy_cases txt Hn H1 H2) H3) as (A & B0 & C). eexists. now repeat split.
Qed.

Lemma C42_long_text_proof :
  forall L now ph t0 txt fmt, drop_spaces txt = [] \/ (80 <= List.length (drop_spaces txt))%nat ->
  reads L now ph t0 txt fmt t0 (-3).
Proof.
exact reject_reads.
Qed.

Lemma C42_pieces_proof :
  forall str, (List.length str <= 79)%nat ->
  (forall fuel o r o', offsets fuel str o = Ret (r, o') -> (List.length r <= List.length str)%nat) /\
  (List.length (fst (check_for_bc str)) <= List.length str)%nat /\
  (forall E t0 r u s t, keywords E t0 str = Ret (r, u, s, t) -> (List.length s <= List.length str)%nat) /\
  (forall r, dots_to_slashes str = Ret r -> List.length r = List.length str) /\
  (List.length (fst (am_pm str)) <= List.length str)%nat /\
  (forall ap h m x r h' m' x', clock str ap h m x = Ret (r, h', m', x') -> (List.length r <= List.length str)%nat) /\
  (forall i j, to_tstr (firstn i str) = Ret (firstn i str) /\
     to_tstr (firstn j (skipn (i + 1) str)) = Ret (firstn j (skipn (i + 1) str))).
Proof.
  intros str H. split; [intros; eapply offsets_len; eassumption|]. split; [apply bc_len|]. split; [intros; eapply keywords_len; eassumption|].
  split; [intros; now apply dots_len|]. split; [apply ampm_len|]. split; [intros; eapply clock_len; eassumption|].
  intros i j. split; apply tstr_ok; [assumption|]. rewrite skipn_length. lia.
Qed.

Lemma C42_leading_spaces_proof :
  forall L now ph t0 txt fmt P, run L now ph t0 txt fmt P <-> run L now ph t0 (drop_spaces txt) fmt P.
Proof.
exact same_reading.
Qed.

Lemma C42_case_and_spacing_proof :
  forall L now ph t0 s1 s2 fmt P, no_nul s1 -> no_nul s2 -> hd 0 s1 <> 32 -> hd 0 s2 <> 32 -> s1 <> [] -> s2 <> [] ->
  (List.length s1 < 80)%nat -> (List.length s2 < 80)%nat -> ~ overruns s1 -> ~ overruns s2 ->
  trim_end (firstn 79 (spread s1)) = trim_end (firstn 79 (spread s2)) ->
  run L now ph t0 s1 fmt P <-> run L now ph t0 s2 fmt P.
Proof.
exact same_norm.
Qed.

Lemma C42_overrun_refuted_proof :
  (forall L now ph t0 txt fmt, no_nul txt -> drop_spaces txt <> [] -> (List.length (drop_spaces txt) < 80)%nat ->
     overruns (drop_spaces txt) -> crashes L now ph t0 txt fmt) /\
  (let txt := repeat 49 78 ++ zs "a" in no_nul txt /\ drop_spaces txt <> [] /\ (List.length (drop_spaces txt) < 80)%nat /\ overruns (drop_spaces txt)).
Proof.
  split; [exact overrun_crashes|]. cbv zeta. split; [apply nul_eval; reflexivity|]. split; [discriminate|]. split; [vm_compute; lia|].
  exists (repeat 49 77), 49, 97, []. split; [reflexivity|]. split; [|reflexivity]. split; [left; split; reflexivity|lia].
Qed.

Lemma C44_offsets_add_up_partial_proof :
  forall L now ph t0 b l fmt norm t u,
  text (b ++ texts l) norm -> b <> [] -> offset_texts l -> u <> -2 ->
  reads L now ph t0 b fmt t u -> reads L now ph t0 (b ++ texts l) fmt (t + total l) u.
Proof.
exact offsets_add_up.
Qed.

Lemma C44_signed_number_proof :
  forall L now ph t0 txt fmt sg n q, text txt (sg :: n) -> (sg = 43 \/ sg = 45) -> number_of n q -> ~ (t0 == - 2451545)%Q ->
  reads L now ph t0 txt fmt (t0 + (if (sg =? 45)%Z then - q else q))%Q 0.
Proof.
exact signed_ok.
Qed.

Lemma C44_hang_refuted_proof :
  (forall L now ph t0 txt fmt b sg n q c w u,
     text txt (b ++ sg :: n ++ 32 :: c :: w ++ [32; u]) -> (sg = 43 \/ sg = 45) -> number_of n q -> ~ (q == 0)%Q ->
     isspace c = false -> (forall x, In x (c :: w) -> x <> 43 /\ x <> 45) -> In u (zs "smhdwlyc") ->
     never_returns L now ph t0 txt fmt) /\
  (forall L now ph t0 fmt, never_returns L now ph t0 (zs "2024-01-05 3h") fmt).
Proof.
  split; [exact hang_ok|]. intros L now ph t0 fmt.
  apply (hang_ok L now ph t0 (zs "2024-01-05 3h") fmt (zs "2024-01") 45 (zs "05") 5 51 [] 104); try (now right); try reflexivity;
    [teval|apply (number_int (zs "05") 5); reflexivity|discriminate|intros x [<-|[]]; lia|cbn; tauto].
Qed.

Lemma C44_zero_offset_refuted_proof :
  forall now ph, reads LMAX64 now ph 0 (zs "12:00 +3h +0m") 0 (- (1 # 2)) 0 /\ reads LMAX64 now ph 0 (zs "12:00") 0 0 0 /\
    reads LMAX64 now ph 0 (zs "12:00 +3h") 0 (1 # 8) 0.
Proof.
  intros now ph. repeat split; concrete; eexists; (split; [vm_compute; reflexivity|reflexivity]).
Qed.

Lemma C45_named_month_proof :
  forall L now ph t0 txt fmt ys ms ds sep order clk secs y y' m q jd,
  start_ok L t0 fmt -> separator sep -> Permutation order [Year; Month; Day] ->
  text txt (written sep (tx ys ms ds) order ++ clk) -> clock_suffix clk secs ->
  year_text ys y -> 33 <= y -> In (ms, m) month_texts -> day_text ds q ->
  year_meant now fmt y y' -> dmy_to_day L (Qfloor q) m y' (calendar_of fmt) = Ret jd -> jd_ok L jd ->
  reads L now ph t0 txt fmt (instant jd secs + day_fraction q)%Q 0.
Proof.
exact month_name_ok.
Qed.

Lemma C45_numbers_proof :
  forall L now ph t0 txt fmt ys ms ds sep order clk secs y y' m q jd,
  start_ok L t0 fmt -> separator sep -> Permutation order [Year; Month; Day] ->
  text txt (written sep (tx ys ms ds) order ++ clk) -> clock_suffix clk secs ->
  year_text ys y -> 33 <= y -> month_digits ms m -> m <= last_month fmt -> day_text ds q ->
  (In 46 ds \/ ((inject_Z (last_month fmt + 1) <= q)%Q /\ (q < 32)%Q) \/
   filter (fun p => match p with Year => false | _ => true end) order = if month_first fmt then [Month; Day] else [Day; Month]) ->
  year_meant now fmt y y' -> dmy_to_day L (Qfloor q) m y' (calendar_of fmt) = Ret jd -> jd_ok L jd ->
  reads L now ph t0 txt fmt (instant jd secs + day_fraction q)%Q 0.
Proof.
exact numbers_ok.
Qed.

Lemma C45_small_year_proof :
  forall L now ph t0 txt fmt ys ms ds sep order clk secs y y' m q jd,
  start_ok L t0 fmt -> separator sep -> Permutation order [Year; Month; Day] ->
  text txt (written sep (tx ys ms ds) order ++ clk) -> clock_suffix clk secs ->
  year_text ys y -> y <= 32 -> month_digits ms m -> m <= 32 -> day_text ds q ->
  (~ In 46 ds /\ order = default_order fmt \/
   In 46 ds /\ (order = [Day; Month; Year] \/ order = [Year; Month; Day] \/
                order = if year_first fmt then [Year; Day; Month] else [Month; Day; Year])) ->
  year_meant now fmt y y' -> dmy_to_day L (Qfloor q) m y' (calendar_of fmt) = Ret jd -> jd_ok L jd ->
  reads L now ph t0 txt fmt (instant jd secs + day_fraction q)%Q 0.
Proof.
exact small_year_ok.
Qed.

Lemma C45_small_year_named_month_proof :
  forall L now ph t0 txt fmt ys ms ds sep order clk secs y y' m q jd,
  start_ok L t0 fmt -> separator sep ->
  In order [[Month; Day; Year]; [Year; Day; Month]; if year_first fmt then [Year; Month; Day] else [Day; Month; Year]] ->
  text txt (written sep (tx ys ms ds) order ++ clk) -> clock_suffix clk secs ->
  year_text ys y -> y <= 32 -> In (ms, m) month_texts -> day_text ds q -> ~ In 46 ds ->
  year_meant now fmt y y' -> dmy_to_day L (Qfloor q) m y' (calendar_of fmt) = Ret jd -> jd_ok L jd ->
  reads L now ph t0 txt fmt (instant jd secs + day_fraction q)%Q 0.
Proof.
exact small_year_name_ok.
Qed.

Lemma C45_named_month_and_day_proof :
  forall L now ph t0 txt fmt ms m ds q sep order clk secs d0 m0 y0 jd,
  date_of_start L t0 fmt d0 m0 y0 -> separator sep -> (order = [Month; Day] \/ order = [Day; Month]) ->
  text txt (written sep (tx [] ms ds) order ++ clk) -> clock_suffix clk secs ->
  In (ms, m) month_texts -> day_text ds q -> (1 <= q)%Q -> (q < 32)%Q ->
  two_digit_years fmt = false \/ y0 <= 0 \/ 100 <= y0 ->
  dmy_to_day L (Qfloor q) m y0 (calendar_of fmt) = Ret jd -> jd_ok L jd ->
  reads L now ph t0 txt fmt (instant jd secs + day_fraction q)%Q 0.
Proof.
exact name_day_ok.
Qed.

Lemma C45_named_month_and_year_proof :
  forall L now ph t0 txt fmt ys y y' ms m sep order clk secs d0 m0 y0 jd,
  date_of_start L t0 fmt d0 m0 y0 -> 0 <= d0 <= 1000 -> separator sep -> (order = [Month; Year] \/ order = [Year; Month]) ->
  text txt (written sep (tx ys ms []) order ++ clk) -> clock_suffix clk secs ->
  In (ms, m) month_texts -> year_text ys y -> 32 <= y -> year_meant now fmt y y' ->
  dmy_to_day L d0 m y' (calendar_of fmt) = Ret jd -> jd_ok L jd ->
  reads L now ph t0 txt fmt (instant jd secs) 0.
Proof.
exact name_year_ok.
Qed.

Lemma C45_year_and_day_of_year_proof :
  forall L now ph t0 txt fmt ys y y' ns q sep (swap : bool) clk secs d0 m0 y0 jd,
  date_of_start L t0 fmt d0 m0 y0 -> separator sep ->
  text txt ((if swap then ns ++ sep :: ys else ys ++ sep :: ns) ++ clk) -> clock_suffix clk secs ->
  year_text ys y -> 33 <= y -> number_of ns q -> isdigit (last ns 0) = true -> (List.length ns <= 9)%nat ->
  (q < inject_Z y)%Q -> (q <= 1000)%Q -> year_meant now fmt y y' ->
  dmy_to_day L (Qfloor q) 1 y' (calendar_of fmt) = Ret jd -> jd_ok L jd ->
  reads L now ph t0 txt fmt (instant jd secs + day_fraction q)%Q 0.
Proof.
exact year_doy_ok.
Qed.

Lemma C45_day_and_month_proof :
  forall L now ph t0 txt fmt ms m ds q sep order clk secs d0 m0 y0 jd,
  date_of_start L t0 fmt d0 m0 y0 -> separator sep -> (order = [Month; Day] \/ order = [Day; Month]) ->
  text txt (written sep (tx [] ms ds) order ++ clk) -> clock_suffix clk secs ->
  month_digits ms m -> m <= last_month fmt -> day_text ds q ->
  (In 46 ds \/ ((inject_Z (last_month fmt + 1) <= q)%Q /\ (q < 32)%Q) \/
   order = if month_first fmt then [Month; Day] else [Day; Month]) ->
  two_digit_years fmt = false \/ y0 <= 0 \/ 100 <= y0 ->
  dmy_to_day L (Qfloor q) m y0 (calendar_of fmt) = Ret jd -> jd_ok L jd ->
  reads L now ph t0 txt fmt (instant jd secs + day_fraction q)%Q 0.
Proof.
exact day_month_ok.
Qed.

Lemma C45_year_alone_proof :
  forall L now ph t0 txt s v clk secs fmt d0 m0 y0 jd, date_of_start L t0 fmt d0 m0 y0 -> text txt (s ++ clk) ->
  digits_of s v -> (List.length s = 4 \/ List.length s = 5)%nat -> clock_suffix clk secs ->
  dmy_to_day L 1 1 v (calendar_of fmt) = Ret jd -> jd_ok L jd ->
  reads L now ph t0 txt fmt (instant jd secs) 0.
Proof.
exact year_alone_ok.
Qed.

Lemma C45_day_alone_proof :
  forall L now ph t0 txt s k v f clk secs fmt d0 m0 y0 jd, date_of_start L t0 fmt d0 m0 y0 -> text txt (s ++ clk) ->
  split_number s k v f -> (k <= 3)%nat -> clock_suffix clk secs ->
  dmy_to_day L v (if (k =? 3)%nat then 1 else m0) y0 (calendar_of fmt) = Ret jd -> jd_ok L jd ->
  reads L now ph t0 txt fmt (instant jd secs + f)%Q 0.
Proof.
exact day_alone_ok.
Qed.

Lemma C45_compact_proof :
  forall L now ph t0 txt ys y ms m ds d dec f clk secs fmt d0 m0 y0 jd, date_of_start L t0 fmt d0 m0 y0 ->
  text txt (ys ++ ms ++ ds ++ dec ++ clk) -> digits_of ys y -> digits_of ms m -> digits_of ds d ->
  (List.length ys = 2 \/ List.length ys = 4)%nat -> List.length ms = 2%nat -> List.length ds = 2%nat ->
  ((dec = [] /\ f = 0%Q) \/ exists b u, digits_of b u /\ (List.length b <= 9)%nat /\ dec = 46 :: b /\ f = (u # Z.to_pos (10 ^ Z.of_nat (List.length b)))%Q) ->
  clock_suffix clk secs ->
  dmy_to_day L d m (if (List.length ys =? 4)%nat then y else if y <? 40 then 2000 + y else 1900 + y) (calendar_of fmt) = Ret jd -> jd_ok L jd ->
  reads L now ph t0 txt fmt (instant jd secs + f)%Q 0.
Proof.
exact compact_ok.
Qed.

Lemma C45_jd_digits_proof :
  forall L now ph t0 txt s v f fmt, start_ok L t0 fmt -> text txt s -> split_number s 7 v f ->
  reads L now ph t0 txt fmt (inject_Z v + f - 2451545)%Q 1.
Proof.
exact jd_digits_ok.
Qed.

Lemma C45_decimal_year_proof :
  forall L now ph t0 txt s k v f fmt, start_ok L t0 fmt -> text txt s -> split_number s k v f ->
  (k = 4 \/ k = 5)%nat -> ~ (f == 0)%Q ->
  reads L now ph t0 txt fmt ((inject_Z v + f - 2000) * (36525 # 100) - (1 # 2))%Q 0.
Proof.
exact decimal_year_ok.
Qed.

Lemma C45_month_alone_proof :
  forall L now ph t0 txt fmt ms m clk secs d0 m0 y0 jd, date_of_start L t0 fmt d0 m0 y0 -> 0 <= d0 <= 1000 ->
  text txt (ms ++ clk) -> In (ms, m) month_texts -> clock_suffix clk secs ->
  dmy_to_day L d0 m y0 (calendar_of fmt) = Ret jd -> jd_ok L jd ->
  reads L now ph t0 txt fmt (instant jd secs) 0.
Proof.
exact month_alone_ok.
Qed.

Lemma C45_weekday_partial_proof :
  forall L now ph t0 txt fmt ws i clk secs,
  long_ok L -> jd_ok L (day_of t0) -> (forall k, -3 <= k <= 3 -> jd_ok L (day_of t0 + k)) -> rule_cal (calendar_of fmt) ->
  (- (13 # 2) <= t0)%Q -> text txt (ws ++ clk) -> In (ws, i) day_texts -> clock_suffix clk secs ->
  exists jd, weekday jd = i /\ -3 <= jd - day_of t0 <= 3 /\ reads L now ph t0 txt fmt (instant jd secs) 0.
Proof.
exact weekday_ok.
Qed.

Lemma C45_weekday_refuted_proof :
  forall now ph, weekday (day_of (-7)) = 6 /\ reads LMAX64 now ph (-7) (zs "sat") 0 (instant (day_of (-7) - 1) 0) 0.
Proof.
  intros now ph. split; [reflexivity|]. concrete. eexists; (split; [vm_compute; reflexivity|reflexivity]).
Qed.

Lemma C45_time_of_day_proof :
  forall L now ph t0 txt fmt clk secs,
  long_ok L -> jd_ok L (day_of t0) -> rule_cal (calendar_of fmt) \/ calendar_of fmt = CALENDAR_JULIAN_GREGORIAN ->
  text txt clk -> clock_text clk secs ->
  reads L now ph t0 txt fmt (instant (day_of t0) secs) 0.
Proof.
exact clock_alone_ok.
Qed.

Lemma C45_fits_proof :
  forall L now ph t0 txt fmt ys y ms m ds d clk secs jd, start_ok L t0 fmt ->
  text txt (ys ++ 45 :: ms ++ 45 :: ds ++ zs " t " ++ clk) ->
  digits_of ys y -> digits_of ms m -> digits_of ds d ->
  List.length ys = 4%nat -> List.length ms = 2%nat -> List.length ds = 2%nat ->
  clock_text clk secs -> (6 <= List.length clk)%nat -> nth 2 clk 0 = 58 ->
  dmy_to_day L d m y (calendar_of fmt) = Ret jd -> jd_ok L jd ->
  reads L now ph t0 txt fmt (instant jd secs) 0.
Proof.
exact fits_ok.
Qed.

Lemma C45_fits_short_refuted_proof :
  forall now ph, reads LMAX64 now ph 0 (zs "2010-03-05T12:34") 0 (instant 2455320 (inject_Z 45240)) 0 /\
    dmy_to_day LMAX64 3 5 2010 0 = Ret 2455320.
Proof.
  intros now ph. split; [|vm_compute; reflexivity]. concrete. eexists; (split; [vm_compute; reflexivity|reflexivity]).
Qed.

Lemma C45_keywords_proof :
  forall L now ph t0 txt fmt n q, number_of n q ->
  (text txt (zs "jd " ++ n) -> ~ (q == 0)%Q -> reads L now ph t0 txt fmt (q - 2451545)%Q 1) /\
  (text txt (zs "mjd " ++ n) -> reads L now ph t0 txt fmt (q + 2400000 + (1 # 2) - 2451545)%Q 1) /\
  (text txt (zs "unix " ++ n) -> reads L now ph t0 txt fmt (q / 86400 + 2440587 + (1 # 2) - 2451545)%Q 0) /\
  (text txt (zs "y " ++ n) -> reads L now ph t0 txt fmt ((q - 2000) * (36525 # 100) - (1 # 2))%Q 0).
Proof.
  intros L now ph t0 txt fmt n q H. split; [intros; now apply jd_ok_key with n|]. split; [intros; now apply mjd_ok with n|].
  split; [intros; now apply unix_ok with n|intros; now apply y_ok with n].
Qed.

Lemma C45_gps_proof :
  forall L now ph t0 txt fmt ws w ds d, text txt (zs "gps " ++ ws ++ ds) -> digits_of ws w -> digits_of ds d ->
  List.length ws = 4%nat -> List.length ds = 1%nat ->
  reads L now ph t0 txt fmt (inject_Z (w * 7 + d) + 2444244 + (1 # 2) - 2451545)%Q 0.
Proof.
exact gps_ok.
Qed.

Lemma C45_now_proof :
  forall L now ph t0 txt fmt, text txt (zs "now") -> 0 <= now ->
  reads L now ph t0 txt fmt (inject_Z now / 86400 + 2440587 + (1 # 2) - 2451545)%Q 0.
Proof.
exact now_ok.
Qed.

Lemma C45_moon_phase_proof :
  forall L now ph t0 txt body pt idx fmt t u,
  text txt (body ++ pt) -> In (pt, idx) phase_texts -> is_sign (hd 0 txt) = false ->
  reads L now ph t0 body fmt t u -> ~ (t == - 2451545)%Q ->
  exists n, let k := (inject_Z n + inject_Z idx * (1 # 4))%Q in
    (Qabs ((t - (509765 # 100000)) / (29530588853 # 1000000000) - k) <= 1 # 2)%Q /\
    reads L now ph t0 txt fmt (ph idx k) 1.
Proof.
exact phase_ok.
Qed.

Lemma C45_assert_refuted_proof :
  (forall L now ph t0 txt fmt ys y ms m ds q sep order clk secs,
     start_ok L t0 fmt -> separator sep -> Permutation order [Year; Month; Day] ->
     text txt (written sep (tx ys ms ds) order ++ clk) -> clock_suffix clk secs ->
     year_text ys y -> y <= 32 -> In (ms, m) month_texts -> day_text ds q -> In 46 ds ->
     fails_assert L now ph t0 txt fmt) /\
  (forall now ph, fails_assert LMAX64 now ph 0 (zs "5.5 Jan 10") 0).
Proof.
  split; [exact abort_ok|]. intros now ph. concrete. vm_compute. reflexivity.
Qed.

Lemma C45_month_number_refuted_proof :
  forall now ph, crashes LMAX64 now ph 0 (zs "2010-20-25") 0.
Proof.
  intros now ph. concrete. vm_compute. reflexivity.
Qed.

Lemma C45_double_space_refuted_proof :
  forall now ph,
  (exists t u, reads LMAX64 now ph 0 (zs "5  Mar 2010") 0 t u /\ ~ (instant 2455261 0 <= t)%Q) /\
  (exists t u jd, reads LMAX64 now ph 0 (zs "45 BC Mar 15") 0 t u /\ dmy_to_day LMAX64 15 3 (1 - 45) 0 = Ret jd /\ ~ (t == instant jd 0)%Q) /\
  (exists t u, reads LMAX64 now ph 0 (zs "JD 0") 0 t u /\ ~ (t == -2451545)%Q).
Proof.
  intros now ph. split; [|split].
  - eexists _, _. split; [concrete; eexists; (split; [vm_compute; reflexivity|]); reflexivity|]. vm_compute. intro H. now apply H.
  - eexists _, _, _. split; [concrete; eexists; (split; [vm_compute; reflexivity|]); reflexivity|]. split; [vm_compute; reflexivity|]. vm_compute. discriminate.
  - eexists _, _. split; [concrete; eexists; (split; [vm_compute; reflexivity|]); reflexivity|]. vm_compute. discriminate.
Qed.
