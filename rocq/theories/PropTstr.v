(** Properties C42, C44 and C45 (reading a time written as text).

    [reads L now ph t0 txt fmt t u]: with starting time t0 and format fmt the text txt
    is read as the time t (days since J2000), and u is stored in *is_ut; [L] is LONG_MAX,
    [now] the clock and [ph] the formula for the phases of the moon.  [text txt norm]:
    norm is the text in lower case with a space where a letter and a digit touch.  These
    and the rest of the vocabulary are in [TstrSpec]. *)
From Coq Require Import Lia QArith Qround Qabs Permutation.
From Coq Require Import String.
From Verif Require Import CBase CStr DateModel DateVocab TstrModel TstrSpec TstrMore TstrThms.
Local Open Scope string_scope.
Local Open Scope list_scope.
Local Open Scope Z_scope.

(** C42: the text is copied, from its first non-space on, into a buffer of 80 bytes.  If 80 bytes or more (or
    nothing) are left after the spaces, nothing is copied.  Otherwise the copy, in lower case
    with its extra spaces, is cut to 79 bytes and always ends inside the buffer, unless the
    text [overruns] it. *)
Theorem C42_copy :
  forall txt, no_nul txt -> let s := drop_spaces txt in
  ((s = [] \/ (80 <= List.length s)%nat) -> copy_text txt = Ret None) /\
  (s <> [] -> (List.length s < 80)%nat -> overruns s -> copy_text txt = UB) /\
  (s <> [] -> (List.length s < 80)%nat -> ~ overruns s ->
     exists r, copy_text txt = Ret (Some r) /\ r = trim_end (firstn 79 (spread s)) /\ (List.length r <= 79)%nat /\ no_nul r).
Proof. exact C42_copy_proof. Qed.
Print Assumptions C42_copy.

Example C42_copy_case : let s := drop_spaces (zs "   2010Mar5 ") in s <> [] /\ (List.length s < 80)%nat /\ ~ overruns s.
Proof.
  cbv zeta. split; [discriminate|]. split; [vm_compute; lia|]. intros (p & a & b & q & E & _ & H).
  pose proof (f_equal (@List.length Z) E) as F. rewrite app_length in F. cbn [List.length] in F. change (List.length (drop_spaces _)) with 9%nat in F.
  assert (G : forall l, (List.length (spread l) <= 2 * List.length l)%nat).
  { induction l as [|x [|y l] IH]; [cbn; lia|cbn; lia|]. change (spread (x :: y :: l)) with (if ((isdigit x && isalpha y) || (isalpha x && isdigit y)) && negb (y =? 113) && negb (y =? 81) then low x :: 32 :: spread (y :: l) else low x :: spread (y :: l)).
    destruct (_ && _ && _); cbn [List.length] in *; lia. }
  specialize (G (p ++ [a])). rewrite app_length in G. cbn [List.length] in G. lia.
Qed.

(** C42: a text that is empty, or has 80 bytes or more after its leading spaces, is rejected: the
    starting time is returned and *is_ut is -3. *)
Theorem C42_long_text :
  forall L now ph t0 txt fmt, drop_spaces txt = [] \/ (80 <= List.length (drop_spaces txt))%nat ->
  reads L now ph t0 txt fmt t0 (-3).
Proof. exact C42_long_text_proof. Qed.
Print Assumptions C42_long_text.

Example C42_long_text_case : (80 <= List.length (drop_spaces (32%Z :: repeat 49%Z 100)))%nat.
Proof. vm_compute. lia. Qed.

(** C42: from the copy on, the text only gets shorter: offsets, era marks, keywords, am/pm marks
    and the time of day are taken away.  So the fields copied into the second 80-byte buffer
    fit. *)
Theorem C42_pieces :
  forall str, (List.length str <= 79)%nat ->
  (forall fuel o r o', offsets fuel str o = Ret (r, o') -> (List.length r <= List.length str)%nat) /\
  (List.length (fst (check_for_bc str)) <= List.length str)%nat /\
  (forall E t0 r u s t, keywords E t0 str = Ret (r, u, s, t) -> (List.length s <= List.length str)%nat) /\
  (forall r, dots_to_slashes str = Ret r -> List.length r = List.length str) /\
  (List.length (fst (am_pm str)) <= List.length str)%nat /\
  (forall ap h m x r h' m' x', clock str ap h m x = Ret (r, h', m', x') -> (List.length r <= List.length str)%nat) /\
  (forall i j, to_tstr (firstn i str) = Ret (firstn i str) /\
     to_tstr (firstn j (skipn (i + 1) str)) = Ret (firstn j (skipn (i + 1) str))).
Proof. exact C42_pieces_proof. Qed.
Print Assumptions C42_pieces.

Example C42_pieces_case : (List.length (zs "2010 mar 5 12:30 pm +3 h") <= 79)%nat.
Proof. vm_compute. lia. Qed.

(** C42: leading spaces never matter. *)
Theorem C42_leading_spaces :
  forall L now ph t0 txt fmt P, run L now ph t0 txt fmt P <-> run L now ph t0 (drop_spaces txt) fmt P.
Proof. exact C42_leading_spaces_proof. Qed.
Print Assumptions C42_leading_spaces.

(** C42: capital letters and spaces between letters and digits never matter: texts with the same
    copy are read alike. *)
Theorem C42_case_and_spacing :
  forall L now ph t0 s1 s2 fmt P, no_nul s1 -> no_nul s2 -> hd 0 s1 <> 32 -> hd 0 s2 <> 32 -> s1 <> [] -> s2 <> [] ->
  (List.length s1 < 80)%nat -> (List.length s2 < 80)%nat -> ~ overruns s1 -> ~ overruns s2 ->
  trim_end (firstn 79 (spread s1)) = trim_end (firstn 79 (spread s2)) ->
  run L now ph t0 s1 fmt P <-> run L now ph t0 s2 fmt P.
Proof. exact C42_case_and_spacing_proof. Qed.
Print Assumptions C42_case_and_spacing.

Example C42_case_and_spacing_case : trim_end (firstn 79 (spread (zs "2010MAR5"))) = trim_end (firstn 79 (spread (zs "2010 Mar 5  "))).
Proof. vm_compute. reflexivity. Qed.

(** C42, a claim that fails: the copy never leaves its buffer.  A text shorter than 80 bytes whose
    copy has 78 bytes where a letter and a digit touch is terminated at buff[80]. *)
Theorem C42_overrun_refuted :
  (forall L now ph t0 txt fmt, no_nul txt -> drop_spaces txt <> [] -> (List.length (drop_spaces txt) < 80)%nat ->
     overruns (drop_spaces txt) -> crashes L now ph t0 txt fmt) /\
  (let txt := repeat 49 78 ++ zs "a" in no_nul txt /\ drop_spaces txt <> [] /\ (List.length (drop_spaces txt) < 80)%nat /\ overruns (drop_spaces txt)).
Proof. exact C42_overrun_refuted_proof. Qed.
Print Assumptions C42_overrun_refuted.

(** C44: trailing offsets (" +3h", " -20.5m", ...) each add their value in days, and nothing else
    changes.  Missing: offsets of 0 (see C44_zero_offset_refuted). *)
Theorem C44_offsets_add_up_partial :
  forall L now ph t0 b l fmt norm t u,
  text (b ++ texts l) norm -> b <> [] -> offset_texts l -> u <> -2 ->
  reads L now ph t0 b fmt t u -> reads L now ph t0 (b ++ texts l) fmt (t + total l) u.
Proof. exact C44_offsets_add_up_partial_proof. Qed.
Print Assumptions C44_offsets_add_up_partial.

Example C44_offsets_add_up_partial_case : let l := [(zs " +3h", (3 * (1 # 24))%Q); (zs " -20.5m", (- (205 # 10) * (1 # 1440))%Q)] in
  offset_texts l /\ text (zs "2010-mar-05" ++ texts l) (zs "2010-mar-05 +3 h -20.5 m").
Proof.
  cbv zeta. split; [|teval]. split; [|split; [|exact I]].
  - exists 43, (zs "3"), 3%Q, 104, (1 # 24)%Q. split; [now left|]. split; [apply (number_int (zs "3") 3); reflexivity|]. split; [discriminate|].
    split; [reflexivity|]. split; [cbn; tauto|]. split; reflexivity.
  - exists 45, (zs "20.5"), (205 # 10)%Q, 109, (1 # 1440)%Q. split; [now right|]. split; [apply (number_dec (zs "20") (zs "5") 205); reflexivity|]. split; [discriminate|].
    split; [reflexivity|]. split; [cbn; tauto|]. split; reflexivity.
Qed.

(** C44: a number with a sign, alone, is a number of days after or before the starting time. *)
Theorem C44_signed_number :
  forall L now ph t0 txt fmt sg n q, text txt (sg :: n) -> (sg = 43 \/ sg = 45) -> number_of n q -> ~ (t0 == - 2451545)%Q ->
  reads L now ph t0 txt fmt (t0 + (if (sg =? 45)%Z then - q else q))%Q 0.
Proof. exact C44_signed_number_proof. Qed.
Print Assumptions C44_signed_number.

Example C44_signed_number_case : forall ph, reads LMAX64 0 ph 7 (zs "-2.5") 0 (7 + - (25 # 10))%Q 0.
Proof.
  intro ph. exact (C44_signed_number LMAX64 0 ph 7 (zs "-2.5") 0 45 (zs "2.5") (25 # 10) ltac:(teval) (or_intror eq_refl)
    (number_dec (zs "2") (zs "5") 25 eq_refl) ltac:(discriminate)).
Qed.

(** C44, a claim that fails: every text is read in finite time.  If the last sign of the text starts
    a number (not 0) that is followed by more text before the unit at the end, the function never
    returns: "2024-01-05 3h" is one such text. *)
Theorem C44_hang_refuted :
  (forall L now ph t0 txt fmt b sg n q c w u,
     text txt (b ++ sg :: n ++ 32 :: c :: w ++ [32; u]) -> (sg = 43 \/ sg = 45) -> number_of n q -> ~ (q == 0)%Q ->
     isspace c = false -> (forall x, In x (c :: w) -> x <> 43 /\ x <> 45) -> In u (zs "smhdwlyc") ->
     never_returns L now ph t0 txt fmt) /\
  (forall L now ph t0 fmt, never_returns L now ph t0 (zs "2024-01-05 3h") fmt).
Proof. exact C44_hang_refuted_proof. Qed.
Print Assumptions C44_hang_refuted.

(** C44, a claim that fails: offsets always add up.  After a zero offset, those before it are not
    looked at, and what is left is not understood: "12:00 +3h +0m" is read as 0h of the starting
    day. *)
Theorem C44_zero_offset_refuted :
  forall now ph, reads LMAX64 now ph 0 (zs "12:00 +3h +0m") 0 (- (1 # 2)) 0 /\ reads LMAX64 now ph 0 (zs "12:00") 0 0 0 /\
    reads LMAX64 now ph 0 (zs "12:00 +3h") 0 (1 # 8) 0.
Proof. exact C44_zero_offset_refuted_proof. Qed.
Print Assumptions C44_zero_offset_refuted.

(** C45: a day, a month by its name and a year above 32, in any order and with spaces, dashes or
    slashes between them, and possibly a time of day, are read as that instant. *)
Theorem C45_named_month :
  forall L now ph t0 txt fmt ys ms ds sep order clk secs y y' m q jd,
  start_ok L t0 fmt -> separator sep -> Permutation order [Year; Month; Day] ->
  text txt (written sep (tx ys ms ds) order ++ clk) -> clock_suffix clk secs ->
  year_text ys y -> 33 <= y -> In (ms, m) month_texts -> day_text ds q ->
  year_meant now fmt y y' -> dmy_to_day L (Qfloor q) m y' (calendar_of fmt) = Ret jd -> jd_ok L jd ->
  reads L now ph t0 txt fmt (instant jd secs + day_fraction q)%Q 0.
Proof. exact C45_named_month_proof. Qed.
Print Assumptions C45_named_month.

Example C45_named_month_case : forall now ph,
  reads LMAX64 now ph 0 (zs "5.25 March 2010 6:30") 0 (instant 2455261 23400 + day_fraction (525 # 100))%Q 0.
Proof.
  intros now ph. apply (C45_named_month LMAX64 now ph 0 (zs "5.25 March 2010 6:30") 0 (zs "2010") (zs "march") (zs "5.25") 32 [Day; Month; Year] (zs " 6:30") 23400 2010 2010 3 (525 # 100) 2455261);
    try reflexivity; try (now left); try lia.
  - apply start_0. discriminate.
  - apply (Permutation_rev [Day; Month; Year]).
  - teval.
  - apply with_clock. apply (clock2 (zs "6") (zs "30") 6 30); [reflexivity|reflexivity|small].
  - split; [deval|small].
  - cbn; tauto.
  - split; [apply (number_dec (zs "5") (zs "25") 525); reflexivity|]. split; [reflexivity|]. split; [small|discriminate].
  - apply jd_eval. reflexivity.
Qed.

(** C45: a date in three numbers, the year above 32, in any order with the year anywhere.  The day
    is the one with a decimal point, or the one that cannot be a month, or else the order of day
    and month is that of the format. *)
Theorem C45_numbers :
  forall L now ph t0 txt fmt ys ms ds sep order clk secs y y' m q jd,
  start_ok L t0 fmt -> separator sep -> Permutation order [Year; Month; Day] ->
  text txt (written sep (tx ys ms ds) order ++ clk) -> clock_suffix clk secs ->
  year_text ys y -> 33 <= y -> month_digits ms m -> m <= last_month fmt -> day_text ds q ->
  (In 46 ds \/ ((inject_Z (last_month fmt + 1) <= q)%Q /\ (q < 32)%Q) \/
   filter (fun p => match p with Year => false | _ => true end) order = if month_first fmt then [Month; Day] else [Day; Month]) ->
  year_meant now fmt y y' -> dmy_to_day L (Qfloor q) m y' (calendar_of fmt) = Ret jd -> jd_ok L jd ->
  reads L now ph t0 txt fmt (instant jd secs + day_fraction q)%Q 0.
Proof. exact C45_numbers_proof. Qed.
Print Assumptions C45_numbers.

Example C45_numbers_case : forall now ph,
  reads LMAX64 now ph 0 (zs "2010-03-05") 4096 (instant 2455261 0 + day_fraction 5)%Q 0 /\
  reads LMAX64 now ph 0 (zs "2010-03-05") 0 (instant 2455320 0 + day_fraction 3)%Q 0.
Proof.
  intros now ph. split.
  - apply (C45_numbers LMAX64 now ph 0 (zs "2010-03-05") 4096 (zs "2010") (zs "03") (zs "05") 45 [Year; Month; Day] [] 0 2010 2010 3 5 2455261);
      try reflexivity; try lia; try apply no_clock; try (now right; left); try (vm_compute; discriminate); try (right; now right).
    + apply start_0. discriminate.
    + teval.
    + split; [deval|small].
    + split; [deval|small].
    + split; [apply (number_int (zs "05") 5); reflexivity|]. split; [reflexivity|]. split; [small|discriminate].
  - apply (C45_numbers LMAX64 now ph 0 (zs "2010-03-05") 0 (zs "2010") (zs "05") (zs "03") 45 [Year; Day; Month] [] 0 2010 2010 5 3 2455320);
      try reflexivity; try lia; try apply no_clock; try (now right; left); try (vm_compute; discriminate); try (right; now right).
    + apply start_0. discriminate.
    + apply perm_skip, perm_swap.
    + teval.
    + split; [deval|small].
    + split; [deval|small].
    + split; [apply (number_int (zs "03") 3); reflexivity|]. split; [reflexivity|]. split; [small|discriminate].
Qed.

(** C45: a date in three numbers, the year at most 32.  Without a decimal point the order is that of
    the format; with one, the day is known. *)
Theorem C45_small_year :
  forall L now ph t0 txt fmt ys ms ds sep order clk secs y y' m q jd,
  start_ok L t0 fmt -> separator sep -> Permutation order [Year; Month; Day] ->
  text txt (written sep (tx ys ms ds) order ++ clk) -> clock_suffix clk secs ->
  year_text ys y -> y <= 32 -> month_digits ms m -> m <= 32 -> day_text ds q ->
  (~ In 46 ds /\ order = default_order fmt \/
   In 46 ds /\ (order = [Day; Month; Year] \/ order = [Year; Month; Day] \/
                order = if year_first fmt then [Year; Day; Month] else [Month; Day; Year])) ->
  year_meant now fmt y y' -> dmy_to_day L (Qfloor q) m y' (calendar_of fmt) = Ret jd -> jd_ok L jd ->
  reads L now ph t0 txt fmt (instant jd secs + day_fraction q)%Q 0.
Proof. exact C45_small_year_proof. Qed.
Print Assumptions C45_small_year.

Example C45_small_year_case : forall ph,
  reads LMAX64 1700000000 ph 0 (zs "3/5/10") (65536 + 4096) (instant 2455261 0 + day_fraction 5)%Q 0.
Proof.
  intros ph.
  apply (C45_small_year LMAX64 1700000000 ph 0 (zs "3/5/10") (65536 + 4096) (zs "10") (zs "3") (zs "5") 47 [Month; Day; Year] [] 0 10 2010 3 5 2455261);
    try reflexivity; try lia; try apply no_clock; try (now right; right).
  - apply start_0. discriminate.
  - apply Permutation_sym, (Permutation_cons_append [Month; Day] Year).
  - teval.
  - split; [deval|small].
  - split; [deval|small].
  - split; [apply (number_int (zs "5") 5); reflexivity|]. split; [reflexivity|]. split; [small|discriminate].
  - left. split; [apply dot_free; reflexivity|reflexivity].
  - split; [lia|]. split; [reflexivity|]. cbv zeta. change (1700000000 / 31557600) with 53. lia.
  - apply jd_eval. reflexivity.
Qed.

(** C45: the same with a named month and no decimal point: month, day, year; year, day, month; or
    the month in the middle, the format then telling which end the year is at. *)
Theorem C45_small_year_named_month :
  forall L now ph t0 txt fmt ys ms ds sep order clk secs y y' m q jd,
  start_ok L t0 fmt -> separator sep ->
  In order [[Month; Day; Year]; [Year; Day; Month]; if year_first fmt then [Year; Month; Day] else [Day; Month; Year]] ->
  text txt (written sep (tx ys ms ds) order ++ clk) -> clock_suffix clk secs ->
  year_text ys y -> y <= 32 -> In (ms, m) month_texts -> day_text ds q -> ~ In 46 ds ->
  year_meant now fmt y y' -> dmy_to_day L (Qfloor q) m y' (calendar_of fmt) = Ret jd -> jd_ok L jd ->
  reads L now ph t0 txt fmt (instant jd secs + day_fraction q)%Q 0.
Proof. exact C45_small_year_named_month_proof. Qed.
Print Assumptions C45_small_year_named_month.

Example C45_small_year_named_month_case : forall now ph,
  reads LMAX64 now ph 0 (zs "Mar 15 30") 0 (instant 1732091 0 + day_fraction 15)%Q 0.
Proof.
  intros now ph.
  apply (C45_small_year_named_month LMAX64 now ph 0 (zs "Mar 15 30") 0 (zs "30") (zs "mar") (zs "15") 32 [Month; Day; Year] [] 0 30 30 3 15 1732091);
    try reflexivity; try lia; try apply no_clock; try (now left).
  - apply start_0. discriminate.
  - teval.
  - split; [deval|small].
  - cbn; tauto.
  - split; [apply (number_int (zs "15") 15); reflexivity|]. split; [reflexivity|]. split; [small|discriminate].
  - apply dot_free; reflexivity.
  - apply jd_eval. reflexivity.
Qed.

(** C45: a named month and a day, in either order: the year is that of the starting time. *)
Theorem C45_named_month_and_day :
  forall L now ph t0 txt fmt ms m ds q sep order clk secs d0 m0 y0 jd,
  date_of_start L t0 fmt d0 m0 y0 -> separator sep -> (order = [Month; Day] \/ order = [Day; Month]) ->
  text txt (written sep (tx [] ms ds) order ++ clk) -> clock_suffix clk secs ->
  In (ms, m) month_texts -> day_text ds q -> (1 <= q)%Q -> (q < 32)%Q ->
  two_digit_years fmt = false \/ y0 <= 0 \/ 100 <= y0 ->
  dmy_to_day L (Qfloor q) m y0 (calendar_of fmt) = Ret jd -> jd_ok L jd ->
  reads L now ph t0 txt fmt (instant jd secs + day_fraction q)%Q 0.
Proof. exact C45_named_month_and_day_proof. Qed.
Print Assumptions C45_named_month_and_day.

Example C45_named_month_and_day_case : forall now ph,
  reads LMAX64 now ph 0 (zs "Feb 29") 0 (instant 2451604 0 + day_fraction 29)%Q 0.
Proof.
  intros now ph.
  apply (C45_named_month_and_day LMAX64 now ph 0 (zs "Feb 29") 0 (zs "feb") 2 (zs "29") 29 32 [Month; Day] [] 0 1 1 2000 2451604);
    try reflexivity; try apply no_clock; try (now left); try discriminate.
  - apply start_2000. reflexivity.
  - teval.
  - cbn; tauto.
  - split; [apply (number_int (zs "29") 29); reflexivity|]. split; [reflexivity|]. split; [small|discriminate].
Qed.

(** C45: a named month and a year, in either order: the day of the month is that of the starting
    time. *)
Theorem C45_named_month_and_year :
  forall L now ph t0 txt fmt ys y y' ms m sep order clk secs d0 m0 y0 jd,
  date_of_start L t0 fmt d0 m0 y0 -> 0 <= d0 <= 1000 -> separator sep -> (order = [Month; Year] \/ order = [Year; Month]) ->
  text txt (written sep (tx ys ms []) order ++ clk) -> clock_suffix clk secs ->
  In (ms, m) month_texts -> year_text ys y -> 32 <= y -> year_meant now fmt y y' ->
  dmy_to_day L d0 m y' (calendar_of fmt) = Ret jd -> jd_ok L jd ->
  reads L now ph t0 txt fmt (instant jd secs) 0.
Proof. exact C45_named_month_and_year_proof. Qed.
Print Assumptions C45_named_month_and_year.

Example C45_named_month_and_year_case : forall now ph,
  reads LMAX64 now ph 0 (zs "2010-Mar") 0 (instant 2455257 0) 0.
Proof.
  intros now ph.
  apply (C45_named_month_and_year LMAX64 now ph 0 (zs "2010-Mar") 0 (zs "2010") 2010 2010 (zs "mar") 3 45 [Year; Month] [] 0 1 1 2000 2455257);
    try reflexivity; try lia; try apply no_clock; try (now right); try (now right; left).
  - apply start_2000. reflexivity.
  - teval.
  - cbn; tauto.
  - split; [deval|small].
  - apply jd_eval. reflexivity.
Qed.

(** C45: two numbers, one above 32 and the greatest: a year and a day of the year. *)
Theorem C45_year_and_day_of_year :
  forall L now ph t0 txt fmt ys y y' ns q sep (swap : bool) clk secs d0 m0 y0 jd,
  date_of_start L t0 fmt d0 m0 y0 -> separator sep ->
  text txt ((if swap then ns ++ sep :: ys else ys ++ sep :: ns) ++ clk) -> clock_suffix clk secs ->
  year_text ys y -> 33 <= y -> number_of ns q -> isdigit (last ns 0) = true -> (List.length ns <= 9)%nat ->
  (q < inject_Z y)%Q -> (q <= 1000)%Q -> year_meant now fmt y y' ->
  dmy_to_day L (Qfloor q) 1 y' (calendar_of fmt) = Ret jd -> jd_ok L jd ->
  reads L now ph t0 txt fmt (instant jd secs + day_fraction q)%Q 0.
Proof. exact C45_year_and_day_of_year_proof. Qed.
Print Assumptions C45_year_and_day_of_year.

Example C45_year_and_day_of_year_case : forall now ph,
  reads LMAX64 now ph 0 (zs "2010-064.5") 0 (instant 2455261 0 + day_fraction (645 # 10))%Q 0.
Proof.
  intros now ph.
  apply (C45_year_and_day_of_year LMAX64 now ph 0 (zs "2010-064.5") 0 (zs "2010") 2010 2010 (zs "064.5") (645 # 10) 45 false [] 0 1 1 2000 2455261);
    try reflexivity; try lia; try apply no_clock; try (now right; left); try discriminate; try (cbn [zs List.length]; lia).
  - apply start_2000. reflexivity.
  - teval.
  - split; [deval|small].
  - apply (number_dec (zs "064") (zs "5") 645). reflexivity.
Qed.

(** C45: two small numbers are a day and a month of the year of the starting time; which is which is
    decided as for dates in three numbers. *)
Theorem C45_day_and_month :
  forall L now ph t0 txt fmt ms m ds q sep order clk secs d0 m0 y0 jd,
  date_of_start L t0 fmt d0 m0 y0 -> separator sep -> (order = [Month; Day] \/ order = [Day; Month]) ->
  text txt (written sep (tx [] ms ds) order ++ clk) -> clock_suffix clk secs ->
  month_digits ms m -> m <= last_month fmt -> day_text ds q ->
  (In 46 ds \/ ((inject_Z (last_month fmt + 1) <= q)%Q /\ (q < 32)%Q) \/
   order = if month_first fmt then [Month; Day] else [Day; Month]) ->
  two_digit_years fmt = false \/ y0 <= 0 \/ 100 <= y0 ->
  dmy_to_day L (Qfloor q) m y0 (calendar_of fmt) = Ret jd -> jd_ok L jd ->
  reads L now ph t0 txt fmt (instant jd secs + day_fraction q)%Q 0.
Proof. exact C45_day_and_month_proof. Qed.
Print Assumptions C45_day_and_month.

Example C45_day_and_month_case : forall now ph,
  reads LMAX64 now ph 0 (zs "2/29") 0 (instant 2451604 0 + day_fraction 29)%Q 0.
Proof.
  intros now ph.
  apply (C45_day_and_month LMAX64 now ph 0 (zs "2/29") 0 (zs "2") 2 (zs "29") 29 47 [Month; Day] [] 0 1 1 2000 2451604);
    try reflexivity; try apply no_clock; try (now left); try (now right; right); try discriminate.
  - apply start_2000. reflexivity.
  - teval.
  - split; [deval|small].
  - split; [apply (number_int (zs "29") 29); reflexivity|]. split; [reflexivity|]. split; [small|discriminate].
  - right. left. split; [discriminate|reflexivity].
Qed.

(** C45: a number of four or five digits alone is a year: its first day. *)
Theorem C45_year_alone :
  forall L now ph t0 txt s v clk secs fmt d0 m0 y0 jd, date_of_start L t0 fmt d0 m0 y0 -> text txt (s ++ clk) ->
  digits_of s v -> (List.length s = 4 \/ List.length s = 5)%nat -> clock_suffix clk secs ->
  dmy_to_day L 1 1 v (calendar_of fmt) = Ret jd -> jd_ok L jd ->
  reads L now ph t0 txt fmt (instant jd secs) 0.
Proof. exact C45_year_alone_proof. Qed.
Print Assumptions C45_year_alone.

Example C45_year_alone_case : forall now ph, reads LMAX64 now ph 0 (zs "2010 18:00") 0 (instant 2455198 64800) 0.
Proof.
  intros now ph. apply (C45_year_alone LMAX64 now ph 0 (zs "2010 18:00") (zs "2010") 2010 (zs " 18:00") 64800 0 1 1 2000 2455198);
    try reflexivity; try (now left).
  - apply start_2000. reflexivity.
  - teval.
  - deval.
  - apply with_clock. apply (clock2 (zs "18") (zs "00") 18 0); [reflexivity|reflexivity|small].
  - apply jd_eval. reflexivity.
Qed.

(** C45: a number with one or two digits before the point is a day of the month of the starting time;
    with three digits it is a day of the year of the starting time. *)
Theorem C45_day_alone :
  forall L now ph t0 txt s k v f clk secs fmt d0 m0 y0 jd, date_of_start L t0 fmt d0 m0 y0 -> text txt (s ++ clk) ->
  split_number s k v f -> (k <= 3)%nat -> clock_suffix clk secs ->
  dmy_to_day L v (if (k =? 3)%nat then 1 else m0) y0 (calendar_of fmt) = Ret jd -> jd_ok L jd ->
  reads L now ph t0 txt fmt (instant jd secs + f)%Q 0.
Proof. exact C45_day_alone_proof. Qed.
Print Assumptions C45_day_alone.

Example C45_day_alone_case : forall now ph, reads LMAX64 now ph 0 (zs "17.5") 0 (instant 2451561 0 + (5 # 10))%Q 0.
Proof.
  intros now ph. apply (C45_day_alone LMAX64 now ph 0 (zs "17.5") (zs "17.5") 2 17 (5 # 10) [] 0 0 1 1 2000 2451561);
    try reflexivity; try apply no_clock.
  - apply start_2000. reflexivity.
  - teval.
  - apply (split_dec (zs "17") (zs "5") 17 5); [reflexivity|reflexivity|small].
  - lia.
  - apply jd_eval. reflexivity.
Qed.

(** C45: yyyymmdd or yymmdd (years 1940 to 2039), possibly with decimals of the day. *)
Theorem C45_compact :
  forall L now ph t0 txt ys y ms m ds d dec f clk secs fmt d0 m0 y0 jd, date_of_start L t0 fmt d0 m0 y0 ->
  text txt (ys ++ ms ++ ds ++ dec ++ clk) -> digits_of ys y -> digits_of ms m -> digits_of ds d ->
  (List.length ys = 2 \/ List.length ys = 4)%nat -> List.length ms = 2%nat -> List.length ds = 2%nat ->
  ((dec = [] /\ f = 0%Q) \/ exists b u, digits_of b u /\ (List.length b <= 9)%nat /\ dec = 46 :: b /\ f = (u # Z.to_pos (10 ^ Z.of_nat (List.length b)))%Q) ->
  clock_suffix clk secs ->
  dmy_to_day L d m (if (List.length ys =? 4)%nat then y else if y <? 40 then 2000 + y else 1900 + y) (calendar_of fmt) = Ret jd -> jd_ok L jd ->
  reads L now ph t0 txt fmt (instant jd secs + f)%Q 0.
Proof. exact C45_compact_proof. Qed.
Print Assumptions C45_compact.

Example C45_compact_case : forall now ph, reads LMAX64 now ph 0 (zs "100305.75") 0 (instant 2455261 0 + (75 # 100))%Q 0.
Proof.
  intros now ph. apply (C45_compact LMAX64 now ph 0 (zs "100305.75") (zs "10") 10 (zs "03") 3 (zs "05") 5 (zs ".75") (75 # 100) [] 0 0 1 1 2000 2455261);
    try reflexivity; try apply no_clock; try deval; try (now left).
  - apply start_2000. reflexivity.
  - teval.
  - right. exists (zs "75"), 75. split; [deval|]. split; [small|]. split; reflexivity.
  - apply jd_eval. reflexivity.
Qed.

(** C45: a number with seven digits before the point is a Julian day number, in UT. *)
Theorem C45_jd_digits :
  forall L now ph t0 txt s v f fmt, start_ok L t0 fmt -> text txt s -> split_number s 7 v f ->
  reads L now ph t0 txt fmt (inject_Z v + f - 2451545)%Q 1.
Proof. exact C45_jd_digits_proof. Qed.
Print Assumptions C45_jd_digits.

Example C45_jd_digits_case : forall now ph, reads LMAX64 now ph 0 (zs "2455260.5") 0 (inject_Z 2455260 + (5 # 10) - 2451545)%Q 1.
Proof.
  intros now ph. apply (C45_jd_digits LMAX64 now ph 0 (zs "2455260.5") (zs "2455260.5") 2455260 (5 # 10) 0).
  - apply start_0. discriminate.
  - teval.
  - apply (split_dec (zs "2455260") (zs "5") 2455260 5); [reflexivity|reflexivity|small].
Qed.

(** C45: a year of four or five digits with decimals that are not all 0: years of 365.25 days counted
    from 2000 January 1.0. *)
Theorem C45_decimal_year :
  forall L now ph t0 txt s k v f fmt, start_ok L t0 fmt -> text txt s -> split_number s k v f ->
  (k = 4 \/ k = 5)%nat -> ~ (f == 0)%Q ->
  reads L now ph t0 txt fmt ((inject_Z v + f - 2000) * (36525 # 100) - (1 # 2))%Q 0.
Proof. exact C45_decimal_year_proof. Qed.
Print Assumptions C45_decimal_year.

Example C45_decimal_year_case : forall now ph, reads LMAX64 now ph 0 (zs "2010.25") 0 ((inject_Z 2010 + (25 # 100) - 2000) * (36525 # 100) - (1 # 2))%Q 0.
Proof.
  intros now ph. apply (C45_decimal_year LMAX64 now ph 0 (zs "2010.25") (zs "2010.25") 4 2010 (25 # 100) 0).
  - apply start_0. discriminate.
  - teval.
  - apply (split_dec (zs "2010") (zs "25") 2010 25); [reflexivity|reflexivity|small].
  - now left.
  - discriminate.
Qed.

(** C45: a month by its name alone: the day and the year are those of the starting time. *)
Theorem C45_month_alone :
  forall L now ph t0 txt fmt ms m clk secs d0 m0 y0 jd, date_of_start L t0 fmt d0 m0 y0 -> 0 <= d0 <= 1000 ->
  text txt (ms ++ clk) -> In (ms, m) month_texts -> clock_suffix clk secs ->
  dmy_to_day L d0 m y0 (calendar_of fmt) = Ret jd -> jd_ok L jd ->
  reads L now ph t0 txt fmt (instant jd secs) 0.
Proof. exact C45_month_alone_proof. Qed.
Print Assumptions C45_month_alone.

Example C45_month_alone_case : forall now ph, reads LMAX64 now ph 0 (zs "March") 0 (instant 2451605 0) 0.
Proof.
  intros now ph. apply (C45_month_alone LMAX64 now ph 0 (zs "March") 0 (zs "march") 3 [] 0 1 1 2000 2451605);
    try reflexivity; try apply no_clock; try lia.
  - apply start_2000. reflexivity.
  - teval.
  - cbn; tauto.
  - apply jd_eval. reflexivity.
Qed.

(** C45: a day of the week by its name alone is the one nearest to the starting day, for starting
    times from 1999 December 26.0 on (t0 >= -6.5 days).  Missing: earlier starting times (see C45_weekday_refuted). *)
Theorem C45_weekday_partial :
  forall L now ph t0 txt fmt ws i clk secs,
  long_ok L -> jd_ok L (day_of t0) -> (forall k, -3 <= k <= 3 -> jd_ok L (day_of t0 + k)) -> rule_cal (calendar_of fmt) ->
  (- (13 # 2) <= t0)%Q -> text txt (ws ++ clk) -> In (ws, i) day_texts -> clock_suffix clk secs ->
  exists jd, weekday jd = i /\ -3 <= jd - day_of t0 <= 3 /\ reads L now ph t0 txt fmt (instant jd secs) 0.
Proof. exact C45_weekday_partial_proof. Qed.
Print Assumptions C45_weekday_partial.

Example C45_weekday_partial_case : forall now ph, exists jd, weekday jd = 3 /\ -3 <= jd - day_of 0 <= 3 /\ reads LMAX64 now ph 0 (zs "Wed 7:15") 0 (instant jd 26100) 0.
Proof.
  intros now ph. apply (C45_weekday_partial LMAX64 now ph 0 (zs "Wed 7:15") 0 (zs "wed") 3 (zs " 7:15") 26100);
    try (now left).
  - unfold long_ok, LMAX64. lia.
  - apply jd_eval. reflexivity.
  - intros k Hk. change (day_of 0) with 2451545. unfold jd_ok, LMAX64. lia.
  - discriminate.
  - teval.
  - cbn; tauto.
  - apply with_clock. apply (clock2 (zs "7") (zs "15") 7 15); [reflexivity|reflexivity|small].
Qed.

(** C45, a claim that fails: the same for earlier starting times.  Starting from Saturday 25 December
    1999, "sat" is read as Friday 24 December. *)
Theorem C45_weekday_refuted :
  forall now ph, weekday (day_of (-7)) = 6 /\ reads LMAX64 now ph (-7) (zs "sat") 0 (instant (day_of (-7) - 1) 0) 0.
Proof. exact C45_weekday_refuted_proof. Qed.
Print Assumptions C45_weekday_refuted.

(** C45: a time of day alone is on the starting day. *)
Theorem C45_time_of_day :
  forall L now ph t0 txt fmt clk secs,
  long_ok L -> jd_ok L (day_of t0) -> rule_cal (calendar_of fmt) \/ calendar_of fmt = CALENDAR_JULIAN_GREGORIAN ->
  text txt clk -> clock_text clk secs ->
  reads L now ph t0 txt fmt (instant (day_of t0) secs) 0.
Proof. exact C45_time_of_day_proof. Qed.
Print Assumptions C45_time_of_day.

Example C45_time_of_day_case : forall now ph, reads LMAX64 now ph 0 (zs "12:34:56.5") 0 (instant (day_of 0) (inject_Z 45240 + (565 # 10))) 0.
Proof.
  intros now ph. apply (C45_time_of_day LMAX64 now ph 0 (zs "12:34:56.5") 0 (zs "12:34:56.5")).
  - unfold long_ok, LMAX64. lia.
  - apply jd_eval. reflexivity.
  - left. now left.
  - teval.
  - apply (clock3 (zs "12") (zs "34") (zs "56.5") 12 34); [reflexivity|reflexivity|small|]. apply (number_dec (zs "56") (zs "5") 565). reflexivity.
Qed.

(** C45: yyyy-mm-ddThh:mm:ss is read as such, whatever the format says about the order. *)
Theorem C45_fits :
  forall L now ph t0 txt fmt ys y ms m ds d clk secs jd, start_ok L t0 fmt ->
  text txt (ys ++ 45 :: ms ++ 45 :: ds ++ zs " t " ++ clk) ->
  digits_of ys y -> digits_of ms m -> digits_of ds d ->
  List.length ys = 4%nat -> List.length ms = 2%nat -> List.length ds = 2%nat ->
  clock_text clk secs -> (6 <= List.length clk)%nat -> nth 2 clk 0 = 58 ->
  dmy_to_day L d m y (calendar_of fmt) = Ret jd -> jd_ok L jd ->
  reads L now ph t0 txt fmt (instant jd secs) 0.
Proof. exact C45_fits_proof. Qed.
Print Assumptions C45_fits.

Example C45_fits_case : forall now ph, reads LMAX64 now ph 0 (zs "2010-03-05T12:34:56") 0 (instant 2455261 (inject_Z 45240 + 56)) 0.
Proof.
  intros now ph. apply (C45_fits LMAX64 now ph 0 (zs "2010-03-05T12:34:56") 0 (zs "2010") 2010 (zs "03") 3 (zs "05") 5 (zs "12:34:56"));
    try reflexivity; try deval; try (cbn [zs List.length]; lia).
  - apply start_0. discriminate.
  - teval.
  - apply (clock3 (zs "12") (zs "34") (zs "56") 12 34); [reflexivity|reflexivity|small|]. apply (number_int (zs "56") 56). reflexivity.
  - apply jd_eval. reflexivity.
Qed.

(** C45, a claim that fails: the same with the seconds left out.  Such a text is read by the order of the format: by
    default as year, day, month. *)
Theorem C45_fits_short_refuted :
  forall now ph, reads LMAX64 now ph 0 (zs "2010-03-05T12:34") 0 (instant 2455320 (inject_Z 45240)) 0 /\
    dmy_to_day LMAX64 3 5 2010 0 = Ret 2455320.
Proof. exact C45_fits_short_refuted_proof. Qed.
Print Assumptions C45_fits_short_refuted.

(** C45: "jd", "mjd", "unix" and "y" before a number: a Julian day (not 0), a modified Julian day,
    seconds since 1970, a year of 365.25 days. *)
Theorem C45_keywords :
  forall L now ph t0 txt fmt n q, number_of n q ->
  (text txt (zs "jd " ++ n) -> ~ (q == 0)%Q -> reads L now ph t0 txt fmt (q - 2451545)%Q 1) /\
  (text txt (zs "mjd " ++ n) -> reads L now ph t0 txt fmt (q + 2400000 + (1 # 2) - 2451545)%Q 1) /\
  (text txt (zs "unix " ++ n) -> reads L now ph t0 txt fmt (q / 86400 + 2440587 + (1 # 2) - 2451545)%Q 0) /\
  (text txt (zs "y " ++ n) -> reads L now ph t0 txt fmt ((q - 2000) * (36525 # 100) - (1 # 2))%Q 0).
Proof. exact C45_keywords_proof. Qed.
Print Assumptions C45_keywords.

Example C45_keywords_case : forall L now ph, reads L now ph 0 (zs "MJD51544.5") 0 ((515445 # 10) + 2400000 + (1 # 2) - 2451545)%Q 1.
Proof.
  intros L now ph. apply (C45_keywords L now ph 0 (zs "MJD51544.5") 0 (zs "51544.5") (515445 # 10)); [|teval].
  apply (number_dec (zs "51544") (zs "5") 515445). reflexivity.
Qed.

(** C45: "gps" before five digits: four of the GPS week, one of the day of the week. *)
Theorem C45_gps :
  forall L now ph t0 txt fmt ws w ds d, text txt (zs "gps " ++ ws ++ ds) -> digits_of ws w -> digits_of ds d ->
  List.length ws = 4%nat -> List.length ds = 1%nat ->
  reads L now ph t0 txt fmt (inject_Z (w * 7 + d) + 2444244 + (1 # 2) - 2451545)%Q 0.
Proof. exact C45_gps_proof. Qed.
Print Assumptions C45_gps.

Example C45_gps_case : forall L now ph, reads L now ph 0 (zs "GPS 15725") 0 (inject_Z (1572 * 7 + 5) + 2444244 + (1 # 2) - 2451545)%Q 0.
Proof.
  intros L now ph. apply (C45_gps L now ph 0 (zs "GPS 15725") 0 (zs "1572") 1572 (zs "5") 5); try reflexivity; try deval. teval.
Qed.

(** C45: "now" is the time of the clock. *)
Theorem C45_now :
  forall L now ph t0 txt fmt, text txt (zs "now") -> 0 <= now ->
  reads L now ph t0 txt fmt (inject_Z now / 86400 + 2440587 + (1 # 2) - 2451545)%Q 0.
Proof. exact C45_now_proof. Qed.
Print Assumptions C45_now.

Example C45_now_case : text (zs "Now") (zs "now").
Proof. teval. Qed.

(** C45: a text followed by nm, 1q, fm or 3q is read as the lunation of that phase nearest to the time
    of the text, by the linear formula for new moons. *)
Theorem C45_moon_phase :
  forall L now ph t0 txt body pt idx fmt t u,
  text txt (body ++ pt) -> In (pt, idx) phase_texts -> is_sign (hd 0 txt) = false ->
  reads L now ph t0 body fmt t u -> ~ (t == - 2451545)%Q ->
  exists n, let k := (inject_Z n + inject_Z idx * (1 # 4))%Q in
    (Qabs ((t - (509765 # 100000)) / (29530588853 # 1000000000) - k) <= 1 # 2)%Q /\
    reads L now ph t0 txt fmt (ph idx k) 1.
Proof. exact C45_moon_phase_proof. Qed.
Print Assumptions C45_moon_phase.

Example C45_moon_phase_case : forall now ph, exists n, let k := (inject_Z n + inject_Z 2 * (1 # 4))%Q in
    (Qabs (((3715 # 1) - (509765 # 100000)) / (29530588853 # 1000000000) - k) <= 1 # 2)%Q /\
    reads LMAX64 now ph 0 (zs "2455260 fm") 0 (ph 2 k) 1.
Proof.
  intros now ph. apply (C45_moon_phase LMAX64 now ph 0 (zs "2455260 fm") (zs "2455260 ") (zs "fm") 2 0 (3715 # 1) 1);
    try reflexivity; try discriminate; [teval|cbn; tauto|].
  exists 12%nat. intros f d ? ?. do 12 (destruct f as [|f]; [lia|]). do 12 (destruct d as [|d]; [lia|]).
  eexists; (split; [vm_compute; reflexivity|reflexivity]).
Qed.

(** C45, a claim that fails: every date is read or rejected.  A date with a named month, a year of at
    most 32 and a day with a decimal point stops the program at an assert. *)
Theorem C45_assert_refuted :
  (forall L now ph t0 txt fmt ys y ms m ds q sep order clk secs,
     start_ok L t0 fmt -> separator sep -> Permutation order [Year; Month; Day] ->
     text txt (written sep (tx ys ms ds) order ++ clk) -> clock_suffix clk secs ->
     year_text ys y -> y <= 32 -> In (ms, m) month_texts -> day_text ds q -> In 46 ds ->
     fails_assert L now ph t0 txt fmt) /\
  (forall now ph, fails_assert LMAX64 now ph 0 (zs "5.5 Jan 10") 0).
Proof. exact C45_assert_refuted_proof. Qed.
Print Assumptions C45_assert_refuted.

(** C45, a claim that fails: a month number that does not exist is rejected.  2010-20-25, in the order year, month, day,
    reads a table of month lengths outside of its bounds. *)
Theorem C45_month_number_refuted :
  forall now ph, crashes LMAX64 now ph 0 (zs "2010-20-25") 0.
Proof. exact C45_month_number_refuted_proof. Qed.
Print Assumptions C45_month_number_refuted.

(** C45, claims that fail: spaces may be doubled ("5  Mar 2010" loses its month and its year), the era
    may stand in the middle ("45 BC Mar 15"), and every Julian day may be given with "JD" (the
    day 0 is not). *)
Theorem C45_double_space_refuted :
  forall now ph,
  (exists t u, reads LMAX64 now ph 0 (zs "5  Mar 2010") 0 t u /\ ~ (instant 2455261 0 <= t)%Q) /\
  (exists t u jd, reads LMAX64 now ph 0 (zs "45 BC Mar 15") 0 t u /\ dmy_to_day LMAX64 15 3 (1 - 45) 0 = Ret jd /\ ~ (t == instant jd 0)%Q) /\
  (exists t u, reads LMAX64 now ph 0 (zs "JD 0") 0 t u /\ ~ (t == -2451545)%Q).
Proof. exact C45_double_space_refuted_proof. Qed.
Print Assumptions C45_double_space_refuted.
