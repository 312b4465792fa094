(** Reading complete dates. *)
From Coq Require Import QArith Qround Lia.
From Coq Require Import Ascii String.
From Verif Require Import CBase CLemmas CStr DateModel DateVocab TstrModel TstrSpec TstrCopy TstrNum TstrOff.
Local Open Scope list_scope.
Local Open Scope Z_scope.

(** ---- adjacent characters ---- *)
Fixpoint adjb (x y : Z) (s : list Z) : bool :=
  match s with
  | c :: ((d :: _) as r) => ((c =? x) && (d =? y)) || adjb x y r
  | _ => false
  end.
Lemma adj_prefix x y a : forall b s, prefix (a ++ x :: y :: b) s = true -> adjb x y s = true.
Proof.
  induction a as [|c a IH]; intros b s H.
  - destruct s as [|p [|q s]]; cbn [app prefix] in H; try discriminate.
    + apply andb_true_iff in H. destruct H as [_ H]. discriminate.
    + apply andb_true_iff in H. destruct H as [H1 H]. apply andb_true_iff in H. destruct H as [H2 _].
      cbn [adjb]. rewrite Z.eqb_sym, H1, Z.eqb_sym, H2. reflexivity.
  - destruct s as [|p s]; cbn [app prefix] in H; [discriminate|].
    apply andb_true_iff in H. destruct H as [_ H]. apply IH in H.
    destruct s as [|q s]; [discriminate|]. cbn [adjb] in *. rewrite H. apply orb_true_r.
Qed.
Lemma strstr_none x y a b s : adjb x y s = false -> strstr s (a ++ x :: y :: b) = None.
Proof.
  intro H. assert (P : forall s, adjb x y s = false -> prefix (a ++ x :: y :: b) s = false).
  { intros s' H'. destruct (prefix (a ++ x :: y :: b) s') eqn:E; [|reflexivity].
    apply adj_prefix in E. congruence. }
  induction s as [|c s IH]; cbn [strstr].
  - now rewrite P.
  - rewrite P by assumption. rewrite IH; [reflexivity|].
    destruct s as [|d s]; [reflexivity|]. cbn [adjb] in H. apply orb_false_iff in H. tauto.
Qed.
Definition bad_pairs : list (Z * Z) :=
  [(97, 100); (97, 46); (98, 99); (98, 46); (97, 109); (112, 109); (112, 46)].
Definition good (s : list Z) : bool := forallb (fun xy => negb (adjb (fst xy) (snd xy) s)) bad_pairs.
Lemma good_pair s x y : good s = true -> In (x, y) bad_pairs -> adjb x y s = false.
Proof. intros H Hi. unfold good in H. rewrite forallb_forall in H. specialize (H _ Hi). now apply negb_true_iff in H. Qed.
Definition plain_first (s : list Z) : Prop := forall c, In c s -> c <> 97 /\ c <> 98 /\ c <> 112.
Lemma adjb_no x y s : ~ In x s -> adjb x y s = false.
Proof.
  induction s as [|c s IH]; intro H; [reflexivity|]. destruct s as [|d s]; [reflexivity|]. cbn [adjb].
  replace (c =? x) with false by (symmetry; apply Z.eqb_neq; intros ->; apply H; now left).
  cbn [andb orb]. apply IH. intro K. apply H. now right.
Qed.
Lemma good_plain s : plain_first s -> good s = true.
Proof.
  intro H. unfold good. apply forallb_forall. intros [x y] Hi. cbn [fst snd]. apply negb_true_iff.
  apply adjb_no. intro K. specialize (H x K).
  cbn [bad_pairs In] in Hi. decompose [or] Hi; try contradiction;
    match goal with E : _ = (x, y) |- _ => injection E as <- <-; lia end.
Qed.
Lemma adjb_sep x y c w1 w2 : c <> x -> c <> y -> adjb x y (w1 ++ c :: w2) = adjb x y w1 || adjb x y w2.
Proof.
  intros Hx Hy. induction w1 as [|a w1 IH].
  - cbn [app]. destruct w2 as [|d w2]; [reflexivity|]. cbn [adjb].
    replace (c =? x) with false by (symmetry; now apply Z.eqb_neq). reflexivity.
  - destruct w1 as [|b w1].
    + cbn [app adjb]. replace (c =? y) with false by (symmetry; now apply Z.eqb_neq). rewrite andb_false_r. cbn [orb].
      destruct w2 as [|d w2]; [reflexivity|]. cbn [adjb]. replace (c =? x) with false by (symmetry; now apply Z.eqb_neq). reflexivity.
    + change (adjb x y ((a :: b :: w1) ++ c :: w2)) with (((a =? x) && (b =? y)) || adjb x y ((b :: w1) ++ c :: w2)).
      rewrite IH. cbn [adjb]. now rewrite orb_assoc.
Qed.
Definition sep_char (c : Z) : Prop := c = 32 \/ c = 45 \/ c = 47 \/ c = 58.
Lemma good_sep c w1 w2 : sep_char c -> good w1 = true -> good w2 = true -> good (w1 ++ c :: w2) = true.
Proof.
  intros Hc H1 H2. unfold good. apply forallb_forall. intros [x y] Hi. cbn [fst snd]. apply negb_true_iff.
  rewrite adjb_sep.
  - rewrite (good_pair w1) by assumption. now rewrite (good_pair w2).
  - cbn [bad_pairs In] in Hi. unfold sep_char in Hc. decompose [or] Hi; try contradiction;
      match goal with E : _ = (x, y) |- _ => injection E as <- <-; lia end.
  - cbn [bad_pairs In] in Hi. unfold sep_char in Hc. decompose [or] Hi; try contradiction;
      match goal with E : _ = (x, y) |- _ => injection E as <- <-; lia end.
Qed.
Lemma month_good s m : In (s, m) month_texts -> good s = true.
Proof.
  intro H. assert (K : forallb (fun e => good (fst e)) month_texts = true) by (vm_compute; reflexivity).
  rewrite forallb_forall in K. exact (K _ H).
Qed.

Ltac no_sub H x y a b :=
  match goal with |- context [strstr ?s ?p] =>
    change p with (a ++ x :: y :: b); rewrite (strstr_none x y a b s) by (apply good_pair; [exact H|cbn [bad_pairs In]; tauto])
  end.
Lemma removed_good s : good s = true ->
  remove_substring s (zs "ad") = None /\ remove_substring s (zs "a.d.") = None /\
  remove_substring s (zs "bc") = None /\ remove_substring s (zs "b.c.") = None /\
  remove_substring s (zs " am") = None /\ remove_substring s (zs " a.m.") = None /\
  remove_substring s (zs " pm") = None /\ remove_substring s (zs " p.m.") = None.
Proof.
  intro H. unfold remove_substring.
  change (zs "ad") with ([] ++ 97 :: 100 :: []). change (zs "a.d.") with ([] ++ 97 :: 46 :: [100; 46]).
  change (zs "bc") with ([] ++ 98 :: 99 :: []). change (zs "b.c.") with ([] ++ 98 :: 46 :: [99; 46]).
  change (zs " am") with ([32] ++ 97 :: 109 :: []). change (zs " a.m.") with ([32] ++ 97 :: 46 :: [109; 46]).
  change (zs " pm") with ([32] ++ 112 :: 109 :: []). change (zs " p.m.") with ([32] ++ 112 :: 46 :: [109; 46]).
  repeat rewrite strstr_none by (apply good_pair; [exact H|cbn [bad_pairs In]; tauto]).
  repeat split.
Qed.

(** ---- the steps before the date ---- *)
Definition tidy (s : list Z) : Prop :=
  hd 32 s <> 32 /\ last s 32 <> 32 /\ s <> [].
Lemma tidy_trim s : tidy s -> trim_end s = s.
Proof.
  intros (_ & H & Hn). destruct (exists_last Hn) as (p & c & ->). apply trim_id.
  now rewrite last_last in H.
Qed.
Lemma check_plain s : good s = true -> tidy s -> check_for_bc s = (s, false).
Proof.
  intros H T. destruct (removed_good s H) as (E1 & E2 & E3 & E4 & _). unfold check_for_bc, removed.
  rewrite E1, E2, E3, E4. unfold remove_leading_and_trailing_spaces. rewrite rts_trim.
  pose proof T as (Hh & _ & Hn). destruct s as [|c s]; [congruence|]. cbn [hd] in Hh.
  cbn [span]. unfold is_space. replace (c =? 32) with false by (symmetry; now apply Z.eqb_neq). cbn [skipn].
  now rewrite tidy_trim.
Qed.
Lemma am_pm_plain s : good s = true -> am_pm s = (s, 0).
Proof.
  intro H. destruct (removed_good s H) as (_ & _ & _ & _ & E1 & E2 & E3 & E4). unfold am_pm.
  rewrite E1, E2, E3, E4. destruct (_ <=? _); reflexivity.
Qed.
(** The text does not end with an offset. *)
Definition no_offset_end (s : list Z) : Prop :=
  is_sign (hd 0 s) = false /\
  (strchr (zs "smhdwlyc") (last s 0) = false \/ hd 0 (tl (rev s)) <> 32).
Lemma collect_none s : no_offset_end s -> collect_time_offset s = Ret (0%Q, s).
Proof.
  intros [H1 H2]. unfold collect_time_offset. destruct (1 <? List.length s)%nat eqn:El; [|reflexivity].
  apply Nat.ltb_lt in El.
  assert (exists p x y, s = p ++ [x; y]) as (p & x & y & ->).
  { destruct (@exists_last _ s) as (p & y & ->); [destruct s; [cbn in El; lia|discriminate]|].
    rewrite app_length in El. cbn [List.length] in El.
    destruct (@exists_last _ p) as (p' & x & ->); [destruct p; [cbn in El; lia|discriminate]|].
    exists p', x, y. now rewrite <- app_assoc. }
  destruct (at_last p x y _ eq_refl) as [A1 A2]. rewrite A1, A2. cbn [obind].
  assert (EL : last (p ++ [x; y]) 0 = y).
  { replace (p ++ [x; y]) with ((p ++ [x]) ++ [y]) by (rewrite <- app_assoc; reflexivity). apply last_last. }
  rewrite EL in H2. rewrite rev_app_distr in H2. cbn [rev app tl hd] in H2.
  assert (E : strchr (zs "smhdwlyc") y && (x =? 32) = false).
  { destruct H2 as [H2|H2]; [now rewrite H2|]. replace (x =? 32) with false by (symmetry; now apply Z.eqb_neq). apply andb_false_r. }
  rewrite E.
  assert (A0 : at_ (p ++ [x; y]) 0 = Ret (hd 0 (p ++ [x; y]))).
  { unfold at_. rewrite app_length. cbn [List.length].
    replace (0 =? Z.of_nat (List.length p + 2)) with false by (symmetry; apply Z.eqb_neq; lia).
    destruct p; reflexivity. }
  rewrite A0. cbn [obind]. now rewrite H1.
Qed.
Definition no_phase_end (s : list Z) : Prop :=
  match rev s with b :: a :: _ => get_phase_idx a b = -1 | _ => True end.
Definition no_keyword (s : list Z) : Prop := forall E t0, keywords E t0 s = Ret ((- J2000)%Q, 0, s, t0).
Definition ordinary (s : list Z) : Prop :=
  good s = true /\ tidy s /\ no_offset_end s /\ no_phase_end s.
Lemma offsets_none s o f : s <> [] -> no_offset_end s -> offsets (S f) s o = Ret (s, o).
Proof.
  intros Hn H. rewrite offsets_step by assumption. rewrite collect_none by assumption. reflexivity.
Qed.
Lemma run_keywords f E t0 txt norm fmt : text txt norm -> ordinary norm ->
  get_time_from_stringl (S (S f)) E t0 txt fmt =
  (do '(rval, is_ut, str, t0') <- keywords E t0 norm;
   if negb (is_rval_unset rval) then Ret ((rval + 0)%Q, is_ut)
   else date_and_time E t0' fmt str false is_ut 0).
Proof.
  intros HT (Hg & Ht & Ho & Hp). rewrite get_time_step, (copy_text_ok _ _ HT). cbn [obind].
  rewrite (tidy_trim norm Ht). rewrite offsets_none by (assumption || apply Ht). cbn [obind]. cbv zeta.
  unfold no_phase_end in Hp.
  assert (E0 : match rev norm with b :: a :: _ => get_phase_idx a b | _ => -1 end = -1).
  { destruct (rev norm) as [|b [|a r]]; [reflexivity|reflexivity|exact Hp]. }
  rewrite E0. change (negb (-1 =? -1)) with false. cbv iota. rewrite (check_plain norm Hg Ht). reflexivity.
Qed.
Lemma run_date f E t0 txt norm fmt : text txt norm -> ordinary norm -> no_keyword norm ->
  get_time_from_stringl (S (S f)) E t0 txt fmt = date_and_time E t0 fmt norm false 0 0.
Proof.
  intros HT Ho Hk. rewrite (run_keywords f E t0 txt norm fmt HT Ho). rewrite Hk. reflexivity.
Qed.

(** ---- the time of day ---- *)
Definition clock_char (c : Z) : Prop := num_char c \/ c = 58.
Lemma clock_char_in c : clock_char c -> in_clock c = true.
Proof.
  unfold clock_char, num_char, in_clock. intro H.
  replace (c =? 32) with false by (symmetry; apply Z.eqb_neq; lia).
  replace (isalpha c) with false; [reflexivity|]. symmetry. unfold isalpha, isupper, islower.
  apply orb_false_iff. rewrite !andb_false_iff, !Z.leb_gt. lia.
Qed.
Lemma in_num c n q : number_of n q -> In c n -> num_char c.
Proof. intros H. apply (number_chars n q H). Qed.
Lemma in_digits c s v : digits_of s v -> In c s -> 48 <= c <= 57.
Proof. intros (_ & H & _) Hc. apply digit_range. now apply H. Qed.
Lemma clock_chars s t : clock_text s t -> s <> [] /\ (forall c, In c s -> clock_char c) /\ In 58 s /\
  isdigit (hd 0 s) = true /\ (isdigit (last s 0) = true \/ last s 0 = 46).
Proof.
  intros (h & hv & m & mv & Hh & Hm & _ & [[-> _]|(x & xv & Hx & -> & _)]).
  - assert (Hm' := Hm). destruct Hh as (Hn & Hd & _). destruct h as [|c0 h]; [congruence|].
    split; [discriminate|]. split.
    + intros c Hc. apply in_app_or in Hc. destruct Hc as [Hc|[<-|Hc]].
      * left. left. apply digit_range. now apply Hd.
      * now right.
      * left. left. exact (in_digits c m mv Hm Hc).
    + split; [apply in_or_app; right; now left|]. split; [cbn [app hd]; apply Hd; now left|].
      left. destruct Hm as (Hmn & Hmd & _). destruct (exists_last Hmn) as (p & c & ->).
      replace ((c0 :: h) ++ 58 :: p ++ [c]) with (((c0 :: h) ++ 58 :: p) ++ [c]) by (rewrite <- app_assoc; reflexivity).
      rewrite last_last. apply Hmd. apply in_or_app. right. now left.
  - destruct Hh as (Hn & Hd & _). destruct h as [|c0 h]; [congruence|].
    split; [discriminate|]. split.
    + intros c Hc. apply in_app_or in Hc. destruct Hc as [Hc|[<-|Hc]].
      * left. left. apply digit_range. now apply Hd.
      * now right.
      * apply in_app_or in Hc. destruct Hc as [Hc|[<-|Hc]].
        -- left. left. exact (in_digits c m mv Hm Hc).
        -- now right.
        -- left. exact (in_num c x xv Hx Hc).
    + split; [apply in_or_app; right; now left|]. split; [cbn [app hd]; apply Hd; now left|].
      destruct (number_chars x xv Hx) as (Hxn & Hxc). destruct (exists_last Hxn) as (p & c & ->).
      replace ((c0 :: h) ++ 58 :: m ++ 58 :: p ++ [c]) with (((c0 :: h) ++ 58 :: m ++ 58 :: p) ++ [c])
        by (rewrite <- !app_assoc; cbn [app]; rewrite <- !app_assoc; reflexivity).
      rewrite last_last. destruct (Hxc c) as [K|K]; [apply in_or_app; right; now left| |now right].
      left. now apply digit_range.
Qed.
Lemma colon_end t : num_end (58 :: t).
Proof. repeat split; lia || reflexivity. Qed.
Lemma scan_clock s t : clock_text s t -> exists h a b, scan_d_lf_lf s = Ret (h, a, b) /\
  0 <= h < 10000 /\ (inject_Z (h * 60 + 0) / 1440 + (b + a * 60) / 86400 == t / 86400)%Q.
Proof.
  intros (h & hv & m & mv & Hh & Hm & Hl & H). pose proof (digits_bound h hv Hh) as Bh.
  assert (Bh' : 0 <= hv < 10000).
  { split; [lia|]. assert (10 ^ Z.of_nat (List.length h) <= 10 ^ 4) by (apply Z.pow_le_mono_r; lia). lia. }
  pose proof (digits_number m mv Hm) as Nm.
  destruct H as [[-> ->]|(x & xv & Hx & -> & ->)].
  - exists hv, (inject_Z mv), 0%Q. split.
    + unfold scan_d_lf_lf. rewrite (scan_d_num IMAX h hv (58 :: m) Hh eq_refl) by (unfold IMAX; lia). cbn [obind lit].
      change (58 =? 58) with true. cbv iota. unfold scan_lf_lf.
      rewrite <- (app_nil_r m). rewrite (scan_lf_num m _ [] Nm I). cbn [obind lit]. reflexivity.
    + split; [assumption|]. rewrite !inject_Z_plus, !inject_Z_mult. field.
  - exists hv, (inject_Z mv), xv. split.
    + unfold scan_d_lf_lf. rewrite (scan_d_num IMAX h hv (58 :: m ++ 58 :: x) Hh eq_refl) by (unfold IMAX; lia). cbn [obind lit].
      change (58 =? 58) with true. cbv iota. unfold scan_lf_lf.
      rewrite (scan_lf_num m _ (58 :: x) Nm (colon_end x)). cbn [obind lit].
      change (58 =? 58) with true. cbv iota.
      rewrite <- (app_nil_r x). rewrite (scan_lf_num x _ [] Hx I). cbn [obind]. reflexivity.
    + split; [assumption|]. rewrite !inject_Z_plus, !inject_Z_mult. field.
Qed.
Lemma existsb_in c s : existsb (Z.eqb c) s = true <-> In c s.
Proof.
  rewrite existsb_exists. split.
  - intros (x & Hx & E). apply Z.eqb_eq in E. now subst x.
  - intro H. exists c. split; [assumption|apply Z.eqb_refl].
Qed.
Lemma existsb_notin c s : ~ In c s -> existsb (Z.eqb c) s = false.
Proof. intro H. destruct (existsb (Z.eqb c) s) eqn:E; [|reflexivity]. now apply existsb_in in E. Qed.
Lemma clock_none str ap h mi sec : ~ In 58 str -> clock str ap h mi sec = Ret (str, 0, 0, 0%Q).
Proof.
  intro H. unfold clock. set (i := (List.length str - span in_clock (rev str))%nat).
  assert (K : ~ In 58 (skipn i str)).
  { intro K. apply H. rewrite <- (firstn_skipn i str). apply in_or_app. now right. }
  rewrite existsb_notin by assumption.
  replace (streq (skipn i str) (zs ":")) with false; [reflexivity|].
  symmetry. destruct (skipn i str) as [|c [|d r]]; try reflexivity.
  - cbn [streq zs]. replace (c =? zc ":"%char) with false; [reflexivity|]. symmetry. apply Z.eqb_neq. change (zc ":"%char) with 58.
    intros ->. apply K. now left.
  - cbn [streq zs]. apply andb_false_r.
Qed.
Lemma span_rev_app f a c s : (forall x, In x s -> f x = true) -> f c = false ->
  span f (rev (a ++ c :: s)) = List.length s.
Proof.
  intros Hs Hc. rewrite rev_app_distr. cbn [rev]. rewrite <- !app_assoc. cbn [app].
  rewrite span_all_app by (intros x Hx; apply Hs; now apply in_rev).
  cbn [span]. rewrite Hc. rewrite rev_length. lia.
Qed.
Lemma clock_some date s t h mi sec : clock_text s t ->
  exists h' b, clock (date ++ 32 :: s) 0 h mi sec = Ret (date, h', 0, b) /\
    0 <= h' < 10000 /\ (inject_Z (h' * 60 + 0) / 1440 + b / 86400 == t / 86400)%Q.
Proof.
  intro H. destruct (clock_chars s t H) as (Hn & Hc & H58 & Hd & _).
  destruct (scan_clock s t H) as (hv & a & b & Es & Hh & Ht).
  exists hv, (b + a * 60)%Q. split; [|split; assumption].
  unfold clock. rewrite span_rev_app by (try reflexivity; intros x Hx; apply clock_char_in; now apply Hc).
  assert (Ei : (List.length (date ++ 32%Z :: s) - List.length s)%nat = List.length (date ++ [32])).
  { rewrite !app_length. cbn [List.length]. lia. }
  rewrite Ei. replace (date ++ 32 :: s) with ((date ++ [32]) ++ s) by (rewrite <- app_assoc; reflexivity).
  rewrite skipn_app_l. rewrite (proj2 (existsb_in 58 s) H58).
  replace (streq s (zs ":")) with false.
  2:{ symmetry. destruct s as [|c s]; [congruence|]. cbn [hd] in Hd. cbn [streq zs]. change (zc ":"%char) with 58.
      replace (c =? 58) with false; [reflexivity|]. symmetry. apply Z.eqb_neq. intros ->. discriminate. }
  destruct s as [|c s]; [congruence|]. cbn [hd] in Hd.
  assert (E : forall A (x y : A), match c :: s with 58 :: _ => x | _ => y end = y).
  { intros A x y. apply digit_range in Hd. destruct c as [|p|p]; try reflexivity.
    do 6 (destruct p as [p|p|]; try reflexivity); lia. }
  assert (E2 : (match c :: s with
       | 58 :: r => do '(dminute, s0) <- scan_lf_lf r 0 0; Ret (h, 0, (s0 + dminute * 60)%Q)
       | _ =>
           do '(h0, dminute, s0) <- scan_d_lf_lf (c :: s);
           do h1 <- (if 0 =? 1 then Ret (if h0 =? 12 then 0 else h0)
                    else if 0 =? 2 then (if h0 =? 12 then Ret h0 else ev IMAX (h0 + 12)%cx)
                    else Ret h0);
           Ret (h1, 0, (s0 + dminute * 60)%Q)
       end) = Ret (hv, 0, (b + a * 60)%Q)).
  { rewrite Es. apply digit_range in Hd. destruct c as [|p|p]; try reflexivity.
    do 6 (destruct p as [p|p|]; try reflexivity); lia. }
  rewrite E2. cbn [obind]. rewrite app_length. cbn [List.length].
  replace (List.length date + 1 - 1)%nat with (List.length date) by lia.
  rewrite <- app_assoc. now rewrite firstn_app_l.
Qed.
(** Nothing or a time of day after the date. *)
Lemma clock_any date s t h mi sec : clock_suffix s t -> ~ In 58 date ->
  exists h' b, clock (date ++ s) 0 h mi sec = Ret (date, h', 0, b) /\
    0 <= h' < 10000 /\ (inject_Z (h' * 60 + 0) / 1440 + b / 86400 == t / 86400)%Q.
Proof.
  intros [[-> ->]|(c & -> & H)] Hd.
  - exists 0, 0%Q. rewrite app_nil_r. split; [now apply clock_none|]. split; [lia|reflexivity].
  - now apply clock_some.
Qed.

(** ---- the starting time and the end ---- *)
Lemma trunc_inject z : trunc (inject_Z z) = z.
Proof. unfold trunc. cbn [inject_Z Qnum Qden]. apply Z.quot_1_r. Qed.
Lemma to_integer_inject L z : - L - 1 <= z <= L -> to_integer L (inject_Z z) = Ret z.
Proof. intro H. unfold to_integer. rewrite trunc_inject. now apply chk_ok. Qed.
Lemma finish_ok E fmt y m d h b jd t : long_ok (e_long E) -> 0 <= d <= 1000 ->
  dmy_to_day (e_long E) d m y (calendar_of fmt) = Ret jd -> jd_ok (e_long E) jd ->
  0 <= h < 10000 -> (inject_Z (h * 60 + 0) / 1440 + b / 86400 == t / 86400)%Q ->
  exists r, finish E (calendar_of fmt) false y m (inject_Z d) h 0 b 0 = Ret r /\ (r == instant jd t)%Q.
Proof.
  intros HL Hd Hj Hjd Hh Ht. unfold finish. cbn [obind].
  rewrite to_integer_inject by (unfold IMAX; lia). cbn [obind]. rewrite Hj. cbn [obind].
  unfold jd_ok, long_ok in *.
  rewrite ev_val by (cbn [safe val]; unfold fits; repeat split; lia). cbn [obind val].
  rewrite ev_val by (cbn [safe val]; unfold fits, IMAX; repeat split; lia). cbn [obind val].
  eexists. split; [reflexivity|]. unfold instant. rewrite <- Ht. ring.
Qed.
