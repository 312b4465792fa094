(** Texts that make the function fail. *)
From Coq Require Import QArith Qround Lia Permutation.
From Coq Require Import Ascii String.
From Verif Require Import CBase CLemmas CStr DateModel DateVocab DateThms TstrModel TstrSpec TstrCopy TstrNum TstrOff TstrDate TstrSplit TstrField TstrThree TstrRoles TstrRead TstrOther TstrForms.
Local Open Scope list_scope.
Local Open Scope Z_scope.

Lemma hang_ok L now ph t0 txt fmt b sg n q c w u :
  text txt (b ++ sg :: n ++ 32 :: c :: w ++ [32; u]) -> (sg = 43 \/ sg = 45) -> number_of n q -> ~ (q == 0)%Q ->
  isspace c = false -> (forall x, In x (c :: w) -> x <> 43 /\ x <> 45) -> In u (zs "smhdwlyc") ->
  never_returns L now ph t0 txt fmt.
Proof.
  intros HT Hs Hn Hq Hc Hw Hu fuel dfuel. destruct fuel as [|fuel]; [reflexivity|]. rewrite get_time_step, (copy_text_ok _ _ HT). cbn [obind].
  set (s := b ++ sg :: n ++ 32 :: c :: w ++ [32; u]) in *.
  assert (U1 : u <> 32 /\ strchr (zs "smhdwlyc") u = true /\ is_sign u = false).
  { vm_compute in Hu. repeat (destruct Hu as [<-|Hu]; [repeat split; (lia || reflexivity)|]). destruct Hu. }
  destruct U1 as (U1 & U2 & U3).
  assert (Es : s = (b ++ sg :: n ++ 32 :: c :: w) ++ [32; u]).
  { unfold s. repeat (rewrite <- app_assoc; cbn [app]). reflexivity. }
  assert (Et : trim_end s = s).
  { rewrite Es. change [32; u] with ([32] ++ [u]). rewrite app_assoc. now apply trim_id. }
  rewrite Et.
  assert (Ec : exists q', collect_time_offset s = Ret (q', s) /\ ~ (q' == 0)%Q).
  { unfold collect_time_offset.
    assert (Ln : (1 <? List.length s)%nat = true) by (apply Nat.ltb_lt; rewrite Es, app_length; cbn [List.length]; lia).
    rewrite Ln. destruct (at_last (b ++ sg :: n ++ 32 :: c :: w) 32 u s Es) as [-> ->]. cbn [obind]. rewrite U2.
    change (32 =? 32) with true. cbn [andb].
    assert (Sg : is_sign sg = true) by (destruct Hs as [->| ->]; reflexivity).
    assert (El : last_sign s = Some (List.length b)).
    { unfold s. apply last_sign_app; [assumption|]. intros x Hx. apply in_app_or in Hx. destruct Hx as [Hx|Hx]; [exact (num_no_sign n q Hn x Hx)|].
      destruct Hx as [<-|Hx]; [reflexivity|]. change (c :: w ++ [32; u]) with ((c :: w) ++ [32; u]) in Hx. apply in_app_or in Hx. destruct Hx as [Hx|Hx].
      - specialize (Hw x Hx). unfold is_sign. rewrite orb_false_iff, !Z.eqb_neq. lia.
      - destruct Hx as [<-|[<-|[]]]; [reflexivity|assumption]. }
    rewrite El. assert (Ek : skipn (List.length b) s = sg :: n ++ 32 :: c :: w ++ [32; u]) by (unfold s; apply skipn_app_l).
    rewrite Ek.
    assert (E2 : scan_lf (sg :: n ++ 32 :: c :: w ++ [32; u]) = Ret (Some ((if sg =? 45 then - q else q)%Q, 32 :: c :: w ++ [32; u]))).
    { destruct Hs as [->| ->]; [rewrite (scan_lf_plus n q) by (assumption || apply sp_end)|rewrite (scan_lf_minus n q) by (assumption || apply sp_end)]; reflexivity. }
    rewrite E2. cbn [obind]. rewrite skip_ws_sp.
    assert (E3 : skip_ws (c :: w ++ [32; u]) = c :: w ++ [32; u]) by (unfold skip_ws; cbn [span]; rewrite Hc; reflexivity).
    rewrite E3. exists (if sg =? 45 then - q else q)%Q. split.
    - destruct w as [|x w]; reflexivity.
    - destruct (sg =? 45); [|assumption]. intro K. apply Hq. rewrite <- (Qopp_involutive q), K. reflexivity. }
  destruct Ec as (q' & Ec & Hq'). assert (Sn : s <> []) by (unfold s; destruct b; discriminate).
  assert (G : forall k o, offsets k s o = Fuel).
  { induction k as [|k IH]; intro o; [destruct s; [congruence|reflexivity]|]. rewrite offsets_step by assumption. rewrite Ec. cbn [obind].
    replace (Qeq_bool q' 0) with false by (symmetry; apply not_true_iff_false; intro K; apply Qeq_bool_iff in K; contradiction).
    rewrite rts_trim, Et. apply IH. }
  rewrite G. reflexivity.
Qed.
(** A day with decimals, the name of a month and a year below 33. *)
Lemma abort_ok L now ph t0 txt fmt ys y ms m ds q sep order clk secs :
  start_ok L t0 fmt -> separator sep -> Permutation order [Year; Month; Day] ->
  text txt (written sep (tx ys ms ds) order ++ clk) -> clock_suffix clk secs ->
  year_text ys y -> y <= 32 -> In (ms, m) month_texts -> day_text ds q -> In 46 ds ->
  fails_assert L now ph t0 txt fmt.
Proof.
  intros HS Hsep Hp HT Hc (Hy & Ly) Hy32 Hm Hd Hdot.
  pose proof (day_fld ds q Hd) as Fd. pose proof (digits_fld ys y Hy) as Fy. pose proof (month_fld ms m Hm) as Fm.
  pose proof Hd as (Nd & _ & Ld & Qd). pose proof (number_nonneg ds q Nd) as Q0. pose proof (short_digits ys y Hy Ly) as By.
  pose proof (month_range ms m Hm) as Rm. pose proof (month_len ms m Hm) as Lm.
  assert (Dy : has_dot ys = false) by (eapply digits_dot; eassumption).
  assert (Dm : has_dot ms = false) by (eapply fld_dot; eassumption).
  assert (Dd : has_dot ds = true) by now apply existsb_in.
  pose proof (small_vals y ltac:(lia)) as Vy. pose proof (small_vals m ltac:(lia)) as Vm. pose proof (small_day q Q0 Qd) as Vd.
  set (val := fun p => match p with Year => inject_Z y | Month => inject_Z m | Day => q end).
  set (is_m := fun p => match p with Month => true | _ => false end).
  assert (X : exists a b c, order = [a; b; c]).
  { pose proof (Permutation_length Hp) as K. destruct order as [|a [|b [|c [|? ?]]]]; try discriminate. eauto. }
  destruct X as (a & b & c & Eo).
  assert (F : forall p, fld (tx ys ms ds p) (val p) (is_m p)) by (intros []; assumption).
  assert (Ln : forall p, (List.length (tx ys ms ds p) <= 9)%nat) by (intros []; assumption).
  assert (V : forall p, small_val (val p)) by (intros []; assumption).
  subst order. unfold written in HT. cbn [map concat] in HT. rewrite app_nil_r in HT.
  repeat (rewrite <- app_assoc in HT; cbn [app] in HT).
  destruct (split_some L t0 fmt HS) as (N & HN). exists (S (S N)). intros fuel dfuel Hf Hdf.
  destruct fuel as [|[|fuel]]; [lia|lia|].
  rewrite (run_date fuel _ t0 txt _ fmt HT);
    [|eapply three_ordinary; eauto|eapply fld_no_keyword; eauto].
  destruct (three_fields_run L now dfuel ph t0 fmt _ _ _ _ _ _ _ _ _ sep clk secs (F a) (F b) (F c) Hsep (Ln a) Hc (HN now ph dfuel ltac:(lia)))
    as (h & b0 & y0 & d0 & Hh & Ht & ->).
  rewrite (date_fields_three _ fmt _ _ _ _ _ _ _ _ _ sep y0 d0 (F a) (F b) (F c) Hsep) by (try apply Nat.lt_succ_r; pose proof (Ln a); pose proof (Ln b); lia).
  set (E := {| e_long := L; e_now := now; e_fuel := dfuel; e_phase := ph |}).
  destruct (choose_year E fmt (val a) (val b) (val c) (mpos (is_m a) (is_m b) (is_m c)) (dpos (tx ys ms ds a) (tx ys ms ds b) (tx ys ms ds c)) I) as (_ & _ & _ & K).
  fold (mpos (is_m a) (is_m b) (is_m c)). fold (dpos (tx ys ms ds a) (tx ys ms ds b) (tx ys ms ds c)).
  rewrite (K (V a) (V b) (V c)). unfold three_fields.
  assert (R : exists mf df, (mpos (is_m a) (is_m b) (is_m c), dpos (tx ys ms ds a) (tx ys ms ds b) (tx ys ms ds c)) = (mf, df) /\ 1 <= mf <= 3 /\ 1 <= df <= 3).
  { pose proof (perm_orders _ Hp) as PO. unfold mpos, dpos.
    destruct PO as [PO|[PO|[PO|[PO|[PO|PO]]]]]; injection PO as -> -> ->; cbn [tx is_m]; rewrite ?Dy, ?Dm, ?Dd; eexists _, _; (split; [reflexivity|lia]). }
  destruct R as (mf & df & ER & Hmf & Hdf2). injection ER as -> ->.
  assert (Er : roles fmt mf 0 df = (0, mf, df)).
  { unfold roles. change (0 =? 0) with true. cbv iota. rewrite (proj2 (Z.eqb_neq mf 0)) by lia. rewrite (proj2 (Z.eqb_neq df 0)) by lia.
    rewrite (proj2 (Z.eqb_neq mf 0)) by lia. rewrite (proj2 (Z.eqb_neq df 0)) by lia. reflexivity. }
  rewrite Er. reflexivity.
Qed.
(** ---- the copy of the text ---- *)
Lemma run_ext t0 s1 s2 fmt : copy_text s1 = copy_text s2 ->
  forall fuel E, get_time_from_stringl fuel E t0 s1 fmt = get_time_from_stringl fuel E t0 s2 fmt.
Proof. intros H [|fuel] E; [reflexivity|]. rewrite !get_time_step, H. reflexivity. Qed.
Lemma drop_skipn s : skipn (span is_space s) s = drop_spaces s.
Proof.
  induction s as [|c s IH]; [reflexivity|]. cbn [span drop_spaces]. unfold is_space at 1. destruct (c =? 32); [exact IH|reflexivity].
Qed.
Lemma drop_idem s : drop_spaces (drop_spaces s) = drop_spaces s.
Proof.
  induction s as [|c s IH]; [reflexivity|]. cbn [drop_spaces]. destruct (c =? 32) eqn:E; [assumption|]. cbn [drop_spaces]. now rewrite E.
Qed.
Lemma copy_drop s : copy_text s = copy_text (drop_spaces s).
Proof. unfold copy_text. now rewrite !drop_skipn, drop_idem. Qed.
Lemma drop_head s : drop_spaces s <> [] -> hd 0 (drop_spaces s) <> 32.
Proof.
  induction s as [|c s IH]; [intro H; exfalso; now apply H|]. cbn [drop_spaces]. destruct (c =? 32) eqn:E; [assumption|]. intros _. cbn [hd]. now apply Z.eqb_neq.
Qed.
Lemma drop_nul s : no_nul s -> no_nul (drop_spaces s).
Proof.
  induction s as [|c s IH]; intro H; [exact H|]. cbn [drop_spaces]. destruct (c =? 32); [|assumption]. apply IH. intros x Hx. apply H. now right.
Qed.
Lemma copy_reject s : drop_spaces s = [] \/ (80 <= List.length (drop_spaces s))%nat -> copy_text s = Ret None.
Proof.
  intro H. unfold copy_text. rewrite drop_skipn. destruct (drop_spaces s) as [|c r]; [reflexivity|].
  destruct H as [H|H]; [discriminate|]. rewrite (proj2 (Z.leb_le 80 _)) by (cbn [List.length] in H; lia). reflexivity.
Qed.
Lemma spread_nul s : no_nul s -> no_nul (spread s).
Proof.
  destruct s as [|c r]; [intros _ x []|]. intro H. rewrite spread_sf. intros x [<-|Hx]; [apply tolower_nz, H; now left|].
  refine (sf_nul r c _ x Hx). intros y Hy. apply H. now right.
Qed.
Lemma trim_sub s x : In x (trim_end s) -> In x s.
Proof.
  induction s as [|c s IH]; [intros []|]. cbn [trim_end]. destruct (trim_end s) as [|d t].
  - destruct (c =? 32); [intros []|]. intros [<-|[]]. now left.
  - intros [<-|K]; [now left|right; now apply IH].
Qed.
Lemma trim_len s : (List.length (trim_end s) <= List.length s)%nat.
Proof.
  induction s as [|c s IH]; [reflexivity|]. cbn [trim_end]. destruct (trim_end s); [destruct (c =? 32); cbn [List.length]; lia|].
  cbn [List.length] in *. lia.
Qed.
Lemma copy_cases txt : no_nul txt -> let s := drop_spaces txt in s <> [] -> (List.length s < 80)%nat ->
  (overruns s -> copy_text txt = UB) /\
  (~ overruns s -> copy_text txt = Ret (Some (trim_end (firstn 79 (spread s)))) /\
     (List.length (trim_end (firstn 79 (spread s))) <= 79)%nat /\ no_nul (trim_end (firstn 79 (spread s)))).
Proof.
  intros Hn s Hs Hl. rewrite copy_drop. fold s. pose proof (drop_nul _ Hn) as Hn2. fold s in Hn2.
  rewrite copy_text_spec by (try assumption; now apply drop_head). split.
  - intro H. apply over_text_spec in H. now rewrite H.
  - intro H. destruct (over_text s) eqn:E; [exfalso; apply H; now apply over_text_spec|]. split; [reflexivity|]. split.
    + eapply Nat.le_trans; [apply trim_len|]. rewrite firstn_length. lia.
    + intros x Hx. apply trim_sub in Hx. apply (spread_nul s Hn2). rewrite <- (firstn_skipn 79 (spread s)). apply in_or_app. now left.
Qed.
Lemma reject_reads L now ph t0 txt fmt : drop_spaces txt = [] \/ (80 <= List.length (drop_spaces txt))%nat -> reads L now ph t0 txt fmt t0 (-3).
Proof.
  intro H. exists 1%nat. intros fuel dfuel Hf _. destruct fuel as [|fuel]; [lia|]. rewrite get_time_step, (copy_reject _ H).
  exists t0. split; reflexivity.
Qed.
Lemma overrun_crashes L now ph t0 txt fmt : no_nul txt -> drop_spaces txt <> [] -> (List.length (drop_spaces txt) < 80)%nat ->
  overruns (drop_spaces txt) -> crashes L now ph t0 txt fmt.
Proof.
  intros Hn Hs Hl Ho. exists 1%nat. intros fuel dfuel Hf _. destruct fuel as [|fuel]; [lia|].
  rewrite get_time_step. rewrite (proj1 (copy_cases txt Hn Hs Hl) Ho). reflexivity.
Qed.
Lemma same_reading L now ph t0 txt fmt P : run L now ph t0 txt fmt P <-> run L now ph t0 (drop_spaces txt) fmt P.
Proof.
  assert (E : forall fuel Ev, get_time_from_stringl fuel Ev t0 txt fmt = get_time_from_stringl fuel Ev t0 (drop_spaces txt) fmt)
    by (intros; apply run_ext; apply copy_drop).
  split; intros (N & H); exists N; intros fuel dfuel H1 H2; specialize (H fuel dfuel H1 H2); rewrite E in *; assumption.
Qed.
Lemma same_norm L now ph t0 s1 s2 fmt P : no_nul s1 -> no_nul s2 -> hd 0 s1 <> 32 -> hd 0 s2 <> 32 -> s1 <> [] -> s2 <> [] ->
  (List.length s1 < 80)%nat -> (List.length s2 < 80)%nat -> ~ overruns s1 -> ~ overruns s2 ->
  trim_end (firstn 79 (spread s1)) = trim_end (firstn 79 (spread s2)) ->
  run L now ph t0 s1 fmt P <-> run L now ph t0 s2 fmt P.
Proof.
  intros N1 N2 H1 H2 E1 E2 L1 L2 O1 O2 ES.
  assert (F : forall s, no_nul s -> hd 0 s <> 32 -> s <> [] -> (List.length s < 80)%nat -> ~ overruns s -> copy_text s = Ret (Some (trim_end (firstn 79 (spread s))))).
  { intros s A B0 C D F0. rewrite copy_text_spec by assumption. destruct (over_text s) eqn:E; [exfalso; apply F0; now apply over_text_spec|reflexivity]. }
  assert (E : forall fuel Ev, get_time_from_stringl fuel Ev t0 s1 fmt = get_time_from_stringl fuel Ev t0 s2 fmt).
  { intros. apply run_ext. rewrite !F by assumption. now rewrite ES. }
  split; intros (N & H); exists N; intros fuel dfuel A B0; specialize (H fuel dfuel A B0); rewrite E in *; assumption.
Qed.
