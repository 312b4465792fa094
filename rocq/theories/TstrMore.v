(** A number with a sign alone, the sizes of the pieces of a text, and starting
    dates for the examples. *)
From Coq Require Import Lia QArith Qround Qabs.
From Coq Require Import String.
From Verif Require Import CBase CStr CLemmas DateModel DateVocab DateThms TstrModel TstrSpec TstrCopy TstrNum TstrOff TstrDate TstrSplit TstrField TstrThree TstrRoles TstrRead TstrOther TstrForms TstrTwo TstrWords TstrKeys TstrBad.
Local Open Scope list_scope.
Local Open Scope Z_scope.

Lemma start_2000 fmt : calendar_of fmt = CALENDAR_GREGORIAN -> date_of_start LMAX64 0 fmt 1 1 2000.
Proof.
  intro H. split; [unfold long_ok, LMAX64; lia|]. split; [vm_compute; discriminate|]. rewrite H.
  destruct (C02_date_to_jd_and_back_proof LMAX64 CALENDAR_GREGORIAN 1 1 2000 31) as (jd & E1 & E2);
    try (unfold long_ok, year_mid, LMAX64, CALENDAR_GREGORIAN, CALENDAR_HEBREW; lia); [left; reflexivity|vm_compute; reflexivity|].
  vm_compute in E1. injection E1 as <-. exact E2.
Qed.
Lemma at_nth' s i : 0 <= i < Z.of_nat (List.length s) -> at_ s i = Ret (nth (Z.to_nat i) s 0).
Proof.
  intro H. unfold at_. rewrite (proj2 (Z.eqb_neq i _)) by lia. apply nth_ub_ok. lia.
Qed.
(** ---- a signed number alone ---- *)
Lemma signed_ok L now ph t0 txt fmt sg n q : text txt (sg :: n) -> (sg = 43 \/ sg = 45) -> number_of n q -> ~ (t0 == - 2451545)%Q ->
  reads L now ph t0 txt fmt (t0 + (if (sg =? 45)%Z then - q else q))%Q 0.
Proof.
  intros HT Hs Hn Ht. pose proof (number_last n q Hn) as Hl.
  assert (Nn : n <> []) by (intros ->; cbn in Hl; destruct Hl; discriminate).
  assert (El : exists p c, n = p ++ [c] /\ (isdigit c = true \/ c = 46)).
  { destruct (exists_last Nn) as (p & c & E). exists p, c. split; [assumption|]. subst n. rewrite last_last in Hl. exact Hl. }
  destruct El as (p & c & En & Hc).
  assert (Cc : c <> 32 /\ strchr (zs "smhdwlyc") c = false).
  { destruct Hc as [Hc| ->]; [|split; [discriminate|reflexivity]]. unfold isdigit in Hc.
    assert (K : forallb (fun x => negb (strchr (zs "smhdwlyc") x)) [48; 49; 50; 51; 52; 53; 54; 55; 56; 57] = true) by reflexivity.
    rewrite forallb_forall in K. split; [lia|]. apply negb_true_iff, K. cbn [In]. lia. }
  assert (CO : collect_time_offset (sg :: n) = Ret ((if sg =? 45 then - q else q)%Q, [])).
  { unfold collect_time_offset. replace (1 <? List.length (sg :: n))%nat with true by (symmetry; apply Nat.ltb_lt; rewrite En; cbn [List.length]; rewrite app_length; cbn [List.length]; lia).
    assert (A1 : at_ (sg :: n) (Z.of_nat (List.length (sg :: n)) - 1) = Ret c).
    { rewrite En. cbn [List.length]. rewrite app_length. cbn [List.length]. change (sg :: p ++ [c]) with ((sg :: p) ++ [c]).
      rewrite at_nth' by (rewrite app_length; cbn [List.length]; lia). replace (Z.to_nat _) with (List.length (sg :: p)) by (cbn [List.length]; lia).
      rewrite nth_middle. reflexivity. }
    rewrite A1. cbn [obind].
    assert (A2 : exists x, at_ (sg :: n) (Z.of_nat (List.length (sg :: n)) - 2) = Ret x).
    { eexists. apply at_nth'. rewrite En. cbn [List.length]. rewrite app_length. cbn [List.length]. lia. }
    destruct A2 as (x & ->). cbn [obind]. rewrite (proj2 Cc). cbn [andb].
    change (at_ (sg :: n) 0) with (Ret sg). cbn [obind].
    replace (is_sign sg) with true by (destruct Hs as [->| ->]; reflexivity).
    destruct Hs as [->| ->]; [pose proof (scan_lf_plus n q [] Hn ltac:(exact I)) as X|pose proof (scan_lf_minus n q [] Hn ltac:(exact I)) as X];
      rewrite app_nil_r in X; rewrite X; reflexivity. }
  exists 3%nat. intros fuel dfuel Hf _. destruct fuel as [|[|fuel]]; [lia|lia|].
  rewrite get_time_step. rewrite (copy_text_ok _ _ HT). cbn [obind].
  assert (Tr : trim_end (sg :: n) = sg :: n) by (rewrite En; change (sg :: p ++ [c]) with ((sg :: p) ++ [c]); apply trim_id, Cc).
  rewrite Tr. rewrite offsets_step by discriminate. rewrite CO. cbn [obind].
  destruct (Qeq_bool (if sg =? 45 then - q else q) 0) eqn:EZ.
  - cbn [obind rev]. cbn -[keywords Qplus Qminus]. unfold keywords. cbn -[Qplus Qminus is_rval_unset].
    rewrite (unset_false t0) by exact Ht. cbn [negb]. eexists. split; [reflexivity|]. apply Qeq_bool_eq in EZ. rewrite EZ. ring.
  - destruct fuel; cbn [offsets remove_trailing_spaces obind rev]; [|].
    all: cbn -[keywords Qplus Qminus]; unfold keywords; cbn -[Qplus Qminus is_rval_unset];
      rewrite (unset_false t0) by exact Ht; cbn [negb]; eexists; (split; [reflexivity|]); ring.
Qed.
(** ---- sizes ---- *)
Lemma rts_len s : (List.length (remove_trailing_spaces s) <= List.length s)%nat.
Proof. rewrite rts_trim. apply trim_len. Qed.
Lemma collect_len s q r : collect_time_offset s = Ret (q, r) -> (List.length r <= List.length s)%nat.
Proof.
  unfold collect_time_offset. destruct (1 <? List.length s)%nat; [|intros [= <- <-]; lia].
  destruct (at_ s _) as [e| | |]; try discriminate. cbn [obind]. destruct (at_ s _) as [b| | |]; try discriminate. cbn [obind].
  destruct (strchr _ e && (b =? 32)).
  - destruct (last_sign s) as [p|]; [|intros [= <- <-]; lia]. destruct (scan_lf _) as [[[v t]|]| | |]; try discriminate; cbn [obind].
    + destruct (skip_ws t) as [|x [|y l]]; intros [= <- <-]; try lia. pose proof (rts_len (firstn p s)) as X. rewrite firstn_length in X. lia.
    + intros [= <- <-]. lia.
  - destruct (at_ s 0) as [f| | |]; try discriminate. cbn [obind]. destruct (is_sign f); [|intros [= <- <-]; lia].
    destruct (scan_lf s) as [[[v [|x l]]|]| | |]; try discriminate; cbn [obind]; intros [= <- <-]; cbn [List.length]; lia.
Qed.
Lemma offsets_len fuel : forall s o r o', offsets fuel s o = Ret (r, o') -> (List.length r <= List.length s)%nat.
Proof.
  induction fuel as [|f IH]; intros s o r o'; (destruct s as [|c s]; [intros [= <- <-]; lia|]); [discriminate|].
  cbn [offsets]. destruct (collect_time_offset (c :: s)) as [[q t]| | |] eqn:E; try discriminate. cbn [obind]. apply collect_len in E.
  destruct (Qeq_bool q 0); [intros [= <- <-]; exact E|]. intro H. apply IH in H. pose proof (rts_len t). lia.
Qed.
Lemma strstr_len s t n : strstr s t = Some n -> (n <= List.length s)%nat.
Proof.
  revert n. induction s as [|c s IH]; intro n; cbn [strstr]; destruct (prefix t _); try (intros [= <-]; cbn; lia).
  destruct (strstr s t) as [k|]; [|discriminate]. intros [= <-]. specialize (IH k eq_refl). cbn [List.length]. lia.
Qed.
Lemma remove_len s t r : remove_substring s t = Some r -> (List.length r <= List.length s)%nat.
Proof.
  unfold remove_substring. destruct (strstr s t) as [n|] eqn:E; [|discriminate]. apply strstr_len in E. intros [= <-].
  rewrite app_length, firstn_length, skipn_length. lia.
Qed.
Lemma removed_len s t : (List.length (removed s t) <= List.length s)%nat.
Proof. unfold removed. destruct (remove_substring s t) eqn:E; [now apply remove_len in E|lia]. Qed.
Lemma rlts_len s : (List.length (remove_leading_and_trailing_spaces s) <= List.length s)%nat.
Proof.
  unfold remove_leading_and_trailing_spaces. rewrite ?skipn_length. pose proof (rts_len s). try lia.
  pose proof (rts_len (skipn (span is_space s) s)) as X. rewrite ?skipn_length in X. lia.
Qed.
Lemma bc_len s : (List.length (fst (check_for_bc s)) <= List.length s)%nat.
Proof.
  unfold check_for_bc. pose proof (removed_len s (zs "ad")) as H1. set (s1 := removed s (zs "ad")) in *.
  pose proof (removed_len s1 (zs "a.d.")) as H2. set (s2 := removed s1 (zs "a.d.")) in *.
  destruct (remove_substring s2 (zs "bc")) as [t|] eqn:E; [|destruct (remove_substring s2 (zs "b.c.")) as [t|] eqn:E2]; cbn [fst];
    [apply remove_len in E; pose proof (rlts_len t)|apply remove_len in E2; pose proof (rlts_len t)|pose proof (rlts_len s2)]; lia.
Qed.
Lemma keywords_len E t0 s r u s' t1 : keywords E t0 s = Ret (r, u, s', t1) -> (List.length s' <= List.length s)%nat.
Proof.
  unfold keywords. intro H.
  match type of H with obind ?m _ = _ => assert (G : forall v, m = Ret v -> (List.length (snd v) <= List.length s)%nat) end.
  { intros [[a b] c] X. cbn [snd]. destruct s as [|x s0]; [injection X as _ _ <-; lia|].
    destruct (Z.eq_dec x 106) as [->|N].
    - destruct (strtold _) as [[y z]| | |]; try discriminate. cbn [obind] in X. injection X as _ _ <-.
      destruct s0 as [|d s1]; [cbn; lia|]. destruct (Z.eq_dec d 100) as [->|N2]; [cbn [List.length]; lia|].
      match goal with |- (List.length ?m <= _)%nat => assert (M : m = 106 :: d :: s1) end.
      { destruct d as [|d|d]; try reflexivity. do 8 (destruct d as [d|d|]; try reflexivity; try congruence). }
      rewrite M. lia.
    - match type of X with ?m = _ => assert (M : m = Ret ((- J2000)%Q, 0, x :: s0)) end.
      { destruct x as [|x|x]; try reflexivity. do 8 (destruct x as [x|x|]; try reflexivity; try congruence). }
      rewrite M in X. injection X as _ _ <-. lia. }
  match type of H with obind ?m _ = _ => destruct m as [[[a b] c]| | |]; try discriminate end. cbn [obind] in H.
  specialize (G _ eq_refl). cbn [snd] in G.
  match type of H with obind ?m _ = _ => destruct m as [v1| | |]; try discriminate end. cbn [obind] in H.
  match type of H with obind ?m _ = _ => destruct m as [[v2 b2]| | |]; try discriminate end. cbn [obind] in H.
  match type of H with obind ?m _ = _ => destruct m as [v3| | |]; try discriminate end. cbn [obind] in H.
  destruct (prefix (zs "now") c).
  - assert (X : s' = skipn (span is_space (skipn 3 c)) (skipn 3 c)) by congruence. rewrite X, !skipn_length. lia.
  - assert (X : s' = c) by congruence. rewrite X. exact G.
Qed.
Lemma dots_len s r : dots_to_slashes s = Ret r -> List.length r = List.length s.
Proof.
  unfold dots_to_slashes. intro H.
  destruct (scan_d IMAX s) as [[[v t]|]| | |]; try discriminate; cbn [obind] in H; [|injection H as <-; reflexivity].
  destruct (lit 46 t) as [t2|]; [|injection H as <-; reflexivity].
  destruct (scan_d IMAX t2) as [[[v2 t3]|]| | |]; try discriminate; cbn [obind] in H; [|injection H as <-; reflexivity].
  destruct (lit 46 t3) as [t4|]; [|injection H as <-; reflexivity].
  destruct (scan_d IMAX t4) as [[[v3 t5]|]| | |]; try discriminate; cbn [obind] in H; [|injection H as <-; reflexivity].
  injection H as <-. rewrite app_length, map_length, firstn_length, skipn_length. lia.
Qed.
Lemma ampm_len s : (List.length (fst (am_pm s)) <= List.length s)%nat.
Proof.
  unfold am_pm. destruct (4 <=? _); [|cbn; lia].
  repeat (match goal with |- context [remove_substring ?a ?b] => let E := fresh in destruct (remove_substring a b) eqn:E end; [match goal with X : _ = Some _ |- _ => apply remove_len in X; exact X end|]).
  cbn. lia.
Qed.
Lemma clock_len s ap h m x r h' m' x' : clock s ap h m x = Ret (r, h', m', x') -> (List.length r <= List.length s)%nat.
Proof.
  unfold clock. match goal with |- context [obind ?m _] => destruct m as [[[a b] c]| | |]; try discriminate end. cbn [obind].
  intros [= <- _ _ _]. destruct (existsb _ _); [rewrite firstn_length|]; lia.
Qed.
Lemma tstr_ok s i : (List.length s <= 79)%nat -> to_tstr (firstn i s) = Ret (firstn i s).
Proof. intro H. unfold to_tstr. rewrite (proj2 (Z.ltb_lt _ _)); [reflexivity|]. rewrite firstn_length. lia. Qed.
