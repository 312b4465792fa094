(** Lemmas about the model of mpc2sof.cpp: the records in memory, names. *)
From Coq Require Import QArith String Lia.
From Verif Require Import CBase CLemmas CStr TstrModel TstrNum CtimeModel M2sModel M2sSpec.
From Verif Require EopModel EopProofs AdesProofs CsvProofs MpcoProofs.
Import ListNotations.
Local Open Scope string_scope.
Local Open Scope list_scope.
Local Open Scope Z_scope.

(** ---- records in memory ---- *)
(** The room after [n] asteroids *)
Definition capacity (n : Z) : Z := if n =? 0 then 0 else 2 * 2 ^ Z.log2 n.
Lemma power_of_two n : 1 <= n -> (Z.land n (n - 1) =? 0) = (n =? 2 ^ Z.log2 n).
Proof.
  intro H. destruct (Z.log2_spec n ltac:(lia)) as (A & B). set (k := Z.log2 n) in *. assert (K : 0 <= k) by (unfold k; apply Z.log2_nonneg).
  destruct (Z.eqb_spec n (2 ^ k)) as [E|E].
  - apply Z.eqb_eq. rewrite E. rewrite Z.sub_1_r, <- Z.ones_equiv, Z.land_ones by exact K. apply Z.mod_same. apply Z.pow_nonzero; lia.
  - apply Z.eqb_neq. intro Z0. assert (T : Z.testbit (Z.land n (n - 1)) k = true); [|rewrite Z0, Z.bits_0 in T; discriminate].
    rewrite Z.land_spec. apply andb_true_intro. split; [unfold k; apply Z.bit_log2; lia|].
    replace k with (Z.log2 (n - 1)); [apply Z.bit_log2; lia|]. apply Z.log2_unique; [exact K|]. rewrite Z.pow_succ_r in B by exact K. rewrite Z.pow_succ_r by exact K. lia.
Qed.
Lemma add_ok n k r : 0 <= n -> add_asteroid (mk_store n (capacity n) k) r = Ret (mk_store (n + 1) (capacity (n + 1)) (k ++ r)).
Proof.
  intro H. unfold add_asteroid. cbn [n_out kept]. rewrite power_of_two by lia. destruct (Z.log2_spec (n + 1) ltac:(lia)) as (A & B). rewrite Z.pow_succ_r in B by apply Z.log2_nonneg.
  unfold capacity at 2. destruct (Z.eqb_spec (n + 1) 0); [lia|].
  destruct (Z.eqb_spec (n + 1) (2 ^ Z.log2 (n + 1))) as [E|E]; unfold put; cbn [n_out room kept].
  - destruct (Z.ltb_spec n ((n + 1) * 2)); [|lia]. do 2 f_equal. lia.
  - assert (N0 : n <> 0) by (intros ->; apply E; reflexivity). unfold capacity. destruct (Z.eqb_spec n 0); [lia|].
    assert (LG : Z.log2 (n + 1) = Z.log2 n).
    { symmetry. apply Z.log2_unique; [apply Z.log2_nonneg|]. rewrite Z.pow_succ_r by apply Z.log2_nonneg. lia. }
    rewrite LG in *. destruct (Z.ltb_spec n (2 * 2 ^ Z.log2 n)); [reflexivity|lia].
Qed.

Lemma line_399 t r : line398 t -> EopModel.line_length 399 (t ++ r) = List.length t /\ t <> [].
Proof.
  intros (u & -> & N & H). split; [|destruct u; discriminate]. rewrite <- app_assoc. cbn [app]. rewrite EopProofs.line_length_line by (assumption || lia). rewrite app_length. cbn. lia.
Qed.
Section lines.
Variable asteroid : list Z -> outcome (option (list Z)).
Variable ra : list Z -> option (list Z).
Definition ast_of (t : list Z) : option (list Z) := if (List.length t =? 203)%nat then ra t else None.
Lemma asteroids_ok : forall lines fuel n k, Forall (fun t => line398 t /\ (List.length t = 203%nat -> asteroid t = Ret (ra t))) lines -> (List.length lines <= fuel)%nat -> 0 <= n ->
  let recs := all_of ast_of lines in
  asteroids fuel asteroid (concat lines) (mk_store n (capacity n) k) = Ret (mk_store (n + Z.of_nat (List.length recs)) (capacity (n + Z.of_nat (List.length recs))) (k ++ concat recs)).
Proof.
  induction lines as [|t lines IH]; intros fuel n k F L N; cbn zeta.
  - cbn. rewrite Z.add_0_r, app_nil_r. destruct fuel; reflexivity.
  - inversion F as [|? ? (T & R) F']; subst. destruct fuel as [|fuel]; [cbn in L; lia|]. cbn [concat]. destruct (line_399 t (concat lines) T) as (E & NE).
    cbn [asteroids]. rewrite E, firstn_app_l, skipn_app_l. destruct (t ++ concat lines) eqn:X; [destruct t; [contradiction|discriminate]|].
    unfold all_of. cbn [flat_map]. fold (all_of ast_of lines). unfold ast_of at 1 3 5. destruct (Nat.eqb_spec (List.length t) 203) as [E2|E2].
    + rewrite R by exact E2. cbn [obind]. destruct (ra t) as [r|].
      * rewrite add_ok by exact N. cbn [obind]. rewrite IH by (first [assumption | cbn in L; lia]). cbn [app List.length concat]. rewrite Nat2Z.inj_succ. rewrite <- app_assoc. do 2 f_equal; [lia|f_equal; lia].
      * cbn [app]. apply IH; [assumption|cbn in L; lia|assumption].
    + cbn [app]. apply IH; [assumption|cbn in L; lia|assumption].
Qed.
End lines.
Section comet_lines.
Variable comet : list Z -> outcome (option (list Z)).
Variable rc : list Z -> option (list Z).
Lemma comets_ok : forall lines fuel n r k, Forall (fun t => line398 t /\ comet t = Ret (rc t)) lines -> (List.length lines <= fuel)%nat ->
  let recs := all_of rc lines in
  comets fuel comet (concat lines) (mk_store n r k) =
    if (n + Z.of_nat (List.length recs) <=? r) || (List.length recs =? 0)%nat then Ret (mk_store (n + Z.of_nat (List.length recs)) r (k ++ concat recs)) else UB.
Proof.
  induction lines as [|t lines IH]; intros fuel n r k F L; cbn zeta.
  - cbn [concat all_of flat_map List.length Nat.eqb]. rewrite orb_true_r. rewrite Z.add_0_r, app_nil_r. destruct fuel; reflexivity.
  - inversion F as [|? ? (T & R) F']; subst. destruct fuel as [|fuel]; [cbn in L; lia|]. cbn [concat]. destruct (line_399 t (concat lines) T) as (E & NE).
    cbn [comets]. rewrite E, firstn_app_l, skipn_app_l. destruct (t ++ concat lines) eqn:X; [destruct t; [contradiction|discriminate]|].
    unfold all_of. cbn [flat_map]. fold (all_of rc lines). rewrite R. cbn [obind]. destruct (rc t) as [rr|].
    + cbn [app List.length concat Nat.eqb]. rewrite orb_false_r, Nat2Z.inj_succ. unfold put. cbn [n_out room kept]. destruct (Z.ltb_spec n r).
      * cbn [obind]. rewrite IH by (first [assumption | cbn in L; lia]). rewrite <- app_assoc.
        destruct (Nat.eqb_spec (List.length (all_of rc lines)) 0) as [E0|E0].
        -- rewrite E0. rewrite orb_true_r. destruct (Z.leb_spec (n + Z.succ (Z.of_nat 0)) r); [|lia]. do 2 f_equal. lia.
        -- rewrite orb_false_r. replace (n + Z.succ (Z.of_nat (List.length (all_of rc lines)))) with (n + 1 + Z.of_nat (List.length (all_of rc lines))) by lia. destruct (_ <=? r); reflexivity.
      * cbn [obind]. destruct (Z.leb_spec (n + Z.succ (Z.of_nat (List.length (all_of rc lines)))) r); [lia|reflexivity].
    + cbn [app]. apply IH; [assumption|cbn in L; lia].
Qed.
End comet_lines.

(** ---- names ---- *)
Lemma left_right n s : left_justified n s = at_left n s. Proof. reflexivity. Qed.
Lemma nth_app_r (a b : list Z) i d : nth (List.length a + i) (a ++ b) d = nth i b d. Proof. apply app_nth2_plus. Qed.
Lemma name_end_step buff t : name_end buff (S t) = if nth (S t) buff 0 =? 32 then name_end buff t else Ret (S t). Proof. reflexivity. Qed.
Lemma name_end_here buff t : nth t buff 0 <> 32 -> name_end buff t = Ret t.
Proof. intro H. apply Z.eqb_neq in H. destruct t; cbn [name_end]; rewrite H; reflexivity. Qed.
Lemma name_end_blanks s c : c <> 32 -> forall k r, name_end (s ++ [c] ++ repeat 32 k ++ r) (List.length s + k) = Ret (List.length s).
Proof.
  intros C. induction k as [|k IH]; intro r.
  - rewrite name_end_here; [now rewrite Nat.add_0_r|]. rewrite nth_app_r. exact C.
  - rewrite Nat.add_succ_r, name_end_step. replace (nth (S (List.length s + k)) (s ++ [c] ++ repeat 32 (S k) ++ r) 0) with 32.
    + cbn [Z.eqb Pos.eqb]. replace (s ++ [c] ++ repeat 32 (S k) ++ r) with (s ++ [c] ++ repeat 32 k ++ (32 :: r)); [apply IH|].
      do 2 f_equal. change (32 :: r) with ([32] ++ r). rewrite app_assoc. f_equal. symmetry. apply repeat_cons.
    + rewrite <- Nat.add_succ_r, nth_app_r. cbn [app nth]. rewrite app_nth1 by (rewrite repeat_length; lia). rewrite (nth_indep _ 0 32) by (rewrite repeat_length; lia). symmetry. apply nth_repeat.
Qed.
Lemma last_bytes (u : list Z) c : (exists v a b, u ++ [c] = v ++ [a; b; c]) \/ (List.length u < 2)%nat.
Proof.
  destruct (rev u) as [|b [|a v]] eqn:E; apply (f_equal (@rev Z)) in E; rewrite rev_involutive in E; subst u.
  - right. cbn. lia.
  - right. cbn. lia.
  - left. exists (rev v), a, b. cbn [rev]. rewrite <- !app_assoc. reflexivity.
Qed.
Lemma comet_name_ok nm s r : comet_named nm s -> exists t, comet_name (nm ++ r) = Ret t /\ at_left 12 t = at_left 12 s /\ (List.length s <= 12)%nat.
Proof.
  (* names that end in a b c, with a number *)
  assert (G : forall p body v a b c k, List.length p = 4%nat -> nth 2 p 0 <> 32 -> List.length (p ++ body ++ blanks k) = 44%nat -> p ++ body = v ++ [a; b; c] -> c <> 32 ->
    comet_name ((p ++ body ++ blanks k) ++ r) = Ret (p ++ (if a =? 45 then [a; b; c] else if b =? 45 then [b; c] else []))).
  { intros p body v a b c k P2 P3 L E C. unfold comet_name.
    assert (N2 : nth 2 ((p ++ body ++ blanks k) ++ r) 0 = nth 2 p 0) by (rewrite <- app_assoc, app_nth1 by lia; reflexivity). rewrite N2. destruct (Z.eqb_spec (nth 2 p 0) 32); [contradiction|].
    assert (EQ : (p ++ body ++ blanks k) ++ r = (v ++ [a; b]) ++ [c] ++ repeat 32 k ++ r).
    { rewrite app_assoc, E. unfold blanks. rewrite <- !app_assoc. reflexivity. }
    assert (LV : (List.length (v ++ [a; b]) + k = 43)%nat).
    { rewrite app_assoc, E in L. unfold blanks in L. rewrite !app_length, repeat_length in L. rewrite app_length. cbn in *. lia. }
    rewrite EQ. rewrite <- LV at 1. rewrite name_end_blanks by exact C. cbn [obind]. rewrite app_length. cbn [List.length].
    destruct (Nat.ltb_spec (List.length v + 2) 2); [lia|].
    replace (List.length v + 2 - 1)%nat with (List.length v + 1)%nat by lia. replace (List.length v + 2 - 2)%nat with (List.length v + 0)%nat by lia.
    rewrite <- app_assoc. rewrite !nth_app_r. cbn [app nth]. unfold bytes_at. f_equal. f_equal.
    - cbn [skipn]. replace (v ++ a :: b :: c :: repeat 32 k ++ r) with (p ++ (body ++ repeat 32 k ++ r)); [rewrite <- P2; apply firstn_app_l|].
      rewrite app_assoc, E, <- app_assoc. reflexivity.
    - rewrite Nat.add_0_r, skipn_app_l. replace (v ++ a :: b :: c :: repeat 32 k ++ r) with ((v ++ [a]) ++ b :: c :: repeat 32 k ++ r) by (rewrite <- app_assoc; reflexivity).
      replace (List.length v + 1)%nat with (List.length (v ++ [a])) by (rewrite app_length; reflexivity). rewrite skipn_app_l. reflexivity. }
  intros [p body k P2 P3 L C1 C2 C3|p body x c k P2 P3 L X C|p body b c k P2 P3 L C|a b s0 more L N Sh].
  - assert (NE : p ++ body <> []) by (destruct p; discriminate). destruct (exists_last NE) as (u & c & E). destruct (last_bytes u c) as [(v & a & b & V)|V].
    + rewrite <- E in V. exists p. split; [|split; [reflexivity|lia]]. rewrite (G p body v a b c k P2 P3 L V (C1 u c E)).
      destruct (Z.eqb_spec a 45) as [->|]; [exfalso; now apply (C3 v 45 b c V)|]. destruct (Z.eqb_spec b 45) as [->|]; [|now rewrite app_nil_r].
      exfalso. apply (C2 (v ++ [a]) 45 c); [rewrite V, <- app_assoc; reflexivity|reflexivity].
    + exfalso. apply (f_equal (@List.length Z)) in E. rewrite !app_length in E. cbn in E. lia.
  - exists (p ++ [45; c]). split; [|split; [reflexivity|rewrite app_length; cbn; lia]]. rewrite (G p (body ++ [x; 45; c]) (p ++ body) x 45 c k P2 P3 L (app_assoc _ _ _) C). destruct (Z.eqb_spec x 45); [contradiction|reflexivity].
  - exists (p ++ [45; b; c]). split; [|split; [reflexivity|rewrite app_length; cbn; lia]]. rewrite (G p (body ++ [45; b; c]) (p ++ body) 45 b c k P2 P3 L (app_assoc _ _ _) C). reflexivity.
  - unfold comet_name. cbn [app nth Z.eqb Pos.eqb].
    set (w := bytes_at (a :: b :: 32 :: (s0 ++ zs " (" ++ more) ++ r) 3 12).
    assert (W : w = firstn 12 (s0 ++ zs " (" ++ more ++ r)) by (unfold w, bytes_at; cbn [skipn]; rewrite <- !app_assoc; reflexivity).
    assert (K : forall n, strstr w (zs " (") = Some n -> n = List.length s0).
    { intros n E. destruct (CsvProofs.strstr_some _ _ _ E) as (v & V).
      assert (N1 : nth (S n) w 0 = 40).
      { rewrite V. assert (LN : List.length (firstn n w) = n) by (apply (f_equal (@List.length Z)) in V; rewrite !app_length in V; pose proof (firstn_le_length n w); rewrite firstn_length in *; change (List.length (zs " (")) with 2%nat in V; lia).
        rewrite <- LN at 1. rewrite <- Nat.add_1_r, nth_app_r. reflexivity. }
      assert (GE : (List.length s0 < S n)%nat).
      { destruct (Nat.lt_ge_cases (List.length s0) (S n)) as [H|H]; [exact H|]. exfalso. rewrite W in N1.
        assert (L12 : (S n < 12)%nat) by (destruct (Nat.lt_ge_cases (S n) 12); [assumption|rewrite nth_overflow in N1 by (rewrite firstn_length; lia); discriminate]).
        assert (NF : forall l i j, (j < i)%nat -> nth j (firstn i l) 0 = nth j l 0) by (clear; induction l as [|x l IH]; intros [|i] [|j] H; cbn; try reflexivity; try lia; apply IH; lia).
        rewrite NF in N1 by exact L12. destruct (Nat.eq_dec (S n) (List.length s0)) as [E0|E0].
        - rewrite E0, <- (Nat.add_0_r (List.length s0)), nth_app_r in N1. discriminate.
        - rewrite app_nth1 in N1 by lia. apply N. rewrite <- N1. apply nth_In. lia. }
      destruct (Nat.le_gt_cases (List.length s0 + 2) 12) as [B|B].
      - destruct (CsvProofs.strstr_le (zs " (") (firstn (12 - (List.length s0 + 2)) (more ++ r)) s0) as (n' & E' & H').
        assert (W2 : w = s0 ++ zs " (" ++ firstn (12 - (List.length s0 + 2)) (more ++ r)).
        { rewrite W. rewrite firstn_app, (firstn_all2 s0) by lia. f_equal. rewrite firstn_app. change (List.length (zs " (")) with 2%nat. rewrite (firstn_all2 (zs " (")) by (change (List.length (zs " (")) with 2%nat; lia). do 2 f_equal. lia. }
        rewrite <- W2, E in E'. injection E' as <-. lia.
      - exfalso. assert (LW : (List.length w <= 12)%nat) by (rewrite W, firstn_length; lia). assert (n + 2 <= 12)%nat.
        { apply (f_equal (@List.length Z)) in V. rewrite !app_length, firstn_length in V. change (List.length (zs " (")) with 2%nat in V. lia. }
        lia. }
    destruct (strstr w (zs " (")) as [n|] eqn:E.
    + exists s0. split; [|split; [reflexivity|exact Sh]]. f_equal. rewrite (K n eq_refl), W, firstn_firstn. rewrite Nat.min_l by lia. apply firstn_app_l.
    + exists w. split; [reflexivity|]. split; [|exact Sh]. assert (B : (10 < List.length s0)%nat).
      { destruct (Nat.lt_ge_cases 10 (List.length s0)) as [H|H]; [exact H|]. exfalso.
        assert (W2 : w = s0 ++ zs " (" ++ firstn (12 - (List.length s0 + 2)) (more ++ r)).
        { rewrite W. rewrite firstn_app, (firstn_all2 s0) by lia. f_equal. rewrite firstn_app. change (List.length (zs " (")) with 2%nat. rewrite (firstn_all2 (zs " (")) by (change (List.length (zs " (")) with 2%nat; lia). do 2 f_equal. lia. }
        destruct (CsvProofs.strstr_le (zs " (") (firstn (12 - (List.length s0 + 2)) (more ++ r)) s0) as (n' & E' & _). rewrite <- W2, E in E'. discriminate. }
      rewrite W, firstn_app, (firstn_all2 s0) by lia. assert (C : List.length s0 = 11%nat \/ List.length s0 = 12%nat) by lia. unfold at_left. destruct C as [C|C]; rewrite C; cbn [Nat.sub firstn zs].
      * change (firstn 1 (zs " (" ++ more ++ r)) with [32]. rewrite app_length, C. cbn [List.length Nat.add Nat.sub blanks repeat]. now rewrite app_nil_r.
      * rewrite app_nil_r, C. reflexivity.
Qed.
