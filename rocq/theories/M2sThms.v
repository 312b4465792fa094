(** Theorems of C63 with their proofs; PropM2s.v states them again. *)
From Coq Require Import QArith String Lia.
From Verif Require Import CBase CStr DateModel DateVocab DateSpec TstrModel TstrNum TstrSpec EopSpec CtimeModel CtimeSpec M2sModel M2sSpec M2sProofs M2sTime MpcoThms.
Import ListNotations.
Local Open Scope string_scope.
Local Open Scope list_scope.
Local Open Scope Z_scope.

Lemma asteroid_lines_ok asteroid ra lines : asteroid_lines asteroid ra lines ->
  Forall (fun t => line398 t /\ (List.length t = 203%nat -> asteroid t = Ret (ra t))) lines /\ all_of (ast_of ra) lines = all_of ra lines.
Proof.
  induction 1 as [|t lines (T & R) F (I1 & I2)]; [split; [constructor|reflexivity]|]. unfold all_of in *. cbn [flat_map]. rewrite I2. unfold ast_of. destruct (Nat.eqb_spec (List.length t) 203).
  - split; [constructor; [split; [exact T|now intros _]|exact I1]|reflexivity].
  - split; [constructor; [split; [exact T|now intros]|exact I1]|]. now rewrite R.
Qed.
Lemma main_ok fuel asteroid comet ra rc la h1 h2 lc : asteroid_lines asteroid ra la -> line398 h1 -> line398 h2 -> Forall (fun t => line398 t /\ comet t = Ret (rc t)) lc ->
  (List.length la <= fuel)%nat -> (List.length lc <= fuel)%nat -> lc <> [] \/ True ->
  mpc2sof fuel asteroid comet (concat la) (Some (h1 ++ h2 ++ concat lc)) =
    if (Z.of_nat (List.length (all_of ra la)) + Z.of_nat (List.length (all_of rc lc)) <=? capacity (Z.of_nat (List.length (all_of ra la)))) || (List.length (all_of rc lc) =? 0)%nat
    then Ret (sof_header ++ concat (all_of ra la) ++ concat (all_of rc lc), 0) else UB.
Proof.
  intros HA H1 H2 HC F1 F2 _. destruct (asteroid_lines_ok _ _ _ HA) as (A1 & A2). unfold mpc2sof. change (mk_store 0 0 []) with (mk_store 0 (capacity 0) []). rewrite (asteroids_ok asteroid ra la fuel 0 [] A1 F1) by lia. cbn [obind]. rewrite A2, Z.add_0_l. cbn [app].
  destruct (line_399 h1 (h2 ++ concat lc) H1) as (E1 & N1). destruct (line_399 h2 (concat lc) H2) as (E2 & N2). rewrite E1, skipn_app_l, E2, skipn_app_l.
  destruct (h1 ++ h2 ++ concat lc) eqn:X1; [destruct h1; [contradiction|discriminate]|]. destruct (h2 ++ concat lc) eqn:X2; [destruct h2; [contradiction|discriminate]|].
  rewrite (comets_ok comet rc lc fuel _ _ _ HC F2). destruct (_ || _); cbn [obind kept]; [now rewrite app_assoc|reflexivity].
Qed.
Lemma capacity_is j n : 0 <= j -> 2 ^ j <= n < 2 ^ (j + 1) -> capacity n = 2 ^ (j + 1).
Proof.
  intros J H. assert (1 <= 2 ^ j) by (pose proof (Z.pow_pos_nonneg 2 j); lia). unfold capacity. destruct (Z.eqb_spec n 0); [lia|]. rewrite (Z.log2_unique n j J) by (rewrite <- Z.add_1_r; exact H). rewrite Z.pow_add_r by lia. lia.
Qed.
(** For the examples *)
Definition some_line (n : nat) : list Z := repeat 120 n ++ [10].
Lemma some_line_ok n : (n <= 398)%nat -> line398 (some_line n).
Proof. intro H. exists (repeat 120 n). split; [reflexivity|]. split; [intro I; apply repeat_spec in I; discriminate|rewrite repeat_length; exact H]. Qed.

Lemma C63_comet_record_proof :
  forall L now ph f line c, long_ok L -> counts_days gregorian (1, 1, 2000) 2451545 f -> comet_line_says line c -> fits_sof c ->
  exists te, is_date f (mjd c + 2400001) te /\ List.length (sof_line c te) = 144%nat /\
    exists N, forall fuel dfuel, (N <= fuel)%nat -> (N <= dfuel)%nat -> exists M, forall fuel2 ic, (M <= fuel2)%nat ->
      comet_line L fuel {| e_long := L; e_now := now; e_fuel := dfuel; e_phase := ph |} fuel2 ic line = Ret (Some (sof_line c te)).
Proof.
  exact comet_line_ok.
Qed.

Lemma C63_other_lines_proof :
  forall L fuel E fuel2 ic line, (List.length line <= 116)%nat \/ nth 113 line 0 <> 46 -> comet_line L fuel E fuel2 ic line = Ret None.
Proof.
  intros L fuel E fuel2 ic line H. unfold comet_line, parse_elements_dot_comet. destruct (Nat.ltb_spec 116 (List.length line)); destruct (Z.eqb_spec (nth 113 line 0) 46); try reflexivity. destruct H; [lia|contradiction].
Qed.

Lemma C63_asteroid_name_proof :
  forall line, List.length line = 203%nat ->
  (forall u i ds r, line = u ++ blanks i ++ [40] ++ ds ++ [41] ++ r -> (List.length u = 166)%nat -> (i + List.length ds = 6)%nat -> (1 <= List.length ds)%nat -> (forall c, In c ds -> 48 <= c <= 57) -> extract_name line = at_right 12 ds) /\
  (forall u nine s r, line = u ++ nine ++ s ++ r -> List.length u = 166%nat -> List.length nine = 9%nat -> nth 7 nine 0 <> 41 -> List.length s = 12%nat -> s <> blanks 12 -> extract_name line = s) /\
  (forall u s r, line = u ++ s ++ r -> List.length u = 166%nat -> List.length s = 12%nat -> nth 7 s 0 <> 41 -> firstn 12 (skipn 175 line) = blanks 12 -> extract_name line = s).
Proof.
  intros line LL. split; [|split].
  - intros u i ds r -> LU LI LD DD. unfold extract_name. match goal with |- context[nth 173 (u ++ ?x) 0] => pose proof (MpcoProofs.nth_off u x 166 7 LU) as NO end. change (166 + 7)%nat with 173%nat in NO. rewrite NO.
    assert (X : nth 7 (blanks i ++ [40] ++ ds ++ [41] ++ r) 0 = 41).
    { replace (blanks i ++ [40] ++ ds ++ [41] ++ r) with ((blanks i ++ [40] ++ ds) ++ [41] ++ r) by (rewrite <- !app_assoc; reflexivity). rewrite app_nth2; unfold blanks; rewrite !app_length, repeat_length; cbn [List.length]; [|lia]. now replace (7 - (i + (1 + List.length ds)))%nat with 0%nat by lia. }
    rewrite X. cbn [Z.eqb Pos.eqb].
    assert (Y : bytes_at (u ++ blanks i ++ [40] ++ ds ++ [41] ++ r) 166 7 = blanks i ++ [40] ++ ds).
    { unfold bytes_at. rewrite <- LU, skipn_app_l. replace (blanks i ++ [40] ++ ds ++ [41] ++ r) with ((blanks i ++ [40] ++ ds) ++ [41] ++ r) by (rewrite <- !app_assoc; reflexivity). replace 7%nat with (List.length (blanks i ++ [40] ++ ds)) by (unfold blanks; rewrite !app_length, repeat_length; cbn [List.length]; lia). apply firstn_app_l. }
    rewrite Y. rewrite !map_app. cbn [map Z.eqb Pos.eqb].
    assert (M1 : forall n, map (fun c => if c =? 40 then 32 else c) (repeat 32 n) = repeat 32 n) by (induction n as [|n IHn]; [reflexivity|cbn; now rewrite IHn]).
    assert (M2 : map (fun c => if c =? 40 then 32 else c) ds = ds). { rewrite <- (map_id ds) at 2. apply map_ext_in. intros c I. specialize (DD c I). destruct (Z.eqb_spec c 40); lia. }
    unfold blanks. rewrite !M1, M2. set (nm := repeat 32 5 ++ _).
    assert (EN : nm = at_right 12 ds).
    { unfold nm, at_right, blanks. rewrite !app_assoc. f_equal. change [32] with (repeat 32 1). rewrite <- !repeat_app. f_equal. lia. }
    destruct (list_eq_dec Z.eq_dec nm (repeat 32 12)) as [EQ|_]; [|exact EN]. exfalso. destruct ds as [|c ds]; [cbn in LD; lia|]. assert (In c (repeat 32 12)) as I by (rewrite <- EQ, EN; unfold at_right; apply in_or_app; right; now left). apply repeat_spec in I. specialize (DD c (or_introl eq_refl)). lia.
  - intros u nine s r -> LU LN N7 LS NS. unfold extract_name. match goal with |- context[nth 173 (u ++ ?x) 0] => pose proof (MpcoProofs.nth_off u x 166 7 LU) as NO end. change (166 + 7)%nat with 173%nat in NO. rewrite NO, app_nth1 by lia. destruct (Z.eqb_spec (nth 7 nine 0) 41); [contradiction|].
    assert (Y : bytes_at (u ++ nine ++ s ++ r) 175 12 = s) by (unfold bytes_at; rewrite app_assoc, MpcoProofs.skip_at by (rewrite app_length; lia); rewrite <- LS; apply firstn_app_l).
    rewrite Y. destruct (list_eq_dec Z.eq_dec s (repeat 32 12)) as [EQ|_]; [now apply NS in EQ|reflexivity].
  - intros u s r -> LU LS N7 HB. unfold extract_name. match goal with |- context[nth 173 (u ++ ?x) 0] => pose proof (MpcoProofs.nth_off u x 166 7 LU) as NO end. change (166 + 7)%nat with 173%nat in NO. rewrite NO, app_nth1 by lia. destruct (Z.eqb_spec (nth 7 s 0) 41); [contradiction|].
    match goal with |- (if ?x then _ else _) = _ => destruct x as [_|X]; [|now elim X] end. unfold bytes_at. rewrite MpcoProofs.skip_at by exact LU. rewrite <- LS. apply firstn_app_l.
Qed.

Lemma C63_program_proof :
  forall asteroid comet ra rc la h1 h2 lc j fuel, asteroid_lines asteroid ra la -> line398 h1 -> line398 h2 -> Forall (fun t => line398 t /\ comet t = Ret (rc t)) lc ->
  (List.length la <= fuel)%nat -> (List.length lc <= fuel)%nat -> 0 <= j -> 2 ^ j <= Z.of_nat (List.length (all_of ra la)) < 2 ^ (j + 1) ->
  Z.of_nat (List.length (all_of ra la)) + Z.of_nat (List.length (all_of rc lc)) <= 2 ^ (j + 1) ->
  mpc2sof fuel asteroid comet (concat la) (Some (h1 ++ h2 ++ concat lc)) = Ret (sof_header ++ concat (all_of ra la) ++ concat (all_of rc lc), 0).
Proof.
  intros asteroid comet ra rc la h1 h2 lc j fuel HA H1 H2 HC F1 F2 J HJ HR. rewrite (main_ok fuel asteroid comet ra rc la h1 h2 lc) by (try assumption; now right). rewrite (capacity_is j) by assumption. now rewrite (proj2 (Z.leb_le _ _) HR).
Qed.

Lemma C63_comet_file_proof :
  forall L now ph f asteroid ra la h1 h2 lc cs j, long_ok L -> counts_days gregorian (1, 1, 2000) 2451545 f ->
  asteroid_lines asteroid ra la -> line398 h1 -> line398 h2 -> Forall line398 lc -> Forall2 comet_line_says lc cs -> Forall fits_sof cs ->
  0 <= j -> 2 ^ j <= Z.of_nat (List.length (all_of ra la)) < 2 ^ (j + 1) -> Z.of_nat (List.length (all_of ra la)) + Z.of_nat (List.length cs) <= 2 ^ (j + 1) ->
  exists tes, Forall2 (fun c te => is_date f (mjd c + 2400001) te) cs tes /\
    exists N, forall fuel pfuel dfuel, (N <= fuel)%nat -> (N <= pfuel)%nat -> (N <= dfuel)%nat -> exists M, forall fuel2 ic, (M <= fuel2)%nat ->
      mpc2sof fuel asteroid (comet_line L pfuel {| e_long := L; e_now := now; e_fuel := dfuel; e_phase := ph |} fuel2 ic) (concat la) (Some (h1 ++ h2 ++ concat lc)) =
        Ret (sof_header ++ concat (all_of ra la) ++ concat (map (fun x => sof_line (fst x) (snd x)) (combine cs tes)), 0).
Proof.
  intros L now ph f asteroid ra la h1 h2 lc cs j HL Hf HA H1 H2 HC HS HF J HJ HR.
  assert (X : exists tes, Forall2 (fun c te => is_date f (mjd c + 2400001) te) cs tes /\ exists N, forall pfuel dfuel, (N <= pfuel)%nat -> (N <= dfuel)%nat -> exists M, forall fuel2 ic, (M <= fuel2)%nat ->
    let comet := comet_line L pfuel {| e_long := L; e_now := now; e_fuel := dfuel; e_phase := ph |} fuel2 ic in
    let rc := fun t => match comet t with Ret r => r | _ => None end in
    Forall (fun t => line398 t /\ comet t = Ret (rc t)) lc /\ all_of rc lc = map (fun x => sof_line (fst x) (snd x)) (combine cs tes)).
  { clear HA HR HJ. revert HF. induction HS as [|line c lc cs S1 S2 IH]; intro HF.
    - exists []. split; [constructor|]. exists 0%nat. intros pfuel dfuel _ _. exists 0%nat. intros fuel2 ic _. cbv zeta. split; [constructor|reflexivity].
    - inversion HF; subst. inversion HC; subst. destruct IH as (tes & T1 & N & T2); [assumption|assumption|]. destruct (comet_line_ok L now ph f line c HL Hf S1 ltac:(assumption)) as (te & E1 & _ & N2 & E2).
      exists (te :: tes). split; [constructor; assumption|]. exists (N + N2)%nat. intros pfuel dfuel P1 P2. destruct (T2 pfuel dfuel ltac:(lia) ltac:(lia)) as (M & T3). destruct (E2 pfuel dfuel ltac:(lia) ltac:(lia)) as (M2 & E3).
      exists (M + M2)%nat. intros fuel2 ic F2. specialize (T3 fuel2 ic ltac:(lia)). cbv zeta in T3 |- *. destruct T3 as (T3 & T4). specialize (E3 fuel2 ic ltac:(lia)). split; [constructor; [split; [assumption|now rewrite E3]|exact T3]|].
      unfold all_of in *. cbn [flat_map combine map fst snd]. rewrite E3, T4. reflexivity. }
  destruct X as (tes & T1 & N & T2). exists tes. split; [exact T1|]. exists (N + List.length la + List.length lc)%nat. intros fuel pfuel dfuel P0 P1 P2. destruct (T2 pfuel dfuel ltac:(lia) ltac:(lia)) as (M & T3).
  exists M. intros fuel2 ic F2. specialize (T3 fuel2 ic F2). cbv zeta in T3. destruct T3 as (T3 & T4). set (comet := comet_line _ _ _ _ _) in *. set (rc := fun t => match comet t with Ret r => r | _ => None end) in *.
  assert (TL : List.length cs = List.length tes) by (clear - T1; induction T1; cbn; congruence).
  rewrite (C63_program_proof asteroid comet ra rc la h1 h2 lc j) by (try assumption; try lia; rewrite T4, map_length, combine_length, <- TL, Nat.min_id; exact HR). now rewrite T4.
Qed.

Lemma C63_asteroids_only_proof :
  forall asteroid comet ra la fuel, asteroid_lines asteroid ra la -> (List.length la <= fuel)%nat ->
  mpc2sof fuel asteroid comet (concat la) None = Ret (sof_header ++ concat (all_of ra la), 0).
Proof.
  intros asteroid comet ra la fuel HA F1. destruct (asteroid_lines_ok _ _ _ HA) as (A1 & A2). unfold mpc2sof. change (mk_store 0 0 []) with (mk_store 0 (capacity 0) []). rewrite (asteroids_ok asteroid ra la fuel 0 [] A1 F1) by lia. cbn [obind kept app]. now rewrite A2.
Qed.

Lemma C63_overflow_refuted_proof :
  forall asteroid comet ra rc la h1 h2 lc fuel, asteroid_lines asteroid ra la -> line398 h1 -> line398 h2 -> Forall (fun t => line398 t /\ comet t = Ret (rc t)) lc ->
  (List.length la <= fuel)%nat -> (List.length lc <= fuel)%nat -> all_of rc lc <> [] ->
  (all_of ra la = [] \/ exists j, 0 <= j /\ 2 ^ j <= Z.of_nat (List.length (all_of ra la)) < 2 ^ (j + 1) /\ 2 ^ (j + 1) < Z.of_nat (List.length (all_of ra la)) + Z.of_nat (List.length (all_of rc lc))) ->
  mpc2sof fuel asteroid comet (concat la) (Some (h1 ++ h2 ++ concat lc)) = UB.
Proof.
  intros asteroid comet ra rc la h1 h2 lc fuel HA H1 H2 HC F1 F2 NE H. rewrite (main_ok fuel asteroid comet ra rc la h1 h2 lc) by (try assumption; now right).
  destruct (all_of rc lc) as [|r l] eqn:E; [contradiction|]. cbn [List.length Nat.eqb]. rewrite orb_false_r. destruct H as [->|(j & J & HJ & HR)].
  - cbn [List.length]. unfold capacity. cbn [Z.of_nat Z.eqb]. rewrite (proj2 (Z.leb_gt _ _)) by lia. reflexivity.
  - rewrite (capacity_is j) by assumption. rewrite (proj2 (Z.leb_gt _ _)); [reflexivity|]. exact HR.
Qed.

Lemma C63_short_comets_refuted_proof :
  forall asteroid comet ra la file fuel, asteroid_lines asteroid ra la -> (List.length la <= fuel)%nat -> file = [] \/ line398 file ->
  mpc2sof fuel asteroid comet (concat la) (Some file) = Ret (sof_header, -2).
Proof.
  intros asteroid comet ra la file fuel HA F1 H. destruct (asteroid_lines_ok _ _ _ HA) as (A1 & A2). unfold mpc2sof. change (mk_store 0 0 []) with (mk_store 0 (capacity 0) []). rewrite (asteroids_ok asteroid ra la fuel 0 [] A1 F1) by lia. cbn [obind].
  destruct H as [->|H]; [reflexivity|]. destruct (line_399 file [] H) as (E & _). rewrite app_nil_r in E. rewrite E, skipn_all. destruct file; reflexivity.
Qed.
