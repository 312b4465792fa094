(** Proofs of the theorems stated in [PropAdes]. *)
From Coq Require Import Lia String.
From Verif Require Import CBase CStr CLemmas AdesModel AdesSpec AdesProofs AdesXml AdesNest AdesSafe AdesPsv.
Local Open Scope string_scope.
Local Open Scope list_scope.
Local Open Scope Z_scope.

Ltac absent := let a := fresh "a" in let b := fresh "b" in let E := fresh "E" in
  intros (a & b & E); repeat (destruct a as [|? a]; [discriminate|injection E as <- E]); destruct a; discriminate.
Lemma not_occurs t s : contains t s = false -> ~ occurs t s.
Proof. intros H X. apply contains_spec in X. congruence. Qed.
Lemma not_header_eval s : header_fields (S (List.length s)) s 0 = Ret 0 -> ~ psv_header s.
Proof.
  intros H (L & F). rewrite header_fields_spec in H by lia. injection H as H. destruct (Forall_dec _ _ _) as [_|N]; [lia|tauto].
Qed.
Lemma field_eval f : forallb (fun x => (32 <=? x) && negb (x =? 124)) f = true -> field_ok f.
Proof. intros H. apply Forall_forall. intros x Hx. rewrite forallb_forall in H. specialize (H x Hx). lia. Qed.
Lemma not_info_eval s : (match s with a :: 32 :: _ => (a =? 35) || (a =? 33) | _ => false end) = false -> ~ psv_info s.
Proof. intros H (r & [->| ->]); discriminate. Qed.

Lemma C40_pass_through_proof :
  forall (W : Type) (h : hooks W) fuel temp c line, outside c -> plain line -> not_tholen h line ->
  exists c', xlate_ades2mpc h fuel true temp c line line = Ret (1, line, c') /\
    (forall o s, xlate_ades2mpc h fuel true temp c' o s = Ret (0, o, c)) /\
    (forall o, (List.length line <= 220)%nat -> xlate_ades2mpc h fuel false temp c o line = Ret (1, line, c')) /\
    (forall o, (220 < List.length line)%nat -> xlate_ades2mpc h fuel false temp c o line = Abort).
Proof.
  intros W h fuel temp c line O P T. exists (set_passed c true). split; [rewrite pass_line by assumption; reflexivity|]. split; [|split].
  - intros o s. rewrite pass_next. destruct O as (_ & _ & E & _). destruct c; cbn in E; subst; reflexivity.
  - intros o L. rewrite pass_line by assumption. rewrite put_221_if. destruct (Nat.ltb_spec (List.length line) 221); [reflexivity|lia].
  - intros o L. rewrite pass_line by assumption. rewrite put_221_if. destruct (Nat.ltb_spec (List.length line) 221); [lia|reflexivity].
Qed.

Lemma C40_plain_file_proof :
  forall (W : Type) (h : hooks W) fuel temp w buff lines,
  Forall (fun line => plain line /\ not_tholen h line /\ ~ In 10 line /\ ~ In 13 line) lines ->
  outputs h fuel temp (init_ades2mpc w) buff lines lines.
Proof.
  intros W h fuel temp w buff lines H. exact (plain_reads h fuel temp lines (init_ades2mpc w) buff ltac:(repeat split) ltac:(left; reflexivity) H).
Qed.

Lemma C40_stack_safe_proof :
  forall (W : Type) (h : hooks W) fuel (in_place : bool) temp c o line,
  total h -> sane c -> no_long_code c line ->
  closes line = 0 \/ (psv_tags c = None /\ ~ psv_info line /\ closes line <= depth c) ->
  Z.max 1 (depth c) + opens line <= 19 ->
  match xlate_ades2mpc h fuel in_place temp c o line with
  | Ret (_, _, c') => sane c' /\ depth c' <= Z.max 1 (depth c) + opens line /\ (codeless c -> ~ occurs (zs "mpcCode") line -> codeless c')
  | UB => False
  | Abort => True
  | Fuel => ~ (printable line /\ (List.length line < fuel)%nat)
  end.
Proof.
  intros W h fuel ip temp c o s T S N C O. destruct N as [N|(N & K)].
  - pose proof (xlate_safe h fuel ip temp c o s true T S N C O) as X.
    destruct (xlate_ades2mpc h fuel ip temp c o s) as [[[r o'] c']| | |] eqn:E; try exact X. destruct X as (X1 & X2 & _). split; [exact X1|]. split; [exact X2|].
    intros K NO. pose proof (xlate_safe h fuel ip temp c o s false T S (conj NO K) C O) as Y. rewrite E in Y. destruct Y as (_ & _ & Y). exact (Y eq_refl).
  - pose proof (xlate_safe h fuel ip temp c o s false T S (conj N K) C O) as X.
    destruct (xlate_ades2mpc h fuel ip temp c o s) as [[[r o'] c']| | |]; try exact X. destruct X as (X1 & X2 & X3). split; [exact X1|]. split; [exact X2|]. intros _ _. exact (X3 eq_refl).
Qed.

Lemma C40_nested_proof :
  forall (W : Type) (h : hooks W) fuel (in_place : bool) temp c o l stack stack',
  ready c -> stack_is c stack -> line_ok h l -> nest 19 l stack = Some stack' -> (List.length l < fuel)%nat ->
  stack <> [] \/ (occurs (zs "<ades version") (shows l) /\ ~ occurs (zs "<optical>") (shows l)) ->
  match (do x <- feed h l stack (rest c) (if in_place then [] else o) 0 false;
         do '(r, out, w, more) <- put_out h x;
         if in_place && (221 <=? List.length out)%nat then Abort else Ret (r, out, w, more)) with
  | Ret (r, out, w, more) => exists c', xlate_ades2mpc h fuel in_place temp c o (shows l) = Ret (r, out, c') /\
      stack_is c' stack' /\ rest c' = w /\ getting_lines c' = more /\ kept c c'
  | UB => xlate_ades2mpc h fuel in_place temp c o (shows l) = UB
  | Abort => xlate_ades2mpc h fuel in_place temp c o (shows l) = Abort
  | Fuel => xlate_ades2mpc h fuel in_place temp c o (shows l) = Fuel
  end.
Proof.
  intros W h fuel ip temp c o l stack stack' R S (O1 & O2 & O3 & O4) N F H. apply xlate_items; assumption.
Qed.

Lemma C40_document_proof :
  forall (W : Type) (h : hooks W) fuel temp w (ls : list (list item)) c',
  Forall (fun l => line_ok h l /\ (List.length l < fuel)%nat) ls ->
  calls h fuel temp (init_ades2mpc w) (map shows ls) c' ->
  match ls with [] => True | l :: _ => occurs (zs "<ades version") (shows l) /\ ~ occurs (zs "<optical>") (shows l) end ->
  (forall k, (0 < k < List.length ls)%nat -> nest 19 (List.concat (firstn k ls)) [] <> Some []) ->
  forall stack, nest 19 (List.concat ls) [] = Some stack ->
  stack_is c' stack /\ free_ades2mpc_context c' = Z.of_nat (List.length stack).
Proof.
  intros W h fuel temp w ls c' F C H K stack N. assert (S : stack_is c' stack).
  { apply (document h fuel temp _ _ _ C ls [] eq_refl); try assumption.
    - split; [reflexivity|]. split; [reflexivity|]. split; [reflexivity|constructor].
    - right. destruct ls; [exact I|exact H]. }
  split; [exact S|]. apply S.
Qed.

Lemma C40_psv_header_proof :
  forall (W : Type) (h : hooks W) fuel (in_place : bool) temp c o fs ns,
  getting_lines c = false -> passed_through c = false -> Forall2 named fs ns -> (4 <= List.length fs)%nat ->
  exists c', xlate_ades2mpc h fuel in_place temp c o (join fs) = Ret (0, o, c') /\ in_psv c' ns /\ tags c' = tags c /\ rest c' = rest c.
Proof.
  intros. apply psv_header_line; assumption.
Qed.

Lemma C40_psv_data_proof :
  forall (W : Type) (h : hooks W) fuel temp c fs ns,
  in_psv c ns -> ns <> [] -> List.length fs = List.length ns -> Forall field_ok fs -> ~ psv_header (join fs) ->
  xlate_ades2mpc h fuel true temp c (join fs) (join fs) =
  do w <- feed_fields h ns fs (h_setup h (rest c));
  do '(more, o, w) <- h_line h w (join fs);
  Ret (if more : bool then 1 else 0, o, set_getting (set_rest c w) more).
Proof.
  intros. apply psv_data_line; assumption.
Qed.

Lemma C40_psv_end_proof :
  forall (W : Type) (h : hooks W) fuel temp c line ns,
  in_psv c ns -> List.length (fields line) <> List.length ns -> plain line -> not_tholen h line ->
  exists c', xlate_ades2mpc h fuel true temp c line line = Ret (1, line, c') /\
    (forall o s, exists c'', xlate_ades2mpc h fuel true temp c' o s = Ret (0, o, c'') /\ outside c'' /\ rest c'' = rest c).
Proof.
  intros W h fuel temp c line ns I L P T. eexists. split; [rewrite (psv_ends h fuel true temp c line line ns I L P T); reflexivity|].
  intros o s. rewrite pass_next. eexists. split; [reflexivity|]. destruct I as (G & _). split; [repeat split; exact G|reflexivity].
Qed.

Lemma C40_psv_names_proof :
  forall (W : Type) (h : hooks W) fuel temp c p n text,
  let line1 := zs "# " ++ zs p in let line2 := zs "! " ++ zs n ++ zs " " ++ text in
  outside c -> List.length (tags c) = MAX_DEPTH -> In p tag_names -> n = "name" \/ n = "line" \/ n = "institution" ->
  Forall (fun x => 32 <= x) text -> text <> [] -> hd 0 text <> 32 -> (List.length (name_line p text) <= 220)%nat ->
  not_tholen h line1 -> not_tholen h line2 -> ~ occurs (zs "<optical>") line2 ->
  exists c1, xlate_ades2mpc h fuel true temp c line1 line1 = Ret (0, line1, c1) /\
  exists c2, xlate_ades2mpc h fuel true temp c1 line2 line2 = Ret (1, name_line p text, c2) /\
  (forall o s, exists c3, xlate_ades2mpc h fuel true temp c2 o s = Ret (0, o, c3) /\ outside c3 /\ rest c3 = rest c /\
     exists c4, xlate_ades2mpc h fuel true temp c3 line2 line2 = Ret (1, name_line p text, c4)).
Proof.
  intros W h fuel temp c p n text line1 line2 O L Hp Hn F Ne Hd Hl T1 T2 NO.
  assert (E1 : line1 = zs "# " ++ zs p ++ []) by (subst line1; rewrite app_nil_r; reflexivity).
  assert (NO1 : ~ occurs (zs "<optical>") line1).
  { apply not_occurs. pose proof (all_names (fun p => negb (contains (zs "<optical>") (zs "# " ++ zs p))) ltac:(vm_compute; reflexivity) p Hp) as Q. cbv beta in Q. apply negb_true_iff in Q. exact Q. }
  destruct (info_container h fuel temp c p [] O L Hp (or_introl eq_refl)) as (c1 & X1 & O1 & L1 & N1 & R1); [rewrite <- E1; exact T1|rewrite <- E1; exact NO1|]. rewrite <- E1 in X1.
  exists c1. split; [exact X1|].
  assert (E2 : line2 = zs "! " ++ zs n ++ 32 :: text) by reflexivity.
  rewrite E2 in *. destruct (info_name h fuel temp c1 p n text O1 L1 N1 Hp Hn F Ne Hd ltac:(lia) T2 NO) as (c2 & X2 & O2 & P2 & R2 & N2 & L2).
  exists c2. split; [exact X2|]. intros o s.
  assert (X3 : xlate_ades2mpc h fuel true temp c2 o s = Ret (0, o, set_passed c2 false)) by (unfold xlate_ades2mpc; rewrite P2; reflexivity).
  exists (set_passed c2 false). split; [exact X3|]. split; [exact O2|]. split; [cbn; congruence|].
  destruct (info_name h fuel temp (set_passed c2 false) p n text O2 L2 N2 Hp Hn F Ne Hd ltac:(lia) T2 NO) as (c4 & X4 & _). exists c4. exact X4.
Qed.

Lemma C40_extra_close_refuted_proof :
  let line1 := zs "<ades version='1'></ades></ades>" in let line2 := zs "<obsData>" in
  exists c, xlate_ades2mpc idle 50 true [] (init_ades2mpc tt) line1 line1 = Ret (-2, [], c) /\ depth c = -1 /\
    xlate_ades2mpc idle 50 true [] c line2 line2 = UB.
Proof.
  eexists. split; [vm_compute; reflexivity|]. split; vm_compute; reflexivity.
Qed.

Lemma C40_silent_close_refuted_proof :
  let line1 := zs "<optical>" in let line2 := zs "</optical></optical></optical>" in
  exists c1 c2 o, xlate_ades2mpc idle 50 true [] (init_ades2mpc tt) line1 line1 = Ret (0, [], c1) /\
    xlate_ades2mpc idle 50 true [] c1 line2 line2 = Ret (1, o, c2) /\ depth c2 = -1.
Proof.
  do 3 eexists. split; [vm_compute; reflexivity|]. split; vm_compute; reflexivity.
Qed.

Lemma C40_deep_refuted_proof :
  let line1 := zs "<ades version='1'>" ++ List.concat (repeat (zs "<observers>") 19) in let line2 := zs "<name>" in
  exists c, xlate_ades2mpc idle 50 true [] (init_ades2mpc tt) line1 line1 = Ret (-3, [], c) /\ depth c = 20 /\
    xlate_ades2mpc idle 50 true [] c line2 line2 = UB.
Proof.
  eexists. split; [vm_compute; reflexivity|]. split; vm_compute; reflexivity.
Qed.

Lemma C40_unknown_column_refuted_proof :
  forall (W : Type) (h : hooks W) fuel (in_place : bool) temp w o,
  xlate_ades2mpc h fuel in_place temp (init_ades2mpc w) o (zs "alpha|beta|gamma|delta") = Abort.
Proof.
  intros. reflexivity.
Qed.

Lemma C40_control_character_refuted_proof :
  exists c, xlate_ades2mpc idle 50 true [] (init_ades2mpc tt) (zs "<ades version='1'>") (zs "<ades version='1'>") = Ret (0, [], c) /\
    forall fuel, xlate_ades2mpc idle fuel true [] c [1] [1] = Fuel.
Proof.
  eexists. split; [vm_compute; reflexivity|]. intros fuel. unfold xlate_ades2mpc. cbn [passed_through getting_lines depth Z.eqb andb].
  rewrite no_header by (apply not_header_eval; vm_compute; reflexivity). cbn [obind Z.eqb negb psv_tags h_tholen idle andb depth set_rest getting_lines].
  match goal with |- context [xml_loop _ _ ?c _ _ _] => assert (G : forall f out, xml_loop idle f c out 0 [1] = Fuel) end.
  { induction f as [|f IH]; intros out; [reflexivity|]. cbn [xml_loop]. change (1 =? 60) with false. cbv iota. cbn [depth Z.eqb negb]. cbn [tags depth].
    match goal with |- context [nth_ub ?l ?i] => let v := eval vm_compute in (nth_ub l i) in change (nth_ub l i) with v end. cbn [obind].
    change (drop_trailing (fun y => (0 <=? y) && (y <=? 32)) [1] (span (fun y => negb (y =? 60)) [1])) with 0%nat.
    match goal with |- context [process_ades_tag ?h ?c ?k ?s ?n] => change (process_ades_tag h c k s n) with (@Ret (Z * list Z * ctx unit) (0, [], c)) end. cbn [obind skipn]. change (skip_whitespace [1]) with [1]. apply IH. }
  change (skip_whitespace [1]) with [1]. rewrite G. reflexivity.
Qed.

Lemma C40_name_without_end_refuted_proof :
  let lines := [zs "<name>J. Doe"; zs "</name>"] in
  exists c, xlate_ades2mpc idle 50 true [] (init_ades2mpc tt) (zs "<ades version='1'><observers>") (zs "<ades version='1'><observers>") = Ret (0, [], c) /\
    (forall k, (k < 53)%nat -> exists c', reads idle 50 (S k) c [] lines = Ret (List.concat (repeat (zs "OBS ") (S k)) ++ zs "J. Doe", c', [zs "</name>"])) /\
    reads idle 50 54 c [] lines = Abort.
Proof.
  eexists. split; [vm_compute; reflexivity|]. split; [|vm_compute; reflexivity].
  intros k Hk. do 53 (destruct k as [|k]; [eexists; vm_compute; reflexivity|]). lia.
Qed.

Lemma C40_long_code_refuted_proof :
  let line := zs "<mpcCode>" ++ repeat 65 40 ++ zs "</mpcCode>" in
  exists c, xlate_ades2mpc idle 50 true [] (init_ades2mpc tt) (zs "<ades version='1'>") (zs "<ades version='1'>") = Ret (0, [], c) /\
    xlate_ades2mpc idle 50 true [] c line line = UB.
Proof.
  eexists. split; [vm_compute; reflexivity|]. vm_compute. reflexivity.
Qed.

Lemma C40_two_values_refuted_proof :
  let line := zs "<observatory><mpcCode>703</mpcCode><name>Catalina</name></observatory>" in
  exists c c1 c2, xlate_ades2mpc idle 50 true [] (init_ades2mpc tt) (zs "<ades version='1'>") (zs "<ades version='1'>") = Ret (0, [], c) /\
    fgets_with_ades_xlation idle 50 [] c [] [line] = Ret (1, zs "COM Observatory name Catalina", c1, []) /\
    fgets_with_ades_xlation idle 50 [] c1 (zs "COM Observatory name Catalina") [] = Ret (0, [], c2, []).
Proof.
  do 3 eexists. split; [vm_compute; reflexivity|]. split; vm_compute; reflexivity.
Qed.
