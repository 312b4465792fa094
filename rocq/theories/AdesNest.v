(** Lines of well-formed XML data. *)
From Coq Require Import String Lia.
From Verif Require Import CBase CLemmas CStr AdesModel AdesSpec AdesProofs AdesXml.
Local Open Scope string_scope.
Local Open Scope list_scope.
Local Open Scope Z_scope.

Lemma set_rest_same {W} (c : ctx W) : set_rest c (rest c) = c.
Proof. destruct c. reflexivity. Qed.

Lemma xlate_items {W} (h : hooks W) fuel (ip : bool) temp c o l stack stack' :
  ready c -> stack_is c stack -> items_ok l -> nest 19 l stack = Some stack' -> (List.length l < fuel)%nat ->
  ~ psv_header (shows l) -> ~ psv_info (shows l) -> not_tholen h (shows l) ->
  stack <> [] \/ (occurs (zs "<ades version") (shows l) /\ ~ occurs (zs "<optical>") (shows l)) ->
  match (do x <- feed h l stack (rest c) (if ip then [] else o) 0 false;
         do '(r, out, w, g) <- put_out h x;
         if ip && (221 <=? List.length out)%nat then Abort else Ret (r, out, w, g)) with
  | Ret (r, out, w, g) => exists c', xlate_ades2mpc h fuel ip temp c o (shows l) = Ret (r, out, c') /\
      stack_is c' stack' /\ rest c' = w /\ getting_lines c' = g /\ kept c c'
  | UB => xlate_ades2mpc h fuel ip temp c o (shows l) = UB
  | Abort => xlate_ades2mpc h fuel ip temp c o (shows l) = Abort
  | Fuel => xlate_ades2mpc h fuel ip temp c o (shows l) = Fuel
  end.
Proof.
  intros (G & P & N) St Ok Ne Hf H1 H2 T Hs.
  assert (E : xlate_ades2mpc h fuel ip temp c o (shows l) =
    do '(o, c, res) <- xml_loop h fuel c (if ip then [] else o) 0 (skip_whitespace (shows l));
    match res with
    | inr r => Ret (r, if ip then shows l else o, c)
    | inl r => do '(o, c) <- (if r =? 0 then Ret (o, c) else do '(_, o, c) <- get_a_line h c o; Ret (o, c));
               do o <- (if ip then put_221 o else Ret o); Ret (r, o, c)
    end).
  { unfold xlate_ades2mpc. rewrite P, G. pose proof St as (D & _).
    replace ((depth c =? 0) && contains (zs "<optical>") (shows l)) with false.
    2:{ symmetry. destruct Hs as [Hs|[_ Hs]]; [|rewrite (contains_false _ _ Hs); apply andb_false_r].
        apply andb_false_iff. left. apply Z.eqb_neq. rewrite D. destruct stack; [congruence|]. cbn [List.length]. lia. }
    rewrite (no_header _ _ H1). cbn [obind Z.eqb negb]. rewrite N. cbn [obind Z.eqb]. rewrite T. cbn [obind].
    rewrite (not_info _ H2). cbn [andb obind Z.eqb negb]. rewrite set_rest_same, G.
    replace ((depth c =? 0) && negb (contains (zs "<ades version") (shows l))) with false.
    2:{ symmetry. destruct Hs as [Hs|[Hs _]]; [|apply contains_spec in Hs; rewrite Hs; apply andb_false_r].
        apply andb_false_iff. left. apply Z.eqb_neq. rewrite D. destruct stack; [congruence|]. cbn [List.length]. lia. }
    destruct ip; reflexivity. }
  rewrite E. clear E. pose proof (xml_items h l fuel c stack stack' (if ip then [] else o) 0 St Ok Ne (Z.le_refl 0) Hf) as A.
  rewrite G in A. unfold agrees in A. destruct (feed h l stack (rest c) (if ip then [] else o) 0 false) as [[[[out w] r] g]| | |]; cbn [obind].
  2,3,4: rewrite A; reflexivity.
  destruct A as (c' & -> & St' & R & G' & K). cbn [obind put_out].
  assert (Q : forall x : list Z, put_221 x = if (221 <=? List.length x)%nat then Abort else Ret x).
  { intros x. rewrite put_221_if. destruct (Nat.ltb_spec (List.length x) 221), (Nat.leb_spec 221 (List.length x)); try reflexivity; lia. }
  destruct (r =? 0) eqn:Er; cbn [obind].
  - rewrite Q. destruct ip; cbn [andb obind]; [|exists c'; auto]. destruct (221 <=? List.length out)%nat; cbn [obind]; [reflexivity|exists c'; auto].
  - unfold get_a_line. rewrite R. destruct (h_line h w out) as [[[more o2] w2]| | |]; cbn [obind]; try reflexivity.
    rewrite Q. set (c2 := if more then set_rest c' w2 else set_getting (set_rest c' w2) false).
    assert (C : stack_is c2 stack' /\ rest c2 = w2 /\ getting_lines c2 = g && more /\ kept c c2).
    { subst c2. destruct more; rewrite ?andb_true_r, ?andb_false_r; repeat split; try apply St'; try apply K; assumption || reflexivity. }
    destruct ip; cbn [andb obind]; [|exists c2; tauto]. destruct (221 <=? List.length o2)%nat; cbn [obind]; [reflexivity|exists c2; tauto].
Qed.

Lemma nest_app m : forall a b stack, nest m (a ++ b) stack = match nest m a stack with Some s => nest m b s | None => None end.
Proof.
  induction a as [|[s|n|n|s|s] a IH]; intros b stack; cbn [app nest]; try apply IH; try reflexivity.
  - destruct (_ <? _)%nat; [apply IH|reflexivity].
  - destruct (_ <? _)%nat; [apply IH|reflexivity].
  - destruct stack as [|t q]; [reflexivity|]. destruct (String.eqb t n); [apply IH|reflexivity].
  - destruct stack; [reflexivity|]. apply IH.
Qed.

(** A whole document, line by line. *)
Lemma document {W} (h : hooks W) fuel temp : forall c lines c' , calls h fuel temp c lines c' ->
  forall ls stack, lines = map shows ls -> stack_is c stack ->
  Forall (fun l => line_ok h l /\ (List.length l < fuel)%nat) ls ->
  stack <> [] \/ match lines with [] => True | s :: _ => occurs (zs "<ades version") s /\ ~ occurs (zs "<optical>") s end ->
  (forall k, (0 < k < List.length ls)%nat -> nest 19 (List.concat (firstn k ls)) stack <> Some []) ->
  forall stack', nest 19 (List.concat ls) stack = Some stack' -> stack_is c' stack'.
Proof.
  induction 1 as [c|c s r o c' lines c'' R E C IH]; intros ls stack El St F Hs Hk stack' Hn.
  - destruct ls; [|discriminate]. cbn in Hn. injection Hn as <-. exact St.
  - destruct ls as [|l ls]; [discriminate|]. cbn [map] in El. injection El as -> ->. inversion F as [|? ? [(O1 & O2 & O3 & O4) Hf] F']; subst.
    cbn [List.concat] in Hn. rewrite nest_app in Hn. destruct (nest 19 l stack) as [st1|] eqn:N1; [|discriminate].
    pose proof (xlate_items h fuel true temp c (shows l) l stack st1 R St O1 N1 Hf O2 O3 O4 Hs) as X.
    assert (St1 : stack_is c' st1).
    { destruct (do x <- _; _) as [[[[r' o'] w'] g']| | |] in X; try congruence. destruct X as (c1 & X & S1 & _). rewrite E in X. injection X as _ _ <-. exact S1. }
    apply (IH ls st1 eq_refl St1 F'); [|intros k Hk'|exact Hn].
    + destruct ls as [|l2 ls]; [right; exact I|]. left. intros ->. apply (Hk 1%nat); [cbn; lia|]. cbn [firstn List.concat]. rewrite app_nil_r. exact N1.
    + intros Q. apply (Hk (S k)); [cbn; lia|]. cbn [firstn List.concat]. rewrite nest_app, N1. exact Q.
Qed.
