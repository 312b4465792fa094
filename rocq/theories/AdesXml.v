(** The loop over tags and text, on well-formed items. *)
From Coq Require Import String Lia.
From Verif Require Import CBase CLemmas CStr AdesModel AdesSpec AdesProofs.
Local Open Scope string_scope.
Local Open Scope list_scope.
Local Open Scope Z_scope.

Lemma in_names n : existsb (String.eqb n) tag_names = true -> In n tag_names.
Proof. intros H. apply existsb_exists in H. destruct H as (x & Hx & E). apply String.eqb_eq in E. subst. exact Hx. Qed.
Ltac inn := apply in_names; vm_compute; reflexivity.
Lemma all_names (f : string -> bool) : forallb f tag_names = true -> forall n, In n tag_names -> f n = true.
Proof. intros H. apply forallb_forall. exact H. Qed.
Lemma tag_found n s : In n tag_names -> find_tag (zs n ++ s) (List.length (zs n)) = num n /\
  find_tag (47 :: zs n ++ s) (S (List.length (zs n))) = num n.
Proof.
  intros H. unfold tag_names in H. cbn [In] in H.
  repeat (destruct H as [<-|H]; [destruct s; split; vm_compute; reflexivity|]). destruct H.
Qed.
Lemma name_chars n : In n tag_names -> Forall (fun x => isalnum x = true) (zs n) /\ zs n <> [] /\ 0 <= num n.
Proof.
  intros H. assert (Q := all_names (fun n => forallb isalnum (zs n) && negb (match zs n with [] => true | _ => false end) && (0 <=? num n)) ltac:(vm_compute; reflexivity) n H).
  apply andb_true_iff in Q. destruct Q as [Q Q3]. apply andb_true_iff in Q. destruct Q as [Q1 Q2]. split; [|split].
  - apply Forall_forall. apply forallb_forall. exact Q1.
  - intros E. rewrite E in Q2. discriminate.
  - lia.
Qed.
Lemma num_optical n : In n tag_names -> (num n =? ADES_optical) = String.eqb n "optical".
Proof.
  intros H. assert (Q := all_names (fun n => Bool.eqb (num n =? ADES_optical) (String.eqb n "optical")) ltac:(vm_compute; reflexivity) n H). apply Bool.eqb_prop. exact Q.
Qed.
Lemma num_eq a b : In a tag_names -> In b tag_names -> num a = num b -> a = b.
Proof.
  assert (Q : forallb (fun a => forallb (fun b => implb (num a =? num b) (String.eqb a b)) tag_names) tag_names = true) by (vm_compute; reflexivity).
  intros Ha Hb E. rewrite forallb_forall in Q. specialize (Q a Ha). rewrite forallb_forall in Q. specialize (Q b Hb).
  rewrite E, Z.eqb_refl in Q. apply String.eqb_eq. exact Q.
Qed.
Lemma num_is a b : In a tag_names -> In b tag_names -> (num a =? num b) = String.eqb a b.
Proof.
  intros Ha Hb. destruct (String.eqb_spec a b) as [->|N]; [apply Z.eqb_refl|]. apply Z.eqb_neq. intros E. apply N. apply num_eq; assumption.
Qed.

Lemma put_221_if s : put_221 s = if (List.length s <? 221)%nat then Ret s else Abort.
Proof.
  unfold put_221. destruct (Nat.ltb_spec (List.length s) 221), (Z.leb_spec 221 (Z.of_nat (List.length s))); try reflexivity; lia.
Qed.
Lemma nth_stack {W} (c : ctx W) a b rest : stack_is c (a ++ b :: rest) -> nth_ub (tags c) (Z.of_nat (List.length rest)) = Ret (num b).
Proof.
  intros (_ & E & L & _). unfold nth_ub. destruct (Z.ltb_spec (Z.of_nat (List.length rest)) 0); [lia|]. rewrite Nat2Z.id.
  assert (N : nth_error (firstn (List.length (a ++ b :: rest)) (tags c)) (List.length rest) = Some (num b)).
  { rewrite E, rev_app_distr. cbn [rev]. rewrite <- app_assoc, map_app, map_rev. rewrite nth_error_app2 by (rewrite rev_length, map_length; lia).
    rewrite rev_length, map_length, Nat.sub_diag. reflexivity. }
  assert (F : forall (l : list Z) m k v, nth_error (firstn m l) k = Some v -> nth_error l k = Some v).
  { induction l as [|x l IH]; intros [|m] [|k] v; cbn; try discriminate; auto. apply IH. }
  rewrite (F _ _ _ _ N). reflexivity.
Qed.

Lemma process_value {W} (h : hooks W) c t outer s len : stack_is c (t :: outer) ->
  process_ades_tag h c (num t) s len = (do '(r, o, w) <- value h (t :: outer) (rest c) s len; Ret (r, o, set_rest c w)).
Proof.
  intros S. assert (SE : set_rest c (rest c) = c) by (destruct c; reflexivity).
  pose proof S as (D & _ & _ & F). inversion F as [|? ? Ht Fo]; subst. unfold process_ades_tag, value.
  change ADES_mpcCode with (num "mpcCode"). change ADES_name with (num "name"). change ADES_line with (num "line"). change ADES_institution with (num "institution").
  rewrite !(num_is t) by (assumption || inn).
  destruct (String.eqb t "mpcCode").
  - destruct (Nat.leb_spec 40 len), (Nat.ltb_spec len 40); try lia; [reflexivity|]. rewrite put_221_if.
    assert (LT : (List.length (zs "COD " ++ firstn len s ++ [10%Z]) < 221)%nat).
    { rewrite !app_length. cbn [zs List.length]. pose proof (firstn_le_length len s). lia. }
    apply Nat.ltb_lt in LT. rewrite LT. cbn [obind]. rewrite SE. reflexivity.
  - destruct (String.eqb t "name" || String.eqb t "line" || String.eqb t "institution").
    + rewrite D. destruct outer as [|p q].
      * cbn [List.length obind Z.ltb]. rewrite SE. reflexivity.
      * assert (G : (1 <? Z.of_nat (List.length (t :: p :: q))) = true) by (apply Z.ltb_lt; cbn [List.length]; lia). rewrite G.
        replace (Z.of_nat (List.length (t :: p :: q)) - 2) with (Z.of_nat (List.length q)) by (cbn [List.length]; lia).
        rewrite (nth_stack c [t] p q S). cbn [obind]. inversion Fo as [|? ? Hp _]; subst.
        change ADES_comment with (num "comment"). change ADES_observatory with (num "observatory"). change ADES_observers with (num "observers").
        change ADES_measurers with (num "measurers"). change ADES_submitter with (num "submitter").
        rewrite !(num_is p) by (assumption || inn). unfold name_line. rewrite !put_221_if.
        assert (K : forall x : list Z, (do o <- (if (List.length x <? 221)%nat then Ret x else Abort); Ret (1, o, c)) =
          (do '(r, o, w) <- (if (List.length x <? 221)%nat then Ret (1, x, rest c) else Abort); Ret (r, o, set_rest c w))).
        { intros x. destruct (_ <? 221)%nat; cbn [obind]; [rewrite SE|]; reflexivity. }
        destruct (String.eqb p "mpcCode"), (String.eqb p "comment"), (String.eqb p "observatory"), (String.eqb p "observers"), (String.eqb p "measurers"), (String.eqb p "submitter");
          cbn [orb]; apply K.
    + destruct (h_tag h (rest c) (num t) s len) as [[[r o] w]| | |]; reflexivity.
Qed.

(** Pushing and popping. *)
Lemma firstn_upd {A} : forall (l : list A) k v, (k < List.length l)%nat -> firstn (S k) (upd l k v) = firstn k l ++ [v].
Proof. induction l as [|x l IH]; intros [|k] v H; cbn in *; try lia; [reflexivity|]. f_equal. apply (IH k v). lia. Qed.
Lemma upd_len {A} : forall (l : list A) k v, List.length (upd l k v) = List.length l.
Proof. induction l as [|x l IH]; intros [|k] v; cbn; auto. Qed.
Lemma push {W} (c : ctx W) stack n : stack_is c stack -> (List.length stack < 20)%nat -> In n tag_names ->
  exists t, set_ub (tags c) (depth c) (num n) = Ret t /\ stack_is (set_depth c (depth c + 1) t) (n :: stack).
Proof.
  intros (D & E & L & F) Hl Hn. unfold set_ub. rewrite L, D. unfold MAX_DEPTH.
  destruct (Z.ltb_spec (Z.of_nat (List.length stack)) 0); [lia|]. destruct (Z.leb_spec (Z.of_nat 20) (Z.of_nat (List.length stack))); [lia|]. cbn [orb].
  eexists. split; [reflexivity|]. rewrite Nat2Z.id. unfold stack_is. cbn [depth tags set_depth List.length]. split; [lia|]. split; [|split].
  - unfold MAX_DEPTH in L. rewrite firstn_upd by lia. rewrite E. cbn [rev]. rewrite map_app. reflexivity.
  - rewrite upd_len. exact L.
  - constructor; assumption.
Qed.
Lemma firstn_pre {A} (l : list A) : forall n m, (n <= m)%nat -> firstn n l = firstn n (firstn m l).
Proof. intros n m H. rewrite firstn_firstn. f_equal. lia. Qed.
Lemma pop {W} (c : ctx W) stack n : stack_is c (n :: stack) ->
  depth c - 1 = Z.of_nat (List.length stack) /\ nth_ub (tags c) (depth c - 1) = Ret (num n) /\ stack_is (set_depth c (depth c - 1) (tags c)) stack.
Proof.
  intros S. pose proof S as (D & E & L & F). assert (D' : depth c - 1 = Z.of_nat (List.length stack)) by (rewrite D; cbn [List.length]; lia).
  split; [exact D'|]. split; [rewrite D'; exact (nth_stack c [] n stack S)|].
  unfold stack_is. cbn [depth tags set_depth]. split; [exact D'|]. split; [|split; [exact L|inversion F; assumption]].
  rewrite (firstn_pre _ _ (List.length (n :: stack))) by (cbn; lia). rewrite E. cbn [rev]. rewrite map_app.
  replace (List.length stack) with (List.length (map num (rev stack))) by (rewrite map_length, rev_length; reflexivity). apply firstn_len.
Qed.

Definition agrees {W} (a : outcome (list Z * W * Z * bool)) (b : outcome (list Z * ctx W * (Z + Z))) (c : ctx W) (stack : list string) : Prop :=
  match a with
  | Ret (out, w, r, g) => exists c', b = Ret (out, c', inl r) /\ stack_is c' stack /\ rest c' = w /\ getting_lines c' = g /\ kept c c'
  | UB => b = UB
  | Abort => b = Abort
  | Fuel => b = Fuel
  end.
Lemma agrees_kept {W} a b (c1 c2 : ctx W) stack : kept c1 c2 -> agrees a b c2 stack -> agrees a b c1 stack.
Proof.
  intros (K1 & K2 & K3 & K4). unfold agrees. destruct a as [[[[out w] r] g]| | |]; auto.
  intros (c' & E & S & R & G & (L1 & L2 & L3 & L4)). exists c'. repeat split; try congruence; try assumption; apply S.
Qed.

Lemma value_sign {W} (h : hooks W) stack w s len r o w' : value h stack w s len = Ret (r, o, w') -> 0 <= r.
Proof.
  unfold value. destruct stack as [|t outer]; [discriminate|]. destruct (String.eqb t "mpcCode").
  - destruct (len <? 40)%nat; [|discriminate]. intros E. injection E as <- _ _. lia.
  - destruct (_ || _)%bool.
    + destruct outer as [|p q]; [intros E; injection E as <- _ _; lia|]. destruct (_ <? 221)%nat; [|discriminate]. intros E. injection E as <- _ _. lia.
    + destruct (h_tag h w (num t) s len) as [[[b o'] w'']| | |]; cbn [obind]; try discriminate. intros E. injection E as <- _ _. destruct b; lia.
Qed.

Lemma skip_tag x t s : x = 60 -> skip_whitespace ((x :: t) ++ s) = x :: t ++ s.
Proof. intros ->. apply skip_ws_stop. reflexivity. Qed.
Lemma span_tag (s : list Z) t : ~ In 62 s -> span (fun y => negb (y =? 62)) (s ++ 62 :: t) = List.length s.
Proof.
  intros H. rewrite span_app; [rewrite span_stop by reflexivity; lia|]. apply Forall_forall. intros x Hx. destruct (Z.eqb_spec x 62); [congruence|reflexivity].
Qed.
Lemma name_no n x : In n tag_names -> isalnum x = false -> ~ In x (zs n).
Proof. intros Hn Hx Hi. destruct (name_chars n Hn) as (F & _). rewrite Forall_forall in F. rewrite (F x Hi) in Hx. discriminate. Qed.

Lemma drop_trailing_pre f (p t : list Z) : forall k, (k <= List.length p)%nat -> drop_trailing f (p ++ t) k = drop_trailing f p k.
Proof.
  induction k as [|k IH]; intros H; [reflexivity|]. cbn [drop_trailing]. rewrite app_nth1 by lia. rewrite IH by lia. reflexivity.
Qed.
Lemma drop_trailing_app f (a b : list Z) : Forall (fun x => f x = true) b -> a <> [] -> f (last a 0) = false ->
  forall t, drop_trailing f (a ++ b ++ t) (List.length (a ++ b)) = List.length a.
Proof.
  intros Hb Ha Hl t. rewrite app_assoc, drop_trailing_pre by lia. clear t. induction b as [|x b IH] using rev_ind.
  - rewrite app_nil_r. destruct (exists_last Ha) as (a' & y & ->). rewrite last_last in Hl. rewrite app_length, Nat.add_comm. cbn [List.length Nat.add drop_trailing].
    rewrite app_nth2 by lia. rewrite Nat.sub_diag. cbn [nth]. rewrite Hl. reflexivity.
  - apply Forall_app in Hb. destruct Hb as [Hb Hx]. inversion Hx as [|? ? Hx' _]; subst.
    rewrite app_assoc, (app_length (a ++ b)), Nat.add_comm. cbn [List.length Nat.add drop_trailing].
    rewrite app_nth2 by lia. rewrite Nat.sub_diag. cbn [nth]. rewrite Hx'. rewrite drop_trailing_pre by lia. apply IH. exact Hb.
Qed.

(** What follows a text up to the next '<'. *)
Lemma after_text l : items_ok l -> match l with Text _ :: _ => False | Blank _ :: Text _ :: _ => False | Blank _ :: Blank _ :: _ => False | _ => True end ->
  exists b t, shows l = b ++ t /\ blank_ok b /\ (t = [] \/ exists u, t = 60 :: u).
Proof.
  intros Ok. destruct l as [|[s|n|n|s|s] l]; intros H.
  - exists [], []. repeat split; auto. constructor.
  - exists [], (shows (Ades s :: l)). repeat split; auto; [constructor|]. right. eexists. reflexivity.
  - exists [], (shows (Open n :: l)). repeat split; auto; [constructor|]. right. eexists. reflexivity.
  - exists [], (shows (Close n :: l)). repeat split; auto; [constructor|]. right. eexists. reflexivity.
  - destruct H.
  - exists s, (shows l). split; [reflexivity|]. split; [apply Ok|]. destruct l as [|[s'|n|n|s'|s'] l]; try destruct H; [left; reflexivity| | |]; right; eexists; reflexivity.
Qed.
Lemma space_range x : isspace x = true -> 0 <= x <= 32.
Proof. unfold isspace. intros H. lia. Qed.

Lemma xml_items {W} (h : hooks W) : forall l fuel c stack stack' out r,
  stack_is c stack -> items_ok l -> nest 19 l stack = Some stack' -> 0 <= r -> (List.length l < fuel)%nat ->
  agrees (feed h l stack (rest c) out r (getting_lines c)) (xml_loop h fuel c out r (skip_whitespace (shows l))) c stack'.
Proof.
  induction l as [|i l IH]; intros fuel c stack stack' out r St Ok N Hr Hf.
  - destruct fuel as [|fuel]; [cbn in Hf; lia|]. cbn in N. injection N as <-. cbn [feed]. unfold shows. cbn [map List.concat]. cbn [skip_whitespace span skipn xml_loop].
    destruct (Z.ltb_spec r 0); [lia|]. cbn. exists c. repeat split; try reflexivity; apply St.
  - destruct fuel as [|fuel]; [cbn in Hf; lia|]. cbn in Hf. destruct i as [s|n|n|s|s].
    + (* the first tag *)
      cbn [items_ok] in Ok. destruct Ok as [Hs Ok]. cbn [nest] in N. destruct (Nat.ltb_spec (List.length stack) 19) as [Hl|]; [|discriminate].
      cbn [feed]. change (shows (Ades s :: l)) with (show (Ades s) ++ shows l). cbn [show].
      change (zs "<ades version") with (60 :: zs "ades version"). rewrite <- app_comm_cons, <- app_comm_cons, skip_ws_stop by reflexivity.
      assert (A : (zs "ades version" ++ s ++ zs ">") ++ shows l = (zs "ades version" ++ s) ++ 62 :: shows l) by (change (zs ">") with [62]; rewrite <- !app_assoc; reflexivity).
      rewrite A. cbn [xml_loop]. destruct (Z.ltb_spec r 0); [lia|]. cbn [Z.eqb].
      assert (NI : ~ In 62 (60 :: zs "ades version" ++ s)).
      { cbn. intuition discriminate. }
      assert (SP := span_tag _ (shows l) NI). rewrite <- app_comm_cons in SP. rewrite SP.
      assert (NE : Nat.eqb (List.length (60 :: zs "ades version" ++ s)) (List.length (60 :: (zs "ades version" ++ s) ++ 62 :: shows l)) = false).
      { apply Nat.eqb_neq. cbn [List.length]. rewrite !app_length. cbn [List.length]. lia. }
      rewrite NE. change (find_tag ((zs "ades version" ++ s) ++ 62 :: shows l) (pred (List.length (60 :: zs "ades version" ++ s)))) with 0.
      cbn [Z.ltb Z.compare]. change (match (zs "ades version" ++ s) ++ 62 :: shows l with 47 :: _ => true | _ => false end) with false. cbv iota.
      destruct (push c stack "ades" St ltac:(lia) ltac:(inn)) as (t & E & St'). change (num "ades") with 0 in E. rewrite E. cbn [obind]. change (0 =? ADES_optical) with false. cbv iota.
      change (depth (set_depth c (depth c + 1) t)) with (depth c + 1). pose proof St as (D & _). rewrite D.
      destruct (Z.eqb_spec (Z.of_nat (List.length stack) + 1) (Z.of_nat MAX_DEPTH)) as [X|_]; [unfold MAX_DEPTH in X; lia|]. cbn [obind].
      rewrite <- D. replace (skipn (S (List.length (60 :: zs "ades version" ++ s))) (60 :: (zs "ades version" ++ s) ++ 62 :: shows l)) with (shows l).
      2:{ change (shows l = skipn (S (List.length (zs "ades version" ++ s))) ((zs "ades version" ++ s) ++ 62 :: shows l)). generalize (zs "ades version" ++ s). intros q.
          symmetry. induction q as [|y q IHq]; [reflexivity|exact IHq]. }
      eapply agrees_kept; [|apply (IH fuel (set_depth c (depth c + 1) t) ("ades" :: stack) stack' out r St' Ok N Hr ltac:(lia))]. repeat split.
    + (* an opening tag *)
      cbn [items_ok] in Ok. destruct Ok as [Hn Ok]. cbn [nest] in N. destruct (Nat.ltb_spec (List.length stack) 19) as [Hl|]; [|discriminate].
      cbn [feed]. change (shows (Open n :: l)) with (show (Open n) ++ shows l). cbn [show].
      change (zs "<") with [60]. cbn [app]. rewrite skip_ws_stop by reflexivity.
      assert (A : (zs n ++ zs ">") ++ shows l = zs n ++ 62 :: shows l) by (change (zs ">") with [62]; rewrite <- !app_assoc; reflexivity).
      rewrite A. cbn [xml_loop]. destruct (Z.ltb_spec r 0); [lia|]. cbn [Z.eqb].
      assert (NI : ~ In 62 (60 :: zs n)). { intros [X|X]; [discriminate|]. revert X. apply name_no; [assumption|reflexivity]. }
      assert (SP := span_tag _ (shows l) NI). rewrite <- app_comm_cons in SP. rewrite SP.
      assert (NE : Nat.eqb (List.length (60 :: zs n)) (List.length (60 :: zs n ++ 62 :: shows l)) = false).
      { apply Nat.eqb_neq. cbn [List.length]. rewrite !app_length. cbn [List.length]. lia. }
      rewrite NE. change (pred (List.length (60 :: zs n))) with (List.length (zs n)). rewrite (proj1 (tag_found n (62 :: shows l) Hn)).
      destruct (name_chars n Hn) as (Fn & Nn & Pn). destruct (Z.ltb_spec (num n) 0); [lia|].
      assert (CL : match zs n ++ 62 :: shows l with 47 :: _ => true | _ => false end = false).
      { destruct (zs n) as [|y q] eqn:Ez; [congruence|]. cbn [app]. inversion Fn as [|? ? Hy _]; subst. destruct (Z.eqb_spec y 47) as [->|X]; [discriminate|].
        clear -X. destruct y as [|y|y]; try reflexivity. do 6 (destruct y; try reflexivity). congruence. }
      rewrite CL. destruct (push c stack n St ltac:(lia) Hn) as (t & E & St'). rewrite E. cbn [obind].
      change (depth (set_depth c (depth c + 1) t)) with (depth c + 1). pose proof St as (D & _). rewrite D.
      destruct (Z.eqb_spec (Z.of_nat (List.length stack) + 1) (Z.of_nat MAX_DEPTH)) as [X|_]; [unfold MAX_DEPTH in X; lia|]. cbn [obind]. rewrite <- D.
      replace (skipn (S (List.length (60 :: zs n))) (60 :: zs n ++ 62 :: shows l)) with (shows l).
      2:{ change (shows l = skipn (S (List.length (zs n))) (zs n ++ 62 :: shows l)). generalize (zs n). intros q. symmetry. induction q as [|y q IHq]; [reflexivity|exact IHq]. }
      rewrite num_optical by assumption. destruct (String.eqb n "optical"); cbn [obind].
      * eapply agrees_kept; [|apply (IH fuel (setup_observation h (set_depth c (depth c + 1) t)) (n :: stack) stack' out r St' Ok N Hr ltac:(lia))]. repeat split.
      * eapply agrees_kept; [|apply (IH fuel (set_depth c (depth c + 1) t) (n :: stack) stack' out r St' Ok N Hr ltac:(lia))]. repeat split.
    + (* a closing tag *)
      cbn [items_ok] in Ok. destruct Ok as [Hn Ok]. cbn [nest] in N. destruct stack as [|t0 stack]; [discriminate|].
      destruct (String.eqb_spec t0 n) as [->|]; [|discriminate].
      cbn [feed]. change (shows (Close n :: l)) with (show (Close n) ++ shows l). cbn [show tl].
      change (zs "</") with [60; 47]. cbn [app]. rewrite skip_ws_stop by reflexivity.
      assert (A : (zs n ++ zs ">") ++ shows l = zs n ++ 62 :: shows l) by (change (zs ">") with [62]; rewrite <- !app_assoc; reflexivity).
      rewrite A. cbn [xml_loop]. destruct (Z.ltb_spec r 0); [lia|]. cbn [Z.eqb].
      assert (NI : ~ In 62 (60 :: 47 :: zs n)). { intros [X|[X|X]]; [discriminate|discriminate|]. revert X. apply name_no; [assumption|reflexivity]. }
      assert (SP := span_tag _ (shows l) NI). rewrite <- !app_comm_cons in SP. rewrite SP.
      assert (NE : Nat.eqb (List.length (60 :: 47 :: zs n)) (List.length (60 :: 47 :: zs n ++ 62 :: shows l)) = false).
      { apply Nat.eqb_neq. cbn [List.length]. rewrite !app_length. cbn [List.length]. lia. }
      rewrite NE. change (pred (List.length (60 :: 47 :: zs n))) with (S (List.length (zs n))). rewrite (proj2 (tag_found n (62 :: shows l) Hn)).
      destruct (name_chars n Hn) as (Fn & Nn & Pn). destruct (Z.ltb_spec (num n) 0); [lia|].
      destruct (pop c stack n St) as (D' & E & St'). pose proof St as (D & _ & L20 & _).
      assert (B : 0 <= depth c <= 100).
      { split; [lia|]. pose proof (f_equal (@List.length Z) (proj1 (proj2 St))) as Q. rewrite firstn_length, map_length, rev_length in Q. rewrite L20 in Q. unfold MAX_DEPTH in Q. lia. }
      rewrite ev_val by (cbn [safe val]; unfold fits, IMAX; lia). cbn [obind val]. cbn [tags set_depth depth].
      destruct (Z.ltb_spec (depth c - 1) 0); [lia|]. rewrite E. cbn [obind]. rewrite Z.eqb_refl.
      replace (skipn (S (List.length (60 :: 47 :: zs n))) (60 :: 47 :: zs n ++ 62 :: shows l)) with (shows l).
      2:{ change (shows l = skipn (S (List.length (zs n))) (zs n ++ 62 :: shows l)). generalize (zs n). intros q. symmetry. induction q as [|y q IHq]; [reflexivity|exact IHq]. }
      rewrite num_optical by assumption. destruct (String.eqb n "optical"); cbn [obind].
      * eapply agrees_kept; [|apply (IH fuel (set_getting (set_depth c (depth c - 1) (tags c)) true) stack stack' out 1 St' Ok N ltac:(lia) ltac:(lia))]. repeat split.
      * eapply agrees_kept; [|apply (IH fuel (set_depth c (depth c - 1) (tags c)) stack stack' out r St' Ok N Hr ltac:(lia))]. repeat split.
    + (* text *)
      cbn [items_ok] in Ok. destruct Ok as (Ht & Ok & Hn). cbn [nest] in N. destruct stack as [|t0 stack]; [discriminate|].
      destruct Ht as (H0 & H1 & H2 & H3). cbn [feed]. change (shows (Text s :: l)) with (s ++ shows l).
      destruct (after_text l Ok Hn) as (b & u & Eb & Hb & Hu).
      destruct s as [|a s]; [congruence|]. cbn [hd] in H2.
      assert (Ea : isspace a = false). { destruct (isspace a) eqn:X; [|reflexivity]. apply space_range in X. lia. }
      cbn [app]. rewrite skip_ws_stop by exact Ea. cbn [xml_loop]. destruct (Z.ltb_spec r 0); [lia|].
      destruct (Z.eqb_spec a 60) as [->|_]; [exfalso; apply H1; left; reflexivity|].
      pose proof St as (D & _). assert (Dz : (depth c =? 0) = false) by (apply Z.eqb_neq; rewrite D; cbn [List.length]; lia). rewrite Dz. cbn [negb].
      destruct (pop c stack t0 St) as (_ & E & _). rewrite E. cbn [obind].
      assert (SP : span (fun y => negb (y =? 60)) (a :: s ++ shows l) = List.length ((a :: s) ++ b)).
      { rewrite Eb. change (a :: s ++ b ++ u) with ((a :: s) ++ b ++ u). rewrite app_assoc. rewrite span_app.
        - destruct Hu as [->|[u' ->]]; cbn; lia.
        - apply Forall_app. split; apply Forall_forall; intros y Hy; destruct (Z.eqb_spec y 60) as [->|]; try reflexivity; [tauto|].
          unfold blank_ok in Hb. rewrite Forall_forall in Hb. specialize (Hb 60 Hy). discriminate. }
      rewrite SP. assert (DT : drop_trailing (fun y => (0 <=? y) && (y <=? 32)) (a :: s ++ shows l) (List.length ((a :: s) ++ b)) = List.length (a :: s)).
      { rewrite Eb. change (a :: s ++ b ++ u) with ((a :: s) ++ b ++ u). apply drop_trailing_app; [|discriminate|].
        - unfold blank_ok in Hb. rewrite Forall_forall in Hb |- *. intros y Hy. specialize (Hb y Hy). apply space_range in Hb. lia.
        - lia. }
      rewrite DT. rewrite (process_value h c t0 stack _ _ St).
      change ((a :: s) ++ shows l) with (a :: s ++ shows l).
      destruct (value h (t0 :: stack) (rest c) (a :: s ++ shows l) (List.length (a :: s))) as [[[r' o'] w']| | |] eqn:Ev; cbn [obind agrees]; try reflexivity.
      replace (skipn (List.length (a :: s)) (a :: s ++ shows l)) with (shows l) by (symmetry; apply (skipn_len (a :: s))).
      eapply agrees_kept; [|apply (IH fuel (set_rest c w') (t0 :: stack) stack' o' r' St Ok N (value_sign _ _ _ _ _ _ _ _ Ev) ltac:(lia))]. repeat split.
    + (* white space *)
      cbn [items_ok] in Ok. destruct Ok as [Hs Ok]. cbn [nest feed] in *. change (shows (Blank s :: l)) with (s ++ shows l). rewrite skip_ws_app by exact Hs.
      apply (IH (S fuel) c stack stack' out r St Ok N Hr ltac:(lia)).
Qed.
