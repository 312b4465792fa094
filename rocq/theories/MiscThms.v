(** Proofs of the theorems stated in [PropMisc]. *)
From Coq Require Import Lia ZifyBool String.
From Verif Require Import CBase CLemmas CStr StrModel StrProofs DesigUnpack DesigPack CgiProofs MiscModel MiscSpec MiscProofs.
Open Scope list_scope.

Lemma C30_make_partial_proof :
  forall n (b : buf), 1 <= n < 10000 -> (length (star_name n) < length b)%nat ->
  make_var_desig b n = Ret (map Some (star_name n) ++ [Some 0] ++ skipn (length (star_name n) + 1) b).
Proof.
  exact make_ok.
Qed.

Lemma star_up n c : 1 <= n <= IMAX -> In c (star_name n) -> toupper c = c.
Proof.
  intros H Hc. unfold toupper. destruct (islower c) eqn:E; [|reflexivity]. exfalso. unfold islower in E.
  destruct (Z_le_dec n 334); [pose proof (letters n c ltac:(lia) Hc); lia|]. rewrite star_big in Hc by lia. destruct Hc as [<-|Hc]; [lia|].
  unfold IMAX in H. destruct (DesigBase.dec_ok n ltac:(change (10 ^ 20) with 100000000000000000000; lia)) as (D & _). specialize (D c Hc). unfold isdigit in D. lia.
Qed.
Lemma star_self n : 1 <= n <= IMAX -> map toupper (star_name n) = star_name n.
Proof. intros H. rewrite <- (map_id (star_name n)) at 2. apply map_ext_in. intros c Hc. apply (star_up n); assumption. Qed.
Lemma star_not_u n : 1 <= n <= IMAX -> star_name n <> [117].
Proof. intros H E. pose proof (star_up n 117 H ltac:(rewrite E; left; reflexivity)) as X. discriminate. Qed.

Lemma C30_decode_proof :
  forall n s tail, 1 <= n <= IMAX -> map toupper s = star_name n -> s <> zs "u" ->
  tail = [] \/ (exists t, tail = 32 :: t) ->
  decipher_var_desig (s ++ tail) = Ret n.
Proof.
  intros n s tail Hn Hs Hu Ht. exact (decode n s tail Hn Hs Hu Ht).
Qed.

Lemma C30_round_trip_proof :
  forall n (b : buf), 1 <= n < 10000 -> (6 <= length b)%nat ->
  exists b' s, make_var_desig b n = Ret b' /\ holds b' 0 s /\ no_nul s /\ decipher_var_desig s = Ret n.
Proof.
  intros n b Hn Hb.
  assert (L : (length (star_name n) < 6)%nat).
  { destruct (Z_lt_dec n 10); [rewrite one_all by lia; cbn; lia|]. destruct (Z_le_dec n 334).
    - destruct (two_all n ltac:(lia)) as (a & c & _ & ->). cbn. lia.
    - rewrite star_big by lia. cbn [length]. pose proof (DesigUnpack.dec_len n 4 ltac:(lia) ltac:(change (10 ^ Z.of_nat 4) with 10000; lia)). lia. }
  eexists. exists (star_name n). split; [apply make_ok; lia|]. split; [|split].
  - unfold holds. cbn [skipn]. rewrite app_assoc, firstn_app, app_length, map_length. cbn [length].
    rewrite firstn_all2 by (rewrite app_length, map_length; cbn; lia).
    replace (length (star_name n) + 1 - (length (star_name n) + 1))%nat with 0%nat by lia. cbn [firstn]. rewrite app_nil_r. reflexivity.
  - intros c Hc ->. destruct (Z_le_dec n 334); [pose proof (letters n 0 ltac:(lia) Hc); lia|]. rewrite star_big in Hc by lia.
    destruct Hc as [Hc|Hc]; [discriminate|].
    destruct (DesigBase.dec_ok n ltac:(change (10 ^ 20) with 100000000000000000000; lia)) as (D & _). specialize (D 0 Hc). discriminate.
  - assert (1 <= n <= IMAX) by (unfold IMAX; lia). pose proof (decode n (star_name n) [] ltac:(assumption) (star_self n ltac:(assumption)) (star_not_u n ltac:(assumption)) (or_introl eq_refl)) as X.
    rewrite app_nil_r in X. exact X.
Qed.

Lemma C30_distinct_proof :
  forall n m, 1 <= n <= IMAX -> 1 <= m <= IMAX -> star_name n = star_name m -> n = m.
Proof.
  intros n m Hn Hm E.
  pose proof (decode n (star_name n) [] Hn (star_self n Hn) (star_not_u n Hn) (or_introl eq_refl)) as X.
  pose proof (decode m (star_name m) [] Hm (star_self m Hm) (star_not_u m Hm) (or_introl eq_refl)) as Y.
  rewrite E in X. congruence.
Qed.

Lemma C30_two_letters_proof :
  forall c d tail, byte c -> byte d -> c <> 32 -> d <> 32 ->
  tail = [] \/ (exists t, tail = 32 :: t) ->
  exists v, decipher_var_desig (c :: d :: tail) = Ret v /\
    (1 <= v <= 334 /\ star_name v = map toupper [c; d] \/
     v = -1 /\ forall n, 1 <= n <= IMAX -> star_name n <> map toupper [c; d]).
Proof.
  intros c d tail Hc Hd Nc Nd Ht. eexists. split; [apply decipher2; assumption|]. cbn [map].
  destruct (back2 _ _ (byte_up c Hc) (byte_up d Hd)) as [E|(E1 & E2)].
  - right. split; [exact E|]. intros n Hn En.
    pose proof (decode n [c; d] tail Hn (eq_sym En) ltac:(discriminate) Ht) as X. cbn [app] in X. rewrite decipher2 in X by assumption.
    assert (num2 (toupper c) (toupper d) = n) by congruence. lia.
  - left. split; [lia|exact E2].
Qed.

Lemma C30_one_letter_proof :
  forall c tail, byte c -> c <> 32 -> tail = [] \/ (exists t, tail = 32 :: t) ->
  decipher_var_desig (c :: tail) = Ret
    (if (97 <=? c) && (c <=? 113) || (c =? 117) then 9101 + (c - 97)
     else if (65 <=? c) && (c <=? 81) then 9201 + (c - 65)
     else if (82 <=? toupper c) && (toupper c <=? 90) then toupper c - 81
     else -1).
Proof.
  intros c tail Hc Nc Ht. rewrite decipher1 by assumption. f_equal. unfold num1.
  destruct (((97 <=? c) && (c <=? 113)) || (c =? 117)); [lia|]. destruct ((65 <=? c) && (c <=? 81)); [lia|].
  destruct ((82 <=? toupper c) && (toupper c <=? 90)); lia.
Qed.

Lemma C30_five_digits_refuted_proof :
  (forall n (b : buf), 1000 <= n -> (6 <= length b)%nat -> make_var_desig b (n + 10000) = make_var_desig b n) /\
  make_var_desig (repeat None 6) 12345 = Ret (map Some (zs "V2345") ++ [Some 0]) /\
  star_name 12345 = zs "V12345" /\ decipher_var_desig (zs "V12345") = Ret 12345.
Proof.
  split.
  - intros n b Hn Hb. destruct b as [|x0 [|x1 [|x2 [|x3 [|x4 [|x5 b]]]]]]; cbn [length] in Hb; try lia.
    rewrite !make_big4 by lia. replace ((n + 10000) mod 10000) with (n mod 10000) by lia. reflexivity.
  - vm_compute. repeat split.
Qed.

Lemma C30_zero_refuted_proof :
  make_var_desig (repeat None 2) 0 = Ret [Some 81; Some 0] /\ decipher_var_desig (zs "Q") = Ret 9217 /\
  decipher_var_desig (zs "VAB") = Ret 0 /\ decipher_var_desig (zs "V7") = Ret (-1) /\ decipher_var_desig (zs "V07") = Ret 7.
Proof.
  vm_compute. repeat split.
Qed.

Lemma C30_undefined_refuted_proof :
  decipher_var_desig [] = UB /\ decipher_var_desig (zs "V2147483648") = UB.
Proof.
  vm_compute. repeat split.
Qed.

Lemma C31_code_to_name_proof :
  forall c name, In (c, name) catalogues -> byte_code_to_net_name c = Ret (Some name).
Proof.
  intros c name H. assert (G : Forall (fun '(c, name) => byte_code_to_net_name c = Ret (Some name)) catalogues).
  { vm_compute. repeat constructor. }
  rewrite Forall_forall in G. exact (G _ H).
Qed.

Lemma code_none codes c : (forall e, In e codes -> e <> [] /\ hd 0 e <> c) -> code_to_name codes c = Ret None.
Proof.
  induction codes as [|e codes IH]; intros H; [reflexivity|]. cbn [code_to_name]. destruct (H e (or_introl eq_refl)) as (H1 & H2).
  destruct e as [|d e]; [congruence|]. rewrite at0. cbn [obind hd] in *. destruct (Z.eqb_spec c d); [congruence|].
  apply IH. intros x Hx. apply H. right. exact Hx.
Qed.

Lemma C31_code_unknown_proof :
  forall c, (forall name, ~ In (c, name) catalogues) -> byte_code_to_net_name c = Ret None.
Proof.
  intros c H. apply code_none. intros e He. split; [exact (proj1 (entries e He))|]. intros E.
  assert (G : Forall (fun e => exists name, In (hd 0 e, name) catalogues) net_codes).
  { assert (F : forallb (fun e => existsb (fun '(d, _) => d =? hd 0 e) catalogues) net_codes = true) by (vm_compute; reflexivity).
    rewrite Forall_forall. rewrite forallb_forall in F. intros x Hx. specialize (F x Hx). apply existsb_exists in F as ((d & name) & F1 & F2).
    exists name. apply Z.eqb_eq in F2. subst d. exact F1. }
  rewrite Forall_forall in G. destruct (G e He) as (name & Hn). rewrite E in Hn. exact (H name Hn).
Qed.

Lemma C31_name_to_code_proof :
  forall text c name, no_nul text -> In (c, name) (other_spelling :: catalogues) ->
  significant text = significant name -> net_name_to_byte_code text = Ret c.
Proof.
  intros text c name Hn Hi E.
  assert (G : Forall (fun '(c, name) => (length (significant name) < 80)%nat /\
     (let r := last_code net_codes (significant name) 0 in if r =? 0 then 63 else r) = c) (other_spelling :: catalogues)).
  { assert (F : forallb (fun '(c, name) => Nat.ltb (length (significant name)) 80 &&
        ((let r := last_code net_codes (significant name) 0 in if r =? 0 then 63 else r) =? c)) (other_spelling :: catalogues) = true) by (vm_compute; reflexivity).
    rewrite Forall_forall. rewrite forallb_forall in F. intros (d & x) Hx. specialize (F _ Hx). cbv beta iota in F. apply andb_prop in F as (F1 & F2).
    split; [apply Nat.ltb_lt; exact F1|apply Z.eqb_eq; exact F2]. }
  rewrite Forall_forall in G. destruct (G _ Hi) as (G1 & G2). rewrite name_code; [|exact Hn|rewrite E; exact G1]. rewrite E, G2. reflexivity.
Qed.

Lemma C31_name_unknown_proof :
  forall text, no_nul text -> (length (significant text) < 80)%nat ->
  (forall c name, In (c, name) (other_spelling :: catalogues) -> significant text <> significant name) ->
  net_name_to_byte_code text = Ret 63.
Proof.
  intros text Hn Hl H. rewrite name_code by assumption. rewrite last_none; [reflexivity|]. intros e He.
  assert (F : forallb (fun e => existsb (fun '(_, name) => streq name (tl e)) (other_spelling :: catalogues)) net_codes = true) by (vm_compute; reflexivity).
  rewrite forallb_forall in F. specialize (F e He). apply existsb_exists in F as ((c & name) & F1 & F2).
  apply streq_spec in F2. subst name. exact (H c _ F1).
Qed.

Lemma C31_inverse_proof :
  forall c name, byte_code_to_net_name c = Ret (Some name) -> net_name_to_byte_code name = Ret c.
Proof.
  intros c name H. destruct (existsb (fun '(d, _) => d =? c) catalogues) eqn:E.
  - apply existsb_exists in E as ((d & n') & E1 & E2). apply Z.eqb_eq in E2. subst d. rewrite (C31_code_to_name_proof c n' E1) in H. injection H as ->.
    apply (C31_name_to_code_proof name c name); [|right; exact E1|reflexivity].
    assert (F : forallb (fun '(_, n) => forallb (fun c => negb (c =? 0)) n) catalogues = true) by (vm_compute; reflexivity).
    rewrite forallb_forall in F. specialize (F _ E1). cbv beta iota in F. rewrite forallb_forall in F. intros x Hx. specialize (F x Hx). cbv beta in F. lia.
  - rewrite C31_code_unknown_proof in H; [discriminate|]. intros n' Hn. enough (existsb (fun '(d, _) => d =? c) catalogues = true) by congruence.
    apply existsb_exists. exists (c, n'). split; [exact Hn|apply Z.eqb_refl].
Qed.

Lemma C31_long_name_refuted_proof :
  forall text, no_nul text -> (80 <= length (significant text))%nat -> net_name_to_byte_code text = UB.
Proof.
  intros name Hn Hl. unfold net_name_to_byte_code.
  pose proof (reduce_ok (length name) name [] [] (repeat None 80) ltac:(lia) ltac:(cbn; lia) Hn (S (length name)) ltac:(lia)) as R.
  rewrite splice_nil in R. cbn [length app] in R. change (Z.of_nat 0) with 0 in R. rewrite R. cbn [Nat.add]. rewrite repeat_length.
  destruct (Nat.ltb_spec (length (significant name)) 80); [lia|reflexivity].
Qed.

Lemma C31_small_dr_refuted_proof :
  net_name_to_byte_code (zs "Gaiadr1") = Ret 63.
Proof.
  vm_compute. reflexivity.
Qed.
