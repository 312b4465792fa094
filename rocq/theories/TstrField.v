(** Reading the fields of a date. *)
From Coq Require Import QArith Qround Lia.
From Coq Require Import Ascii String.
From Verif Require Import CBase CLemmas CStr DateModel DateVocab TstrModel TstrSpec TstrCopy TstrNum TstrOff TstrDate.
Local Open Scope list_scope.
Local Open Scope Z_scope.

(** A field: a number ending with a digit, or the name of a month. *)
Definition fld (f : list Z) (q : Q) (mo : bool) : Prop :=
  (mo = false /\ number_of f q /\ isdigit (last f 0) = true) \/
  (mo = true /\ exists m, In (f, m) month_texts /\ q = inject_Z m).
Definition has_dot (f : list Z) : bool := existsb (Z.eqb 46) f.
Definition fld_char (c : Z) : Prop := num_char c \/ 97 <= c <= 122.

Lemma month_forall (P : list Z -> Z -> bool) s m : In (s, m) month_texts ->
  forallb (fun e => P (fst e) (snd e)) month_texts = true -> P s m = true.
Proof. intros H K. rewrite forallb_forall in K. exact (K _ H). Qed.
Lemma month_chars s m c : In (s, m) month_texts -> In c s -> 97 <= c <= 122.
Proof.
  intros H Hc. pose proof (month_forall (fun s _ => forallb (fun c => (97 <=? c) && (c <=? 122)) s) s m H eq_refl) as K.
  cbv beta in K. rewrite forallb_forall in K. specialize (K _ Hc). apply andb_true_iff in K. rewrite !Z.leb_le in K. exact K.
Qed.
Lemma month_nonempty s m : In (s, m) month_texts -> s <> [].
Proof. intros H ->. pose proof (month_forall (fun s _ => negb (List.length s =? 0)%nat) [] m H eq_refl). discriminate. Qed.
Lemma month_range s m : In (s, m) month_texts -> 1 <= m <= 12.
Proof.
  intro H. pose proof (month_forall (fun _ m => (1 <=? m) && (m <=? 12)) s m H eq_refl) as K.
  cbv beta in K. apply andb_true_iff in K. rewrite !Z.leb_le in K. exact K.
Qed.
Lemma month_index s m : In (s, m) month_texts -> month_name_to_index s = m.
Proof.
  intro H. pose proof (month_forall (fun s m => month_name_to_index s =? m) s m H eq_refl) as K.
  now apply Z.eqb_eq in K.
Qed.
Lemma memieq_first a t c r n : (0 < n)%nat -> tolower a <> tolower c -> memieq (a :: t) (c :: r) n = false.
Proof. intros Hn H. destruct n; [lia|]. cbn [memieq]. now rewrite (proj2 (Z.eqb_neq _ _) H). Qed.
Lemma num_index s c r : s = c :: r -> num_char c -> month_name_to_index s = 0 /\ day_of_week_name_to_index s = -1.
Proof.
  intros -> Hc. destruct (num_char_low c Hc) as (E & _ & _).
  assert (Hm : (0 < Nat.min 3 (List.length (c :: r)))%nat) by (cbn [List.length]; lia).
  unfold num_char in Hc.
  split; [unfold month_name_to_index, month_names|unfold day_of_week_name_to_index, day_names]; cbn [name_index zs];
    repeat (rewrite memieq_first; [|exact Hm|rewrite E; vm_compute; lia]); reflexivity.
Qed.
Lemma fld_chars f q mo : fld f q mo -> f <> [] /\ forall c, In c f -> fld_char c.
Proof.
  intros [(-> & H & _)|(-> & m & H & _)].
  - destruct (number_chars f q H) as [K1 K2]. split; [assumption|]. intros c Hc. left. now apply K2.
  - split; [eapply month_nonempty; eassumption|]. intros c Hc. right. eapply month_chars; eassumption.
Qed.
Lemma fld_no f q mo c : fld f q mo -> ~ fld_char c -> ~ In c f.
Proof. intros H Hc Hi. apply Hc. now apply (fld_chars f q mo H). Qed.
Lemma fld_good f q mo : fld f q mo -> good f = true.
Proof.
  intros [(-> & H & _)|(-> & m & H & _)].
  - apply good_plain. intros c Hc. destruct (number_chars f q H) as [_ K]. specialize (K c Hc). unfold num_char in K. lia.
  - eapply month_good; eassumption.
Qed.
Lemma fld_dot f q : fld f q true -> has_dot f = false.
Proof.
  intros [(K & _)|(_ & m & H & _)]; [discriminate|]. apply existsb_notin. intro K.
  pose proof (month_chars f m 46 H K). lia.
Qed.
Lemma read_field_ok f q mo idx err u mf df : fld f q mo ->
  read_field f idx err u mf df = Ret (q, (if mo then idx else mf), (if has_dot f then idx else df), u).
Proof.
  intros F. destruct F as [(-> & H & _)|(-> & m & H & ->)]; unfold read_field.
  - destruct (number_first f q H) as (c & t & Ef & Hc). rewrite (proj1 (num_index f c t Ef Hc)).
    change (negb (0 =? 0)) with false. cbv iota. rewrite <- (app_nil_r f) at 1. rewrite (strtold_num f q [] H I). cbn [obind].
    rewrite Ef. cbn [List.length]. change (0 =? S (List.length t))%nat with false. cbv iota.
    rewrite <- Ef. reflexivity.
  - rewrite (month_index f m H). pose proof (month_range f m H).
    replace (m =? 0) with false by (symmetry; apply Z.eqb_neq; lia). cbn [negb].
    rewrite fld_dot with (q := inject_Z m); [reflexivity|]. right. split; [reflexivity|]. exists m. split; [assumption|reflexivity].
Qed.
Lemma span_stop f a c r : (forall x, In x a -> f x = true) -> f c = false -> span f (a ++ c :: r) = List.length a.
Proof. intros Ha Hc. rewrite span_all_app by assumption. cbn [span]. rewrite Hc. lia. Qed.
Definition date_sep (s : Z) : Prop := s = 32 \/ s = 45 \/ s = 47.
Lemma sep_no_char s c : date_sep s -> fld_char c -> c <> s.
Proof. unfold date_sep, fld_char, num_char. intros H K ->. lia. Qed.
Lemma char_no_space c : fld_char c -> isspace c = false /\ c <> 32 /\ c <> 0.
Proof.
  unfold fld_char, num_char. intro H. split; [|lia]. unfold isspace.
  rewrite orb_false_iff, andb_false_iff, Z.eqb_neq, !Z.leb_gt. lia.
Qed.
Lemma skip_ws_fld f q mo : fld f q mo -> skip_ws f = f.
Proof.
  intro H. destruct (fld_chars f q mo H) as [Hn Hc]. destruct f as [|c f]; [congruence|].
  unfold skip_ws. cbn [span]. destruct (char_no_space c) as [-> _]; [apply Hc; now left|]. reflexivity.
Qed.
Lemma span_all f a : (forall x, In x a -> f x = true) -> span f a = List.length a.
Proof. intro H. rewrite <- (app_nil_r a), span_all_app by assumption. cbn [span]. rewrite app_nil_r. lia. Qed.
Lemma lit_same c r : lit c (c :: r) = Some r.
Proof. unfold lit. now rewrite Z.eqb_refl. Qed.

(** Three fields. *)
Lemma read_three f1 q1 m1 f2 q2 m2 f3 q3 m3 s u : fld f1 q1 m1 -> fld f2 q2 m2 -> fld f3 q3 m3 -> date_sep s ->
  (List.length f1 < 80)%nat -> (List.length f2 < 80)%nat ->
  read_fields (f1 ++ s :: f2 ++ s :: f3) (List.length f1) s u =
  Ret (q1, q2, q3, (if m3 then 3 else if m2 then 2 else if m1 then 1 else 0),
       (if has_dot f3 then 3 else if has_dot f2 then 2 else if has_dot f1 then 1 else 0), 3, u).
Proof.
  intros F1 F2 F3 Hs L1 L2. unfold read_fields. rewrite firstn_app_l.
  unfold to_tstr at 1. replace (Z.of_nat (List.length f1) <? 80) with true by (symmetry; apply Z.ltb_lt; lia). cbn [obind].
  rewrite (read_field_ok f1 q1 m1) by assumption. cbn [obind].
  replace (skipn (List.length f1 + 1) (f1 ++ s :: f2 ++ s :: f3)) with (f2 ++ s :: f3).
  2:{ replace (List.length f1 + 1)%nat with (List.length (f1 ++ [s])) by (rewrite app_length; reflexivity).
      replace (f1 ++ s :: f2 ++ s :: f3) with ((f1 ++ [s]) ++ f2 ++ s :: f3) by (rewrite <- app_assoc; reflexivity).
      now rewrite skipn_app_l. }
  rewrite span_stop.
  2:{ intros x Hx. destruct (fld_chars f2 q2 m2 F2) as [_ K]. specialize (K x Hx).
      pose proof (sep_no_char s x Hs K) as K1. destruct (char_no_space x K) as (_ & K2 & _).
      now rewrite (proj2 (Z.eqb_neq _ _) K1), (proj2 (Z.eqb_neq _ _) K2). }
  2:{ now rewrite Z.eqb_refl. }
  rewrite firstn_app_l. unfold to_tstr at 1.
  replace (Z.of_nat (List.length f2) <? 80) with true by (symmetry; apply Z.ltb_lt; lia). cbn [obind].
  rewrite (read_field_ok f2 q2 m2) by assumption. cbn [obind]. rewrite skipn_app_l, lit_same.
  cbv zeta. rewrite (skip_ws_fld f3 q3 m3 F3).
  destruct (fld_chars f3 q3 m3 F3) as [N3 C3].
  rewrite span_all by (intros x Hx; destruct (char_no_space x (C3 x Hx)) as [-> _]; reflexivity).
  rewrite firstn_all. destruct f3 as [|c t] eqn:Ef; [congruence|]. rewrite <- Ef in *. clear N3.
  destruct F3 as [(-> & H & Hl)|(-> & m & H & ->)].
  - rewrite (proj1 (num_index f3 c t Ef (in_num c f3 q3 H ltac:(rewrite Ef; now left)))).
    change (negb (0 =? 0)) with false. cbv iota.
    assert (E1 : strtold f3 = Ret (q3, [])) by (rewrite <- (app_nil_r f3) at 1; exact (strtold_num f3 q3 [] H I)).
    assert (E2 : scan_lf f3 = Ret (Some (q3, []))) by (rewrite <- (app_nil_r f3) at 1; exact (scan_lf_num f3 q3 [] H I)).
    subst f3. rewrite E1. cbn [obind List.length]. change (0 =? S (List.length t))%nat with false. cbv iota.
    rewrite E2. reflexivity.
  - rewrite (month_index f3 m H). pose proof (month_range f3 m H).
    replace (m =? 0) with false by (symmetry; apply Z.eqb_neq; lia). cbn [negb].
    rewrite (fld_dot f3 (inject_Z m)); [reflexivity|]. right. split; [reflexivity|]. exists m. split; [assumption|reflexivity].
Qed.

(** ---- the text of a date ---- *)
Lemma at_nth s k : 0 <= k < Z.of_nat (List.length s) -> at_ s k = Ret (nth (Z.to_nat k) s 0).
Proof.
  intro H. unfold at_. replace (k =? Z.of_nat (List.length s)) with false by (symmetry; apply Z.eqb_neq; lia).
  now apply nth_ub_ok.
Qed.
Lemma fits_bool s : fits_time s = Ret ((18 <? Z.of_nat (List.length s)) &&
  (nth 11 s 0 =? 116) && (nth 4 s 0 =? 45) && (nth 7 s 0 =? 45) && (nth 15 s 0 =? 58)).
Proof.
  unfold fits_time. destruct (18 <? Z.of_nat (List.length s)) eqn:E; [|reflexivity]. apply Z.ltb_lt in E.
  unfold tst. rewrite !at_nth by lia. cbn [obind]. 
  change (Z.to_nat 11) with 11%nat. change (Z.to_nat 4) with 4%nat. change (Z.to_nat 7) with 7%nat. change (Z.to_nat 15) with 15%nat.
  rewrite (Z.eqb_sym 116), !(Z.eqb_sym 45), (Z.eqb_sym 58). unfold oand.
  destruct (nth 11 s 0 =? 116); cbn [obind andb]; [|reflexivity].
  destruct (nth 4 s 0 =? 45); cbn [obind andb]; [|reflexivity].
  destruct (nth 7 s 0 =? 45); cbn [obind andb]; reflexivity.
Qed.
Lemma nth_unique {A} (a : list A) x r c k d : ~ In c a -> nth k (a ++ x :: r) d = c -> (k < List.length (a ++ x :: r))%nat -> (List.length a <= k)%nat.
Proof.
  intros H E Hk. destruct (Nat.lt_ge_cases k (List.length a)) as [K|K]; [|assumption].
  exfalso. apply H. rewrite <- E. rewrite app_nth1 by assumption. now apply nth_In.
Qed.
Lemma suffix_chars s t c : clock_suffix s t -> In c s -> c = 32 \/ num_char c \/ c = 58.
Proof.
  intros [[-> _]|(x & -> & H)] Hc; [destruct Hc|]. destruct Hc as [<-|Hc]; [now left|].
  right. destruct (clock_chars x t H) as (_ & K & _). exact (K c Hc).
Qed.
Lemma month_fits f m r : In (f, m) month_texts -> (forall c, In c r -> c <> 116) ->
  nth 3 (f ++ r) 0 = 116 -> nth 7 (f ++ r) 0 = 58 -> False.
Proof.
  intros H Hr H3 H7.
  pose proof (month_forall (fun s _ => (3 <? List.length s)%nat && negb (nth 3 s 0 =? 116) || (List.length s <=? 3)%nat ||
     ((7 <? List.length s)%nat && negb (nth 7 s 0 =? 58))) f m H eq_refl) as K. cbv beta in K.
  apply orb_true_iff in K. destruct K as [K|K].
  - apply orb_true_iff in K. destruct K as [K|K].
    + apply andb_true_iff in K. destruct K as [K1 K2]. apply Nat.ltb_lt in K1. rewrite app_nth1 in H3 by lia.
      rewrite H3 in K2. discriminate.
    + apply Nat.leb_le in K. rewrite app_nth2 in H3 by lia.
      destruct (nth_in_or_default (3 - List.length f) r 0) as [I0|I0]; [exact (Hr _ I0 H3)|lia].
  - apply andb_true_iff in K. destruct K as [K1 K2]. apply Nat.ltb_lt in K1. rewrite app_nth1 in H7 by lia.
    rewrite H7 in K2. discriminate.
Qed.
Lemma date_not_fits f1 q1 m1 f2 q2 m2 f3 q3 m3 s clk t : fld f1 q1 m1 -> fld f2 q2 m2 -> fld f3 q3 m3 -> date_sep s ->
  clock_suffix clk t -> fits_time (f1 ++ s :: f2 ++ s :: f3 ++ clk) = Ret false.
Proof.
  intros F1 F2 F3 Hs Hc. rewrite fits_bool. f_equal. apply not_true_iff_false. intro K.
  repeat rewrite andb_true_iff in K. rewrite !Z.eqb_eq, Z.ltb_lt in K. destruct K as ((((K & K11) & K4) & K7) & K15).
  assert (N45 : forall f q m, fld f q m -> ~ In 45 f) by (intros f q m H; apply (fld_no f q m); [assumption|unfold fld_char, num_char; lia]).
  assert (NC : ~ In 45 clk) by (intro I0; pose proof (suffix_chars clk t 45 Hc I0); unfold num_char in *; lia).
  assert (NC2 : forall c, In c clk -> c <> 116) by (intros c I0; pose proof (suffix_chars clk t c Hc I0); unfold num_char in *; lia).
  pose proof (nth_unique f1 s _ 45 4 0 (N45 _ _ _ F1) K4 ltac:(lia)) as B1.
  assert (L4 : List.length f1 = 4%nat).
  { destruct (Nat.eq_dec (List.length f1) 4) as [|D]; [assumption|exfalso].
    (* the first dash is at 4 *)
    rewrite app_nth2 in K4 by lia. destruct (4 - List.length f1)%nat as [|k4] eqn:E4; [lia|].
    rewrite app_nth2 in K7 by lia. destruct (7 - List.length f1)%nat as [|k7] eqn:E7; [lia|]. cbn [nth] in K4, K7.
    rewrite app_length in K. cbn [List.length] in K.
    assert (B2 : (List.length f2 <= k4)%nat) by (apply (nth_unique f2 s (f3 ++ clk) 45 k4 0); [eapply N45; eassumption|assumption|lia]).
    rewrite app_nth2 in K7 by lia. destruct (k7 - List.length f2)%nat as [|k] eqn:Ek; [lia|]. cbn [nth] in K7.
    rewrite app_length in K. cbn [List.length] in K.
    assert (In 45 (f3 ++ clk)) by (rewrite <- K7; apply nth_In; lia).
    apply in_app_or in H. destruct H as [H|H]; [eapply N45; eassumption|contradiction]. }
  rewrite app_nth2 in K7 by lia. rewrite L4 in K7. cbn [nth Nat.sub] in K7.
  rewrite app_nth2 in K11 by lia. rewrite L4 in K11. cbn [nth Nat.sub] in K11.
  rewrite app_nth2 in K15 by lia. rewrite L4 in K15. cbn [nth Nat.sub] in K15.
  rewrite app_length in K. cbn [List.length] in K.
  assert (B2 : (List.length f2 <= 2)%nat) by (apply (nth_unique f2 s (f3 ++ clk) 45 2 0); [eapply N45; eassumption|assumption|lia]).
  assert (L2 : List.length f2 = 2%nat).
  { destruct (Nat.eq_dec (List.length f2) 2) as [|D]; [assumption|exfalso].
    rewrite app_nth2 in K7 by lia. destruct (2 - List.length f2)%nat as [|k] eqn:Ek; [lia|]. cbn [nth] in K7.
    rewrite app_length in K. cbn [List.length] in K.
    assert (In 45 (f3 ++ clk)) by (rewrite <- K7; apply nth_In; lia).
    apply in_app_or in H. destruct H as [H|H]; [eapply N45; eassumption|contradiction]. }
  rewrite app_nth2 in K11 by lia. rewrite L2 in K11. cbn [nth Nat.sub] in K11.
  rewrite app_nth2 in K15 by lia. rewrite L2 in K15. cbn [nth Nat.sub] in K15.
  destruct F3 as [(_ & H & _)|(_ & m & H & _)].
  - destruct (nth_in_or_default 3 (f3 ++ clk) 0) as [I0|I0]; [|lia]. rewrite K11 in I0.
    apply in_app_or in I0. destruct I0 as [I0|I0]; [|now apply (NC2 116)].
    pose proof (in_num 116 f3 q3 H I0) as X. unfold num_char in X. lia.
  - exact (month_fits f3 m clk H NC2 K11 K15).
Qed.
