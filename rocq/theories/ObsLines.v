(** The lines that are put out for an observation. *)
From Coq Require Import QArith String Lia.
From Verif Require Import CBase CStr CtimeSpec DesigModel DesigSpec MpcfSpec MpcdSpec TstrModel CtimeModel AdesModel AdesSpec ObsModel ObsSpec ObsProofs ObsMore.
From Verif Require MpcfModel MiscProofs.
Import ListNotations.
Local Open Scope string_scope.
Local Open Scope list_scope.
Local Open Scope Z_scope.

Lemma streq_dec a b : streq a b = if list_eq_dec Z.eq_dec a b then true else false.
Proof.
  destruct (list_eq_dec Z.eq_dec a b) as [->|N]; [now apply MiscProofs.streq_spec|]. destruct (streq a b) eqn:E; [|reflexivity]. apply MiscProofs.streq_spec in E. contradiction.
Qed.
Lemma puts_more h w l w' ls w'' : (forall o, h_line h w o = Ret (true, l, w')) -> puts_out h w' ls w'' -> puts_out h w (l :: ls) w''.
Proof. apply puts_line. Qed.

Section Lines.
Variables (E : env) (fuel : nat) (L : list Z) (x : Z) (l2 : list Z) (cc : Q) (ct : Z).
Definition still (w : obs) : Prop :=
  t2k w = None /\ forallb (fun v => Qeq_bool v 0) (vel w) = true /\ line w = L ++ [10; 0; x] /\ line2 w = l2 /\
  text w FullRA = [] /\ text w FullDec = [] /\ text w FullMag = [] /\ texts_ok (text w) /\ MpcfModel.atof (text w Corr) = Ret cc /\ center w = ct.
Definition gone (w w' : obs) : Prop :=
  settled w' /\ text w' RmsDec = text w RmsDec /\ text w' Corr = text w Corr /\ ignore_artsat w' = ignore_artsat w /\ center w' = center w /\ List.length (line w') = 83%nat /\ List.length (line2 w') = List.length (line2 w).

Lemma texts_set w p t : texts_ok (text w) -> Z.of_nat (List.length t) < size_of p -> no_nul t -> t = [] \/ 33 <= hd 0 t -> texts_ok (text (set_text w p t)).
Proof. intros H H1 H3 H4 q. cbn [set_text text]. destruct (part_eq_dec p q) as [<-|]; [auto|apply H]. Qed.
Lemma texts_clear w p : texts_ok (text w) -> texts_ok (text (set_text w p [])).
Proof. intros H. apply texts_set; auto; [destruct p; reflexivity|intros ? []]. Qed.
Ltac none H := rewrite H; cbv iota beta.

Lemma nth_none (t : list Z) : nth 0 t 0 = hd 0 t.
Proof. destruct t; reflexivity. Qed.
Lemma str_line l : no_nul l -> str_at (l ++ [10; 0; x]) 0 = Ret (l ++ [10]).
Proof.
  intros N. unfold str_at. cbn [skipn]. assert (SP : span (fun c => negb (c =? 0)) (l ++ [10; 0; x]) = S (List.length l)).
  { replace (l ++ [10; 0; x]) with ((l ++ [10]) ++ 0 :: [x]) by (rewrite <- app_assoc; reflexivity). rewrite span_none.
    - rewrite app_length. cbn. lia.
    - intros y Hy. apply negb_true_iff, Z.eqb_neq. apply in_app_iff in Hy as [Hy|[<-|[]]]; [now apply N|lia].
    - reflexivity. }
  rewrite SP, app_length. cbn [List.length]. destruct (Nat.eqb_spec (S (List.length l)) (List.length l + 3)); [lia|].
  f_equal. replace (l ++ [10; 0; x]) with ((l ++ [10]) ++ [0; x]) by (rewrite <- app_assoc; reflexivity). apply firstn_text_n. rewrite app_length. cbn. lia.
Qed.

Lemma lines_last (NL : no_nul L) (LL : List.length L = 80%nat) (H2 : hd 0 l2 = 0) w : still w -> text w RmsRA = [] -> text w TrkSub = [] -> text w ObsID = [] -> text w TrkID = [] -> (List.length (text w Passband) <= 1)%nat ->
  text w Notes = [] -> text w Program = [] -> text w RmsMag = [] -> text w RmsTime = [] -> exists w', puts_out (whole E fuel) w [L ++ [10]] w' /\ gone w w'.
Proof.
  intros (S1 & S2 & S3 & S4 & S5 & S6 & S7 & S8 & S9 & S10) T1 T2 T3 T4 T5 T6 T7 T8 T9.
  assert (HL : exists a r, L = a :: r /\ a <> 0) by (destruct L as [|a r]; [discriminate LL|]; exists a, r; split; [reflexivity|apply NL; now left]).
  destruct HL as (a & r & EL & Ha).
  assert (P1 : nth 1 (text w Passband) 0 = 0) by (destruct (text w Passband) as [|? [|? ?]]; cbn in T5 |- *; try reflexivity; lia).
  set (w1 := set_line w ((0 :: r) ++ [10; 0; x])).
  assert (N1 : forall o, next_line w o = Ret (true, L ++ [10], w1)).
  { intros o. unfold next_line. rewrite T1, T2, T3, T4, S5, S6, S1, S7, P1, T6, T7, S2. cbn [nth negb Z.eqb orb andb]. change (32 <? 0) with false. change (32 <=? 0) with false. cbn [orb].
    rewrite S3, S4. rewrite (str_line L NL). replace (nth 0 (L ++ [10; 0; x]) 0) with a by (rewrite EL; reflexivity). destruct (Z.eqb_spec a 0); [contradiction|]. cbn [negb obind].
    replace (nth 0 l2 0 =? 0) with true by (rewrite nth_none, H2; reflexivity). cbn [obind].
    assert (PA : put_at (L ++ [10; 0; x]) 0 [0] = Ret ((0 :: r) ++ [10; 0; x])).
    { unfold put_at. rewrite EL. cbn [List.length List.app]. destruct (Z.leb_spec (0 + Z.of_nat 1) (Z.of_nat (S (List.length (r ++ [10; 0; x]))))); [|lia]. reflexivity. }
    rewrite PA. cbn [obind]. f_equal. f_equal. unfold w1, set_line2, set_line. cbn. now rewrite S4. }
  assert (N2 : forall o, next_line w1 o = Ret (false, o, w1)).
  { intros o. unfold next_line. subst w1. cbn [set_line text t2k vel line line2]. rewrite T1, T2, T3, T4, S5, S6, S1, S7, P1, T6, T7, S2. cbn [nth negb Z.eqb orb andb List.app]. change (32 <? 0) with false. change (32 <=? 0) with false. cbn [orb].
    rewrite S4. replace (nth 0 l2 0 =? 0) with true by (rewrite nth_none, H2; reflexivity). reflexivity. }
  exists w1. split.
  - apply puts_more with w1; [exact N1|]. apply puts_end. exact N2.
  - subst w1. unfold gone. cbn [set_line text ignore_artsat center line line2]. split; [|repeat split; auto; cbn [List.length List.app]; rewrite app_length; rewrite EL in LL; cbn in LL |- *; lia].
    unfold settled. cbn [set_line text vel]. split; [|split; [exact T5|split; [exact S8|exact S2]]].
    intros p. destruct p; auto; congruence.
Qed.

Variable fin : list (list Z).
Hypothesis LAST : forall w, still w -> text w RmsRA = [] -> text w TrkSub = [] -> text w ObsID = [] -> text w TrkID = [] -> (List.length (text w Passband) <= 1)%nat ->
  text w Notes = [] -> text w Program = [] -> text w RmsMag = [] -> text w RmsTime = [] -> exists w', puts_out (whole E fuel) w fin w' /\ gone w w'.
Lemma gone_trans w w1 w' : text w1 RmsDec = text w RmsDec -> text w1 Corr = text w Corr -> ignore_artsat w1 = ignore_artsat w -> center w1 = center w -> line2 w1 = line2 w -> gone w1 w' -> gone w w'.
Proof. unfold gone. intros. intuition congruence. Qed.
Lemma present_if (t : list Z) : (match t with [] => false | _ => true end) = present t.
Proof. destruct t; reflexivity. Qed.
Lemma ok_hd w p : texts_ok (text w) -> forall k, 31 <= k <= 32 -> (k <? nth 0 (text w p) 0) = present (text w p).
Proof.
  intros T k Hk. destruct (T p) as (_ & _ & [-> |H]); [cbn [nth present]; apply Z.ltb_ge; lia|]. rewrite nth_none. destruct (text w p) as [|a r]; [cbn in H; lia|]. cbn [hd present] in *.
  destruct (Z.ltb_spec k a); [reflexivity|lia].
Qed.
Lemma ok_hd_le w p : texts_ok (text w) -> (32 <=? nth 0 (text w p) 0) = present (text w p).
Proof. intros T. rewrite <- (ok_hd w p T 31) by lia. destruct (Z.leb_spec 32 (nth 0 (text w p) 0)), (Z.ltb_spec 31 (nth 0 (text w p) 0)); try reflexivity; lia. Qed.
Lemma name_len name t : (List.length (with_name name t) <= List.length (zs name) + List.length t)%nat.
Proof. unfold with_name. destruct (present t); [rewrite app_length; lia|cbn; lia]. Qed.
Lemma some_name name t : (if (match t with [] => false | _ => true end) then zs name ++ t else []) = with_name name t.
Proof. unfold with_name. now rewrite present_if. Qed.

Lemma lines_tags w : still w -> text w RmsRA = [] -> text w TrkSub = [] -> text w ObsID = [] -> text w TrkID = [] -> text w RmsMag = [] -> text w RmsTime = [] ->
  exists w', puts_out (whole E fuel) w (comments cc (text w) ++ fin) w' /\ gone w w'.
Proof.
  intros St T1 T2 T3 T4 T8 T9. pose proof St as (S1 & S2 & S3 & S4 & S5 & S6 & S7 & S8 & S9 & S10).
  unfold comments. rewrite T1, T2, T3, T4. cbn [present orb List.app].
  assert (P1 : (2 <=? List.length (text w Passband))%nat = negb (nth 1 (text w Passband) 0 =? 0)).
  { destruct (S8 Passband) as (_ & N & _). destruct (text w Passband) as [|a [|b r]]; try reflexivity. cbn [List.length Nat.leb nth]. destruct (Z.eqb_spec b 0) as [->|]; [exfalso; apply (N 0); [right; now left|reflexivity]|reflexivity]. }
  rewrite P1.
  destruct (negb (nth 1 (text w Passband) 0 =? 0) || present (text w Notes) || present (text w Program)) eqn:C; cbn [List.app].
  2: { apply orb_false_iff in C as (C & C3). apply orb_false_iff in C as (C1 & C2). apply LAST; auto.
       - destruct (Nat.leb_spec 2 (List.length (text w Passband))) as [H|H]; [|lia]. rewrite C1 in P1. discriminate P1.
       - destruct (text w Notes); [reflexivity|discriminate C2].
       - destruct (text w Program); [reflexivity|discriminate C3]. }
  set (o1 := zs "COM ADES tags" ++ _).
  set (w1 := set_text (set_text (set_text w Passband (firstn 1 (text w Passband))) Notes []) Program []).
  assert (N1 : forall o, next_line w o = Ret (true, o1, w1)).
  { intros o. unfold next_line. rewrite T1, T2, T3, T4, S5, S6, S1, S7. cbn [orb].
    rewrite (ok_hd w Notes S8 32) by lia. rewrite !ok_hd_le by exact S8. rewrite C.
    match goal with |- context [put_221 ?s] => change s with o1 end.
    assert (LO : (List.length o1 <= 100)%nat).
    { subst o1. rewrite !app_length. pose proof (name_len " notes:" (text w Notes)). pose proof (name_len " progcode:" (text w Program)).
      pose proof (proj1 (S8 Notes)) as Z1. pose proof (proj1 (S8 Program)) as Z2. pose proof (proj1 (S8 Passband)) as Z3. cbn [size_of] in Z1, Z2, Z3.
      assert ((List.length (if (2 <=? List.length (text w Passband))%nat then zs " band:" ++ text w Passband else []) <= 6 + List.length (text w Passband))%nat) by (destruct (2 <=? _)%nat; [rewrite app_length|]; cbn; lia).
      rewrite P1 in *. cbn in *. lia. }
    unfold put_221. destruct (Z.leb_spec 221 (Z.of_nat (List.length o1))); [lia|]. cbn [obind]. reflexivity. }
  destruct (LAST w1) as (w' & P & G).
  { unfold still. subst w1. cbn [set_text t2k vel line line2]. split; [exact S1|]. split; [exact S2|]. split; [exact S3|]. split; [exact S4|].
    split; [cbn; exact S5|]. split; [cbn; exact S6|]. split; [cbn; exact S7|]. split; [|split; [cbn; exact S9|cbn; exact S10]].
    apply texts_clear, texts_clear. apply texts_set; [exact S8| | |].
    - rewrite firstn_length. destruct (S8 Passband) as (Q & _). cbn [size_of] in *. lia.
    - destruct (S8 Passband) as (_ & Q & _). intros c Hc. apply Q. destruct (text w Passband); [destruct Hc|]. destruct Hc as [<-|[]]. now left.
    - destruct (S8 Passband) as (_ & _ & Q). destruct (text w Passband); [now left|]. right. cbn in *. destruct Q as [Q|Q]; [discriminate Q|exact Q]. }
  all: subst w1; cbn; auto.
  { destruct (text w Passband); cbn; lia. }
  exists w'. split; [|eapply gone_trans; [..|exact G]; reflexivity]. apply puts_more with (2 := P). exact N1.
Qed.

Lemma lines_ids w : still w -> text w RmsRA = [] -> text w RmsMag = [] -> text w RmsTime = [] ->
  exists w', puts_out (whole E fuel) w (comments cc (text w) ++ fin) w' /\ gone w w'.
Proof.
  intros St T1 T8 T9. pose proof St as (S1 & S2 & S3 & S4 & S5 & S6 & S7 & S8 & S9 & S10).
  destruct (present (text w TrkSub) || present (text w ObsID) || present (text w TrkID)) eqn:C.
  2: { apply orb_false_iff in C as (C & C3). apply orb_false_iff in C as (C1 & C2). apply lines_tags; auto.
       - destruct (text w TrkSub); [reflexivity|discriminate C1].
       - destruct (text w ObsID); [reflexivity|discriminate C2].
       - destruct (text w TrkID); [reflexivity|discriminate C3]. }
  set (w1 := set_text (set_text (set_text w TrkSub []) ObsID []) TrkID []).
  set (o1 := zs "COM IDs" ++ with_name " trkSub:" (text w TrkSub) ++ with_name " obsID:" (text w ObsID) ++ with_name " trkID:" (text w TrkID) ++ [10]).
  assert (CE : comments cc (text w) = o1 :: comments cc (text w1)).
  { unfold comments. subst w1. cbn -[zs with_name]. rewrite T1, C. cbn [present List.app]. reflexivity. }
  assert (N1 : forall o, next_line w o = Ret (true, o1, w1)).
  { intros o. unfold next_line. rewrite T1. rewrite !present_if, C. rewrite <- !present_if, !some_name.
    change (zs "COM IDs" ++ _) with o1.
    assert (LO : (List.length o1 <= 150)%nat).
    { subst o1. rewrite !app_length. pose proof (name_len " trkSub:" (text w TrkSub)). pose proof (name_len " obsID:" (text w ObsID)). pose proof (name_len " trkID:" (text w TrkID)).
      pose proof (proj1 (S8 TrkSub)) as Z1. pose proof (proj1 (S8 ObsID)) as Z2. pose proof (proj1 (S8 TrkID)) as Z3. cbn [size_of] in Z1, Z2, Z3. cbn in *. lia. }
    unfold put_221. destruct (Z.leb_spec 221 (Z.of_nat (List.length o1))); [lia|]. cbn [obind]. reflexivity. }
  destruct (lines_tags w1) as (w' & P & G).
  { unfold still. subst w1. cbn [set_text t2k vel line line2]. split; [exact S1|]. split; [exact S2|]. split; [exact S3|]. split; [exact S4|].
    split; [cbn; exact S5|]. split; [cbn; exact S6|]. split; [cbn; exact S7|]. split; [|split; [cbn; exact S9|cbn; exact S10]].
    apply texts_clear, texts_clear, texts_clear, S8. }
  all: try (subst w1; cbn; auto; fail).
  exists w'. split; [|eapply gone_trans; [..|exact G]; reflexivity]. rewrite CE. apply puts_more with (2 := P). exact N1.
Qed.

Lemma lines_all w : still w -> (text w RmsRA = [] -> text w RmsMag = [] /\ text w RmsTime = []) ->
  exists w', puts_out (whole E fuel) w (comments cc (text w) ++ fin) w' /\ gone w w'.
Proof.
  intros St T0. pose proof St as (S1 & S2 & S3 & S4 & S5 & S6 & S7 & S8 & S9 & S10).
  destruct (present (text w RmsRA)) eqn:C.
  2: { assert (text w RmsRA = []) by (destruct (text w RmsRA); [reflexivity|discriminate C]). destruct (T0 H). now apply lines_ids. }
  set (w1 := set_text (set_text (set_text w RmsMag []) RmsTime []) RmsRA []).
  set (o1 := zs "COM Sigmas " ++ text w RmsRA ++
      (if list_eq_dec Z.eq_dec (text w RmsRA) (text w RmsDec) then [] else zs "x" ++ text w RmsDec ++ (if Qeq_bool cc 0 then [] else zs "," ++ text w Corr)) ++
      with_name " m:" (text w RmsMag) ++ with_name " t:" (text w RmsTime) ++ [10]).
  assert (CE : comments cc (text w) = o1 :: comments cc (text w1)).
  { unfold comments. rewrite C. subst w1. cbn -[zs with_name]. reflexivity. }
  assert (N1 : forall o, next_line w o = Ret (true, o1, w1)).
  { intros o. unfold next_line. rewrite !present_if, C. rewrite <- !present_if, !some_name. rewrite streq_dec, S9.
    assert (LO : (List.length o1 <= 200)%nat).
    { subst o1. rewrite !app_length. pose proof (name_len " m:" (text w RmsMag)). pose proof (name_len " t:" (text w RmsTime)).
      pose proof (proj1 (S8 RmsRA)) as Z1. pose proof (proj1 (S8 RmsDec)) as Z2. pose proof (proj1 (S8 Corr)) as Z3. pose proof (proj1 (S8 RmsMag)) as Z4. pose proof (proj1 (S8 RmsTime)) as Z5. cbn [size_of] in *.
      match goal with |- (_ + (_ + (?k + _)) <= _)%nat => assert (k <= 60)%nat end.
      { destruct (list_eq_dec _ _ _); [cbn; lia|]. rewrite !app_length. destruct (Qeq_bool cc 0); [|rewrite app_length]; cbn; lia. }
      cbn in *. lia. }
    destruct (list_eq_dec Z.eq_dec (text w RmsRA) (text w RmsDec)) as [EQ|NE]; cbn [obind].
    - change (zs "COM Sigmas " ++ _) with o1. unfold put_221. destruct (Z.leb_spec 221 (Z.of_nat (List.length o1))); [lia|]. reflexivity.
    - change (zs "COM Sigmas " ++ _) with o1. unfold put_221. destruct (Z.leb_spec 221 (Z.of_nat (List.length o1))); [lia|]. reflexivity. }
  destruct (lines_ids w1) as (w' & P & G).
  { unfold still. subst w1. cbn [set_text t2k vel line line2]. split; [exact S1|]. split; [exact S2|]. split; [exact S3|]. split; [exact S4|].
    split; [cbn; exact S5|]. split; [cbn; exact S6|]. split; [cbn; exact S7|]. split; [|split; [cbn; exact S9|cbn; exact S10]].
    apply texts_clear, texts_clear, texts_clear, S8. }
  all: try (subst w1; cbn; auto; fail).
  exists w'. split; [|eapply gone_trans; [..|exact G]; reflexivity]. rewrite CE. apply puts_more with (2 := P). exact N1.
Qed.
End Lines.
