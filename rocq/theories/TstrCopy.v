(** Proofs about the copy into the local buffer (get_time.cpp:422-446). *)
From Coq Require Import QArith Lia.
From Coq Require Import String.
From Verif Require Import CBase CLemmas CStr DateModel TstrModel TstrSpec.
Local Open Scope list_scope.
Local Open Scope Z_scope.

(** The bytes written after the byte [prev]. *)
Fixpoint sf (prev : Z) (s : list Z) : list Z :=
  match s with
  | [] => []
  | c :: r => (if boundary prev c then [32] else []) ++ tolower c :: sf c r
  end.
Lemma low_eq c : low c = tolower c.
Proof. reflexivity. Qed.
Lemma spread_sf c r : spread (c :: r) = tolower c :: sf c r.
Proof.
  revert c. induction r as [|b r IH]; intro c; [reflexivity|].
  change (spread (c :: b :: r)) with
    (if ((isdigit c && isalpha b) || (isalpha c && isdigit b)) && negb (b =? 113) && negb (b =? 81)
     then low c :: 32 :: spread (b :: r) else low c :: spread (b :: r)).
  rewrite IH. cbn [sf]. unfold boundary at 1.
  replace (isalpha b && isdigit c || isdigit b && isalpha c)
    with (isdigit c && isalpha b || isalpha c && isdigit b).
  2:{ destruct (isdigit c), (isalpha b), (isalpha c), (isdigit b); reflexivity. }
  destruct ((isdigit c && isalpha b || isalpha c && isdigit b) && negb (b =? 113) && negb (b =? 81)); reflexivity.
Qed.
Lemma touch_boundary a b : touch a b <-> boundary a b = true.
Proof.
  unfold touch, boundary. rewrite !andb_true_iff, orb_true_iff, !andb_true_iff, !negb_true_iff, !Z.eqb_neq.
  tauto.
Qed.

Definition B (out : list Z) : buf := map Some out ++ repeat None (80 - List.length out).
Lemma B_len out : (List.length out <= 80)%nat -> List.length (B out) = 80%nat.
Proof. intro H. unfold B. rewrite app_length, map_length, repeat_length. lia. Qed.
Lemma upd_app {A} (l : list A) x r v : upd (l ++ x :: r) (List.length l) v = l ++ v :: r.
Proof. induction l as [|h t IH]; cbn [app upd List.length]; [reflexivity|now rewrite IH]. Qed.
Lemma wr_B out c : (List.length out < 80)%nat -> wr (B out) (Z.of_nat (List.length out)) c = Ret (B (out ++ [c])).
Proof.
  intro H. unfold wr, set_ub. rewrite B_len by lia.
  replace (Z.of_nat (List.length out) <? 0) with false by (symmetry; apply Z.ltb_ge; lia).
  replace (Z.of_nat 80 <=? Z.of_nat (List.length out)) with false by (symmetry; apply Z.leb_gt; lia).
  cbn [orb]. f_equal. rewrite Nat2Z.id. unfold B.
  rewrite map_app, app_length. cbn [List.length map].
  replace (80 - List.length out)%nat with (S (80 - (List.length out + 1)))%nat by lia.
  cbn [repeat]. pose proof (upd_app (map Some out) None (repeat None (80 - (List.length out + 1))) (Some c)) as U.
  rewrite map_length in U. rewrite U. now rewrite <- app_assoc.
Qed.
Lemma wr_full b c : List.length b = 80%nat -> wr b 80 c = UB.
Proof. intro H. unfold wr, set_ub. rewrite H. reflexivity. Qed.

(** Does the loop reach the last place of the buffer with a space to insert? *)
Fixpoint over (prev : Z) (s : list Z) (n : nat) : bool :=
  match s with
  | [] => false
  | c :: r => if (n <? 79)%nat then
                if boundary prev c then if (n =? 78)%nat then true else over c r (n + 2)
                else over c r (n + 1)
              else false
  end.
Lemma copy_loop_full s prev b : copy_loop prev s 80 b = Ret (b, 80).
Proof. destruct s; reflexivity. Qed.
Lemma copy_loop_79 s prev b : copy_loop prev s 79 b = Ret (b, 79).
Proof. destruct s; reflexivity. Qed.
Lemma copy_loop_spec s : forall prev out, (List.length out <= 79)%nat ->
  if over prev s (List.length out)
  then exists b, List.length b = 80%nat /\ copy_loop prev s (Z.of_nat (List.length out)) (B out) = Ret (b, 80)
  else copy_loop prev s (Z.of_nat (List.length out)) (B out) =
       Ret (B (firstn 79 (out ++ sf prev s)), Z.of_nat (List.length (firstn 79 (out ++ sf prev s)))).
Proof.
  induction s as [|c r IH]; intros prev out H.
  - cbn [over sf copy_loop]. rewrite app_nil_r, firstn_all2 by lia. reflexivity.
  - cbn [over sf copy_loop]. destruct (Nat.ltb_spec (List.length out) 79) as [H1|H1].
    + replace (Z.of_nat (List.length out) <? 79) with true by (symmetry; apply Z.ltb_lt; lia).
      destruct (boundary prev c) eqn:Eb.
      * rewrite wr_B by lia. cbn [obind].
        replace (Z.of_nat (List.length out) + 1) with (Z.of_nat (List.length (out ++ [32]))) by (rewrite app_length; cbn; lia).
        rewrite wr_B by (rewrite app_length; cbn; lia). cbn [obind].
        replace (Z.of_nat (List.length (out ++ [32])) + 1) with (Z.of_nat (List.length ((out ++ [32]) ++ [tolower c])))
          by (rewrite !app_length; cbn; lia).
        destruct (Nat.eqb_spec (List.length out) 78) as [H2|H2].
        -- exists (B ((out ++ [32]) ++ [tolower c])). split; [apply B_len; rewrite !app_length; cbn; lia|].
           replace (Z.of_nat (List.length ((out ++ [32]) ++ [tolower c]))) with 80 by (rewrite !app_length; cbn; lia).
           apply copy_loop_full.
        -- specialize (IH c ((out ++ [32]) ++ [tolower c])).
           replace (List.length ((out ++ [32]) ++ [tolower c])) with (List.length out + 2)%nat in * by (rewrite !app_length; cbn; lia).
           specialize (IH ltac:(lia)).
           replace (((out ++ [32]) ++ [tolower c]) ++ sf c r) with (out ++ [32] ++ tolower c :: sf c r) in IH
             by (rewrite <- !app_assoc; reflexivity). exact IH.
      * cbn [obind]. rewrite wr_B by lia. cbn [obind app].
        specialize (IH c (out ++ [tolower c])).
        replace (Z.of_nat (List.length out) + 1) with (Z.of_nat (List.length (out ++ [tolower c]))) by (rewrite app_length; cbn; lia).
        replace (List.length (out ++ [tolower c])) with (List.length out + 1)%nat in * by (rewrite !app_length; cbn; lia).
        specialize (IH ltac:(lia)).
        replace ((out ++ [tolower c]) ++ sf c r) with (out ++ tolower c :: sf c r) in IH
          by (rewrite <- !app_assoc; reflexivity). exact IH.
    + replace (Z.of_nat (List.length out) <? 79) with false by (symmetry; apply Z.ltb_ge; lia).
      assert (E : firstn 79 (out ++ (if boundary prev c then [32] else []) ++ tolower c :: sf c r) = out).
      { rewrite firstn_app. replace (79 - List.length out)%nat with 0%nat by lia.
        rewrite firstn_O, app_nil_r, firstn_all2 by lia. reflexivity. }
      rewrite E. reflexivity.
Qed.

Lemma tolower_nz c : c <> 0 -> tolower c <> 0.
Proof. unfold tolower, isupper. intro H. destruct (Z.leb_spec 65 c), (Z.leb_spec c 90); cbn [andb]; lia. Qed.
Lemma sf_nul s : forall prev, no_nul s -> no_nul (sf prev s).
Proof.
  induction s as [|c r IH]; intros prev H x Hx; [destruct Hx|].
  cbn [sf] in Hx. apply in_app_or in Hx. destruct Hx as [Hx|[Hx|Hx]].
  - destruct (boundary prev c); cbn [In] in Hx; lia.
  - subst x. apply tolower_nz, H. now left.
  - refine (IH c _ x Hx). intros y Hy. apply H. now right.
Qed.
Lemma c_string_B s r : no_nul s -> c_string (map Some s ++ Some 0 :: r) = Ret s.
Proof.
  induction s as [|c s IH]; intro H; cbn [map app c_string]; [reflexivity|].
  replace (c =? 0) with false by (symmetry; apply Z.eqb_neq, H; now left).
  rewrite IH by (intros y Hy; apply H; now right). reflexivity.
Qed.

Lemma rts_trim s : remove_trailing_spaces s = trim_end s.
Proof.
  unfold remove_trailing_spaces.
  assert (G : forall s, (forall c, In c s -> c = 32) \/ exists p c k, s = p ++ [c] ++ repeat 32 k /\ c <> 32).
  { clear. intro s. induction s as [|c s IH] using rev_ind; [left; intros c []|].
    destruct (Z.eq_dec c 32) as [->|N].
    - destruct IH as [H|(p & x & k & -> & H)].
      + left. intros y Hy. apply in_app_or in Hy. destruct Hy as [Hy|[<-|[]]]; [now apply H|reflexivity].
      + right. exists p, x, (k + 1)%nat. split; [|assumption]. rewrite repeat_app, <- !app_assoc. reflexivity.
    - right. exists s, c, 0%nat. split; [reflexivity|assumption]. }
  assert (T1 : forall k, trim_end (repeat 32 k) = []).
  { induction k as [|k IH]; [reflexivity|]. cbn [repeat trim_end]. now rewrite IH. }
  assert (T2 : forall p c k, c <> 32 -> trim_end (p ++ [c] ++ repeat 32 k) = p ++ [c]).
  { induction p as [|x p IH]; intros c k N.
    - cbn [app trim_end]. rewrite T1. replace (c =? 32) with false by (symmetry; now apply Z.eqb_neq). reflexivity.
    - change (trim_end (x :: (p ++ [c] ++ repeat 32 k)) = x :: p ++ [c]). cbn [trim_end].
      rewrite IH by assumption. destruct (p ++ [c]) eqn:E; [destruct p; discriminate|reflexivity]. }
  assert (S1 : forall k t, span is_space (repeat 32 k ++ t) = (k + span is_space t)%nat).
  { induction k as [|k IH]; intro t; [reflexivity|]. cbn [repeat app span]. unfold is_space at 1. cbn [Z.eqb].
    rewrite IH. reflexivity. }
  assert (R1 : forall k, rev (repeat 32 k) = repeat 32 k).
  { induction k as [|k IH]; [reflexivity|]. cbn [repeat rev]. rewrite IH.
    change (repeat 32 k ++ repeat 32 1 = repeat 32 (S k)). rewrite <- repeat_app. f_equal. lia. }
  destruct (G s) as [H|(p & c & k & -> & N)].
  - assert (E : s = repeat 32 (List.length s)).
    { clear -H. induction s as [|c s IH]; [reflexivity|]. cbn [List.length repeat].
      rewrite (H c) by now left. f_equal. apply IH. intros y Hy. apply H. now right. }
    rewrite E, R1, T1. rewrite <- (app_nil_r (repeat 32 (List.length s))) at 1. rewrite S1. cbn [span].
    rewrite Nat.add_0_r. rewrite skipn_all2 by now rewrite repeat_length. reflexivity.
  - rewrite T2 by assumption. rewrite !rev_app_distr, R1. rewrite <- !app_assoc. cbn [rev app].
    rewrite S1. cbn [span]. unfold is_space at 1.
    replace (c =? 32) with false by (symmetry; now apply Z.eqb_neq). cbv iota. rewrite Nat.add_0_r.
    rewrite skipn_app, repeat_length, Nat.sub_diag, skipn_all2 by now rewrite repeat_length.
    cbn [app skipn rev]. rewrite rev_involutive. reflexivity.
Qed.

Definition over_text (s : list Z) : bool := match s with [] => false | c :: r => over c r 1 end.
Lemma copy_text_spec s : no_nul s -> hd 0 s <> 32 -> s <> [] -> (List.length s < 80)%nat ->
  copy_text s = if over_text s then UB else Ret (Some (trim_end (firstn 79 (spread s)))).
Proof.
  destruct s as [|c r]; [congruence|]. intros Hn Hs _ Hl. cbn [hd List.length over_text] in *.
  unfold copy_text.
  assert (E : span is_space (c :: r) = 0%nat).
  { cbn [span]. unfold is_space. replace (c =? 32) with false by (symmetry; now apply Z.eqb_neq). reflexivity. }
  rewrite E. cbn [skipn].
  replace (80 <=? Z.of_nat (S (List.length r))) with false by (symmetry; apply Z.leb_gt; lia).
  change (wr (repeat None 80) 0 (tolower c)) with (wr (B []) (Z.of_nat (List.length (@nil Z))) (tolower c)).
  rewrite wr_B by (cbn; lia). cbn [obind app].
  pose proof (copy_loop_spec r c [tolower c] ltac:(cbn; lia)) as H. cbn [List.length] in H.
  change (Z.of_nat 1) with 1 in H.
  destruct (over c r 1).
  - destruct H as (b & Hb & H). rewrite H. cbn [obind]. rewrite wr_full by assumption. reflexivity.
  - rewrite H. cbn [obind]. rewrite spread_sf. cbn [app].
    set (o := firstn 79 (tolower c :: sf c r)).
    assert (Lo : (List.length o <= 79)%nat) by apply firstn_le_length.
    rewrite wr_B by lia. cbn [obind]. unfold B. rewrite map_app, <- app_assoc. cbn [map app].
    rewrite c_string_B. cbn [obind]. now rewrite rts_trim.
    intros x Hx. apply (fun K => proj1 (in_app_iff _ _ _) K) in Hx || idtac.
    assert (In x (tolower c :: sf c r)).
    { unfold o in Hx. rewrite <- (firstn_skipn 79 (tolower c :: sf c r)). apply in_or_app. now left. }
    destruct H0 as [<-|H0]; [apply tolower_nz, Hn; now left|].
    refine (sf_nul r c _ x H0). intros y Hy. apply Hn. now right.
Qed.

Lemma over_spec r : forall prev n, (n <= 79)%nat ->
  (over prev r n = true <->
   exists p a b q, prev :: r = p ++ a :: b :: q /\ boundary a b = true /\
     (n + List.length (sf prev (tl (p ++ [a]))))%nat = 78%nat).
Proof.
  induction r as [|c r IH]; intros prev n Hn; cbn [over].
  - split; [discriminate|]. intros (p & a & b & q & E & _). destruct p as [|? [|? ?]]; discriminate.
  - destruct (Nat.ltb_spec n 79) as [H1|H1].
    2:{ split; [discriminate|]. intros (p & a & b & q & E & Hb & HL). exfalso. lia. }
    assert (STEP : (exists p a b q, prev :: c :: r = p ++ a :: b :: q /\ boundary a b = true /\
                 (n + List.length (sf prev (tl (p ++ [a]))))%nat = 78%nat) <->
              (boundary prev c = true /\ n = 78%nat) \/
              (exists p a b q, c :: r = p ++ a :: b :: q /\ boundary a b = true /\
                 ((if boundary prev c then n + 2 else n + 1) + List.length (sf c (tl (p ++ [a]))))%nat = 78%nat)).
    { split.
      - intros (p & a & b & q & E & Hb & HL). destruct p as [|x p].
        + cbn [app] in E. injection E as -> -> ->. left. cbn in HL. split; [assumption|lia].
        + cbn [app] in E. injection E as -> E. right. exists p, a, b, q. split; [assumption|]. split; [assumption|].
          cbn [app tl] in HL. destruct p as [|y p].
          * cbn [app] in E. injection E as -> E. cbn [app tl sf List.length] in HL |- *.
            destruct (boundary x a); cbn [app List.length] in HL; lia.
          * cbn [app] in E. injection E as -> E. cbn [app tl sf] in HL |- *. rewrite app_length in HL. cbn [List.length] in HL.
            destruct (boundary x y); cbn [List.length] in HL; lia.
      - intros [[Hb ->]|(p & a & b & q & E & Hb & HL)].
        + exists [], prev, c, r. split; [reflexivity|]. split; [assumption|]. reflexivity.
        + exists (prev :: p), a, b, q. split; [now rewrite E|]. split; [assumption|]. cbn [app tl].
          destruct p as [|y p].
          * cbn [app] in E. injection E as -> E. cbn [app tl sf List.length] in HL |- *. rewrite app_length. cbn [List.length].
            destruct (boundary prev a); cbn [List.length] in HL |- *; lia.
          * cbn [app] in E. injection E as -> E. cbn [app tl sf] in HL |- *. rewrite app_length. cbn [List.length].
            destruct (boundary prev y); cbn [List.length] in HL |- *; lia. }
    rewrite STEP. destruct (boundary prev c) eqn:Eb.
    + destruct (Nat.eqb_spec n 78) as [->|N].
      * split; [|reflexivity]. intros _. left. split; reflexivity.
      * rewrite (IH c (n + 2)%nat) by lia. split; [intro K; right; exact K|intros [[_ K]|K]; [contradiction|exact K]].
    + rewrite (IH c (n + 1)%nat) by lia. split; [intro K; right; exact K|intros [[K _]|K]; [discriminate|exact K]].
Qed.
(** The text for which the buffer overflows, in the words of the specification. *)
Lemma over_text_spec s : over_text s = true <->
  exists p a b q, s = p ++ a :: b :: q /\ touch a b /\ List.length (spread (p ++ [a])) = 78%nat.
Proof.
  destruct s as [|c r]; cbn [over_text].
  - split; [discriminate|]. intros (p & a & b & q & E & _). destruct p; discriminate.
  - rewrite over_spec by lia. split; intros (p & a & b & q & E & Hb & HL); exists p, a, b, q;
      (split; [assumption|]); (split; [now apply touch_boundary|]).
    + destruct (p ++ [a]) as [|x t] eqn:E2; [destruct p; discriminate|].
      assert (x = c) as ->. { destruct p; cbn [app] in *; congruence. }
      rewrite spread_sf. cbn [List.length tl] in *. lia.
    + destruct (p ++ [a]) as [|x t] eqn:E2; [destruct p; discriminate|].
      assert (x = c) as ->. { destruct p; cbn [app] in *; congruence. }
      rewrite spread_sf in HL. cbn [List.length tl] in *. lia.
Qed.
Lemma short_not_over s : (List.length (spread s) <= 79)%nat -> over_text s = false.
Proof.
  intro H. destruct (over_text s) eqn:E; [|reflexivity]. exfalso.
  apply over_text_spec in E. destruct E as (p & a & b & q & -> & Ht & HL).
  apply touch_boundary in Ht.
  assert (G0 : forall t p x, List.length (sf x (p ++ a :: t)) = (List.length (sf x (p ++ [a])) + List.length (sf a t))%nat).
  { intros t p0. induction p0 as [|y p0 IH]; intro x.
    - cbn [app sf]. destruct (boundary x a); cbn [app List.length]; lia.
    - cbn [app sf]. destruct (boundary x y); cbn [app List.length]; rewrite IH; lia. }
  assert (G : forall p x, List.length (spread ((x :: p) ++ a :: b :: q)) = (List.length (spread ((x :: p) ++ [a])) + List.length (sf a (b :: q)))%nat).
  { intros p0 x. cbn [app]. rewrite !spread_sf. cbn [List.length]. rewrite G0. reflexivity. }
  destruct p as [|x p].
  - cbn in HL. discriminate.
  - rewrite G, HL in H. cbn [sf] in H. rewrite Ht in H. cbn [app List.length] in H. lia.
Qed.
Lemma copy_text_ok txt norm : text txt norm -> copy_text txt = Ret (Some (trim_end norm)).
Proof.
  intros (Hn & Hh & He & Hl & <- & Hs).
  rewrite copy_text_spec by assumption. rewrite short_not_over by assumption.
  now rewrite firstn_all2.
Qed.
