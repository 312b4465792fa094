(** All the elements of an observation, and the lines that are put out for it. *)
From Coq Require Import QArith String Lia.
From Verif Require Import CBase CStr CtimeSpec DesigModel DesigSpec MpcfSpec MpcdSpec TstrModel CtimeModel AdesModel AdesSpec ObsModel ObsSpec ObsProofs.
From Verif Require MpcfModel.
Import ListNotations.
Local Open Scope string_scope.
Local Open Scope list_scope.
Local Open Scope Z_scope.

(** What the columns of the object hold so far. *)
Definition obj_state (cur : option fact) (t : list Z) (id : Z) : Prop :=
  match cur with None => t = blanks 12 /\ id = 0 | Some e => shown_as e t /\ id_tag e = Some id /\ no_nul t end.
Definition better (cur : option fact) (e : fact) : option fact :=
  match cur with None => Some e | Some c => if rank c <? rank e then Some e else Some c end.
Definition option_zone_obj (e : fact) : bool := match zone_of e with Some Object => true | _ => false end.
Definition same_text (w w' : obs) (e : fact) : Prop :=
  line2 w' = line2 w /\ t2k w' = t2k w /\ center w' = center w /\ vel w' = vel w /\ ignore_artsat w' = ignore_artsat w /\
  forall p, text w' p = match put_aside e with Some (q, t) => if part_eq_dec q p then t else text w p | None => text w p end.
Lemma same_rest_text w w' e : same_rest w w' e -> same_text w w' e.
Proof. unfold same_rest, same_text. tauto. Qed.

Lemma step_object E fuel f tail w e after cur : wide f -> line w = card f ++ tail -> fact_ok e -> zone_of e = Some Object ->
  obj_state cur (f Object) (id_set w) -> (forall c, cur = Some c -> rank c <> rank e) ->
  exists f' w', process_tag E fuel w (num (tag_of e)) (text_of e ++ after) (List.length (text_of e)) = Ret (false, [], w') /\
    wide f' /\ line w' = card f' ++ tail /\ (forall z, z <> Object -> f' z = f z) /\ obj_state (better cur e) (f' Object) (id_set w') /\ same_text w w' e.
Proof.
  intros W L OK HZ OS NR.
  assert (FULL : step_obj E fuel f tail w e after -> (forall c, cur = Some c -> rank c < rank e) -> 
    exists f' w', process_tag E fuel w (num (tag_of e)) (text_of e ++ after) (List.length (text_of e)) = Ret (false, [], w') /\
    wide f' /\ line w' = card f' ++ tail /\ (forall z, z <> Object -> f' z = f z) /\ obj_state (better cur e) (f' Object) (id_set w') /\ same_text w w' e).
  { intros (t & w' & P & S1 & (S2 & SN) & S3 & S4) LT. exists (upd f Object t), w'. split; [exact P|]. split; [now apply wide_upd|]. split; [exact S3|].
    split; [intros z Hz; apply upd_other; congruence|]. split; [|now apply same_rest_text].
    assert (BE : better cur e = Some e) by (destruct cur as [c|]; [|reflexivity]; cbn [better]; destruct (Z.ltb_spec (rank c) (rank e)); [reflexivity|specialize (LT c eq_refl); lia]).
    rewrite BE. cbn [obj_state]. rewrite upd_same. split; [exact S1|]. destruct S4 as (_ & _ & _ & _ & _ & S4 & _).
    split; [|exact SN]. destruct e; try discriminate HZ; cbn [id_tag] in *; now rewrite S4. }
  assert (IDR : forall c, cur = Some c -> exists i, id_tag c = Some i /\ id_set w = i).
  { intros c ->. cbn in OS. exists (id_set w). tauto. }
  destruct e; try discriminate HZ.
  - apply FULL; [now apply step_number|]. intros c Hc. specialize (NR c Hc). cbn [rank] in *. destruct c; cbn [rank] in *; lia.
  - destruct (Z.eq_dec (id_set w) ADES_permID) as [Hid|Hid].
    + exists f, w. cbn [tag_of text_of]. split; [now apply skip_designation|]. split; [assumption|]. split; [assumption|]. split; [reflexivity|].
      split; [|unfold same_text; cbn; repeat split; auto].
      destruct cur as [c|]; cbn [obj_state] in OS; [|destruct OS as (_ & OS); rewrite OS in Hid; discriminate Hid].
      destruct OS as (O1 & O2 & O3). rewrite Hid in O2. destruct c; try discriminate O2. cbn [better rank]. cbn. split; [exact O1|]. split; [now rewrite Hid|exact O3].
    + apply FULL; [now apply step_designation|]. intros c Hc. specialize (NR c Hc). destruct (IDR c Hc) as (i & I1 & I2). destruct c; cbn [rank id_tag] in *; try discriminate; try lia. injection I1 as <-. contradiction.
  - destruct (Z.eq_dec (id_set w) 0) as [Hid|Hid].
    + destruct cur as [c|]; [destruct (IDR c eq_refl) as (i & I1 & I2); destruct c; cbn in I1; try discriminate I1; injection I1 as <-; rewrite Hid in I2; discriminate I2|].
      apply FULL; [apply step_tracklet; auto; apply OS|]. intros c [=].
    + exists f, (set_text w TrkSub t). cbn [tag_of text_of]. split; [now apply skip_tracklet|]. split; [assumption|]. split; [assumption|]. split; [reflexivity|].
      split; [|unfold same_text; cbn; repeat split; auto].
      destruct cur as [c|]; cbn [obj_state] in OS; [|destruct OS as (_ & OS); contradiction].
      destruct OS as (O1 & O2 & O3). specialize (NR c eq_refl). cbn [better]. replace (rank c <? rank (Tracklet t)) with false; [cbn; auto|].
      symmetry. apply Z.ltb_ge. destruct c; cbn; lia.
Qed.

(** Elements with the same place aside have the same name. *)
Lemma aside_tag e e' p t t' : put_aside e = Some (p, t) -> put_aside e' = Some (p, t') -> tag_of e = tag_of e'.
Proof.
  assert (K : forall e p t, put_aside e = Some (p, t) ->
    tag_of e = match p with RmsRA => "rmsRA" | RmsDec => "rmsDec" | Corr => "rmsCorr" | RmsMag => "rmsMag" | RmsTime => "rmsTime" | TrkID => "trkID" | ObsID => "obsID"
               | Passband => "band" | Program => "prog" | Notes => "notes" | TrkSub => "trkSub" | _ => "" end).
  { clear. intros e p t H. destruct e; cbn in H; try discriminate H; try (injection H as <- <-; reflexivity).
    destruct (aside_part tag) as [q|] eqn:A; [|discriminate H]. injection H as <- <-. cbn [tag_of].
    destruct (aside_tags tag q A) as [(-> & ->)|[(-> & ->)|[(-> & ->)|[(-> & ->)|[(-> & ->)|[(-> & ->)|(-> & ->)]]]]]]; reflexivity. }
  intros H H'. rewrite (K _ _ _ H), (K _ _ _ H'). reflexivity.
Qed.

Definition in_object (e : fact) : Prop := zone_of e = Some Object.
Lemma hand_all E fuel tail : forall (es : list (fact * list Z)) f w cur,
  Forall (fun x => fact_ok (fst x) /\ ends (snd x)) es -> consistent (map fst es) -> wide f -> line w = card f ++ tail ->
  (forall e z, In e (map fst es) -> zone_of e = Some z -> z <> Object -> f z = blanks (width z)) ->
  obj_state cur (f Object) (id_set w) -> (forall c e, cur = Some c -> In e (map fst es) -> in_object e -> rank c <> rank e) ->
  (forall c, cur = Some c -> in_object c) ->
  exists f' w' cur', hand_over (whole E fuel) es w = Ret w' /\ wide f' /\ line w' = card f' ++ tail /\
    (forall e z, In e (map fst es) -> zone_of e = Some z -> z <> Object -> shown_as e (f' z)) /\
    (forall z, z <> Object -> (forall e, In e (map fst es) -> zone_of e <> Some z) -> f' z = f z) /\
    obj_state cur' (f' Object) (id_set w') /\
    (forall c, cur' = Some c -> in_object c /\ (cur = Some c \/ In c (map fst es)) /\ (forall c0, cur = Some c0 -> rank c0 <= rank c) /\
       forall e, In e (map fst es) -> in_object e -> rank e <= rank c) /\
    (cur' = None -> cur = None /\ forall e, In e (map fst es) -> ~ in_object e) /\
    aside_kept (map fst es) (text w) (text w') /\
    line2 w' = line2 w /\ t2k w' = t2k w /\ center w' = center w /\ vel w' = vel w /\ ignore_artsat w' = ignore_artsat w.
Proof.
  induction es as [|(e & after) es IH]; intros f w cur OK CO W L B OS NR CI.
  - exists f, w, cur. cbn. split; [reflexivity|]. split; [assumption|]. split; [assumption|]. split; [intros ? ? []|]. split; [reflexivity|]. split; [assumption|].
    split; [intros c Hc; split; [now apply CI|]; split; [now left|]; split; [intros c0 Hc0; assert (c0 = c) by congruence; subst; lia|intros ? []]|].
    split; [intros Hn; split; [exact Hn|intros ? []]|]. split; [split; [intros ? ? ? []|reflexivity]|]. repeat split.
  - inversion OK as [|? ? (O1 & O2) OK']; subst. cbn [fst snd] in *. destruct CO as (ND & CZ). cbn [map fst] in *. inversion ND as [|? ? N1 ND']; subst.
    assert (NI : forall e', In e' (map fst es) -> e' <> e) by (intros e' Hi ->; apply N1; now apply in_map).
    assert (CO' : consistent (map fst es)) by (split; [exact ND'|]; intros a b z Ha Hb; apply CZ; now right).
    cbn [hand_over whole h_tag].
    assert (G : exists f1 w1 cur1, process_tag E fuel w (num (tag_of e)) (text_of e ++ after) (List.length (text_of e)) = Ret (false, [], w1) /\
      wide f1 /\ line w1 = card f1 ++ tail /\ (forall z, zone_of e = Some z -> z <> Object -> shown_as e (f1 z)) /\
      (forall z, z <> Object -> zone_of e <> Some z -> f1 z = f z) /\ obj_state cur1 (f1 Object) (id_set w1) /\
      cur1 = (if option_zone_obj e then better cur e else cur) /\ same_text w w1 e).
    { destruct (zone_of e) as [z|] eqn:HZ.
      - destruct (zone_dec z Object) as [->|NO].
        + destruct (step_object E fuel f tail w e after cur W L O1 HZ OS) as (f1 & w1 & P & P1 & P2 & P3 & P4 & P5).
          { intros c Hc. apply NR; [assumption|now left|exact HZ]. }
          exists f1, w1, (better cur e). split; [exact P|]. split; [exact P1|]. split; [exact P2|]. split; [intros z [= <-] HH; contradiction|]. split; [intros z Hz _; now apply P3|].
          split; [exact P4|]. split; [|exact P5]. unfold option_zone_obj. rewrite HZ. reflexivity.
        + destruct (step_any E fuel f tail w e after W L ltac:(rewrite HZ; congruence) z O1 O2 HZ (B e z ltac:(now left) HZ NO) ltac:(congruence)) as (t & w1 & P & P1 & P2 & P3 & P4).
          exists (upd f z t), w1, cur. split; [exact P|]. split; [now apply wide_upd|]. split; [exact P3|]. split; [intros z' [= <-] _; now rewrite upd_same|].
          split; [intros z' _ Hz'; apply upd_other; congruence|].
          split; [rewrite upd_other by exact NO; destruct P4 as (_ & _ & _ & _ & _ & P4 & _); rewrite P4; destruct e; cbn in HZ; try (injection HZ as <-); try contradiction; try discriminate; exact OS|].
          split; [|now apply same_rest_text]. unfold option_zone_obj. rewrite HZ. destruct z; try reflexivity. contradiction.
      - destruct e; try discriminate HZ. destruct (step_aside E fuel w tag t after O1) as (w1 & P & P1 & P2).
        exists f, w1, cur. split; [exact P|]. split; [exact W|]. split; [now rewrite P1|]. split; [intros ? [=]|]. split; [reflexivity|].
        split; [destruct P2 as (_ & _ & _ & _ & _ & P2 & _); rewrite P2; exact OS|]. split; [reflexivity|now apply same_rest_text]. }
    destruct G as (f1 & w1 & cur1 & P & P1 & P2 & P3 & P4 & P5 & P6 & P7). rewrite P. cbn [obind].
    assert (BET : in_object e -> exists c, cur1 = Some c /\ in_object c /\ (cur = Some c \/ c = e) /\ rank e <= rank c /\ (forall c0, cur = Some c0 -> rank c0 <= rank c)).
    { intros IO. assert (C1 : cur1 = better cur e) by (rewrite P6; unfold option_zone_obj; unfold in_object in IO; now rewrite IO). destruct cur as [c|].
      - cbn [better] in C1. destruct (Z.ltb_spec (rank c) (rank e)).
        + exists e. split; [exact C1|]. split; [exact IO|]. split; [now right|]. split; [lia|]. intros c0 [= <-]. lia.
        + exists c. split; [exact C1|]. split; [now apply CI|]. split; [now left|]. split; [lia|]. intros c0 [= <-]. lia.
      - exists e. split; [exact C1|]. split; [exact IO|]. split; [now right|]. split; [lia|]. intros c0 [=]. }
    assert (NBET : ~ in_object e -> cur1 = cur).
    { intros IO. rewrite P6. unfold option_zone_obj. unfold in_object in IO. destruct (zone_of e) as [[]|]; try reflexivity. now contradiction IO. }
    assert (DO : in_object e \/ ~ in_object e) by (unfold in_object; destruct (zone_of e) as [z|]; [destruct (zone_dec z Object) as [->|]; [now left|right; congruence]|right; discriminate]).
    destruct (IH f1 w1 cur1 OK' CO' P1 P2) as (f2 & w2 & cur2 & Q & Q1 & Q2 & Q3 & Q4 & Q5 & Q6 & Q7 & Q8 & Q9).
    { intros e' z Hi Hz NO. rewrite P4; [apply B with e'; auto; now right|exact NO|]. intros Hz'. apply (NI e' Hi). apply (CZ e' e z); auto; [now right|now left]. }
    { exact P5. }
    { intros c e' Hc Hi IO'. destruct DO as [IO|IO].
      - destruct (BET IO) as (c' & C1 & C2 & C3 & _). assert (c' = c) by congruence. subst c'. destruct C3 as [C3| ->]; [apply NR; auto; now right|].
        intros ER. apply N1. replace (tag_of e) with (tag_of e'); [now apply in_map|].
        unfold in_object in *. destruct e; try discriminate IO; destruct e'; try discriminate IO'; cbn in *; try reflexivity; discriminate ER.
      - apply NR; [now rewrite <- (NBET IO)|now right|exact IO']. }
    { intros c Hc. destruct DO as [IO|IO]; [|apply CI; now rewrite <- (NBET IO)]. destruct (BET IO) as (c' & C1 & C2 & _). congruence. }
    exists f2, w2, cur2. split; [exact Q|]. split; [exact Q1|]. split; [exact Q2|].
    split. { intros e' z [<-|Hi] Hz NO; [|now apply Q3]. rewrite Q4; [now apply P3|exact NO|]. intros e'' Hi Hz''. apply (NI e'' Hi). apply (CZ e'' e z); auto; [now right|now left]. }
    split. { intros z NO Hz. rewrite Q4; [apply P4; [exact NO|apply Hz; now left]|exact NO|]. intros e' Hi. apply Hz. now right. }
    split; [exact Q5|].
    split. { intros c Hc. destruct (Q6 c Hc) as (R1 & R2 & R3 & R4). split; [exact R1|]. destruct DO as [IO|IO].
      - destruct (BET IO) as (c' & C1 & C2 & C3 & C4 & C5). split; [|split].
        + destruct R2 as [R2|R2]; [|right; now right]. assert (c' = c) by congruence. subst c'. destruct C3 as [C3|C3]; [now left|right; now left].
        + intros c0 Hc0. specialize (R3 c' C1). specialize (C5 c0 Hc0). lia.
        + intros e' [<-|Hi] IO'; [specialize (R3 c' C1); lia|now apply R4].
      - rewrite (NBET IO) in *. split; [destruct R2; [now left|right; now right]|]. split; [exact R3|]. intros e' [<-|Hi] IO'; [contradiction|now apply R4]. }
    split. { intros Hn. destruct (Q7 Hn) as (R1 & R2). destruct DO as [IO|IO].
      - destruct (BET IO) as (c' & C1 & _). congruence.
      - rewrite (NBET IO) in R1. split; [exact R1|]. intros e' [<-|Hi]; [exact IO|now apply R2]. }
    destruct P7 as (T1 & T2 & T3 & T4 & T5 & T6). destruct Q8 as (A1 & A2). destruct Q9 as (S1 & S2 & S3 & S4 & S5).
    split. { split.
      - intros e' p t [<-|Hi] Hp; [|now apply (A1 e')]. rewrite A2.
        + rewrite T6, Hp. destruct (part_eq_dec p p); [reflexivity|contradiction].
        + intros e' t' Hi Hp'. apply N1. rewrite (aside_tag e e' p t t' Hp Hp'). now apply in_map.
      - intros p Hp. rewrite A2 by (intros e' t' Hi; apply Hp; now right). rewrite T6. destruct (put_aside e) as [(q & t)|] eqn:PA; [|reflexivity].
        destruct (part_eq_dec q p) as [->|]; [|reflexivity]. exfalso. now apply (Hp e t ltac:(now left)). }
    repeat split; congruence.
Qed.
