(** From a table's line to the elements, and from the columns back to the values. *)
From Coq Require Import QArith String Lia.
From Verif Require Import CBase CStr CtimeSpec DesigModel DesigSpec MpcfSpec MpcdSpec TstrModel CtimeModel AdesModel AdesSpec ObsModel ObsSpec ObsProofs ObsMore ObsLines.
From Verif Require DateVocab MpcfModel MpcfThms MpcdThms AdesPsv.
Import ListNotations.
Local Open Scope string_scope.
Local Open Scope list_scope.
Local Open Scope Z_scope.

Definition white (z : zone) : list Z := blanks (width z).
Lemma wide_white : wide white.
Proof. intros z. unfold white, blanks. apply repeat_length. Qed.
Lemma setup_line w : sized w -> exists x, line (setup w) = card white ++ [10; 0; x] /\ hd 0 (line2 (setup w)) = 0 /\ List.length (line2 (setup w)) = 83%nat.
Proof.
  intros (H & H2). cbn [setup line line2]. unfold blank_line.
  assert (K : exists x, skipn 82 (line w) = [x]).
  { pose proof (skipn_length 82 (line w)) as K. rewrite H in K. destruct (skipn 82 (line w)) as [|a [|b r]]; cbn in K; try lia. now exists a. }
  destruct K as (x & ->). exists x. split; [reflexivity|]. split; [reflexivity|]. change (S (List.length (repeat 32 79 ++ [10; 0] ++ skipn 82 (line2 w))) = 83%nat).
  rewrite !app_length, skipn_length, repeat_length, H2. reflexivity.
Qed.

Lemma nodup_map (es : list fact) a b : NoDup (map tag_of es) -> In a es -> In b es -> tag_of a = tag_of b -> a = b.
Proof.
  induction es as [|e es IH]; intros ND Ha Hb EQ; [destruct Ha|]. cbn in ND. inversion ND as [|? ? N1 ND']; subst.
  destruct Ha as [<-|Ha], Hb as [<-|Hb]; auto.
  - exfalso. apply N1. rewrite EQ. now apply in_map.
  - exfalso. apply N1. rewrite <- EQ. now apply in_map.
Qed.
Lemma rank_tag a b : in_object a -> in_object b -> rank a = rank b -> tag_of a = tag_of b.
Proof. unfold in_object. destruct a; try discriminate; destruct b; try discriminate; cbn; intros; try reflexivity; lia. Qed.
Lemma zone_find (es : list fact) z : (exists e, In e es /\ zone_of e = Some z) \/ (forall e, In e es -> zone_of e <> Some z).
Proof.
  induction es as [|e es IH]; [right; intros ? []|]. destruct IH as [(e' & H1 & H2)|IH]; [left; exists e'; split; [now right|exact H2]|].
  destruct (zone_of e) as [z'|] eqn:Z; [destruct (zone_dec z' z) as [->|N]|].
  - left. exists e. split; [now left|exact Z].
  - right. intros e' [<-|Hi]; [congruence|now apply IH].
  - right. intros e' [<-|Hi]; [congruence|now apply IH].
Qed.

Lemma elements E fuel w es : sized w -> Forall (fun x => fact_ok (fst x) /\ ends (snd x)) es -> consistent (map fst es) ->
  exists f w' x, hand_over (whole E fuel) es (setup w) = Ret w' /\ shows_facts (map fst es) f /\ line w' = card f ++ [10; 0; x] /\
    aside_kept (map fst es) (text w) (text w') /\ t2k w' = None /\ hd 0 (line2 w') = 0 /\ List.length (line2 w') = 83%nat /\ vel w' = vel w /\
    ignore_artsat w' = ignore_artsat w /\ center w' = 399.
Proof.
  intros SZ OK CO. destruct (setup_line w SZ) as (x & L1 & L2 & L3).
  destruct (hand_all E fuel [10; 0; x] es white (setup w) None OK CO wide_white L1) as (f & w' & cur & P & P1 & P2 & P3 & P4 & P5 & P6 & P7 & P8 & Q1 & Q2 & Q3 & Q4 & Q5).
  { reflexivity. } { split; reflexivity. } { intros ? ? [=]. } { intros ? [=]. }
  exists f, w', x. split; [exact P|].
  assert (OKI : forall e, In e (map fst es) -> fact_ok e).
  { intros e Hi. apply in_map_iff in Hi as ((e' & a) & <- & Hi). rewrite Forall_forall in OK. now apply (OK _ Hi). }
  assert (OB : (forall e, In e (map fst es) -> zone_of e <> Some Object) -> f Object = blanks 12).
  { intros NE. destruct cur as [c|]; [|apply P5]. destruct (P6 c eq_refl) as (C1 & [C2|C2] & _); [discriminate C2|]. exfalso. now apply (NE c C2). }
  split; [|split; [exact P2|]; split; [exact P8|]; split; [exact Q2|]; rewrite Q1; split; [exact L2|]; split; [exact L3|]; split; [exact Q4|]; split; [exact Q5|exact Q3]].
  split; [|split].
  - intros z. split; [apply P1|]. destruct (zone_dec z Object) as [->|NO].
    + destruct cur as [c|]; [apply P5|]. destruct P5 as (-> & _). apply no_nul_blanks.
    + destruct (zone_find (map fst es) z) as [(e & Hi & Hz)|NE].
      * apply (no_nul_shown e); [now apply OKI|now apply P3|rewrite Hz; congruence].
      * rewrite P4 by assumption. apply no_nul_blanks.
  - intros e z Hi Hz Hr. destruct (zone_dec z Object) as [->|NO]; [|now apply P3].
    destruct cur as [c|]; [|exfalso; destruct (P7 eq_refl) as (_ & N); now apply (N e Hi)].
    destruct (P6 c eq_refl) as (C1 & [C2|C2] & _ & C4); [discriminate C2|].
    assert (c = e); [|subst c; apply P5]. apply (nodup_map (map fst es)); auto; [apply CO|]. apply rank_tag; auto. specialize (C4 e Hi Hz). specialize (Hr c C2 C1). lia.
  - intros z NE. destruct (zone_dec z Object) as [->|NO]; [now apply OB|]. now rewrite P4.
Qed.

(** What is put aside fits. *)
Lemma aside_ok e p t : fact_ok e -> put_aside e = Some (p, t) -> Z.of_nat (List.length t) < size_of p /\ no_nul t /\ (t = [] \/ 33 <= hd 0 t).
Proof.
  intros (NN & OK) H. destruct e; cbn [put_aside fact_ok text_of] in *; try discriminate H.
  - injection H as <- <-. cbn [size_of]. split; [lia|]. split; [exact NN|right; apply OK].
  - injection H as <- <-. cbn [size_of]. pose proof (DesigUnpack.dec_len p0 2 ltac:(lia) ltac:(cbn; lia)). split; [lia|]. split; [exact NN|].
    destruct (DesigBase.dec_ok p0 ltac:(lia)) as (D1 & _ & _). destruct (dec p0) as [|c r]; [now left|right]. cbn. pose proof (D1 c ltac:(now left)) as K. unfold isdigit in K. apply andb_prop in K as (K & _). apply Z.leb_le in K. lia.
  - injection H as <- <-. cbn [size_of]. split; [lia|]. split; [exact NN|right; apply OK].
  - injection H as <- <-. cbn [size_of]. split; [lia|]. split; [exact NN|right; apply OK].
  - destruct OK as ((q & Hq & Hs) & Hh). rewrite Hq in H. injection H as <- <-. split; [lia|]. split; [exact NN|right; exact Hh].
Qed.
Lemma aside_find (es : list fact) p : (exists e t, In e es /\ put_aside e = Some (p, t)) \/ (forall e t, In e es -> put_aside e <> Some (p, t)).
Proof.
  induction es as [|e es IH]; [right; intros ? ? []|]. destruct IH as [(e' & t & H1 & H2)|IH]; [left; exists e', t; split; [now right|exact H2]|].
  destruct (put_aside e) as [(q & t)|] eqn:Z; [destruct (part_eq_dec q p) as [->|N]|].
  - left. exists e, t. split; [now left|exact Z].
  - right. intros e' t' [<-|Hi]; [congruence|now apply IH].
  - right. intros e' t' [<-|Hi]; [congruence|now apply IH].
Qed.
Lemma aside_texts es old new : (forall e, In e es -> fact_ok e) -> aside_kept es old new -> texts_ok old -> texts_ok new.
Proof.
  intros OK (A1 & A2) T p. destruct (aside_find es p) as [(e & t & Hi & Hp)|N]; [|rewrite A2 by assumption; apply T].
  rewrite (A1 e p t Hi Hp). destruct (aside_ok e p t (OK e Hi) Hp) as (K1 & K2 & K3). auto.
Qed.

Lemma aside_is e p t : put_aside e = Some (p, t) -> (p = RmsMag \/ p = RmsTime) -> exists tag, e = Aside tag t /\ (tag = "rmsMag" \/ tag = "rmsTime").
Proof.
  intros H D. destruct e; cbn in H; try discriminate H; try (injection H as <- <-; destruct D; discriminate).
  destruct (aside_part tag) as [q|] eqn:A; [|discriminate H]. injection H as -> <-. exists tag. split; [reflexivity|].
  destruct (aside_tags tag p A) as [(-> & ->)|[(-> & ->)|[(-> & ->)|[(-> & ->)|[(-> & ->)|[(-> & ->)|(-> & ->)]]]]]]; destruct D; try discriminate; auto.
Qed.
Lemma all_lines E fuel w es : sized w -> settled w -> Forall (fun x => fact_ok (fst x) /\ ends (snd x)) es -> consistent (map fst es) -> with_position (map fst es) ->
  exists f w' x, hand_over (whole E fuel) es (setup w) = Ret w' /\ shows_facts (map fst es) f /\ line w' = card f ++ [10; 0; x] /\
    aside_kept (map fst es) (text w) (text w') /\
    forall c, MpcfModel.atof (text w' Corr) = Ret c ->
    exists w'', puts_out (whole E fuel) w' (comments c (text w') ++ [card f ++ [10]]) w'' /\ settled w'' /\ sized w'' /\
      text w'' RmsDec = text w' RmsDec /\ text w'' Corr = text w' Corr.
Proof.
  intros SZ (ST1 & ST2 & ST3 & ST4) OK CO LO. destruct (elements E fuel w es SZ OK CO) as (f & w' & x & P & P1 & P2 & P3 & P4 & P5 & P6 & P7 & P8 & P9).
  exists f, w', x. split; [exact P|]. split; [exact P1|]. split; [exact P2|]. split; [exact P3|]. intros c Hc.
  assert (OKI : forall e, In e (map fst es) -> fact_ok e).
  { intros e Hi. apply in_map_iff in Hi as ((e' & a) & <- & Hi). rewrite Forall_forall in OK. now apply (OK _ Hi). }
  assert (T : texts_ok (text w')) by (now apply (aside_texts (map fst es) (text w))).
  assert (WD : wide f) by (intros z; apply P1).
  assert (NN : no_nul (card f)).
  { intros y Hy. unfold card in Hy. apply in_concat in Hy as (l & Hl & Hy). apply in_map_iff in Hl as (z & <- & _). destruct (proj1 P1 z) as (_ & K). now apply K. }
  assert (NF : forall p, p = FullRA \/ p = FullDec \/ p = FullMag -> text w' p = []).
  { intros p Hp. destruct P3 as (_ & A2). rewrite A2; [apply ST1; destruct Hp as [->|[->| ->]]; discriminate|]. intros e t Hi HP.
    destruct e; cbn in HP; try discriminate HP; try (injection HP as <- <-; destruct Hp as [?|[?|?]]; discriminate).
    destruct (aside_part tag) as [q|] eqn:A; [|discriminate HP]. injection HP as -> <-.
    destruct (aside_tags tag p A) as [(-> & ->)|[(-> & ->)|[(-> & ->)|[(-> & ->)|[(-> & ->)|[(-> & ->)|(-> & ->)]]]]]]; destruct Hp as [?|[?|?]]; discriminate. }
  destruct (lines_all E fuel (card f) x (line2 w') c 399 _ (lines_last E fuel (card f) x (line2 w') c 399 NN (card_length f WD) P5) w') as (w'' & Q & (G1 & G2 & G3 & G4 & G5 & G6 & G7)).
  { unfold still. split; [exact P4|]. split; [rewrite P7; exact ST4|]. split; [exact P2|]. split; [reflexivity|].
    split; [apply NF; auto|]. split; [apply NF; auto|]. split; [apply NF; auto|]. split; [exact T|]. split; [exact Hc|exact P9]. }
  { intros R0. assert (NOR : forall t, ~ In (Aside "rmsRA" t) (map fst es)).
    { intros t Hi. destruct P3 as (A1 & _). pose proof (A1 _ RmsRA t Hi eq_refl) as K. rewrite R0 in K. subst t. destruct (OKI _ Hi) as (_ & (p & Hp & Hs) & _). cbn in Hs. lia. }
    assert (Z : forall p, p = RmsMag \/ p = RmsTime -> text w' p = []).
    { intros p Hp. destruct P3 as (_ & A2). rewrite A2; [apply ST1; destruct Hp as [->| ->]; discriminate|]. intros e t Hi HP. destruct (aside_is e p t HP Hp) as (tag & -> & Ht).
      destruct (LO t) as (t' & Ht'); [destruct Ht as [->| ->]; auto|]. now apply (NOR t'). }
    split; apply Z; auto. }
  exists w''. split; [exact Q|]. split; [exact G1|]. split; [split; [exact G6|now rewrite G7]|]. split; assumption.
Qed.

(** ---- tables ---- *)
Lemma trim_end_blanks g : exists k, g = trim_end g ++ blanks k.
Proof.
  induction g as [|x g (k & IH)]; [now exists 0%nat|]. cbn [trim_end]. destruct (trim_end g) as [|a t] eqn:T.
  - cbn [List.app] in IH. destruct (Z.eqb_spec x 32) as [->|]; [exists (S k); cbn; unfold blanks in IH; now rewrite <- IH|exists k; cbn; now rewrite <- IH].
  - exists k. cbn [List.app]. f_equal. exact IH.
Qed.
Lemma tag_plain e : fact_ok e -> tag_of e <> "mpcCode" /\ tag_of e <> "name" /\ tag_of e <> "line" /\ tag_of e <> "institution".
Proof.
  intros (_ & OK). destruct e; try (cbn; repeat split; discriminate). destruct OK as ((p & Hp & _) & _). cbn [tag_of].
  destruct (aside_tags tag p Hp) as [(-> & _)|[(-> & _)|[(-> & _)|[(-> & _)|[(-> & _)|[(-> & _)|(-> & _)]]]]]]; repeat split; discriminate.
Qed.
Lemma text_some e : fact_ok e -> (match text_of e with [] => False | _ => True end) \/ exists t, e = Deprecated t.
Proof.
  intros (_ & OK). destruct e; cbn [text_of fact_ok] in *; try (right; eexists; reflexivity); left.
  - destruct code; [discriminate OK|exact I].
  - exact I.
  - destruct j; [lia|exact I].
  - destruct sign as [[|]|]; try exact I. destruct j; [lia|exact I].
  - destruct t; [cbn in OK; lia|exact I].
  - destruct t; [cbn in OK; lia|exact I].
  - destruct t; [|exact I]. destruct OK as (_ & name & Hin & Hs). cbn in Hin. repeat (destruct Hin as [Hin|Hin]; [injection Hin as <- <-; vm_compute in Hs; discriminate Hs|]). destruct Hin.
  - exact I.
  - cbn in OK. repeat (destruct OK as [<-|OK]; [exact I|]). destruct OK.
  - destruct (DesigBase.dec_ok p ltac:(lia)) as (_ & _ & D3). destruct (dec p); [congruence|exact I].
  - destruct t; [cbn in OK; lia|exact I].
  - destruct r; exact I.
  - destruct (DesigBase.dec_ok n ltac:(lia)) as (_ & _ & D3). destruct (dec n); [congruence|exact I].
  - destruct OK as (_ & _ & c & Hc & _). destruct name; [destruct Hc|exact I].
  - destruct t; [cbn in OK; lia|exact I].
  - destruct OK as ((p & _ & Hs) & _). destruct t; [cbn in Hs; lia|exact I].
Qed.
Lemma feed_row E fuel ns fs es : row ns fs es -> Forall fact_ok es -> (forall t, In (Deprecated t) es -> t <> []) ->
  exists l, map fst l = es /\ Forall (fun x => fact_ok (fst x) /\ ends (snd x)) l /\
    forall w w', hand_over (whole E fuel) l w = Ret w' -> feed_fields (whole E fuel) ns fs w = Ret w'.
Proof.
  induction 1 as [|n f ns fs es Ht _ IH|e f ns fs es Ht _ IH]; intros OK DP.
  - exists []. cbn. split; [reflexivity|]. split; [constructor|]. auto.
  - destruct (IH OK DP) as (l & L1 & L2 & L3). exists l. split; [exact L1|]. split; [exact L2|]. intros w w' Hw. cbn [feed_fields]. rewrite Ht. cbn [obind]. now apply L3.
  - inversion OK as [|? ? O1 O2]; subst. destruct (IH O2) as (l & L1 & L2 & L3). { intros t Hi. apply DP. now right. }
    destruct (trim_end_blanks (skip_blanks f)) as (k & Hk). fold (trim f) in Hk. rewrite Ht in Hk.
    set (af := blanks k ++ match fs with [] => [] | _ => 124 :: join fs end).
    assert (EN : ends af) by (subst af; destruct k; cbn; [destruct fs; cbn; auto|lia]).
    exists ((e, af) :: l). split; [cbn; now rewrite L1|]. split; [constructor; [now split|exact L2]|].
    intros w w' Hw. cbn [hand_over] in Hw. cbn [feed_fields]. rewrite Ht.
    assert (NE : text_of e <> []).
    { destruct (text_some e O1) as [K|(t & ->)]; [intros K'; now rewrite K' in K|]. cbn. apply (DP t). now left. }
    destruct (text_of e) as [|a t] eqn:TE; [congruence|]. rewrite <- TE in *.
    assert (V : value (whole E fuel) [tag_of e] w (skip_blanks f ++ match fs with [] => [] | _ => 124 :: join fs end) (List.length (text_of e)) =
      do '(r, o, w) <- h_tag (whole E fuel) w (num (tag_of e)) (text_of e ++ af) (List.length (text_of e)); Ret (if r : bool then 1 else 0, o, w)).
    { destruct (tag_plain e O1) as (T1 & T2 & T3 & T4). cbn [value]. destruct (String.eqb_spec (tag_of e) "mpcCode"); [contradiction|]. destruct (String.eqb_spec (tag_of e) "name"); [contradiction|].
      destruct (String.eqb_spec (tag_of e) "line"); [contradiction|]. destruct (String.eqb_spec (tag_of e) "institution"); [contradiction|]. cbn [orb].
      subst af. rewrite Hk, <- app_assoc. reflexivity. }
    rewrite V. destruct (h_tag _ _ _ _ _) as [[[r o] w1]| | |]; cbn [obind] in Hw |- *; try discriminate Hw.
    destruct r; [discriminate Hw|]. destruct o; [|discriminate Hw]. now apply L3.
Qed.

(** ---- reading the columns ---- *)
Lemma shown es f e z : shows_facts es f -> In e es -> zone_of e = Some z -> z <> Object -> shown_as e (f z).
Proof.
  intros (_ & S & _) Hi Hz NO. apply (S e z Hi Hz). intros e' _ Hz'.
  assert (K : forall a, zone_of a = Some z -> rank a = 0) by (intros a Ha; destruct a; cbn in *; try reflexivity; exfalso; congruence).
  rewrite (K e Hz), (K e' Hz'). lia.
Qed.
Lemma one {A} (l : list A) : List.length l = 1%nat -> exists a, l = [a].
Proof. destruct l as [|a [|b r]]; cbn; intros; try lia. now exists a. Qed.
Lemma card_is f : card f = f Object ++ f Star ++ f Note1 ++ f Note2 ++ f Date ++ f Ra ++ f Dec ++ f Unused ++ f Mag ++ f Filter ++ f Net ++ f Ref ++ f Site.
Proof. unfold card, zones. cbn [map concat]. now rewrite app_nil_r. Qed.
Lemma length_time c yy m day hh mm ss n d : (n <= 3)%nat -> List.length (packed_time c yy m day hh mm ss n d) = 17%nat.
Proof. intros H. unfold packed_time, blanks. cbn [List.length]. repeat (rewrite app_length; cbn [List.length]). rewrite !CtimeBuf.ndig_length, repeat_length. lia. Qed.
Lemma star_ok es f : shows_facts es f -> exists c, f Star = [c] /\ In c (zs " *-").
Proof.
  intros SF. destruct (one (f Star) (proj1 (proj1 SF Star))) as (c & Hc). exists c. split; [exact Hc|].
  destruct (zone_find es Star) as [(e & Hi & Hz)|N].
  - pose proof (shown es f e Star SF Hi Hz ltac:(discriminate)) as K. destruct e; cbn in Hz; try discriminate Hz. cbn in K. rewrite Hc in K. injection K as ->. right. now left.
  - destruct SF as (_ & _ & B). rewrite (B Star N) in Hc. injection Hc as <-. now left.
Qed.
Lemma note_ok es f : shows_facts es f -> exists c, f Note2 = [c] /\ ~ radar_note c.
Proof.
  intros SF. destruct (one (f Note2) (proj1 (proj1 SF Note2))) as (c & Hc). exists c. split; [exact Hc|].
  destruct (zone_find es Note2) as [(e & Hi & Hz)|N].
  - pose proof (shown es f e Note2 SF Hi Hz ltac:(discriminate)) as K. rewrite Hc in K. destruct e; cbn in Hz; try discriminate Hz; cbn in K.
    + destruct K as (c' & Hm & [= <-]). unfold mode_letters in Hm. repeat (destruct Hm as [Hm|Hm]; [injection Hm as <- <-; unfold radar_note; lia|]). destruct Hm.
    + change (zs "X") with [88] in K. injection K as ->. intros [X|X]; discriminate X.
  - destruct SF as (_ & _ & B). rewrite (B Note2 N) in Hc. injection Hc as <-. unfold radar_note. lia.
Qed.
Lemma read_date L es f y m day hh mm ss n d jd code : shows_facts es f -> Forall fact_ok es ->
  In (When y m day hh mm ss n d) es -> In (Station code) es -> (forall c, In c code -> 33 <= c <= 122) -> DateVocab.long_ok L -> day_number L day m y jd ->
  date_reads L (card f ++ [10]) (inject_Z jd - (1 # 2) + (inject_Z (hh * 3600 + mm * 60 + ss) + MpcdSpec.part n d) / 86400) (20 + Z.of_nat n).
Proof.
  intros SF OK HW HS HC HL HD. rewrite Forall_forall in OK. destruct (OK _ HW) as (_ & Hy & Hm & Hd & H1 & H2 & H3 & H4 & H5). destruct (OK _ HS) as (_ & HS3). cbn in HS3.
  pose proof (shown es f _ Date SF HW eq_refl ltac:(discriminate)) as KD. cbn in KD. pose proof (shown es f _ Site SF HS eq_refl ltac:(discriminate)) as KS. cbn in KS.
  destruct (star_ok es f SF) as (s & Hs & Hs'). destruct (note_ok es f SF) as (nt & Hn & Hn').
  pose proof (fun z => proj1 (proj1 SF z)) as WD.
  apply (MpcdThms.C49_clock_proof L nt (55 + y / 100) (y mod 100) y m day hh mm ss n d jd); auto.
  { unfold century. pose proof (Z.div_mod y 100 ltac:(lia)). pose proof (Z.mod_pos_bound y 100 ltac:(lia)). assert (17 <= y / 100 <= 20) by (split; [apply Z.div_le_lower_bound; lia|apply Z.lt_succ_r, Z.div_lt_upper_bound; lia]). lia. }
  assert (DD : forall i, (45 <= i < 48)%nat -> 33 <= nth i (f Ra ++ f Dec ++ f Unused ++ f Mag ++ f Filter ++ f Net ++ f Ref ++ f Site ++ [10]) 0 <= 122).
  { intros i Hi. rewrite !app_assoc. rewrite <- (app_assoc _ (f Site)). rewrite app_nth2 by (rewrite !app_length, !WD; cbn [width]; lia).
    rewrite !app_length, !WD. cbn [width]. rewrite KS. rewrite app_nth1 by lia. apply HC. apply nth_In. lia. }
  exists (f Object ++ f Star ++ f Note1), (f Ra ++ f Dec ++ f Unused ++ f Mag ++ f Filter ++ f Net ++ f Ref ++ f Site ++ [10]).
  split. { rewrite card_is, Hn, KD. rewrite <- !app_assoc. reflexivity. }
  split. { rewrite !app_length, !WD. reflexivity. }
  split. { rewrite app_nth2 by (rewrite WD; cbn [width]; lia). rewrite WD, Hs. exact Hs'. }
  split. { now apply length_time. }
  split; [rewrite !app_length, !WD; cbn; lia|exact DD].
Qed.
Lemma length_angle l n k : (l = Decimal \/ l = Decimal3) -> (1 <= n)%nat ->
  List.length (angle_text l n k) = ((match l with Decimal => 3 | _ => 4 end) + n)%nat.
Proof.
  intros H Hn. destruct H as [-> | ->]; cbn [angle_text]; rewrite app_length, CtimeBuf.ndig_length; unfold decimals; destruct n; cbn [List.length]; rewrite ?CtimeBuf.ndig_length; lia.
Qed.
Lemma read_place es f j n k sign j' n' k' : shows_facts es f -> Forall fact_ok es ->
  In (RightAscension j n k) es -> In (Declination sign j' n' k') es -> (1 <= n)%nat -> (1 <= n')%nat ->
  exists ra dec p p', MpcfModel.get_ra_dec_from_mpc_report (card f ++ [10]) = Ret (0, (200 + Z.of_nat n, ra, p), (100 + Z.of_nat n', dec, p')) /\
    (ra == inject_Z k / inject_Z (15 * 10 ^ Z.of_nat n))%Q /\
    (dec == (match sign with Some true => -1 | _ => 1 end) * inject_Z k' / inject_Z (10 ^ Z.of_nat n'))%Q.
Proof.
  intros SF OK HR HD Hn Hn'. rewrite Forall_forall in OK. destruct (OK _ HR) as (_ & R1 & R2 & R3). destruct (OK _ HD) as (_ & D1 & D2 & D3).
  pose proof (shown es f _ Ra SF HR eq_refl ltac:(discriminate)) as KR. cbn in KR. pose proof (shown es f _ Dec SF HD eq_refl ltac:(discriminate)) as KD. cbn [shown_as] in KD.
  pose proof (fun z => proj1 (proj1 SF z)) as WD.
  set (neg := match sign with Some true => true | _ => false end).
  assert (P10 : forall a b, 10 ^ Z.of_nat (a + b) = 10 ^ Z.of_nat a * 10 ^ Z.of_nat b) by (intros; rewrite Nat2Z.inj_add, Z.pow_add_r; lia).
  assert (FR : fits_layout Decimal3 n k).
  { unfold fits_layout. rewrite P10 in R3. assert (10 ^ Z.of_nat j <= 1000) by (change 1000 with (10 ^ 3); apply Z.pow_le_mono_r; lia). pose proof (Z.pow_pos_nonneg 10 (Z.of_nat n) ltac:(lia) ltac:(lia)). nia. }
  assert (FD : fits_layout Decimal n' k').
  { unfold fits_layout. rewrite P10 in D3. assert (10 ^ Z.of_nat j' <= 100) by (change 100 with (10 ^ 2); apply Z.pow_le_mono_r; lia). pose proof (Z.pow_pos_nonneg 10 (Z.of_nat n') ltac:(lia) ltac:(lia)). nia. }
  destruct (MpcfThms.C47_report_proof (f Object ++ f Star ++ f Note1 ++ f Note2 ++ f Date) Decimal3 n k Decimal n' k' neg
    (blanks 8 ++ f Mag ++ f Filter ++ f Net ++ f Ref ++ f Site ++ [10])) as (ra & dc & p & p' & E1 & E2 & _ & E4 & _); auto.
  { rewrite !app_length, !WD. reflexivity. } { unfold can_read. lia. } { unfold packed_ok. discriminate. } { unfold can_read. lia. } { unfold packed_ok. discriminate. } { discriminate. }
  exists ra, dc, p, p'. split; [|split].
  - etransitivity; [|exact E1]. f_equal. rewrite card_is, <- !app_assoc. do 5 f_equal. rewrite KR. f_equal. rewrite KD.
    assert (UN : f Unused = blanks 9).
    { destruct SF as (_ & _ & B). apply (B Unused). intros e _. destruct e; discriminate. }
    rewrite UN. unfold on_left, columns. cbn [List.length List.app]. rewrite <- !app_assoc.
    assert (LA : List.length (angle_text Decimal n' k') = (3 + n')%nat) by (apply length_angle; auto). rewrite LA.
    replace (match sign with Some true => 45 | _ => 43 end) with (if neg then 45 else 43) by (unfold neg; destruct sign as [[|]|]; reflexivity).
    f_equal. f_equal. unfold blanks. rewrite (app_assoc (repeat 32 (12 - S (3 + n')))), (app_assoc (repeat 32 (12 - (3 + n')))). f_equal. rewrite <- !repeat_app. f_equal. lia.
  - rewrite E2. unfold angle_of, per. reflexivity.
  - rewrite E4. unfold angle_of, per, neg. change (1 * 10 ^ Z.of_nat n') with (1 * 10 ^ Z.of_nat n'). rewrite !Z.mul_1_l. destruct sign as [[|]|]; unfold Qdiv; ring.
Qed.

(** ---- a line of a table ---- *)
Lemma row_lengths ns fs es : row ns fs es -> List.length fs = List.length ns.
Proof. induction 1; cbn; congruence. Qed.
Lemma psv_line E fuel fuel' temp c fs ns es : in_psv c ns -> ns <> [] -> row ns fs es -> Forall field_ok fs -> ~ psv_header (join fs) ->
  Forall fact_ok es -> consistent es -> with_position es -> settled (rest c) -> sized (rest c) ->
  exists f t, shows_facts es f /\ aside_kept es (text (rest c)) t /\
  forall corr, MpcfModel.atof (t Corr) = Ret corr ->
  exists l ls c' w', xlate_ades2mpc (whole E fuel) fuel' true temp c (join fs) (join fs) = Ret (1, l, c') /\ getting_lines c' = true /\
    puts_out (whole E fuel) (rest c') ls w' /\ l :: ls = comments corr t ++ [card f ++ [10]] /\ settled w' /\ sized w' /\
    text w' RmsDec = t RmsDec /\ text w' Corr = t Corr.
Proof.
  intros IP NE RW FO NH OK CO WP ST SZ.
  destruct (feed_row E fuel ns fs es RW OK) as (l & L1 & L2 & L3).
  { intros t Hi. rewrite Forall_forall in OK. apply (OK _ Hi). }
  subst es. destruct (all_lines E fuel (rest c) l SZ ST L2 CO WP) as (f & w' & x & P & P1 & P2 & P3 & P4).
  exists f, (text w'). split; [exact P1|]. split; [exact P3|]. intros corr Hc. destruct (P4 corr Hc) as (w'' & Q1 & Q2 & Q3 & Q4 & Q5).
  assert (LS : exists a b, comments corr (text w') ++ [card f ++ [10]] = a :: b) by (destruct (comments corr (text w')); eexists; eexists; reflexivity).
  destruct LS as (a & b & LS). rewrite LS in Q1 |- *. inversion Q1 as [|? ? w1 ? ? HL PO]; subst.
  exists a, b, (set_getting (set_rest c w1) true), w''.
  split; [|auto 8]. rewrite (AdesPsv.psv_data_line (whole E fuel) fuel' temp c fs ns IP NE (row_lengths _ _ _ RW) FO NH).
  change (h_setup (whole E fuel) (rest c)) with (setup (rest c)). rewrite (L3 _ _ P). cbn [obind]. rewrite HL. reflexivity.
Qed.
