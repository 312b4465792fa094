(** Lemmas on the columns of an observation. *)
From Coq Require Import QArith String Lia.
From Verif Require Import CBase CStr CtimeSpec DesigModel DesigSpec MpcfSpec MpcdSpec TstrModel CtimeModel AdesModel AdesSpec ObsModel ObsSpec.
From Verif Require MpcfModel SofModel MiscModel MiscSpec MiscThms DesigThms.
From Verif Require Import CLemmas CtimeBuf TstrNum DesigBase DesigUnpack MpcdProofs CtimeJd MpcfWrite.
Import ListNotations.
Local Open Scope string_scope.
Local Open Scope list_scope.
Local Open Scope Z_scope.

Definition zone_dec (a b : zone) : {a = b} + {a <> b}.
Proof. decide equality. Defined.
Definition upd (f : zone -> list Z) (z : zone) (t : list Z) : zone -> list Z := fun z' => if zone_dec z z' then t else f z'.
Definition wide (f : zone -> list Z) : Prop := forall z, List.length (f z) = width z.
Lemma upd_same f z t : upd f z t z = t.
Proof. unfold upd. now destruct (zone_dec z z). Qed.
Lemma upd_other f z t z' : z <> z' -> upd f z t z' = f z'.
Proof. unfold upd. now destruct (zone_dec z z'). Qed.
Lemma wide_upd f z t : wide f -> List.length t = width z -> wide (upd f z t).
Proof. intros W H z'. unfold upd. destruct (zone_dec z z') as [<-|]; auto. Qed.

Lemma put_at_app a b c o t : (o + List.length t <= List.length b)%nat ->
  put_at (a ++ b ++ c) (Z.of_nat (List.length a) + Z.of_nat o) t = Ret (a ++ (firstn o b ++ t ++ skipn (o + List.length t) b) ++ c).
Proof.
  intros H. unfold put_at. rewrite !app_length.
  replace (_ && _) with true by (symmetry; apply andb_true_iff; split; apply Z.leb_le; lia). f_equal.
  replace (Z.to_nat (Z.of_nat (List.length a) + Z.of_nat o)) with (List.length a + o)%nat by lia.
  rewrite firstn_app, firstn_all2 by lia. replace (List.length a + o - List.length a)%nat with o by lia. rewrite firstn_app. replace (o - List.length b)%nat with 0%nat by lia.
  rewrite firstn_O, app_nil_r. rewrite skipn_app, skipn_all2 by lia. replace (List.length a + o + List.length t - List.length a)%nat with (o + List.length t)%nat by lia.
  rewrite skipn_app. replace (o + List.length t - List.length b)%nat with 0%nat by lia. cbn [skipn List.app]. now rewrite <- !app_assoc.
Qed.

Definition start (z : zone) : Z :=
  match z with
  | Object => 0 | Star => 12 | Note1 => 13 | Note2 => 14 | Date => 15 | Ra => 32 | Dec => 44 | Unused => 56 | Mag => 65 | Filter => 70
  | Net => 71 | Ref => 72 | Site => 77
  end.
Definition before (f : zone -> list Z) (z : zone) : list Z :=
  match z with
  | Object => []
  | Star => f Object
  | Note1 => f Object ++ f Star
  | Note2 => f Object ++ f Star ++ f Note1
  | Date => f Object ++ f Star ++ f Note1 ++ f Note2
  | Ra => f Object ++ f Star ++ f Note1 ++ f Note2 ++ f Date
  | Dec => f Object ++ f Star ++ f Note1 ++ f Note2 ++ f Date ++ f Ra
  | Unused => f Object ++ f Star ++ f Note1 ++ f Note2 ++ f Date ++ f Ra ++ f Dec
  | Mag => f Object ++ f Star ++ f Note1 ++ f Note2 ++ f Date ++ f Ra ++ f Dec ++ f Unused
  | Filter => f Object ++ f Star ++ f Note1 ++ f Note2 ++ f Date ++ f Ra ++ f Dec ++ f Unused ++ f Mag
  | Net => f Object ++ f Star ++ f Note1 ++ f Note2 ++ f Date ++ f Ra ++ f Dec ++ f Unused ++ f Mag ++ f Filter
  | Ref => f Object ++ f Star ++ f Note1 ++ f Note2 ++ f Date ++ f Ra ++ f Dec ++ f Unused ++ f Mag ++ f Filter ++ f Net
  | Site => f Object ++ f Star ++ f Note1 ++ f Note2 ++ f Date ++ f Ra ++ f Dec ++ f Unused ++ f Mag ++ f Filter ++ f Net ++ f Ref
  end.
Definition after_ (f : zone -> list Z) (z : zone) : list Z :=
  match z with
  | Site => []
  | Ref => f Site
  | Net => f Ref ++ f Site
  | Filter => f Net ++ f Ref ++ f Site
  | Mag => f Filter ++ f Net ++ f Ref ++ f Site
  | Unused => f Mag ++ f Filter ++ f Net ++ f Ref ++ f Site
  | Dec => f Unused ++ f Mag ++ f Filter ++ f Net ++ f Ref ++ f Site
  | Ra => f Dec ++ f Unused ++ f Mag ++ f Filter ++ f Net ++ f Ref ++ f Site
  | Date => f Ra ++ f Dec ++ f Unused ++ f Mag ++ f Filter ++ f Net ++ f Ref ++ f Site
  | Note2 => f Date ++ f Ra ++ f Dec ++ f Unused ++ f Mag ++ f Filter ++ f Net ++ f Ref ++ f Site
  | Note1 => f Note2 ++ f Date ++ f Ra ++ f Dec ++ f Unused ++ f Mag ++ f Filter ++ f Net ++ f Ref ++ f Site
  | Star => f Note1 ++ f Note2 ++ f Date ++ f Ra ++ f Dec ++ f Unused ++ f Mag ++ f Filter ++ f Net ++ f Ref ++ f Site
  | Object => f Star ++ f Note1 ++ f Note2 ++ f Date ++ f Ra ++ f Dec ++ f Unused ++ f Mag ++ f Filter ++ f Net ++ f Ref ++ f Site
  end.
Lemma card_split f z : card f = before f z ++ f z ++ after_ f z.
Proof. destruct z; cbn [card zones map concat before after_ List.app]; unfold card; cbn [zones map concat]; rewrite ?app_nil_r, <- ?app_assoc; reflexivity. Qed.
Lemma before_length f z : wide f -> Z.of_nat (List.length (before f z)) = start z.
Proof. intros W. destruct z; cbn [before start]; rewrite ?app_length, ?W; reflexivity. Qed.
Lemma before_upd f z t : before (upd f z t) z = before f z.
Proof. destruct z; reflexivity. Qed.
Lemma after_upd f z t : after_ (upd f z t) z = after_ f z.
Proof. destruct z; reflexivity. Qed.
Lemma card_length f : wide f -> List.length (card f) = 80%nat.
Proof. intros W. unfold card. cbn [zones map concat]. rewrite !app_length, !W. reflexivity. Qed.

(** Writing within a zone. *)
Lemma put_zone f z o t tail : wide f -> (o + List.length t <= width z)%nat ->
  put_at (card f ++ tail) (start z + Z.of_nat o) t =
  Ret (card (upd f z (firstn o (f z) ++ t ++ skipn (o + List.length t) (f z))) ++ tail).
Proof.
  intros W H. rewrite (card_split f z), <- !app_assoc, <- (before_length f z W), put_at_app by (now rewrite W).
  rewrite (card_split (upd f z _) z), before_upd, after_upd, upd_same. now rewrite <- !app_assoc.
Qed.
Lemma put_left f z t tail : wide f -> f z = blanks (width z) -> (List.length t <= width z)%nat ->
  put_at (card f ++ tail) (start z) t = Ret (card (upd f z (on_left (width z) t)) ++ tail).
Proof.
  intros W B H. rewrite <- (Z.add_0_r (start z)). change 0 with (Z.of_nat 0). rewrite put_zone by (auto; lia). do 3 f_equal.
  cbn [firstn List.app Nat.add]. unfold on_left. f_equal. rewrite B. unfold blanks. generalize (width z) (List.length t). clear. intros a b.
  revert b. induction a as [|a IH]; intros b; [destruct b; reflexivity|]. destruct b; cbn; [reflexivity|apply IH].
Qed.
Lemma put_full f z t tail : wide f -> List.length t = width z ->
  put_at (card f ++ tail) (start z) t = Ret (card (upd f z t) ++ tail).
Proof.
  intros W H. rewrite <- (Z.add_0_r (start z)). change 0 with (Z.of_nat 0). rewrite put_zone by (auto; lia). do 4 f_equal.
  cbn [firstn List.app Nat.add]. rewrite skipn_all2 by (rewrite W; lia). apply app_nil_r.
Qed.
Lemma on_left_length n t : (List.length t <= n)%nat -> List.length (on_left n t) = n.
Proof. intros H. unfold on_left, blanks. rewrite app_length, repeat_length. lia. Qed.
Lemma on_left_full t : on_left (List.length t) t = t.
Proof. unfold on_left. rewrite Nat.sub_diag. apply app_nil_r. Qed.
Lemma no_nul_app (a b : list Z) : no_nul a -> no_nul b -> no_nul (a ++ b).
Proof. intros A B c Hc. apply in_app_iff in Hc as [Hc|Hc]; auto. Qed.
Lemma no_nul_blanks n : no_nul (blanks n).
Proof. intros c Hc. apply repeat_spec in Hc. lia. Qed.
Lemma no_nul_left n t : no_nul t -> no_nul (on_left n t).
Proof. intros H. apply no_nul_app; [exact H|apply no_nul_blanks]. Qed.
Lemma no_nul_one c : c <> 0 -> no_nul [c].
Proof. intros H x [<-|[]]. exact H. Qed.
Lemma no_nul_cons c t : c <> 0 -> no_nul t -> no_nul (c :: t).
Proof. intros H H' x [<-|Hx]; auto. Qed.
Lemma no_nul_ndig p v : no_nul (ndig p v).
Proof. intros c Hc ->. discriminate (ndig_digit p v 0 Hc). Qed.
Lemma no_nul_decimals p v : no_nul (decimals p v).
Proof. unfold decimals. destruct p; [intros ? []|]. apply no_nul_cons; [lia|apply no_nul_ndig]. Qed.
Lemma MiscThms_name t c name : no_nul t -> In (c, name) (MiscSpec.other_spelling :: MiscSpec.catalogues) -> MiscSpec.significant t = MiscSpec.significant name ->
  MiscModel.net_name_to_byte_code t = Ret c.
Proof. exact (MiscThms.C31_name_to_code_proof t c name). Qed.
Lemma firstn_repeat_ (c : Z) a b : firstn a (repeat c b) = repeat c (Nat.min a b).
Proof. revert b. induction a as [|a IH]; intros [|b]; cbn; try reflexivity. now rewrite IH. Qed.
Lemma skipn_repeat_ (c : Z) a b : skipn a (repeat c b) = repeat c (b - a).
Proof. revert b. induction a as [|a IH]; intros [|b]; cbn; try reflexivity. apply IH. Qed.
Lemma two_letters a b :
  (if ((a =? 80) || (a =? 83)) && has_byte b (zs "grizwy") then b
   else if (a =? 65) && ((b =? 111) || (b =? 99)) then b
   else if (a =? 71) && ((b =? 98) || (b =? 114)) then b else a) =
  (if existsb (fun x => streq (zs x) [a; b]) ["Pg"; "Pr"; "Pi"; "Pz"; "Pw"; "Py"; "Sg"; "Sr"; "Si"; "Sz"; "Sw"; "Sy"; "Ao"; "Ac"; "Gb"; "Gr"]
   then b else a).
Proof.
  assert (S2 : forall p q, streq [p; q] [a; b] = (a =? p) && (b =? q)).
  { intros p q. cbn. rewrite (Z.eqb_sym p a), (Z.eqb_sym q b). now rewrite ?andb_true_r. }
  cbn [existsb]. 
  repeat match goal with |- context [streq (zs ?x) [a; b]] => let v := eval vm_compute in (zs x) in change (zs x) with v; rewrite S2 end.
  unfold has_byte. change (zs "grizwy") with [103; 114; 105; 122; 119; 121]. cbn [existsb].
  destruct (Z.eqb_spec a 80) as [->|]; [cbn [orb andb Z.eqb Pos.eqb]; rewrite ?orb_false_r; destruct (_ || _); reflexivity|].
  destruct (Z.eqb_spec a 83) as [->|]; [cbn [orb andb Z.eqb Pos.eqb]; rewrite ?orb_false_r; destruct (_ || _); reflexivity|].
  destruct (Z.eqb_spec a 65) as [->|]; [cbn [orb andb Z.eqb Pos.eqb]; rewrite ?orb_false_r; destruct (_ || _); reflexivity|].
  destruct (Z.eqb_spec a 71) as [->|]; [cbn [orb andb Z.eqb Pos.eqb]; rewrite ?orb_false_r; destruct (_ || _); reflexivity|].
  reflexivity.
Qed.

(** ---- one element ---- *)
Section Step.
Variables (E : env) (fuel : nat).

(** What an element does to the observation. *)
Definition id_tag (e : fact) : option Z :=
  match e with Number _ => Some ADES_permID | Designation _ _ => Some ADES_provID | Tracklet _ => Some ADES_trkSub | _ => None end.
Definition same_rest (w w' : obs) (e : fact) : Prop :=
  line2 w' = line2 w /\ t2k w' = t2k w /\ center w' = center w /\ vel w' = vel w /\ ignore_artsat w' = ignore_artsat w /\
  id_set w' = match id_tag e with Some i => i | None => id_set w end /\
  forall p, text w' p = match put_aside e with Some (q, t) => if part_eq_dec q p then t else text w p | None => text w p end.

Ltac dispatch n :=
  unfold process_tag;
  repeat match goal with
  | |- context [if Z.eqb n ?c then ?a else ?b] => let v := eval vm_compute in (Z.eqb n c) in change (if Z.eqb n c then a else b) with (if v then a else b); cbv iota
  | |- context [if (?c <=? n) && ?d then ?a else ?b] => let v := eval vm_compute in ((c <=? n) && d) in change (if (c <=? n) && d then a else b) with (if v then a else b); cbv iota
  end.
Lemma firstn_text (t r : list Z) : firstn (List.length t) (t ++ r) = t.
Proof. now rewrite firstn_app, Nat.sub_diag, firstn_O, app_nil_r, firstn_all. Qed.
Lemma bytes_text (t r : list Z) : bytes_at (t ++ r) (List.length t) = Ret t.
Proof. unfold bytes_at. rewrite app_length. destruct (Nat.leb_spec (List.length t) (List.length t + List.length r)); [|lia]. now rewrite firstn_text. Qed.
Lemma firstn_text_n n (t r : list Z) : List.length t = n -> firstn n (t ++ r) = t.
Proof. intros <-. apply firstn_text. Qed.

Variables (f : zone -> list Z) (tail : list Z) (w : obs).
Hypotheses (HW : wide f) (HL : line w = card f ++ tail).

Lemma col_zone z c : width z = 1%nat -> col w (start z) c = Ret (set_line w (card (upd f z [c]) ++ tail)).
Proof.
  intros H. unfold col. rewrite HL. rewrite <- (Z.add_0_r (start z)). change 0 with (Z.of_nat 0). rewrite put_zone by (auto; cbn; lia).
  cbn [obind]. do 4 f_equal. cbn [firstn List.app]. rewrite skipn_all2; [reflexivity|]. rewrite HW, H. cbn. lia.
Qed.

Definition step (e : fact) (after : list Z) : Prop :=
  forall z, fact_ok e -> ends after -> zone_of e = Some z -> f z = blanks (width z) -> (z = Object -> id_set w = 0) ->
  exists t w', process_tag E fuel w (num (tag_of e)) (text_of e ++ after) (List.length (text_of e)) = Ret (false, [], w') /\
    shown_as e t /\ List.length t = width z /\ line w' = card (upd f z t) ++ tail /\ same_rest w w' e.

Ltac rest := unfold same_rest; cbn; repeat split; auto; try (intros p; destruct (part_eq_dec _ p); reflexivity).

Lemma step_station code after : step (Station code) after.
Proof.
  intros z (_ & H) _ [= <-] B _. cbn [text_of tag_of]. change (num "stn") with 132. dispatch 132.
  assert (A : bytes_at (code ++ after) 3 = Ret code) by (rewrite <- H; apply bytes_text). rewrite A. cbn [obind]. rewrite HL. change 77 with (start Site). rewrite put_left by (auto; cbn; lia). cbn [obind].
  do 2 eexists. split; [reflexivity|]. cbn [width shown_as]. split; [reflexivity|]. split; [exact H|]. split; [|rest]. cbn [line set_line]. do 3 f_equal. change (width Site) with 3%nat. rewrite <- H. apply on_left_full.
Qed.
Lemma step_magnitude m after : step (Magnitude m) after.
Proof.
  intros z (_ & H) _ [= <-] B _. cbn [text_of tag_of]. change (num "mag") with 50. dispatch 50.
  rewrite Nat.min_l by lia. rewrite firstn_text, HL. change 65 with (start Mag). rewrite put_left by (auto; cbn; lia). cbn [obind].
  destruct (Nat.ltb_spec 5 (List.length m)); [lia|]. cbn [obind].
  do 2 eexists. split; [reflexivity|]. cbn [width shown_as]. split; [reflexivity|]. split; [apply on_left_length; lia|]. split; [reflexivity|rest].
Qed.
Lemma step_discovery after : step Discovery after.
Proof.
  intros z _ _ [= <-] B _. cbn [text_of tag_of]. change (num "disc") with 37. dispatch 37. change (nth 0 (zs "*" ++ after) 0 =? 42) with true. cbv iota.
  change 12 with (start Star). rewrite col_zone by reflexivity. cbn [obind].
  do 2 eexists. split; [reflexivity|]. split; [reflexivity|]. split; [reflexivity|]. split; [reflexivity|rest].
Qed.
Lemma step_deprecated t after : step (Deprecated t) after.
Proof.
  intros z _ _ [= <-] B _. cbn [text_of tag_of]. change (num "deprecated") with 34. dispatch 34.
  change 14 with (start Note2). rewrite col_zone by reflexivity. cbn [obind].
  do 2 eexists. split; [reflexivity|]. split; [reflexivity|]. split; [reflexivity|]. split; [reflexivity|rest].
Qed.
Lemma step_catalogue t code after : step (Catalogue t code) after.
Proof.
  intros z (NN & H & name & Hin & Hs) _ [= <-] B _. cbn [text_of tag_of]. change (num "astCat") with 17. dispatch 17.
  destruct (Nat.ltb_spec (List.length t) 40); [|lia]. cbv iota. rewrite firstn_text. cbn [obind].
  rewrite (MiscThms_name t code name NN Hin Hs). cbn [obind].
  change 71 with (start Net). rewrite col_zone by reflexivity. cbn [obind].
  replace (code =? 0) with false.
  2: { symmetry. apply Z.eqb_neq. intros ->. revert Hin. clear. intros Hin. cbn in Hin. repeat (destruct Hin as [Hin|Hin]; [discriminate Hin|]). exact Hin. }
  cbn [obind].
  do 2 eexists. split; [reflexivity|]. split; [reflexivity|]. split; [reflexivity|]. split; [reflexivity|rest].
Qed.
Lemma fact_name (t after : list Z) : (List.length t < 40)%nat -> (if (List.length t <? 40)%nat then Ret (firstn (List.length t) (t ++ after)) else UB) = Ret t.
Proof. intros H. destruct (Nat.ltb_spec (List.length t) 40); [|lia]. now rewrite firstn_text. Qed.
Lemma step_note t after : step (Note t) after.
Proof.
  intros z (_ & H & _) _ [= <-] B _. cbn [text_of tag_of]. change (num "notes") with 56. dispatch 56.
  rewrite fact_name by lia. unfold keep, size_of. destruct (Z.ltb_spec (Z.of_nat (List.length t)) 7); [|lia]. cbn [obind].
  change 13 with (start Note1). unfold col, set_text at 1; cbn [line]. pose proof (col_zone Note1 (nth 0 t 0) eq_refl) as C. unfold col in C.
  destruct (put_at (line w) (start Note1) [nth 0 t 0]) as [l| | |] eqn:P; try discriminate C. cbn [obind] in C. injection C as C.
  cbn [obind]. do 2 eexists. split; [reflexivity|]. split; [reflexivity|]. split; [destruct t; cbn in *; [lia|reflexivity]|].
  split; [|rest]. cbn. rewrite C. destruct t; [cbn in H; lia|reflexivity].
Qed.
Lemma step_programme p after : step (Programme p) after.
Proof.
  intros z (_ & H) En [= <-] B _. cbn [text_of tag_of fact_ok] in *. change (num "prog") with 94. dispatch 94.
  destruct (dec_ok p ltac:(lia)) as (D1 & D2 & D3).
  assert (A : SofModel.atoi (dec p ++ after) = Ret p).
  { unfold SofModel.atoi. rewrite (scan_d_num IMAX (dec p) p after); [reflexivity|repeat split; assumption| |unfold IMAX; lia].
    unfold ends in En. destruct after; [exact I|]. unfold isdigit. destruct (Z.leb_spec 48 z); destruct (Z.leb_spec z 57); try reflexivity. lia. }
  rewrite A. cbn [obind]. replace ((0 <=? p) && (p <=? 34)) with true by (symmetry; apply andb_true_iff; split; apply Z.leb_le; lia).
  pose proof (dec_len p 2 ltac:(lia) ltac:(cbn; lia)) as DL.
  change 13 with (start Note1). rewrite col_zone by reflexivity. cbn [obind]. unfold keep. rewrite fact_name by lia. cbn [size_of].
  destruct (Z.ltb_spec (Z.of_nat (List.length (dec p))) 3); [|lia]. cbn [obind].
  do 2 eexists. split; [reflexivity|]. split; [reflexivity|]. split; [reflexivity|]. split; [reflexivity|rest].
Qed.
Lemma step_mode m after : step (Mode m) after.
Proof.
  intros z (_ & H) En [= <-] B _. cbn [text_of tag_of] in *. change (num "mode") with 52. dispatch 52.
  assert (L3 : List.length m = 3%nat) by (cbn in H; repeat (destruct H as [<-|H]; [reflexivity|]); destruct H).
  rewrite L3. cbn [Nat.eqb]. rewrite (firstn_text_n 3) by assumption. clear L3.
  assert (G : exists c, In (m, c) mode_letters /\
    fold_left (fun r m0 => do w0 <- r; if streq (tl m0) m then col w0 14 (hd 0 m0) else Ret w0) modes (Ret w) = col w 14 c).
  { cbn in H. repeat (destruct H as [<-|H]; [eexists; split; [cbn; tauto|cbv -[col]; destruct (col w 14 _); reflexivity]|]). destruct H. }
  destruct G as (c & Hc & ->). change 14 with (start Note2). rewrite col_zone by reflexivity. cbn [obind].
  do 2 eexists. split; [reflexivity|]. split; [exists c; split; [exact Hc|reflexivity]|]. split; [reflexivity|]. split; [reflexivity|rest].
Qed.
Lemma step_band t after : step (Band t) after.
Proof.
  intros z (NN & H & _) En [= <-] B _. cbn [text_of tag_of] in *. change (num "band") with 19. dispatch 19.
  set (c := if _ : bool then _ else _).
  assert (C : c = filter_letter t).
  { subst c. destruct t as [|a t]; [cbn in H; lia|]. unfold filter_letter. destruct t as [|b t].
    - cbn [List.app nth firstn]. set (c1 := nth 0 after 0).
      assert (N : 0 <= c1 <= 32 \/ c1 = 124 \/ c1 = 60) by (subst c1; unfold ends in En; destruct after; cbn; lia). clearbody c1.
      replace (has_byte c1 (zs "grizwy")) with false by (symmetry; unfold has_byte; change (zs "grizwy") with [103; 114; 105; 122; 119; 121]; cbn [existsb]; repeat (match goal with |- context [c1 =? ?y] => destruct (Z.eqb_spec c1 y); [lia|] end); reflexivity).
      repeat (match goal with |- context [c1 =? ?y] => destruct (Z.eqb_spec c1 y); [lia|] end). rewrite !andb_false_r. cbn [orb andb].
      cbn. rewrite ?andb_false_r. reflexivity.
    - cbn [List.app nth firstn]. apply two_letters. }
  rewrite C. change 70 with (start Filter). rewrite col_zone by reflexivity. cbn [obind].
  rewrite fact_name by lia. destruct (Nat.ltb_spec 0 (List.length t)); [|lia]. destruct (Nat.ltb_spec (List.length t) 4); [|lia]. cbn [andb obind].
  do 2 eexists. split; [reflexivity|]. split; [reflexivity|]. split; [reflexivity|]. split; [reflexivity|rest].
Qed.
(** Angles *)
Lemma no_point (t : list Z) i p : (forall c, In c t -> isdigit c = true) -> last_point t i p = p.
Proof.
  revert i p. induction t as [|c t IH]; intros i p D; [reflexivity|]. cbn [last_point]. pose proof (D c ltac:(now left)) as K.
  destruct (Z.eqb_spec c 46) as [->|]; [discriminate K|]. apply IH. intros x Hx. apply D. now right.
Qed.
Lemma last_point_app (a b : list Z) i p : last_point (a ++ b) i p = last_point b (i + List.length a) (last_point a i p).
Proof.
  revert i p. induction a as [|c a IH]; intros i p; cbn [last_point List.app List.length]; [now rewrite Nat.add_0_r|]. rewrite IH. f_equal. lia.
Qed.
Lemma point_of j n a b : last_point (ndig j a ++ decimals n b) 0 (j + List.length (decimals n b)) = j.
Proof.
  rewrite last_point_app, (no_point (ndig j a)) by apply ndig_digit. rewrite ndig_length. unfold decimals. destruct n as [|n]; [cbn; lia|].
  cbn [last_point]. rewrite Z.eqb_refl. rewrite no_point by apply ndig_digit. lia.
Qed.
Lemma decimals_length n b : List.length (decimals n b) = match n with O => 0%nat | _ => S n end.
Proof. unfold decimals. destruct n; [reflexivity|]. cbn [List.length]. now rewrite ndig_length. Qed.
Lemma ndig_more j m v : 0 <= v < 10 ^ Z.of_nat j -> repeat 48 m ++ ndig j v = ndig (m + j) v.
Proof.
  intros H. induction m as [|m IH]; [reflexivity|]. cbn [repeat List.app Nat.add ndig]. f_equal; [|exact IH].
  rewrite Z.div_small, Z.mod_0_l by (pose proof (Z.pow_le_mono_r 10 (Z.of_nat j) (Z.of_nat (m + j)) ltac:(lia) ltac:(lia)); lia). reflexivity.
Qed.
Lemma place_short j n k leading after : (1 <= j <= leading)%nat -> (n <= 7)%nat -> 0 <= k < 10 ^ Z.of_nat (j + n) ->
  let t := ndig j (k / 10 ^ Z.of_nat n) ++ decimals n (k mod 10 ^ Z.of_nat n) in
  place_value (t ++ after) (List.length t) leading =
  Ret (ndig leading (k / 10 ^ Z.of_nat n) ++ decimals n (k mod 10 ^ Z.of_nat n), false).
Proof.
  intros Hj Hn Hk t. unfold place_value. rewrite firstn_text.
  assert (LT : List.length t = (j + List.length (decimals n (k mod 10 ^ Z.of_nat n)))%nat) by (subst t; now rewrite app_length, ndig_length).
  assert (PT : last_point t 0 (List.length t) = j) by (rewrite LT; apply point_of).
  rewrite PT. pose proof (decimals_length n (k mod 10 ^ Z.of_nat n)) as DL.
  destruct (Nat.leb_spec j leading); [|lia]. destruct (Nat.ltb_spec 8 (List.length t - j)); [destruct n; lia|].
  destruct (Nat.ltb_spec (List.length t) (9 + j)); [|destruct n; lia]. rewrite bytes_text. cbn [obind]. do 2 f_equal. subst t. rewrite app_assoc. f_equal.
  rewrite ndig_more; [f_equal; lia|].
  rewrite Nat2Z.inj_add, Z.pow_add_r in Hk by lia. split; [apply Z.div_pos; lia|]. apply Z.div_lt_upper_bound; lia.
Qed.
Lemma step_ra j n k after : step (RightAscension j n k) after.
Proof.
  intros z (NN & Hj & Hn & Hk) En [= <-] B _. cbn [text_of tag_of]. change (num "ra") with 96. dispatch 96.
  pose proof (place_short j n k 3 after Hj Hn Hk) as P. cbv zeta in P. set (t := ndig j _ ++ _) in *.
  assert (Z0 : nth 0 (t ++ after) 0 =? 43 = false).
  { subst t. destruct j as [|j]; [lia|]. pose proof (ndig_digit (S j) (k / 10 ^ Z.of_nat n)) as D. destruct (ndig (S j) (k / 10 ^ Z.of_nat n)) as [|c r] eqn:EN; [discriminate EN|].
    cbn [List.app nth]. destruct (Z.eqb_spec c 43) as [->|]; [|reflexivity]. discriminate (D 43 ltac:(now left)). }
  rewrite Z0. rewrite P. cbn [obind]. rewrite HL.
  pose proof (decimals_length n (k mod 10 ^ Z.of_nat n)) as DL.
  change 32 with (start Ra). rewrite put_left; [|assumption|assumption|rewrite app_length, ndig_length; cbn [width]; destruct n; lia]. cbn [obind].
  do 2 eexists. split; [reflexivity|]. split; [reflexivity|]. split; [|split; [reflexivity|rest]].
  cbn [width]. apply on_left_length. unfold angle_text. rewrite app_length, ndig_length. destruct n; lia.
Qed.
Lemma step_dec sign j n k after : step (Declination sign j n k) after.
Proof.
  intros z (NN & Hj & Hn & Hk) En [= <-] B _. cbn [text_of tag_of]. change (num "dec") with 29. dispatch 29.
  pose proof (place_short j n k 2 after Hj Hn Hk) as P. cbv zeta in P. set (t := ndig j _ ++ _) in *.
  pose proof (decimals_length n (k mod 10 ^ Z.of_nat n)) as DL.
  assert (Z0 : exists c r, t = c :: r /\ isdigit c = true).
  { subst t. destruct j as [|j]; [lia|]. pose proof (ndig_digit (S j) (k / 10 ^ Z.of_nat n)) as D. destruct (ndig (S j) (k / 10 ^ Z.of_nat n)) as [|c r] eqn:EN; [discriminate EN|].
    exists c. eexists. split; [reflexivity|]. apply D. now left. }
  set (sg := match sign with Some true => 45 | _ => 43 end).
  assert (G : forall (x : list Z) (l : nat),
    ((if (nth 0 x 0 =? 45) || (nth 0 x 0 =? 43) then nth 0 x 0 else 43) = sg /\
     (if (nth 0 x 0 =? 45) || (nth 0 x 0 =? 43) then (tl x, Nat.pred l) else (x, l)) = (t ++ after, List.length t)) ->
    exists t0 w', 
    (do w0 <- (let signed := (nth 0 x 0 =? 45) || (nth 0 x 0 =? 43) in
     let sign := if signed then nth 0 x 0 else 43 in
     do w <- col w 44 sign;
     let '(s, len) := if signed then (tl x, Nat.pred l) else (x, l) in
     do '(t, long) <- place_value s len 2;
     do l <- put_at (line w) 45 t;
     let w := set_line w l in
     if long : bool then (if Z.of_nat len + 2 <=? 26 then Ret (set_text w FullDec (sign :: firstn len s)) else UB) else Ret w);
     Ret (false, @nil Z, w0)) = Ret (false, @nil Z, w') /\
    shown_as (Declination sign j n k) t0 /\ List.length t0 = width Dec /\ line w' = card (upd f Dec t0) ++ tail /\ same_rest w w' (Declination sign j n k)).
  { intros x l (X1 & X2). cbv zeta. rewrite X1, X2, P. unfold col. rewrite HL.
    change 44 with (start Dec). rewrite put_left; [|assumption|assumption|cbn; lia]. cbn [obind line set_line].
    replace 45 with (start Dec + Z.of_nat 1) by reflexivity. rewrite put_zone; [|apply wide_upd; [assumption|reflexivity]|rewrite app_length, ndig_length; cbn [width]; destruct n; lia].
    cbn [obind]. rewrite upd_same. do 2 eexists. split; [reflexivity|].
    set (u := ndig 2 _ ++ _). assert (LU : (List.length u <= 10)%nat) by (subst u; rewrite app_length, ndig_length; destruct n; lia).
    assert (EQ : firstn 1 (on_left (width Dec) [sg]) ++ u ++ skipn (1 + List.length u) (on_left (width Dec) [sg]) = on_left 12 (sg :: u)).
    { unfold on_left, blanks. cbn [width List.length]. change (repeat 32 (12 - 1)) with (repeat 32 11). cbn [List.app firstn Nat.add skipn]. do 2 f_equal. rewrite skipn_repeat_. f_equal. }
    rewrite EQ. split; [reflexivity|]. split; [clear -LU; apply on_left_length; change (angle_text Decimal n k) with u; cbn [List.length]; cbn [width]; lia|]. split; [|rest]. cbn [line set_line]. do 2 f_equal.
    }
  apply G. clear G. destruct Z0 as (c & r & Et & Dc).
  assert (c <> 45 /\ c <> 43) as (C1 & C2) by (split; intros ->; discriminate Dc).
  destruct sign as [[|]|]; subst sg; cbn [List.app nth].
  - cbn. split; reflexivity.
  - cbn. split; reflexivity.
  - rewrite Et. cbn [List.app nth]. destruct (Z.eqb_spec c 45); [lia|]. destruct (Z.eqb_spec c 43); [lia|]. cbn [orb]. split; reflexivity.
Qed.

(** Times *)
Lemma tst_at a c b i g : i = Z.of_nat (List.length a) -> tst (a ++ c :: b) i g = Ret (g c).
Proof.
  intros ->. unfold tst, at_. rewrite app_length. cbn [List.length]. destruct (Z.eqb_spec (Z.of_nat (List.length a)) (Z.of_nat (List.length a + S (List.length b)))); [lia|].
  unfold nth_ub. destruct (Z.ltb_spec (Z.of_nat (List.length a)) 0); [lia|]. rewrite Nat2Z.id, nth_error_app2, Nat.sub_diag by lia. reflexivity.
Qed.
Lemma span_none (g : Z -> bool) a c b : (forall x, In x a -> g x = true) -> g c = false -> span g (a ++ c :: b) = List.length a.
Proof.
  intros H1 H2. induction a as [|x a IH]; cbn [List.app span List.length]; [now rewrite H2|]. rewrite H1 by now left. f_equal. apply IH. intros y Hy. apply H1. now right.
Qed.
Lemma filter_all (g : Z -> bool) a : (forall x, In x a -> g x = true) -> filter g a = a.
Proof. induction a as [|x a IH]; intros H; [reflexivity|]. cbn. rewrite H by now left. f_equal. apply IH. intros y Hy. apply H. now right. Qed.
Lemma map_same (g : Z -> Z) a : (forall x, In x a -> g x = x) -> map g a = a.
Proof. induction a as [|x a IH]; intros H; [reflexivity|]. cbn. rewrite H by now left. f_equal. apply IH. intros y Hy. apply H. now right. Qed.
Definition moved (a : list Z) : list Z := map (fun x => if isdigit x then x else 58) (filter (fun x => isdigit x || (x =? 84)) a).
Lemma moved_app a b : moved (a ++ b) = moved a ++ moved b.
Proof. unfold moved. now rewrite filter_app, map_app. Qed.
Lemma moved_ndig p v : moved (ndig p v) = ndig p v.
Proof.
  unfold moved. rewrite filter_all by (intros x Hx; now rewrite (ndig_digit p v x Hx)). apply map_same. intros x Hx. now rewrite (ndig_digit p v x Hx).
Qed.
Lemma move_time y m day hh mm ss n d after : 1700 <= y <= 2099 ->
  move_fits_time (text_of (When y m day hh mm ss n d) ++ after) =
  Ret ((55 + y / 100) :: ndig 2 (y mod 100) ++ ndig 2 m ++ ndig 2 day ++ 58 :: ndig 2 hh ++ ndig 2 mm ++ ndig 2 ss ++ ndig n d).
Proof.
  intros Hy. cbn [text_of].
  change (zs "-") with [45]. change (zs "T") with [84]. change (zs ":") with [58]. change (zs "Z") with [90]. rewrite <- !app_assoc. cbn [List.app].
  set (r5 := ndig 2 ss ++ decimals n d ++ 90 :: after). set (r4 := ndig 2 mm ++ 58 :: r5). set (r3 := ndig 2 hh ++ 58 :: r4). set (r2 := ndig 2 day ++ 84 :: r3). set (r1 := ndig 2 m ++ 45 :: r2).
  unfold move_fits_time.
  rewrite (tst_at (ndig 4 y) 45 r1 4) by reflexivity.
  replace (ndig 4 y ++ 45 :: r1) with ((ndig 4 y ++ 45 :: ndig 2 m) ++ 45 :: r2) by (subst r1; now rewrite <- app_assoc).
  rewrite (tst_at (ndig 4 y ++ 45 :: ndig 2 m) 45 r2 7) by reflexivity.
  replace ((ndig 4 y ++ 45 :: ndig 2 m) ++ 45 :: r2) with ((ndig 4 y ++ 45 :: ndig 2 m ++ 45 :: ndig 2 day) ++ 84 :: r3) by (subst r2; rewrite <- !app_assoc; cbn [List.app]; now rewrite <- !app_assoc).
  rewrite (tst_at (ndig 4 y ++ 45 :: ndig 2 m ++ 45 :: ndig 2 day) 84 r3 10) by reflexivity.
  replace ((ndig 4 y ++ 45 :: ndig 2 m ++ 45 :: ndig 2 day) ++ 84 :: r3) with ((ndig 4 y ++ 45 :: ndig 2 m ++ 45 :: ndig 2 day ++ 84 :: ndig 2 hh) ++ 58 :: r4)
    by (subst r3; rewrite <- !app_assoc; cbn [List.app]; rewrite <- !app_assoc; cbn [List.app]; now rewrite <- !app_assoc).
  rewrite (tst_at (ndig 4 y ++ 45 :: ndig 2 m ++ 45 :: ndig 2 day ++ 84 :: ndig 2 hh) 58 r4 13) by reflexivity.
  match goal with |- (do ok <- ?c; ?k) = _ => change c with (Ret true) end. cbn [obind]. cbv iota. f_equal.
  set (body := ndig 2 y ++ 45 :: ndig 2 m ++ 45 :: ndig 2 day ++ 84 :: ndig 2 hh ++ 58 :: ndig 2 mm ++ 58 :: ndig 2 ss ++ decimals n d).
  assert (SK : skipn 2 ((ndig 4 y ++ 45 :: ndig 2 m ++ 45 :: ndig 2 day ++ 84 :: ndig 2 hh) ++ 58 :: r4) = body ++ 90 :: after).
  { subst body r4 r5. cbn [ndig skipn List.app]. rewrite <- ?app_assoc. cbn [List.app]. reflexivity. }
  rewrite SK.
  assert (NZ : forall x, In x body -> negb (x =? 90) = true).
  { intros x Hx. apply negb_true_iff, Z.eqb_neq. intros ->. subst body. 
    assert (ND : forall p v, ~ In 90 (ndig p v)) by (intros p v Hi; discriminate (ndig_digit p v 90 Hi)).
    assert (ND' : ~ In 90 (decimals n d)) by (unfold decimals; destruct n; [intros []|intros [Hi|Hi]; [discriminate Hi|exact (ND _ _ Hi)]]).
    repeat (apply in_app_iff in Hx; destruct Hx as [Hx|Hx]; [exact (ND _ _ Hx)|]; try (destruct Hx as [Hx|Hx]; [discriminate Hx|])). exact (ND' Hx). }
  rewrite (span_none _ body 90 after NZ) by reflexivity. rewrite firstn_text. fold (moved body).
  f_equal.
  - change (nth 0 _ 0) with (48 + y / 10 ^ Z.of_nat 3 mod 10). change (nth 1 _ 0) with (48 + y / 10 ^ Z.of_nat 2 mod 10).
    change (10 ^ Z.of_nat 3) with 1000. change (10 ^ Z.of_nat 2) with 100.
    replace ((48 + y / 1000 mod 10) * 10 + (48 + y / 100 mod 10) - 48 * 11) with (y / 100) by (clear -Hy; Z.to_euclidean_division_equations; lia).
    assert (K : 17 <= y / 100 <= 20) by (clear -Hy; Z.to_euclidean_division_equations; lia).
    assert (K' : y / 100 = 17 \/ y / 100 = 18 \/ y / 100 = 19 \/ y / 100 = 20) by lia. destruct K' as [->|[->|[->| ->]]]; reflexivity.
  - subst body. rewrite (ndig_mod 2 y). change (10 ^ Z.of_nat 2) with 100.
    repeat match goal with |- context [?c :: ndig 2 ?v ++ ?r] => change (c :: ndig 2 v ++ r) with ([c] ++ ndig 2 v ++ r) end.
    rewrite !moved_app, !moved_ndig. change (moved [45]) with (@nil Z). change (moved [84]) with [58]. change (moved [58]) with (@nil Z). cbn [List.app].
    do 3 f_equal. do 2 f_equal. do 2 f_equal. unfold decimals. destruct n as [|n]; [reflexivity|]. change (46 :: ndig (S n) d) with ([46] ++ ndig (S n) d). rewrite moved_app, moved_ndig. reflexivity.
Qed.

Lemma step_when y m day hh mm ss n d after : step (When y m day hh mm ss n d) after.
Proof.
  intros z (NN & H) En [= <-] B _. cbn [fact_ok] in H. destruct H as (Hy & Hm & Hd & Hh & Hmm & Hs & Hn & Hd').
  cbn [tag_of]. change (num "obsTime") with 65. dispatch 65.
  assert (A : SofModel.atoi (text_of (When y m day hh mm ss n d) ++ after) = Ret y).
  { unfold SofModel.atoi. cbn [text_of]. rewrite <- app_assoc. rewrite (scan_d_num IMAX (ndig 4 y) y); [reflexivity| |reflexivity|unfold IMAX; lia].
    apply (ndig_is_digits 3). change (10 ^ Z.of_nat 4) with 10000. lia. }
  rewrite A. cbn [obind]. cbv zeta. destruct (Z.ltb_spec 2099 y); [lia|]. rewrite move_time by assumption. cbn [obind].
  set (t := (55 + y / 100) :: _).
  assert (LT : List.length t = (14 + n)%nat) by (subst t; cbn [List.length]; rewrite !app_length; cbn [List.length]; rewrite !app_length, !ndig_length; lia).
  rewrite HL. change 15 with (start Date). rewrite put_left; [|assumption|assumption|cbn [width]; lia]. cbn [obind].
  destruct (Nat.ltb_spec 17 (List.length t)); [lia|]. cbn [orb obind].
  do 2 eexists. split; [reflexivity|]. cbn [shown_as]. split; [reflexivity|].
  assert (EQ : on_left (width Date) t = packed_time (55 + y / 100) (y mod 100) m day hh mm ss n d).
  { unfold on_left. rewrite LT. cbn [width]. subst t. unfold packed_time. cbn [List.app]. rewrite <- !app_assoc. cbn [List.app]. rewrite <- !app_assoc.
    replace (17 - (14 + n))%nat with (3 - n)%nat by lia. reflexivity. }
  rewrite <- EQ. split; [apply on_left_length; cbn [width]; lia|]. split; [reflexivity|rest].
Qed.
(** Designations *)
Lemma five_some (l : list Z) : five (map Some l) = Ret l.
Proof. induction l as [|c l IH]; [reflexivity|]. cbn in *. unfold five in IH. rewrite IH. reflexivity. Qed.
Lemma packed_fits name kind : round_trip name kind -> exists b packed,
  create_mpc_packed_desig (repeat None 20) name = Ret (0, b) /\ five (firstn 12 b) = Ret packed /\ List.length packed = 12%nat /\ no_nul packed /\
  forall o : buf, (24 <= List.length o)%nat -> exists o', unpack_mpc_desig (Some o) packed = Ret (kind, Some o') /\ holds o' 0 name.
Proof.
  intros R. destruct (R (repeat None 20) (repeat None 24) ltac:(cbn; lia) ltac:(cbn; lia)) as (packed & b & _ & E1 & E2 & E3 & E4 & _).
  assert (F : firstn 12 b = map Some packed).
  { unfold holds in E2. rewrite E3 in E2. apply (f_equal (firstn 12)) in E2. cbn [skipn] in E2. rewrite firstn_firstn in E2. cbn [Nat.min Nat.add] in E2. rewrite E2.
    rewrite firstn_app, firstn_all2 by (rewrite map_length; lia). rewrite map_length, E3. cbn [Nat.sub firstn]. apply app_nil_r. }
  exists b, packed. split; [exact E1|]. split; [rewrite F; apply five_some|].
  split; [exact E3|]. split; [exact E4|]. intros o Ho. destruct (R (repeat None 20) o ltac:(cbn; lia) Ho) as (packed' & b' & o' & E1' & E2' & E3' & _ & U & H').
  rewrite E1 in E1'. injection E1' as <-. replace packed with packed'; [now exists o'|].
  unfold holds in E2'. rewrite E3' in E2'. apply (f_equal (firstn 12)) in E2'. cbn [skipn] in E2'. rewrite firstn_firstn in E2'. cbn [Nat.min Nat.add] in E2'. rewrite F in E2'.
  rewrite firstn_app, firstn_all2 in E2' by (rewrite map_length; lia). rewrite map_length, E3' in E2'. cbn [Nat.sub firstn] in E2'. rewrite app_nil_r in E2'.
  apply (f_equal five) in E2'. rewrite !five_some in E2'. now injection E2'.
Qed.
Lemma put_id name kind itag packed (b : buf) (name0 : list Z) :
  (if (span isdigit name0 =? List.length name0)%nat then (if (span isdigit name0 + 2 <? 40)%nat then Ret (40 :: name0 ++ [41]) else UB) else Ret name0) = Ret name ->
  create_mpc_packed_desig (repeat None 20) name = Ret (kind, b) -> five (firstn 12 b) = Ret packed -> List.length packed = 12%nat ->
  packed_id w itag name0 = Ret (set_id (set_line w (card (upd f Object packed) ++ tail)) itag).
Proof.
  intros E0 E1 E2 E3. unfold packed_id. rewrite E0. cbn [obind]. rewrite E1. cbn [obind]. rewrite E2. cbn [obind]. rewrite HL.
  change 0 with (start Object). rewrite put_full; [|assumption|exact E3]. reflexivity.
Qed.
Definition step_obj (e : fact) (after : list Z) : Prop := exists t w',
  process_tag E fuel w (num (tag_of e)) (text_of e ++ after) (List.length (text_of e)) = Ret (false, [], w') /\
    shown_as e t /\ (List.length t = width Object /\ no_nul t) /\ line w' = card (upd f Object t) ++ tail /\ same_rest w w' e.
Lemma step_number n after : fact_ok (Number n) -> step_obj (Number n) after.
Proof.
  intros (NN & H). unfold step_obj. cbn [text_of tag_of fact_ok shown_as] in *. change (num "permID") with 75. dispatch 75.
  destruct (dec_ok n ltac:(lia)) as (D1 & D2 & D3). pose proof (dec_len n 20 ltac:(lia) ltac:(lia)) as DL.
  destruct (Nat.ltb_spec (List.length (dec n)) 40); [|lia]. cbv iota. rewrite firstn_text. cbn [obind].
  destruct (packed_fits _ _ (DesigThms.C22_number_proof n H)) as (b & packed & E1 & E2 & E3 & E4 & U).
  assert (SP : span isdigit (dec n) = List.length (dec n)) by (rewrite <- (app_nil_r (dec n)) at 1; rewrite span_all_app by assumption; cbn; lia).
  rewrite (put_id (zs "(" ++ dec n ++ zs ")") 0 75 packed b (dec n)); [| |exact E1|exact E2|exact E3].
  2: { rewrite SP, Nat.eqb_refl. destruct (Nat.ltb_spec (List.length (dec n) + 2) 40); [reflexivity|lia]. }
  cbn [obind]. do 2 eexists. split; [reflexivity|]. split; [exact U|]. split; [split; [exact E3|exact E4]|]. split; [reflexivity|rest].
Qed.
Lemma step_designation name kind after : fact_ok (Designation name kind) -> id_set w <> ADES_permID -> step_obj (Designation name kind) after.
Proof.
  intros (NN & H & R & c & Hc & Nc) Hid. unfold step_obj. cbn [text_of tag_of fact_ok shown_as] in *. change (num "provID") with 95. dispatch 95.
  destruct (Z.eqb_spec (id_set w) ADES_permID); [contradiction|].
  destruct (Nat.ltb_spec (List.length name) 40); [|lia]. cbv iota. rewrite firstn_text. cbn [obind].
  destruct (packed_fits _ _ R) as (b & packed & E1 & E2 & E3 & E4 & U).
  rewrite (put_id name 0 95 packed b name); [| |exact E1|exact E2|exact E3].
  2: { destruct (Nat.eqb_spec (span isdigit name) (List.length name)) as [SP|]; [|reflexivity]. exfalso. apply Nc.
       enough (K : isdigit c = true) by (unfold isdigit in K; apply andb_true_iff in K as (K1 & K2); apply Z.leb_le in K1, K2; lia).
       revert SP Hc. clear. induction name as [|x l IH]; intros SP Hc; [destruct Hc|]. cbn [span List.length] in SP. destruct (isdigit x) eqn:D; [|discriminate SP].
       destruct Hc as [<-|Hc]; [exact D|]. apply IH; [lia|exact Hc]. }
  cbn [obind]. do 2 eexists. split; [reflexivity|]. split; [exact U|]. split; [split; [exact E3|exact E4]|]. split; [reflexivity|rest].
Qed.
Lemma step_tracklet t after : fact_ok (Tracklet t) -> f Object = blanks 12 -> id_set w = 0 -> step_obj (Tracklet t) after.
Proof.
  intros (NN & H & _) B Hid. unfold step_obj. cbn [text_of tag_of shown_as] in *. change (num "trkSub") with 140. dispatch 140.
  rewrite fact_name by lia. destruct (Nat.ltb_spec (List.length t) 13); [|lia]. cbn [obind]. cbv zeta.
  cbn [set_text id_set line]. rewrite Hid. change (0 =? 0) with true. cbv iota. rewrite HL, firstn_text.
  assert (K : forall o, (o + List.length t <= 12)%nat -> firstn o (f Object) ++ t ++ skipn (o + List.length t) (f Object) = blanks o ++ on_left (12 - o) t).
  { intros o Ho. rewrite B. unfold on_left, blanks. cbn [width]. rewrite firstn_repeat_, skipn_repeat_. replace (Nat.min o 12) with o by lia.
    now replace (12 - (o + List.length t))%nat with (12 - o - List.length t)%nat by lia. }
  destruct (Nat.ltb_spec (List.length t) 8) as [L8|L8].
  - change 5 with (start Object + Z.of_nat 5). rewrite put_zone by (auto; cbn; lia). rewrite K by lia. cbn [obind].
    do 2 eexists. split; [reflexivity|]. split; [reflexivity|]. split; [split; [rewrite app_length, on_left_length by lia; reflexivity|apply no_nul_app; [apply no_nul_blanks|now apply no_nul_left]]|]. split; [reflexivity|rest].
  - replace (12 - Z.of_nat (List.length t)) with (start Object + Z.of_nat (12 - List.length t)) by (cbn [start]; lia). rewrite put_zone by (auto; cbn [width]; lia). rewrite K by lia. cbn [obind].
    do 2 eexists. split; [reflexivity|]. split; [reflexivity|].
    replace (12 - (12 - List.length t))%nat with (List.length t) by lia. rewrite on_left_full.
    split; [split; [unfold blanks; rewrite app_length, repeat_length; cbn [width]; lia|apply no_nul_app; [apply no_nul_blanks|assumption]]|]. split; [reflexivity|rest].
Qed.

Lemma skip_designation name after : id_set w = ADES_permID ->
  process_tag E fuel w (num "provID") (name ++ after) (List.length name) = Ret (false, [], w).
Proof. intros Hid. change (num "provID") with 95. dispatch 95. rewrite Hid, Z.eqb_refl. reflexivity. Qed.
Lemma skip_tracklet t after : fact_ok (Tracklet t) -> id_set w <> 0 ->
  process_tag E fuel w (num "trkSub") (t ++ after) (List.length t) = Ret (false, [], set_text w TrkSub t).
Proof.
  intros (NN & H & _) Hid. cbn [fact_ok] in H. change (num "trkSub") with 140. dispatch 140. rewrite fact_name by lia. destruct (Nat.ltb_spec (List.length t) 13); [|lia]. cbn [obind].
  cbv zeta. cbn [set_text id_set]. destruct (Z.eqb_spec (id_set w) 0); [contradiction|]. reflexivity.
Qed.
(** References *)
Lemma mutant_five first v : 0 <= v < 62 ^ 4 -> exists t,
  (do '(_, b) <- encode_value_in_mutant_hex (Some first :: repeat None 4) 1 4 v; five b) = Ret t /\ List.length t = 5%nat /\ in_base62 first v t.
Proof.
  intros H. destruct (DesigThms.C21_encode_proof [Some first] (repeat None 4) [] v ltac:(lia)) as (s & ds & L & F2 & N & EQ).
  cbn [repeat List.app List.length] in *. change (Z.of_nat 1) with 1 in EQ. rewrite EQ. cbn [obind]. rewrite app_nil_r. exists (first :: s). split; [apply (five_some (first :: s))|].
  split; [cbn; now rewrite L|]. exists s, ds. repeat split; auto. rewrite N. apply Z.mod_small. exact H.
Qed.

Lemma dig_val_app (t : list Z) (D : forall c, In c t -> isdigit c = true) acc : 0 <= acc -> dig_val acc (t ++ []) = dig_val acc t.
Proof. now rewrite app_nil_r. Qed.
Lemma atoi_dec n : 0 <= n <= IMAX -> atoi (dec n) = Ret n.
Proof.
  intros H. destruct (dec_ok n ltac:(unfold IMAX in H; lia)) as (D1 & D2 & D3). unfold atoi. destruct (dec n) as [|c r] eqn:EN; [congruence|].
  pose proof (D1 c ltac:(now left)) as Dc. pose proof (proj1 (digit_range c) Dc) as Rc.
  assert (SP : isspace c = false) by (unfold isspace; destruct (Z.eqb_spec c 32); [lia|]; destruct (Z.leb_spec 9 c); destruct (Z.leb_spec c 13); try reflexivity; lia).
  cbn [span]. rewrite SP. cbn [skipn].
  assert (G : match c with 43 => chk IMAX (dig_val 0 r) | 45 => chk IMAX (- dig_val 0 r) | _ => chk IMAX (dig_val 0 (c :: r)) end = Ret n).
  { assert (K : c = 48 \/ c = 49 \/ c = 50 \/ c = 51 \/ c = 52 \/ c = 53 \/ c = 54 \/ c = 55 \/ c = 56 \/ c = 57) by lia.
    destruct K as [->|[->|[->|[->|[->|[->|[->|[->|[->| ->]]]]]]]]]; rewrite D2; apply chk_ok; unfold fits, IMAX in *; lia. }
  exact G.
Qed.
Lemma pack_ref r b0 : fact_ok (Reference r) -> exists t,
  pack_mpc_reference b0 (text_of (Reference r)) = Ret t /\ List.length t = 5%nat /\ shown_as (Reference r) t.
Proof.
  intros (NN & H). destruct r as [y h n|n|n].
  - destruct H as (Hy & Hh & Hn). cbn [text_of]. destruct (dec_ok n ltac:(lia)) as (D1 & D2 & D3). pose proof (dec_len n 3 ltac:(lia) ltac:(cbn; lia)) as DL.
    assert (LN : (1 <= List.length (dec n))%nat) by (destruct (dec n); [congruence|cbn; lia]).
    unfold pack_mpc_reference. set (ref := zs "MPEC " ++ _).
    assert (LR : List.length ref = (11 + List.length (dec n))%nat) by (subst ref; rewrite !app_length, ndig_length; reflexivity).
    rewrite LR. destruct (Nat.leb_spec 12 (11 + List.length (dec n))); [|lia]. destruct (Nat.leb_spec (11 + List.length (dec n)) 14); [|lia].
    change (prefix (zs "MPEC ") ref) with true. change (nth 9 ref 0) with 45. cbn [andb Z.eqb Pos.eqb].
    change (nth 10 ref 0) with h. change (skipn 11 ref) with (dec n).
    assert (EQ : repeat 48 (14 - (11 + List.length (dec n))) ++ dec n = ndig 3 n).
    { rewrite <- (pad0_is_ndig 3 n) by (cbn; lia). unfold pad0, dec in *. rewrite Z.abs_eq by lia. destruct (Z.ltb_spec n 0); [lia|]. cbn [List.app List.length].
      now replace (14 - (11 + List.length (digits 20 n [])))%nat with (3 - List.length (digits 20 n []) - 0)%nat by lia. }
    exists ([69; h] ++ repeat 48 (14 - (11 + List.length (dec n))) ++ dec n). split; [reflexivity|].
    split; [rewrite !app_length, repeat_length; cbn [List.length]; lia|]. cbn [shown_as]. now rewrite <- EQ.
  - cbn [fact_ok] in H. cbn [text_of]. unfold pack_mpc_reference.
    change (prefix (zs "MPEC ") (zs "MPS " ++ dec n)) with false. rewrite andb_false_r. cbn [andb].
    change (prefix (zs "MPS ") (zs "MPS " ++ dec n)) with true. cbv iota. change (skipn 4 (zs "MPS " ++ dec n)) with (dec n).
    rewrite atoi_dec by (unfold IMAX; lia). cbn [obind]. cbv zeta. rewrite (Z.mod_small n) by lia. cbn [shown_as].
    destruct (Z.ltb_spec n 260000).
    + eexists. split; [reflexivity|]. rewrite pad0_is_ndig by (try lia; apply Z.mod_pos_bound; lia). split; [cbn [List.length]; now rewrite ndig_length|reflexivity].
    + destruct (mutant_five 126 (n - 260000) ltac:(lia)) as (t & E1 & E2 & E3). exists t. rewrite to_int_small by lia. split; [exact E1|]. split; assumption.
  - cbn [fact_ok] in H. cbn [text_of]. unfold pack_mpc_reference.
    change (prefix (zs "MPEC ") (zs "MPC " ++ dec n)) with false. rewrite andb_false_r. cbn [andb].
    change (prefix (zs "MPS ") (zs "MPC " ++ dec n)) with false. cbv iota.
    change (prefix (zs "MPC ") (zs "MPC " ++ dec n)) with true. cbv iota. change (skipn 4 (zs "MPC " ++ dec n)) with (dec n).
    rewrite atoi_dec by (unfold IMAX; lia). cbn [obind]. cbv zeta. rewrite (Z.mod_small n) by lia. cbn [shown_as].
    destruct (Z.ltb_spec n 100000); [|destruct (Z.ltb_spec n 110000)].
    + destruct (Z.ltb_spec n 110000); [|lia]. eexists. split; [reflexivity|]. rewrite (Z.mod_small n 100000) by lia. rewrite pad0_is_ndig by (cbn; lia). split; [now rewrite ndig_length|reflexivity].
    + rewrite <- (Z.mod_unique_pos n 100000 1 (n - 100000)) by lia.
      eexists. split; [reflexivity|]. rewrite pad0_is_ndig by (cbn; lia). split; [cbn [List.length]; now rewrite ndig_length|reflexivity].
    + destruct (mutant_five 35 (n - 110000) ltac:(lia)) as (t & E1 & E2 & E3). exists t. rewrite to_int_small by lia. split; [exact E1|]. split; assumption.
Qed.
Lemma ref_length r : fact_ok (Reference r) -> (List.length (text_of (Reference r)) < 40)%nat.
Proof.
  intros (_ & H). destruct r as [y h n|n|n]; cbn [fact_ok text_of] in *; rewrite !app_length, ?ndig_length.
  - destruct H as (_ & _ & H). pose proof (dec_len n 3 ltac:(lia) ltac:(cbn; lia)). cbn. lia.
  - pose proof (dec_len n 20 ltac:(lia) ltac:(lia)). cbn. lia.
  - pose proof (dec_len n 20 ltac:(lia) ltac:(lia)). cbn. lia.
Qed.
Lemma step_reference r after : step (Reference r) after.
Proof.
  intros z H En [= <-] B Hid. cbn [tag_of]. change (num "ref") with 101. dispatch 101.
  pose proof (ref_length r H) as RL. destruct (Nat.ltb_spec (List.length (text_of (Reference r))) 40); [|lia]. cbv iota. rewrite firstn_text.
  destruct (pack_ref r (firstn 5 (skipn 72 (line w))) H) as (t & E1 & E2 & E3). rewrite E1. cbn [obind]. rewrite HL.
  change 72 with (start Ref). rewrite put_left; [|assumption|assumption|rewrite E2; cbn; lia]. cbn [obind].
  do 2 eexists. split; [reflexivity|]. split; [exact E3|]. split; [exact E2|]. split; [|rest]. cbn [line set_line]. do 3 f_equal.
  change (width Ref) with 5%nat. rewrite <- E2. apply on_left_full.
Qed.
End Step.

Definition step_aside_concl E fuel w e after := exists w',
  process_tag E fuel w (num (tag_of e)) (text_of e ++ after) (List.length (text_of e)) = Ret (false, [], w') /\ line w' = line w /\ same_rest w w' e.
Lemma aside_tags tag p : aside_part tag = Some p ->
  (tag = "rmsRA" /\ p = RmsRA) \/ (tag = "rmsDec" /\ p = RmsDec) \/ (tag = "rmsCorr" /\ p = Corr) \/ (tag = "rmsMag" /\ p = RmsMag) \/
  (tag = "rmsTime" /\ p = RmsTime) \/ (tag = "trkID" /\ p = TrkID) \/ (tag = "obsID" /\ p = ObsID).
Proof.
  unfold aside_part. intros H. repeat match type of H with (if String.eqb tag ?x then _ else _) = _ => destruct (String.eqb_spec tag x) as [->|]; [injection H as <-; tauto|] end. discriminate H.
Qed.
Lemma step_aside E fuel w tag t after : fact_ok (Aside tag t) -> step_aside_concl E fuel w (Aside tag t) after.
Proof.
  intros (NN & (p & Hp & Hs) & _). unfold step_aside_concl. cbn [tag_of text_of].
  assert (LT : (List.length t < 40)%nat) by (destruct p; cbn [size_of] in Hs; lia).
  assert (K : keep w p (List.length t) (if (List.length t <? 40)%nat then Ret (firstn (List.length t) (t ++ after)) else UB) = Ret (set_text w p t)).
  { rewrite fact_name by assumption. unfold keep. destruct (Z.ltb_spec (Z.of_nat (List.length t)) (size_of p)); [reflexivity|lia]. }
  assert (G : process_tag E fuel w (num tag) (t ++ after) (List.length t) =
    (do w <- keep w p (List.length t) (if (List.length t <? 40)%nat then Ret (firstn (List.length t) (t ++ after)) else UB); Ret (false, [], w))).
  { destruct (aside_tags tag p Hp) as [(-> & ->)|[(-> & ->)|[(-> & ->)|[(-> & ->)|[(-> & ->)|[(-> & ->)|(-> & ->)]]]]]]; reflexivity. }
  rewrite G, K. cbn [obind]. exists (set_text w p t). split; [reflexivity|]. split; [reflexivity|]. unfold same_rest. cbn [id_tag put_aside]. rewrite Hp. cbn. repeat split; auto.
Qed.

Lemma step_any E fuel f tail w e after : wide f -> line w = card f ++ tail -> zone_of e <> Some Object -> step E fuel f tail w e after.
Proof.
  intros W L NO. destruct e; try (exfalso; apply NO; reflexivity).
  - now apply step_station.
  - now apply step_when.
  - now apply step_ra.
  - now apply step_dec.
  - now apply step_magnitude.
  - now apply step_band.
  - now apply step_catalogue.
  - now apply step_discovery.
  - now apply step_mode.
  - now apply step_deprecated.
  - now apply step_programme.
  - now apply step_note.
  - now apply step_reference.
  - intros z _ _ [=].
Qed.

Lemma no_nul_shown e t : fact_ok e -> shown_as e t -> zone_of e <> Some Object -> no_nul t.
Proof.
  intros (NN & OK) H NO. destruct e; cbn [shown_as text_of fact_ok] in *; try (exfalso; apply NO; reflexivity).
  - now subst.
  - subst. unfold packed_time.
    apply no_nul_cons; [pose proof (Z.div_le_mono 1700 y 100 ltac:(lia) ltac:(lia)); cbn in H; lia|].
    repeat (apply no_nul_app; [apply no_nul_ndig|]). apply no_nul_cons; [lia|]. repeat (apply no_nul_app; [apply no_nul_ndig|]). apply no_nul_blanks.
  - subst. unfold columns, angle_text. repeat apply no_nul_app; [apply no_nul_ndig|apply no_nul_decimals|apply no_nul_blanks].
  - subst. apply no_nul_left, no_nul_cons; [destruct sign as [[|]|]; lia|]. unfold angle_text. apply no_nul_app; [apply no_nul_ndig|apply no_nul_decimals].
  - subst. now apply no_nul_left.
  - subst. apply no_nul_one. unfold filter_letter. destruct t0 as [|a [|b r]]; [cbn in OK; lia| |].
    + cbn. rewrite ?andb_false_r. cbn. apply NN. now left.
    + cbn [nth]. destruct (existsb _ _); apply NN; [right|]; now left.
  - subst. apply no_nul_one. destruct OK as (_ & name & Hin & _). intros ->. cbn in Hin. repeat (destruct Hin as [Hin|Hin]; [discriminate Hin|]). exact Hin.
  - subst. intros c [<-|[]]. discriminate.
  - destruct H as (c & Hc & ->). apply no_nul_one. intros ->. cbn in Hc. repeat (destruct Hc as [Hc|Hc]; [discriminate Hc|]). exact Hc.
  - subst. intros c [<-|[]]. discriminate.
  - subst. apply no_nul_one.
    assert (K : forall c, In c programme_letters -> c <> 0) by (intros c Hc ->; cbn in Hc; repeat (destruct Hc as [Hc|Hc]; [discriminate Hc|]); exact Hc).
    apply K, nth_In. change (List.length programme_letters) with 35%nat. lia.
  - subst. intros c Hc. apply NN. destruct t0; [destruct Hc|]. cbn in Hc. destruct Hc as [<-|[]]. now left.
  - assert (B62 : forall a v, a <> 0 -> in_base62 a v t -> no_nul t).
    { intros a v Ha (s & ds & -> & _ & F2 & _). apply no_nul_cons; [exact Ha|]. intros c Hc ->. clear -F2 Hc. induction F2 as [|x y l l' Hxy _ IH]; [destruct Hc|].
      destruct Hc as [->|Hc]; [|now apply IH]. destruct Hxy as (_ & Hxy). apply nth_error_In in Hxy. cbn in Hxy. repeat (destruct Hxy as [Hxy|Hxy]; [discriminate Hxy|]). exact Hxy. }
    destruct r as [y h n|n|n].
    + subst. cbn [List.app]. apply no_nul_cons; [lia|]. apply no_nul_cons; [unfold capital in OK; lia|apply no_nul_ndig].
    + destruct (n <? 260000); [subst; apply no_nul_cons; [pose proof (Z.div_pos n 10000 ltac:(lia) ltac:(lia)); lia|apply no_nul_ndig]|now apply (B62 126 (n - 260000))].
    + destruct (n <? 100000); [subst; apply no_nul_ndig|]. destruct (n <? 110000); [subst; apply no_nul_cons; [lia|apply no_nul_ndig]|now apply (B62 35 (n - 110000))].
  - destruct H.
Qed.
