(** Observations from spacecraft: all the elements, and both lines. *)
From Coq Require Import QArith String Lia.
From Verif Require Import CBase CStr CtimeSpec DesigModel DesigSpec MpcfSpec MpcdSpec TstrModel CtimeModel AdesModel AdesSpec ObsModel ObsSpec ObsProofs ObsMore ObsLines ObsPsv ObsSatSpec ObsSat.
From Verif Require DateVocab MpcfModel.
Import ListNotations.
Local Open Scope string_scope.
Local Open Scope list_scope.
Local Open Scope Z_scope.

Lemma card_ext f g : (forall z, f z = g z) -> card f = card g.
Proof. intros H. unfold card. f_equal. apply map_ext. exact H. Qed.
Lemma columns_last u c : coordinate_ok u c -> coordinate_columns u c = firstn 11 (coordinate_columns u c) ++ [32].
Proof.
  intros OK. assert (K : exists t n, coordinate_columns u c = t ++ blanks (S n) /\ (List.length t + S n = 12)%nat).
  { unfold coordinate_columns. set (s := match sign c with Some true => 45 | _ => 43 end). set (t := blanks _ ++ firstn 10 (digits_text c)).
    assert (HT : (List.length t <= 10)%nat).
    { subst t. rewrite app_length. unfold blanks. rewrite repeat_length, firstn_length, digits_len. destruct OK as (H1 & H2 & H3). destruct u; lia. }
    exists (s :: t), (10 - List.length t)%nat. unfold on_left. replace (11 - List.length t)%nat with (S (10 - List.length t)) by lia. split; [reflexivity|]. cbn [List.length]. lia. }
  destruct K as (t & n & E & LE). rewrite E. assert (B : blanks (S n) = blanks n ++ [32]) by (unfold blanks; replace (S n) with (n + 1)%nat by lia; apply repeat_app).
  rewrite B. rewrite app_assoc. f_equal. symmetry. apply firstn_text_n. rewrite app_length. unfold blanks. rewrite repeat_length. lia.
Qed.
Lemma no_nul_columns u c : no_nul (coordinate_columns u c).
Proof.
  unfold coordinate_columns. apply no_nul_cons; [destruct (sign c) as [[|]|]; lia|]. apply no_nul_left. apply no_nul_app; [apply no_nul_blanks|].
  intros y Hy. assert (In y (digits_text c)) as Hi by (rewrite <- (firstn_skipn 10 (digits_text c)); apply in_app_iff; now left).
  unfold digits_text in Hi. apply in_app_iff in Hi as [Hi|[<-|Hi]]; [revert Hi; apply no_nul_ndig|lia|revert Hi; apply no_nul_ndig].
Qed.
Lemma card_zone f z tail : wide f -> firstn (width z) (skipn (Z.to_nat (start z)) (card f ++ tail)) = f z.
Proof.
  intros W. rewrite (card_split f z). pose proof (before_length f z W) as BL. rewrite <- !app_assoc.
  replace (Z.to_nat (start z)) with (List.length (before f z)) by lia. rewrite skipn_app, skipn_all, Nat.sub_diag. cbn [List.app skipn].
  apply firstn_text_n. apply W.
Qed.
Definition centre_columns (n : Z) : list Z := if n =? 399 then blanks 8 else on_right 8 (dec n).
Definition l2_done (u : frame) (n : Z) (c1 c2 c3 : coordinate) (g : zone -> list Z) : list Z :=
  g Object ++ zs "  s" ++ g Date ++ [frame_digit u] ++ zs " " ++ coordinate_columns u c1 ++ coordinate_columns u c2 ++
  firstn 11 (coordinate_columns u c3) ++ centre_columns n ++ g Site.
Lemma done_len u n c1 c2 c3 g : wide g -> coordinate_ok u c1 -> coordinate_ok u c2 -> coordinate_ok u c3 -> 0 <= n < 10 ^ 7 -> List.length (l2_done u n c1 c2 c3 g) = 80%nat.
Proof.
  intros W O1 O2 O3 Hn. unfold l2_done. rewrite !app_length, !W, !columns_len, firstn_length, columns_len by assumption.
  assert (CL : List.length (centre_columns n) = 8%nat) by (unfold centre_columns; destruct (n =? 399); [reflexivity|]; unfold on_right; rewrite app_length; unfold blanks; rewrite repeat_length; pose proof (DesigUnpack.dec_len n 7 ltac:(lia) ltac:(cbn; lia)); lia).
  rewrite CL. reflexivity.
Qed.
Lemma line2_filled u n c1 c2 c3 g L x : wide g -> coordinate_ok u c1 -> coordinate_ok u c2 -> coordinate_ok u c3 -> 0 <= n < 10 ^ 7 ->
  L = card g ++ [10; 0; x] -> forall x2,
  (do l2 <- put_at (l2_start (frame_digit u) ++ coordinate_columns u c1 ++ coordinate_columns u c2 ++ coordinate_columns u c3 ++ blanks 10 ++ [10; 0; x2]) 0 (firstn 12 L);
   do l2 <- put_at l2 15 (firstn 17 (skipn 15 L));
   do l2 <- (if n =? 399 then Ret l2 else let c := padsp 8 n in if (9 <=? List.length c)%nat then Abort else put_at l2 69 (c ++ [0]));
   put_at l2 77 (firstn 3 (skipn 77 L))) = Ret (l2_done u n c1 c2 c3 g ++ [10; 0; x2]).
Proof.
  intros W O1 O2 O3 Hn -> x2.
  pose proof (card_zone g Object [10; 0; x] W) as K1. pose proof (card_zone g Date [10; 0; x] W) as K2. pose proof (card_zone g Site [10; 0; x] W) as K3. cbn [start width] in K1, K2, K3.
  change (Z.to_nat 0) with 0%nat in K1. cbn [skipn] in K1. change (Z.to_nat 15) with 15%nat in K2. change (Z.to_nat 77) with 77%nat in K3. rewrite K1, K2, K3.
  rewrite (columns_last u c3 O3). unfold l2_start.
  set (R := coordinate_columns u c1 ++ coordinate_columns u c2 ++ firstn 11 (coordinate_columns u c3)).
  assert (LR : List.length R = 35%nat) by (subst R; rewrite !app_length, firstn_length, !columns_len by assumption; reflexivity).
  set (d := frame_digit u).
  assert (E0 : ([32] ++ blanks 13 ++ [115] ++ blanks 17 ++ [d] ++ [32]) ++ coordinate_columns u c1 ++ coordinate_columns u c2 ++ (firstn 11 (coordinate_columns u c3) ++ [32]) ++ blanks 10 ++ [10; 0; x2] =
    [] ++ blanks 12 ++ ([32; 32; 115] ++ blanks 17 ++ [d; 32] ++ R ++ blanks 11 ++ [10; 0; x2])).
  { subst R. rewrite <- !app_assoc. reflexivity. }
  rewrite E0. pose proof (put_at_app [] (blanks 12) ([32; 32; 115] ++ blanks 17 ++ [d; 32] ++ R ++ blanks 11 ++ [10; 0; x2]) 0 (g Object) ltac:(rewrite W; cbn; lia)) as P1.
  rewrite Z.add_0_r in P1. cbn [List.length] in P1. change (Z.of_nat 0) with 0 in P1. rewrite P1. clear P1. cbn [obind].
  rewrite W. cbn [width]. change (skipn (0 + 12) (blanks 12)) with (@nil Z). cbn [firstn]. rewrite !app_nil_l, app_nil_r.
  assert (E1 : g Object ++ [32; 32; 115] ++ blanks 17 ++ [d; 32] ++ R ++ blanks 11 ++ [10; 0; x2] = (g Object ++ [32; 32; 115]) ++ blanks 17 ++ ([d; 32] ++ R ++ blanks 11 ++ [10; 0; x2])) by (now rewrite <- !app_assoc).
  rewrite E1. pose proof (put_at_app (g Object ++ [32; 32; 115]) (blanks 17) ([d; 32] ++ R ++ blanks 11 ++ [10; 0; x2]) 0 (g Date) ltac:(rewrite W; cbn; lia)) as P2.
  rewrite app_length, W in P2. cbn [width List.length] in P2. change (Z.of_nat (12 + 3) + Z.of_nat 0) with 15 in P2. rewrite P2. clear P2 E0 E1 K1 K2 K3. cbn [obind].
  rewrite W. cbn [width]. change (skipn (0 + 17) (blanks 17)) with (@nil Z). cbn [firstn]. rewrite app_nil_r, app_nil_l.
  set (A := (g Object ++ [32; 32; 115]) ++ g Date ++ [d; 32] ++ R).
  assert (LA : List.length A = 69%nat) by (subst A; rewrite !app_length, LR, !W; reflexivity).
  assert (E2 : (g Object ++ [32; 32; 115]) ++ g Date ++ [d; 32] ++ R ++ blanks 11 ++ [10; 0; x2] = A ++ blanks 11 ++ [10; 0; x2]) by (subst A; now rewrite <- !app_assoc).
  rewrite E2.
  assert (DONE : l2_done u n c1 c2 c3 g ++ [10; 0; x2] = A ++ (centre_columns n ++ g Site) ++ [10; 0; x2]) by (unfold l2_done; subst A R d; rewrite <- !app_assoc; reflexivity).
  rewrite DONE. unfold centre_columns. destruct (Z.eqb_spec n 399) as [->|N3].
  - cbn [obind]. pose proof (put_at_app A (blanks 11) [10; 0; x2] 8 (g Site) ltac:(rewrite W; cbn; lia)) as P3. rewrite LA in P3. change (Z.of_nat 69 + Z.of_nat 8) with 77 in P3. rewrite P3, W. change (skipn (8 + width Site) (blanks 11)) with (@nil Z). rewrite app_nil_r. reflexivity.
  - assert (PL : List.length (padsp 8 n) = 8%nat) by (unfold padsp; rewrite app_length, repeat_length; pose proof (DesigUnpack.dec_len n 7 ltac:(lia) ltac:(cbn; lia)); lia).
    cbv zeta. rewrite PL. cbn [Nat.leb]. pose proof (put_at_app A (blanks 11) [10; 0; x2] 0 (padsp 8 n ++ [0]) ltac:(rewrite app_length, PL; cbn; lia)) as P3.
    rewrite LA in P3. change (Z.of_nat 69 + Z.of_nat 0) with 69 in P3. rewrite P3. cbn [obind]. rewrite app_length, PL. change (skipn (0 + (8 + List.length [0])) (blanks 11)) with (blanks 2). cbn [firstn]. rewrite app_nil_l.
    pose proof (put_at_app A ((padsp 8 n ++ [0]) ++ blanks 2) [10; 0; x2] 8 (g Site) ltac:(rewrite W, !app_length, PL; cbn; lia)) as P4. rewrite LA in P4. change (Z.of_nat 69 + Z.of_nat 8) with 77 in P4. rewrite P4, W. cbn [width].
    rewrite <- (app_assoc (padsp 8 n)). rewrite firstn_text_n by exact PL. rewrite skipn_all2 by (rewrite !app_length, PL; cbn; lia). rewrite app_nil_r. reflexivity.
Qed.
Lemma no_nul_done u n c1 c2 c3 g : (forall z, no_nul (g z)) -> 0 <= n < 10 ^ 7 -> no_nul (l2_done u n c1 c2 c3 g).
Proof.
  intros G Hn. unfold l2_done. repeat apply no_nul_app; try apply G; try apply no_nul_columns.
  - intros y Hy. cbn in Hy. intros ->. intuition discriminate.
  - apply no_nul_one. destruct u; cbn; lia.
  - intros y Hy. cbn in Hy. intros ->. intuition discriminate.
  - intros y Hy. apply (no_nul_columns u c3 y). rewrite <- (firstn_skipn 11). apply in_app_iff. now left.
  - unfold centre_columns. destruct (n =? 399); [apply no_nul_blanks|]. unfold on_right. apply no_nul_app; [apply no_nul_blanks|].
    intros y Hy. destruct (DesigBase.dec_ok n ltac:(lia)) as (D & _). specialize (D y Hy). intros ->. discriminate D.
Qed.
Lemma lines_two E fuel g x u n c1 c2 c3 x2 cc : wide g -> (forall z, no_nul (g z)) -> coordinate_ok u c1 -> coordinate_ok u c2 -> coordinate_ok u c3 -> 0 <= n < 10 ^ 7 ->
  forall w, still (card g) x (l2_start (frame_digit u) ++ coordinate_columns u c1 ++ coordinate_columns u c2 ++ coordinate_columns u c3 ++ blanks 10 ++ [10; 0; x2]) cc n w ->
  text w RmsRA = [] -> text w TrkSub = [] -> text w ObsID = [] -> text w TrkID = [] -> (List.length (text w Passband) <= 1)%nat ->
  text w Notes = [] -> text w Program = [] -> text w RmsMag = [] -> text w RmsTime = [] ->
  exists w', puts_out (ObsModel.whole E fuel) w [card g ++ [10]; l2_done u n c1 c2 c3 g ++ [10]] w' /\ gone w w'.
Proof.
  intros W G O1 O2 O3 Hn w (S1 & S2 & S3 & S4 & S5 & S6 & S7 & S8 & S9 & S10) T1 T2 T3 T4 T5 T6 T7 T8 T9.
  assert (NL : no_nul (card g)) by (intros y Hy; unfold card in Hy; apply in_concat in Hy as (l & Hl & Hy); apply in_map_iff in Hl as (z & <- & _); now apply (G z)).
  assert (LL := card_length g W). assert (NN := no_nul_done u n c1 c2 c3 g G Hn). assert (LD := done_len u n c1 c2 c3 g W O1 O2 O3 Hn).
  assert (HL : exists a r, card g = a :: r /\ a <> 0) by (destruct (card g) as [|a r]; [discriminate LL|]; exists a, r; split; [reflexivity|apply NL; now left]).
  destruct HL as (a & r & EL & Ha).
  assert (H2 : exists b q, l2_done u n c1 c2 c3 g = b :: q /\ b <> 0) by (destruct (l2_done u n c1 c2 c3 g) as [|b q]; [discriminate LD|]; exists b, q; split; [reflexivity|apply NN; now left]).
  destruct H2 as (b & q & EB & Hb).
  assert (P1 : nth 1 (text w Passband) 0 = 0) by (destruct (text w Passband) as [|? [|? ?]]; cbn in T5 |- *; try reflexivity; lia).
  set (w1 := set_line2 (set_line w ((0 :: r) ++ [10; 0; x])) (l2_done u n c1 c2 c3 g ++ [10; 0; x2])).
  set (w2 := set_line2 w1 ((0 :: q) ++ [10; 0; x2])).
  assert (PZ : forall (a : Z) r y, put_at ((a :: r) ++ [10; 0; y]) 0 [0] = Ret ((0 :: r) ++ [10; 0; y])).
  { intros a0 r0 y. unfold put_at. cbn [List.length List.app]. destruct (Z.leb_spec (0 + Z.of_nat 1) (Z.of_nat (S (List.length (r0 ++ [10; 0; y]))))); [|lia]. reflexivity. }
  assert (N1 : forall o, next_line w o = Ret (true, card g ++ [10], w1)).
  { intros o. unfold next_line. rewrite T1, T2, T3, T4, S5, S6, S1, S7, P1, T6, T7, S2. cbn [nth negb Z.eqb orb andb]. change (32 <? 0) with false. change (32 <=? 0) with false. cbn [orb].
    rewrite S3, S4, S10. rewrite (str_line x (card g) NL). replace (nth 0 (card g ++ [10; 0; x]) 0) with a by (rewrite EL; reflexivity). destruct (Z.eqb_spec a 0); [contradiction|]. cbn [negb obind].
    match goal with |- context [nth 0 (l2_start ?d ++ ?t) 0 =? 0] => change (nth 0 (l2_start d ++ t) 0 =? 0) with false end. cbv iota.
    pose proof (line2_filled u n c1 c2 c3 g (card g ++ [10; 0; x]) x W O1 O2 O3 Hn eq_refl x2) as LF. cbv zeta in LF. rewrite LF. cbn [obind].
    rewrite EL, PZ. reflexivity. }
  assert (N2 : forall o, next_line w1 o = Ret (true, l2_done u n c1 c2 c3 g ++ [10], w2)).
  { intros o. unfold next_line. subst w1. cbn [set_line set_line2 text t2k vel line line2]. rewrite T1, T2, T3, T4, S5, S6, S1, S7, P1, T6, T7, S2. cbn [nth negb Z.eqb orb andb List.app]. change (32 <? 0) with false. change (32 <=? 0) with false. cbn [orb].
    rewrite (str_line x2 _ NN). replace (nth 0 (l2_done u n c1 c2 c3 g ++ [10; 0; x2]) 0) with b by (rewrite EB; reflexivity). destruct (Z.eqb_spec b 0); [contradiction|]. cbn [negb obind].
    subst w2. rewrite EB, PZ. reflexivity. }
  assert (N3 : forall o, next_line w2 o = Ret (false, o, w2)).
  { intros o. unfold next_line. subst w2 w1. cbn [set_line set_line2 text t2k vel line line2]. rewrite T1, T2, T3, T4, S5, S6, S1, S7, P1, T6, T7, S2. cbn [nth negb Z.eqb orb andb List.app]. change (32 <? 0) with false. change (32 <=? 0) with false. reflexivity. }
  exists w2. split.
  - apply puts_more with w1; [exact N1|]. apply puts_more with w2; [exact N2|]. apply puts_end. exact N3.
  - subst w2 w1. unfold gone. cbn [set_line set_line2 text ignore_artsat center line line2]. split.
    + unfold settled. cbn [set_line set_line2 text vel]. split; [|split; [exact T5|split; [exact S8|exact S2]]]. intros p. destruct p; auto; congruence.
    + split; [reflexivity|]. split; [reflexivity|]. split; [reflexivity|]. split; [reflexivity|].
      split; [rewrite EL in LL; cbn [List.length List.app] in LL |- *; rewrite app_length; cbn; lia|].
      rewrite S4. rewrite EB in LD. cbn [List.length List.app] in LD |- *. rewrite !app_length, !columns_len by assumption. cbn. lia.
Qed.
(** The state after all the elements. *)
Lemma elements_two E fuel w es1 p es2 u ct c1 c2 c3 : sized w -> Forall (fun x => fact_ok (fst x) /\ ends (snd x)) (es1 ++ es2) -> consistent (map fst (es1 ++ es2)) ->
  (forall e, In e (map fst es2) -> zone_of e <> Some Note2) ->
  coordinate_ok u c1 -> coordinate_ok u c2 -> coordinate_ok u c3 -> centre_ok ct -> map fst p = place u ct c1 c2 c3 ->
  exists f w' x x2,
    (do w1 <- hand_over (ObsModel.whole E fuel) es1 (setup w); do w2 <- hand_raw (ObsModel.whole E fuel) p w1; hand_over (ObsModel.whole E fuel) es2 w2) = Ret w' /\
    shows_facts (map fst (es1 ++ es2)) f /\ line w' = card (with_S f) ++ [10; 0; x] /\
    aside_kept (map fst (es1 ++ es2)) (text w) (text w') /\ t2k w' = None /\
    line2 w' = l2_start (frame_digit u) ++ coordinate_columns u c1 ++ coordinate_columns u c2 ++ coordinate_columns u c3 ++ blanks 10 ++ [10; 0; x2] /\
    vel w' = vel w /\ ignore_artsat w' = ignore_artsat w /\ center w' = match ct with Some n => n | None => 399 end.
Proof.
  intros SZ OK CO NM O1 O2 O3 OC MP. destruct (setup_line w SZ) as (x & L1 & _).
  assert (L2 : exists x2, line2 (setup w) = 0 :: blanks 79 ++ [10; 0; x2]).
  { destruct SZ as (_ & H2). cbn [setup line2]. unfold blank_line. pose proof (skipn_length 82 (line2 w)) as K. rewrite H2 in K. destruct (skipn 82 (line2 w)) as [|a [|b r]]; cbn in K; try lia. now exists a. }
  destruct L2 as (x2 & L2).
  rewrite Forall_app in OK. destruct OK as (OK1 & OK2). rewrite map_app in *. set (A := map fst es1) in *. set (B := map fst es2) in *.
  destruct CO as (ND & CZ). pose proof ND as ND0. rewrite map_app in ND.
  assert (DIS : forall a b, In a A -> In b B -> tag_of a <> tag_of b).
  { intros a b Ha Hb EQ. apply (in_map tag_of) in Ha. apply (in_map tag_of) in Hb. rewrite <- EQ in Hb. revert ND Ha Hb. generalize (tag_of a). generalize (map tag_of B). generalize (map tag_of A). clear.
    intros l m t. induction l as [|h l IH]; intros ND Ha Hb; [destruct Ha|]. cbn in ND. inversion ND; subst. destruct Ha as [->|Ha]; [apply H1; apply in_app_iff; now right|now apply IH]. }
  assert (CO1 : consistent A).
  { split; [|intros a b z Ha Hb; apply CZ; apply in_app_iff; now left]. revert ND. generalize (map tag_of B). generalize (map tag_of A). clear. intros l m. induction l as [|h l IH]; intros ND; [constructor|]. cbn in ND. inversion ND; subst. constructor; [|now apply IH]. intros Hi. apply H1. apply in_app_iff. now left. }
  assert (CO2 : consistent B).
  { split; [|intros a b z Ha Hb; apply CZ; apply in_app_iff; now right]. revert ND. generalize (map tag_of A). clear. intros l. induction l as [|h l IH]; intros ND; [exact ND|]. cbn in ND. inversion ND; subst. now apply IH. }
  assert (OKI : forall e, In e (A ++ B) -> fact_ok e).
  { intros e Hi. apply in_app_iff in Hi as [Hi|Hi]; apply in_map_iff in Hi as ((e' & a) & <- & Hi); [rewrite Forall_forall in OK1; now apply (OK1 _ Hi)|rewrite Forall_forall in OK2; now apply (OK2 _ Hi)]. }
  destruct (hand_all E fuel [10; 0; x] es1 white (setup w) None OK1 CO1 wide_white L1) as (f1 & w1 & cur1 & P & P1 & P2 & P3 & P4 & P5 & P6 & P7 & P8 & Q1 & Q2 & Q3 & Q4 & Q5).
  { reflexivity. } { split; reflexivity. } { intros ? ? [=]. } { intros ? [=]. }
  fold A in P3, P4, P6, P7, P8. rewrite P. cbn [obind].
  destruct (place_step E fuel u ct c1 c2 c3 p f1 [10; 0; x] w1 x2 P1 P2 ltac:(now rewrite Q1) O1 O2 O3 OC MP) as (w2 & R & R1 & R2 & R3 & R4 & R5 & R6 & R7 & R8).
  rewrite R. cbn [obind].
  set (g := upd f1 Note2 [83]) in *.
  assert (W2 : wide g) by (subst g; apply wide_upd; [exact P1|reflexivity]).
  assert (GO : g Object = f1 Object) by (subst g; apply upd_other; discriminate).
  destruct (hand_all E fuel [10; 0; x] es2 g w2 cur1 OK2 CO2 W2 R1) as (f2 & w' & cur2 & S0 & S1 & S2 & S3 & S4 & S5 & S6 & S7 & S8 & T1 & T2 & T3 & T4 & T5).
  { intros e z Hi Hz NO. fold B in Hi. assert (z <> Note2) by (intros ->; now apply (NM e Hi)). subst g. rewrite upd_other by congruence. rewrite P4; [reflexivity|exact NO|].
    intros e' Hi' Hz'. apply (DIS e' e Hi' Hi). f_equal. apply (CZ e' e z); auto; apply in_app_iff; auto. }
  { rewrite GO, R7. exact P5. }
  { intros c e Hc Hi IO ER. fold B in Hi. destruct (P6 c Hc) as (C1 & [C2|C2] & _); [discriminate C2|]. apply (DIS c e C2 Hi). now apply rank_tag. }
  { intros c Hc. now apply (P6 c Hc). }
  fold B in S3, S4, S6, S7, S8.
  set (f := fun z => match z with Note2 => f1 Note2 | _ => f2 z end).
  exists f, w', x, x2. split; [exact S0|].
  assert (F2N : f2 Note2 = [83]) by (rewrite S4; [apply upd_same|discriminate|exact NM]).
  assert (FZ : forall z, z <> Note2 -> f z = f2 z) by (intros []; intros; try reflexivity; congruence).
  assert (WS : forall z, with_S f z = f2 z) by (intros []; cbn; try reflexivity; now rewrite F2N).
  assert (KEEP : forall z, z <> Object -> z <> Note2 -> (forall e, In e B -> zone_of e <> Some z) -> f z = f1 z).
  { intros z NO N2 NB. rewrite FZ by exact N2. rewrite S4 by assumption. subst g. apply upd_other; congruence. }
  assert (SH : forall e z, In e (A ++ B) -> zone_of e = Some z -> z <> Object -> shown_as e (f z)).
  { intros e z Hi Hz NO. apply in_app_iff in Hi as [Hi|Hi].
    - destruct (zone_dec z Note2) as [->|N2]; [exact (P3 e Note2 Hi Hz NO)|]. rewrite KEEP; auto. intros e' Hi' Hz'. apply (DIS e e' Hi Hi'). f_equal. apply (CZ e e' z); auto; apply in_app_iff; auto.
    - rewrite FZ; [now apply S3|]. intros ->. now apply (NM e Hi). }
  assert (BL : forall z, z <> Object -> (forall e, In e (A ++ B) -> zone_of e <> Some z) -> f z = blanks (width z)).
  { intros z NO NE. assert (NA : forall e, In e A -> zone_of e <> Some z) by (intros e Hi; apply NE, in_app_iff; now left). assert (NB : forall e, In e B -> zone_of e <> Some z) by (intros e Hi; apply NE, in_app_iff; now right).
    destruct (zone_dec z Note2) as [->|N2]; [change (f Note2) with (f1 Note2)|rewrite KEEP by assumption]; now rewrite P4. }
  split; [|split; [|split; [|split; [now rewrite T2, R5, Q2|split; [rewrite T1; exact R2|split; [now rewrite T4, R6, Q4|split; [now rewrite T5, R8, Q5|rewrite T3, R3; unfold centre_of; rewrite Q3; reflexivity]]]]]]].
  - split; [|split].
    + intros z. split; [destruct (zone_dec z Note2) as [->|N2]; [apply P1|rewrite FZ by exact N2; apply S1]|].
      destruct (zone_dec z Object) as [->|NO].
      * rewrite FZ by discriminate. destruct cur2 as [c|]; [apply S5|]. destruct S5 as (-> & _). apply no_nul_blanks.
      * destruct (zone_find (A ++ B) z) as [(e & Hi & Hz)|NE]; [|rewrite BL by assumption; apply no_nul_blanks].
        apply (no_nul_shown e); [now apply OKI|now apply SH|rewrite Hz; congruence].
    + intros e z Hi Hz Hr. destruct (zone_dec z Object) as [->|NO]; [|now apply SH]. rewrite FZ by discriminate.
      assert (IO : in_object e) by exact Hz.
      destruct cur2 as [c|].
      2: { exfalso. destruct (S7 eq_refl) as (N1 & N2). apply in_app_iff in Hi as [Hi|Hi]; [|now apply (N2 e Hi)]. destruct (P7 N1) as (_ & N3). now apply (N3 e Hi). }
      destruct (S6 c eq_refl) as (C1 & C2 & C3 & C4).
      assert (CI : In c (A ++ B)) by (apply in_app_iff; destruct C2 as [C2|C2]; [|now right]; destruct (P6 c C2) as (_ & [K|K] & _); [discriminate K|now left]).
      assert (CR : rank e <= rank c).
      { apply in_app_iff in Hi as [Hi|Hi]; [|now apply C4]. destruct cur1 as [c0|]; [|exfalso; destruct (P7 eq_refl) as (_ & N3); now apply (N3 e Hi)].
        destruct (P6 c0 eq_refl) as (_ & _ & _ & K). specialize (K e Hi IO). specialize (C3 c0 eq_refl). lia. }
      assert (c = e); [|subst c; apply S5]. apply (nodup_map (A ++ B)); auto. apply rank_tag; auto. specialize (Hr c CI C1). lia.
    + intros z NE. destruct (zone_dec z Object) as [->|NO]; [|now apply BL]. rewrite FZ by discriminate.
      destruct cur2 as [c|]; [|apply S5]. exfalso. destruct (S6 c eq_refl) as (C1 & C2 & _). apply (NE c); [|exact C1]. apply in_app_iff. destruct C2 as [C2|C2]; [|now right]. destruct (P6 c C2) as (_ & [K|K] & _); [discriminate K|now left].
  - rewrite S2. f_equal. symmetry. now apply card_ext.
  - destruct P8 as (A1 & A2). destruct S8 as (B1 & B2). rewrite R4 in B2. split.
    + intros e q t Hi HP. apply in_app_iff in Hi as [Hi|Hi]; [|now apply (B1 e)]. rewrite B2; [now apply (A1 e)|]. intros e' t' Hi' HP'. apply (DIS e e' Hi Hi'). exact (aside_tag e e' q t t' HP HP').
    + intros q NE. rewrite B2 by (intros e t Hi; apply NE, in_app_iff; now right). apply A2. intros e t Hi. apply NE, in_app_iff. now left.
Qed.
Lemma spacecraft E fuel w es1 p es2 u ct c1 c2 c3 : sized w -> settled w -> Forall (fun x => fact_ok (fst x) /\ ends (snd x)) (es1 ++ es2) -> consistent (map fst (es1 ++ es2)) ->
  with_position (map fst (es1 ++ es2)) -> (forall e, In e (map fst es2) -> zone_of e <> Some Note2) ->
  coordinate_ok u c1 -> coordinate_ok u c2 -> coordinate_ok u c3 -> centre_ok ct -> map fst p = place u ct c1 c2 c3 ->
  exists f w',
    (do w1 <- hand_over (ObsModel.whole E fuel) es1 (setup w); do w2 <- hand_raw (ObsModel.whole E fuel) p w1; hand_over (ObsModel.whole E fuel) es2 w2) = Ret w' /\
    shows_facts (map fst (es1 ++ es2)) f /\ aside_kept (map fst (es1 ++ es2)) (text w) (text w') /\
    forall c, MpcfModel.atof (text w' Corr) = Ret c ->
    exists w'', puts_out (ObsModel.whole E fuel) w' (comments c (text w') ++ [card (with_S f) ++ [10]; second_line u ct c1 c2 c3 f ++ [10]]) w'' /\
      settled w'' /\ sized w'' /\ text w'' RmsDec = text w' RmsDec /\ text w'' Corr = text w' Corr.
Proof.
  intros SZ (ST1 & ST2 & ST3 & ST4) OK CO LO NM O1 O2 O3 OC MP.
  destruct (elements_two E fuel w es1 p es2 u ct c1 c2 c3 SZ OK CO NM O1 O2 O3 OC MP) as (f & w' & x & x2 & P & P1 & P2 & P3 & P4 & P5 & P6 & P7 & P8).
  exists f, w'. split; [exact P|]. split; [exact P1|]. split; [exact P3|]. intros c Hc. set (es := es1 ++ es2) in *.
  assert (OKI : forall e, In e (map fst es) -> fact_ok e).
  { intros e Hi. apply in_map_iff in Hi as ((e' & a) & <- & Hi). rewrite Forall_forall in OK. now apply (OK _ Hi). }
  assert (T : texts_ok (text w')) by (now apply (aside_texts (map fst es) (text w))).
  assert (WD : wide (with_S f)) by (intros []; try apply P1; reflexivity).
  assert (NZ : forall z, no_nul (with_S f z)) by (intros []; try apply P1; apply (no_nul_one 83); discriminate).
  assert (NF : forall q, q = FullRA \/ q = FullDec \/ q = FullMag -> text w' q = []).
  { intros q Hp. destruct P3 as (_ & A2). rewrite A2; [apply ST1; destruct Hp as [->|[->| ->]]; discriminate|]. intros e t Hi HP.
    destruct e; cbn in HP; try discriminate HP; try (injection HP as <- <-; destruct Hp as [?|[?|?]]; discriminate).
    destruct (aside_part tag) as [q'|] eqn:A; [|discriminate HP]. injection HP as -> <-.
    destruct (aside_tags tag q A) as [(-> & ->)|[(-> & ->)|[(-> & ->)|[(-> & ->)|[(-> & ->)|[(-> & ->)|(-> & ->)]]]]]]; destruct Hp as [?|[?|?]]; discriminate. }
  set (n := match ct with Some n => n | None => 399 end) in *.
  assert (HN : 0 <= n < 10 ^ 7) by (subst n; destruct ct; [exact OC|lia]).
  assert (SL : second_line u ct c1 c2 c3 f = l2_done u n c1 c2 c3 (with_S f)) by (unfold second_line, l2_done, centre_columns; subst n; destruct ct; reflexivity).
  rewrite SL.
  destruct (lines_all E fuel (card (with_S f)) x _ c n _ (lines_two E fuel (with_S f) x u n c1 c2 c3 x2 c WD NZ O1 O2 O3 HN) w') as (w'' & Q & (G1 & G2 & G3 & G4 & G5 & G6 & G7)).
  { unfold still. split; [exact P4|]. split; [rewrite P6; exact ST4|]. split; [exact P2|]. split; [exact P5|].
    split; [apply NF; auto|]. split; [apply NF; auto|]. split; [apply NF; auto|]. split; [exact T|]. split; [exact Hc|exact P8]. }
  { intros R0. assert (NOR : forall t, ~ In (Aside "rmsRA" t) (map fst es)).
    { intros t Hi. destruct P3 as (A1 & _). pose proof (A1 _ RmsRA t Hi eq_refl) as K. rewrite R0 in K. subst t. destruct (OKI _ Hi) as (_ & (q & Hp & Hs) & _). cbn in Hs. lia. }
    assert (Z : forall q, q = RmsMag \/ q = RmsTime -> text w' q = []).
    { intros q Hp. destruct P3 as (_ & A2). rewrite A2; [apply ST1; destruct Hp as [->| ->]; discriminate|]. intros e t Hi HP. destruct (aside_is e q t HP Hp) as (tag & -> & Ht).
      destruct (LO t) as (t' & Ht'); [destruct Ht as [->| ->]; auto|]. now apply (NOR t'). }
    split; apply Z; auto. }
  exists w''. split; [exact Q|]. split; [exact G1|]. split; [split; [exact G6|rewrite G7, P5; rewrite !app_length, !columns_len by assumption; reflexivity]|]. split; assumption.
Qed.
