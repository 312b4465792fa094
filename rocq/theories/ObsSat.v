(** Observations from spacecraft. *)
From Coq Require Import QArith String Lia.
From Verif Require Import CBase CStr CtimeSpec CtimeBuf DesigModel DesigSpec DesigBase MpcfSpec MpcdSpec TstrModel TstrNum CtimeModel AdesModel AdesSpec ObsModel ObsSpec ObsProofs ObsMore ObsLines ObsPsv ObsLong ObsSatSpec.
From Verif Require MpcfModel SofModel DesigUnpack.
Import ListNotations.
Local Open Scope string_scope.
Local Open Scope list_scope.
Local Open Scope Z_scope.

Lemma index_digits a r : (forall x, In x a -> x <> 46) -> index_of 46 (a ++ 46 :: r) = Some (List.length a).
Proof.
  intros H. unfold index_of. rewrite span_none; [|intros y Hy; apply negb_true_iff, Z.eqb_neq; now apply H|reflexivity].
  rewrite app_length. cbn [List.length]. destruct (Nat.eqb_spec (List.length a) (List.length a + S (List.length r))); [lia|reflexivity].
Qed.
Lemma ndig_not n v c : (c < 48 \/ 57 < c) -> ~ In c (ndig n v).
Proof. intros H Hi. pose proof (ndig_digit n v c Hi) as D. unfold isdigit in D. apply andb_prop in D as (D1 & D2). apply Z.leb_le in D1. apply Z.leb_le in D2. lia. Qed.
Lemma has_not c s : ~ In c s -> has_byte c s = false.
Proof. intros H. unfold has_byte. destruct (existsb (Z.eqb c) s) eqn:E; [|reflexivity]. apply existsb_exists in E as (y & Hy & E). apply Z.eqb_eq in E. subst. contradiction. Qed.
Lemma digits_len c : List.length (digits_text c) = (whole c + S (decs c))%nat.
Proof. unfold digits_text. rewrite app_length. cbn [List.length]. now rewrite !ndig_length. Qed.
Lemma digits_not c x : (x < 48 \/ 57 < x) -> x <> 46 -> ~ In x (digits_text c).
Proof. intros H N Hi. unfold digits_text in Hi. apply in_app_iff in Hi as [Hi|[Hi|Hi]]; [now apply (ndig_not _ _ _ H Hi)|lia|now apply (ndig_not _ _ _ H Hi)]. Qed.
Definition sg (c : coordinate) : Z := match sign c with Some true => 45 | _ => 43 end.
Lemma columns_len u c : coordinate_ok u c -> List.length (coordinate_columns u c) = 12%nat.
Proof.
  intros (H1 & H2 & H3). unfold coordinate_columns. cbn [List.length]. f_equal. unfold on_left, blanks. rewrite app_length, repeat_length.
  assert (List.length (blanks (match u with Km => 5 - whole c | Au => 0 end) ++ firstn 10 (digits_text c)) <= 11)%nat; [|unfold blanks in *; lia].
  unfold blanks. rewrite app_length, repeat_length, firstn_length, digits_len. destruct u; lia.
Qed.
Lemma put_two A C s o b : (S o + List.length b <= 12)%nat ->
  (do l <- put_at (A ++ blanks 12 ++ C) (Z.of_nat (List.length A)) [s]; put_at l (Z.of_nat (List.length A) + Z.of_nat (S o)) b) =
  Ret (A ++ (s :: on_left 11 (blanks o ++ b)) ++ C).
Proof.
  intros H. pose proof (put_at_app A (blanks 12) C 0 [s] ltac:(cbn; lia)) as P1. rewrite Z.add_0_r in P1. rewrite P1. cbn [obind].
  change (firstn 0 (blanks 12) ++ [s] ++ skipn (0 + List.length [s]) (blanks 12)) with (s :: blanks 11).
  rewrite put_at_app by (cbn [List.length]; unfold blanks; rewrite repeat_length; lia). f_equal. f_equal. f_equal. cbn [firstn List.app]. f_equal.
  unfold on_left, blanks. rewrite app_length, repeat_length, <- app_assoc. f_equal; [|f_equal].
  - replace 11%nat with (o + (11 - o))%nat by lia. rewrite repeat_app. rewrite firstn_text_n by apply repeat_length. reflexivity.
  - cbn [Nat.add skipn]. replace 11%nat with ((o + List.length b) + (11 - (o + List.length b)))%nat at 1 by lia. rewrite repeat_app. rewrite skipn_app, skipn_all2, repeat_length, Nat.sub_diag by (rewrite repeat_length; lia). cbn. reflexivity.
Qed.
Ltac dispatch n :=
  unfold process_tag;
  repeat match goal with
  | |- context [if Z.eqb n ?c then ?a else ?b] => let v := eval vm_compute in (Z.eqb n c) in change (if Z.eqb n c then a else b) with (if v then a else b); cbv iota
  | |- context [if (?c <=? n) && ?d then ?a else ?b] => let v := eval vm_compute in ((c <=? n) && d) in change (if (c <=? n) && d then a else b) with (if v then a else b); cbv iota
  end.
Lemma offset_step u c w k A C : coordinate_ok u c -> 0 <= k -> nth 32 (line2 w) 0 = frame_digit u -> line2 w = A ++ blanks 12 ++ C -> Z.of_nat (List.length A) = 34 + k * 12 ->
  satellite_offset w k (List.length (coordinate_text c)) (coordinate_text c) = Ret (false, [], set_line2 w (A ++ coordinate_columns u c ++ C)).
Proof.
  intros (H1 & H2 & H3) Hk Hu HL HA. unfold satellite_offset. cbv zeta.
  assert (SGN : coordinate_text c = (match sign c with Some true => [45] | Some false => [43] | None => [] end) ++ digits_text c) by (unfold coordinate_text; destruct (sign c) as [[|]|]; reflexivity).
  assert (LD := digits_len c).
  assert (NE : forall x, x = 101 \/ x = 69 -> has_byte x (coordinate_text c) = false).
  { intros x Hx. apply has_not. rewrite SGN. intros Hi. apply in_app_iff in Hi as [Hi|Hi]; [destruct (sign c) as [[|]|]; [destruct Hi as [Hi|[]]; lia|destruct Hi as [Hi|[]]; lia|destruct Hi]|]. apply (digits_not c x) in Hi; auto; lia. }
  rewrite (NE 101), (NE 69) by auto. cbn [orb obind].
  assert (HD : exists d r, digits_text c = d :: r /\ 48 <= d <= 57).
  { unfold digits_text. destruct (whole c) as [|m] eqn:W; [destruct u; lia|]. pose proof (ndig_digit (S m) (units c / 10 ^ Z.of_nat (decs c))) as D. destruct (ndig (S m) (units c / 10 ^ Z.of_nat (decs c))) as [|d r] eqn:E; [discriminate E|].
    exists d. eexists. split; [reflexivity|]. pose proof (D d ltac:(now left)) as K. unfold isdigit in K. apply andb_prop in K as (K1 & K2). apply Z.leb_le in K1. apply Z.leb_le in K2. lia. }
  destruct HD as (d & r & HD & Hd).
  assert (NM : (if negb (hd 0 (coordinate_text c) =? 43) && negb (hd 0 (coordinate_text c) =? 45)
     then (if Z.of_nat (List.length (coordinate_text c)) + 1 <=? 39 then Ret (43 :: firstn (Z.to_nat (Z.of_nat (List.length (coordinate_text c)) + 1)) (coordinate_text c), Z.of_nat (List.length (coordinate_text c)) + 1) else UB)
     else Ret (coordinate_text c, Z.of_nat (List.length (coordinate_text c)))) = Ret (sg c :: digits_text c, Z.of_nat (S (List.length (digits_text c))))).
  { unfold sg. rewrite SGN. destruct (sign c) as [[|]|]; [reflexivity|reflexivity|]. cbn [List.app]. rewrite HD at 1 2. cbn [hd]. destruct (Z.eqb_spec d 43); [lia|]. destruct (Z.eqb_spec d 45); [lia|]. cbn [negb andb].
    destruct (Z.leb_spec (Z.of_nat (List.length (digits_text c)) + 1) 39); [|lia]. rewrite firstn_all2 by lia. do 2 f_equal. lia. }
  rewrite NM. cbn [obind hd tl]. rewrite HL, <- HA.
  assert (IX : index_of 46 (sg c :: digits_text c) = Some (S (whole c))).
  { unfold digits_text. rewrite app_comm_cons. rewrite index_digits; [cbn [List.length]; now rewrite ndig_length|]. intros x [Hx|Hx]; [unfold sg in Hx; destruct (sign c) as [[|]|]; lia|]. intros ->. apply (ndig_not _ _ 46) in Hx; auto. lia. }
  set (cnt := Z.to_nat (if 11 <? Z.of_nat (S (List.length (digits_text c))) then 10 else Z.of_nat (S (List.length (digits_text c))) - 1)).
  assert (CB : bytes_at (digits_text c) cnt = Ret (firstn 10 (digits_text c))).
  { unfold bytes_at, cnt. destruct (Z.ltb_spec 11 (Z.of_nat (S (List.length (digits_text c))))).
    - change (Z.to_nat 10) with 10%nat. destruct (Nat.leb_spec 10 (List.length (digits_text c))); [reflexivity|lia].
    - replace (Z.to_nat (Z.of_nat (S (List.length (digits_text c))) - 1)) with (List.length (digits_text c)) by lia. rewrite Nat.leb_refl, firstn_all. rewrite firstn_all2 by lia. reflexivity. }
  set (o := match u with Km => (5 - whole c)%nat | Au => 0%nat end).
  pose proof (put_two A C (sg c) o (firstn 10 (digits_text c))) as PT. rewrite IX. fold (coordinate_columns u c).
  destruct (put_at (A ++ blanks 12 ++ C) (Z.of_nat (List.length A)) [sg c]) as [l1| | |] eqn:E1; cbn [obind] in PT |- *;
    try (exfalso; assert (X : (S o + List.length (firstn 10 (digits_text c)) <= 12)%nat) by (rewrite firstn_length; unfold o; destruct u; lia); specialize (PT X); discriminate PT).
  assert (PT' := PT ltac:(rewrite firstn_length; unfold o; destruct u; lia)). clear PT.
  rewrite <- HL, Hu. destruct u; cbn [frame_digit Z.eqb Pos.eqb].
  - destruct (Z.ltb_spec (Z.of_nat (S (whole c))) 9); [|lia]. fold cnt. rewrite CB. cbn [obind].
    replace (Z.of_nat (List.length A) + 6 + (if 7 <=? Z.of_nat (S (whole c)) then 1 else 0) + (if 8 <=? Z.of_nat (S (whole c)) then 1 else 0) - Z.of_nat (S (whole c)) + 1)
      with (Z.of_nat (List.length A) + Z.of_nat (S o)) by (unfold o; destruct (Z.leb_spec 7 (Z.of_nat (S (whole c)))), (Z.leb_spec 8 (Z.of_nat (S (whole c)))); lia).
    rewrite PT'. reflexivity.
  - destruct (Z.ltb_spec (Z.of_nat (S (whole c))) 4); [|lia]. fold cnt. rewrite CB. cbn [obind].
    replace (Z.of_nat (List.length A) + 2 + (if Z.of_nat (S (whole c)) =? 3 then 1 else 0) - Z.of_nat (S (whole c)) + 1)
      with (Z.of_nat (List.length A) + Z.of_nat (S o)) by (unfold o; destruct (Z.eqb_spec (Z.of_nat (S (whole c))) 3); lia).
    rewrite PT'. reflexivity.
Qed.

(** The second line while the position is filled in. *)
Definition l2_start (d : Z) : list Z := [32] ++ blanks 13 ++ [115] ++ blanks 17 ++ [d] ++ [32].
Lemma text_short u c : coordinate_ok u c -> (List.length (coordinate_text c) < 40)%nat.
Proof. intros (H1 & H2 & H3). unfold coordinate_text. rewrite app_length, digits_len. destruct (sign c) as [[|]|]; cbn; lia. Qed.
Lemma line_S f tail : wide f -> f Note2 = [83] -> nth 14 (card f ++ tail) 0 = 83.
Proof.
  intros W H. rewrite card_is, H, <- !app_assoc. rewrite app_nth2 by (rewrite W; cbn; lia). rewrite W. rewrite app_nth2 by (rewrite W; cbn; lia). rewrite W. rewrite app_nth2 by (rewrite W; cbn; lia). rewrite W. reflexivity.
Qed.
Lemma pos_step E fuel i u c f tail w A C after : In (i, 34 + (Z.of_nat i - 1) * 12) [(1%nat, 34); (2%nat, 46); (3%nat, 58)] -> coordinate_ok u c -> wide f -> f Note2 = [83] -> line w = card f ++ tail ->
  nth 32 (line2 w) 0 = frame_digit u -> line2 w = A ++ blanks 12 ++ C -> Z.of_nat (List.length A) = 34 + (Z.of_nat i - 1) * 12 ->
  process_tag E fuel w (num (match i with 1%nat => "pos1" | 2%nat => "pos2" | _ => "pos3" end)) (coordinate_text c ++ after) (List.length (coordinate_text c)) =
  Ret (false, [], set_line2 w (A ++ coordinate_columns u c ++ C)).
Proof.
  intros Hi OK W HN HL H32 H2 HA.
  assert (NM : (if (List.length (coordinate_text c) <? 40)%nat then Ret (firstn (List.length (coordinate_text c)) (coordinate_text c ++ after)) else UB) = Ret (coordinate_text c)).
  { pose proof (text_short u c OK). destruct (Nat.ltb_spec (List.length (coordinate_text c)) 40); [|lia]. now rewrite firstn_text. }
  pose proof (line_S f tail W HN) as L14. rewrite <- HL in L14.
  destruct Hi as [Hi|[Hi|[Hi|[]]]]; injection Hi as <-.
  - change (num "pos1") with 82. dispatch 82. rewrite L14. change (83 =? 83) with true. cbv iota. rewrite NM. cbn [obind]. change (82 - ADES_pos1) with 0. apply offset_step; auto. lia.
  - change (num "pos2") with 83. dispatch 83. rewrite L14. change (83 =? 83) with true. cbv iota. rewrite NM. cbn [obind]. change (83 - ADES_pos1) with 1. apply offset_step; auto. lia.
  - change (num "pos3") with 84. dispatch 84. rewrite L14. change (83 =? 83) with true. cbv iota. rewrite NM. cbn [obind]. change (84 - ADES_pos1) with 2. apply offset_step; auto. lia.
Qed.
Lemma sys_step E fuel u f tail w x after : wide f -> line w = card f ++ tail -> line2 w = 0 :: blanks 79 ++ [10; 0; x] ->
  process_tag E fuel w (num "sys") (frame_name u ++ after) (List.length (frame_name u)) =
  Ret (false, [], set_line (set_line2 w (l2_start (frame_digit u) ++ blanks 46 ++ [10; 0; x])) (card (upd f Note2 [83]) ++ tail)).
Proof.
  intros W HL H2. change (num "sys") with 136. dispatch 136.
  assert (NM : (if (List.length (frame_name u) <? 40)%nat then Ret (firstn (List.length (frame_name u)) (frame_name u ++ after)) else UB) = Ret (frame_name u)) by (rewrite firstn_text; destruct u; reflexivity).
  rewrite NM. cbn [obind]. rewrite H2. unfold col. cbn [line set_line2]. rewrite HL.
  pose proof (put_zone f Note2 0 [83] tail W ltac:(cbn; lia)) as PZ. cbn [start] in PZ. change (14 + Z.of_nat 0) with 14 in PZ.
  assert (N2 : firstn 0 (f Note2) ++ [83] ++ skipn (0 + List.length [83]) (f Note2) = [83]) by (pose proof (W Note2) as K; cbn in K; destruct (f Note2) as [|a [|b r]]; cbn in K |- *; try lia; reflexivity).
  rewrite N2 in PZ.
  assert (Q1 : put_at (0 :: blanks 79 ++ [10; 0; x]) 0 [32] = Ret (32 :: blanks 79 ++ [10; 0; x])) by reflexivity.
  assert (Q2 : put_at (32 :: blanks 79 ++ [10; 0; x]) 14 [115] = Ret ((32 :: blanks 13) ++ 115 :: blanks 65 ++ [10; 0; x])) by reflexivity.
  assert (Q3 : forall d, put_at ((32 :: blanks 13) ++ 115 :: blanks 65 ++ [10; 0; x]) 32 [d] = Ret (l2_start d ++ blanks 46 ++ [10; 0; x])) by reflexivity.
  assert (KD : (if streq (frame_name u) (zs "ICRF_KM") then Ret (49, 115) else if streq (frame_name u) (zs "ICRF_AU") then Ret (50, 115) else if streq (frame_name u) (zs "WGS84") then Ret (49, 118) else Abort) = Ret (frame_digit u, 115)) by (destruct u; reflexivity).
  rewrite Q1. cbn [obind]. rewrite KD. cbn [obind]. rewrite Q2. cbn [obind]. rewrite Q3. cbn [obind]. change (toupper 115) with 83. rewrite PZ. reflexivity.
Qed.
Lemma atoi_centre n : 0 <= n < 10 ^ 7 -> SofModel.atoi (dec n) = Ret n.
Proof.
  intros H. destruct (dec_ok n ltac:(lia)) as (D1 & D2 & D3). unfold SofModel.atoi. rewrite <- (app_nil_r (dec n)). rewrite (scan_d_num IMAX (dec n) n []); [reflexivity|repeat split; assumption|exact I|unfold IMAX; lia].
Qed.
Lemma centre_step E fuel w n after : 0 <= n < 10 ^ 7 ->
  process_tag E fuel w (num "ctr") (dec n ++ after) (List.length (dec n)) = Ret (false, [], set_center w n).
Proof.
  intros H. change (num "ctr") with 28. dispatch 28. pose proof (DesigUnpack.dec_len n 7 ltac:(lia) ltac:(cbn; lia)) as DL.
  destruct (Nat.ltb_spec (List.length (dec n)) 40); [|lia]. rewrite firstn_text. cbn [obind]. rewrite atoi_centre by exact H. reflexivity.
Qed.
Definition centre_of (ct : option Z) (w : obs) : Z := match ct with Some n => n | None => center w end.
Lemma place_step E fuel u ct c1 c2 c3 p f tail w x : wide f -> line w = card f ++ tail -> line2 w = 0 :: blanks 79 ++ [10; 0; x] ->
  coordinate_ok u c1 -> coordinate_ok u c2 -> coordinate_ok u c3 -> centre_ok ct -> map fst p = place u ct c1 c2 c3 ->
  exists w', hand_raw (ObsModel.whole E fuel) p w = Ret w' /\ line w' = card (upd f Note2 [83]) ++ tail /\
    line2 w' = l2_start (frame_digit u) ++ coordinate_columns u c1 ++ coordinate_columns u c2 ++ coordinate_columns u c3 ++ blanks 10 ++ [10; 0; x] /\
    center w' = centre_of ct w /\ text w' = text w /\ t2k w' = t2k w /\ vel w' = vel w /\ id_set w' = id_set w /\ ignore_artsat w' = ignore_artsat w.
Proof.
  intros W HL H2 O1 O2 O3 OC MP. unfold place in MP. cbn [List.app] in MP.
  destruct p as [|((t0 & x0) & a0) p]; [discriminate MP|]. cbn [map fst] in MP. injection MP as -> -> MP.
  assert (W' : wide (upd f Note2 [83])) by (intros z; unfold upd; destruct (zone_dec Note2 z) as [<-|]; [reflexivity|apply W]).
  cbn [hand_raw h_tag ObsModel.whole]. rewrite (sys_step E fuel u f tail w x a0 W HL H2). cbn [obind].
  set (w1 := set_line (set_line2 w (l2_start (frame_digit u) ++ blanks 46 ++ [10; 0; x])) (card (upd f Note2 [83]) ++ tail)).
  set (w2 := match ct with Some n => set_center w1 n | None => w1 end).
  assert (ST : exists p3, hand_raw (ObsModel.whole E fuel) p w1 = hand_raw (ObsModel.whole E fuel) p3 w2 /\ map fst p3 = [("pos1", coordinate_text c1); ("pos2", coordinate_text c2); ("pos3", coordinate_text c3)]).
  { destruct ct as [n|]; [|exists p; split; [reflexivity|exact MP]]. cbn [List.app] in MP. destruct p as [|((t1 & x1) & a1) p]; [discriminate MP|]. cbn [map fst] in MP. injection MP as -> -> MP.
    exists p. split; [|exact MP]. cbn [hand_raw h_tag ObsModel.whole]. rewrite centre_step by exact OC. reflexivity. }
  destruct ST as (p3 & -> & M3). clear MP p.
  destruct p3 as [|((? & ?) & a1) [|((? & ?) & a2) [|((? & ?) & a3) [|? ?]]]]; try discriminate M3. cbn [map fst] in M3. injection M3 as -> -> -> -> -> ->.
  assert (LN : forall v, line (set_line2 v (line2 v)) = line v) by reflexivity.
  assert (L2 : line w2 = card (upd f Note2 [83]) ++ tail) by (subst w2 w1; destruct ct; reflexivity).
  assert (LL2 : line2 w2 = l2_start (frame_digit u) ++ blanks 12 ++ (blanks 12 ++ blanks 12 ++ blanks 10 ++ [10; 0; x])) by (subst w2 w1; destruct ct; reflexivity).
  assert (N32 : forall l, nth 32 (l2_start (frame_digit u) ++ l) 0 = frame_digit u) by reflexivity.
  assert (LC1 := columns_len u c1 O1). assert (LC2 := columns_len u c2 O2).
  cbn [hand_raw h_tag ObsModel.whole].
  rewrite (pos_step E fuel 1 u c1 (upd f Note2 [83]) tail w2 (l2_start (frame_digit u)) (blanks 12 ++ blanks 12 ++ blanks 10 ++ [10; 0; x]) a1); auto; [|cbn; auto|now rewrite LL2]. cbn [obind].
  rewrite (pos_step E fuel 2 u c2 (upd f Note2 [83]) tail _ (l2_start (frame_digit u) ++ coordinate_columns u c1) (blanks 12 ++ blanks 10 ++ [10; 0; x]) a2); auto;
    try solve [cbn; auto|cbn [set_line2 line2]; now rewrite <- ?app_assoc|rewrite app_length, LC1; reflexivity]. cbn [obind].
  rewrite (pos_step E fuel 3 u c3 (upd f Note2 [83]) tail _ (l2_start (frame_digit u) ++ coordinate_columns u c1 ++ coordinate_columns u c2) (blanks 10 ++ [10; 0; x]) a3); auto;
    try solve [cbn; auto|cbn [set_line2 line2]; now rewrite <- ?app_assoc|rewrite !app_length, LC1, LC2; reflexivity].
  cbn [obind]. eexists. split; [reflexivity|]. cbn [set_line2 line line2 center text t2k vel id_set ignore_artsat].
  split; [exact L2|]. split; [now rewrite <- !app_assoc|]. subst w2 w1. destruct ct; repeat split.
Qed.
