(** Positions with more decimals than there are columns for. *)
From Coq Require Import QArith Qabs String Lia Lqa.
From Verif Require Import CBase CStr CtimeSpec CtimeBuf CtimeJd DesigModel DesigSpec MpcfSpec MpcdSpec TstrModel TstrNum CtimeModel AdesModel AdesSpec ObsModel ObsSpec ObsProofs.
From Verif Require MpcfModel MpcdProofs DesigUnpack.
Import ListNotations.
Local Open Scope string_scope.
Local Open Scope list_scope.
Local Open Scope Z_scope.

Lemma ends_num after : ends after -> num_end after.
Proof. destruct after as [|c r]; [easy|]. cbn. intros [H|[-> | ->]]; [|repeat split; lia|repeat split; lia]. split; [unfold isdigit; destruct (Z.leb_spec 48 c); [lia|reflexivity]|lia]. Qed.
Lemma place_long j n k leading top after : (1 <= j <= leading)%nat -> (8 <= n)%nat -> 0 <= k < 10 ^ Z.of_nat (j + n) -> k <= top * 10 ^ Z.of_nat n -> 0 <= top < 10 ^ Z.of_nat leading ->
  (leading = 2 \/ leading = 3)%nat -> ends after ->
  let t := ndig j (k / 10 ^ Z.of_nat n) ++ decimals n (k mod 10 ^ Z.of_nat n) in
  exists v, (Qabs (inject_Z v - inject_Z k / inject_Z (10 ^ Z.of_nat (n - 8))) <= 1 # 2)%Q /\ 0 <= v /\ (List.length (fixed_text 8 v) <= leading + 9)%nat /\
  place_value (t ++ after) (List.length t) leading =
  Ret (padsp_text (leading + 9) (fixed_text 8 v) ++ (if (leading =? 2)%nat then [32] else []), true).
Proof.
  intros Hj Hn Hk Ht Htop Hl En t. unfold place_value. rewrite firstn_text.
  assert (LT : List.length t = (j + List.length (decimals n (k mod 10 ^ Z.of_nat n)))%nat) by (subst t; now rewrite app_length, ndig_length).
  assert (PT : last_point t 0 (List.length t) = j) by (rewrite LT; apply point_of).
  rewrite PT. pose proof (decimals_length n (k mod 10 ^ Z.of_nat n)) as DL.
  destruct (Nat.leb_spec j leading); [|lia]. destruct (Nat.ltb_spec 8 (List.length t - j)); [|destruct n; lia].
  assert (PN : 0 < 10 ^ Z.of_nat n) by (apply Z.pow_pos_nonneg; lia).
  assert (KJ : 0 <= k / 10 ^ Z.of_nat n < 10 ^ Z.of_nat j).
  { rewrite Nat2Z.inj_add, Z.pow_add_r in Hk by lia. split; [apply Z.div_pos; lia|]. apply Z.div_lt_upper_bound; lia. }
  destruct (MpcdProofs.atof_parts j (k / 10 ^ Z.of_nat n) n (k mod 10 ^ Z.of_nat n) after KJ (Z.mod_pos_bound k _ PN) ltac:(lia) (ends_num _ En)) as (q & Q1 & Q2).
  assert (TA : t ++ after = ndig j (k / 10 ^ Z.of_nat n) ++ 46 :: ndig n (k mod 10 ^ Z.of_nat n) ++ after).
  { subst t. unfold decimals. destruct n; [lia|]. now rewrite <- app_assoc. }
  rewrite TA, Q1. cbn [obind].
  assert (QN : ~ (inject_Z (10 ^ Z.of_nat n) == 0)%Q) by (change 0%Q with (inject_Z 0); rewrite inject_Z_injective; lia).
  assert (Q3 : (q == inject_Z k / inject_Z (10 ^ Z.of_nat n))%Q).
  { rewrite Q2. unfold MpcdSpec.part. rewrite (Z.div_mod k (10 ^ Z.of_nat n)) at 3 by lia. rewrite inject_Z_plus, inject_Z_mult. field. exact QN. }
  assert (QP : (0 < inject_Z (10 ^ Z.of_nat n))%Q) by (change 0%Q with (inject_Z 0); now rewrite <- Zlt_Qlt).
  assert (Q0 : (0 <= q)%Q).
  { rewrite Q3. apply Qle_shift_div_l; [exact QP|]. rewrite Qmult_0_l. change 0%Q with (inject_Z 0). rewrite <- Zle_Qle. lia. }
  assert (QT : (q <= inject_Z top)%Q).
  { rewrite Q3. apply Qle_shift_div_r; [exact QP|]. rewrite <- inject_Z_mult, <- Zle_Qle. exact Ht. }
  assert (TL : top < 1000).
  { destruct Hl as [-> | ->]; [change (10 ^ Z.of_nat 2) with 100 in Htop|change (10 ^ Z.of_nat 3) with 1000 in Htop]; lia. }
  destruct (fixed_ok 8 q ltac:(lia)) as (v & F1 & F2 & F3 & _).
  { rewrite Qabs_pos by exact Q0. eapply Qle_trans; [exact QT|]. rewrite <- Zle_Qle. lia. }
  assert (MN : minus q = []) by (unfold minus; rewrite (proj2 (Qle_bool_iff 0 q) Q0); reflexivity).
  rewrite MN in F1. cbn [List.app] in F1. rewrite (Qabs_pos q Q0) in F3.
  assert (VT : v <= top * 10 ^ 8).
  { apply Qabs_Qle_condition in F3 as (_ & F3). change (10 ^ Z.of_nat 8) with (10 ^ 8) in F3.
    assert (G : (inject_Z v < inject_Z (top * 10 ^ 8 + 1))%Q).
    { rewrite inject_Z_plus, inject_Z_mult. change (inject_Z 1) with 1%Q. change (inject_Z (10 ^ 8)) with 100000000%Q in *. lra. }
    rewrite <- Zlt_Qlt in G. lia. }
  exists v. split; [|split; [lia|]].
  { assert (X : (inject_Z k / inject_Z (10 ^ Z.of_nat (n - 8)) == q * inject_Z (10 ^ Z.of_nat 8))%Q).
    { rewrite Q3. replace n with ((n - 8) + 8)%nat at 2 by lia. rewrite Nat2Z.inj_add, Z.pow_add_r by lia. rewrite inject_Z_mult. field.
      split; change 0%Q with (inject_Z 0); rewrite inject_Z_injective; apply not_eq_sym, Z.lt_neq, Z.pow_pos_nonneg; lia. }
    rewrite X. exact F3. }
  assert (FL : (List.length (fixed_text 8 v) <= leading + 9)%nat).
  { unfold fixed_text. rewrite app_length, decimals_length. change (10 ^ Z.of_nat 8) with 100000000 in *. change (10 ^ 8) with 100000000 in VT.
    assert (V8 : 0 <= v / 100000000 < 10 ^ Z.of_nat leading) by (split; [apply Z.div_pos; lia|apply Z.div_lt_upper_bound; lia]).
    pose proof (DesigUnpack.dec_len (v / 100000000) leading ltac:(destruct Hl as [-> | ->]; cbn; lia) V8). lia. }
  split; [exact FL|]. rewrite F1.
  assert (PL : List.length (padsp_text (leading + 9) (fixed_text 8 v)) = (leading + 9)%nat) by (unfold padsp_text; rewrite app_length, repeat_length; lia).
  destruct Hl as [-> | ->]; cbn [Nat.eqb].
  - change (2 + 9)%nat with 11%nat in *. rewrite app_length, PL. cbn [List.length]. reflexivity.
  - change (3 + 9)%nat with 12%nat in *. rewrite PL, app_nil_r. reflexivity.
Qed.

Lemma first_digit j n k after : (1 <= j)%nat -> exists c r, (ndig j (k / 10 ^ Z.of_nat n) ++ decimals n (k mod 10 ^ Z.of_nat n)) ++ after = c :: r /\ isdigit c = true.
Proof.
  intros Hj. destruct j as [|j]; [lia|]. pose proof (ndig_digit (S j) (k / 10 ^ Z.of_nat n)) as D. destruct (ndig (S j) (k / 10 ^ Z.of_nat n)) as [|c r] eqn:EN; [discriminate EN|].
  exists c. eexists. split; [reflexivity|]. apply D. now left.
Qed.
Lemma pad_length w t : (List.length t <= w)%nat -> List.length (padsp_text w t) = w.
Proof. intros H. unfold padsp_text. rewrite app_length, repeat_length. lia. Qed.
Ltac dispatch n :=
  unfold process_tag;
  repeat match goal with
  | |- context [if Z.eqb n ?c then ?a else ?b] => let v := eval vm_compute in (Z.eqb n c) in change (if Z.eqb n c then a else b) with (if v then a else b); cbv iota
  | |- context [if (?c <=? n) && ?d then ?a else ?b] => let v := eval vm_compute in ((c <=? n) && d) in change (if (c <=? n) && d then a else b) with (if v then a else b); cbv iota
  end.
Lemma long_ra E fuel f w tail j n k after : wide f -> line w = card f ++ tail -> (1 <= j <= 3)%nat -> (8 <= n)%nat -> (j + n <= 24)%nat ->
  0 <= k < 10 ^ Z.of_nat (j + n) -> k <= 360 * 10 ^ Z.of_nat n -> ends after ->
  let t := text_of (RightAscension j n k) in
  exists v w', process_tag E fuel w (num "ra") (t ++ after) (List.length t) = Ret (false, [], w') /\
    (Qabs (inject_Z v - inject_Z k / inject_Z (10 ^ Z.of_nat (n - 8))) <= 1 # 2)%Q /\
    line w' = card (upd f Ra (padsp_text 12 (fixed_text 8 v))) ++ tail /\ text w' FullRA = t /\ (forall p, p <> FullRA -> text w' p = text w p) /\
    line2 w' = line2 w /\ t2k w' = t2k w /\ id_set w' = id_set w /\ center w' = center w /\ vel w' = vel w /\ ignore_artsat w' = ignore_artsat w.
Proof.
  intros HW HL Hj Hn Hl Hk Ht En t. unfold t. cbn [text_of]. change (num "ra") with 96. unfold process_tag. dispatch 96.
  destruct (place_long j n k 3 360 after Hj Hn Hk Ht ltac:(cbn; lia) ltac:(auto) En) as (v & V1 & V2 & V3 & P). cbv zeta in P. set (u := ndig j _ ++ _) in *.
  destruct (first_digit j n k after ltac:(lia)) as (c & r & Hc & Dc). fold u in Hc.
  assert (Z0 : nth 0 (u ++ after) 0 =? 43 = false).
  { rewrite Hc. cbn. destruct (Z.eqb_spec c 43) as [->|]; [discriminate Dc|reflexivity]. }
  assert (LU : List.length u = (j + S n)%nat) by (subst u; rewrite app_length, ndig_length, decimals_length; destruct n; lia).
  rewrite Z0. rewrite P. cbn [obind Nat.eqb Nat.add]. rewrite app_nil_r, HL. change 32 with (start Ra).
  rewrite put_full; [|assumption|apply pad_length; exact V3]. cbn [obind]. rewrite LU. destruct (Z.leb_spec (Z.of_nat (j + S n) + 1) 26); [|lia]. cbn [obind].
  rewrite <- LU, firstn_text. exists v. eexists. split; [reflexivity|]. split; [exact V1|]. split; [reflexivity|]. split; [reflexivity|]. split; [|repeat split].
  intros p Hp. cbn [set_text set_line text]. destruct (part_eq_dec FullRA p) as [<-|]; [contradiction|reflexivity].
Qed.

Lemma put_dec f sg t tail : wide f -> List.length t = 11%nat ->
  (do l <- put_at (card f ++ tail) 44 [sg]; put_at l 45 (t ++ [32])) = Ret (card (upd (upd f Dec (sg :: t)) Unused (32 :: tl (f Unused))) ++ tail).
Proof.
  intros W L. set (A := f Object ++ f Star ++ f Note1 ++ f Note2 ++ f Date ++ f Ra). set (C := f Mag ++ f Filter ++ f Net ++ f Ref ++ f Site).
  assert (LA : List.length A = 44%nat) by (subst A; rewrite !app_length, !W; reflexivity).
  assert (E0 : forall g, (forall z, z <> Dec -> z <> Unused -> g z = f z) -> card g ++ tail = A ++ (g Dec ++ g Unused) ++ C ++ tail).
  { intros g G. unfold card, zones. cbn [map concat]. rewrite (G Object), (G Star), (G Note1), (G Note2), (G Date), (G Ra), (G Mag), (G Filter), (G Net), (G Ref), (G Site) by discriminate.
    subst A C. rewrite app_nil_r, <- !app_assoc. reflexivity. }
  rewrite (E0 f) by auto. assert (LD : List.length (f Dec ++ f Unused) = 21%nat) by (rewrite app_length, !W; reflexivity).
  pose proof (put_at_app A (f Dec ++ f Unused) (C ++ tail) 0 [sg]) as P1. rewrite LA in P1. change (Z.of_nat 44 + Z.of_nat 0) with 44 in P1. rewrite P1 by (rewrite LD; cbn; lia). cbn [obind].
  set (B := firstn 0 (f Dec ++ f Unused) ++ [sg] ++ skipn (0 + List.length [sg]) (f Dec ++ f Unused)).
  assert (LB : List.length B = 21%nat) by (subst B; rewrite !app_length, skipn_length, LD; reflexivity).
  pose proof (put_at_app A B (C ++ tail) 1 (t ++ [32])) as P2. rewrite LA in P2. change (Z.of_nat 44 + Z.of_nat 1) with 45 in P2. rewrite P2 by (rewrite LB, app_length, L; cbn; lia).
  f_equal. rewrite E0 by (intros z H1 H2; rewrite !upd_other; auto). f_equal. f_equal.
  rewrite upd_other by discriminate. rewrite !upd_same. subst B. rewrite app_length, L. cbn [List.length Nat.add firstn List.app skipn]. f_equal. rewrite <- app_assoc. f_equal. cbn [List.app]. f_equal.
  pose proof (W Dec) as WD. pose proof (W Unused) as WU. cbn in WD, WU. clear - WD WU. destruct (f Dec) as [|a0 [|a1 [|a2 [|a3 [|a4 [|a5 [|a6 [|a7 [|a8 [|a9 [|b0 [|b1 [|]]]]]]]]]]]]]; try discriminate WD.
  destruct (f Unused); [discriminate WU|reflexivity].
Qed.
Lemma long_dec E fuel f w tail sign j n k after : wide f -> line w = card f ++ tail -> (1 <= j <= 2)%nat -> (8 <= n)%nat -> (j + n <= 23)%nat ->
  0 <= k < 10 ^ Z.of_nat (j + n) -> k <= 90 * 10 ^ Z.of_nat n -> ends after ->
  let t := text_of (Declination sign j n k) in
  let sg := match sign with Some true => 45 | _ => 43 end in
  exists v w', process_tag E fuel w (num "dec") (t ++ after) (List.length t) = Ret (false, [], w') /\
    (Qabs (inject_Z v - inject_Z k / inject_Z (10 ^ Z.of_nat (n - 8))) <= 1 # 2)%Q /\
    line w' = card (upd (upd f Dec (sg :: padsp_text 11 (fixed_text 8 v))) Unused (32 :: tl (f Unused))) ++ tail /\
    text w' FullDec = sg :: text_of (Declination None j n k) /\ (forall p, p <> FullDec -> text w' p = text w p) /\
    line2 w' = line2 w /\ t2k w' = t2k w /\ id_set w' = id_set w /\ center w' = center w /\ vel w' = vel w /\ ignore_artsat w' = ignore_artsat w.
Proof.
  intros HW HL Hj Hn Hl Hk Ht En t sg. unfold t. cbn [text_of]. change (num "dec") with 29. unfold process_tag. dispatch 29.
  destruct (place_long j n k 2 90 after Hj Hn Hk Ht ltac:(cbn; lia) ltac:(auto) En) as (v & V1 & V2 & V3 & P). cbv zeta in P. cbn [List.app]. set (u := ndig j _ ++ _) in *.
  destruct (first_digit j n k after ltac:(lia)) as (c & r & Hc & Dc). fold u in Hc.
  assert (LU : List.length u = (j + S n)%nat) by (subst u; rewrite app_length, ndig_length, decimals_length; destruct n; lia).
  assert (Z0 : (nth 0 (u ++ after) 0 =? 45) || (nth 0 (u ++ after) 0 =? 43) = false).
  { rewrite Hc. cbn. destruct (Z.eqb_spec c 43) as [->|]; [discriminate Dc|]. destruct (Z.eqb_spec c 45) as [->|]; [discriminate Dc|reflexivity]. }
  set (x := (match sign with Some true => zs "-" | Some false => zs "+" | None => [] end ++ u) ++ after).
  assert (G1 : (if (nth 0 x 0 =? 45) || (nth 0 x 0 =? 43) then nth 0 x 0 else 43) = sg).
  { subst x sg. destruct sign as [[|]|]; [reflexivity|reflexivity|]. cbn [List.app]. now rewrite Z0. }
  assert (G2 : (if (nth 0 x 0 =? 45) || (nth 0 x 0 =? 43) then (tl x, Nat.pred (List.length (match sign with Some true => zs "-" | Some false => zs "+" | None => [] end ++ u)))
    else (x, List.length (match sign with Some true => zs "-" | Some false => zs "+" | None => [] end ++ u))) = (u ++ after, List.length u)).
  { subst x. destruct sign as [[|]|]; [reflexivity|reflexivity|]. cbn [List.app]. now rewrite Z0. }
  cbv zeta. rewrite G1, G2. unfold col. rewrite HL.
  pose proof (put_dec f sg (padsp_text 11 (fixed_text 8 v)) tail HW (pad_length 11 _ V3)) as PD.
  destruct (put_at (card f ++ tail) 44 [sg]) as [l1| | |]; cbn [obind] in PD |- *; try discriminate PD. rewrite P. cbn [obind Nat.eqb Nat.add set_line line]. rewrite PD. cbn [obind].
  rewrite LU. destruct (Z.leb_spec (Z.of_nat (j + S n) + 2) 26); [|lia]. cbn [obind].
  rewrite <- LU, firstn_text. exists v. eexists. split; [reflexivity|]. split; [exact V1|]. split; [reflexivity|]. split; [reflexivity|]. split; [|repeat split].
  intros p Hp. cbn [set_text set_line text]. destruct (part_eq_dec FullDec p) as [<-|]; [contradiction|reflexivity].
Qed.
