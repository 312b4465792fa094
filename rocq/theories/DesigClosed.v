(** unpack_mpc_desig( ) in closed form, continued: the whole function. *)
From Coq Require Import Lia ZifyBool String Btauto.
From Verif Require Import CBase CLemmas CStr StrModel StrProofs DesigModel DesigBase DesigUnpack.
Open Scope list_scope.

Definition planet_of (c : Z) : list Z :=
  if c =? 86 then zs "Venus" else if c =? 69 then zs "Earth" else if c =? 77 then zs "Mars"
  else if c =? 74 then zs "Jupiter" else if c =? 83 then zs "Saturn" else if c =? 85 then zs "Uranus"
  else if c =? 78 then zs "Neptune" else zs "Pluto".
Definition is_planet (c : Z) : bool :=
  (c =? 77) || (c =? 86) || (c =? 69) || (c =? 74) || (c =? 83) || (c =? 85) || (c =? 78) || (c =? 80).
Definition roman (n : Z) : list Z :=
  nth (Z.to_nat (n / 100)) roman_hundreds [] ++ nth (Z.to_nat (n / 10 mod 10)) roman_tens []
  ++ nth (Z.to_nat (n mod 10)) roman_digits [].
Fixpoint rtrim (s : list Z) : list Z :=
  match s with
  | [] => []
  | c :: r => match rtrim r with [] => if c <=? 32 then [] else [c] | r' => c :: r' end
  end.
Fixpoint drop (f : Z -> bool) (s : list Z) : list Z :=
  match s with [] => [] | c :: r => if f c then drop f r else s end.

Definition sp (c : Z) : bool := c =? 32.

(** The parts of [unpack_mpc_desig]: the type and the text. *)
Definition natsat_res c0 c1 c2 c3 : outcome (Z * list Z) :=
  let text := planet_of c0 ++ [32] ++ roman (100 * (c1 - 48) + 10 * (c2 - 48) + (c3 - 48)) in
  if (length text <? 16)%nat then Ret (OBJ_DESIG_NATSAT_NUMBERED, text) else Abort.
Definition natsat_prov_text c5 c6 c7 c8 c9 c10 : list Z :=
  let digit := mutant_hex_char_to_int c9 in
  zs "S/" ++ dec (c5 - 55) ++ [c6; c7; 32; c8; 32]
  ++ (if 10 <? digit then [48 + digit / 10] else []) ++ (if digit =? 0 then [] else [48 + digit mod 10]) ++ [c10].
Definition numbered_res (prov : option (list Z)) c0 c1 c2 c3 c4 c10 c11 : outcome (option (Z * list Z)) :=
  if isdigit c4 then
    match prov with
    | None => UB
    | Some p =>
        let text := [40] ++ dec (mutant_hex_char_to_int c0 * 10000 + dig_val 0 [c1; c2; c3; c4]) ++ [41]
          ++ (match p with [] => [] | _ => [32; 61; 32] ++ p end) in
        if (length text <? 23)%nat then Ret (Some (OBJ_DESIG_ASTEROID_NUMBERED, text)) else Abort
    end
  else if strchr (zs "PCDXAI") c4 then
    Ret (Some (OBJ_DESIG_COMET_NUMBERED,
      (if isdigit c0 then drop (Z.eqb 48) [c0; c1; c2; c3] else []) ++ [c4]
      ++ (if islower c11 then [45] ++ (if islower c10 then [c10 + 65 - 97] else []) ++ [c11 + 65 - 97] else [])))
  else Ret None.
Definition as_is_res (pre : list Z) (q : list Z) (art : outcome bool) : outcome (Z * list Z) :=
  do a <- art;
  Ret (if a then OBJ_DESIG_ARTSAT else OBJ_DESIG_OTHER, pre ++ rtrim (drop (Z.eqb 32) q)).
Definition other_res c0 c1 c2 c3 c4 c5 c6 c7 c8 c9 c10 c11 (art : outcome bool) : outcome (Z * list Z) :=
  let q := [c0; c1; c2; c3; c4; c5; c6; c7; c8; c9; c10; c11] in
  let plain := sp c0 && sp c1 && sp c2 && sp c3 && strchr (zs " PCDXA") c4 in
  let pre := if plain && negb (sp c4) then [c4; 47] else [] in
  match (if plain then prov_res c5 c6 c7 c8 c9 c10 c11 else (-1, None)) with
  | (0, Some p) => Ret (if sp c4 || (c4 =? 65) then OBJ_DESIG_ASTEROID_PROVISIONAL else OBJ_DESIG_COMET_PROVISIONAL,
                        pre ++ p)
  | _ =>
      if sp c0 && sp c1 && sp c2 && sp c3 && sp c4 && isdigit c8 && isdigit c9 && isdigit c10 && isdigit c11
         && (c7 =? 83) && (((c5 =? 80) && (c6 =? 76)) || ((c5 =? 84) && (49 <=? c6) && (c6 <=? 51)))
      then Ret (OBJ_DESIG_ASTEROID_PROVISIONAL, [c8; c9; c10; c11; 32; c5; 45; c6])
      else as_is_res pre q art
  end.
Definition unpack_res c0 c1 c2 c3 c4 c5 c6 c7 c8 c9 c10 c11 (t : list Z) : outcome (Z * list Z) :=
  let q := [c0; c1; c2; c3; c4; c5; c6; c7; c8; c9; c10; c11] in
  let art := is_artsat_desig (q ++ t) in
  let prov := snd (prov_res c5 c6 c7 c8 c9 c10 c11) in
  if c0 =? 36 then
    if (length (skipn 1 q ++ t) <? 16)%nat then Ret (OBJ_DESIG_ASTEROID_NUMBERED, skipn 1 q ++ t) else Abort
  else if (c4 =? 83) && (is_planet c0 && (isdigit c1 && isdigit c2 && isdigit c3)
          && (sp c5 && sp c6 && sp c7 && sp c8 && sp c9 && sp c10 && sp c11))
  then natsat_res c0 c1 c2 c3
  else if (c4 =? 83) && (is_planet c8 && (isdigit c6 && isdigit c7 && isdigit c10 && isdigit c11)
          && (sp c0 && sp c1 && sp c2 && sp c3) && isalnum c9 && (c11 =? 48) && (72 <=? c5) && (c5 <=? 90))
  then Ret (OBJ_DESIG_NATSAT_PROVISIONAL, natsat_prov_text c5 c6 c7 c8 c9 c10)
  else if (c0 =? 126) && ((sp c5 && sp c6 && sp c7 && sp c8 && sp c9)
          || negb (sp c5 || sp c6 || sp c7 || sp c8 || sp c9)) && (0 <=? get4 c1 c2 c3 c4)
  then match prov with
       | None => UB
       | Some p => let text := [40] ++ dec (get4 c1 c2 c3 c4 + 620000) ++ [41]
                     ++ (match p with [] => [] | _ => [32] ++ p end) in
                   if (length text <? 24)%nat then Ret (OBJ_DESIG_ASTEROID_NUMBERED, text) else Abort
       end
  else
    do num <-
      (if isalnum c0 && (isdigit c1 && isdigit c2 && isdigit c3) then
         if sp c5 && sp c6 && sp c7 && sp c8 && sp c9 then numbered_res prov c0 c1 c2 c3 c4 c10 c11
         else match prov with
              | None => UB
              | Some [] => Ret None
              | Some p => numbered_res (Some p) c0 c1 c2 c3 c4 c10 c11
              end
       else Ret None);
    match num with
    | Some r => Ret r
    | None => other_res c0 c1 c2 c3 c4 c5 c6 c7 c8 c9 c10 c11 art
    end.

(* ---------- pieces ---------- *)
Lemma strchr_planet c : c <> 0 -> strchr (zs "MVEJSUNP") c = is_planet c.
Proof.
  intros H. unfold strchr, is_planet. change (zs "MVEJSUNP") with [77; 86; 69; 74; 83; 85; 78; 80].
  cbn [existsb]. destruct (Z.eqb_spec c 0); [contradiction|]. rewrite !orb_false_r, !orb_assoc. reflexivity.
Qed.

Lemma wr_over b i d x c : (i + length d < length b)%nat ->
  wr (splice b i (d ++ [x])) (Z.of_nat (i + length d)) c = Ret (splice b i (d ++ [c])).
Proof.
  intros H. rewrite wr_ok by (rewrite splice_length; rewrite ?app_length; cbn; lia). f_equal.
  rewrite <- (splice_splice b i d [x]) by (cbn; lia).
  set (b' := splice b i d). assert (length b' = length b) by (apply splice_length; lia).
  rewrite (splice_over b' (i + length d) [x] [c]) by (cbn; lia). cbn [length skipn app].
  unfold b'. apply splice_splice. cbn. lia.
Qed.

Definition starts_other (c : Z) (nm : list Z) : bool :=
  match nm with [] => false | h :: _ => negb (h =? c) end.
Lemma planet_loop_skip names : forall b c, forallb (starts_other c) names = true -> planet_loop names b c = Ret b.
Proof.
  induction names as [|nm r IH]; intros b c H; [reflexivity|].
  cbn [forallb] in H. apply andb_prop in H as (H1 & H2). destruct nm as [|h nm]; [discriminate|].
  cbn [planet_loop]. change (at_ (h :: nm) 0) with (at_ ([] ++ h :: nm) (Z.of_nat (@length Z []))). rewrite at_split. cbs.
  cbn [starts_other] in H1. destruct (h =? c); [discriminate|]. cbs. apply IH, H2.
Qed.
Lemma planet_loop_hit l1 : forall h nm l2 b, no_nul (h :: nm) -> (length nm <= 7)%nat -> (16 <= length b)%nat ->
  forallb (starts_other h) l1 = true -> forallb (starts_other h) l2 = true ->
  planet_loop (l1 ++ (h :: nm) :: l2) b h = Ret (splice b 0 ((h :: nm) ++ [32] ++ [0])).
Proof.
  induction l1 as [|n1 l1 IH]; intros h nm l2 b Hn Hl Hb H1 H2.
  - cbn [app planet_loop]. change (at_ (h :: nm) 0) with (at_ ([] ++ h :: nm) (Z.of_nat (@length Z []))).
    rewrite at_split. cbs. rewrite Z.eqb_refl. change 0 with (Z.of_nat 0) at 1 2.
    rewrite strlcpy_ok by (try assumption; lia). cbs. rewrite firstn_all2 by (cbn [length]; lia).
    rewrite strlcat_splice; [|exact Hn|intros x [<-|[]]; discriminate|cbn [length]; lia|lia]. cbs.
    apply planet_loop_skip, H2.
  - cbn [forallb] in H1. apply andb_prop in H1 as (H1 & H1'). destruct n1 as [|x n1]; [discriminate|].
    cbn [app planet_loop]. change (at_ (x :: n1) 0) with (at_ ([] ++ x :: n1) (Z.of_nat (@length Z []))).
    rewrite at_split. cbs. cbn [starts_other] in H1. destruct (x =? h); [discriminate|]. cbs.
    apply IH; assumption.
Qed.

Lemma planet_loop_ok b c : is_planet c = true -> (16 <= length b)%nat ->
  planet_loop planet_names_in_english b c = Ret (splice b 0 (planet_of c ++ [32] ++ [0])).
Proof.
  intros Hc Hb. unfold is_planet in Hc.
  assert (c = 86 \/ c = 69 \/ c = 77 \/ c = 74 \/ c = 83 \/ c = 85 \/ c = 78 \/ c = 80) as D by lia.
  destruct D as [->|[->|[->|[->|[->|[->|[->| ->]]]]]]];
  [ refine (planet_loop_hit (firstn 0 planet_names_in_english) _ _ (skipn 1 planet_names_in_english) b _ _ Hb _ _)
  | refine (planet_loop_hit (firstn 1 planet_names_in_english) _ _ (skipn 2 planet_names_in_english) b _ _ Hb _ _)
  | refine (planet_loop_hit (firstn 2 planet_names_in_english) _ _ (skipn 3 planet_names_in_english) b _ _ Hb _ _)
  | refine (planet_loop_hit (firstn 3 planet_names_in_english) _ _ (skipn 4 planet_names_in_english) b _ _ Hb _ _)
  | refine (planet_loop_hit (firstn 4 planet_names_in_english) _ _ (skipn 5 planet_names_in_english) b _ _ Hb _ _)
  | refine (planet_loop_hit (firstn 5 planet_names_in_english) _ _ (skipn 6 planet_names_in_english) b _ _ Hb _ _)
  | refine (planet_loop_hit (firstn 6 planet_names_in_english) _ _ (skipn 7 planet_names_in_english) b _ _ Hb _ _)
  | refine (planet_loop_hit (firstn 7 planet_names_in_english) _ _ (skipn 8 planet_names_in_english) b _ _ Hb _ _) ];
  try reflexivity; try (cbn; lia);
  (intros x Hx ->; cbn in Hx; decompose [or] Hx; try discriminate; assumption).
Qed.

Lemma atoi3 c1 c2 c3 r : isdigit c1 = true -> isdigit c2 = true -> isdigit c3 = true -> nondigit_start r ->
  atoi (c1 :: c2 :: c3 :: r) = Ret (100 * (c1 - 48) + 10 * (c2 - 48) + (c3 - 48)).
Proof.
  intros H1 H2 H3 Hr.
  assert (E : dig_val 0 (c1 :: c2 :: c3 :: r) = 100 * (c1 - 48) + 10 * (c2 - 48) + (c3 - 48)).
  { cbn [dig_val]. rewrite H1, H2, H3. destruct r as [|c r]; cbn [dig_val nondigit_start] in *; [lia|]. rewrite Hr. lia. }
  rewrite atoi_val by (try assumption; rewrite E; unfold isdigit, IMAX in *; lia). rewrite E. reflexivity.
Qed.
Lemma atoi4 c1 c2 c3 c4 r : isdigit c1 = true -> isdigit c2 = true -> isdigit c3 = true -> isdigit c4 = true -> nondigit_start r ->
  atoi (c1 :: c2 :: c3 :: c4 :: r) = Ret (dig_val 0 [c1; c2; c3; c4]).
Proof.
  intros H1 H2 H3 H4 Hr.
  assert (E : dig_val 0 (c1 :: c2 :: c3 :: c4 :: r) = dig_val 0 [c1; c2; c3; c4]).
  { change (c1 :: c2 :: c3 :: c4 :: r) with ([c1; c2; c3; c4] ++ r). apply dig_val_rest; [|exact Hr].
    intros x [<-|[<-|[<-|[<-|[]]]]]; assumption. }
  rewrite atoi_val; rewrite ?E; try assumption; [reflexivity|].
  cbn [dig_val]. rewrite H1, H2, H3, H4. unfold isdigit, IMAX in *. lia.
Qed.

Definition in_tab {A} (l : list (list A)) (i : Z) := 0 <= i < Z.of_nat (length l).
Lemma cat_digit b d (l : list (list Z)) k : no_nul d -> (length d < 16)%nat -> (16 <= length b)%nat ->
  (forall r, In r l -> no_nul r) -> 0 <= k < Z.of_nat (length l) -> nth 0 l [] = [] ->
  (if k =? 0 then Ret (splice b 0 (d ++ [0]))
   else do r <- nth_ub l k; do '(_, b0) <- strlcat_err (splice b 0 (d ++ [0])) 0 r 16; Ret b0)
  = let r := nth (Z.to_nat k) l [] in
    if (length d + length r <? 16)%nat then Ret (splice b 0 (d ++ r ++ [0])) else Abort.
Proof.
  intros Hd Hl Hb Hn Hk H0. cbv zeta. destruct (Z.eqb_spec k 0) as [->|Hk0].
  - change (Z.to_nat 0) with O. rewrite H0. cbn [length app].
    destruct (Nat.ltb_spec (length d + 0) 16); [reflexivity|lia].
  - rewrite (nth_ub_ok l k []) by lia. cbs.
    change 0 with (Z.of_nat 0) at 1. rewrite strlcat_err_splice; [|exact Hd| |lia|lia].
    + destruct (Nat.ltb_spec (length d + length (nth (Z.to_nat k) l [])) 16); reflexivity.
    + apply Hn, nth_In. lia.
Qed.

Ltac nonul_tab := let r := fresh in let H := fresh in let x := fresh in
  intros r H x Hx ->; repeat (destruct H as [<-|H]; [cbn in Hx; decompose [or] Hx; try discriminate; assumption|]); destruct H.

Lemma planet_nonul c : no_nul (planet_of c).
Proof.
  unfold planet_of. repeat match goal with |- context [if ?x then _ else _] => destruct x end;
    intros x Hx ->; cbn in Hx; decompose [or] Hx; try discriminate; assumption.
Qed.
Lemma planet_len c : (length (planet_of c) <= 7)%nat.
Proof. unfold planet_of. repeat match goal with |- context [if ?x then _ else _] => destruct x end; cbn; lia. Qed.

Lemma tab_nonul l k : In l [roman_hundreds; roman_tens; roman_digits] -> no_nul (nth k l []).
Proof.
  intros H. destruct (Nat.ltb_spec k (length l)).
  - assert (Hi : In (nth k l []) l) by (apply nth_In; lia). revert Hi. generalize (nth k l []). intros r Hi x Hx ->.
    repeat (destruct H as [<-|H]; [repeat (destruct Hi as [<-|Hi]; [cbn in Hx; decompose [or] Hx; try discriminate; assumption|]); destruct Hi|]).
    destruct H.
  - rewrite nth_overflow by lia. apply no_nul_nil.
Qed.
Lemma roman_nonul n : no_nul (roman n).
Proof. unfold roman. repeat apply no_nul_app; apply tab_nonul; cbn; tauto. Qed.

Lemma eqb_t b : Bool.eqb b true = b.
Proof. destruct b; reflexivity. Qed.
Lemma eqb_f b : Bool.eqb b false = negb b.
Proof. destruct b; reflexivity. Qed.

Section Record.
Variables c0 c1 c2 c3 c4 c5 c6 c7 c8 c9 c10 c11 : Z.
Variable t : list Z.
Let q := [c0; c1; c2; c3; c4; c5; c6; c7; c8; c9; c10; c11].
Let P := q ++ t.
Hypothesis NN : no_nul P.
Let dm := bits (map isdigit q).
Let sm := bits (map sp q).

Lemma nz k : (k < 12)%nat -> nth k q 0 <> 0.
Proof. intros H. apply NN. unfold P. apply in_or_app. left. apply nth_In. exact H. Qed.

Lemma rdP i : 0 <= i < 12 -> at_ P i = Ret (nth (Z.to_nat i) q 0).
Proof.
  intros H. rewrite at_nth by (unfold P; rewrite app_length; cbn; lia).
  unfold P. rewrite app_nth1 by (cbn; lia). reflexivity.
Qed.
Ltac rdp := repeat match goal with |- context [at_ P ?i] =>
  rewrite (rdP i) by lia; let n := eval vm_compute in (Z.to_nat i) in change (Z.to_nat i) with n;
  unfold q; cbn [nth obind] end.

(** The masks as tests of the columns. *)
Ltac masks := unfold dm, sm, q; cbn [map]; rewrite ?land_all, ?land_none, ?bits_eq;
  cbn [has_all has_none is_mask Z.odd Z.div2 Pos.div2 implb andb negb orb Z.eqb]; rewrite ?eqb_t, ?eqb_f, ?andb_true_r, ?andb_assoc.

Lemma mask_e : (Z.land dm 14 =? 14) = isdigit c1 && isdigit c2 && isdigit c3.
Proof. masks. btauto. Qed.
Lemma mask_fe0 : (Z.land sm 4064 =? 4064) = sp c5 && sp c6 && sp c7 && sp c8 && sp c9 && sp c10 && sp c11.
Proof. masks. btauto. Qed.
Lemma mask_cc0 : (Z.land dm 3264 =? 3264) = isdigit c6 && isdigit c7 && isdigit c10 && isdigit c11.
Proof. masks. btauto. Qed.
Lemma mask_f : (sm =? 15) = sp c0 && sp c1 && sp c2 && sp c3 && negb (sp c4) && negb (sp c5) && negb (sp c6)
  && negb (sp c7) && negb (sp c8) && negb (sp c9) && negb (sp c10) && negb (sp c11).
Proof. masks. reflexivity. Qed.
Lemma mask_1f : (sm =? 31) = sp c0 && sp c1 && sp c2 && sp c3 && sp c4 && negb (sp c5) && negb (sp c6)
  && negb (sp c7) && negb (sp c8) && negb (sp c9) && negb (sp c10) && negb (sp c11).
Proof. masks. reflexivity. Qed.
Lemma mask_f00 : (Z.land dm 3840 =? 3840) = isdigit c8 && isdigit c9 && isdigit c10 && isdigit c11.
Proof. masks. btauto. Qed.
Lemma mask_3e0 : (Z.land sm 992 =? 992) = sp c5 && sp c6 && sp c7 && sp c8 && sp c9.
Proof. masks. btauto. Qed.
Lemma mask_3e0n : (Z.land sm 992 =? 0) = negb (sp c5 || sp c6 || sp c7 || sp c8 || sp c9).
Proof. masks. btauto. Qed.

Definition pos_natsat := (c4 =? 83) && (is_planet c0 && (isdigit c1 && isdigit c2 && isdigit c3)
          && (sp c5 && sp c6 && sp c7 && sp c8 && sp c9 && sp c10 && sp c11)).
Definition pos_natsat_prov := (c4 =? 83) && (is_planet c8 && (isdigit c6 && isdigit c7 && isdigit c10 && isdigit c11)
          && (sp c0 && sp c1 && sp c2 && sp c3) && isalnum c9 && (c11 =? 48) && (72 <=? c5) && (c5 <=? 90)).

Lemma natsat_ok b : (24 <= length b)%nat ->
  unpack_natsat (Some b) P dm sm OBJ_DESIG_OTHER =
  if pos_natsat then
    match natsat_res c0 c1 c2 c3 with
    | Ret (ty, text) => Ret (ty, Some (splice b 0 (text ++ [0])))
    | _ => Abort
    end
  else if pos_natsat_prov then
    Ret (OBJ_DESIG_NATSAT_PROVISIONAL, Some (splice b 0 (natsat_prov_text c5 c6 c7 c8 c9 c10 ++ [0])))
  else Ret (OBJ_DESIG_OTHER, Some b).
Proof.
  intros Hb. unfold unpack_natsat, pos_natsat, pos_natsat_prov. rdp.
  destruct (c4 =? 83) eqn:E4; cbn [negb andb]; [|reflexivity].
  rdp. rewrite !strchr_planet by (apply (nz 0) || apply (nz 8); lia).
  rewrite mask_e, mask_fe0, mask_cc0, mask_f.
  destruct (is_planet c0 && (isdigit c1 && isdigit c2 && isdigit c3) && (sp c5 && sp c6 && sp c7 && sp c8 && sp c9 && sp c10 && sp c11)) eqn:EA.
  - apply andb_prop in EA as (EA & _). apply andb_prop in EA as (Ep & EA). apply andb_prop in EA as (EA & E3). apply andb_prop in EA as (E1 & E2).
    change (skipn 1 P) with (c1 :: c2 :: c3 :: c4 :: skipn 5 P).
    rewrite atoi3 by (try assumption; cbn; unfold isdigit; lia). cbs.
    rewrite planet_loop_ok by (try assumption; lia). cbs.
    unfold natsat_res. cbv zeta. set (n := 100 * (c1 - 48) + 10 * (c2 - 48) + (c3 - 48)).
    assert (Hn : 0 <= n <= 999) by (unfold n, isdigit in *; lia). clearbody n.
    replace (Z.quot n 100) with (n / 100) by (symmetry; apply Z.quot_div_nonneg; lia).
    replace (Z.quot n 10) with (n / 10) by (symmetry; apply Z.quot_div_nonneg; lia).
    replace (Z.rem (n / 10) 10) with (n / 10 mod 10) by (symmetry; apply Z.rem_mod_nonneg; lia).
    replace (Z.rem n 10) with (n mod 10) by (symmetry; apply Z.rem_mod_nonneg; lia).
    set (nm := planet_of c0 ++ [32]).
    assert (Nn : no_nul nm) by (apply no_nul_app; [apply planet_nonul|intros x [<-|[]]; discriminate]).
    assert (Ln : (length nm <= 8)%nat) by (unfold nm; rewrite app_length; pose proof (planet_len c0); cbn; lia).
    replace (planet_of c0 ++ [32] ++ [0]) with (nm ++ [0]) by (unfold nm; rewrite <- app_assoc; reflexivity).
    replace (planet_of c0 ++ [32] ++ roman n) with (nm ++ roman n) by (unfold nm; rewrite <- app_assoc; reflexivity).
    clearbody nm. unfold roman.
    rewrite (cat_digit b nm roman_hundreds (n / 100)); [|exact Nn|lia|lia|nonul_tab|cbn [length]; change (length roman_hundreds) with 10%nat; lia|reflexivity].
    cbv zeta. pose proof (tab_nonul roman_hundreds (Z.to_nat (n / 100)) ltac:(cbn; tauto)) as N1.
    pose proof (tab_nonul roman_tens (Z.to_nat (n / 10 mod 10)) ltac:(cbn; tauto)) as N2.
    pose proof (tab_nonul roman_digits (Z.to_nat (n mod 10)) ltac:(cbn; tauto)) as N3.
    set (h := nth (Z.to_nat (n / 100)) roman_hundreds []) in *.
    set (te := nth (Z.to_nat (n / 10 mod 10)) roman_tens []) in *.
    set (di := nth (Z.to_nat (n mod 10)) roman_digits []) in *.
    rewrite !app_length.
    destruct (Nat.ltb_spec (length nm + length h) 16).
    2: { cbs. destruct (Nat.ltb_spec (length nm + (length h + (length te + length di))) 16); [lia|reflexivity]. }
    cbs. rewrite app_assoc.
    rewrite (cat_digit b (nm ++ h) roman_tens (n / 10 mod 10)); [|apply no_nul_app; assumption|rewrite app_length; lia|lia|nonul_tab
      |change (length roman_tens) with 10%nat; lia|reflexivity].
    cbv zeta. fold te. rewrite app_length.
    destruct (Nat.ltb_spec (length nm + length h + length te) 16).
    2: { cbs. destruct (Nat.ltb_spec (length nm + (length h + (length te + length di))) 16); [lia|reflexivity]. }
    cbs. rewrite app_assoc.
    rewrite (cat_digit b ((nm ++ h) ++ te) roman_digits (n mod 10)); [|repeat apply no_nul_app; assumption|rewrite !app_length; lia|lia|nonul_tab
      |change (length roman_digits) with 10%nat; lia|reflexivity].
    cbv zeta. fold di. rewrite !app_length.
    destruct (Nat.ltb_spec (length nm + length h + length te + length di) 16);
      destruct (Nat.ltb_spec (length nm + (length h + (length te + length di))) 16); try lia; [|reflexivity].
    cbs. rewrite <- !app_assoc. reflexivity.
  - clear EA. cbv zeta.
    match goal with |- (if ?x then _ else _) = (if ?y then _ else _) => assert (x = y) as -> end.
    { destruct (hex_cases c9) as [(E9 & H9 & _)|(E9 & H9)]; rewrite E9.
      - destruct (Z.leb_spec 0 (mutant_hex_char_to_int c9)); [|lia].
        unfold is_planet, sp, isdigit. unfold isalnum, isalpha, isupper, islower, isdigit in E9.
        (* the blanks of the mask follow from the other columns *)
        match goal with |- ?a && ?b && (?p0 && ?p1 && ?p2 && ?p3 && ?n4 && ?n5 && ?n6 && ?n7 && ?n8 && ?n9 && ?n10 && ?n11) && ?e && ?f && ?g && ?h = _ =>
          destruct a eqn:Ea; [|reflexivity]; destruct b eqn:Eb; [|reflexivity];
          destruct g eqn:Eg; [|destruct e, f; rewrite ?andb_false_r; reflexivity];
          assert (n4 = true) as -> by lia; assert (n5 = true) as -> by lia; assert (n6 = true) as -> by lia;
          assert (n7 = true) as -> by lia; assert (n8 = true) as -> by lia; assert (n9 = true) as -> by lia;
          assert (n10 = true) as -> by lia; assert (n11 = true) as -> by lia
        end. btauto.
      - rewrite H9. change (0 <=? -1) with false. rewrite !andb_false_r. reflexivity. }
    match goal with |- (if ?x then _ else _) = _ => destruct x eqn:EB end; [|reflexivity].
    assert (H5 : 72 <= c5 <= 90) by lia.
    assert (H9 : 0 <= mutant_hex_char_to_int c9 <= 61).
    { destruct (hex_cases c9) as [(E9 & H9 & _)|(E9 & H9)]; [exact H9|]. rewrite E9 in EB. rewrite !andb_false_r in EB. discriminate. }
    clear EB. unfold natsat_prov_text. set (d := mutant_hex_char_to_int c9) in *. cbv zeta.
    replace (20 + c5 - 75) with (c5 - 55) by lia.
    assert (L2 : length (dec (c5 - 55)) = 2%nat).
    { unfold dec. destruct (Z.ltb_spec (c5 - 55) 0); [lia|]. cbn [digits].
      destruct (Z.eqb_spec ((c5 - 55) / 10) 0); [lia|]. destruct (Z.eqb_spec ((c5 - 55) / 10 / 10) 0); [reflexivity|lia]. }
    set (hd := zs "S/" ++ dec (c5 - 55) ++ [c6; c7]).
    assert (Lh : length hd = 6%nat) by (unfold hd; rewrite !app_length, L2; reflexivity).
    change 0 with (Z.of_nat 0) at 1. rewrite snprintf_err_splice by lia. cbs.
    assert (Hhd : zs "S/" ++ dec (c5 - 55) ++ [c6; c7; 32; c8; 32] = hd ++ [32; c8; 32]) by (unfold hd; rewrite <- !app_assoc; reflexivity).
    rewrite !app_assoc. rewrite <- (app_assoc (zs "S/")). rewrite Hhd. rewrite <- !app_assoc. clearbody hd.
    assert (W : forall d k c, k = Z.of_nat (length d) -> (length d < length b)%nat ->
        wr (splice b 0 d) k c = Ret (splice b 0 (d ++ [c]))).
    { intros x k c -> Hd. apply (wr_splice b 0 x c). lia. }
    rewrite <- Lh in Hb. 
    replace 6 with (Z.of_nat (0 + length hd)) at 1 by lia. rewrite wr_over by lia. cbs.
    rewrite (W (hd ++ [32])) by (rewrite app_length; cbn; lia). cbs. rewrite <- app_assoc. cbn [app].
    rewrite (W (hd ++ [32; c8])) by (rewrite app_length; cbn; lia). cbs. rewrite <- app_assoc. cbn [app].
    set (h3 := hd ++ [32; c8; 32]). assert (L3 : length h3 = 9%nat) by (unfold h3; rewrite app_length, Lh; reflexivity).
    assert (Hc : hd ++ 32 :: c8 :: 32 :: (if 10 <? d then [48 + d / 10] else []) ++ (if d =? 0 then [] else [48 + d mod 10]) ++ [c10; 0]
       = h3 ++ (if 10 <? d then [48 + d / 10] else []) ++ (if d =? 0 then [] else [48 + d mod 10]) ++ [c10] ++ [0])
      by (unfold h3; rewrite <- app_assoc; reflexivity).
    rewrite Hc. clear Hc. clearbody h3.
    replace (Z.quot d 10) with (d / 10) by (symmetry; apply Z.quot_div_nonneg; lia).
    replace (Z.rem d 10) with (d mod 10) by (symmetry; apply Z.rem_mod_nonneg; lia).
    assert (E1 : (if 10 <? d then do b0 <- wr (splice b 0 h3) 9 (48 + d / 10); Ret (b0, 10) else Ret (splice b 0 h3, 9))
      = Ret (splice b 0 (h3 ++ (if 10 <? d then [48 + d / 10] else [])), Z.of_nat (length (h3 ++ (if 10 <? d then [48 + d / 10] else []))))).
    { destruct (10 <? d).
      - rewrite W by lia. cbs. rewrite app_length, L3. reflexivity.
      - rewrite app_nil_r, L3. reflexivity. }
    rewrite E1. cbs. clear E1. set (h4 := h3 ++ _). 
    assert (L4 : (length h4 <= 10)%nat) by (unfold h4; rewrite app_length, L3; destruct (10 <? d); cbn; lia).
    replace (h3 ++ (if 10 <? d then [48 + d / 10] else []) ++ (if d =? 0 then [] else [48 + d mod 10]) ++ [c10] ++ [0])
      with (h4 ++ (if d =? 0 then [] else [48 + d mod 10]) ++ [c10] ++ [0]) by (unfold h4; rewrite <- app_assoc; reflexivity).
    clearbody h4.
    assert (E2 : (if d =? 0 then Ret (splice b 0 h4, Z.of_nat (length h4))
        else do b0 <- wr (splice b 0 h4) (Z.of_nat (length h4)) (48 + d mod 10); Ret (b0, Z.of_nat (length h4) + 1))
      = Ret (splice b 0 (h4 ++ (if d =? 0 then [] else [48 + d mod 10])), Z.of_nat (length (h4 ++ (if d =? 0 then [] else [48 + d mod 10]))))).
    { destruct (d =? 0).
      - rewrite app_nil_r. reflexivity.
      - rewrite W by lia. cbs. rewrite app_length. do 2 f_equal. cbn. lia. }
    rewrite E2. cbs. clear E2. rewrite app_assoc. set (h5 := h4 ++ _).
    assert (L5 : (length h5 <= 11)%nat) by (unfold h5; rewrite app_length; destruct (d =? 0); cbn; lia). clearbody h5.
    rewrite W by lia. cbs. rewrite (W (h5 ++ [c10])) by (rewrite app_length; cbn; lia). cbs.
    rewrite <- app_assoc. reflexivity.
Qed.

Let PR := prov_res c5 c6 c7 c8 c9 c10 c11.
Definition prov_buf : buf :=
  match snd PR with Some p => splice (repeat None 40) 0 (p ++ [0]) | None => repeat None 40 end.

Lemma prov_call b off sz : (16 <= sz)%nat -> (off + sz <= length b)%nat ->
  unpack_provisional_packed_desig (Some (b, Z.of_nat off)) sz P 5
  = Ret (fst PR, Some (match snd PR with Some p => splice b off (p ++ [0]) | None => b end, Z.of_nat off)).
Proof. intros Hs Hb. exact (prov_ok b off sz [c0; c1; c2; c3; c4] t c5 c6 c7 c8 c9 c10 c11 Hs Hb). Qed.

Lemma prov_rd0 : rd prov_buf 0 = match snd PR with Some (c :: _) => Ret c | Some [] => Ret 0 | None => UB end.
Proof. unfold prov_buf. destruct (snd PR) as [[|c p]|]; reflexivity. Qed.

Lemma prov_facts p : snd PR = Some p -> no_nul p /\ (length p <= 13)%nat.
Proof.
  intros H. split.
  - apply (prov_nonul c5 c6 c7 c8 c9 c10 c11 (fst PR)). unfold PR in *. rewrite <- H. apply surjective_pairing.
  - apply (prov_len c5 c6 c7 c8 c9 c10 c11 (fst PR)). unfold PR in *. rewrite <- H. apply surjective_pairing.
Qed.

Lemma prov_str p : snd PR = Some p -> buf_str 41 prov_buf 0 = Ret p.
Proof.
  intros H. destruct (prov_facts p H) as (Hn & Hl). unfold prov_buf. rewrite H.
  apply (buf_str_ok p [] (skipn (length p + 1) (repeat None 40))); [exact Hn|lia|].
  unfold splice. cbn [firstn app]. rewrite map_app, app_length, <- app_assoc. reflexivity.
Qed.

(** "if( *provisional_desig) snprintf_append( obuff, max, ...)". *)
Lemma append_prov {A} b d max glue (k : buf -> outcome A) : no_nul d -> (length d < max)%nat -> (max <= length b)%nat ->
  (do p0 <- rd prov_buf 0;
   do b0 <- (if p0 =? 0 then Ret (splice b 0 (d ++ [0]))
             else do s <- buf_str 41 prov_buf 0;
                  do '(_, b0) <- snprintf_append (splice b 0 (d ++ [0])) 0 max (glue ++ s); Ret b0);
   k b0)
  = match snd PR with
    | None => UB
    | Some p => let text := d ++ (match p with [] => [] | _ => glue ++ p end) in
                if (length text <? max)%nat then k (splice b 0 (text ++ [0])) else Abort
    end.
Proof.
  intros Hd Hl Hb. rewrite prov_rd0. destruct (snd PR) as [p|] eqn:E; [|reflexivity].
  destruct (prov_facts p E) as (Hn & Hpl). cbv zeta.
  destruct p as [|c p].
  - cbs. change (0 =? 0) with true. cbs. rewrite app_nil_r.
    destruct (Nat.ltb_spec (length d) max); [reflexivity|lia].
  - cbs. assert (c <> 0) by (apply Hn; left; reflexivity). destruct (Z.eqb_spec c 0); [contradiction|].
    rewrite (prov_str _ E). cbs. change 0 with (Z.of_nat 0) at 1.
    rewrite append_splice by (try assumption; lia). rewrite (app_length d).
    destruct (Nat.ltb_spec (length d + length (glue ++ c :: p)) max); cbs; [|reflexivity].
    rewrite <- (app_assoc d). reflexivity.
Qed.

Definition pos_tilde := (c0 =? 126) && ((sp c5 && sp c6 && sp c7 && sp c8 && sp c9)
          || negb (sp c5 || sp c6 || sp c7 || sp c8 || sp c9)) && (0 <=? get4 c1 c2 c3 c4).
Definition tilde_res : outcome (Z * list Z) :=
  match snd PR with
  | None => UB
  | Some p => let text := [40] ++ dec (get4 c1 c2 c3 c4 + 620000) ++ [41]
                ++ (match p with [] => [] | _ => [32] ++ p end) in
              if (length text <? 24)%nat then Ret (OBJ_DESIG_ASTEROID_NUMBERED, text) else Abort
  end.

Lemma par_num v k : 0 <= v < 10 ^ Z.of_nat k -> (1 <= k <= 20)%nat ->
  (length ([40%Z] ++ dec v ++ [41%Z]) <= k + 2)%nat /\ no_nul ([40] ++ dec v ++ [41]).
Proof.
  intros H Hk. split.
  - rewrite !app_length. cbn [length]. pose proof (dec_len v k ltac:(lia) H). lia.
  - assert (10 ^ Z.of_nat k <= 10 ^ 20) by (apply Z.pow_le_mono_r; lia).
    apply no_nul_app; [intros x [<-|[]]; discriminate|]. apply no_nul_app; [apply no_nul_dec; lia|intros x [<-|[]]; discriminate].
Qed.

Lemma tilde_ok b : (24 <= length b)%nat ->
  unpack_tilde (Some b) prov_buf P sm =
  if pos_tilde then do '(ty, text) <- tilde_res; Ret (Some (ty, Some (splice b 0 (text ++ [0])))) else Ret None.
Proof.
  intros Hb. unfold unpack_tilde, pos_tilde, tilde_res. rdp. rewrite mask_3e0, mask_3e0n.
  destruct ((c0 =? 126) && ((sp c5 && sp c6 && sp c7 && sp c8 && sp c9)
          || negb (sp c5 || sp c6 || sp c7 || sp c8 || sp c9))); cbn [andb]; [|reflexivity].
  replace (get_mutant_hex_value P 1 4) with (Ret (get4 c1 c2 c3 c4)).
  2: { symmetry. apply (get4_ok [c0] c1 c2 c3 c4 (c5 :: c6 :: c7 :: c8 :: c9 :: c10 :: c11 :: t)). }
  cbs. pose proof (get4_range c1 c2 c3 c4) as R. set (n := get4 c1 c2 c3 c4) in *. clearbody n.
  destruct (Z.ltb_spec n 0); destruct (Z.leb_spec 0 n); try lia; [reflexivity|].
  destruct (par_num (n + 620000) 8) as (Ld & Nd); [p10; lia|lia|].
  change 0 with (Z.of_nat 0) at 1. rewrite snprintf_err_splice by lia. cbs.
  rewrite append_prov by (assumption || lia).
  destruct (snd PR) as [p|]; [|reflexivity]. cbv zeta. rewrite <- !(app_assoc _ _ (match p with [] => _ | _ => _ end)).
  destruct (_ <? 24)%nat; reflexivity.
Qed.

(* ---------- numbered objects ---------- *)
Lemma skip_zeroes_ok s : forall pre fuel, (length s < fuel)%nat ->
  skip_zeroes fuel (pre ++ s) (Z.of_nat (length pre)) = Ret (Z.of_nat (length pre + span (Z.eqb 48) s)).
Proof.
  induction s as [|c s IH]; intros pre fuel Hf; (destruct fuel as [|f]; [cbn in Hf; lia|]); cbn [skip_zeroes].
  - rewrite app_nil_r, at_end. cbs. cbn. f_equal. lia.
  - rewrite at_split. cbs. rewrite Z.eqb_sym. cbn [span]. destruct (48 =? c).
    + replace (pre ++ c :: s) with ((pre ++ [c]) ++ s) by (rewrite <- app_assoc; reflexivity).
      replace (Z.of_nat (length pre) + 1) with (Z.of_nat (length (pre ++ [c]))) by (rewrite app_length; cbn; lia).
      rewrite IH by (cbn in Hf; lia). rewrite app_length. f_equal. cbn. lia.
    + f_equal. lia.
Qed.
Lemma copy_digits_ok s : forall pre fuel b d, (length s < fuel)%nat -> (length d + span isdigit s <= length b)%nat ->
  copy_digits fuel (splice b 0 d) (Z.of_nat (length d)) (pre ++ s) (Z.of_nat (length pre))
  = Ret (splice b 0 (d ++ firstn (span isdigit s) s), Z.of_nat (length d + span isdigit s)).
Proof.
  induction s as [|c s IH]; intros pre fuel b d Hf Hb; (destruct fuel as [|f]; [cbn in Hf; lia|]); cbn [copy_digits].
  - rewrite app_nil_r, at_end. cbs. change (isdigit 0) with false. cbn. rewrite app_nil_r, Nat.add_0_r. reflexivity.
  - rewrite at_split. cbs. cbn [span] in *. destruct (isdigit c).
    + cbn [length] in *. change (Z.of_nat (length d)) with (Z.of_nat (0 + length d)).
      rewrite wr_splice by lia. cbs.
      replace (pre ++ c :: s) with ((pre ++ [c]) ++ s) by (rewrite <- app_assoc; reflexivity).
      replace (Z.of_nat (length pre) + 1) with (Z.of_nat (length (pre ++ [c]))) by (rewrite app_length; cbn; lia).
      replace (Z.of_nat (0 + length d) + 1) with (Z.of_nat (length (d ++ [c]))) by (rewrite app_length; cbn; lia).
      rewrite IH by (rewrite ?app_length; cbn [length] in *; lia). rewrite app_length, <- app_assoc. cbn [firstn app length].
      do 2 f_equal. lia.
    + cbn [firstn]. rewrite app_nil_r, Nat.add_0_r. reflexivity.
Qed.

Lemma drop_skipn f s : drop f s = skipn (span f s) s.
Proof. induction s as [|c s IH]; [reflexivity|]. cbn. destruct (f c); [exact IH|reflexivity]. Qed.

Lemma comet_digits b : isdigit c1 = true -> isdigit c2 = true -> isdigit c3 = true -> isdigit c4 = false -> (4 <= length b)%nat ->
  (do i <- skip_zeroes (S (length P)) P 0; copy_digits (S (length P)) b 0 P i)
  = let d := if isdigit c0 then drop (Z.eqb 48) [c0; c1; c2; c3] else [] in Ret (splice b 0 d, Z.of_nat (length d)).
Proof.
  intros H1 H2 H3 H4 Hb. cbv zeta.
  pose proof (skip_zeroes_ok P [] (S (length P)) ltac:(lia)) as S0. cbn [app length] in S0. change (Z.of_nat 0) with 0 in S0.
  rewrite S0. cbs. clear S0.
  set (r := c4 :: c5 :: c6 :: c7 :: c8 :: c9 :: c10 :: c11 :: t).
  assert (EP : P = [c0; c1; c2; c3] ++ r) by reflexivity.
  assert (E48 : 48 =? c4 = false) by (unfold isdigit in H4; lia).
  assert (Ek : span (Z.eqb 48) P = span (Z.eqb 48) [c0; c1; c2; c3]).
  { rewrite EP. cbn [span app]. destruct (48 =? c0); [|reflexivity]. destruct (48 =? c1); [|reflexivity].
    destruct (48 =? c2); [|reflexivity]. destruct (48 =? c3); [|reflexivity]. unfold r. cbn [span]. rewrite E48. reflexivity. }
  rewrite Ek. set (k := span (Z.eqb 48) [c0; c1; c2; c3]) in *.
  assert (Hk : (k <= 4)%nat).
  { unfold k. cbn [span]. destruct (48 =? c0), (48 =? c1), (48 =? c2), (48 =? c3); lia. }
  assert (Es : P = firstn k P ++ (skipn k [c0; c1; c2; c3] ++ r)).
  { rewrite <- (firstn_skipn k P) at 1. f_equal. rewrite EP, skipn_app. cbn [length].
    replace (k - 4)%nat with O by lia. reflexivity. }
  assert (LP : (length (skipn k [c0; c1; c2; c3] ++ r) <= length P)%nat).
  { rewrite EP, !app_length, skipn_length. lia. }
  assert (Lk : length (firstn k P) = k) by (apply firstn_length_le; rewrite EP, app_length; change (length [c0; c1; c2; c3]) with 4%nat; lia).
  assert (Hspan : firstn (span isdigit (skipn k [c0; c1; c2; c3] ++ r)) (skipn k [c0; c1; c2; c3] ++ r)
        = (if isdigit c0 then drop (Z.eqb 48) [c0; c1; c2; c3] else [])
      /\ span isdigit (skipn k [c0; c1; c2; c3] ++ r) = length (if isdigit c0 then drop (Z.eqb 48) [c0; c1; c2; c3] else [])).
  { destruct (isdigit c0) eqn:E0.
    - rewrite drop_skipn. fold k. rewrite span_app.
      + split; [|reflexivity]. rewrite firstn_app, firstn_all, Nat.sub_diag. apply app_nil_r.
      + intros x Hx. assert (In x [c0; c1; c2; c3]) as [<-|[<-|[<-|[<-|[]]]]]; try assumption.
        rewrite <- (firstn_skipn k). apply in_or_app. right. exact Hx.
      + exact H4.
    - assert (k = O) as ->.
      { unfold k. cbn [span]. assert (48 =? c0 = false) as -> by (unfold isdigit in E0; lia). reflexivity. }
      cbn [skipn app span]. rewrite E0. split; reflexivity. }
  destruct Hspan as (F1 & F2).
  assert (Ld : (length (if isdigit c0 then drop (Z.eqb 48) [c0; c1; c2; c3] else []) <= 4)%nat).
  { destruct (isdigit c0); [|cbn; lia]. rewrite drop_skipn, skipn_length. change (length [c0; c1; c2; c3]) with 4%nat. lia. }
  pose proof (copy_digits_ok (skipn k [c0; c1; c2; c3] ++ r) (firstn k P) (S (length P)) b [] ltac:(lia)) as C.
  rewrite <- Es, Lk, F1, F2 in C. cbn [length app] in C. cbn [length app]. change (Z.of_nat 0) with 0 in C.
  replace (splice b 0 []) with b in C by reflexivity. rewrite Nat.add_0_l. rewrite C by lia. reflexivity.
Qed.

Definition num_res : outcome (option (Z * list Z)) :=
  if isalnum c0 && (isdigit c1 && isdigit c2 && isdigit c3) then
    if sp c5 && sp c6 && sp c7 && sp c8 && sp c9 then numbered_res (snd PR) c0 c1 c2 c3 c4 c10 c11
    else match snd PR with
         | None => UB
         | Some [] => Ret None
         | Some p => numbered_res (Some p) c0 c1 c2 c3 c4 c10 c11
         end
  else Ret None.

Lemma prov_c5 c p : snd PR = Some (c :: p) -> isdigit c5 = false.
Proof.
  unfold PR, prov_res. destruct (Z.eqb_spec c5 95) as [->|]; [reflexivity|]. cbn [andb].
  destruct ((71 <=? c5) && (c5 <=? 75)) eqn:E; cbn [andb].
  - intros _. unfold isdigit. lia.
  - discriminate.
Qed.

Lemma numbered_body b rval : (24 <= length b)%nat -> isalnum c0 = true ->
  isdigit c1 = true -> isdigit c2 = true -> isdigit c3 = true -> isdigit c5 = false ->
  (do c4 <- at_ P 4;
   if isdigit c4 then
    let number0 := mutant_hex_char_to_int c0 in
    if number0 <? 0 then Ret (rval, Some b)
    else
      do v <- atoi (skipn 1 P);
      do number <- ev IMAX (number0 * 10000 + v)%cx;
          do '(_, b) <- snprintf_err b 0 13 ([40] ++ dec number ++ [41]);
          do p0 <- rd prov_buf 0;
          do b <- (if p0 =? 0 then Ret b
                   else do t <- buf_str 41 prov_buf 0;
                        do '(_, b) <- snprintf_append b 0 23 ([32; 61; 32] ++ t); Ret b);
          Ret (OBJ_DESIG_ASTEROID_NUMBERED, Some b)
  else if strchr (zs "PCDXAI") c4 then
        do suffix <- at_ P 11;
        do i <- skip_zeroes (S (length P)) P 0;
        do '(b, j) <- copy_digits (S (length P)) b 0 P i;
        do b <- wr b j c4;
        let j := j + 1 in
        do '(b, j) <-
          (if islower suffix then
             do extra <- at_ P 10;
             do b <- wr b j 45;
             do '(b, j) <- (if islower extra
                            then do b <- wr b (j + 1) (extra + 65 - 97); Ret (b, j + 2)
                            else Ret (b, j + 1));
             do b <- wr b j (suffix + 65 - 97);
             Ret (b, j + 1)
           else Ret (b, j));
        do b <- wr b j 0;
        Ret (OBJ_DESIG_COMET_NUMBERED, Some b)
  else Ret (rval, Some b))
  = do num <- numbered_res (snd PR) c0 c1 c2 c3 c4 c10 c11;
    match num with
    | Some (ty, text) => Ret (ty, Some (splice b 0 (text ++ [0])))
    | None => Ret (rval, Some b)
    end.
Proof.
  intros Hb H0 H1 H2 H3 H5. unfold numbered_res. rdp.
  destruct (isdigit c4) eqn:H4.
  - cbv zeta. destruct (hex_cases c0) as [(_ & R0 & _)|(E & _)]; [|congruence].
    set (n0 := mutant_hex_char_to_int c0) in *. destruct (Z.ltb_spec n0 0); [lia|].
    change (skipn 1 P) with (c1 :: c2 :: c3 :: c4 :: skipn 5 P).
    rewrite atoi4 by (assumption || exact H5). cbs.
    assert (V : 0 <= dig_val 0 [c1; c2; c3; c4] <= 9999).
    { cbn [dig_val]. rewrite H1, H2, H3, H4. unfold isdigit in *. lia. }
    set (v := dig_val 0 [c1; c2; c3; c4]) in *. clearbody v n0.
    unfold IMAX. rewrite ev_val by (cbn; unfold fits; lia). cbs. cbn [val].
    destruct (par_num (n0 * 10000 + v) 6) as (Ld & Nd); [p10; lia|lia|].
    change 0 with (Z.of_nat 0) at 1. rewrite snprintf_err_splice by lia. cbs.
    rewrite append_prov by (assumption || lia).
    destruct (snd PR) as [p|]; [|reflexivity]. cbv zeta. rewrite <- !(app_assoc _ _ (match p with [] => _ | _ => _ end)).
    destruct (_ <? 23)%nat; reflexivity.
  - destruct (strchr (zs "PCDXAI") c4); [|reflexivity].
    pose proof (comet_digits b H1 H2 H3 H4 ltac:(lia)) as C. cbv zeta in C.
    rdp. destruct (skip_zeroes (S (length P)) P 0) as [i| | |]; cbn [obind] in C |- *; try discriminate C. rewrite C. cbs. set (d := if isdigit c0 then drop (Z.eqb 48) [c0; c1; c2; c3] else []).
    assert (Ld : (length d <= 4)%nat).
    { unfold d. destruct (isdigit c0); [|cbn; lia]. rewrite drop_skipn, skipn_length. change (length [c0; c1; c2; c3]) with 4%nat. lia. }
    clearbody d. cbv zeta.
    assert (W : forall d k c, k = Z.of_nat (length d) -> (length d < length b)%nat ->
        wr (splice b 0 d) k c = Ret (splice b 0 (d ++ [c]))).
    { intros x k c -> Hd. apply (wr_splice b 0 x c). lia. }
    rewrite W by lia. cbs.
    assert (E : (if islower c11 then
             do b0 <- wr (splice b 0 (d ++ [c4])) (Z.of_nat (length d) + 1) 45;
             do '(b0, j) <- (if islower c10
                            then do b0 <- wr b0 (Z.of_nat (length d) + 1 + 1) (c10 + 65 - 97); Ret (b0, Z.of_nat (length d) + 1 + 2)
                            else Ret (b0, Z.of_nat (length d) + 1 + 1));
             do b0 <- wr b0 j (c11 + 65 - 97);
             Ret (b0, j + 1)
           else Ret (splice b 0 (d ++ [c4]), Z.of_nat (length d) + 1))
      = let e := d ++ [c4] ++ (if islower c11 then [45] ++ (if islower c10 then [c10 + 65 - 97] else []) ++ [c11 + 65 - 97] else []) in
        Ret (splice b 0 e, Z.of_nat (length e))).
    { cbv zeta. destruct (islower c11).
      - rewrite W by (rewrite ?app_length; cbn [length]; lia). cbs. destruct (islower c10).
        + rewrite W by (rewrite ?app_length; cbn [length]; lia). cbs.
          rewrite W by (rewrite ?app_length; cbn [length]; lia). cbs. rewrite <- !app_assoc. cbn [app].
          do 2 f_equal. rewrite !app_length. cbn [length]. lia.
        + cbs. rewrite W by (rewrite ?app_length; cbn [length]; lia). cbs. rewrite <- !app_assoc. cbn [app].
          do 2 f_equal. rewrite !app_length. cbn [length]. lia.
      - cbn [app]. do 2 f_equal. rewrite !app_length. cbn [length]. lia. }
    rewrite E. cbv zeta. cbs.
    rewrite W; [reflexivity|reflexivity|]. rewrite !app_length. destruct (islower c11), (islower c10); cbn; lia.
Qed.

Lemma numbered_ok b rval : (24 <= length b)%nat ->
  unpack_numbered (Some b) prov_buf P dm sm rval =
  do num <- num_res;
  match num with
  | Some (ty, text) => Ret (ty, Some (splice b 0 (text ++ [0])))
  | None => Ret (rval, Some b)
  end.
Proof.
  intros Hb. unfold unpack_numbered, num_res. rewrite (rdP 0) by lia. change (nth (Z.to_nat 0) q 0) with c0. cbn [obind]. rewrite mask_e, mask_3e0.
  destruct (isalnum c0 && (isdigit c1 && isdigit c2 && isdigit c3)) eqn:E; cbs; [|reflexivity].
  apply andb_prop in E as (E0 & E). apply andb_prop in E as (E & E3). apply andb_prop in E as (E1 & E2).
  pose proof (numbered_body b rval Hb E0 E1 E2 E3) as B.
  destruct (sp c5 && sp c6 && sp c7 && sp c8 && sp c9) eqn:Es; cbs.
  - assert (E5 : isdigit c5 = false) by (unfold sp, isdigit in *; lia). exact (B E5).
  - rewrite prov_rd0 at 1. destruct (snd PR) as [[|c p]|] eqn:Ep.
    + cbs. change (0 =? 0) with true. cbs. reflexivity.
    + cbs. destruct (prov_facts _ Ep) as (Hn & _). assert (c <> 0) by (apply Hn; left; reflexivity).
      destruct (Z.eqb_spec c 0); [contradiction|]. cbs.
      exact (B (prov_c5 _ _ Ep)).
    + cbs. reflexivity.
Qed.

(* ---------- the rest ---------- *)
Lemma rtrim_snoc l c : rtrim (l ++ [c]) = if c <=? 32 then rtrim l else l ++ [c].
Proof.
  induction l as [|x l IH]; [cbn; destruct (c <=? 32); reflexivity|]. cbn [rtrim app]. rewrite IH.
  destruct (c <=? 32); [reflexivity|]. destruct (l ++ [c]) eqn:E; [destruct l; discriminate|reflexivity].
Qed.
Lemma rtrim_firstn s : rtrim s = firstn (length (rtrim s)) s /\ (length (rtrim s) <= length s)%nat.
Proof.
  induction s as [|c s (IH & IL)]; [split; reflexivity|]. cbn [rtrim].
  destruct (rtrim s) as [|y r] eqn:E.
  - destruct (c <=? 32); cbn; split; try reflexivity; lia.
  - cbn [length firstn] in *. split; [f_equal; exact IH|lia].
Qed.
Lemma firstn_snoc {A} (s : list A) d k : (k < length s)%nat -> firstn (S k) s = firstn k s ++ [nth k s d].
Proof.
  revert k. induction s as [|x s IH]; intros k H; [cbn in H; lia|]. destruct k; [reflexivity|].
  cbn [firstn nth app]. f_equal. apply IH. cbn in H. lia.
Qed.
Lemma splice_nth b i s k : (i + length s <= length b)%nat -> (k < length s)%nat ->
  nth_error (splice b i s) (i + k) = Some (Some (nth k s 0)).
Proof.
  intros H Hk. unfold splice. rewrite nth_error_app2 by (rewrite firstn_length; lia).
  rewrite firstn_length. replace (i + k - Nat.min i (length b))%nat with k by lia.
  rewrite nth_error_app1 by (rewrite map_length; lia).
  rewrite nth_error_map, (nth_error_nth' s 0) by lia. reflexivity.
Qed.
Lemma trim_end_ok b i s : (i + length s <= length b)%nat -> forall k, (k <= length s)%nat ->
  trim_end k (splice b i s) (Z.of_nat i) = Ret (length (rtrim (firstn k s))).
Proof.
  intros H. induction k as [|k IH]; intros Hk; [reflexivity|]. cbn [trim_end].
  rewrite <- Nat2Z.inj_add, (rd_nth _ _ (nth k s 0)) by (apply splice_nth; lia). cbs.
  rewrite (firstn_snoc s 0) by lia. rewrite rtrim_snoc. destruct (nth k s 0 <=? 32); [apply IH; lia|].
  rewrite app_length, firstn_length. cbn [length]. f_equal. lia.
Qed.
Lemma firstn_splice_pre b i s n : (i + length s <= length b)%nat -> (n <= length s)%nat ->
  firstn (i + n) (splice b i s) = firstn i b ++ map Some (firstn n s).
Proof.
  intros H Hn. unfold splice.
  assert (L : length (firstn i b) = i) by (rewrite firstn_length; lia).
  rewrite firstn_app, L, (firstn_all2 (firstn i b)) by lia.
  replace (i + n - i)%nat with n by lia. f_equal.
  rewrite firstn_app, map_length. replace (n - length s)%nat with O by lia.
  cbn [firstn]. rewrite app_nil_r, firstn_map. reflexivity.
Qed.
Lemma as_is_holds b pre s n : (length pre + length s + 1 <= length b)%nat -> (n <= length s)%nat ->
  firstn (length pre) b = map Some pre ->
  holds (splice (splice b (length pre) s) (length pre + n) [0]) 0 (pre ++ firstn n s).
Proof.
  intros H Hn Hp. unfold holds. cbn [skipn]. unfold splice at 1.
  rewrite (firstn_splice_pre b) by lia. rewrite Hp, app_length, firstn_length.
  replace (Nat.min n (length s)) with n by lia. rewrite map_app. cbn [map].
  rewrite app_assoc. rewrite firstn_app, !app_length, !map_length, firstn_length. cbn [length].
  replace (length pre + n + 1 - (length pre + Nat.min n (length s) + 1))%nat with O by lia.
  cbn [firstn]. rewrite app_nil_r, firstn_all2; [reflexivity|].
  rewrite !app_length, !map_length, firstn_length. cbn [length]. lia.
Qed.
Lemma splice_len b i s : (i + length s <= length b)%nat -> length (splice b i s) = length b.
Proof. apply splice_length. Qed.

Lemma firstn_firstn_splice b i s n : (n <= i)%nat -> (i <= length b)%nat -> firstn n (splice b i s) = firstn n b.
Proof.
  intros H Hb. unfold splice. rewrite firstn_app, firstn_length.
  replace (n - Nat.min i (length b))%nat with O by lia. cbn [firstn]. rewrite app_nil_r, firstn_firstn.
  f_equal. lia.
Qed.

Definition tail_of (b : buf) : outcome (Z * option buf) :=
  do '(rval, obuff) <- unpack_plain (at0 (Some b)) P OBJ_DESIG_OTHER;
  do '(rval, obuff) <- unpack_survey obuff P dm sm rval;
  do obuff <- unpack_as_is obuff P rval;
  do art <- (if rval =? OBJ_DESIG_OTHER then is_artsat_desig P else Ret false);
  Ret (if art then OBJ_DESIG_ARTSAT else rval, of_dest obuff).

(** The model returns what [res] says, and the buffer keeps its size. *)
Definition agrees (b : buf) (m : outcome (Z * option buf)) (res : outcome (Z * list Z)) : Prop :=
  match res with
  | Ret (ty, txt) => exists b', m = Ret (ty, Some b') /\ holds b' 0 txt /\ length b' = length b
  | Abort => m = Abort
  | UB => m = UB
  | Fuel => m = Fuel
  end.

Lemma agrees_splice b (ty : Z) txt : (length txt + 1 <= length b)%nat ->
  agrees b (Ret (ty, Some (splice b 0 (txt ++ [0])))) (Ret (ty, txt)).
Proof.
  intros H. exists (splice b 0 (txt ++ [0])). split; [reflexivity|]. split; [apply holds_splice; lia|].
  apply splice_length. rewrite app_length. cbn. lia.
Qed.

Lemma as_is_ok b b2 pre rval : length b2 = length b -> (24 <= length b)%nat -> (length pre <= 2)%nat ->
  firstn (length pre) b2 = map Some pre -> rval = OBJ_DESIG_OTHER ->
  agrees b (do obuff <- unpack_as_is (Some (b2, Z.of_nat (length pre))) P rval;
     do art <- (if rval =? OBJ_DESIG_OTHER then is_artsat_desig P else Ret false);
     Ret (if art then OBJ_DESIG_ARTSAT else rval, of_dest obuff))
   (as_is_res pre q (is_artsat_desig P)).
Proof.
  intros L2 Hb Lp Hp ->. unfold unpack_as_is. change (OBJ_DESIG_OTHER =? OBJ_DESIG_OTHER) with true. cbs. cbv zeta.
  change (firstn 12 P) with q. set (i := span (Z.eqb 32) q).
  assert (Hi : (i <= 12)%nat).
  { unfold i. clear. assert (G : forall l, (span (Z.eqb 32) l <= length l)%nat).
    { induction l as [|x l IH]; [cbn; lia|]. cbn [span length]. destruct (32 =? x); lia. }
    apply (G q). }
  assert (Es : firstn (12 - i) (skipn i P) = skipn i q).
  { unfold P. rewrite skipn_app. change (length q) with 12%nat. replace (i - 12)%nat with O by lia.
    rewrite firstn_app, skipn_length. change (length q) with 12%nat. rewrite Nat.sub_diag. cbn [firstn]. rewrite app_nil_r.
    apply firstn_all2. rewrite skipn_length. change (length q) with 12%nat. lia. }
  rewrite Es. assert (Ls : length (skipn i q) = (12 - i)%nat) by (rewrite skipn_length; reflexivity).
  unfold as_is_res. rewrite drop_skipn. fold i. set (s := skipn i q) in *. clearbody s i.
  rewrite store_ok by lia. cbs. rewrite <- Ls. rewrite trim_end_ok by lia. cbs. rewrite firstn_all.
  destruct (rtrim_firstn s) as (F & FL). set (n := length (rtrim s)) in *.
  rewrite <- Nat2Z.inj_add, wr_ok by (rewrite splice_length; lia). cbs.
  destruct (is_artsat_desig P) as [a| | |]; cbs; try reflexivity.
  exists (splice (splice b2 (length pre) s) (length pre + n) [0]). split; [reflexivity|]. split.
  - rewrite F. apply as_is_holds; [lia|exact FL|exact Hp].
  - assert (L3 : length (splice b2 (length pre) s) = length b2) by (apply splice_length; lia).
    rewrite splice_length by (rewrite L3; cbn [length]; lia). lia.
Qed.

Lemma prefix4 : prefix (zs "    ") P = sp c0 && sp c1 && sp c2 && sp c3.
Proof.
  change (zs "    ") with [32; 32; 32; 32]. change (prefix [32; 32; 32; 32] P)
    with ((32 =? c0) && ((32 =? c1) && ((32 =? c2) && ((32 =? c3) && true)))).
  unfold sp. rewrite !(Z.eqb_sym 32). btauto.
Qed.

(** After [unpack_plain] left the type open. *)
Lemma rest_ok b b2 pre : length b2 = length b -> (24 <= length b)%nat -> (length pre <= 2)%nat ->
  firstn (length pre) b2 = map Some pre -> (sp c4 = true -> pre = []) ->
  agrees b (do '(rval, obuff) <- unpack_survey (Some (b2, Z.of_nat (length pre))) P dm sm OBJ_DESIG_OTHER;
     do obuff <- unpack_as_is obuff P rval;
     do art <- (if rval =? OBJ_DESIG_OTHER then is_artsat_desig P else Ret false);
     Ret (if art then OBJ_DESIG_ARTSAT else rval, of_dest obuff))
   (if sp c0 && sp c1 && sp c2 && sp c3 && sp c4 && isdigit c8 && isdigit c9 && isdigit c10 && isdigit c11
         && (c7 =? 83) && (((c5 =? 80) && (c6 =? 76)) || ((c5 =? 84) && (49 <=? c6) && (c6 <=? 51)))
    then Ret (OBJ_DESIG_ASTEROID_PROVISIONAL, [c8; c9; c10; c11; 32; c5; 45; c6])
    else as_is_res pre q (is_artsat_desig P)).
Proof.
  intros L2 Hb Lp Hp H4. unfold unpack_survey. rdp. rewrite mask_1f, mask_f00.
  change (OBJ_DESIG_OTHER =? OBJ_DESIG_OTHER) with true. cbn [andb].
  match goal with |- agrees _ (do x <- if ?u then _ else _; _) (if ?v then _ else _) => assert (u = v) as -> end.
  { destruct (sp c0 && sp c1 && sp c2 && sp c3 && sp c4); [|reflexivity]. cbn [andb].
    unfold sp, isdigit.
    destruct ((48 <=? c8) && (c8 <=? 57) && ((48 <=? c9) && (c9 <=? 57)) && ((48 <=? c10) && (c10 <=? 57)) && ((48 <=? c11) && (c11 <=? 57))) eqn:E;
      [|rewrite !andb_false_r; reflexivity].
    destruct (c7 =? 83) eqn:E7; [|rewrite !andb_false_r; reflexivity].
    destruct ((c5 =? 80) && (c6 =? 76) || (c5 =? 84) && (49 <=? c6) && (c6 <=? 51)) eqn:E5; [|rewrite !andb_false_r; reflexivity].
    lia. }
  match goal with |- context [if ?v then _ else _] => destruct v eqn:E end.
  - assert (sp c4 = true) as E4 by (clear - E; repeat (apply andb_prop in E as (E & ?)); assumption).
    rewrite (H4 E4) in *. cbn [length] in *. change (Z.of_nat 0) with 0.
    change (firstn 4 (skipn 8 P)) with [c8; c9; c10; c11].
    change (store b2 0) with (store b2 (Z.of_nat 0)). rewrite store_ok by (cbn; lia). cbs.
    assert (W : forall d k c, k = Z.of_nat (length d) -> (length d < length b2)%nat ->
        wr (splice b2 0 d) k c = Ret (splice b2 0 (d ++ [c]))).
    { intros x k c -> Hd. apply (wr_splice b2 0 x c). lia. }
    rewrite (W [c8; c9; c10; c11]) by (cbn; lia). cbs. cbn [app].
    rewrite (W [c8; c9; c10; c11; 32]) by (cbn; lia). cbs. cbn [app].
    rewrite (W [c8; c9; c10; c11; 32; c5]) by (cbn; lia). cbs. cbn [app].
    rewrite (W [c8; c9; c10; c11; 32; c5; 45]) by (cbn; lia). cbs. cbn [app].
    rewrite (W [c8; c9; c10; c11; 32; c5; 45; c6]) by (cbn; lia). cbs. cbn [app].
    exists (splice b2 0 [c8; c9; c10; c11; 32; c5; 45; c6; 0]). split; [reflexivity|]. split.
    + apply (holds_splice b2 0 [c8; c9; c10; c11; 32; c5; 45; c6]). cbn; lia.
    + rewrite splice_length; cbn; lia.
  - cbs. apply as_is_ok; auto.
Qed.

Lemma prov_fst0 : fst PR = 0 -> exists p, snd PR = Some p.
Proof.
  unfold PR, prov_res. destruct ((c5 =? 95) && isupper c7).
  - cbv zeta. destruct (_ || _); cbn [fst snd]; [discriminate|eauto].
  - match goal with |- context [if ?v then _ else _] => destruct v end; cbn [fst snd]; eauto.
Qed.

Lemma other_ok (b : buf) : (24 <= length b)%nat ->
  agrees b (tail_of b) (other_res c0 c1 c2 c3 c4 c5 c6 c7 c8 c9 c10 c11 (is_artsat_desig P)).
Proof.
  intros Hb. unfold tail_of, unpack_plain, other_res. rdp. rewrite prefix4.
  change (OBJ_DESIG_OTHER =? OBJ_DESIG_OTHER) with true. cbn [andb at0]. cbv zeta. fold q. 
  destruct (sp c0 && sp c1 && sp c2 && sp c3 && strchr (zs " PCDXA") c4) eqn:EP; cbn [andb].
  2: { cbs. apply (rest_ok b b []); try reflexivity; [lia|cbn; lia]. }
  fold PR. change (c4 =? 32) with (sp c4). set (pre := if negb (sp c4) then [c4; 47] else []).
  assert (Lp : (length pre <= 2)%nat) by (unfold pre; destruct (sp c4); cbn; lia).
  match goal with |- context [if sp c4 then ?x else ?y] =>
    match x with Ret _ => assert (E1 : (if sp c4 then x else y) = Ret (Some (splice b 0 pre, Z.of_nat (length pre)))) end end.
  { unfold pre. destruct (sp c4); [reflexivity|]. cbn [negb].
    change (wr b 0 c4) with (wr b (Z.of_nat 0) c4). rewrite wr_ok by lia. cbs.
    change (0 + 1) with (Z.of_nat (0 + length [c4])). rewrite wr_splice by (cbn; lia). reflexivity. }
  rewrite E1. cbs. clear E1.
  rewrite prov_call by (try rewrite splice_length; lia). cbs.
  assert (Hpre : firstn (length pre) (splice b 0 pre) = map Some pre).
  { pose proof (firstn_splice_pre b 0 pre (length pre) ltac:(lia) ltac:(lia)) as X. rewrite firstn_all in X. exact X. }
  destruct (Z.eqb_spec (fst PR) 0) as [E0|E0].
  - destruct (prov_fst0 E0) as (p & Ep). destruct (prov_facts p Ep) as (_ & Hl).
    destruct PR as (r0, o0). cbn [fst snd] in *. subst r0 o0. cbn [negb].
    set (ty := if sp c4 || (c4 =? 65) then OBJ_DESIG_ASTEROID_PROVISIONAL else OBJ_DESIG_COMET_PROVISIONAL).
    assert (Et : ty =? OBJ_DESIG_OTHER = false) by (unfold ty; destruct (sp c4 || (c4 =? 65)); reflexivity).
    unfold unpack_survey. rdp. rewrite Et. cbn [andb]. cbs. unfold unpack_as_is. rewrite Et. cbs. cbn [of_dest].
    change (length pre) with (0 + length pre)%nat at 1. rewrite splice_splice by (rewrite app_length; cbn; lia).
    rewrite app_assoc. apply agrees_splice. rewrite app_length. lia.
  - assert (match PR with
       | (0, Some p) => Ret (if sp c4 || (c4 =? 65) then OBJ_DESIG_ASTEROID_PROVISIONAL else OBJ_DESIG_COMET_PROVISIONAL, pre ++ p)
       | _ => if sp c0 && sp c1 && sp c2 && sp c3 && sp c4 && isdigit c8 && isdigit c9 && isdigit c10 && isdigit c11
         && (c7 =? 83) && (((c5 =? 80) && (c6 =? 76)) || ((c5 =? 84) && (49 <=? c6) && (c6 <=? 51)))
      then Ret (OBJ_DESIG_ASTEROID_PROVISIONAL, [c8; c9; c10; c11; 32; c5; 45; c6])
      else as_is_res pre q (is_artsat_desig P)
      end = if sp c0 && sp c1 && sp c2 && sp c3 && sp c4 && isdigit c8 && isdigit c9 && isdigit c10 && isdigit c11
         && (c7 =? 83) && (((c5 =? 80) && (c6 =? 76)) || ((c5 =? 84) && (49 <=? c6) && (c6 <=? 51)))
      then Ret (OBJ_DESIG_ASTEROID_PROVISIONAL, [c8; c9; c10; c11; 32; c5; 45; c6])
      else as_is_res pre q (is_artsat_desig P)) as ->.
    { destruct PR as ([| |], o); cbn [fst] in E0; [congruence|reflexivity|reflexivity]. }
    cbn [negb]. apply rest_ok; try assumption.
    + assert (L3 : length (splice b 0 pre) = length b) by (apply splice_length; lia).
      destruct (snd PR) as [p|] eqn:Ep; [destruct (prov_facts p Ep)|exact L3].
      rewrite splice_length by (rewrite L3, app_length; cbn [length]; lia). exact L3.
    + destruct (snd PR) as [p|] eqn:Ep; [|exact Hpre].
      rewrite firstn_firstn_splice; [exact Hpre|lia|]. rewrite splice_length; lia.
    + intros H. unfold pre. rewrite H. reflexivity.
Qed.

Lemma plain_skip (b : buf) ty : ty =? OBJ_DESIG_OTHER = false ->
  (do '(rval, obuff) <- unpack_plain (at0 (Some b)) P ty;
   do '(rval, obuff) <- unpack_survey obuff P dm sm rval;
   do obuff <- unpack_as_is obuff P rval;
   do art <- (if rval =? OBJ_DESIG_OTHER then is_artsat_desig P else Ret false);
   Ret (if art then OBJ_DESIG_ARTSAT else rval, of_dest obuff)) = Ret (ty, Some b).
Proof.
  intros E. unfold unpack_plain. rdp. rewrite E. cbn [andb]. cbs. unfold unpack_survey. rdp. rewrite E. cbn [andb]. cbs.
  cbn [at0]. unfold unpack_as_is. rewrite E. reflexivity.
Qed.

Lemma numbered_len ty txt : num_res = Ret (Some (ty, txt)) -> (length txt <= 22)%nat /\ ty =? OBJ_DESIG_OTHER = false.
Proof.
  assert (G : forall p, numbered_res p c0 c1 c2 c3 c4 c10 c11 = Ret (Some (ty, txt)) -> (length txt <= 22)%nat /\ ty =? OBJ_DESIG_OTHER = false).
  { intros p. unfold numbered_res. destruct (isdigit c4).
    - destruct p as [p|]; [|discriminate]. cbv zeta.
      match goal with |- context [if (length ?l <? 23)%nat then _ else _] => set (tx := l) end.
      destruct (Nat.ltb_spec (length tx) 23); [|discriminate]. intros X.
      assert (txt = tx /\ ty = OBJ_DESIG_ASTEROID_NUMBERED) as (-> & ->) by (split; congruence). split; [lia|reflexivity].
    - destruct (strchr (zs "PCDXAI") c4); [|discriminate].
      match goal with |- Ret (Some (_, ?l)) = _ -> _ => set (tx := l) end. intros X.
      assert (txt = tx /\ ty = OBJ_DESIG_COMET_NUMBERED) as (-> & ->) by (split; congruence).
      split; [|reflexivity]. unfold tx. rewrite !app_length.
      assert (length (if isdigit c0 then drop (Z.eqb 48) [c0; c1; c2; c3] else []) <= 4)%nat.
      { destruct (isdigit c0); [|cbn; lia]. rewrite drop_skipn, skipn_length. change (length [c0; c1; c2; c3]) with 4%nat. lia. }
      destruct (islower c11), (islower c10); cbn [length app]; lia. }
  unfold num_res. destruct (isalnum c0 && _); [|discriminate].
  destruct (sp c5 && _ && _ && _ && _); [apply G|].
  destruct (snd PR) as [[|c p]|]; [discriminate|apply G|discriminate].
Qed.

Theorem unpack_ok (b : buf) : (24 <= length b)%nat ->
  agrees b (unpack_mpc_desig (Some b) P) (unpack_res c0 c1 c2 c3 c4 c5 c6 c7 c8 c9 c10 c11 t).
Proof.
  intros Hb. unfold unpack_mpc_desig, unpack_res. rewrite (rdP 0) by lia. change (nth (Z.to_nat 0) q 0) with c0. cbn [obind].
  fold q. change (q ++ t) with P. change (skipn 1 q ++ t) with (skipn 1 P).
  destruct (c0 =? 36) eqn:E36.
  { assert (N1 : no_nul (skipn 1 P)) by (intros x Hx; apply NN; rewrite <- (firstn_skipn 1); apply in_or_app; right; exact Hx).
    unfold strlcpy_err. change 0 with (Z.of_nat 0) at 1. rewrite strlcpy_ok by (try assumption; lia). cbs.
    destruct (Z.leb_spec (Z.of_nat 16) (Z.of_nat (length (skipn 1 P)))); destruct (Nat.ltb_spec (length (skipn 1 P)) 16); try lia; cbs; [reflexivity|].
    rewrite firstn_all2 by lia. apply agrees_splice. lia. }
  assert (masks12' : desig_masks 12 P 0 1 0 0 = Ret (dm, sm)) by (apply (masks12 q t); reflexivity).
  rewrite masks12'. cbs. rewrite natsat_ok by exact Hb.
  change (prov_res c5 c6 c7 c8 c9 c10 c11) with PR.
  change ((c4 =? 83) && (is_planet c0 && (isdigit c1 && isdigit c2 && isdigit c3)
          && (sp c5 && sp c6 && sp c7 && sp c8 && sp c9 && sp c10 && sp c11))) with pos_natsat.
  change ((c4 =? 83) && (is_planet c8 && (isdigit c6 && isdigit c7 && isdigit c10 && isdigit c11)
          && (sp c0 && sp c1 && sp c2 && sp c3) && isalnum c9 && (c11 =? 48) && (72 <=? c5) && (c5 <=? 90))) with pos_natsat_prov.
  change ((c0 =? 126) && ((sp c5 && sp c6 && sp c7 && sp c8 && sp c9)
          || negb (sp c5 || sp c6 || sp c7 || sp c8 || sp c9)) && (0 <=? get4 c1 c2 c3 c4)) with pos_tilde.
  assert (Pc : unpack_provisional_packed_desig (Some (repeat None 40, 0)) 40 P 5 = Ret (fst PR, Some (prov_buf, 0))).
  { exact (prov_call (repeat None 40) 0 40 ltac:(lia) ltac:(cbn; lia)). }
  assert (Sk : forall ty (b' : buf), ty =? OBJ_DESIG_OTHER = false -> (24 <= length b')%nat -> (c4 =? 83) = true -> pos_tilde = false ->
     (isalnum c0 && (isdigit c1 && isdigit c2 && isdigit c3) = true -> sp c5 && sp c6 && sp c7 && sp c8 && sp c9 = true) ->
     (do '(_, prov) <- Ret (fst PR, Some (prov_buf, 0));
      let provisional_desig := match prov with Some (b, _) => b | None => [] end in
      do early <- unpack_tilde (Some b') provisional_desig P sm;
      match early with
      | Some r => Ret r
      | None =>
        do '(rval, obuff) <- unpack_numbered (Some b') provisional_desig P dm sm ty;
        do '(rval, obuff) <- unpack_plain (at0 obuff) P rval;
        do '(rval, obuff) <- unpack_survey obuff P dm sm rval;
        do obuff <- unpack_as_is obuff P rval;
        do art <- (if rval =? OBJ_DESIG_OTHER then is_artsat_desig P else Ret false);
        Ret (if art then OBJ_DESIG_ARTSAT else rval, of_dest obuff)
      end) = Ret (ty, Some b')).
  { intros ty b' Ety Hb' E4 Et Hsp. cbs. rewrite tilde_ok by exact Hb'. rewrite Et. cbs.
    rewrite numbered_ok by exact Hb'.
    assert (num_res = Ret None) as ->.
    { unfold num_res. destruct (isalnum c0 && _); [|reflexivity]. rewrite Hsp by reflexivity.
      unfold numbered_res. assert (c4 = 83) as -> by lia. reflexivity. }
    cbs. apply plain_skip, Ety. }
  destruct pos_natsat eqn:En.
  { unfold pos_natsat in En. apply andb_prop in En as (E4 & En). apply andb_prop in En as (En & Esp). apply andb_prop in En as (Epl & _).
    assert (Hsp : sp c5 && sp c6 && sp c7 && sp c8 && sp c9 = true) by (apply andb_prop in Esp as (Esp & _); apply andb_prop in Esp as (Esp & _); exact Esp).
    assert (Et : pos_tilde = false) by (unfold pos_tilde; unfold is_planet in Epl; destruct (Z.eqb_spec c0 126); [exfalso; lia|reflexivity]).
    unfold natsat_res. cbv zeta. set (tx := planet_of c0 ++ _). destruct (Nat.ltb_spec (length tx) 16); [|reflexivity].
    cbs. rewrite Pc. rewrite Sk; [apply agrees_splice; lia|reflexivity|rewrite splice_length; rewrite ?app_length; cbn [length]; lia|exact E4|exact Et|auto]. }
  destruct pos_natsat_prov eqn:Ep.
  { unfold pos_natsat_prov in Ep. apply andb_prop in Ep as (E4 & Ep).
    assert (H5 : 72 <= c5 <= 90) by lia.
    do 4 apply andb_prop in Ep as (Ep & _). apply andb_prop in Ep as (_ & Ep).
    assert (c0 = 32) as E0 by (unfold sp in Ep; lia).
    assert (Et : pos_tilde = false) by (unfold pos_tilde; rewrite E0; reflexivity).
    assert (Hl : (length (natsat_prov_text c5 c6 c7 c8 c9 c10) <= 16)%nat).
    { unfold natsat_prov_text. cbv zeta. rewrite !app_length. pose proof (dec_len (c5 - 55) 2 ltac:(lia) ltac:(p10; lia)).
      change (length (zs "S/")) with 2%nat. destruct (10 <? _), (_ =? 0); cbn [length]; lia. }
    cbs. rewrite Pc. rewrite Sk; [apply agrees_splice; lia|reflexivity|rewrite splice_length; rewrite ?app_length; cbn [length]; lia|exact E4|exact Et|].
    rewrite E0. discriminate. }
  cbs. rewrite Pc. cbs. rewrite tilde_ok by exact Hb.
  destruct pos_tilde.
  { fold tilde_res. change (match snd PR with
       | Some p => let text := [40] ++ dec (get4 c1 c2 c3 c4 + 620000) ++ [41] ++ match p with [] => [] | _ :: _ => [32] ++ p end in
          if (length text <? 24)%nat then Ret (OBJ_DESIG_ASTEROID_NUMBERED, text) else Abort
       | None => UB end) with tilde_res.
    assert (Hl : forall ty txt, tilde_res = Ret (ty, txt) -> (length txt < 24)%nat).
    { intros ty txt. unfold tilde_res. destruct (snd PR) as [p|]; [|discriminate]. cbv zeta.
      match goal with |- context [if (length ?l <? 24)%nat then _ else _] => set (tx := l) end.
      destruct (Nat.ltb_spec (length tx) 24); [|discriminate]. intros X. assert (txt = tx) as -> by congruence. lia. }
    destruct tilde_res as [(ty, txt)| | |]; try reflexivity. cbs. apply agrees_splice. specialize (Hl _ _ eq_refl). lia. }
  cbs. rewrite numbered_ok by exact Hb.
  change (if isalnum c0 && (isdigit c1 && isdigit c2 && isdigit c3) then _ else _) with num_res.
  pose proof numbered_len as NL.
  destruct num_res as [[(ty, txt)|]| | |]; cbs; try reflexivity.
  - destruct (NL ty txt eq_refl) as (Hl & Ety). rewrite plain_skip by exact Ety. apply agrees_splice. lia.
  - apply other_ok, Hb.
Qed.
End Record.
