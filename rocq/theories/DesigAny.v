(** unpack_mpc_desig( ) on arbitrary fields. *)
From Coq Require Import Lia ZifyBool String Bool.
From Verif Require Import CBase CLemmas CStr StrModel StrProofs DesigModel DesigBase DesigUnpack DesigClosed DesigPack DesigSpec DesigRound DesigTotal.
Open Scope list_scope.

Lemma prov_some c0 c1 c2 c3 c4 c5 c6 : c0 <> 95 -> exists v p, prov_res c0 c1 c2 c3 c4 c5 c6 = (v, Some p) /\ (length p <= 11)%nat.
Proof.
  intros H. unfold prov_res. rewrite (eqb_ne c0) by exact H. cbn [andb].
  destruct ((71 <=? c0) && _ && _ && _ && _ && _ && _) eqn:E; [|eexists; eexists; split; [reflexivity|cbn; lia]].
  eexists. eexists. split; [reflexivity|]. rewrite !app_length. cbn [length].
  assert (Hd : isdigit c5 = true) by (destruct (isdigit c5); [reflexivity|rewrite !andb_false_r in E; cbn in E; discriminate]).
  pose proof (hex_range c4) as R. set (k := mutant_hex_char_to_int c4 * 10 + c5 - 48).
  assert (Hk : -10 <= k < 1000) by (unfold k, isdigit in *; lia).
  assert (L : (length (if Z.eqb k 0 then [] else dec k) <= 3)%nat).
  { destruct (Z.eqb k 0); [cbn; lia|]. 
    pose (f := (fun k => (length (dec k) <=? 3)%nat)).
    assert (C : zall f (Z.to_nat 1010) (-10) = true) by (vm_cast_no_check (eq_refl true)).
    pose proof (zall_Z f 1010 (-10) C k ltac:(lia)) as X. unfold f in X. lia. }
  assert ((length (if isupper c6 then [c6] else []) + length (if islower c6 then [45; c6 + 65 - 97]%Z else []) <= 2)%nat).
  { destruct (isupper c6) eqn:U; destruct (islower c6) eqn:V; cbn [length]; try lia. unfold isupper, islower in *. lia. }
  lia.
Qed.

Lemma at_in (q : list Z) i : (i < length q)%nat -> exists c, at_ q (Z.of_nat i) = Ret c.
Proof. intros H. rewrite at_chr by lia. eexists; reflexivity. Qed.

(** Digits before the '-' of an artificial satellite's designation. *)
Lemma atoi_dash p r : (length p = 4)%nat -> (length r <= 7)%nat -> exists v, atoi (p ++ 45 :: r) = Ret v.
Proof.
  intros Lp Lr. unfold atoi.
  assert (B : forall s k, (length s <= k)%nat -> (k <= 9)%nat -> 0 <= dig_val 0 s < 10 ^ Z.of_nat k).
  { intros s k Hs Hk. split; [apply dig_val_mono; lia|]. rewrite dig_val_span.
    pose proof (dig_val_digits _ 0 ltac:(lia) (span_all isdigit s)) as X. rewrite firstn_length in X.
    assert (10 ^ Z.of_nat (Nat.min (span isdigit s) (length s)) <= 10 ^ Z.of_nat k) by (apply Z.pow_le_mono_r; lia). lia. }
  assert (NS : isspace 45 = false) by reflexivity.
  assert (CH : forall z, -10 ^ 9 < z < 10 ^ 9 -> exists v, chk IMAX z = Ret v).
  { intros z Hz. exists z. apply chk_ok. unfold fits, IMAX. lia. }
  assert (D : forall u, (u ++ 45 :: r = [] -> False) -> (length u <= 4)%nat -> exists v,
     match u ++ 45 :: r with 45 :: r0 => chk IMAX (- dig_val 0 r0) | 43 :: r0 => chk IMAX (dig_val 0 r0) | _ => chk IMAX (dig_val 0 (u ++ 45 :: r)) end = Ret v).
  { intros u _ Lu.
    assert (DV : forall w, (length w <= 4)%nat -> 0 <= dig_val 0 (w ++ 45 :: r) < 10 ^ 4).
    { intros w Lw. split; [apply dig_val_mono; lia|].
      assert (E : dig_val 0 (w ++ 45 :: r) = dig_val 0 w).
      { generalize 0. induction w as [|c w IH]; intros a; [reflexivity|]. cbn [app dig_val]. destruct (isdigit c); [apply IH; cbn in Lw; lia|reflexivity]. }
      rewrite E. pose proof (B w 4%nat Lw ltac:(lia)). change (10 ^ Z.of_nat 4) with (10 ^ 4) in *. lia. }
    destruct u as [|c u].
    - cbn [app]. pose proof (B r 7%nat Lr ltac:(lia)). change (10 ^ Z.of_nat 7) with 10000000 in *. apply CH. lia.
    - cbn [app]. pose proof (DV (c :: u) Lu) as D1. cbn [app] in D1. pose proof (DV u ltac:(cbn in Lu; lia)) as D2.
      set (x := dig_val 0 (c :: u ++ 45 :: r)) in *. set (y := dig_val 0 (u ++ 45 :: r)) in *. clearbody x y.
      assert (X : forall A (x y z : A) (Q : A -> Prop), Q x -> Q y -> Q z -> Q match c with 45 => x | 43 => y | _ => z end).
      { intros A a b z Q Q1 Q2 Q3. destruct c as [|c'|c']; try exact Q3.
        repeat (destruct c' as [c'|c'|]; try exact Q3; try exact Q1; try exact Q2). }
      apply (X _ _ _ _ (fun m => exists v, m = Ret v)); apply CH; lia. }
  cbv zeta. destruct p as [|a0 [|a1 [|a2 [|a3 [|? ?]]]]]; try discriminate.
  cbn [app span]. 
  destruct (isspace a0); [|exact (D [a0; a1; a2; a3] ltac:(discriminate) ltac:(cbn; lia))].
  destruct (isspace a1); [|exact (D [a1; a2; a3] ltac:(discriminate) ltac:(cbn; lia))].
  destruct (isspace a2); [|exact (D [a2; a3] ltac:(discriminate) ltac:(cbn; lia))].
  destruct (isspace a3); [|exact (D [a3] ltac:(discriminate) ltac:(cbn; lia))].
  rewrite NS. cbn [skipn]. exact (D [] ltac:(discriminate) ltac:(cbn; lia)).
Qed.

Lemma artsat_total q : (length q <= 12)%nat -> exists v, is_artsat_desig q = Ret v.
Proof.
  induction q as [|c q IH]; intros L; [exists false; reflexivity|].
  destruct (IH ltac:(cbn in L; lia)) as (v & E). clear IH.
  change (is_artsat_desig (c :: q)) with (if (length (c :: q) <=? 8)%nat then Ret false
      else do hit <- (tst (c :: q) 4 (fun c => c =? 45)
                 &&& (do v <- atoi (c :: q); Ret ((1956 <? v) && (v <? 2100)))
                 &&& tst (c :: q) 5 isdigit &&& tst (c :: q) 6 isdigit
                 &&& tst (c :: q) 7 isdigit &&& tst (c :: q) 8 isupper);
           if hit then Ret true else is_artsat_desig q).
  rewrite E. destruct (Nat.leb_spec (length (c :: q)) 8); [exists false; reflexivity|]. set (s := c :: q) in *.
  assert (K : post (do hit <- (tst s 4 (fun c => c =? 45) &&& (do v <- atoi s; Ret ((1956 <? v) && (v <? 2100)))
                 &&& tst s 5 isdigit &&& tst s 6 isdigit &&& tst s 7 isdigit &&& tst s 8 isupper);
           if hit then Ret true else Ret v) (fun _ => True)).
  { assert (F : forall b : bool, post (if b then Ret true else Ret v) (fun _ => True)) by (intros []; apply post_ret; exact I).
    apply post_bind, post_and, post_and, post_and, post_and, post_and.
    change 4 with (Z.of_nat 4). apply post_tst; [lia|]. destruct (nth 4 s 0 =? 45) eqn:E4; [|exact (F false)].
    assert (S4 : exists p r, s = p ++ 45 :: r /\ length p = 4%nat /\ (length r <= 7)%nat).
    { exists (firstn 4 s), (skipn 5 s). split; [|rewrite firstn_length, skipn_length; lia].
      apply Z.eqb_eq in E4. rewrite <- E4. rewrite <- skipn_cons by lia. symmetry. apply firstn_skipn. }
    destruct S4 as (p & r & -> & Lp & Lr). destruct (atoi_dash p r Lp Lr) as (w & ->). apply post_bind, post_ret, post_ret.
    set (s := p ++ 45 :: r) in *. destruct ((1956 <? w) && (w <? 2100)); [|exact (F false)].
    change 5 with (Z.of_nat 5). apply post_tst; [lia|]. destruct (isdigit _); [|exact (F false)].
    change 6 with (Z.of_nat 6). apply post_tst; [lia|]. destruct (isdigit _); [|exact (F false)].
    change 7 with (Z.of_nat 7). apply post_tst; [lia|]. destruct (isdigit _); [|exact (F false)].
    change 8 with (Z.of_nat 8). apply post_tst; [lia|]. exact (F _). }
  destruct K as (x & -> & _). exists x. reflexivity.
Qed.

Theorem unpack_res_total c0 c1 c2 c3 c4 c5 c6 c7 c8 c9 c10 c11 :
  let q := [c0; c1; c2; c3; c4; c5; c6; c7; c8; c9; c10; c11] in
  no_nul q -> ~ long_satellite q -> ~ number_and_extended q ->
  exists ty txt, unpack_res c0 c1 c2 c3 c4 c5 c6 c7 c8 c9 c10 c11 [] = Ret (ty, txt) /\ In ty designation_types.
Proof.
  intros q N NL NE. unfold unpack_res. fold q.
  destruct (c0 =? 36); [eexists; eexists; split; [reflexivity|cbn; auto]|].
  match goal with |- context[if ?x then natsat_res _ _ _ _ else _] => destruct x eqn:E1 end.
  { assert (X : natsat_res c0 c1 c2 c3 <> Abort).
    { intros A. apply NL. unfold natsat_res in A.
      apply andb_prop in E1 as (E1 & E2). apply andb_prop in E2 as (E2 & E3). apply andb_prop in E2 as (E2 & E4).
      apply andb_prop in E4 as (E4 & D3). apply andb_prop in E4 as (D1 & D2).
      unfold isdigit in *. exists (planet_of c0), (100 * (c1 - 48) + 10 * (c2 - 48) + (c3 - 48)).
      set (n := 100 * (c1 - 48) + 10 * (c2 - 48) + (c3 - 48)) in *.
      assert (Hn : 0 <= n < 1000) by (unfold n; lia).
      destruct (Nat.ltb_spec (length (planet_of c0 ++ [32] ++ roman n)) 16) as [|G]; [discriminate|].
      split; [|split; [exact Hn|split]].
      - clear -E2. unfold is_planet in E2. unfold planet_of, satellite_planets.
        destruct (Z.eqb_spec c0 86); [cbn; tauto|]. destruct (Z.eqb_spec c0 69); [cbn; tauto|]. destruct (Z.eqb_spec c0 77); [cbn; tauto|].
        destruct (Z.eqb_spec c0 74); [cbn; tauto|]. destruct (Z.eqb_spec c0 83); [cbn; tauto|]. destruct (Z.eqb_spec c0 85); [cbn; tauto|].
        destruct (Z.eqb_spec c0 78); cbn; tauto.
      - rewrite pad0_3 by exact Hn. unfold q. unfold sp in E3.
        replace (n / 100) with (c1 - 48) by (unfold n; lia). replace (n / 10 mod 10) with (c2 - 48) by (unfold n; lia).
        replace (n mod 10) with (c3 - 48) by (unfold n; lia).
        assert (P0 : nth 0 (planet_of c0) 0 = c0).
        { clear -E2. unfold is_planet in E2. unfold planet_of.
          destruct (Z.eqb_spec c0 86); [subst; reflexivity|]. destruct (Z.eqb_spec c0 69); [subst; reflexivity|]. destruct (Z.eqb_spec c0 77); [subst; reflexivity|].
          destruct (Z.eqb_spec c0 74); [subst; reflexivity|]. destruct (Z.eqb_spec c0 83); [subst; reflexivity|]. destruct (Z.eqb_spec c0 85); [subst; reflexivity|].
          destruct (Z.eqb_spec c0 78); [subst; reflexivity|]. assert (c0 = 80) by lia. subst. reflexivity. }
        rewrite P0. change (zs "S       ") with [83; 32; 32; 32; 32; 32; 32; 32]. cbn [app].
        assert (c4 = 83) by lia. assert (c5 = 32) by lia. assert (c6 = 32) by lia. assert (c7 = 32) by lia.
        assert (c8 = 32) by lia. assert (c9 = 32) by lia. assert (c10 = 32) by lia. assert (c11 = 32) by lia.
        subst c4 c5 c6 c7 c8 c9 c10 c11. repeat f_equal; lia.
      - unfold satellite_name. rewrite roman_all by exact Hn. exact G. }
    unfold natsat_res in *. destruct (_ <? 16)%nat; [|contradiction]. eexists; eexists; split; [reflexivity|cbn; tauto]. }
  clear E1. match goal with |- context[if ?x then Ret (OBJ_DESIG_NATSAT_PROVISIONAL, _) else _] => destruct x end; [eexists; eexists; split; [reflexivity|cbn; tauto]|].
  assert (PN : c0 = 126 \/ isalnum c0 = true -> exists v p, prov_res c5 c6 c7 c8 c9 c10 c11 = (v, Some p) /\ (length p <= 11)%nat).
  { intros H. apply prov_some. intros ->. apply NE. split; [reflexivity|]. cbn [nth]. tauto. }
  match goal with |- context[if ?x then match snd (prov_res _ _ _ _ _ _ _) with Some _ => _ | None => _ end else _] => destruct x eqn:E2 end.
  { apply andb_prop in E2 as (E2 & E3). apply andb_prop in E2 as (E2 & _). destruct PN as (v & p & -> & Lp); [lia|]. cbn [snd].
    pose proof (get4_range c1 c2 c3 c4) as GR.
    assert (Ld : (length (dec (get4 c1 c2 c3 c4 + 620000)) <= 8)%nat) by (apply dec_len; [lia|p10; lia]).
    destruct (Nat.ltb_spec (length ([40] ++ dec (get4 c1 c2 c3 c4 + 620000) ++ [41] ++ match p with [] => [] | _ => [32] ++ p end)) 24) as [|G].
    - eexists; eexists; split; [reflexivity|cbn; tauto].
    - exfalso. rewrite !app_length in G. cbn [length] in G. destruct p; cbn [length app] in *; lia. }
  clear E2.
  assert (OT : exists ty txt, other_res c0 c1 c2 c3 c4 c5 c6 c7 c8 c9 c10 c11 (is_artsat_desig (q ++ [])) = Ret (ty, txt) /\ In ty designation_types).
  { destruct (artsat_total q) as (a & A); [cbn; lia|]. rewrite app_nil_r. unfold other_res, as_is_res. rewrite A. cbn [obind].
    assert (TA : In (if a then OBJ_DESIG_ARTSAT else OBJ_DESIG_OTHER) designation_types) by (destruct a; cbn; tauto).
    match goal with |- context[match ?x with (_, _) => _ end] => destruct x as (v, [p|]) end.
    - destruct v as [|v|v].
      + eexists; eexists; split; [reflexivity|]. destruct (orb _ _); cbn; tauto.
      + match goal with |- context[if ?x then Ret (_, [c8; c9; c10; c11; 32; c5; 45; c6]) else _] => destruct x end; eexists; eexists; (split; [reflexivity|]); [cbn; tauto|exact TA].
      + match goal with |- context[if ?x then Ret (_, [c8; c9; c10; c11; 32; c5; 45; c6]) else _] => destruct x end; eexists; eexists; (split; [reflexivity|]); [cbn; tauto|exact TA].
    - destruct v; match goal with |- context[if ?x then Ret (_, [c8; c9; c10; c11; 32; c5; 45; c6]) else _] => destruct x end; eexists; eexists; (split; [reflexivity|]); solve [cbn; tauto|exact TA]. }
  destruct (isalnum c0 && _) eqn:E3; [|exact OT].
  apply andb_prop in E3 as (E3 & E4). destruct PN as (v & p & -> & Lp); [right; exact E3|]. cbn [snd].
  assert (NR : numbered_res (Some p) c0 c1 c2 c3 c4 c10 c11 = Ret None \/
     exists ty txt, numbered_res (Some p) c0 c1 c2 c3 c4 c10 c11 = Ret (Some (ty, txt)) /\ In ty designation_types).
  { unfold numbered_res. destruct (isdigit c4) eqn:D4.
    - right. assert (DV : 0 <= dig_val 0 [c1; c2; c3; c4] < 10000).
      { apply andb_prop in E4 as (E4 & H3). apply andb_prop in E4 as (H1 & H2).
        cbn [dig_val]. rewrite H1, H2, H3, D4. unfold isdigit in *. lia. }
      destruct (hex_cases c0) as [(_ & HR & _)|(HF & _)]; [|congruence].
      assert (Ld : (length (dec (mutant_hex_char_to_int c0 * 10000 + dig_val 0 [c1; c2; c3; c4])) <= 6)%nat) by (apply dec_len; [lia|p10; lia]).
      cbv zeta. destruct (Nat.ltb_spec (length ([40] ++ dec (mutant_hex_char_to_int c0 * 10000 + dig_val 0 [c1; c2; c3; c4]) ++ [41] ++ match p with [] => [] | _ => [32; 61; 32] ++ p end)) 23) as [|G].
      + eexists; eexists; split; [reflexivity|cbn; tauto].
      + exfalso. rewrite !app_length in G. cbn [length] in G. destruct p; cbn [length app] in *; lia.
    - destruct (strchr _ c4); [right; eexists; eexists; split; [reflexivity|cbn; tauto]|left; reflexivity]. }
  destruct (sp c5 && _ && _ && _ && _).
  - destruct NR as [->|(ty & txt & -> & I)]; cbn [obind]; [exact OT|]. eexists; eexists; split; [reflexivity|exact I].
  - destruct p as [|x p]; [exact OT|]. destruct NR as [->|(ty & txt & -> & I)]; cbn [obind]; [exact OT|]. eexists; eexists; split; [reflexivity|exact I].
Qed.

Theorem unpack_total q (b : buf) : length q = 12%nat -> no_nul q -> (24 <= length b)%nat -> ~ long_satellite q -> ~ number_and_extended q ->
  exists ty b' txt, unpack_mpc_desig (Some b) q = Ret (ty, Some b') /\ In ty designation_types /\ length b' = length b /\ holds b' 0 txt.
Proof.
  intros L N Hb NL NE.
  destruct q as [|c0 [|c1 [|c2 [|c3 [|c4 [|c5 [|c6 [|c7 [|c8 [|c9 [|c10 [|c11 [|? ?]]]]]]]]]]]]]; try discriminate.
  pose proof (unpack_ok c0 c1 c2 c3 c4 c5 c6 c7 c8 c9 c10 c11 []) as U. cbn [app] in U. specialize (U N b Hb).
  destruct (unpack_res_total c0 c1 c2 c3 c4 c5 c6 c7 c8 c9 c10 c11 N NL NE) as (ty & txt & E & I).
  rewrite E in U. destruct U as (b' & U1 & U2 & U3). exists ty, b', txt. auto.
Qed.

(** The converse for satellites. *)
Theorem unpack_long_satellite q (b : buf) : (24 <= length b)%nat -> long_satellite q -> unpack_mpc_desig (Some b) q = Abort.
Proof.
  intros Hb (p & n & Hp & Hn & -> & L).
  assert (E : [nth 0 p 0] ++ pad0 3 n ++ zs "S       " = [nth 0 p 0; 48 + n / 100; 48 + n / 10 mod 10; 48 + n mod 10; 83; 32; 32; 32; 32; 32; 32; 32]).
  { rewrite pad0_3 by exact Hn. reflexivity. }
  rewrite E. 
  assert (NN : no_nul ([nth 0 p 0; 48 + n / 100; 48 + n / 10 mod 10; 48 + n mod 10; 83; 32; 32; 32; 32; 32; 32; 32] ++ [])).
  { nn; try discriminate; try lia. destruct Hp as [<-|[<-|[<-|[<-|[<-|[<-|[<-|[<-|[]]]]]]]]]; discriminate. }
  pose proof (unpack_ok _ _ _ _ _ _ _ _ _ _ _ _ [] NN b Hb) as U. rewrite app_nil_r in U.
  assert (N0 : n <> 0).
  { intros ->. clear -Hp L. destruct Hp as [<-|[<-|[<-|[<-|[<-|[<-|[<-|[<-|[]]]]]]]]]; vm_compute in L; lia. }
  rewrite (unpack_satellite p n Hp ltac:(lia)) in U.
  destruct (Nat.ltb_spec (length (satellite_name p n)) 16); [lia|]. exact U.
Qed.
