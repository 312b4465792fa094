(** Packing and unpacking give back the name. *)
From Coq Require Import Lia ZifyBool String Bool.
From Verif Require Import CBase CLemmas CStr StrModel StrProofs DesigModel DesigBase DesigUnpack DesigClosed DesigPack DesigSpec.
Open Scope list_scope.

Lemma W_holds l r : holds (W (l ++ [0]) r) 0 l.
Proof.
  unfold holds, W. cbn [skipn]. rewrite map_app, <- app_assoc. rewrite firstn_app, map_length.
  rewrite firstn_all2 by (rewrite map_length; lia). replace (length l + 1 - length l)%nat with 1%nat by lia. reflexivity.
Qed.

Lemma rt name ty c0 c1 c2 c3 c4 c5 c6 c7 c8 c9 c10 c11 :
  (forall b, (13 <= length b)%nat ->
     create_mpc_packed_desig b name = Ret (0, W ([c0; c1; c2; c3; c4; c5; c6; c7; c8; c9; c10; c11] ++ [0]) (skipn 13 b))) ->
  no_nul [c0; c1; c2; c3; c4; c5; c6; c7; c8; c9; c10; c11] ->
  unpack_res c0 c1 c2 c3 c4 c5 c6 c7 c8 c9 c10 c11 [] = Ret (ty, name) ->
  round_trip name ty.
Proof.
  intros Hc Hn Hu b o Hb Ho. exists [c0; c1; c2; c3; c4; c5; c6; c7; c8; c9; c10; c11].
  eexists. pose proof (unpack_ok c0 c1 c2 c3 c4 c5 c6 c7 c8 c9 c10 c11 [] Hn o Ho) as U.
  rewrite Hu in U. destruct U as (o' & U1 & U2 & _). exists o'.
  split; [apply Hc, Hb|]. split; [apply W_holds|]. split; [reflexivity|]. split; [exact Hn|]. split; [exact U1|exact U2].
Qed.

Ltac nn := let x := fresh in let H := fresh in intros x H; repeat (destruct H as [<-|H]; [|]); try destruct H.

Lemma eqb_ne a b : a <> b -> (a =? b) = false.
Proof. apply Z.eqb_neq. Qed.
Lemma digit_alnum c : isdigit c = true -> isalnum c = true.
Proof. intros H. unfold isalnum. rewrite H. apply orb_true_r. Qed.

Lemma rt_number n : 1 <= n < 15396336 -> round_trip ([40] ++ dec n ++ [41]) OBJ_DESIG_ASTEROID_NUMBERED.
Proof.
  intros Hn. pose proof (fun b H => pack_number_ok b n H Hn) as C. unfold packed_number in C.
  destruct (Z.ltb_spec n 620000).
  - unfold four in C. cbn [repeat app] in C.
    assert (Hx : isalnum (int_to_mutant_hex_char (n / 10000)) = true) by (apply hex_alnum; lia).
    pose proof (of_to_hex (n / 10000) ltac:(lia)) as Hv.
    set (x := int_to_mutant_hex_char (n / 10000)) in *.
    eapply rt; [exact C| |].
    + nn; try discriminate; try lia. apply isalnum_nz, Hx.
    + unfold unpack_res. assert (R : 48 <= x <= 122) by (unfold isalnum, isalpha, isupper, islower, isdigit in Hx; lia).
      rewrite !(eqb_ne x) by lia. rewrite Hx. rewrite !isdigit_48 by lia.
      rewrite eqb_ne by lia. cbn [andb]. change (sp 32) with true. cbn [andb].
      unfold numbered_res. rewrite isdigit_48 by lia. rewrite Hv.
      replace (n / 10000 * 10000 + dig_val 0 _) with n.
      2: { change (dig_val 0 _) with (dig_val 0 (four (n mod 10000))). rewrite four_val by lia. lia. }
      change (snd (prov_res 32 32 32 32 32 32 32)) with (Some (@nil Z)). cbn [obind]. cbv zeta. rewrite app_nil_r.
      assert (Ld : (length (dec n) <= 8)%nat) by (apply dec_len; [lia|p10; lia]).
      destruct (Nat.ltb_spec (length ([40] ++ dec n ++ [41])) 23); [reflexivity|rewrite !app_length in *; cbn [length] in *; lia].
  - cbn [enc62 repeat app] in C. set (v := n - 620000) in *.
    assert (G : get4 (int_to_mutant_hex_char (v / 62 / 62 / 62 mod 62)) (int_to_mutant_hex_char (v / 62 / 62 mod 62))
       (int_to_mutant_hex_char (v / 62 mod 62)) (int_to_mutant_hex_char (v mod 62)) = v).
    { unfold get4. rewrite !hex_alnum by lia. cbn [andb]. pose proof (enc62_val 4 v ltac:(lia)) as X.
      cbn [enc62 app] in X. rewrite X. apply Z.mod_small. change (62 ^ Z.of_nat 4) with 14776336. lia. }
    assert (A1 : isalnum (int_to_mutant_hex_char (v / 62 / 62 / 62 mod 62)) = true) by (apply hex_alnum; lia).
    assert (A2 : isalnum (int_to_mutant_hex_char (v / 62 / 62 mod 62)) = true) by (apply hex_alnum; lia).
    assert (A3 : isalnum (int_to_mutant_hex_char (v / 62 mod 62)) = true) by (apply hex_alnum; lia).
    assert (A4 : isalnum (int_to_mutant_hex_char (v mod 62)) = true) by (apply hex_alnum; lia).
    set (x1 := int_to_mutant_hex_char (v / 62 / 62 / 62 mod 62)) in *. set (x2 := int_to_mutant_hex_char (v / 62 / 62 mod 62)) in *.
    set (x3 := int_to_mutant_hex_char (v / 62 mod 62)) in *. set (x4 := int_to_mutant_hex_char (v mod 62)) in *.
    clearbody x1 x2 x3 x4.
    eapply rt; [exact C| |].
    + nn; try discriminate; apply isalnum_nz; assumption.
    + unfold unpack_res. change (126 =? 36) with false. change (126 =? 126) with true. change (sp 32) with true.
      change (is_planet 126) with false. change (is_planet 32) with false. rewrite !andb_false_r. cbn [andb orb negb].
      rewrite G. destruct (Z.leb_spec 0 v); [|lia].
      change (snd (prov_res 32 32 32 32 32 32 32)) with (Some (@nil Z)). cbv beta iota zeta. rewrite app_nil_r.
      replace (v + 620000) with n by lia.
      assert (Ld : (length (dec n) <= 8)%nat) by (apply dec_len; [lia|p10; lia]).
      destruct (Nat.ltb_spec (length ([40] ++ dec n ++ [41])) 24); [reflexivity|rewrite !app_length in *; cbn [length] in *; lia].
Qed.

(* ---------- provisional designations ---------- *)
Definition comet_or_none (c : Z) : Prop := c = 0 \/ c = 80 \/ c = 67 \/ c = 88 \/ c = 68 \/ c = 65.
Definition pre (c : Z) : list Z := if c =? 0 then [] else [c; 47].
Definition ptype (c : Z) : Z :=
  if (c =? 0) || (c =? 65) then OBJ_DESIG_ASTEROID_PROVISIONAL else OBJ_DESIG_COMET_PROVISIONAL.

Lemma create_year b comet y rest : comet_or_none comet -> 1000 <= y < 10000 ->
  create_mpc_packed_desig b (pre comet ++ four y ++ rest) = pack_name b (pre comet ++ four y ++ rest) (four y ++ rest) false comet.
Proof.
  intros Hc Hy. destruct (Z.eq_dec comet 0) as [->|N].
  - change (pre 0) with (@nil Z). unfold four. cbn [app]. apply create_plain; [lia|lia|].
    cbn [nth]. rewrite eqb_ne by lia. reflexivity.
  - unfold pre. rewrite (eqb_ne comet) by exact N. cbn [app]. apply create_comet; [|exact N].
    destruct Hc as [->|[->|[->|[->|[->| ->]]]]]; reflexivity || contradiction.
Qed.

Lemma unpack_plain comet c5 c6 c7 c8 c9 c10 c11 t p : comet_or_none comet ->
  prov_res c5 c6 c7 c8 c9 c10 c11 = (0, Some p) ->
  unpack_res 32 32 32 32 (if comet =? 0 then 32 else comet) c5 c6 c7 c8 c9 c10 c11 t = Ret (ptype comet, pre comet ++ p).
Proof.
  intros Hc E. unfold unpack_res, other_res. rewrite E.
  destruct Hc as [->|[->|[->|[->|[->| ->]]]]]; reflexivity.
Qed.


Lemma hex_upper v : 10 <= v < 36 -> int_to_mutant_hex_char v = v + 55.
Proof. 
  intros H. pose (f := fun v => int_to_mutant_hex_char v =? v + 55).
  assert (C : zall f (Z.to_nat 26) 10 = true) by reflexivity.
  pose proof (zall_Z f 26 10 C v ltac:(lia)) as X. unfold f in X. lia.
Qed.
Lemma hex_digit v : 0 <= v < 10 -> int_to_mutant_hex_char v = 48 + v.
Proof. 
  intros H. pose (f := fun v => int_to_mutant_hex_char v =? 48 + v).
  assert (C : zall f (Z.to_nat 10) 0 = true) by reflexivity.
  pose proof (zall_Z f 10 0 C v ltac:(lia)) as X. unfold f in X. lia.
Qed.
Lemma last_num h k : isupper h = true -> 0 <= k < 10 ^ 20 -> forall p, last (p ++ h :: num k) 32 <> 32.
Proof.
  intros Hh Hk p. rewrite last_app' by discriminate. destruct (num_ok k Hk) as (H1 & _).
  assert (H : forall c, In c (h :: num k) -> c <> 32).
  { intros c [<-|H]; [unfold isupper in Hh; lia|]. apply H1 in H. unfold isdigit in H. lia. }
  assert (I : In (last (h :: num k) 32) (h :: num k)).
  { destruct (exists_last (l := h :: num k) ltac:(discriminate)) as (a & x & E). rewrite E, last_last. apply in_or_app. right. left. reflexivity. }
  apply H, I.
Qed.

Section Letter.
Variables (comet y h l k : Z).
Hypotheses (Hc : comet_or_none comet) (Hh : isupper h = true) (Hl : isupper l = true).
Let obj := four y ++ [32; h; l] ++ num k.
Let name := pre comet ++ obj.

Lemma obj_at i : 0 <= i < 7 -> at_ obj i = Ret (nth (Z.to_nat i) (four y ++ [32; h; l]) 0).
Proof.
  intros H. unfold obj. rewrite app_assoc. apply at_lit. cbn [length app four]. lia.
Qed.
Lemma obj_skip : skipn 7 obj = num k.
Proof. reflexivity. Qed.
Lemma obj_len : length obj = (7 + length (num k))%nat.
Proof. unfold obj. rewrite !app_length. reflexivity. Qed.
Lemma obj_end : at_ obj (Z.of_nat (7 + length (num k))) = Ret 0.
Proof. rewrite <- obj_len. apply at_end. Qed.

Lemma create_letter b : (13 <= length b)%nat -> 1000 <= y < 6200 -> 0 <= k < 620 ->
  create_mpc_packed_desig b name = Ret (0, W (packed_prov comet y h k l ++ [0]) (skipn 13 b)).
Proof.
  intros Hb Hy Hk. unfold name, obj. rewrite create_year by (assumption || lia). cbn [app].
  rewrite name_year; [|assumption|lia|assumption|apply (last_num l k Hl ltac:(lia) [h])].
  rewrite (no_survey _ _ 5 h (l :: num k)) by (reflexivity || cbn [nth]; unfold isupper in Hl; lia).
  cbn [obind]. destruct (num_ok k ltac:(lia)) as (D1 & D2).
  pose proof (num_span k [] ltac:(lia) I) as SP. rewrite app_nil_r in SP.
  pose proof (num_atoi k [] ltac:(unfold IMAX; lia) I) as AT. rewrite app_nil_r in AT.
  change (four y ++ 32 :: h :: l :: num k) with obj.
  rewrite (prov_letter _ obj (48 + y / 10 mod 10) (48 + y mod 10) h l y k comet); try assumption; try lia;
    try (rewrite obj_at by lia; reflexivity); rewrite ?obj_skip, ?SP; try assumption; try (cbn [length]; lia); try apply obj_end.
  reflexivity.
Qed.
Lemma create_extended b : (13 <= length b)%nat -> 2000 <= y < 2062 -> 620 <= k ->
  (k - 620) * 25 + letter_index l < 14776336 ->
  create_mpc_packed_desig b name = Ret (0, W (packed_ext comet y h ((k - 620) * 25 + letter_index l) ++ [0]) (skipn 13 b)).
Proof.
  intros Hb Hy Hk Hn. assert (0 <= letter_index l) by (unfold letter_index, isupper in *; destruct (73 <? l) eqn:?; lia).
  assert (k < 700000) by lia.
  unfold name, obj. rewrite create_year by (assumption || lia). cbn [app].
  rewrite name_year; [|assumption|lia|assumption|apply (last_num l k Hl ltac:(lia) [h])].
  rewrite (no_survey _ _ 5 h (l :: num k)) by (reflexivity || cbn [nth]; unfold isupper in Hl; lia).
  cbn [obind]. destruct (num_ok k ltac:(lia)) as (D1 & D2).
  pose proof (num_span k [] ltac:(lia) I) as SP. rewrite app_nil_r in SP.
  pose proof (num_atoi k [] ltac:(unfold IMAX; lia) I) as AT. rewrite app_nil_r in AT.
  change (four y ++ 32 :: h :: l :: num k) with obj.
  rewrite (prov_extended _ obj (48 + y / 10 mod 10) (48 + y mod 10) h l y k comet); try assumption; try lia;
    try (rewrite obj_at by lia; reflexivity); rewrite ?obj_skip, ?SP; try assumption; try (cbn [length]; lia); try apply obj_end.
  reflexivity.
Qed.

Lemma rt_letter : 1600 <= y < 2100 -> 0 <= k < 620 -> round_trip name (ptype comet).
Proof.
  intros Hy Hk. pose proof (fun b Hb => create_letter b Hb ltac:(lia) Hk) as C. unfold packed_prov in C.
  assert (A9 : isalnum (int_to_mutant_hex_char (k / 10)) = true) by (apply hex_alnum; lia).
  assert (A10 : isalnum (int_to_mutant_hex_char (k mod 10)) = true) by (apply hex_alnum; lia).
  assert (R : prov_res (int_to_mutant_hex_char (y / 100)) (48 + y / 10 mod 10) (48 + y mod 10) h
    (int_to_mutant_hex_char (k / 10)) (int_to_mutant_hex_char (k mod 10)) l = (0, Some obj)).
  { unfold prov_res. rewrite (hex_upper (y / 100)) by lia. rewrite (hex_digit (k mod 10)) by lia.
    rewrite (eqb_ne (y / 100 + 55)) by lia. cbn [andb]. rewrite of_to_hex by lia. rewrite !isdigit_48 by lia.
    rewrite Hh, Hl. assert (isalpha l = true) by (unfold isalpha; rewrite Hl; reflexivity). rewrite H.
    destruct (Z.leb_spec 71 (y / 100 + 55)); [|lia]. destruct (Z.leb_spec (y / 100 + 55) 75); [|lia]. cbn [andb orb].
    rewrite (eqb_ne (k / 10)) by lia. f_equal. f_equal. unfold obj, four.
    replace (k / 10 * 10 + (48 + k mod 10) - 48) with k by lia.
    assert (islower l = false) by (unfold isupper, islower in *; lia). rewrite H2. rewrite app_nil_r.
    change (if k =? 0 then [] else dec k) with (num k). cbn [app].
    f_equal; [destruct (Z.leb_spec 75 (y / 100 + 55)); lia|]. f_equal. lia. }
  eapply rt; [exact C| |].
  - nn; try discriminate; try lia; try (apply isalnum_nz; assumption || (apply hex_alnum; lia)); try (unfold isupper in *; lia).
    intros E. destruct Hc as [->|[->|[->|[->|[->| ->]]]]]; discriminate.
  - apply unpack_plain; assumption.
Qed.

Lemma rt_extended : 2000 <= y < 2062 -> 620 <= k -> l <> 73 ->
  (k - 620) * 25 + letter_index l < 14776336 -> round_trip name (ptype comet).
Proof.
  intros Hy Hk HI Hn. pose proof (fun b Hb => create_extended b Hb Hy Hk Hn) as C. unfold packed_ext in C.
  set (n := (k - 620) * 25 + letter_index l) in *. cbn [enc62 app] in C.
  assert (Hl' : 0 <= letter_index l < 25) by (unfold letter_index, isupper in *; destruct (73 <? l) eqn:?; lia).
  assert (G : get4 (int_to_mutant_hex_char (n / 62 / 62 / 62 mod 62)) (int_to_mutant_hex_char (n / 62 / 62 mod 62))
       (int_to_mutant_hex_char (n / 62 mod 62)) (int_to_mutant_hex_char (n mod 62)) = n).
  { unfold get4. rewrite !hex_alnum by lia. cbn [andb]. pose proof (enc62_val 4 n ltac:(lia)) as X.
    cbn [enc62 app] in X. rewrite X. apply Z.mod_small. change (62 ^ Z.of_nat 4) with 14776336. lia. }
  assert (R : prov_res 95 (int_to_mutant_hex_char (y - 2000)) h (int_to_mutant_hex_char (n / 62 / 62 / 62 mod 62))
     (int_to_mutant_hex_char (n / 62 / 62 mod 62)) (int_to_mutant_hex_char (n / 62 mod 62)) (int_to_mutant_hex_char (n mod 62))
     = (0, Some obj)).
  { unfold prov_res. rewrite G, Hh. change (95 =? 95) with true. cbn [andb]. rewrite of_to_hex by lia.
    destruct (Z.ltb_spec (y - 2000) 0); [lia|]. destruct (Z.ltb_spec n 0); [lia|]. cbn [orb].
    f_equal. f_equal. unfold obj. rewrite <- dec_4 by lia. f_equal; [f_equal; lia|].
    assert (n mod 25 = letter_index l) by (unfold n; lia). assert (n / 25 = k - 620) by (unfold n; lia).
    unfold letter25. rewrite H1, H2. unfold num. rewrite (eqb_ne k) by lia. replace (620 + (k - 620)) with k by lia.
    f_equal. f_equal. f_equal. unfold letter_index in *. unfold isupper in Hl.
    destruct (Z.ltb_spec 73 l).
    - destruct (Z.leb_spec 73 (65 + (l - 66))); [f_equal; lia|lia].
    - destruct (Z.leb_spec 73 (65 + (l - 65))); [lia|f_equal; lia]. }
  eapply rt; [exact C| |].
  - nn; try discriminate; try lia; try (apply isalnum_nz; apply hex_alnum; lia); try (unfold isupper in *; lia).
    intros E. destruct Hc as [->|[->|[->|[->|[->| ->]]]]]; discriminate.
  - apply unpack_plain; assumption.
Qed.
End Letter.

(* ---------- comets without a second letter ---------- *)
Definition frag (f : Z) : list Z := if f =? 0 then [] else [45; f].
Lemma last_frag h k f : isupper h = true -> 0 <= k < 10 ^ 20 -> f = 0 \/ isupper f = true ->
  last (h :: num k ++ frag f) 32 <> 32.
Proof.
  intros Hh Hk [->|Hf].
  - unfold frag. cbn [Z.eqb]. rewrite app_nil_r. apply (last_num h k Hh Hk []).
  - unfold frag. rewrite (eqb_ne f) by (unfold isupper in Hf; lia).
    change (h :: num k ++ [45; f]) with ((h :: num k) ++ [45; f]). rewrite last_app' by discriminate. cbn [last].
    unfold isupper in Hf. lia.
Qed.

Section Comet.
Variables (comet y h k f : Z).
Hypotheses (Hc : comet_or_none comet) (Hc0 : comet <> 0) (Hh : isupper h = true) (Hf : f = 0 \/ isupper f = true).
Hypotheses (Hy : 1600 <= y < 2100) (Hk : 0 <= k < 620) (Hkf : f = 0 \/ 0 < k).
Let obj := four y ++ [32; h] ++ num k ++ frag f.
Let name := pre comet ++ obj.
Let fr := if f =? 0 then 48 else f + 97 - 65.

Lemma cobj_at i : 0 <= i < 6 -> at_ obj i = Ret (nth (Z.to_nat i) (four y ++ [32; h]) 0).
Proof. intros H. unfold obj. rewrite app_assoc. apply at_lit. cbn [length app four]. lia. Qed.

Lemma cobj_6 : exists c, at_ obj 6 = Ret c /\ isupper c = false /\ nth 0 (num k ++ frag f) 0 = c /\ (k = 0 -> f = 0).
Proof.
  destruct (num_ok k ltac:(lia)) as (D1 & D2). unfold obj. rewrite app_assoc.
  change 6 with (Z.of_nat (length (four y ++ [32; h]))).
  destruct (num k) as [|c n] eqn:E.
  - assert (k = 0) by (cbn in D2; lia). assert (f = 0) by lia. unfold frag. rewrite H0. cbn [Z.eqb app].
    exists 0. split; [rewrite app_nil_r; apply at_end|]. split; [reflexivity|split; [reflexivity|auto]].
  - exists c. cbn [app]. split; [apply at_split|]. specialize (D1 c (or_introl eq_refl)). split; [unfold isdigit, isupper in *; lia|].
    split; [reflexivity|]. lia.
Qed.

Lemma create_comet_name b : (13 <= length b)%nat ->
  create_mpc_packed_desig b name = Ret (0, W (packed_prov comet y h k fr ++ [0]) (skipn 13 b)).
Proof.
  intros Hb. unfold name, obj. rewrite create_year by (assumption || lia). cbn [app].
  rewrite name_year; [|assumption|lia|assumption|apply last_frag; assumption || lia].
  destruct cobj_6 as (c & C6 & Cu & Cn & _).
  assert (N : nth 0 (num k ++ frag f) 0 <> 45).
  { rewrite Cn. destruct (num_ok k ltac:(lia)) as (D1 & D2). destruct (num k) as [|d n].
    - cbn in D2. assert (f = 0) by lia. cbn [app nth] in Cn. unfold frag in Cn. rewrite H in Cn. cbn in Cn. lia.
    - cbn [app nth] in Cn. subst d. specialize (D1 c (or_introl eq_refl)). unfold isdigit in D1. lia. }
  rewrite (no_survey _ _ 5 h (num k ++ frag f)) by (reflexivity || exact N).
  cbn [obind]. change (four y ++ 32 :: h :: num k ++ frag f) with obj.
  assert (NS : nondigit_start (frag f)) by (unfold frag; destruct (f =? 0); cbn; reflexivity || exact I).
  pose proof (num_span k (frag f) ltac:(lia) NS) as SP.
  pose proof (num_atoi k (frag f) ltac:(unfold IMAX; lia) NS) as AT.
  rewrite (prov_comet _ obj (48 + y / 10 mod 10) (48 + y mod 10) h c y k comet fr); try assumption; try lia;
    try (rewrite cobj_at by lia; reflexivity).
  - unfold packed_prov. rewrite (eqb_ne comet) by assumption. reflexivity.
  - change (skipn 6 obj) with (num k ++ frag f). rewrite SP. unfold fr.
    assert (EO : obj = (four y ++ [32; h] ++ num k) ++ frag f) by (unfold obj; rewrite <- !app_assoc; reflexivity).
    assert (LO : length (four y ++ [32; h] ++ num k) = (6 + length (num k))%nat) by (rewrite !app_length; reflexivity).
    rewrite EO, app_length, <- LO. destruct Hf as [F|F].
    + left. rewrite F. unfold frag. cbn [Z.eqb]. rewrite !app_nil_r. split; [reflexivity|]. split; [cbn [length]; lia|].
      rewrite Nat.add_0_r, <- LO. apply at_end.
    + right. exists f. unfold frag. rewrite (eqb_ne f) by (unfold isupper in F; lia).
      split; [reflexivity|]. split; [exact F|]. split; [cbn [length]; lia|]. split; [apply at_split|].
      set (o := four y ++ [32; h] ++ num k). change (o ++ [45; f]) with (o ++ [45] ++ [f]). rewrite app_assoc.
      replace (length o + 1)%nat with (length (o ++ [45])) by (rewrite app_length; reflexivity). apply at_split.
Qed.

Lemma rt_comet : round_trip name (ptype comet).
Proof.
  pose proof create_comet_name as C. unfold packed_prov in C.
  assert (A9 : isalnum (int_to_mutant_hex_char (k / 10)) = true) by (apply hex_alnum; lia).
  assert (A10 : isalnum (int_to_mutant_hex_char (k mod 10)) = true) by (apply hex_alnum; lia).
  assert (R : prov_res (int_to_mutant_hex_char (y / 100)) (48 + y / 10 mod 10) (48 + y mod 10) h
    (int_to_mutant_hex_char (k / 10)) (int_to_mutant_hex_char (k mod 10)) fr = (0, Some obj)).
  { unfold prov_res. rewrite (hex_upper (y / 100)) by lia. rewrite (hex_digit (k mod 10)) by lia.
    rewrite (eqb_ne (y / 100 + 55)) by lia. cbn [andb]. rewrite of_to_hex by lia. rewrite !isdigit_48 by lia.
    rewrite Hh.
    destruct (Z.leb_spec 71 (y / 100 + 55)); [|lia]. destruct (Z.leb_spec (y / 100 + 55) 75); [|lia]. cbn [andb orb].
    assert (F1 : isalpha fr || (fr =? 48) = true).
    { unfold fr. destruct (Z.eqb_spec f 0); [reflexivity|]. destruct Hf as [|F]; [contradiction|]. unfold isalpha, isupper, islower in *. lia. }
    rewrite F1.
    assert (F2 : isupper fr = false).
    { unfold fr. destruct (Z.eqb_spec f 0); [reflexivity|]. destruct Hf as [|F]; [contradiction|]. unfold isalpha, isupper, islower in *. lia. }
    rewrite F2.
    assert (F3 : (if islower fr then [45; fr + 65 - 97] else []) = frag f).
    { unfold fr, frag. destruct (Z.eqb_spec f 0); [reflexivity|]. destruct Hf as [|F]; [contradiction|].
      assert (L : islower (f + 97 - 65) = true) by (unfold isupper, islower in *; lia). rewrite L. f_equal. f_equal. lia. }
    rewrite F3.
    rewrite (eqb_ne (k / 10)) by lia. f_equal. f_equal. unfold obj, four.
    replace (k / 10 * 10 + (48 + k mod 10) - 48) with k by lia.
    change (if k =? 0 then [] else dec k) with (num k). cbn [app].
    f_equal; [destruct (Z.leb_spec 75 (y / 100 + 55)); lia|]. f_equal. lia. }
  eapply rt; [exact C| |].
  - nn; try discriminate; try lia; try (apply isalnum_nz; assumption || (apply hex_alnum; lia)); try (unfold isupper in *; lia).
    + intros E. destruct Hc as [->|[->|[->|[->|[->| ->]]]]]; discriminate.
    + unfold fr. destruct (Z.eqb_spec f 0); [lia|]. destruct Hf as [|F]; [contradiction|]. unfold isupper in F. lia.
  - apply unpack_plain; assumption.
Qed.
End Comet.

(* ---------- surveys ---------- *)
Lemma rt_survey y s : 1000 <= y < 9000 -> In s [zs "P-L"; zs "T-1"; zs "T-2"; zs "T-3"] ->
  round_trip (four y ++ [32] ++ s) OBJ_DESIG_ASTEROID_PROVISIONAL.
Proof.
  intros Hy Hs.
  assert (forall b, (13 <= length b)%nat -> create_mpc_packed_desig b (four y ++ [32] ++ s)
     = Ret (0, W ([32; 32; 32; 32; 32; nth 0 s 0; nth 2 s 0; 83] ++ four y ++ [0]) (skipn 13 b))).
  { intros b Hb. change (four y ++ [32] ++ s) with (pre 0 ++ four y ++ ([32] ++ s)).
    rewrite create_year by ((left; reflexivity) || lia). change (pre 0) with (@nil Z). cbn [app].
    destruct s as [|h rest]; [destruct Hs as [H|[H|[H|[H|[]]]]]; discriminate|].
    rewrite name_year; [|assumption|lia| |].
    2,3: destruct Hs as [H|[H|[H|[H|[]]]]]; injection H; intros <- <-; reflexivity || discriminate.
    unfold surveys. cbn [pack_survey skipn four app].
    assert (S1 : forall r (c0 : Z) pk, length pk = 3%nat -> (do b0 <- store (W blank r) 8 (firstn 4 (four y ++ 32 :: h :: rest));
      do b1 <- store b0 5 pk; Ret (Some b1)) = Ret (Some (W ([32; 32; 32; 32; 32] ++ pk ++ four y ++ [0]) r))).
    { intros r _ pk Hp. unfold four. cbn [app firstn].
      change 8 with (Z.of_nat 8). rewrite W_store by (cbn; lia). cbn [obind blank repeat app firstn skipn length Nat.add].
      change 5 with (Z.of_nat 5). rewrite W_store by (cbn [length]; lia). rewrite Hp. cbn [obind firstn skipn app length Nat.add]. reflexivity. }
    destruct Hs as [H|[H|[H|[H|[]]]]]; injection H; intros <- <-.
    all: repeat match goal with |- context [streq ?a (zs ?s)] =>
      let v := eval vm_compute in (streq a (zs s)) in change (streq a (zs s)) with v end.
    all: cbv iota; rewrite (S1 _ 0) by reflexivity; cbn [obind]; reflexivity. }
  unfold four in H at 2. cbn [app] in H. eapply rt; [exact H| |].
  - nn; try discriminate; try lia; destruct Hs as [<-|[<-|[<-|[<-|[]]]]]; discriminate.
  - unfold unpack_res, other_res. change (sp 32) with true. change (32 =? 36) with false. change (32 =? 83) with false.
    change (32 =? 126) with false. change (isalnum 32) with false. cbn [andb obind].
    change (strchr (zs " PCDXA") 32) with true. cbn [andb negb].
    rewrite !isdigit_48 by lia.
    destruct Hs as [<-|[<-|[<-|[<-|[]]]]]; reflexivity.
Qed.

(* ---------- numbered comets ---------- *)
Lemma drop_four n : 1 <= n < 10000 -> drop (Z.eqb 48) (four n) = dec n.
Proof.
  intros H. pose (f := (fun n => leqb (drop (Z.eqb 48) (four n)) (dec n))).
  assert (C : zall f (Z.to_nat 9999) 1 = true) by (vm_cast_no_check (eq_refl true)).
  apply leqb_eq. apply (zall_Z f 9999 1 C). lia.
Qed.
Definition frags (fs : list Z) : list Z := match fs with [] => [] | _ => [45] ++ fs end.

Lemma W_vsnprintf l r max out : (length out < max)%nat -> (max <= length l)%nat ->
  vsnprintf (W l r) 0 max out = Ret (Z.of_nat (length out), W (out ++ 0 :: skipn (length out + 1) l) r).
Proof.
  intros H Hl. pose proof (W_snprintf l r max out H Hl) as X. unfold snprintf_err in X.
  destruct (vsnprintf (W l r) 0 max out) as [[x y]| | |]; cbn [obind] in X; try discriminate.
  destruct (Z.of_nat max <=? x); [discriminate|]. exact X.
Qed.

Section NumberedComet.
Variables (n t : Z) (fs : list Z).
Hypotheses (Hn : 1 <= n < 10000) (Ht : t = 80 \/ t = 68 \/ t = 73) (Hl : (length fs <= 2)%nat)
  (Hf : forall c, In c fs -> isupper c = true).
Let name := dec n ++ [t] ++ frags fs.
Let lower c := c + 97 - 65.
Let c10 := match fs with [f; _] => lower f | _ => 32 end.
Let c11 := match fs with [_; f] => lower f | [f] => lower f | _ => 32 end.

Lemma create_numbered_comet b : (13 <= length b)%nat ->
  create_mpc_packed_desig b name = Ret (0, W (four n ++ [t] ++ repeat 32 5 ++ [c10; c11; 0]) (skipn 13 b)).
Proof.
  intros Hb. destruct (dec_ok n ltac:(lia)) as (D1 & D2 & D3).
  assert (ND : nondigit_start ([t] ++ frags fs)) by (cbn; unfold isdigit; lia).
  assert (CP : create_mpc_packed_desig b name = pack_name b name name false 0).
  { unfold name. destruct (dec n) as [|c s] eqn:E; [contradiction|]. cbn [app]. 
    assert (isdigit c = true) by (apply D1; left; reflexivity). apply create_plain; try (unfold isdigit in *; lia).
    rewrite eqb_ne; [reflexivity|]. destruct s as [|d s]; cbn [app nth]; [lia|].
    assert (isdigit d = true) by (apply D1; right; left; reflexivity). unfold isdigit in *; lia. }
  rewrite CP. unfold pack_name. rewrite W_blank by exact Hb. cbn [obind].
  assert (LN : lead_number name 0 = n).
  { unfold name. pose proof (dig_val_rest (dec n) ([t] ++ frags fs) D1 ND 0) as X. rewrite lead_number_val; rewrite ?X; lia. }
  assert (SP : span isdigit name = length (dec n)) by (apply span_app; assumption).
  rewrite LN, SP. 
  assert (A0 : at_ name (Z.of_nat (length (dec n))) = Ret t) by (apply at_split).
  rewrite A0. cbn [obind].
  assert (AS : forall p x q k, frags fs = p ++ x :: q -> k = (length (dec n) + 1 + length p)%nat -> at_ name (Z.of_nat k) = Ret x).
  { intros p x q k E ->. unfold name. rewrite E. rewrite !app_assoc. 
    replace (length (dec n) + 1 + length p)%nat with (length ((dec n ++ [t]) ++ p)) by (rewrite !app_length; reflexivity).
    apply at_split. }
  assert (AE : at_ name (Z.of_nat (length name)) = Ret 0) by apply at_end.
  assert (LE : length name = (length (dec n) + 1 + length (frags fs))%nat) by (unfold name; rewrite !app_length; cbn [length]; lia).
  rewrite LE in AE.
  destruct (Z.ltb_spec 0 n); [|lia]. destruct (Z.ltb_spec n 10000); [|lia]. rewrite (eqb_ne t) by lia. cbn [andb negb oand obind].
  assert (ST : strchr (zs "PDI") t = true) by (destruct Ht as [->|[->| ->]]; reflexivity).
  rewrite ST. unfold pack_permanent_comet, tst. rewrite pad0_4 by lia. change 0 with (Z.of_nat 0) at 2.
  rewrite W_vsnprintf by (cbn [length four blank repeat app]; lia). 
  destruct fs as [|f1 [|f2 [|f3 fs']]]; [| | |cbn [length] in Hl; lia].
  - cbn [frags length] in *. rewrite Nat.add_0_r in AE. rewrite AE. cbn [oand obind]. change (0 =? 0) with true. cbn [orb oand obind].
    unfold four, blank. cbn [repeat app length Nat.add skipn]. wrk. change (0 =? 45) with false. cbn [oand obind negb]. reflexivity.
  - cbn [frags app] in AS.
    rewrite (AS [] 45 [f1] (length (dec n) + 1)%nat eq_refl) by (cbn [length]; lia). cbn [oand obind].
    change ((45 =? 0) || (45 =? 45)) with true. cbn [oand obind].
    unfold four, blank. cbn [repeat app length Nat.add skipn]. wrk. change (45 =? 45) with true. cbn [oand obind].
    rewrite (AS [45] f1 [] (length (dec n) + 2)%nat eq_refl) by (cbn [length]; lia). cbn [obind].
    rewrite (Hf f1) by (left; reflexivity). cbn [oand obind negb].
    cbn [frags app length] in AE. replace (length (dec n) + 3)%nat with (length (dec n) + 1 + 2)%nat by lia.
    rewrite AE. cbn [obind]. change (isupper 0) with false. cbn [obind]. wrk. reflexivity.
  - cbn [frags app] in AS.
    rewrite (AS [] 45 [f1; f2] (length (dec n) + 1)%nat eq_refl) by (cbn [length]; lia). cbn [oand obind].
    change ((45 =? 0) || (45 =? 45)) with true. cbn [oand obind].
    unfold four, blank. cbn [repeat app length Nat.add skipn]. wrk. change (45 =? 45) with true. cbn [oand obind].
    rewrite (AS [45] f1 [f2] (length (dec n) + 2)%nat eq_refl) by (cbn [length]; lia). cbn [obind].
    rewrite (Hf f1) by (left; reflexivity). cbn [oand obind negb].
    rewrite (AS [45; f1] f2 [] (length (dec n) + 3)%nat eq_refl) by (cbn [length]; lia). cbn [obind].
    rewrite (Hf f2) by (right; left; reflexivity). wrk. reflexivity.
Qed.

Lemma rt_numbered_comet : round_trip name OBJ_DESIG_COMET_NUMBERED.
Proof.
  pose proof create_numbered_comet as C. unfold four in C. cbn [repeat app] in C.
  eapply rt; [exact C| |].
  - nn; try discriminate; try lia; unfold c10, c11, lower; destruct fs as [|f1 [|f2 [|f3 fs']]]; try discriminate;
     try (specialize (Hf f1 (or_introl eq_refl)); unfold isupper in Hf; lia);
     try (specialize (Hf f2 (or_intror (or_introl eq_refl))); unfold isupper in Hf; lia); cbn [length] in Hl; lia.
  - unfold unpack_res. rewrite (eqb_ne _ 36) by lia. rewrite (eqb_ne t 83) by lia. rewrite (eqb_ne _ 126) by lia.
    cbn [andb]. rewrite (digit_alnum (48 + n / 1000)) by (apply isdigit_48; lia). rewrite !isdigit_48 by lia.
    change (sp 32) with true. cbn [andb]. unfold numbered_res.
    assert (DT : isdigit t = false) by (unfold isdigit; lia). rewrite DT.
    assert (ST : strchr (zs "PCDXAI") t = true) by (destruct Ht as [->|[->| ->]]; reflexivity).
    rewrite ST. rewrite isdigit_48 by lia. cbn [obind]. f_equal. f_equal. unfold name.
    change (drop (Z.eqb 48) _) with (drop (Z.eqb 48) (four n)). rewrite drop_four by lia. f_equal. f_equal.
    unfold c10, c11, lower, frags. destruct fs as [|f1 [|f2 [|f3 fs']]]; try reflexivity.
    + specialize (Hf f1 (or_introl eq_refl)). assert (L : islower (f1 + 97 - 65) = true) by (unfold isupper, islower in *; lia).
      rewrite L. change (islower 32) with false. cbn [app]. f_equal. f_equal. lia.
    + pose proof (Hf f1 (or_introl eq_refl)) as H1. pose proof (Hf f2 (or_intror (or_introl eq_refl))) as H2.
      assert (L1 : islower (f1 + 97 - 65) = true) by (unfold isupper, islower in *; lia).
      assert (L2 : islower (f2 + 97 - 65) = true) by (unfold isupper, islower in *; lia).
      rewrite L1, L2. cbn [app]. f_equal. f_equal; [lia|]. f_equal. lia.
    + cbn [length] in Hl. lia.
Qed.
End NumberedComet.

(* ---------- Roman numerals ---------- *)
Definition delta (c next : Z) : option Z :=
  if c =? 73 then Some (if (next =? 86) || (next =? 88) then -1 else 1)
  else if c =? 86 then Some 5
  else if c =? 88 then Some (if (next =? 76) || (next =? 67) then -10 else 10)
  else if c =? 76 then Some 50
  else if c =? 67 then Some (if (next =? 68) || (next =? 77) then -100 else 100)
  else if c =? 68 then Some 500
  else if c =? 77 then Some 1000
  else None.
(** All partial sums lie in [lo, hi]; the final one is [hi]. *)
Fixpoint sums (s : list Z) (acc lo hi : Z) : bool :=
  match s with
  | [] => acc =? hi
  | c :: r => match delta c (match r with d :: _ => d | [] => 0 end) with
              | Some v => (lo <=? acc + v) && (acc + v <=? hi) && sums r (acc + v) lo hi
              | None => false
              end
  end.
Lemma extract_sums s : forall acc lo hi a, sums s acc lo hi = true -> lo <= acc <= hi -> 0 <= a + lo + 1000 -> a + hi <= IMAX ->
  extract_roman_loop s (a + acc) = Ret (a + hi).
Proof.
  induction s as [|c r IH]; intros acc lo hi a H Hacc Hlo Hhi; [cbn in *; f_equal; lia|].
  cbn [sums] in H. unfold delta in H. cbn [extract_roman_loop].
  set (nx := match r with d :: _ => d | [] => 0 end) in *. clearbody nx.
  assert (K : forall v, -1000 <= v <= 1000 -> (lo <=? acc + v) && (acc + v <=? hi) && sums r (acc + v) lo hi = true ->
     (do x <- ev IMAX (EAdd (EC (a + acc)) (EC v)); extract_roman_loop r x) = Ret (a + hi)).
  { intros v Hr Hv. apply andb_prop in Hv as (Hv & Hs). rewrite ev_val by (cbn; unfold fits, IMAX in *; lia). cbn [val].
    cbn [obind]. replace (a + acc + v) with (a + (acc + v)) by lia. apply (IH _ lo hi); lia || assumption. }
  destruct (c =? 73); [destruct (_ || _); (apply K; [lia|exact H])|]. destruct (c =? 86); [(apply K; [lia|exact H])|].
  destruct (c =? 88); [destruct (_ || _); (apply K; [lia|exact H])|]. destruct (c =? 76); [(apply K; [lia|exact H])|].
  destruct (c =? 67); [destruct (_ || _); (apply K; [lia|exact H])|]. destruct (c =? 68); [(apply K; [lia|exact H])|].
  destruct (c =? 77); [(apply K; [lia|exact H])|]. discriminate.
Qed.
Lemma roman_small n : 0 <= n < 1000 -> roman n = roman_of (tl roman_values) n.
Proof.
  intros H. pose (f := (fun n => leqb (roman n) (roman_of (tl roman_values) n))).
  assert (C : zall f (Z.to_nat 1000) 0 = true) by (vm_cast_no_check (eq_refl true)).
  apply leqb_eq. apply (zall_Z f 1000 0 C). lia.
Qed.
Lemma roman_sums n : 0 <= n < 1000 -> sums (roman n) 0 (-100) n = true.
Proof.
  intros H. pose (f := (fun n => sums (roman n) 0 (-100) n)).
  assert (C : zall f (Z.to_nat 1000) 0 = true) by (vm_cast_no_check (eq_refl true)).
  apply (zall_Z f 1000 0 C). lia.
Qed.
Lemma extract_M m r : forall a, 0 <= a -> a + 1000 * Z.of_nat m <= IMAX ->
  extract_roman_loop (repeat 77 m ++ r) a = extract_roman_loop r (a + 1000 * Z.of_nat m).
Proof.
  induction m as [|m IH]; intros a Ha Hb; [cbn [repeat app]; f_equal; lia|].
  cbn [repeat app extract_roman_loop]. change (77 =? 73) with false. change (77 =? 86) with false. change (77 =? 88) with false.
  change (77 =? 76) with false. change (77 =? 67) with false. change (77 =? 68) with false. change (77 =? 77) with true. cbv iota.
  rewrite ev_val by (cbn; unfold fits, IMAX in *; lia). cbn [val obind]. rewrite IH by lia. f_equal. lia.
Qed.
Lemma concat_M m : concat (repeat (zs "M") m) = repeat 77 m.
Proof. induction m; [reflexivity|]. cbn [repeat concat]. rewrite IHm. reflexivity. Qed.

Theorem extract_roman_ok n : 0 <= n <= IMAX -> extract_roman_numeral (roman_numeral n) = Ret n.
Proof.
  intros H. unfold extract_roman_numeral, roman_numeral. 
  change roman_values with ((1000, zs "M") :: tl roman_values). cbn [roman_of]. rewrite concat_M.
  rewrite extract_M by (unfold IMAX in *; lia). rewrite <- roman_small by lia.
  pose proof (extract_sums _ 0 (-100) (n mod 1000) (1000 * (n / 1000)) (roman_sums (n mod 1000) ltac:(lia))) as X.
  rewrite Z.add_0_r in X. replace (0 + 1000 * Z.of_nat (Z.to_nat (n / 1000))) with (1000 * (n / 1000)) by lia.
  rewrite X; [|lia|lia|unfold IMAX in *; lia]. f_equal. lia.
Qed.
Lemma roman_all n : 0 <= n < 1000 -> roman_numeral n = roman n.
Proof.
  intros H. unfold roman_numeral. change roman_values with ((1000, zs "M") :: tl roman_values). cbn [roman_of].
  rewrite Z.div_small, Z.mod_small by lia. cbn [repeat concat app]. symmetry. apply roman_small. lia.
Qed.

(* ---------- natural satellites ---------- *)
Lemma create_sat b h s : (13 <= length b)%nat -> isdigit h = false -> h <> 32 -> h <> 40 ->
  (nth 0 s 0 =? 47) && strchr (zs "PCXDA") h = false -> last (h :: s) 32 <> 32 ->
  create_mpc_packed_desig b (h :: s) =
  do '(rval, b') <- (do '(r, b) <- pack_permanent_natsat (W blank (skipn 13 b)) (h :: s);
    if 0 <=? r then Ret (0, b)
    else do '(r, b) <- pack_provisional_natsat b (h :: s);
         Ret (if 0 <=? r then 0 else -1, b));
  if rval =? -1 then pack_undeciphered b' (h :: s) (length (h :: s)) else Ret (rval, b').
Proof.
  intros Hb Hd H32 H40 Hs Hl. rewrite create_plain by assumption. unfold pack_name. rewrite W_blank by exact Hb. cbn [obind].
  assert (SP : span isdigit (h :: s) = 0%nat) by (cbn [span]; rewrite Hd; reflexivity).
  assert (LN : lead_number (h :: s) 0 = 0) by (cbn [lead_number]; rewrite Hd; reflexivity).
  rewrite SP, LN, Nat.sub_0_r, last_nonblank by (discriminate || assumption).
  change (at_ (h :: s) (Z.of_nat 0)) with (@Ret Z h). change (0 <? 0) with false. cbn [obind oand andb].
  rewrite (eqb_ne h 32) by assumption. rewrite !andb_false_r. cbn [andb orb].
  unfold pack_branches. change (at_ (h :: s) (Z.of_nat 0)) with (@Ret Z h). change (999 <? 0) with false. change (0 <? 0) with false.
  rewrite !andb_false_r. cbn [andb obind]. unfold pack_satellite. change (1957 <=? 0) with false. cbn [andb oand obind].
  reflexivity.
Qed.

Lemma roman_start n : 1 <= n < 1000 -> exists c s, roman n = c :: s /\ isdigit c = false /\ isspace c = false /\ c <> 45 /\ c <> 43
   /\ last (roman n) 32 <> 32.
Proof.
  intros H. pose (f := (fun n => match roman n with c :: s => negb (isdigit c) && negb (isspace c) && negb (c =? 45) && negb (c =? 43)
     && negb (last (roman n) 32 =? 32) | [] => false end)).
  assert (C : zall f (Z.to_nat 999) 1 = true) by (vm_cast_no_check (eq_refl true)).
  pose proof (zall_Z f 999 1 C n ltac:(lia)) as X. unfold f in X. destruct (roman n) as [|c s] eqn:E; [discriminate|].
  exists c, s. split; [reflexivity|]. cbv iota in X. repeat (apply andb_prop in X as (X & ?)).
  rewrite negb_true_iff in *. repeat split; try assumption; try (apply Z.eqb_neq; assumption).
Qed.
Lemma atoi_letter c s : isdigit c = false -> isspace c = false -> c <> 45 -> c <> 43 -> atoi (c :: s) = Ret 0.
Proof.
  intros H1 H2 H3 H4. unfold atoi. cbn [span]. rewrite H2. cbn [skipn].
  assert (E : forall A (x y z : A), match c with 45 => x | 43 => y | _ => z end = z).
  { intros A x y z. destruct c as [|p|p]; try reflexivity.
    repeat (destruct p as [p|p|]; try reflexivity; try lia). }
  rewrite (E _ (chk IMAX (- dig_val 0 s)) (chk IMAX (dig_val 0 s))). cbn [dig_val]. rewrite H1. reflexivity.
Qed.
Lemma natsat_hit nm n r b i : 1 <= n < 1000 -> nm <> [] ->
  pack_natsat_loop (nm :: r) i (W blank b) (nm ++ [32] ++ roman n)
  = Ret (i, W ([nth 0 nm 0] ++ pad0 3 n ++ zs "S       " ++ [0]) b).
Proof.
  intros Hn Hm. cbn [pack_natsat_loop].
  assert (P : forall p q, prefix p (p ++ q) = true) by (induction p; intros q; [reflexivity|cbn; rewrite Z.eqb_refl; apply IHp]).
  rewrite P. unfold tst. cbn [app]. rewrite at_split. cbn [oand obind]. change (32 =? 32) with true. cbn [obind].
  replace (skipn (length nm + 1) (nm ++ 32 :: roman n)) with (roman n).
  2: { rewrite skipn_app. rewrite skipn_all2 by lia. replace (length nm + 1 - length nm)%nat with 1%nat by lia. reflexivity. }
  destruct (roman_start n Hn) as (c & s & E & H1 & H2 & H3 & H4 & _).
  rewrite E at 1. rewrite atoi_letter by assumption. cbn [obind]. change (0 =? 0) with true. cbn [obind].
  rewrite <- roman_all at 1 by lia. rewrite extract_roman_ok by (unfold IMAX; lia). cbn [obind].
  destruct (Z.ltb_spec 0 n); [|lia]. destruct (Z.ltb_spec n 1000); [|lia]. cbn [andb].
  replace (at_ (nm ++ 32 :: roman n) 0) with (Ret (nth 0 nm 0)).
  2: { destruct nm; [contradiction|reflexivity]. }
  cbn [obind]. rewrite pad0_3 by lia.
  change (zs "S       ") with [83; 32; 32; 32; 32; 32; 32; 32].
  rewrite W_snprintf by (cbn [length app blank repeat]; unfold PACKED_DESIG_LEN; lia). reflexivity.
Qed.

Lemma natsat_skip nm r b i full : prefix nm full = false ->
  pack_natsat_loop (nm :: r) i b full = pack_natsat_loop r (i + 1) b full.
Proof. intros H. cbn [pack_natsat_loop]. rewrite H. cbn [oand obind]. reflexivity. Qed.

Section Satellite.
Variables (planet : list Z) (n : Z).
Hypotheses (Hp : In planet satellite_planets) (Hn : 1 <= n < 1000).

Lemma create_satellite b : (13 <= length b)%nat ->
  create_mpc_packed_desig b (satellite_name planet n)
  = Ret (0, W ([nth 0 planet 0] ++ pad0 3 n ++ zs "S       " ++ [0]) (skipn 13 b)).
Proof.
  intros Hb. unfold satellite_name. rewrite roman_all by lia. destruct (roman_start n Hn) as (_ & _ & _ & _ & _ & _ & _ & LS).
  assert (NE : roman n <> []) by (destruct (roman_start n Hn) as (c & s & E & _); rewrite E; discriminate).
  assert (L : last (planet ++ [32] ++ roman n) 32 <> 32) by (rewrite app_assoc, last_app' by assumption; exact LS).
  assert (K : exists i, 0 <= i /\ pack_permanent_natsat (W blank (skipn 13 b)) (planet ++ [32] ++ roman n)
      = Ret (i, W ([nth 0 planet 0] ++ pad0 3 n ++ zs "S       " ++ [0]) (skipn 13 b))).
  { unfold pack_permanent_natsat, planet_names_in_english. 
    destruct Hp as [<-|[<-|[<-|[<-|[<-|[<-|[<-|[<-|[]]]]]]]]];
    repeat first [rewrite natsat_skip by reflexivity | rewrite natsat_hit by (assumption || discriminate)];
    (eexists; split; [|reflexivity]; discriminate). }
  destruct K as (i & Hi & K).
  destruct (planet ++ [32] ++ roman n) as [|h s] eqn:E; [destruct planet; discriminate|].
  rewrite create_sat; [|assumption| | | | |exact L].
  - rewrite K. cbn [obind]. destruct (Z.leb_spec 0 i); [|lia]. reflexivity.
  - destruct Hp as [<-|[<-|[<-|[<-|[<-|[<-|[<-|[<-|[]]]]]]]]]; injection E as <- _; reflexivity.
  - destruct Hp as [<-|[<-|[<-|[<-|[<-|[<-|[<-|[<-|[]]]]]]]]]; injection E as <- _; discriminate.
  - destruct Hp as [<-|[<-|[<-|[<-|[<-|[<-|[<-|[<-|[]]]]]]]]]; injection E as <- _; discriminate.
  - destruct Hp as [<-|[<-|[<-|[<-|[<-|[<-|[<-|[<-|[]]]]]]]]]; injection E as <- <-; reflexivity.
Qed.

Lemma unpack_satellite t : unpack_res (nth 0 planet 0) (48 + n / 100) (48 + n / 10 mod 10) (48 + n mod 10) 83 32 32 32 32 32 32 32 t
  = if (length (satellite_name planet n) <? 16)%nat then Ret (OBJ_DESIG_NATSAT_NUMBERED, satellite_name planet n) else Abort.
Proof.
  unfold unpack_res. change (sp 32) with true. rewrite !isdigit_48 by lia. cbn [andb].
  assert (PL : is_planet (nth 0 planet 0) = true /\ (nth 0 planet 0 =? 36) = false /\ planet_of (nth 0 planet 0) = planet).
  { destruct Hp as [<-|[<-|[<-|[<-|[<-|[<-|[<-|[<-|[]]]]]]]]]; repeat split; reflexivity. }
  destruct PL as (-> & -> & P). change (83 =? 83) with true. cbn [andb]. unfold natsat_res. rewrite P.
  replace (100 * (48 + n / 100 - 48) + 10 * (48 + n / 10 mod 10 - 48) + (48 + n mod 10 - 48)) with n by lia.
  unfold satellite_name. rewrite roman_all by lia. reflexivity.
Qed.

Lemma rt_satellite : (length (satellite_name planet n) < 16)%nat -> round_trip (satellite_name planet n) OBJ_DESIG_NATSAT_NUMBERED.
Proof.
  intros L. pose proof create_satellite as C. rewrite pad0_3 in C by lia. 
  change (zs "S       ") with [83; 32; 32; 32; 32; 32; 32; 32] in C. cbn [app] in C.
  eapply rt; [exact C| |].
  - nn; try discriminate; try lia. destruct Hp as [<-|[<-|[<-|[<-|[<-|[<-|[<-|[<-|[]]]]]]]]]; discriminate.
  - rewrite unpack_satellite. destruct (Nat.ltb_spec (length (satellite_name planet n)) 16); [reflexivity|lia].
Qed.

(** Longer names abort the unpacker. *)
Lemma abort_satellite : (16 <= length (satellite_name planet n))%nat ->
  forall b o, (13 <= length b)%nat -> (24 <= length o)%nat ->
  exists packed b', create_mpc_packed_desig b (satellite_name planet n) = Ret (0, b') /\ holds b' 0 packed /\
    length packed = 12%nat /\ unpack_mpc_desig (Some o) packed = Abort.
Proof.
  intros L b o Hb Ho. pose proof (create_satellite b Hb) as C. rewrite pad0_3 in C by lia. 
  change (zs "S       ") with [83; 32; 32; 32; 32; 32; 32; 32] in C.
  eexists. eexists. split; [exact C|]. cbn [app].
  set (q := [nth 0 planet 0; 48 + n / 100; 48 + n / 10 mod 10; 48 + n mod 10; 83; 32; 32; 32; 32; 32; 32; 32]).
  split; [exact (W_holds q (skipn 13 b))|]. split; [reflexivity|].
  assert (NN : no_nul (q ++ [])).
  { nn; try discriminate; try lia. destruct Hp as [<-|[<-|[<-|[<-|[<-|[<-|[<-|[<-|[]]]]]]]]]; discriminate. }
  pose proof (unpack_ok _ _ _ _ _ _ _ _ _ _ _ _ [] NN o Ho) as U. rewrite app_nil_r in U. rewrite unpack_satellite in U.
  destruct (Nat.ltb_spec (length (satellite_name planet n)) 16); [lia|]. exact U.
Qed.
End Satellite.

Definition sat_digits (n : Z) : list Z :=
  (if 10 <? n / 10 then [48 + n / 10 / 10] else []) ++ (if n / 10 =? 0 then [] else [48 + n / 10 mod 10]) ++ [48 + n mod 10].
Lemma sat_digits_ok n : 1 <= n < 620 -> n < 100 \/ 110 <= n -> sat_digits n = dec n.
Proof.
  intros H H2. pose (f := (fun n => ((100 <=? n) && (n <? 110)) || leqb (sat_digits n) (dec n))).
  assert (C : zall f (Z.to_nat 619) 1 = true) by (vm_cast_no_check (eq_refl true)).
  pose proof (zall_Z f 619 1 C n ltac:(lia)) as X. unfold f in X. apply orb_prop in X as [X|X]; [lia|].
  apply leqb_eq, X.
Qed.
Lemma sat_year y : 1901 <= y < 2100 -> dec (y / 100) ++ [48 + y / 10 mod 10; 48 + y mod 10] = dec y.
Proof.
  intros H. pose (f := (fun y => leqb (dec (y / 100) ++ [48 + y / 10 mod 10; 48 + y mod 10]) (dec y))).
  assert (C : zall f (Z.to_nat 199) 1901 = true) by (vm_cast_no_check (eq_refl true)).
  apply leqb_eq. apply (zall_Z f 199 1901 C). lia.
Qed.

Section ProvSat.
Variables (y p n : Z).
Hypotheses (Hy : 1901 <= y < 2100) (Hp : In p (zs "MVEJSUNP")) (Hn : 1 <= n < 620).
Let name := provisional_satellite_name y p n.

Lemma last_dec : last (dec n) 32 <> 32.
Proof.
  destruct (dec_ok n ltac:(lia)) as (D1 & _ & D3). destruct (exists_last D3) as (a & x & E). rewrite E, last_last.
  assert (isdigit x = true) by (apply D1; rewrite E; apply in_or_app; right; left; reflexivity). unfold isdigit in *. lia.
Qed.
Lemma name_shape : name = [83; 47; 48 + y / 1000; 48 + y / 100 mod 10; 48 + y / 10 mod 10; 48 + y mod 10; 32; p; 32] ++ dec n.
Proof. unfold name, provisional_satellite_name. rewrite dec_4 by lia. reflexivity. Qed.

Lemma create_prov_sat b : (13 <= length b)%nat ->
  create_mpc_packed_desig b name
  = Ret (0, W ([32; 32; 32; 32; 83; 55 + y / 100; 48 + y / 10 mod 10; 48 + y mod 10; p; int_to_mutant_hex_char (n / 10); 48 + n mod 10; 48]
      ++ [0]) (skipn 13 b)).
Proof.
  intros Hb. destruct (dec_ok n ltac:(lia)) as (D1 & D2 & D3). pose proof last_dec as LD.
  assert (AT2 : atoi (skipn 2 name) = Ret y).
  { rewrite name_shape. cbn [app skipn]. 
    assert (V : dig_val 0 (four y ++ ([32; p; 32] ++ dec n)) = y).
    { rewrite dig_val_rest by (reflexivity || (intros c; apply four_digits; lia)). apply four_val; lia. }
    unfold four in V. cbn [app] in V. rewrite atoi_val; [rewrite V; reflexivity|apply isdigit_48; lia|rewrite V; unfold IMAX; lia]. }
  assert (AT9 : atoi (skipn 9 name) = Ret n).
  { rewrite name_shape. cbn [app skipn]. destruct (dec n) as [|c s] eqn:E; [contradiction|].
    rewrite atoi_val; [rewrite D2; reflexivity|apply D1; left; reflexivity|rewrite D2; unfold IMAX; lia]. }
  assert (R : forall i, 0 <= i < 9 -> at_ name i = Ret (nth (Z.to_nat i) [83; 47; 48 + y / 1000; 48 + y / 100 mod 10; 48 + y / 10 mod 10; 48 + y mod 10; 32; p; 32] 0)).
  { intros i Hi. rewrite name_shape. apply at_lit. exact Hi. }
  assert (LN : (9 < length name)%nat).
  { rewrite name_shape, app_length. destruct (dec n); [contradiction|]. cbn [length]. lia. }
  assert (PP : pack_provisional_natsat (W blank (skipn 13 b)) name
    = Ret (0, W ([32; 32; 32; 32; 83; 55 + y / 100; 48 + y / 10 mod 10; 48 + y mod 10; p; int_to_mutant_hex_char (n / 10); 48 + n mod 10; 48]
      ++ [0]) (skipn 13 b))).
  { unfold pack_provisional_natsat, tst. rewrite !R by lia. rewrite AT2, AT9.
    change (Z.to_nat 0) with 0%nat. change (Z.to_nat 1) with 1%nat. change (Z.to_nat 6) with 6%nat. change (Z.to_nat 8) with 8%nat.
    change (Z.to_nat 7) with 7%nat. cbn [nth obind oand]. change (83 =? 83) with true. change (47 =? 47) with true.
    change (32 =? 32) with true. cbn [oand obind]. destruct (Nat.ltb_spec 9 (length name)); [|lia]. cbn [oand obind].
    assert (SC : strchr (zs "MVEMJSUNP") p = true).
    { destruct Hp as [<-|[<-|[<-|[<-|[<-|[<-|[<-|[<-|[]]]]]]]]]; reflexivity. }
    rewrite SC. cbn [obind negb].
    destruct (Z.ltb_spec 1900 y); [|lia]. destruct (Z.ltb_spec y 2100); [|lia].
    destruct (Z.ltb_spec 0 n); [|lia]. destruct (Z.ltb_spec n 620); [|lia]. cbn [andb].
    rewrite !Z.quot_div_nonneg, !Z.rem_mod_nonneg by lia. rewrite pad0_2 by lia.
    change (zs "    S") with [32; 32; 32; 32; 83].
    unfold to_char. rewrite !wrap8_id by lia. cbn [app].
    rewrite W_snprintf by (cbn [length app blank repeat]; unfold PACKED_DESIG_LEN; lia). cbn [obind]. f_equal. f_equal. f_equal.
    cbn [app length Nat.add skipn blank repeat]. replace (65 + y / 100 - 10) with (55 + y / 100) by lia.
    replace (y mod 100 / 10) with (y / 10 mod 10) by lia. replace ((y mod 100) mod 10) with (y mod 10) by lia. reflexivity. }
  assert (PN : pack_permanent_natsat (W blank (skipn 13 b)) name = Ret (-1, W blank (skipn 13 b))).
  { unfold pack_permanent_natsat, planet_names_in_english. rewrite name_shape. cbn [app].
    rewrite !natsat_skip by reflexivity. reflexivity. }
  assert (LL : last name 32 <> 32) by (rewrite name_shape, last_app' by exact D3; exact LD).
  assert (E : exists s, name = 83 :: s) by (rewrite name_shape; eexists; reflexivity). destruct E as (s & E). rewrite E in *.
  rewrite create_sat; try assumption; try discriminate; try reflexivity.
  2: apply andb_false_r.
  rewrite PN. cbn [obind]. change (0 <=? -1) with false. cbv iota. rewrite PP. reflexivity.
Qed.

Lemma unpack_prov_sat t :
  unpack_res 32 32 32 32 83 (55 + y / 100) (48 + y / 10 mod 10) (48 + y mod 10) p (int_to_mutant_hex_char (n / 10)) (48 + n mod 10) 48 t
  = Ret (OBJ_DESIG_NATSAT_PROVISIONAL, zs "S/" ++ dec y ++ [32; p; 32] ++ sat_digits n).
Proof.
  unfold unpack_res. change (32 =? 36) with false. change (is_planet 32) with false. change (83 =? 83) with true.
  change (sp 32) with true. cbn [andb].
  assert (PL : is_planet p = true).
  { destruct Hp as [<-|[<-|[<-|[<-|[<-|[<-|[<-|[<-|[]]]]]]]]]; reflexivity. }
  rewrite PL. rewrite !isdigit_48 by lia. change (isdigit 48) with true. rewrite hex_alnum by lia. change (48 =? 48) with true.
  destruct (Z.leb_spec 72 (55 + y / 100)); [|lia]. destruct (Z.leb_spec (55 + y / 100) 90); [|lia]. cbn [andb].
  f_equal. f_equal. unfold natsat_prov_text. rewrite of_to_hex by lia. rewrite <- (sat_year y) by lia.
  replace (55 + y / 100 - 55) with (y / 100) by lia. rewrite <- !app_assoc. reflexivity.
Qed.

Lemma prov_sat_nn : no_nul [32; 32; 32; 32; 83; 55 + y / 100; 48 + y / 10 mod 10; 48 + y mod 10; p; int_to_mutant_hex_char (n / 10); 48 + n mod 10; 48].
Proof.
  nn; try discriminate; try lia; [|apply isalnum_nz, hex_alnum; lia].
  destruct Hp as [<-|[<-|[<-|[<-|[<-|[<-|[<-|[<-|[]]]]]]]]]; discriminate.
Qed.
Lemma rt_prov_sat : n < 100 \/ 110 <= n -> round_trip name OBJ_DESIG_NATSAT_PROVISIONAL.
Proof.
  intros H. eapply rt; [exact create_prov_sat|exact prov_sat_nn|].
  rewrite unpack_prov_sat. rewrite sat_digits_ok by assumption. reflexivity.
Qed.

(** From 100 to 109 the hundreds digit is lost. *)
Lemma bad_prov_sat : 100 <= n < 110 ->
  forall b o, (13 <= length b)%nat -> (24 <= length o)%nat ->
  exists packed b' o', create_mpc_packed_desig b name = Ret (0, b') /\ holds b' 0 packed /\
    length packed = 12%nat /\ unpack_mpc_desig (Some o) packed = Ret (OBJ_DESIG_NATSAT_PROVISIONAL, Some o') /\
    holds o' 0 (zs "S/" ++ dec y ++ [32; p; 32; 48; 48 + n mod 10]).
Proof.
  intros H b o Hb Ho. 
  pose proof (unpack_ok _ _ _ _ _ _ _ _ _ _ _ _ [] prov_sat_nn o Ho) as U. rewrite app_nil_r in U. rewrite unpack_prov_sat in U.
  destruct U as (o' & U1 & U2 & _).
  eexists. eexists. exists o'. split; [exact (create_prov_sat b Hb)|]. split; [apply W_holds|]. split; [reflexivity|]. split; [exact U1|].
  assert (E : sat_digits n = [48; 48 + n mod 10]).
  { unfold sat_digits. replace (n / 10) with 10 by lia. reflexivity. }
  rewrite E in U2. exact U2.
Qed.
End ProvSat.

(* ---------- artificial satellites ---------- *)
Lemma rt_artsat y m ls : 1957 <= y < 2100 -> 0 <= m < 1000 -> (1 <= length ls <= 3)%nat -> (forall c, In c ls -> isupper c = true) ->
  round_trip (artsat_name y m ls) OBJ_DESIG_ARTSAT.
Proof.
  intros Hy Hm Hls HL. unfold artsat_name. rewrite dec_4, pad0_3 by lia.
  set (name := four y ++ [45] ++ [48 + m / 100; 48 + m / 10 mod 10; 48 + m mod 10] ++ ls).
  set (l1 := nth 0 ls 32). set (l2 := nth 1 ls 32). set (l3 := nth 2 ls 32).
  assert (Hl1 : isupper l1 = true) by (destruct ls; [cbn in Hls; lia|apply HL; left; reflexivity]).
  assert (C : forall b, (13 <= length b)%nat -> create_mpc_packed_desig b name =
    Ret (0, W ([48 + y / 1000; 48 + y / 100 mod 10; 48 + y / 10 mod 10; 48 + y mod 10; 45; 48 + m / 100; 48 + m / 10 mod 10; 48 + m mod 10; l1; l2; l3; 32] ++ [0]) (skipn 13 b))).
  { intros b Hb. unfold name. pose proof (create_year b 0 y ([45] ++ [48 + m / 100; 48 + m / 10 mod 10; 48 + m mod 10] ++ ls)) as CY.
    change (pre 0) with (@nil Z) in CY. cbn [app] in CY. cbn [app]. rewrite CY by ((left; reflexivity) || lia). clear CY.
    unfold pack_name. rewrite W_blank by exact Hb. cbn [obind].
    change (four y ++ 45 :: 48 + m / 100 :: 48 + m / 10 mod 10 :: 48 + m mod 10 :: ls) with name.
    assert (SP : span isdigit name = 4%nat).
    { unfold name. rewrite span_app; [reflexivity|intros c; apply four_digits; lia|reflexivity]. }
    assert (V : dig_val 0 name = y).
    { unfold name. rewrite dig_val_rest; [apply four_val; lia|intros c; apply four_digits; lia|reflexivity]. }
    assert (LN : lead_number name 0 = y) by (rewrite lead_number_val; rewrite ?V; lia).
    assert (NE : name <> []) by discriminate.
    assert (LL : last name 32 <> 32).
    { unfold name. assert (ls <> []) by (destruct ls; [cbn in Hls; lia|discriminate]). rewrite !app_assoc, last_app' by assumption.
      destruct (exists_last H) as (a & x & E). rewrite E, last_last. specialize (HL x). rewrite E in HL.
      assert (isupper x = true) by (apply HL, in_or_app; right; left; reflexivity). unfold isupper in *. lia. }
    assert (LE : length name = (8 + length ls)%nat) by reflexivity.
    rewrite SP, LN, Nat.sub_0_r, last_nonblank, LE by assumption.
    assert (R : forall i, 0 <= i < 8 -> at_ name i = Ret (nth (Z.to_nat i) (four y ++ [45] ++ [48 + m / 100; 48 + m / 10 mod 10; 48 + m mod 10]) 0)).
    { intros i Hi. unfold name. rewrite !app_assoc. apply at_lit. exact Hi. }
    assert (R8 : at_ name 8 = Ret l1).
    { unfold name, l1. destruct ls as [|x ls]; [cbn in Hls; lia|]. rewrite !app_assoc. exact (at_split _ x ls). }
    assert (R4 : at_ name 4 = Ret 45) by (rewrite R by lia; reflexivity).
    assert (R5 : at_ name 5 = Ret (48 + m / 100)) by (rewrite R by lia; reflexivity).
    assert (R6 : at_ name 6 = Ret (48 + m / 10 mod 10)) by (rewrite R by lia; reflexivity).
    assert (R7 : at_ name 7 = Ret (48 + m mod 10)) by (rewrite R by lia; reflexivity).
    change (Z.of_nat 4) with 4. change (Z.of_nat (4 + 1)) with 5. unfold tst at 1.
    rewrite R4. cbn [obind]. rewrite R5. cbn [obind]. rewrite (eqb_ne (48 + m / 100) 0), (eqb_ne (48 + m / 100) 45) by lia.
    change (45 =? 0) with false. cbn [orb].
    rewrite andb_true_r.
    assert (PF : ((Ret ((0 <? y) && (y <? 10000)) &&& Ret false) &&& Ret (strchr (zs "PDI") 45)) = Ret false).
    { destruct ((0 <? y) && (y <? 10000)); reflexivity. }
    rewrite PF. cbn [obind]. change (45 =? 32) with false. rewrite andb_false_r. cbv iota.
    unfold pack_branches. change (Z.of_nat 4) with 4. rewrite R4. cbn [obind]. change (isupper 45) with false. rewrite !andb_false_r.
    cbn [andb]. unfold pack_satellite, tst.
    rewrite R4, R5, R6, R7, R8. cbn [obind].
    destruct (Z.leb_spec 1957 y); [|lia]. destruct (Z.ltb_spec y 2100); [|lia]. change (45 =? 45) with true. cbn [oand obind andb].
    destruct (Nat.leb_spec 9 (8 + length ls)); [|lia]. destruct (Nat.leb_spec (8 + length ls) 11); [|lia]. cbn [oand obind andb].
    rewrite !isdigit_48 by lia. rewrite Hl1. cbn [oand obind].
    rewrite <- LE. rewrite firstn_all. change 0 with (Z.of_nat 0) at 1. rewrite W_store by (rewrite LE; cbn [length blank repeat app]; lia).
    cbn [obind firstn Nat.add]. change (0 =? -1) with false. cbv iota. f_equal. f_equal. f_equal. rewrite LE.
    unfold name, l1, l2, l3, blank, four. destruct ls as [|x1 [|x2 [|x3 [|x4 ls]]]]; cbn [length] in Hls; try lia; reflexivity. }
  assert (NN : no_nul [48 + y / 1000; 48 + y / 100 mod 10; 48 + y / 10 mod 10; 48 + y mod 10; 45; 48 + m / 100; 48 + m / 10 mod 10; 48 + m mod 10; l1; l2; l3; 32]).
  { assert (X : forall k, nth k ls 32 <> 0).
    { intros k. destruct (nth_in_or_default k ls 32) as [I| ->]; [|discriminate]. apply HL in I. unfold isupper in I. lia. }
    nn; try discriminate; try lia; apply X. }
  eapply rt; [exact C|exact NN|].
  unfold unpack_res. rewrite (eqb_ne (48 + y / 1000)) by lia. change (45 =? 83) with false. cbn [andb].
  rewrite (eqb_ne (48 + y / 1000)) by lia. cbn [andb].
  rewrite (digit_alnum (48 + y / 1000)) by (apply isdigit_48; lia). rewrite !isdigit_48 by lia.
  unfold sp at 1. rewrite (eqb_ne (48 + m / 100)) by lia. cbn [andb].
  assert (PR : prov_res (48 + m / 100) (48 + m / 10 mod 10) (48 + m mod 10) l1 l2 l3 32 = (-1, Some [])).
  { unfold prov_res. rewrite (eqb_ne (48 + m / 100)) by lia. destruct (Z.leb_spec 71 (48 + m / 100)); [lia|]. reflexivity. }
  rewrite PR. cbn [snd obind]. unfold other_res.
  assert (SF : sp (48 + y / 1000) = false) by (apply eqb_ne; lia). rewrite !SF. cbn [andb].
  unfold as_is_res.
  assert (AR : is_artsat_desig ([48 + y / 1000; 48 + y / 100 mod 10; 48 + y / 10 mod 10; 48 + y mod 10; 45; 48 + m / 100; 48 + m / 10 mod 10; 48 + m mod 10; l1; l2; l3; 32] ++ []) = Ret true).
  { cbn [app]. 
    assert (V : dig_val 0 (four y ++ [45; 48 + m / 100; 48 + m / 10 mod 10; 48 + m mod 10; l1; l2; l3; 32]) = y).
    { rewrite dig_val_rest; [apply four_val; lia|intros c; apply four_digits; lia|reflexivity]. }
    unfold four in V. cbn [app] in V.
    assert (AT : atoi [48 + y / 1000; 48 + y / 100 mod 10; 48 + y / 10 mod 10; 48 + y mod 10; 45; 48 + m / 100; 48 + m / 10 mod 10; 48 + m mod 10; l1; l2; l3; 32] = Ret y).
    { rewrite atoi_val; [rewrite V; reflexivity|apply isdigit_48; lia|rewrite V; unfold IMAX; lia]. }
    cbn [is_artsat_desig]. match goal with |- context [(length ?q <=? 8)%nat] => change ((length q <=? 8)%nat) with false; set (q0 := q) in * end.
    cbv iota. unfold tst.
    assert (Q : forall i, 0 <= i < 12 -> at_ q0 i = Ret (nth (Z.to_nat i) q0 0)) by (intros i Hi; apply at_nth; exact Hi).
    rewrite !Q by lia. rewrite AT. cbn [obind].
    change (Z.to_nat 4) with 4%nat. change (Z.to_nat 5) with 5%nat. change (Z.to_nat 6) with 6%nat. change (Z.to_nat 7) with 7%nat. change (Z.to_nat 8) with 8%nat.
    unfold q0. cbn [nth]. rewrite !isdigit_48 by lia. rewrite Hl1. change (45 =? 45) with true.
    destruct (Z.ltb_spec 1956 y); [|lia]. destruct (Z.ltb_spec y 2100); [|lia]. reflexivity. }
  rewrite AR. cbn [obind]. f_equal. f_equal. cbn [app drop]. destruct (Z.eqb_spec 32 (48 + y / 1000)); [lia|].
  assert (X : forall (c : Z) r s, rtrim r = s -> 32 < c -> rtrim (c :: r) = c :: s).
  { intros c r s <- Hc. cbn [rtrim]. destruct (rtrim r); [|reflexivity]. destruct (Z.leb_spec c 32); [lia|reflexivity]. }
  unfold name, four. cbn [app]. repeat (apply X; [|lia]).
  assert (U : forall k, (k < length ls)%nat -> 32 < nth k ls 32).
  { intros k Hk. assert (isupper (nth k ls 32) = true) by (apply HL, nth_In, Hk). unfold isupper in *. lia. }
  unfold l1, l2, l3. pose proof (U 0%nat) as U0. pose proof (U 1%nat) as U1. pose proof (U 2%nat) as U2. clear -U0 U1 U2 X Hls.
  destruct ls as [|x1 [|x2 [|x3 [|x4 ls]]]]; cbn [length nth] in *; try lia.
  - apply X; [reflexivity|apply U0; lia].
  - apply X; [|apply U0; lia]. apply X; [reflexivity|apply U1; lia].
  - apply X; [|apply U0; lia]. apply X; [|apply U1; lia]. apply X; [reflexivity|apply U2; lia].
Qed.
