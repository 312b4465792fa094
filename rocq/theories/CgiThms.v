(** Proofs of the theorems stated in [PropCgi]. *)
From Coq Require Import Lia ZifyBool String.
From Verif Require Import CBase CLemmas CStr StrModel StrProofs DesigUnpack CgiModel CgiSpec CgiProofs.
Open Scope list_scope.

Lemma C29_piece_proof :
  forall end_char text e before rest (b : buf) size,
  13 < end_char -> end_char <> 43 -> end_char <> 37 ->
  encoding end_char text e -> Z.of_nat (length text) < size <= Z.of_nat (length b) ->
  get_urlencoded_piece (before ++ e ++ end_char :: rest) (Z.of_nat (length before)) b size end_char
  = Ret (end_char, Z.of_nat (length (before ++ e ++ [end_char])),
         map Some text ++ [Some 0] ++ skipn (length text + 1) b).
Proof.
  intros ec text e before rest b size H13 N1 N2 E Hs.
  unfold get_urlencoded_piece. destruct (Z.eqb_spec size 0); [lia|].
  pose proof (piece_ok ec text e E N1 N2 (ec :: rest) ltac:(left; cbn; lia) (S (length (before ++ e ++ ec :: rest))) before [] b (size - 1)
    ltac:(lia) ltac:(cbn; lia) ltac:(rewrite !app_length; cbn; lia)) as X.
  rewrite splice_nil in X. cbn [length app hd] in X. change (Z.of_nat 0) with 0 in X. rewrite X. cbn [obind]. unfold after. cbn [hd]. rewrite Z.eqb_refl.
  rewrite !app_length. cbn [length]. f_equal. f_equal; [f_equal; lia|].
  unfold splice. rewrite app_length, map_app. cbn [firstn app length skipn map Nat.add]. rewrite <- !app_assoc. reflexivity.
Qed.

Lemma C29_last_piece_proof :
  forall end_char text e before rest (b : buf) size,
  13 < end_char -> end_char <> 43 -> end_char <> 37 ->
  encoding end_char text e -> hd 0 rest <= 13 -> Z.of_nat (length text) < size <= Z.of_nat (length b) ->
  get_urlencoded_piece (before ++ e ++ rest) (Z.of_nat (length before)) b size end_char
  = Ret (hd 0 rest, Z.of_nat (length (before ++ e)), map Some text ++ [Some 0] ++ skipn (length text + 1) b).
Proof.
  intros ec text e before rest b size H13 N1 N2 E Hr Hs.
  unfold get_urlencoded_piece. destruct (Z.eqb_spec size 0); [lia|].
  pose proof (piece_ok ec text e E N1 N2 rest ltac:(right; lia) (S (length (before ++ e ++ rest))) before [] b (size - 1)
    ltac:(lia) ltac:(cbn; lia) ltac:(rewrite !app_length; cbn; lia)) as X.
  rewrite splice_nil in X. cbn [length app] in X. change (Z.of_nat 0) with 0 in X. rewrite X. cbn [obind]. unfold after.
  destruct (Z.eqb_spec (hd 0 rest) ec); [lia|].
  rewrite !app_length. rewrite Z.add_0_r. f_equal. f_equal.
  unfold splice. rewrite app_length, map_app. cbn [firstn app length skipn map Nat.add]. rewrite <- !app_assoc. reflexivity.
Qed.

Lemma C29_piece_cut_proof :
  forall end_char text e before rest (b : buf) size,
  13 < end_char -> end_char <> 43 -> end_char <> 37 ->
  encoding end_char text e -> 1 <= size <= Z.of_nat (length text) -> size <= Z.of_nat (length b) ->
  exists text1 text2 e1 e2 c, text = text1 ++ text2 /\ e = e1 ++ e2 /\
  encoding end_char text1 e1 /\ encoding end_char text2 e2 /\ Z.of_nat (length text1) = size - 1 /\
  13 < c /\ c <> end_char /\
  get_urlencoded_piece (before ++ e ++ rest) (Z.of_nat (length before)) b size end_char
  = Ret (c, Z.of_nat (length (before ++ e1)), map Some text1 ++ [Some 0] ++ skipn (length text1 + 1) b).
Proof.
  intros ec text e before rest b size H13 N1 N2 E Hs Hb.
  unfold get_urlencoded_piece. destruct (Z.eqb_spec size 0); [lia|].
  destruct (piece_cut ec text e E N1 N2 rest (S (length (before ++ e ++ rest))) before [] b (size - 1)
    ltac:(lia) ltac:(cbn; lia) ltac:(rewrite !app_length; cbn; lia)) as (t1 & t2 & e1 & e2 & Q1 & Q2 & Q3 & Q4 & Q5 & Q6 & Q7 & X).
  exists t1, t2, e1, e2, (hd 0 e2). repeat (split; [assumption|]).
  rewrite splice_nil in X. cbn [length app] in X. change (Z.of_nat 0) with 0 in X. rewrite X. cbn [obind]. rewrite !app_length. f_equal. f_equal.
  unfold splice. rewrite app_length, map_app. cbn [firstn app length skipn map Nat.add]. rewrite <- !app_assoc. reflexivity.
Qed.

Lemma C29_piece_safe_partial_proof :
  forall s p (b : buf) size end_char, 13 < end_char ->
  0 <= p <= Z.of_nat (length s) -> 1 <= size <= Z.of_nat (length b) ->
  exists c p' b', get_urlencoded_piece s p b size end_char = Ret (c, p', b') /\
    p <= p' <= Z.of_nat (length s) /\ length b' = length b /\
    skipn (Z.to_nat size) b' = skipn (Z.to_nat size) b /\
    (c <> -1 -> exists text, Z.of_nat (length text) < size /\ holds b' 0 text).
Proof.
  intros s p b size ec H13 Hp Hs. unfold get_urlencoded_piece. destruct (Z.eqb_spec size 0); [lia|].
  destruct (piece_any s ec H13 (S (length s)) (Z.to_nat p) [] b (size - 1) ltac:(lia) ltac:(lia) ltac:(cbn; lia) ltac:(lia)) as (r & d' & E & R).
  rewrite splice_nil, Z2Nat.id in E by lia. cbn [length] in E. change (Z.of_nat 0) with 0 in E. rewrite E. cbn [obind].
  assert (K : forall k, (length d' <= k)%nat -> (k <= length b)%nat -> skipn k (splice b 0 d') = skipn k b).
  { intros k K1 K2. unfold splice. cbn [firstn app Nat.add]. rewrite skipn_app, skipn_all2 by (rewrite map_length; lia).
    rewrite map_length, skipn_skipn'. cbn [app]. f_equal. lia. }
  destruct r as [(c, t)|].
  - destruct R as (R1 & text & -> & R2). cbn [app] in *. exists c, t, (splice b 0 (text ++ [0])). split; [reflexivity|].
    split; [lia|]. assert (L : length (text ++ [0]) = S (length text)) by (rewrite app_length; cbn; lia).
    split; [apply splice_length; lia|]. split; [apply K; lia|]. intros _. exists text. split; [lia|]. apply holds_splice. lia.
  - exists (-1), p, (splice b 0 d'). cbn [length] in R. split; [reflexivity|]. split; [lia|]. split; [apply splice_length; lia|].
    split; [apply K; lia|]. congruence.
Qed.

Lemma C29_bad_escape_refuted_proof :
  get_urlencoded_piece (zs "ab%4g&") 0 (repeat None 4) 4 38 = Ret (-1, 0, [Some 97; Some 98; None; None]) /\
  get_urlencoded_form_data (zs "f=ab%4g&") 0 (repeat None 4) 4 (repeat None 4) 4
  = Ret (0, 2, [Some 102; Some 0; None; None], [Some 97; Some 98; None; None]).
Proof.
  vm_compute. split; reflexivity.
Qed.

Lemma C29_lower_case_refuted_proof :
  get_urlencoded_piece (zs "%c3") 0 (repeat None 4) 4 38 = Ret (-1, 0, repeat None 4) /\
  get_urlencoded_piece (zs "%C3") 0 (repeat None 4) 4 38 = Ret (0, 3, [Some (-61); Some 0; None; None]).
Proof.
  vm_compute. split; reflexivity.
Qed.

Lemma overrun s : (forall c, In c s -> 13 < c) -> ~ In 43 s -> ~ In 37 s -> ~ In 38 s ->
  forall f pre d (b : buf) left, (length b <= length d + length s)%nat -> (length d <= length b)%nat ->
  Z.of_nat (length s) <= left -> (length s < f)%nat ->
  piece_loop f (pre ++ s) (Z.of_nat (length pre)) (splice b 0 d) (Z.of_nat (length d)) left 38 = UB.
Proof.
  induction s as [|c s IH]; intros H1 H2 H3 H4 f pre d b left Hd Hb Hl Hf; (destruct f as [|f]; [cbn in Hf; lia|]).
  - cbn [length] in *. cbn [piece_loop]. rewrite at_hd. cbn [obind hd]. change (13 <? 0) with false. cbv iota.
    rewrite wr_ub; [reflexivity|]. rewrite splice_length; lia.
  - assert (13 < c) by (apply H1; left; reflexivity). assert (c <> 43) by (intros ->; apply H2; left; reflexivity).
    assert (c <> 37) by (intros ->; apply H3; left; reflexivity). assert (c <> 38) by (intros ->; apply H4; left; reflexivity).
    cbn [length] in *. destruct (Nat.eq_dec (length d) (length b)) as [E|E].
    + cbn [piece_loop]. rewrite at_split. cbn [obind]. destruct (Z.ltb_spec 13 c); [|lia]. destruct (Z.eqb_spec left 0); [lia|].
      destruct (Z.eqb_spec c 38); [contradiction|]. destruct (Z.eqb_spec c 43); [contradiction|]. destruct (Z.eqb_spec c 37); [contradiction|].
      rewrite wr_ub; [reflexivity|]. rewrite splice_length; lia.
    + rewrite loop_self by (try assumption; lia). apply IH.
      * intros x Hx. apply H1. right. exact Hx.
      * intros X. apply H2. right. exact X.
      * intros X. apply H3. right. exact X.
      * intros X. apply H4. right. exact X.
      * rewrite app_length. cbn [length]. lia.
      * rewrite app_length. cbn [length]. lia.
      * lia.
      * lia.
Qed.

Lemma C29_size_zero_refuted_proof :
  forall s (b : buf), (forall c, In c s -> 64 < c <= 127) -> (length b <= length s)%nat ->
  Z.of_nat (length s) <= SIZE_MAX -> get_urlencoded_piece s 0 b 0 38 = UB.
Proof.
  intros s b H Hb Hl. unfold get_urlencoded_piece. change (0 =? 0) with true. cbv iota.
  assert (N : forall x, x <= 64 -> ~ In x s) by (intros x Hx Hi; specialize (H x Hi); lia).
  pose proof (overrun s ltac:(intros c Hc; specialize (H c Hc); lia) (N 43 ltac:(lia)) (N 37 ltac:(lia)) (N 38 ltac:(lia)) (S (length s)) [] [] b SIZE_MAX) as X.
  rewrite splice_nil in X. cbn [app length] in X. change (Z.of_nat 0) with 0 in X. rewrite X; [reflexivity|lia..].
Qed.

Lemma form_call before f v ef ev rest mf mb (field buff : buf) : encoding 61 f ef -> encoding 38 v ev ->
  hd 0 rest = 38 \/ hd 0 rest <= 13 -> Z.of_nat (length f) < mf -> Z.of_nat (length v) < mb ->
  Z.of_nat (length field) = mf -> Z.of_nat (length buff) = mb ->
  exists field' buff', get_urlencoded_form_data (before ++ ef ++ 61 :: ev ++ rest) (Z.of_nat (length before)) field mf buff mb
    = Ret (0, Z.of_nat (length (before ++ ef ++ 61 :: ev)) + (if hd 0 rest =? 38 then 1 else 0), field', buff') /\
    holds field' 0 f /\ holds buff' 0 v.
Proof.
  intros Ef Ev Hr Hf Hv Lf Lb. unfold get_urlencoded_form_data.
  rewrite (C29_piece_proof 61 f ef before (ev ++ rest) field mf) by (try assumption; lia). cbn [obind]. change (negb (61 =? 61)) with false. cbv iota.
  assert (HS : forall t (b : buf), (length t + 1 <= length b)%nat -> holds (map Some t ++ [Some 0] ++ skipn (length t + 1) b) 0 t).
  { intros t b H. unfold holds. cbn [skipn]. rewrite app_assoc, firstn_app, app_length, map_length. cbn [length].
    rewrite firstn_all2 by (rewrite app_length, map_length; cbn; lia). rewrite Nat.sub_diag. cbn [firstn]. rewrite app_nil_r. reflexivity. }
  replace (before ++ ef ++ 61 :: ev ++ rest) with ((before ++ ef ++ [61]) ++ ev ++ rest) by (rewrite <- !app_assoc; reflexivity).
  destruct Hr as [Hr|Hr].
  - destruct rest as [|c rest]; [discriminate|]. cbn [hd] in *. subst c. rewrite (C29_piece_proof 38 v ev) by (try assumption; lia). cbn [obind].
    change (38 =? 38) with true. cbn [negb andb]. match goal with |- exists _ _, Ret (_, ?x, ?y) = _ /\ _ => exists x, y end; split; [|split; apply HS; lia].
    match goal with |- Ret (_, ?p, _, _) = Ret (_, ?q, _, _) => replace p with q; [reflexivity|] end. repeat (rewrite ?app_length; cbn [length]). lia.
  - rewrite (C29_last_piece_proof 38 v ev) by (try assumption; lia). cbn [obind].
    destruct (Z.eqb_spec (hd 0 rest) 38); [lia|]. destruct (Z.ltb_spec 13 (hd 0 rest)); [lia|]. cbn [negb andb].
    match goal with |- exists _ _, Ret (_, ?x, ?y) = _ /\ _ => exists x, y end; split; [|split; apply HS; lia].
    match goal with |- Ret (_, ?p, _, _) = Ret (_, ?q, _, _) => replace p with q; [reflexivity|] end. repeat (rewrite ?app_length; cbn [length]). lia.
Qed.
Lemma form_yields pairs e mf mb : form pairs e -> 1 <= mf -> 1 <= mb ->
  (forall f v, In (f, v) pairs -> Z.of_nat (length f) < mf /\ Z.of_nat (length v) < mb) ->
  forall before, yields (before ++ e) mf mb (Z.of_nat (length before)) pairs.
Proof.
  intros F H1 H2. induction F as [f v ef ev Ef Ev|f v ef ev more e Ef Ev F IH]; intros Hp before.
  - destruct (Hp f v (or_introl eq_refl)) as (P1 & P2).
    apply (yields_pair _ _ _ _ (Z.of_nat (length (before ++ ef ++ 61 :: ev)))).
    + intros field buff Lf Lb.
      destruct (form_call before f v ef ev [] mf mb field buff Ef Ev ltac:(right; cbn; lia) P1 P2 Lf Lb) as (a & b & E & Q).
      rewrite app_nil_r in E. cbn [hd] in E. change (0 =? 38) with false in E. cbv iota in E. rewrite Z.add_0_r in E. exists a, b. split; [exact E|exact Q].
    + apply yields_end. intros field buff Lf Lb. unfold get_urlencoded_form_data.
      pose proof (C29_last_piece_proof 61 [] [] (before ++ ef ++ 61 :: ev) [] field mf ltac:(lia) ltac:(lia) ltac:(lia) (enc_nil 61) ltac:(cbn; lia) ltac:(cbn; lia)) as X.
      rewrite !app_nil_r in X. cbn [app hd] in X. rewrite X. cbn [obind]. eexists; eexists. reflexivity.
  - destruct (Hp f v (or_introl eq_refl)) as (P1 & P2).
    replace (before ++ ef ++ 61 :: ev ++ 38 :: e) with ((before ++ ef ++ 61 :: ev ++ [38]) ++ e)
      by (rewrite <- !app_assoc; cbn [app]; rewrite <- !app_assoc; reflexivity).
    apply (yields_pair _ _ _ _ (Z.of_nat (length (before ++ ef ++ 61 :: ev ++ [38])))).
    + intros field buff Lf Lb.
      destruct (form_call before f v ef ev (38 :: e) mf mb field buff Ef Ev ltac:(left; reflexivity) P1 P2 Lf Lb) as (a & b & E & Q).
      replace ((before ++ ef ++ 61 :: ev ++ [38]) ++ e) with (before ++ ef ++ 61 :: ev ++ 38 :: e)
        by (rewrite <- !app_assoc; cbn [app]; rewrite <- !app_assoc; reflexivity).
      exists a, b. split; [rewrite E|exact Q]. match goal with |- Ret (_, ?p, _, _) = Ret (_, ?q, _, _) => replace p with q; [reflexivity|] end. cbn [hd]. change (38 =? 38) with true. cbv iota.
      repeat (rewrite ?app_length; cbn [length]). lia.
    + apply IH. intros f' v' Hi. apply Hp. right. exact Hi.
Qed.

Lemma C29_form_proof :
  forall pairs e max_field max_buff, form pairs e ->
  (forall field value, In (field, value) pairs ->
     Z.of_nat (length field) < max_field /\ Z.of_nat (length value) < max_buff) ->
  yields e max_field max_buff 0 pairs.
Proof.
  intros pairs e mf mb F H. assert (1 <= mf /\ 1 <= mb).
  { inversion F; subst; destruct (H f v (or_introl eq_refl)); lia. }
  exact (form_yields pairs e mf mb F ltac:(lia) ltac:(lia) H []).
Qed.
