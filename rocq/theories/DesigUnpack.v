(** unpack_mpc_desig( ) in closed form: for a record of at least twelve
    characters, the type and the text it leaves. *)
From Coq Require Import Lia ZifyBool String.
From Verif Require Import CBase CLemmas CStr StrModel StrProofs DesigModel DesigBase.
Open Scope list_scope.

(* ---------- more about buffers ---------- *)
Lemma at_nth s i : 0 <= i < Z.of_nat (length s) -> at_ s i = Ret (nth (Z.to_nat i) s 0).
Proof. intros H. rewrite <- (Z2Nat.id i) at 1 by lia. apply at_in. lia. Qed.

Lemma digits_len n : forall v k, (1 <= k)%nat -> 0 <= v < 10 ^ Z.of_nat k -> (length (digits n v []) <= k)%nat.
Proof.
  induction n as [|n IH]; intros v k Hk Hv; cbn [digits]; [cbn; lia|].
  destruct (Z.eqb_spec (v / 10) 0); [cbn; lia|].
  rewrite digits_app, app_length. cbn [length].
  destruct k as [|k]; [lia|]. rewrite Nat2Z.inj_succ, Z.pow_succ_r in Hv by lia.
  destruct k as [|k]; [cbn in Hv; lia|]. pose proof (IH (v / 10) (S k) ltac:(lia) ltac:(lia)). lia.
Qed.
Lemma dec_len v k : (1 <= k)%nat -> 0 <= v < 10 ^ Z.of_nat k -> (length (dec v) <= k)%nat.
Proof. intros Hk Hv. unfold dec. destruct (Z.ltb_spec v 0); [lia|]. apply digits_len; assumption. Qed.

Ltac p10 := repeat match goal with |- context [10 ^ Z.of_nat ?k] =>
  let v := eval vm_compute in (10 ^ Z.of_nat k) in change (10 ^ Z.of_nat k) with v end.

Lemma isdigit_nz c : isdigit c = true -> c <> 0.
Proof. unfold isdigit. lia. Qed.
Lemma isalnum_nz c : isalnum c = true -> c <> 0.
Proof. unfold isalnum, isalpha, isupper, islower, isdigit. lia. Qed.
Lemma no_nul_app s t : no_nul s -> no_nul t -> no_nul (s ++ t).
Proof. intros H1 H2 c H. apply in_app_or in H. destruct H; auto. Qed.
Lemma no_nul_cons c s : c <> 0 -> no_nul s -> no_nul (c :: s).
Proof. intros H1 H2 x [<-|H]; auto. Qed.
Lemma no_nul_nil : no_nul [].
Proof. intros c []. Qed.
Lemma no_nul_dec v : 0 <= v < 10 ^ 20 -> no_nul (dec v).
Proof. intros H c Hc. apply isdigit_nz. destruct (dec_ok v H) as (X & _). apply X, Hc. Qed.

Lemma skipn_firstn_split {A} (l : list A) n m : (n <= m)%nat ->
  skipn n l = firstn (m - n) (skipn n l) ++ skipn m l.
Proof. intros H. rewrite <- (firstn_skipn (m - n) (skipn n l)) at 1. rewrite skipn_skipn'. replace (n + (m - n))%nat with m by lia. reflexivity. Qed.

Lemma splice_frame b i d max : (length d < max)%nat -> (i + max <= length b)%nat ->
  exists pre rest post, length pre = i /\ length rest = (max - length d - 1)%nat /\
    splice b i (d ++ [0]) = pre ++ (map Some d ++ Some 0 :: rest) ++ post /\
    forall e, (length e <= length rest)%nat ->
      splice b i (d ++ e ++ [0]) = pre ++ (map Some d ++ map Some e ++ Some 0 :: skipn (length e) rest) ++ post.
Proof.
  intros Hd Hb.
  exists (firstn i b), (firstn (max - length d - 1) (skipn (i + length d + 1) b)), (skipn (i + max) b).
  assert (Hr : length (firstn (max - length d - 1) (skipn (i + length d + 1) b)) = (max - length d - 1)%nat).
  { rewrite firstn_length, skipn_length. lia. }
  split; [rewrite firstn_length; lia|]. split; [exact Hr|]. split.
  - unfold splice. rewrite map_app, app_length, <- !app_assoc. cbn [map app length].
    replace (i + (length d + 1))%nat with (i + length d + 1)%nat by lia.
    rewrite (skipn_firstn_split b (i + length d + 1) (i + max)) at 1 by lia.
    replace (i + max - (i + length d + 1))%nat with (max - length d - 1)%nat by lia. reflexivity.
  - intros e He. rewrite Hr in He. unfold splice. rewrite !map_app, !app_length, <- !app_assoc. cbn [map app length].
    rewrite skipn_firstn_comm, skipn_skipn'.
    replace (i + (length d + (length e + 1)))%nat with (i + length d + 1 + length e)%nat by lia.
    rewrite (skipn_firstn_split b (i + length d + 1 + length e) (i + max)) at 1 by lia.
    replace (i + max - (i + length d + 1 + length e))%nat with (max - length d - 1 - length e)%nat by lia. reflexivity.
Qed.

Lemma snprintf_err_splice b i max out : (length out < max)%nat -> (i + max <= length b)%nat ->
  snprintf_err b (Z.of_nat i) max out = Ret (Z.of_nat (length out), splice b i (out ++ [0])).
Proof.
  intros H Hb. unfold snprintf_err. rewrite vsnprintf_ok by exact Hb. cbn [obind].
  destruct (Z.leb_spec (Z.of_nat max) (Z.of_nat (length out))); [lia|].
  destruct max as [|m]; [lia|]. rewrite firstn_all2 by lia. reflexivity.
Qed.

Lemma append_splice b i max d out : no_nul d -> (length d < max)%nat -> (i + max <= length b)%nat ->
  snprintf_append (splice b i (d ++ [0])) (Z.of_nat i) max out =
  if (length d + length out <? max)%nat
  then Ret (Z.of_nat (length d + length out), splice b i (d ++ out ++ [0])) else Abort.
Proof.
  intros Hd H Hb. destruct (splice_frame b i d max H Hb) as (pre & rest & post & Hp & Hr & E & He).
  rewrite E, <- Hp. replace max with (length d + S (length rest))%nat by lia.
  unfold snprintf_append. rewrite sn_append_exact by exact Hd. rewrite Hp.
  destruct (Nat.leb_spec (length out) (length rest));
    destruct (Nat.ltb_spec (length d + length out) (length d + S (length rest))); try lia; [|reflexivity].
  rewrite He by lia. reflexivity.
Qed.

Lemma strlcat_splice b i max d src : no_nul d -> no_nul src -> (length d + length src < max)%nat -> (i + max <= length b)%nat ->
  strlcat (splice b i (d ++ [0])) (Z.of_nat i) src max = Ret (Z.of_nat (length d + length src), splice b i (d ++ src ++ [0])).
Proof.
  intros Hd Hs H Hb. destruct (splice_frame b i d max ltac:(lia) Hb) as (pre & rest & post & Hp & Hr & E & He).
  rewrite E, <- Hp. replace max with (length d + S (length rest))%nat by lia.
  rewrite strlcat_exact by assumption. rewrite Hp, He by lia. rewrite firstn_all2 by lia. reflexivity.
Qed.

Lemma strlcat_err_splice b i max d src : no_nul d -> no_nul src -> (length d < max)%nat -> (i + max <= length b)%nat ->
  strlcat_err (splice b i (d ++ [0])) (Z.of_nat i) src max =
  if (length d + length src <? max)%nat
  then Ret (Z.of_nat (length d + length src), splice b i (d ++ src ++ [0])) else Abort.
Proof.
  intros Hd Hs H Hb. destruct (splice_frame b i d max H Hb) as (pre & rest & post & Hp & Hr & E & He).
  rewrite E, <- Hp. replace max with (length d + S (length rest))%nat by lia.
  rewrite strlcat_err_exact by assumption. rewrite Hp.
  destruct (Nat.leb_spec (length src) (length rest));
    destruct (Nat.ltb_spec (length d + length src) (length d + S (length rest))); try lia; [|reflexivity].
  rewrite He by lia. reflexivity.
Qed.

(** A later write inside, or at the end of, what was written before. *)
Lemma wr_splice b i d c : (i + length d < length b)%nat ->
  wr (splice b i d) (Z.of_nat (i + length d)) c = Ret (splice b i (d ++ [c])).
Proof. intros H. rewrite wr_ok by (rewrite splice_length; lia). f_equal. apply splice_splice. cbn. lia. Qed.

Lemma splice_over b i d e : (length e <= length d)%nat -> (i + length d <= length b)%nat ->
  splice (splice b i d) i e = splice b i (e ++ skipn (length e) d).
Proof.
  intros H Hb. unfold splice at 1.
  assert (E1 : firstn i (splice b i d) = firstn i b).
  { unfold splice. rewrite firstn_app, firstn_firstn, firstn_length, Nat.min_id.
    replace (i - Nat.min i (length b))%nat with O by lia. cbn. apply app_nil_r. }
  assert (E2 : skipn (i + length e) (splice b i d) = map Some (skipn (length e) d) ++ skipn (i + length d) b).
  { unfold splice. rewrite <- skipn_skipn', skipn_app, firstn_length.
    replace (Nat.min i (length b)) with i by lia.
    rewrite (skipn_all2 (firstn i b)) by (rewrite firstn_length; lia). rewrite Nat.sub_diag. cbn [app skipn].
    rewrite skipn_app, map_length, skipn_map.
    replace (length e - length d)%nat with O by lia. reflexivity. }
  rewrite E1, E2. unfold splice. rewrite map_app, app_length, skipn_length, <- !app_assoc.
  replace (i + (length e + (length d - length e)))%nat with (i + length d)%nat by lia. reflexivity.
Qed.

Lemma holds_splice b i s : (i + length s + 1 <= length b)%nat -> holds (splice b i (s ++ [0])) i s.
Proof.
  intros H. unfold holds, splice.
  rewrite skipn_app, firstn_length, skipn_all2 by (rewrite firstn_length; lia).
  replace (i - Nat.min i (length b))%nat with O by lia. cbn [app skipn].
  rewrite firstn_app, map_length, app_length. cbn [length]. rewrite Nat.sub_diag. cbn [firstn].
  rewrite app_nil_r, map_app. apply firstn_all2. rewrite app_length, map_length. cbn. lia.
Qed.

Lemma buf_str_ok d : forall pre post b f, no_nul d -> (length d < f)%nat ->
  b = pre ++ map Some d ++ Some 0 :: post ->
  buf_str f b (Z.of_nat (length pre)) = Ret d.
Proof.
  induction d as [|c d IH]; intros pre post b f Hd Hn Hb; (destruct f as [|f]; [cbn in Hn; lia|]); cbn [buf_str].
  - rewrite (rd_nth b (length pre) 0).
    2: { subst b. rewrite nth_error_app2, Nat.sub_diag by lia. reflexivity. }
    reflexivity.
  - rewrite (rd_nth b (length pre) c).
    2: { subst b. rewrite nth_error_app2, Nat.sub_diag by lia. reflexivity. }
    cbn [obind]. assert (c <> 0) by (apply Hd; left; reflexivity). destruct (Z.eqb_spec c 0); [contradiction|].
    replace (Z.of_nat (length pre) + 1) with (Z.of_nat (length (pre ++ [Some c]))) by (rewrite app_length; cbn; lia).
    rewrite (IH (pre ++ [Some c]) post).
    + reflexivity.
    + intros x Hx. apply Hd. right. exact Hx.
    + cbn in Hn. lia.
    + rewrite <- app_assoc. exact Hb.
Qed.

(* ---------- four base-62 digits ---------- *)
Definition get4 (a b c d : Z) : Z :=
  if isalnum a && isalnum b && isalnum c && isalnum d then val62 0 [a; b; c; d] else -1.
Lemma get4_ok p a b c d r :
  get_mutant_hex_value (p ++ a :: b :: c :: d :: r) (Z.of_nat (length p)) 4 = Ret (get4 a b c d).
Proof.
  unfold get4. destruct (isalnum a && isalnum b && isalnum c && isalnum d) eqn:E.
  - apply andb_prop in E as (E & E4). apply andb_prop in E as (E & E3). apply andb_prop in E as (E1 & E2).
    assert (Hq : forall x, In x [a; b; c; d] -> isalnum x = true) by (intros x [<-|[<-|[<-|[<-|[]]]]]; assumption).
    apply (get_hex_loop_ok [a; b; c; d] p r 0); [lia|exact Hq|].
    pose proof (val62_bound [a; b; c; d] 0 ltac:(lia) Hq) as B. cbn [length] in B.
    change ((0 + 1) * 62 ^ Z.of_nat 4) with 14776336 in B. unfold IMAX. lia.
  - unfold get_mutant_hex_value. cbn [get_mutant_hex_loop].
    rewrite at_split. cbn [obind]. cbv zeta.
    destruct (hex_cases a) as [(Ea & Ha & _)|(Ea & Ha)]; [|rewrite Ha; reflexivity].
    destruct (Z.eqb_spec (mutant_hex_char_to_int a) (-1)); [lia|].
    set (va := mutant_hex_char_to_int a) in *. rewrite ev_val by (cbn; unfold fits, IMAX; lia). cbn [obind val].
    rewrite at_app by lia. rewrite at_nth by (cbn [length]; lia). change (Z.to_nat 1) with 1%nat. cbn [nth obind].
    destruct (hex_cases b) as [(Eb & Hb & _)|(Eb & Hb)]; [|rewrite Hb; reflexivity].
    destruct (Z.eqb_spec (mutant_hex_char_to_int b) (-1)); [lia|].
    set (vb := mutant_hex_char_to_int b) in *. rewrite ev_val by (cbn; unfold fits, IMAX; lia). cbn [obind val].
    rewrite <- Z.add_assoc, at_app by lia. rewrite at_nth by (cbn [length]; lia). change (Z.to_nat (1 + 1)) with 2%nat. cbn [nth obind].
    destruct (hex_cases c) as [(Ec & Hc & _)|(Ec & Hc)]; [|rewrite Hc; reflexivity].
    destruct (Z.eqb_spec (mutant_hex_char_to_int c) (-1)); [lia|].
    set (vc := mutant_hex_char_to_int c) in *. rewrite ev_val by (cbn; unfold fits, IMAX; lia). cbn [obind val].
    rewrite <- Z.add_assoc, at_app by lia. rewrite at_nth by (cbn [length]; lia). change (Z.to_nat (1 + 1 + 1)) with 3%nat. cbn [nth obind].
    destruct (hex_cases d) as [(Ed & Hd & _)|(Ed & Hd)]; [|rewrite Hd; reflexivity].
    rewrite Ea, Eb, Ec, Ed in E. discriminate.
Qed.
Lemma get4_range a b c d : -1 <= get4 a b c d < 14776336.
Proof.
  unfold get4. destruct (isalnum a && isalnum b && isalnum c && isalnum d) eqn:E; [|lia].
  apply andb_prop in E as (E & E4). apply andb_prop in E as (E & E3). apply andb_prop in E as (E1 & E2).
  assert (Hq : forall x, In x [a; b; c; d] -> isalnum x = true) by (intros x [<-|[<-|[<-|[<-|[]]]]]; assumption).
  pose proof (val62_bound [a; b; c; d] 0 ltac:(lia) Hq) as B. cbn [length] in B.
  change ((0 + 1) * 62 ^ Z.of_nat 4) with 14776336 in B.
  pose proof (val62_mono [a; b; c; d] 0 ltac:(lia) Hq). lia.
Qed.

(* ---------- provisional designations ---------- *)
Definition letter25 (n : Z) : Z := if 73 <=? 65 + n mod 25 then 65 + n mod 25 + 1 else 65 + n mod 25.

(** Return value and text (none is written for an invalid '_' form). *)
Definition prov_res (c0 c1 c2 c3 c4 c5 c6 : Z) : Z * option (list Z) :=
  if (c0 =? 95) && isupper c2 then
    let year := mutant_hex_char_to_int c1 in
    let n := get4 c3 c4 c5 c6 in
    if (year <? 0) || (n <? 0) then (-1, None)
    else (0, Some (dec (year + 2000) ++ [32; c2; letter25 n] ++ dec (620 + n / 25)))
  else if (71 <=? c0) && (c0 <=? 75) && isdigit c1 && isdigit c2 && isupper c3 && isdigit c5
          && (isalpha c6 || (c6 =? 48)) then
    let no := mutant_hex_char_to_int c4 in
    let k := no * 10 + c5 - 48 in
    (if no =? -1 then -2 else 0,
     Some ([if 75 <=? c0 then 50 else 49; 48 + (c0 - 65) mod 10; c1; c2; 32; c3]
           ++ (if isupper c6 then [c6] else []) ++ (if k =? 0 then [] else dec k)
           ++ (if islower c6 then [45; c6 + 65 - 97] else [])))
  else (-1, Some []).

Lemma some_inv (a r : Z) (x t : list Z) : (a, Some x) = (r, Some t) -> t = x.
Proof. congruence. Qed.
Lemma prov_len c0 c1 c2 c3 c4 c5 c6 r t : prov_res c0 c1 c2 c3 c4 c5 c6 = (r, Some t) -> (length t <= 13)%nat.
Proof.
  unfold prov_res. destruct ((c0 =? 95) && isupper c2).
  - pose proof (hex_range c1). pose proof (get4_range c3 c4 c5 c6).
    set (y := mutant_hex_char_to_int c1) in *. set (n := get4 c3 c4 c5 c6) in *. cbv zeta.
    destruct ((y <? 0) || (n <? 0)) eqn:E; [discriminate|]. intros X. apply some_inv in X. subst t.
    rewrite !app_length. cbn [length].
    pose proof (dec_len (y + 2000) 4 ltac:(lia) ltac:(p10; lia)).
    pose proof (dec_len (620 + n / 25) 6 ltac:(lia) ltac:(p10; lia)). lia.
  - match goal with |- (if ?x then _ else _) = _ -> _ => destruct x eqn:E end.
    + cbv zeta. intros X. apply some_inv in X. subst t. rewrite !app_length. cbn [length].
      pose proof (hex_range c4). set (no := mutant_hex_char_to_int c4) in *.
      assert (0 <= c5 - 48 <= 9) by (unfold isdigit in E; lia).
      assert (length (if Z.eqb (no * 10 + c5 - 48) 0 then [] else dec (no * 10 + c5 - 48)) <= 3)%nat.
      { destruct (Z.eqb_spec (no * 10 + c5 - 48) 0); [cbn; lia|].
        destruct (Z.ltb_spec (no * 10 + c5 - 48) 0); [|apply dec_len; [lia|p10; lia]].
        unfold dec. destruct (Z.ltb_spec (no * 10 + c5 - 48) 0); [|lia]. cbn [length].
        pose proof (digits_len 20 (- (no * 10 + c5 - 48)) 2 ltac:(lia) ltac:(p10; lia)). lia. }
      assert (isupper c6 = false \/ islower c6 = false) by (unfold isupper, islower; lia).
      destruct (isupper c6), (islower c6); cbn [length]; try lia.
    + intros X. apply some_inv in X. subst t. cbn. lia.
Qed.

Lemma no_nul_dec_any v : -10 ^ 19 < v < 10 ^ 19 -> no_nul (dec v).
Proof.
  intros H. unfold dec. destruct (Z.ltb_spec v 0).
  - apply no_nul_cons; [lia|]. intros c Hc. apply isdigit_nz.
    destruct (digits_ok 20 (- v) ltac:(lia) ltac:(lia)) as (X & _). apply X, Hc.
  - intros c Hc. apply isdigit_nz. destruct (digits_ok 20 v ltac:(lia) ltac:(lia)) as (X & _). apply X, Hc.
Qed.

Lemma prov_nonul c0 c1 c2 c3 c4 c5 c6 r t : prov_res c0 c1 c2 c3 c4 c5 c6 = (r, Some t) -> no_nul t.
Proof.
  unfold prov_res. destruct ((c0 =? 95) && isupper c2) eqn:E0.
  - pose proof (hex_range c1). pose proof (get4_range c3 c4 c5 c6).
    set (y := mutant_hex_char_to_int c1) in *. set (n := get4 c3 c4 c5 c6) in *. cbv zeta.
    destruct ((y <? 0) || (n <? 0)) eqn:E; [discriminate|]. intros X. apply some_inv in X. subst t.
    assert (c2 <> 0) by (unfold isupper in E0; lia).
    assert (letter25 n <> 0) by (unfold letter25; destruct (73 <=? 65 + n mod 25); lia).
    apply no_nul_app; [apply no_nul_dec_any; lia|].
    repeat (apply no_nul_cons; [assumption || discriminate|]). apply no_nul_dec_any; lia.
  - match goal with |- (if ?x then _ else _) = _ -> _ => destruct x eqn:E end.
    + cbv zeta. intros X. apply some_inv in X. subst t.
      pose proof (hex_range c4). set (no := mutant_hex_char_to_int c4) in *.
      repeat match type of E with (_ && _)%bool = true => let E' := fresh "E" in apply andb_prop in E as (E & E') end.
      apply no_nul_app; [|apply no_nul_app; [|apply no_nul_app]].
      * assert (c1 <> 0 /\ c2 <> 0 /\ c3 <> 0) as (? & ? & ?) by (unfold isdigit, isupper in *; lia).
        assert (48 + (c0 - 65) mod 10 <> 0) by lia.
        repeat (apply no_nul_cons; [assumption || discriminate || idtac|]); [destruct (75 <=? c0); discriminate|].
        apply no_nul_nil.
      * destruct (isupper c6) eqn:Eu; [|apply no_nul_nil]. apply no_nul_cons; [unfold isupper in Eu; lia|apply no_nul_nil].
      * assert (0 <= c5 - 48 <= 9) by (unfold isdigit in *; lia).
        destruct (Z.eqb_spec (no * 10 + c5 - 48) 0); [apply no_nul_nil|apply no_nul_dec_any; lia].
      * destruct (islower c6) eqn:Eu; [|apply no_nul_nil].
        repeat (apply no_nul_cons; [unfold islower in Eu; lia|]). apply no_nul_nil.
    + intros X. apply some_inv in X. subst t. apply no_nul_nil.
Qed.

Ltac cbs := cbn [obind oand oor andb orb negb].
Ltac rdk :=
  repeat (rewrite at_app by lia);
  repeat match goal with |- context [at_ ?s ?i] =>
    rewrite (at_nth s i) by (cbn [length]; lia);
    let n := eval vm_compute in (Z.to_nat i) in change (Z.to_nat i) with n; cbn [nth obind] end.

Lemma prov_ok b (off sz : nat) pre post c0 c1 c2 c3 c4 c5 c6 :
  (16 <= sz)%nat -> (off + sz <= length b)%nat ->
  unpack_provisional_packed_desig (Some (b, Z.of_nat off)) sz (pre ++ c0 :: c1 :: c2 :: c3 :: c4 :: c5 :: c6 :: post)
    (Z.of_nat (length pre))
  = Ret (fst (prov_res c0 c1 c2 c3 c4 c5 c6),
         Some (match snd (prov_res c0 c1 c2 c3 c4 c5 c6) with Some t => splice b off (t ++ [0]) | None => b end,
               Z.of_nat off)).
Proof.
  intros Hs Hb. pose proof (prov_len c0 c1 c2 c3 c4 c5 c6) as Hlen. pose proof (prov_nonul c0 c1 c2 c3 c4 c5 c6) as Hnul.
  unfold unpack_provisional_packed_desig.
  rewrite at_split. cbs. unfold tst. rdk.
  assert (E1 : (do x <- Ret (c0 =? 95); (if x then Ret ((65 <=? c2) && (c2 <=? 90)) else Ret false))
    = Ret ((c0 =? 95) && isupper c2)) by (cbs; destruct (c0 =? 95); reflexivity).
  cbn [obind] in E1. rewrite E1. cbs. clear E1.
  revert Hlen Hnul. unfold prov_res.
  destruct ((c0 =? 95) && isupper c2) eqn:Ext.
  - cbv zeta. pose proof (hex_range c1). pose proof (get4_range c3 c4 c5 c6).
    replace (pre ++ c0 :: c1 :: c2 :: c3 :: c4 :: c5 :: c6 :: post)
      with ((pre ++ [c0; c1; c2]) ++ c3 :: c4 :: c5 :: c6 :: post) by (rewrite <- app_assoc; reflexivity).
    replace (Z.of_nat (length pre) + 3) with (Z.of_nat (length (pre ++ [c0; c1; c2]))) by (rewrite app_length; cbn; lia).
    rewrite get4_ok. cbs.
    set (y := mutant_hex_char_to_int c1) in *. set (n := get4 c3 c4 c5 c6) in *.
    destruct ((y <? 0) || (n <? 0)) eqn:E; intros Hlen Hnul; [reflexivity|].
    specialize (Hlen _ _ eq_refl).
    replace (Z.rem n 25) with (n mod 25) by (symmetry; apply Z.rem_mod_nonneg; lia).
    replace (Z.quot n 25) with (n / 25) by (symmetry; apply Z.quot_div_nonneg; lia).
    fold (letter25 n).
    rewrite snprintf_err_splice by lia. reflexivity.
  - assert (E1 : (do x <- (do x <- (do x <- (do x <- (do x <- Ret ((71 <=? c0) && (c0 <=? 75));
        if x then Ret (isdigit c1) else Ret false); if x then Ret (isdigit c2) else Ret false);
        if x then Ret (isupper c3) else Ret false); if x then Ret (isdigit c5) else Ret false);
        if x then Ret (isalpha c6 || (c6 =? 48)) else Ret false) =
      Ret ((71 <=? c0) && (c0 <=? 75) && isdigit c1 && isdigit c2 && isupper c3 && isdigit c5
          && (isalpha c6 || (c6 =? 48)))).
    { cbs. destruct ((71 <=? c0) && (c0 <=? 75)), (isdigit c1), (isdigit c2), (isupper c3), (isdigit c5); reflexivity. }
    cbn [obind] in E1. unfold oand. cbn [obind]. rewrite E1. cbs. clear E1.
    match goal with |- context [if ?x then _ else _] => destruct x eqn:E end.
    + cbv zeta. intros Hlen Hnul. specialize (Hlen _ _ eq_refl). specialize (Hnul _ _ eq_refl).
      set (no := mutant_hex_char_to_int c4) in *.
      assert (71 <= c0 <= 75) by lia.
      assert (0 <= c5 - 48 <= 9) by (unfold isdigit in E; lia).
      assert (Hu : isupper c6 = false \/ islower c6 = false) by (unfold isupper, islower; lia).
      replace (to_char (48 + Z.rem (c0 - 65) 10)) with (48 + (c0 - 65) mod 10).
      2: { rewrite (Z.rem_mod_nonneg (c0 - 65) 10) by lia. rewrite wrap8_id by lia. reflexivity. }
      set (m := if 75 <=? c0 then 50 else 49) in *. set (ce := 48 + (c0 - 65) mod 10) in *.
      rewrite wr_ok by lia. cbs.
      assert (W : forall d k c, k = Z.of_nat (length d) -> (off + length d < length b)%nat ->
        wr (splice b off d) (Z.of_nat off + k) c = Ret (splice b off (d ++ [c]))).
      { intros d k c -> Hd. rewrite <- Nat2Z.inj_add. apply wr_splice, Hd. }
      rewrite (W [m] 1 ce eq_refl) by (cbn; lia). cbs. cbn [app].
      rewrite (W [m; ce] 2 c1 eq_refl) by (cbn; lia). cbs. cbn [app].
      rewrite (W [m; ce; c1] 3 c2 eq_refl) by (cbn; lia). cbs. cbn [app].
      rewrite (W [m; ce; c1; c2] 4 32 eq_refl) by (cbn; lia). cbs. cbn [app].
      rewrite (W [m; ce; c1; c2; 32] 5 c3 eq_refl) by (cbn; lia). cbs. cbn [app].
      set (hd := [m; ce; c1; c2; 32; c3]) in *.
      assert (Eh : (if isupper c6 then do b0 <- wr (splice b off hd) (Z.of_nat off + 6) c6; wr b0 (Z.of_nat off + 7) 0
         else wr (splice b off hd) (Z.of_nat off + 6) 0)
         = Ret (splice b off ((hd ++ if isupper c6 then [c6] else []) ++ [0]))).
      { destruct (isupper c6).
        - rewrite (W hd 6 c6 eq_refl) by (cbn; lia). cbs. rewrite (W (hd ++ [c6]) 7 0 eq_refl) by (cbn; lia). reflexivity.
        - rewrite (W hd 6 0 eq_refl) by (cbn; lia). rewrite app_nil_r. reflexivity. }
      rewrite Eh. cbs. clear Eh.
      set (u := if isupper c6 then [c6] else []) in *.
      set (k := no * 10 + c5 - 48) in *.
      set (l := if islower c6 then [45; c6 + 65 - 97] else []) in *.
      rewrite !app_length in Hlen.
      assert (Nhu : no_nul (hd ++ u)).
      { intros c Hc. apply Hnul. apply in_app_or in Hc. apply in_or_app. destruct Hc; [left|right; apply in_or_app; left]; assumption. }
      assert (Ek : (if k =? 0 then Ret (splice b off ((hd ++ u) ++ [0]))
          else do '(_, b0) <- snprintf_append (splice b off ((hd ++ u) ++ [0])) (Z.of_nat off) sz (dec k); Ret b0)
          = Ret (splice b off ((hd ++ u ++ (if k =? 0 then [] else dec k)) ++ [0]))).
      { destruct (k =? 0); [rewrite app_nil_r; reflexivity|].
        rewrite append_splice by (try assumption; rewrite ?app_length; lia).
        destruct (Nat.ltb_spec (length (hd ++ u) + length (dec k)) sz); [|rewrite app_length in *; lia].
        cbs. rewrite <- !app_assoc. reflexivity. }
      rewrite Ek. cbs. clear Ek. set (kk := if k =? 0 then [] else dec k) in *.
      assert (Nhk : no_nul (hd ++ u ++ kk)).
      { intros c Hc. apply Hnul. rewrite !in_app_iff in *. tauto. }
      assert (El : (if islower c6
           then do '(_, b0) <- snprintf_append (splice b off ((hd ++ u ++ kk) ++ [0])) (Z.of_nat off) sz [45; c6 + 65 - 97]; Ret b0
           else Ret (splice b off ((hd ++ u ++ kk) ++ [0])))
           = Ret (splice b off ((hd ++ u ++ kk ++ l) ++ [0]))).
      { unfold l in *. destruct (islower c6); [|rewrite !app_nil_r; reflexivity].
        rewrite append_splice by (try assumption; rewrite ?app_length; lia).
        destruct (Nat.ltb_spec (length (hd ++ u ++ kk) + length [45; c6 + 65 - 97]) sz); [|rewrite !app_length in *; lia].
        cbs. rewrite <- !app_assoc. reflexivity. }
      rewrite El. cbs. reflexivity.
    + intros _ _. rewrite wr_ok by lia. reflexivity.
Qed.
