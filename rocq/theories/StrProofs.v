(** Proofs about [CStr] and [StrModel]. *)
From Coq Require Import Lia ZifyBool.
From Verif Require Import CBase CLemmas CStr StrModel.

(** [b] with the bytes [s] written at offset [i]. *)
Definition splice (b : buf) (i : nat) (s : list Z) : buf :=
  firstn i b ++ map Some s ++ skipn (i + length s) b.

Lemma splice_nil b i : splice b i [] = b.
Proof. unfold splice. cbn. rewrite Nat.add_0_r. apply firstn_skipn. Qed.

Lemma splice_length b i s : (i + length s <= length b)%nat -> length (splice b i s) = length b.
Proof. intros H. unfold splice. rewrite !app_length, map_length, firstn_length, skipn_length. lia. Qed.

Lemma upd_splice b i c : (i < length b)%nat -> upd b i (Some c) = splice b i [c].
Proof.
  revert i. induction b as [|x b IH]; intros i H; [cbn in H; lia|].
  destruct i as [|i]; [reflexivity|]. cbn [upd]. rewrite IH by (cbn in H; lia). reflexivity.
Qed.

Lemma wr_ok b i c : (i < length b)%nat -> wr b (Z.of_nat i) c = Ret (splice b i [c]).
Proof.
  intros H. unfold wr, set_ub.
  destruct (Z.ltb_spec (Z.of_nat i) 0); [lia|]. destruct (Z.leb_spec (Z.of_nat (length b)) (Z.of_nat i)); [lia|].
  cbn [orb]. cbv iota. rewrite Nat2Z.id, upd_splice by exact H. reflexivity.
Qed.

Lemma wr_ub b i c : (length b <= i)%nat -> wr b (Z.of_nat i) c = UB.
Proof.
  intros H. unfold wr, set_ub.
  destruct (Z.ltb_spec (Z.of_nat i) 0); [lia|]. destruct (Z.leb_spec (Z.of_nat (length b)) (Z.of_nat i)); [|lia].
  reflexivity.
Qed.

Lemma skipn_skipn' {A} (n m : nat) (l : list A) : skipn n (skipn m l) = skipn (m + n) l.
Proof. revert l. induction m as [|m IH]; intros l; [reflexivity|]. destruct l; [cbn; now rewrite skipn_nil|]. apply IH. Qed.

Lemma splice_splice b i s t : (i + length s + length t <= length b)%nat ->
  splice (splice b i s) (i + length s) t = splice b i (s ++ t).
Proof.
  intros H. unfold splice at 1.
  assert (Hl : length (firstn i b ++ map Some s) = (i + length s)%nat).
  { rewrite app_length, firstn_length, map_length. lia. }
  assert (E1 : firstn (i + length s) (splice b i s) = firstn i b ++ map Some s).
  { unfold splice. rewrite app_assoc. rewrite <- Hl at 1. rewrite firstn_app, firstn_all, Nat.sub_diag. cbn.
    apply app_nil_r. }
  assert (E2 : skipn (i + length s) (splice b i s) = skipn (i + length s) b).
  { unfold splice. rewrite app_assoc. rewrite <- Hl at 1. rewrite skipn_app, skipn_all, Nat.sub_diag. reflexivity. }
  rewrite E1. rewrite <- skipn_skipn', E2, skipn_skipn'. unfold splice.
  rewrite map_app, app_length, <- !app_assoc, Nat.add_assoc. reflexivity.
Qed.

Lemma store_ok s : forall b i, (i + length s <= length b)%nat -> store b (Z.of_nat i) s = Ret (splice b i s).
Proof.
  induction s as [|c s IH]; intros b i H; cbn [store].
  - rewrite splice_nil. reflexivity.
  - cbn [length] in H. rewrite wr_ok by lia. cbn [obind].
    replace (Z.of_nat i + 1) with (Z.of_nat (i + 1)) by lia.
    rewrite IH by (rewrite splice_length; cbn; lia).
    change (i + 1)%nat with (i + length [c])%nat. rewrite splice_splice by (cbn; lia). reflexivity.
Qed.

(* ---------- strings ---------- *)
Lemma at_in s i d : (i < length s)%nat -> at_ s (Z.of_nat i) = Ret (nth i s d).
Proof.
  intros H. unfold at_. destruct (Z.eqb_spec (Z.of_nat i) (Z.of_nat (length s))); [lia|].
  rewrite (nth_ub_ok s (Z.of_nat i) d) by lia. rewrite Nat2Z.id. reflexivity.
Qed.
Lemma at_end s : at_ s (Z.of_nat (length s)) = Ret 0.
Proof. unfold at_. rewrite Z.eqb_refl. reflexivity. Qed.

Lemma at_app p q i : 0 <= i -> at_ (p ++ q) (Z.of_nat (length p) + i) = at_ q i.
Proof.
  intros H. unfold at_. rewrite app_length.
  destruct (Z.eqb_spec (Z.of_nat (length p) + i) (Z.of_nat (length p + length q)));
    destruct (Z.eqb_spec i (Z.of_nat (length q))); try lia; [reflexivity|].
  unfold nth_ub. destruct (Z.ltb_spec (Z.of_nat (length p) + i) 0); [lia|].
  destruct (Z.ltb_spec i 0); [lia|].
  rewrite nth_error_app2 by lia. replace (Z.to_nat (Z.of_nat (length p) + i) - length p)%nat with (Z.to_nat i) by lia.
  reflexivity.
Qed.

(** Where a string is read: the next byte and the rest. *)
Lemma at_split p c q : at_ (p ++ c :: q) (Z.of_nat (length p)) = Ret c.
Proof. rewrite <- (Z.add_0_r (Z.of_nat (length p))), at_app by lia. reflexivity. Qed.

Lemma rd_nth b i c : nth_error b i = Some (Some c) -> rd b (Z.of_nat i) = Ret c.
Proof.
  intros H. unfold rd, nth_ub. destruct (Z.ltb_spec (Z.of_nat i) 0); [lia|].
  rewrite Nat2Z.id, H. reflexivity.
Qed.

(* ---------- strlcpy ---------- *)
Lemma strlcpy_loop_ok : forall q p n b i, no_nul q -> (i + n < length b)%nat ->
  strlcpy_loop (S n) b (Z.of_nat i) (p ++ q) (Z.of_nat (length p)) =
  Ret (if (length q <? n)%nat
       then ((n - length q)%nat, splice b i (q ++ [0]), Z.of_nat (i + length q + 1), Z.of_nat (length p + length q + 1))
       else (O, splice b i (firstn n q), Z.of_nat (i + n), Z.of_nat (length p + n))).
Proof.
  induction q as [|c q IH]; intros p n b i Hn Hb.
  - destruct n as [|n].
    + cbn. rewrite splice_nil, Nat.add_0_r, Nat.add_0_r. reflexivity.
    + cbn [strlcpy_loop length]. rewrite app_nil_r, at_end. cbn [obind].
      rewrite wr_ok by lia. cbn [obind].
      change (0 =? 0) with true. cbv iota. change (0 <? S n)%nat with true. cbv iota.
      repeat (f_equal; try lia).
  - destruct n as [|n].
    + cbn. rewrite splice_nil, Nat.add_0_r, Nat.add_0_r. reflexivity.
    + cbn [strlcpy_loop]. rewrite at_split. cbn [obind]. rewrite wr_ok by lia. cbn [obind].
      assert (c <> 0) by (apply Hn; left; reflexivity).
      destruct (Z.eqb_spec c 0); [contradiction|].
      replace (Z.of_nat i + 1) with (Z.of_nat (i + 1)) by lia.
      replace (Z.of_nat (length p) + 1) with (Z.of_nat (length (p ++ [c]))) by (rewrite app_length; cbn; lia).
      replace (p ++ c :: q) with ((p ++ [c]) ++ q) by (rewrite <- app_assoc; reflexivity).
      change (match n with O => _ | S _ => _ end) with
        (strlcpy_loop (S n) (splice b i [c]) (Z.of_nat (i + 1)) ((p ++ [c]) ++ q) (Z.of_nat (length (p ++ [c])))).
      rewrite IH; [|intros x Hx; apply Hn; right; exact Hx|rewrite splice_length; cbn; lia].
      cbn [length]. f_equal. rewrite app_length. cbn [length].
      destruct (Nat.ltb_spec (length q) n) as [Hlt|Hge]; destruct (Nat.ltb_spec (S (length q)) (S n)); try lia.
      * change (i + 1)%nat with (i + length [c])%nat. rewrite splice_splice by (rewrite app_length; cbn; lia).
        cbn [app length]. repeat (f_equal; try lia).
      * change (i + 1)%nat with (i + length [c])%nat. rewrite splice_splice by (rewrite firstn_length; cbn; lia).
        cbn [app firstn length]. repeat (f_equal; try lia).
Qed.

Lemma skip_string_ok q : forall p f, no_nul q -> (length q < f)%nat ->
  skip_string f (p ++ q) (Z.of_nat (length p)) = Ret (Z.of_nat (length (p ++ q)) + 1).
Proof.
  induction q as [|c q IH]; intros p f Hn Hf; (destruct f as [|f]; [cbn in Hf; lia|]); cbn [skip_string].
  - rewrite app_nil_r, at_end. reflexivity.
  - rewrite at_split. cbn [obind]. assert (c <> 0) by (apply Hn; left; reflexivity).
    destruct (Z.eqb_spec c 0); [contradiction|].
    replace (Z.of_nat (length p) + 1) with (Z.of_nat (length (p ++ [c]))) by (rewrite app_length; cbn; lia).
    replace (p ++ c :: q) with ((p ++ [c]) ++ q) by (rewrite <- app_assoc; reflexivity).
    apply IH; [intros x Hx; apply Hn; right; exact Hx|cbn in Hf; lia].
Qed.

(** The bytes [strlcpy] leaves. *)
Lemma strlcpy_ok b i src n : no_nul src -> (i + n <= length b)%nat ->
  strlcpy b (Z.of_nat i) src n =
  Ret (Z.of_nat (length src),
       match n with O => b | S m => splice b i (firstn m src ++ [0]) end).
Proof.
  intros Hn Hb. unfold strlcpy. destruct n as [|n].
  - cbn [obind]. change 0 with (Z.of_nat (@length Z [])).
    change (Ret b) with (@Ret buf b).
    replace src with ([] ++ src) at 2 by reflexivity.
    rewrite (skip_string_ok src []) by (try assumption; lia). cbn [obind app length]. f_equal. f_equal. lia.
  - replace (strlcpy_loop (S n) b (Z.of_nat i) src 0) with
      (strlcpy_loop (S n) b (Z.of_nat i) ([] ++ src) (Z.of_nat (@length Z []))) by reflexivity.
    rewrite strlcpy_loop_ok by (try assumption; lia). cbn [obind length].
    destruct (Nat.ltb_spec (length src) n) as [Hlt|Hge]; cbn [obind].
    + rewrite firstn_all2 by lia.
      destruct (n - length src)%nat as [|k] eqn:Ek; [lia|]. cbn [obind]. f_equal. f_equal. lia.
    + rewrite wr_ok by (rewrite splice_length; rewrite ?firstn_length; lia). cbn [obind].
      replace (splice (splice b i (firstn n src)) (i + n) [0]) with (splice b i (firstn n src ++ [0])).
      2: { rewrite <- splice_splice by (rewrite firstn_length; cbn; lia). rewrite firstn_length. f_equal. lia. }
      replace src with (firstn n src ++ skipn n src) at 2 by apply firstn_skipn.
      replace (Z.of_nat (0 + n)) with (Z.of_nat (length (firstn n src))) by (rewrite firstn_length; lia).
      rewrite skip_string_ok; [|intros x Hx; apply Hn; rewrite <- (firstn_skipn n); apply in_or_app; right; exact Hx
        |rewrite skipn_length; lia].
      cbn [obind]. rewrite firstn_skipn. f_equal. f_equal. lia.
Qed.

(* ---------- strlcat ---------- *)
Lemma find_end_stop d : forall pre post b n, no_nul d -> (length d < n)%nat ->
  b = pre ++ map Some d ++ Some 0 :: post ->
  find_end n b (Z.of_nat (length pre)) = Ret (Z.of_nat (length pre + length d)).
Proof.
  induction d as [|c d IH]; intros pre post b n Hd Hn Hb; (destruct n as [|n]; [cbn in Hn; lia|]); cbn [find_end].
  - rewrite (rd_nth b (length pre) 0).
    2: { subst b. rewrite nth_error_app2, Nat.sub_diag by lia. reflexivity. }
    cbn. f_equal. lia.
  - rewrite (rd_nth b (length pre) c).
    2: { subst b. rewrite nth_error_app2, Nat.sub_diag by lia. reflexivity. }
    cbn [obind]. assert (c <> 0) by (apply Hd; left; reflexivity). destruct (Z.eqb_spec c 0); [contradiction|].
    replace (Z.of_nat (length pre) + 1) with (Z.of_nat (length (pre ++ [Some c]))) by (rewrite app_length; cbn; lia).
    rewrite (IH (pre ++ [Some c]) post).
    + rewrite app_length. cbn [length]. f_equal. lia.
    + intros x Hx. apply Hd. right. exact Hx.
    + cbn in Hn. lia.
    + rewrite <- app_assoc. exact Hb.
Qed.

Lemma find_end_all d : forall pre post b, no_nul d -> b = pre ++ map Some d ++ post ->
  find_end (length d) b (Z.of_nat (length pre)) = Ret (Z.of_nat (length pre + length d)).
Proof.
  induction d as [|c d IH]; intros pre post b Hd Hb; cbn [find_end length].
  - f_equal. lia.
  - rewrite (rd_nth b (length pre) c).
    2: { subst b. rewrite nth_error_app2, Nat.sub_diag by lia. reflexivity. }
    cbn [obind]. assert (c <> 0) by (apply Hd; left; reflexivity). destruct (Z.eqb_spec c 0); [contradiction|].
    replace (Z.of_nat (length pre) + 1) with (Z.of_nat (length (pre ++ [Some c]))) by (rewrite app_length; cbn; lia).
    rewrite (IH (pre ++ [Some c]) post).
    + rewrite app_length. cbn [length]. f_equal. lia.
    + intros x Hx. apply Hd. right. exact Hx.
    + rewrite <- app_assoc. exact Hb.
Qed.

Lemma strlcat_loop_ok q : forall p n b i f, no_nul q -> (length q < f)%nat -> (i + n < length b)%nat ->
  strlcat_loop f n b (Z.of_nat i) (p ++ q) (Z.of_nat (length p)) =
  Ret (splice b i (firstn n q), Z.of_nat (i + length (firstn n q)), Z.of_nat (length (p ++ q))).
Proof.
  induction q as [|c q IH]; intros p n b i f Hq Hf Hb; (destruct f as [|f]; [cbn in Hf; lia|]); cbn [strlcat_loop].
  - rewrite app_nil_r, at_end. cbn. rewrite firstn_nil, splice_nil. cbn. rewrite Nat.add_0_r. reflexivity.
  - rewrite at_split. cbn [obind]. assert (c <> 0) by (apply Hq; left; reflexivity).
    destruct (Z.eqb_spec c 0); [contradiction|].
    replace (Z.of_nat (length p) + 1) with (Z.of_nat (length (p ++ [c]))) by (rewrite app_length; cbn; lia).
    replace (p ++ c :: q) with ((p ++ [c]) ++ q) by (rewrite <- app_assoc; reflexivity).
    assert (Hq' : no_nul q) by (intros x Hx; apply Hq; right; exact Hx).
    cbn [length] in Hf.
    destruct n as [|n].
    + rewrite IH by (try assumption; lia). reflexivity.
    + rewrite wr_ok by lia. cbn [obind].
      replace (Z.of_nat i + 1) with (Z.of_nat (i + 1)) by lia.
      rewrite IH by (try assumption; rewrite ?splice_length; cbn; lia).
      change (i + 1)%nat with (i + length [c])%nat.
      rewrite splice_splice by (rewrite firstn_length; cbn; lia).
      cbn [app firstn length]. repeat (f_equal; try lia).
Qed.

Lemma splice_at pre (d : buf) post s : (length s <= length d)%nat ->
  splice (pre ++ d ++ post) (length pre) s = pre ++ (map Some s ++ skipn (length s) d) ++ post.
Proof.
  intros H. unfold splice.
  rewrite firstn_app, firstn_all, Nat.sub_diag, firstn_O, app_nil_r.
  rewrite <- skipn_skipn'. rewrite skipn_app, skipn_all, Nat.sub_diag. cbn [app skipn].
  rewrite skipn_app. replace (length s - length d)%nat with O by lia. cbn [skipn].
  rewrite <- app_assoc. reflexivity.
Qed.

Lemma firstn_min {A} k (l : list A) : firstn (Nat.min k (length l)) l = firstn k l.
Proof.
  destruct (Nat.leb_spec k (length l)); [f_equal; lia|].
  rewrite !firstn_all2 by lia. reflexivity.
Qed.

(** The destination of strlcpy between what is before and after it. *)
Lemma strlcpy_exact pre (dst : buf) post src m : no_nul src -> length dst = S m ->
  strlcpy (pre ++ dst ++ post) (Z.of_nat (length pre)) src (length dst) =
  Ret (Z.of_nat (length src),
       pre ++ (map Some (firstn m src) ++ Some 0 :: skipn (S (length (firstn m src))) dst) ++ post).
Proof.
  intros Hs Hm. rewrite strlcpy_ok by (try assumption; rewrite !app_length; lia).
  rewrite Hm. rewrite splice_at by (rewrite app_length, firstn_length; cbn; lia).
  rewrite map_app, app_length. cbn [map app length]. rewrite Nat.add_1_r, <- !app_assoc. cbn [app]. reflexivity.
Qed.

Lemma strlcat_exact pre d (rest : buf) post src : no_nul d -> no_nul src ->
  strlcat (pre ++ (map Some d ++ Some 0 :: rest) ++ post) (Z.of_nat (length pre)) src (length d + S (length rest)) =
  Ret (Z.of_nat (length d + length src),
       pre ++ (map Some d ++ map Some (firstn (length rest) src) ++ Some 0 :: skipn (length (firstn (length rest) src)) rest) ++ post).
Proof.
  intros Hd Hs. unfold strlcat.
  rewrite (find_end_stop d pre (rest ++ post)) by (try assumption; try lia; rewrite <- app_assoc; reflexivity).
  cbn [obind]. cbv zeta.
  replace (Z.of_nat (length pre + length d) - Z.of_nat (length pre)) with (Z.of_nat (length d)) by lia.
  rewrite Nat2Z.id. replace (length d + S (length rest) - length d)%nat with (S (length rest)) by lia.
  set (b := pre ++ _ ++ _).
  assert (Hb : length b = (length pre + length d + S (length rest) + length post)%nat).
  { subst b. rewrite !app_length, map_length. cbn [length]. lia. }
  replace (strlcat_loop (S (length src)) (length rest) b (Z.of_nat (length pre + length d)) src 0) with
    (strlcat_loop (S (length src)) (length rest) b (Z.of_nat (length pre + length d)) ([] ++ src) (Z.of_nat (@length Z []))) by reflexivity.
  rewrite strlcat_loop_ok by (try assumption; lia).
  cbn [obind app].
  rewrite wr_ok by (rewrite splice_length; rewrite ?firstn_length; lia).
  cbn [obind]. rewrite splice_splice by (rewrite firstn_length; cbn; lia).
  f_equal. f_equal; [lia|].
  replace b with ((pre ++ map Some d) ++ (Some 0 :: rest) ++ post) by (subst b; rewrite <- !app_assoc; reflexivity).
  replace (length pre + length d)%nat with (length (pre ++ map Some d)) by (rewrite app_length, map_length; reflexivity).
  rewrite splice_at by (rewrite app_length, firstn_length; cbn; lia).
  rewrite map_app, app_length, <- !app_assoc. cbn [map app length]. rewrite Nat.add_1_r. cbn [skipn]. reflexivity.
Qed.

Lemma strlcat_full pre d post src : no_nul d ->
  strlcat (pre ++ map Some d ++ post) (Z.of_nat (length pre)) src (length d) =
  Ret (Z.of_nat (length d + length src), pre ++ map Some d ++ post).
Proof.
  intros Hd. unfold strlcat. rewrite (find_end_all d pre post) by (try assumption; reflexivity).
  cbn [obind]. cbv zeta.
  replace (Z.of_nat (length pre + length d) - Z.of_nat (length pre)) with (Z.of_nat (length d)) by lia.
  rewrite Nat2Z.id, Nat.sub_diag. f_equal. f_equal. lia.
Qed.

(* ---------- formatted output ---------- *)
Lemma buf_len_ok d : forall pre post b f, no_nul d -> (length d < f)%nat ->
  b = pre ++ map Some d ++ Some 0 :: post ->
  buf_len f b (Z.of_nat (length pre)) = Ret (Z.of_nat (length d)).
Proof.
  induction d as [|c d IH]; intros pre post b f Hd Hn Hb; (destruct f as [|f]; [cbn in Hn; lia|]); cbn [buf_len].
  - rewrite (rd_nth b (length pre) 0).
    2: { subst b. rewrite nth_error_app2, Nat.sub_diag by lia. reflexivity. }
    reflexivity.
  - rewrite (rd_nth b (length pre) c).
    2: { subst b. rewrite nth_error_app2, Nat.sub_diag by lia. reflexivity. }
    cbn [obind]. assert (c <> 0) by (apply Hd; left; reflexivity). destruct (Z.eqb_spec c 0); [contradiction|].
    replace (Z.of_nat (length pre) + 1) with (Z.of_nat (length (pre ++ [Some c]))) by (rewrite app_length; cbn; lia).
    rewrite (IH (pre ++ [Some c]) post).
    + cbn. f_equal. lia.
    + intros x Hx. apply Hd. right. exact Hx.
    + cbn in Hn. lia.
    + rewrite <- app_assoc. exact Hb.
Qed.

Lemma vsnprintf_ok b i max out : (i + max <= length b)%nat ->
  vsnprintf b (Z.of_nat i) max out =
  Ret (Z.of_nat (length out), match max with O => b | S m => splice b i (firstn m out ++ [0]) end).
Proof.
  intros H. unfold vsnprintf. destruct max as [|m]; [reflexivity|].
  rewrite store_ok by (rewrite app_length, firstn_length; cbn; lia). reflexivity.
Qed.

Lemma vsnprintf_exact pre (dst : buf) post out m : length dst = S m ->
  vsnprintf (pre ++ dst ++ post) (Z.of_nat (length pre)) (length dst) out =
  Ret (Z.of_nat (length out),
       pre ++ (map Some (firstn m out) ++ Some 0 :: skipn (S (length (firstn m out))) dst) ++ post).
Proof.
  intros Hm. rewrite vsnprintf_ok by (rewrite !app_length; lia).
  rewrite Hm. rewrite splice_at by (rewrite app_length, firstn_length; cbn; lia).
  rewrite map_app, app_length. cbn [map app length]. rewrite Nat.add_1_r, <- !app_assoc. cbn [app]. reflexivity.
Qed.

Lemma snprintf_err_exact pre (dst : buf) post out :
  snprintf_err (pre ++ dst ++ post) (Z.of_nat (length pre)) (length dst) out =
  if (length out <? length dst)%nat
  then Ret (Z.of_nat (length out), pre ++ (map Some out ++ Some 0 :: skipn (S (length out)) dst) ++ post)
  else Abort.
Proof.
  unfold snprintf_err. destruct (length dst) as [|m] eqn:Hm.
  - cbn. destruct (Z.leb_spec 0 (Z.of_nat (length out))); [|lia]. destruct (length out); reflexivity.
  - rewrite <- Hm at 1. rewrite (vsnprintf_exact pre dst post out m Hm). cbn [obind].
    destruct (Nat.ltb_spec (length out) (S m)); destruct (Z.leb_spec (Z.of_nat (S m)) (Z.of_nat (length out))); try lia.
    + rewrite firstn_all2 by lia. reflexivity.
    + reflexivity.
Qed.

Lemma strlcpy_err_exact pre (dst : buf) post src : no_nul src ->
  strlcpy_err (pre ++ dst ++ post) (Z.of_nat (length pre)) src (length dst) =
  if (length src <? length dst)%nat
  then Ret (Z.of_nat (length src), pre ++ (map Some src ++ Some 0 :: skipn (S (length src)) dst) ++ post)
  else Abort.
Proof.
  intros Hs. unfold strlcpy_err. destruct (length dst) as [|m] eqn:Hm.
  - rewrite strlcpy_ok by (try assumption; rewrite !app_length; lia). cbn [obind].
    destruct (Z.leb_spec (Z.of_nat 0) (Z.of_nat (length src))); [|lia]. destruct (length src); reflexivity.
  - rewrite <- Hm at 1. rewrite (strlcpy_exact pre dst post src m Hs Hm). cbn [obind].
    destruct (Nat.ltb_spec (length src) (S m)); destruct (Z.leb_spec (Z.of_nat (S m)) (Z.of_nat (length src))); try lia.
    + rewrite firstn_all2 by lia. reflexivity.
    + reflexivity.
Qed.

Lemma strlcat_err_exact pre d (rest : buf) post src : no_nul d -> no_nul src ->
  strlcat_err (pre ++ (map Some d ++ Some 0 :: rest) ++ post) (Z.of_nat (length pre)) src (length d + S (length rest)) =
  if (length src <=? length rest)%nat
  then Ret (Z.of_nat (length d + length src),
            pre ++ (map Some d ++ map Some src ++ Some 0 :: skipn (length src) rest) ++ post)
  else Abort.
Proof.
  intros Hd Hs. unfold strlcat_err. rewrite strlcat_exact by assumption. cbn [obind].
  destruct (Nat.leb_spec (length src) (length rest));
    destruct (Z.leb_spec (Z.of_nat (length d + S (length rest))) (Z.of_nat (length d + length src))); try lia.
  - rewrite firstn_all2 by lia. reflexivity.
  - reflexivity.
Qed.

Lemma sn_append_exact nt pre d (rest : buf) post out : no_nul d ->
  sn_append nt (pre ++ (map Some d ++ Some 0 :: rest) ++ post) (Z.of_nat (length pre)) (length d + S (length rest)) out =
  if (length out <=? length rest)%nat
  then Ret (Z.of_nat (length d + length out),
            pre ++ (map Some d ++ map Some out ++ Some 0 :: skipn (length out) rest) ++ post)
  else if nt then Abort
  else Ret (Z.of_nat (length d + length out),
            pre ++ (map Some d ++ map Some (firstn (length rest) out) ++ [Some 0]) ++ post).
Proof.
  intros Hd. unfold sn_append. set (b := pre ++ _ ++ _).
  assert (Hb : length b = (length pre + length d + S (length rest) + length post)%nat).
  { subst b. rewrite !app_length, map_length. cbn [length]. lia. }
  rewrite (buf_len_ok d pre (rest ++ post)) by (try assumption; try lia; subst b; rewrite <- !app_assoc; reflexivity).
  cbn [obind].
  destruct (Z.leb_spec (Z.of_nat (length d)) (Z.of_nat (length d + S (length rest)))); [|lia]. cbn [negb].
  replace (Z.of_nat (length pre) + Z.of_nat (length d)) with (Z.of_nat (length (pre ++ map Some d)))
    by (rewrite app_length, map_length; lia).
  rewrite Nat2Z.id. replace (length d + S (length rest) - length d)%nat with (length (Some 0 :: rest)) by (cbn; lia).
  replace b with ((pre ++ map Some d) ++ (Some 0 :: rest) ++ post) by (subst b; rewrite <- !app_assoc; reflexivity).
  rewrite (vsnprintf_exact _ (Some 0 :: rest) post out (length rest)) by reflexivity.
  cbn [obind skipn].
  destruct (Z.leb_spec (Z.of_nat (length d + S (length rest))) (Z.of_nat (length out) + Z.of_nat (length d)));
    destruct (Nat.leb_spec (length out) (length rest)); try lia; cbn [andb].
  - destruct nt; [reflexivity|]. rewrite skipn_all2 by (rewrite firstn_length; lia).
    rewrite <- !app_assoc. cbn [app]. f_equal. f_equal. lia.
  - rewrite firstn_all2 by lia. rewrite <- !app_assoc. cbn [app]. f_equal. f_equal. lia.
Qed.
