(** full_ctimel( )'s buffer operations. *)
From Coq Require Import Lia QArith Qround Lqa.
From Verif Require Import CBase CLemmas CStr StrModel StrProofs CtimeModel CtimeSpec.
Local Open Scope list_scope.
Local Open Scope Z_scope.

(** The caller's buffer holds s in its first n bytes, post following. *)
Definition hold (n : nat) (b : buf) (s : list Z) (post : buf) : Prop :=
  no_nul s /\ exists rest, b = map Some s ++ Some 0 :: rest ++ post /\ (List.length s + 1 + List.length rest = n)%nat.

Lemma no_nul_app s t : no_nul s -> no_nul t -> no_nul (s ++ t).
Proof. intros A B c H. apply in_app_or in H. destruct H; [now apply A|now apply B]. Qed.

Lemma append_ok n b s post out : hold n b s post -> no_nul out -> (List.length (s ++ out) < n)%nat ->
  exists r b', snprintf_append b 0 n out = Ret (r, b') /\ hold n b' (s ++ out) post.
Proof.
  intros (Hs & rest & -> & Hl) Ho Hn. rewrite app_length in Hn.
  pose proof (sn_append_exact true [] s rest post out Hs) as E.
  change (Z.of_nat (List.length (@nil (option Z)))) with 0 in E. cbn [app] in E.
  replace (List.length s + S (List.length rest))%nat with n in E by lia.
  destruct (Nat.leb_spec (List.length out) (List.length rest)) as [H|H]; [|lia].
  rewrite <- !app_assoc in E. cbn [app] in E. unfold snprintf_append. rewrite E. eexists. eexists. split; [reflexivity|].
  split; [now apply no_nul_app|]. exists (skipn (List.length out) rest). rewrite map_app, <- !app_assoc. cbn [app].
  split; [reflexivity|]. rewrite app_length, skipn_length. lia.
Qed.
Lemma cat_ok n b s post out : hold n b s post -> no_nul out -> (List.length (s ++ out) < n)%nat ->
  exists r b', strlcat_err b 0 out n = Ret (r, b') /\ hold n b' (s ++ out) post.
Proof.
  intros (Hs & rest & -> & Hl) Ho Hn. rewrite app_length in Hn.
  pose proof (strlcat_err_exact [] s rest post out Hs Ho) as E.
  change (Z.of_nat (List.length (@nil (option Z)))) with 0 in E. cbn [app] in E.
  replace (List.length s + S (List.length rest))%nat with n in E by lia.
  destruct (Nat.leb_spec (List.length out) (List.length rest)) as [H|H]; [|lia].
  rewrite <- !app_assoc in E. cbn [app] in E. rewrite E. eexists. eexists. split; [reflexivity|].
  split; [now apply no_nul_app|]. exists (skipn (List.length out) rest). rewrite map_app, <- !app_assoc. cbn [app].
  split; [reflexivity|]. rewrite app_length, skipn_length. lia.
Qed.
Lemma err_ok n (room post : buf) out : List.length room = n -> no_nul out -> (List.length out < n)%nat ->
  exists r b', snprintf_err (room ++ post) 0 n out = Ret (r, b') /\ hold n b' out post.
Proof.
  intros Hr Ho Hn. pose proof (snprintf_err_exact [] room post out) as E.
  change (Z.of_nat (List.length (@nil (option Z)))) with 0 in E. cbn [app] in E. rewrite Hr in E.
  destruct (Nat.ltb_spec (List.length out) n) as [H|H]; [|lia]. rewrite E. eexists. eexists. split; [reflexivity|].
  split; [exact Ho|]. exists (skipn (S (List.length out)) room). rewrite <- app_assoc. cbn [app]. split; [reflexivity|].
  rewrite skipn_length. lia.
Qed.
Lemma len_ok n b s post : hold n b s post -> buf_len (S (List.length b)) b 0 = Ret (Z.of_nat (List.length s)).
Proof.
  intros (Hs & rest & -> & Hl). apply (buf_len_ok s [] (rest ++ post)); [exact Hs| |reflexivity].
  rewrite app_length, map_length. cbn [List.length]. lia.
Qed.
Lemma buf_str_ok d : forall pre post b f, no_nul d -> (List.length d < f)%nat -> b = pre ++ map Some d ++ Some 0 :: post ->
  buf_str f b (Z.of_nat (List.length pre)) = Ret d.
Proof.
  induction d as [|c d IH]; intros pre post b f Hd Hn Hb; (destruct f as [|f]; [cbn in Hn; lia|]); cbn [buf_str].
  - rewrite (rd_nth b (List.length pre) 0).
    2: { subst b. rewrite nth_error_app2, Nat.sub_diag by lia. reflexivity. }
    reflexivity.
  - rewrite (rd_nth b (List.length pre) c).
    2: { subst b. rewrite nth_error_app2, Nat.sub_diag by lia. reflexivity. }
    cbn [obind]. assert (c <> 0) by (apply Hd; left; reflexivity). destruct (Z.eqb_spec c 0); [contradiction|].
    replace (Z.of_nat (List.length pre) + 1) with (Z.of_nat (List.length (pre ++ [Some c]))) by (rewrite app_length; cbn; lia).
    rewrite (IH (pre ++ [Some c]) post).
    + reflexivity.
    + intros x Hx. apply Hd. right. exact Hx.
    + cbn in Hn. lia.
    + subst b. rewrite <- app_assoc. reflexivity.
Qed.

(** A byte of the string is replaced. *)
Lemma wr_hold n b p c q post x : hold n b (p ++ c :: q) post -> x <> 0 ->
  rd b (Z.of_nat (List.length p)) = Ret c /\
  exists b', wr b (Z.of_nat (List.length p)) x = Ret b' /\ hold n b' (p ++ x :: q) post.
Proof.
  intros (Hs & rest & -> & Hl) Hx. rewrite map_app in *. cbn [map] in *.
  set (tl := map Some q ++ Some 0 :: rest ++ post).
  assert (E : (map Some p ++ Some c :: map Some q) ++ Some 0 :: rest ++ post = map Some p ++ [Some c] ++ tl)
    by (rewrite <- app_assoc; reflexivity).
  rewrite E. clear E. split.
  - apply rd_nth. rewrite nth_error_app2 by (rewrite map_length; lia). rewrite map_length, Nat.sub_diag. reflexivity.
  - rewrite wr_ok by (rewrite !app_length, map_length; cbn; lia).
    rewrite <- (map_length Some p). rewrite splice_at by (cbn; lia). cbn [map List.length skipn app].
    eexists. split; [reflexivity|]. split.
    + intros y Hy. apply in_app_or in Hy. destruct Hy as [Hy|[<-|Hy]].
      * apply Hs. apply in_or_app. now left.
      * exact Hx.
      * apply Hs. apply in_or_app. right. now right.
    + exists rest. split.
      * rewrite map_app. cbn [map]. unfold tl. now rewrite <- app_assoc.
      * rewrite app_length in *. cbn [List.length] in *. lia.
Qed.

(* ---------- decimals ---------- *)
Lemma ndig_length p : forall v, List.length (ndig p v) = p.
Proof. induction p as [|p IH]; intros v; [reflexivity|]. cbn [ndig List.length]. now rewrite IH. Qed.
Lemma ndig_digit p : forall v c, In c (ndig p v) -> isdigit c = true.
Proof.
  induction p as [|p IH]; intros v c H; [destruct H|]. cbn [ndig] in H. destruct H as [<-|H]; [|apply (IH v), H].
  pose proof (Z.mod_pos_bound (v / 10 ^ Z.of_nat p) 10 ltac:(lia)). unfold isdigit. lia.
Qed.
Lemma digit_no_nul s : (forall c, In c s -> isdigit c = true) -> no_nul s.
Proof. intros H c Hc E. subst c. specialize (H 0 Hc). discriminate H. Qed.
Lemma ndig_mod p : forall v, ndig p v = ndig p (v mod 10 ^ Z.of_nat p).
Proof.
  assert (G : forall p q v, (p <= q)%nat -> ndig p v = ndig p (v mod 10 ^ Z.of_nat q)).
  { clear p. induction p as [|p IH]; intros q v Hq; [reflexivity|]. cbn [ndig]. f_equal; [|apply IH; lia].
    f_equal.
    assert (Hp : 0 < 10 ^ Z.of_nat p) by (apply Z.pow_pos_nonneg; lia).
    assert (Hr : 0 < 10 ^ Z.of_nat (q - S p)) by (apply Z.pow_pos_nonneg; lia).
    assert (E : 10 ^ Z.of_nat q = 10 ^ Z.of_nat p * (10 * 10 ^ Z.of_nat (q - S p))).
    { rewrite <- Z.pow_succ_r, <- Z.pow_add_r by lia. f_equal. lia. }
    rewrite E. rewrite Z.rem_mul_r by lia. rewrite (Z.mul_comm (10 ^ Z.of_nat p) (_ mod _)).
    rewrite Z.div_add by lia. rewrite (Z.div_small (v mod 10 ^ Z.of_nat p)) by (apply Z.mod_pos_bound; lia).
    rewrite Z.add_0_l. rewrite Z.rem_mul_r by lia. rewrite (Z.mul_comm 10). rewrite Z.mod_add by lia. now rewrite Z.mod_mod by lia. }
  intros v. now apply G.
Qed.

Fixpoint sd (p : nat) (r : Q) : list Z :=
  match p with O => [] | S n => 48 + Qfloor (r * 10) :: sd n (r * 10 - inject_Z (Qfloor (r * 10)))%Q end.
Lemma floor_bounds q : (inject_Z (Qfloor q) <= q)%Q /\ (q < inject_Z (Qfloor q) + 1)%Q.
Proof.
  split; [apply Qfloor_le|]. pose proof (Qlt_floor q) as H. rewrite inject_Z_plus in H. exact H.
Qed.
Lemma floor_intro q z : (inject_Z z <= q)%Q -> (q < inject_Z z + 1)%Q -> Qfloor q = z.
Proof.
  intros A B. pose proof (floor_bounds q) as [C D].
  assert (inject_Z z < inject_Z (Qfloor q) + 1)%Q by (eapply Qle_lt_trans; eassumption).
  assert (inject_Z (Qfloor q) < inject_Z z + 1)%Q by (eapply Qle_lt_trans; eassumption).
  change 1%Q with (inject_Z 1) in *. rewrite <- inject_Z_plus in *. rewrite <- Zlt_Qlt in *. lia.
Qed.
Lemma floor_unit r : (0 <= r)%Q -> (r < 1)%Q -> Qfloor r = 0.
Proof. intros A B. apply floor_intro; [exact A|]. now rewrite Qplus_0_l. Qed.

Lemma floor_scale r M : (0 <= r)%Q -> (r < 1)%Q -> 0 < M -> 0 <= Qfloor (r * inject_Z M) < M.
Proof.
  intros A B HM. pose proof (floor_bounds (r * inject_Z M)) as [C D].
  assert (0 < inject_Z M)%Q by (change 0%Q with (inject_Z 0); now rewrite <- Zlt_Qlt).
  assert (0 <= r * inject_Z M)%Q by (apply Qmult_le_0_compat; [exact A|now apply Qlt_le_weak]).
  assert (r * inject_Z M < inject_Z M)%Q.
  { rewrite <- (Qmult_1_l (inject_Z M)) at 2. now apply Qmult_lt_compat_r. }
  assert (0 < inject_Z (Qfloor (r * inject_Z M)) + 1)%Q by (eapply Qle_lt_trans; eassumption).
  assert (inject_Z (Qfloor (r * inject_Z M)) < inject_Z M)%Q by (eapply Qle_lt_trans; eassumption).
  change 1%Q with (inject_Z 1) in *. change 0%Q with (inject_Z 0) in *. rewrite <- inject_Z_plus in *. rewrite <- Zlt_Qlt in *. lia.
Qed.
(** Scaling in two steps. *)
Lemma floor_two r A M : (0 <= r)%Q -> 0 < A -> 0 < M ->
  Qfloor (r * inject_Z (A * M)) / M = Qfloor (r * inject_Z A) /\
  Qfloor (r * inject_Z (A * M)) mod M = Qfloor ((r * inject_Z A - inject_Z (Qfloor (r * inject_Z A))) * inject_Z M).
Proof.
  intros Hr HA HM. set (x := (r * inject_Z A)%Q). set (f := Qfloor x).
  assert (E : (r * inject_Z (A * M) == inject_Z (f * M) + (x - inject_Z f) * inject_Z M)%Q).
  { rewrite !inject_Z_mult. unfold x. ring. }
  rewrite E. clear E.
  pose proof (floor_bounds x) as [B C]. fold f in B, C.
  assert (B' : (0 <= x - inject_Z f)%Q) by lra.
  assert (C' : (x - inject_Z f < 1)%Q) by lra.
  set (g := Qfloor ((x - inject_Z f) * inject_Z M)).
  pose proof (floor_scale _ M B' C' HM) as G. fold g in G.
  pose proof (floor_bounds ((x - inject_Z f) * inject_Z M)) as [D F]. fold g in D, F.
  assert (E : Qfloor (inject_Z (f * M) + (x - inject_Z f) * inject_Z M) = f * M + g).
  { apply floor_intro; rewrite inject_Z_plus.
    - apply Qplus_le_r, D.
    - rewrite <- Qplus_assoc. apply Qplus_lt_r, F. }
  rewrite E. rewrite (Z.add_comm (f * M)). rewrite Z.div_add, Z.mod_add by lia. rewrite Z.div_small, Z.mod_small by lia. split; reflexivity.
Qed.
Lemma sd_ndig p : forall r, (0 <= r)%Q -> (r < 1)%Q -> sd p r = ndig p (Qfloor (r * inject_Z (10 ^ Z.of_nat p))).
Proof.
  induction p as [|p IH]; intros r A B; [reflexivity|]. cbn [sd ndig].
  rewrite Nat2Z.inj_succ, Z.pow_succ_r by lia.
  assert (Hp : 0 < 10 ^ Z.of_nat p) by (apply Z.pow_pos_nonneg; lia).
  destruct (floor_two r 10 (10 ^ Z.of_nat p) A ltac:(lia) Hp) as [E F]. change (inject_Z 10) with 10%Q in *.
  rewrite E. pose proof (floor_scale r 10 A B ltac:(lia)) as G. change (inject_Z 10) with 10%Q in *.
  rewrite (Z.mod_small (Qfloor (r * 10)) 10) by lia. f_equal. rewrite (ndig_mod p (Qfloor (r * _))), F.
  pose proof (floor_bounds (r * 10)) as [C D]. apply IH.
  - lra.
  - lra.
Qed.

Lemma sd_step r : (0 <= r)%Q -> (r < 1)%Q ->
  0 <= Qfloor (r * 10) <= 9 /\ (0 <= r * 10 - inject_Z (Qfloor (r * 10)))%Q /\ (r * 10 - inject_Z (Qfloor (r * 10)) < 1)%Q.
Proof.
  intros A B. pose proof (floor_scale r 10 A B ltac:(lia)) as G. change (inject_Z 10) with 10%Q in G.
  pose proof (floor_bounds (r * 10)) as [C D]. split; [lia|]. split.
  - lra.
  - lra.
Qed.
Lemma to_char_digit d : 0 <= d <= 9 -> to_char (48 + d) = 48 + d.
Proof. intros H. unfold to_char, wrap. assert (C : d = 0 \/ d = 1 \/ d = 2 \/ d = 3 \/ d = 4 \/ d = 5 \/ d = 6 \/ d = 7 \/ d = 8 \/ d = 9) by lia. repeat (destruct C as [->|C]; [reflexivity|]). now subst. Qed.
Lemma sd_length p : forall r, List.length (sd p r) = p.
Proof. induction p as [|p IH]; intros r; [reflexivity|]. cbn. now rewrite IH. Qed.
Lemma show_digits_ok p : forall b i r, (0 <= r)%Q -> (r < 1)%Q -> (i + p <= List.length b)%nat ->
  show_digits p b (Z.of_nat i) r = Ret (splice b i (sd p r), Z.of_nat (i + p)).
Proof.
  induction p as [|p IH]; intros b i r A B H; cbn [show_digits sd].
  - rewrite splice_nil, Nat.add_0_r. reflexivity.
  - destruct (sd_step r A B) as (C & D & E). rewrite to_char_digit by lia. rewrite wr_ok by lia. cbn [obind].
    destruct (Z.leb_spec (Qfloor (r * 10)) 9); [|lia]. cbn [negb].
    replace (Z.of_nat i + 1) with (Z.of_nat (i + 1)) by lia. rewrite IH; try assumption.
    + change (48 + Qfloor (r * 10) :: sd p (r * 10 - inject_Z (Qfloor (r * 10)))%Q) with ([48 + Qfloor (r * 10)] ++ sd p (r * 10 - inject_Z (Qfloor (r * 10)))%Q).
      rewrite <- (splice_splice b i [48 + Qfloor (r * 10)]) by (rewrite sd_length; cbn; lia).
      cbn [List.length]. replace (i + S p)%nat with (i + 1 + p)%nat by lia. reflexivity.
    + rewrite splice_length by (cbn; lia). lia.
Qed.
Lemma show_splice b i r p : (0 <= r)%Q -> (r < 1)%Q -> (i + p + 2 <= List.length b)%nat ->
  show_remainder b (Z.of_nat i) r p = Ret (splice b i (46 :: sd p r ++ [0])).
Proof.
  intros A B H. unfold show_remainder. rewrite wr_ok by lia. cbn [obind].
  assert (E1 : Qle_bool 0 r = true) by (now apply Qle_bool_iff). rewrite E1.
  assert (E2 : Qle_bool 1 r = false).
  { destruct (Qle_bool 1 r) eqn:E; [|reflexivity]. apply Qle_bool_iff in E. exfalso. apply (Qlt_not_le r 1); assumption. }
  rewrite E2. cbn [negb andb]. replace (Z.of_nat i + 1) with (Z.of_nat (i + 1)) by lia.
  rewrite show_digits_ok by (try assumption; rewrite splice_length by (cbn; lia); lia). cbn [obind].
  rewrite wr_ok by (rewrite splice_length by (rewrite sd_length, splice_length by (cbn; lia); lia); rewrite splice_length by (cbn; lia); lia).
  f_equal. change (46 :: sd p r ++ [0]) with ([46] ++ sd p r ++ [0]).
  rewrite <- (splice_splice b i [46]) by (rewrite ?app_length, ?sd_length; cbn; lia). cbn [List.length].
  rewrite <- (splice_splice (splice b i [46]) (i + 1) (sd p r) [0]) by (rewrite sd_length, splice_length by (cbn; lia); cbn; lia).
  rewrite sd_length. reflexivity.
Qed.
Lemma show_ok n b s post r p : hold n b s post -> (0 <= r)%Q -> (r < 1)%Q -> (List.length s + p + 1 < n)%nat ->
  exists b', show_remainder b (Z.of_nat (List.length s)) r p = Ret b' /\
    hold n b' (s ++ 46 :: ndig p (Qfloor (r * inject_Z (10 ^ Z.of_nat p)))) post.
Proof.
  intros (Hs & rest & -> & Hl) A B H.
  rewrite show_splice; try assumption.
  2: { rewrite app_length, map_length. cbn [List.length]. rewrite app_length. lia. }
  eexists. split; [reflexivity|]. rewrite sd_ndig by assumption. set (t := ndig p _).
  assert (Ht : List.length t = p) by apply ndig_length.
  assert (E : map Some s ++ Some 0 :: rest ++ post = map Some s ++ (Some 0 :: rest) ++ post) by reflexivity.
  rewrite E. rewrite <- (map_length Some s). rewrite splice_at.
  2: { cbn [List.length]. rewrite app_length, Ht. cbn [List.length]. lia. }
  split.
  - apply no_nul_app; [exact Hs|]. intros c [<-|Hc]; [discriminate|]. apply (digit_no_nul t); [apply ndig_digit|exact Hc].
  - exists (skipn (p + 1) rest). split.
    + assert (K : skipn (List.length (46 :: t ++ [0])) (Some 0 :: rest) = skipn (p + 1) rest) by (cbn [List.length skipn]; rewrite app_length, Ht; reflexivity).
      rewrite K. rewrite map_app. cbn [map app]. rewrite map_app, <- !app_assoc. cbn [map app]; rewrite <- ?app_assoc; reflexivity.
    + rewrite app_length. cbn [List.length]. rewrite Ht, skipn_length. lia.
Qed.

(* ---------- removing characters ---------- *)
Lemma rd_at (b : buf) pre c tl : b = pre ++ Some c :: tl -> rd b (Z.of_nat (List.length pre)) = Ret c.
Proof. intros ->. apply rd_nth. rewrite nth_error_app2, Nat.sub_diag by lia. reflexivity. Qed.
Lemma wr_at (b : buf) pre c tl x : b = pre ++ c :: tl -> wr b (Z.of_nat (List.length pre)) x = Ret (pre ++ Some x :: tl).
Proof.
  intros ->. rewrite wr_ok by (rewrite app_length; cbn; lia). f_equal. apply (splice_at pre [c] tl [x]). cbn. lia.
Qed.
(** Before: kept text, stale bytes, what is left to look at. *)
Lemma remove_loop_ok x : x <> 0 -> forall s (stale : buf) kept tail f,
  no_nul s -> (List.length s < f)%nat ->
  exists stale', remove_loop f (map Some kept ++ stale ++ map Some s ++ Some 0 :: tail)
    (Z.of_nat (List.length kept + List.length stale)) (Z.of_nat (List.length kept)) x
  = Ret (map Some (kept ++ filter (fun c => negb (c =? x)) s) ++ Some 0 :: stale' ++ tail) /\
  (List.length kept + List.length stale + List.length s = List.length (kept ++ filter (fun c => negb (c =? x)%Z) s) + List.length stale')%nat.
Proof.
  intros Hx. induction s as [|c s IH]; intros stale kept tail f Hs Hf; (destruct f as [|f]; [cbn in Hf; lia|]); cbn [remove_loop].
  - cbn [map app filter]. rewrite app_nil_r.
    assert (R : rd (map Some kept ++ stale ++ Some 0 :: tail) (Z.of_nat (List.length kept + List.length stale)) = Ret 0).
    { rewrite app_assoc. rewrite <- (map_length Some kept). rewrite <- app_length. apply (rd_at _ _ 0 _ eq_refl). }
    rewrite R. clear R. cbn [obind]. rewrite Z.eqb_refl.
    replace (Z.of_nat (List.length kept)) with (Z.of_nat (List.length (map Some kept))) by now rewrite map_length.
    destruct stale as [|u stale].
    + cbn [app]. rewrite (wr_at _ (map Some kept) (Some 0) tail 0 eq_refl). exists []. split; [reflexivity|cbn; lia].
    + cbn [app]. rewrite (wr_at _ (map Some kept) u (stale ++ Some 0 :: tail) 0 eq_refl). exists (stale ++ [Some 0]).
      rewrite <- app_assoc. cbn [app]. split; [reflexivity|]. rewrite app_length. cbn. lia.
  - assert (Hc : c <> 0) by (apply Hs; now left).
    assert (Hs' : no_nul s) by (intros y Hy; apply Hs; now right).
    cbn [map app].
    assert (R : rd (map Some kept ++ stale ++ Some c :: map Some s ++ Some 0 :: tail) (Z.of_nat (List.length kept + List.length stale)) = Ret c).
    { rewrite app_assoc. rewrite <- (map_length Some kept). rewrite <- app_length. apply (rd_at _ _ c _ eq_refl). }
    rewrite R. clear R. cbn [obind]. destruct (Z.eqb_spec c 0); [contradiction|]. cbn [filter].
    destruct (Z.eqb_spec c x) as [E|E]; cbn [negb].
    + destruct (IH (stale ++ [Some c]) kept tail f Hs' ltac:(cbn in Hf; lia)) as (st & A & B).
      rewrite <- app_assoc in A. cbn [app] in A. rewrite app_length in A, B. cbn [List.length] in A, B.
      replace (Z.of_nat (List.length kept + List.length stale) + 1) with (Z.of_nat (List.length kept + (List.length stale + 1))) by lia.
      rewrite A. exists st. split; [reflexivity|]. cbn [List.length]. lia.
    + replace (Z.of_nat (List.length kept)) with (Z.of_nat (List.length (map Some kept))) by now rewrite map_length.
      destruct stale as [|u stale].
      * cbn [app]. rewrite (wr_at _ (map Some kept) (Some c) _ c eq_refl). cbn [obind].
        destruct (IH [] (kept ++ [c]) tail f Hs' ltac:(cbn in Hf; lia)) as (st & A & B).
        rewrite map_app, <- app_assoc in A. cbn [map app List.length] in A. rewrite <- app_assoc in A. cbn [app] in A.
        rewrite app_length in A. cbn [List.length] in A.
        replace (Z.of_nat (List.length kept + List.length (@nil (option Z))) + 1) with (Z.of_nat (List.length kept + 1 + 0)) by (cbn; lia).
        rewrite map_length. replace (Z.of_nat (List.length kept) + 1) with (Z.of_nat (List.length kept + 1)) by lia. rewrite A. exists st. split; [reflexivity|].
        rewrite <- app_assoc in B. cbn [app] in B. rewrite !app_length in *. cbn [List.length] in *. lia.
      * cbn [app]. rewrite (wr_at _ (map Some kept) u _ c eq_refl). cbn [obind].
        destruct (IH (stale ++ [Some c]) (kept ++ [c]) tail f Hs' ltac:(cbn in Hf; lia)) as (st & A & B).
        rewrite map_app, <- !app_assoc in A. cbn [map app] in A. rewrite !app_length in A. cbn [List.length] in A.
        replace (Z.of_nat (List.length kept + List.length (u :: stale)) + 1) with (Z.of_nat (List.length kept + 1 + (List.length stale + 1))) by (cbn; lia).
        rewrite map_length. replace (Z.of_nat (List.length kept) + 1) with (Z.of_nat (List.length kept + 1)) by lia. rewrite A. exists st. split; [reflexivity|].
        rewrite <- app_assoc in B. cbn [app] in B. rewrite !app_length in *. cbn [List.length] in *. lia.
Qed.
Lemma remove_ok n b s post x : hold n b s post -> x <> 0 ->
  exists b', remove_char b x = Ret b' /\ hold n b' (filter (fun c => negb (c =? x)) s) post.
Proof.
  intros (Hs & rest & -> & Hl) Hx. unfold remove_char.
  destruct (remove_loop_ok x Hx s [] [] (rest ++ post) (S (List.length (map Some s ++ Some 0 :: rest ++ post)))) as (st & A & B).
  - exact Hs.
  - rewrite app_length, map_length. lia.
  - cbn [map app List.length] in A. change (Z.of_nat (0 + 0)) with 0 in A. change (Z.of_nat 0) with 0 in A. rewrite A.
    eexists. split; [reflexivity|]. split.
    + intros c Hc. apply filter_In in Hc. now apply Hs.
    + exists (st ++ rest). rewrite <- app_assoc. split; [reflexivity|]. cbn [List.length app] in B. rewrite app_length. lia.
Qed.
