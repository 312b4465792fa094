(** Proofs of the theorems stated in [PropStr]. *)
From Coq Require Import Lia ZifyBool.
From Verif Require Import CBase CLemmas CStr StrModel StrProofs.

Lemma C27_strlcpy_proof :
  forall (pre dst post : buf) (src : list Z), no_nul src -> (0 < length dst)%nat ->
  exists p q, src = p ++ q /\ (length p < length dst)%nat /\
  (q = [] \/ length p = (length dst - 1)%nat) /\
  strlcpy (pre ++ dst ++ post) (Z.of_nat (length pre)) src (length dst)
  = Ret (Z.of_nat (length src),
         pre ++ (map Some p ++ [Some 0] ++ skipn (length p + 1) dst) ++ post).
Proof.
  intros pre dst post src Hs H0. destruct (length dst) as [|m] eqn:Hm; [lia|].
  exists (firstn m src), (skipn m src). rewrite firstn_skipn. split; [reflexivity|].
  split; [rewrite firstn_length; lia|]. split.
  - rewrite firstn_length. destruct (Nat.leb_spec (length src) m).
    + left. apply skipn_all2. lia.
    + right. lia.
  - rewrite <- Hm at 1. rewrite (strlcpy_exact pre dst post src m Hs Hm). rewrite Nat.add_1_r. reflexivity.
Qed.

Lemma C27_strlcpy_size_zero_proof :
  forall (dst : buf) (i : nat) (src : list Z), no_nul src -> (i <= length dst)%nat ->
  strlcpy dst (Z.of_nat i) src 0 = Ret (Z.of_nat (length src), dst).
Proof.
  intros dst i src Hs Hi. rewrite strlcpy_ok by (try assumption; lia). reflexivity.
Qed.

Lemma C27_strlcat_proof :
  forall (pre rest post : buf) (d src : list Z), no_nul d -> no_nul src ->
  let dst := map Some d ++ [Some 0] ++ rest in
  exists p q, src = p ++ q /\ (length d + length p < length dst)%nat /\
  (q = [] \/ (length d + length p = length dst - 1)%nat) /\
  strlcat (pre ++ dst ++ post) (Z.of_nat (length pre)) src (length dst)
  = Ret (Z.of_nat (length d + length src),
         pre ++ (map Some d ++ map Some p ++ [Some 0] ++ skipn (length d + length p + 1) dst) ++ post).
Proof.
  intros pre rest post d src Hd Hs dst.
  assert (Hl : length dst = (length d + S (length rest))%nat).
  { unfold dst. rewrite !app_length, map_length. reflexivity. }
  rewrite Hl. exists (firstn (length rest) src), (skipn (length rest) src). rewrite firstn_skipn.
  split; [reflexivity|]. split; [rewrite firstn_length; lia|]. split.
  - rewrite firstn_length. destruct (Nat.leb_spec (length src) (length rest)).
    + left. apply skipn_all2. lia.
    + right. lia.
  - unfold dst. cbn [app]. rewrite strlcat_exact by assumption.
    replace (length d + length (firstn (length rest) src) + 1)%nat
      with (length (map (@Some Z) d) + S (length (firstn (length rest) src)))%nat by (rewrite map_length; lia).
    rewrite <- skipn_skipn', skipn_app, skipn_all, Nat.sub_diag. reflexivity.
Qed.

Lemma C27_strlcat_unterminated_proof :
  forall (pre post : buf) (d src : list Z), no_nul d ->
  let dst := map Some d in
  strlcat (pre ++ dst ++ post) (Z.of_nat (length pre)) src (length dst)
  = Ret (Z.of_nat (length dst + length src), pre ++ dst ++ post).
Proof.
  intros pre post d src Hd dst. unfold dst. rewrite map_length. apply strlcat_full, Hd.
Qed.

Lemma C28_strlcpy_err_proof :
  forall (pre dst post : buf) (src : list Z), no_nul src ->
  strlcpy_err (pre ++ dst ++ post) (Z.of_nat (length pre)) src (length dst)
  = if (length src <? length dst)%nat
    then Ret (Z.of_nat (length src),
              pre ++ (map Some src ++ [Some 0] ++ skipn (length src + 1) dst) ++ post)
    else Abort.
Proof.
  intros. rewrite strlcpy_err_exact by assumption. rewrite Nat.add_1_r. reflexivity.
Qed.

Lemma C28_strlcat_err_proof :
  forall (pre rest post : buf) (d src : list Z), no_nul d -> no_nul src ->
  let dst := map Some d ++ [Some 0] ++ rest in
  strlcat_err (pre ++ dst ++ post) (Z.of_nat (length pre)) src (length dst)
  = if (length d + length src <? length dst)%nat
    then Ret (Z.of_nat (length d + length src),
              pre ++ (map Some (d ++ src) ++ [Some 0] ++ skipn (length d + length src + 1) dst) ++ post)
    else Abort.
Proof.
  intros pre rest post d src Hd Hs dst.
  assert (Hl : length dst = (length d + S (length rest))%nat).
  { unfold dst. rewrite !app_length, map_length. reflexivity. }
  rewrite Hl. unfold dst. cbn [app]. rewrite strlcat_err_exact by assumption.
  destruct (Nat.leb_spec (length src) (length rest));
    destruct (Nat.ltb_spec (length d + length src) (length d + S (length rest))); try lia; [|reflexivity].
  replace (length d + length src + 1)%nat with (length (map (@Some Z) d) + S (length src))%nat by (rewrite map_length; lia).
  rewrite <- skipn_skipn', skipn_app, skipn_all, Nat.sub_diag, map_app, <- !app_assoc. reflexivity.
Qed.

Lemma C28_strlcat_err_unterminated_proof :
  forall (pre post : buf) (d src : list Z), no_nul d ->
  strlcat_err (pre ++ map Some d ++ post) (Z.of_nat (length pre)) src (length d) = Abort.
Proof.
  intros pre post d src Hd. unfold strlcat_err. rewrite strlcat_full by assumption. cbn [obind].
  destruct (Z.leb_spec (Z.of_nat (length d)) (Z.of_nat (length d + length src))); [reflexivity|lia].
Qed.

Lemma C28_snprintf_append_proof :
  forall (pre rest post : buf) (d out : list Z), no_nul d ->
  let dst := map Some d ++ [Some 0] ++ rest in
  snprintf_append (pre ++ dst ++ post) (Z.of_nat (length pre)) (length dst) out
  = if (length d + length out <? length dst)%nat
    then Ret (Z.of_nat (length d + length out),
              pre ++ (map Some (d ++ out) ++ [Some 0] ++ skipn (length d + length out + 1) dst) ++ post)
    else Abort.
Proof.
  intros pre rest post d out Hd dst.
  assert (Hl : length dst = (length d + S (length rest))%nat).
  { unfold dst. rewrite !app_length, map_length. reflexivity. }
  rewrite Hl. unfold dst, snprintf_append. cbn [app]. rewrite sn_append_exact by assumption.
  destruct (Nat.leb_spec (length out) (length rest));
    destruct (Nat.ltb_spec (length d + length out) (length d + S (length rest))); try lia; [|reflexivity].
  replace (length d + length out + 1)%nat with (length (map (@Some Z) d) + S (length out))%nat by (rewrite map_length; lia).
  rewrite <- skipn_skipn', skipn_app, skipn_all, Nat.sub_diag, map_app, <- !app_assoc. reflexivity.
Qed.

Lemma C28_snprintf_append_trunc_proof :
  forall (pre rest post : buf) (d out : list Z), no_nul d ->
  let dst := map Some d ++ [Some 0] ++ rest in
  exists p q, out = p ++ q /\ (length d + length p < length dst)%nat /\
  (q = [] \/ (length d + length p = length dst - 1)%nat) /\
  snprintf_append_trunc (pre ++ dst ++ post) (Z.of_nat (length pre)) (length dst) out
  = Ret (Z.of_nat (length d + length out),
         pre ++ (map Some (d ++ p) ++ [Some 0] ++ skipn (length d + length p + 1) dst) ++ post).
Proof.
  intros pre rest post d out Hd dst.
  assert (Hl : length dst = (length d + S (length rest))%nat).
  { unfold dst. rewrite !app_length, map_length. reflexivity. }
  rewrite Hl. exists (firstn (length rest) out), (skipn (length rest) out). rewrite firstn_skipn.
  split; [reflexivity|]. split; [rewrite firstn_length; lia|]. split.
  { rewrite firstn_length. destruct (Nat.leb_spec (length out) (length rest)).
    + left. apply skipn_all2. lia.
    + right. lia. }
  unfold dst, snprintf_append_trunc. cbn [app]. rewrite sn_append_exact by assumption.
  replace (length d + length (firstn (length rest) out) + 1)%nat
    with (length (map (@Some Z) d) + S (length (firstn (length rest) out)))%nat by (rewrite map_length; lia).
  rewrite <- skipn_skipn', skipn_app, skipn_all, Nat.sub_diag, map_app, <- !app_assoc. cbn [app skipn].
  destruct (Nat.leb_spec (length out) (length rest)).
  - rewrite firstn_all2 by lia. reflexivity.
  - rewrite (skipn_all2 rest) by (rewrite firstn_length; lia). reflexivity.
Qed.

Lemma C28_snprintf_err_proof :
  forall (pre dst post : buf) (out : list Z),
  snprintf_err (pre ++ dst ++ post) (Z.of_nat (length pre)) (length dst) out
  = if (length out <? length dst)%nat
    then Ret (Z.of_nat (length out),
              pre ++ (map Some out ++ [Some 0] ++ skipn (length out + 1) dst) ++ post)
    else Abort.
Proof.
  intros. rewrite snprintf_err_exact. rewrite Nat.add_1_r. reflexivity.
Qed.
