(** Proofs about URL-encoded form data. *)
From Coq Require Import Lia ZifyBool String Bool.
From Verif Require Import CBase CLemmas CStr StrModel StrProofs DesigUnpack DesigTotal CgiModel CgiSpec.
Open Scope list_scope.

Lemma hex_nth v : 0 <= v < 16 -> hex_digit (nth (Z.to_nat v) hexadecimal 0) = Some v.
Proof.
  intros H. pose (f := fun v => match hex_digit (nth (Z.to_nat v) hexadecimal 0) with Some w => w =? v | None => false end).
  assert (C : zall f 16 0 = true) by (vm_compute; reflexivity). pose proof (zall_spec f 16 0 C v ltac:(lia)) as X.
  unfold f in X. destruct (hex_digit _); [f_equal; lia|discriminate].
Qed.
Lemma to_char_mod c : byte c -> to_char (c mod 256) = c.
Proof. unfold byte, to_char. intros H. unfold wrap. change (2 ^ 8) with 256. change (2 ^ (8 - 1)) with 128. lia. Qed.

Lemma at_hd pre tail : at_ (pre ++ tail) (Z.of_nat (length pre)) = Ret (hd 0 tail).
Proof. destruct tail as [|c t]; [rewrite app_nil_r; apply at_end|apply at_split]. Qed.

Lemma at_k pre q k : (k <= length q)%nat -> at_ (pre ++ q) (Z.of_nat (length pre) + Z.of_nat k) = Ret (nth k q 0).
Proof.
  intros H. replace (Z.of_nat (length pre) + Z.of_nat k) with (Z.of_nat (length pre + k)) by lia.
  rewrite at_chr by (rewrite app_length; lia). rewrite app_nth2 by lia. f_equal. f_equal. lia.
Qed.

Lemma put (b : buf) d c : (length d < length b)%nat -> wr (splice b 0 d) (Z.of_nat (length d)) c = Ret (splice b 0 (d ++ [c])).
Proof. intros H. exact (wr_splice b 0 d c H). Qed.

Lemma snoc_len {A} (d : list A) c : Z.of_nat (length d) + 1 = Z.of_nat (length (d ++ [c])).
Proof. rewrite app_length. cbn. lia. Qed.

(** One round of the loop, for each form of a byte. *)
Lemma loop_self ec c f pre q b d left : 13 < c -> c <> 43 -> c <> 37 -> c <> ec -> left <> 0 -> (length d < length b)%nat ->
  piece_loop (S f) (pre ++ c :: q) (Z.of_nat (length pre)) (splice b 0 d) (Z.of_nat (length d)) left ec
  = piece_loop f ((pre ++ [c]) ++ q) (Z.of_nat (length (pre ++ [c]))) (splice b 0 (d ++ [c])) (Z.of_nat (length (d ++ [c]))) (left - 1) ec.
Proof.
  intros H1 H2 H3 H4 H5 Hb. cbn [piece_loop]. rewrite at_split. cbn [obind].
  destruct (Z.ltb_spec 13 c); [|lia]. destruct (Z.eqb_spec left 0); [contradiction|].
  destruct (Z.eqb_spec c ec); [contradiction|]. destruct (Z.eqb_spec c 43); [contradiction|].
  destruct (Z.eqb_spec c 37); [contradiction|]. rewrite put by exact Hb. cbn [obind].
  rewrite <- !snoc_len, <- app_assoc. reflexivity.
Qed.
Lemma loop_blank ec f pre q b d left : ec <> 43 -> left <> 0 -> (length d < length b)%nat ->
  piece_loop (S f) (pre ++ 43 :: q) (Z.of_nat (length pre)) (splice b 0 d) (Z.of_nat (length d)) left ec
  = piece_loop f ((pre ++ [43]) ++ q) (Z.of_nat (length (pre ++ [43]))) (splice b 0 (d ++ [32])) (Z.of_nat (length (d ++ [32]))) (left - 1) ec.
Proof.
  intros H4 H5 Hb. cbn [piece_loop]. rewrite at_split. cbn [obind]. change (13 <? 43) with true. cbv iota.
  destruct (Z.eqb_spec left 0); [contradiction|].
  destruct (Z.eqb_spec 43 ec); [congruence|]. change (43 =? 43) with true. cbv iota. rewrite put by exact Hb. cbn [obind].
  rewrite <- !snoc_len, <- app_assoc. reflexivity.
Qed.
Lemma loop_percent ec f pre q b d left c : ec <> 37 -> left <> 0 -> (length d < length b)%nat -> byte c ->
  let h := nth (Z.to_nat (c mod 256 / 16)) hexadecimal 0 in let l := nth (Z.to_nat (c mod 256 mod 16)) hexadecimal 0 in
  piece_loop (S f) (pre ++ 37 :: h :: l :: q) (Z.of_nat (length pre)) (splice b 0 d) (Z.of_nat (length d)) left ec
  = piece_loop f ((pre ++ [37; h; l]) ++ q) (Z.of_nat (length (pre ++ [37; h; l]))) (splice b 0 (d ++ [c])) (Z.of_nat (length (d ++ [c]))) (left - 1) ec.
Proof.
  intros H4 H5 Hb Hc h l. cbn [piece_loop]. rewrite at_split. cbn [obind]. change (13 <? 37) with true. cbv iota.
  destruct (Z.eqb_spec left 0); [contradiction|].
  destruct (Z.eqb_spec 37 ec); [congruence|]. change (37 =? 43) with false. change (37 =? 37) with true. cbv iota.
  change 1 with (Z.of_nat 1) at 1. rewrite (at_k pre (37 :: h :: l :: q) 1) by (cbn; lia). cbn [obind nth].
  unfold h at 1. rewrite hex_nth by lia.
  change 2 with (Z.of_nat 2) at 1. rewrite (at_k pre (37 :: h :: l :: q) 2) by (cbn; lia). cbn [obind nth].
  unfold l at 1. rewrite hex_nth by lia.
  replace (c mod 256 / 16 * 16 + c mod 256 mod 16) with (c mod 256) by lia. rewrite to_char_mod by exact Hc.
  rewrite put by exact Hb. cbn [obind]. rewrite <- app_assoc.
  replace (Z.of_nat (length pre) + 3) with (Z.of_nat (length (pre ++ [37; h; l]))) by (rewrite app_length; cbn; lia).
  rewrite <- (snoc_len d). reflexivity.
Qed.

Ltac fin := match goal with |- Ret (Some (?a, ?x), ?s) = Ret (Some (?a, ?y), ?s) => replace x with y by lia; reflexivity end.

(** What ends a piece: the end character, a byte up to 13, or the end of the text. *)
Definition stops (ec : Z) (tail : list Z) : Prop := (hd 0 tail = ec /\ 13 < ec) \/ (hd 0 tail <= 13 /\ hd 0 tail <> ec).
Definition after (ec : Z) (tail : list Z) : Z := if hd 0 tail =? ec then 1 else 0.

Lemma piece_ok ec text e : encoding ec text e -> ec <> 43 -> ec <> 37 ->
  forall tail, stops ec tail -> forall f pre d (b : buf) left,
  Z.of_nat (length text) <= left -> (length d + length text < length b)%nat -> (length e < f)%nat ->
  piece_loop f (pre ++ e ++ tail) (Z.of_nat (length pre)) (splice b 0 d) (Z.of_nat (length d)) left ec
  = Ret (Some (hd 0 tail, Z.of_nat (length pre + length e) + after ec tail), splice b 0 (d ++ text ++ [0])).
Proof.
  intros E N1 N2 tail Hs. induction E as [|c text e Hc P1 P2 P3 E IH|text e E IH|c text e Hc E IH]; intros f pre d b left Hl Hb Hf;
    (destruct f as [|f]; [lia|]).
  - cbn [app length] in *. cbn [piece_loop]. rewrite at_hd. cbn [obind].
    assert (P : wr (splice b 0 d) (Z.of_nat (length d)) 0 = Ret (splice b 0 (d ++ [0]))) by (apply put; lia).
    unfold after. rewrite P. cbn [obind]. rewrite Nat.add_0_r.
    destruct Hs as [(H1 & H2)|(H1 & H2)].
    + rewrite H1. destruct (Z.ltb_spec 13 ec); [|lia]. rewrite Z.eqb_refl. destruct (left =? 0); reflexivity.
    + destruct (Z.ltb_spec 13 (hd 0 tail)); [lia|]. destruct (Z.eqb_spec (hd 0 tail) ec); [contradiction|]. rewrite Z.add_0_r. reflexivity.
  - cbn [app length] in *. rewrite loop_self by (try assumption; lia). rewrite IH by (rewrite ?app_length; cbn [length]; lia).
    rewrite !app_length, <- app_assoc. cbn [length app]. fin.
  - cbn [app length] in *. rewrite loop_blank by (try assumption; lia). rewrite IH by (rewrite ?app_length; cbn [length]; lia).
    rewrite !app_length, <- app_assoc. cbn [length app]. fin.
  - cbn [app length] in *. rewrite loop_percent by (try assumption; lia). rewrite IH by (rewrite ?app_length; cbn [length]; lia).
    rewrite !app_length, <- app_assoc. cbn [length app]. fin.
Qed.

(** A text that does not fit is cut. *)
Lemma piece_cut ec text e : encoding ec text e -> ec <> 43 -> ec <> 37 ->
  forall tail f pre d (b : buf) left,
  0 <= left < Z.of_nat (length text) -> (length d + Z.to_nat left < length b)%nat -> (length e < f)%nat ->
  exists text1 text2 e1 e2, text = text1 ++ text2 /\ e = e1 ++ e2 /\ encoding ec text1 e1 /\ encoding ec text2 e2 /\
  Z.of_nat (length text1) = left /\ 13 < hd 0 e2 /\ hd 0 e2 <> ec /\
  piece_loop f (pre ++ e ++ tail) (Z.of_nat (length pre)) (splice b 0 d) (Z.of_nat (length d)) left ec
  = Ret (Some (hd 0 e2, Z.of_nat (length pre + length e1)), splice b 0 (d ++ text1 ++ [0])).
Proof.
  intros E N1 N2 tail. induction E as [|c text e Hc P1 P2 P3 E IH|text e E IH|c text e Hc E IH]; intros f pre d b left Hl Hb Hf;
    (destruct f as [|f]; [lia|]); [cbn in Hl; lia|..]; cbn [length app] in *; (destruct (Z.eq_dec left 0) as [->|L0]; [|]).
  - exists [], (c :: text), [], (c :: e). split; [reflexivity|]. split; [reflexivity|]. split; [constructor|]. split; [constructor; assumption|].
    split; [reflexivity|]. cbn [hd length app]. split; [lia|]. split; [assumption|]. cbn [piece_loop]. rewrite at_split. cbn [obind].
    destruct (Z.ltb_spec 13 c); [|lia]. change (0 =? 0) with true. cbv iota. destruct (Z.eqb_spec c ec); [contradiction|]. rewrite put by lia. cbn [obind].
    rewrite Nat.add_0_r. reflexivity.
  - rewrite loop_self by (try assumption; lia).
    destruct (IH f (pre ++ [c]) (d ++ [c]) b (left - 1)) as (t1 & t2 & e1 & e2 & -> & -> & Q1 & Q2 & Q3 & Q4 & Q5 & Q6); [lia|rewrite app_length; cbn; lia|lia|].
    exists (c :: t1), t2, (c :: e1), e2. rewrite Q6. repeat (split; [first [reflexivity|assumption|constructor; assumption|cbn [length]; lia]|]).
    rewrite !app_length, <- app_assoc. cbn [length app]. fin.
  - exists [], (32 :: text), [], (43 :: e). split; [reflexivity|]. split; [reflexivity|]. split; [constructor|]. split; [constructor; assumption|].
    split; [reflexivity|]. cbn [hd length app]. split; [lia|]. split; [congruence|]. cbn [piece_loop]. rewrite at_split. cbn [obind].
    change (13 <? 43) with true. change (0 =? 0) with true. cbv iota. destruct (Z.eqb_spec 43 ec); [congruence|]. rewrite put by lia. cbn [obind].
    rewrite Nat.add_0_r. reflexivity.
  - rewrite loop_blank by (try assumption; lia).
    destruct (IH f (pre ++ [43]) (d ++ [32]) b (left - 1)) as (t1 & t2 & e1 & e2 & -> & -> & Q1 & Q2 & Q3 & Q4 & Q5 & Q6); [lia|rewrite app_length; cbn; lia|lia|].
    exists (32 :: t1), t2, (43 :: e1), e2. rewrite Q6. repeat (split; [first [reflexivity|assumption|constructor; assumption|cbn [length]; lia]|]).
    rewrite !app_length, <- app_assoc. cbn [length app]. fin.
  - set (h := nth (Z.to_nat (c mod 256 / 16)) hexadecimal 0) in *. set (l := nth (Z.to_nat (c mod 256 mod 16)) hexadecimal 0) in *.
    exists [], (c :: text), [], (37 :: h :: l :: e). split; [reflexivity|]. split; [reflexivity|]. split; [constructor|]. split; [constructor; assumption|].
    split; [reflexivity|]. cbn [hd length app]. split; [lia|]. split; [congruence|]. cbn [piece_loop]. rewrite at_split. cbn [obind].
    change (13 <? 37) with true. change (0 =? 0) with true. cbv iota. destruct (Z.eqb_spec 37 ec); [congruence|]. rewrite put by lia. cbn [obind].
    rewrite Nat.add_0_r. reflexivity.
  - rewrite loop_percent by (try assumption; lia).
    set (h := nth (Z.to_nat (c mod 256 / 16)) hexadecimal 0) in *. set (l := nth (Z.to_nat (c mod 256 mod 16)) hexadecimal 0) in *.
    destruct (IH f (pre ++ [37; h; l]) (d ++ [c]) b (left - 1)) as (t1 & t2 & e1 & e2 & -> & -> & Q1 & Q2 & Q3 & Q4 & Q5 & Q6); [lia|rewrite app_length; cbn; lia|lia|].
    exists (c :: t1), t2, (37 :: h :: l :: e1), e2. rewrite Q6. repeat (split; [first [reflexivity|assumption|unfold h, l; constructor; assumption|cbn [length]; lia]|]).
    rewrite !app_length, <- app_assoc. cbn [length app]. fin.
Qed.

(** Any text. *)
Lemma piece_any s ec : 13 < ec -> forall f p d (b : buf) left, (p <= length s)%nat -> 0 <= left ->
  (length d + Z.to_nat left < length b)%nat -> (length s - p < f)%nat ->
  exists r d', piece_loop f s (Z.of_nat p) (splice b 0 d) (Z.of_nat (length d)) left ec = Ret (r, splice b 0 d') /\
    match r with
    | None => Z.of_nat (length d') <= Z.of_nat (length d) + left
    | Some (c, t) => Z.of_nat p <= t <= Z.of_nat (length s) /\ exists text, d' = d ++ text ++ [0] /\ Z.of_nat (length text) <= left
    end.
Proof.
  intros He. induction f as [|f IH]; intros p d b left Hp Hl Hb Hf; [lia|]. cbn [piece_loop].
  rewrite at_chr by lia. cbn [obind]. set (c := nth p s 0).
  set (Q := fun (x : outcome (option (Z * Z) * buf)) => exists r d',
    x = Ret (r, splice b 0 d') /\
    match r with
    | None => Z.of_nat (length d') <= Z.of_nat (length d) + left
    | Some (c, t) => Z.of_nat p <= t <= Z.of_nat (length s) /\ exists text, d' = d ++ text ++ [0] /\ Z.of_nat (length text) <= left
    end).
  assert (St : forall t, t = Z.of_nat p \/ (t = Z.of_nat p + 1 /\ (p < length s)%nat) -> Q
    (do b0 <- wr (splice b 0 d) (Z.of_nat (length d)) 0; Ret (Some (c, t), b0))).
  { intros t Ht. rewrite put by lia. cbn [obind]. eexists; eexists; split; [reflexivity|]. split; [lia|]. exists []. split; [reflexivity|cbn; lia]. }
  assert (Go : forall k x, (0 < k)%nat -> (p + k <= length s)%nat -> left <> 0 -> 
     Q (do b0 <- wr (splice b 0 d) (Z.of_nat (length d)) x; piece_loop f s (Z.of_nat p + Z.of_nat k) b0 (Z.of_nat (length d) + 1) (left - 1) ec)).
  { intros k x K1 K2 L0. rewrite put by lia. cbn [obind]. rewrite (snoc_len d x).
    replace (Z.of_nat p + Z.of_nat k) with (Z.of_nat (p + k)) by lia.
    destruct (IH (p + k)%nat (d ++ [x]) b (left - 1)) as (r & d' & E & R); [lia|lia|rewrite app_length; cbn; lia|lia|].
    exists r, d'. split; [exact E|]. destruct r as [(c', t)|].
    - destruct R as (R1 & text & -> & R2). split; [lia|]. exists (x :: text). rewrite <- app_assoc. split; [reflexivity|cbn [length]; lia].
    - rewrite app_length in R. cbn [length] in R. lia. }
  change (Q (if 13 <? c then if left =? 0 then do b0 <- wr (splice b 0 d) (Z.of_nat (length d)) 0; Ret (Some (c, if c =? ec then Z.of_nat p + 1 else Z.of_nat p), b0)
     else if c =? ec then do b0 <- wr (splice b 0 d) (Z.of_nat (length d)) 0; Ret (Some (c, Z.of_nat p + 1), b0)
        else if c =? 43 then do b0 <- wr (splice b 0 d) (Z.of_nat (length d)) 32; piece_loop f s (Z.of_nat p + Z.of_nat 1) b0 (Z.of_nat (length d) + 1) (left - 1) ec
        else if c =? 37 then
          do c1 <- at_ s (Z.of_nat p + Z.of_nat 1);
          match hex_digit c1 with
          | None => Ret (None, splice b 0 d)
          | Some h =>
              do c2 <- at_ s (Z.of_nat p + Z.of_nat 2);
              match hex_digit c2 with
              | None => Ret (None, splice b 0 d)
              | Some l => do b0 <- wr (splice b 0 d) (Z.of_nat (length d)) (to_char (h * 16 + l));
                          piece_loop f s (Z.of_nat p + Z.of_nat 3) b0 (Z.of_nat (length d) + 1) (left - 1) ec
              end
          end
        else do b0 <- wr (splice b 0 d) (Z.of_nat (length d)) c; piece_loop f s (Z.of_nat p + Z.of_nat 1) b0 (Z.of_nat (length d) + 1) (left - 1) ec
      else do b0 <- wr (splice b 0 d) (Z.of_nat (length d)) 0; Ret (Some (c, if c =? ec then Z.of_nat p + 1 else Z.of_nat p), b0))).
  destruct (Z.ltb_spec 13 c) as [G|G].
  2: { destruct (Z.eqb_spec c ec); [lia|]. apply St. left. reflexivity. }
  assert (P1 : (p < length s)%nat) by (apply nth_in; fold c; lia).
  destruct (Z.eqb_spec left 0) as [L0|L0]; [apply St; destruct (c =? ec); lia|].
  destruct (Z.eqb_spec c ec); [apply St; lia|].
  destruct (c =? 43); [apply Go; lia|].
  destruct (c =? 37); [|apply Go; lia].
  assert (NO : Q (Ret (None, splice b 0 d))) by (eexists; eexists; split; [reflexivity|]; cbv iota; lia).
  assert (H0 : hex_digit 0 = None) by reflexivity.
  replace (Z.of_nat p + Z.of_nat 1) with (Z.of_nat (p + 1)) by lia. rewrite at_chr by lia. cbn [obind].
  destruct (hex_digit (nth (p + 1) s 0)) as [h|] eqn:E1; [|exact NO].
  assert (P2 : (p + 1 < length s)%nat) by (apply nth_in; intros X; rewrite X, H0 in E1; discriminate).
  replace (Z.of_nat p + Z.of_nat 2) with (Z.of_nat (p + 2)) by lia. rewrite at_chr by lia. cbn [obind].
  destruct (hex_digit (nth (p + 2) s 0)) as [l|] eqn:E2; [|exact NO].
  assert (P3 : (p + 2 < length s)%nat) by (apply nth_in; intros X; rewrite X, H0 in E2; discriminate).
  apply Go; lia.
Qed.
