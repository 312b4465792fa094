(** Facts about characters, decimal and base-62 digits, and column masks. *)
From Coq Require Import Lia ZifyBool String.
From Verif Require Import CBase CLemmas CStr StrModel StrProofs DesigModel.
Open Scope list_scope.

(** The digits of base 62 in order. *)
Definition alphabet : list Z :=
  zs "0123456789ABCDEFGHIJKLMNOPQRSTUVWXYZabcdefghijklmnopqrstuvwxyz".

Lemma to_hex v : 0 <= v <= 61 ->
  int_to_mutant_hex_char v = (if v <? 10 then 48 + v else if v <? 36 then 55 + v else 61 + v).
Proof.
  intros H. unfold int_to_mutant_hex_char.
  destruct (Z.ltb_spec v 0); [lia|]. destruct (Z.ltb_spec 61 v); [lia|]. cbn [orb].
  destruct (Z.ltb_spec v 10); [apply wrap8_id; lia|].
  destruct (Z.ltb_spec v 36); rewrite wrap8_id by lia; lia.
Qed.

Lemma of_to_hex v : 0 <= v <= 61 -> mutant_hex_char_to_int (int_to_mutant_hex_char v) = v.
Proof.
  intros H. rewrite to_hex by lia. unfold mutant_hex_char_to_int.
  destruct (Z.ltb_spec v 10).
  - destruct (Z.leb_spec 97 (48 + v)); [lia|]. destruct (Z.leb_spec 65 (48 + v)); [lia|].
    destruct (Z.leb_spec 48 (48 + v)); [|lia]. destruct (Z.leb_spec (48 + v) 57); [|lia]. cbn [andb]. lia.
  - destruct (Z.ltb_spec v 36).
    + destruct (Z.leb_spec 97 (55 + v)); [lia|]. destruct (Z.leb_spec 65 (55 + v)); [|lia].
      destruct (Z.leb_spec (55 + v) 90); lia.
    + destruct (Z.leb_spec 97 (61 + v)); [|lia]. destruct (Z.leb_spec (61 + v) 122); lia.
Qed.

Lemma hex_cases c : (isalnum c = true /\ 0 <= mutant_hex_char_to_int c <= 61 /\
    int_to_mutant_hex_char (mutant_hex_char_to_int c) = c) \/
  (isalnum c = false /\ mutant_hex_char_to_int c = -1).
Proof.
  unfold isalnum, isalpha, isupper, islower, isdigit, mutant_hex_char_to_int.
  destruct (Z.leb_spec 97 c).
  - destruct (Z.leb_spec c 122).
    + left. split; [lia|]. split; [lia|]. rewrite to_hex by lia.
      destruct (Z.ltb_spec (c - 97 + 36) 10); [lia|]. destruct (Z.ltb_spec (c - 97 + 36) 36); lia.
    + right. split; lia.
  - destruct (Z.leb_spec 65 c).
    + destruct (Z.leb_spec c 90).
      * left. split; [lia|]. split; [lia|]. rewrite to_hex by lia.
        destruct (Z.ltb_spec (c - 65 + 10) 10); [lia|]. destruct (Z.ltb_spec (c - 65 + 10) 36); lia.
      * right. split; lia.
    + destruct (Z.leb_spec 48 c); destruct (Z.leb_spec c 57); cbn [andb orb].
      * left. split; [lia|]. split; [lia|]. rewrite to_hex by lia.
        destruct (Z.ltb_spec (c - 48) 10); lia.
      * right. split; lia.
      * right. split; lia.
      * right. split; lia.
Qed.

Lemma hex_range c : -1 <= mutant_hex_char_to_int c <= 61.
Proof. destruct (hex_cases c) as [(_ & H & _)|(_ & ->)]; lia. Qed.

Lemma hex_alpha v c : 0 <= v -> (mutant_hex_char_to_int c = v <-> nth_error alphabet (Z.to_nat v) = Some c).
Proof.
  intros H. assert (T : forall v, 0 <= v <= 61 -> nth_error alphabet (Z.to_nat v) = Some (int_to_mutant_hex_char v)).
  { intros w Hw. pose proof (zall_spec (fun w => match nth_error alphabet (Z.to_nat w) with
        | Some c => c =? int_to_mutant_hex_char w | None => false end) 62 0 ltac:(vm_compute; reflexivity) w ltac:(lia)) as X.
    cbv beta in X. destruct (nth_error alphabet (Z.to_nat w)); [|discriminate]. f_equal. lia. }
  split.
  - intros E. pose proof (hex_range c). rewrite T by lia. destruct (hex_cases c) as [(_ & _ & E2)|(_ & E2)]; [|lia].
    rewrite <- E at 1. rewrite E2. reflexivity.
  - intros E. assert (v <= 61).
    { assert (Z.to_nat v < length alphabet)%nat by (apply nth_error_Some; congruence).
      change (length alphabet) with 62%nat in *. lia. }
    rewrite T in E by lia. injection E as <-. apply of_to_hex. lia.
Qed.

Lemma hex_alnum v : 0 <= v <= 61 -> isalnum (int_to_mutant_hex_char v) = true.
Proof.
  intros H. destruct (hex_cases (int_to_mutant_hex_char v)) as [(E & _)|(_ & E)]; [exact E|].
  rewrite of_to_hex in E by lia. lia.
Qed.

(** Value of a string of base-62 digits. *)
Fixpoint val62 (acc : Z) (s : list Z) : Z :=
  match s with
  | [] => acc
  | c :: r => val62 (acc * 62 + mutant_hex_char_to_int c) r
  end.
(** The [n] digits of [v]. *)
Fixpoint enc62 (n : nat) (v : Z) : list Z :=
  match n with
  | O => []
  | S n' => enc62 n' (v / 62) ++ [int_to_mutant_hex_char (v mod 62)]
  end.

Lemma enc62_length n v : length (enc62 n v) = n.
Proof. revert v. induction n; intros v; [reflexivity|]. cbn. rewrite app_length, IHn. cbn. lia. Qed.

Lemma val62_app s t : forall acc, val62 acc (s ++ t) = val62 (val62 acc s) t.
Proof. induction s; intros acc; [reflexivity|]. cbn. apply IHs. Qed.

Lemma enc62_val n : forall v, 0 <= v -> val62 0 (enc62 n v) = v mod 62 ^ Z.of_nat n.
Proof.
  induction n as [|n IH]; intros v Hv.
  - cbn. rewrite Z.mod_1_r. reflexivity.
  - cbn [enc62]. rewrite val62_app, IH by lia. cbn [val62]. rewrite of_to_hex by lia.
    replace (62 ^ Z.of_nat (S n)) with (62 * 62 ^ Z.of_nat n).
    2: { rewrite Nat2Z.inj_succ, Z.pow_succ_r by lia. reflexivity. }
    rewrite Z.rem_mul_r by lia. lia.
Qed.

Lemma enc62_alnum n : forall v c, In c (enc62 n v) -> isalnum c = true.
Proof.
  induction n as [|n IH]; intros v c H; [destruct H|].
  cbn in H. apply in_app_or in H. destruct H as [H|[<-|[]]]; [eapply IH; exact H|].
  apply hex_alnum. lia.
Qed.

Lemma encode_ok n : forall (dst pre post : buf) v, 0 <= v -> length dst = n ->
  encode_value_in_mutant_hex (pre ++ dst ++ post) (Z.of_nat (length pre)) n v
  = Ret (v / 62 ^ Z.of_nat n, pre ++ map Some (enc62 n v) ++ post).
Proof.
  induction n as [|n IH]; intros dst pre post v Hv Hl.
  - destruct dst; [|discriminate]. cbn. rewrite Z.div_1_r. reflexivity.
  - cbn [encode_value_in_mutant_hex].
    destruct (exists_last (l := dst) ltac:(intros ->; discriminate)) as (d & x & ->).
    rewrite app_length in Hl. cbn in Hl. assert (Hd : length d = n) by lia. clear Hl.
    replace (Z.of_nat (length pre) + Z.of_nat n) with (Z.of_nat (length (pre ++ d))) by (rewrite app_length; lia).
    rewrite wr_ok by (rewrite !app_length; cbn; lia). cbn [obind].
    replace (pre ++ (d ++ [x]) ++ post) with ((pre ++ d) ++ [x] ++ post) by (rewrite <- !app_assoc; reflexivity).
    rewrite splice_at by (cbn; lia).
    replace (Z.quot v 62) with (v / 62) by (symmetry; apply Z.quot_div_nonneg; lia).
    replace (Z.rem v 62) with (v mod 62) by (symmetry; apply Z.rem_mod_nonneg; lia).
    cbn [length skipn map app]. rewrite <- app_assoc.
    rewrite IH by lia. f_equal. f_equal.
    + rewrite Nat2Z.inj_succ, Z.pow_succ_r by lia. rewrite Z.div_div by lia. reflexivity.
    + cbn [enc62]. rewrite map_app, <- !app_assoc. reflexivity.
Qed.

Lemma val62_mono s : forall acc, 0 <= acc -> (forall c, In c s -> isalnum c = true) -> acc <= val62 acc s.
Proof.
  induction s as [|c s IH]; intros acc Ha Hs; [cbn; lia|]. cbn [val62].
  destruct (hex_cases c) as [(_ & H & _)|(E & _)].
  - etransitivity; [|apply IH; [lia|intros x Hx; apply Hs; right; exact Hx]]. lia.
  - rewrite (Hs c) in E by (left; reflexivity). discriminate.
Qed.

Lemma get_hex_loop_ok q : forall p r acc, 0 <= acc -> (forall c, In c q -> isalnum c = true) -> val62 acc q <= IMAX ->
  get_mutant_hex_loop (length q) (p ++ q ++ r) (Z.of_nat (length p)) acc = Ret (val62 acc q).
Proof.
  induction q as [|c q IH]; intros p r acc Ha Hq Hv; cbn [length get_mutant_hex_loop val62]; [reflexivity|].
  change ((c :: q) ++ r) with (c :: q ++ r). rewrite at_split. cbn [obind]. cbv zeta.
  destruct (hex_cases c) as [(_ & H & _)|(E & _)].
  2: { rewrite (Hq c) in E by (left; reflexivity). discriminate. }
  set (d := mutant_hex_char_to_int c) in *. destruct (Z.eqb_spec d (-1)); [lia|].
  cbn [val62] in Hv. fold d in Hv.
  pose proof (val62_mono q (acc * 62 + d) ltac:(lia) ltac:(intros x Hx; apply Hq; right; exact Hx)).
  unfold IMAX in *. rewrite ev_val by (cbn; unfold fits; lia). cbn [obind val].
  replace (Z.of_nat (length p) + 1) with (Z.of_nat (length (p ++ [c]))) by (rewrite app_length; cbn; lia).
  replace (p ++ c :: q ++ r) with ((p ++ [c]) ++ q ++ r) by (rewrite <- app_assoc; reflexivity).
  apply IH; [lia|intros x Hx; apply Hq; right; exact Hx|exact Hv].
Qed.

Lemma val62_bound s : forall acc, 0 <= acc -> (forall c, In c s -> isalnum c = true) ->
  val62 acc s < (acc + 1) * 62 ^ Z.of_nat (length s).
Proof.
  induction s as [|c s IH]; intros acc Ha Hs; [cbn; lia|]. cbn [val62 length].
  destruct (hex_cases c) as [(_ & H & _)|(E & _)].
  2: { rewrite (Hs c) in E by (left; reflexivity). discriminate. }
  pose proof (IH (acc * 62 + mutant_hex_char_to_int c) ltac:(lia) ltac:(intros x Hx; apply Hs; right; exact Hx)).
  rewrite Nat2Z.inj_succ, Z.pow_succ_r by lia.
  assert (0 < 62 ^ Z.of_nat (length s)) by (apply Z.pow_pos_nonneg; lia). nia.
Qed.

(* ---------- decimal numbers ---------- *)
Lemma isdigit_48 k : 0 <= k <= 9 -> isdigit (48 + k) = true.
Proof. unfold isdigit. lia. Qed.

Lemma digits_app n : forall v acc, digits n v acc = digits n v [] ++ acc.
Proof.
  induction n as [|n IH]; intros v acc; [reflexivity|]. cbn [digits].
  destruct (v / 10 =? 0); [reflexivity|]. rewrite IH, (IH _ [_]), <- app_assoc. reflexivity.
Qed.

Lemma dig_val_app s t : forall acc, (forall c, In c s -> isdigit c = true) ->
  dig_val acc (s ++ t) = dig_val (dig_val acc s) t.
Proof.
  induction s as [|c s IH]; intros acc H; [reflexivity|]. cbn [dig_val app].
  rewrite (H c) by (left; reflexivity). apply IH. intros x Hx. apply H. right. exact Hx.
Qed.

Lemma digits_ok n : forall v, 0 <= v < 10 ^ Z.of_nat n -> (0 < n)%nat ->
  (forall c, In c (digits n v []) -> isdigit c = true) /\ dig_val 0 (digits n v []) = v /\
  digits n v [] <> [].
Proof.
  induction n as [|n IH]; intros v Hv Hn; [lia|]. cbn [digits].
  destruct (Z.eqb_spec (v / 10) 0) as [E|E].
  - split; [|split].
    + intros c [<-|[]]. apply isdigit_48. lia.
    + cbn [dig_val]. rewrite isdigit_48 by lia. lia.
    + discriminate.
  - rewrite digits_app. rewrite Nat2Z.inj_succ, Z.pow_succ_r in Hv by lia.
    destruct n as [|n]; [cbn in Hv; lia|].
    destruct (IH (v / 10)) as (H1 & H2 & H3); [lia|lia|].
    split; [|split].
    + intros c Hc. apply in_app_or in Hc. destruct Hc as [Hc|[<-|[]]]; [apply H1, Hc|apply isdigit_48; lia].
    + rewrite dig_val_app by exact H1. rewrite H2. cbn [dig_val]. rewrite isdigit_48 by lia. lia.
    + destruct (digits (S n) (v / 10) []); [congruence|discriminate].
Qed.

Lemma dec_ok v : 0 <= v < 10 ^ 20 ->
  (forall c, In c (dec v) -> isdigit c = true) /\ dig_val 0 (dec v) = v /\ dec v <> [].
Proof.
  intros H. unfold dec. destruct (Z.ltb_spec v 0); [lia|]. apply digits_ok; lia.
Qed.

(** A text that does not start with a digit. *)
Definition nondigit_start (r : list Z) : Prop := match r with [] => True | c :: _ => isdigit c = false end.

Lemma span_app (f : Z -> bool) s r : (forall c, In c s -> f c = true) ->
  match r with [] => True | c :: _ => f c = false end ->
  span f (s ++ r) = length s.
Proof.
  induction s as [|c s IH]; intros H Hr.
  - destruct r as [|c r]; [reflexivity|]. cbn. rewrite Hr. reflexivity.
  - cbn. rewrite (H c) by (left; reflexivity). f_equal. apply IH; [intros x Hx; apply H; right; exact Hx|exact Hr].
Qed.

Lemma dig_val_rest s r : (forall c, In c s -> isdigit c = true) -> nondigit_start r ->
  forall acc, dig_val acc (s ++ r) = dig_val acc s.
Proof.
  intros H Hr acc. rewrite dig_val_app by exact H. destruct r as [|c r]; [reflexivity|]. cbn in *. rewrite Hr. reflexivity.
Qed.

Lemma dig_val_mono s : forall acc, 0 <= acc -> acc <= dig_val acc s.
Proof.
  induction s as [|c s IH]; intros acc Ha; [cbn; lia|]. cbn [dig_val].
  destruct (isdigit c) eqn:E; [|lia]. unfold isdigit in E. etransitivity; [|apply IH; lia]. lia.
Qed.

Lemma lead_number_val s : forall acc, 0 <= acc < 4294967296 -> dig_val acc s < 4294967296 -> lead_number s acc = dig_val acc s.
Proof.
  induction s as [|c s IH]; intros acc Ha Hd; [reflexivity|]. cbn [lead_number dig_val] in *.
  destruct (isdigit c) eqn:E; [|reflexivity]. unfold isdigit in E.
  pose proof (dig_val_mono s (acc * 10 + (c - 48)) ltac:(lia)).
  rewrite Z.mod_small by lia. apply IH; lia.
Qed.

Lemma quick_atoi_val s : forall acc, 0 <= acc -> dig_val acc s <= IMAX -> quick_atoi s acc = Ret (dig_val acc s).
Proof.
  induction s as [|c s IH]; intros acc Ha Hd; [reflexivity|]. cbn [quick_atoi dig_val] in *.
  destruct (isdigit c) eqn:E; [|reflexivity]. unfold isdigit in E.
  pose proof (dig_val_mono s (acc * 10 + (c - 48)) ltac:(lia)).
  unfold IMAX in *. rewrite ev_val by (cbn; unfold fits; lia). cbn [obind val]. apply IH; lia.
Qed.

Lemma atoi_val c s : isdigit c = true -> dig_val 0 (c :: s) <= IMAX -> atoi (c :: s) = Ret (dig_val 0 (c :: s)).
Proof.
  intros E Hd. unfold atoi. cbn [span].
  assert (isspace c = false) as -> by (unfold isdigit, isspace in *; lia). cbn [skipn].
  pose proof (dig_val_mono (c :: s) 0 ltac:(lia)). unfold IMAX in *.
  assert (Hc : chk 2147483647 (dig_val 0 (c :: s)) = Ret (dig_val 0 (c :: s))) by (apply chk_ok; unfold fits; lia).
  unfold isdigit in E. assert (48 <= c <= 57) by lia.
  assert (c = 48 \/ c = 49 \/ c = 50 \/ c = 51 \/ c = 52 \/ c = 53 \/ c = 54 \/ c = 55 \/ c = 56 \/ c = 57) as D by lia.
  repeat (destruct D as [->|D]; [exact Hc|]). subst c. exact Hc.
Qed.

(* ---------- masks ---------- *)
Fixpoint bits (l : list bool) : Z :=
  match l with [] => 0 | b :: r => Z.b2z b + 2 * bits r end.

(** [K]'s bits are among [l]'s, none of [K]'s bits are, [l] is exactly [K]. *)
Fixpoint has_all (l : list bool) (K : Z) : bool :=
  match l with [] => K =? 0 | b :: r => implb (Z.odd K) b && has_all r (Z.div2 K) end.
Fixpoint has_none (l : list bool) (K : Z) : bool :=
  match l with [] => true | b :: r => negb (Z.odd K && b) && has_none r (Z.div2 K) end.
Fixpoint is_mask (l : list bool) (K : Z) : bool :=
  match l with [] => K =? 0 | b :: r => Bool.eqb b (Z.odd K) && is_mask r (Z.div2 K) end.

Lemma halves K : K = Z.b2z (Z.odd K) + 2 * Z.div2 K.
Proof. rewrite (Z.div2_odd K) at 1. lia. Qed.

Lemma land_double a k b c :
  Z.land (Z.b2z b + 2 * a) (Z.b2z c + 2 * k) = Z.b2z (b && c) + 2 * Z.land a k.
Proof.
  apply Z.bits_inj'. intros n Hn. rewrite Z.land_spec.
  destruct (Z.eq_dec n 0) as [->|Hn0].
  - rewrite !Z.add_b2z_double_bit0. reflexivity.
  - replace n with (Z.succ (n - 1)) by lia. rewrite <- !Z.div2_bits by lia.
    rewrite ?Z.div2_div, !Z.add_b2z_double_div2, Z.land_spec. reflexivity.
Qed.

Lemma land_all l : forall K, (Z.land (bits l) K =? K) = has_all l K.
Proof.
  induction l as [|b l IH]; intros K; cbn [bits has_all].
  - rewrite Z.land_0_l. lia.
  - rewrite (halves K) at 1 2. rewrite land_double, <- IH.
    set (x := Z.land (bits l) (Z.div2 K)). set (y := Z.div2 K).
    destruct b, (Z.odd K); cbn [andb implb Z.b2z]; lia.
Qed.
Lemma land_none l : forall K, (Z.land (bits l) K =? 0) = has_none l K.
Proof.
  induction l as [|b l IH]; intros K; cbn [bits has_none].
  - rewrite Z.land_0_l. reflexivity.
  - rewrite (halves K) at 1. rewrite land_double, <- IH.
    destruct b, (Z.odd K); cbn [andb negb Z.b2z]; lia.
Qed.
Lemma bits_eq l : forall K, (bits l =? K) = is_mask l K.
Proof.
  induction l as [|b l IH]; intros K; cbn [bits is_mask].
  - lia.
  - rewrite (halves K) at 1. rewrite <- IH. destruct b, (Z.odd K); cbn [Bool.eqb andb Z.b2z]; lia.
Qed.
Lemma bits_nonneg l : 0 <= bits l.
Proof. induction l as [|[] l IH]; cbn [bits Z.b2z]; lia. Qed.

Lemma bits_app l b : bits (l ++ [b]) = bits l + 2 ^ Z.of_nat (length l) * Z.b2z b.
Proof.
  induction l as [|x l IH]; [cbn [app bits length]; rewrite Z.pow_0_r; lia|].
  cbn [app bits length]. rewrite IH, Nat2Z.inj_succ, Z.pow_succ_r by lia. lia.
Qed.
Lemma bits_lor l : Z.lor (bits l) (2 ^ Z.of_nat (length l)) = bits (l ++ [true]).
Proof.
  induction l as [|x l IH]; [reflexivity|]. cbn [app bits length].
  rewrite <- IH, Nat2Z.inj_succ, Z.pow_succ_r by lia.
  apply Z.bits_inj'. intros n Hn. rewrite Z.lor_spec.
  destruct (Z.eq_dec n 0) as [->|Hn0].
  - rewrite !Z.add_b2z_double_bit0, Z.testbit_even_0, orb_false_r. reflexivity.
  - replace n with (Z.succ (n - 1)) by lia. rewrite <- !Z.div2_bits by lia.
    rewrite ?Z.div2_div, !Z.add_b2z_double_div2, Z.lor_spec.
    replace (2 * 2 ^ Z.of_nat (length l) / 2) with (2 ^ Z.of_nat (length l)) by lia. reflexivity.
Qed.

Lemma masks_ok n : forall p q r ld ls, length q = n -> length ld = length p -> length ls = length p ->
  desig_masks n (p ++ q ++ r) (Z.of_nat (length p)) (2 ^ Z.of_nat (length p)) (bits ld) (bits ls)
  = Ret (bits (ld ++ map isdigit q), bits (ls ++ map (fun c => c =? 32) q)).
Proof.
  induction n as [|n IH]; intros p q r ld ls Hq Hld Hls.
  - destruct q; [|discriminate]. cbn. rewrite !app_nil_r. reflexivity.
  - destruct q as [|c q]; [discriminate|]. cbn [desig_masks].
    change ((c :: q) ++ r) with (c :: q ++ r). rewrite at_split. cbn [obind]. cbv zeta.
    replace (Z.of_nat (length p) + 1) with (Z.of_nat (length (p ++ [c]))) by (rewrite app_length; cbn; lia).
    replace (Z.shiftl (2 ^ Z.of_nat (length p)) 1) with (2 ^ Z.of_nat (length (p ++ [c]))).
    2: { rewrite Z.shiftl_mul_pow2 by lia. rewrite app_length, Nat2Z.inj_add, Z.pow_add_r by lia. reflexivity. }
    replace (p ++ c :: q ++ r) with ((p ++ [c]) ++ q ++ r) by (rewrite <- app_assoc; reflexivity).
    assert (Ez : forall l, bits l = bits (l ++ [false])) by (intros l; rewrite bits_app; cbn [Z.b2z]; lia).
    assert (Ed : (if isdigit c then Z.lor (bits ld) (2 ^ Z.of_nat (length p)) else bits ld) = bits (ld ++ [isdigit c])).
    { destruct (isdigit c); [rewrite <- Hld; apply bits_lor|apply Ez]. }
    assert (Es : (if isdigit c then bits ls else if c =? 32 then Z.lor (bits ls) (2 ^ Z.of_nat (length p)) else bits ls)
      = bits (ls ++ [c =? 32])).
    { destruct (isdigit c) eqn:E; [assert (c =? 32 = false) as -> by (unfold isdigit in E; lia); apply Ez|].
      destruct (c =? 32); [rewrite <- Hls; apply bits_lor|apply Ez]. }
    rewrite Ed, Es. rewrite IH; [|cbn in Hq; lia|rewrite !app_length; cbn; lia|rewrite !app_length; cbn; lia].
    rewrite <- !app_assoc. reflexivity.
Qed.

Lemma masks12 q r : length q = 12%nat ->
  desig_masks 12 (q ++ r) 0 1 0 0 = Ret (bits (map isdigit q), bits (map (fun c => c =? 32) q)).
Proof. intros H. exact (masks_ok 12 [] q r [] [] H eq_refl eq_refl). Qed.
