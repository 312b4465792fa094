(** Numbers in text, trailing offsets. *)
From Coq Require Import QArith Lia.
From Coq Require Import String.
From Verif Require Import CBase CLemmas CStr DateModel TstrModel TstrSpec TstrCopy.
Local Open Scope list_scope.
Local Open Scope Z_scope.

Lemma span_all_app f a r : (forall c, In c a -> f c = true) ->
  span f (a ++ r) = (List.length a + span f r)%nat.
Proof.
  induction a as [|c a IH]; intro H; [reflexivity|]. cbn [app span List.length].
  rewrite (H c) by now left. rewrite IH by (intros; apply H; now right). reflexivity.
Qed.
Lemma firstn_app_l {A} (a r : list A) : firstn (List.length a) (a ++ r) = a.
Proof. rewrite firstn_app, Nat.sub_diag, firstn_O, app_nil_r. apply firstn_all. Qed.
Lemma skipn_app_l {A} (a r : list A) : skipn (List.length a) (a ++ r) = r.
Proof. rewrite skipn_app, Nat.sub_diag, skipn_all. reflexivity. Qed.

(** Where a number ends. *)
Definition num_end (r : list Z) : Prop :=
  match r with
  | [] => True
  | c :: _ => isdigit c = false /\ c <> 46 /\ c <> 101 /\ c <> 69 /\ c <> 120
  end.
Lemma end_span r : num_end r -> span isdigit r = 0%nat.
Proof. destruct r as [|c r]; [reflexivity|]. intros (H & _). cbn [span]. now rewrite H. Qed.
Lemma digit_range c : isdigit c = true <-> 48 <= c <= 57.
Proof. unfold isdigit. rewrite andb_true_iff, !Z.leb_le. reflexivity. Qed.

Definition num_char (c : Z) : Prop := 48 <= c <= 57 \/ c = 46.
Lemma number_chars n q : number_of n q -> n <> [] /\ forall c, In c n -> num_char c.
Proof.
  intros [(v & (Hn & Hd & _) & _)|(a & b & v & Hd & Hn & -> & _)].
  - split; [assumption|]. intros c Hc. left. apply digit_range. now apply Hd.
  - split; [destruct a; discriminate|]. intros c Hc. apply in_app_or in Hc. destruct Hc as [Hc|[<-|Hc]].
    + left. apply digit_range, Hd. apply in_or_app. now left.
    + now right.
    + left. apply digit_range, Hd. apply in_or_app. now right.
Qed.
Lemma mantissa_number n q r : number_of n q -> num_end r ->
  exists m k, mantissa (n ++ r) = Some (m, k, r) /\ decimal false m k = q /\ decimal true m k = (- q)%Q.
Proof.
  intros [(v & (Hn & Hd & Hv) & ->)|(a & b & v & Hd & Hn & -> & Hv & ->)] He; unfold mantissa.
  - rewrite span_all_app by assumption. rewrite end_span by assumption. rewrite Nat.add_0_r.
    rewrite skipn_app_l, firstn_app_l. exists v, 0%nat.
    assert (Hl : (List.length n =? 0)%nat = false) by (destruct n; [congruence|reflexivity]).
    split; [|split; reflexivity].
    destruct r as [|c r].
    + now rewrite Hl, Hv.
    + destruct He as (_ & H46 & _). rewrite Hl, Hv.
      destruct (Z.eq_dec c 46); [contradiction|].
      destruct c as [|p|p]; try reflexivity. do 6 (destruct p as [p|p|]; try reflexivity); congruence.
  - assert (Ha : forall c, In c a -> isdigit c = true) by (intros; apply Hd, in_or_app; now left).
    assert (Hb : forall c, In c b -> isdigit c = true) by (intros; apply Hd, in_or_app; now right).
    rewrite <- app_assoc. rewrite span_all_app by assumption. cbn [app span]. change (isdigit 46) with false.
    cbv iota. rewrite Nat.add_0_r, skipn_app_l, firstn_app_l.
    rewrite span_all_app by assumption. rewrite end_span by assumption. rewrite Nat.add_0_r.
    rewrite skipn_app_l, firstn_app_l.
    assert (Hl : (List.length a + List.length b =? 0)%nat = false)
      by (destruct a; [destruct b; [cbn in Hn; congruence|reflexivity]|reflexivity]).
    rewrite Hl, Hv. exists v, (List.length b). split; [reflexivity|split; reflexivity].
Qed.
Lemma end_exponent r : num_end r -> exponent r = None.
Proof.
  destruct r as [|c r]; [reflexivity|]. intros (_ & _ & H1 & H2 & _). unfold exponent.
  replace (c =? 101) with false by (symmetry; now apply Z.eqb_neq).
  replace (c =? 69) with false by (symmetry; now apply Z.eqb_neq). reflexivity.
Qed.
Lemma number_first n q : number_of n q -> exists c t, n = c :: t /\ num_char c.
Proof.
  intro H. destruct (number_chars n q H) as (Hn & Hc). destruct n as [|c t]; [congruence|].
  exists c, t. split; [reflexivity|]. apply Hc. now left.
Qed.
Lemma prefix_ne p c t : hd 0 p <> c -> p <> [] -> prefix p (c :: t) = false.
Proof. destruct p as [|x p]; [congruence|]. cbn [hd prefix]. intros H _. now rewrite (proj2 (Z.eqb_neq x c) H). Qed.
Lemma modelled n q r : number_of n q -> num_end r -> unmodelled_number (n ++ r) = false.
Proof.
  intros H He. destruct (number_chars n q H) as (Hn & Hc). destruct n as [|c t]; [congruence|]. cbn [app].
  unfold unmodelled_number. assert (K : num_char c) by (apply Hc; now left). unfold num_char in K.
  rewrite (prefix_ne (zs "inf")) by (vm_compute; lia || discriminate).
  rewrite (prefix_ne (zs "nan")) by (vm_compute; lia || discriminate). cbn [orb].
  change (zs "0x") with [48; 120]. cbn [prefix]. destruct (48 =? c); [|reflexivity]. cbn [andb].
  destruct t as [|d t]; cbn [app].
  - destruct r as [|e r]; [reflexivity|]. destruct He as (_ & _ & _ & _ & He).
    replace (120 =? e) with false by (symmetry; apply Z.eqb_neq; lia). reflexivity.
  - assert (K2 : num_char d) by (apply Hc; right; now left). unfold num_char in K2.
    replace (120 =? d) with false by (symmetry; apply Z.eqb_neq; lia). reflexivity.
Qed.
Lemma sign_num n q r : number_of n q -> sign_of (n ++ r) = (false, n ++ r).
Proof.
  intro H. destruct (number_first n q H) as (c & t & -> & K). cbn [app]. unfold sign_of.
  unfold num_char in K. destruct c as [|p|p]; try lia. 
  destruct (Z.eq_dec (Z.pos p) 45); [lia|]. destruct (Z.eq_dec (Z.pos p) 43); [lia|].
  do 6 (destruct p as [p|p|]; try reflexivity); lia.
Qed.
Lemma skip_ws_num n q r : number_of n q -> skip_ws (n ++ r) = n ++ r.
Proof.
  intro H. destruct (number_first n q H) as (c & t & -> & K). unfold skip_ws. cbn [app span].
  unfold num_char in K. replace (isspace c) with false; [reflexivity|].
  unfold isspace. symmetry. rewrite orb_false_iff, andb_false_iff, Z.eqb_neq, !Z.leb_gt. lia.
Qed.
Lemma skip_ws_sp s : skip_ws (32 :: s) = skip_ws s.
Proof. reflexivity. Qed.
Lemma skip_ws_sign c s : is_sign c = true -> skip_ws (c :: s) = c :: s.
Proof. unfold is_sign. rewrite orb_true_iff, !Z.eqb_eq. intros [->| ->]; reflexivity. Qed.

Lemma scan_lf_num n q r : number_of n q -> num_end r -> scan_lf (n ++ r) = Ret (Some (q, r)).
Proof.
  intros H He. unfold scan_lf. rewrite (skip_ws_num n q) by assumption. rewrite (sign_num n q) by assumption.
  rewrite (modelled n q) by assumption. destruct (mantissa_number n q r H He) as (m & k & -> & E & _).
  rewrite end_exponent by assumption. now rewrite E.
Qed.
Lemma scan_lf_minus n q r : number_of n q -> num_end r -> scan_lf (45 :: n ++ r) = Ret (Some ((- q)%Q, r)).
Proof.
  intros H He. unfold scan_lf. rewrite skip_ws_sign by reflexivity. cbn [sign_of].
  rewrite (modelled n q) by assumption. destruct (mantissa_number n q r H He) as (m & k & -> & _ & E).
  rewrite end_exponent by assumption. now rewrite E.
Qed.
Lemma scan_lf_plus n q r : number_of n q -> num_end r -> scan_lf (43 :: n ++ r) = Ret (Some (q, r)).
Proof.
  intros H He. unfold scan_lf. rewrite skip_ws_sign by reflexivity. cbn [sign_of].
  rewrite (modelled n q) by assumption. destruct (mantissa_number n q r H He) as (m & k & -> & E & _).
  rewrite end_exponent by assumption. now rewrite E.
Qed.
Lemma strtold_num n q r : number_of n q -> num_end r -> strtold (n ++ r) = Ret (q, r).
Proof.
  intros H He. unfold strtold. rewrite (skip_ws_num n q) by assumption. rewrite (sign_num n q) by assumption.
  rewrite (modelled n q) by assumption. destruct (mantissa_number n q r H He) as (m & k & -> & E & _).
  rewrite end_exponent by assumption. now rewrite E.
Qed.
Lemma digits_number s v : digits_of s v -> number_of s (inject_Z v).
Proof. intro H. left. exists v. split; [assumption|reflexivity]. Qed.
Lemma scan_d_num L s v r : digits_of s v -> (match r with [] => True | c :: _ => isdigit c = false end) ->
  0 <= v <= L -> scan_d L (s ++ r) = Ret (Some (v, r)).
Proof.
  intros H He Hr. unfold scan_d. pose proof (digits_number s v H) as Hq.
  rewrite (skip_ws_num _ _ _ Hq), (sign_num _ _ _ Hq). destruct H as (Hn & Hd & Hv).
  rewrite span_all_app by assumption.
  replace (span isdigit r) with 0%nat by (destruct r; [reflexivity|cbn [span]; now rewrite He]).
  rewrite Nat.add_0_r, skipn_app_l.
  replace (List.length s =? 0)%nat with false by (destruct s; [congruence|reflexivity]).
  assert (E : forall acc, dig_val acc (s ++ r) = dig_val acc s).
  { clear -Hd He. induction s as [|c s IH]; intro acc; cbn [app dig_val].
    - destruct r as [|c r]; [reflexivity|]. cbn [dig_val]. now rewrite He.
    - rewrite (Hd c) by now left. apply IH. intros; apply Hd; now right. }
  rewrite E, Hv. unfold chk, in_rng. replace (- L - 1 <=? v) with true by (symmetry; apply Z.leb_le; lia).
  replace (v <=? L) with true by (symmetry; apply Z.leb_le; lia). reflexivity.
Qed.
Lemma dig_val_nonneg s : forall acc, 0 <= acc -> 0 <= dig_val acc s.
Proof.
  induction s as [|c s IH]; intros acc H; cbn [dig_val]; [assumption|].
  destruct (isdigit c) eqn:E; [|assumption]. apply IH. apply digit_range in E. lia.
Qed.
Lemma digits_bound s v : digits_of s v -> 0 <= v < 10 ^ Z.of_nat (List.length s).
Proof.
  intros (_ & Hd & <-). split; [apply dig_val_nonneg; lia|].
  enough (G : forall acc, 0 <= acc -> dig_val acc s < (acc + 1) * 10 ^ Z.of_nat (List.length s)) by (specialize (G 0 ltac:(lia)); lia).
  induction s as [|c s IH]; intros acc Ha; cbn [dig_val List.length].
  - cbn. lia.
  - rewrite (Hd c) by now left. pose proof (Hd c ltac:(now left)) as K. apply digit_range in K.
    specialize (IH ltac:(intros; apply Hd; now right) (acc * 10 + (c - 48)) ltac:(lia)).
    rewrite Nat2Z.inj_succ, Z.pow_succ_r by lia. nia.
Qed.

(** Texts without signs, and the last sign of a text. *)
Definition no_sign (t : list Z) : Prop := forall c, In c t -> is_sign c = false.
Lemma last_sign_none t : no_sign t -> last_sign t = None.
Proof.
  induction t as [|c t IH]; intro H; [reflexivity|]. cbn [last_sign].
  rewrite IH by (intros y Hy; apply H; now right). now rewrite (H c) by now left.
Qed.
Lemma last_sign_app p sg t : is_sign sg = true -> no_sign t -> last_sign (p ++ sg :: t) = Some (List.length p).
Proof.
  intros Hs Ht. induction p as [|c p IH]; cbn [app last_sign List.length].
  - rewrite last_sign_none by assumption. now rewrite Hs.
  - now rewrite IH.
Qed.
Lemma num_no_sign n q : number_of n q -> no_sign n.
Proof.
  intros H c Hc. destruct (number_chars n q H) as (_ & K). specialize (K c Hc). unfold num_char in K.
  unfold is_sign. rewrite orb_false_iff, !Z.eqb_neq. lia.
Qed.
Lemma at_last p x y t : t = p ++ [x; y] ->
  at_ t (Z.of_nat (List.length t) - 1) = Ret y /\ at_ t (Z.of_nat (List.length t) - 2) = Ret x.
Proof.
  intros ->. rewrite app_length. cbn [List.length]. unfold at_. rewrite app_length. cbn [List.length].
  split.
  - replace (Z.of_nat (List.length p + 2) - 1 =? Z.of_nat (List.length p + 2)) with false by (symmetry; apply Z.eqb_neq; lia).
    unfold nth_ub. replace (Z.of_nat (List.length p + 2) - 1 <? 0) with false by (symmetry; apply Z.ltb_ge; lia).
    replace (Z.to_nat (Z.of_nat (List.length p + 2) - 1)) with (List.length p + 1)%nat by lia.
    rewrite nth_error_app2 by lia. replace (List.length p + 1 - List.length p)%nat with 1%nat by lia. reflexivity.
  - replace (Z.of_nat (List.length p + 2) - 2 =? Z.of_nat (List.length p + 2)) with false by (symmetry; apply Z.eqb_neq; lia).
    unfold nth_ub. replace (Z.of_nat (List.length p + 2) - 2 <? 0) with false by (symmetry; apply Z.ltb_ge; lia).
    replace (Z.to_nat (Z.of_nat (List.length p + 2) - 2)) with (List.length p)%nat by lia.
    rewrite nth_error_app2 by lia. rewrite Nat.sub_diag. reflexivity.
Qed.
Lemma unit_scale u d : unit_days u d -> scale u = d /\ strchr (zs "smhdwlyc") u = true /\ islower u = true /\ u <> 113 /\
  is_sign u = false /\ isspace u = false.
Proof.
  unfold unit_days. cbn [In]. intros H.
  repeat (destruct H as [H|H]; [injection H as <- <-; repeat split; (reflexivity || lia)|]). destruct H.
Qed.

Lemma sp_end t : num_end (32 :: t).
Proof. repeat split; lia || reflexivity. Qed.
(** One offset at the end of the text. *)
Lemma collect_offset b sg n q u d : (sg = 43 \/ sg = 45) -> number_of n q -> unit_days u d ->
  collect_time_offset (b ++ 32 :: sg :: n ++ [32; u]) =
  Ret (((if sg =? 45 then - q else q) * d)%Q, remove_trailing_spaces (b ++ [32])).
Proof.
  intros Hs Hn Hu. destruct (unit_scale u d Hu) as (Es & Ec & El & Eq_ & Esg & Ews).
  set (t := b ++ 32 :: sg :: n ++ [32; u]). unfold collect_time_offset.
  assert (Et : t = (b ++ 32 :: sg :: n) ++ [32; u]) by (unfold t; rewrite <- app_assoc; reflexivity).
  destruct (at_last _ _ _ _ Et) as [A1 A2].
  assert (Hl : (1 <? List.length t)%nat = true) by (rewrite Et, app_length; cbn [List.length]; apply Nat.ltb_lt; lia).
  rewrite Hl, A1, A2. cbn [obind]. rewrite Ec. cbn [andb Z.eqb].
  assert (Sg : is_sign sg = true) by (destruct Hs as [->| ->]; reflexivity).
  assert (LS : last_sign t = Some (List.length (b ++ [32]))).
  { unfold t. replace (b ++ 32 :: sg :: n ++ [32; u]) with ((b ++ [32]) ++ sg :: (n ++ [32; u])) by (rewrite <- app_assoc; reflexivity).
    apply last_sign_app; [assumption|]. intros c Hc. apply in_app_or in Hc. destruct Hc as [Hc|[<-|[<-|[]]]]; [|reflexivity|assumption].
    exact (num_no_sign n q Hn c Hc). }
  change (32 =? 32) with true. cbv iota. rewrite LS.
  assert (SK : skipn (List.length (b ++ [32])) t = sg :: n ++ [32; u]).
  { unfold t. replace (b ++ 32 :: sg :: n ++ [32; u]) with ((b ++ [32]) ++ sg :: (n ++ [32; u])) by (rewrite <- app_assoc; reflexivity).
    apply skipn_app_l. }
  assert (FK : firstn (List.length (b ++ [32])) t = b ++ [32]).
  { unfold t. replace (b ++ 32 :: sg :: n ++ [32; u]) with ((b ++ [32]) ++ sg :: (n ++ [32; u])) by (rewrite <- app_assoc; reflexivity).
    apply firstn_app_l. }
  rewrite SK, FK.
  destruct Hs as [->| ->].
  - rewrite (scan_lf_plus n q) by (assumption || apply sp_end). cbn [obind].
    rewrite skip_ws_sp. unfold skip_ws. cbn [span]. rewrite Ews. cbn [skipn]. rewrite Es. reflexivity.
  - rewrite (scan_lf_minus n q) by (assumption || apply sp_end). cbn [obind].
    rewrite skip_ws_sp. unfold skip_ws. cbn [span]. rewrite Ews. cbn [skipn]. rewrite Es. reflexivity.
Qed.
