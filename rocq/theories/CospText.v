(** Lemmas for C60: numbers and lines. *)
From Coq Require Import QArith Qreals Reals String Lia.
From Verif Require Import CBase CStr RBase TstrModel TstrSpec TstrNum CospModel CospSpec.
From Verif Require SofModel.
Import ListNotations.
Local Open Scope string_scope.
Local Open Scope list_scope.
Local Open Scope Z_scope.

Lemma dig_val_more s r : (forall c, In c s -> isdigit c = true) -> (match r with [] => True | c :: _ => isdigit c = false end) ->
  forall a, dig_val a (s ++ r) = dig_val a s.
Proof.
  intros H Hr. induction s as [|c s IH]; intro a; cbn [app].
  - destruct r as [|c r]; [reflexivity|]. cbn [dig_val]. now rewrite Hr.
  - cbn [dig_val]. rewrite (H c) by now left. apply IH. intros; apply H; now right.
Qed.
Definition no_digit (r : list Z) : Prop := match r with [] => True | c :: _ => isdigit c = false end.
Lemma num_end_digit r : num_end r -> no_digit r.
Proof. destruct r; [exact (fun x => x)|]. now intros (H & _). Qed.
Lemma span_no_digit r : no_digit r -> span isdigit r = 0%nat.
Proof. destruct r as [|c r]; [reflexivity|]. cbn [no_digit span]. now intros ->. Qed.

Lemma exponent_text s ds e r : digits_of ds e -> In s [[]; [43]; [45]] -> no_digit r ->
  exponent (101 :: (s ++ ds) ++ r) = Some (Some ((match s with [45] => - e | _ => e end), r)).
Proof.
  intros (Hn & Hd & Hv) Hs Hr. unfold exponent. change ((101 =? 101) || (101 =? 69)) with true. cbv iota.
  assert (K : sign_of ((s ++ ds) ++ r) = ((match s with [45] => true | _ => false end), ds ++ r)).
  { destruct Hs as [<-|[<-|[<-|[]]]]; try reflexivity. cbn [app]. destruct ds as [|c ds]; [congruence|].
    assert (Hc : isdigit c = true) by (apply Hd; now left). apply digit_range in Hc. cbn [app]. unfold sign_of.
    destruct c as [|p|p]; try lia. do 6 (destruct p as [p|p|]; try reflexivity); lia. }
  rewrite K. rewrite span_all_app by assumption. rewrite span_no_digit by assumption. rewrite Nat.add_0_r.
  destruct (List.length ds =? 0)%nat eqn:El; [apply Nat.eqb_eq in El; destruct ds; [congruence|discriminate]|].
  rewrite skipn_app_l. rewrite dig_val_more by assumption. rewrite Hv.
  destruct Hs as [<-|[<-|[<-|[]]]]; reflexivity.
Qed.

(** a number with an exponent: only the exponent's mark follows the first part *)
Definition exp_end (r : list Z) : Prop := num_end r \/ exists r', r = 101 :: r'.
Lemma mantissa_more n q r : number_of n q -> exp_end r ->
  exists m k, mantissa (n ++ r) = Some (m, k, r) /\ decimal false m k = q /\ decimal true m k = (- q)%Q.
Proof.
  intros H [He|(r' & ->)]; [now apply mantissa_number|].
  destruct H as [(v & (Hn & Hd & Hv) & ->)|(a & b & v & Hd & Hn & -> & Hv & ->)]; unfold mantissa.
  - rewrite span_all_app by assumption. change (span isdigit (101 :: r')) with 0%nat. rewrite Nat.add_0_r.
    rewrite skipn_app_l, firstn_app_l. exists v, 0%nat.
    assert (Hl : (List.length n =? 0)%nat = false) by (destruct n; [congruence|reflexivity]).
    split; [|split; reflexivity]. now rewrite Hl, Hv.
  - assert (Ha : forall c, In c a -> isdigit c = true) by (intros; apply Hd, in_or_app; now left).
    assert (Hb : forall c, In c b -> isdigit c = true) by (intros; apply Hd, in_or_app; now right).
    rewrite <- app_assoc. rewrite span_all_app by assumption. cbn [app span]. change (isdigit 46) with false.
    cbv iota. rewrite Nat.add_0_r, skipn_app_l, firstn_app_l.
    rewrite span_all_app by assumption. change (span isdigit (101 :: r')) with 0%nat. rewrite Nat.add_0_r.
    rewrite skipn_app_l, firstn_app_l.
    assert (Hl : (List.length a + List.length b =? 0)%nat = false)
      by (destruct a; [destruct b; [cbn in Hn; congruence|reflexivity]|reflexivity]).
    rewrite Hl, Hv. exists v, (List.length b). split; [reflexivity|split; reflexivity].
Qed.
Lemma modelled_more n q r : number_of n q -> exp_end r -> unmodelled_number (n ++ r) = false.
Proof.
  intros H [He|(r' & ->)]; [now apply (modelled n q)|].
  destruct (number_chars n q H) as (Hn & Hc). destruct n as [|c t]; [congruence|]. cbn [app].
  unfold unmodelled_number. assert (K : num_char c) by (apply Hc; now left). unfold num_char in K.
  rewrite (prefix_ne (zs "inf")) by (vm_compute; lia || discriminate).
  rewrite (prefix_ne (zs "nan")) by (vm_compute; lia || discriminate). cbn [orb].
  change (zs "0x") with [48; 120]. cbn [prefix]. destruct (48 =? c); [|reflexivity]. cbn [andb].
  destruct t as [|d t]; cbn [app]; [reflexivity|].
  assert (K2 : num_char d) by (apply Hc; right; now left). unfold num_char in K2.
  replace (120 =? d) with false by (symmetry; apply Z.eqb_neq; lia). reflexivity.
Qed.

(** with the sign before it *)
Definition signs (neg : bool) (s : list Z) : Prop := (neg = false /\ (s = [] \/ s = [43])) \/ (neg = true /\ s = [45]).
Lemma strtold_text neg s n q r : signs neg s -> numeral n q -> num_end r ->
  strtold ((s ++ n) ++ r) = Ret ((if neg then (- q)%Q else q), r) /\ scan_lf ((s ++ n) ++ r) = Ret (Some ((if neg then (- q)%Q else q), r)).
Proof.
  intros Hs Hn Hr.
  assert (K : exists n0 q0 r0, n ++ r = n0 ++ r0 /\ number_of n0 q0 /\ exp_end r0 /\
    ((r0 = r /\ q = q0) \/ exists e, exponent r0 = Some (Some (e, r)) /\ q = (q0 * (10 # 1) ^ e)%Q)).
  { destruct Hn as [n q H|n q s0 ds e H Hd Hs0].
    - exists n, q, r. repeat split; try assumption; [now left|now left].
    - exists n, q, (101 :: (s0 ++ ds) ++ r). split; [now rewrite <- app_assoc|]. split; [assumption|].
      split; [right; now eexists|]. right. exists (match s0 with [45] => - e | _ => e end).
      split; [|reflexivity]. apply exponent_text; try assumption. now apply num_end_digit. }
  destruct K as (n0 & q0 & r0 & E & H & He & Hq).
  rewrite <- app_assoc, E.
  assert (S1 : sign_of (skip_ws (s ++ n0 ++ r0)) = (neg, n0 ++ r0)).
  { destruct Hs as [(-> & [->| ->])|(-> & ->)]; try reflexivity.
    cbn [app]. rewrite (skip_ws_num n0 q0) by assumption. now rewrite (sign_num n0 q0) by assumption. }
  destruct (mantissa_more n0 q0 r0 H He) as (m & k & Em & E1 & E2).
  unfold strtold, scan_lf. rewrite S1. rewrite (modelled_more n0 q0 r0 H He), Em.
  destruct Hq as [(-> & ->)|(e & Ex & ->)].
  - rewrite end_exponent by assumption. split; destruct neg; congruence.
  - rewrite Ex. destruct neg; rewrite ?E1, ?E2.
    + assert (Hm : ((- q0) * (10 # 1) ^ e)%Q = (- (q0 * (10 # 1) ^ e))%Q).
      { unfold Qmult, Qopp. cbn [Qnum Qden]. now rewrite Z.mul_opp_l. }
      rewrite Hm. now split.
    + now split.
Qed.
Lemma strtold_signed n q r : signed_num n q -> num_end r -> strtold (n ++ r) = Ret (q, r).
Proof.
  intros H Hr. destruct H as [n q H|n q H].
  - apply (strtold_text false [43] n q r); [left; intuition|assumption|assumption].
  - apply (strtold_text true [45] n q r); [right; intuition|assumption|assumption].
Qed.
Lemma strtold_first n q r : first_num n q -> num_end r -> strtold (n ++ r) = Ret (q, r).
Proof.
  intros H Hr. destruct H as [n q H|n q H].
  - apply (strtold_text false [] n q r); [left; intuition|now constructor|assumption].
  - apply (strtold_text true [45] n q r); [right; intuition|now constructor|assumption].
Qed.
Lemma signed_head n q : signed_num n q -> exists c r, n = c :: r /\ (c = 43 \/ c = 45).
Proof. intros [m x _|m x _]; eauto. Qed.
Lemma signed_end n q r : signed_num n q -> num_end (n ++ r).
Proof. intro H. destruct (signed_head n q H) as (c & t & -> & [-> | ->]); cbn; repeat split; discriminate. Qed.
