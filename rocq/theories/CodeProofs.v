(** Lemmas on the model of lines that describe an observatory. *)
From Coq Require Import Lia QArith Qround Qreals Lqa.
From Coq Require Import String.
From Verif Require Import CBase CLemmas CStr TstrModel TstrSpec TstrNum MpcfModel MpcfRead TrigBase EllModel EllSpec EllProofs CodeModel CodeSpec.
Local Open Scope string_scope.
Local Open Scope list_scope.
Local Open Scope Z_scope.

Lemma at_byte s n c : nth_error s n = Some c -> at_ s (Z.of_nat n) = Ret c.
Proof.
  intros H. assert (L : (n < List.length s)%nat) by (apply nth_error_Some; congruence). unfold at_.
  destruct (Z.eqb_spec (Z.of_nat n) (Z.of_nat (List.length s))); [lia|]. rewrite (nth_ub_ok s (Z.of_nat n) 0) by lia. rewrite Nat2Z.id. f_equal. now apply nth_error_nth.
Qed.
Lemma tst_byte s n c f : nth_error s n = Some c -> tst s (Z.of_nat n) f = Ret (f c).
Proof. intros H. unfold tst. now rewrite (at_byte s n c H). Qed.

(** Numbers in fixed fields. *)
Lemma skip_sp i t : skip_spaces (blanks i ++ t) = skip_spaces t.
Proof. unfold skip_spaces, blanks. induction i as [|i IH]; [reflexivity|]. cbn [repeat app span]. change (32 =? 32) with true. cbn [skipn]. exact IH. Qed.
Lemma skip_non c t : c <> 32 -> skip_spaces (c :: t) = c :: t.
Proof. intros H. unfold skip_spaces. cbn [span]. destruct (Z.eqb_spec 32 c); [lia|]. reflexivity. Qed.
Lemma dig_range c : isdigit c = true -> 48 <= c <= 57.
Proof. unfold isdigit. lia. Qed.
Lemma p10 n : (n <= 9)%nat -> 0 < 10 ^ Z.of_nat n <= 1000000000.
Proof. intros H. split; [apply Z.pow_pos_nonneg; lia|]. change 1000000000 with (10 ^ 9). apply Z.pow_le_mono_r; lia. Qed.
Lemma p10_S n : 10 ^ Z.of_nat (S n) = 10 * 10 ^ Z.of_nat n.
Proof. rewrite Nat2Z.inj_succ, Z.pow_succ_r by lia. reflexivity. Qed.
Lemma int_all s : forall r acc, all_digits s -> stops r -> 0 <= acc -> (acc + 1) * 10 ^ Z.of_nat (List.length s) <= 1000000000 ->
  int_digits (s ++ r) acc = Ret (dig_val acc s, r) /\ 0 <= dig_val acc s < (acc + 1) * 10 ^ Z.of_nat (List.length s).
Proof.
  induction s as [|c s IH]; intros r acc D Hr Ha Hb.
  - cbn [app dig_val List.length]. change (10 ^ Z.of_nat 0) with 1. split; [now apply stops_int|lia].
  - pose proof (D c (or_introl eq_refl)) as C. pose proof (dig_range c C) as R. cbn [List.length] in Hb |- *. rewrite p10_S in Hb |- *.
    set (P := 10 ^ Z.of_nat (List.length s)) in *. assert (P0 : 0 < P) by (apply Z.pow_pos_nonneg; lia).
    assert (B : acc * 10 + (c - 48) <= 1000000000) by nia.
    cbn [app int_digits dig_val]. rewrite C. rewrite ev_val by (cbn [safe val]; unfold fits, IMAX; lia). cbn [obind val].
    destruct (IH r (acc * 10 + (c - 48))) as [E V]; [intros x Hx; apply D; now right|assumption|lia|fold P; nia|]. split; [exact E|]. fold P in V. nia.
Qed.
Lemma frac_all s : forall r acc dv, all_digits s -> stops r -> 0 <= acc -> 0 < dv -> (acc + 1) * 10 ^ Z.of_nat (List.length s) <= 1000000000 -> dv * 10 ^ Z.of_nat (List.length s) <= 1000000000 ->
  frac_digits (s ++ r) acc dv = Ret (dig_val acc s, dv * 10 ^ Z.of_nat (List.length s), r).
Proof.
  induction s as [|c s IH]; intros r acc dv D Hr Ha Hd Hb Hc.
  - cbn [app dig_val List.length]. change (10 ^ Z.of_nat 0) with 1. rewrite Z.mul_1_r. now apply stops_frac.
  - pose proof (D c (or_introl eq_refl)) as C. pose proof (dig_range c C) as R. cbn [List.length] in Hb, Hc |- *. rewrite p10_S in Hb, Hc |- *.
    set (P := 10 ^ Z.of_nat (List.length s)) in *. assert (P0 : 0 < P) by (apply Z.pow_pos_nonneg; lia).
    assert (B : acc * 10 + (c - 48) <= 1000000000) by nia. assert (B2 : dv * 10 <= 1000000000) by nia.
    cbn [app frac_digits dig_val]. rewrite C. rewrite ev_val by (cbn [safe val]; unfold fits, IMAX; lia). cbn [obind val].
    rewrite ev_val by (cbn [safe val]; unfold fits, IMAX; lia). cbn [obind val].
    rewrite IH; [f_equal; f_equal; f_equal; fold P; ring|intros x Hx; apply D; now right|assumption|lia|lia|fold P; nia|fold P; nia].
Qed.
Lemma stops_blanks j : stops (blanks j).
Proof. destruct j; [exact I|reflexivity]. Qed.
Lemma sign_digit c t : isdigit c = true -> sign_of (c :: t) = (false, c :: t).
Proof.
  intros C. pose proof (dig_range c C). assert (K : c = 48 \/ c = 49 \/ c = 50 \/ c = 51 \/ c = 52 \/ c = 53 \/ c = 54 \/ c = 55 \/ c = 56 \/ c = 57) by lia.
  clear C H. repeat (destruct K as [->|K]; [reflexivity|]). now subst c.
Qed.
Lemma qa_field i t v d w j : digits_of t v -> (List.length t <= 9)%nat -> all_digits d -> dig_val 0 d = w -> (List.length d <= 9)%nat ->
  quick_atof (blanks i ++ t ++ 46 :: d ++ blanks j) = Ret (with_decimals v (List.length d) w).
Proof.
  intros (NE & D & V) L Dd W Ld. pose proof (p10 _ L). pose proof (p10 _ Ld).
  destruct (int_all t (46 :: d ++ blanks j) 0 D) as [E _]; [reflexivity|lia|lia|]. destruct t as [|c t]; [congruence|].
  pose proof (D c (or_introl eq_refl)) as C. pose proof (dig_range c C) as R.
  unfold quick_atof, quick_strtod. rewrite skip_sp. cbn [app]. rewrite skip_non by lia. rewrite sign_digit by exact C. rewrite C.
  cbn [app] in E. rewrite E. cbn [obind]. change (negb true) with false. rewrite Bool.andb_false_r.
  rewrite (frac_all d (blanks j) 0 1 Dd (stops_blanks j)) by lia. cbn [obind]. rewrite V, W, Z.mul_1_l. reflexivity.
Qed.
Lemma qa_signed sg c d w j : In sg [32; 43; 45] -> isdigit c = true -> all_digits d -> dig_val 0 d = w -> (List.length d <= 9)%nat ->
  quick_atof (sg :: c :: 46 :: d ++ blanks j) = Ret (let q := with_decimals (c - 48) (List.length d) w in if sg =? 45 then - q else q)%Q.
Proof.
  intros Hs C Dd W Ld.
  assert (Ht : digits_of [c] (c - 48)). { split; [discriminate|]. split; [intros x [<-|[]]; exact C|]. cbn [dig_val]. rewrite C. lia. }
  assert (E : int_digits (c :: 46 :: d ++ blanks j) 0 = Ret (c - 48, 46 :: d ++ blanks j)).
  { destruct Ht as (_ & D & V). destruct (int_all [c] (46 :: d ++ blanks j) 0 D) as [E _]; [reflexivity|lia|cbn; lia|]. rewrite V in E. exact E. }
  pose proof (dig_range c C) as R. pose proof (p10 _ Ld).
  cbn [In] in Hs. destruct Hs as [<-|[<-|[<-|[]]]].
  - exact (qa_field 1 [c] (c - 48) d w j Ht ltac:(cbn; lia) Dd W Ld).
  - unfold quick_atof, quick_strtod. rewrite skip_non by lia. cbn [sign_of]. rewrite C. change (43 =? 45) with false. rewrite E. cbn [obind]. change (negb true) with false. rewrite Bool.andb_false_r.
    rewrite (frac_all d (blanks j) 0 1 Dd (stops_blanks j)) by lia. cbn [obind]. rewrite W, Z.mul_1_l. reflexivity.
  - unfold quick_atof, quick_strtod. rewrite skip_non by lia. cbn [sign_of]. rewrite C. change (45 =? 45) with true. rewrite E. cbn [obind]. change (negb true) with false. rewrite Bool.andb_false_r.
    rewrite (frac_all d (blanks j) 0 1 Dd (stops_blanks j)) by lia. cbn [obind]. rewrite W, Z.mul_1_l. reflexivity.
Qed.
Lemma span_dec t j : all_digits t -> span isdigit (t ++ blanks j) = List.length t.
Proof.
  induction t as [|c t IH]; intros D; [destruct j; reflexivity|]. cbn [app span List.length]. rewrite (D c (or_introl eq_refl)). f_equal. apply IH. intros x Hx. apply D. now right.
Qed.

(** No text of up to nine bytes is too much for the reader. *)
Lemma run_split s : exists ds t, s = ds ++ t /\ all_digits ds /\ stops t.
Proof.
  induction s as [|c s (ds & t & E & D & T)]; [exists [], []; split; [reflexivity|split; [intros x []|exact I]]|].
  destruct (isdigit c) eqn:C.
  - exists (c :: ds), t. split; [now rewrite E|]. split; [|exact T]. intros x [<-|H]; [exact C|now apply D].
  - exists [], (c :: s). split; [reflexivity|]. split; [intros x []|exact C].
Qed.
Lemma qa_short s : (List.length s <= 9)%nat -> exists v, quick_atof s = Ret v.
Proof.
  intros L. unfold quick_atof, quick_strtod.
  assert (L1 : (List.length (skip_spaces s) <= 9)%nat) by (unfold skip_spaces; rewrite skipn_length; lia).
  destruct (sign_of (skip_spaces s)) as [neg u] eqn:Eu.
  assert (L2 : (List.length u <= 9)%nat).
  { unfold sign_of in Eu. destruct (skip_spaces s) as [|c r]; [injection Eu as <- <-; cbn; lia|]. cbn [List.length] in L1.
    assert (K : u = r \/ u = c :: r). { destruct c as [|c|c]; try (injection Eu as <- <-; now right). do 6 (destruct c as [c|c|]; try (injection Eu as <- <-; auto)). }
    destruct K as [-> | ->]; cbn [List.length]; lia. }
  destruct (run_split u) as (ds & t & -> & D & T). rewrite app_length in L2. pose proof (p10 (List.length ds) ltac:(lia)) as P.
  destruct (int_all ds t 0 D T) as [E _]; [lia|lia|]. rewrite E. cbn [obind].
  assert (K : forall (x y : outcome (Q * list Z)), (exists v, x = Ret v) -> (exists v, y = Ret v) -> exists v, (do '(v, _) <- match t with 46 :: _ => x | _ => y end; Ret v) = Ret v).
  { intros x y ([v1 w1] & ->) ([v2 w2] & ->). destruct t as [|c t]; [eexists; reflexivity|]. destruct c as [|c|c]; try (eexists; reflexivity).
    do 6 (destruct c as [c|c|]; try (eexists; reflexivity)). }
  set (got := match ds ++ t with c :: _ => isdigit c | [] => false end). clearbody got.
  destruct t as [|c t]; [eexists; reflexivity|].
  destruct (Z.eq_dec c 46) as [->|N].
  - destruct (negb _ && negb got); [eexists; reflexivity|]. destruct (run_split t) as (ds' & t' & -> & D' & T'). cbn [List.length] in L2. rewrite app_length in L2.
    pose proof (p10 (List.length ds') ltac:(lia)). rewrite (frac_all ds' t' 0 1 D' T') by lia. cbn [obind]. eexists; reflexivity.
  - destruct c as [|c|c]; try (eexists; reflexivity). do 6 (destruct c as [c|c|]; try (eexists; reflexivity)). now destruct N.
Qed.
