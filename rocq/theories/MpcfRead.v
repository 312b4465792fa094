(** Reading angles. *)
From Coq Require Import Lia QArith Qround Qabs Lqa.
From Coq Require Import String.
From Verif Require Import CBase CLemmas CStr StrModel StrProofs TstrModel CtimeModel CtimeSpec CtimeBuf CtimeProofs CtimeJd CtimeRound MpcfModel MpcfSpec MpcfWrite.
Local Open Scope string_scope.
Local Open Scope list_scope.
Local Open Scope Z_scope.

Lemma pow_ne n : ~ (inject_Z (10 ^ Z.of_nat n) == 0)%Q.
Proof. pose proof (pow_pos n). intros E. change 0%Q with (inject_Z 0) in E. rewrite inject_Z_injective in E. lia. Qed.
(** Text that does not go on with a digit. *)
Definition stops (t : list Z) : Prop := match t with c :: _ => isdigit c = false | [] => True end.
Lemma is_digit_48 v : 0 <= v < 10 -> isdigit (48 + v) = true.
Proof. intros H. unfold isdigit. lia. Qed.
Lemma stops_int t acc : stops t -> int_digits t acc = Ret (acc, t).
Proof. destruct t as [|c t]; [reflexivity|]. cbn [stops int_digits]. now intros ->. Qed.
Lemma stops_frac t a b : stops t -> frac_digits t a b = Ret (a, b, t).
Proof. destruct t as [|c t]; [reflexivity|]. cbn [stops frac_digits]. now intros ->. Qed.
Lemma stops_span t : stops t -> span isdigit t = O.
Proof. destruct t as [|c t]; [reflexivity|]. cbn [stops span]. now intros ->. Qed.
Lemma step_div v m : 0 <= v -> v / 10 ^ Z.of_nat m mod 10 * 10 ^ Z.of_nat m + v mod 10 ^ Z.of_nat m = v mod 10 ^ Z.of_nat (S m).
Proof.
  intros H. pose proof (pow_pos m). rewrite Nat2Z.inj_succ, Z.pow_succ_r by lia.
  rewrite (Z.mul_comm 10), Z.rem_mul_r by lia. lia.
Qed.
Lemma int_ndig m : forall v t acc, stops t -> 0 <= acc -> 0 <= v -> acc * 10 ^ Z.of_nat m + v mod 10 ^ Z.of_nat m <= IMAX ->
  int_digits (ndig m v ++ t) acc = Ret (acc * 10 ^ Z.of_nat m + v mod 10 ^ Z.of_nat m, t).
Proof.
  induction m as [|m IH]; intros v t acc Ht Ha Hv Hb.
  - cbn [ndig app]. rewrite stops_int by exact Ht. change (10 ^ Z.of_nat 0) with 1. rewrite Z.mod_1_r. do 2 f_equal. ring.
  - cbn [ndig app int_digits]. pose proof (Z.mod_pos_bound (v / 10 ^ Z.of_nat m) 10 ltac:(lia)) as B. rewrite is_digit_48 by lia.
    rewrite <- (step_div v m Hv) in *. pose proof (pow_pos m). pose proof (Z.mod_pos_bound v (10 ^ Z.of_nat m) ltac:(lia)).
    rewrite Nat2Z.inj_succ, Z.pow_succ_r in * by lia. set (q := v / 10 ^ Z.of_nat m mod 10) in *. set (P := 10 ^ Z.of_nat m) in *.
    assert (S1 : (acc * 10 + q) * P <= IMAX) by nia. assert (S2 : acc * 10 + q <= IMAX) by nia.
    rewrite ev_val by (cbn [safe val]; unfold fits, IMAX in *; nia). cbn [obind val].
    rewrite IH; [|exact Ht|lia|exact Hv|]; fold P; [do 2 f_equal; nia|nia].
Qed.
Lemma frac_ndig m : forall v t acc d, stops t -> 0 <= acc -> 0 <= v -> 0 < d -> acc * 10 ^ Z.of_nat m + v mod 10 ^ Z.of_nat m <= IMAX ->
  d * 10 ^ Z.of_nat m <= IMAX ->
  frac_digits (ndig m v ++ t) acc d = Ret (acc * 10 ^ Z.of_nat m + v mod 10 ^ Z.of_nat m, d * 10 ^ Z.of_nat m, t).
Proof.
  induction m as [|m IH]; intros v t acc d Ht Ha Hv Hd Hb Hc.
  - cbn [ndig app]. rewrite stops_frac by exact Ht. change (10 ^ Z.of_nat 0) with 1. rewrite Z.mod_1_r. do 2 f_equal; f_equal; ring.
  - cbn [ndig app frac_digits]. pose proof (Z.mod_pos_bound (v / 10 ^ Z.of_nat m) 10 ltac:(lia)) as B. rewrite is_digit_48 by lia.
    rewrite <- (step_div v m Hv) in *. pose proof (pow_pos m). pose proof (Z.mod_pos_bound v (10 ^ Z.of_nat m) ltac:(lia)).
    rewrite Nat2Z.inj_succ, Z.pow_succ_r in * by lia. set (q := v / 10 ^ Z.of_nat m mod 10) in *. set (P := 10 ^ Z.of_nat m) in *.
    assert (S1 : (acc * 10 + q) * P <= IMAX) by nia. assert (S2 : acc * 10 + q <= IMAX) by nia. assert (S3 : d * 10 <= IMAX) by nia.
    rewrite ev_val by (cbn [safe val]; unfold fits, IMAX in *; nia). cbn [obind val].
    rewrite ev_val by (cbn [safe val]; unfold fits, IMAX in *; nia). cbn [obind val].
    rewrite IH; [|exact Ht|lia|exact Hv|lia| |]; fold P; [do 3 f_equal; nia|nia|nia].
Qed.
Lemma span_ndig m : forall v t, span isdigit (ndig m v ++ t) = (m + span isdigit t)%nat.
Proof.
  induction m as [|m IH]; intros v t; [reflexivity|]. cbn [ndig app span].
  pose proof (Z.mod_pos_bound (v / 10 ^ Z.of_nat m) 10 ltac:(lia)). rewrite is_digit_48 by lia. cbn [Nat.add]. now rewrite IH.
Qed.
Lemma skip_ndig m v t : skip_spaces (ndig (S m) v ++ t) = ndig (S m) v ++ t.
Proof.
  unfold skip_spaces. cbn [ndig app span]. pose proof (Z.mod_pos_bound (v / 10 ^ Z.of_nat m) 10 ltac:(lia)).
  destruct (Z.eqb_spec 32 (48 + v / 10 ^ Z.of_nat m mod 10)); [lia|]. reflexivity.
Qed.
Lemma sign_ndig m v t : sign_of (ndig (S m) v ++ t) = (false, ndig (S m) v ++ t).
Proof.
  cbn [ndig app]. pose proof (Z.mod_pos_bound (v / 10 ^ Z.of_nat m) 10 ltac:(lia)) as B.
  set (q := v / 10 ^ Z.of_nat m mod 10) in *. clearbody q.
  assert (C : q = 0 \/ q = 1 \/ q = 2 \/ q = 3 \/ q = 4 \/ q = 5 \/ q = 6 \/ q = 7 \/ q = 8 \/ q = 9) by lia.
  repeat (destruct C as [->|C]; [reflexivity|]). subst q. reflexivity.
Qed.
Definition not_point (t : list Z) : Prop := match t with c :: _ => c <> 46 | [] => True end.
(** A whole number, and one with decimals. *)
Lemma atof_int m i t : 0 <= i < 10 ^ Z.of_nat (S m) -> i <= IMAX -> stops t -> not_point t ->
  quick_atof (ndig (S m) i ++ t) = Ret (inject_Z i).
Proof.
  intros Hi HI Ht Hp. unfold quick_atof, quick_strtod. rewrite skip_ndig, sign_ndig.
  rewrite int_ndig; [|exact Ht|lia|lia|rewrite Z.mod_small by lia; lia].
  cbn [obind]. rewrite Z.mul_0_l, Z.add_0_l, Z.mod_small by lia.
  destruct t as [|c t]; [reflexivity|]. cbn [not_point] in Hp.
  destruct c as [|c|c]; try reflexivity. do 6 (destruct c as [c|c|]; try reflexivity). now elim Hp.
Qed.
Lemma atof_dec m i p d t : 0 <= i < 10 ^ Z.of_nat (S m) -> i <= IMAX -> 0 <= d < 10 ^ Z.of_nat p -> (p <= 9)%nat -> stops t ->
  quick_atof (ndig (S m) i ++ 46 :: ndig p d ++ t) = Ret (inject_Z i + inject_Z d / inject_Z (10 ^ Z.of_nat p))%Q.
Proof.
  intros Hi HI Hd Hp Ht. unfold quick_atof, quick_strtod. rewrite skip_ndig, sign_ndig.
  rewrite int_ndig; [|reflexivity|lia|lia|rewrite Z.mod_small by lia; lia].
  cbn [obind]. rewrite Z.mul_0_l, Z.add_0_l, Z.mod_small by lia.
  assert (G : match ndig (S m) i ++ 46 :: ndig p d ++ t with c :: _ => isdigit c | [] => false end = true).
  { cbn [ndig app]. apply is_digit_48. apply Z.mod_pos_bound. lia. }
  rewrite G. cbn [negb]. rewrite Bool.andb_false_r. pose proof (Z.pow_le_mono_r 10 (Z.of_nat p) 9 ltac:(lia) ltac:(lia)) as P.
  change (10 ^ 9) with 1000000000 in P. rewrite frac_ndig; [|exact Ht|lia|lia|lia|rewrite Z.mod_small by lia; unfold IMAX; lia|unfold IMAX; lia].
  cbn [obind]. rewrite Z.mul_0_l, Z.add_0_l, Z.mod_small, Z.mul_1_l by lia. reflexivity.
Qed.
(** Zero decimals as well. *)
Lemma atof_decimals m i p d t : 0 <= i < 10 ^ Z.of_nat (S m) -> i <= IMAX -> 0 <= d < 10 ^ Z.of_nat p -> (p <= 9)%nat -> stops t -> not_point t ->
  exists v, quick_atof (ndig (S m) i ++ decimals p d ++ t) = Ret v /\ (v == inject_Z i + inject_Z d / inject_Z (10 ^ Z.of_nat p))%Q.
Proof.
  intros Hi HI Hd Hp Ht Hn. destruct p as [|p].
  - cbn [decimals app]. rewrite atof_int by assumption. eexists. split; [reflexivity|]. change (10 ^ Z.of_nat 0) with 1 in *. assert (d = 0) as -> by lia.
    change (inject_Z 0 / inject_Z 1)%Q with 0%Q. ring.
  - cbn [decimals app]. rewrite atof_dec by assumption. eexists. split; reflexivity.
Qed.
Lemma span_decimals_blank p d j : span isdigit (skipn 1 (decimals p d ++ repeat 32 j)) = p.
Proof.
  destruct p as [|p]; cbn [decimals app skipn]; [destruct j as [|[|j]]; reflexivity|].
  rewrite span_ndig. destruct j; cbn; lia.
Qed.
Lemma blanks_stop j : stops (repeat 32 j).
Proof. destruct j; [exact I|reflexivity]. Qed.
Lemma blanks_not_point j : not_point (repeat 32 j).
Proof. destruct j; [exact I|discriminate]. Qed.
Lemma tenths n : forall x, (times_tenth n x == x / inject_Z (10 ^ Z.of_nat n))%Q.
Proof.
  induction n as [|n IH]; intros x; cbn [times_tenth]; [change (inject_Z (10 ^ Z.of_nat 0)) with 1%Q; field|].
  rewrite IH. rewrite Nat2Z.inj_succ, Z.pow_succ_r by lia. rewrite inject_Z_mult. change (inject_Z 10) with 10%Q. pose proof (pow_pos n).
  field; repeat split; first [discriminate|apply pow_ne].
Qed.
Lemma copy_12 : forall n s r, List.length s = n -> copy_bytes n (s ++ r) = Ret s.
Proof.
  induction n as [|n IH]; intros s r H; destruct s as [|c s]; try discriminate; [reflexivity|].
  cbn [app copy_bytes]. rewrite IH by (cbn in H; lia). reflexivity.
Qed.
Lemma more_ndig m : forall v t f x, stops t -> 0 <= v ->
  (more_digits (ndig m v ++ t) f x == x + f * inject_Z (v mod 10 ^ Z.of_nat m) / inject_Z (10 ^ Z.of_nat m))%Q.
Proof.
  induction m as [|m IH]; intros v t f x Ht Hv.
  - cbn [ndig app]. change (10 ^ Z.of_nat 0) with 1. rewrite Z.mod_1_r. change (inject_Z 1) with 1%Q. change (inject_Z 0) with 0%Q.
    assert (E : more_digits t f x = x) by (destruct t as [|c t]; [reflexivity|]; cbn [stops more_digits] in *; now rewrite Ht).
    rewrite E. field.
  - cbn [ndig app more_digits]. pose proof (Z.mod_pos_bound (v / 10 ^ Z.of_nat m) 10 ltac:(lia)) as B. rewrite is_digit_48 by lia.
    rewrite IH by assumption. rewrite <- (step_div v m Hv). pose proof (pow_pos m).
    rewrite (Z.add_comm 48), Z.add_simpl_r. rewrite Nat2Z.inj_succ, Z.pow_succ_r by lia.
    rewrite inject_Z_plus, !inject_Z_mult. change (inject_Z 10) with 10%Q.
    field; repeat split; first [discriminate|apply pow_ne].
Qed.

(* ---------- the layouts ---------- *)
Lemma i9 z : 0 <= z < 1000 -> z <= IMAX. Proof. unfold IMAX. lia. Qed.
Lemma read_seconds dec h m s n d j : 0 <= h < 100 -> 0 <= m < 60 -> 0 <= s < 60 -> 0 <= d < 10 ^ Z.of_nat n -> (n <= 3)%nat ->
  exists v, ra_dec_fields dec (ndig 2 h ++ 32 :: ndig 2 m ++ 32 :: ndig 2 s ++ decimals n d ++ repeat 32 j) = Ret (v, Z.of_nat n, 1%Q, n) /\
    (v == inject_Z h + inject_Z m / 60 + (inject_Z s + inject_Z d / inject_Z (10 ^ Z.of_nat n)) / 3600)%Q.
Proof.
  intros Hh Hm Hs Hd Hn. set (D := decimals n d ++ repeat 32 j).
  unfold ra_dec_fields. cbv zeta. rewrite (atof_int 1 h) by (try reflexivity; try discriminate; try exact Hh; apply i9; lia). cbn [obind].
  assert (SP : span isdigit (ndig 2 h ++ 32 :: ndig 2 m ++ 32 :: ndig 2 s ++ D) = 2%nat) by (rewrite span_ndig; reflexivity).
  rewrite SP. change (7 <? Z.of_nat 2) with false. cbn match.
  change (nth 2 (ndig 2 h ++ 32 :: ndig 2 m ++ 32 :: ndig 2 s ++ D) 0) with 32.
  change (nth 3 (ndig 2 h ++ 32 :: ndig 2 m ++ 32 :: ndig 2 s ++ D) 0) with (48 + m / 10 mod 10).
  change (nth 5 (ndig 2 h ++ 32 :: ndig 2 m ++ 32 :: ndig 2 s ++ D) 0) with 32.
  change (nth 7 (ndig 2 h ++ 32 :: ndig 2 m ++ 32 :: ndig 2 s ++ D) 0) with (48 + s / 1 mod 10).
  change (skipn 3 (ndig 2 h ++ 32 :: ndig 2 m ++ 32 :: ndig 2 s ++ D)) with (ndig 2 m ++ 32 :: ndig 2 s ++ D).
  change (skipn 6 (ndig 2 h ++ 32 :: ndig 2 m ++ 32 :: ndig 2 s ++ D)) with (ndig 2 s ++ D).
  unfold n_digits_from. change (skipn 9 (ndig 2 h ++ 32 :: ndig 2 m ++ 32 :: ndig 2 s ++ D)) with (skipn 1 D).
  pose proof (Z.mod_pos_bound (m / 10) 10 ltac:(lia)). rewrite is_digit_48 by (apply Z.mod_pos_bound; lia).
  destruct (Z.eqb_spec (48 + m / 10 mod 10) 46); [lia|]. change (32 =? 46) with false. change (32 =? 32) with true. cbn [andb Nat.eqb].
  rewrite (atof_int 1 m) by (try reflexivity; try discriminate; try (change (10 ^ Z.of_nat 2) with 100; lia); apply i9; lia). cbn [obind].
  destruct (atof_decimals 1 s n d (repeat 32 j)) as (v & E & Ev);
    [change (10 ^ Z.of_nat 2) with 100; lia|apply i9; lia|exact Hd|lia|apply blanks_stop|apply blanks_not_point|].
  unfold D at 1. rewrite E. cbn [obind]. unfold D. rewrite span_decimals_blank. eexists. split; [reflexivity|]. rewrite Ev. reflexivity.
Qed.
Lemma read_minutes dec h m n d j : 0 <= h < 100 -> 0 <= m < 60 -> 0 <= d < 10 ^ Z.of_nat n -> (n <= 6)%nat -> (n = 0%nat -> (3 <= j)%nat) ->
  exists v, ra_dec_fields dec (ndig 2 h ++ 32 :: ndig 2 m ++ decimals n d ++ repeat 32 j) = Ret (v, - (Z.of_nat n + 1), 60%Q, n) /\
    (v == inject_Z h + (inject_Z m + inject_Z d / inject_Z (10 ^ Z.of_nat n)) / 60)%Q.
Proof.
  intros Hh Hm Hd Hn Hj. set (D := decimals n d ++ repeat 32 j).
  unfold ra_dec_fields. cbv zeta. rewrite (atof_int 1 h) by (try reflexivity; try discriminate; try exact Hh; apply i9; lia). cbn [obind].
  assert (SP : span isdigit (ndig 2 h ++ 32 :: ndig 2 m ++ D) = 2%nat) by (rewrite span_ndig; reflexivity).
  rewrite SP. change (7 <? Z.of_nat 2) with false. cbn match.
  change (nth 2 (ndig 2 h ++ 32 :: ndig 2 m ++ D) 0) with 32.
  change (nth 3 (ndig 2 h ++ 32 :: ndig 2 m ++ D) 0) with (48 + m / 10 mod 10).
  change (nth 5 (ndig 2 h ++ 32 :: ndig 2 m ++ D) 0) with (nth 0 D 0).
  change (nth 7 (ndig 2 h ++ 32 :: ndig 2 m ++ D) 0) with (nth 2 D 0).
  change (skipn 3 (ndig 2 h ++ 32 :: ndig 2 m ++ D)) with (ndig 2 m ++ D).
  unfold n_digits_from. change (skipn 6 (ndig 2 h ++ 32 :: ndig 2 m ++ D)) with (skipn 1 D).
  pose proof (Z.mod_pos_bound (m / 10) 10 ltac:(lia)).
  destruct (Z.eqb_spec (48 + m / 10 mod 10) 46); [lia|]. change (32 =? 46) with false. change (32 =? 32) with true. cbn [andb Nat.eqb].
  destruct (atof_decimals 1 m n d (repeat 32 j)) as (v & E & Ev);
    [change (10 ^ Z.of_nat 2) with 100; lia|apply i9; lia|exact Hd|lia|apply blanks_stop|apply blanks_not_point|].
  unfold D at 1. rewrite E. cbn [obind].
  assert (N : (nth 0 D 0 =? 32) && isdigit (nth 2 D 0) = false).
  { unfold D. destruct n as [|n]; [|reflexivity]. destruct j as [|[|[|j]]]; try (specialize (Hj eq_refl); lia). reflexivity. }
  rewrite N. unfold D. rewrite span_decimals_blank. eexists. split; [reflexivity|]. rewrite Ev. reflexivity.
Qed.
Lemma read_decimal dec i n d j : 0 <= i < 100 -> 0 <= d < 10 ^ Z.of_nat n -> (1 <= n <= 9)%nat ->
  exists v, ra_dec_fields dec (ndig 2 i ++ decimals n d ++ repeat 32 j) = Ret (v, 100 + Z.of_nat n, 3600%Q, n) /\
    (v == inject_Z i + inject_Z d / inject_Z (10 ^ Z.of_nat n))%Q.
Proof.
  intros Hi Hd Hn. destruct n as [|n]; [lia|]. cbn [decimals app]. unfold ra_dec_fields. cbv zeta.
  rewrite (atof_dec 1 i) by (try exact Hi; try apply blanks_stop; try exact Hd; try lia; apply i9; lia). cbn [obind].
  rewrite span_ndig. change (span isdigit (46 :: ndig (S n) d ++ repeat 32 j)) with 0%nat.
  change (7 <? Z.of_nat (2 + 0)) with false. cbn match.
  change (nth 2 (ndig 2 i ++ 46 :: ndig (S n) d ++ repeat 32 j) 0) with 46. change (46 =? 46) with true. cbn match.
  unfold n_digits_from. change (skipn 3 (ndig 2 i ++ 46 :: ndig (S n) d ++ repeat 32 j)) with (ndig (S n) d ++ repeat 32 j).
  rewrite span_ndig, (stops_span _ (blanks_stop j)), Nat.add_0_r. eexists. split; reflexivity.
Qed.
Lemma read_decimal3 dec i n d j : 0 <= i < 1000 -> 0 <= d < 10 ^ Z.of_nat n -> (1 <= n <= 8)%nat ->
  exists v, ra_dec_fields dec (ndig 3 i ++ decimals n d ++ repeat 32 j) = Ret (v, 200 + Z.of_nat n, (3600 / 15)%Q, n) /\
    (v == (inject_Z i + inject_Z d / inject_Z (10 ^ Z.of_nat n)) / 15)%Q.
Proof.
  intros Hi Hd Hn. destruct n as [|n]; [lia|]. cbn [decimals app]. unfold ra_dec_fields. cbv zeta.
  rewrite (atof_dec 2 i) by (try exact Hi; try apply blanks_stop; try exact Hd; try lia; apply i9; lia). cbn [obind].
  rewrite span_ndig. change (span isdigit (46 :: ndig (S n) d ++ repeat 32 j)) with 0%nat.
  change (7 <? Z.of_nat (3 + 0)) with false. cbn match.
  change (nth 2 (ndig 3 i ++ 46 :: ndig (S n) d ++ repeat 32 j) 0) with (48 + i / 1 mod 10).
  change (nth 3 (ndig 3 i ++ 46 :: ndig (S n) d ++ repeat 32 j) 0) with 46. change (46 =? 46) with true.
  pose proof (Z.mod_pos_bound (i / 1) 10 ltac:(lia)). destruct (Z.eqb_spec (48 + i / 1 mod 10) 46); [lia|]. cbn match.
  unfold n_digits_from. change (skipn 4 (ndig 3 i ++ 46 :: ndig (S n) d ++ repeat 32 j)) with (ndig (S n) d ++ repeat 32 j).
  rewrite span_ndig, (stops_span _ (blanks_stop j)), Nat.add_0_r. eexists. split; reflexivity.
Qed.
Lemma read_seconds3 h m s n d j : 0 <= h < 1000 -> 0 <= m < 60 -> 0 <= s < 60 -> 0 <= d < 10 ^ Z.of_nat n -> (n <= 2)%nat ->
  exists v, ra_dec_fields false (ndig 3 h ++ 32 :: ndig 2 m ++ 32 :: ndig 2 s ++ decimals n d ++ repeat 32 j) = Ret (v, 400 + Z.of_nat n, (1 # 15)%Q, n) /\
    (v == (inject_Z h + inject_Z m / 60 + (inject_Z s + inject_Z d / inject_Z (10 ^ Z.of_nat n)) / 3600) / 15)%Q.
Proof.
  intros Hh Hm Hs Hd Hn. set (D := decimals n d ++ repeat 32 j).
  unfold ra_dec_fields. cbv zeta. rewrite (atof_int 2 h) by (try reflexivity; try discriminate; try exact Hh; apply i9; lia). cbn [obind].
  assert (SP : span isdigit (ndig 3 h ++ 32 :: ndig 2 m ++ 32 :: ndig 2 s ++ D) = 3%nat) by (rewrite span_ndig; reflexivity).
  rewrite SP. change (7 <? Z.of_nat 3) with false. cbn match.
  change (nth 2 (ndig 3 h ++ 32 :: ndig 2 m ++ 32 :: ndig 2 s ++ D) 0) with (48 + h / 1 mod 10).
  change (nth 3 (ndig 3 h ++ 32 :: ndig 2 m ++ 32 :: ndig 2 s ++ D) 0) with 32.
  change (skipn 4 (ndig 3 h ++ 32 :: ndig 2 m ++ 32 :: ndig 2 s ++ D)) with (ndig 2 m ++ 32 :: ndig 2 s ++ D).
  change (skipn 7 (ndig 3 h ++ 32 :: ndig 2 m ++ 32 :: ndig 2 s ++ D)) with (ndig 2 s ++ D).
  unfold n_digits_from. change (skipn 10 (ndig 3 h ++ 32 :: ndig 2 m ++ 32 :: ndig 2 s ++ D)) with (skipn 1 D).
  pose proof (Z.mod_pos_bound (h / 1) 10 ltac:(lia)). destruct (Z.eqb_spec (48 + h / 1 mod 10) 46); [lia|].
  change (32 =? 46) with false. change (32 =? 32) with true. cbn [andb Nat.eqb negb]. rewrite Bool.andb_false_r. cbn [andb].
  rewrite (atof_int 1 m) by (try reflexivity; try discriminate; try (change (10 ^ Z.of_nat 2) with 100; lia); apply i9; lia). cbn [obind].
  destruct (atof_decimals 1 s n d (repeat 32 j)) as (v & E & Ev);
    [change (10 ^ Z.of_nat 2) with 100; lia|apply i9; lia|exact Hd|lia|apply blanks_stop|apply blanks_not_point|].
  unfold D at 1. rewrite E. cbn [obind]. unfold D. rewrite span_decimals_blank. eexists. split; [reflexivity|]. rewrite Ev.
  unfold Qdiv. ring.
Qed.
Lemma ndig_join a : forall b v w, 0 <= v -> 0 <= w < 10 ^ Z.of_nat b -> ndig a v ++ ndig b w = ndig (a + b) (v * 10 ^ Z.of_nat b + w).
Proof.
  induction a as [|a IH]; intros b v w Hv Hw; cbn [ndig app Nat.add].
  - rewrite (ndig_mod b (v * 10 ^ Z.of_nat b + w)), Z.add_comm, Z.mod_add, Z.mod_small by lia. reflexivity.
  - rewrite IH by assumption. f_equal. f_equal. f_equal. pose proof (pow_pos a). pose proof (pow_pos b).
    rewrite Nat2Z.inj_add, Z.pow_add_r by lia. rewrite (Z.mul_comm (10 ^ Z.of_nat a)), <- Z.div_div by lia. f_equal.
    rewrite Z.add_comm, Z.div_add by lia. rewrite (Z.div_small w) by lia. lia.
Qed.
Lemma atoi_ndig m v : 0 <= v < 10 ^ Z.of_nat (S m) -> v <= IMAX -> atoi (ndig (S m) v) = Ret v.
Proof.
  intros H K. assert (E : atoi (ndig (S m) v) = chk IMAX (dig_val 0 (ndig (S m) v))).
  { unfold atoi. cbn [ndig]. pose proof (Z.mod_pos_bound (v / 10 ^ Z.of_nat m) 10 ltac:(lia)) as B.
    set (q := v / 10 ^ Z.of_nat m mod 10) in *. clearbody q.
    assert (C : q = 0 \/ q = 1 \/ q = 2 \/ q = 3 \/ q = 4 \/ q = 5 \/ q = 6 \/ q = 7 \/ q = 8 \/ q = 9) by lia.
    repeat (destruct C as [->|C]; [reflexivity|]). subst q. reflexivity. }
  rewrite E, dig_val_ndig, Z.mul_0_l, Z.add_0_l, Z.mod_small by lia. apply chk_ok. unfold fits, IMAX in *. lia.
Qed.
Lemma read_packed dec h m s n d j : 0 <= h < 100 -> 0 <= m < 60 -> 0 <= s < 60 -> 0 <= d < 10 ^ Z.of_nat n -> (2 <= n <= 6)%nat ->
  ((h * 100 + m) * 100 + s) * 10 ^ Z.of_nat n + d <= IMAX ->
  exists v, ra_dec_fields dec (ndig 2 h ++ ndig 2 m ++ ndig 2 s ++ ndig n d ++ repeat 32 j) = Ret (v, 306 + Z.of_nat n, 1%Q, n) /\
    (v == inject_Z h + inject_Z m / 60 + (inject_Z s + inject_Z d / inject_Z (10 ^ Z.of_nat n)) / 3600)%Q.
Proof.
  intros Hh Hm Hs Hd Hn Hb. pose proof (pow_pos n) as P.
  assert (J6 : ndig 2 h ++ ndig 2 m ++ ndig 2 s = ndig 6 ((h * 100 + m) * 100 + s)).
  { rewrite (ndig_join 2 2 m s) by (try change (10 ^ Z.of_nat 2) with 100; lia). change (10 ^ Z.of_nat 2) with 100. cbn [Nat.add].
    rewrite (ndig_join 2 4 h (m * 100 + s)) by (try change (10 ^ Z.of_nat 4) with 10000; lia). change (10 ^ Z.of_nat 4) with 10000. cbn [Nat.add]. f_equal. ring. }
  set (N6 := (h * 100 + m) * 100 + s) in *. assert (B6 : 0 <= N6 < 1000000) by (unfold N6; lia).
  assert (JA : ndig 2 h ++ ndig 2 m ++ ndig 2 s ++ ndig n d = ndig (6 + n) (N6 * 10 ^ Z.of_nat n + d)).
  { rewrite <- (ndig_join 6 n N6 d) by lia. rewrite <- J6, <- !app_assoc. reflexivity. }
  unfold ra_dec_fields. cbv zeta.
  replace (ndig 2 h ++ ndig 2 m ++ ndig 2 s ++ ndig n d ++ repeat 32 j) with (ndig (S (5 + n)) (N6 * 10 ^ Z.of_nat n + d) ++ repeat 32 j).
  2: { change (S (5 + n)) with (6 + n)%nat. rewrite <- JA, <- !app_assoc. reflexivity. }
  rewrite (atof_int (5 + n)); [|split; [nia|]|exact Hb|apply blanks_stop|apply blanks_not_point].
  2: { change (S (5 + n)) with (6 + n)%nat. rewrite Nat2Z.inj_add, Z.pow_add_r by lia. change (10 ^ Z.of_nat 6) with 1000000. nia. }
  cbn [obind]. change (S (5 + n)) with (6 + n)%nat. rewrite span_ndig, (stops_span _ (blanks_stop j)), Nat.add_0_r.
  destruct (Z.ltb_spec 7 (Z.of_nat (6 + n))); [|lia].
  rewrite <- (ndig_join 6 n N6 d), <- !app_assoc by lia.
  rewrite firstn_app, ndig_length, Nat.sub_diag, firstn_O, app_nil_r, firstn_all2 by (rewrite ndig_length; lia).
  rewrite atoi_ndig by (try change (10 ^ Z.of_nat 6) with 1000000; unfold IMAX; lia). cbn [obind].
  rewrite skipn_app, ndig_length, Nat.sub_diag, skipn_all2 by (rewrite ndig_length; lia). cbn [app skipn].
  replace (6 + n - 6)%nat with n by lia. replace (300 + Z.of_nat (6 + n)) with (306 + Z.of_nat n) by lia.
  eexists. split; [reflexivity|]. rewrite more_ndig by (try apply blanks_stop; lia). rewrite (Z.mod_small d) by lia.
  replace (N6 / 10000) with h by (unfold N6; apply Z.div_unique with (m * 100 + s); lia).
  replace (N6 / 100) with (h * 100 + m) by (unfold N6; apply Z.div_unique with s; lia).
  replace ((h * 100 + m) mod 100) with m by (apply Z.mod_unique with h; lia).
  replace (N6 mod 100) with s by (unfold N6; apply Z.mod_unique with (h * 100 + m); lia).
  unfold Qdiv. change (1 # 3600) with (/ 3600)%Q. ring.
Qed.

(* ---------- the line ---------- *)
Lemma text_length l n k : List.length (angle_text l n k) = (List.length (head_text l n k) + List.length (tail_text l n (k mod 10 ^ Z.of_nat n)))%nat.
Proof. rewrite head_tail, app_length. reflexivity. Qed.
Lemma columns_length l n k : can_read l n -> List.length (columns (angle_text l n k)) = 12%nat.
Proof.
  intros R. unfold columns. rewrite app_length, repeat_length, text_length, head_length, tail_length.
  destruct l; cbn in R; destruct n; lia.
Qed.
Lemma sexa n k : 0 <= k -> let i := k / 10 ^ Z.of_nat n in
  k = ((i / 3600 * 60 + i / 60 mod 60) * 60 + i mod 60) * 10 ^ Z.of_nat n + k mod 10 ^ Z.of_nat n.
Proof.
  intros Hk i. pose proof (pow_pos n). rewrite (Z.div_mod k (10 ^ Z.of_nat n)) at 1 by lia. fold i.
  assert (i = (i / 3600 * 60 + i / 60 mod 60) * 60 + i mod 60); [|lia].
  rewrite (Z.div_mod i 60) at 1 by lia. rewrite (Z.div_mod (i / 60) 60) at 1 by lia. rewrite Z.div_div by lia. change (60 * 60) with 3600. ring.
Qed.
Lemma fields_ok l n k dec : can_read l n -> fits_layout l n k -> (l = Seconds3 -> dec = false) ->
  (l = Packed -> packed_number n k <= IMAX) ->
  exists v, ra_dec_fields dec (columns (angle_text l n k)) = Ret (v, format_of l n, match l with Seconds | Packed => 1 | Minutes => 60 | Decimal => 3600 | Decimal3 => 3600 / 15 | Seconds3 => 1 # 15 end, n)%Q /\
    (v == angle_of l n k)%Q.
Proof.
  intros R F Dc Pk. unfold fits_layout in F. destruct (parts n k _ F) as (PB & _ & _ & _).
  pose proof (pow_pos n) as P. pose proof (pow_ne n) as PN. pose proof (Z.mod_pos_bound k (10 ^ Z.of_nat n) P) as PM.
  pose proof (sexa n k ltac:(lia)) as SX. cbv zeta in SX.
  pose proof (Z.div_mod k (10 ^ Z.of_nat n) ltac:(lia)) as DM.
  unfold columns, angle_of. unfold packed_number in Pk. unfold angle_text. cbv zeta in *.
  set (i := k / 10 ^ Z.of_nat n) in *. set (d := k mod 10 ^ Z.of_nat n) in *. set (T := 10 ^ Z.of_nat n) in *.
  assert (M1 : 0 <= i mod 60 < 60) by (apply Z.mod_pos_bound; lia).
  assert (M2 : 0 <= i / 60 mod 60 < 60) by (apply Z.mod_pos_bound; lia).
  assert (AP : forall a b c (x : list Z), (a ++ 32 :: b ++ 32 :: c ++ x) = ((a ++ 32 :: b ++ 32 :: c) ++ x)).
  { intros. rewrite <- !app_assoc. cbn [app]. rewrite <- !app_assoc. reflexivity. }
  destruct l; cbn [per format_of can_read] in *.
  - assert (0 <= i / 3600 < 100) by (split; [apply Z.div_pos; lia|apply Z.div_lt_upper_bound; lia]).
    rewrite <- !app_assoc. cbn [app]. rewrite <- !app_assoc. cbn [app]. rewrite <- !app_assoc.
    destruct (read_seconds dec (i / 3600) (i / 60 mod 60) (i mod 60) n d (12 - List.length (ndig 2 (i / 3600) ++ 32 :: ndig 2 (i / 60 mod 60) ++ 32 :: ndig 2 (i mod 60) ++ decimals n d))) as (v & E & Ev); try assumption; try lia.
    exists v. split; [exact E|]. rewrite Ev. fold T. rewrite SX at 1. repeat (rewrite inject_Z_mult || rewrite inject_Z_plus).
    change (inject_Z 60) with 60%Q. change (inject_Z 3600) with 3600%Q. field. exact PN.
  - assert (0 <= i / 60 < 100) by (split; [apply Z.div_pos; lia|apply Z.div_lt_upper_bound; lia]).
    rewrite <- !app_assoc. cbn [app]. rewrite <- !app_assoc.
    destruct (read_minutes dec (i / 60) (i mod 60) n d (12 - List.length (ndig 2 (i / 60) ++ 32 :: ndig 2 (i mod 60) ++ decimals n d))) as (v & E & Ev); try assumption; try lia.
    { intros ->. rewrite !app_length. cbn [List.length decimals]. rewrite !app_length. cbn [List.length]. rewrite !ndig_length. lia. }
    exists v. split; [rewrite E; do 4 f_equal; lia|]. rewrite Ev. fold T.
    assert (K : k = (i / 60 * 60 + i mod 60) * T + d) by (rewrite DM; pose proof (Z.div_mod i 60 ltac:(lia)); lia).
    rewrite K at 1. repeat (rewrite inject_Z_mult || rewrite inject_Z_plus).
    change (inject_Z 60) with 60%Q. field. exact PN.
  - rewrite <- !app_assoc.
    destruct (read_decimal dec i n d (12 - List.length (ndig 2 i ++ decimals n d))) as (v & E & Ev); try assumption.
    exists v. split; [exact E|]. rewrite Ev. fold T. assert (K : k = i * T + d) by lia. rewrite K. repeat (rewrite inject_Z_mult || rewrite inject_Z_plus).
    change (inject_Z 1) with 1%Q. field. exact PN.
  - rewrite <- !app_assoc.
    destruct (read_decimal3 dec i n d (12 - List.length (ndig 3 i ++ decimals n d))) as (v & E & Ev); try assumption.
    exists v. split; [exact E|]. rewrite Ev. fold T. assert (K : k = i * T + d) by lia. rewrite K. repeat (rewrite inject_Z_mult || rewrite inject_Z_plus).
    change (inject_Z 15) with 15%Q. field. exact PN.
  - assert (0 <= i / 3600 < 100) by (split; [apply Z.div_pos; lia|apply Z.div_lt_upper_bound; lia]).
    rewrite <- !app_assoc.
    destruct (read_packed dec (i / 3600) (i / 60 mod 60) (i mod 60) n d (12 - List.length (ndig 2 (i / 3600) ++ ndig 2 (i / 60 mod 60) ++ ndig 2 (i mod 60) ++ ndig n d))) as (v & E & Ev); try assumption; try lia; try (apply Pk; reflexivity).
    exists v. split; [exact E|]. rewrite Ev. fold T. rewrite SX at 1. repeat (rewrite inject_Z_mult || rewrite inject_Z_plus).
    change (inject_Z 60) with 60%Q. change (inject_Z 3600) with 3600%Q. field. exact PN.
  - assert (0 <= i / 3600 < 1000) by (split; [apply Z.div_pos; lia|apply Z.div_lt_upper_bound; lia]).
    rewrite (Dc eq_refl). rewrite <- !app_assoc. cbn [app]. rewrite <- !app_assoc. cbn [app]. rewrite <- !app_assoc.
    destruct (read_seconds3 (i / 3600) (i / 60 mod 60) (i mod 60) n d (12 - List.length (ndig 3 (i / 3600) ++ 32 :: ndig 2 (i / 60 mod 60) ++ 32 :: ndig 2 (i mod 60) ++ decimals n d))) as (v & E & Ev); try assumption; try lia.
    exists v. split; [exact E|]. rewrite Ev. fold T. rewrite SX at 1. repeat (rewrite inject_Z_mult || rewrite inject_Z_plus).
    change (inject_Z 60) with 60%Q. change (inject_Z 54000) with 54000%Q. field. exact PN.
Qed.
