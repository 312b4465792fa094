(** Proofs of the theorems stated in [PropMpcf]. *)
From Coq Require Import Lia QArith Qround Qabs Lqa.
From Coq Require Import String.
From Verif Require Import CBase CLemmas CStr StrModel StrProofs TstrModel CtimeModel CtimeSpec CtimeBuf CtimeProofs CtimeJd CtimeRound MpcfModel MpcfSpec MpcfWrite MpcfRead.
Local Open Scope string_scope.
Local Open Scope list_scope.
Local Open Scope Z_scope.

Lemma can_read_write l n : can_read l n -> can_write l n.
Proof. destruct l; cbn; lia. Qed.
Lemma angle_head l n k : can_read l n -> exists c r, columns (angle_text l n k) = c :: r /\ isdigit c = true.
Proof.
  intros _. assert (D : forall m v t, exists c r, ndig (S m) v ++ t = c :: r /\ isdigit c = true).
  { intros m v t. cbn [ndig app]. eexists. eexists. split; [reflexivity|]. apply is_digit_48. apply Z.mod_pos_bound. lia. }
  unfold columns, angle_text. cbv zeta. destruct l; rewrite <- app_assoc; apply D.
Qed.
Lemma digit_no_sign c : isdigit c = true -> (c =? 45) = false /\ (c =? 43) = false.
Proof. unfold isdigit. intros H. lia. Qed.
Lemma unit_tenths l n : (times_tenth n (match l with Seconds | Packed => 1 | Minutes => 60 | Decimal => 3600 | Decimal3 => 3600 / 15 | Seconds3 => 1 # 15 end) == unit_of l n)%Q.
Proof.
  rewrite tenths. unfold unit_of. rewrite inject_Z_mult. pose proof (pow_ne n) as PN. set (T := inject_Z (10 ^ Z.of_nat n)) in *.
  destruct l; cbn [per].
  - change (inject_Z 3600) with 3600%Q. field. exact PN.
  - change (inject_Z 60) with 60%Q. field. exact PN.
  - change (inject_Z 1) with 1%Q. field. exact PN.
  - change (inject_Z 15) with 15%Q. field. exact PN.
  - change (inject_Z 3600) with 3600%Q. field. exact PN.
  - change (inject_Z 54000) with 54000%Q. change (1 # 15) with (1 / 15)%Q. field. exact PN.
Qed.
Lemma read_plain l n k rest : can_read l n -> fits_layout l n k -> packed_ok l n k ->
  reads_angle (columns (angle_text l n k) ++ rest) (angle_of l n k) (format_of l n) (unit_of l n).
Proof.
  intros R F P. destruct (angle_head l n k R) as (c & r & Ec & Dc). destruct (digit_no_sign c Dc) as (S1 & S2).
  destruct (fields_ok l n k false R F (fun _ : l = Seconds3 => eq_refl) P) as (v & E & Ev).
  unfold reads_angle, get_ra_dec. rewrite Ec. cbn [app]. change (at_ (c :: r ++ rest) 0) with (@Ret Z c). cbn [obind].
  rewrite S1, S2. cbn [orb]. change (c :: r ++ rest) with ((c :: r) ++ rest). rewrite <- Ec.
  rewrite copy_12 by (apply columns_length; exact R). cbn [obind]. rewrite E. cbn [obind].
  eexists. eexists. split; [reflexivity|]. split; [exact Ev|apply unit_tenths].
Qed.
Lemma read_signed l n k (neg : bool) rest : can_read l n -> fits_layout l n k -> packed_ok l n k -> l <> Seconds3 ->
  reads_angle ((if neg then 45 else 43) :: columns (angle_text l n k) ++ rest) (if neg then - angle_of l n k else angle_of l n k)%Q (format_of l n) (unit_of l n).
Proof.
  intros R F P N3.
  destruct (fields_ok l n k true R F (fun e : l = Seconds3 => False_ind (true = false) (N3 e)) P) as (v & E & Ev).
  unfold reads_angle, get_ra_dec. change (at_ ((if neg then 45 else 43) :: columns (angle_text l n k) ++ rest) 0) with (@Ret Z (if neg then 45 else 43)). cbn [obind].
  assert (T : ((if neg then 45 else 43) =? 45) || ((if neg then 45 else 43) =? 43) = true) by (destruct neg; reflexivity).
  rewrite T. cbn [tl]. rewrite copy_12 by (apply columns_length; exact R). cbn [obind]. rewrite E. cbn [obind].
  eexists. eexists. split; [reflexivity|]. split; [|apply unit_tenths].
  destruct neg; [change (45 =? 45) with true|change (43 =? 45) with false]; cbn match; rewrite Ev; reflexivity.
Qed.
(** Decimals past the last column. *)
Lemma ndig_cut m j v : ndig (m + j) v = ndig m (v / 10 ^ Z.of_nat j) ++ ndig j v.
Proof.
  induction m as [|m IH]; [reflexivity|]. cbn [Nat.add ndig app]. rewrite IH. f_equal. f_equal. f_equal.
  rewrite Nat2Z.inj_add, Z.pow_add_r, Z.mul_comm, <- Z.div_div by (try apply Z.pow_nonzero; try apply pow_pos; lia). reflexivity.
Qed.
Lemma cut_whole k m j : k / 10 ^ Z.of_nat j / 10 ^ Z.of_nat m = k / 10 ^ Z.of_nat (m + j).
Proof.
  rewrite Z.div_div by (try apply Z.pow_nonzero; try apply pow_pos; lia). rewrite Nat2Z.inj_add, Z.pow_add_r by lia. f_equal. ring.
Qed.
Lemma cut_mod k m j : k mod 10 ^ Z.of_nat (m + j) / 10 ^ Z.of_nat j = k / 10 ^ Z.of_nat j mod 10 ^ Z.of_nat m.
Proof.
  rewrite Nat2Z.inj_add, Z.pow_add_r, Z.mul_comm by lia. pose proof (pow_pos m). pose proof (pow_pos j).
  rewrite Z.rem_mul_r by lia. rewrite Z.mul_comm, Z.div_add by lia. rewrite (Z.div_small (k mod _)) by (apply Z.mod_pos_bound; lia). lia.
Qed.
Lemma text_cut l m j k : (1 <= m)%nat -> angle_text l (m + j) k = angle_text l m (k / 10 ^ Z.of_nat j) ++ ndig j k.
Proof.
  intros Hm. unfold angle_text. cbv zeta. rewrite cut_whole.
  assert (DN : ndig (m + j) (k mod 10 ^ Z.of_nat (m + j)) = ndig m ((k / 10 ^ Z.of_nat j) mod 10 ^ Z.of_nat m) ++ ndig j k).
  { rewrite ndig_cut, cut_mod. f_equal. rewrite (ndig_mod j k). rewrite (ndig_mod j (k mod _)). f_equal.
    rewrite Nat2Z.inj_add, Z.pow_add_r, Z.mul_comm by lia. pose proof (pow_pos m). pose proof (pow_pos j).
    rewrite Z.rem_mul_r by lia. rewrite Z.mul_comm, Z.mod_add, Z.mod_mod by lia. reflexivity. }
  assert (D : decimals (m + j) (k mod 10 ^ Z.of_nat (m + j)) = decimals m ((k / 10 ^ Z.of_nat j) mod 10 ^ Z.of_nat m) ++ ndig j k).
  { assert (DD : forall m v, (1 <= m)%nat -> decimals m v = 46 :: ndig m v) by (intros [|m'] v H; [lia|reflexivity]).
    rewrite !DD by lia. cbn [app]. now rewrite DN. }
  destruct l; rewrite ?D, ?DN, <- ?app_assoc; cbn [app]; rewrite <- ?app_assoc; cbn [app]; rewrite <- ?app_assoc; reflexivity.
Qed.
(** Overflow of the packed digits. *)
Lemma int_over m : forall v t acc, 0 <= acc <= IMAX -> 0 <= v -> IMAX < acc * 10 ^ Z.of_nat m + v mod 10 ^ Z.of_nat m ->
  int_digits (ndig m v ++ t) acc = UB.
Proof.
  induction m as [|m IH]; intros v t acc Ha Hv Hb.
  - change (10 ^ Z.of_nat 0) with 1 in Hb. rewrite Z.mod_1_r in Hb. lia.
  - cbn [ndig app int_digits]. pose proof (Z.mod_pos_bound (v / 10 ^ Z.of_nat m) 10 ltac:(lia)) as B. rewrite is_digit_48 by lia.
    rewrite <- (step_div v m Hv) in *. pose proof (pow_pos m). pose proof (Z.mod_pos_bound v (10 ^ Z.of_nat m) ltac:(lia)).
    rewrite Nat2Z.inj_succ, Z.pow_succ_r in * by lia. set (q := v / 10 ^ Z.of_nat m mod 10) in *. set (P := 10 ^ Z.of_nat m) in *.
    destruct (Z.le_gt_cases (acc * 10 + q) IMAX) as [L|L].
    + rewrite ev_val by (cbn [safe val]; unfold fits, IMAX in *; nia). cbn [obind val]. apply IH; [lia|exact Hv|]. fold P. nia.
    + assert (C : forall z, - IMAX - 1 <= z <= IMAX -> chk IMAX z = Ret z) by (intros z Hz; apply chk_ok; unfold fits; lia).
      assert (U : forall z, IMAX < z -> chk IMAX z = UB).
      { intros z Hz. unfold chk, in_rng. destruct (Z.leb_spec z IMAX); [lia|]. now rewrite Bool.andb_false_r. }
      cbn [ev]. rewrite (C acc), (C 10), (C (48 + q)), (C 48) by (unfold IMAX in *; lia). cbn [obind].
      destruct (Z.le_gt_cases (acc * 10) IMAX) as [L2|L2]; [|now rewrite (U (acc * 10))].
      rewrite (C (acc * 10)) by lia. cbn [obind]. rewrite (C (48 + q - 48)) by (unfold IMAX in *; lia). cbn [obind]. rewrite U by lia. reflexivity.
Qed.

Lemma C47_write_proof :
  forall l n a, can_write l n -> (0 <= a)%Q -> fits_layout l n (units l n a) ->
  prints a (format_of l n) (columns (angle_text l n (units l n a))) /\
  (Qabs (angle_of l n (units l n a) - a) <= (1 # 2) / inject_Z (per l * 10 ^ Z.of_nat n))%Q.
Proof.
  intros l n a W Ha F. split; [apply write_ok; try assumption; reflexivity|apply half_unit].
Qed.

Lemma C47_write_signed_proof :
  forall l n a, can_write l n -> fits_layout l n (units l n (Qabs a)) ->
  prints_signed a (format_of l n) (sign_char a :: columns (angle_text l n (units l n (Qabs a)))).
Proof.
  intros l n a W F. destruct (C47_write_proof l n (Qabs a) W (Qabs_nonneg a) F) as ((NN & W1) & _).
  assert (S : sign_char a = if qlt a 0 then 45 else 43).
  { unfold sign_char, qlt. destruct (Qlt_le_dec a 0) as [H|H]; destruct (Qle_bool 0 a) eqn:K; cbn [negb]; try reflexivity; exfalso.
    - apply Qle_bool_iff in K. lra.
    - apply Qle_bool_iff in H. rewrite H in K. discriminate K. }
  assert (A : (if qlt a 0 then - a else a)%Q = Qabs a \/ (Qabs a == if qlt a 0 then - a else a)%Q).
  { right. unfold qlt. destruct (Qle_bool 0 a) eqn:K; cbn [negb]; [apply Qabs_pos; now apply Qle_bool_iff|].
    apply Qabs_neg. destruct (Qlt_le_dec a 0) as [H|H]; [lra|]. apply Qle_bool_iff in H. rewrite H in K. discriminate K. }
  split.
  - apply no_nul_cons; [|exact NN]. unfold sign_char. destruct (Qlt_le_dec a 0); discriminate.
  - intros room post Hr. destruct room as [|x room]; [discriminate|]. unfold output_signed_angle_to_buff. cbn [app].
    rewrite (wr_at (x :: room ++ post) [] x (room ++ post) _ eq_refl : wr (x :: room ++ post) 0 (if qlt a 0 then 45 else 43) = _).
    cbn [obind app]. cbn [map app]. rewrite S.
    set (a' := (if qlt a 0 then - a else a)%Q) in *.
    assert (E : (a' == Qabs a)%Q) by (destruct A as [->|A]; [reflexivity|now symmetry]).
    assert (U : units l n (Qabs a) = units l n a') by (unfold units; apply Qfloor_comp; rewrite E; reflexivity).
    rewrite U in *.
    assert (P : prints a' (format_of l n) (columns (angle_text l n (units l n a')))).
    { apply (C47_write_proof l n a' W); [rewrite E; apply Qabs_nonneg|exact F]. }
    destruct P as (_ & P). cbn [List.length] in Hr.
    apply (P [Some (if qlt a 0 then 45 else 43)] room post). lia.
Qed.

Lemma C47_read_proof :
  forall l n k rest, can_read l n -> fits_layout l n k -> packed_ok l n k ->
  reads_angle (columns (angle_text l n k) ++ rest) (angle_of l n k) (format_of l n) (unit_of l n).
Proof.
  exact read_plain.
Qed.

Lemma C47_read_signed_proof :
  forall l n k (neg : bool) rest, can_read l n -> fits_layout l n k -> packed_ok l n k -> l <> Seconds3 ->
  reads_angle ((if neg then 45 else 43) :: columns (angle_text l n k) ++ rest)
              (if neg then - angle_of l n k else angle_of l n k)%Q (format_of l n) (unit_of l n).
Proof.
  exact read_signed.
Qed.

Lemma C47_round_trip_proof :
  forall l n a rest, can_read l n -> (0 <= a)%Q -> fits_layout l n (units l n a) -> packed_ok l n (units l n a) ->
  exists s v, prints a (format_of l n) s /\ List.length s = 12%nat /\
    reads_angle (s ++ rest) v (format_of l n) (unit_of l n) /\ (Qabs (v - a) * 3600 <= unit_of l n / 2)%Q.
Proof.
  intros l n a rest R Ha F P. destruct (C47_write_proof l n a (can_read_write l n R) Ha F) as (W & H).
  exists (columns (angle_text l n (units l n a))), (angle_of l n (units l n a)). split; [exact W|]. split; [now apply columns_length|].
  split; [now apply read_plain|]. unfold unit_of. set (M := inject_Z (per l * 10 ^ Z.of_nat n)) in *.
  assert (E : (3600 / M / 2 == (1 # 2) / M * 3600)%Q) by (unfold Qdiv; change (1 # 2)%Q with (/ 2)%Q; ring).
  rewrite E. apply Qmult_le_compat_r; [exact H|discriminate].
Qed.

Lemma C47_round_trip_signed_proof :
  forall l n a rest, can_read l n -> l <> Seconds3 -> fits_layout l n (units l n (Qabs a)) -> packed_ok l n (units l n (Qabs a)) ->
  exists s v, prints_signed a (format_of l n) s /\ List.length s = 13%nat /\
    reads_angle (s ++ rest) v (format_of l n) (unit_of l n) /\ (Qabs (v - a) * 3600 <= unit_of l n / 2)%Q.
Proof.
  intros l n a rest R N3 F P. pose proof (C47_write_signed_proof l n a (can_read_write l n R) F) as W.
  destruct (C47_write_proof l n (Qabs a) (can_read_write l n R) (Qabs_nonneg a) F) as (_ & H).
  set (k := units l n (Qabs a)) in *.
  eexists. exists (if Qlt_le_dec a 0 then - angle_of l n k else angle_of l n k)%Q. split; [exact W|].
  split; [cbn [List.length]; now rewrite columns_length|]. split.
  - cbn [app]. unfold sign_char. pose proof (read_signed l n k (if Qlt_le_dec a 0 then true else false) rest R F P N3) as Rd.
    destruct (Qlt_le_dec a 0); exact Rd.
  - unfold unit_of. set (M := inject_Z (per l * 10 ^ Z.of_nat n)) in *.
    assert (E : (3600 / M / 2 == (1 # 2) / M * 3600)%Q) by (unfold Qdiv; change (1 # 2)%Q with (/ 2)%Q; ring).
    rewrite E. apply Qmult_le_compat_r; [|discriminate]. eapply Qle_trans; [|exact H]. apply Qle_lteq. right.
    destruct (Qlt_le_dec a 0) as [G|G].
    + assert (EA : (Qabs a == - a)%Q) by (apply Qabs_neg; lra). rewrite <- Qabs_opp. apply Qabs_wd. rewrite EA. ring.
    + assert (EA : (Qabs a == a)%Q) by (apply Qabs_pos; lra). apply Qabs_wd. rewrite EA. reflexivity.
Qed.

Lemma C47_long_formats_proof :
  forall l j k rest, can_read l (most_decimals l) -> fits_layout l (most_decimals l + j) k ->
  packed_ok l (most_decimals l) (k / 10 ^ Z.of_nat j) ->
  let v := angle_of l (most_decimals l) (k / 10 ^ Z.of_nat j) in
  reads_angle (columns (angle_text l (most_decimals l + j) k) ++ rest) v (format_of l (most_decimals l)) (unit_of l (most_decimals l)) /\
  (v <= angle_of l (most_decimals l + j) k)%Q /\ (angle_of l (most_decimals l + j) k < v + unit_of l (most_decimals l) / 3600)%Q.
Proof.
  intros l j k rest R F P v. set (m := most_decimals l) in *. pose proof (pow_pos j) as PJ. pose proof (pow_pos m) as PM.
  assert (L12 : List.length (angle_text l m (k / 10 ^ Z.of_nat j)) = 12%nat).
  { rewrite text_length, head_length, tail_length. unfold m. destruct l; reflexivity. }
  assert (F' : fits_layout l m (k / 10 ^ Z.of_nat j)).
  { unfold fits_layout in *. rewrite Nat2Z.inj_add, Z.pow_add_r in F by lia. split; [apply Z.div_pos; lia|]. apply Z.div_lt_upper_bound; [lia|].
    destruct l; lia. }
  split.
  - unfold columns. rewrite (text_cut l m j k) by (unfold m; destruct l; cbn; lia).
    pose proof (read_plain l m (k / 10 ^ Z.of_nat j) (ndig j k ++ repeat 32 (12 - List.length (angle_text l m (k / 10 ^ Z.of_nat j) ++ ndig j k)) ++ rest) R F' P) as Rd.
    unfold columns in Rd. rewrite L12, Nat.sub_diag in Rd. cbn [repeat] in Rd. rewrite app_nil_r in Rd. rewrite <- !app_assoc. exact Rd.
  - assert (PP : 0 < per l * 10 ^ Z.of_nat m) by (destruct l; cbn [per]; lia).
    assert (PP2 : 0 < per l * 10 ^ Z.of_nat (m + j)) by (pose proof (pow_pos (m + j)); destruct l; cbn [per]; lia).
    assert (EP : per l * 10 ^ Z.of_nat (m + j) = per l * 10 ^ Z.of_nat m * 10 ^ Z.of_nat j) by (rewrite Nat2Z.inj_add, Z.pow_add_r by lia; ring).
    pose proof (Z.div_mod k (10 ^ Z.of_nat j) ltac:(lia)) as DM. pose proof (Z.mod_pos_bound k (10 ^ Z.of_nat j) PJ) as MB.
    assert (QD : forall a b, 0 < b -> (inject_Z a / inject_Z b == Qmake a (Z.to_pos b))%Q).
    { intros a b Hb. destruct b as [|b|b]; try lia. unfold Qdiv, Qinv, inject_Z, Qmult, Qeq. cbn. lia. }
    unfold v, angle_of, unit_of. split.
    + rewrite !QD by lia. unfold Qle. cbn [Qnum Qden]. rewrite !Z2Pos.id by lia. rewrite EP. nia.
    + assert (E : (3600 / inject_Z (per l * 10 ^ Z.of_nat m) / 3600 == inject_Z 1 / inject_Z (per l * 10 ^ Z.of_nat m))%Q) by (change (inject_Z 1) with 1%Q; field; intros E0; change 0%Q with (inject_Z 0) in E0; rewrite inject_Z_injective in E0; lia).
      rewrite E. assert (E2 : (inject_Z (k / 10 ^ Z.of_nat j) / inject_Z (per l * 10 ^ Z.of_nat m) + inject_Z 1 / inject_Z (per l * 10 ^ Z.of_nat m) == inject_Z (k / 10 ^ Z.of_nat j + 1) / inject_Z (per l * 10 ^ Z.of_nat m))%Q) by (rewrite inject_Z_plus; unfold Qdiv; ring).
      rewrite E2. rewrite !QD by lia. unfold Qlt. cbn [Qnum Qden]. rewrite !Z2Pos.id by lia. rewrite EP. nia.
Qed.

Lemma C47_report_proof :
  forall front l n k l' n' k' (neg : bool) rest, List.length front = 32%nat ->
  can_read l n -> fits_layout l n k -> packed_ok l n k ->
  can_read l' n' -> fits_layout l' n' k' -> packed_ok l' n' k' -> l' <> Seconds3 ->
  exists ra dec p p',
    get_ra_dec_from_mpc_report (front ++ columns (angle_text l n k) ++
                                (if neg then 45 else 43) :: columns (angle_text l' n' k') ++ rest)
    = Ret (0, (format_of l n, ra, p), (format_of l' n', dec, p')) /\
    (ra == angle_of l n k)%Q /\ (p == 15 * unit_of l n)%Q /\
    (dec == if neg then - angle_of l' n' k' else angle_of l' n' k')%Q /\ (p' == unit_of l' n')%Q.
Proof.
  intros front l n k l' n' k' neg rest HF R F P R' F' P' N3.
  destruct (read_plain l n k ((if neg then 45 else 43) :: columns (angle_text l' n' k') ++ rest) R F P) as (v & p & E & Ev & Ep).
  destruct (read_signed l' n' k' neg rest R' F' P' N3) as (v' & p' & E' & Ev' & Ep').
  unfold get_ra_dec_from_mpc_report.
  assert (S32 : forall t : list Z, skipn 32 (front ++ t) = t).
  { intros t. rewrite skipn_app, HF, Nat.sub_diag, skipn_all2 by lia. reflexivity. }
  rewrite S32, E. cbn [obind].
  assert (S44 : skipn 44 (front ++ columns (angle_text l n k) ++ (if neg then 45 else 43) :: columns (angle_text l' n' k') ++ rest)
    = (if neg then 45 else 43) :: columns (angle_text l' n' k') ++ rest).
  { rewrite app_assoc. rewrite skipn_app. assert (E44 : List.length (front ++ columns (angle_text l n k)) = 44%nat) by (rewrite app_length, columns_length by exact R; lia).
    rewrite E44, Nat.sub_diag, skipn_all2 by lia. reflexivity. }
  rewrite S44, E'. cbn [obind].
  assert (B : forall l n, can_read l n -> (format_of l n =? BAD_RA_DEC_FMT) = false).
  { clear. intros l n R. unfold BAD_RA_DEC_FMT. apply Z.eqb_neq. destruct l; cbn [can_read format_of] in *; lia. }
  rewrite !B by assumption. do 4 eexists. split; [reflexivity|]. split; [exact Ev|]. split; [rewrite Ep; ring|]. now split.
Qed.

Lemma no_digit_span s : (forall c, In c s -> isdigit c = false) -> span isdigit s = O.
Proof. destruct s as [|c s]; [reflexivity|]. intros H. cbn [span]. now rewrite (H c (or_introl eq_refl)). Qed.
Lemma no_digit_stops s : (forall c, In c s -> isdigit c = false) -> stops s.
Proof. destruct s as [|c s]; [exact (fun _ => I)|]. intros H. apply H. now left. Qed.
Lemma skip_in s c : In c (skip_spaces s) -> In c s.
Proof. unfold skip_spaces. intros H. rewrite <- (firstn_skipn (span (Z.eqb 32) s) s). apply in_or_app. now right. Qed.
Lemma sign_in s c : In c (snd (sign_of s)) -> In c s.
Proof.
  unfold sign_of. destruct s as [|x s]; [exact (fun H => H)|]. destruct x as [|x|x]; try exact (fun H => H).
  do 6 (destruct x as [x|x|]; try exact (fun H => H)); cbn [snd]; intros H; now right.
Qed.
Lemma atof_none s : (forall c, In c s -> isdigit c = false) -> exists v, quick_atof s = Ret v.
Proof.
  intros H. unfold quick_atof, quick_strtod. destruct (sign_of (skip_spaces s)) as [neg t] eqn:E.
  assert (T : forall c, In c t -> isdigit c = false).
  { intros c Hc. apply H, skip_in, sign_in. rewrite E. exact Hc. }
  rewrite (stops_int t 0 (no_digit_stops t T)). cbn [obind].
  assert (Dflt : exists v, obind (Ret ((if neg then - inject_Z 0 else inject_Z 0)%Q, t)) (fun '(v, _) => Ret v) = Ret v) by (eexists; reflexivity).
  destruct t as [|c t]; [exact Dflt|]. destruct c as [|c|c]; try exact Dflt. do 6 (destruct c as [c|c|]; try exact Dflt).
  assert (G : match t with c :: _ => isdigit c | [] => false end = false) by (destruct t as [|c t]; [reflexivity|apply T; right; now left]).
  rewrite G. cbn. eexists. reflexivity.
Qed.

Lemma C47_no_digits_proof :
  forall s rest, List.length s = 12%nat -> (forall c, In c s -> isdigit c = false /\ c <> 45 /\ c <> 43) -> nth 2 s 0 <> 46 -> nth 3 s 0 <> 46 ->
  exists v p, get_ra_dec (s ++ rest) = Ret (v, BAD_RA_DEC_FMT, p) /\
  forall sg, sg = 43 \/ sg = 45 -> exists v' p', get_ra_dec (sg :: s ++ rest) = Ret (v', BAD_RA_DEC_FMT, p').
Proof.
  intros s rest L H N2 N3. destruct s as [|c s]; [discriminate|].
  assert (D : forall x, In x (c :: s) -> isdigit x = false) by (intros x Hx; apply H, Hx).
  destruct (atof_none (c :: s) D) as (v & E).
  assert (C : forall dec, ra_dec_fields dec (c :: s) = Ret (v, BAD_RA_DEC_FMT, 1%Q, 0%nat)).
  { intros dec. unfold ra_dec_fields. cbv zeta. rewrite E. cbn [obind]. rewrite (no_digit_span _ D). change (7 <? Z.of_nat 0) with false. cbn match.
    destruct (Z.eqb_spec (nth 2 (c :: s) 0) 46); [contradiction|]. destruct (Z.eqb_spec (nth 3 (c :: s) 0) 46); [contradiction|].
    cbn [Nat.eqb]. rewrite !Bool.andb_false_r. reflexivity. }
  destruct (H c (or_introl eq_refl)) as (_ & S1 & S2). apply Z.eqb_neq in S1, S2.
  exists v. eexists. split.
  - unfold get_ra_dec. change (at_ ((c :: s) ++ rest) 0) with (@Ret Z c). cbn [obind]. rewrite S1, S2. cbn [orb].
    rewrite copy_12 by exact L. cbn [obind]. rewrite C. cbn [obind]. reflexivity.
  - intros sg Hs. unfold get_ra_dec. change (at_ (sg :: (c :: s) ++ rest) 0) with (@Ret Z sg). cbn [obind].
    assert (T : (sg =? 45) || (sg =? 43) = true) by (destruct Hs as [-> | ->]; reflexivity). rewrite T. cbn [tl].
    rewrite copy_12 by exact L. cbn [obind]. rewrite C. cbn [obind]. eexists. eexists. reflexivity.
Qed.

Lemma C47_seven_digits_refuted_proof :
  forall k a rest, fits_layout Packed 1 k -> (0 <= a)%Q -> units Packed 1 a = k ->
  prints a 307 (columns (angle_text Packed 1 k)) /\
  exists v p, get_ra_dec (columns (angle_text Packed 1 k) ++ rest) = Ret (v, BAD_RA_DEC_FMT, p).
Proof.
  intros k a rest F Ha <-. split; [apply (C47_write_proof Packed 1 a); [cbn; lia|exact Ha|exact F]|]. set (k := units Packed 1 a) in *.
  unfold fits_layout in F. destruct (parts 1 k _ F) as (PB & _ & _ & _). change (10 ^ Z.of_nat 1) with 10 in *.
  pose proof (Z.mod_pos_bound k 10 ltac:(lia)).
  set (i := k / 10) in *. set (h := i / 3600). set (m := i / 60 mod 60). set (s := i mod 60). set (d := k mod 10) in *.
  assert (0 <= h < 100) by (split; [apply Z.div_pos; lia|apply Z.div_lt_upper_bound; lia]).
  assert (0 <= m < 60) by (apply Z.mod_pos_bound; lia). assert (0 <= s < 60) by (apply Z.mod_pos_bound; lia).
  assert (J : angle_text Packed 1 k = ndig 7 (((h * 100 + m) * 100 + s) * 10 + d)).
  { unfold angle_text. cbv zeta. change (10 ^ Z.of_nat 1) with 10. fold i. fold d. fold h m s.
    rewrite (ndig_join 2 1 s d) by (try change (10 ^ Z.of_nat 1) with 10; lia). change (10 ^ Z.of_nat 1) with 10. cbn [Nat.add].
    rewrite (ndig_join 2 3 m _) by (try change (10 ^ Z.of_nat 3) with 1000; lia). change (10 ^ Z.of_nat 3) with 1000. cbn [Nat.add].
    rewrite (ndig_join 2 5 h _) by (try change (10 ^ Z.of_nat 5) with 100000; lia). change (10 ^ Z.of_nat 5) with 100000. cbn [Nat.add]. f_equal. ring. }
  set (N := ((h * 100 + m) * 100 + s) * 10 + d) in *. assert (BN : 0 <= N < 10000000) by (unfold N; lia).
  assert (EC : columns (angle_text Packed 1 k) = ndig 7 N ++ repeat 32 5) by (unfold columns; rewrite J, ndig_length; reflexivity).
  rewrite EC.
  assert (D0 : isdigit (48 + N / 1000000 mod 10) = true) by (apply is_digit_48, Z.mod_pos_bound; lia). destruct (digit_no_sign _ D0) as (S1 & S2).
  unfold get_ra_dec. change (at_ ((ndig 7 N ++ repeat 32 5) ++ rest) 0) with (@Ret Z (48 + N / 1000000 mod 10)). cbn [obind].
  rewrite S1, S2. cbn [orb]. rewrite copy_12 by reflexivity. cbn [obind].
  unfold ra_dec_fields. cbv zeta. rewrite (atof_int 6 N) by (try exact BN; try reflexivity; try discriminate; unfold IMAX; lia). cbn [obind].
  rewrite span_ndig. change (7 <? Z.of_nat (7 + span isdigit (repeat 32 5))) with false. cbn match.
  change (nth 2 (ndig 7 N ++ repeat 32 5) 0) with (48 + N / 10000 mod 10). change (nth 3 (ndig 7 N ++ repeat 32 5) 0) with (48 + N / 1000 mod 10).
  pose proof (Z.mod_pos_bound (N / 10000) 10 ltac:(lia)). pose proof (Z.mod_pos_bound (N / 1000) 10 ltac:(lia)).
  destruct (Z.eqb_spec (48 + N / 10000 mod 10) 46); [lia|]. destruct (Z.eqb_spec (48 + N / 1000 mod 10) 46); [lia|].
  destruct (Z.eqb_spec (48 + N / 10000 mod 10) 32); [lia|]. destruct (Z.eqb_spec (48 + N / 1000 mod 10) 32); [lia|]. cbn [andb obind].
  eexists. eexists. reflexivity.
Qed.

Lemma C47_packed_overflow_refuted_proof :
  forall n k rest, (2 <= n <= 6)%nat -> fits_layout Packed n k -> IMAX < packed_number n k ->
  get_ra_dec (columns (angle_text Packed n k) ++ rest) = UB.
Proof.
  intros n k rest Hn F Hb. unfold fits_layout in F. destruct (parts n k _ F) as (PB & _ & _ & _). pose proof (pow_pos n) as P.
  pose proof (Z.mod_pos_bound k (10 ^ Z.of_nat n) P) as PM. unfold packed_number in Hb. cbv zeta in Hb.
  set (i := k / 10 ^ Z.of_nat n) in *. set (h := i / 3600) in *. set (m := i / 60 mod 60) in *. set (s := i mod 60) in *. set (d := k mod 10 ^ Z.of_nat n) in *.
  assert (0 <= h < 100) by (split; [apply Z.div_pos; lia|apply Z.div_lt_upper_bound; lia]).
  assert (0 <= m < 60) by (apply Z.mod_pos_bound; lia). assert (0 <= s < 60) by (apply Z.mod_pos_bound; lia).
  assert (J : angle_text Packed n k = ndig (6 + n) (((h * 100 + m) * 100 + s) * 10 ^ Z.of_nat n + d)).
  { unfold angle_text. cbv zeta. fold i. fold d. fold h m s. rewrite <- (ndig_join 6 n) by lia.
    replace (ndig 6 ((h * 100 + m) * 100 + s)) with (ndig 2 h ++ ndig 2 m ++ ndig 2 s); [rewrite <- !app_assoc; reflexivity|].
    rewrite (ndig_join 2 2 m s) by (try change (10 ^ Z.of_nat 2) with 100; lia). change (10 ^ Z.of_nat 2) with 100. cbn [Nat.add].
    rewrite (ndig_join 2 4 h (m * 100 + s)) by (try change (10 ^ Z.of_nat 4) with 10000; lia). change (10 ^ Z.of_nat 4) with 10000. cbn [Nat.add]. f_equal. ring. }
  set (N := ((h * 100 + m) * 100 + s) * 10 ^ Z.of_nat n + d) in *.
  assert (BN : 0 <= N < 10 ^ Z.of_nat (6 + n)).
  { unfold N. rewrite Nat2Z.inj_add, Z.pow_add_r by lia. change (10 ^ Z.of_nat 6) with 1000000. nia. }
  assert (R : can_read Packed n) by (cbn; lia). destruct (angle_head Packed n k R) as (c & r & Ec & Dc). destruct (digit_no_sign c Dc) as (S1 & S2).
  unfold get_ra_dec. rewrite Ec. cbn [app]. change (at_ (c :: r ++ rest) 0) with (@Ret Z c). cbn [obind].
  rewrite S1, S2. cbn [orb]. change (c :: r ++ rest) with ((c :: r) ++ rest). rewrite <- Ec.
  rewrite copy_12 by (apply columns_length; exact R). cbn [obind].
  unfold columns. rewrite J. unfold ra_dec_fields, quick_atof, quick_strtod. cbv zeta.
  change (6 + n)%nat with (S (5 + n)). rewrite skip_ndig, sign_ndig.
  rewrite int_over; [reflexivity|unfold IMAX; lia|lia|]. rewrite Z.mod_small by exact BN. lia.
Qed.

Lemma C47_whole_degrees_refuted_proof :
  forall a rest, (0 <= a)%Q -> (a < 99)%Q -> let k := Qfloor (a + (1 # 2)) in
  prints a 200 (columns (ndig 2 k)) /\ prints a 100 (columns (ndig 2 k)) /\
  reads_angle (columns (ndig 2 k) ++ rest) (inject_Z k) (-1) 60.
Proof.
  intros a rest Ha Hb k.
  assert (Bk : 0 <= k < 100).
  { unfold k. split; [change 0 with (Qfloor 0); apply Qfloor_resp_le; lra|].
    destruct (floor_bounds (a + (1 # 2))) as [A B]. assert (inject_Z (Qfloor (a + (1 # 2))) < inject_Z 100)%Q by (change (inject_Z 100) with 100%Q; lra).
    now rewrite <- Zlt_Qlt in H. }
  assert (EU : units Decimal 0 a = k) by (unfold units, k; apply Qfloor_comp; cbn [per]; change (inject_Z (1 * 10 ^ Z.of_nat 0)) with 1%Q; ring).
  assert (P100 : prints a 100 (columns (ndig 2 k))).
  { destruct (C47_write_proof Decimal 0 a) as (W & _); [cbn; lia|exact Ha|rewrite EU; exact Bk|].
    rewrite EU in W. unfold angle_text in W. cbv zeta in W. change (10 ^ Z.of_nat 0) with 1 in W. rewrite Z.div_1_r in W. cbn [decimals] in W.
    rewrite app_nil_r in W. exact W. }
  split; [|split; [exact P100|]].
  - destruct P100 as (NN & P). split; [exact NN|]. intros pre room post Hr. rewrite <- (P pre room post Hr).
    unfold output_angle_to_buff, angle_fields. cbv zeta. cbn [Z.leb Z.compare Pos.compare Pos.compare_cont andb orb].
    change (Z.rem 200 100) with 0. change (Z.rem 100 100) with 0.
    change (Z.to_nat 0) with 0%nat. cbn [ten_to_the_nth obind]. destruct (to_integer I64MAX (a * 1 * inject_Z 1 + (1 # 2))) as [fr| | |]; cbn [obind]; try reflexivity.
    destruct (snprintf _ _ _ _) as [b| | |]; cbn [obind]; reflexivity.
  - assert (EC : columns (ndig 2 k) = ndig 2 k ++ repeat 32 10) by (unfold columns; rewrite ndig_length; reflexivity). rewrite EC.
    assert (D0 : isdigit (48 + k / 10 mod 10) = true) by (apply is_digit_48, Z.mod_pos_bound; lia). destruct (digit_no_sign _ D0) as (S1 & S2).
    unfold reads_angle, get_ra_dec. change (at_ ((ndig 2 k ++ repeat 32 10) ++ rest) 0) with (@Ret Z (48 + k / 10 mod 10)). cbn [obind].
    rewrite S1, S2. cbn [orb]. rewrite copy_12 by reflexivity. cbn [obind].
    unfold ra_dec_fields. cbv zeta. rewrite (atof_int 1 k) by (try exact Bk; try reflexivity; try discriminate; unfold IMAX; lia). cbn [obind].
    rewrite span_ndig. change (7 <? Z.of_nat (2 + span isdigit (repeat 32 10))) with false. cbn match.
    change (nth 2 (ndig 2 k ++ repeat 32 10) 0) with 32. change (nth 3 (ndig 2 k ++ repeat 32 10) 0) with 32.
    change (skipn 3 (ndig 2 k ++ repeat 32 10)) with (repeat 32 9). change (nth 5 (ndig 2 k ++ repeat 32 10) 0) with 32. change (nth 7 (ndig 2 k ++ repeat 32 10) 0) with 32.
    unfold n_digits_from. change (skipn 6 (ndig 2 k ++ repeat 32 10)) with (repeat 32 6). cbn. eexists. eexists. split; [reflexivity|]. split; [|reflexivity].
    change (0 / 60)%Q with 0%Q. unfold Qeq. cbn. lia.
Qed.

Lemma prefix_app old : forall s, prefix old s = true -> s = old ++ skipn (List.length old) s.
Proof.
  induction old as [|c old IH]; intros s H; [reflexivity|]. destruct s as [|x s]; [discriminate|]. cbn [prefix] in H. apply andb_prop in H.
  destruct H as [H1 H2]. apply Z.eqb_eq in H1. subst x. cbn [List.length skipn app]. f_equal. now apply IH.
Qed.
Lemma prefix_of old r : prefix old (old ++ r) = true.
Proof. induction old as [|c old IH]; [reflexivity|]. cbn [prefix app]. now rewrite Z.eqb_refl, IH. Qed.
Lemma search_ok old new : old <> [] -> forall fuel s, (List.length s <= fuel)%nat ->
  exists t n, text_search_and_replace fuel s old new = Ret (t, n) /\ replaced old new s t n.
Proof.
  intros HO. assert (LO : (1 <= List.length old)%nat) by (destruct old; [now elim HO|cbn; lia]).
  induction fuel as [|f IH]; intros s Hs.
  - assert (s = []) as -> by (destruct s; [reflexivity|cbn in Hs; lia]). cbn [text_search_and_replace].
    destruct (Nat.leb_spec (List.length old) (@List.length Z [])) as [H|H]; [cbn in H; lia|].
    exists [], 0. split; [reflexivity|]. apply replaced_none. intros p r E. apply (f_equal (@List.length Z)) in E. rewrite !app_length in E. cbn in E. lia.
  - cbn [text_search_and_replace]. destruct (Nat.leb_spec (List.length old) (List.length s)) as [H|H].
    2: { exists s, 0. split; [reflexivity|]. apply replaced_none. intros p r E. apply (f_equal (@List.length Z)) in E. rewrite !app_length in E. lia. }
    destruct (prefix old s) eqn:EP.
    + pose proof (prefix_app old s EP) as ES. set (r := skipn (List.length old) s) in *.
      destruct (IH r) as (t & n & E & R); [unfold r; rewrite skipn_length; lia|]. rewrite E. cbn [obind]. exists (new ++ t), (n + 1). split; [reflexivity|].
      rewrite ES. apply (replaced_next old new [] r t n); [intros; cbn; lia|exact R].
    + destruct s as [|c s]; [cbn in H; lia|]. cbn [tl firstn].
      destruct (IH s) as (t & n & E & R); [cbn in Hs; lia|]. rewrite E. cbn [obind app]. exists (c :: t), n. split; [reflexivity|].
      assert (NP : forall r, c :: s <> old ++ r) by (intros r Er; rewrite Er, prefix_of in EP; discriminate EP).
      inversion R as [s0 HN|p r t0 n0 HF R0]; subst.
      * apply replaced_none. intros p r Er. destruct p as [|x p]; [now apply (NP r)|]. injection Er as -> Er. now apply (HN p r).
      * apply (replaced_next old new (c :: p) r t0 n0); [|exact R0]. intros q r' Eq. destruct q as [|x q]; [now elim (NP r')|].
        cbn [app] in Eq. injection Eq as -> Eq. cbn [List.length]. apply HF in Eq. lia.
Qed.

Lemma C48_replace_proof :
  forall str oldstr newstr, oldstr <> [] ->
  exists t n, replaced oldstr newstr str t n /\
    forall fuel, (List.length str <= fuel)%nat -> text_search_and_replace fuel str oldstr newstr = Ret (t, n).
Proof.
  intros s old new HO. destruct (search_ok old new HO (List.length s) s (le_n _)) as (t & n & E & R). exists t, n. split; [exact R|].
  assert (M : forall f s r, text_search_and_replace f s old new = Ret r -> forall f', (f <= f')%nat -> text_search_and_replace f' s old new = Ret r).
  { clear. induction f as [|f IH]; intros s r H f' Hf; cbn [text_search_and_replace] in H.
    - destruct f' as [|f']; [exact H|]. cbn [text_search_and_replace]. destruct (Nat.leb (List.length old) (List.length s)); [discriminate|exact H].
    - destruct f' as [|f']; [lia|]. cbn [text_search_and_replace]. destruct (Nat.leb (List.length old) (List.length s)); [|exact H].
      destruct (prefix old s).
      + destruct (text_search_and_replace f (skipn (List.length old) s) old new) as [x| | |] eqn:E; try discriminate. rewrite (IH _ _ E f') by lia. exact H.
      + destruct (text_search_and_replace f (tl s) old new) as [x| | |] eqn:E; try discriminate. rewrite (IH _ _ E f') by lia. exact H. }
  intros fuel Hf. now apply (M (List.length s)).
Qed.

Lemma C48_unique_proof :
  forall old new s t n t' n', old <> [] -> replaced old new s t n -> replaced old new s t' n' -> t = t' /\ n = n'.
Proof.
  intros old new s t n t' n' HO H. revert t' n'. induction H as [s HN|p r t n HF R IH]; intros t' n' H'.
  - inversion H' as [s0 HN'|p' r' t0 n0 HF' R']; subst; [now split|]. exfalso. now apply (HN p' r').
  - inversion H' as [s0 HN'|p' r' t0 n0 HF' R' E]; subst; [exfalso; now apply (HN' p r)|].
    assert (L : List.length p = List.length p').
    { pose proof (HF p' r' (eq_sym E)). pose proof (HF' p r E). lia. }
    assert (EP : p = p' /\ r = r').
    { clear - E L. revert p' L E. induction p as [|c p IHp]; intros p' L E; destruct p' as [|c' p']; try discriminate.
      - cbn [app] in E. apply app_inv_head in E. now split.
      - cbn [app] in E. injection E as -> E. destruct (IHp p') as (-> & ->); [cbn in L; lia|exact E|now split]. }
    destruct EP as (<- & <-). destruct (IH t0 n0 R') as (<- & <-). now split.
Qed.

Lemma C48_empty_refuted_proof :
  forall fuel str newstr, text_search_and_replace fuel str [] newstr = Fuel.
Proof.
  induction fuel as [|f IH]; intros s new; [reflexivity|]. cbn [text_search_and_replace List.length Nat.leb prefix skipn]. now rewrite IH.
Qed.
