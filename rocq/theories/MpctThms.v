(** Proofs of the theorems stated in [PropMpct]. *)
From Coq Require Import Lia String.
From Verif Require Import CBase CStr CLemmas DateModel DateSpec DateVocab DateFacts DateCount DesigModel DesigSpec DesigThms MpctModel MpctSpec.
Open Scope list_scope.

Fixpoint leqb (a b : list Z) : bool := match a, b with [], [] => true | x :: a, y :: b => (x =? y) && leqb a b | _, _ => false end.
Lemma leqb_eq a : forall b, leqb a b = true -> a = b.
Proof. induction a as [|x a IH]; intros [|y b] H; try discriminate; [reflexivity|]. cbn in H. apply andb_true_iff in H. destruct H as [H1 H2]. apply Z.eqb_eq in H1. rewrite H1, (IH b H2). reflexivity. Qed.
Lemma sweep f n v : forallb (fun k => f (Z.of_nat k)) (seq 0 n) = true -> 0 <= v < Z.of_nat n -> f v = true.
Proof. intros H V. rewrite forallb_forall in H. specialize (H (Z.to_nat v)). rewrite Z2Nat.id in H by lia. apply H. apply in_seq. lia. Qed.
Lemma pad2 v : 0 <= v <= 99 -> pad0 2 v = d2 v.
Proof. intros V. apply leqb_eq. apply (sweep (fun v => leqb (pad0 2 v) (d2 v)) 100); [vm_compute; reflexivity|cbn; lia]. Qed.
Lemma pad3 v : 0 <= v <= 999 -> pad0 3 v = d3 v.
Proof. intros V. apply leqb_eq. apply (sweep (fun v => leqb (pad0 3 v) (d3 v)) 1000); [vm_compute; reflexivity|lia]. Qed.
Lemma pad4_all : forallb (fun k => let v := 1800 + Z.of_nat k in leqb (pad0 4 v) (d4 v)) (seq 0 1000) = true.
Proof. vm_compute. reflexivity. Qed.
Lemma pad4 v : 1800 <= v <= 2799 -> pad0 4 v = d4 v.
Proof. intros V. apply leqb_eq. pose proof (sweep (fun k => leqb (pad0 4 (1800 + k)) (d4 (1800 + k))) 1000 (v - 1800) pad4_all ltac:(lia)) as H. cbv beta in H. replace (1800 + (v - 1800)) with v in H by ring. exact H. Qed.
Lemma pad3_long : forallb (fun k => Nat.leb (List.length (pad0 3 (Z.of_nat k))) 4) (seq 0 3844) = true.
Proof. vm_compute. reflexivity. Qed.
Lemma skipn_skipn m : forall n (l : list Z), skipn m (skipn n l) = skipn (m + n) l.
Proof. induction n as [|n IH]; intros l; [rewrite Nat.add_0_r; reflexivity|]. rewrite Nat.add_succ_r. destruct l; cbn [skipn]; [apply skipn_nil|apply IH]. Qed.
Lemma firstn_exact n (a b : list Z) : List.length a = n -> firstn n (a ++ b) = a.
Proof. intros <-. rewrite firstn_app, Nat.sub_diag, firstn_O, app_nil_r. apply firstn_all. Qed.
Lemma d62 c d : is_digit62 c d -> 0 <= d < 62.
Proof. intros [A B]. split; [assumption|]. assert (Z.to_nat d < List.length base62)%nat by (apply nth_error_Some; congruence). change (List.length base62) with 62%nat in H. lia. Qed.
Lemma n62_bound s ds : Forall2 is_digit62 s ds -> 0 <= number62 ds < 62 ^ Z.of_nat (List.length s).
Proof.
  intros H. unfold number62. assert (G : forall acc, 0 <= acc -> 0 <= fold_left (fun v d => 62 * v + d) ds acc < (acc + 1) * 62 ^ Z.of_nat (List.length s)).
  { induction H as [|c d s ds D H IH]; intros acc A; [cbn; lia|]. cbn [fold_left]. pose proof (d62 c d D) as B. pose proof (IH (62 * acc + d) ltac:(lia)) as I.
    split; [lia|]. eapply Z.lt_le_trans; [apply I|]. cbn [List.length]. rewrite Nat2Z.inj_succ, Z.pow_succ_r by lia. 
    assert (0 <= 62 ^ Z.of_nat (List.length s)) by (apply Z.pow_nonneg; lia). nia. }
  pose proof (G 0 ltac:(lia)). lia.
Qed.
Lemma f62_bound n s v : field62 n s v -> 0 <= v < 62 ^ Z.of_nat n.
Proof. intros (L & ds & D & <-). rewrite <- L. apply n62_bound. assumption. Qed.
Lemma f62_get n s v p r : field62 n s v -> v <= 2147483647 -> get_mutant_hex_value (p ++ s ++ r) (Z.of_nat (List.length p)) n = Ret v.
Proof. intros (L & ds & D & <-) B. subst n. apply C21_decode_proof; assumption. Qed.
Definition warn (c : bool) (t : list Z) : list (list Z) := if c then [t] else [].
Definition lines_of (id : list Z) (day n_days ms hms m6 : Z) : list (list Z) :=
  let len := List.length id in
       warn (16 <=? Z.of_nat len) (zs "Submission counter: " ++ firstn 8 (skipn 8 id) ++ zs " (mutant hex)") ++
       warn (18 <=? Z.of_nat len) (zs "Sub-batch number within main batch counter: " ++ firstn 2 (skipn 16 id) ++ zs " (mutant hex)") ++
       warn (25 <=? Z.of_nat len) (zs "Observation number within the sub-batch: " ++ firstn 7 (skipn 18 id) ++ zs " (mutant hex)") ++
       warn (n_days <? day) (zs "WARNING: There are only " ++ dec n_days ++ zs " days in that month") ++
       warn (1000 <=? ms) (zs "WARNING: milliseconds should be 999 or less") ++
       warn (86400 <? hms) (zs "WARNING: time of day is out of range") ++
       warn ((hms =? 86400) && (negb (m6 =? 0) || negb (day =? n_days))) (zs "WARNING: This is an invalid leap second.") ++
       warn ((hms =? 86400) && negb (negb (m6 =? 0) || negb (day =? n_days))) (zs "WARNING: This is a leap second.").
Lemma quot_ok x k : 0 <= x -> 0 < k -> Z.quot x k = x / k. Proof. intros. apply Z.quot_div_nonneg; lia. Qed.
Lemma rem_ok x k : 0 <= x -> 0 < k -> Z.rem x k = x mod k. Proof. intros. apply Z.rem_mod_nonneg; lia. Qed.
Lemma split_ymd y m d : 1800 <= y -> 1 <= m <= 12 -> 1 <= d <= 31 -> let n := (y - 1800) * 12 * 31 + (m - 1) * 31 + (d - 1) in
  n / 372 = y - 1800 /\ (n / 31) mod 12 = m - 1 /\ n mod 31 = d - 1.
Proof.
  intros Y M D n. assert (A : n / 31 = (y - 1800) * 12 + (m - 1)) by (symmetry; apply (Z.div_unique n 31 _ (d - 1)); unfold n; lia).
  split; [symmetry; apply (Z.div_unique n 372 _ ((m - 1) * 31 + (d - 1))); unfold n; lia|]. split.
  - rewrite A. symmetry. apply (Z.mod_unique _ 12 (y - 1800)); lia.
  - symmetry. apply (Z.mod_unique n 31 ((y - 1800) * 12 + (m - 1))); unfold n; lia.
Qed.
Lemma split_hms h mi s : 0 <= h -> 0 <= mi < 60 -> 0 <= s < 60 -> let n := h * 3600 + mi * 60 + s in
  n / 3600 = h /\ (n / 60) mod 60 = mi /\ n mod 60 = s.
Proof.
  intros H M S n. assert (A : n / 60 = h * 60 + mi) by (symmetry; apply (Z.div_unique n 60 _ s); unfold n; lia).
  split; [symmetry; apply (Z.div_unique n 3600 _ (mi * 60 + s)); unfold n; lia|]. split.
  - rewrite A. symmetry. apply (Z.mod_unique _ 60 h); lia.
  - symmetry. apply (Z.mod_unique n 60 (h * 60 + mi)); unfold n; lia.
Qed.
Lemma text_len p : (List.length (p : list Z) <= 79)%nat -> firstn 79 p = p. Proof. intros. apply firstn_all2. assumption. Qed.
Lemma d2_len v : List.length (d2 v) = 2%nat. Proof. reflexivity. Qed.
Lemma d4_len v : List.length (d4 v) = 4%nat. Proof. reflexivity. Qed.
Lemma decode L y m d h mi s ms id rest : long_ok L -> stamp y m d h mi s ms id -> 1800 <= y -> 1 <= m <= 12 -> 1 <= d <= 31 -> 0 <= h -> 0 <= mi < 60 -> 0 <= s < 60 ->
  mpc_time L (id ++ rest) = Ret (d4 y ++ zs "-" ++ d2 m ++ zs "-" ++ d2 d ++ zs " " ++ d2 h ++ zs ":" ++ d2 mi ++ zs ":" ++ d2 s ++ zs "." ++ pad0 3 ms,
    lines_of (id ++ rest) d (gregorian m y) ms (h * 3600 + mi * 60 + s) (m mod 6)).
Proof.
  intros HL (a & b & c & -> & Fa & Fb & Fc) Y M D H Mi S.
  pose proof (f62_bound _ _ _ Fa) as Ba. pose proof (f62_bound _ _ _ Fb) as Bb. pose proof (f62_bound _ _ _ Fc) as Bc.
  change (62 ^ Z.of_nat 3) with 238328 in *. change (62 ^ Z.of_nat 2) with 3844 in *.
  unfold mpc_time.
  assert (Ga : get_mutant_hex_value ((a ++ b ++ c) ++ rest) 0 3 = Ret ((y - 1800) * 12 * 31 + (m - 1) * 31 + (d - 1))).
  { replace ((a ++ b ++ c) ++ rest) with ([] ++ a ++ (b ++ c ++ rest)) by (cbn; rewrite <- !app_assoc; reflexivity). apply (f62_get 3 a _ []); [assumption|lia]. }
  assert (Gb : get_mutant_hex_value ((a ++ b ++ c) ++ rest) 3 3 = Ret (h * 3600 + mi * 60 + s)).
  { replace ((a ++ b ++ c) ++ rest) with (a ++ b ++ (c ++ rest)) by (rewrite <- !app_assoc; reflexivity). pose proof (f62_get 3 b _ a (c ++ rest) Fb ltac:(lia)) as G. rewrite (proj1 Fa) in G. exact G. }
  assert (Gc : get_mutant_hex_value ((a ++ b ++ c) ++ rest) 6 2 = Ret ms).
  { replace ((a ++ b ++ c) ++ rest) with ((a ++ b) ++ c ++ rest) by (rewrite <- !app_assoc; reflexivity). pose proof (f62_get 2 c _ (a ++ b) rest Fc ltac:(lia)) as G. rewrite app_length, (proj1 Fa), (proj1 Fb) in G. exact G. }
  rewrite Ga, Gb, Gc. cbn [obind]. clear Ga Gb Gc.
  pose proof (split_ymd y m d Y M D) as (Q1 & Q2 & Q3). pose proof (split_hms h mi s H Mi S) as (R1 & R2 & R3). cbv zeta in *.
  set (ymd := (y - 1800) * 12 * 31 + (m - 1) * 31 + (d - 1)) in *. set (hms := h * 3600 + mi * 60 + s) in *.
  assert (E1 : ev IMAX (ymd / (31 * 12) + 1800)%cx = Ret y).
  { rewrite ev_val; cbn [safe val]; change (31 * 12) with 372; rewrite quot_ok by lia; rewrite Q1; [f_equal; lia|unfold fits, IMAX; repeat split; lia]. }
  assert (E2 : ev IMAX ((ymd / 31) mod 12 + 1)%cx = Ret m).
  { pose proof (Z.div_pos ymd 31 ltac:(lia) ltac:(lia)). pose proof (Z.div_le_upper_bound ymd 31 10000 ltac:(lia) ltac:(lia)).
    rewrite ev_val; cbn [safe val]; rewrite (quot_ok ymd 31) by lia; rewrite rem_ok by lia; rewrite Q2; [f_equal; lia|].
    assert (0 <= ymd / 31 / 12 <= 10000) by (split; [apply Z.div_pos; lia|apply Z.div_le_upper_bound; lia]).
    unfold fits, IMAX; rewrite (quot_ok (ymd / 31) 12) by lia; repeat split; lia. }
  assert (E3 : ev IMAX (ymd mod 31 + 1)%cx = Ret d).
  { rewrite ev_val; cbn [safe val]; rewrite rem_ok by lia; rewrite Q3; [f_equal; lia|].
    assert (0 <= ymd / 31 <= 10000) by (split; [apply Z.div_pos; lia|apply Z.div_le_upper_bound; lia]).
    unfold fits, IMAX; rewrite (quot_ok ymd 31) by lia; repeat split; lia. }
  assert (E4 : ev IMAX (hms / 3600)%cx = Ret h).
  { rewrite ev_val; cbn [safe val]; rewrite quot_ok by lia; rewrite R1; [reflexivity|unfold fits, IMAX; repeat split; lia]. }
  assert (E5 : ev IMAX ((hms / 60) mod 60)%cx = Ret mi).
  { pose proof (Z.div_pos hms 60 ltac:(lia) ltac:(lia)). pose proof (Z.div_le_upper_bound hms 60 10000 ltac:(lia) ltac:(lia)).
    rewrite ev_val; cbn [safe val]; rewrite (quot_ok hms 60) by lia; rewrite rem_ok by lia; rewrite R2; [reflexivity|].
    assert (0 <= hms / 60 / 60 <= 10000) by (split; [apply Z.div_pos; lia|apply Z.div_le_upper_bound; lia]).
    unfold fits, IMAX; rewrite (quot_ok (hms / 60) 60) by lia; repeat split; lia. }
  assert (E6 : ev IMAX (hms mod 60)%cx = Ret s).
  { rewrite ev_val; cbn [safe val]; rewrite rem_ok by lia; rewrite R3; [reflexivity|].
    assert (0 <= hms / 60 <= 10000) by (split; [apply Z.div_pos; lia|apply Z.div_le_upper_bound; lia]).
    unfold fits, IMAX; rewrite (quot_ok hms 60) by lia; repeat split; lia. }
  assert (E7 : ev IMAX (m mod 6)%cx = Ret (m mod 6)).
  { rewrite ev_val; cbn [safe val]; rewrite rem_ok by lia; [reflexivity|].
    pose proof (Z.mod_pos_bound m 6 ltac:(lia)). assert (0 <= m / 6 <= 10000) by (split; [apply Z.div_pos; lia|apply Z.div_le_upper_bound; lia]).
    unfold fits, IMAX; rewrite (quot_ok m 6) by lia; repeat split; lia. }
  rewrite E1. cbn [obind]. rewrite E2. cbn [obind]. rewrite E3. cbn [obind].
  rewrite days_in_monthA; [|assumption| |lia].
  2:{ left. split; [unfold rule_cal; tauto|]. unfold year_ok, long_ok in *. lia. }
  rewrite <- gregorian_len by lia. cbn [obind]. rewrite E4. cbn [obind]. rewrite E5. cbn [obind]. rewrite E6. cbn [obind]. rewrite E7. cbn [obind].
  cbv zeta. fold (warn). unfold lines_of, warn. f_equal. f_equal.
  rewrite (pad4 y), (pad2 m), (pad2 d), (pad2 h), (pad2 mi), (pad2 s) by lia. apply text_len. rewrite !app_length, d4_len, !d2_len.
  pose proof (sweep (fun k => Nat.leb (List.length (pad0 3 k)) 4) 3844 ms pad3_long ltac:(lia)) as P. apply Nat.leb_le in P.
  change (List.length (zs "-")) with 1%nat. change (List.length (zs " ")) with 1%nat. change (List.length (zs ":")) with 1%nat. change (List.length (zs ".")) with 1%nat. lia.
Qed.

Lemma C39_decode_proof :
  forall L y m d h mi s ms id rest, long_ok L -> stamp y m d h mi s ms id ->
  1800 <= y -> 1 <= m <= 12 -> 1 <= d <= 31 -> 0 <= h -> 0 <= mi < 60 -> 0 <= s < 60 -> 0 <= ms < 1000 ->
  exists lines, mpc_time L (id ++ rest) =
    Ret (d4 y ++ zs "-" ++ d2 m ++ zs "-" ++ d2 d ++ zs " " ++ d2 h ++ zs ":" ++ d2 mi ++ zs ":" ++ d2 s ++ zs "." ++ d3 ms, lines).
Proof.
  intros L y m d h mi s ms id rest HL St Y M D H Mi S Ms. eexists. rewrite (decode L y m d h mi s ms) by assumption. rewrite pad3 by lia. reflexivity.
Qed.

Lemma C39_every_stamp_proof :
  forall id ds, Forall2 is_digit62 id ds -> List.length id = 8%nat ->
  exists y m d h mi s ms, (1800 <= y /\ 1 <= m <= 12 /\ 1 <= d <= 31 /\ 0 <= h /\ 0 <= mi < 60 /\ 0 <= s < 60) /\ stamp y m d h mi s ms id /\
    forall y' m' d' h' mi' s' ms', (1800 <= y' /\ 1 <= m' <= 12 /\ 1 <= d' <= 31 /\ 0 <= h' /\ 0 <= mi' < 60 /\ 0 <= s' < 60) ->
      stamp y' m' d' h' mi' s' ms' id -> (y', m', d', h', mi', s', ms') = (y, m, d, h, mi, s, ms).
Proof.
  intros id ds F L8. 
  assert (Sp : id = firstn 3 id ++ firstn 3 (skipn 3 id) ++ skipn 6 id).
  { rewrite <- (firstn_skipn 3 id) at 1. f_equal. rewrite <- (firstn_skipn 3 (skipn 3 id)) at 1. f_equal. rewrite skipn_skipn. reflexivity. }
  assert (Sd : ds = firstn 3 ds ++ firstn 3 (skipn 3 ds) ++ skipn 6 ds).
  { rewrite <- (firstn_skipn 3 ds) at 1. f_equal. rewrite <- (firstn_skipn 3 (skipn 3 ds)) at 1. f_equal. rewrite skipn_skipn. reflexivity. }
  assert (F1 : forall n, Forall2 is_digit62 (firstn n id) (firstn n ds)). { clear -F. intros n. revert n. induction F; intros [|n]; cbn; constructor; auto. }
  assert (F2 : forall n, Forall2 is_digit62 (skipn n id) (skipn n ds)). { clear -F. intros n. revert n. induction F; intros [|n]; cbn; try constructor; auto. }
  assert (F3 : Forall2 is_digit62 (firstn 3 (skipn 3 id)) (firstn 3 (skipn 3 ds))).
  { pose proof (F2 3%nat) as G. revert G. generalize (skipn 3 id) (skipn 3 ds). intros a b G. generalize 3%nat as n. induction G; intros [|n]; cbn; constructor; auto. }
  set (A := number62 (firstn 3 ds)). set (B := number62 (firstn 3 (skipn 3 ds))). set (C := number62 (skipn 6 ds)).
  assert (FA : field62 3 (firstn 3 id) A) by (split; [rewrite firstn_length; lia|eauto]).
  assert (FB : field62 3 (firstn 3 (skipn 3 id)) B) by (split; [rewrite firstn_length, skipn_length; lia|eauto]).
  assert (FC : field62 2 (skipn 6 id) C) by (split; [rewrite skipn_length; lia|eauto]).
  pose proof (f62_bound _ _ _ FA) as bA. pose proof (f62_bound _ _ _ FB) as bB. clearbody A B C.
  assert (U : forall n s v v', field62 n s v -> field62 n s v' -> v = v').
  { intros n s v v' (_ & e & E & <-) (_ & e' & E' & <-). f_equal. clear -E E'. revert e' E'. induction E; intros e' E'; inversion E'; subst; [reflexivity|]. f_equal; [|auto].
    destruct H as [P1 P2]. match goal with H : is_digit62 x _ |- _ => destruct H as [P3 P4] end.
    assert (Z.to_nat y = Z.to_nat y0); [|lia]. apply (proj1 (NoDup_nth_error base62)); [|apply nth_error_Some; congruence|congruence].
    clear. assert (K : forallb (fun i => forallb (fun j => Nat.eqb i j || negb (nth i base62 0 =? nth j base62 0)) (seq 0 62)) (seq 0 62) = true) by (vm_compute; reflexivity).
    apply (NoDup_nth _ 0). intros i j Hi Hj E. change (List.length base62) with 62%nat in *. rewrite forallb_forall in K. specialize (K i ltac:(apply in_seq; lia)). rewrite forallb_forall in K. specialize (K j ltac:(apply in_seq; lia)).
    rewrite E, Z.eqb_refl, orb_false_r in K. apply Nat.eqb_eq in K. assumption. }
  pose proof (Z.div_mod A 31 ltac:(lia)) as A1. pose proof (Z.mod_pos_bound A 31 ltac:(lia)). pose proof (Z.div_mod (A / 31) 12 ltac:(lia)). pose proof (Z.mod_pos_bound (A / 31) 12 ltac:(lia)).
  pose proof (Z.div_mod B 60 ltac:(lia)) as B1. pose proof (Z.mod_pos_bound B 60 ltac:(lia)). pose proof (Z.div_mod (B / 60) 60 ltac:(lia)). pose proof (Z.mod_pos_bound (B / 60) 60 ltac:(lia)).
  assert (0 <= A / 31 / 12) by (apply Z.div_pos; [apply Z.div_pos; lia|lia]). assert (0 <= B / 60 / 60) by (apply Z.div_pos; [apply Z.div_pos; lia|lia]).
  exists (1800 + A / 31 / 12), (1 + (A / 31) mod 12), (1 + A mod 31), (B / 60 / 60), ((B / 60) mod 60), (B mod 60), C.
  split; [lia|]. split.
  - exists (firstn 3 id), (firstn 3 (skipn 3 id)), (skipn 6 id). split; [assumption|]. split; [|split; [|assumption]].
    + replace ((1800 + A / 31 / 12 - 1800) * 12 * 31 + (1 + (A / 31) mod 12 - 1) * 31 + (1 + A mod 31 - 1)) with A by lia. assumption.
    + replace (B / 60 / 60 * 3600 + (B / 60) mod 60 * 60 + B mod 60) with B by lia. assumption.
  - intros y m d h mi s ms (Y & M & D & H' & Mi & S) (a & b & c & E & Fa & Fb & Fc).
    pose proof (proj1 Fa) as la. pose proof (proj1 Fb) as lb.
    assert (Ea : a = firstn 3 id) by (rewrite E, firstn_app, la, firstn_all2 by lia; cbn; rewrite app_nil_r; reflexivity).
    assert (Eb : skipn 3 id = b ++ c) by (rewrite E, skipn_app, la, skipn_all2 by lia; reflexivity).
    assert (Eb' : b = firstn 3 (skipn 3 id)) by (rewrite Eb, firstn_app, lb, firstn_all2 by lia; cbn; rewrite app_nil_r; reflexivity).
    assert (Ec : c = skipn 6 id). { change 6%nat with (3 + 3)%nat. rewrite <- skipn_skipn, Eb, skipn_app, lb, skipn_all2 by lia. reflexivity. }
    subst a b c. pose proof (U _ _ _ _ Fa FA) as UA. pose proof (U _ _ _ _ Fb FB) as UB. pose proof (U _ _ _ _ Fc FC) as UC.
    destruct (split_ymd y m d Y M D) as (Q1 & Q2 & Q3). destruct (split_hms h mi s H' Mi S) as (R1 & R2 & R3). cbv zeta in *. rewrite UA in *. rewrite UB in *. subst ms.
    assert (A / 372 = A / 31 / 12) by (rewrite Z.div_div by lia; reflexivity). assert (B / 3600 = B / 60 / 60) by (rewrite Z.div_div by lia; reflexivity).
    repeat f_equal; lia.
Qed.

Lemma in_warn c t w r : In w (warn c t ++ r) <-> (c = true /\ w = t) \/ In w r.
Proof. unfold warn. destruct c; cbn; intuition congruence. Qed.
Lemma in_warn1 c t w : In w (warn c t) <-> (c = true /\ w = t).
Proof. unfold warn. destruct c; cbn; intuition congruence. Qed.
Lemma hd_ne (a b : list Z) (x y : Z) : x <> y -> x :: a <> y :: b. Proof. congruence. Qed.

Lemma C39_quiet_proof :
  forall L y m d h mi s ms id rest buff lines, long_ok L -> stamp y m d h mi s ms id ->
  1800 <= y -> 1 <= m <= 12 -> 1 <= d <= gregorian m y -> 0 <= h < 24 -> 0 <= mi < 60 -> 0 <= s < 60 -> 0 <= ms < 1000 ->
  mpc_time L (id ++ rest) = Ret (buff, lines) ->
  (rest = [] -> lines = []) /\
  (forall sub batch obs more, rest = sub ++ batch ++ obs ++ more -> List.length sub = 8%nat -> List.length batch = 2%nat -> List.length obs = 7%nat ->
    lines = [zs "Submission counter: " ++ sub ++ zs " (mutant hex)";
             zs "Sub-batch number within main batch counter: " ++ batch ++ zs " (mutant hex)";
             zs "Observation number within the sub-batch: " ++ obs ++ zs " (mutant hex)"]).
Proof.
  intros L y m d h mi s ms id rest buff lines HL St Y M D H Mi S Ms E.
  assert (D31 : 1 <= d <= 31). { assert (gregorian m y <= 31); [|lia]. unfold gregorian, roman_month. destruct (m =? 2), (gregorian_leap y), ((m =? 4) || (m =? 6) || (m =? 9) || (m =? 11)), ((1 <=? m) && (m <=? 12)); lia. }
  rewrite (decode L y m d h mi s ms) in E by (assumption || lia).
  assert (L8 : List.length id = 8%nat). { destruct St as (a & b & c & -> & Fa & Fb & Fc). rewrite !app_length, (proj1 Fa), (proj1 Fb), (proj1 Fc). reflexivity. }
  injection E as Eb El. clear Eb. subst lines. unfold lines_of. cbv zeta.
  destruct (Z.ltb_spec (gregorian m y) d); [lia|]. destruct (Z.leb_spec 1000 ms); [lia|]. destruct (Z.ltb_spec 86400 (h * 3600 + mi * 60 + s)); [lia|].
  destruct (Z.eqb_spec (h * 3600 + mi * 60 + s) 86400); [lia|]. cbn [warn andb app]. rewrite !app_nil_r. split.
  - intros ->. rewrite app_nil_r, L8. reflexivity.
  - intros sub batch obs more -> Ls Lb Lo. rewrite !app_length, L8, Ls, Lb, Lo.
    destruct (Z.leb_spec 16 (Z.of_nat (8 + (8 + (2 + (7 + List.length more)))))); [|lia]. destruct (Z.leb_spec 18 (Z.of_nat (8 + (8 + (2 + (7 + List.length more)))))); [|lia].
    destruct (Z.leb_spec 25 (Z.of_nat (8 + (8 + (2 + (7 + List.length more)))))); [|lia]. cbn [warn app].
    assert (K1 : skipn 8 (id ++ sub ++ batch ++ obs ++ more) = sub ++ batch ++ obs ++ more) by (rewrite skipn_app, L8, skipn_all2 by lia; reflexivity).
    assert (K2 : skipn 16 (id ++ sub ++ batch ++ obs ++ more) = batch ++ obs ++ more). { change 16%nat with (8 + 8)%nat. rewrite <- skipn_skipn, K1, skipn_app, Ls, skipn_all2 by lia. reflexivity. }
    assert (K3 : skipn 18 (id ++ sub ++ batch ++ obs ++ more) = obs ++ more). { change 18%nat with (2 + 16)%nat. rewrite <- skipn_skipn, K2, skipn_app, Lb, skipn_all2 by lia. reflexivity. }
    rewrite K1, K2, K3. rewrite (firstn_exact 8 sub), (firstn_exact 2 batch), (firstn_exact 7 obs) by assumption. reflexivity.
Qed.

Lemma C39_warnings_proof :
  forall L y m d h mi s ms id rest buff lines, long_ok L -> stamp y m d h mi s ms id ->
  1800 <= y -> 1 <= m <= 12 -> 1 <= d <= 31 -> 0 <= h -> 0 <= mi < 60 -> 0 <= s < 60 ->
  mpc_time L (id ++ rest) = Ret (buff, lines) ->
  (In (zs "WARNING: There are only " ++ dec (gregorian m y) ++ zs " days in that month") lines <-> gregorian m y < d) /\
  (In (zs "WARNING: milliseconds should be 999 or less") lines <-> 1000 <= ms) /\
  (In (zs "WARNING: time of day is out of range") lines <-> 86400 < h * 3600 + mi * 60 + s) /\
  (In (zs "WARNING: This is a leap second.") lines <-> (h = 24 /\ mi = 0 /\ s = 0) /\ (m = 6 \/ m = 12) /\ d = gregorian m y) /\
  (In (zs "WARNING: This is an invalid leap second.") lines <-> (h = 24 /\ mi = 0 /\ s = 0) /\ ~ ((m = 6 \/ m = 12) /\ d = gregorian m y)).
Proof.
  intros L y m d h mi s ms id rest buff lines HL St Y M D H Mi S E.
  rewrite (decode L y m d h mi s ms) in E by assumption. injection E as Eb El. clear Eb. subst lines. unfold lines_of. cbv zeta.
  assert (M6 : m mod 6 = 0 <-> m = 6 \/ m = 12).
  { split; [|intros [->| ->]; reflexivity]. intros Z0. pose proof (Z.div_mod m 6 ltac:(lia)). assert (m / 6 = 0 \/ m / 6 = 1 \/ m / 6 = 2) by lia. lia. }
  assert (H24 : h * 3600 + mi * 60 + s = 86400 <-> h = 24 /\ mi = 0 /\ s = 0) by lia.
  assert (B1 : (gregorian m y <? d) = true <-> gregorian m y < d) by apply Z.ltb_lt.
  assert (B2 : (1000 <=? ms) = true <-> 1000 <= ms) by apply Z.leb_le.
  assert (B3 : (86400 <? h * 3600 + mi * 60 + s) = true <-> 86400 < h * 3600 + mi * 60 + s) by apply Z.ltb_lt.
  assert (B4 : ((h * 3600 + mi * 60 + s =? 86400) && (negb (m mod 6 =? 0) || negb (d =? gregorian m y))) = true <-> (h = 24 /\ mi = 0 /\ s = 0) /\ ~ ((m = 6 \/ m = 12) /\ d = gregorian m y)).
  { rewrite andb_true_iff, Z.eqb_eq, orb_true_iff, !negb_true_iff, !Z.eqb_neq, H24, M6. lia. }
  assert (B5 : ((h * 3600 + mi * 60 + s =? 86400) && negb (negb (m mod 6 =? 0) || negb (d =? gregorian m y))) = true <-> (h = 24 /\ mi = 0 /\ s = 0) /\ (m = 6 \/ m = 12) /\ d = gregorian m y).
  { rewrite andb_true_iff, Z.eqb_eq, negb_orb, !negb_involutive, andb_true_iff, !Z.eqb_eq, H24, M6. tauto. }
  rewrite !in_warn, !in_warn1. rewrite B1, B2, B3, B4, B5. clear B1 B2 B3 B4 B5 H24 M6.
  assert (N : forall a b, zs "WARNING: There are only " ++ a <> zs "WARNING: milliseconds should be 999 or less" /\ zs "WARNING: There are only " ++ a <> zs "WARNING: time of day is out of range" /\
    zs "WARNING: There are only " ++ a <> zs "WARNING: This is a leap second." /\ zs "WARNING: There are only " ++ a <> zs "WARNING: This is an invalid leap second." /\
    zs "WARNING: There are only " ++ a <> zs "Submission counter: " ++ b /\ zs "WARNING: There are only " ++ a <> zs "Sub-batch number within main batch counter: " ++ b /\ zs "WARNING: There are only " ++ a <> zs "Observation number within the sub-batch: " ++ b)
    by (intros; cbn; repeat split; discriminate).
  split; [|split; [|split; [|split]]]; (split; intros K;
    [repeat match goal with K : (_ /\ _ = _) \/ _ |- _ => destruct K as [K|K] end; first [exfalso; destruct K as [_ K]; cbn in K; discriminate|destruct K as [K _]; exact K]|do 3 right; first [left; split; [exact K|reflexivity]|right; left; split; [exact K|reflexivity]|do 2 right; left; split; [exact K|reflexivity]|do 3 right; left; split; [exact K|reflexivity]|do 4 right; split; [exact K|reflexivity]]]).
Qed.

Lemma C39_short_refuted_proof :
  forall L id, (List.length id < 6)%nat -> mpc_time L id = UB.
Proof.
  intros L id H. assert (T : forall k v i, i > Z.of_nat (List.length id) -> get_mutant_hex_loop (S k) id i v = UB).
  { intros k v i Hi. cbn [get_mutant_hex_loop]. unfold at_. destruct (Z.eqb_spec i (Z.of_nat (List.length id))); [lia|]. unfold nth_ub. destruct (Z.ltb_spec i 0); [reflexivity|].
    rewrite (proj2 (nth_error_None id (Z.to_nat i))) by lia. reflexivity. }
  assert (G : forall k v i, (v < 62 ^ 3 /\ 0 <= v /\ (k <= 3)%nat /\ v < 62 ^ (3 - Z.of_nat k)) -> (exists r, get_mutant_hex_loop k id i v = Ret r) \/ get_mutant_hex_loop k id i v = UB).
  { induction k as [|k IH]; intros v i B; cbn [get_mutant_hex_loop]; [left; eauto|]. unfold at_. 
    assert (A : (exists c, (if i =? Z.of_nat (List.length id) then Ret 0 else nth_ub id i) = Ret c) \/ (if i =? Z.of_nat (List.length id) then Ret 0 else nth_ub id i) = UB).
    { destruct (i =? Z.of_nat (List.length id)); [left; eauto|]. unfold nth_ub. destruct (i <? 0); [right; reflexivity|]. destruct (nth_error id (Z.to_nat i)); [left; eauto|right; reflexivity]. }
    destruct A as [(c & ->)| ->]; [|right; reflexivity]. cbn [obind]. cbv zeta. destruct (mutant_hex_char_to_int c =? -1) eqn:Q; [left; eauto|].
    assert (C : -1 <= mutant_hex_char_to_int c < 62). { unfold mutant_hex_char_to_int. destruct (Z.leb_spec 97 c); [destruct (Z.leb_spec c 122); lia|]. destruct (Z.leb_spec 65 c); [destruct (Z.leb_spec c 90); lia|]. destruct (Z.leb_spec 48 c); cbn [andb]; [|lia]. destruct (Z.leb_spec c 57); lia. }
    apply Z.eqb_neq in Q. destruct B as (B1 & B2 & B3 & B4). change (62 ^ 3) with 238328 in *.
    assert (B5 : v * 62 + mutant_hex_char_to_int c < 62 ^ (3 - Z.of_nat k)). { replace (3 - Z.of_nat k) with (Z.succ (3 - Z.of_nat (S k))) by lia. rewrite Z.pow_succ_r by lia. lia. }
    assert (62 ^ (3 - Z.of_nat k) <= 238328) by (change 238328 with (62 ^ 3); apply Z.pow_le_mono_r; lia).
    rewrite ev_val by (cbn [safe val]; unfold fits, IMAX; repeat split; lia). cbn [obind val]. apply IH. split; [lia|]. split; [lia|]. split; [lia|]. lia. }
  unfold mpc_time. unfold get_mutant_hex_value. destruct (G 3%nat 0 0) as [(r & ->)| ->]; [repeat split; lia| |reflexivity]. cbn [obind].
  destruct (G 3%nat 0 3) as [(r2 & ->)| ->]; [repeat split; lia| |reflexivity]. cbn [obind]. rewrite T by lia. reflexivity.
Qed.

Lemma C39_invalid_refuted_proof :
  exists id, List.length id = 8%nat /\ (forall c, In c id -> forall v, ~ is_digit62 c v) /\
    mpc_time LMAX64 id = Ret (zs "1800-01-00 00:00:-1.-01", []).
Proof.
  exists (repeat 45 8). split; [reflexivity|]. split; [|vm_compute; reflexivity]. intros c I v [V E]. apply repeat_spec in I. subst c.
  apply nth_error_In in E. assert (K : existsb (Z.eqb 45) base62 = true) by (apply existsb_exists; exists 45; auto). vm_compute in K. discriminate.
Qed.
