(** Theorems of C66 with their proofs; PropNano.v states them again. *)
From Coq Require Import QArith Qround Lqa Lia.
From Verif Require Import CBase DateModel DateVocab DateSpec NanoModel NanoSpec CLemmas DateThms CtimeBuf.
Local Open Scope Z_scope.

Lemma day_of f d m y n : counts_days gregorian (1, 1, 2000) 2451545 f -> valid gregorian (d, m, y) -> year_ok LMAX64 y -> dmy_to_day LMAX64 d m y CALENDAR_GREGORIAN = Ret n -> f (d, m, y) = n.
Proof. intros F V Y E. pose proof (C05_gregorian_is_day_count_proof f F LMAX64 d m y ltac:(unfold long_ok, LMAX64; lia) Y V) as X. rewrite E in X. now injection X as ->. Qed.
Lemma day_1970 f : counts_days gregorian (1, 1, 2000) 2451545 f -> f (1, 1, 1970) = 2440588.
Proof. intro F. apply (day_of f _ _ _ _ F); [split; cbn; lia|unfold year_ok, LMAX64; lia|vm_compute; reflexivity]. Qed.
Lemma day_1601 f : counts_days gregorian (1, 1, 2000) 2451545 f -> f (1, 1, 1601) = 2305814.
Proof. intro F. apply (day_of f _ _ _ _ F); [split; cbn; lia|unfold year_ok, LMAX64; lia|vm_compute; reflexivity]. Qed.
Lemma day_2262 f : counts_days gregorian (1, 1, 2000) 2451545 f -> f (11, 4, 2262) = 2547339.
Proof. intro F. apply (day_of f _ _ _ _ F); [split; cbn; lia|unfold year_ok, LMAX64; lia|vm_compute; reflexivity]. Qed.
Lemma posix_val sec usec : 0 <= usec < 1000000 -> - 2 ^ 63 <= sec * 1000000000 -> sec * 1000000000 + usec * 1000 <= 2 ^ 63 - 1 -> nanoseconds_posix 0 sec usec = Ret (sec * 1000000000 + usec * 1000).
Proof. intros U A B. unfold nanoseconds_posix. cbn [Z.eqb]. rewrite ev_val; [reflexivity|]. cbn [safe val]. unfold fits, LMAX64. lia. Qed.
Lemma watcom_val sec msec : 0 <= msec < 1000 -> - 2 ^ 63 <= sec * 1000000000 -> sec * 1000000000 + msec * 1000000 <= 2 ^ 63 - 1 -> nanoseconds_watcom sec msec = Ret (sec * 1000000000 + msec * 1000000).
Proof.
  intros U A B. unfold nanoseconds_watcom. rewrite ev_val; [|cbn [safe val]; unfold fits, LMAX64; lia]. cbn [val obind]. rewrite ev_val; [cbn [val]; f_equal; lia|]. cbn [safe val]. unfold fits, LMAX64. lia.
Qed.
Lemma to_int64_ok v : - 2 ^ 63 <= v < 2 ^ 63 -> to_int64 v = v.
Proof.
  intro H. unfold to_int64, u64. cbv zeta. destruct (Z.le_gt_cases 0 v) as [X|X].
  - rewrite Z.mod_small by lia. destruct (Z.ltb_spec v (2 ^ 63)); lia.
  - replace v with (v + 2 ^ 64 + (-1) * 2 ^ 64) by lia. rewrite Z.mod_add by lia. rewrite Z.mod_small by lia. destruct (Z.ltb_spec (v + 2 ^ 64) (2 ^ 63)); lia.
Qed.
Lemma u64_eq a b k : a = b + k * 2 ^ 64 -> u64 a = u64 b. Proof. intros ->. unfold u64. apply Z.mod_add. lia. Qed.
Lemma windows_val low high : 0 <= low < 2 ^ 32 -> 0 <= high < 2 ^ 32 -> nanoseconds_windows low high = to_int64 ((low + high * 2 ^ 32 - 116444736000000000) * 100).
Proof.
  intros H1 H2. unfold nanoseconds_windows. cbv zeta. change (u64 (u64 (u64 (2440587 - 2305813) * 10000000) * 86400)) with 116444736000000000.
  assert (E1 : u64 (high * 2 ^ 32) = high * 2 ^ 32) by (unfold u64; apply Z.mod_small; lia). rewrite E1. assert (E2 : u64 (low + high * 2 ^ 32) = low + high * 2 ^ 32) by (unfold u64; apply Z.mod_small; lia). rewrite E2.
  set (w := low + high * 2 ^ 32 - 116444736000000000). unfold to_int64. cbv zeta. assert (E : u64 (u64 (u64 w * 100)) = u64 (w * 100)); [|now rewrite E].
  unfold u64. rewrite Zmod_mod. rewrite Zmult_mod_idemp_l. reflexivity.
Qed.

Lemma C66_posix_proof :
forall t sec usec, reads_microseconds t sec usec -> first_instant + 1000000000 <= t <= last_instant ->
  exists v, nanoseconds_posix 0 sec usec = Ret v /\ v <= t < v + 1000.
Proof.
  intros t sec usec (U & R) T. unfold first_instant, last_instant in T. exists (sec * 1000000000 + usec * 1000). split; [apply posix_val; lia|exact R].
Qed.

Lemma C66_watcom_proof :
forall t sec msec, reads_milliseconds t sec msec -> first_instant + 1000000000 <= t <= last_instant ->
  exists v, nanoseconds_watcom sec msec = Ret v /\ v <= t < v + 1000000.
Proof.
  intros t sec usec (U & R) T. unfold first_instant, last_instant in T. exists (sec * 1000000000 + usec * 1000000). split; [apply watcom_val; lia|exact R].
Qed.

Lemma C66_windows_proof :
forall f, counts_days gregorian (1, 1, 2000) 2451545 f ->
  forall t low high, reads_filetime f t low high -> first_instant + 100 <= t <= last_instant ->
  nanoseconds_windows low high <= t < nanoseconds_windows low high + 100.
Proof.
  intros f F t low high (L & H & R) T. rewrite (day_1970 f F), (day_1601 f F) in R. unfold first_instant, last_instant in T. rewrite windows_val by assumption.
  rewrite to_int64_ok; [lia|]. lia.
Qed.

Lemma C66_agree_proof :
forall f, counts_days gregorian (1, 1, 2000) 2451545 f ->
  forall t sec usec s msec low high, reads_microseconds t sec usec -> reads_milliseconds t s msec -> reads_filetime f t low high -> first_instant + 1000000000 <= t <= last_instant ->
  exists v w, nanoseconds_posix 0 sec usec = Ret v /\ nanoseconds_watcom s msec = Ret w /\ 0 <= nanoseconds_windows low high - v < 1000 /\ 0 <= v - w < 1000000.
Proof.
  intros f F t sec usec s msec low high (U1 & R1) (U2 & R2) (L & H & R) T. rewrite (day_1970 f F), (day_1601 f F) in R. unfold first_instant, last_instant in T.
  exists (sec * 1000000000 + usec * 1000), (s * 1000000000 + msec * 1000000). split; [apply posix_val; lia|]. split; [apply watcom_val; lia|]. rewrite windows_val, to_int64_ok by (assumption || lia). lia.
Qed.

Lemma C66_order_proof :
forall f, counts_days gregorian (1, 1, 2000) 2451545 f ->
  forall t1 t2, first_instant + 1000000000 <= t1 -> t1 <= t2 -> t2 <= last_instant ->
  (forall a b c d, reads_microseconds t1 a b -> reads_microseconds t2 c d -> exists v w, nanoseconds_posix 0 a b = Ret v /\ nanoseconds_posix 0 c d = Ret w /\ v <= w) /\
  (forall a b c d, reads_milliseconds t1 a b -> reads_milliseconds t2 c d -> exists v w, nanoseconds_watcom a b = Ret v /\ nanoseconds_watcom c d = Ret w /\ v <= w) /\
  (forall a b c d, reads_filetime f t1 a b -> reads_filetime f t2 c d -> nanoseconds_windows a b <= nanoseconds_windows c d).
Proof.
  intros f F t1 t2 T1 T T2. unfold first_instant, last_instant in *. split; [|split].
  - intros a b c d (U1 & R1) (U2 & R2). do 2 eexists. split; [apply posix_val; lia|]. split; [apply posix_val; lia|]. lia.
  - intros a b c d (U1 & R1) (U2 & R2). do 2 eexists. split; [apply watcom_val; lia|]. split; [apply watcom_val; lia|]. lia.
  - intros a b c d (L1 & H1 & R1) (L2 & H2 & R2). rewrite (day_1970 f F), (day_1601 f F) in R1, R2. rewrite !windows_val, !to_int64_ok by (assumption || lia). lia.
Qed.

Lemma C66_last_moment_proof :
forall f, counts_days gregorian (1, 1, 2000) 2451545 f ->
  last_instant = (f (11, 4, 2262) - f (1, 1, 1970)) * ns_per_day + ((23 * 60 + 47) * 60 + 16) * 1000000000 + 854775807 /\ f (11, 4, 2262) mod 7 = 4.
Proof.
  intros f F. rewrite (day_1970 f F), (day_2262 f F). split; reflexivity.
Qed.

Lemma C66_after_refuted_proof :
forall f, counts_days gregorian (1, 1, 2000) 2451545 f ->
  forall t, last_instant < t ->
  (forall sec usec, reads_microseconds t sec usec -> last_instant + 1000 <= t -> nanoseconds_posix 0 sec usec = UB) /\
  (forall low high, reads_filetime f t low high -> last_instant + 100 <= t < 2 ^ 64 -> nanoseconds_windows low high < 0).
Proof.
  intros f F t T. unfold last_instant in *. split.
  - intros sec usec (U & R) T'. unfold nanoseconds_posix. cbn [Z.eqb]. destruct (ev LMAX64 _) eqn:E; try reflexivity; exfalso.
    + apply ev_inv in E. destruct E as (E & _). cbn [safe val] in E. unfold fits, LMAX64 in E. lia.
    + cbn [ev] in E. unfold chk in E. repeat (match type of E with context [if ?c then _ else _] => destruct c end; cbn [obind] in E; try discriminate).
    + cbn [ev] in E. unfold chk in E. repeat (match type of E with context [if ?c then _ else _] => destruct c end; cbn [obind] in E; try discriminate).
  - intros low high (L & H & R) T'. rewrite (day_1970 f F), (day_1601 f F) in R. rewrite windows_val by assumption. unfold to_int64, u64. cbv zeta. rewrite Z.mod_small by lia. destruct (Z.ltb_spec ((low + high * 2 ^ 32 - 116444736000000000) * 100) (2 ^ 63)); lia.
Qed.

Lemma C66_current_jd_proof :
forall f, counts_days gregorian (1, 1, 2000) 2451545 f ->
  forall v, Qfloor (current_jd v + (1 # 2)) = f (1, 1, 1970) + v / ns_per_day /\
    (current_jd v + (1 # 2) - inject_Z (Qfloor (current_jd v + (1 # 2))) == inject_Z (v mod ns_per_day) / inject_Z ns_per_day)%Q.
Proof.
  intros f F v. rewrite (day_1970 f F). set (q := v / ns_per_day). set (r := v mod ns_per_day). pose proof (Z.div_mod v ns_per_day ltac:(discriminate)) as D. fold q r in D. pose proof (Z.mod_pos_bound v ns_per_day ltac:(reflexivity)) as B. fold r in B.
  assert (E : (current_jd v + (1 # 2) == inject_Z (2440588 + q) + inject_Z r / inject_Z ns_per_day)%Q).
  { unfold current_jd. rewrite D, !inject_Z_plus, inject_Z_mult. change (inject_Z ns_per_day) with 86400000000000%Q. change (inject_Z 2440588) with 2440588%Q. field. }
  assert (R : (0 <= inject_Z r / inject_Z ns_per_day)%Q /\ (inject_Z r / inject_Z ns_per_day < 1)%Q).
  { split; [apply Qle_shift_div_l|apply Qlt_shift_div_r]; try reflexivity; [rewrite Qmult_0_l; change 0%Q with (inject_Z 0); rewrite <- Zle_Qle; lia|rewrite Qmult_1_l, <- Zlt_Qlt; lia]. }
  assert (FL : Qfloor (current_jd v + (1 # 2)) = 2440588 + q). { rewrite (Qfloor_comp _ _ E). apply floor_intro; Lqa.lra. }
  split; [exact FL|]. rewrite FL, E. ring.
Qed.

Lemma C66_failure_refuted_proof :
forall rv sec usec, rv <> 0 -> nanoseconds_posix rv sec usec = nanoseconds_posix 0 0 0.
Proof.
  intros rv sec usec H. unfold nanoseconds_posix. destruct (Z.eqb_spec rv 0); [contradiction|reflexivity].
Qed.
