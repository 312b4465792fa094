(** Theorems of C65 with their proofs; PropShow.v states them again. *)
From Coq Require Import Lqa.
From Coq Require Import QArith Qround Qabs String Lia.
From Verif Require Import CBase CStr DateModel DateVocab DateSpec TstrModel CtimeModel CtimeSpec ShowModel ShowSpec ShowProofs ShowEpoch.
Import ListNotations.
Local Open Scope string_scope.
Local Open Scope list_scope.
Local Open Scope Z_scope.

Lemma C65_epoch_proof :
forall L room epoch, long_ok L -> (0 <= epoch)%Q -> (epoch <= 1000000000)%Q -> jd_ok L (Qfloor (epoch + (1 # 2))) -> (100 <= room)%nat ->
  exists d m y t, dmy_result L (Qfloor (epoch + (1 # 2))) CALENDAR_JULIAN_GREGORIAN d m y /\ switch_valid (d, m, y) /\ says_epoch epoch d m y (Qfloor (epoch + (1 # 2))) t /\
    exists N, forall fuel ic, (N <= fuel)%nat -> epoch_line L fuel ic room epoch = Ret t.
Proof.
  exact epoch_ok.
Qed.

Lemma C65_perihelion_proof :
forall L room central t p, long_ok L -> (2 < t)%Q -> (t < 3000000)%Q -> (p <= 15)%nat -> (100 <= room)%nat ->
  exists d m y line, dmy_result L (Qfloor (t + (1 # 2))) CALENDAR_JULIAN_GREGORIAN d m y /\ switch_valid (d, m, y) /\
    says_perihelion central (inject_Z d + (t + (1 # 2)) - inject_Z (Qfloor (t + (1 # 2)))) m y p line /\
    exists N, forall fuel ic, (N <= fuel)%nat -> peri_line L fuel ic room central t p = Ret (Some line).
Proof.
  exact peri_ok.
Qed.

Lemma C65_no_perihelion_proof :
forall L room central t p fuel ic, (t <= 2)%Q \/ (3000000 <= t)%Q -> peri_line L fuel ic room central t p = Ret None.
Proof.
  intros L room central t p fuel ic H. unfold peri_line. destruct H as [H|H]; apply Qle_bool_iff in H; rewrite H; cbn [negb andb]; [reflexivity|]. now rewrite Bool.andb_false_r.
Qed.

Lemma C65_distance_proof :
forall size d precision, (0 <= d)%Q -> (d <= 999999)%Q -> (precision <= 15)%nat -> (30 <= size)%nat ->
  exists t, show_formatted_dist size size d precision = Ret t /\ says_distance d (precision + 4) t.
Proof.
  intros size d precision H0 H1 HP HS. unfold show_formatted_dist. assert (X : Qle_bool 0 d = true) by now apply Qle_bool_iff. rewrite X. now apply dist_ok.
Qed.

Lemma C65_negative_distance_proof :
forall size d precision, (d < 0)%Q -> (-999999 <= d)%Q -> (precision <= 15)%nat -> (30 <= size)%nat ->
  exists t, show_formatted_dist (S size) size d precision = Ret (45 :: t) /\ says_distance (- d) (precision + 4) t.
Proof.
  intros size d precision H0 H1 HP HS. unfold show_formatted_dist. assert (X : Qle_bool 0 d = false) by (apply Bool.not_true_iff_false; rewrite Qle_bool_iff; lra). rewrite X.
  destruct (dist_ok size size (- d) precision) as (t & E & D); try assumption; [lra|lra|]. exists t. rewrite E. split; [reflexivity|exact D].
Qed.

Lemma C65_huge_proof :
forall size d precision, (999999 < d)%Q -> (8 <= size)%nat -> show_formatted_dist size size d precision = Ret (zs " <HUGE>").
Proof.
  intros size d precision H HS. unfold show_formatted_dist. assert (X : Qle_bool 0 d = true) by (apply Qle_bool_iff; lra). rewrite X. unfold positive_dist. assert (Y : Qle_bool d 999999 = false) by (apply Bool.not_true_iff_false; rewrite Qle_bool_iff; lra). rewrite Y. cbn [negb].
  unfold put. change (List.length (zs " <HUGE>")) with 7%nat. replace (7 <? size)%nat with true by (symmetry; apply Nat.ltb_lt; lia). reflexivity.
Qed.

Lemma C65_day_32_refuted_proof :
epoch_line LMAX64 10 0 200 (24519104999998 # 10000000) = Ret (zs "Epoch 2000 Dec 32.0 TT = JDT 2451910.5") /\
  peri_line LMAX64 10 0 200 0 (245157525 # 100) 0 = Ret (Some (zs "   Perihelion 2000 Jan 32 TT")).
Proof.
  split; vm_compute; reflexivity.
Qed.

Lemma C65_minus_overrun_refuted_proof :
forall x precision, (999999 < x * au_in_km)%Q -> (x <= 9999)%Q -> show_formatted_dist 24 24 (- x) precision = UB.
Proof.
  intros x precision H0 H1. assert (XP : (0 < x)%Q). { destruct (Qlt_le_dec 0 x) as [X|X]; [exact X|exfalso]. unfold au_in_km in H0. assert (Y : (x * (1495978707 # 10) <= 0 * (1495978707 # 10))%Q) by (apply Qmult_le_compat_r; [exact X|discriminate]). lra. }
  unfold show_formatted_dist. assert (X : Qle_bool 0 (- x) = false) by (apply Bool.not_true_iff_false; rewrite Qle_bool_iff; lra). rewrite X. unfold positive_dist.
  assert (Y : Qle_bool (- - x) 999999 = true) by (apply Qle_bool_iff; lra). rewrite Y. cbn [negb]. assert (Z9 : Qle_bool (- - x) 9999 = true) by (apply Qle_bool_iff; lra). rewrite Z9. cbn [negb].
  assert (K : Qle_bool (- - x) (999999 / AU_IN_KM) = false). { rewrite km_same. apply Bool.not_true_iff_false. rewrite Qle_bool_iff. unfold au_in_km in *. lra. } rewrite K.
  destruct (cut_ok 18 (- - x) 0 19 ltac:(lia) ltac:(lra)) as (n & p & u & C). { assert (T19 : (1000000002 <= inject_Z (10 ^ 19))%Q) by discriminate. lra. } cbv zeta in C. destruct C as (_ & _ & _ & _ & _ & N1 & LF & _ & NM). pose proof (NM 9999 4%nat ltac:(change (inject_Z 9999) with 9999%Q; lra) ltac:(reflexivity) ltac:(lia)) as NB.
  assert (LW : List.length (wide 23 (fixed 18 (- - x))) = 23%nat) by (unfold wide; rewrite app_length, repeat_length, LF; lia).
  unfold put at 1. rewrite LW. reflexivity.
Qed.
