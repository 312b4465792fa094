(** A sample file of Earth orientation parameters: 16371 days from 2 January 1973 on, with a leap second at the end of that year. *)
From Coq Require Import QArith Qround Qabs Qreals Reals String Lia Lqa.
From Verif Require Import RBase CBase CLemmas CStr DateModel DateVocab DateSpec TimeModel TimeSpec TimeThms TstrModel TstrSpec TstrNum TstrThms DtModel DtSpec DtProofs DtUtc DtThms CtimeSpec CtimeBuf MpcdProofs EopModel EopSpec EopProofs EopLoad EopGet EopVocab EopCore.
Import ListNotations.
Local Open Scope string_scope.
Local Open Scope list_scope.
Local Open Scope Z_scope.

Definition sample_day (k : nat) : day :=
  mk_day (41684 + Z.of_nat k) true (120000 # 1000000) (320000 # 1000000)
    (if (k <? 364)%nat then -1000000 # 10000000 else 9000000 # 10000000)
    (if (k <? Z.to_nat 12000)%nat then Some (-10440 # 1000, 1200 # 1000)%Q else None).
Definition sample : list day := map sample_day (seq 0 (Z.to_nat 16371)).
Definition sample_line (k : nat) : list Z :=
  (zs "73 1 2 " ++ ndig 5 (41684 + Z.of_nat k) ++ zs ".00 I " ++ zs " 0.120000" ++ zs " 0.009786 " ++ zs " 0.320000" ++ zs " 0.015902  I" ++
   zs (if (k <? 364)%nat then "-0.1000000" else " 0.9000000") ++ repeat 32 27 ++
   (if (k <? Z.to_nat 12000)%nat then zs "I   -10.440     0.500    1.200" ++ repeat 32 62 else repeat 32 92)) ++ [10].
Definition sample_empty : list Z := (zs "171029 " ++ ndig 5 58055 ++ zs ".00 " ++ repeat 32 171) ++ [10].
Definition sample_file : list Z := concat (map sample_line (seq 0 (Z.to_nat 16371))) ++ sample_empty.
Definition sample_tai (k : nat) : Z := if (k <? 364)%nat then 12 else 13.

Lemma no_in_ndig c p v : c < 48 -> ~ In c (ndig p v).
Proof. intros H I. apply ndig_digit in I. unfold isdigit in I. lia. Qed.
Lemma has_no c t : forallb (fun x => negb (x =? c)) t = true -> ~ In c t.
Proof. intros H I. rewrite forallb_forall in H. specialize (H c I). rewrite Z.eqb_refl in H. discriminate. Qed.
Lemma ndig5 k : (k < Z.to_nat 16400)%nat -> digits_of (ndig 5 (41684 + Z.of_nat k)) (41684 + Z.of_nat k).
Proof. intros H. apply ndig_is_digits. change (10 ^ Z.of_nat 5) with 100000. lia. Qed.
Lemma plain_number a b v : digits_b (a ++ b) v = true -> signed_number (a ++ 46 :: b) (v # Z.to_pos (10 ^ Z.of_nat (List.length b))).
Proof. intros H. left. now apply number_dec. Qed.
Lemma minus_number a b v : digits_b (a ++ b) v = true -> signed_number (45 :: a ++ 46 :: b) (- (v # Z.to_pos (10 ^ Z.of_nat (List.length b)))).
Proof. intros H. right. right. exists (a ++ 46 :: b), (v # Z.to_pos (10 ^ Z.of_nat (List.length b)))%Q. split; [reflexivity|]. split; [now apply number_dec|reflexivity]. Qed.
Lemma sample_line_ok k : (k < Z.to_nat 16371)%nat -> day_line (sample_day k) (sample_line k).
Proof.
  intros H. unfold sample_line.
  set (u := if (k <? 364)%nat then "-0.1000000" else " 0.9000000"). set (n := if (k <? Z.to_nat 12000)%nat then zs "I   -10.440     0.500    1.200" ++ repeat 32 62 else repeat 32 92).
  assert (U : List.length (zs u) = 10%nat /\ ~ In 0 (zs u) /\ ~ In 10 (zs u)) by (unfold u; destruct (k <? 364)%nat; (split; [reflexivity|split; apply has_no; reflexivity])).
  assert (N : List.length n = 92%nat /\ ~ In 0 n /\ ~ In 10 n) by (unfold n; destruct (k <? Z.to_nat 12000)%nat; (split; [reflexivity|split; apply has_no; reflexivity])).
  destruct U as (U1 & U2 & U3), N as (N1 & N2 & N3).
  assert (NI : forall c, c = 0 \/ c = 10 -> ~ In c (zs "73 1 2 " ++ ndig 5 (41684 + Z.of_nat k) ++ zs ".00 I " ++ zs " 0.120000" ++ zs " 0.009786 " ++ zs " 0.320000" ++ zs " 0.015902  I" ++ zs u ++ repeat 32 27 ++ n)).
  { intros c Hc. rewrite !in_app_iff. pose proof (no_in_ndig c 5 (41684 + Z.of_nat k) ltac:(lia)) as ND. intros I.
    destruct I as [I|[I|[I|[I|[I|[I|[I|[I|[I|I]]]]]]]]]; try (now apply ND in I);
      (destruct Hc; subst c; first [now apply U2 in I|now apply U3 in I|now apply N2 in I|now apply N3 in I|revert I; apply has_no; reflexivity]). }
  split.
  - eexists. split; [reflexivity|]. split; [rewrite !app_length, U1, N1, ndig_length; reflexivity|]. split; apply NI; [now left|now right].
  - exists (zs "73 1 2 "), (ndig 5 (41684 + Z.of_nat k)), (zs " 0.120000"), (zs " 0.009786 "), (zs " 0.320000"), (zs " 0.015902  I"), (zs u), (repeat 32 27), (n ++ [10]).
    split. { cbn [is_observed sample_day]. rewrite <- !app_assoc. reflexivity. }
    split; [reflexivity|]. split; [apply ndig5; lia|]. split; [apply ndig_length|].
    split; [exists 1%nat, (zs "0.120000"); split; [reflexivity|split; [apply (plain_number [48] (zs "120000") 120000); reflexivity|reflexivity]]|].
    split; [reflexivity|]. split; [split; reflexivity|].
    split; [exists 1%nat, (zs "0.320000"); split; [reflexivity|split; [apply (plain_number [48] (zs "320000") 320000); reflexivity|reflexivity]]|].
    split; [split; reflexivity|]. split.
    { unfold sample_day, u. cbn [ut1_utc]. destruct (k <? 364)%nat.
      - exists 0%nat, (zs "-0.1000000"). split; [reflexivity|split; [apply (minus_number [48] (zs "1000000") 1000000); reflexivity|reflexivity]].
      - exists 1%nat, (zs "0.9000000"). split; [reflexivity|split; [apply (plain_number [48] (zs "9000000") 9000000); reflexivity|reflexivity]]. }
    split; [split; reflexivity|].
    unfold sample_day, n. cbn [nutation]. destruct (k <? Z.to_nat 12000)%nat; [|reflexivity].
    exists 73, 32, (zs "  -10.440"), (zs "     0.500"), (zs "    1.200"), (repeat 32 62 ++ [10]). split; [reflexivity|]. split; [discriminate|].
    split; [exists 2%nat, (zs "-10.440"); split; [reflexivity|split; [apply (minus_number (zs "10") (zs "440") 10440); reflexivity|reflexivity]]|].
    split; [split; reflexivity|].
    split; [exists 4%nat, (zs "1.200"); split; [reflexivity|split; [apply (plain_number (zs "1") (zs "200") 1200); reflexivity|reflexivity]]|reflexivity].
Qed.
Lemma nth_sample n k d : nth_error (map sample_day (seq 0 n)) k = Some d -> (k < n)%nat /\ d = sample_day k.
Proof.
  intros H. assert (B : (k < List.length (map sample_day (seq 0 n)))%nat) by (apply nth_error_Some; congruence). rewrite map_length, seq_length in B.
  split; [exact B|]. rewrite (map_nth_error sample_day k (seq 0 n) (d := k)) in H; [now injection H|]. rewrite (nth_error_nth' _ 0%nat) by (rewrite seq_length; exact B). now rewrite seq_nth by exact B.
Qed.
Lemma lines_n n : (n <= Z.to_nat 16371)%nat -> Forall2 day_line (map sample_day (seq 0 n)) (map sample_line (seq 0 n)).
Proof.
  intros B. assert (G : forall l, (forall k, In k l -> (k < Z.to_nat 16371)%nat) -> Forall2 day_line (map sample_day l) (map sample_line l)).
  { induction l as [|k l IH]; intros A; [constructor|]. cbn [map]. constructor; [apply sample_line_ok, A; now left|apply IH; intros j J; apply A; now right]. }
  apply G. intros k K. apply in_seq in K. lia.
Qed.
Lemma finals_n n : (0 < n)%nat -> (n <= Z.to_nat 16371)%nat -> exists f, finals f (map sample_day (seq 0 n)) (Nat.min n (Z.to_nat 12000)) 41684 sample_tai.
Proof.
  intros Hn Bn. destruct C19_numbering_exists_proof as ((f & Hf) & _ & _). exists f. assert (HL : long_ok LMAX64) by (unfold long_ok; vm_compute; discriminate).
  day 1 1972 41317 Md1 f Hf LMAX64 HL. day 12 2021 59549 Md2 f Hf LMAX64 HL. assert (A1 : f (1, 1, 1972) = 41317) by assumption. assert (A2 : f (1, 12, 2021) = 59549) by assumption.
  split; [exact Hf|]. split; [|split; [|split; [|split]]].
  - split.
    + intros k d d' A B. apply nth_sample in A, B. destruct A as (_ & ->), B as (_ & ->). cbn [mjd sample_day]. lia.
    + exists (sample_day 0). destruct n; [lia|]. repeat split.
  - split; [rewrite map_length, seq_length; lia|]. intros k d A. apply nth_sample in A. destruct A as (B & ->). cbn [nutation sample_day].
    destruct (Nat.ltb_spec k (Z.to_nat 12000)); split; intros; (congruence || lia || discriminate).
  - intros k d d' A B. apply nth_sample in A, B. destruct A as (_ & ->), B as (_ & ->). cbn [ut1_utc sample_day]. unfold sample_tai.
    destruct (Nat.ltb_spec k 364), (Nat.ltb_spec (S k) 364); try lia; vm_compute; reflexivity.
  - lia.
  - destruct (C57_utc_leap_proof f Hf LMAX64 IMAX None (24416845 # 10) HL) as (r & E & V); [rewrite A1; vm_compute; discriminate|rewrite A2; vm_compute; reflexivity|vm_compute; discriminate|].
    vm_compute in E. injection E as <-. replace (Qfloor (mjd_of (24416845 # 10))) with 41684 in V by reflexivity.
    change (sample_tai 0) with 12. set (t := tai_minus_utc f 41684) in *. clearbody t. assert (W : (inject_Z t == 12)%Q) by Lqa.lra. unfold Qeq, inject_Z in W. cbn [Qnum Qden] in W. lia.
Qed.
Lemma sample_empty_ok : empty_line 58055 sample_empty.
Proof.
  split.
  - eexists. split; [reflexivity|]. split; [reflexivity|]. split; apply has_no; reflexivity.
  - exists (zs "171029 "), (ndig 5 58055), (repeat 32 171 ++ [10]). split; [reflexivity|]. split; [reflexivity|]. split; [apply ndig_is_digits; vm_compute; split; [discriminate|reflexivity]|]. split; reflexivity.
Qed.
Lemma sample_length : List.length sample = Z.to_nat 16371.
Proof. unfold sample. now rewrite map_length, seq_length. Qed.
Lemma sample_ok : exists f, iers_file f sample (Z.to_nat 12000) 41684 sample_tai LMAX64 IMAX sample_file /\
  nth_error sample 364 = Some (mk_day 42048 true (120000 # 1000000) (320000 # 1000000) (9000000 # 10000000) (Some (-10440 # 1000, 1200 # 1000)%Q)).
Proof.
  destruct (finals_n (Z.to_nat 16371)) as (f & F); [lia|lia|]. replace (Nat.min (Z.to_nat 16371) (Z.to_nat 12000)) with (Z.to_nat 12000) in F by (symmetry; apply Nat.min_r; lia). exists f.
  pose proof sample_length as LE. pose proof (lines_n (Z.to_nat 16371) ltac:(lia)) as F2. 
  split.
  - split; [exact F|]. split; [rewrite LE; lia|]. split; [unfold long_ok; vm_compute; discriminate|]. split; [vm_compute; discriminate|]. split.
    + unfold sample_file. rewrite app_length, Nat2Z.inj_add, (concat_length _ _ F2), map_length, seq_length. change (Z.of_nat (List.length sample_empty)) with 188. lia.
    + exists sample_empty, []. split; [rewrite LE; exact sample_empty_ok|]. exists (map sample_line (seq 0 (Z.to_nat 16371))). split; [exact F2|]. unfold sample_file. now rewrite app_nil_r.
  - unfold sample. rewrite (map_nth_error sample_day 364 _ (d := 364%nat)); [reflexivity|]. rewrite (nth_error_nth' _ 0%nat) by (rewrite seq_length; lia). rewrite seq_nth by lia. reflexivity.
Qed.
