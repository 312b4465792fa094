(** split_timel( ) on a starting time the calendar can handle. *)
From Coq Require Import QArith Qround Lia.
From Coq Require Import Ascii String.
From Verif Require Import CBase CLemmas CStr DateModel DateVocab DateThms TstrModel TstrSpec TstrCopy TstrNum TstrOff TstrDate.
Local Open Scope list_scope.
Local Open Scope Z_scope.

Lemma trunc_floor q : (0 <= q)%Q -> trunc q = Qfloor q.
Proof.
  intro H. unfold trunc, Qfloor. destruct q as [n d]. cbn [Qnum Qden]. apply Z.quot_div_nonneg; [|lia].
  unfold Qle in H. cbn [Qnum Qden] in H. lia.
Qed.
Lemma frac_range t : (0 <= t - inject_Z (Qfloor t))%Q /\ (t - inject_Z (Qfloor t) < 1)%Q.
Proof.
  split.
  - apply (Qplus_le_l _ _ (inject_Z (Qfloor t))). ring_simplify. apply Qfloor_le.
  - apply (Qplus_lt_l _ _ (inject_Z (Qfloor t))). ring_simplify.
    pose proof (Qlt_floor t) as H. rewrite inject_Z_plus in H. exact H.
Qed.
Lemma floor_range q n : (0 <= q)%Q -> (q < inject_Z n)%Q -> 0 <= Qfloor q < n.
Proof.
  intros H1 H2. split.
  - change 0 with (Qfloor 0). now apply Qfloor_resp_le.
  - rewrite Zlt_Qlt. eapply Qle_lt_trans; [apply Qfloor_le|exact H2].
Qed.
Lemma day_split L t0 c : long_ok L -> jd_ok L (day_of t0) -> c <> CALENDAR_CHINESE ->
  exists N, forall dfuel, (N <= dfuel)%nat -> exists d m y, day_to_dmy L dfuel 0 (day_of t0) c = Ret (d, m, y).
Proof.
  intros HL Hj Hc. destruct (C04_terminates_proof L (day_of t0) c HL Hj Hc) as [(d & m & y & N & H)|(N & H)].
  - exists N. intros dfuel Hd. destruct (H dfuel 0 0 Hd) as (ic & E). exists d, m, y.
    unfold day_to_dmy. rewrite E. reflexivity.
  - exists N. intros dfuel Hd. destruct (H dfuel 0 0 Hd) as (y & ic & E). exists (-1), 0, y.
    unfold day_to_dmy. rewrite E. reflexivity.
Qed.
Lemma split_form L now dfuel ph t0 fmt d m y : long_ok L -> jd_ok L (day_of t0) ->
  day_to_dmy L dfuel 0 (day_of t0) (calendar_of fmt) = Ret (d, m, y) ->
  exists h mi s, split_time {| e_long := L; e_now := now; e_fuel := dfuel; e_phase := ph |} t0 (Z.land fmt CALENDAR_MASK)
    = Ret (y, m, d, h, mi, s) /\ 0 <= h < 24 /\ 0 <= mi < 60 /\
      (inject_Z (h * 60 + mi) / 1440 + s / 86400 == t0 + (1 # 2) - inject_Z (Qfloor (t0 + (1 # 2))))%Q.
Proof.
  intros HL Hj Hd. unfold split_time. cbn [e_long e_fuel]. set (t := (t0 + (1 # 2))%Q).
  unfold day_of in Hj. fold t in Hj. unfold jd_ok, long_ok in *.
  rewrite chk_ok by (unfold fits; lia). cbn [obind].
  destruct (frac_range t) as [F1 F2]. set (fr := (t - inject_Z (Qfloor t))%Q) in *.
  assert (M1 : (0 <= fr * 1440)%Q) by (rewrite <- (Qmult_0_l 1440); apply Qmult_le_compat_r; [assumption|discriminate]).
  assert (M2 : (fr * 1440 < inject_Z 1440)%Q).
  { setoid_replace (inject_Z 1440) with (1 * 1440)%Q by reflexivity. apply Qmult_lt_compat_r; [reflexivity|assumption]. }
  pose proof (floor_range _ 1440 M1 M2) as FR.
  unfold to_integer. rewrite trunc_floor by assumption.
  rewrite chk_ok by (unfold fits, IMAX; lia). cbn [obind].
  set (mm := Qfloor (fr * 1440)) in *.
  replace (mm =? 1440) with false by (symmetry; apply Z.eqb_neq; lia). cbn [obind].
  rewrite ev_val by (cbn [safe val]; unfold fits; repeat split; lia). cbn [obind val].
  replace (Z.land (Z.land fmt CALENDAR_MASK) CALENDAR_MASK) with (calendar_of fmt).
  2:{ unfold calendar_of, CALENDAR_MASK. now rewrite <- Z.land_assoc. }
  change (Qfloor t + 2451545) with (day_of t0). rewrite Hd. cbn [obind].
  exists (Z.quot mm 60), (Z.rem mm 60), ((fr * 1440 - inject_Z mm) * 60)%Q. split; [reflexivity|].
  split; [rewrite Z.quot_div_nonneg by lia; split; [apply Z.div_pos; lia|apply Z.div_lt_upper_bound; lia]|].
  split; [rewrite Z.rem_mod_nonneg by lia; apply Z.mod_pos_bound; lia|].
  replace (Z.quot mm 60 * 60 + Z.rem mm 60) with mm by (rewrite Z.quot_div_nonneg, Z.rem_mod_nonneg by lia; pose proof (Z.div_mod mm 60); lia).
  field.
Qed.
Lemma split_some L t0 fmt : start_ok L t0 fmt ->
  exists N, forall now ph dfuel, (N <= dfuel)%nat -> exists y m d h mi s,
    split_time {| e_long := L; e_now := now; e_fuel := dfuel; e_phase := ph |} t0 (Z.land fmt CALENDAR_MASK)
    = Ret (y, m, d, h, mi, s).
Proof.
  intros (HL & Hj & Hc). destruct (day_split L t0 (calendar_of fmt) HL Hj Hc) as (N & H).
  exists N. intros now ph dfuel Hd. destruct (H dfuel Hd) as (d & m & y & E).
  destruct (split_form L now dfuel ph t0 fmt d m y HL Hj E) as (h & mi & s & E2 & _).
  exists y, m, d, h, mi, s. exact E2.
Qed.
