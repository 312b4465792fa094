(** Proofs about [TimeModel]. *)
From Coq Require Import Lia ZifyBool.
From Verif Require Import CBase CLemmas DateModel DatePure DateRound DateSpec DateFacts DateCount
  TimeModel TimeSpec.

(** Day number of a Gregorian date: from the start of the year, or backwards
    from the start of the next one. *)
Definition before_next (m : Z) : Z :=
  nth (Z.to_nat (m - 1)) [0; 0; 306; 275; 245; 214; 184; 153; 122; 92; 61; 31] 0.

Lemma month_12 m (P : Z -> Prop) : P 1 -> P 2 -> P 3 -> P 4 -> P 5 -> P 6 -> P 7 -> P 8 -> P 9 ->
  P 10 -> P 11 -> P 12 -> 1 <= m <= 12 -> P m.
Proof.
  intros. assert (m = 1 \/ m = 2 \/ m = 3 \/ m = 4 \/ m = 5 \/ m = 6 \/ m = 7 \/ m = 8 \/ m = 9 \/
    m = 10 \/ m = 11 \/ m = 12) as C by lia.
  repeat destruct C as [->|C]; try assumption. subst m. assumption.
Qed.

Lemma greg_dayA d m y : dayA CALENDAR_GREGORIAN d m y
  = greg_ny y + msum (firstn (Z.to_nat (m - 1)) (jg_months false y)) + d - 1.
Proof. reflexivity. Qed.

Lemma greg_day_late m d y : 3 <= m <= 12 ->
  dayA CALENDAR_GREGORIAN d m y = greg_ny (y + 1) - before_next m + d - 1.
Proof.
  intros H. rewrite greg_dayA.
  pose proof (greg_step y) as S. revert H.
  intros H. assert (1 <= m <= 12) as H1 by lia. revert H. pattern m.
  apply month_12; try assumption; intros H; try lia;
    unfold before_next, jg_months, jg_leapb, jg_ny; revert S;
    cbv beta iota; generalize (greg_ny (y + 1)), (greg_ny y); intros a b;
    destruct (greg_leapb y);
    match goal with |- context [firstn ?n ?l] => let x := eval cbv in (msum (firstn n l)) in
      change (msum (firstn n l)) with x end;
    match goal with |- context [nth ?n ?l ?d] => let x := eval cbv in (nth n l d) in
      change (nth n l d) with x end; lia.
Qed.

Lemma greg_day_early m d y : 1 <= m <= 2 ->
  dayA CALENDAR_GREGORIAN d m y = greg_ny y + 31 * (m - 1) + d - 1.
Proof.
  intros H. rewrite greg_dayA.
  assert (m = 1 \/ m = 2) as [->| ->] by lia; unfold jg_months, jg_ny;
    generalize (greg_ny y); intros b; destruct (greg_leapb y); cbv [jg_leapb];
    match goal with |- context [firstn ?n ?l] => let x := eval cbv in (firstn n l) in
      change (firstn n l) with x end; cbn [msum fold_right]; lia.
Qed.

Lemma greg_len_31 m y : In m [1; 3; 5; 7; 8; 10; 12] -> lenA CALENDAR_GREGORIAN m y = 31.
Proof. intros H. cbn in H. repeat destruct H as [<-|H]; try reflexivity. destruct H. Qed.
Lemma greg_len_30 m y : In m [4; 6; 9; 11] -> lenA CALENDAR_GREGORIAN m y = 30.
Proof. intros H. cbn in H. repeat destruct H as [<-|H]; try reflexivity. destruct H. Qed.
Lemma greg_len_2 y : lenA CALENDAR_GREGORIAN 2 y = if greg_leapb y then 29 else 28.
Proof. reflexivity. Qed.

(** The last part of [greg_day_to_dmy]: day t (0..364) of the year starting on
    1 March. *)
Definition tail (y t : Z) : Z * Z * Z :=
  let t1 := t mod 153 in
  let t2 := t1 mod 61 in
  let m := 5 * (t / 153) + 2 * (t1 / 61) + (if 31 <=? t2 then 1 else 0) + 3 in
  let d := (if 31 <=? t2 then t2 - 31 else t2) + 1 in
  if 12 <? m then (d, m - 12, y + 1) else (d, m, y).

Definition mar_day (d m y : Z) : Z :=
  if m <=? 2 then 306 + 31 * (m - 1) + d - 1 else 306 - before_next m + d - 1.

Lemma tail_ok : forall t, 0 <= t <= 364 ->
  let '(d, m, y) := tail 0 t in
  mar_day d m y = t /\ 1 <= m <= 12 /\ 1 <= d <= (if m =? 2 then 28 else roman_month false m) /\
  y = (if m <=? 2 then 1 else 0).
Proof.
  assert (C : zall (fun t => let '(d, m, y) := tail 0 t in
    (mar_day d m y =? t) && (1 <=? m) && (m <=? 12) && (1 <=? d) &&
    (d <=? (if m =? 2 then 28 else roman_month false m)) && (y =? (if m <=? 2 then 1 else 0))) 365 0 = true)
  by (vm_compute; reflexivity).
  intros t H. pose proof (zall_spec _ _ _ C t ltac:(lia)) as F. cbv beta in F.
  destruct (tail 0 t) as [[d m] y]. lia.
Qed.

Lemma tail_shift y t : tail y t = let '(d, m, y0) := tail 0 t in (d, m, y0 + y).
Proof.
  unfold tail. cbv zeta.
  destruct (12 <? _); f_equal; lia.
Qed.

Lemma tail_date y t d m y' : 0 <= t <= 364 -> tail y t = (d, m, y') ->
  1 <= m <= 12 /\ 1 <= d <= lenA CALENDAR_GREGORIAN m y' /\
  dayA CALENDAR_GREGORIAN d m y' = greg_ny (y + 1) - 306 + t.
Proof.
  intros Ht E. rewrite tail_shift in E. pose proof (tail_ok t Ht) as H.
  destruct (tail 0 t) as [[d0 m0] y0]. inversion E; subst d0 m0 y'. clear E.
  destruct H as (Hd & Hm & Hl & Hy).
  split; [exact Hm|]. split.
  - assert (lenA CALENDAR_GREGORIAN m (y0 + y) >= (if m =? 2 then 28 else roman_month false m)); [|lia].
    revert Hm. clear. intros Hm. revert Hm. pattern m. intros Hm.
    assert (m = 2 \/ In m [1; 3; 5; 7; 8; 10; 12] \/ In m [4; 6; 9; 11]) as [->|[Hi|Hi]] by (cbn; lia).
    + rewrite greg_len_2. cbn. destruct (greg_leapb _); lia.
    + rewrite greg_len_31 by exact Hi. cbn in Hi. repeat destruct Hi as [<-|Hi]; cbn; lia.
    + rewrite greg_len_30 by exact Hi. cbn in Hi. repeat destruct Hi as [<-|Hi]; cbn; lia.
  - unfold mar_day in Hd. destruct (Z.leb_spec m 2) as [Hm2|Hm2].
    + rewrite greg_day_early by lia. subst y0. replace (1 + y) with (y + 1) by lia. lia.
    + rewrite greg_day_late by lia. subst y0. replace (0 + y) with y by lia. lia.
Qed.

Lemma greg_leap_len y : greg_leapb y = true -> lenA CALENDAR_GREGORIAN 2 y = 29.
Proof. intros H. rewrite greg_len_2, H. reflexivity. Qed.

Lemma greg_day_to_dmy_date L jd : long_ok L -> jd_ok L jd ->
  exists d m y, greg_day_to_dmy L jd = Ret (d, m, y) /\
    1 <= m <= 12 /\ 1 <= d <= lenA CALENDAR_GREGORIAN m y /\ dayA CALENDAR_GREGORIAN d m y = jd.
Proof.
  unfold long_ok, jd_ok. intros HL HJ. unfold greg_day_to_dmy.
  ev_step. set (D := jd - 1721120).
  ev_step.
  assert (Er : (if Z.rem D 146097 <? 0 then ev L (Z.rem D 146097 + 146097)%cx else Ret (Z.rem D 146097))
    = Ret (D mod 146097)).
  { destruct (Z.ltb_spec (Z.rem D 146097) 0); [rewrite ev_val by (cbn [safe val]; unfold fits; repeat split; lia); cbn [val]|]; f_equal; lia. }
  rewrite Er. cbn [obind]. clear Er.
  remember (D / 146097) as q eqn:Eq. remember (D mod 146097) as r eqn:Er.
  assert (HD : D = 146097 * q + r) by lia. assert (Hr : 0 <= r <= 146096) by lia. clear Eq Er.
  assert (Hq : 2 * Z.abs q * 146097 + 20000000 - 6000000 <= L) by lia.
  rewrite ev_val; [|cbn [safe val]; unfold fits; repeat split; lia]. cbn [val obind].
  replace ((D - r) ÷ 146097 * 400) with (400 * q) by lia.
  rewrite ev_val; [|cbn [safe val]; unfold fits; repeat split; lia]. cbn [val obind].
  change (146097 - 1) with 146096. change (1461 - 1) with 1460.
  destruct (Z.eqb_spec r 146096) as [->|Hne].
  { change (146096 ÷ 36524) with 4. exists 29, 2, (400 * q + 4 * 100).
    split; [reflexivity|]. split; [lia|].
    rewrite greg_leap_len by (unfold greg_leapb; lia). split; [lia|].
    rewrite greg_day_early by lia. unfold greg_ny. lia. }
  remember (r ÷ 36524) as c eqn:Ec. remember (Z.rem r 36524) as r1 eqn:Er1.
  assert (Hc : 0 <= c <= 3) by lia. assert (Hr1 : 0 <= r1 <= 36523) by lia.
  assert (H1 : r = 36524 * c + r1) by lia.
  rewrite ev_val; [|cbn [safe val]; unfold fits; repeat split; lia]. cbn [val obind].
  rewrite <- Er1. clear Ec Er1.
  rewrite ev_val; [|cbn [safe val]; unfold fits; repeat split; lia]. cbn [val obind].
  remember (r1 ÷ 1461) as f eqn:Ef. remember (Z.rem r1 1461) as r2 eqn:Er2.
  assert (Hf : 0 <= f <= 24) by lia. assert (Hr2 : 0 <= r2 <= 1460) by lia.
  assert (H2 : r1 = 1461 * f + r2) by lia.
  rewrite ev_val; [|cbn [safe val]; unfold fits; repeat split; lia]. cbn [val obind].
  rewrite <- Er2. clear Ef Er2.
  rewrite ev_val; [|cbn [safe val]; unfold fits; repeat split; lia]. cbn [val obind].
  destruct (Z.eqb_spec r2 1460) as [->|Hne2].
  { change (1460 ÷ 365) with 4. exists 29, 2, (400 * q + c * 100 + f * 4 + 4).
    split; [reflexivity|]. split; [lia|].
    assert (f <= 23) by lia.
    rewrite greg_leap_len by (unfold greg_leapb; lia). split; [lia|].
    rewrite greg_day_early by lia. unfold greg_ny. lia. }
  remember (r2 ÷ 365) as o eqn:Eo. remember (Z.rem r2 365) as t eqn:Et.
  assert (Ho : 0 <= o <= 3) by lia. assert (Ht : 0 <= t <= 364) by lia.
  assert (H3 : r2 = 365 * o + t) by lia.
  rewrite ev_val; [|cbn [safe val]; unfold fits; repeat split; lia]. cbn [val obind].
  rewrite <- Et. clear Eo Et.
  set (Y := 400 * q + c * 100 + f * 4 + o).
  assert (HY : - L - 1 <= Y /\ Y + 1 <= L) by lia.
  assert (Hn : greg_ny (Y + 1) - 306 + t = jd).
  { assert (E4 : (Y + 1 + 3) / 4 = 100 * q + 25 * c + f + 1) by (apply div_uniq with (r := o); lia).
    assert (E1 : (Y + 1 + 99) / 100 = 4 * q + c + 1) by (apply div_uniq with (r := 4 * f + o); lia).
    assert (E400 : (Y + 1 + 399) / 400 = q + 1) by (apply div_uniq with (r := 100 * c + 4 * f + o); lia).
    unfold greg_ny. rewrite E4, E1, E400. unfold Y. lia. }
  destruct (tail Y t) as [[d m] y'] eqn:ET.
  pose proof (tail_date Y t d m y' Ht ET) as (T1 & T2 & T3).
  exists d, m, y'. split; [|rewrite T3; auto].
  rewrite <- ET. clear - HL HY Ht. clearbody Y. unfold tail. cbv zeta.
  repeat (rewrite ev_val; [|cbn [safe val]; unfold fits; repeat split; lia]; cbn [val obind]).
  rewrite !(Z.rem_mod_nonneg t), !(Z.quot_div_nonneg t) by lia.
  pose proof (Z.mod_pos_bound t 153 ltac:(lia)).
  rewrite !(Z.rem_mod_nonneg (t mod 153)), !(Z.quot_div_nonneg (t mod 153)) by lia.
  assert (0 <= t / 153 <= 2) by lia.
  remember (t mod 153) as t1. assert (0 <= t1 / 61 <= 2) by lia.
  pose proof (Z.mod_pos_bound t1 61 ltac:(lia)).
  remember (t1 mod 61) as t2. remember (t / 153) as a. remember (t1 / 61) as b.
  clear Heqt1 Heqt2 Heqa Heqb.
  destruct (Z.leb_spec 31 t2); cbn [obind]; rewrite ?Z.add_0_r;
    do 2 (rewrite ev_val; [|cbn [safe val]; unfold fits; repeat split; lia]; cbn [val obind]);
    destruct (12 <? _);
    repeat (rewrite ev_val; [|cbn [safe val]; unfold fits; repeat split; lia]; cbn [val obind]); reflexivity.
Qed.

(* ---------- mjd_defs.h ---------- *)
Lemma JAN_1_ok L y : long_ok L -> year_ok L y -> JAN_1 L y = Ret (greg_ny y - 2400001).
Proof.
  unfold long_ok, year_ok, JAN_1, greg_ny. intros HL Hy.
  destruct (Z.ltb_spec 0 y); ev_step; f_equal; lia.
Qed.

Lemma greg_ny_abs y : Z.abs (greg_ny y) <= 366 * Z.abs y + 2000000.
Proof. unfold greg_ny. lia. Qed.

Lemma late_macros L y : long_ok L -> year_ok L y -> forall m, 3 <= m <= 12 ->
  month_macro m L y = Ret (greg_ny (y + 1) - before_next m - 2400001).
Proof.
  intros HL Hy.
  pose proof (greg_ny_abs (y + 1)) as A. unfold year_ok in Hy. unfold long_ok in HL.
  assert (H12 : DEC_1 L y = Ret (greg_ny (y + 1) - 31 - 2400001)).
  { unfold DEC_1. ev_step. unfold JAN_1.
    destruct (Z.ltb_spec 0 (y + 1)); unfold greg_ny; repeat ev_step; f_equal; lia. }
  revert A H12. generalize (greg_ny (y + 1)). intros N A H12.
  assert (H11 : NOV_1 L y = Ret (N - 61 - 2400001)) by (unfold NOV_1; rewrite H12; cbn [obind]; ev_step; f_equal; lia).
  assert (H10 : OCT_1 L y = Ret (N - 92 - 2400001)) by (unfold OCT_1; rewrite H11; cbn [obind]; ev_step; f_equal; lia).
  assert (H9 : SEP_1 L y = Ret (N - 122 - 2400001)) by (unfold SEP_1; rewrite H10; cbn [obind]; ev_step; f_equal; lia).
  assert (H8 : AUG_1 L y = Ret (N - 153 - 2400001)) by (unfold AUG_1; rewrite H9; cbn [obind]; ev_step; f_equal; lia).
  assert (H7 : JUL_1 L y = Ret (N - 184 - 2400001)) by (unfold JUL_1; rewrite H8; cbn [obind]; ev_step; f_equal; lia).
  assert (H6 : JUN_1 L y = Ret (N - 214 - 2400001)) by (unfold JUN_1; rewrite H7; cbn [obind]; ev_step; f_equal; lia).
  assert (H5 : MAY_1 L y = Ret (N - 245 - 2400001)) by (unfold MAY_1; rewrite H6; cbn [obind]; ev_step; f_equal; lia).
  assert (H4 : APR_1 L y = Ret (N - 275 - 2400001)) by (unfold APR_1; rewrite H5; cbn [obind]; ev_step; f_equal; lia).
  assert (H3 : MAR_1 L y = Ret (N - 306 - 2400001)) by (unfold MAR_1; rewrite H4; cbn [obind]; ev_step; f_equal; lia).
  intros m Hm. assert (1 <= m <= 12) as H1 by lia. revert Hm. pattern m.
  apply month_12; try assumption; intros Hm; try lia; assumption.
Qed.

Lemma month_macro_ok L m y : long_ok L -> year_ok L y -> 1 <= m <= 12 ->
  month_macro m L y = Ret (dayA CALENDAR_GREGORIAN 1 m y - 2400001).
Proof.
  intros HL Hy Hm. destruct (Z_le_gt_dec m 2) as [H|H].
  - rewrite greg_day_early by lia. assert (m = 1 \/ m = 2) as [->| ->] by lia; cbn [month_macro].
    + rewrite JAN_1_ok by assumption. f_equal. lia.
    + unfold FEB_1. rewrite JAN_1_ok by assumption. cbn [obind].
      pose proof (greg_ny_abs y). unfold year_ok, long_ok in *. ev_step. f_equal. lia.
  - rewrite greg_day_late by lia. rewrite late_macros by (assumption || lia). f_equal. lia.
Qed.

(* ---------- the half-year of a predicted leap second ---------- *)
Lemma half_year_ok L n : long_ok L -> -678000 <= n <= 1000000000 ->
  exists y, greg_ny y <= n + 2400001 < greg_ny (y + 1) /\
    half_year L n = Ret (if n <? greg_ny (y + 1) - 184 - 2400001
                         then (greg_ny y - 2400001, greg_ny (y + 1) - 184 - 2400001)
                         else (greg_ny (y + 1) - 184 - 2400001, greg_ny (y + 1) - 2400001)).
Proof.
  intros HL Hn. unfold half_year.
  assert (HI : IMAX = 2147483647) by reflexivity.
  rewrite ev_val; [|cbn [safe val]; unfold fits; rewrite HI; repeat split; lia]. cbn [val obind].
  set (y := (n + 2400000 - 1721058) * 400 ÷ 146097).
  assert (Hy : 0 <= y <= 2800000) by (unfold y; lia).
  rewrite (wrap32_id y) by lia.
  assert (Hok : forall z, -1 <= z <= 2800001 -> year_ok L z) by (unfold year_ok, long_ok in *; lia).
  rewrite JAN_1_ok by (auto; apply Hok; lia). cbn [obind].
  assert (A : forall z, -1 <= z <= 2800001 -> -2400000 <= greg_ny z - 2400001 <= 1100000000) by (unfold greg_ny; lia).
  rewrite wrap32_id by (specialize (A y ltac:(lia)); lia).
  destruct (Z.ltb_spec n (greg_ny y - 2400001)) as [C|C].
  - rewrite ev_val; [|cbn [safe val]; unfold fits; rewrite HI; repeat split; lia]. cbn [val obind].
    rewrite JAN_1_ok by (auto; apply Hok; lia). cbn [obind].
    rewrite wrap32_id by (specialize (A (y - 1) ltac:(lia)); lia).
    pose proof (A y ltac:(lia)).
    rewrite ev_val; [|cbn [safe val]; unfold fits; rewrite HI; repeat split; lia]. cbn [val obind].
    exists (y - 1). replace (y - 1 + 1) with y by lia. split.
    + split; [|lia]. unfold greg_ny. unfold y. lia.
    + replace (greg_ny y - 2400001 - (31 + 31 + 30 + 31 + 30 + 31)) with (greg_ny y - 184 - 2400001) by lia.
      reflexivity.
  - rewrite ev_val; [|cbn [safe val]; unfold fits; rewrite HI; repeat split; lia]. cbn [val obind].
    rewrite JAN_1_ok by (auto; apply Hok; lia). cbn [obind].
    pose proof (A (y + 1) ltac:(lia)).
    rewrite wrap32_id by lia.
    rewrite ev_val; [|cbn [safe val]; unfold fits; rewrite HI; repeat split; lia]. cbn [val obind].
    exists y. split.
    + split; [lia|]. unfold greg_ny. unfold y. lia.
    + replace (greg_ny (y + 1) - 2400001 - (31 + 31 + 30 + 31 + 30 + 31)) with (greg_ny (y + 1) - 184 - 2400001) by lia.
      reflexivity.
Qed.

