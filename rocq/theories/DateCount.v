(** Day counts are determined by the calendar rule: [dmy_to_day] is the only
    consecutive numbering of the days. *)
From Coq Require Import Lia ZifyBool.
From Verif Require Import CBase CLemmas ChineseData DateModel DatePure
  DatePureIslRev DatePurePersian DatePureHebrew DateRound DateChart DateSpec DateFacts.

Section Unique.
Context (len : rule) (Hone : forall y, 0 < len 1 y).
Context (f g : date -> Z).
Context (Hf : forall dt, valid len dt -> f (next_date len dt) = f dt + 1).
Context (Hg : forall dt, valid len dt -> g (next_date len dt) = g dt + 1).

Let h (dt : date) : Z := f dt - g dt.

Lemma h_next dt : valid len dt -> h (next_date len dt) = h dt.
Proof. intros H. unfold h. rewrite Hf, Hg by exact H. lia. Qed.

Lemma h_month m y : 1 <= m <= 13 -> forall n : nat, 1 + Z.of_nat n <= len m y ->
  h (1 + Z.of_nat n, m, y) = h (1, m, y).
Proof.
  intros Hm. induction n as [|n IH]; intros Hn; [reflexivity|].
  rewrite <- (IH ltac:(lia)).
  rewrite <- (h_next (1 + Z.of_nat n, m, y)) by (split; lia).
  unfold next_date. destruct (Z.ltb_spec (1 + Z.of_nat n) (len m y)); [|lia].
  f_equal. f_equal. f_equal. lia.
Qed.

Definition start (y m : Z) : Z :=
  match first_month len y m (Z.to_nat (14 - m)) with
  | Some m' => h (1, m', y)
  | None => h (1, 1, y + 1)
  end.

Lemma start_step y m : 1 <= m <= 13 ->
  start y (m + 1) = start y m /\ (0 < len m y -> start y m = h (1, m, y)).
Proof.
  intros Hm. unfold start.
  replace (Z.to_nat (14 - m)) with (S (Z.to_nat (13 - m))) by lia.
  replace (Z.to_nat (14 - (m + 1))) with (Z.to_nat (13 - m)) by lia.
  cbn [first_month]. destruct (Z.ltb_spec 0 (len m y)) as [Hp|Hp]; [|split; [reflexivity|lia]].
  split; [|reflexivity].
  pose proof (h_month m y Hm (Z.to_nat (len m y - 1)) ltac:(lia)) as Hh.
  replace (1 + Z.of_nat (Z.to_nat (len m y - 1))) with (len m y) in Hh by lia.
  rewrite <- Hh, <- (h_next (len m y, m, y)) by (split; lia).
  unfold next_date. rewrite Z.ltb_irrefl.
  destruct (first_month len y (m + 1) (Z.to_nat (13 - m))); reflexivity.
Qed.

Lemma start_all y (n : nat) : Z.of_nat n <= 13 -> start y (1 + Z.of_nat n) = h (1, 1, y).
Proof.
  induction n as [|n IH]; intros Hn.
  - destruct (start_step y 1 ltac:(lia)) as [_ H]. apply H. apply Hone.
  - rewrite <- (IH ltac:(lia)). replace (1 + Z.of_nat (S n)) with (1 + Z.of_nat n + 1) by lia.
    apply start_step. lia.
Qed.

Lemma h_year y : h (1, 1, y + 1) = h (1, 1, y).
Proof. rewrite <- (start_all y 13) by lia. reflexivity. Qed.

Lemma h_in_year d m y : valid len (d, m, y) -> h (d, m, y) = h (1, 1, y).
Proof.
  intros [Hm Hd]. pose proof (h_month m y Hm (Z.to_nat (d - 1)) ltac:(lia)) as Hh.
  replace (1 + Z.of_nat (Z.to_nat (d - 1))) with d in Hh by lia. rewrite Hh.
  destruct (start_step y m Hm) as [_ H]. rewrite <- H by lia.
  rewrite <- (start_all y (Z.to_nat (m - 1))) by lia. f_equal. lia.
Qed.

Lemma h_years y0 y : h (1, 1, y) = h (1, 1, y0).
Proof.
  assert (A : forall (n : nat) a, h (1, 1, a + Z.of_nat n) = h (1, 1, a)).
  { induction n as [|n IH]; intros a; [rewrite Z.add_0_r; reflexivity|].
    replace (a + Z.of_nat (S n)) with (a + Z.of_nat n + 1) by lia. rewrite h_year. apply IH. }
  destruct (Z_le_gt_dec y0 y).
  - rewrite <- (A (Z.to_nat (y - y0)) y0). repeat f_equal. lia.
  - rewrite <- (A (Z.to_nat (y0 - y)) y). repeat f_equal. lia.
Qed.

Lemma count_unique a : valid len a -> f a = g a -> forall dt, valid len dt -> f dt = g dt.
Proof.
  intros Ha E [[d m] y] Hv. destruct a as [[d0 m0] y0].
  pose proof (h_in_year _ _ _ Ha) as H1. pose proof (h_in_year _ _ _ Hv) as H2.
  rewrite (h_years y0 y) in H2. unfold h in *. lia.
Qed.
End Unique.

(* ---------- dayA counts days ---------- *)
(** Calendars given by a rule, with years joining exactly. *)
Definition dayR (c : Z) (dt : date) : Z := let '(d, m, y) := dt in dayA c d m y.

Lemma firstn_S_sum l n : (n < length l)%nat -> msum (firstn (S n) l) = msum (firstn n l) + nth n l 0.
Proof.
  revert n. induction l as [|x t IH]; intros n Hn; [cbn in Hn; lia|].
  destruct n as [|n]; cbn [firstn nth]; unfold msum in *; cbn [fold_right]; [lia|].
  cbn [length] in Hn. specialize (IH n ltac:(lia)). cbn [firstn] in IH. lia.
Qed.

Section Counts.
Context (c : Z) (len : rule).
Context (Hlen13 : forall y, length (msA c y) = 13%nat).
Context (Hpos : forall y, Forall (fun m => 0 <= m <= 127) (msA c y)).
Context (Heq : forall m y, 1 <= m <= 13 -> len m y = lenA c m y).
Context (Hjoin : forall y, nyA c (y + 1) = nyA c y + msum (msA c y)).

Definition mstart (y m : Z) : Z := nyA c y + msum (firstn (Z.to_nat (m - 1)) (msA c y)).

Lemma mstart_step y m : 1 <= m <= 13 -> mstart y (m + 1) = mstart y m + len m y.
Proof.
  intros Hm. unfold mstart. rewrite Heq by exact Hm. unfold lenA.
  replace (Z.to_nat (m + 1 - 1)) with (S (Z.to_nat (m - 1))) by lia.
  rewrite firstn_S_sum by (rewrite Hlen13; lia). lia.
Qed.

Lemma lenA_nonneg m y : 1 <= m <= 13 -> 0 <= len m y.
Proof.
  intros Hm. rewrite Heq by exact Hm. unfold lenA. pose proof (Hpos y) as Hp.
  rewrite Forall_forall in Hp.
  assert (In (nth (Z.to_nat (m - 1)) (msA c y) 0) (msA c y)) as Hin
      by (apply nth_In; rewrite Hlen13; lia).
  specialize (Hp _ Hin). cbv beta in Hp. lia.
Qed.

Lemma first_month_start y : forall (n : nat) m, 1 <= m -> m + Z.of_nat n = 14 ->
  match first_month len y m n with
  | Some m' => dayR c (1, m', y) = mstart y m
  | None => dayR c (1, 1, y + 1) = mstart y m
  end.
Proof.
  induction n as [|n IH]; intros m Hm Hn; cbn [first_month].
  - replace m with 14 by lia. unfold dayR, dayA, mstart. rewrite Hjoin.
    change (Z.to_nat (14 - 1)) with 13%nat. rewrite <- (Hlen13 y), firstn_all.
    change (Z.to_nat (1 - 1)) with 0%nat. cbn [firstn]. unfold msum at 2. cbn [fold_right]. lia.
  - destruct (Z.ltb_spec 0 (len m y)) as [Hp|Hp].
    + unfold dayR, dayA, mstart. lia.
    + specialize (IH (m + 1) ltac:(lia) ltac:(lia)).
      pose proof (lenA_nonneg m y ltac:(lia)).
      rewrite mstart_step in IH by lia. replace (len m y) with 0 in IH by lia.
      rewrite Z.add_0_r in IH. exact IH.
Qed.

Lemma dayR_next dt : valid len dt -> dayR c (next_date len dt) = dayR c dt + 1.
Proof.
  destruct dt as [[d m] y]. intros [Hm Hd]. unfold next_date.
  destruct (Z.ltb_spec d (len m y)) as [Hl|Hl]; [unfold dayR, dayA; lia|].
  pose proof (first_month_start y (Z.to_nat (13 - m)) (m + 1) ltac:(lia) ltac:(lia)) as F.
  rewrite mstart_step in F by lia.
  destruct (first_month len y (m + 1) (Z.to_nat (13 - m))); rewrite F;
    unfold dayR, dayA, mstart; lia.
Qed.

Lemma dayR_unique f a n0 : (forall y, 0 < len 1 y) -> valid len a -> dayR c a = n0 ->
  counts_days len a n0 f -> forall dt, valid len dt -> f dt = dayR c dt.
Proof.
  intros H1 Ha E [F1 F2] dt Hv.
  apply (count_unique len H1 f (dayR c) F2 dayR_next a Ha); [congruence|exact Hv].
Qed.
End Counts.

(* ---------- the calendars whose years join exactly ---------- *)
Lemma rule_join c y : rule_cal c -> c <> CALENDAR_HEBREW ->
  nyA c (y + 1) = nyA c y + msum (msA c y).
Proof.
  intros H Hn. unfold nyA, msA. destruct (rule_not57 c H) as (-> & -> & _).
  pose proof (ye_of_ny c y H) as E. unfold ye_of, odd_year in E.
  destruct (Z.eqb_spec c CALENDAR_HEBREW); [contradiction|]. cbn [andb] in E. lia.
Qed.

Lemma rule_shape c y : rule_cal c -> length (msA c y) = 13%nat /\
  Forall (fun m => 0 <= m <= 127) (msA c y).
Proof.
  intros H. unfold msA. destruct (rule_not57 c H) as (-> & -> & _). apply months_shape127, H.
Qed.

Ltac month_cases m Hm :=
  assert (Hcase : m = 1 \/ m = 2 \/ m = 3 \/ m = 4 \/ m = 5 \/ m = 6 \/ m = 7 \/ m = 8 \/
                  m = 9 \/ m = 10 \/ m = 11 \/ m = 12 \/ m = 13) by lia; clear Hm;
  repeat (destruct Hcase as [->|Hcase]); try subst m.

Lemma gregorian_len m y : 1 <= m <= 13 -> gregorian m y = lenA CALENDAR_GREGORIAN m y.
Proof.
  intros Hm. change (lenA CALENDAR_GREGORIAN m y) with (nth (Z.to_nat (m - 1)) (jg_months false y) 0).
  unfold gregorian, jg_months. cbn [jg_leapb].
  assert (E : gregorian_leap y = greg_leapb y).
  { unfold gregorian_leap, greg_leapb. reflexivity. }
  rewrite E. month_cases m Hm; destruct (greg_leapb y); reflexivity.
Qed.

Lemma julian_len m y : 1 <= m <= 13 -> julian m y = lenA CALENDAR_JULIAN m y.
Proof.
  intros Hm. change (lenA CALENDAR_JULIAN m y) with (nth (Z.to_nat (m - 1)) (jg_months true y) 0).
  unfold julian, jg_months. cbn [jg_leapb].
  assert (E : julian_leap y = jul_leapb y) by reflexivity.
  rewrite E. month_cases m Hm; destruct (jul_leapb y); reflexivity.
Qed.

Lemma islamic_leap_ok y : islamic_leap y = isl_leapb y.
Proof.
  unfold islamic_leap, isl_leapb. cbn [existsb].
  pose proof (Z.mod_pos_bound y 30 ltac:(lia)) as B.
  pose proof (Z.div_mod y 30 ltac:(lia)) as E.
  set (r := y mod 30) in *. set (q := y / 30) in *. clearbody r q.
  assert (Em : (11 * y + 14) mod 30 = (11 * r + 14) mod 30).
  { rewrite E. replace (11 * (30 * q + r) + 14) with (11 * r + 14 + (11 * q) * 30) by ring.
    apply Z.mod_add. lia. }
  rewrite Em. clear E Em.
  assert (H : forall x, 0 <= x < 30 ->
     ((x =? 2) || ((x =? 5) || ((x =? 7) || ((x =? 10) || ((x =? 13) || ((x =? 16) ||
      ((x =? 18) || ((x =? 21) || ((x =? 24) || ((x =? 26) || ((x =? 29) || false)))))))))))
     = ((11 * x + 14) mod 30 <? 11)).
  { intros x Hx. apply Bool.eqb_prop. revert x Hx.
    assert (S : zall (fun x => Bool.eqb ((x =? 2) || ((x =? 5) || ((x =? 7) || ((x =? 10) || ((x =? 13) || ((x =? 16) ||
      ((x =? 18) || ((x =? 21) || ((x =? 24) || ((x =? 26) || ((x =? 29) || false)))))))))))
     ((11 * x + 14) mod 30 <? 11)) 30 0 = true) by (vm_compute; reflexivity).
    intros x Hx. apply (zall_spec _ _ _ S x). cbn. lia. }
  apply H. exact B.
Qed.

Lemma islamic_len m y : 1 <= m <= 13 -> islamic m y = lenA CALENDAR_ISLAMIC m y.
Proof.
  intros Hm. change (lenA CALENDAR_ISLAMIC m y) with (nth (Z.to_nat (m - 1)) (isl_months y) 0).
  unfold islamic, isl_months. rewrite islamic_leap_ok.
  month_cases m Hm; destruct (isl_leapb y); reflexivity.
Qed.

Lemma birashk_ok y : mp_ny (y + 1) - mp_ny y = if birashk_leap y then 366 else 365.
Proof.
  unfold mp_ny, birashk_leap. cbv zeta.
  pose proof (Z.div_mod (y - 474) 2820 ltac:(lia)) as E.
  pose proof (Z.mod_pos_bound (y - 474) 2820 ltac:(lia)) as B.
  set (q := (y - 474) / 2820) in *. set (r := (y - 474) mod 2820) in *.
  assert (S : zall (fun r => ((31 * (474 + r + 1) - 5) / 128 - (31 * (474 + r) - 5) / 128 =?
       (if (r + 474 + 38) * 682 mod 2816 <? 682 then 1 else 0))) 2819 0 = true)
    by (vm_compute; reflexivity).
  destruct (Z.eq_dec r 2819) as [Hr|Hr].
  - assert ((y + 1 - 474) mod 2820 = 0) as -> by (apply mod_uniq with (q := q + 1); lia).
    assert ((y + 1 - 474) / 2820 = q + 1) as -> by (apply div_uniq with (r := 0); lia).
    rewrite Hr. change ((31 * (474 + 2819) - 5) / 128) with 797.
    change ((31 * (474 + 0) - 5) / 128) with 114.
    change ((2819 + 474 + 38) * 682 mod 2816 <? 682) with false. cbv iota. lia.
  - assert ((y + 1 - 474) mod 2820 = r + 1) as -> by (apply mod_uniq with (q := q); lia).
    assert ((y + 1 - 474) / 2820 = q) as -> by (apply div_uniq with (r := r + 1); lia).
    pose proof (zall_spec _ _ _ S r ltac:(cbn; lia)) as Hz. cbv beta in Hz.
    apply Z.eqb_eq in Hz.
    replace (474 + (r + 1)) with (474 + r + 1) by lia.
    set (a := (31 * (474 + r + 1) - 5) / 128) in *. set (b := (31 * (474 + r) - 5) / 128) in *.
    clearbody a b. destruct ((r + 474 + 38) * 682 mod 2816 <? 682); lia.
Qed.

Lemma modern_persian_len m y : 1 <= m <= 13 -> modern_persian m y = lenA CALENDAR_MODERN_PERSIAN m y.
Proof.
  intros Hm. change (lenA CALENDAR_MODERN_PERSIAN m y) with (nth (Z.to_nat (m - 1)) (mp_months y) 0).
  unfold modern_persian, mp_months. pose proof (birashk_ok y) as E.
  month_cases m Hm; try reflexivity.
  change ((1 <=? 12) && (12 <=? 6)) with false. change ((7 <=? 12) && (12 <=? 11)) with false.
  change (12 =? 12) with true. cbv iota.
  change (nth (Z.to_nat (12 - 1)) [31; 31; 31; 31; 31; 31; 30; 30; 30; 30; 30; mp_ny (y + 1) - mp_ny y - 336; 0] 0)
    with (mp_ny (y + 1) - mp_ny y - 336). destruct (birashk_leap y); lia.
Qed.

Definition french_leapb (y : Z) : bool := rev_ny (y + 1) - rev_ny y =? 366.
Lemma french_len m y : 1 <= m <= 13 -> french french_leapb m y = lenA CALENDAR_REVOLUTIONARY m y.
Proof.
  intros Hm. change (lenA CALENDAR_REVOLUTIONARY m y) with (nth (Z.to_nat (m - 1)) (rev_months y) 0).
  unfold french, rev_months, french_leapb. pose proof (rev_step y) as E.
  month_cases m Hm; try reflexivity.
  change ((1 <=? 13) && (13 <=? 12)) with false. change (13 =? 13) with true. cbv iota.
  match goal with |- context [nth (Z.to_nat (13 - 1)) ?l 0] =>
    change (nth (Z.to_nat (13 - 1)) l 0) with (rev_ny (y + 1) - rev_ny y - 360) end.
  destruct (Z.eqb_spec (rev_ny (y + 1) - rev_ny y) 366); lia.
Qed.

Definition rule_of (c : Z) : rule :=
  if c =? 0 then gregorian else if c =? 1 then julian else if c =? 3 then islamic
  else if c =? 4 then french french_leapb else modern_persian.

Lemma rule_of_len c m y : rule_cal c -> c <> CALENDAR_HEBREW -> 1 <= m <= 13 ->
  rule_of c m y = lenA c m y.
Proof.
  intros H Hn Hm. rule_cases H; unfold rule_of; cbn [Z.eqb Pos.eqb].
  - apply gregorian_len, Hm.
  - apply julian_len, Hm.
  - contradiction.
  - apply islamic_len, Hm.
  - apply french_len, Hm.
  - apply modern_persian_len, Hm.
Qed.

Lemma lenA_1 c y : rule_cal c -> 0 < lenA c 1 y.
Proof.
  intros H. unfold lenA, msA. destruct (rule_not57 c H) as (-> & -> & _).
  rule_cases H; unfold months_of; cbn [Z.eqb Pos.eqb]; unfold jg_months; cbn; lia.
Qed.

Lemma rule_unique c f a n0 : rule_cal c -> c <> CALENDAR_HEBREW ->
  valid (rule_of c) a -> dayR c a = n0 -> counts_days (rule_of c) a n0 f ->
  forall dt, valid (rule_of c) dt -> f dt = dayR c dt.
Proof.
  intros H Hn. apply dayR_unique.
  - intros y. apply (rule_shape c y H).
  - intros y. apply (rule_shape c y H).
  - intros m y Hm. apply rule_of_len; assumption.
  - intros y. apply rule_join; assumption.
  - intros y. rewrite rule_of_len by (try assumption; lia). apply lenA_1, H.
Qed.

Lemma rule_counts c : rule_cal c -> c <> CALENDAR_HEBREW ->
  forall dt, valid (rule_of c) dt -> dayR c (next_date (rule_of c) dt) = dayR c dt + 1.
Proof.
  intros H Hn. apply dayR_next.
  - intros y. apply (rule_shape c y H).
  - intros y. apply (rule_shape c y H).
  - intros m y Hm. apply rule_of_len; assumption.
  - intros y. apply rule_join; assumption.
Qed.

Lemma lenA_bound L c m y : year_dom L c y -> lenA c m y <= 127.
Proof.
  intros H. destruct (shapeA L c y H) as (Hl & Hf & _). unfold lenA.
  destruct (Nat.lt_ge_cases (Z.to_nat (m - 1)) 13) as [Hn|Hn].
  - rewrite Forall_forall in Hf.
    assert (In (nth (Z.to_nat (m - 1)) (msA c y) 0) (msA c y)) as Hin by (apply nth_In; lia).
    specialize (Hf _ Hin). cbv beta in Hf. lia.
  - rewrite nth_overflow by lia. lia.
Qed.

(** dmy_to_day( ) is the only numbering of the days of the calendar. *)
Lemma dmy_to_day_is_count L c f a n0 : long_ok L -> rule_cal c -> c <> CALENDAR_HEBREW ->
  valid (rule_of c) a -> dayR c a = n0 -> counts_days (rule_of c) a n0 f ->
  forall d m y, year_ok L y -> valid (rule_of c) (d, m, y) ->
    dmy_to_day L d m y c = Ret (f (d, m, y)).
Proof.
  intros HL H Hn Ha E Hc d m y Hy Hv.
  rewrite (rule_unique c f a n0 H Hn Ha E Hc (d, m, y) Hv). unfold dayR.
  assert (Hd : year_dom L c y) by (left; split; assumption).
  destruct Hv as [Hm Hdd]. rewrite rule_of_len in Hdd by assumption.
  pose proof (lenA_bound L c m y Hd).
  apply dmy_to_dayA; try assumption; lia.
Qed.
