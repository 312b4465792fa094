(** Proofs about the leap seconds of delta_t.cpp. *)
From Coq Require Import Lia ZifyBool.
From Verif Require Import CBase CLemmas DateModel DatePure DateRound DateSpec DateFacts DateCount
  TimeModel TimeSpec TimeProofs.

(* ---------- leap-second table ---------- *)
Definition entry_day (utc0 : Z) (e : Z * Z) : Z :=
  to_ushort (dayA CALENDAR_GREGORIAN 1 (fst e) (snd e) - 2400001 - utc0).

Lemma eval_entries_ok L utc0 l : long_ok L -> Z.abs utc0 <= 100000 ->
  (forall m y, In (m, y) l -> 1 <= m <= 12 /\ 1900 <= y <= 2100) ->
  eval_entries L utc0 l = Ret (map (entry_day utc0) l).
Proof.
  intros HL Hu. induction l as [|[m y] r IH]; intros H; [reflexivity|].
  cbn [eval_entries map]. destruct (H m y ltac:(left; reflexivity)) as [Hm Hy].
  assert (Hok : year_ok L y) by (unfold year_ok, long_ok in *; lia).
  rewrite month_macro_ok by assumption. cbn [obind].
  assert (B : 0 <= dayA CALENDAR_GREGORIAN 1 m y <= 10000000).
  { destruct (Z_le_gt_dec m 2).
    - rewrite greg_day_early by lia. unfold greg_ny. lia.
    - rewrite greg_day_late by lia. assert (0 <= before_next m <= 306); [|unfold greg_ny; lia].
      pattern m. apply month_12; try lia; cbv; split; discriminate. }
  unfold long_ok in HL.
  rewrite ev_val by (cbn [safe val]; unfold fits; repeat split; lia). cbn [val obind].
  rewrite IH by (intros; apply H; right; assumption). reflexivity.
Qed.

Definition leap_tab : list Z := Eval vm_compute in map (entry_day 41317) leap_entries.
Lemma leap_tab_ok L : long_ok L -> eval_entries L 41317 leap_entries = Ret leap_tab.
Proof.
  intros HL. rewrite eval_entries_ok; [vm_compute; reflexivity|exact HL|cbv; discriminate|].
  intros m y H. cbn in H. repeat destruct H as [H|H]; try (injection H as <- <-; lia). destruct H.
Qed.

Lemma mjd_unique f : gregorian_mjd f ->
  forall d m y, 1 <= m <= 12 -> 1 <= d <= lenA CALENDAR_GREGORIAN m y ->
  f (d, m, y) = dayA CALENDAR_GREGORIAN d m y - 2400001.
Proof.
  intros H d m y Hm Hd.
  pose proof (rule_unique CALENDAR_GREGORIAN (fun dt => f dt + 2400001) (1, 1, 2000) 2451545) as U.
  assert (R : rule_cal CALENDAR_GREGORIAN) by (left; reflexivity).
  specialize (U R ltac:(discriminate)).
  assert (V : valid gregorian (1, 1, 2000)) by (split; cbn; lia).
  assert (C : counts_days gregorian (1, 1, 2000) 2451545 (fun dt => f dt + 2400001)).
  { destruct H as [H0 H1]. split; [cbv beta; lia|]. intros dt Vd. cbv beta. rewrite (H1 dt Vd). lia. }
  assert (Vd : valid gregorian (d, m, y)).
  { split; [lia|]. rewrite gregorian_len by lia. exact Hd. }
  assert (E0 : dayR CALENDAR_GREGORIAN (1, 1, 2000) = 2451545) by (vm_compute; reflexivity).
  specialize (U V E0 C (d, m, y) Vd). cbv beta in U. cbn [dayR] in U. lia.
Qed.

Definition june_days : list Z := Eval vm_compute in
  map (fun y => dayA CALENDAR_GREGORIAN 1 7 y - 2400001) june_leap_seconds.
Definition december_days : list Z := Eval vm_compute in
  map (fun y => dayA CALENDAR_GREGORIAN 1 1 (y + 1) - 2400001) december_leap_seconds.

Definition tab_search (x : Z) : option Z :=
  match leap_search leap_tab x (length leap_tab) with Ret r => r | _ => None end.
Definition count_spec (n : Z) : Z :=
  10 + Z.of_nat (length (filter (fun d => d <=? n) june_days))
     + Z.of_nat (length (filter (fun d => d <=? n) december_days)).

Lemma leap_sweep : forall n, 41317 <= n < 41317 + Z.of_nat (Z.to_nat 18232) ->
  leap_search leap_tab (n - 41317) (length leap_tab) = Ret (Some (count_spec n)).
Proof.
  assert (C : zall (fun n => match leap_search leap_tab (n - 41317) (length leap_tab) with
      Ret (Some k) => k =? count_spec n | _ => false end) (Z.to_nat 18232) 41317 = true)
    by (vm_compute; reflexivity).
  intros n H. pose proof (zall_spec _ _ _ C n H) as F. cbv beta in F.
  remember (leap_search leap_tab (n - 41317) (length leap_tab)) as r eqn:Er. clear Er.
  destruct r as [[k|]| | |]; try discriminate F. apply Z.eqb_eq in F. rewrite F. reflexivity.
Qed.

Lemma filter_map_length (A : Type) (g : A -> Z) n l :
  length (filter (fun y => g y <=? n) l) = length (filter (fun d => d <=? n) (map g l)).
Proof. induction l as [|a l IH]; cbn; [reflexivity|]. destruct (g a <=? n); cbn; rewrite IH; reflexivity. Qed.

Lemma tai_minus_utc_count f n : gregorian_mjd f -> tai_minus_utc f n = count_spec n.
Proof.
  intros H. unfold tai_minus_utc, count_spec.
  rewrite !(filter_map_length Z (fun y => f (1, 7, y))), !(filter_map_length Z (fun y => f (1, 1, y + 1))).
  assert (E1 : map (fun y => f (1, 7, y)) june_leap_seconds = june_days).
  { transitivity (map (fun y => dayA CALENDAR_GREGORIAN 1 7 y - 2400001) june_leap_seconds);
      [|vm_compute; reflexivity].
    apply map_ext. intros y. apply mjd_unique; [exact H|lia|]. rewrite greg_len_31 by (cbn; tauto). lia. }
  assert (E2 : map (fun y => f (1, 1, y + 1)) december_leap_seconds = december_days).
  { transitivity (map (fun y => dayA CALENDAR_GREGORIAN 1 1 (y + 1) - 2400001) december_leap_seconds);
      [|vm_compute; reflexivity].
    apply map_ext. intros y. apply mjd_unique; [exact H|lia|]. rewrite greg_len_31 by (cbn; tauto). lia. }
  rewrite E1, E2. reflexivity.
Qed.

Lemma dec2021 L : long_ok L -> DEC_1 L 2021 = Ret 59549.
Proof.
  intros HL. change (DEC_1 L 2021) with (month_macro 12 L 2021).
  rewrite month_macro_ok; [vm_compute; reflexivity|exact HL| |lia]. unfold year_ok, long_ok in *. lia.
Qed.
Lemma jan1972 L : long_ok L -> JAN_1 L 1972 = Ret 41317.
Proof.
  intros HL. rewrite JAN_1_ok; [reflexivity|exact HL|]. unfold year_ok, long_ok in *. lia.
Qed.

Lemma td_utc_table L limit n f : long_ok L -> gregorian_mjd f ->
  41317 <= n < 59549 -> n <= limit ->
  td_minus_utc_int L limit n = Ret (Tabulated (tai_minus_utc f n)).
Proof.
  intros HL Hf Hn Hl. unfold td_minus_utc_int.
  destruct (Z.ltb_spec limit n); [lia|].
  rewrite dec2021 by exact HL. cbn [obind]. destruct (Z.leb_spec 59549 n); [lia|].
  rewrite jan1972 by exact HL. cbn [obind]. rewrite leap_tab_ok by exact HL. cbn [obind].
  unfold long_ok in HL. rewrite ev_val by (cbn [safe val]; unfold fits; repeat split; lia). cbn [val obind].
  rewrite leap_sweep by (rewrite Z2Nat.id by lia; lia). cbn [obind].
  rewrite tai_minus_utc_count by exact Hf. reflexivity.
Qed.

Lemma td_utc_predicted L limit n : long_ok L -> 59549 <= n -> 59549 <= limit ->
  Z.min n limit <= 1000000000 ->
  exists low high, td_minus_utc_int L limit n = Ret (Predicted low high) /\
    half_year L (Z.min n limit) = Ret (low, high).
Proof.
  intros HL Hn Hl Hm. unfold td_minus_utc_int.
  assert (E : (if limit <? n then limit else n) = Z.min n limit) by (destruct (Z.ltb_spec limit n); lia). rewrite E.
  rewrite dec2021 by exact HL. cbn [obind]. destruct (Z.leb_spec 59549 (Z.min n limit)); [|lia].
  destruct (half_year_ok L (Z.min n limit) HL ltac:(lia)) as (y & _ & Ey). rewrite Ey.
  match goal with |- context [if ?b then (_, _) else _] => destruct b end; cbn [obind];
    do 2 eexists; split; reflexivity.
Qed.

