(** Hebrew calendar: closed formulas (see [DatePure]). *)
From Coq Require Import Lia ZifyBool.
From Verif Require Import CBase CLemmas ChineseData DateModel DatePure.

(** Lunations before 1 Tishri of year y; moment of that new moon in parts
    (1/25920 day); its day and its time of day in parts. *)
Definition heb_lunations (y : Z) : Z := (235 * y - 234) / 19.
Definition heb_parts (y : Z) : Z := 57444 + 765433 * heb_lunations y.
Definition heb_mday (y : Z) : Z := heb_parts y / 25920.
Definition heb_mhal (y : Z) : Z := heb_parts y mod 25920.
Definition heb_leapb (y : Z) : bool := (7 * y + 1) mod 19 <? 7.

(** Postponement, given the weekday [w] of the molad (1 = Sunday), its parts
    [h], whether the year and whether the previous year is a leap year. *)
Definition heb_off (w h : Z) (ly lp : bool) : Z :=
  if (w =? 3) && (9924 <=? h) && negb ly then 2
  else if (w =? 2) && (16789 <=? h) && lp then 1
  else
    let a := if 19440 <? h then 1 else 0 in
    let w2 := (w + a) mod 7 in
    if (w2 =? 1) || (w2 =? 4) || (w2 =? 6) then a + 1 else a.

Definition heb_ny (y : Z) : Z :=
  347996 + heb_mday y +
  heb_off (heb_mday y mod 7) (heb_mhal y) (heb_leapb y) (heb_leapb (y - 1)).

Lemma heb_off_bound w h ly lp : 0 <= heb_off w h ly lp <= 2.
Proof.
  unfold heb_off. cbv zeta.
  destruct ((w =? 3) && (9924 <=? h) && negb ly); [lia|].
  destruct ((w =? 2) && (16789 <=? h) && lp); [lia|].
  destruct (19440 <? h);
    match goal with |- context [if ?c then _ else _] => destruct c end; lia.
Qed.

Lemma heb_lunations_bound y : -13 * Z.abs y - 13 <= heb_lunations y <= 13 * Z.abs y + 13.
Proof. unfold heb_lunations. lia. Qed.

Lemma heb_mday_lin y :
  12960 * 19 * heb_mday y <= 12960 * 19 * (366 * Z.abs y) + 12960 * 19 * 500 /\
  - (12960 * 19 * (366 * Z.abs y)) - 12960 * 19 * 500 <= 12960 * 19 * heb_mday y.
Proof.
  unfold heb_mday, heb_parts, heb_lunations.
  pose proof (Z.div_mod (235 * y - 234) 19 ltac:(lia)) as E.
  pose proof (Z.mod_pos_bound (235 * y - 234) 19 ltac:(lia)) as B.
  set (m := (235 * y - 234) / 19) in *. set (r := (235 * y - 234) mod 19) in *. clearbody m r.
  pose proof (Z.div_mod (57444 + 765433 * m) 25920 ltac:(lia)) as E2.
  pose proof (Z.mod_pos_bound (57444 + 765433 * m) 25920 ltac:(lia)) as B2.
  set (d := (57444 + 765433 * m) / 25920) in *.
  set (h := (57444 + 765433 * m) mod 25920) in *. clearbody d h. lia.
Qed.

Lemma heb_mday_bound y : - 366 * Z.abs y - 500 <= heb_mday y <= 366 * Z.abs y + 500.
Proof. pose proof (heb_mday_lin y). lia. Qed.

Lemma lunations_ok L y :
  long_ok L -> 600 * Z.abs y + 5000000 <= L ->
  lunations_to_tishri_1 L y = Ret (heb_lunations y).
Proof.
  unfold long_ok, lunations_to_tishri_1, heb_lunations. intros HL Hy.
  ev_step. rewrite c_mod_ok by (unfold fits; lia). cbn [obind].
  pose proof (Z.div_mod (y - 1) 19 ltac:(lia)) as E.
  pose proof (Z.mod_pos_bound (y - 1) 19 ltac:(lia)) as B.
  set (q := (y - 1) / 19) in *. set (r := (y - 1) mod 19) in *. clearbody q r.
  assert (Eq : (y - 1 - r) ÷ 19 = q) by (replace (y - 1 - r) with (q * 19) by lia; apply Z.quot_mul; lia).
  rewrite ev_val by (cbn [safe val]; rewrite Eq; unfold fits; repeat split; lia).
  cbn [val obind]. rewrite Eq. ev_step. ev_step. f_equal.
  symmetry. apply div_uniq with (r := (7 * r + 1) mod 19); lia.
Qed.

Lemma days_halakim_ok L l :
  long_ok L -> 33 * Z.abs l + 5000000 <= L ->
  lunations_to_days_and_halakim L l 2 5604
  = Ret ((57444 + 765433 * l) / 25920, (57444 + 765433 * l) mod 25920).
Proof.
  unfold long_ok, lunations_to_days_and_halakim, HALAKIM_IN_DAY. intros HL Hl.
  rewrite c_mod_ok by (unfold fits; lia). cbn [obind].
  pose proof (Z.div_mod l 25920 ltac:(lia)) as E.
  pose proof (Z.mod_pos_bound l 25920 ltac:(lia)) as B.
  set (q := l / 25920) in *. set (r := l mod 25920) in *. clearbody q r.
  assert (Eq : (l - r) ÷ 25920 = q) by (replace (l - r) with (q * 25920) by lia; apply Z.quot_mul; lia).
  rewrite ev_val by (cbn [safe val]; rewrite Eq; unfold fits; repeat split; lia).
  cbn [val obind]. rewrite Eq. change (24 * 1080) with 25920.
  ev_step. ev_step.
  rewrite ev_val by (cbn [safe val]; unfold fits; repeat split; try lia; rewrite Z.quot_div_nonneg by lia; lia).
  cbn [val obind]. ev_step.
  rewrite Z.quot_div_nonneg by lia. rewrite Z.rem_mod_nonneg by lia.
  set (h := 5604 + r * 13753). assert (Hh : 0 <= h) by (unfold h; lia).
  f_equal. f_equal.
  - symmetry. apply div_uniq with (r := h mod 25920); [lia|]. unfold h in *. lia.
  - symmetry. apply mod_uniq with (q := 2 + (q * 765433 + r * 29) + h / 25920); [lia|]. unfold h in *. lia.
Qed.

Lemma find_tishri_ok L y :
  long_ok L -> 600 * Z.abs y + 9000000 <= L ->
  find_tishri_1 L y = Ret (heb_mday y, heb_mhal y).
Proof.
  intros HL Hy. unfold find_tishri_1. rewrite lunations_ok by (unfold long_ok in *; lia).
  cbn [obind]. pose proof (heb_lunations_bound y). unfold long_ok in *.
  rewrite days_halakim_ok by (unfold long_ok; lia). reflexivity.
Qed.

Lemma heb_leap_ok L y :
  long_ok L -> 600 * Z.abs y + 5000000 <= L -> is_hebrew_leap_year L y = Ret (heb_leapb y).
Proof.
  unfold long_ok, is_hebrew_leap_year, heb_leapb. intros HL Hy.
  ev_step. rewrite c_mod_ok by (unfold fits; lia). cbn [obind]. f_equal. lia.
Qed.

Lemma hebrew_days_i_ok L y i :
  long_ok L -> 600 * Z.abs y + 9900000 <= L -> 0 <= i <= 1 ->
  hebrew_days_i L y i = Ret (heb_ny (y + i)).
Proof.
  intros HL Hy Hi. unfold hebrew_days_i. unfold long_ok in HL.
  ev_step. rewrite find_tishri_ok by (unfold long_ok; lia). cbn [obind].
  pose proof (heb_mday_bound (y + i)) as Hb.
  unfold heb_ny.
  rewrite c_mod_ok by (unfold fits; lia). cbn [obind].
  rewrite heb_leap_ok by (unfold long_ok; lia). cbn [obind].
  ev_step. replace (y - 1 + i) with (y + i - 1) by lia.
  rewrite heb_leap_ok by (unfold long_ok; lia). cbn [obind].
  generalize (heb_leapb (y + i)) (heb_leapb (y + i - 1)) (heb_mhal (y + i)).
  intros ly lp h. set (D := heb_mday (y + i)) in *. clearbody D.
  unfold heb_off, HEBREW_CALENDAR_EPOCH. cbv zeta.
  change (9 * 1080 + 204) with 9924. change (15 * 1080 + 589) with 16789.
  change (18 * 1080) with 19440.
  destruct ((D mod 7 =? 3) && (9924 <=? h) && negb ly).
  { ev_step. ev_step. f_equal. lia. }
  destruct ((D mod 7 =? 2) && (16789 <=? h) && lp).
  { ev_step. ev_step. f_equal. lia. }
  destruct (19440 <? h).
  - ev_step. rewrite c_mod_ok by (unfold fits; lia). cbn [obind].
    replace ((D mod 7 + 1) mod 7) with ((D + 1) mod 7) by lia.
    destruct (((D + 1) mod 7 =? 1) || ((D + 1) mod 7 =? 4) || ((D + 1) mod 7 =? 6));
      cbn [obind]; repeat ev_step; f_equal; lia.
  - cbn [obind]. rewrite c_mod_ok by (unfold fits; lia). cbn [obind].
    replace ((D mod 7 + 0) mod 7) with (D mod 7) by lia.
    destruct ((D mod 7 =? 1) || (D mod 7 =? 4) || (D mod 7 =? 6));
      cbn [obind]; repeat ev_step; f_equal; lia.
Qed.

(* ---------- year lengths ---------- *)
Definition heb_len_ok (ly : bool) (len : Z) : bool :=
  if ly then (383 <=? len) && (len <=? 385) else (353 <=? len) && (len <=? 355).

(** The molad falls on Tuesday exactly 9h 204p of a common year: the one
    combination for which the code's "halakim > 18 * 1080" yields a year of 352
    days.

    All weekdays x all times of day x all leap-year patterns that can occur
    (two leap years are never adjacent). *)
Definition heb_odd (w h : Z) (ly : bool) : bool := (w =? 3) && (h =? 9924) && negb ly.
Definition heb_len_check (w h : Z) (lp ly ln : bool) : bool :=
  (ly && (lp || ln)) ||
  let p := h + (if ly then 23269 else 9516) in
  let d := (if ly then 383 else 354) + p / 25920 in
  let len := d + heb_off ((w + d) mod 7) (p mod 25920) ln ly - heb_off w h ly lp in
  if heb_odd w h ly then len =? 352 else heb_len_ok ly len.

Lemma heb_len_check_true w h lp ly ln :
  0 <= w < 7 -> 0 <= h < 25920 -> heb_len_check w h lp ly ln = true.
Proof.
  intros Hw Hh. unfold heb_len_check, heb_odd, heb_off. cbv zeta.
  set (p := h + (if ly then 23269 else 9516)).
  assert (Hp : (p / 25920 = 0 /\ p mod 25920 = p /\ p < 25920) \/ (p / 25920 = 1 /\ p mod 25920 = p - 25920 /\ 25920 <= p)).
  { assert (9516 <= p < 2 * 25920) by (subst p; destruct ly; lia). destruct (Z_lt_le_dec p 25920); [left|right]; repeat split; try lia. all: try (apply Z.div_small; lia); try (apply Z.mod_small; lia).
    }
  assert (W : w = 0 \/ w = 1 \/ w = 2 \/ w = 3 \/ w = 4 \/ w = 5 \/ w = 6) by lia.
  destruct Hp as [(-> & -> & Hp)|(-> & -> & Hp)]; subst p; destruct ly, lp, ln; cbn [andb orb negb] in *; try reflexivity;
  repeat match goal with
  | |- context [?a <=? h] => destruct (Z.leb_spec a h); try (exfalso; lia)
  | |- context [?a <? h] => destruct (Z.ltb_spec a h); try (exfalso; lia)
  | |- context [h =? ?a] => destruct (Z.eqb_spec h a); try (exfalso; lia)
  | |- context [?a <=? h + ?b] => destruct (Z.leb_spec a (h + b)); try (exfalso; lia)
  | |- context [?a <? h + ?b] => destruct (Z.ltb_spec a (h + b)); try (exfalso; lia)
  | |- context [?a <=? h + ?b - ?c] => destruct (Z.leb_spec a (h + b - c)); try (exfalso; lia)
  | |- context [?a <? h + ?b - ?c] => destruct (Z.ltb_spec a (h + b - c)); try (exfalso; lia)
  end; destruct W as [->|[->|[->|[->|[->|[->| ->]]]]]]; try reflexivity; exfalso; lia.
Qed.

Lemma heb_lunations_step y :
  heb_lunations (y + 1) = heb_lunations y + (if heb_leapb y then 13 else 12).
Proof.
  unfold heb_lunations, heb_leapb. destruct (Z.ltb_spec ((7 * y + 1) mod 19) 7); lia.
Qed.

Lemma heb_leap_adjacent y : heb_leapb y = true -> heb_leapb (y - 1) = false /\ heb_leapb (y + 1) = false.
Proof. unfold heb_leapb. lia. Qed.

Definition heb_oddb (y : Z) : bool := heb_odd (heb_mday y mod 7) (heb_mhal y) (heb_leapb y).

Lemma heb_step_gen y :
  (if heb_oddb y then heb_ny (y + 1) - heb_ny y =? 352
   else heb_len_ok (heb_leapb y) (heb_ny (y + 1) - heb_ny y)) = true.
Proof.
  unfold heb_ny, heb_oddb. replace (y + 1 - 1) with y by lia.
  pose proof (heb_lunations_step y) as Hs.
  assert (Hw : 0 <= heb_mday y mod 7 < 7) by lia.
  assert (Hh : 0 <= heb_mhal y < 25920) by (unfold heb_mhal; lia).
  pose proof (heb_len_check_true (heb_mday y mod 7) (heb_mhal y) (heb_leapb (y - 1))
                (heb_leapb y) (heb_leapb (y + 1)) Hw Hh) as H.
  unfold heb_len_check in H. apply orb_prop in H. destruct H as [H|H].
  { exfalso. pose proof (heb_leap_adjacent y) as Ha.
    destruct (heb_leapb y); [|discriminate]. destruct (Ha eq_refl) as [E1 E2].
    rewrite E1, E2 in H. discriminate. }
  set (p := heb_mhal y + (if heb_leapb y then 23269 else 9516)) in *.
  set (d := (if heb_leapb y then 383 else 354) + p / 25920) in *.
  assert (Hp : heb_parts y = 25920 * heb_mday y + heb_mhal y).
  { unfold heb_mday, heb_mhal. apply Z.div_mod. lia. }
  assert (Ep : heb_parts (y + 1) = 25920 * (heb_mday y + d) + p mod 25920).
  { unfold heb_parts in *. rewrite Hs. unfold d, p. destruct (heb_leapb y); lia. }
  assert (Ed : heb_mday (y + 1) = heb_mday y + d).
  { unfold heb_mday at 1. apply div_uniq with (r := p mod 25920); [lia|exact Ep]. }
  assert (Eh : heb_mhal (y + 1) = p mod 25920).
  { unfold heb_mhal at 1. apply mod_uniq with (q := heb_mday y + d); [lia|exact Ep]. }
  rewrite Ed, Eh.
  replace ((heb_mday y + d) mod 7) with ((heb_mday y mod 7 + d) mod 7) by lia.
  cbv zeta in H.
  match type of H with context [heb_len_ok _ ?a] => match goal with |- context [heb_len_ok _ ?b] =>
    replace b with a by lia end end.
  exact H.
Qed.

Lemma heb_step y : heb_oddb y = false -> heb_len_ok (heb_leapb y) (heb_ny (y + 1) - heb_ny y) = true.
Proof. intros H. pose proof (heb_step_gen y) as G. rewrite H in G. exact G. Qed.

Lemma heb_step_odd y : heb_oddb y = true -> heb_leapb y = false /\ heb_ny (y + 1) - heb_ny y = 352.
Proof.
  intros H. pose proof (heb_step_gen y) as G. rewrite H in G. split; [|lia].
  unfold heb_oddb, heb_odd in H. destruct (heb_leapb y); [|reflexivity].
  rewrite andb_false_r in H. discriminate.
Qed.

Lemma heb_step_bound y : 352 <= heb_ny (y + 1) - heb_ny y <= 385.
Proof.
  pose proof (heb_step_gen y) as G. unfold heb_len_ok in G.
  destruct (heb_oddb y); [lia|]. destruct (heb_leapb y); lia.
Qed.

Definition heb_months (y : Z) : list Z :=
  let len := heb_ny (y + 1) - heb_ny y in
  [30; (if (len =? 355) || (len =? 385) then 30 else 29);
   (if (len =? 353) || (len =? 383) then 29 else 30);
   29; 30; (if heb_leapb y then 30 else 29); (if heb_leapb y then 29 else 0);
   30; 29; 30; 29; 30; 29].

Lemma heb_ny_bound y : - 366 * Z.abs y - 400000 <= heb_ny y <= 366 * Z.abs y + 400000.
Proof.
  unfold heb_ny. pose proof (heb_mday_bound y).
  pose proof (heb_off_bound (heb_mday y mod 7) (heb_mhal y) (heb_leapb y) (heb_leapb (y - 1))).
  lia.
Qed.

Lemma hebrew_ok L y :
  long_ok L -> year_ok L y -> get_hebrew_year_data L y = Ret (heb_ny y, heb_months y).
Proof.
  unfold long_ok, year_ok, get_hebrew_year_data. intros HL Hy.
  rewrite hebrew_days_i_ok by (unfold long_ok; lia). cbn [obind].
  rewrite hebrew_days_i_ok by (unfold long_ok; lia). cbn [obind].
  rewrite Z.add_0_r.
  pose proof (heb_step_bound y) as Hd. pose proof (heb_ny_bound y) as Hb.
  rewrite ev_val by (cbn [safe val]; unfold fits; repeat split; lia). cbn [val obind].
  rewrite wrap32_id by lia.
  rewrite heb_leap_ok by (unfold long_ok; lia). cbn [obind]. reflexivity.
Qed.

Lemma heb_months_sum y :
  heb_ny y + fold_right Z.add 0 (heb_months y)
  = heb_ny (y + 1) + (if heb_oddb y then 2 else 0).
Proof.
  pose proof (heb_step_gen y) as Hs. unfold heb_len_ok in Hs.
  pose proof (heb_step_odd y) as Ho.
  unfold heb_months. cbv zeta. cbn [fold_right].
  set (a := heb_ny y) in *. set (b := heb_ny (y + 1)) in *. clearbody a b.
  destruct (heb_oddb y).
  - destruct (Ho eq_refl) as [-> E]. rewrite E. cbn. lia.
  - destruct (heb_leapb y);
    repeat match goal with |- context [if ?c then _ else _] => destruct c eqn:? end; lia.
Qed.
