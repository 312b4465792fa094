(** Proofs about easter.cpp. *)
From Coq Require Import Lia ZifyBool.
From Verif Require Import CBase CLemmas DateModel DatePure DateRound DateSpec DateFacts DateCount
  TimeModel TimeSpec TimeProofs.

(* ---------- Easter ---------- *)
Lemma march_day y t : 93 <= t <= 153 ->
  dayA CALENDAR_GREGORIAN (t mod 31 + 1) (t / 31) y = greg_ny (y + 1) - 306 + (t - 93).
Proof.
  intros H. assert (t / 31 = 3 \/ t / 31 = 4) as [E|E] by lia; rewrite E, greg_day_late by lia.
  - change (before_next 3) with 306. lia.
  - change (before_next 4) with 275. lia.
Qed.

Lemma easter_ok L y : long_ok L -> 0 <= y <= L ->
  exists t, easter_date L y = Ret (t / 31, t mod 31 + 1) /\ 114 <= t <= 148 /\
    let e := greg_ny (y + 1) - 306 + (t - 93) in
    let p := greg_ny (y + 1) - 275 + 18 - gregorian_epact y in
    e mod 7 = 6 /\ p < e <= p + 7.
Proof.
  unfold long_ok, easter_date. intros HL Hy.
  assert (HI : IMAX = 2147483647) by reflexivity.
  do 3 ev_step.
  set (a := Z.rem y 19). set (b := y ÷ 100). set (c := Z.rem y 100).
  assert (Ha : 0 <= a <= 18 /\ a = y mod 19) by (unfold a; lia).
  assert (Hb : 0 <= b /\ 100 * b <= L /\ b = y / 100) by (unfold b; lia).
  assert (Hc : 0 <= c <= 99 /\ y = 100 * b + c) by (unfold b, c; lia).
  destruct Ha as [Ha Ea]. destruct Hb as (Hb & HbL & Eb). destruct Hc as [Hc Ey].
  clearbody a b c.
  do 2 ev_step.
  set (d := b ÷ 4). set (e := Z.rem b 4).
  assert (Hd : 0 <= d /\ 0 <= e <= 3 /\ b = 4 * d + e) by (unfold d, e; lia).
  destruct Hd as (Hd & He & Ed). clearbody d e.
  ev_step. set (f := (b + 8) ÷ 25).
  assert (Hf : 0 <= f /\ f = (b + 8) / 25) by (unfold f; lia). destruct Hf as [Hf Ef]. clearbody f.
  ev_step. set (g := (b - f + 1) ÷ 3).
  assert (Hg : 0 <= g <= b + 1 /\ g = (8 * b + 13) / 25) by (unfold g; lia). destruct Hg as [Hg Eg]. clearbody g.
  ev_step. set (h := Z.rem (19 * a + b - d - g + 15) 30).
  set (s := (14 + 11 * a - (b - d) + g) mod 30).
  assert (Hs : 0 <= s <= 29) by (unfold s; lia).
  assert (Hh : h = 29 - s) by (unfold h, s; lia).
  assert (Es : gregorian_epact y = if (s =? 0) || ((s =? 1) && (10 <? a)) then s + 1 else s).
  { unfold gregorian_epact. cbv zeta. rewrite <- Ea, <- Eb.
    replace (3 * (b + 1) / 4) with (b - d) by lia.
    replace ((5 + 8 * (b + 1)) / 25) with g by (rewrite Eg; f_equal; lia).
    fold s. reflexivity. }
  rewrite Es. clear Es. clearbody h s. clear Eg Ef Hg g Hf f.
  do 2 ev_step. set (i := c ÷ 4). set (k := Z.rem c 4).
  assert (Hi : 0 <= i <= 24 /\ 0 <= k <= 3 /\ c = 4 * i + k) by (unfold i, k; lia).
  destruct Hi as (Hi & Hk & Ec). clearbody i k.
  ev_step. set (l := Z.rem (32 + e + e + i + i - h - k) 7).
  assert (Hl : 0 <= l <= 6) by (unfold l; lia).
  assert (El : (greg_ny (y + 1) - 306 + (h + l + 114 - 93)) mod 7 = 6).
  { assert (E4 : (y + 1 + 3) / 4 = 25 * b + i + 1) by (apply div_uniq with (r := k); lia).
    assert (E1 : (y + 1 + 99) / 100 = b + 1) by (apply div_uniq with (r := c); lia).
    assert (E400 : (y + 1 + 399) / 400 = d + 1) by (apply div_uniq with (r := 100 * e + c); lia).
    unfold greg_ny. rewrite E4, E1, E400. unfold l. subst y c b. lia. }
  clearbody l.
  ev_step. set (m := (a + 11 * h + 22 * l) ÷ 451).
  assert (Hm : m = if (l =? 6) && ((s =? 0) || ((s =? 1) && (10 <? a))) then 1 else 0).
  { destruct (Z.eqb_spec l 6), (Z.eqb_spec s 0), (Z.eqb_spec s 1), (Z.ltb_spec 10 a); cbn [andb orb] in *; unfold m; lia. }
  clearbody m. clear Ec Ey Ed Eb Ea.
  assert (Hm1 : 0 <= m <= 1) by (clear - Hm; destruct (_ && _); lia).
  ev_step. set (t := h + l - 7 * m + 114).
  assert (Ht : 114 <= t <= 148).
  { unfold t. destruct (Z.eqb_spec l 6), (Z.eqb_spec s 0), (Z.eqb_spec s 1), (Z.ltb_spec 10 a); cbn [andb orb] in *; lia. }
  assert (Et : (greg_ny (y + 1) - 306 + (t - 93)) mod 7 = 6).
  { replace (greg_ny (y + 1) - 306 + (t - 93)) with (greg_ny (y + 1) - 306 + (h + l + 114 - 93) + (- m) * 7)
      by (unfold t; lia). rewrite Z.mod_add by lia. exact El. }
  do 2 ev_step. rewrite !wrap32_id by lia.
  rewrite ev_val; [|cbn [safe val]; unfold fits; rewrite HI; repeat split; lia]. cbn [val obind].
  exists t. split; [f_equal; f_equal; lia|]. split; [exact Ht|]. cbv zeta.
  split; [exact Et|]. revert Hm. generalize (greg_ny (y + 1)) as N. intros N Hm. unfold t.
  destruct (Z.eqb_spec l 6), (Z.eqb_spec s 0), (Z.eqb_spec s 1), (Z.ltb_spec 10 a); cbn [andb orb] in *; lia.
Qed.

Lemma jul_day_late m d y : 3 <= m <= 12 ->
  dayA CALENDAR_JULIAN d m y = jul_ny (y + 1) - before_next m + d - 1.
Proof.
  intros H.
  change (dayA CALENDAR_JULIAN d m y) with
    (jul_ny y + msum (firstn (Z.to_nat (m - 1)) (jg_months true y)) + d - 1).
  pose proof (jul_step y) as S. assert (1 <= m <= 12) as H1 by lia. revert H. pattern m.
  apply month_12; try assumption; intros H; try lia;
    unfold before_next, jg_months, jg_leapb, jg_ny; revert S;
    cbv beta iota; generalize (jul_ny (y + 1)), (jul_ny y); intros a b;
    destruct (jul_leapb y);
    match goal with |- context [firstn ?n ?l] => let x := eval cbv in (msum (firstn n l)) in
      change (msum (firstn n l)) with x end;
    match goal with |- context [nth ?n ?l ?d] => let x := eval cbv in (nth n l d) in
      change (nth n l d) with x end; lia.
Qed.

Lemma march_day_julian y t : 93 <= t <= 153 ->
  dayA CALENDAR_JULIAN (t mod 31 + 1) (t / 31) y = jul_ny (y + 1) - 306 + (t - 93).
Proof.
  intros H. assert (t / 31 = 3 \/ t / 31 = 4) as [E|E] by lia; rewrite E, jul_day_late by lia.
  - change (before_next 3) with 306. lia.
  - change (before_next 4) with 275. lia.
Qed.

Lemma easter_julian_ok L y : long_ok L -> 0 <= y <= L ->
  exists t, easter_date_julian L y = Ret (t / 31, t mod 31 + 1) /\ 114 <= t <= 148 /\
    let e := jul_ny (y + 1) - 306 + (t - 93) in
    let p := jul_ny (y + 1) - 275 + 18 - julian_epact y in
    e mod 7 = 6 /\ p < e <= p + 7.
Proof.
  unfold long_ok, easter_date_julian. intros HL Hy.
  assert (HI : IMAX = 2147483647) by reflexivity.
  do 3 ev_step.
  assert (E19 : Z.rem y 19 = y mod 19) by lia. rewrite E19.
  assert (Ha : 0 <= y mod 19 <= 18) by lia.
  unfold julian_epact. clear E19. set (c := y mod 19) in *. clearbody c.
  set (a := Z.rem y 4). set (b := Z.rem y 7).
  assert (H4 : 0 <= a <= 3 /\ a = y mod 4) by (unfold a; lia).
  assert (H7 : 0 <= b <= 6 /\ b = y mod 7) by (unfold b; lia).
  destruct H4 as [H4 E4]. destruct H7 as [H7 E7]. clearbody a b.
  ev_step. set (d := Z.rem (19 * c + 15) 30).
  set (s := (14 + 11 * c) mod 30).
  assert (Hd : d = 29 - s /\ 1 <= s <= 29) by (unfold d, s; lia). destruct Hd as [Hd Hs].
  clearbody d s.
  ev_step. set (e := Z.rem (2 * a + 4 * b + 34 - d) 7).
  assert (He : 0 <= e <= 6) by (unfold e; lia).
  assert (Ee : (jul_ny (y + 1) - 306 + (d + e + 114 - 93)) mod 7 = 6) by (unfold jul_ny, e; lia).
  clearbody e.
  ev_step. set (t := d + e + 114).
  assert (Ht : 114 <= t <= 148) by (unfold t; lia).
  do 2 ev_step. rewrite !wrap32_id by lia.
  rewrite ev_val; [|cbn [safe val]; unfold fits; rewrite HI; repeat split; lia]. cbn [val obind].
  exists t. split; [f_equal; f_equal; lia|]. split; [exact Ht|]. cbv zeta. split; [exact Ee|].
  unfold t. lia.
Qed.
