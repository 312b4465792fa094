(** Further facts used by the property theorems about dates. *)
From Coq Require Import Lia ZifyBool.
From Verif Require Import CBase CLemmas ChineseData DateModel DatePure
  DatePureIslRev DatePurePersian DatePureHebrew DateRound DateChart DateSpec DateFacts
  DateCount DateJG DateHebSpec.

(* ---------- more fuel does not change a result ---------- *)
Lemma year_search_stable L c jd : forall f f' ic y, (f <= f')%nat ->
  year_search L f ic jd y c <> Fuel -> year_search L f' ic jd y c = year_search L f ic jd y c.
Proof.
  induction f as [|f IH]; intros f' ic y Hf Hn; [cbn in Hn; contradiction|].
  destruct f' as [|f']; [lia|]. cbn [year_search] in *.
  destruct (get_calendar_data L ic y c) as [[data ic']| | |]; try reflexivity.
  cbn [obind] in *. destruct data as [e|d0 d1 md]; [reflexivity|].
  match goal with |- context [obind ?a _] => destruct a as [y1| | |] end; try reflexivity.
  cbn [obind] in *.
  match goal with |- context [obind ?a _] => destruct a as [y2| | |] end; try reflexivity.
  cbn [obind] in *.
  destruct ((jd <? d0) || (d1 <=? jd)); [|reflexivity]. apply IH; [lia|exact Hn].
Qed.

Lemma day_to_dmy_stable L c jd f f' ic m0 : (f <= f')%nat ->
  day_to_dmy_st L f ic m0 jd c <> Fuel ->
  day_to_dmy_st L f' ic m0 jd c = day_to_dmy_st L f ic m0 jd c.
Proof.
  intros Hf Hn. unfold day_to_dmy_st in *. cbv zeta in *.
  match goal with |- context [approx_year L jd ?k] => set (c' := k) in * end.
  destruct (approx_year L jd c') as [y0| | |]; try reflexivity. cbn [obind] in *.
  destruct (year_search L f ic jd y0 c') eqn:E; cbn [obind] in *; try contradiction;
    (rewrite (year_search_stable L c' jd f f' ic y0 Hf) by (rewrite E; discriminate));
    rewrite E; reflexivity.
Qed.

(** One run settles what the result is. *)
Lemma result_of_run L c jd f ic m0 d m y ic' d' m' y' :
  day_to_dmy_st L f ic m0 jd c = Ret (d, m, y, ic') ->
  dmy_result L jd c d' m' y' -> d = d' /\ m = m' /\ y = y'.
Proof.
  intros Hr [N HN]. destruct (HN (Nat.max N f) ic m0 ltac:(lia)) as (ic2 & E).
  rewrite (day_to_dmy_stable L c jd f (Nat.max N f)) in E by (try lia; rewrite Hr; discriminate).
  rewrite Hr in E. inversion E; subst. repeat split.
Qed.

(** A result is never undefined behaviour, whatever the fuel. *)
Lemma result_no_ub L c jd d m y : dmy_result L jd c d m y ->
  forall f ic m0, day_to_dmy_st L f ic m0 jd c <> UB.
Proof.
  intros [N HN] f ic m0 Hu. destruct (HN (Nat.max N f) ic m0 ltac:(lia)) as (ic2 & E).
  rewrite (day_to_dmy_stable L c jd f (Nat.max N f)) in E by (try lia; rewrite Hu; discriminate).
  rewrite Hu in E. discriminate.
Qed.
Lemma error_no_ub L c jd : dmy_error L jd c ->
  forall f ic m0, day_to_dmy_st L f ic m0 jd c <> UB.
Proof.
  intros [N HN] f ic m0 Hu. destruct (HN (Nat.max N f) ic m0 ltac:(lia)) as (y & ic2 & E).
  rewrite (day_to_dmy_stable L c jd f (Nat.max N f)) in E by (try lia; rewrite Hu; discriminate).
  rewrite Hu in E. discriminate.
Qed.

(* ---------- the eight lost Chinese days ---------- *)
Lemma chin_lost L jd : long_ok L ->
  In jd [746276; 801793; 826629; 868267; 882146; 1018016; 1146947; 1425627] ->
  dmy_never_returns L jd CALENDAR_CHINESE.
Proof.
  intros HL Hin fuel ic m0.
  assert (K : known_cal 7) by (right; right; reflexivity).
  assert (Hg : exists g, chin_gap g = true /\ -363 <= g <= 9635 /\ jd = chin_ny g + msum (chin_months g) /\
    (apx 7 jd = g \/ apx 7 jd = g + 1)).
  { rewrite <- chin_gap_days in Hin. apply in_map_iff in Hin. destruct Hin as (g & Eg & Hin).
    exists g. split; [unfold chin_gap; apply existsb_exists; exists g; split; [exact Hin|apply Z.eqb_refl]|].
    split; [cbn [In] in Hin; lia|]. split; [symmetry; exact Eg|]. subst jd.
    cbn [In] in Hin. 
    repeat destruct Hin as [<-|Hin]; try contradiction; vm_compute; auto. }
  destruct Hg as (g & Hgap & Hr & -> & Ha).
  destruct (chin_gap_search L g HL Hr Hgap fuel ic) as [A B]. cbv zeta in A, B.
  destruct (chin_shape g ltac:(lia)) as (_ & Sf & _ & Sb).
  unfold day_to_dmy_st. change (CALENDAR_CHINESE =? CALENDAR_JULIAN_GREGORIAN) with false. cbv iota zeta.
  rewrite approx_year_ok; [|exact HL| |exact K].
  - cbn [obind]. change CALENDAR_CHINESE with 7 in *.
    destruct Ha as [-> | ->]; rewrite ?A, ?B; reflexivity.
  - unfold jd_ok, long_ok in *. destruct (chin_shape g ltac:(lia)) as (S1 & _).
    pose proof (msum_bound _ Sf). rewrite S1 in *. lia.
Qed.

(* ---------- successor of a valid date ---------- *)
Lemma first_month_spec len y : forall n m m', first_month len y m n = Some m' ->
  m <= m' < m + Z.of_nat n /\ 0 < len m' y.
Proof.
  induction n as [|n IH]; intros m m' H; cbn [first_month] in H; [discriminate|].
  destruct (Z.ltb_spec 0 (len m y)).
  - inversion H; subst. split; lia.
  - apply IH in H. lia.
Qed.
Lemma valid_next len dt : (forall y, 0 < len 1 y) -> valid len dt -> valid len (next_date len dt).
Proof.
  intros H1. destruct dt as [[d m] y]. unfold next_date. intros [Hm Hd].
  destruct (Z.ltb_spec d (len m y)); [split; lia|].
  destruct (first_month len y (m + 1) (Z.to_nat (13 - m))) as [m'|] eqn:E.
  - apply first_month_spec in E. split; lia.
  - specialize (H1 (y + 1)). split; lia.
Qed.
Lemma next_year len d m y d' m' y' : next_date len (d, m, y) = (d', m', y') -> y' = y \/ y' = y + 1.
Proof.
  unfold next_date. destruct (d <? len m y).
  - intros H; inversion H; auto.
  - destruct (first_month len y (m + 1) (Z.to_nat (13 - m))); intros H; inversion H; auto.
Qed.

Lemma heb_month_len m y : 1 <= m <= 13 -> heb_oddb y = false ->
  lenA CALENDAR_HEBREW m y = hebrew_month (hebrew_leap y) (heb_ny (y + 1) - heb_ny y) m.
Proof.
  intros Hm Ho. change (lenA CALENDAR_HEBREW m y) with (nth (Z.to_nat (m - 1)) (heb_months y) 0).
  rewrite hebrew_leap_ok. pose proof (heb_step y Ho) as Hs. unfold heb_months. cbv zeta.
  set (n := heb_ny (y + 1) - heb_ny y) in *. clearbody n. unfold heb_len_ok in Hs.
  month_cases m Hm; unfold hebrew_month; cbn [Z.eqb Pos.eqb orb].
  all: try reflexivity.
  - change (nth (Z.to_nat (2 - 1)) _ 0) with (if (n =? 355) || (n =? 385) then 30 else 29).
    destruct (heb_leapb y); destruct (Z.eqb_spec (n mod 10) 5); destruct (Z.eqb_spec n 355);
      destruct (Z.eqb_spec n 385); cbn [orb]; lia.
  - change (nth (Z.to_nat (3 - 1)) _ 0) with (if (n =? 353) || (n =? 383) then 29 else 30).
    destruct (heb_leapb y); destruct (Z.eqb_spec (n mod 10) 3); destruct (Z.eqb_spec n 353);
      destruct (Z.eqb_spec n 383); cbn [orb]; lia.
Qed.

(* ---------- the Chinese intercalary month ---------- *)
Lemma chin_month_len y m : -363 <= y <= 9636 -> 1 <= m <= 13 ->
  nth (Z.to_nat (m - 1)) (chin_months y) 0 = 29 \/ nth (Z.to_nat (m - 1)) (chin_months y) 0 = 30 \/
  (m = 13 /\ chin_ic y = 0 /\ nth (Z.to_nat (m - 1)) (chin_months y) 0 = 0).
Proof.
  intros Hy Hm. unfold chin_months, chin_ic, chin_ms.
  destruct (chin_im (chin_entry y) =? 0) eqn:E.
  - destruct (Z.eq_dec m 13) as [->|].
    + right; right. repeat split.
    + unfold chinese_months. month_cases m Hm; try congruence;
      cbn [map firstn app];
      match goal with |- context [nth (Z.to_nat ?k) ?l 0] => let n := eval vm_compute in (Z.to_nat k) in
        change (Z.to_nat k) with n end; cbn [nth];
      match goal with |- context [if ?t then _ else _] => destruct t end; auto.
  - unfold chinese_months. month_cases m Hm;
    cbn [map];
    match goal with |- context [nth (Z.to_nat ?k) ?l 0] => let n := eval vm_compute in (Z.to_nat k) in
      change (Z.to_nat k) with n end; cbn [nth];
      match goal with |- context [if ?t then _ else _] => destruct t end; auto.
Qed.

Lemma chin_ic_bound y : -363 <= y <= 9636 -> 0 <= chin_ic y <= 13.
Proof.
  intros Hy. pose proof (chin_one_ok y Hy) as Ho. unfold chin_ic, chin_one in *.
  destruct (chin_entry y) as [[a b] c]. unfold chin_im, chin_packed in *.
  assert (0 <= Z.shiftr (a + 256 * b + 65536 * c) 13) by (apply Z.shiftr_nonneg; lia).
  set (s := Z.shiftr (a + 256 * b + 65536 * c) 13) in *. clearbody s.
  destruct (Z.eqb_spec (Z.rem s 14) 0); lia.
Qed.

Lemma year_search_ic L jd c : forall f ic y0 y d0 d1 md ic',
  year_search L f ic jd y0 c = Ret (y, DataOk d0 d1 md, ic') ->
  exists ic0, get_calendar_data L ic0 y c = Ret (DataOk d0 d1 md, ic').
Proof.
  induction f as [|f IH]; intros ic y0 y d0 d1 md ic' H; cbn [year_search] in H; [discriminate|].
  destruct (get_calendar_data L ic y0 c) as [[data ic1]| | |] eqn:E; try discriminate.
  cbn [obind] in H. destruct data as [e|e0 e1 em]; [discriminate|].
  destruct (Z.ltb_spec jd e0); destruct (Z.leb_spec e1 jd); cbn [orb] in H.
  - destruct (ev L _) as [y1| | |] in H; try discriminate. cbn [obind] in H.
    destruct (ev L _) as [y2| | |] in H; try discriminate. cbn [obind] in H. eapply IH, H.
  - destruct (ev L _) as [y1| | |] in H; try discriminate. cbn [obind] in H. eapply IH, H.
  - cbn [obind] in H. destruct (ev L _) as [y1| | |] in H; try discriminate. cbn [obind] in H. eapply IH, H.
  - cbn [obind] in H. inversion H; subst. exists ic. exact E.
Qed.

Lemma chin_result_ic L jd f ic m0 d m y ic' : long_ok L ->
  -363 <= y <= 9636 -> d <> -1 ->
  day_to_dmy_st L f ic m0 jd CALENDAR_CHINESE = Ret (d, m, y, ic') -> ic' = chin_ic y.
Proof.
  intros HL Hy Hd H. unfold day_to_dmy_st in H.
  change (CALENDAR_CHINESE =? CALENDAR_JULIAN_GREGORIAN) with false in H. cbv iota zeta in H.
  destruct (approx_year L jd CALENDAR_CHINESE) as [y0| | |]; try discriminate. cbn [obind] in H.
  destruct (year_search L f ic jd y0 CALENDAR_CHINESE) as [[[y1 data] ic1]| | |] eqn:E; try discriminate.
  cbn [obind] in H. destruct data as [e|d0 d1 md]; [inversion H; congruence|].
  destruct (month_search L jd d0 0 (-1) md) as [[d2 m2]| | |]; try discriminate.
  cbn [obind] in H. inversion H; subst.
  apply year_search_ic in E. destruct E as [ic0 E]. rewrite chin_data_ok in E by assumption.
  generalize dependent (chin_ic y). intros k E. congruence.
Qed.

Lemma chin_ic_13 y : chin_ic y = 0 -> -363 <= y <= 9636 -> nth (Z.to_nat (13 - 1)) (chin_months y) 0 = 0.
Proof.
  intros H Hy. pose proof (chin_one_ok y Hy) as Ho. unfold chin_ic, chin_one, chin_months, chin_ms in *.
  destruct (chin_entry y) as [[a b] c]. destruct (Z.eqb_spec (chin_im (a, b, c)) 0) as [E|E]; [reflexivity|].
  exfalso. unfold chin_im, chin_packed in *.
  assert (0 <= Z.shiftr (a + 256 * b + 65536 * c) 13) by (apply Z.shiftr_nonneg; lia).
  set (s := Z.shiftr (a + 256 * b + 65536 * c) 13) in *. clearbody s. lia.
Qed.
