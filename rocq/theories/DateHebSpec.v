(** The Hebrew calendar of the code against the traditional rules. *)
From Coq Require Import Lia ZifyBool.
From Verif Require Import CBase CLemmas ChineseData DateModel DatePure
  DatePureIslRev DatePurePersian DatePureHebrew DateRound DateChart DateSpec DateFacts DateCount.

Lemma hebrew_leap_ok y : hebrew_leap y = heb_leapb y.
Proof.
  unfold hebrew_leap, heb_leapb.
  pose proof (Z.mod_pos_bound y 19 ltac:(lia)) as B. pose proof (Z.div_mod y 19 ltac:(lia)) as E.
  set (r := y mod 19) in *. set (q := y / 19) in *. clearbody r q.
  assert (Em : (7 * y + 1) mod 19 = (7 * r + 1) mod 19).
  { rewrite E. replace (7 * (19 * q + r) + 1) with (7 * r + 1 + (7 * q) * 19) by ring.
    apply Z.mod_add. lia. }
  rewrite Em.
  assert (S : zall (fun x => Bool.eqb (existsb (Z.eqb x) [0; 3; 6; 8; 11; 14; 17])
     ((7 * x + 1) mod 19 <? 7)) 19 0 = true) by (vm_compute; reflexivity).
  apply Bool.eqb_prop. apply (zall_spec _ _ _ S r). cbn. lia.
Qed.

Lemma month_count_ok m y : hebrew_month_count m -> m y = heb_lunations y.
Proof.
  intros [H1 Hs].
  assert (Hst : forall y, m (y + 1) - heb_lunations (y + 1) = m y - heb_lunations y).
  { intros z. rewrite Hs, heb_lunations_step. unfold hebrew_months_in. rewrite hebrew_leap_ok.
    destruct (heb_leapb z); lia. }
  assert (A : forall (n : nat) a, m (a + Z.of_nat n) - heb_lunations (a + Z.of_nat n) = m a - heb_lunations a).
  { induction n as [|n IH]; intros a; [rewrite Z.add_0_r; reflexivity|].
    replace (a + Z.of_nat (S n)) with (a + Z.of_nat n + 1) by lia. rewrite Hst. apply IH. }
  assert (H0 : heb_lunations 1 = 0) by reflexivity.
  destruct (Z_le_gt_dec 1 y).
  - pose proof (A (Z.to_nat (y - 1)) 1) as E. replace (1 + Z.of_nat (Z.to_nat (y - 1))) with y in E by lia. lia.
  - pose proof (A (Z.to_nat (1 - y)) y) as E. replace (y + Z.of_nat (Z.to_nat (1 - y))) with 1 in E by lia. lia.
Qed.

(** The month count exists. *)
Lemma month_count_exists : hebrew_month_count heb_lunations.
Proof.
  split; [reflexivity|]. intros y. rewrite heb_lunations_step. unfold hebrew_months_in.
  rewrite hebrew_leap_ok. destruct (heb_leapb y); lia.
Qed.

Lemma molad_parts m y : hebrew_month_count m -> heb_parts y = molad (m y) + 25920.
Proof.
  intros H. rewrite (month_count_ok m y H). unfold heb_parts, molad, parts_per_month, parts_per_day. lia.
Qed.

Lemma heb_molad m y : hebrew_month_count m ->
  heb_mday y = molad (m y) / parts_per_day + 1 /\ heb_mhal y = molad (m y) mod parts_per_day.
Proof.
  intros H. pose proof (molad_parts m y H) as E. unfold heb_mday, heb_mhal. rewrite E.
  change parts_per_day with 25920. set (x := molad (m y)). clearbody x. split.
  - replace (x + 25920) with (x + 1 * 25920) by ring. rewrite Z.div_add by lia. reflexivity.
  - replace (x + 25920) with (x + 1 * 25920) by ring. rewrite Z.mod_add by lia. reflexivity.
Qed.

(** Postponements: code against tradition, when the molad is not at 18 h exactly. *)
Lemma off_spec D t ly lp : 0 <= t < 25920 -> t <> 19440 ->
  hebrew_new_year_day (25920 * D + t) ly lp = D + heb_off ((D + 1) mod 7) t ly lp.
Proof.
  intros Ht Hne. unfold hebrew_new_year_day. change parts_per_day with 25920.
  assert ((25920 * D + t) / 25920 = D) as -> by (apply div_uniq with (r := t); lia).
  assert ((25920 * D + t) mod 25920 = t) as -> by (apply mod_uniq with (q := D); lia).
  change (hms 9 204) with 9924. change (hms 15 589) with 16789. change (hms 18 0) with 19440.
  cbv zeta. unfold heb_off. cbv zeta.
  assert (Hr : D mod 7 = 0 /\ (D + 1) mod 7 = 1 \/ D mod 7 = 1 /\ (D + 1) mod 7 = 2 \/
    D mod 7 = 2 /\ (D + 1) mod 7 = 3 \/ D mod 7 = 3 /\ (D + 1) mod 7 = 4 \/
    D mod 7 = 4 /\ (D + 1) mod 7 = 5 \/ D mod 7 = 5 /\ (D + 1) mod 7 = 6 \/
    D mod 7 = 6 /\ (D + 1) mod 7 = 0) by lia.
  repeat (destruct Hr as [[E0 E1]|Hr]); try destruct Hr as [E0 E1]; rewrite ?E0, ?E1;
  destruct (Z.leb_spec 9924 t); destruct (Z.leb_spec 16789 t); destruct (Z.leb_spec 19440 t);
    destruct (Z.ltb_spec 19440 t); try lia; destruct ly, lp;
    cbn [andb orb negb Z.eqb Pos.eqb]; rewrite ?E0, ?E1;
    cbn [andb orb negb Z.eqb Pos.eqb];
    repeat match goal with |- context [(?a + ?b) mod 7] =>
      let v := eval vm_compute in ((a + b) mod 7) in change ((a + b) mod 7) with v end;
    cbn [andb orb negb Z.eqb Pos.eqb]; lia.
Qed.

Lemma heb_ny_spec m y : hebrew_month_count m -> molad (m y) mod parts_per_day <> hms 18 0 ->
  heb_ny y = 347997 + hebrew_new_year_day (molad (m y)) (hebrew_leap y) (hebrew_leap (y - 1)).
Proof.
  intros H Hne. destruct (heb_molad m y H) as [Ed Eh]. unfold heb_ny. rewrite Ed, Eh.
  rewrite !hebrew_leap_ok.
  pose proof (Z.div_mod (molad (m y)) parts_per_day ltac:(discriminate)) as E.
  pose proof (Z.mod_pos_bound (molad (m y)) parts_per_day ltac:(reflexivity)) as B.
  change (hms 18 0) with 19440 in Hne. change parts_per_day with 25920 in *.
  rewrite E at 4. rewrite off_spec by lia. lia.
Qed.

Lemma heb_edge m y : hebrew_month_count m -> heb_oddb y = true <-> hebrew_edge_year m y.
Proof.
  intros H. destruct (heb_molad m y H) as [Ed Eh].
  unfold heb_oddb, heb_odd, hebrew_edge_year. rewrite hebrew_leap_ok, Ed, Eh.
  change (2 * parts_per_day + hms 9 204) with 61764. change parts_per_day with 25920.
  set (x := molad (m y)). clearbody x.
  assert (Hx : (x mod (7 * 25920) = 61764) <-> ((x / 25920 + 1) mod 7 = 3 /\ x mod 25920 = 9924)).
  { change (7 * 25920) with 181440. split; intros; lia. }
  rewrite Hx. destruct (heb_leapb y); cbn [negb]; lia.
Qed.

(** Weekday of the new year: JD mod 7 = 0 is Monday. *)
Lemma heb_weekday y : heb_ny y mod 7 <> 6 /\ heb_ny y mod 7 <> 2 /\ heb_ny y mod 7 <> 4.
Proof.
  unfold heb_ny. set (D := heb_mday y). clearbody D.
  generalize (heb_leapb y) (heb_leapb (y - 1)). intros ly lp.
  assert (Ht : 0 <= heb_mhal y < 25920) by (unfold heb_mhal; lia).
  set (t := heb_mhal y) in *. clearbody t.
  unfold heb_off. cbv zeta.
  pose proof (Z.mod_pos_bound D 7 ltac:(lia)) as B. pose proof (Z.div_mod D 7 ltac:(lia)) as E.
  set (r := D mod 7) in *. set (q := D / 7) in *. clearbody r q. subst D.
  assert (M : forall k, (347996 + (7 * q + r) + k) mod 7 = (347996 + r + k) mod 7).
  { intros k. replace (347996 + (7 * q + r) + k) with (347996 + r + k + q * 7) by ring. apply Z.mod_add. lia. }
  rewrite M.
  assert (Hr : r = 0 \/ r = 1 \/ r = 2 \/ r = 3 \/ r = 4 \/ r = 5 \/ r = 6) by lia.
  destruct (Z.leb_spec 9924 t); destruct (Z.leb_spec 16789 t);
    destruct (Z.ltb_spec 19440 t); try lia; destruct ly, lp;
    repeat (destruct Hr as [Hr|Hr]); subst r; cbn; repeat split; discriminate.
Qed.
