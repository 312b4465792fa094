(** The conversions of [DateModel] for the calendars defined by rules, via the
    closed formulas of [DatePure]*. *)
From Coq Require Import Lia ZifyBool.
From Verif Require Import CBase CLemmas ChineseData DateModel DatePure
  DatePureIslRev DatePurePersian DatePureHebrew.

(** Sum of a list of month lengths. *)
Definition msum (l : list Z) : Z := fold_right Z.add 0 l.

Definition ny_of (c y : Z) : Z :=
  if c =? 0 then greg_ny y else if c =? 1 then jul_ny y else if c =? 2 then heb_ny y
  else if c =? 3 then isl_ny y else if c =? 4 then rev_ny y else mp_ny y.
Definition months_of (c y : Z) : list Z :=
  if c =? 0 then jg_months false y else if c =? 1 then jg_months true y
  else if c =? 2 then heb_months y else if c =? 3 then isl_months y
  else if c =? 4 then rev_months y else mp_months y.
Definition ye_of (c y : Z) : Z := ny_of c y + msum (months_of c y).

(** Years after which the next one starts too early: Hebrew years of 352 days. *)
Definition odd_year (c y : Z) : bool := (c =? CALENDAR_HEBREW) && heb_oddb y.

Ltac rule_cases H :=
  destruct H as [->|[->|[->|[->|[->| ->]]]]];
  unfold CALENDAR_GREGORIAN, CALENDAR_JULIAN, CALENDAR_HEBREW, CALENDAR_ISLAMIC,
    CALENDAR_REVOLUTIONARY, CALENDAR_MODERN_PERSIAN in *.

Lemma greg_step y : greg_ny (y + 1) - greg_ny y = if greg_leapb y then 366 else 365.
Proof.
  unfold greg_ny, greg_leapb.
  destruct (Z.eqb_spec (y mod 4) 0); destruct (Z.eqb_spec (y mod 100) 0);
    destruct (Z.eqb_spec (y mod 400) 0); cbn [andb orb negb]; lia.
Qed.
Lemma jul_step y : jul_ny (y + 1) - jul_ny y = if jul_leapb y then 366 else 365.
Proof. unfold jul_ny, jul_leapb. destruct (Z.eqb_spec (y mod 4) 0); lia. Qed.
Lemma isl_step y : isl_ny (y + 1) - isl_ny y = if isl_leapb y then 355 else 354.
Proof. unfold isl_ny, isl_leapb. destruct (Z.ltb_spec ((11 * y + 14) mod 30) 11); lia. Qed.

Lemma ye_of_ny c y : rule_cal c ->
  ye_of c y = ny_of c (y + 1) + (if odd_year c y then 2 else 0).
Proof.
  intros H. unfold ye_of, odd_year. rule_cases H; unfold ny_of, months_of, msum; cbn [Z.eqb Pos.eqb andb].
  - pose proof (greg_step y). unfold jg_months. cbn [jg_leapb fold_right].
    destruct (greg_leapb y); lia.
  - pose proof (jul_step y). unfold jg_months. cbn [jg_leapb fold_right].
    destruct (jul_leapb y); lia.
  - apply heb_months_sum.
  - pose proof (isl_step y). unfold isl_months. cbn [fold_right]. destruct (isl_leapb y); lia.
  - unfold rev_months. cbn [fold_right]. lia.
  - unfold mp_months. cbn [fold_right]. lia.
Qed.

Lemma ny_step c y : rule_cal c -> 352 <= ny_of c (y + 1) - ny_of c y <= 385.
Proof.
  intros H. rule_cases H; unfold ny_of; cbn [Z.eqb Pos.eqb].
  - pose proof (greg_step y). destruct (greg_leapb y); lia.
  - pose proof (jul_step y). destruct (jul_leapb y); lia.
  - apply heb_step_bound.
  - pose proof (isl_step y). destruct (isl_leapb y); lia.
  - pose proof (rev_step y). lia.
  - pose proof (mp_step y). lia.
Qed.

Lemma months_shape c y : rule_cal c ->
  length (months_of c y) = 13%nat /\ Forall (fun m => 0 <= m <= 31) (months_of c y).
Proof.
  intros H.
  rule_cases H; unfold months_of; cbn [Z.eqb Pos.eqb]; (split; [reflexivity|]);
    unfold jg_months, heb_months, isl_months, rev_months, mp_months; cbv zeta;
    repeat (apply Forall_cons; [|]); try apply Forall_nil; try lia;
    repeat match goal with |- context [if ?c then _ else _] => destruct c end; try lia.
  - pose proof (rev_step y). lia.
  - pose proof (mp_step y). lia.
Qed.

Lemma months_shape127 c y : rule_cal c ->
  length (months_of c y) = 13%nat /\ Forall (fun m => 0 <= m <= 127) (months_of c y).
Proof.
  intros H. destruct (months_shape c y H) as [H1 H2]. split; [exact H1|].
  eapply Forall_impl; [|exact H2]. cbv beta. intros; lia.
Qed.

Lemma ny_0 c : rule_cal c -> 0 <= ny_of c 0 <= 2400000.
Proof. intros H. rule_cases H; vm_compute; split; discriminate. Qed.

Lemma ny_lin c y : rule_cal c ->
  (0 <= y -> 352 * y <= ny_of c y - ny_of c 0 <= 385 * y) /\
  (y <= 0 -> 385 * y <= ny_of c y - ny_of c 0 <= 352 * y).
Proof.
  intros H.
  assert (Hp : forall n : nat, 352 * Z.of_nat n <= ny_of c (Z.of_nat n) - ny_of c 0 <= 385 * Z.of_nat n).
  { induction n as [|n IH]; [change (Z.of_nat 0) with 0; lia|].
    pose proof (ny_step c (Z.of_nat n) H). rewrite Nat2Z.inj_succ. unfold Z.succ. lia. }
  assert (Hn : forall n : nat, 352 * Z.of_nat n <= ny_of c 0 - ny_of c (- Z.of_nat n) <= 385 * Z.of_nat n).
  { induction n as [|n IH]; [change (- Z.of_nat 0) with 0; change (Z.of_nat 0) with 0; lia|].
    pose proof (ny_step c (- Z.of_nat (S n)) H) as Hs.
    replace (- Z.of_nat (S n) + 1) with (- Z.of_nat n) in Hs by lia. lia. }
  split; intros Hy.
  - specialize (Hp (Z.to_nat y)). rewrite Z2Nat.id in Hp by lia. exact Hp.
  - specialize (Hn (Z.to_nat (- y))). rewrite Z2Nat.id in Hn by lia.
    replace (- - y) with y in Hn by lia. lia.
Qed.

Lemma ny_mono c a b : rule_cal c -> a < b -> ny_of c a + 352 <= ny_of c b.
Proof.
  intros H Hab.
  assert (Hp : forall n : nat, ny_of c a <= ny_of c (a + Z.of_nat n)).
  { induction n as [|n IH]; [rewrite Z.add_0_r; lia|].
    pose proof (ny_step c (a + Z.of_nat n) H) as Hs.
    replace (a + Z.of_nat (S n)) with (a + Z.of_nat n + 1) by lia. lia. }
  pose proof (ny_step c (b - 1) H) as Hs. replace (b - 1 + 1) with b in Hs by lia.
  specialize (Hp (Z.to_nat (b - 1 - a))). rewrite Z2Nat.id in Hp by lia.
  replace (a + (b - 1 - a)) with (b - 1) in Hp by lia. lia.
Qed.

(** The year containing a given day exists. *)
Lemma year_exists c jd : rule_cal c -> exists y, ny_of c y <= jd < ny_of c (y + 1).
Proof.
  intros H.
  assert (Hs : forall (n : nat) a, ny_of c a <= jd -> jd < ny_of c (a + Z.of_nat n) ->
               exists y, ny_of c y <= jd < ny_of c (y + 1)).
  { induction n as [|n IH]; intros a Ha Hb; [rewrite Z.add_0_r in Hb; lia|].
    destruct (Z_lt_le_dec jd (ny_of c (a + 1))) as [Hl|Hl]; [exists a; lia|].
    apply (IH (a + 1) Hl). replace (a + 1 + Z.of_nat n) with (a + Z.of_nat (S n)) by lia. exact Hb. }
  set (m := Z.abs jd + 3000000).
  pose proof (ny_0 c H) as H0.
  destruct (ny_lin c (- m) H) as [_ Hlo]. destruct (ny_lin c m H) as [Hhi _].
  specialize (Hlo ltac:(lia)). specialize (Hhi ltac:(lia)).
  apply (Hs (Z.to_nat (2 * m)) (- m)); [lia|]. rewrite Z2Nat.id by lia.
  replace (- m + 2 * m) with m by lia. lia.
Qed.

Lemma year_bound c jd y : rule_cal c -> ny_of c y <= jd < ny_of c (y + 1) ->
  352 * Z.abs y <= Z.abs jd + 2401000.
Proof.
  intros H Hy. pose proof (ny_0 c H) as H0.
  destruct (Z_lt_le_dec y 0) as [Hn|Hn].
  - destruct (ny_lin c (y + 1) H) as [_ Hlo]. specialize (Hlo ltac:(lia)). lia.
  - destruct (ny_lin c y H) as [Hlo _]. specialize (Hlo ltac:(lia)). lia.
Qed.

(* ---------- get_calendar_data ---------- *)
Lemma add_all_ok L l acc :
  Forall (fun m => 0 <= m <= 127) l ->
  fits L acc -> 0 <= L -> 127 <= L -> fits L (acc + 127 * Z.of_nat (length l)) ->
  add_all L acc l = Ret (acc + msum l).
Proof.
  revert acc. induction l as [|m t IH]; intros acc Hf Ha HL HL31 Hb;
    cbn [add_all msum fold_right]; [f_equal; lia|].
  inversion Hf as [|x l' Hm Ht]; subst.
  cbn [length] in Hb. rewrite Nat2Z.inj_succ in Hb. unfold fits in *.
  ev_step.
  rewrite IH; unfold fits; try assumption; try lia.
  unfold msum. f_equal. lia.
Qed.

Lemma msum_bound l : Forall (fun m => 0 <= m <= 127) l ->
  0 <= msum l <= 127 * Z.of_nat (length l).
Proof.
  induction 1 as [|m t Hm Ht IH]; cbn [msum fold_right length]; [lia|].
  unfold msum in IH. lia.
Qed.

Lemma ny_abs c y : rule_cal c -> Z.abs (ny_of c y) <= 385 * Z.abs y + 2400000.
Proof.
  intros H. pose proof (ny_0 c H). destruct (ny_lin c y H) as [Hp Hn].
  destruct (Z_lt_le_dec y 0); [specialize (Hn ltac:(lia))|specialize (Hp ltac:(lia))]; lia.
Qed.

Lemma calendar_data_ok L ic c y :
  long_ok L -> year_ok L y -> rule_cal c ->
  get_calendar_data L ic y c = Ret (DataOk (ny_of c y) (ye_of c y) (months_of c y), ic).
Proof.
  intros HL Hy Hc. unfold get_calendar_data.
  assert (Hsw : calendar_switch L ic y c = Ret (CalOk (ny_of c y, months_of c y), ic)).
  { unfold calendar_switch. rule_cases Hc; cbn [Z.eqb Pos.eqb orb];
    unfold ny_of, months_of; cbn [Z.eqb Pos.eqb].
    - rewrite jul_greg_ok by assumption. reflexivity.
    - rewrite jul_greg_ok by assumption. reflexivity.
    - rewrite hebrew_ok by assumption. reflexivity.
    - rewrite islamic_ok by assumption. reflexivity.
    - rewrite revolutionary_ok by assumption. reflexivity.
    - rewrite modern_persian_ok by assumption. reflexivity. }
  rewrite Hsw. cbn [obind].
  pose proof (months_shape127 c y Hc) as [Hlen Hf]. pose proof (ny_abs c y Hc) as Hb.
  unfold long_ok, year_ok in *.
  rewrite add_all_ok; [reflexivity|exact Hf| | | |]; unfold fits; rewrite ?Hlen; lia.
Qed.

(* ---------- approx_year ---------- *)
Definition apx_e (c : Z) : Z := match approx_params c with Some (e, _, _) => e | None => 0 end.
Definition apx_n1 (c : Z) : Z := match approx_params c with Some (_, n1, _) => n1 | None => 1 end.
Definition apx_n2 (c : Z) : Z := match approx_params c with Some (_, _, n2) => n2 | None => 352 end.
(** First guess of the year, in closed form. *)
Definition apx (c jd : Z) : Z := ((jd - apx_e c) * apx_n1 c) / apx_n2 c.

Definition known_cal (c : Z) : Prop :=
  rule_cal c \/ c = CALENDAR_PERSIAN \/ c = CALENDAR_CHINESE.

Lemma apx_params c : known_cal c ->
  approx_params c = Some (apx_e c, apx_n1 c, apx_n2 c) /\
  0 < apx_n1 c /\ 352 * apx_n1 c <= apx_n2 c /\ apx_n2 c <= 784175 /\
  apx_n1 c <= 2147 /\ 0 <= apx_e c <= 2400000.
Proof.
  intros [H|[->| ->]]; [rule_cases H| |]; (split; [reflexivity|]);
    vm_compute; repeat split; discriminate.
Qed.

Lemma apx_mono c a b : known_cal c -> a <= b -> apx c a <= apx c b.
Proof.
  intros H Hab. pose proof (apx_params c H) as (_ & H1 & H2 & _). unfold apx.
  apply Z.div_le_mono; [lia|]. apply Z.mul_le_mono_nonneg_r; lia.
Qed.

(* lia without division equations: the divisors below are not literals *)
Ltac Zify.zify_post_hook ::= idtac.

Lemma apx_bound c jd : known_cal c -> 352 * Z.abs (apx c jd) <= Z.abs jd + 4000000.
Proof.
  intros H. pose proof (apx_params c H) as (_ & H1 & H2 & H3 & H4 & H5). unfold apx.
  set (e := apx_e c) in *. set (n1 := apx_n1 c) in *. set (n2 := apx_n2 c) in *.
  clearbody e n1 n2.
  set (x := jd - e). assert (Hx : Z.abs x <= Z.abs jd + 2400000) by lia. clearbody x.
  pose proof (Z.mul_div_le (x * n1) n2 ltac:(lia)) as Hlo.
  pose proof (Z.mul_succ_div_gt (x * n1) n2 ltac:(lia)) as Hhi.
  set (k := x * n1 / n2) in *. clearbody k.
  destruct (Z_lt_le_dec k 0) as [Hk|Hk].
  - (* 352 n1 |k| <= n2 |k| <= n2 + |x| n1 *)
    assert (352 * (- k - 1) <= Z.abs x).
    { apply Z.mul_le_mono_pos_r with (p := n1); [lia|].
      apply Z.le_trans with (n2 * (- k - 1)).
      - replace (352 * (- k - 1) * n1) with (352 * n1 * (- k - 1)) by ring.
        apply Z.mul_le_mono_nonneg_r; lia.
      - rewrite <- (Z.abs_eq n1) at 1 by lia. rewrite <- Z.abs_mul. clear - Hhi. lia. }
    clear - Hx H Hk H0. lia.
  - assert (352 * k <= Z.abs x).
    { apply Z.mul_le_mono_pos_r with (p := n1); [lia|].
      apply Z.le_trans with (n2 * k).
      - replace (352 * k * n1) with (352 * n1 * k) by ring.
        apply Z.mul_le_mono_nonneg_r; lia.
      - rewrite <- (Z.abs_eq n1) at 1 by lia. rewrite <- Z.abs_mul. clear - Hlo. lia. }
    clear - Hx Hk H0. lia.
Qed.

Lemma approx_year_ok L c jd :
  long_ok L -> jd_ok L jd -> known_cal c -> approx_year L jd c = Ret (apx c jd).
Proof.
  unfold long_ok, jd_ok. intros HL Hj Hc. pose proof (apx_bound c jd Hc) as Hab.
  unfold approx_year. destruct (apx_params c Hc) as (-> & Hn1 & Hn12 & Hn2 & Hn1b & He).
  unfold apx in *.
  set (e := apx_e c) in *. set (n1 := apx_n1 c) in *. set (n2 := apx_n2 c) in *.
  clearbody e n1 n2.
  ev_step.
  rewrite c_mod_ok by (unfold fits; lia). cbn [obind].
  pose proof (Z.div_mod (jd - e) n2 ltac:(lia)) as E.
  pose proof (Z.mod_pos_bound (jd - e) n2 ltac:(lia)) as B.
  set (q := (jd - e) / n2) in *. set (r := (jd - e) mod n2) in *. clearbody q r.
  assert (Eq : (jd - e - r) ÷ n2 = q).
  { replace (jd - e - r) with (q * n2) by lia. apply Z.quot_mul. lia. }
  assert (Hrn : 0 <= r * n1 <= 2000000000).
  { clear Eq. split; [apply Z.mul_nonneg_nonneg; lia|].
    apply Z.le_trans with (784175 * 2147); [apply Z.mul_le_mono_nonneg; lia|lia]. }
  assert (Ek : r * n1 ÷ n2 = r * n1 / n2) by (apply Z.quot_div_nonneg; lia).
  assert (Ed : (jd - e) * n1 / n2 = n1 * q + r * n1 / n2).
  { rewrite E. replace ((n2 * q + r) * n1) with (n1 * q * n2 + r * n1) by ring.
    apply Z.div_add_l. lia. }
  rewrite Ed in Hab.
  assert (Hk : 0 <= r * n1 / n2 <= 2147).
  { split; [apply Z.div_pos; lia|]. apply Z.le_trans with n1; [|lia].
    apply Z.div_le_upper_bound; [lia|]. apply Z.mul_le_mono_nonneg_r; lia. }
  rewrite ev_val.
  - cbn [val obind]. rewrite Eq. rewrite ev_val.
    + cbn [val]. rewrite Ek, Ed. reflexivity.
    + cbn [safe val]. unfold fits. rewrite Ek. clear Eq Ek Ed.
      remember (r * n1 / n2) as k eqn:Ekk. clear Ekk.
      remember (n1 * q) as a eqn:Ea. clear Ea.
      remember (r * n1) as rn eqn:Ern. clear Ern. repeat split; lia.
  - cbn [safe val]. unfold fits. rewrite Eq. clear Eq Ek Ed.
    remember (r * n1 / n2) as k eqn:Ekk. clear Ekk.
    assert (Hqq : Z.abs q <= Z.abs (n2 * q)) by (rewrite Z.abs_mul; nia).
    remember (n2 * q) as b eqn:Eb. clear Eb.
    remember (n1 * q) as a eqn:Ea. clear Ea.
    remember (r * n1) as rn eqn:Ern. clear Ern. repeat split; lia.
Qed.

Ltac Zify.zify_post_hook ::= Z.to_euclidean_division_equations.

(* ---------- the year search ---------- *)
Lemma year_search_ok L c jd ystar :
  long_ok L -> rule_cal c -> ny_of c ystar <= jd < ny_of c (ystar + 1) ->
  forall (k : nat) y0, Z.abs (y0 - ystar) <= Z.of_nat k ->
    year_ok L y0 -> year_ok L ystar ->
    exists y, ny_of c y <= jd < ye_of c y /\
      (y = ystar \/ odd_year c y = true) /\ year_ok L y /\
      forall ic fuel, (k < fuel)%nat ->
        year_search L fuel ic jd y0 c
        = Ret (y, DataOk (ny_of c y) (ye_of c y) (months_of c y), ic).
Proof.
  intros HL Hc Hst. induction k as [|k IH]; intros y0 Hk Hy0 Hys.
  - assert (y0 = ystar) by lia. subst y0. exists ystar.
    pose proof (ye_of_ny c ystar Hc) as He.
    assert (Hye : ny_of c ystar <= jd < ye_of c ystar) by (destruct (odd_year c ystar); lia).
    split; [exact Hye|]. split; [left; reflexivity|]. split; [exact Hys|].
    intros ic fuel Hf. destruct fuel as [|fuel]; [lia|]. cbn [year_search].
    rewrite calendar_data_ok by assumption. cbn [obind].
    destruct (Z.ltb_spec jd (ny_of c ystar)); [lia|]. cbn [obind].
    destruct (Z.leb_spec (ye_of c ystar) jd); [lia|]. cbn [obind orb]. reflexivity.
  - destruct (Z_lt_le_dec jd (ny_of c y0)) as [Hlow|Hlow].
    + (* too late a year: step back *)
      assert (Hlt : ystar < y0).
      { destruct (Z_lt_le_dec ystar y0) as [|Hle]; [assumption|].
        destruct (Z.eq_dec y0 ystar) as [->|Hne]; [lia|].
        pose proof (ny_mono c y0 ystar Hc ltac:(lia)). lia. }
      assert (Hy1 : year_ok L (y0 - 1)) by (unfold year_ok in *; lia).
      destruct (IH (y0 - 1) ltac:(lia) Hy1 Hys) as (y & H1 & H2 & H3 & H4).
      exists y. split; [exact H1|]. split; [exact H2|]. split; [exact H3|].
      intros ic fuel Hf. destruct fuel as [|fuel]; [lia|]. cbn [year_search].
      rewrite calendar_data_ok by assumption. cbn [obind].
      pose proof (ye_of_ny c y0 Hc) as He. pose proof (ny_step c y0 Hc) as Hsp.
      destruct (Z.ltb_spec jd (ny_of c y0)); [|lia].
      unfold long_ok, year_ok in *. ev_step.
      destruct (Z.leb_spec (ye_of c y0) jd); [destruct (odd_year c y0); lia|]. cbn [obind orb].
      apply H4. lia.
    + destruct (Z_lt_le_dec jd (ye_of c y0)) as [Hin|Hin].
      * exists y0. split; [lia|]. split.
        { pose proof (ye_of_ny c y0 Hc) as He. destruct (odd_year c y0) eqn:Eo; [right; reflexivity|left].
          destruct (Z_lt_le_dec y0 ystar) as [H1|H1].
          - destruct (Z.eq_dec (y0 + 1) ystar) as [<-|Hne]; [lia|].
            pose proof (ny_mono c (y0 + 1) ystar Hc ltac:(lia)). lia.
          - destruct (Z.eq_dec y0 ystar) as [->|Hne]; [reflexivity|].
            destruct (Z.eq_dec (ystar + 1) y0) as [E|Hne2]; [rewrite E in Hst; lia|].
            pose proof (ny_mono c (ystar + 1) y0 Hc ltac:(lia)). lia. }
        split; [exact Hy0|].
        intros ic fuel Hf. destruct fuel as [|fuel]; [lia|]. cbn [year_search].
        rewrite calendar_data_ok by assumption. cbn [obind].
        destruct (Z.ltb_spec jd (ny_of c y0)); [lia|]. cbn [obind].
        destruct (Z.leb_spec (ye_of c y0) jd); [lia|]. cbn [obind orb]. reflexivity.
      * (* too early a year: step forward *)
        pose proof (ye_of_ny c y0 Hc) as He.
        assert (Hnext : ny_of c (y0 + 1) <= jd) by (destruct (odd_year c y0); lia).
        assert (Hlt : y0 < ystar).
        { destruct (Z_lt_le_dec y0 ystar) as [|Hle]; [assumption|].
          destruct (Z.eq_dec y0 ystar) as [->|Hne]; [lia|].
          pose proof (ny_mono c (ystar + 1) (y0 + 1) Hc ltac:(lia)). lia. }
        assert (Hy1 : year_ok L (y0 + 1)) by (unfold year_ok in *; lia).
        destruct (IH (y0 + 1) ltac:(lia) Hy1 Hys) as (y & H1 & H2 & H3 & H4).
        exists y. split; [exact H1|]. split; [exact H2|]. split; [exact H3|].
        intros ic fuel Hf. destruct fuel as [|fuel]; [lia|]. cbn [year_search].
        rewrite calendar_data_ok by assumption. cbn [obind].
        destruct (Z.ltb_spec jd (ny_of c y0)); [lia|]. cbn [obind].
        destruct (Z.leb_spec (ye_of c y0) jd); [|lia].
        unfold long_ok, year_ok in *. ev_step. cbn [orb].
        apply H4. lia.
Qed.

(* ---------- the month search ---------- *)
Lemma month_search_ok L jd l curr i last :
  Forall (fun m => 0 <= m <= 127) l -> 2147483647 <= L ->
  curr <= jd < curr + msum l -> Z.abs curr + 127 * Z.of_nat (length l) <= L ->
  0 <= i -> i + Z.of_nat (length l) <= 100 ->
  exists n d, month_search L jd curr i last l = Ret (d, i + Z.of_nat n + 1) /\
    (n < length l)%nat /\ 1 <= d <= nth n l 0 /\
    jd = curr + msum (firstn n l) + d - 1.
Proof.
  revert curr i last. induction l as [|m t IH]; intros curr i last Hf HL Hj Hb Hi Hlen.
  - cbn in Hj. lia.
  - inversion Hf as [|x l' Hm Ht]; subst.
    cbn [month_search msum fold_right length] in *. fold (msum t) in *.
    pose proof (msum_bound t Ht) as Hms.
    rewrite Nat2Z.inj_succ in Hb.
    ev_step. rewrite wrap32_id by lia.
    destruct (Z.ltb_spec (jd - curr) m) as [Hlt|Hge].
    + exists O, (jd - curr + 1). unfold IMAX. ev_step. ev_step.
      cbn [Z.of_nat nth firstn msum fold_right]. split; [f_equal; f_equal; lia|].
      split; [lia|]. split; [lia|]. unfold msum; cbn [fold_right]. lia.
    + ev_step.
      destruct (IH (curr + m) (i + 1) (jd - curr) Ht HL ltac:(lia) ltac:(lia) ltac:(lia)
                  ltac:(lia)) as (n & d & E & Hn & Hd & Hjd).
      exists (S n), d. rewrite E. split; [f_equal; f_equal; lia|].
      split; [lia|]. split; [exact Hd|]. cbn [firstn]. unfold msum in *. cbn [fold_right]. lia.
Qed.

(* ---------- dmy_to_day ---------- *)
Lemma add_first_ok L l n jd :
  Forall (fun m => 0 <= m <= 127) l -> 127 <= L -> (n <= length l)%nat ->
  Z.abs jd + 127 * Z.of_nat (length l) <= L ->
  add_first L jd l n = Ret (jd + msum (firstn n l)).
Proof.
  revert jd l. induction n as [|n IH]; intros jd l Hf HL Hn Hb.
  - cbn [add_first firstn]. unfold msum. cbn [fold_right]. rewrite Z.add_0_r. destruct l; reflexivity.
  - destruct l as [|m t]; [cbn in Hn; lia|]. inversion Hf as [|x l' Hm Ht]; subst.
    cbn [add_first firstn length] in *. rewrite Nat2Z.inj_succ in Hb. ev_step.
    rewrite IH by (try assumption; lia). f_equal. unfold msum. cbn [fold_right]. lia.
Qed.

(** Day number of (d, m, y) in closed form. *)
Definition day_of (c d m y : Z) : Z :=
  ny_of c y + msum (firstn (Z.to_nat (m - 1)) (months_of c y)) + d - 1.
(** Length of month m of year y. *)
Definition mlen_of (c m y : Z) : Z := nth (Z.to_nat (m - 1)) (months_of c y) 0.

Lemma dmy_to_day_rule L d m y c :
  long_ok L -> year_ok L y -> rule_cal c -> 1 <= m <= 13 ->
  -1000000 <= d <= 1000000 -> d <> -999 ->
  dmy_to_day L d m y c = Ret (day_of c d m y).
Proof.
  intros HL Hy Hc Hm Hd Hd9. unfold dmy_to_day, dmy_to_day_st.
  assert (Hcu : dmy_calendar_to_use d m y c = c).
  { unfold dmy_calendar_to_use. rule_cases Hc; reflexivity. }
  rewrite Hcu. rewrite calendar_data_ok by assumption. cbn [obind].
  unfold RETURN_DAYS_IN_MONTH. destruct (Z.eqb_spec d (-999)); [lia|].
  unfold IMAX. unfold long_ok, year_ok in *. ev_step.
  pose proof (months_shape127 c y Hc) as [Hlen Hf]. pose proof (ny_abs c y Hc) as Hb.
  rewrite add_first_ok; [|exact Hf|lia|lia|rewrite Hlen; lia]. cbn [obind].
  assert (Hfb : 0 <= msum (firstn (Z.to_nat (m - 1)) (months_of c y)) <= 1651).
  { assert (Hff : Forall (fun m => 0 <= m <= 127) (firstn (Z.to_nat (m - 1)) (months_of c y))).
    { apply Forall_forall. intros x Hx. rewrite Forall_forall in Hf. apply Hf.
      rewrite <- (firstn_skipn (Z.to_nat (m - 1))). apply in_or_app. left. exact Hx. }
    pose proof (msum_bound _ Hff) as Hmb. rewrite firstn_length in Hmb. lia. }
  ev_step. unfold day_of. f_equal. lia.
Qed.

Lemma days_in_month_rule L m y c :
  long_ok L -> year_ok L y -> rule_cal c -> 1 <= m <= 13 ->
  days_in_month L m y c = Ret (mlen_of c m y).
Proof.
  intros HL Hy Hc Hm. unfold days_in_month, dmy_to_day, dmy_to_day_st.
  assert (Hcu : dmy_calendar_to_use RETURN_DAYS_IN_MONTH m y c = c).
  { unfold dmy_calendar_to_use. rule_cases Hc; reflexivity. }
  rewrite Hcu. rewrite calendar_data_ok by assumption. cbn [obind].
  unfold RETURN_DAYS_IN_MONTH. cbn [Z.eqb Pos.eqb]. unfold IMAX. ev_step.
  pose proof (months_shape127 c y Hc) as [Hlen Hf].
  rewrite nth_ub_ok with (d := 0) by (rewrite Hlen; lia). cbn [obind].
  unfold mlen_of. rewrite wrap32_id; [reflexivity|].
  rewrite Forall_forall in Hf.
  assert (In (nth (Z.to_nat (m - 1)) (months_of c y) 0) (months_of c y)) as Hin
      by (apply nth_In; lia).
  specialize (Hf _ Hin). cbv beta in Hf. lia.
Qed.

(* ---------- day_to_dmy ---------- *)
Definition not_jg (c : Z) : Prop := c <> CALENDAR_JULIAN_GREGORIAN.

Lemma day_to_dmy_rule L jd c :
  long_ok L -> jd_ok L jd -> rule_cal c ->
  exists fuel0 d m y,
    (forall fuel ic month0, (fuel0 <= fuel)%nat ->
       day_to_dmy_st L fuel ic month0 jd c = Ret (d, m, y, ic)) /\
    year_ok L y /\ 1 <= m <= 13 /\ 1 <= d <= mlen_of c m y /\ day_of c d m y = jd /\
    (ny_of c y <= jd < ny_of c (y + 1) \/ odd_year c y = true).
Proof.
  intros HL Hj Hc.
  pose proof (approx_year_ok L c jd HL Hj (or_introl Hc)) as Ey0.
  pose proof (apx_bound c jd (or_introl Hc)) as Hy0. set (y0 := apx c jd) in *. clearbody y0.
  destruct (year_exists c jd Hc) as (ys & Hys).
  pose proof (year_bound c jd ys Hc Hys) as Hysb.
  assert (Hok0 : year_ok L y0) by (unfold year_ok, jd_ok, long_ok in *; lia).
  assert (Hoks : year_ok L ys) by (unfold year_ok, jd_ok, long_ok in *; lia).
  destruct (year_search_ok L c jd ys HL Hc Hys (Z.to_nat (Z.abs (y0 - ys))) y0
              ltac:(lia) Hok0 Hoks) as (y & Hin & Hor & Hoky & Hsrch).
  pose proof (months_shape127 c y Hc) as [Hlen Hf].
  pose proof (ny_abs c y Hc) as Hb.
  unfold ye_of in Hin.
  assert (HbL : Z.abs (ny_of c y) + 127 * Z.of_nat (length (months_of c y)) <= L)
    by (rewrite Hlen; unfold year_ok in Hoky; lia).
  destruct (month_search_ok L jd (months_of c y) (ny_of c y) 0 (-1) Hf HL Hin HbL
              ltac:(lia) ltac:(rewrite Hlen; lia)) as (n & d & Em & Hn & Hd & Hjd).
  exists (S (Z.to_nat (Z.abs (y0 - ys)))), d, (0 + Z.of_nat n + 1), y.
  split; [|split; [exact Hoky|split; [rewrite Hlen in Hn; lia|split; [|split]]]].
  - intros fuel ic month0 Hfu. unfold day_to_dmy_st.
    assert (Hcu : (c =? CALENDAR_JULIAN_GREGORIAN) = false) by (rule_cases Hc; reflexivity).
    rewrite Hcu. rewrite Ey0. cbn [obind].
    rewrite Hsrch by lia. cbn [obind]. rewrite Em. reflexivity.
  - unfold mlen_of. replace (Z.to_nat (0 + Z.of_nat n + 1 - 1)) with n by lia. exact Hd.
  - unfold day_of. replace (Z.to_nat (0 + Z.of_nat n + 1 - 1)) with n by lia. lia.
  - destruct Hor as [->|Ho]; [left; exact Hys|right; exact Ho].
Qed.
