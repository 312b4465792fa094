(** Overflow-free form of the calendar functions of [DateModel]: closed formulas
    over unbounded integers, and the proof that the checked model computes them
    whenever the year is within [year_ok]. *)
From Coq Require Import Lia ZifyBool.
From Verif Require Import CBase CLemmas ChineseData DateModel.
From Verif Require Export DateVocab.

Lemma c_mod_ok L x y :
  0 < y -> fits L x -> fits L y -> 0 <= L -> c_mod L x y = Ret (x mod y).
Proof.
  unfold fits, c_mod. intros Hy Hx HyL HL.
  rewrite ev_val; [|cbn [safe val]; unfold fits; repeat split; nia].
  cbn [val obind].
  destruct (Z.ltb_spec (Z.rem x y) 0) as [Hn|Hn].
  - rewrite ev_val; [cbn [val]; f_equal|cbn [safe val]; unfold fits; repeat split; lia].
    pose proof (Z.quot_rem' x y). pose proof (Z.rem_bound_abs x y).
    apply Z.mod_unique_pos with (q := Z.quot x y - 1); lia.
  - f_equal. pose proof (Z.quot_rem' x y). pose proof (Z.rem_bound_abs x y).
    apply Z.mod_unique_pos with (q := Z.quot x y); lia.
Qed.

(* ---------- Gregorian and Julian ---------- *)
Definition greg_leapb (y : Z) : bool :=
  (y mod 4 =? 0) && (negb (y mod 100 =? 0) || (y mod 400 =? 0)).
Definition jul_leapb (y : Z) : bool := y mod 4 =? 0.
Definition jg_leapb (julian : bool) (y : Z) : bool :=
  if julian then jul_leapb y else greg_leapb y.
Definition greg_ny (y : Z) : Z :=
  1721060 + 365 * y + (y + 3) / 4 - (y + 99) / 100 + (y + 399) / 400.
Definition jul_ny (y : Z) : Z := 1721058 + 365 * y + (y + 3) / 4.
Definition jg_ny (julian : bool) (y : Z) : Z := if julian then jul_ny y else greg_ny y.
Definition jg_months (julian : bool) (y : Z) : list Z :=
  [31; if jg_leapb julian y then 29 else 28; 31; 30; 31; 30; 31; 31; 30; 31; 30; 31; 0].

Lemma jul_greg_ok L y julian :
  long_ok L -> year_ok L y ->
  get_jul_greg_year_data L y julian = Ret (jg_ny julian y, jg_months julian y).
Proof.
  unfold long_ok, year_ok, get_jul_greg_year_data. intros HL Hy.
  destruct julian; cbn [negb]; destruct (Z.leb_spec 0 y) as [Hp|Hp];
    repeat ev_step;
    unfold jg_ny, jg_months, jg_leapb, jul_leapb, greg_leapb, jul_ny, greg_ny,
      JUL_GREG_CALENDAR_EPOCH.
  - destruct (Z.eqb_spec (Z.rem y 4) 0); destruct (Z.eqb_spec (y mod 4) 0); try lia;
    rewrite ?orb_true_r; cbn [andb obind]; repeat ev_step; f_equal; f_equal; lia.
  - destruct (Z.eqb_spec (Z.rem y 4) 0); destruct (Z.eqb_spec (y mod 4) 0); try lia;
    rewrite ?orb_true_r; cbn [andb obind]; repeat ev_step; f_equal; f_equal; lia.
  - rewrite orb_false_r.
    assert (E4 : (Z.rem y 4 =? 0) = (y mod 4 =? 0)) by lia.
    assert (E100 : (Z.rem y 100 =? 0) = (y mod 100 =? 0)) by lia.
    assert (E400 : (Z.rem y 400 =? 0) = (y mod 400 =? 0)) by lia.
    rewrite E4, E100, E400.
    destruct (Z.eqb_spec (y mod 4) 0) as [H4|H4];
    destruct (Z.eqb_spec (y mod 100) 0) as [H1|H1];
    destruct (Z.eqb_spec (y mod 400) 0) as [H400|H400]; cbn [andb orb negb obind];
      try (exfalso; lia); repeat ev_step; f_equal; f_equal; lia.
  - rewrite orb_false_r.
    assert (E4 : (Z.rem y 4 =? 0) = (y mod 4 =? 0)) by lia.
    assert (E100 : (Z.rem y 100 =? 0) = (y mod 100 =? 0)) by lia.
    assert (E400 : (Z.rem y 400 =? 0) = (y mod 400 =? 0)) by lia.
    rewrite E4, E100, E400.
    destruct (Z.eqb_spec (y mod 4) 0) as [H4|H4];
    destruct (Z.eqb_spec (y mod 100) 0) as [H1|H1];
    destruct (Z.eqb_spec (y mod 400) 0) as [H400|H400]; cbn [andb orb negb obind];
      try (exfalso; lia); repeat ev_step; f_equal; f_equal; lia.
Qed.

