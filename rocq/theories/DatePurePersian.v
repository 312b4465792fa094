(** Modern Persian and Jalali calendars: closed formulas (see [DatePure]). *)
From Coq Require Import Lia ZifyBool.
From Verif Require Import CBase CLemmas ChineseData DateModel DatePure.

(* ---------- modern Persian ---------- *)
Definition mp_ny (y : Z) : Z :=
  let e := 474 + (y - 474) mod 2820 in
  1948321 + (31 * e - 5) / 128 + 365 * (e - 1) + ((y - 474) / 2820) * 1029983.
Definition mp_months (y : Z) : list Z :=
  [31; 31; 31; 31; 31; 31; 30; 30; 30; 30; 30; mp_ny (y + 1) - mp_ny y - 336; 0].

Lemma mp_step y : mp_ny (y + 1) - mp_ny y = 365 \/ mp_ny (y + 1) - mp_ny y = 366.
Proof.
  unfold mp_ny. cbv zeta.
  pose proof (Z.div_mod (y - 474) 2820 ltac:(lia)) as E.
  pose proof (Z.mod_pos_bound (y - 474) 2820 ltac:(lia)) as B.
  set (q := (y - 474) / 2820) in *. set (r := (y - 474) mod 2820) in *.
  destruct (Z.eq_dec r 2819) as [Hr|Hr].
  - assert ((y + 1 - 474) mod 2820 = 0) as -> by (apply mod_uniq with (q := q + 1); lia).
    assert ((y + 1 - 474) / 2820 = q + 1) as -> by (apply div_uniq with (r := 0); lia).
    rewrite Hr. change ((31 * (474 + 2819) - 5) / 128) with 797.
    change ((31 * (474 + 0) - 5) / 128) with 114. lia.
  - assert ((y + 1 - 474) mod 2820 = r + 1) as -> by (apply mod_uniq with (q := q); lia).
    assert ((y + 1 - 474) / 2820 = q) as -> by (apply div_uniq with (r := r + 1); lia).
    clearbody q r. lia.
Qed.

Lemma persian_modern_ok L y :
  long_ok L -> 700 * Z.abs y + 5000000 <= L ->
  persian_modern_jd0 L y = Ret (mp_ny y - 1).
Proof.
  unfold long_ok, persian_modern_jd0. intros HL Hy.
  ev_step. rewrite c_mod_ok by (unfold fits; lia). cbn [obind].
  unfold mp_ny. cbv zeta.
  pose proof (Z.div_mod (y - 474) 2820 ltac:(lia)) as E.
  pose proof (Z.mod_pos_bound (y - 474) 2820 ltac:(lia)) as B.
  set (q := (y - 474) / 2820) in *. set (r := (y - 474) mod 2820) in *. clearbody q r.
  ev_step.
  assert (Eq : (y - (474 + r)) ÷ 2820 = q) by (assert (y = 474 + 2820 * q + r) by lia; lia).
  rewrite ev_val.
  - cbn [val]. rewrite Eq. f_equal. lia.
  - cbn [safe val]. rewrite Eq. unfold fits. repeat split; lia.
Qed.

Lemma mp_bound y : - 366 * Z.abs y - 4000000 <= mp_ny y <= 366 * Z.abs y + 4000000.
Proof.
  unfold mp_ny. cbv zeta.
  pose proof (Z.div_mod (y - 474) 2820 ltac:(lia)) as E.
  pose proof (Z.mod_pos_bound (y - 474) 2820 ltac:(lia)) as B.
  set (q := (y - 474) / 2820) in *. set (r := (y - 474) mod 2820) in *. clearbody q r. lia.
Qed.

Lemma modern_persian_ok L y :
  long_ok L -> year_ok L y -> get_jalali_year_data L y true = Ret (mp_ny y, mp_months y).
Proof.
  unfold long_ok, year_ok, get_jalali_year_data. intros HL Hy. cbn [orb].
  ev_step. pose proof (mp_bound y) as Hb. pose proof (mp_step y) as Hs.
  rewrite persian_modern_ok by (unfold long_ok; lia). cbn [obind].
  ev_step. rewrite persian_modern_ok by (unfold long_ok; lia). cbn [obind].
  unfold mp_months.
  set (a := mp_ny y) in *. set (b := mp_ny (y + 1)) in *. clearbody a b.
  repeat ev_step. rewrite wrap8_id by lia.
  replace (b - 1 + 1 - (a - 1 + 1) - 336) with (b - a - 336) by lia.
  replace (a - 1 + 1) with a by lia. reflexivity.
Qed.

(* ---------- Jalali (piecewise, years -1096 .. 2327) ---------- *)
Definition jal_delta (y : Z) : Z :=
  if y <? -708 then 1107 else if y <? -221 then 1046 else if y <? -3 then 983
  else if y <? 6 then 1249 else if y <? 394 then 952 else if y <? 720 then 891
  else if y <? 786 then 930 else if y <? 1145 then 866 else if y <? 1635 then 869
  else if y <? 1701 then 844 else if y <? 1866 then 848 else 852.
Definition jal_ny (y : Z) : Z := 1947955 + 365 * y + (jal_delta y + 303 * y) / 1250.

Lemma jalali_loop_skip L y i b d rest :
  b <= y -> jalali_loop L y i ((b, d) :: rest) = jalali_loop L y (i + 1) rest.
Proof. intros H. cbn [jalali_loop]. destruct (Z.ltb_spec y b); [lia|]. reflexivity. Qed.

Lemma jalali_loop_hit L y i b d rest :
  long_ok L -> -1096 <= y < b -> y <= 2327 -> 0 <= d <= 2000 ->
  jalali_loop L y i ((b, d) :: rest)
  = Ret (1947954 + 365 * y + (d + 303 * y) ÷ 1250 + (if i <? 3 then -1 else 0)).
Proof.
  unfold long_ok. intros HL Hy Hy2 Hd. cbn [jalali_loop].
  destruct (Z.ltb_spec y b); [|lia]. unfold JALALI_ZERO. ev_step.
  destruct (i <? 3); [ev_step|cbn [obind]]; f_equal; lia.
Qed.

Lemma jalali_jd0_ok L y :
  long_ok L -> -1096 <= y <= 2327 -> jalali_jd0 L y = Ret (jal_ny y - 1).
Proof.
  unfold jalali_jd0, jalali_breaks_deltas, jal_ny, jal_delta.
  intros HL Hy. rewrite wrap32_id by lia.
  destruct (Z.ltb_spec y LOWER_PERSIAN_YEAR) as [H|H]; unfold LOWER_PERSIAN_YEAR in H; [lia|].
  repeat match goal with
  | |- jalali_loop L y ?i ((?b, ?d) :: ?r) = _ =>
      destruct (Z.ltb_spec y b) as [?|?];
      [rewrite jalali_loop_hit by (first [assumption|lia]);
       let i' := eval vm_compute in (i <? 3) in change (i <? 3) with i'; cbv iota; f_equal; lia
      |first [exfalso; lia|rewrite jalali_loop_skip by lia]]
  end.
Qed.

Lemma jal_step y : -1096 <= y <= 2326 ->
  jal_ny (y + 1) - jal_ny y = 365 \/ jal_ny (y + 1) - jal_ny y = 366.
Proof.
  intros Hy. unfold jal_ny, jal_delta.
  repeat match goal with |- context [if ?a <? ?b then _ else _] => destruct (Z.ltb_spec a b) end;
    lia.
Qed.

Definition jal_months (y : Z) : list Z :=
  [31; 31; 31; 31; 31; 31; 30; 30; 30; 30; 30;
   if y =? 2327 then 126 else jal_ny (y + 1) - jal_ny y - 336; 0].

Lemma jalali_ok L y :
  long_ok L -> -1096 <= y <= 2327 ->
  get_jalali_year_data L y false = Ret (jal_ny y, jal_months y).
Proof.
  unfold long_ok, get_jalali_year_data. intros HL Hy. cbn [orb].
  unfold LOWER_PERSIAN_YEAR, UPPER_PERSIAN_YEAR.
  destruct (Z.ltb_spec y (-1096)); [lia|]. destruct (Z.ltb_spec 2327 y); [lia|]. cbn [orb].
  ev_step.
  rewrite jalali_jd0_ok by (unfold long_ok; lia). cbn [obind].
  assert (Hb : 0 <= jal_ny y <= 10000000).
  { unfold jal_ny, jal_delta.
    repeat match goal with |- context [if ?a <? ?b then _ else _] => destruct (Z.ltb_spec a b) end; lia. }
  ev_step. unfold jal_months.
  destruct (Z.eqb_spec y 2327) as [->|Hne].
  - change (jalali_jd0 L (2327 + 1)) with (@Ret Z (-1)). cbn [obind].
    change (jal_ny 2327) with 2797874.
    repeat ev_step. reflexivity.
  - rewrite jalali_jd0_ok by (unfold long_ok; lia). cbn [obind].
    pose proof (jal_step y ltac:(lia)) as Hs.
    set (a := jal_ny y) in *. set (b := jal_ny (y + 1)) in *. clearbody a b.
    repeat ev_step. rewrite wrap8_id by lia.
    replace (b - 1 + 1 - (a - 1 + 1) - 336) with (b - a - 336) by lia.
    replace (a - 1 + 1) with a by lia. reflexivity.
Qed.
