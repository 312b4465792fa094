(** Islamic and French Revolutionary calendars: closed formulas (see [DatePure]). *)
From Coq Require Import Lia ZifyBool.
From Verif Require Import CBase CLemmas ChineseData DateModel DatePure.

(* ---------- Islamic ---------- *)
Definition isl_leapb (y : Z) : bool := (11 * y + 14) mod 30 <? 11.
Definition isl_ny (y : Z) : Z := 1948086 + 354 * y + (11 * y + 3) / 30.
Definition isl_months (y : Z) : list Z :=
  [30; 29; 30; 29; 30; 29; 30; 29; 30; 29; 30; if isl_leapb y then 30 else 29; 0].

Lemma islamic_ok L y :
  long_ok L -> year_ok L y -> get_islamic_year_data L y = Ret (isl_ny y, isl_months y).
Proof.
  unfold long_ok, year_ok, get_islamic_year_data. intros HL Hy.
  rewrite c_mod_ok by (unfold fits; lia). cbn [obind].
  assert (Hr : 0 <= y mod 30 < 30) by lia.
  assert (Ed : (y - y mod 30) ÷ 30 = y / 30) by lia.
  ev_step. rewrite Ed.
  assert (Hd : y = 30 * (y / 30) + y mod 30) by lia.
  set (c := y / 30) in *. set (w := y mod 30) in *. clearbody c w. clear Ed.
  unfold ISLAMIC_CALENDAR_EPOCH.
  do 4 ev_step.
  unfold isl_ny, isl_months, isl_leapb.
  cbn [map app].
  change (to_char (30 - Z.rem 0 2)) with 30. change (to_char (30 - Z.rem 1 2)) with 29.
  change (to_char (30 - Z.rem 2 2)) with 30. change (to_char (30 - Z.rem 3 2)) with 29.
  change (to_char (30 - Z.rem 4 2)) with 30. change (to_char (30 - Z.rem 5 2)) with 29.
  change (to_char (30 - Z.rem 6 2)) with 30. change (to_char (30 - Z.rem 7 2)) with 29.
  change (to_char (30 - Z.rem 8 2)) with 30. change (to_char (30 - Z.rem 9 2)) with 29.
  change (to_char (30 - Z.rem 10 2)) with 30.
  f_equal. f_equal.
  - lia.
  - replace (to_char (29 + (if 18 <? Z.rem (w * 11 + 3) 30 then 1 else 0)))
      with (if (11 * y + 14) mod 30 <? 11 then 30 else 29); [reflexivity|].
    destruct (Z.ltb_spec ((11 * y + 14) mod 30) 11);
      destruct (Z.ltb_spec 18 (Z.rem (w * 11 + 3) 30)); try lia; reflexivity.
Qed.

(* ---------- French Revolutionary ---------- *)
Definition rev_delta (y : Z) : Z :=
  if y <? -814 then 404 else if y <? -492 then 438 else if y <? -331 then 497
  else if y <? -108 then 468 else if y <? 0 then 418 else if y <? 144 then 393
  else if y <? 301 then 322 else if y <? 487 then 184 else 92.
Definition rev_ny (y : Z) : Z := 2375475 + 365 * y + (rev_delta y + 683 * y) / 2820.
Definition rev_months (y : Z) : list Z :=
  [30; 30; 30; 30; 30; 30; 30; 30; 30; 30; 30; 30; rev_ny (y + 1) - rev_ny y - 360].

Lemma rev_loop_skip L y i b d rest :
  b <= y -> i <> 8 -> rev_loop L y i ((b, d) :: rest) = rev_loop L y (i + 1) rest.
Proof.
  intros H Hi. cbn [rev_loop]. destruct (Z.ltb_spec y b); [lia|].
  destruct (Z.eqb_spec i 8); [lia|]. reflexivity.
Qed.

Lemma rev_loop_hit L y i b d rest :
  long_ok L -> 683 * Z.abs y + 3000000 <= L -> 0 <= d <= 1000 ->
  y < b \/ i = 8 ->
  2375475 + 365 * y + (d + 683 * y) ÷ 2820 + (if i <? 5 then -1 else 0) <> 0 ->
  rev_loop L y i ((b, d) :: rest)
  = Ret (2375475 + 365 * y + (d + 683 * y) ÷ 2820 + (if i <? 5 then -1 else 0)).
Proof.
  unfold long_ok. intros HL Hy Hd H Hz. cbn [rev_loop].
  replace ((y <? b) || (i =? 8)) with true by lia.
  unfold REVOLUTIONARY_CALENDAR_EPOCH. ev_step.
  destruct (i <? 5).
  - ev_step. destruct (Z.eqb_spec (2375475 + y * 365 + (d + y * 683) ÷ 2820 - 1) 0); [lia|].
    f_equal. lia.
  - cbn [obind]. destruct (Z.eqb_spec (2375475 + y * 365 + (d + y * 683) ÷ 2820) 0); [lia|].
    f_equal. lia.
Qed.

Lemma jd_of_french_ok L y :
  long_ok L -> 683 * Z.abs y + 3000000 <= L -> jd_of_french_rev_year L y = Ret (rev_ny y).
Proof.
  unfold jd_of_french_rev_year, rev_breaks_deltas, rev_ny, rev_delta.
  intros HL Hy.
  repeat match goal with
  | |- rev_loop L y ?i ((?b, ?d) :: ?r) = _ =>
      destruct (Z.ltb_spec y b) as [?|?];
      [rewrite rev_loop_hit by
         (first [assumption|lia | left; lia
                |let i' := eval vm_compute in (i <? 5) in change (i <? 5) with i'; cbv iota; lia]);
       let i' := eval vm_compute in (i <? 5) in change (i <? 5) with i'; cbv iota; f_equal; lia
      |first [rewrite rev_loop_skip by lia
             |rewrite rev_loop_hit by (first [assumption|lia | right; reflexivity
                |let i' := eval vm_compute in (i <? 5) in change (i <? 5) with i'; cbv iota; lia]);
              let i' := eval vm_compute in (i <? 5) in change (i <? 5) with i'; cbv iota; f_equal; lia]]
  end.
Qed.

Lemma rev_step y : rev_ny (y + 1) - rev_ny y = 365 \/ rev_ny (y + 1) - rev_ny y = 366.
Proof.
  unfold rev_ny, rev_delta.
  repeat match goal with |- context [if ?a <? ?b then _ else _] => destruct (Z.ltb_spec a b) end;
    lia.
Qed.

Lemma revolutionary_ok L y :
  long_ok L -> year_ok L y ->
  get_revolutionary_year_data L y = Ret (rev_ny y, rev_months y).
Proof.
  unfold get_revolutionary_year_data. intros HL Hy. unfold long_ok, year_ok in *.
  rewrite jd_of_french_ok by (unfold long_ok; lia). cbn [obind].
  ev_step. rewrite jd_of_french_ok by (unfold long_ok; lia). cbn [obind].
  pose proof (rev_step y) as Hs.
  assert (Hb : - 366 * Z.abs y - 3000000 <= rev_ny y <= 366 * Z.abs y + 3000000).
  { unfold rev_ny, rev_delta.
    repeat match goal with |- context [if ?a <? ?b then _ else _] => destruct (Z.ltb_spec a b) end; lia. }
  unfold rev_months.
  set (a := rev_ny y) in *. set (b := rev_ny (y + 1)) in *. clearbody a b.
  ev_step. rewrite wrap8_id by lia. reflexivity.
Qed.

