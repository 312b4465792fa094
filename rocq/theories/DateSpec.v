(** Independent description of the calendars, written from their published
    rules and not from the code.  Nothing here refers to the model. *)
From Coq Require Import ZArith List Bool.
Import ListNotations.
Open Scope Z_scope.

(** A date is (day, month, year). *)
Definition date : Type := (Z * Z * Z)%type.

(** A calendar's rule is the number of days of month [m] of year [y].  Months
    are numbered 1..13; a month that does not exist has 0 days. *)
Definition rule : Type := Z -> Z -> Z.

Definition valid (len : rule) (dt : date) : Prop :=
  let '(d, m, y) := dt in 1 <= m <= 13 /\ 1 <= d <= len m y.

(** First month from [m] on (looking at [n] months) that has any days. *)
Fixpoint first_month (len : rule) (y m : Z) (n : nat) : option Z :=
  match n with
  | O => None
  | S n' => if 0 <? len m y then Some m else first_month len y (m + 1) n'
  end.

(** The day after a date. *)
Definition next_date (len : rule) (dt : date) : date :=
  let '(d, m, y) := dt in
  if d <? len m y then (d + 1, m, y)
  else match first_month len y (m + 1) (Z.to_nat (13 - m)) with
       | Some m' => (1, m', y)
       | None => (1, 1, y + 1)
       end.

(** Chronological order of dates of one calendar. *)
Definition date_lt (a b : date) : Prop :=
  let '(d1, m1, y1) := a in let '(d2, m2, y2) := b in
  y1 < y2 \/ (y1 = y2 /\ (m1 < m2 \/ (m1 = m2 /\ d1 < d2))).

(** [f] numbers the days of the calendar [len] consecutively, giving number
    [n0] to the date [anchor]. *)
Definition counts_days (len : rule) (anchor : date) (n0 : Z) (f : date -> Z) : Prop :=
  f anchor = n0 /\ forall dt, valid len dt -> f (next_date len dt) = f dt + 1.

(* ---- Gregorian and Julian ---- *)
Definition gregorian_leap (y : Z) : bool :=
  (y mod 4 =? 0) && (negb (y mod 100 =? 0) || (y mod 400 =? 0)).
Definition julian_leap (y : Z) : bool := y mod 4 =? 0.

Definition roman_month (leap : bool) (m : Z) : Z :=
  if m =? 2 then (if leap then 29 else 28)
  else if (m =? 4) || (m =? 6) || (m =? 9) || (m =? 11) then 30
  else if (1 <=? m) && (m <=? 12) then 31
  else 0.

Definition gregorian : rule := fun m y => roman_month (gregorian_leap y) m.
Definition julian : rule := fun m y => roman_month (julian_leap y) m.

(* ---- Islamic (tabular; years 2 5 7 10 13 16 18 21 24 26 29 of 30 are leap) ---- *)
Definition islamic_leap (y : Z) : bool :=
  existsb (Z.eqb (y mod 30)) [2; 5; 7; 10; 13; 16; 18; 21; 24; 26; 29].
Definition islamic : rule := fun m y =>
  if (1 <=? m) && (m <=? 11) then (if Z.odd m then 30 else 29)
  else if m =? 12 then (if islamic_leap y then 30 else 29)
  else 0.

(* ---- modern Persian (Birashk's 2820-year cycle) ---- *)
Definition birashk_leap (y : Z) : bool :=
  ((((y - 474) mod 2820) + 474 + 38) * 682) mod 2816 <? 682.
Definition modern_persian : rule := fun m y =>
  if (1 <=? m) && (m <=? 6) then 31
  else if (7 <=? m) && (m <=? 11) then 30
  else if m =? 12 then (if birashk_leap y then 30 else 29)
  else 0.

(* ---- Hebrew ---- *)
(** Time is counted in parts (1080 to the hour) from the start of the Sunday
    before the molad of year 1, which fell on Monday at 5 h 204 p. *)
Definition parts_per_day : Z := 24 * 1080.
Definition parts_per_month : Z := 29 * parts_per_day + 12 * 1080 + 793.
Definition hebrew_leap (y : Z) : bool :=
  existsb (Z.eqb (y mod 19)) [0; 3; 6; 8; 11; 14; 17].
Definition hebrew_months_in (y : Z) : Z := if hebrew_leap y then 13 else 12.
(** [m] counts the months before each Hebrew year. *)
Definition hebrew_month_count (m : Z -> Z) : Prop :=
  m 1 = 0 /\ forall y, m (y + 1) = m y + hebrew_months_in y.
Definition molad (months_before : Z) : Z :=
  1 * parts_per_day + 5 * 1080 + 204 + months_before * parts_per_month.
Definition hms (h p : Z) : Z := h * 1080 + p.
(** Day on which the year starts, from the parts of its molad: the four
    postponements.  Day 0 is that first Sunday; day mod 7 = 0 is Sunday. *)
Definition hebrew_new_year_day (molad_parts : Z) (leap prev_leap : bool) : Z :=
  let day := molad_parts / parts_per_day in
  let t := molad_parts mod parts_per_day in
  let wd := day mod 7 in
  (* GaTRaD, BeTUTeKaPoT, molad zaken *)
  let postponed :=
    ((wd =? 2) && (hms 9 204 <=? t) && negb leap) ||
    ((wd =? 1) && (hms 15 589 <=? t) && prev_leap) ||
    (hms 18 0 <=? t) in
  let day := if postponed then day + 1 else day in
  (* Lo ADU Rosh : never on Sunday, Wednesday or Friday *)
  if (day mod 7 =? 0) || (day mod 7 =? 3) || (day mod 7 =? 5) then day + 1 else day.

(** The common years whose molad falls exactly on a Tuesday at 9 h 204 p; the
    molad of the following year then is a Saturday at exactly 18 h. *)
Definition hebrew_edge_year (m : Z -> Z) (y : Z) : Prop :=
  hebrew_leap y = false /\
  molad (m y) mod (7 * parts_per_day) = 2 * parts_per_day + hms 9 204.

(** Days of a month of a Hebrew year of [len] days: 30 and 29 in turn from
    Tishri; Heshvan has 30 days in complete years, Kislev 29 in deficient ones;
    month 6 is Adar (29 days) or, in a leap year, Adar I (30), month 7 Adar II. *)
Definition hebrew_month (leap : bool) (len m : Z) : Z :=
  if m =? 2 then (if len mod 10 =? 5 then 30 else 29)
  else if m =? 3 then (if len mod 10 =? 3 then 29 else 30)
  else if m =? 6 then (if leap then 30 else 29)
  else if m =? 7 then (if leap then 29 else 0)
  else if (m =? 1) || (m =? 5) || (m =? 8) || (m =? 10) || (m =? 12) then 30
  else if (m =? 4) || (m =? 9) || (m =? 11) || (m =? 13) then 29
  else 0.

(* ---- French Revolutionary: 12 months of 30 days, then 5 or 6 days ---- *)
Definition french (leap : Z -> bool) : rule := fun m y =>
  if (1 <=? m) && (m <=? 12) then 30
  else if m =? 13 then (if leap y then 6 else 5)
  else 0.

(** Leap years that keep the French year at the autumn equinox and the Jalali
    year at the spring equinox: 683 leap days in 2820 years, respectively 303 in
    1250, with a phase that is adjusted in certain years. *)
Definition french_phase (y : Z) : Z :=
  if y <? -814 then 404 else if y <? -492 then 438 else if y <? -331 then 497
  else if y <? -108 then 468 else if y <? 0 then 418 else if y <? 144 then 393
  else if y <? 301 then 322 else if y <? 487 then 184 else 92.
Definition french_leap_days (y : Z) : Z := (french_phase y + 683 * y) / 2820.
Definition french_leap (y : Z) : bool := french_leap_days y <? french_leap_days (y + 1).
Definition jalali_phase (y : Z) : Z :=
  if y <? -708 then 1107 else if y <? -221 then 1046 else if y <? -3 then 983
  else if y <? 6 then 1249 else if y <? 394 then 952 else if y <? 720 then 891
  else if y <? 786 then 930 else if y <? 1145 then 866 else if y <? 1635 then 869
  else if y <? 1701 then 844 else if y <? 1866 then 848 else 852.
Definition jalali_leap_days (y : Z) : Z := (jalali_phase y + 303 * y) / 1250.
Definition jalali_leap (y : Z) : bool := jalali_leap_days y <? jalali_leap_days (y + 1).

(* ---- combined Julian / Gregorian ---- *)
(** Dates that were used: Julian up to 4 October 1582, Gregorian from the 15th. *)
Definition switch_valid (dt : date) : Prop :=
  (valid julian dt /\ date_lt dt (5, 10, 1582)) \/
  (valid gregorian dt /\ date_lt (14, 10, 1582) dt).
Definition switch_next (dt : date) : date :=
  let '(d, m, y) := dt in
  if (d =? 4) && (m =? 10) && (y =? 1582) then (15, 10, 1582)
  else if (y <? 1582) || ((y =? 1582) && (m <? 10)) || ((y =? 1582) && (m =? 10) && (d <? 4))
  then next_date julian dt else next_date gregorian dt.
