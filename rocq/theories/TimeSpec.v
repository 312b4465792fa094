(** Independent description of leap seconds and of the date of Easter.  Nothing
    here refers to the model. *)
From Coq Require Import ZArith List Bool.
From Verif Require Import DateSpec.
Import ListNotations.
Open Scope Z_scope.

(** [f] is the Julian day number of Gregorian (Julian) dates: it counts days and
    1 January 2000 is day 2451545 (1 January -4712 is day 0). *)
Definition gregorian_jd (f : date -> Z) : Prop := counts_days gregorian (1, 1, 2000) 2451545 f.
Definition julian_jd (f : date -> Z) : Prop := counts_days julian (1, 1, -4712) 0 f.

(** Modified Julian day of a Gregorian date, 0 h: 1 January 2000 is 51544. *)
Definition gregorian_mjd (f : date -> Z) : Prop := counts_days gregorian (1, 1, 2000) 51544 f.

(** Leap seconds announced by the IERS: the years in which one was inserted at
    the end of June, and those in which one was inserted at the end of December. *)
Definition june_leap_seconds : list Z :=
  [1972; 1981; 1982; 1983; 1985; 1992; 1993; 1994; 1997; 2012; 2015].
Definition december_leap_seconds : list Z :=
  [1972; 1973; 1974; 1975; 1976; 1977; 1978; 1979; 1987; 1989; 1990; 1995; 1998;
   2005; 2008; 2016].

(** TAI-UTC in seconds at day [n], [f] numbering the days: 10 s at the start of
    1972 and one more for each leap second inserted before the day began. *)
Definition tai_minus_utc (f : date -> Z) (n : Z) : Z :=
  10 + Z.of_nat (length (filter (fun y => f (1, 7, y) <=? n) june_leap_seconds))
     + Z.of_nat (length (filter (fun y => f (1, 1, y + 1) <=? n) december_leap_seconds)).

(** Sunday, for a Julian day number. *)
Definition sunday (jd : Z) : Prop := jd mod 7 = 6.

(** Days from the paschal full moon to 19 April: the epact of the Gregorian
    reform (Clavius), with its two exceptions. *)
Definition gregorian_epact (y : Z) : Z :=
  let century := y / 100 + 1 in
  let shifted := (14 + 11 * (y mod 19) - 3 * century / 4 + (5 + 8 * century) / 25) mod 30 in
  if (shifted =? 0) || ((shifted =? 1) && (10 <? y mod 19)) then shifted + 1 else shifted.
(** The same for the Julian calendar (Alexandrian computus). *)
Definition julian_epact (y : Z) : Z := (14 + 11 * (y mod 19)) mod 30.

(** Easter is the first Sunday after the paschal full moon. *)
Definition first_sunday_after (moon day : Z) : Prop := sunday day /\ moon < day <= moon + 7.
