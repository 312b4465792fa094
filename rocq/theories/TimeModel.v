(** Model of the integer calendar code outside date.cpp: jd.cpp's stand-alone
    Gregorian conversion, the macros of mjd_defs.h, the leap-second logic of
    delta_t.cpp and easter.cpp. *)
From Verif Require Import CBase.

(** jd.cpp:143-190 [greg_day_to_dmy].  [L] is LONG_MAX.  The constants
    1461, 36524 and 146097 are the values of four_years, century and quad_cent
    (lines 147-150).  *month and *day are ints assigned from small longs. *)
Definition greg_day_to_dmy (L jd : Z) : outcome (Z * Z * Z) :=
  do days <- ev L (jd - 1721120)%cx;
  do r <- ev L (days mod 146097)%cx;
  do dic <- (if r <? 0 then ev L (r + 146097)%cx else Ret r);
  do y0 <- ev L ((days - dic) / 146097 * 400)%cx;
  do y1 <- ev L (y0 + dic / 36524 * 100)%cx;
  if dic =? 146097 - 1 then Ret (29, 2, y1) else
  do dic <- ev L (dic mod 36524)%cx;
  do y2 <- ev L (y1 + dic / 1461 * 4)%cx;
  do dic <- ev L (dic mod 1461)%cx;
  do y3 <- ev L (y2 + dic / 365)%cx;
  if dic =? 1461 - 1 then Ret (29, 2, y3) else
  do dic <- ev L (dic mod 365)%cx;
  do m0 <- ev L (5 * (dic / 153))%cx;
  do dic <- ev L (dic mod 153)%cx;
  do m1 <- ev L (m0 + 2 * (dic / 61))%cx;
  do dic <- ev L (dic mod 61)%cx;
  do m2 <- (if 31 <=? dic then ev L (m1 + 1)%cx else Ret m1);
  do dic <- (if 31 <=? dic then ev L (dic - 31)%cx else Ret dic);
  do m3 <- ev L (m2 + 3)%cx;
  do d <- ev L (dic + 1)%cx;
  if 12 <? m3
  then (do m <- ev L (m3 - 12)%cx; do y <- ev L (y3 + 1)%cx; Ret (d, m, y))
  else Ret (d, m3, y3).

(** mjd_defs.h:12-16 [JAN_1_POS], [JAN_1_NEG], [JAN_1].  The sub-expressions
    YEAR-1 are evaluated in the type of the argument; here everything is
    evaluated as long, which differs only for YEAR = INT_MIN. *)
Definition JAN_1 (L year : Z) : outcome Z :=
  if 0 <? year
  then ev L (year * 365 + (year - 1) / 4 - (year - 1) / 100 + (year - 1) / 400 - 678940)%cx
  else ev L (year * 365 + year / 4 - year / 100 + year / 400 - 678940 - 1)%cx.

(** mjd_defs.h:18-28, the other eleven macros. *)
Definition FEB_1 (L y : Z) : outcome Z := do j <- JAN_1 L y; ev L (j + 31)%cx.
Definition DEC_1 (L y : Z) : outcome Z :=
  do y1 <- ev L (y + 1)%cx; do j <- JAN_1 L y1; ev L (j - 31)%cx.
Definition NOV_1 (L y : Z) : outcome Z := do j <- DEC_1 L y; ev L (j - 30)%cx.
Definition OCT_1 (L y : Z) : outcome Z := do j <- NOV_1 L y; ev L (j - 31)%cx.
Definition SEP_1 (L y : Z) : outcome Z := do j <- OCT_1 L y; ev L (j - 30)%cx.
Definition AUG_1 (L y : Z) : outcome Z := do j <- SEP_1 L y; ev L (j - 31)%cx.
Definition JUL_1 (L y : Z) : outcome Z := do j <- AUG_1 L y; ev L (j - 31)%cx.
Definition JUN_1 (L y : Z) : outcome Z := do j <- JUL_1 L y; ev L (j - 30)%cx.
Definition MAY_1 (L y : Z) : outcome Z := do j <- JUN_1 L y; ev L (j - 31)%cx.
Definition APR_1 (L y : Z) : outcome Z := do j <- MAY_1 L y; ev L (j - 30)%cx.
Definition MAR_1 (L y : Z) : outcome Z := do j <- APR_1 L y; ev L (j - 31)%cx.

(** The macro that names month [m] (mjd_defs.h:16-28). *)
Definition month_macro (m : Z) : Z -> Z -> outcome Z :=
  match m with
  | 1 => JAN_1 | 2 => FEB_1 | 3 => MAR_1 | 4 => APR_1 | 5 => MAY_1 | 6 => JUN_1
  | 7 => JUL_1 | 8 => AUG_1 | 9 => SEP_1 | 10 => OCT_1 | 11 => NOV_1 | _ => DEC_1
  end.

(** delta_t.cpp:430-448: the half-year in which a predicted leap second falls,
    as the pair (low, high).  [int] is 32 bits; [L] is LONG_MAX.  The int64_t
    product cannot overflow, so it is written with plain integers. *)
Definition half_year (L imjd_utc : Z) : outcome (Z * Z) :=
  do day <- ev IMAX (imjd_utc + 2400000 - 1721058)%cx;
  let year := to_int (Z.quot (day * 400) 146097) in
  do j <- JAN_1 L year;
  let low := to_int j in
  do '(low, high) <-
    (if imjd_utc <? low then
       (do y' <- ev IMAX (year - 1)%cx;
        do j' <- JAN_1 L y';
        Ret (to_int j', low))
     else
       (do y' <- ev IMAX (year + 1)%cx;
        do j' <- JAN_1 L y';
        Ret (low, to_int j')));
  do july_1 <- ev IMAX (high - (31 + 31 + 30 + 31 + 30 + 31))%cx;
  Ret (if imjd_utc <? july_1 then (low, july_1) else (july_1, high)).

(** delta_t.cpp:413-423 [leap_intervals]: month (JAN_1 or JUL_1) and year of
    each entry. *)
Definition leap_entries : list (Z * Z) :=
  [(1, 1972); (7, 1972); (1, 1973);
   (1, 1974); (1, 1975); (1, 1976);
   (1, 1977); (1, 1978); (1, 1979);
   (1, 1980); (7, 1981); (7, 1982);
   (7, 1983); (7, 1985); (1, 1988);
   (1, 1990); (1, 1991); (7, 1992);
   (7, 1993); (7, 1994); (1, 1996);
   (7, 1997); (1, 1999); (1, 2006);
   (1, 2009); (7, 2012); (7, 2015);
   (1, 2017)].

(** The table as stored: unsigned short, days after utc0 = JAN_1( 1972)
    (delta_t.cpp:367, 413). *)
Definition to_ushort (z : Z) : Z := z mod 65536.
Fixpoint eval_entries (L utc0 : Z) (l : list (Z * Z)) : outcome (list Z) :=
  match l with
  | [] => Ret []
  | (m, y) :: r =>
      do j <- month_macro m L y;
      do d <- ev L (j - utc0)%cx;
      do r' <- eval_entries L utc0 r;
      Ret (to_ushort d :: r')
  end.

(** delta_t.cpp:452-454: the loop from the last entry down.  [n] entries remain
    to be looked at; [None] is falling out of the loop. *)
Fixpoint leap_search (tab : list Z) (x : Z) (n : nat) : outcome (option Z) :=
  match n with
  | O => Ret None
  | S i =>
      do t <- nth_ub tab (Z.of_nat i);
      if t <=? x then Ret (Some (Z.of_nat i + 10)) else leap_search tab x i
  end.

(** What [td_minus_utc] (delta_t.cpp:410-457) computes for mjd_utc >= utc0, the
    int imjd_utc = (int)mjd_utc being given: [Tabulated n] is the return value
    n + 32.184, [Predicted low high] the value computed from
    td_minus_ut at the middle of that half-year, [Universal] is falling through to
    "return( td_minus_ut( jd_utc))".  [limit] is the global
    mjd_end_of_predictive_leap_seconds (line 370). *)
Inductive td_utc : Type :=
| Tabulated (n : Z)
| Predicted (low high : Z)
| Universal.

Definition td_minus_utc_int (L limit imjd0 : Z) : outcome td_utc :=
  let imjd := if limit <? imjd0 then limit else imjd0 in
  do dec2021 <- DEC_1 L 2021;
  if dec2021 <=? imjd then
    (do '(low, high) <- half_year L imjd; Ret (Predicted low high))
  else
    (do utc0 <- JAN_1 L 1972;
     do tab <- eval_entries L utc0 leap_entries;
     do x <- ev L (imjd - utc0)%cx;
     do r <- leap_search tab x (length tab);
     Ret (match r with Some n => Tabulated n | None => Universal end)).

(** easter.cpp:91-101 [easter_date]; the result is (month, day). *)
Definition easter_date (L year : Z) : outcome (Z * Z) :=
  do a <- ev L (year mod 19)%cx;
  do b <- ev L (year / 100)%cx;
  do c <- ev L (year mod 100)%cx;
  do d <- ev L (b / 4)%cx;
  do e <- ev L (b mod 4)%cx;
  do f <- ev L ((b + 8) / 25)%cx;
  do g <- ev L ((b - f + 1) / 3)%cx;
  do h <- ev L ((19 * a + b - d - g + 15) mod 30)%cx;
  do i <- ev L (c / 4)%cx;
  do k <- ev L (c mod 4)%cx;
  do l <- ev L ((32 + e + e + i + i - h - k) mod 7)%cx;
  do m <- ev L ((a + 11 * h + 22 * l) / 451)%cx;
  do tval <- ev L (h + l - 7 * m + 114)%cx;
  do month <- ev L (tval / 31)%cx;
  do day <- ev L (tval mod 31)%cx;
  do day1 <- ev IMAX (to_int day + 1)%cx;
  Ret (to_int month, day1).

(** easter.cpp:112-120 [easter_date_julian]; the result is (month, day). *)
Definition easter_date_julian (L year : Z) : outcome (Z * Z) :=
  do a <- ev L (year mod 4)%cx;
  do b <- ev L (year mod 7)%cx;
  do c <- ev L (year mod 19)%cx;
  do d <- ev L ((19 * c + 15) mod 30)%cx;
  do e <- ev L ((2 * a + 4 * b + 34 - d) mod 7)%cx;
  do tval <- ev L (d + e + 114)%cx;
  do month <- ev L (tval / 31)%cx;
  do day <- ev L (tval mod 31)%cx;
  do day1 <- ev IMAX (to_int day + 1)%cx;
  Ret (to_int month, day1).
