(** Model of the calendar code of /repo/date.cpp (compiled without
    LOAD_CHINESE_CALENDAR_DATA_FROM_FILE, REVOLUTIONARY_128_RULE and
    LONGS_ARE_64_BITS, as the makefile does).  [L] is the largest value of the
    C type [long]. *)
From Verif Require Import CBase ChineseData.

(* date.h:36-49 *)
Definition CALENDAR_GREGORIAN : Z := 0.
Definition CALENDAR_JULIAN : Z := 1.
Definition CALENDAR_HEBREW : Z := 2.
Definition CALENDAR_ISLAMIC : Z := 3.
Definition CALENDAR_REVOLUTIONARY : Z := 4.
Definition CALENDAR_PERSIAN : Z := 5.
Definition CALENDAR_JULIAN_GREGORIAN : Z := 6.
Definition CALENDAR_CHINESE : Z := 7.
Definition CALENDAR_MODERN_PERSIAN : Z := 8.
Definition GREGORIAN_SWITCHOVER_JD : Z := 2299160.

(* date.cpp:85-92 : static long mod( const long x, const long y) *)
Definition c_mod (L x y : Z) : outcome Z :=
  do rval <- ev L (x mod y);
  if rval <? 0 then ev L (rval + y) else Ret rval.

(** What a get_xxx_year_data( ) call leaves behind: JD of new year's day and
    the thirteen month lengths. *)
Definition year_data : Type := (Z * list Z)%type.

(* date.cpp:145 *)
Definition JUL_GREG_CALENDAR_EPOCH : Z := 1721060.

(* date.cpp:147-177 : get_jul_greg_year_data( ) *)
Definition get_jul_greg_year_data (L year : Z) (julian : bool) : outcome year_data :=
  do days <-
    (if 0 <=? year then
       do d <- ev L (year * 365 + year / 4);
       if negb julian then ev L (d + ((- year) / 100 + year / 400)) else Ret d
     else
       do d <- ev L (year * 365 + (year - 3) / 4);
       if negb julian
       then ev L (d + ((- (year - 99)) / 100 + (year - 399) / 400)) else Ret d);
  do days <- (if julian then ev L (days - 2) else Ret days);
  do r4 <- ev L (year mod 4);
  do r100 <- ev L (year mod 100);
  do r400 <- ev L (year mod 400);
  let leap := (r4 =? 0) && (negb (r100 =? 0) || (r400 =? 0) || julian) in
  do days <- (if leap then ev L (days - 1) else Ret days);
  let months := if leap
                then [31; 29; 31; 30; 31; 30; 31; 31; 30; 31; 30; 31; 0]
                else [31; 28; 31; 30; 31; 30; 31; 31; 30; 31; 30; 31; 0] in
  do days <- ev L (days + (JUL_GREG_CALENDAR_EPOCH + 1));
  Ret (days, months).

(* date.cpp:187 *)
Definition ISLAMIC_CALENDAR_EPOCH : Z := 1948086.

(* date.cpp:189-210 : get_islamic_year_data( ) *)
Definition get_islamic_year_data (L year : Z) : outcome year_data :=
  let thirty_islamic_years := 10631 in
  do year_within_cycle <- c_mod L year 30;
  do thirty_year_cycles <- ev L ((year - year_within_cycle) / 30);
  do tval <- ev L (year_within_cycle * 11 + 3);
  do rval <- ev L (ISLAMIC_CALENDAR_EPOCH + thirty_year_cycles * thirty_islamic_years
                   + year_within_cycle * 354);
  do r30 <- ev L (tval mod 30);
  let m12 := to_char (29 + (if 18 <? r30 then 1 else 0)) in
  do rval <- ev L (rval + tval / 30);
  let months := map (fun i => to_char (30 - Z.rem i 2)) [0; 1; 2; 3; 4; 5; 6; 7; 8; 9; 10] in
  Ret (rval, months ++ [m12; 0]).

(* date.cpp:220-221 *)
Definition HALAKIM_IN_DAY : Z := 24 * 1080.
Definition HEBREW_CALENDAR_EPOCH : Z := 347996.

(* date.cpp:223-232 *)
Definition lunations_to_tishri_1 (L year : Z) : outcome Z :=
  do y1 <- ev L (year - 1);
  do year_within_cycle <- c_mod L y1 19;
  do full_nineteen_year_cycles <- ev L ((year - 1 - year_within_cycle) / 19);
  do rval <- ev L (full_nineteen_year_cycles * 235 + year_within_cycle * 12);
  ev L (rval + (year_within_cycle * 7 + 1) / 19).

(* date.cpp:261-273 : adds to *days and *halakim, returns the new pair *)
Definition lunations_to_days_and_halakim (L lunations days halakim : Z)
  : outcome (Z * Z) :=
  do lunation_within_glumph <- c_mod L lunations 25920;
  do curr_glumph <- ev L ((lunations - lunation_within_glumph) / 25920);
  do days <- ev L (days + (curr_glumph * 765433 + lunation_within_glumph * 29));
  do halakim <- ev L (halakim + lunation_within_glumph * 13753);
  do days <- ev L (days + halakim / HALAKIM_IN_DAY);
  do halakim <- ev L (halakim mod HALAKIM_IN_DAY);
  Ret (days, halakim).

(* date.cpp:275-281 *)
Definition find_tishri_1 (L year : Z) : outcome (Z * Z) :=
  do l <- lunations_to_tishri_1 L year;
  lunations_to_days_and_halakim L l 2 5604.

(* date.cpp:283-286 *)
Definition is_hebrew_leap_year (L year : Z) : outcome bool :=
  do t <- ev L (year * 7 - 6);
  do r <- c_mod L t 19;
  Ret (12 <=? r).

(* date.cpp:291-318, body of the first loop: new year of [year + i] *)
Definition hebrew_days_i (L year i : Z) : outcome Z :=
  do yi <- ev L (year + i);
  do '(day, halakim) <- find_tishri_1 L yi;
  do wd <- c_mod L day 7;
  do leap_yi <- is_hebrew_leap_year L yi;
  do ym <- ev L (year - 1 + i);
  do leap_ym <- is_hebrew_leap_year L ym;
  do day <-
    (if (wd =? 3) && (9 * 1080 + 204 <=? halakim) && negb leap_yi
     then ev L (day + 2)
     else if (wd =? 2) && (15 * 1080 + 589 <=? halakim) && leap_ym
     then ev L (day + 1)
     else
       do day <- (if 18 * 1080 <? halakim then ev L (day + 1) else Ret day);
       do wd2 <- c_mod L day 7;
       if (wd2 =? 1) || (wd2 =? 4) || (wd2 =? 6) then ev L (day + 1) else Ret day);
  ev L (day + HEBREW_CALENDAR_EPOCH).

(* date.cpp:291-332 : get_hebrew_year_data( ) with month_data non-NULL.
   (C's && only evaluates the leap-year test when needed; here it is always
   evaluated, which can only add undefined outcomes.) *)
Definition get_hebrew_year_data (L year : Z) : outcome year_data :=
  do d0 <- hebrew_days_i L year 0;
  do d1 <- hebrew_days_i L year 1;
  do diff <- ev L (d1 - d0);
  let year_length := to_int diff in
  do leap <- is_hebrew_leap_year L year;
  let m1 := if (year_length =? 355) || (year_length =? 385) then 30 else 29 in
  let m2 := if (year_length =? 353) || (year_length =? 383) then 29 else 30 in
  let m5 := if leap then 30 else 29 in
  let m6 := if leap then 29 else 0 in
  Ret (d0, [30; m1; m2; 29; 30; m5; m6; 30; 29; 30; 29; 30; 29]).

(* date.cpp:424 *)
Definition REVOLUTIONARY_CALENDAR_EPOCH : Z := 2375475.

(* date.cpp:432-435 : breaks[9] and deltas[9] *)
Definition rev_breaks_deltas : list (Z * Z) :=
  [(-814, 405); (-492, 439); (-331, 498); (-108, 469); (0, 419); (144, 393);
   (301, 322); (487, 184); (611, 92)].

(* date.cpp:430-447, loop body from index i on *)
Fixpoint rev_loop (L year i : Z) (bd : list (Z * Z)) : outcome Z :=
  match bd with
  | [] => UB                  (* breaks[9] : past the end of the array *)
  | (b, d) :: rest =>
      if (year <? b) || (i =? 8) then
        do rval <- ev L (REVOLUTIONARY_CALENDAR_EPOCH + year * 365
                         + (d + year * 683) / 2820);
        do rval <- (if i <? 5 then ev L (rval - 1) else Ret rval);
        (* for( int i = 0; !rval; i++) : goes on if rval is zero *)
        if rval =? 0 then rev_loop L year (i + 1) rest else Ret rval
      else rev_loop L year (i + 1) rest
  end.
Definition jd_of_french_rev_year (L year : Z) : outcome Z :=
  rev_loop L year 0 rev_breaks_deltas.

(* date.cpp:450-460 *)
Definition get_revolutionary_year_data (L year : Z) : outcome year_data :=
  do d0 <- jd_of_french_rev_year L year;
  do y1 <- ev L (year + 1);
  do d1 <- jd_of_french_rev_year L y1;
  do m13 <- ev L (d1 - d0 - 360);
  Ret (d0, [30; 30; 30; 30; 30; 30; 30; 30; 30; 30; 30; 30; to_char m13]).

(* date.cpp:466-468 *)
Definition JALALI_ZERO : Z := 1947954.
Definition LOWER_PERSIAN_YEAR : Z := -1096.
Definition UPPER_PERSIAN_YEAR : Z := 2327.

(* date.cpp:472-475 *)
Definition jalali_breaks_deltas : list (Z * Z) :=
  [(-708, 1108); (-221, 1047); (-3, 984); (6, 1249); (394, 952); (720, 891);
   (786, 930); (1145, 866); (1635, 869); (1701, 844); (1866, 848); (2328, 852)].

(* date.cpp:479-489 *)
Fixpoint jalali_loop (L year i : Z) (bd : list (Z * Z)) : outcome Z :=
  match bd with
  | [] => Ret (-1)            (* out of valid range *)
  | (b, d) :: rest =>
      if year <? b then
        do rval <- ev L (JALALI_ZERO + year * 365 + (d + year * 303) / 1250);
        if i <? 3 then ev L (rval - 1) else Ret rval
      else jalali_loop L year (i + 1) rest
  end.

(* date.cpp:470-490 : the parameter is an int, the callers pass a long *)
Definition jalali_jd0 (L year_long : Z) : outcome Z :=
  let jalali_year := to_int year_long in
  if jalali_year <? LOWER_PERSIAN_YEAR then Ret (-1)
  else jalali_loop L jalali_year 0 jalali_breaks_deltas.

(* date.cpp:498-506 *)
Definition persian_modern_jd0 (L year : Z) : outcome Z :=
  let persian_epoch := 1948320 in
  do epbase <- ev L (year - 474);
  do m <- c_mod L epbase 2820;
  do epyear <- ev L (474 + m);
  ev L ((epyear * 31 - 5) / 128 + (epyear - 1) * 365
        + ((year - epyear) / 2820) * 1029983 + persian_epoch).

(* date.cpp:514-536 *)
Definition get_jalali_year_data (L year : Z) (is_modern : bool) : outcome year_data :=
  let is_modern := is_modern || (year <? LOWER_PERSIAN_YEAR)
                             || (UPPER_PERSIAN_YEAR <? year) in
  do y1 <- ev L (year + 1);
  do '(d0, d1) <-
    (if is_modern then
       do a <- persian_modern_jd0 L year;
       do a <- ev L (a + 1);
       do b <- persian_modern_jd0 L y1;
       do b <- ev L (b + 1);
       Ret (a, b)
     else
       do a <- jalali_jd0 L year;
       do a <- ev L (a + 1);
       do b <- jalali_jd0 L y1;
       do b <- ev L (b + 1);
       Ret (a, b));
  do m12 <- ev L (d1 - d0 - 336);
  Ret (d0, [31; 31; 31; 31; 31; 31; 30; 30; 30; 30; 30; to_char m12; 0]).

(* date.cpp:598 *)
Definition CHINESE_CALENDAR_EPOCH : Z := 757862.

(* get_bin.h:62-71 : get16sbits( ) and the three bytes (plus a zero byte) that
   get_chinese_year_data( ) hands to get32sbits( ) *)
Definition get16sbits (lo hi : Z) : Z := wrap 16 (lo + 256 * hi).
Definition get32sbits (b0 b1 b2 b3 : Z) : Z :=
  wrap 32 (b0 + 256 * b1 + 65536 * b2 + 16777216 * b3).

(* chinese.h : the array chinese_calendar_data[30004] is [chinese_bytes] *)
Definition chinese_byte (i : Z) : outcome Z := nth_ub chinese_bytes i.

(** Result of a get_chinese_year_data( ) or get_calendar_data( ) call: error
    code, new value of the static variable chinese_intercalary_month, and (for
    error code 0) the data. *)
Inductive cal_result : Type :=
| CalErr (rval : Z)
| CalOk (d : year_data).

(* date.cpp:617-618 : the loop that fills month_data[] *)
Definition chinese_months (packed_val : Z) : list Z :=
  map (fun i => if Z.testbit packed_val i then 30 else 29)
      [0; 1; 2; 3; 4; 5; 6; 7; 8; 9; 10; 11; 12].

(* date.cpp:600-630 : get_chinese_year_data( ).  [ic] is the previous value of
   the static variable chinese_intercalary_month. *)
Definition get_chinese_year_data (L ic year : Z) : outcome (cal_result * Z) :=
  do b2 <- chinese_byte 2; do b3 <- chinese_byte 3;
  do b0 <- chinese_byte 0; do b1 <- chinese_byte 1;
  do index <- ev IMAX (to_int year - get16sbits b2 b3);
  let n_years := get16sbits b0 b1 in
  if (index <? 0) || (n_years <=? index) then Ret (CalErr (-2), ic)
  else
    do c0 <- chinese_byte (4 + 3 * index);
    do c1 <- chinese_byte (4 + 3 * index + 1);
    do c2 <- chinese_byte (4 + 3 * index + 2);
    let packed_val := get32sbits c0 c1 c2 0 in
    let im := Z.rem (Z.shiftr packed_val 13) 14 in
    let months := if im =? 0 then firstn 12 (chinese_months packed_val) ++ [0]
                  else chinese_months packed_val in
    let ic' := if im =? 0 then 0 else im + 1 in
    do days <- ev L (year * 365 + year / 4 + CHINESE_CALENDAR_EPOCH
                     + (Z.shiftr packed_val 13) / 14);
    Ret (CalOk (days, months), ic').

(* date.cpp:639-672 : the switch in get_calendar_data( ) *)
Definition calendar_switch (L ic year calendar : Z) : outcome (cal_result * Z) :=
  let plain (m : outcome year_data) := do d <- m; Ret (CalOk d, ic) in
  if (calendar =? CALENDAR_GREGORIAN) || (calendar =? CALENDAR_JULIAN)
  then plain (get_jul_greg_year_data L year (calendar =? CALENDAR_JULIAN))
  else if calendar =? CALENDAR_HEBREW then plain (get_hebrew_year_data L year)
  else if calendar =? CALENDAR_ISLAMIC then plain (get_islamic_year_data L year)
  else if calendar =? CALENDAR_REVOLUTIONARY
  then plain (get_revolutionary_year_data L year)
  else if calendar =? CALENDAR_PERSIAN then
    do d <- get_jalali_year_data L year false;
    if (year <? LOWER_PERSIAN_YEAR) || (UPPER_PERSIAN_YEAR <? year)
    then Ret (CalErr (-1), ic) else Ret (CalOk d, ic)
  else if calendar =? CALENDAR_CHINESE then get_chinese_year_data L ic year
  else if calendar =? CALENDAR_MODERN_PERSIAN
  then plain (get_jalali_year_data L year true)
  else Ret (CalErr (-1), ic).

(** days[1] += month_data[i] for all i (date.cpp:675-676) *)
Fixpoint add_all (L acc : Z) (l : list Z) : outcome Z :=
  match l with
  | [] => Ret acc
  | m :: t => do a <- ev L (acc + m); add_all L a t
  end.

(** JD of new year, JD of the next new year, month lengths *)
Inductive cal_data : Type :=
| DataErr (rval : Z)
| DataOk (days0 days1 : Z) (months : list Z).

(* date.cpp:634-678 : get_calendar_data( ) *)
Definition get_calendar_data (L ic year calendar : Z) : outcome (cal_data * Z) :=
  do '(r, ic') <- calendar_switch L ic year calendar;
  match r with
  | CalErr e => Ret (DataErr e, ic')
  | CalOk (d0, months) =>
      do d1 <- add_all L d0 months;
      Ret (DataOk d0 d1 months, ic')
  end.

(* date.cpp:685 *)
Definition RETURN_DAYS_IN_MONTH : Z := -999.

(** for( int i = 0; i < month - 1; i++) jd += mdata[i];   (date.cpp:713-714) *)
Fixpoint add_first (L jd : Z) (mdata : list Z) (n : nat) : outcome Z :=
  match n with
  | O => Ret jd
  | S n' => match mdata with
            | [] => UB         (* mdata[13] *)
            | m :: t => do a <- ev L (jd + m); add_first L a t n'
            end
  end.

(* date.cpp:699-706 : which calendar dmy_to_day( ) uses *)
Definition dmy_calendar_to_use (day month year calendar : Z) : Z :=
  if calendar =? CALENDAR_JULIAN_GREGORIAN then
    if (1582 <? year) || ((year =? 1582) &&
         ((10 <? month) || ((month =? 10) && (5 <? day))))
    then CALENDAR_GREGORIAN else CALENDAR_JULIAN
  else calendar.

(* date.cpp:692-722 : dmy_to_day( ), with the static variable threaded *)
Definition dmy_to_day_st (L ic day month year calendar : Z) : outcome (Z * Z) :=
  let calendar_to_use := dmy_calendar_to_use day month year calendar in
  do '(data, ic') <- get_calendar_data L ic year calendar_to_use;
  match data with
  | DataErr _ => Ret (0, ic')
  | DataOk d0 _ mdata =>
      if day =? RETURN_DAYS_IN_MONTH then
        do i <- ev IMAX (month - 1);
        do v <- nth_ub mdata i;
        Ret (v, ic')
      else
        do n <- ev IMAX (month - 1);
        do jd <- add_first L d0 mdata (Z.to_nat n);
        do jd <- ev L (jd + (day - 1));
        Ret (jd, ic')
  end.

(** The API: the value returned, whatever the static variable was. *)
Definition dmy_to_day (L day month year calendar : Z) : outcome Z :=
  do '(v, _) <- dmy_to_day_st L 0 day month year calendar; Ret v.

(* date.cpp:724-728 : int days_in_month( ) *)
Definition days_in_month (L month year calendar : Z) : outcome Z :=
  do v <- dmy_to_day L RETURN_DAYS_IN_MONTH month year calendar;
  Ret (to_int v).

(* date.cpp:751-805 : calendar_epoch, n1, n2 of approx_year( ) *)
Definition approx_params (calendar : Z) : option (Z * Z * Z) :=
  if calendar =? CALENDAR_GREGORIAN then
    Some (JUL_GREG_CALENDAR_EPOCH, 400, 400 * 365 + 97)
  else if calendar =? CALENDAR_JULIAN then
    Some (JUL_GREG_CALENDAR_EPOCH - 2, 4, 365 * 4 + 1)
  else if calendar =? CALENDAR_HEBREW then
    Some (HEBREW_CALENDAR_EPOCH - 235, 944, 344793)
  else if calendar =? CALENDAR_ISLAMIC then
    Some (ISLAMIC_CALENDAR_EPOCH - 1, 30, 10631)
  else if calendar =? CALENDAR_REVOLUTIONARY then
    Some (REVOLUTIONARY_CALENDAR_EPOCH - 1, 2147, 784175)
  else if (calendar =? CALENDAR_PERSIAN) || (calendar =? CALENDAR_MODERN_PERSIAN) then
    Some (JALALI_ZERO + 1, 2147, 784175)
  else if calendar =? CALENDAR_CHINESE then
    Some (CHINESE_CALENDAR_EPOCH + 90, 128, 46751)
  else None.

(* date.cpp:747-813 : approx_year( ) *)
Definition approx_year (L jd calendar : Z) : outcome Z :=
  match approx_params calendar with
  | None => Ret (-1)
  | Some (calendar_epoch, n1, n2) =>
      do jd <- ev L (jd - calendar_epoch);
      do day_in_cycle <- c_mod L jd n2;
      do year <- ev L (n1 * ((jd - day_in_cycle) / n2));
      ev L (year + day_in_cycle * n1 / n2)
  end.

(* date.cpp:836-845 : the do ... while loop of day_to_dmy( ).  Returns the
   final year and the data of that year (or the error). *)
Fixpoint year_search (L : Z) (fuel : nat) (ic jd year calendar : Z)
  : outcome (Z * cal_data * Z) :=
  match fuel with
  | O => Fuel
  | S fuel' =>
      do '(data, ic') <- get_calendar_data L ic year calendar;
      match data with
      | DataErr e => Ret (year, DataErr e, ic')
      | DataOk d0 d1 mdata =>
          do y <- (if jd <? d0 then ev L (year - 1) else Ret year);
          do y <- (if d1 <=? jd then ev L (y + 1) else Ret y);
          if (jd <? d0) || (d1 <=? jd)
          then year_search L fuel' ic' jd y calendar
          else Ret (y, data, ic')
      end
  end.

(** The for loop over the months (date.cpp:849-859); [last] is the value of
    *day left by the previous round, [i] the month index. Returns day and month. *)
Fixpoint month_search (L jd curr_jd i last : Z) (mdata : list Z) : outcome (Z * Z) :=
  match mdata with
  | [] => Ret (last, -1)
  | m :: t =>
      do diff <- ev L (jd - curr_jd);
      let day := to_int diff in
      if day <? m then
        do month <- ev IMAX (i + 1);
        do day <- ev IMAX (day + 1);
        Ret (day, month)
      else
        do c <- ev L (curr_jd + m);
        month_search L jd c (i + 1) day t
  end.

(* date.cpp:822-861 : day_to_dmy( ).  [month0] is what *month held before the
   call; the result is the triple day, month, year stored through the pointers. *)
Definition day_to_dmy_st (L : Z) (fuel : nat) (ic month0 jd calendar : Z)
  : outcome (Z * Z * Z * Z) :=
  let calendar_to_use :=
    if calendar =? CALENDAR_JULIAN_GREGORIAN then
      if GREGORIAN_SWITCHOVER_JD <? jd then CALENDAR_GREGORIAN else CALENDAR_JULIAN
    else calendar in
  do y0 <- approx_year L jd calendar_to_use;
  do '(y, data, ic') <- year_search L fuel ic jd y0 calendar_to_use;
  match data with
  | DataErr _ => Ret (-1, month0, y, ic')
  | DataOk d0 _ mdata =>
      do '(d, m) <- month_search L jd d0 0 (-1) mdata;
      Ret (d, m, y, ic')
  end.

Definition day_to_dmy (L : Z) (fuel : nat) (month0 jd calendar : Z)
  : outcome (Z * Z * Z) :=
  do '(d, m, y, _) <- day_to_dmy_st L fuel 0 month0 jd calendar; Ret (d, m, y).

(* date.cpp:680-683 : get_chinese_intercalary_month( ) returns the static
   variable, i.e. the fourth component of [day_to_dmy_st]'s result. *)
