(** miscell.cpp:262-464: writing a time as text, full_ctimel( ) and full_ctime( ).

    Simplifications: long doubles are exact rationals; the names of months and
    days are the ones the library starts with (date.cpp:120-126); snprintf's %Lf
    rounds to the nearest number with the digits asked for, ties to an even last
    digit, as the C library does for numbers it holds exactly.  month_str and
    year_str are only ever written by functions that end the program if the text
    does not fit, and are modelled by their contents; day_str, which is also
    written by show_remainder( ), is a buffer of 15 bytes.  [buff] is the caller's
    buffer. *)
From Coq Require Import QArith Qround.
From Coq Require Import String.
From Verif Require Import CBase CStr DateModel StrModel TstrModel.
Local Open Scope string_scope.
Local Open Scope list_scope.
Local Open Scope Z_scope.

(** date.h:45-67 *)
Definition FULL_CTIME_FORMAT_MASK : Z := 1792.
Definition FULL_CTIME_FORMAT_SECONDS : Z := 0.
Definition FULL_CTIME_FORMAT_HH_MM : Z := 256.
Definition FULL_CTIME_FORMAT_HH : Z := 512.
Definition FULL_CTIME_FORMAT_DAY : Z := 768.
Definition FULL_CTIME_FORMAT_YEAR : Z := 1024.
Definition FULL_CTIME_FORMAT_JD : Z := 1280.
Definition FULL_CTIME_FORMAT_MJD : Z := 1536.
Definition FULL_CTIME_YEAR_FIRST : Z := 2048.
Definition FULL_CTIME_MONTH_DAY : Z := 4096.
Definition FULL_CTIME_MONTHS_AS_DIGITS : Z := 8192.
Definition FULL_CTIME_TIME_ONLY : Z := 16384.
Definition FULL_CTIME_LEADING_ZEROES : Z := 32768.
Definition FULL_CTIME_TWO_DIGIT_YEAR : Z := 65536.
Definition FULL_CTIME_NO_YEAR : Z := 131072.
Definition FULL_CTIME_DAY_OF_WEEK_FIRST : Z := 262144.
Definition FULL_CTIME_DAY_OF_WEEK_LAST : Z := 524288.
Definition FULL_CTIME_NO_SPACES : Z := 1048576.
Definition FULL_CTIME_ROUNDING : Z := 2097152.
Definition FULL_CTIME_NO_COLONS : Z := 4194304.
Definition FULL_CTIME_DAY_OF_YEAR : Z := 8388608.

(** format & bit *)
Definition has (format bit : Z) : bool := negb (Z.land format bit =? 0).

(** %[w]ld, padded with spaces *)
Definition padsp (w : nat) (v : Z) : list Z :=
  let d := dec v in repeat 32 (w - List.length d) ++ d.
(** "%02d" or "%2d" *)
Definition padded (zeroes : bool) (w : nat) (v : Z) : list Z :=
  if zeroes then pad0 w v else padsp w v.

(** The integer nearest to a rational that is not negative, ties to even. *)
Definition nearest (q : Q) : Z :=
  let f := Qfloor q in
  let r := (q - inject_Z f)%Q in
  match Qcompare r (1 # 2) with
  | Lt => f
  | Gt => f + 1
  | Eq => if Z.even f then f else f + 1
  end.
(** %.[n]Lf *)
Definition fixed (n : nat) (q : Q) : list Z :=
  let neg := match Qcompare q 0 with Lt => true | _ => false end in
  let v := nearest ((if neg then - q else q) * inject_Z (10 ^ Z.of_nat n))%Q in
  (if neg then [45] else []) ++ digits 100 (v / 10 ^ Z.of_nat n) [] ++
  (match n with O => [] | _ => 46 :: pad0 n (v mod 10 ^ Z.of_nat n) end).

(** for( i = precision; i; i--) add_on /= 10.;   (miscell.cpp:322-323) *)
Fixpoint tenths (n : nat) (add_on : Q) : Q :=
  match n with O => add_on | S n' => tenths n' (add_on / 10)%Q end.

(** miscell.cpp:272-281, the loop of show_remainder( ) *)
Fixpoint show_digits (precision : nat) (b : buf) (i : Z) (remainder : Q) : outcome (buf * Z) :=
  match precision with
  | O => Ret (b, i)
  | S n =>
      let remainder := (remainder * 10)%Q in
      let digit := Qfloor remainder in              (* not negative: (unsigned) cuts *)
      do b <- wr b i (to_char (48 + digit));
      if negb (digit <=? 9) then Abort else
      show_digits n b (i + 1) (remainder - inject_Z digit)%Q
  end.
(** miscell.cpp:266-283 [show_remainder], at offset i of a buffer *)
Definition show_remainder (b : buf) (i : Z) (remainder : Q) (precision : nat) : outcome buf :=
  do b <- wr b i 46;
  if negb (Qle_bool 0 remainder && negb (Qle_bool 1 remainder)) then Abort else
  do '(b, i) <- show_digits precision b (i + 1) remainder;
  wr b i 0.

(** miscell.cpp:285-293 [remove_char]; [fuel] bounds the rounds *)
Fixpoint remove_loop (fuel : nat) (b : buf) (i j removed : Z) : outcome buf :=
  match fuel with
  | O => Fuel
  | S f =>
      do c <- rd b i;
      if c =? 0 then wr b j 0
      else if negb (c =? removed)
           then do b <- wr b j c; remove_loop f b (i + 1) (j + 1) removed
           else remove_loop f b (i + 1) j removed
  end.
Definition remove_char (b : buf) (removed : Z) : outcome buf :=
  remove_loop (S (List.length b)) b 0 0 removed.

(** while( *buff == ' ') *buff++ = '0';   (miscell.cpp:343-345 and 362-364) *)
Fixpoint zero_loop (fuel : nat) (b : buf) (i : Z) : outcome buf :=
  match fuel with
  | O => Fuel
  | S f => do c <- rd b i;
           if c =? 32 then do b <- wr b i 48; zero_loop f b (i + 1) else Ret b
  end.

(** The contents of a buffer of [size] bytes after snprintf_err( ) or
    strlcpy_err( ) wrote [s]. *)
Definition fit (size : nat) (s : list Z) : outcome (list Z) :=
  if (List.length s <? size)%nat then Ret s else Abort.

(** set_month_name( month, NULL) (date.cpp:128-134), used as a string: the 13th
    name is a NULL pointer. *)
Definition month_name (month : Z) : outcome (list Z) :=
  if negb ((1 <=? month) && (month <=? 13)) then Abort
  else if month =? 13 then UB
  else nth_ub month_names (month - 1).
(** set_day_of_week_name( day_of_week, NULL) (date.cpp:136-143) *)
Definition day_name (day_of_week : Z) : outcome (list Z) :=
  if negb ((0 <=? day_of_week) && (day_of_week <? 7)) then Abort
  else nth_ub day_names day_of_week.

(** miscell.cpp:384-423: the date, appended to buff *)
Definition show_date (L ic : Z) (buff : buf) (format : Z) (precision : nat)
    (output_format int_t2k day month year calendar : Z) (remains : Q) : outcome buf :=
  let zeroes := has format FULL_CTIME_LEADING_ZEROES in
  do month_str <-                                                      (* 389-392 *)
    (if has format FULL_CTIME_MONTHS_AS_DIGITS then fit 25 (padded zeroes 2 month)
     else do n <- month_name month; fit 25 n);
  do year_str <-                                                       (* 394-397 *)
    (if has format FULL_CTIME_TWO_DIGIT_YEAR
     then fit 20 (pad0 2 (Z.abs (Z.rem (to_int year) 100)))
     else fit 20 (padded zeroes 4 year));
  do buff <-                                                           (* 399-401 *)
    (if has format FULL_CTIME_YEAR_FIRST && negb (has format FULL_CTIME_NO_YEAR)
     then do '(_, b) <- snprintf_append buff 0 80 (year_str ++ zs " "); Ret b
     else Ret buff);
  do '(_, day_str) <- snprintf_err (repeat None 15) 0 15 (padded zeroes 2 day);   (* 403 *)
  do day_str <-                                                        (* 404-405 *)
    (if (output_format =? FULL_CTIME_FORMAT_DAY) && negb (Nat.eqb precision 0)
     then show_remainder day_str 2 remains precision else Ret day_str);
  do '(_, buff) <-                                                     (* 407-416 *)
    (if has format FULL_CTIME_DAY_OF_YEAR then
       do jd <- ev L (int_t2k + 2451545)%cx;
       do '(jd0, _) <- dmy_to_day_st L ic 0 1 year calendar;
       do diff <- ev L (jd - jd0)%cx;
       do tail <- buf_str 16 day_str 2;
       snprintf_append buff 0 80 (pad0 3 (to_int diff) ++ tail)
     else
       do d <- buf_str 16 day_str 0;
       if has format FULL_CTIME_MONTH_DAY
       then snprintf_append buff 0 80 (month_str ++ zs " " ++ d)
       else snprintf_append buff 0 80 (d ++ zs " " ++ month_str));
  do buff <-                                                           (* 418-420 *)
    (if negb (has format FULL_CTIME_YEAR_FIRST) && negb (has format FULL_CTIME_NO_YEAR)
     then do '(_, b) <- snprintf_append buff 0 80 (zs " " ++ year_str); Ret b
     else Ret buff);
  if negb (output_format =? FULL_CTIME_FORMAT_DAY)                     (* 421-422 *)
  then do '(_, b) <- strlcat_err buff 0 (zs " ") 80; Ret b
  else Ret buff.

(** miscell.cpp:425-450: the time of day, appended to buff *)
Definition show_time (L : Z) (buff : buf) (format : Z) (precision : nat)
    (output_format units : Z) (remains : Q) : outcome buf :=
  let remains := (remains * inject_Z units)%Q in
  do i <- chk L (Qfloor remains);                                      (* 426 *)
  do i <- (if i =? units then ev L (i - 1)%cx else Ret i);             (* 427-428 *)
  do lead <- buf_len (S (List.length buff)) buff 0;                    (* 429 *)
  do buff <-                                                           (* 430-442 *)
    (if output_format =? FULL_CTIME_FORMAT_SECONDS then
       do '(_, b) <- snprintf_append buff 0 80
         (padsp 2 (Z.quot i 3600) ++ zs ":" ++ pad0 2 (Z.rem (Z.quot i 60) 60) ++ zs ":" ++ pad0 2 (Z.rem i 60));
       Ret b
     else if output_format =? FULL_CTIME_FORMAT_HH_MM then
       do '(_, b) <- snprintf_append buff 0 80
         (padsp 2 (Z.quot i 60) ++ zs ":" ++ pad0 2 (Z.rem i 60));
       Ret b
     else if output_format =? FULL_CTIME_FORMAT_HH then
       do '(_, b) <- snprintf_append buff 0 80 (padsp 2 i); Ret b
     else Ret buff);
  if output_format =? FULL_CTIME_FORMAT_DAY then Ret buff else         (* 443-450 *)
  do buff <-
    (if has format FULL_CTIME_LEADING_ZEROES then
       do c <- rd buff lead;
       if c =? 32 then wr buff lead 48 else Ret buff
     else Ret buff);
  if negb (Nat.eqb precision 0) then
    do n <- buf_len (S (List.length buff)) buff 0;
    show_remainder buff n (remains - inject_Z i)%Q precision
  else Ret buff.

(** miscell.cpp:368-457: all formats but years and Julian days.  [ic], [month0]:
    the calendars' static variable and the initial contents of [month]. *)
Definition show_calendar (L : Z) (fuel : nat) (ic month0 : Z) (buff : buf) (t2k : Q) (format : Z)
    (precision : nat) (output_format units : Z) : outcome buf :=
  let calendar := Z.land format 15 in
  let t2k := (t2k + (1 # 2))%Q in
  do int_t2k <- chk L (Qfloor t2k);                                    (* 369 *)
  do d6 <- ev L (int_t2k + 6)%cx;
  let day_of_week := Z.rem d6 7 in                                     (* 370 *)
  let day_of_week := if day_of_week <? 0 then day_of_week + 7 else day_of_week in
  do buff <-                                                           (* 373-377 *)
    (if has format FULL_CTIME_DAY_OF_WEEK_FIRST then
       do n <- day_name day_of_week;
       do '(_, b) <- snprintf_err buff 0 80 (n ++ zs " "); Ret b
     else wr buff 0 0);
  do jd <- ev L (int_t2k + 2451545)%cx;                                (* 379 *)
  do '(day, month, year, ic) <- day_to_dmy_st L fuel ic month0 jd calendar;
  let remains := (t2k - inject_Z int_t2k)%Q in                         (* 381 *)
  do buff <-
    (if negb (has format FULL_CTIME_TIME_ONLY)
     then show_date L ic buff format precision output_format int_t2k day month year calendar remains
     else Ret buff);
  do buff <- show_time L buff format precision output_format units remains;
  do buff <-                                                           (* 451-453 *)
    (if has format FULL_CTIME_DAY_OF_WEEK_LAST then
       do n <- day_name day_of_week;
       do '(_, b) <- snprintf_append buff 0 80 (zs " " ++ n); Ret b
     else Ret buff);
  do buff <- (if has format FULL_CTIME_NO_SPACES then remove_char buff 32 else Ret buff);
  if has format FULL_CTIME_NO_COLONS then remove_char buff 58 else Ret buff.

(** miscell.cpp:331-347: years of 365.25 days *)
Definition show_year (buff : buf) (t2k : Q) (format : Z) (precision : nat) : outcome buf :=
  let s := fixed 16 (t2k / (36525 # 100) + 2000)%Q in
  do '(_, tbuff) <- snprintf_err (repeat None 40) 0 40 (repeat 32 (21 - List.length s) ++ s);
  do tbuff <- wr tbuff (Z.of_nat precision + 5) 0;
  do tbuff <- (if Nat.eqb precision 0 then wr tbuff 4 0 else Ret tbuff);
  do text <- buf_str 41 tbuff 0;
  do '(_, buff) <- strlcpy_err buff 0 text 80;
  if has format FULL_CTIME_LEADING_ZEROES then zero_loop (S (List.length buff)) buff 0
  else Ret buff.

(** miscell.cpp:348-366: Julian days and modified Julian days *)
Definition show_jd (buff : buf) (t2k : Q) (format : Z) (precision : nat) (mjd : bool) : outcome buf :=
  do '(buff, off, t2k) <-
    (if mjd then do b <- wr buff 0 77; Ret (b, 1, (t2k + ((2451545 # 1) - (24000005 # 10)))%Q)
     else Ret (buff, 0, (t2k + (2451545 # 1))%Q));
  do '(_, buff) <- snprintf_err buff off 80 (zs "JD " ++ fixed precision t2k);
  if has format FULL_CTIME_LEADING_ZEROES then zero_loop (S (List.length buff)) buff off
  else Ret buff.

(** miscell.cpp:300-458 [full_ctimel] *)
Definition full_ctimel (L : Z) (fuel : nat) (ic month0 : Z) (buff : buf) (t2k : Q) (format : Z)
  : outcome buf :=
  let precision := Z.to_nat (Z.land (Z.shiftr format 4) 15) in
  let output_format := Z.land format FULL_CTIME_FORMAT_MASK in
  let units :=                                                         (* 314-321 *)
    if output_format =? FULL_CTIME_FORMAT_SECONDS then 86400
    else if output_format =? FULL_CTIME_FORMAT_HH_MM then 1440
    else if output_format =? FULL_CTIME_FORMAT_HH then 24 else 1 in
  let add_on := tenths precision 1 in                                  (* 322-328 *)
  let add_on := if has format FULL_CTIME_ROUNDING
                then (add_on * ((1 # 2) / inject_Z units))%Q
                else (add_on * ((5 # 100) / 86400))%Q in
  let t2k := (t2k + add_on)%Q in
  if output_format =? FULL_CTIME_FORMAT_YEAR then show_year buff t2k format precision
  else if (output_format =? FULL_CTIME_FORMAT_JD) || (output_format =? FULL_CTIME_FORMAT_MJD)
  then show_jd buff t2k format precision (output_format =? FULL_CTIME_FORMAT_MJD)
  else show_calendar L fuel ic month0 buff t2k format precision output_format units.

(** miscell.cpp:460-463 [full_ctime]; the subtraction is exact. *)
Definition full_ctime (L : Z) (fuel : nat) (ic month0 : Z) (buff : buf) (jd : Q) (format : Z)
  : outcome buf :=
  full_ctimel L fuel ic month0 buff (jd - (2451545 # 1))%Q format.
