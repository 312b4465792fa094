(** Model of the 80-column report format: mpc_fmt.cpp:39-455 (date, right ascension
    and declination of a report), mpc_fmt2.cpp (writing angles) and quick_strtod( )
    of mpc_code.cpp.

    Simplifications: doubles are exact rationals.  A string argument is the list of
    its bytes before the terminator; a pointer into it is the rest of the list. *)
From Coq Require Import QArith Qround.
From Coq Require Import String.
From Verif Require Import CBase CStr DateModel StrModel TstrModel CtimeModel.
Local Open Scope string_scope.
Local Open Scope list_scope.
Local Open Scope Z_scope.

(** ---- mpc_code.cpp:217-265, numbers in text ---- *)
Definition skip_spaces (s : list Z) : list Z := skipn (span (Z.eqb 32) s) s.
(** 236-237: the digits before the point *)
Fixpoint int_digits (s : list Z) (integer_part : Z) : outcome (Z * list Z) :=
  match s with
  | c :: r =>
      if isdigit c then do v <- ev IMAX (integer_part * 10 + (c - 48))%cx; int_digits r v
      else Ret (integer_part, s)
  | [] => Ret (integer_part, s)
  end.
(** 248-252: the digits after it *)
Fixpoint frac_digits (s : list Z) (frac_part divisor : Z) : outcome (Z * Z * list Z) :=
  match s with
  | c :: r =>
      if isdigit c then
        do v <- ev IMAX (frac_part * 10 + (c - 48))%cx;
        do d <- ev IMAX (divisor * 10)%cx;
        frac_digits r v d
      else Ret (frac_part, divisor, s)
  | [] => Ret (frac_part, divisor, s)
  end.
(** 217-260 [quick_strtod]: the value and *endptr (where reading ended) *)
Definition quick_strtod (ibuff : list Z) : outcome (Q * list Z) :=
  let s := skip_spaces ibuff in
  let '(is_negative, s) := sign_of s in
  let got_a_digit := match s with c :: _ => isdigit c | [] => false end in
  do '(integer_part, s) <- int_digits s 0;
  match s with
  | 46 :: s =>
      if negb (match s with c :: _ => isdigit c | [] => false end) && negb got_a_digit
      then Ret (0%Q, ibuff)
      else
        do '(frac_part, divisor, s) <- frac_digits s 0 1;
        let rval := (inject_Z integer_part + inject_Z frac_part / inject_Z divisor)%Q in
        Ret ((if is_negative then - rval else rval)%Q, s)
  | _ => let rval := inject_Z integer_part in
         Ret ((if is_negative then - rval else rval)%Q, s)
  end.
(** 262-265 [quick_atof] *)
Definition quick_atof (ibuff : list Z) : outcome Q := do '(v, _) <- quick_strtod ibuff; Ret v.

(** ---- mpc_fmt.cpp:39-63 ---- *)
(** 39-47 [is_valid_mpc_code] *)
Definition is_valid_mpc_code (s : list Z) : outcome bool :=
  let ok c := negb ((c <=? 32) || (122 <? c)) in
  tst s 0 ok &&& tst s 1 ok &&& tst s 2 ok.
(** 51-58 [quick_atoi] *)
Definition quick_atoi (s : list Z) : outcome Z := do '(v, _) <- int_digits s 0; Ret v.
(** 60-63 [get_two_digits] *)
Definition get_two_digits (s : list Z) (i : Z) : outcome Z :=
  do a <- at_ s i; do b <- at_ s (i + 1); ev IMAX (a * 10 + b - 48 * 11)%cx.

(** memcpy( to, s, n): n bytes of the string s, its terminator being one of them if s
    is too short by one. *)
Fixpoint copy_bytes (n : nat) (s : list Z) : outcome (list Z) :=
  match n with
  | O => Ret []
  | S m => match s with
           | c :: r => do l <- copy_bytes m r; Ret (c :: l)
           | [] => match m with O => Ret [0] | _ => UB end
           end
  end.

(** ---- 163-284 [extract_date_from_mpc_report] ---- *)
(** 180-182: a bit for each digit *)
Fixpoint digit_bits (s : list Z) (bit : Z) : Z :=
  match s with
  | [] => 0
  | c :: r => (if isdigit c then bit else 0) + digit_bits r (bit * 2)
  end.
(** 205-206: trailing blanks; [i] is how many bytes may still be looked at *)
Fixpoint blank_divisor (n : nat) (tbuff : list Z) (divisor : Z) : Z :=
  match n with
  | O => divisor
  | S m => if nth (11 + n) tbuff 0 =? 32 then blank_divisor m tbuff (Z.quot divisor 10) else divisor
  end.
(** 263-265: digits from [i] on; tbuff ends with a terminator *)
Definition count_digits (tbuff : list Z) (i : nat) : Z := Z.of_nat (span isdigit (skipn i tbuff)).
Definition atof (s : list Z) : outcome Q := do '(v, _) <- strtold s; Ret v.

(** 184-193: blanks in place of the zeroes of month and day; the date and its mask after that *)
Definition fill_zeroes (tbuff : list Z) (m : Z) : list Z * Z :=
  let t i := nth i tbuff 0 in
  if negb (Z.land m 1023 =? 879) && (Z.land m 735 =? 591) && (t 7%nat =? 32) && (t 10%nat =? 46)
  then
    let b := if t 5%nat =? 32 then upd tbuff 5 48 else tbuff in
    let b := if nth 8 b 0 =? 32 then upd b 8 48 else b in
    (b, Z.lor m (32 + 256))
  else (tbuff, m).
(** 194-259: rval, year, month, format_found and start_of_decimals.  [m] is digits_mask. *)
Definition date_fields (tbuff : list Z) (m : Z) : outcome (Q * Z * Z * Z * nat) :=
  let t i := nth i tbuff 0 in
  let none := Ret (0%Q, 0, 0, 0, 0%nat) in
  if t 4%nat =? 32 then                                                (* 194-212 *)
    if (Z.land m 1023 =? 879) && (t 7%nat =? 32) && (t 10%nat =? 46) then
      do year <- quick_atoi tbuff;
      do month <- get_two_digits tbuff 5;
      let divisor := blank_divisor 5 tbuff 1000000 in
      do d <- get_two_digits tbuff 8;
      do f <- quick_atoi (skipn 11 tbuff);
      Ret ((inject_Z d + inject_Z f / inject_Z divisor)%Q, year, month, 0, 11%nat)
    else none
  else if (72 <=? t 0%nat) && (t 0%nat <=? 75) then                    (* 213-243 *)
    if ((t 7%nat =? 46) || (t 7%nat =? 58)) && (Z.land m 1023 =? 894) then
      do y2 <- get_two_digits tbuff 1;
      do year <- ev IMAX ((t 0%nat - 74) * 100 + 1900 + y2)%cx;
      do month <- get_two_digits tbuff 3;
      do rval <- atof (skipn 5 tbuff);
      if t 7%nat =? 58 then
        do hh <- get_two_digits tbuff 8;
        do mm <- get_two_digits tbuff 10;
        let rval := (rval + (inject_Z hh / 24 + inject_Z mm / 1440))%Q in
        if negb (t 12%nat =? 32) then
          do ss <- get_two_digits tbuff 12;
          let rval := (rval + inject_Z ss / 86400)%Q in
          do f <- atof (skipn 13 (upd tbuff 13 46));
          Ret ((rval + f / 86400)%Q, year, month, 20, 14%nat)
        else Ret (rval, year, month, 50, 0%nat)
      else Ret (rval, year, month, 30, 8%nat)
    else none
  else if t 7%nat =? 46 then                                           (* 244-259 *)
    if Z.land m 1022 =? 894 then
      if t 0%nat =? 77 then
        do v <- atof (skipn 1 tbuff); Ret (((24000005 # 10) + v)%Q, 0, 0, 40, 8%nat)
      else do v <- atof tbuff; Ret (v, 0, 0, 10, 8%nat)
    else none
  else none.
(** 269-271 *)
Definition add_month (L : Z) (rval : Q) (year month : Z) : outcome Q :=
  if (1 <=? month) && (month <=? 12) && qlt 0 rval && qlt rval 99 then
    do jd <- dmy_to_day L 0 month year CALENDAR_JULIAN_GREGORIAN;
    Ret (rval + (inject_Z jd - (1 # 2)))%Q
  else Ret rval.
(** 275-282: radar times *)
Definition radar (b14 : Z) (rval : Q) : Q :=
  if negb (Qeq_bool rval 0) && ((b14 =? 82) || (b14 =? 114)) then
    let time_of_day := (rval - inject_Z (Qfloor rval))%Q in
    let half := (1 # 172800)%Q in
    let x := (time_of_day + half)%Q in
    let fmod := (x - inject_Z (Qfloor (x * 86400)) / 86400)%Q in
    (rval + (half - fmod))%Q
  else rval.

(** Value and format.  [L] is LONG_MAX.  (An array of 17 bytes, tbuff, then a terminator.) *)
Definition extract_date_from_mpc_report (L : Z) (buff : list Z) : outcome (Q * option Z) :=
  let len := Z.of_nat (List.length buff) in
  if (len <? 80) || (82 <? len) then Ret (0%Q, None) else
  let b12 := nth 12 buff 0 in
  if negb (b12 =? 32) && negb (b12 =? 42) && negb (b12 =? 45) then Ret (0%Q, None) else
  do ok <- is_valid_mpc_code (skipn 77 buff);
  if negb ok then Ret (0%Q, None) else
  do tbuff <- copy_bytes 17 (skipn 15 buff);
  let '(tbuff, m) := fill_zeroes tbuff (digit_bits tbuff 1) in
  do '(rval, year, month, format_found, start_of_decimals) <- date_fields tbuff m;
  let format_found :=                                                  (* 261-267 *)
    match start_of_decimals with O => format_found | s => format_found + count_digits tbuff s end in
  do rval <- add_month L rval year month;
  Ret (radar (nth 14 buff 0) rval, Some format_found).

(** ---- 346-432 [get_ra_dec] ---- *)
Definition BAD_RA_DEC_FMT : Z := -99.
(** 374-378: further digits, [factor] after each *)
Fixpoint more_digits (s : list Z) (factor rval : Q) : Q :=
  match s with
  | c :: r => if isdigit c then let f := (factor * (1 # 10))%Q in more_digits r f (rval + inject_Z (c - 48) * f)%Q
              else rval
  | [] => rval
  end.
Fixpoint times_tenth (n : nat) (x : Q) : Q :=
  match n with O => x | S m => times_tenth m (x * (1 # 10))%Q end.
(** The number of digits from [i] on (up to byte 12). *)
Definition n_digits_from (buff : list Z) (i : nat) : nat := span isdigit (skipn i buff).

(** 358-428: the twelve columns without a sign: value, format, the precision of a whole unit,
    number of decimals *)
Definition ra_dec_fields (is_dec : bool) (buff : list Z) : outcome (Q * Z * Q * nat) :=
  let b i := nth i buff 0 in
  do rval <- quick_atof buff;
  let i := span isdigit buff in
  if (7 <? Z.of_nat i) then                                         (* 362-381 *)
    do tval <- atoi (firstn 6 buff);
    let v := (inject_Z (tval / 10000) + inject_Z (tval / 100 mod 100) / 60 + inject_Z (tval mod 100) / 3600)%Q in
    Ret (more_digits (skipn 6 buff) (1 # 3600) v, 300 + Z.of_nat i, 1%Q, (i - 6)%nat)
  else if b 2%nat =? 46 then                                        (* 382-388 *)
    let n := n_digits_from buff 3 in
    Ret (rval, 100 + Z.of_nat n, 3600%Q, n)
  else if b 3%nat =? 46 then                                        (* 389-396 *)
    let n := n_digits_from buff 4 in
    Ret ((rval / 15)%Q, 200 + Z.of_nat n, (3600 / 15)%Q, n)
  else if (b 2%nat =? 32) && (Nat.eqb i 2) then                     (* 397-414 *)
    do m <- quick_atof (skipn 3 buff);
    let rval := (rval + m / 60)%Q in
    if (b 5%nat =? 32) && isdigit (b 7%nat) then
      do s <- quick_atof (skipn 6 buff);
      let n := n_digits_from buff 9 in
      Ret ((rval + s / 3600)%Q, Z.of_nat n, 1%Q, n)
    else
      let n := n_digits_from buff 6 in
      Ret (rval, - (Z.of_nat n + 1), 60%Q, n)
  else if (b 3%nat =? 32) && (Nat.eqb i 3) && negb is_dec then      (* 415-424 *)
    do m <- quick_atof (skipn 4 buff);
    do s <- quick_atof (skipn 7 buff);
    let n := n_digits_from buff 10 in
    Ret (((rval + (m / 60 + s / 3600)) / 15)%Q, 400 + Z.of_nat n, (1 # 15)%Q, n)
  else Ret (rval, BAD_RA_DEC_FMT, 1%Q, 0%nat).                     (* 425-428 *)
(** 346-432: value, format and precision *)
Definition get_ra_dec (ibuff : list Z) : outcome (Q * Z * Q) :=
  do c0 <- at_ ibuff 0;
  let is_dec := (c0 =? 45) || (c0 =? 43) in
  let is_negative := c0 =? 45 in
  let ibuff := if is_dec then tl ibuff else ibuff in
  do buff <- copy_bytes 12 ibuff;
  do '(rval, format, precision, n_digits) <- ra_dec_fields is_dec buff;
  let precision := times_tenth n_digits precision in
  Ret ((if is_negative then - rval else rval)%Q, format, precision).

(** 441-464 [get_ra_dec_from_mpc_report]: the return value, then format, value and
    precision of the right ascension (in hours; the code goes on to radians, and to
    precisions in arcseconds) and of the declination (in degrees). *)
Definition get_ra_dec_from_mpc_report (ibuff : list Z)
  : outcome (Z * (Z * Q * Q) * (Z * Q * Q)) :=
  do '(ra, f1, p1) <- get_ra_dec (skipn 32 ibuff);
  let rval := if f1 =? BAD_RA_DEC_FMT then -1 else 0 in
  do '(dec, f2, p2) <- get_ra_dec (skipn 44 ibuff);
  let rval := if f2 =? BAD_RA_DEC_FMT then rval - 2 else rval in
  Ret (rval, (f1, ra, (p1 * 15)%Q), (f2, dec, p2)).

(** ---- mpc_fmt2.cpp ---- *)
Definition I64MAX : Z := 9223372036854775807.
(** 9-16 [ten_to_the_nth] *)
Fixpoint ten_to_the_nth (n : nat) (rval : Z) : outcome Z :=
  match n with O => Ret rval | S m => do r <- ev I64MAX (rval * 10)%cx; ten_to_the_nth m r end.

(** 18-41 [text_search_and_replace]: the string after the call and the return value.
    (The room after str is the caller's business.)  [fuel] bounds the rounds. *)
Fixpoint text_search_and_replace (fuel : nat) (str oldstr newstr : list Z) : outcome (list Z * Z) :=
  if Nat.leb (List.length oldstr) (List.length str) then
    match fuel with
    | O => Fuel
    | S f =>
        if prefix oldstr str then
          do '(s, n) <- text_search_and_replace f (skipn (List.length oldstr) str) oldstr newstr;
          Ret (newstr ++ s, n + 1)
        else do '(s, n) <- text_search_and_replace f (tl str) oldstr newstr;
             Ret (firstn 1 str ++ s, n)
    end
  else Ret (str, 0).

(** (unsigned) of an integer *)
Definition u32 (z : Z) : Z := z mod 4294967296.
(** snprintf( obuff, n, ...), its value not used *)
Definition snprintf (b : buf) (off : Z) (n : nat) (out : list Z) : outcome buf :=
  do '(_, b) <- vsnprintf b off n out; Ret b.
(** 145-146: blanks from the end of the string to full_len *)
Fixpoint fill_blanks (n : nat) (b : buf) (i : Z) : outcome buf :=
  match n with O => Ret b | S m => do b <- wr b i 32; fill_blanks m b (i + 1) end.

(** 46-125: everything up to the decimals.  Returns the buffer, precision,
    n_digits_to_show and fraction. *)
Definition angle_fields (b : buf) (off : Z) (angle : Q) (precision : Z) : outcome (buf * Z * nat * Z) :=
  let between lo hi := (lo <=? precision) && (precision <=? hi) in
  let scaled a power_mul := to_integer I64MAX (a * inject_Z power_mul + (1 # 2))%Q in
  if between 100 116 || between 200 215 then                           (* 51-64 *)
    let two_digits := precision <=? 200 in
    let n := Z.to_nat (Z.rem precision 100) in
    do power_mul <- ten_to_the_nth n 1;
    do fraction <- scaled (angle * (if two_digits then 1 else 15))%Q power_mul;
    do b <- snprintf b off 4 (pad0 (if two_digits then 2 else 3) (u32 (to_int (Z.quot fraction power_mul))));
    Ret (b, precision, n, Z.rem fraction power_mul)
  else if between (-7) (-1) then                                       (* 67-82 *)
    let n := Z.to_nat (-1 - precision) in
    do power_mul <- ten_to_the_nth n 1;
    do fraction <- scaled (angle * 60)%Q power_mul;
    do b <- snprintf b off 6 (pad0 2 (u32 (Z.quot fraction (60 * power_mul))) ++ 32 ::
                              pad0 2 (u32 (Z.quot fraction power_mul) mod 60));
    Ret (b, precision, n, Z.rem fraction power_mul)
  else if between 0 9 || between 307 312 || between 400 402 then       (* 83-118 *)
    let ddd := 400 <=? precision in
    let precision := if ddd then precision - 400 else precision in
    let angle := if ddd then (angle * 15)%Q else angle in
    let n := Z.to_nat (Z.rem precision 306) in
    do power_mul <- ten_to_the_nth n 1;
    do fraction <- scaled (angle * 3600)%Q power_mul;
    do b <- snprintf b off 10 (pad0 (if ddd then 3 else 2) (u32 (Z.quot fraction (3600 * power_mul))) ++ 32 ::
                               pad0 2 (u32 (Z.quot fraction (60 * power_mul)) mod 60) ++ 32 ::
                               pad0 2 (u32 (Z.quot fraction power_mul) mod 60));
    do b <- (if 306 <? precision then
               do s <- buf_str (S (List.length b)) b off;
               do '(s, _) <- text_search_and_replace (List.length s) s [32] [];
               store b off (s ++ [0])
             else Ret b);
    Ret (b, precision, n, Z.rem fraction power_mul)
  else                                                                 (* 119-125 *)
    do b <- (if qlt (- (1000)) angle && qlt angle 1000
             then snprintf b off 10 (63 :: fixed 5 angle)
             else do '(_, b) <- strlcpy_err b off [63] 8; Ret b);
    Ret (b, precision, 0%nat, 0).
(** 49, 129-134 *)
Definition full_len (precision : Z) : Z :=
  let between lo hi := (lo <=? precision) && (precision <=? hi) in
  12 + (if between 4 11 then precision - 3 else 0)
     + (if between 209 215 then precision - 208 else 0)
     + (if between 110 116 then precision - 109 else 0).
(** 135-147: decimals and blanks *)
Definition angle_decimals (b : buf) (off : Z) (precision : Z) (n_digits_to_show : nat) (fraction : Z) : outcome buf :=
  do b <-
    (if Nat.eqb n_digits_to_show 0 then Ret b
     else
       do b <- (if (precision <? 307) || (312 <? precision) then
                  do len <- buf_len (S (List.length b)) b off;
                  store b (off + len) [46; 0]
                else Ret b);
       do '(_, b) <- snprintf_append b off (Z.to_nat (full_len precision + 1)) (pad0 n_digits_to_show fraction);
       Ret b);
  do len <- buf_len (S (List.length b)) b off;
  do b <- fill_blanks (Z.to_nat (full_len precision - len)) b (off + len);
  wr b (off + full_len precision) 0.
(** 46-147 [output_angle_to_buff]; obuff is [off] bytes into [b]. *)
Definition output_angle_to_buff (b : buf) (off : Z) (angle : Q) (precision : Z) : outcome buf :=
  do '(b, precision, n_digits_to_show, fraction) <- angle_fields b off angle precision;
  angle_decimals b off precision n_digits_to_show fraction.

(** 149-154 [output_signed_angle_to_buff] *)
Definition output_signed_angle_to_buff (b : buf) (angle : Q) (precision : Z) : outcome buf :=
  do b <- wr b 0 (if qlt angle 0 then 45 else 43);
  output_angle_to_buff b 1 (if qlt angle 0 then - angle else angle)%Q precision.
