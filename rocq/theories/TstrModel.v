(** Model of get_time.cpp: reading a time from free-form text.

    Numbers (long double) are exact rationals: rounding is not modelled.  The
    text is a list of bytes before the terminator.  After the copy into
    buff[80] the C code only shortens the string or overwrites its bytes, so
    from there on the string is modelled by its bytes.
    [Fuel] is also the answer where a number spelt inf..., nan... or 0x... is
    read: such numbers are not modelled. *)
From Coq Require Import QArith Qround.
From Coq Require Import String.
From Verif Require Import CBase CStr DateModel.
Local Open Scope list_scope.
Local Open Scope Z_scope.

(** What the function depends on besides its arguments: LONG_MAX, the clock
    time( NULL), the bound given to day_to_dmy( )'s search, and
    get_phase_time( k, phase_idx) (get_time.cpp:276-311, a sum of sines), which
    is left arbitrary. *)
Record env : Type := { e_long : Z; e_now : Z; e_fuel : nat; e_phase : Z -> Q -> Q }.

(** date.h: the flags of time_format that are looked at *)
Definition CALENDAR_MASK : Z := 15.
Definition YEAR_FIRST : Z := 2048.
Definition MONTH_DAY : Z := 4096.
Definition TWO_DIGIT_YEAR : Z := 65536.
Definition flag (fmt f : Z) : bool := negb (Z.land fmt f =? 0).

Definition J2000 : Q := 2451545.
Definition qlt (a b : Q) : bool := negb (Qle_bool b a).

(** ---- the C library: numbers in text ---- *)
Definition skip_ws (s : list Z) : list Z := skipn (span isspace s) s.
Definition sign_of (t : list Z) : bool * list Z :=
  match t with 45 :: r => (true, r) | 43 :: r => (false, r) | _ => (false, t) end.

(** Digits with at most one point: the digits as one integer, how many follow
    the point, and the rest. *)
Definition mantissa (t : list Z) : option (Z * nat * list Z) :=
  let n := span isdigit t in
  let r := skipn n t in
  match r with
  | 46 :: r' =>
      let k := span isdigit r' in
      if (n + k =? 0)%nat then None
      else Some (dig_val 0 (firstn n t ++ firstn k r'), k, skipn k r')
  | _ => if (n =? 0)%nat then None else Some (dig_val 0 (firstn n t), O, r)
  end.
(** An exponent; [None] is "no exponent here", [Some None] an 'e' without digits. *)
Definition exponent (r : list Z) : option (option (Z * list Z)) :=
  match r with
  | c :: r' =>
      if (c =? 101) || (c =? 69) then
        let '(neg, d) := sign_of r' in
        let n := span isdigit d in
        if (n =? 0)%nat then Some None
        else Some (Some ((if neg then - dig_val 0 d else dig_val 0 d), skipn n d))
      else None
  | [] => None
  end.
Definition decimal (neg : bool) (m : Z) (k : nat) : Q :=
  (if neg then - m else m) # Z.to_pos (10 ^ Z.of_nat k).
Definition unmodelled_number (t : list Z) : bool :=
  prefix (zs "inf") t || prefix (zs "nan") t || prefix (zs "0x") t.

(** sscanf's %Lf: the value and the text after it, [None] for a matching
    failure or the end of the text. *)
Definition scan_lf (s : list Z) : outcome (option (Q * list Z)) :=
  let '(neg, t) := sign_of (skip_ws s) in
  if unmodelled_number t then Fuel
  else match mantissa t with
       | None => Ret None
       | Some (m, k, r) =>
           match exponent r with
           | None => Ret (Some (decimal neg m k, r))
           | Some None => Ret None
           | Some (Some (e, r')) => Ret (Some ((decimal neg m k * (10 # 1) ^ e)%Q, r'))
           end
       end.
(** strtold( s, &end_ptr): the value and end_ptr (the whole text if there is no
    number). *)
Definition strtold (s : list Z) : outcome (Q * list Z) :=
  let '(neg, t) := sign_of (skip_ws s) in
  if unmodelled_number t then Fuel
  else match mantissa t with
       | None => Ret (0%Q, s)
       | Some (m, k, r) =>
           match exponent r with
           | Some (Some (e, r')) => Ret ((decimal neg m k * (10 # 1) ^ e)%Q, r')
           | _ => Ret (decimal neg m k, r)
           end
       end.
(** sscanf's %d (and %ld, with L = LONG_MAX): a value that does not fit is
    undefined behaviour. *)
Definition scan_d (L : Z) (s : list Z) : outcome (option (Z * list Z)) :=
  let '(neg, t) := sign_of (skip_ws s) in
  let n := span isdigit t in
  if (n =? 0)%nat then Ret None
  else do v <- chk L (if neg then - dig_val 0 t else dig_val 0 t);
       Ret (Some (v, skipn n t)).
(** A literal character of a scanf format. *)
Definition lit (c : Z) (s : list Z) : option (list Z) :=
  match s with d :: r => if d =? c then Some r else None | [] => None end.

(** (int) or (long) of a floating number: truncation; undefined if it does not fit. *)
Definition trunc (q : Q) : Z := Z.quot (Qnum q) (Z.pos (Qden q)).
Definition to_integer (L : Z) (q : Q) : outcome Z := chk L (trunc q).

(** strstr: the position of the first occurrence. *)
Fixpoint strstr (s p : list Z) : option nat :=
  if prefix p s then Some O
  else match s with
       | [] => None
       | _ :: r => match strstr r p with Some n => Some (S n) | None => None end
       end.

(** ---- get_time.cpp ---- *)

(** get_time.cpp:39-60 [split_timel]; the result is year, month, day, hour,
    minute, second.  (int)minutes == minutes_per_day, the rounding case, cannot
    occur with exact numbers.  *month before the call is taken to be 0: it is
    what is left there if day_to_dmy( ) fails. *)
Definition split_time (E : env) (t2k : Q) (calendar : Z)
  : outcome (Z * Z * Z * Z * Z * Q) :=
  let t := (t2k + (1 # 2))%Q in
  do int_t2k <- chk (e_long E) (Qfloor t);
  let minutes := ((t - inject_Z int_t2k) * 1440)%Q in
  do m <- to_integer IMAX minutes;
  do '(int_t2k, minutes, m) <-
    (if m =? 1440 then (do i <- ev (e_long E) (int_t2k + 1)%cx; Ret (i, 0%Q, 0))
     else Ret (int_t2k, minutes, m));
  let seconds := ((minutes - inject_Z m) * 60)%Q in
  do jd <- ev (e_long E) (int_t2k + 2451545)%cx;
  do '(d, mo, y) <- day_to_dmy (e_long E) (e_fuel E) 0 jd (Z.land calendar CALENDAR_MASK);
  Ret (y, mo, d, Z.quot m 60, Z.rem m 60, seconds).

(** date.cpp:120-126: the names of months and days of the week.  They are
    modelled as never changed by set_month_name( ) / set_day_of_week_name( ). *)
Definition month_names : list (list Z) :=
  [zs "Jan"; zs "Feb"; zs "Mar"; zs "Apr"; zs "May"; zs "Jun"; zs "Jul"; zs "Aug";
   zs "Sep"; zs "Oct"; zs "Nov"; zs "Dec"].
Definition day_names : list (list Z) :=
  [zs "Sun"; zs "Mon"; zs "Tue"; zs "Wed"; zs "Thu"; zs "Fri"; zs "Sat"].

Definition tolower (c : Z) : Z := if isupper c then c + 32 else c.
(** get_time.cpp:72-82 [memicmp] == 0 *)
Fixpoint memieq (s1 s2 : list Z) (n : nat) : bool :=
  match n with
  | O => true
  | S n' => match s1, s2 with
            | a :: s1', b :: s2' => (tolower a =? tolower b) && memieq s1' s2' n'
            | [], [] => true
            | _, _ => false
            end
  end.
Fixpoint name_index (names : list (list Z)) (i : Z) (str : list Z) : option Z :=
  match names with
  | [] => None
  | t :: r => if memieq t str (Nat.min 3 (List.length str)) then Some i
              else name_index r (i + 1) str
  end.
(** get_time.cpp:94-107 [month_name_to_index]: 0 if there is none *)
Definition month_name_to_index (str : list Z) : Z :=
  match name_index month_names 1 str with Some i => i | None => 0 end.
(** get_time.cpp:109-122 [day_of_week_name_to_index]: -1 if there is none *)
Definition day_of_week_name_to_index (str : list Z) : Z :=
  match name_index day_names 0 str with Some i => i | None => -1 end.

(** get_time.cpp:182-190 [remove_trailing_spaces] *)
Definition is_space (c : Z) : bool := c =? 32.
Definition remove_trailing_spaces (s : list Z) : list Z :=
  rev (skipn (span is_space (rev s)) (rev s)).
(** get_time.cpp:192-201 [remove_leading_and_trailing_spaces] *)
Definition remove_leading_and_trailing_spaces (s : list Z) : list Z :=
  remove_trailing_spaces (skipn (span is_space s) s).
(** get_time.cpp:203-214 [remove_substring]: [None] is "not found" *)
Definition remove_substring (s sub : list Z) : option (list Z) :=
  match strstr s sub with
  | Some n => Some (firstn n s ++ skipn (n + List.length sub) s)
  | None => None
  end.
Definition removed (s sub : list Z) : list Z :=
  match remove_substring s sub with Some t => t | None => s end.
(** get_time.cpp:223-237 [check_for_bc] *)
Definition check_for_bc (s : list Z) : list Z * bool :=
  let s := removed s (zs "ad") in
  let s := removed s (zs "a.d.") in
  let '(s, bc) := match remove_substring s (zs "bc") with
                  | Some t => (t, true)
                  | None => match remove_substring s (zs "b.c.") with
                            | Some t => (t, true)
                            | None => (s, false)
                            end
                  end in
  (remove_leading_and_trailing_spaces s, bc).

(** get_time.cpp:131-173 [collect_time_offset]: the offset and the string left.
    The constants 29.530588853, 365.25... are taken as exact decimals. *)
Definition scale (c : Z) : Q :=
  if c =? 115 then 1 # 86400                           (* s *)
  else if c =? 109 then 1 # 1440                       (* m *)
  else if c =? 104 then 1 # 24                         (* h *)
  else if c =? 100 then 1                              (* d *)
  else if c =? 119 then 7                              (* w *)
  else if c =? 108 then 29530588853 # 1000000000       (* l *)
  else if c =? 121 then 36525 # 100                    (* y *)
  else 36525.                                          (* c *)
Definition is_sign (c : Z) : bool := (c =? 45) || (c =? 43).
(** The position of the last sign: lines 150-151. *)
Fixpoint last_sign (s : list Z) : option nat :=
  match s with
  | [] => None
  | c :: r => match last_sign r with
              | Some n => Some (S n)
              | None => if is_sign c then Some O else None
              end
  end.
Definition collect_time_offset (istr : list Z) : outcome (Q * list Z) :=
  let len := List.length istr in
  if (1 <? len)%nat then
    (do ending_char <- at_ istr (Z.of_nat len - 1);
     do before <- at_ istr (Z.of_nat len - 2);
     if strchr (zs "smhdwlyc") ending_char && (before =? 32) then
       match last_sign istr with
       | None => Ret (0%Q, istr)
       | Some p =>
           do r <- scan_lf (skipn p istr);
           match r with
           | None => Ret (0%Q, istr)
           | Some (q, rest) =>
               match skip_ws rest with
               | [_] => Ret ((q * scale ending_char)%Q, remove_trailing_spaces (firstn p istr))
               | _ => Ret (q, istr)
               end
           end
       end
     else
       (do first <- at_ istr 0;
        if is_sign first then
          (do r <- scan_lf istr;
           match r with
           | Some (q, []) => Ret (q, [])
           | _ => Ret (0%Q, istr)
           end)
        else Ret (0%Q, istr)))
  else Ret (0%Q, istr).

(** get_time.cpp:445-449: the loop that collects the offsets.  [Fuel] for every
    bound is "never ends". *)
Fixpoint offsets (fuel : nat) (str : list Z) (offset : Q) : outcome (list Z * Q) :=
  match str with
  | [] => Ret ([], offset)
  | _ =>
      match fuel with
      | O => Fuel
      | S fuel' =>
          do '(tval, s) <- collect_time_offset str;
          if Qeq_bool tval 0 then Ret (s, offset)
          else offsets fuel' (remove_trailing_spaces s) (offset + tval)%Q
      end
  end.

(** get_time.cpp:433-443: the copy into buff[80].  [prev] is time_str[-1]. *)
Definition boundary (prev c : Z) : bool :=
  ((isalpha c && isdigit prev) || (isdigit c && isalpha prev))
  && negb (c =? 113) && negb (c =? 81).
Fixpoint copy_loop (prev : Z) (s : list Z) (i : Z) (b : buf) : outcome (buf * Z) :=
  match s with
  | [] => Ret (b, i)
  | c :: r =>
      if i <? 79 then
        do '(b, i) <- (if boundary prev c then (do b <- wr b i 32; Ret (b, i + 1)) else Ret (b, i));
        do b <- wr b i (tolower c);
        copy_loop c r (i + 1) b
      else Ret (b, i)
  end.
(** The string a buffer holds. *)
Fixpoint c_string (b : buf) : outcome (list Z) :=
  match b with
  | [] => UB
  | None :: _ => UB
  | Some c :: r => if c =? 0 then Ret [] else do t <- c_string r; Ret (c :: t)
  end.
(** get_time.cpp:422-444; [None] is the early return of lines 424-429. *)
Definition copy_text (time_str : list Z) : outcome (option (list Z)) :=
  match skipn (span is_space time_str) time_str with
  | [] => Ret None
  | c :: r =>
      if 80 <=? Z.of_nat (S (List.length r)) then Ret None
      else
        do b <- wr (repeat None 80) 0 (tolower c);
        do '(b, i) <- copy_loop c r 1 b;
        do b <- wr b i 0;
        do s <- c_string b;
        Ret (Some (remove_trailing_spaces s))
  end.

(** get_time.cpp:253-262 [get_phase_idx]; -1 is PHASE_IDX_UNDEFINED *)
Definition get_phase_idx (a b : Z) : Z :=
  if (a =? 110) && (b =? 109) then 0
  else if (a =? 49) && (b =? 113) then 1
  else if (a =? 102) && (b =? 109) then 2
  else if (a =? 51) && (b =? 113) then 3
  else -1.
(** get_time.cpp:321-328 [find_nearest_lunar_phase_time] *)
Definition lunar_phase_t0 : Q := 509765 # 100000.
Definition lunation : Q := 29530588853 # 1000000000.
Definition find_nearest_lunar_phase_time (E : env) (phase_idx : Z) (t2k : Q) : Q :=
  let phase := (inject_Z phase_idx * (1 # 4))%Q in
  let k := (inject_Z (Qfloor ((t2k - lunar_phase_t0) / lunation - phase + (1 # 2))) + phase)%Q in
  e_phase E phase_idx k.

(** get_time.cpp:467-511: the keywords.  Result: rval, *is_ut, str and
    initial_t2k as they are afterwards. *)
Definition is_rval_unset (q : Q) : bool := Qeq_bool q (- J2000).
Definition keywords (E : env) (initial_t2k : Q) (str : list Z)
  : outcome (Q * Z * list Z * Q) :=
  let rval := (- J2000)%Q in
  let is_ut := 0 in
  do '(rval, is_ut, str) <-                                    (* 467-475 *)
    (match str with
     | 106 :: r =>
         let str := match r with 100 :: _ => r | _ => str end in
         do '(x, _) <- strtold (tl str);
         let rval := (x - J2000)%Q in
         Ret (rval, (if is_rval_unset rval then is_ut else 1), str)
     | _ => Ret (rval, is_ut, str)
     end);
  do rval <- (match str with                                   (* 477-478 *)
              | 121 :: r => do '(x, _) <- strtold r; Ret ((x - 2000) * (36525 # 100) - (1 # 2))%Q
              | _ => Ret rval
              end);
  do '(rval, is_ut) <-                                         (* 480-485 *)
    (if prefix (zs "mjd") str
     then (do '(x, _) <- strtold (skipn 3 str); Ret ((x + (24000005 # 10) - J2000)%Q, 1))
     else Ret (rval, is_ut));
  let rval :=                                                  (* 487-497 *)
    if prefix (zs "gps ") str then
      let n := span isdigit (firstn 5 (skipn 4 str)) in
      if (n =? 5)%nat then
        let w := dig_val 0 (firstn 5 (skipn 4 str)) in
        (inject_Z (Z.quot w 10 * 7 + Z.rem w 10) + (24442445 # 10) - J2000)%Q
      else rval
    else rval in
  do rval <- (if prefix (zs "unix ") str                       (* 499-500 *)
              then (do '(x, _) <- strtold (skipn 5 str);
                    Ret (x / 86400 + ((24405875 # 10) - J2000))%Q)
              else Ret rval);
  let '(str, initial_t2k) :=                                   (* 502-508 *)
    if prefix (zs "now") str then
      let s := skipn 3 str in
      (skipn (span is_space s) s,
       ((24405875 # 10) - J2000 + inject_Z (e_now E) / 86400)%Q)
    else (str, initial_t2k) in
  let rval := match str with [] => initial_t2k | _ => rval end in  (* 510-511 *)
  Ret (rval, is_ut, str, initial_t2k).

(** get_time.cpp:521-524: d.m.y becomes d/m/y *)
Definition dots_to_slashes (str : list Z) : outcome (list Z) :=
  do r1 <- scan_d IMAX str;
  match r1 with
  | Some (_, t) =>
      match lit 46 t with
      | Some t =>
          do r2 <- scan_d IMAX t;
          match r2 with
          | Some (_, t) =>
              match lit 46 t with
              | Some t =>
                  do r3 <- scan_d IMAX t;
                  match r3 with
                  | Some (_, rest) =>
                      let n_bytes := (List.length str - List.length rest)%nat in
                      Ret (map (fun c => if c =? 46 then 47 else c) (firstn n_bytes str)
                             ++ skipn n_bytes str)
                  | None => Ret str
                  end
              | None => Ret str
              end
          | None => Ret str
          end
      | None => Ret str
      end
  | None => Ret str
  end.

(** get_time.cpp:535-541: is the text a FITS time? *)
Definition fits_time (str : list Z) : outcome bool :=
  if 18 <? Z.of_nat (List.length str) then
    tst str 11 (Z.eqb 116) &&& tst str 4 (Z.eqb 45) &&& tst str 7 (Z.eqb 45)
      &&& tst str 15 (Z.eqb 58)
  else Ret false.
(** sscanf( str, "%ld-%d-%d", &year, &month, &iday) *)
Definition scan_ymd (E : env) (str : list Z) (year month iday : Z)
  : outcome (Z * Z * Z) :=
  do r1 <- scan_d (e_long E) str;
  match r1 with
  | None => Ret (year, month, iday)
  | Some (year, t) =>
      match lit 45 t with
      | None => Ret (year, month, iday)
      | Some t =>
          do r2 <- scan_d IMAX t;
          match r2 with
          | None => Ret (year, month, iday)
          | Some (month, t) =>
              match lit 45 t with
              | None => Ret (year, month, iday)
              | Some t =>
                  do r3 <- scan_d IMAX t;
                  match r3 with
                  | None => Ret (year, month, iday)
                  | Some (iday, _) => Ret (year, month, iday)
                  end
              end
          end
      end
  end.

(** get_time.cpp:543-555: the am/pm mark is removed; 0 unset, 1 am, 2 pm.  The
    test i >= 4 uses the length before the removal. *)
Definition am_pm (str : list Z) : list Z * Z :=
  if 4 <=? Z.of_nat (List.length str) then
    match remove_substring str (zs " am") with
    | Some t => (t, 1)
    | None =>
        match remove_substring str (zs " a.m.") with
        | Some t => (t, 1)
        | None =>
            match remove_substring str (zs " pm") with
            | Some t => (t, 2)
            | None => match remove_substring str (zs " p.m.") with
                      | Some t => (t, 2)
                      | None => (str, 0)
                      end
            end
        end
    end
  else (str, 0).

(** sscanf( s, "%Lf:%Lf", &a, &b), with the values a and b keep if not read *)
Definition scan_lf_lf (s : list Z) (a b : Q) : outcome (Q * Q) :=
  do r <- scan_lf s;
  match r with
  | None => Ret (a, b)
  | Some (a, t) =>
      match lit 58 t with
      | None => Ret (a, b)
      | Some t => do r2 <- scan_lf t;
                  match r2 with None => Ret (a, b) | Some (b, _) => Ret (a, b) end
      end
  end.
(** sscanf( s, "%d:%Lf:%Lf", &hour, &dminute, &sec), starting from zeros *)
Definition scan_d_lf_lf (s : list Z) : outcome (Z * Q * Q) :=
  do r <- scan_d IMAX s;
  match r with
  | None => Ret (0, 0%Q, 0%Q)
  | Some (hour, t) =>
      match lit 58 t with
      | None => Ret (hour, 0%Q, 0%Q)
      | Some t => do '(a, b) <- scan_lf_lf t 0 0; Ret (hour, a, b)
      end
  end.
(** get_time.cpp:563-597: the time of day at the end.  Result: the text before
    it, hour, minute, second. *)
Definition in_clock (c : Z) : bool := negb (c =? 32) && negb (isalpha c).
Definition clock (str : list Z) (ampm hour minute : Z) (sec : Q)
  : outcome (list Z * Z * Z * Q) :=
  let n := span in_clock (rev str) in
  let i := (List.length str - n)%nat in
  let tail_ := skipn i str in
  let colon_found := existsb (Z.eqb 58) tail_ in
  do '(hour, minute, sec) <-
    (if streq tail_ (zs ":") then Ret (hour, minute, sec)
     else if colon_found then
       match tail_ with
       | 58 :: r =>
           do '(dminute, s) <- scan_lf_lf r 0 0;
           Ret (hour, 0, (s + dminute * 60)%Q)
       | _ =>
           do '(h, dminute, s) <- scan_d_lf_lf tail_;
           do h <- (if ampm =? 1 then Ret (if h =? 12 then 0 else h)
                    else if ampm =? 2 then (if h =? 12 then Ret h else ev IMAX (h + 12)%cx)
                    else Ret h);
           Ret (h, 0, (s + dminute * 60)%Q)
       end
     else Ret (0, 0, 0%Q));
  Ret ((if colon_found then firstn (i - 1) str else str), hour, minute, sec).

(** memcpy( tstr, str, n); tstr[n] = 0 with char tstr[80] *)
Definition to_tstr (s : list Z) : outcome (list Z) :=
  if Z.of_nat (List.length s) <? 80 then Ret s else UB.

(** get_time.cpp:622-687: reading the two or three fields.  Result: the three
    values, month_found, day_found, the number of fields, *is_ut. *)
Definition is_sep (c : Z) : bool := strchr (zs "-:/ ") c.
Definition read_field (tstr : list Z) (idx err is_ut month_found day_found : Z)
  : outcome (Q * Z * Z * Z) :=
  let ival := month_name_to_index tstr in
  if negb (ival =? 0) then Ret (inject_Z ival, idx, day_found, is_ut)
  else
    do '(v, end_ptr) <- strtold tstr;
    Ret (v, month_found,
         (if existsb (Z.eqb 46) tstr then idx else day_found),
         (if (List.length end_ptr =? List.length tstr)%nat then err else is_ut)).
Definition read_fields (str : list Z) (i : nat) (symbol is_ut : Z)
  : outcome (Q * Q * Q * Z * Z * Z * Z) :=
  do t1 <- to_tstr (firstn i str);
  do '(v1, mf, df, is_ut) <- read_field t1 1 (-4) is_ut 0 0;
  let str := skipn (i + 1) str in
  let n := span (fun c => negb (c =? symbol) && negb (c =? 32)) str in
  do t2 <- to_tstr (firstn n str);
  do '(v2, mf, df, is_ut) <- read_field t2 2 (-5) is_ut mf df;
  let str := skipn n str in
  match lit symbol str with
  | None => Ret (v1, v2, 0%Q, mf, df, 2, is_ut)
  | Some str =>
      let w := skip_ws str in
      let tok := firstn (span (fun c => negb (isspace c)) w) w in   (* %79s *)
      let tstr := match tok with [] => t2 | _ => tok end in
      let ival := match tok with [] => 0 | _ => month_name_to_index tok end in
      if negb (ival =? 0) then Ret (v1, v2, inject_Z ival, 3, df, 3, is_ut)
      else
        do is_ut <- (match tok with
                     | [] => Ret is_ut
                     | _ => do '(_, e) <- strtold str;
                            Ret (if (List.length e =? List.length str)%nat then -6 else is_ut)
                     end);
        do r <- scan_lf str;
        match r with
        | None => Ret (v1, v2, 0%Q, mf, df, 2, is_ut)
        | Some (v3, rest) =>
            match rest with
            | 58 :: _ => Ret (v1, v2, v3, mf, df, 2, is_ut)
            | _ => Ret (v1, v2, v3, mf, (if existsb (Z.eqb 46) tstr then 3 else df), 3, is_ut)
            end
        end
  end.

(** get_time.cpp:691-704: which field is the year, which the day.  [vals] are
    the values of the fields found. *)
Definition nth_val (vals : list Q) (i : Z) : outcome Q := nth_ub vals i.
Fixpoint find_year (vals : list Q) (all : list Q) (i year_found : Z) : outcome Z :=
  match vals with
  | [] => Ret year_found
  | v :: r =>
      if qlt v 0 then Ret (i + 1)
      else if qlt 32 v then
        (if year_found =? 0 then find_year r all (i + 1) (i + 1)
         else do w <- nth_val all (year_found - 1);
              find_year r all (i + 1) (if qlt w v then i + 1 else year_found))
      else find_year r all (i + 1) year_found
  end.
Fixpoint find_day (vals : list Q) (max_month i year_found day_found : Z) : Z :=
  match vals with
  | [] => day_found
  | v :: r =>
      find_day r max_month (i + 1) year_found
        (if qlt (inject_Z max_month + (1 # 10000)) v && qlt v 32 && negb (i + 1 =? year_found)
         then i + 1 else day_found)
  end.

(** get_time.cpp:706-740: two fields.  Result: year, month, day. *)
Definition two_fields (E : env) (fmt : Z) (vals : list Q) (mf yf df year : Z)
    (dday : Q) : outcome (Z * Z * Q) :=
  if negb (mf =? 0) then
    (do dval <- nth_val vals (2 - mf);
     do m <- nth_val vals (mf - 1);
     do month <- to_integer IMAX m;
     if qlt (999 # 1000) dval && qlt dval 32 then Ret (year, month, dval)
     else (do y <- to_integer (e_long E) dval; Ret (y, month, dday)))
  else if negb (yf =? 0) then
    (do yv <- nth_val vals (yf - 1);
     do y <- to_integer (e_long E) yv;
     do d <- nth_val vals (2 - yf);
     Ret (y, 1, d))
  else if negb (df =? 0) then
    (do d <- nth_val vals (df - 1);
     do mv <- nth_val vals (2 - df);
     do month <- to_integer IMAX mv;
     Ret (year, month, d))
  else
    (do a <- nth_val vals 0;
     do b <- nth_val vals 1;
     let '(mv, dv) := if flag fmt MONTH_DAY then (a, b) else (b, a) in
     do month <- to_integer IMAX mv;
     do d <- to_integer IMAX dv;
     Ret (year, month, inject_Z d)).

(** get_time.cpp:741-785: three fields: which is the year, which the month and
    which the day. *)
Definition roles (fmt mf yf df : Z) : Z * Z * Z :=
  let year_first := flag fmt YEAR_FIRST in
  let month_day := flag fmt MONTH_DAY in
  let '(yf, mf, df) :=
    if yf =? 0 then
      (if mf =? 0 then
         (if (df =? 0) || (df =? 2) then
            let yf := if year_first then 1 else 3 in
            (yf, mf, if df =? 0 then (if year_first then 2 else 1) + (if month_day then 1 else 0)
                     else df)
          else (4 - df, mf, df))
       else if df =? 0 then
         ((if mf =? 2 then (if year_first then 1 else 3) else 4 - mf), mf, df)
       else (yf, mf, df))
    else if (mf =? 0) && (df =? 0) then
      (if month_day then (yf, (if yf =? 1 then 2 else 1), df)
       else (yf, mf, (if yf =? 1 then 2 else 1)))
    else (yf, mf, df) in
  if df =? 0 then (yf, mf, 6 - yf - mf)
  else if mf =? 0 then (yf, 6 - yf - df, df)
  else (yf, mf, df).
(** The asserts of lines 786-788.  The variables are unsigned: a negative
    value wraps to a large one and fails the assert as well. *)
Definition role_ok (f : Z) : bool := (0 <? f) && (f <? 4).
Definition three_fields (E : env) (fmt : Z) (vals : list Q) (mf yf df : Z)
  : outcome (Z * Z * Q) :=
  let '(yf, mf, df) := roles fmt mf yf df in
  if role_ok yf && role_ok mf && role_ok df then
    (do yv <- nth_val vals (yf - 1);
     do year <- chk (e_long E) (Qfloor (yv + (1 # 2)));
     do dday <- nth_val vals (df - 1);
     do mv <- nth_val vals (mf - 1);
     do month <- to_integer IMAX (mv + (1 # 2));
     Ret (year, month, dday))
  else Abort.

(** get_time.cpp:794-802: two-digit years.  1461 * 86400 / 4 = 31557600. *)
Fixpoint add_centuries (fuel : nat) (L year low : Z) : outcome Z :=
  if year <? low then
    match fuel with
    | O => Fuel
    | S f => do y <- ev L (year + 100)%cx; add_centuries f L y low
    end
  else Ret year.
Definition two_digit_year (E : env) (fmt : Z) (is_bc : bool) (year : Z) : outcome Z :=
  if (0 <? year) && (year <? 100) && negb is_bc && flag fmt TWO_DIGIT_YEAR then
    (do cy <- ev IMAX (1970 + to_int (Z.quot (e_now E) 31557600))%cx;
     do y <- ev (e_long E) (year + 1900)%cx;
     add_centuries (Z.to_nat (cy - 60 - y)) (e_long E) y (cy - 60))
  else Ret year.

(** get_time.cpp:615-804 and 405-407: a date in fields *)
Definition max_month (calendar : Z) : Z :=
  if (calendar =? CALENDAR_HEBREW) || (calendar =? CALENDAR_CHINESE) then 13 else 12.
Definition date_fields (E : env) (fmt : Z) (str : list Z) (i : nat) (symbol is_ut : Z)
    (is_bc : bool) (year : Z) (dday : Q) : outcome (Z * Z * Q * Z) :=
  do '(v1, v2, v3, mf, df, n, is_ut) <- read_fields str i symbol is_ut;
  let vals := if n =? 2 then [v1; v2] else [v1; v2; v3] in
  do yf <- find_year vals vals 0 0;
  let df := if negb (yf =? 0) || (n =? 2)
            then find_day vals (max_month (Z.land fmt CALENDAR_MASK)) 0 yf df else df in
  do '(year, month, dday) <-
    (if n =? 2 then two_fields E fmt vals mf yf df year dday
     else three_fields E fmt vals mf yf df);
  do year <- two_digit_year E fmt is_bc year;
  Ret (year, month, dday, is_ut).

(** get_time.cpp:805-874: no dividing symbol.  [inl (t, is_ut)] is an early
    return of the time t (offset included). *)
Definition single_field (E : env) (initial_t2k offset : Q) (str : list Z) (is_ut : Z)
    (year month : Z) (dday : Q) : outcome ((Q * Z) + (Z * Z * Q)) :=
  match str with
  | [] => Ret (inr (year, month, dday))
  | _ =>
      let ival := month_name_to_index str in
      if negb (ival =? 0) then Ret (inr (year, ival, dday))
      else
        let ival := day_of_week_name_to_index str in
        if 0 <=? ival then
          (do d <- to_integer (e_long E) (initial_t2k + (13 # 2))%Q;
           let ival := ival - Z.rem d 7 in
           let ival := if ival <? -3 then ival + 7 else if 3 <? ival then ival - 7 else ival in
           Ret (inr (year, month, (dday + inject_Z ival)%Q)))
        else
          do r <- scan_d IMAX str;
          match r with
          | None => Ret (inl (initial_t2k, -2))
          | Some (ival, rest) =>
              let n_bytes := Z.of_nat (List.length str) - Z.of_nat (List.length rest) in
              do tval <- (match rest with
                          | 46 :: _ => do r <- scan_lf rest;
                                       Ret (match r with Some (q, _) => q | None => 0%Q end)
                          | _ => Ret 0%Q
                          end);
              let tval := (tval + inject_Z ival)%Q in
              if (n_bytes =? 1) || (n_bytes =? 2) then Ret (inr (year, month, tval))
              else if n_bytes =? 3 then Ret (inr (year, 1, tval))
              else if (n_bytes =? 4) || (n_bytes =? 5) then
                (if Qeq_bool (inject_Z ival) tval then Ret (inr (ival, 1, 1%Q))
                 else Ret (inl (((tval - 2000) * (36525 # 100) + offset - (1 # 2))%Q, is_ut)))
              else if n_bytes =? 7 then Ret (inl ((tval + offset - J2000)%Q, 1))
              else if (n_bytes =? 6) || (n_bytes =? 8) then
                (let y := Z.quot ival 10000 in
                 let y := if n_bytes =? 6 then y + (if y <? 40 then 2000 else 1900) else y in
                 Ret (inr (y, Z.rem (Z.quot ival 100) 100,
                           (inject_Z (Z.rem ival 100) + (tval - inject_Z ival))%Q)))
              else Ret (inr (year, month, dday))
          end
  end.

(** get_time.cpp:882-891: from the date and the time of day to the result *)
Definition finish (E : env) (calendar : Z) (is_bc : bool) (year month : Z) (dday : Q)
    (hour minute : Z) (sec offset : Q) : outcome Q :=
  do year <- (if is_bc then ev (e_long E) (1 - year)%cx else Ret year);
  do iday <- to_integer IMAX dday;
  let frac := (dday - inject_Z iday)%Q in
  do jd <- dmy_to_day (e_long E) iday month year calendar;
  do int_rval <- ev (e_long E) (jd - 2451545)%cx;
  do hm <- ev IMAX (hour * 60 + minute)%cx;
  Ret (inject_Z int_rval + frac - (1 # 2) + inject_Z hm / 1440 + sec / 86400 + offset)%Q.

(** get_time.cpp:513-891: what follows the keywords *)
Definition date_and_time (E : env) (initial_t2k : Q) (fmt : Z) (str : list Z)
    (is_bc : bool) (is_ut : Z) (offset : Q) : outcome (Q * Z) :=
  let calendar := Z.land fmt CALENDAR_MASK in
  do str <- dots_to_slashes str;
  do '(year, month, iday, hour, minute, sec) <- split_time E initial_t2k calendar;
  do is_fits <- fits_time str;
  do '(year, month, iday) <-
    (if is_fits then scan_ymd E str year month iday else Ret (year, month, iday));
  let '(str, ampm) := am_pm str in
  do '(str, hour, minute, sec) <- clock str ampm hour minute sec;
  let dday := inject_Z iday in
  let go '(year, month, dday, is_ut) :=
    do t <- finish E calendar is_bc year month dday hour minute sec offset;
    Ret (t, is_ut) in
  if is_fits then go (year, month, dday, is_ut)
  else
    let i := match str with [] => O | _ :: r => S (span (fun c => negb (is_sep c)) r) end in
    do symbol <- at_ str (Z.of_nat i);
    let symbol := match str with [] => 0 | _ => symbol end in
    if symbol =? 58 then go (year, month, dday, is_ut)
    else if symbol =? 0 then
      (do r <- single_field E initial_t2k offset str is_ut year month dday;
       match r with
       | inl res => Ret res
       | inr (year, month, dday) => go (year, month, dday, is_ut)
       end)
    else
      (do '(year, month, dday, is_ut) <-
         date_fields E fmt str i symbol is_ut is_bc year dday;
       go (year, month, dday, is_ut)).

(** get_time.cpp:400-892 [get_time_from_stringl]: the time and *is_ut.  [fuel]
    bounds the loop over the offsets and the recursion for lunar phases. *)
Fixpoint get_time_from_stringl (fuel : nat) (E : env) (initial_t2k : Q) (time_str : list Z)
    (fmt : Z) : outcome (Q * Z) :=
  match fuel with
  | O => Fuel
  | S fuel' =>
      do copied <- copy_text time_str;
      match copied with
      | None => Ret (initial_t2k, -3)
      | Some str =>
          do '(str, offset) <- offsets fuel' str 0;
          let n := List.length str in
          let phase := match rev str with b :: a :: _ => get_phase_idx a b | _ => -1 end in
          if negb (phase =? -1) then
            (do '(rval, _) <- get_time_from_stringl fuel' E initial_t2k (firstn (n - 2) str) fmt;
             Ret ((find_nearest_lunar_phase_time E phase rval + offset)%Q,
                  if is_rval_unset rval then 0 else 1))
          else
            let '(str, is_bc) := check_for_bc str in
            do '(rval, is_ut, str, initial_t2k) <- keywords E initial_t2k str;
            if negb (is_rval_unset rval) then Ret ((rval + offset)%Q, is_ut)
            else date_and_time E initial_t2k fmt str is_bc is_ut offset
      end
  end.

(** get_time.cpp:894-899 [get_time_from_string] *)
Definition get_time_from_string (fuel : nat) (E : env) (initial_jd : Q) (time_str : list Z)
    (fmt : Z) : outcome (Q * Z) :=
  do '(t, is_ut) <- get_time_from_stringl fuel E (initial_jd - J2000)%Q time_str fmt;
  Ret ((t + J2000)%Q, is_ut).
