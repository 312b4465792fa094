(** Model of delta_t.cpp: TD - UT, TD - UTC and TDB - UTC.

    Times and differences are exact rationals: rounding is not modelled.  The sines of
    tdb_minus_tdt( ) are real.  A string is the list of the bytes before its terminator. *)
From Coq Require Import QArith Qround Qreals Reals.
From Coq Require Import String.
From Verif Require Import CBase CStr DateModel TimeModel TstrModel.
Local Open Scope string_scope.
Local Open Scope list_scope.
Local Open Scope Z_scope.

(** delta_t.cpp:57-97 [delta_t_table] *)
Definition delta_t_table : list Z :=
  [12400; 11500; 10600; 9800; 9100; 8500; 7900; 7400; 7000; 6500; 6200; 5800; 5500; 5300;
   5000; 4800; 4600; 4400; 4200; 4000; 3700; 3500; 3300; 3100; 2800; 2600; 2400; 2200;
   2000; 1800; 1600; 1400; 1300; 1200; 1100; 1000; 900; 900; 900; 900; 900; 900;
   900; 900; 1000; 1000; 1000; 1000; 1000; 1100; 1100; 1100; 1100; 1100; 1100; 1100;
   1100; 1200; 1200; 1200; 1200; 1200; 1300; 1300; 1300; 1300; 1400; 1400; 1400; 1500;
   1500; 1500; 1500; 1600; 1600; 1600; 1600; 1600; 1700; 1700; 1700; 1700; 1700; 1700;
   1700; 1700; 1600; 1600; 1500; 1400; 1370; 1310; 1270; 1250; 1250; 1250; 1250; 1250;
   1250; 1230; 1200; 1140; 1060; 960; 860; 750; 660; 600; 570; 560; 570; 590;
   620; 650; 680; 710; 730; 750; 770; 780; 790; 750; 640; 540; 290; 160;
   -100; -270; -360; -470; -540; -520; -550; -560; -580; -590; -620; -640; -610; -470;
   -270; 0; 260; 540; 770; 1050; 1340; 1600; 1820; 2020; 2120; 2240; 2350; 2390;
   2430; 2400; 2390; 2390; 2370; 2400; 2430; 2530; 2620; 2730; 2820; 2910; 3000; 3070;
   3140; 3220; 3310; 3400; 3500; 3650; 3830; 4020; 4220; 4450; 4650; 4850; 5050; 5220;
   5380; 5490; 5580; 5686; 5831; 5998; 6163; 6297; 6383; 6430; 6457; 6485; 6546; 6607;
   6660; 6728; 6810; 6897; 6936; 6929; 6918].

(** A byte of a string, its terminator included *)
Definition byte (s : list Z) (i : nat) : outcome Z := if (i <=? List.length s)%nat then Ret (nth i s 0) else UB.

(** 125: sscanf( tptr, "%lf,%lf:%n", &year1, &year2, &bytes_read) == 2: the two years, and what %n stores
    ([None]: no colon, so nothing is stored) *)
Definition scan_years (t : list Z) : outcome (option (Q * Q * option nat)) :=
  do a <- scan_lf t;
  match a with
  | None => Ret None
  | Some (year1, r) =>
      match lit 44 r with
      | None => Ret None
      | Some r =>
          do b <- scan_lf r;
          match b with
          | None => Ret None
          | Some (year2, r) =>
              Ret (Some (year1, year2, match lit 58 r with Some r => Some (List.length t - List.length r)%nat | None => None end))
          end
      end
  end.

(** 128-136: the offset, tptr and bytes_read after it.  Where sscanf( ) does not come to its %n, bytes_read
    keeps its value. *)
Definition scan_offset (s : list Z) (p bytes_read : nat) : outcome (Q * nat * nat) :=
  do c <- byte s p;
  if c =? 111 then
    let t := skipn (S p) s in
    do a <- scan_lf t;
    match a with
    | None => Ret (2000%Q, (S p + bytes_read)%nat, bytes_read)
    | Some (offset, r) =>
        match lit 44 r with
        | None => Ret (offset, (S p + bytes_read)%nat, bytes_read)
        | Some r => let b := (List.length t - List.length r)%nat in Ret (offset, (S p + b)%nat, b)
        end
    end
  else Ret (2000%Q, p, bytes_read).

(** 140-148: the coefficients.  sscanf( ) returns EOF, which is not 0, if only blanks are left; coeff and
    bytes_read then keep their values ([None]: coeff is not yet set).  (A text that ends
    within a number, such as "-" or "1e", is taken not to match; sscanf( ) may return EOF
    then too.) *)
Fixpoint coefficients (fuel : nat) (s : list Z) (p : nat) (x power : Q) (coeff : option Q) (bytes_read : nat) (delta_t : Q) : outcome Q :=
  do before <- byte s (p - 1);
  if before =? 59 then Ret delta_t
  else
    do c <- byte s p;
    if c =? 0 then Ret delta_t
    else match fuel with
    | O => Fuel
    | S f =>
        let t := skipn p s in
        let next (coeff : Q) (bytes_read : nat) :=
          let p := (p + bytes_read)%nat in
          do c <- byte s p;
          coefficients f s (if c =? 44 then S p else p) x (power * x)%Q (Some coeff) bytes_read (delta_t + power * coeff)%Q in
        match skip_ws t with
        | [] => match coeff with None => UB | Some coeff => next coeff bytes_read end
        | _ =>
            do a <- scan_lf t;
            match a with
            | None => Ret delta_t
            | Some (coeff, r) => next coeff (List.length t - List.length r)%nat
            end
        end
    end.

(** 119-151: the search for a piece that holds [year], from position [i] on ([n] positions are left).
    [None] is the return value -1; else *delta_t. *)
Fixpoint search (n : nat) (s : list Z) (i : nat) (year : Q) : outcome (option Q) :=
  match n with
  | O => Ret None
  | S n =>
      do start <- (if (i =? 0)%nat then Ret true else do c <- byte s (i - 1); Ret (c =? 59));
      if negb start then search n s (S i) year
      else
        do m <- scan_years (skipn i s);
        match m with
        | None => search n s (S i) year
        | Some (year1, year2, bytes_read) =>
            if (Qle_bool year1 year && qlt year year2)%bool then
              match bytes_read with
              | None => UB
              | Some bytes_read =>
                  do '(offset, p, bytes_read) <- scan_offset s (i + bytes_read) bytes_read;
                  do v <- coefficients (S (List.length s)) s p ((year - offset) / 100)%Q 1%Q None bytes_read 0%Q;
                  Ret (Some v)
              end
            else search n s (S i) year
        end
  end.
(** 114-153 [evaluate_delta_t_string] *)
Definition evaluate_delta_t_string (year : Q) (dt_string : list Z) : outcome (option Q) :=
  search (List.length dt_string) dt_string 0 year.

(** 155-159 *)
Definition default_delta_t_string : list Z :=
  zs "-1e+308,-500:o1820,-20,0,32;" ++
  zs "-500,500:o0,10583.6,-1014.41,33.78311,-5.952053,-.1798452,.022174192,.0090316521;" ++
  zs "500,1600:o1000,1574.2,-556.01,71.23472,.319781,-.8503463,-.005050998,.0083572073;" ++
  zs "1600,1620:o1600,120,-98.08,-153.2,140.272".

(** 161: the value of the static variable td_minus_dt_string at the start.  166-170 [reset_td_minus_dt_string]: its value
    after a call; the argument is [None] for a null pointer. *)
Definition td_minus_dt_string0 : option (list Z) := None.
Definition reset_td_minus_dt_string (string : option (list Z)) : option (list Z) :=
  match string with
  | Some (c :: r) => Some (c :: r)
  | _ => Some default_delta_t_string
  end.

(** 214-240: from the table *)
Definition from_table (year jd : Q) : outcome Q :=
  let index_loc := ((year - 1620) / 2)%Q in
  do index <- to_integer IMAX index_loc;
  let size := Z.of_nat (List.length delta_t_table) in
  let index := if (size - 2 <? index) || qlt 30000000 jd then size - 2 else index in
  let dt := (index_loc - inject_Z index)%Q in
  do t0 <- nth_ub delta_t_table index;
  do t1 <- nth_ub delta_t_table (index + 1);
  let rval := ((inject_Z t0 + inject_Z (t1 - t0) * dt) / 100)%Q in
  Ret (if qlt 1 dt then let dt := ((dt - 1) / 50)%Q in (rval + (325 # 10) * dt * dt)%Q else rval).

(** 199-248 [default_td_minus_ut]; [str] is the static variable td_minus_dt_string *)
Definition default_td_minus_ut (str : option (list Z)) (jd : Q) : outcome Q :=
  let year := (2000 + (jd - 2451545) / (36525 # 100))%Q in
  do a <- (match str with Some s => evaluate_delta_t_string year s | None => Ret None end);
  match a with
  | Some rval => Ret rval
  | None =>
      do b <- (if qlt year 1620 then evaluate_delta_t_string year default_delta_t_string else Ret None);
      match b with
      | Some rval => Ret rval
      | None => from_table year jd
      end
  end.

(** 255-261 [td_minus_ut], with no file of Earth orientation parameters loaded (eop_prec.cpp:193-246:
    then all parameters are 0, and default_td_minus_ut( ) is used) *)
Definition td_minus_ut (str : option (list Z)) (jd : Q) : outcome Q := default_td_minus_ut str jd.

(** 379-402: month and year of ranges[i]; offset[i] as its first number and the year in its second; scale[i] *)
Definition sixties : list (Z * Z * (Q * Z * Z)) :=
  [(1, 1961, (14228180 # 10000000, 1961, 12960)); (8, 1961, (13728180 # 10000000, 1961, 12960));
   (1, 1962, (18458580 # 10000000, 1962, 11232)); (11, 1963, (19458580 # 10000000, 1962, 11232));
   (1, 1964, (32401300 # 10000000, 1965, 12960)); (4, 1964, (33401300 # 10000000, 1965, 12960));
   (9, 1964, (34401300 # 10000000, 1965, 12960)); (1, 1965, (35401300 # 10000000, 1965, 12960));
   (3, 1965, (36401300 # 10000000, 1965, 12960)); (7, 1965, (37401300 # 10000000, 1965, 12960));
   (9, 1965, (38401300 # 10000000, 1965, 12960)); (1, 1966, (43131700 # 10000000, 1966, 25920));
   (2, 1968, (42131700 # 10000000, 1966, 25920))].
(** 384-407: the loop, from the last entry down ([l] is in that order); the coefficient of the date in offset[i] is
    scale[i] * 1e-7 *)
Fixpoint sixties_search (L : Z) (mjd_utc : Q) (l : list (Z * Z * (Q * Z * Z))) : outcome (option Q) :=
  match l with
  | [] => Ret None
  | (m, y, (a, y0, scale)) :: l =>
      do start <- month_macro m L y;
      if Qle_bool (inject_Z (to_ushort start)) mjd_utc then
        do d0 <- JAN_1 L y0;
        let offset := (a - inject_Z d0 * (scale # 10000000))%Q in
        Ret (Some (offset + mjd_utc * inject_Z scale * (1 # 10000000))%Q)
      else sixties_search L mjd_utc l
  end.

(** 372-458 [td_minus_utc]; [limit] is mjd_end_of_predictive_leap_seconds *)
Definition tdt_minus_tai : Q := 32184 # 1000.
Definition td_minus_utc (L limit : Z) (str : option (list Z)) (jd_utc : Q) : outcome Q :=
  let mjd_utc := (jd_utc - (24000005 # 10))%Q in
  do utc0 <- JAN_1 L 1972;
  if qlt mjd_utc (inject_Z utc0) then
    do a <- sixties_search L mjd_utc (rev sixties);
    match a with
    | Some tai_minus_utc => Ret (tdt_minus_tai + tai_minus_utc)%Q
    | None => td_minus_ut str jd_utc
    end
  else
    do imjd_utc <- to_integer IMAX mjd_utc;
    do r <- td_minus_utc_int L limit imjd_utc;
    match r with
    | Predicted low high =>
        do mid <- ev IMAX (low + high)%cx;
        do d <- td_minus_ut str ((24000005 # 10) + inject_Z mid * (1 # 2))%Q;
        Ret (tdt_minus_tai + inject_Z (Qfloor (d + (1 # 2) - tdt_minus_tai)))%Q
    | Tabulated n => Ret (inject_Z n + tdt_minus_tai)%Q
    | Universal => td_minus_ut str jd_utc
    end.

(** 351-365 [tdb_minus_tdt]: amplitude, frequency and phase of each term *)
Definition tdb_terms : list (R * R * R) :=
  [(16566894 / 10 ^ 10, 62830758494 / 10 ^ 8, 62400497 / 10 ^ 7); (224175 / 10 ^ 10, 57533848843 / 10 ^ 8, 42969771 / 10 ^ 7);
   (138399 / 10 ^ 10, 125661516988 / 10 ^ 8, 61968995 / 10 ^ 7); (47701 / 10 ^ 10, 5296909651 / 10 ^ 8, 4444038 / 10 ^ 7);
   (46767 / 10 ^ 10, 60697767539 / 10 ^ 8, 40211937 / 10 ^ 7); (22566 / 10 ^ 10, 2132990954 / 10 ^ 8, 55431320 / 10 ^ 7)]%R.
Definition tdb_minus_tdt (t_centuries : R) : R :=
  fold_left (fun rval '(amplitude, freq, phase) => rval + amplitude * sin (freq * t_centuries + phase))%R tdb_terms 0%R.

(** 460-465 [tdb_minus_utc] *)
Definition seconds_per_day : R := 86400.
Definition tdb_minus_utc (L limit : Z) (str : option (list Z)) (jd_utc : Q) : outcome R :=
  let t_cen := ((jd_utc - 2451545) / 36525)%Q in
  do d <- td_minus_utc L limit str jd_utc;
  Ret (tdb_minus_tdt (Q2R t_cen) / seconds_per_day + Q2R d)%R.
