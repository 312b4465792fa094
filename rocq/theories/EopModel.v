(** Model of eop_prec.cpp: Earth orientation parameters from the IERS files, and the orientation of the Earth.
    Numbers in the file are exact rationals, what is computed from them is real; a Julian date is rational.
    eop_data is one array of five columns of eop_size values each, with its bounds. *)
From Coq Require Import QArith Qreals Reals.
From Verif Require Import RBase CBase CStr TstrModel SplineModel RotModel.
From Verif Require MpcfModel SofModel DtModel PrecModel AzModel.
Import ListNotations.
Local Open Scope Z_scope.

(** afuncs.h:165-167 *)
Definition EOP_FILE_NOT_FOUND : Z := -1.
Definition EOP_FILE_WRONG_FORMAT : Z := -2.
Definition EOP_ALLOC_FAILED : Z := -3.
(** eop_prec.cpp:33-34; PI here is exact *)
Definition arcsec_to_radians : R := (PI / (180 * 3600))%R.
Definition marcsec_to_radians : R := (PI / (180 * 3600000))%R.

(** 81-82: the static variables; all zero before the first call *)
Record statics := mk_statics { eop_data : option (list R); eop_jd0 : Q; eop_size : Z; eop_usable : Z; eop_usable_nutation : Z }.
Definition statics0 : statics := mk_statics None 0 0 0 0.
(** 83 *)
Definition eop_iline_len : Z := 188.
Definition buff_size : nat := 200.

(** the C string at the start of some memory *)
Fixpoint c_string (b : list Z) : list Z :=
  match b with [] => [] | c :: r => if c =? 0 then [] else c :: c_string r end.
Definition text (buff : list Z) (i : nat) : list Z := c_string (skipn i buff).

(** fgets( buff, 200, ifile): what is left of the file after it and the new contents of buff, behind the terminator
    the old ones; None for NULL *)
Fixpoint line_length (n : nat) (file : list Z) : nat :=
  match n, file with
  | S n, c :: r => if c =? 10 then 1%nat else S (line_length n r)
  | _, _ => O
  end.
Definition fgets (file buff : list Z) : option (list Z * list Z) :=
  match file with
  | [] => None
  | _ => let n := line_length (buff_size - 1) file in
         Some (firstn n file ++ 0 :: skipn (S n) buff, skipn n file)
  end.

(** 85-93 [is_valid_eop_line] *)
Definition is_valid_eop_line (iline : list Z) : bool :=
  let t i := nth i iline 0 in
  if negb (Z.of_nat (List.length (c_string iline)) =? eop_iline_len) || negb (t 12%nat =? 46)
     || negb (t 27%nat =? 32)
     || negb (t 20%nat =? 46) || negb (t 13%nat =? 48) || negb (t 14%nat =? 48)
  then false else true.

(** data[i] = v, with the bounds of the array *)
Definition put (data : list R) (i : Z) (v : R) : outcome (list R) :=
  if (0 <=? i) && (i <? Z.of_nat (List.length data))
  then Ret (firstn (Z.to_nat i) data ++ v :: skipn (S (Z.to_nat i)) data) else UB.

(** 143-164: one line into the columns; the new array and eop_usable_nutation *)
Definition store_line (size i : Z) (initial_td_minus_utc : Q) (buff : list Z) (data : list R) (nutation : Z)
  : outcome (list R * Z) :=
  do x <- MpcfModel.atof (text buff 18);
  do data <- put data i (Q2R x * arcsec_to_radians);
  do y <- MpcfModel.atof (text buff 37);
  do data <- put data (i + size) (Q2R y * arcsec_to_radians);
  do u <- MpcfModel.atof (text buff 58);
  let v := (- Q2R u + Q2R initial_td_minus_utc)%R in
  do v <- (if i =? 0 then Ret v
           else do previous <- rd data (i + size + size - 1); Ret (v + IZR (Int_part (previous - v + 1 / 2)))%R);
  do data <- put data (i + size + size) v;
  if negb (nth 95 buff 0 =? 32) then
    do psi <- MpcfModel.atof (text buff 97);
    do data <- put data (i + size + size + size) (Q2R psi * marcsec_to_radians);
    do eps <- MpcfModel.atof (text buff 116);
    do data <- put data (i + size + size + size + size) (Q2R eps * marcsec_to_radians);
    Ret (data, nutation + 1)
  else Ret (data, nutation).

(** 139-168: the loop, at most [k] more lines.  [date] is *file_date once it is written.  Result: i, which is
    eop_usable as well, eop_usable_nutation, the array, buff and *file_date *)
Fixpoint read_lines (k : nat) (file_date : bool) (size i : Z) (initial : Q) (file buff : list Z) (data : list R)
    (nutation : Z) (date : option Z) : outcome (Z * Z * list R * list Z * option Z) :=
  match k with
  | O => Ret (i, nutation, data, buff, date)
  | S k =>
      match fgets file buff with
      | None => Ret (i, nutation, data, buff, date)
      | Some (buff, file) =>
          if negb (nth 16 buff 0 =? 32) && is_valid_eop_line buff then
            do '(data, nutation) <- store_line size i initial buff data nutation;
            do date <- (if file_date && (nth 16 buff 0 =? 73) then do n <- SofModel.atoi (text buff 7); Ret (Some n) else Ret date);
            read_lines k file_date size (i + 1) initial file buff data nutation date
          else Ret (i, nutation, data, buff, date)
      end
  end.

(** 169 *)
Definition enough : Z := 16371.

(** 95-180 [load_earth_orientation_params].
    [filename]: None for NULL, else the bytes of the file, None if it cannot be opened.
    [file_date]: is the pointer not NULL; the third result is what is written there (one value, or three).
    [alloc]: does calloc( ) succeed.  [buff]: what is in the uninitialised buffer.
    ([L], [limit], [str]: of the functions of delta_t.cpp.)  A file of more than INT_MAX lines or one for which
    eop_size * 5 overflows is UB. *)
Definition load_earth_orientation_params (L limit : Z) (str : option (list Z)) (alloc : bool) (buff : list Z) (s : statics)
    (filename : option (option (list Z))) (file_date : bool) : outcome (Z * statics * list Z) :=
  match filename with
  | None =>
      if file_date then
        match eop_data s with
        | None => Ret (-1, s, [0; 0; 0])
        | Some _ =>
            do d0 <- to_integer IMAX (eop_jd0 s - (2400000499 # 1000))%Q;
            do d1 <- chk IMAX (d0 + eop_usable s);
            do d2 <- chk IMAX (d0 + eop_usable_nutation s);
            Ret (0, s, [d0; d1; d2])
        end
      else Ret (0, mk_statics None (eop_jd0 s) (eop_size s) (eop_usable s) (eop_usable_nutation s), [])
  | Some ifile =>
      let s := mk_statics None (eop_jd0 s) (eop_size s) (eop_usable s) (eop_usable_nutation s) in
      match ifile with
      | None => Ret (EOP_FILE_NOT_FOUND, s, [])
      | Some file =>
          match fgets file buff with
          | None => Ret (EOP_FILE_NOT_FOUND, s, [])
          | Some (buff, _) =>
              if negb (is_valid_eop_line buff) || negb (nth 16 buff 0 =? 73) then Ret (EOP_FILE_WRONG_FORMAT, s, [])
              else
                do mjd <- MpcfModel.atof (text buff 7);
                let jd0 := (mjd + (24000005 # 10))%Q in
                do initial <- DtModel.td_minus_utc L limit str (jd0 + (1 # 10))%Q;
                do size <- chk IMAX (Z.of_nat (List.length file) / eop_iline_len);
                do cells <- chk IMAX (size * 5);
                let rval := if alloc then 0 else EOP_ALLOC_FAILED in
                let data := repeat 0%R (Z.to_nat cells) in
                do '(i, nutation, data, buff, date) <-
                   (if alloc then read_lines (Z.to_nat size) file_date size 0 initial file buff data 0 None
                    else Ret (0, 0, data, buff, None));
                let written := match date with Some d => [d] | None => [] end in
                let rval := if i <? enough then EOP_FILE_WRONG_FORMAT else rval in
                if negb (rval =? 0) then Ret (rval, mk_statics None jd0 size i nutation, written)
                else
                  do n <- SofModel.atoi (text buff 7);
                  do rval <- chk IMAX (n - 1);
                  Ret (rval, mk_statics (Some data) jd0 size i nutation, written)
          end
      end
  end.

(** afuncs.h:159-163 *)
Record earth_orientation_params := mk_params { dX : R; dY : R; tdt_minus_ut1 : R; dPsi : R; dEps : R }.

(** spline.cpp:84-112 [cubic_spline_interpolate_within_table] for a table that starts at data[base]: as in
    [SplineModel], but what is read is within the whole array *)
Definition spline (data : list R) (base n_entries : Z) (x : R) : outcome (R * Z) :=
  do idx <- floor_int x;
  let '(idx, err_code) :=
    if idx <? 1 then (1, if idx <? 0 then -2 else -1)
    else if n_entries - 3 <? idx then (n_entries - 3, if n_entries - 2 <? idx then -2 else -1)
    else (idx, 0) in
  let x := (x - IZR idx)%R in
  do t1 <- rd data (base + idx + 1);
  do tm <- rd data (base + idx - 1);
  do t0 <- rd data (base + idx);
  do t2 <- rd data (base + idx + 2);
  let c := ((t1 - tm) * (1 / 2))%R in
  let y1 := (t1 - t0)%R in
  let a := ((t2 - t0) * (1 / 2) - 2 * y1 + c)%R in
  let b := (y1 - a - c)%R in
  Ret ((t0 + x * (c + x * (b + x * a)))%R, err_code).

(** 206-222: the loop over the parameters from i on, [k] rounds; rval and the results *)
Fixpoint get_loop (k : nat) (i : Z) (s : statics) (data : list R) (dt : R) (mask rval : Z) : outcome (Z * list R) :=
  match k with
  | O => Ret (rval, [])
  | S k =>
      do '(rval, r) <-
        (if Z.testbit mask i then
           do '(result, t_rval) <- spline data (eop_size s * i) (if i <? 3 then eop_usable s else eop_usable_nutation s) dt;
           if negb (t_rval =? 0) then Ret (Z.lor rval (2 ^ i), 0%R) else Ret (rval, result)
         else Ret (rval, 0%R));
      do '(rval, l) <- get_loop k (i + 1) s data dt mask rval;
      Ret (rval, r :: l)
  end.

(** 193-246 [get_earth_orientation_params]; [params]: is the pointer not NULL *)
Definition get_earth_orientation_params (str : option (list Z)) (s : statics) (jd : Q) (params : bool) (mask : Z)
  : outcome (Z * earth_orientation_params) :=
  do '(rval, results) <-
    match eop_data s, params with
    | Some data, true => get_loop 5 0 s data (Q2R (jd - eop_jd0 s)) mask 0
    | _, _ => Ret (-1, [0; 0; 0; 0; 0]%R)
    end;
  if negb params then UB
  else
    let r i := nth i results 0%R in
    let p := mk_params (r 0%nat) (r 1%nat) (r 2%nat) (r 3%nat) (r 4%nat) in
    do _ <- check (Rltb (- (28 / 100) * arcsec_to_radians) (dX p));
    do _ <- check (Rltb (dX p) (36 / 100 * arcsec_to_radians));
    do _ <- check (Rltb (- (3 / 100) * arcsec_to_radians) (dY p));
    do _ <- check (Rltb (dY p) (61 / 100 * arcsec_to_radians));
    do _ <- check (Rltb (-130 * marcsec_to_radians) (dPsi p));
    do _ <- check (Rltb (dPsi p) (55 * marcsec_to_radians));
    do _ <- check (Rltb (dEps p) (10 * marcsec_to_radians));
    do _ <- check (Rltb (-18 * marcsec_to_radians) (dEps p));
    do t <- (if Z.testbit mask 2 && Reqb (tdt_minus_ut1 p) 0 then do d <- DtModel.default_td_minus_ut str jd; Ret (Q2R d)
             else Ret (tdt_minus_ut1 p));
    Ret (rval, mk_params (dX p) (dY p) t (dPsi p) (dEps p)).

(** 248, 258-275 [setup_precession_with_nutation_eops]; [nutation] and [p] as in [PrecModel] *)
Definition J2000 : Q := 2451545.
Definition setup_precession_with_nutation_eops (str : option (list Z)) (nutation : R -> R * R) (s : statics) (p : PrecModel.statics)
    (matrix : list R) (year : Q) : outcome (Z * list R * PrecModel.statics) :=
  let jdt := (J2000 + (year - 2000) * (36525 # 100))%Q in
  do '(rval, eo_params) <- get_earth_orientation_params str s jdt true 31;
  do '(m, p) <- PrecModel.setup_precession_with_nutation_delta nutation p matrix (Q2R year) (dPsi eo_params) (dEps eo_params);
  let ut1 := (Q2R jdt - tdt_minus_ut1 eo_params / 86400)%R in
  let rotation := AzModel.green_sidereal_time ut1 in
  do m <- spin_matrix m 0 3 (- rotation);
  do m <- spin_matrix m 0 6 (- dX eo_params);
  do m <- spin_matrix m 3 6 (dY eo_params);
  Ret (rval, m, p).
