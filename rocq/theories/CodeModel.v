(** mpc_code.cpp: planets' sizes (62-99) and lines that describe an observatory
    (271-395).

    The text is the list of the bytes before the terminator.  Numbers in the text
    are exact rationals; angles in radians, and what is computed from them, are real
    numbers. *)
From Coq Require Import QArith Qreals.
From Coq Require Import String.
From Verif Require Import CBase CStr TstrModel MpcfModel TrigBase EllModel.
Local Open Scope string_scope.
Local Open Scope list_scope.
Local Open Scope Z_scope.

(** mpc_code.cpp:35-69 and 88-93, in metres; sun, Mercury to Pluto, moon, and the four
    large moons of Jupiter. *)
Definition EARTH_MAJOR_AXIS : Q := 6378137.
Definition EARTH_MINOR_AXIS : Q := 6356752314140347 # 1000000000.
Definition equatorial_radii : list Q :=
  [695700000; 2440530; 6051800; EARTH_MAJOR_AXIS; 3396190; 71492000; 60268000; 25559000; 24764000; 1188300;
   1737400; 1821490; 1560800; 2631200; 2410300]%Q.
Definition polar_radii : list Q :=
  [695700000; 2438260; 6051800; EARTH_MINOR_AXIS; 3376200; 66854000; 54364000; 24973000; 24341000]%Q.

(** mpc_code.cpp:71-77 *)
Definition planet_radius_in_meters (planet_idx : Z) : Q :=
  if (0 <=? planet_idx) && (planet_idx <? 15) then nth (Z.to_nat planet_idx) equatorial_radii 0%Q else 0%Q.

(** mpc_code.cpp:95-99: the index is not checked from below. *)
Definition planet_axis_ratio (planet_idx : Z) : outcome Q :=
  if 9 <=? planet_idx then Ret 1%Q
  else do p <- nth_ub polar_radii planet_idx; do e <- nth_ub equatorial_radii planet_idx; Ret (p / e)%Q.

(** mpc_func.h:40-52 (mpc_code_t).  [c_name] is the text the pointer name leads to, [None]
    a pointer beyond the end of the line; [c_code] is the string in code[5].  *)
Record mpc_code : Type := mk_code {
  c_lat : R; c_lon : R; c_alt : R; c_rho_cos : R; c_rho_sin : R;
  c_planet : Z; c_prec1 : Z; c_prec2 : Z; c_format : Z;
  c_name : option (list Z); c_code : list Z }.
Definition MPC_CODE_PARALLAXES : Z := 1.
Definition MPC_CODE_LAT_LON_ALT : Z := 2.
Definition MPC_CODE_SATELLITE : Z := 3.

(** mpc_code.cpp:271-279 (limited_atof( )): [ibuff] has at least [len] bytes wherever it is
    used. *)
Definition limited_atof (ibuff : list Z) (len : nat) : outcome Q := quick_atof (firstn len ibuff).

(** mpc_code.cpp:286-295 (convert_base_60_to_decimal( )) *)
Definition convert_base_60_to_decimal (ival : Q) : outcome Q :=
  do secs <- to_integer IMAX ival;
  Ret (inject_Z (Z.quot secs 10000) + inject_Z (Z.rem (Z.quot secs 100) 100) / 60 + inject_Z (Z.rem secs 100) / 3600
       + (ival - inject_Z secs) / 3600)%Q.

(** mpc_code.cpp:297-305 (_set_parallax_constants( )): rho_cos_phi and rho_sin_phi *)
Definition set_parallax_constants (planet : Z) (lat alt : R) : outcome (R * R) :=
  let major := planet_radius_in_meters planet in
  do ratio <- planet_axis_ratio planet;
  lat_alt_to_parallax lat alt (Q2R major) (Q2R (major * ratio)%Q).

(** sscanf( s, "%lf%lf%lf", ...): the values read, in order. *)
Fixpoint scan_lfs (n : nat) (s : list Z) : outcome (list Q) :=
  match n with
  | O => Ret []
  | S n' =>
      do o <- scan_lf s;
      match o with
      | None => Ret []
      | Some (v, r) => do l <- scan_lfs n' r; Ret (v :: l)
      end
  end.

(** strchr( s, c): the text from the first [c] on. *)
Fixpoint find_char (c : Z) (s : list Z) : option (list Z) :=
  match s with
  | [] => None
  | d :: r => if d =? c then Some s else find_char c r
  end.

Definition degree (q : Q) : R := (Q2R q * (PI / 180))%R.
Definition text_at (n : nat) (buff : list Z) : option (list Z) :=
  if (n <=? List.length buff)%nat then Some (skipn n buff) else None.
Definition qabs_gt (q b : Q) : bool := qlt b q || qlt q (- b).

(** What is found before the code is stored and defaults are set: lat, lon, alt,
    rho_cos_phi, rho_sin_phi, prec1, prec2, format, name, and rval. *)
Record found : Type := mk_found {
  f_lat : R; f_lon : R; f_alt : R; f_rho_cos : R; f_rho_sin : R;
  f_prec1 : Z; f_prec2 : Z; f_format : Z; f_name : option (list Z); f_rval : Z }.
Definition nothing : found := mk_found 0 0 0 0 0 0 0 0 None (-1).

(** mpc_code.cpp:322-347: the format of rovers.txt.  Numbers read before one that cannot
    be read stay, in degrees. *)
Definition rovers_line (buff : list Z) : outcome found :=
  do l <- scan_lfs 3 (skipn 5 buff);
  match l with
  | [lon; lat; alt] =>
      let tptr := find_char 64 (skipn 4 buff) in
      do '(lon, lat) <-
        (if qabs_gt lon 361 || qabs_gt lat 91
         then do lon <- convert_base_60_to_decimal lon; do lat <- convert_base_60_to_decimal lat; Ret (lon, lat)
         else Ret (lon, lat));
      let rlon := degree lon in let rlat := degree lat in let ralt := Q2R alt in
      do '(rlon, rlat, ralt, rval) <-
        (match tptr with
         | Some t => do rval <- atoi (tl t);
                     if 9000 <? rval then Ret (0%R, 0%R, 0%R, rval) else Ret (rlon, rlat, ralt, rval)
         | None => Ret (rlon, rlat, ralt, 3)
         end);
      do '(rc, rs) <-
        (if negb (Reqb rlat 0) && negb (Reqb rlon 0) then set_parallax_constants rval rlat ralt else Ret (0%R, 0%R));
      Ret (mk_found rlat rlon ralt rc rs 0 0 MPC_CODE_LAT_LON_ALT (text_at 47 buff) rval)
  | _ => let v n := Q2R (nth n l 0%Q) in Ret (mk_found (v 1%nat) (v 0%nat) (v 2%nat) 0 0 0 0 0 None (-1))
  end.

(** mpc_code.cpp:352-367: the format of the list of observatories.  The text is at least 30
    bytes long. *)
Definition standard_line (buff : list Z) : outcome found :=
  do lon <- limited_atof (skipn 4 buff) 9;
  do rc <- limited_atof (skipn 13 buff) 8;
  do rs <- limited_atof (skipn 21 buff) 9;
  do '(lat, alt) <-
    (if negb (Qeq_bool rc 0) || negb (Qeq_bool rs 0)
     then point_to_ellipse 1 (Q2R (EARTH_MINOR_AXIS / EARTH_MAJOR_AXIS)) (Q2R rc) (Q2R rs) else Ret (0%R, 0%R));
  let alt := (alt * Q2R EARTH_MAJOR_AXIS)%R in
  let prec1 := Z.of_nat (span isdigit (firstn 5 (skipn 8 buff))) in
  let prec2 := Z.of_nat (span isdigit (firstn 6 (skipn 15 buff))) in
  Ret (mk_found lat (degree lon) alt (Q2R rc) (Q2R rs) prec1 prec2 MPC_CODE_PARALLAXES (text_at 30 buff) 3).

(** mpc_code.cpp:307-395 (get_mpc_code_info( )): the value returned and *cinfo. *)
Definition get_mpc_code_info (buff : list Z) : outcome (Z * mpc_code) :=
  let i := span (fun c => (32 <? c) && (c <=? 126) && negb (c =? 33)) buff in
  do f <-
    (if (3 <=? i)%nat && (i <=? 4)%nat && (30 <=? List.length buff)%nat then
       let i := (i + span (Z.eqb 32) (skipn i buff))%nat in
       do bang <- tst buff 4 (Z.eqb 33);
       if bang then rovers_line buff
       else
         do std <- tst buff 7 (Z.eqb 46) &&& tst buff 21 (strchr (zs "+- ")) &&& tst buff 14 (Z.eqb 46)
                   &&& tst buff 23 (Z.eqb 46) &&& tst buff 3 (Z.eqb 32);
         if std then standard_line buff
         else if (i =? 30)%nat then Ret (mk_found 0 0 0 0 0 0 0 MPC_CODE_SATELLITE (text_at 30 buff) (-2))
         else Ret nothing
     else Ret nothing);
  do c0 <- at_ buff 0; do c1 <- at_ buff 1; do c2 <- at_ buff 2; do c3 <- at_ buff 3;
  let code := (if c3 =? 32 then [c0; c1; c2] else if c3 =? 0 then [c0; c1; c2] else [c0; c1; c2; c3]) in
  let rval := f_rval f in
  let lon := (if negb (rval =? -1) && Rltb (f_lon f) 0 then f_lon f + (PI + PI) else f_lon f)%R in
  let name := (if rval =? -1 then Some (zs "Unkn") else f_name f) in
  let planet := (if rval =? -1 then 3 else rval) in
  Ret (rval, mk_code (f_lat f) lon (f_alt f) (f_rho_cos f) (f_rho_sin f) planet (f_prec1 f) (f_prec2 f) (f_format f) name code).
