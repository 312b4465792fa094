(** mpcorb.cpp: orbital elements from lines of 'mpcorb.dat' and 'astorb.dat'.

    A line is a string, given by the bytes before its terminator.  Numbers in the text are exact
    rationals, angles in radians real numbers.  A division by zero, or the square root of a negative
    number, is [Abort].  [L] is LONG_MAX. *)
From Coq Require Import QArith Qreals Reals.
From Verif Require Import CBase CStr DateModel TstrModel TrigBase EllModel.
From Verif Require MpcfModel SofModel OrbModel.
Local Open Scope list_scope.
Local Open Scope Z_scope.

(** 31-32 *)
Definition GAUSS_K : R := 1720209895 / 10 ^ 11.
Definition SOLAR_GM : R := GAUSS_K * GAUSS_K.

(** 38-49 [extended_hex_to_int]; a char is signed *)
Definition extended_hex_to_int (ichar : Z) : Z :=
  let c := SofModel.schar ichar in
  if (48 <=? c) && (c <=? 57) then c - 48
  else if (65 <=? c) && (c <=? 90) then c - 65 + 10
  else c - 97 + 10 + 26.

(** 51-60 [extract_mpc_epoch] *)
Definition extract_mpc_epoch (L : Z) (epoch_buff : list Z) : outcome Z :=
  let x i := extended_hex_to_int (nth i epoch_buff 0) in
  let year := 100 * x 0%nat + 10 * x 1%nat + x 2%nat in
  dmy_to_day L (x 4%nat) (x 3%nat) year CALENDAR_GREGORIAN.

(** comets.h:22-33 (ELEMENTS) with the members OrbModel.elements leaves out.  (is_asteroid and
    central_obj, always set to 1 and 0, are left out.) *)
Record asteroid : Type := mk_asteroid { epoch : Q; abs_mag : Q; slope_param : Q; orbit : OrbModel.elements }.

(** 62-81 [do_remaining_element_setup], of what was read in degrees and astronomical units.  [w0] is
    what that member of *elem held before. *)
Definition do_remaining_element_setup (epoch mean_anomaly arg_per asc_node incl ecc major_axis : Q) (w0 : R) : outcome OrbModel.elements :=
  let rad v := (Q2R v * (PI / 180))%R in
  let q := (Q2R major_axis * (1 - Q2R ecc))%R in
  do e <- OrbModel.derive_quantities
            (OrbModel.mk_elements 0 q (Q2R ecc) (rad incl) (rad arg_per) (rad asc_node) (rad mean_anomaly)
               0 0 (0, 0, 0)%R (0, 0, 0)%R 0 (Q2R major_axis) 0 w0 0) SOLAR_GM;
  do h <- c_sqrt (SOLAR_GM * q * (1 + Q2R ecc))%R;
  let ma := rad mean_anomaly in
  let ma := if Rltb PI ma then (ma - (PI + PI))%R else ma in
  Ret (OrbModel.mk_elements (Q2R epoch - ma * OrbModel.t0 e) (OrbModel.q_ e) (OrbModel.ecc_ e) (OrbModel.incl e)
         (OrbModel.arg_per e) (OrbModel.asc_node e) (OrbModel.mean_anomaly e)
         (OrbModel.lon_per e) (OrbModel.minor_to_major e) (OrbModel.perih_vec e) (OrbModel.sideways e)
         h (OrbModel.major_axis e) (OrbModel.t0 e) (OrbModel.w0 e) SOLAR_GM).

(** 90-118 [extract_mpcorb_dat]: the value returned, and *elem if it was written to.  [elem] is NULL
    ([None]), or what *elem held as w0. *)
Definition extract_mpcorb_dat (L : Z) (elem : option R) (buff : list Z) : outcome (Z * option asteroid) :=
  let b i := nth i buff 0 in
  let num k := MpcfModel.atof (skipn k buff) in
  if (200 <? List.length buff)%nat && (b 47%nat =? 32) && (b 82%nat =? 46) && (b 25%nat =? 32) && (b 29%nat =? 46) && (b 36%nat =? 32) then
    do epoch_jd <- extract_mpc_epoch L (skipn 20 buff);
    match elem with
    | None => Ret (epoch_jd, None)
    | Some w0 =>
        let epoch := (inject_Z epoch_jd - (1 # 2))%Q in
        do mean_anomaly <- num 26%nat;
        do arg_per <- num 37%nat;
        do asc_node <- num 48%nat;
        do incl <- num 59%nat;
        do ecc <- num 69%nat;
        do major_axis <- num 92%nat;
        do e <- do_remaining_element_setup epoch mean_anomaly arg_per asc_node incl ecc major_axis w0;
        do abs_mag <- (if b 10%nat =? 46 then num 8%nat else Ret 0%Q);
        do slope_param <- (if b 16%nat =? 46 then num 14%nat else Ret 0%Q);
        Ret (epoch_jd, Some (mk_asteroid epoch abs_mag slope_param e))
    end
  else Ret (0, None).

(** 124-137 [extract_long].  Without a blank the loop runs past the terminator: [UB]. *)
Fixpoint extract_loop (L : Z) (ibuff : list Z) (rval : Z) : outcome Z :=
  match ibuff with
  | [] => UB
  | c :: t =>
      if c =? 32 then Ret rval
      else if c =? 46 then extract_loop L t rval
      else do v <- ev L (rval * 10%Z + (SofModel.schar c - 48)%Z)%cx; extract_loop L t v
  end.
Fixpoint skip_blanks (ibuff : list Z) : list Z :=
  match ibuff with c :: t => if c =? 32 then skip_blanks t else ibuff | [] => [] end.
Definition extract_long (L : Z) (ibuff : list Z) : outcome Z := extract_loop L (skip_blanks ibuff) 0.

(** 139-167 [extract_astorb_dat] *)
Definition extract_astorb_dat (L : Z) (elem : option R) (buff : list Z) : outcome (Z * option asteroid) :=
  let lng k := extract_long L (skipn k buff) in
  do mags <-
    (if (267 <? List.length buff)%nat then
       do r <- scan_lf (skipn 41 buff);
       match r with
       | None => Ret None
       | Some (h, t) => do r <- scan_lf t; Ret (match r with None => None | Some (g, _) => Some (h, g) end)
       end
     else Ret None);
  match mags with
  | None => Ret (0, None)
  | Some (h, g) =>
      do ymd <- SofModel.atoi (skipn 106 buff);
      do mean_anomaly <- lng 115%nat;
      do arg_per <- lng 126%nat;
      do asc_node <- lng 137%nat;
      do incl <- lng 148%nat;
      do ecc <- lng 160%nat;
      do major_axis <- MpcfModel.atof (skipn 169 buff);
      do epoch_jd <- dmy_to_day L (Z.rem ymd 100) (Z.rem (Z.quot ymd 100) 100) (Z.quot ymd 10000) CALENDAR_GREGORIAN;
      let epoch := (inject_Z epoch_jd - (1 # 2))%Q in
      let millionths v := (inject_Z v / inject_Z (10 ^ 6))%Q in
      do e <- do_remaining_element_setup epoch (millionths mean_anomaly) (millionths arg_per) (millionths asc_node) (millionths incl)
                (inject_Z ecc / inject_Z (10 ^ 8))%Q major_axis (match elem with Some w0 => w0 | None => 0%R end);
      Ret (epoch_jd, match elem with Some _ => Some (mk_asteroid epoch h g e) | None => None end)
  end.
