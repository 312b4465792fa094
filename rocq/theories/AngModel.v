(** Model of mpc_code.cpp:435-700: angles and places written by people.

    Simplifications: doubles are exact rationals; angles are in degrees where the code goes on
    to radians (and compares with PI); the constants rho_cos_phi and rho_sin_phi, and the fields of
    the result that are always the same, are left out.  A string is the list of its bytes before the
    terminator, a pointer into it the rest of the list. *)
From Coq Require Import QArith.
From Coq Require Import String.
From Verif Require Import CBase CStr TstrModel MpcfModel.
Local Open Scope string_scope.
Local Open Scope list_scope.
Local Open Scope Z_scope.

Definition head (s : list Z) : Z := match s with c :: _ => c | [] => 0 end.

(** 435-458 [_get_number_for_angle]: the value, *is_integer, and where it ended
    (buff + *nbytes) *)
Definition get_number_for_angle (buff : list Z) : outcome (Q * Z * list Z) :=
  let tptr := skip_spaces buff in
  if negb (isdigit (head tptr)) then Ret (0%Q, -1, buff)
  else
    let tptr := skipn (span isdigit tptr) tptr in
    do '(rval, endptr) <- quick_strtod buff;
    if (List.length buff - List.length endptr =? 0)%nat || qlt rval 0 then Ret (0%Q, -1, endptr)
    else Ret (rval, (if head tptr =? 46 then 0 else 1), endptr).

(** 460-508 [_get_angle]: the value, where it ended (buff + *nbytes), and *n_fields *)
Definition get_angle (buff : list Z) : outcome (Q * list Z * Z) :=
  do '(rval, is_integer, t1) <- get_number_for_angle buff;
  if is_integer =? -1 then Ret (rval, buff, 0)
  else if is_integer =? 0 then Ret (rval, skip_spaces t1, 1)
  else
    do '(fraction, is_integer, t2) <- get_number_for_angle t1;
    if qlt 60 fraction then Ret (0%Q, skipn (List.length t1 - List.length t2) buff, 0)
    else if is_integer =? -1 then Ret (rval, skip_spaces t1, 1)
    else
      let rval := (rval + fraction / 60)%Q in
      if is_integer =? 0 then Ret (rval, skip_spaces t2, 2)
      else
        do '(fraction, is_integer, t3) <- get_number_for_angle t2;
        if qlt 60 fraction then Ret (0%Q, skipn (List.length t2 - List.length t3) buff, 0)
        else if is_integer =? -1 then Ret (rval, skip_spaces t2, 2)
        else Ret ((rval + fraction / 3600)%Q, skip_spaces t3, 3).

(** 513-516 *)
Definition GOT_LON : Z := 0.
Definition GOT_LAT : Z := 1.
Definition GOT_ALT : Z := 2.
Definition GOT_NOTHING : Z := -1.
Definition compass : list Z := zs "nNeEsSwW".

(** 529-535: past a compass sign and "alt" *)
Definition place_start (tptr : list Z) : Z * list Z :=
  let '(compass_byte, tptr) := if strchr compass (head tptr) then (head tptr, tl tptr) else (0, tptr) in
  let tptr :=
    if memieq tptr (zs "alt") 3 && (3 <=? List.length tptr)%nat then
      let t := skipn 3 tptr in if head t =? 46 then tl t else t
    else tptr in
  (compass_byte, tptr).
(** 538-554: an altitude; its value, the pointer, and rval *)
Definition height (compass_byte n_fields : Z) (tptr : list Z) (value : Q) : Q * list Z * Z :=
  if (compass_byte =? 0) && (n_fields =? 1) then
    let tptr := if head tptr =? 32 then tl tptr else tptr in
    if head tptr =? 109 then (value, tl tptr, GOT_ALT)
    else if (head tptr =? 102) && (nth 1 tptr 0 =? 116) then ((value * (3048 # 10000))%Q, skipn 2 tptr, GOT_ALT)
    else (value, tptr, GOT_NOTHING)
  else (value, tptr, GOT_NOTHING).
(** 556-575: the compass sign after the angle; the pointer ([None]: one behind the terminator),
    is_negative, and rval *)
Definition direction (compass_byte n_fields : Z) (tptr : list Z) (rval : Z) : option (list Z) * bool * Z :=
  if negb (n_fields =? 0) && (rval =? GOT_NOTHING) then
    let '(compass_byte, tptr) :=
      if (compass_byte =? 0) && strchr compass (head tptr)
      then (head tptr, match tptr with _ :: r => Some r | [] => None end)
      else (compass_byte, Some tptr) in
    let compass_byte := tolower compass_byte in
    if (compass_byte =? 110) || (compass_byte =? 115) then (tptr, compass_byte =? 115, GOT_LAT)
    else if (compass_byte =? 101) || (compass_byte =? 119) then (tptr, compass_byte =? 119, GOT_LON)
    else (tptr, false, rval)
  else (Some tptr, false, rval).
(** 518-587 [extract_lat_lon]: the return value, *value ([None]: not written), and buff + *bytes_read
    ([None]: not written).  [with_bytes]: bytes_read is not NULL. *)
Definition extract_lat_lon (with_bytes : bool) (buff : list Z) : outcome (Z * option Q * option (list Z)) :=
  match skip_spaces buff with
  | [] => Ret (GOT_NOTHING, None, None)
  | c :: r =>
      let '(compass_byte, tptr) := place_start (c :: r) in
      do '(value, tptr, n_fields) <- get_angle tptr;
      let '(value, tptr, rval) := height compass_byte n_fields tptr value in
      let '(tptr, is_negative, rval) := direction compass_byte n_fields tptr rval in
      let value := if is_negative then (- value)%Q else value in
      if with_bytes then
        match tptr with
        | None => UB                                          (* 580: *tptr is read *)
        | Some t =>
            let t := if head t =? 44 then tl t else t in
            Ret (rval, Some value, Some (if rval =? GOT_NOTHING then buff else t))
        end
      else Ret (rval, Some value, None)
  end.

(** 606-660 [get_lat_lon_info]: the return value, and latitude, longitude and altitude.  [None]:
    cinfo is as it was; an altitude of [None]: only latitude and longitude were written.
    [with_cinfo]: cinfo is not NULL. *)
Definition get_lat_lon_info (with_cinfo : bool) (buff : list Z) : outcome (Z * option (Q * Q * option Q)) :=
  do '(piece_type, first_value, tptr) <- extract_lat_lon true buff;
  match first_value, tptr with
  | Some first_value, Some tptr =>
      if (piece_type =? GOT_LAT) || (piece_type =? GOT_LON) then
        do '(second_type, second_value, tptr) <- extract_lat_lon true tptr;
        match second_value, tptr with
        | Some second_value, Some tptr =>
            if second_type =? GOT_LAT + GOT_LON - piece_type then
              if with_cinfo then
                let '(lon, lat) := if piece_type =? GOT_LON then (first_value, second_value) else (second_value, first_value) in
                let lon := if qlt lon 0 then (lon + 360)%Q else lon in
                if qlt 90 lat || qlt lat (-(90)) || qlt lon 0 || qlt 360 lon then Ret (-1, Some (lat, lon, None))
                else
                  do '(alt_type, alt_value, _) <- extract_lat_lon true tptr;
                  Ret (0, Some (lat, lon, Some match alt_value with
                                               | Some a => if alt_type =? GOT_ALT then a else 100%Q
                                               | None => 100%Q
                                               end))
              else Ret (0, None)
            else Ret (-1, None)
        | _, _ => Ret (-1, None)
        end
      else Ret (-1, None)
  | _, _ => Ret (-1, None)
  end.

(** 662-672 [get_ra_from_string]: the angle in degrees, and *bytes_read *)
Definition get_ra_from_string (buff : list Z) : outcome (Q * Z) :=
  do '(rval, t, n_fields) <- get_angle buff;
  let rval := if 2 <? n_fields then (rval * 15)%Q else rval in
  Ret (rval, if (n_fields =? 0) || qlt 360 rval then 0 else Z.of_nat (List.length buff - List.length t)).

(** 674-694 [get_dec_from_string] *)
Definition get_dec_from_string (buff : list Z) : outcome (Q * Z) :=
  if negb (head buff =? 43) && negb (head buff =? 45) then Ret (0%Q, 0)
  else
    do '(rval, t, n_fields) <- get_angle (tl buff);
    let bytes_read := if (n_fields =? 0) || qlt 90 rval then 0 else Z.of_nat (List.length (tl buff) - List.length t) in
    Ret ((if head buff =? 45 then - rval else rval)%Q, if n_fields =? 0 then bytes_read else bytes_read + 1).

(** 706-746 [get_xxx_location_info]: the return value, and, if it is 0, longitude, latitude and altitude.
    (Before a return of -2 longitude and latitude may have been written.) *)
Definition get_xxx_location_info (buff : list Z) : outcome (Z * option (Q * Q * Q)) :=
  if negb (prefix (zs "COM Long.") buff) then Ret (-1, None)
  else
    match strstr buff (zs "Lat."), strstr buff (zs "Alt.") with
    | Some lat_ptr, Some alt_ptr =>
        do '(t1, lon, _) <- extract_lat_lon false (skipn 9 buff);
        match t1 =? GOT_LON, lon with
        | true, Some lon =>
            do '(t2, lat, _) <- extract_lat_lon false (skipn (lat_ptr + 4) buff);
            match t2 =? GOT_LAT, lat with
            | true, Some lat =>
                let lon := if qlt lon 0 then (lon + 360)%Q else lon in
                do alt <- atof (skipn (alt_ptr + 4) buff);
                Ret (0, Some (lon, lat, alt))
            | _, _ => Ret (-2, None)
            end
        | _, _ => Ret (-2, None)
        end
    | _, _ => Ret (-2, None)
    end.
