(** mpc_code.cpp:397-433: the region a place is in, from a file of rectangles ('geo_rect.txt').

    A file is given by its bytes; numbers are exact rationals. *)
From Coq Require Import QArith.
From Verif Require Import CBase CStr MpcfModel.
From Verif Require EopModel.
Import ListNotations.
Local Open Scope list_scope.
Local Open Scope Z_scope.

Definition qlt (a b : Q) : bool := negb (Qle_bool b a).

(** The string at [s], bytes of an array up to its end.  One without a terminator there is [UB] (also if only its first
    bytes are used). *)
Fixpoint string_at (s : list Z) : outcome (list Z) :=
  match s with
  | [] => UB
  | c :: t => if c =? 0 then Ret [] else do r <- string_at t; Ret (c :: r)
  end.
(** 404: fgets( tbuff, sizeof( tbuff), ifile) for a line; what was in tbuff stays behind it. *)
Definition fill (tbuff line : list Z) : list Z := line ++ [0] ++ skipn (S (List.length line)) tbuff.

(** 410-411, 414-415: while( d - base > 180.) d -= 360.;  (base is 0 for d_lon1).  [fuel] only bounds the loop. *)
Fixpoint lower (fuel : nat) (base d : Q) : outcome Q :=
  match fuel with
  | O => Fuel
  | S fuel => if qlt 180 (d - base) then lower fuel base (d - 360)%Q else Ret d
  end.
(** 412-413, 416-417: while( d - base < -180.) d += 360.; *)
Fixpoint raise (fuel : nat) (base d : Q) : outcome Q :=
  match fuel with
  | O => Fuel
  | S fuel => if qlt (d - base) (-180) then raise fuel base (d + 360)%Q else Ret d
  end.

(** 426-428: up to the first byte below a blank; a char is signed. *)
Fixpoint name_of (s : list Z) : list Z :=
  match s with
  | c :: t => if (32 <=? c) && (c <=? 127) then c :: name_of t else []
  | [] => []
  end.

(** 406-431: what is in buff after a line which is not a comment *)
Definition region_of_line (fuel : nat) (tbuff : list Z) (lat_in_degrees lon_in_degrees : Q) : outcome (list Z) :=
  let num k := do s <- string_at (skipn k tbuff); quick_atof s in
  do lon1 <- num 0%nat;
  do lon2 <- num 20%nat;
  let d_lon1 := (lon1 - lon_in_degrees)%Q in
  let d_lon2 := (lon2 - lon_in_degrees)%Q in
  do d_lon1 <- lower fuel 0 d_lon1;
  do d_lon1 <- raise fuel 0 d_lon1;
  do d_lon2 <- lower fuel d_lon1 d_lon2;
  do d_lon2 <- raise fuel d_lon1 d_lon2;
  if qlt (d_lon1 * d_lon2) 0 then
    do lat1 <- num 10%nat;
    do lat2 <- num 30%nat;
    let d_lat1 := (lat1 - lat_in_degrees)%Q in
    let d_lat2 := (lat2 - lat_in_degrees)%Q in
    if qlt (d_lat1 * d_lat2) 0 then do s <- string_at (skipn 40 tbuff); Ret (name_of s) else Ret []
  else Ret [].

(** 403-432, with [n] a bound on the loop: the return value and buff *)
Fixpoint regions (n fuel : nat) (tbuff file : list Z) (lat_in_degrees lon_in_degrees : Q) : outcome (Z * list Z) :=
  match file with
  | [] => Ret (-2, [])
  | _ =>
      match n with
      | O => Fuel
      | S n =>
          let k := EopModel.line_length 89 file in
          let tbuff := fill tbuff (firstn k file) in
          do buff <- (if nth 0 tbuff 0 =? 35 then Ret [] else region_of_line fuel tbuff lat_in_degrees lon_in_degrees);
          match buff with
          | [] => regions n fuel tbuff (skipn k file) lat_in_degrees lon_in_degrees
          | _ => Ret (0, buff)
          end
      end
  end.
(** 397-433 [extract_region_data_for_lat_lon].  [tbuff], 90 bytes, is what happens to be in that array. *)
Definition extract_region_data_for_lat_lon (n fuel : nat) (tbuff file : list Z) (lat_in_degrees lon_in_degrees : Q) : outcome (Z * list Z) :=
  regions n fuel tbuff file lat_in_degrees lon_in_degrees.
