(** Model of precess.cpp and obliquit.cpp over the reals. *)
From Verif Require Import TrigBase RotModel.
Open Scope list_scope.

(** The static variables: those of mean_obliquity( ) (obliquit.cpp:45) and of
    setup_ecliptic_precession( ) (precess.cpp:153-155). *)
Record statics : Type := mk {
  t0 : R; ob_rval : R;
  prev_year_from : R; prev_year_to : R; prev_matrix : list R }.

(** precess.cpp:143-144. *)
Definition SEMIRANDOM_GARBAGE1 : R := 314814550100000.
Definition SEMIRANDOM_GARBAGE2 : R := - (919001473 / 10 ^ 16).

(** Their initial values; what has no initialiser is 0. *)
Definition initial : statics :=
  mk 30000 0 SEMIRANDOM_GARBAGE1 SEMIRANDOM_GARBAGE2 [0; 0; 0; 0; 0; 0; 0; 0; 0].

(** obliquit.cpp:30-31. *)
Definition ARCSECONDS_TO_RADIANS : R := PI / 180 / 3600.

(** obliquit.cpp:46-47. *)
Definition coeffs : list R := [-468093; -155; 199925; -5138; -24967; -3905; 712; 2787; 579; 245].

(** obliquit.cpp:64-65. *)
Fixpoint obliq_loop (c : list R) (u u0 rval : R) : R :=
  match c with [] => rval | k :: c => obliq_loop c (u * u0) u0 (rval + u * k / 100) end.

(** obliquit.cpp:38-69 [mean_obliquity] (CLIP_OBLIQUITY not defined). *)
Definition mean_obliquity (s : statics) (t_cen : R) : R * statics :=
  let j2000_obliquit := 23 * 3600 + 26 * 60 + 21448 / 1000 in
  if Reqb t_cen 0 then (j2000_obliquit * ARCSECONDS_TO_RADIANS, s)
  else if Rltb 100 t_cen then (22611485556 / 10 ^ 9 * PI / 180, s)
  else if Rltb t_cen (- 100) then (24232841111 / 10 ^ 9 * PI / 180, s)
  else if Reqb (t0 s) t_cen then (ob_rval s, s)
  else
    let u0 := t_cen / 100 in
    let rval := obliq_loop coeffs u0 u0 j2000_obliquit * ARCSECONDS_TO_RADIANS in
    (rval, mk t_cen rval (prev_year_from s) (prev_year_to s) (prev_matrix s)).

(** precess.cpp:86-107 [setup_ecliptic_precession_from_j2000]; [matrix] is what the
    array holds before. *)
Definition setup_ecliptic_precession_from_j2000 (matrix : list R) (year : R) : outcome (list R) :=
  let t := (year - 2000) / 100 in
  let S2R := PI / 180 / 3600 in
  let eta := t * (470029 / 10000 * S2R + (- (3302 / 100000) * S2R + 6 / 100000 * S2R * t) * t) in
  let pie := 174876384 / 1000000 * PI / 180 - t * (8698089 / 10000 * S2R - 3536 / 100000 * S2R * t) in
  let p := t * (50290966 / 10000 * S2R + (111113 / 100000 * S2R - 6 / 100000 * S2R * t) * t) in
  do m <- set_identity_matrix matrix;
  do m <- set m 4 (cos pie);
  do m <- set m 0 (cos pie);
  do m <- set m 1 (sin pie);
  do m1 <- get m 1;
  do m <- set m 3 (- m1);
  do m <- spin_matrix m 3 6 (- eta);
  do m <- spin_matrix m 3 0 (- p);
  spin_matrix m 0 3 pie.

(** precess.cpp:109-141 [setup_equatorial_precession_from_j2000]. *)
Definition setup_equatorial_precession_from_j2000 (matrix : list R) (year : R) : outcome (list R) :=
  let t_cen := (year - 2000) / 100 in
  let ka := 23062181 / 10000 in
  let kb := 20043109 / 10000 in
  let arcsec_to_radians := PI / 180 / 3600 in
  let zeta := t_cen * (ka + t_cen * (30188 / 100000 + 17998 / 1000000 * t_cen)) * arcsec_to_radians in
  let z := t_cen * (ka + t_cen * (109468 / 100000 + 18203 / 1000000 * t_cen)) * arcsec_to_radians in
  let theta := t_cen * (kb + t_cen * (- (42665 / 100000) - 41833 / 1000000 * t_cen)) * arcsec_to_radians in
  let czeta := cos zeta in let szeta := sin zeta in
  let cz := cos z in let sz := sin z in
  let ctheta := cos theta in let stheta := sin theta in
  do m <- set matrix 0 (czeta * ctheta * cz - szeta * sz);
  do m <- set m 1 (- szeta * ctheta * cz - czeta * sz);
  do m <- set m 2 (- stheta * cz);
  do m <- set m 3 (czeta * ctheta * sz + szeta * cz);
  do m <- set m 4 (- szeta * ctheta * sz + czeta * cz);
  do m <- set m 5 (- stheta * sz);
  do m <- set m 6 (czeta * stheta);
  do m <- set m 7 (- szeta * stheta);
  set m 8 ctheta.

(** precess.cpp:191-193: one entry of the product, and 189-193: all of them. *)
Definition product_cell (m tm : list R) (i j : nat) : outcome R :=
  do a <- get m (i * 3); do b <- get tm j;
  do c <- get m (i * 3 + 1); do d <- get tm (j + 3);
  do e <- get m (i * 3 + 2); do f <- get tm (j + 6);
  Ret (a * b + c * d + e * f).
Fixpoint product_loop (k : nat) (n : nat) (m tm product : list R) : outcome (list R) :=
  match k with
  | O => Ret product
  | S k =>
      let i := (n / 3)%nat in let j := (n mod 3)%nat in
      do v <- product_cell m tm i j;
      do product <- set product (j + i * 3) v;
      product_loop k (S n) m tm product
  end.

(** precess.cpp:146-202 [setup_ecliptic_precession].  [junk] is what the local
    arrays product and tmatrix hold before they are set. *)
Definition junk : list R := [0; 0; 0; 0; 0; 0; 0; 0; 0].
Definition setup_ecliptic_precession (s : statics) (matrix : list R) (year_from year_to : R) : outcome (list R * statics) :=
  if Rltb (Rabs (year_from - year_to)) (1 / 100000) then
    do m <- set_identity_matrix matrix; Ret (m, s)
  else if (Reqb year_from (prev_year_from s) && Reqb year_to (prev_year_to s))%bool then
    Ret (prev_matrix s, s)
  else if (Reqb year_from (prev_year_to s) && Reqb year_to (prev_year_from s))%bool then
    do m <- invert_orthonormal_matrix (prev_matrix s); Ret (m, s)
  else
    do m <- (if Reqb year_from 2000 then setup_ecliptic_precession_from_j2000 matrix year_to
             else
               do m <- setup_ecliptic_precession_from_j2000 matrix year_from;
               do m <- invert_orthonormal_matrix m;
               if Reqb year_to 2000 then Ret m
               else
                 do tmatrix <- setup_ecliptic_precession_from_j2000 junk year_to;
                 product_loop 9 0 m tmatrix junk);
    Ret (m, mk (t0 s) (ob_rval s) year_from year_to m).

(** precess.cpp:204-213 [setup_precession]. *)
Definition setup_precession (s : statics) (matrix : list R) (year_from year_to : R) : outcome (list R * statics) :=
  let '(obliquity1, s) := mean_obliquity s ((year_from - 2000) / 100) in
  let '(obliquity2, s) := mean_obliquity s ((year_to - 2000) / 100) in
  do '(m, s) <- setup_ecliptic_precession s matrix year_from year_to;
  do m <- pre_spin_matrix m 1 2 obliquity1;
  do m <- spin_matrix m 3 6 obliquity2;
  Ret (m, s).

(** precess.cpp:218-247 [setup_precession_with_nutation_delta] (OLD_VERSION not
    defined).  nutation( ) (nutation.cpp) is not modelled: it is an argument here,
    giving *d_lon and *d_obliq in arcseconds. *)
Definition setup_precession_with_nutation_delta (nutation : R -> R * R) (s : statics) (matrix : list R)
    (year delta_nutation_lon delta_nutation_obliq : R) : outcome (list R * statics) :=
  let j2000_obliquity := 2343929111111111 / 10 ^ 14 * PI / 180 in
  let t_cen := (year - 2000) / 100 in
  let '(obliquity, s) := mean_obliquity s t_cen in
  let '(d_lon, d_obliq) := nutation t_cen in
  let d_lon := d_lon * (PI / (180 * 3600)) in
  let d_obliq := d_obliq * (PI / (180 * 3600)) in
  let d_lon := d_lon + delta_nutation_lon in
  let d_obliq := d_obliq + delta_nutation_obliq in
  do m <- setup_equatorial_precession_from_j2000 matrix year;
  do m <- pre_spin_matrix m 1 2 (- j2000_obliquity);
  do m <- spin_matrix m 3 6 (- obliquity);
  do m <- spin_matrix m 0 3 d_lon;
  do m <- pre_spin_matrix m 1 2 j2000_obliquity;
  do m <- spin_matrix m 3 6 (obliquity + d_obliq);
  let equation_of_equinoxes := d_lon * cos obliquity in
  do m <- spin_matrix m 3 0 equation_of_equinoxes;
  Ret (m, s).

(** precess.cpp:249-253 [setup_precession_with_nutation]. *)
Definition setup_precession_with_nutation (nutation : R -> R * R) (s : statics) (matrix : list R) (year : R) :=
  setup_precession_with_nutation_delta nutation s matrix year 0 0.

(** precess.cpp:255-256. *)
Definition sin_obliq_2000 : R := 397777155931913701597179975942380896684 / 10 ^ 39.
Definition cos_obliq_2000 : R := 917482062069181825744000384639406458043 / 10 ^ 39.

(** precess.cpp:258-265 [equatorial_to_ecliptic] and 267-274 [ecliptic_to_equatorial]. *)
Definition equatorial_to_ecliptic (vect : list R) : outcome (list R) :=
  do v1 <- get vect 1; do v2 <- get vect 2;
  let temp := v2 * cos_obliq_2000 - v1 * sin_obliq_2000 in
  do v <- set vect 1 (v1 * cos_obliq_2000 + v2 * sin_obliq_2000);
  set v 2 temp.
Definition ecliptic_to_equatorial (vect : list R) : outcome (list R) :=
  do v1 <- get vect 1; do v2 <- get vect 2;
  let temp := v2 * cos_obliq_2000 + v1 * sin_obliq_2000 in
  do v <- set vect 1 (v1 * cos_obliq_2000 - v2 * sin_obliq_2000);
  set v 2 temp.

(** precess.cpp:288-292, [k] rounds of the loop; matrix and v2 by index.  [v1] is
    either another array than v2 or the copy in temp_v: v1 overlapping v2 in part
    is not modelled. *)
Fixpoint precess_loop (k : nat) (matrix : list R) (mi : nat) (v1 v2 : list R) (vi : nat) : outcome (list R) :=
  match k with
  | O => Ret v2
  | S k =>
      do a <- get matrix mi; do x <- get v1 0;
      do b <- get matrix (mi + 1); do y <- get v1 1;
      do c <- get matrix (mi + 2); do z <- get v1 2;
      do v2 <- set v2 vi (a * x + b * y + c * z);
      precess_loop k matrix (mi + 3) v1 v2 (S vi)
  end.
(** precess.cpp:276-294 [precess_vector]; for a call in place, [v2] is [v1]. *)
Definition precess_vector (matrix v1 v2 : list R) : outcome (list R) := precess_loop 3 matrix 0 v1 v2 0.

(** precess.cpp:308-312. *)
Fixpoint deprecess_loop (k : nat) (matrix : list R) (mi : nat) (v1 v2 : list R) (vi : nat) : outcome (list R) :=
  match k with
  | O => Ret v2
  | S k =>
      do a <- get matrix mi; do x <- get v1 0;
      do b <- get matrix (mi + 3); do y <- get v1 1;
      do c <- get matrix (mi + 6); do z <- get v1 2;
      do v2 <- set v2 vi (a * x + b * y + c * z);
      deprecess_loop k matrix (mi + 1) v1 v2 (S vi)
  end.
(** precess.cpp:296-314 [deprecess_vector]. *)
Definition deprecess_vector (matrix v1 v2 : list R) : outcome (list R) := deprecess_loop 3 matrix 0 v1 v2 0.

(** precess.cpp:335-338: the two loops. *)
Fixpoint lower_ra (fuel : nat) (ra old_ra : R) : outcome R :=
  if Rltb PI (ra - old_ra) then match fuel with O => Fuel | S f => lower_ra f (ra - PI * 2) old_ra end else Ret ra.
Fixpoint raise_ra (fuel : nat) (ra old_ra : R) : outcome R :=
  if Rltb (ra - old_ra) (- PI) then match fuel with O => Fuel | S f => raise_ra f (ra + PI * 2) old_ra end else Ret ra.

(** precess.cpp:316-340 [precess_ra_dec]; p_in and the result are (RA, dec). *)
Definition precess_ra_dec (fuel : nat) (matrix : list R) (p_in : R * R) (backward : bool) : outcome (R * R) :=
  let old_ra := fst p_in in
  let v1 := [cos (fst p_in) * cos (snd p_in); sin (fst p_in) * cos (snd p_in); sin (snd p_in)] in
  do v2 <- (if backward then deprecess_vector matrix v1 [0; 0; 0] else precess_vector matrix v1 [0; 0; 0]);
  do x <- get v2 0; do y <- get v2 1; do z <- get v2 2;
  let ra := if (negb (Reqb y 0) || negb (Reqb x 0))%bool then atan2 y x else 0 in
  do dec <- asine z;
  do ra <- lower_ra fuel ra old_ra;
  do ra <- raise_ra fuel ra old_ra;
  Ret (ra, dec).
