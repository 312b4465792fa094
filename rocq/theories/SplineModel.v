(** Model of spline.cpp over the reals. *)
From Verif Require Import RBase.

(** table[i], with its bounds. *)
Definition rd (table : list R) (i : Z) : outcome R :=
  if (Z.leb 0 i && Z.ltb i (Z.of_nat (length table)))%bool then Ret (nth (Z.to_nat i) table 0) else UB.

(** Conversion of a double to int: undefined if the integral part does not fit. *)
Definition to_int (x : R) : outcome Z :=
  let z := if Rltb x 0 then (- Int_part (- x))%Z else Int_part x in
  if (Z.leb (- 2147483648) z && Z.leb z 2147483647)%bool then Ret z else UB.
(** (int)floor( x). *)
Definition floor_int (x : R) : outcome Z :=
  if (Z.leb (- 2147483648) (Int_part x) && Z.leb (Int_part x) 2147483647)%bool then Ret (Int_part x) else UB.

(** Division.  By zero it gives an infinity or NaN in C; here [Abort].  The
    theorems show that it does not happen. *)
Definition fdiv (a b : R) : outcome R := if Reqb b 0 then Abort else Ret (a / b).

(** spline.cpp:84-112 [cubic_spline_interpolate_within_table]; returns the value
    and *err_code. *)
Definition cubic_spline_interpolate_within_table (table : list R) (n_entries : Z) (x : R) : outcome (R * Z) :=
  do idx <- floor_int x;
  let '(idx, err_code) :=
    if Z.ltb idx 1 then (1, if Z.ltb idx 0 then -2 else -1)%Z
    else if Z.ltb (n_entries - 3) idx then
      (n_entries - 3, if Z.ltb (n_entries - 2) idx then -2 else -1)%Z
    else (idx, 0%Z) in
  let x := x - IZR idx in
  do t1 <- rd table (idx + 1);
  do tm <- rd table (idx - 1);
  do t0 <- rd table idx;
  do t2 <- rd table (idx + 2);
  let c := (t1 - tm) * (1 / 2) in
  let y1 := t1 - t0 in
  let a := (t2 - t0) * (1 / 2) - 2 * y1 + c in
  let b := y1 - a - c in
  Ret (t0 + x * (c + x * (b + x * a)), err_code).

(** spline.cpp:151-159, the first loop, from i on, k rounds; with [deriv] also
    sum_recips. *)
Fixpoint loop1 (deriv : bool) (k : nat) (i : Z) (x c t sum_recips : R) : outcome (R * R * R) :=
  match k with
  | O => Ret (c, t, sum_recips)
  | S k =>
      let dx := x - IZR i in
      do sum_recips <- (if deriv then do q <- fdiv 1 dx; Ret (sum_recips + q) else Ret sum_recips);
      let c := c * dx in
      let t := if Z.eqb i 0 then t else t * - IZR i in
      loop1 deriv k (i + 1) x c t sum_recips
  end.

(** spline.cpp:164-173, the second loop; [base] is the advanced table pointer. *)
Fixpoint loop2 (deriv : bool) (table : list R) (base n_pts : Z) (k : nat) (i : Z)
    (x y0 sum_recips t rval d : R) : outcome (R * R) :=
  match k with
  | O => Ret (rval, d)
  | S k =>
      let dx := x - IZR i in
      do t <- (if Z.eqb i 0 then Ret t else do q <- fdiv (IZR i) (IZR (i - n_pts)); Ret (t * q));
      do ti <- rd table (base + i);
      do q <- fdiv (ti - y0) (t * dx);
      let rval := rval + q in
      do d <- (if deriv then do r <- fdiv 1 dx; do s <- fdiv ((sum_recips - r) * ti) (t * dx); Ret (d + s) else Ret d);
      loop2 deriv table base n_pts k (i + 1) x y0 sum_recips t rval d
  end.

(** spline.cpp:143-179: off a grid point; returns the value and *deriv (0 without
    [deriv]). *)
Definition lagrange_off (deriv : bool) (table : list R) (n_entries : Z) (x : R) (n_pts idx : Z) : outcome (R * R) :=
  let idx := if Z.ltb idx 0 then 0%Z else if Z.ltb (n_entries - n_pts) idx then (n_entries - n_pts)%Z else idx in
  let x := x - IZR idx in
  do y0 <- rd table (idx + Z.quot n_pts 2);
  do '(c, t, sum_recips) <- loop1 deriv (Z.to_nat n_pts) 0 x 1 1 0;
  do '(rval, d) <- loop2 deriv table idx n_pts (Z.to_nat n_pts) 0 x y0 sum_recips t 0 0;
  Ret (rval * c + y0, d * c).

(** spline.cpp:120-179 [lagrange_interpolate_within_table] with deriv NULL. *)
Definition lagrange_value (table : list R) (n_entries : Z) (x : R) (n_pts : Z) : outcome R :=
  do f <- floor_int (x - IZR n_pts / 2);
  do idx <- (if Z.ltb f 2147483647 then Ret (f + 1)%Z else UB);
  do i <- to_int (x + 1 / 2);
  if (Reqb x (IZR i) && Z.leb 0 i && Z.ltb i n_entries)%bool then rd table i
  else do '(v, _) <- lagrange_off false table n_entries x n_pts idx; Ret v.

(** spline.cpp:120-179 with a non-NULL deriv; returns the value and *deriv. *)
Definition lagrange_deriv (table : list R) (n_entries : Z) (x : R) (n_pts : Z) : outcome (R * R) :=
  do f <- floor_int (x - IZR n_pts / 2);
  do idx <- (if Z.ltb f 2147483647 then Ret (f + 1)%Z else UB);
  do i <- to_int (x + 1 / 2);
  if (Reqb x (IZR i) && Z.leb 0 i && Z.ltb i n_entries)%bool then
    let epsilon := 1 / 100000 in
    do y1 <- lagrange_value table n_entries (x - epsilon) n_pts;
    do y2 <- lagrange_value table n_entries (x + epsilon) n_pts;
    do v <- rd table i;
    Ret (v, (y2 - y1) / (2 * epsilon))
  else lagrange_off true table n_entries x n_pts idx.
