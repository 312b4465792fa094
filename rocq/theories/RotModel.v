(** Model of the vector and matrix functions of miscell.cpp, over the reals. *)
From Verif Require Import TrigBase.
Open Scope list_scope.

(** An array of doubles is a list; a read or write past its end is [UB]. *)
Definition get (m : list R) (i : nat) : outcome R :=
  match nth_error m i with Some v => Ret v | None => UB end.
Definition set (m : list R) (i : nat) (v : R) : outcome (list R) :=
  if Nat.ltb i (length m) then Ret (firstn i m ++ v :: skipn (S i) m) else UB.

(** miscell.cpp:58-65 [acose] and 67-74 [asine]. *)
Definition acose (arg : R) : outcome R :=
  if Rleb 1 arg then Ret 0 else if Rleb arg (- 1) then Ret PI else c_acos arg.
Definition asine (arg : R) : outcome R :=
  if Rleb 1 arg then Ret (PI / 2) else if Rleb arg (- 1) then Ret (- PI / 2) else c_asin arg.

(** miscell.cpp:76-82 [set_identity_matrix]; [k] entries from [i] on. *)
Fixpoint identity_loop (k i : nat) (m : list R) : outcome (list R) :=
  match k with
  | O => Ret m
  | S k => do m <- set m i (if Nat.eqb (Nat.land i 3) 0 then 1 else 0); identity_loop k (S i) m
  end.
Definition set_identity_matrix (m : list R) : outcome (list R) := identity_loop 9 0 m.

(** miscell.cpp:88 [SWAP]. *)
Definition swap (m : list R) (i j : nat) : outcome (list R) :=
  do temp <- get m i; do b <- get m j; do m <- set m i b; set m j temp.

(** miscell.cpp:90-97 [invert_orthonormal_matrix]. *)
Definition invert_orthonormal_matrix (m : list R) : outcome (list R) :=
  do m <- swap m 1 3; do m <- swap m 2 6; swap m 5 7.

(** An index computed in an int; a negative one is outside the array. *)
Definition index (z : Z) : outcome nat := if Z.ltb z 0 then UB else Ret (Z.to_nat z).

(** miscell.cpp:171-180 [rotate_vector]. *)
Definition rotate_vector (v : list R) (angle : R) (axis : Z) : outcome (list R) :=
  let sin_ang := sin angle in
  let cos_ang := cos angle in
  do a1 <- ev IMAX (axis + 1%Z)%cx;
  do b1 <- ev IMAX (axis + 2%Z)%cx;
  do a <- index (Z.rem a1 3);
  do b <- index (Z.rem b1 3);
  do va <- get v a;
  do vb <- get v b;
  let temp := va * cos_ang - vb * sin_ang in
  do v <- set v b (vb * cos_ang + va * sin_ang);
  set v a temp.

(** miscell.cpp:188-196 and 205-212: one row or column pair after the other; the
    pointers v1 and v2 are indices into the matrix, [step] is 3 or 1. *)
Fixpoint spin_loop (k : nat) (step : nat) (m : list R) (v1 v2 : nat) (sin_ang cos_ang : R) : outcome (list R) :=
  match k with
  | O => Ret m
  | S k =>
      do a <- get m v1;
      do b <- get m v2;
      let tval := a * cos_ang - b * sin_ang in
      do m <- set m v2 (b * cos_ang + a * sin_ang);
      do m <- set m v1 tval;
      spin_loop k step m (v1 + step)%nat (v2 + step)%nat sin_ang cos_ang
  end.

(** miscell.cpp:182-197 [pre_spin_matrix]: v1 and v2 are columns of m. *)
Definition pre_spin_matrix (m : list R) (v1 v2 : nat) (angle : R) : outcome (list R) :=
  spin_loop 3 3 m v1 v2 (sin angle) (cos angle).

(** miscell.cpp:199-213 [spin_matrix]: v1 and v2 are rows of m. *)
Definition spin_matrix (m : list R) (v1 v2 : nat) (angle : R) : outcome (list R) :=
  spin_loop 3 1 m v1 v2 (sin angle) (cos angle).

(** miscell.cpp:465-472 [polar3_to_cartesian]. *)
Definition polar3_to_cartesian (vect : list R) (lon lat : R) : outcome (list R) :=
  let clat := cos lat in
  do v <- set vect 0 (cos lon * clat);
  do v <- set v 1 (sin lon * clat);
  set v 2 (sin lat).

(** miscell.cpp:474-477 [vector3_length]. *)
Definition vector3_length (vect : list R) : outcome R :=
  do x <- get vect 0; do y <- get vect 1; do z <- get vect 2;
  Ret (sqrt (x * x + y * y + z * z)).

(** miscell.cpp:479-482 [dot_product]. *)
Definition dot_product (a b : list R) : outcome R :=
  do a0 <- get a 0; do b0 <- get b 0; do a1 <- get a 1; do b1 <- get b 1; do a2 <- get a 2; do b2 <- get b 2;
  Ret (a0 * b0 + a1 * b1 + a2 * b2).

(** miscell.cpp:484-496 [normalize_vect3]; returns d and the vector. *)
Definition normalize_vect3 (vect : list R) : outcome (R * list R) :=
  do x <- get vect 0; do y <- get vect 1; do z <- get vect 2;
  let d2 := x * x + y * y + z * z in
  let d := sqrt d2 in
  if Reqb d 0 then Ret (d, vect)
  else
    do v <- set vect 0 (x / d);
    do v <- set v 1 (y / d);
    do v <- set v 2 (z / d);
    Ret (d, v).

(** miscell.cpp:522-527 [vector_cross_product], xprod apart from a and b. *)
Definition vector_cross_product (xprod a b : list R) : outcome (list R) :=
  do a0 <- get a 0; do b0 <- get b 0; do a1 <- get a 1; do b1 <- get b 1; do a2 <- get a 2; do b2 <- get b 2;
  do x <- set xprod 0 (a1 * b2 - a2 * b1);
  do x <- set x 1 (a2 * b0 - a0 * b2);
  set x 2 (a0 * b1 - a1 * b0).
