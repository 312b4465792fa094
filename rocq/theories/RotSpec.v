(** Specification for C33 and C34: vectors, 3 x 3 matrices (as nine numbers, row by
    row) and rotations. *)
From Verif Require Import TrigBase.
Open Scope list_scope.

Definition comp (v : list R) (i : nat) : R := nth i v 0.
Definition cell (m : list R) (i j : nat) : R := nth (3 * i + j) m 0.

Definition vec (f : nat -> R) : list R := map f (seq 0 3).
Definition mat (f : nat -> nat -> R) : list R :=
  [f 0 0; f 0 1; f 0 2; f 1 0; f 1 1; f 1 2; f 2 0; f 2 1; f 2 2]%nat.

Definition ident : list R := mat (fun i j => if Nat.eqb i j then 1 else 0).
Definition tr (m : list R) : list R := mat (fun i j => cell m j i).
Definition mul (a b : list R) : list R :=
  mat (fun i j => cell a i 0 * cell b 0 j + cell a i 1 * cell b 1 j + cell a i 2 * cell b 2 j).
Definition app (a v : list R) : list R :=
  vec (fun i => cell a i 0 * comp v 0 + cell a i 1 * comp v 1 + cell a i 2 * comp v 2).
Definition det (m : list R) : R :=
  cell m 0 0 * (cell m 1 1 * cell m 2 2 - cell m 1 2 * cell m 2 1)
  - cell m 0 1 * (cell m 1 0 * cell m 2 2 - cell m 1 2 * cell m 2 0)
  + cell m 0 2 * (cell m 1 0 * cell m 2 1 - cell m 1 1 * cell m 2 0).

Definition dot (u v : list R) : R := comp u 0 * comp v 0 + comp u 1 * comp v 1 + comp u 2 * comp v 2.
Definition norm (v : list R) : R := sqrt (dot v v).

(** Nine numbers, the inverse is the transpose. *)
Definition orthonormal (m : list R) : Prop := length m = 9%nat /\ mul m (tr m) = ident /\ mul (tr m) m = ident.
(** A rotation: orthonormal, and it keeps the orientation. *)
Definition rotation (m : list R) : Prop := orthonormal m /\ det m = 1.

(** The turn by the angle a in the plane of axes i and j, from i to j. *)
Definition turn (i j : nat) (a : R) : list R :=
  mat (fun r c =>
    if Nat.eqb r i && Nat.eqb c i then cos a
    else if Nat.eqb r i && Nat.eqb c j then - sin a
    else if Nat.eqb r j && Nat.eqb c i then sin a
    else if Nat.eqb r j && Nat.eqb c j then cos a
    else if Nat.eqb r c then 1 else 0).
