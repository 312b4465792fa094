(** Specification for C36. *)
From Verif Require Import RBase.
Open Scope list_scope.

(** A polynomial by its coefficients, constant term first. *)
Fixpoint poly (p : list R) (x : R) : R :=
  match p with [] => 0 | a :: p => a + x * poly p x end.

(** The start [w] of the [n] successive entries of a table of [m] that lie around
    x: n/2 to either side of x, but inside the table. *)
Definition window (m n : Z) (x : R) (w : Z) : Prop :=
  (0 <= w <= m - n)%Z /\
  ((0 < w)%Z -> IZR w <= x - IZR n / 2 + 1) /\
  ((w < m - n)%Z -> x - IZR n / 2 < IZR w).

(** Entry j of a table. *)
Definition entry (t : list R) (j : Z) : R := nth (Z.to_nat j) t 0.
