(** What the conversions of color indices should give. *)
From Coq Require Export Reals List.
Export ListNotations.
Local Open Scope R_scope.

(** The published form of the relations: one index is 1 plus a polynomial of degree 12 in the other less 1. *)
Definition relation (coeffs : list R) (x : R) : R := 1 + sum_f_R0 (fun i => nth i coeffs 0 * (x - 1) ^ i) 12.

(** (x, y) is on the straight line through (x1, y1) and (x2, y2). *)
Definition on_line (x1 y1 x2 y2 x y : R) : Prop := (y - y1) * (x2 - x1) = (y2 - y1) * (x - x1).
(** (x, y) is on the broken line through the points of the table. *)
Fixpoint on_table (pts : list (R * R)) (x y : R) : Prop :=
  match pts with
  | (x1, y1) :: (((x2, y2) :: _) as rest) => (x1 <= x <= x2 /\ on_line x1 y1 x2 y2 x y) \/ on_table rest x y
  | _ => False
  end.
(** B-V of Tycho, and what to add to 0.85 of it for B-V of Johnson; and for V, to V of Tycho less 0.09 of B-V. *)
Definition table_bv : list (R * R) := [(-0.2, -0.006); (0.1, 0); (0.5, 0.046); (1.4, -0.008); (1.8, -0.032)].
Definition table_v : list (R * R) := [(-0.2, 0.014); (0.1, 0); (0.5, -0.005); (1.4, -0.005); (1.8, -0.015)].
