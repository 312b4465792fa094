(** Property C36 (interpolation in a table).  Doubles are modelled by real numbers;
    a read outside the table is the outcome [UB].

    [poly], [window] and [entry] are defined in [SplineSpec]. *)
From Coq Require Import Lia.
From Verif Require Import RBase SplineModel SplineSpec SplineThms.
Open Scope list_scope.

(** C36.  A table of four or more entries: every x that an int can hold (rounded down)
    gives a value; nothing outside the table is read. *)
Theorem C36_cubic_in_bounds :
  forall t x, (4 <= length t)%nat -> - 2147483648 <= x < 2147483648 ->
  exists v e, cubic_spline_interpolate_within_table t (Z.of_nat (length t)) x = Ret (v, e).
Proof. exact C36_cubic_in_bounds_proof. Qed.
Print Assumptions C36_cubic_in_bounds.

(** C36, a claim that fails: no table of fewer than four entries can be used; whatever
    x is, an entry outside the table is read. *)
Theorem C36_cubic_short_refuted :
  forall t x, (length t < 4)%nat -> - 2147483648 <= x < 2147483648 ->
  cubic_spline_interpolate_within_table t (Z.of_nat (length t)) x = UB.
Proof. exact C36_cubic_short_refuted_proof. Qed.
Print Assumptions C36_cubic_short_refuted.

Example C36_cubic_short_case : (length [1; 2; 3] < 4)%nat /\ - 2147483648 <= 1 < 2147483648.
Proof. cbn. split; [lia|lra]. Qed.

(** C36.  At the nodes 1 to n - 2 the value is the tabulated one.  Missing: the first and
    the last node; see C36_cubic_end_nodes. *)
Theorem C36_cubic_nodes_partial :
  forall t i, (4 <= length t)%nat -> (Z.of_nat (length t) <= 2147483648)%Z -> (1 <= i <= Z.of_nat (length t) - 2)%Z ->
  exists e, cubic_spline_interpolate_within_table t (Z.of_nat (length t)) (IZR i) = Ret (entry t i, e).
Proof. exact C36_cubic_nodes_partial_proof. Qed.
Print Assumptions C36_cubic_nodes_partial.

Example C36_cubic_nodes_case : (1 <= 2 <= Z.of_nat (length [7; 1; 5; 9; 2]) - 2)%Z. Proof. cbn. lia. Qed.

(** C36.  At the first and the last node the value is off by the third difference of the
    four entries at that end. *)
Theorem C36_cubic_end_nodes :
  forall t, (4 <= length t)%nat -> (Z.of_nat (length t) <= 2147483648)%Z ->
  let n := Z.of_nat (length t) in let third i := entry t (i + 3) - 3 * entry t (i + 2) + 3 * entry t (i + 1) - entry t i in
  (exists e, cubic_spline_interpolate_within_table t n 0 = Ret (entry t 0 - third 0%Z, e)) /\
  (exists e, cubic_spline_interpolate_within_table t n (IZR (n - 1)) = Ret (entry t (n - 1) + third (n - 4)%Z, e)).
Proof. exact C36_cubic_end_nodes_proof. Qed.
Print Assumptions C36_cubic_end_nodes.

(** C36, a claim that fails: the value at every node is the tabulated one. *)
Theorem C36_cubic_end_nodes_refuted :
  ~ (forall t i, (4 <= length t)%nat -> (0 <= i < Z.of_nat (length t))%Z ->
     exists e, cubic_spline_interpolate_within_table t (Z.of_nat (length t)) (IZR i) = Ret (entry t i, e)).
Proof. exact C36_cubic_end_nodes_refuted_proof. Qed.
Print Assumptions C36_cubic_end_nodes_refuted.

(** C36.  The interpolated value is a differentiable function of x, and its derivative is
    continuous, also where the pieces meet and where extrapolation begins. *)
Theorem C36_cubic_smooth :
  forall t, (4 <= length t)%nat ->
  exists f g, (forall x, - 2147483648 <= x < 2147483648 ->
      exists e, cubic_spline_interpolate_within_table t (Z.of_nat (length t)) x = Ret (f x, e)) /\
    forall x, - 2147483647 <= x <= 2147483647 -> derivable_pt_lim f x (g x) /\ continuity_pt g x.
Proof. exact C36_cubic_smooth_proof. Qed.
Print Assumptions C36_cubic_smooth.

(** C36.  A table of values of a polynomial of degree at most 2 is reproduced, also by
    extrapolation. *)
Theorem C36_cubic_quadratics :
  forall t p x, (4 <= length t)%nat -> - 2147483648 <= x < 2147483648 -> (length p <= 3)%nat ->
  (forall i, (0 <= i < Z.of_nat (length t))%Z -> entry t i = poly p (IZR i)) ->
  exists e, cubic_spline_interpolate_within_table t (Z.of_nat (length t)) x = Ret (poly p x, e).
Proof. exact C36_cubic_quadratics_proof. Qed.
Print Assumptions C36_cubic_quadratics.

Example C36_cubic_quadratics_case : forall i, (0 <= i < Z.of_nat (length [1; 4; 9; 16]))%Z ->
  entry [1; 4; 9; 16] i = poly [1; 2; 1] (IZR i).
Proof.
  intros i Hi. cbn in Hi. assert (i = 0 \/ i = 1 \/ i = 2 \/ i = 3)%Z as [->|[->|[->| ->]]] by lia; unfold entry; simpl; lra.
Qed.

(** C36.  The error code is 0 if two entries lie on each side of x, -1 if x is in the first
    or the last interval of the table, and -2 outside the table (and at its last
    node). *)
Theorem C36_cubic_err_code :
  forall t x v e, (4 <= length t)%nat -> - 2147483648 <= x < 2147483648 ->
  let n := IZR (Z.of_nat (length t)) in
  cubic_spline_interpolate_within_table t (Z.of_nat (length t)) x = Ret (v, e) ->
  (e = 0%Z <-> 1 <= x < n - 2) /\ (e = (-1)%Z <-> 0 <= x < 1 \/ n - 2 <= x < n - 1) /\
  (e = (-2)%Z <-> x < 0 \/ n - 1 <= x).
Proof. exact C36_cubic_err_code_proof. Qed.
Print Assumptions C36_cubic_err_code.

(** C36.  Lagrange interpolation with n points, 1 <= n <= the length of the table: the
    value is that of a polynomial of degree below n that goes through the n entries
    around x.  In particular nothing outside the table is read. *)
Theorem C36_lagrange :
  forall t n x, (1 <= n <= length t)%nat -> (Z.of_nat n <= 2000000000)%Z -> - 1000000000 <= x <= 1000000000 ->
  exists w p, window (Z.of_nat (length t)) (Z.of_nat n) x w /\ (length p <= n)%nat /\
    (forall i, (w <= i < w + Z.of_nat n)%Z -> poly p (IZR i) = entry t i) /\
    lagrange_value t (Z.of_nat (length t)) x (Z.of_nat n) = Ret (poly p x).
Proof. exact C36_lagrange_proof. Qed.
Print Assumptions C36_lagrange.

(** C36.  Any polynomial of degree below n whose values are the n entries around x gives
    the interpolated value. *)
Theorem C36_lagrange_polynomials :
  forall t n x w p, (1 <= n <= length t)%nat -> (Z.of_nat n <= 2000000000)%Z -> - 1000000000 <= x <= 1000000000 ->
  window (Z.of_nat (length t)) (Z.of_nat n) x w -> (length p <= n)%nat ->
  (forall i, (w <= i < w + Z.of_nat n)%Z -> poly p (IZR i) = entry t i) ->
  lagrange_value t (Z.of_nat (length t)) x (Z.of_nat n) = Ret (poly p x).
Proof. exact C36_lagrange_polynomials_proof. Qed.
Print Assumptions C36_lagrange_polynomials.

Example C36_lagrange_polynomials_case : window 5 3 (5 / 2) 2.
Proof. unfold window. split; [lia|]. split; intros; lra || lia. Qed.

(** C36.  At each node of the table Lagrange interpolation gives the entry. *)
Theorem C36_lagrange_nodes :
  forall t n i, (1 <= n <= length t)%nat -> (Z.of_nat n <= 2000000000)%Z -> (0 <= i < Z.of_nat (length t))%Z -> (i <= 1000000000)%Z ->
  lagrange_value t (Z.of_nat (length t)) (IZR i) (Z.of_nat n) = Ret (entry t i).
Proof. exact C36_lagrange_nodes_proof. Qed.
Print Assumptions C36_lagrange_nodes.

(** C36.  Between the nodes the derivative returned is that of the interpolating
    polynomial. *)
Theorem C36_lagrange_slope :
  forall t n x w p, (1 <= n <= length t)%nat -> (Z.of_nat n <= 2000000000)%Z -> - 1000000000 <= x <= 1000000000 ->
  (forall i, (0 <= i < Z.of_nat (length t))%Z -> x <> IZR i) ->
  window (Z.of_nat (length t)) (Z.of_nat n) x w -> (length p <= n)%nat ->
  (forall i, (w <= i < w + Z.of_nat n)%Z -> poly p (IZR i) = entry t i) ->
  exists d, lagrange_deriv t (Z.of_nat (length t)) x (Z.of_nat n) = Ret (poly p x, d) /\ derivable_pt_lim (poly p) x d.
Proof. exact C36_lagrange_slope_proof. Qed.
Print Assumptions C36_lagrange_slope.

(** C36.  At a node of a table of values of a polynomial of degree below n, the derivative
    returned is the difference quotient over 0.00001 to either side. *)
Theorem C36_lagrange_slope_nodes :
  forall t n i p, (1 <= n <= length t)%nat -> (Z.of_nat n <= 2000000000)%Z -> (0 <= i < Z.of_nat (length t))%Z -> (i < 1000000000)%Z ->
  (length p <= n)%nat -> (forall j, (0 <= j < Z.of_nat (length t))%Z -> poly p (IZR j) = entry t j) ->
  let h := 1 / 100000 in
  lagrange_deriv t (Z.of_nat (length t)) (IZR i) (Z.of_nat n) =
    Ret (poly p (IZR i), (poly p (IZR i + h) - poly p (IZR i - h)) / (2 * h)).
Proof. exact C36_lagrange_slope_nodes_proof. Qed.
Print Assumptions C36_lagrange_slope_nodes.

Example C36_lagrange_slope_nodes_case : forall j, (0 <= j < Z.of_nat (length [0; 1; 4]))%Z ->
  poly [0; 0; 1] (IZR j) = entry [0; 1; 4] j.
Proof. intros j Hj. cbn in Hj. assert (j = 0 \/ j = 1 \/ j = 2)%Z as [->|[->| ->]] by lia; unfold entry; simpl; lra. Qed.

(** C36, a claim that fails: with more points than the table has entries, every x that is
    not a node reads outside the table. *)
Theorem C36_lagrange_many_refuted :
  forall t n x, (length t < n)%nat -> (Z.of_nat n <= 2000000000)%Z -> - 1000000000 <= x <= 1000000000 ->
  (forall i, (0 <= i < Z.of_nat (length t))%Z -> x <> IZR i) ->
  lagrange_value t (Z.of_nat (length t)) x (Z.of_nat n) = UB.
Proof. exact C36_lagrange_many_refuted_proof. Qed.
Print Assumptions C36_lagrange_many_refuted.

Example C36_lagrange_many_case : (length [1; 2] < 3)%nat /\
  (forall i, (0 <= i < Z.of_nat (length [1; 2]))%Z -> 1 / 2 <> IZR i).
Proof.
  split; [cbn; lia|]. intros i Hi. cbn in Hi. assert (i = 0 \/ i = 1)%Z as [->| ->] by lia; lra.
Qed.
