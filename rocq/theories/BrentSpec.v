(** Specification for C37: what a session with the minimiser is. *)
From Verif Require Import RBase BrentModel.

(** Three points, in any order, of which the one in the middle is the lowest. *)
Definition lowest_between (p q r : R * R) : Prop :=
  fst p < fst q < fst r /\ snd q < snd p /\ snd q < snd r.
Definition bracketed (p q r : R * R) : Prop :=
  lowest_between p q r \/ lowest_between p r q \/ lowest_between q p r \/
  lowest_between q r p \/ lowest_between r p q \/ lowest_between r q p.

(** The user may set the tolerances between calls. *)
Definition set_tolerance (b : brent) (t yt : R) : brent :=
  mk (pts b) (xmin b) (xmax b) (next_x b) (gold_ratio b) t yt (step_type b) (n_iterations b).

(** [session P b h]: starting from three points that brent_min_init accepts, [b]
    is reached by any number of rounds "get a point, add whatever value the
    function has there", none of which was done after the minimiser said it was
    done.  [h] is all the points with their values.  [P] is a condition that the
    tolerance meets whenever a point is asked for. *)
Inductive session (P : R -> Prop) : brent -> list (R * R) -> Prop :=
| session_init junk x1 y1 x2 y2 x3 y3 b :
    brent_min_init junk x1 y1 x2 y2 x3 y3 = Ret b ->
    session P b [(x1, y1); (x2, y2); (x3, y3)]
| session_set b h t yt :
    session P b h -> session P (set_tolerance b t yt) h
| session_round b h x b' y done b'' :
    session P b h -> P (tolerance b) ->
    brent_min_next b = Ret (x, b') -> step_type b' <> STEP_TYPE_DONE ->
    brent_min_add b' y = Ret (done, b'') ->
    session P b'' ((x, y) :: h).

(** The parabola y = a x^2 + b x + c goes through a point. *)
Definition quadratic_through (a b c : R) (q : R * R) : Prop :=
  snd q = a * fst q * fst q + b * fst q + c.

(** The cubic y = y0 + c t + b t^2 + a t^3, t = x - x0, goes through a point; its
    slope. *)
Definition cubic_through (a b c : R) (p0 q : R * R) : Prop :=
  let t := fst q - fst p0 in snd q = snd p0 + t * (c + t * (b + t * a)).
Definition slope (a b c t : R) : R := 3 * a * t * t + 2 * b * t + c.

(** How an interpolated point [z] is moved away from the best point and the ends
    of the bracket, to the suggestion [x]. *)
Definition wider_side (b : brent) : R := if Rltb (X b 0 - xmin b) (xmax b - X b 0) then 1 else - 1.
Definition moved (b : brent) (z x : R) : Prop :=
  let t := tolerance b * (9 / 10) in
  (Rabs (z - X b 0) < t /\ x = X b 0 + wider_side b * t) \/
  (t <= Rabs (z - X b 0) /\
    ((z < xmin b + t /\ z < X b 0 /\ x = xmin b + t) \/ (xmax b - t < z /\ X b 0 < z /\ x = xmax b - t) \/
     (xmin b + t <= z <= xmax b - t /\ x = z))).

(** An end of the bracket is at exactly 0.9 tolerance from the best point. *)
Definition edge (b : brent) : Prop :=
  let t := tolerance b * (9 / 10) in X b 0 - xmin b = t \/ xmax b - X b 0 = t.

(** The minimiser following a function [f] for n rounds, tolerance [t]. *)
Inductive follow (f : R -> R) (t : R) (x1 x2 x3 : R) : nat -> brent -> Prop :=
| follow_init junk b :
    brent_min_init junk x1 (f x1) x2 (f x2) x3 (f x3) = Ret b ->
    follow f t x1 x2 x3 0 (set_tolerance b t 0)
| follow_round n b x b' done b'' :
    follow f t x1 x2 x3 n b ->
    brent_min_next b = Ret (x, b') -> step_type b' <> STEP_TYPE_DONE ->
    brent_min_add b' (f x) = Ret (done, b'') ->
    follow f t x1 x2 x3 (S n) b''.
