(** Specification for C35. *)
From Verif Require Import TrigBase.

(** The point on the unit sphere at longitude fst p and latitude snd p. *)
Definition onsphere (p : R * R) : R * R * R :=
  (cos (fst p) * cos (snd p), sin (fst p) * cos (snd p), sin (snd p)).
Definition dot3 (u v : R * R * R) : R :=
  let '(a, b, c) := u in let '(x, y, z) := v in a * x + b * y + c * z.

(** The great-circle distance of two points: the angle between their directions. *)
Definition distance (p q : R * R) (d : R) : Prop :=
  0 <= d <= PI /\ cos d = dot3 (onsphere p) (onsphere q).

(** The directions towards increasing latitude ("north") and increasing longitude
    ("east") at p. *)
Definition north (p : R * R) : R * R * R :=
  (- (cos (fst p) * sin (snd p)), - (sin (fst p) * sin (snd p)), cos (snd p)).
Definition east (p : R * R) : R * R * R := (- sin (fst p), cos (fst p), 0).
