(** Vocabulary of C54: the constants of the motion. *)
From Verif Require Import TrigBase OrbModel OrbSpec.
Local Open Scope R_scope.

(** Angular momentum, and the vector towards the perihelion whose length is the eccentricity. *)
Definition momentum (r v : vec3) : vec3 := cross r v.
Definition ecc_vector (gm : R) (r v : vec3) : vec3 :=
  plus (scale (1 / gm) (cross v (cross r v))) (scale (- (1 / length_of r)) r).
(** A vector made one unit long. *)
Definition unit_of (a : vec3) : vec3 := scale (1 / length_of a) a.
