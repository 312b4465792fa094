(** Vocabulary of C53: vectors, the axes of an orbit, conics, and Kepler's equation. *)
From Verif Require Import TrigBase OrbModel.
Local Open Scope R_scope.

Definition dot (a b : vec3) : R := let '(a0, a1, a2) := a in let '(b0, b1, b2) := b in a0 * b0 + a1 * b1 + a2 * b2.
Definition cross (a b : vec3) : vec3 :=
  let '(a0, a1, a2) := a in let '(b0, b1, b2) := b in (a1 * b2 - a2 * b1, a2 * b0 - a0 * b2, a0 * b1 - a1 * b0).
Definition scale (s : R) (a : vec3) : vec3 := let '(a0, a1, a2) := a in (s * a0, s * a1, s * a2).
Definition plus (a b : vec3) : vec3 := let '(a0, a1, a2) := a in let '(b0, b1, b2) := b in (a0 + b0, a1 + b1, a2 + b2).
Definition length_of (a : vec3) : R := sqrt (dot a a).

(** Turns about the z and x axes. *)
Definition turn_z (t : R) (a : vec3) : vec3 := let '(x, y, z) := a in (x * cos t - y * sin t, x * sin t + y * cos t, z).
Definition turn_x (t : R) (a : vec3) : vec3 := let '(x, y, z) := a in (x, y * cos t - z * sin t, y * sin t + z * cos t).
(** The direction of the perihelion, a quarter turn further on in the orbit, and the pole of
    the orbit, from node, inclination and argument of the perihelion. *)
Definition orbit_axis (node incl peri : R) (a : vec3) : vec3 := turn_z node (turn_x incl (turn_z peri a)).
Definition to_perihelion (node incl peri : R) : vec3 := orbit_axis node incl peri (1, 0, 0).
Definition to_quarter (node incl peri : R) : vec3 := orbit_axis node incl peri (0, 1, 0).
Definition to_pole (node incl peri : R) : vec3 := orbit_axis node incl peri (0, 0, 1).

(** A place [r] and a velocity [v] belong to the orbit about a mass [gm] with perihelion
    distance [q], eccentricity [e], perihelion in the direction [p] and pole [w]: angular momentum
    and eccentricity vector are those of the orbit. *)
Definition on_orbit (gm q e : R) (p w r v : vec3) : Prop :=
  cross r v = scale (sqrt (gm * q * (1 + e))) w /\
  plus (scale (1 / gm) (cross v (cross r v))) (scale (- (1 / length_of r)) r) = scale e p.

(** The place on the three kinds of orbit, in the axes of the orbit, as a function of the
    eccentric anomaly, or of the tangent of half the true anomaly. *)
Definition ellipse (q e E : R) : R * R := (q / (1 - e) * (cos E - e), q / (1 - e) * sqrt (1 - e * e) * sin E).
Definition hyperbola (q e H : R) : R * R := (q / (e - 1) * (e - cosh H), q / (e - 1) * sqrt (e * e - 1) * sinh H).
Definition parabola (q s : R) : R * R := (q * (1 - s * s), 2 * q * s).
Definition at_point (p s : vec3) (xy : R * R) : vec3 := plus (scale (fst xy) p) (scale (snd xy) s).

(** Two angles that differ by whole turns. *)
Definition same_direction (a b : R) : Prop := exists k : Z, a = b + 2 * PI * IZR k.
