(** What a latitude and a height above an ellipse mean, independently of the
    formulas of the code: the plane through a planet's axis, with the equator along
    the first coordinate. *)
From Coq Require Export Reals.
Local Open Scope R_scope.

(** The point (u, w) is on the ellipse with semi-axes [a] (along x) and [b]. *)
Definition on_ellipse (a b : R) (p : R * R) : Prop := (fst p / a) * (fst p / a) + (snd p / b) * (snd p / b) = 1.

(** The square of the distance of two points. *)
Definition apart2 (p q : R * R) : R := (fst p - fst q) * (fst p - fst q) + (snd p - snd q) * (snd p - snd q).

(** [q] is the point of the ellipse straight below (or above) a place of geodetic
    latitude [lat]: it is on the ellipse, and the outward normal of the ellipse
    there, which is along (x / a^2, y / b^2), points to latitude [lat]. *)
Definition ground (a b lat : R) (q : R * R) : Prop :=
  on_ellipse a b q /\ exists k, 0 < k /\ fst q / (a * a) = k * cos lat /\ snd q / (b * b) = k * sin lat.

(** [p] is the place of latitude [lat] and height [h] above the ellipse. *)
Definition place (a b lat h : R) (p : R * R) : Prop :=
  exists q, ground a b lat q /\ fst p = fst q + h * cos lat /\ snd p = snd q + h * sin lat.
