(** What a moon on a precessing ellipse means, independently of the formulas of the code. *)
From Coq Require Export Reals List ZArith.
Export ListNotations.
Local Open Scope R_scope.

(** Vectors of space. *)
Definition vec : Type := (R * R * R)%type.
Definition add (u v : vec) : vec := let '(a, b, c) := u in let '(x, y, z) := v in (a + x, b + y, c + z).
Definition times (k : R) (v : vec) : vec := let '(x, y, z) := v in (k * x, k * y, k * z).
Definition dot (u v : vec) : R := let '(a, b, c) := u in let '(x, y, z) := v in a * x + b * y + c * z.
Definition cross (u v : vec) : vec := let '(a, b, c) := u in let '(x, y, z) := v in (b * z - c * y, c * x - a * z, a * y - b * x).
Definition size (v : vec) : R := sqrt (dot v v).

(** The direction with right ascension [ra] and declination [dec]. *)
Definition direction (ra dec : R) : vec := (cos ra * cos dec, sin ra * cos dec, sin dec).

(** A plane is given by its pole.  Longitudes in it are counted from the point where it rises through the Earth's equator, which is
    90 degrees east of the pole. *)
Definition rising (ra : R) : vec := direction (ra + PI / 2) 0.

(** The direction in the plane of the pole (ra, dec) at longitude [l]. *)
Definition in_plane (ra dec l : R) : vec := add (times (cos l) (rising ra)) (times (sin l) (cross (direction ra dec) (rising ra))).

(** The pole of an orbit that is inclined by [i] to that plane and rises through it at longitude [node]: the pole of the plane, turned
    by [i] about the direction of the node. *)
Definition orbit_pole (ra dec i node : R) : vec :=
  add (times (cos i) (direction ra dec)) (times (- sin i) (cross (direction ra dec) (in_plane ra dec node))).

(** The point of that orbit at longitude [l] (counted along the plane up to the node, then along the orbit), on an ellipse with
    semi-major axis [a], eccentricity [e] and the nearest point at longitude [peri]. *)
Definition orbit_point (ra dec a e i node peri l : R) : vec :=
  times (a * (1 - e * e) / (1 + e * cos (l - peri)))
    (add (times (cos (l - node)) (in_plane ra dec node)) (times (sin (l - node)) (cross (orbit_pole ra dec i node) (in_plane ra dec node)))).

(** True longitude for a mean longitude, with the first two terms of the equation of the centre. *)
Definition with_centre (e peri mean : R) : R := mean + 2 * e * sin (mean - peri) + 5 / 4 * e ^ 2 * sin (2 * (mean - peri)).

(** The numbers of the moons (rocks.cpp 26-40). *)
Definition moons : list Z := [401; 402; 505; 514; 515; 516; 610; 611; 612; 613; 614; 615; 616; 617; 618; 635;
  706; 707; 708; 709; 710; 711; 712; 713; 714; 715; 725; 726; 727; 801; 803; 804; 805; 806; 807; 808]%Z.

(** Kepler's motion: at mean anomaly [m], the eccentric anomaly is [ea] and the true anomaly [nu]; (cos ea - e, sqrt (1 - e^2) sin ea) is the
    point of the ellipse seen from its focus, and 1 - e cos ea its distance, in units of the semi-major axis. *)
Definition kepler (e m ea nu : R) : Prop :=
  ea - e * sin ea = m /\ (1 - e * cos ea) * cos nu = cos ea - e /\ (1 - e * cos ea) * sin nu = sqrt (1 - e * e) * sin ea /\ Rabs (nu - ea) < PI.
