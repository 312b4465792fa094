(** Specification for C55: the sky seen from a place on the ground. *)
From Verif Require Import TrigBase RotSpec PrecSpec.
Open Scope list_scope.

(** The direction with the given longitude (right ascension, ...) and latitude (declination, ...). *)
Definition direction (lon lat : R) : list R := [cos lon * cos lat; sin lon * cos lat; sin lat].

(** What an observer at the latitude [lat] calls north, east and up, for a direction [x; y; z]
    given by its parts towards the point of the equator on the meridian, towards the east,
    and towards the north pole of the sky. *)
Definition north_east_up (lat : R) (d : list R) : list R :=
  [cos lat * comp d 2 - sin lat * comp d 0; comp d 1; sin lat * comp d 2 + cos lat * comp d 0].

(** The direction with altitude [alt] and azimuth [az], counted from north through east,
    and the one with the azimuth counted from south through west, as north, east and up. *)
Definition from_north (az alt : R) : list R := [cos alt * cos az; cos alt * sin az; sin alt].
Definition from_south (az alt : R) : list R := [- (cos alt * cos az); - (cos alt * sin az); sin alt].

(** From the mean equator and equinox of 2000 to those of the year [y]. *)
Definition mean_equator (y : R) : list R :=
  mul (turn 1 2 (obliquity ((y - 2000) / 100))) (mul (precession 2000 y) (tr (turn 1 2 (obliquity 0)))).

(** The year of a day. *)
Definition year_of (jd : R) : R := 2000 + (jd - 2451545) / (36525 / 100).

(** Mean sidereal time at Greenwich, in degrees, by the formula of the Astronomical
    Almanac (Meeus, Astronomical Algorithms, 12.4). *)
Definition sidereal_degrees (jd : R) : R :=
  let d := jd - 2451545 in let t := d / 36525 in
  28046061837 / 10 ^ 8 + 36098564736629 / 10 ^ 11 * d + 387933 / 10 ^ 9 * t ^ 2 - t ^ 3 / 38710000.

(** The same angle. *)
Definition angle_eq (a b : R) : Prop := exists k : Z, a = b + 2 * PI * IZR k.

(** Two directions no part of which differs by more than [eps]. *)
Definition close (eps : R) (u v : list R) : Prop := forall i, Rabs (comp u i - comp v i) <= eps.

(** Mean sidereal time at the longitude [lon], counted to the east, and the equation of the
    equinoxes for a nutation in longitude given in arcseconds as a function of the time in
    centuries: what turns it into apparent sidereal time. *)
Definition mean_time (jd lon : R) : R := sidereal_degrees jd * PI / 180 + lon.
Definition equinoxes (nutation : R -> R) (jd : R) : R :=
  arcsec (nutation ((jd - 2451545) / 36525)) * (917482062069181825744000384639406458043 / 10 ^ 39).

(** What an observer sees as north, east and up of a direction on the mean equator of date,
    at the sidereal time [theta]. *)
Definition seen (theta lat : R) (d : list R) : list R := north_east_up lat (app (turn 0 1 (- theta)) d).
