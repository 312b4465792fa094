(** Property C51: latitude and height above a flattened planet, and parallax constants.

    What a latitude and a height mean is said in [EllSpec]; the functions are those of [EllModel]. *)
From Coq Require Import Lia Psatz.
From Verif Require Import TrigBase EllModel EllSpec EllThms.
Local Open Scope R_scope.

(** Whatever the latitude and the height, lat_alt_to_parallax( ) gives the place of that latitude and height above the ellipse with the given axes, in units of the major axis. *)
Theorem C51_parallax :
forall lat h major minor, 0 < major -> 0 < minor ->
  exists rho_cos_phi rho_sin_phi, lat_alt_to_parallax lat h major minor = Ret (rho_cos_phi, rho_sin_phi) /\
    place major minor lat h (major * rho_cos_phi, major * rho_sin_phi) /\
    forall p, place major minor lat h p -> p = (major * rho_cos_phi, major * rho_sin_phi).
Proof. exact C51_parallax_proof. Qed.
Print Assumptions C51_parallax.

Example C51_parallax_example : exists rc rs, lat_alt_to_parallax 0 3 2 1 = Ret (rc, rs) /\ place 2 1 0 3 (2 * rc, 2 * rs).
Proof. destruct (C51_parallax 0 3 2 1 ltac:(lra) ltac:(lra)) as (rc & rs & E & P & _). now exists rc, rs. Qed.

(** For every place off the axis, except those of the equatorial plane of a sphere, point_to_ellipse( ) gives a latitude and a height of which that is the place. *)
Theorem C51_latitude :
forall a b x y, 0 < b <= a -> x <> 0 -> (b < a \/ y <> 0) ->
  exists lat h, point_to_ellipse a b x y = Ret (lat, h) /\ place a b lat h (x, y) /\ - PI < lat <= PI /\ (0 < x -> - (PI / 2) < lat < PI / 2).
Proof. exact C51_latitude_proof. Qed.
Print Assumptions C51_latitude.

Example C51_latitude_example : exists lat h, point_to_ellipse 2 1 3 (-1) = Ret (lat, h) /\ place 2 1 lat h (3, -1).
Proof. destruct (C51_latitude 2 1 3 (-1)) as (lat & h & E & P & _); [lra|lra|lra|]. now exists lat, h. Qed.

(** The height is the distance to the closest point of the ellipse; it is negative exactly for the places inside. *)
Theorem C51_closest :
forall a b x y lat h, 0 < b <= a -> x <> 0 -> (b < a \/ y <> 0) -> point_to_ellipse a b x y = Ret (lat, h) ->
  (forall q, on_ellipse a b q -> h * h <= apart2 (x, y) q) /\
  (exists q, on_ellipse a b q /\ apart2 (x, y) q = h * h) /\
  (h < 0 <-> (x / a) * (x / a) + (y / b) * (y / b) < 1).
Proof. exact C51_closest_proof. Qed.
Print Assumptions C51_closest.

Example C51_closest_example : exists lat h, point_to_ellipse 2 1 1 0 = Ret (lat, h) /\ h < 0.
Proof.
  destruct (C51_latitude 2 1 1 0) as (lat & h & E & _); [lra|lra|lra|]. exists lat, h. split; [assumption|].
  apply (C51_closest 2 1 1 0 lat h); [lra|lra|lra|assumption|lra].
Qed.

(** The two conversions undo each other: from latitude and height to a place and back, for every latitude short of the poles and every height down to the square of the minor axis over the major one below ground (6335 km for the Earth). *)
Theorem C51_roundtrip :
forall a b lat h, 0 < b <= a -> - (PI / 2) < lat < PI / 2 -> - (b * b / a) < h -> (b < a \/ lat <> 0) ->
  exists rho_cos_phi rho_sin_phi, lat_alt_to_parallax lat h a b = Ret (rho_cos_phi, rho_sin_phi) /\
    point_to_ellipse a b (a * rho_cos_phi) (a * rho_sin_phi) = Ret (lat, h).
Proof. exact C51_roundtrip_proof. Qed.
Print Assumptions C51_roundtrip.

Example C51_roundtrip_example : exists rc rs, lat_alt_to_parallax (PI / 4) 5 2 1 = Ret (rc, rs) /\ point_to_ellipse 2 1 (2 * rc) (2 * rs) = Ret (PI / 4, 5).
Proof. pose proof PI_RGT_0. apply C51_roundtrip; lra. Qed.

(** On the axis the latitude is that of the pole. *)
Theorem C51_pole :
forall a b y, 0 < b <= a -> y <> 0 -> exists h, point_to_ellipse a b 0 y = Ret (if Rltb y 0 then - (PI / 2) else PI / 2, h).
Proof. exact C51_pole_proof. Qed.
Print Assumptions C51_pole.

(** Finding (mpc_code.cpp:170): on the axis, the height is taken above a sphere of the equatorial radius.  A place on the surface at a pole gets a height of the minor less the major axis, 21 km below ground for the Earth, and no place on the axis gets its height unless the planet is a sphere. *)
Theorem C51_pole_height_refuted :
forall a b h, 0 < b < a -> 0 <= h ->
  place a b (PI / 2) h (0, b + h) /\ point_to_ellipse a b 0 (b + h) = Ret (PI / 2, h - (a - b)).
Proof. exact C51_pole_height_refuted_proof. Qed.
Print Assumptions C51_pole_height_refuted.

(** Finding: in the equatorial plane of a sphere -- the Moon, Venus, Pluto -- the computation divides zero by zero, and gives no latitude. *)
Theorem C51_sphere_refuted :
forall a x, 0 < a -> x <> 0 -> point_to_ellipse a a x 0 = Abort /\ (0 < x -> place a a 0 (x - a) (x, 0)).
Proof. exact C51_sphere_refuted_proof. Qed.
Print Assumptions C51_sphere_refuted.
