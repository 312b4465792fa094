(** Property C34 (precession).  Doubles are modelled by real numbers.

    [reachable] and [later] in [PrecSpec] are the histories of calls of the functions
    that keep static variables; [precession], [obliquity] and [sentinel] are defined
    there too.  [rotation], [mul], [tr] and [app] are from [RotSpec]. *)
From Coq Require Import Lia.
From Verif Require Import TrigBase RotModel RotSpec PrecModel PrecSpec PrecThms.
Open Scope list_scope.

(** C34.  Whatever calls were made before, setup_ecliptic_precession gives the rotation
    [precession a b], unless the years are the two the cache starts with. *)
Theorem C34_ecliptic :
  forall s m a b, reachable s -> length m = 9%nat -> ~ sentinel a b ->
  exists s', setup_ecliptic_precession s m a b = Ret (precession a b, s') /\ rotation (precession a b).
Proof. exact C34_ecliptic_proof. Qed.
Print Assumptions C34_ecliptic.

Example C34_ecliptic_case : reachable initial /\ ~ sentinel 1950 2000.
Proof. split; [constructor|]. unfold sentinel, SEMIRANDOM_GARBAGE1, SEMIRANDOM_GARBAGE2. lra. Qed.

(** C34.  From 2000 to another year it is the IAU 1976 rotation, from another year to 2000
    its inverse. *)
Theorem C34_from_2000 :
  forall y, 1 / 100000 <= Rabs (y - 2000) ->
  precession 2000 y = from_2000 y /\ precession y 2000 = tr (from_2000 y) /\ rotation (from_2000 y).
Proof. exact C34_from_2000_proof. Qed.
Print Assumptions C34_from_2000.

Example C34_from_2000_case : 1 / 100000 <= Rabs (1950 - 2000). Proof. rewrite Rabs_left; lra. Qed.

(** C34.  Precessing from a to b and then, after any other calls, from b to a is the
    identity. *)
Theorem C34_ecliptic_inverse :
  forall s a b m1 r1 s1 s2 m2 v w w', reachable s -> ~ sentinel a b ->
  length m1 = 9%nat -> length m2 = 9%nat -> length v = 3%nat -> length w = 3%nat -> length w' = 3%nat ->
  setup_ecliptic_precession s m1 a b = Ret (r1, s1) -> later s1 s2 ->
  exists r2 s3 v', setup_ecliptic_precession s2 m2 b a = Ret (r2, s3) /\ mul r2 r1 = ident /\ mul r1 r2 = ident /\
    precess_vector r1 v w = Ret v' /\ precess_vector r2 v' w' = Ret v.
Proof. exact C34_ecliptic_inverse_proof. Qed.
Print Assumptions C34_ecliptic_inverse.

(** C34.  The same for setup_precession, whose matrices are rotations as well. *)
Theorem C34_equatorial_inverse :
  forall s a b m1 m2 v w w', reachable s -> ~ sentinel a b ->
  length m1 = 9%nat -> length m2 = 9%nat -> length v = 3%nat -> length w = 3%nat -> length w' = 3%nat ->
  exists r1 s1, setup_precession s m1 a b = Ret (r1, s1) /\ rotation r1 /\
    forall s2, later s1 s2 ->
    exists r2 s3 v', setup_precession s2 m2 b a = Ret (r2, s3) /\ mul r2 r1 = ident /\ mul r1 r2 = ident /\
      precess_vector r1 v w = Ret v' /\ precess_vector r2 v' w' = Ret v.
Proof. exact C34_equatorial_inverse_proof. Qed.
Print Assumptions C34_equatorial_inverse.

(** C34.  setup_precession is the ecliptic precession between the two mean equators. *)
Theorem C34_equatorial :
  forall s m a b, reachable s -> length m = 9%nat -> ~ sentinel a b ->
  exists s', setup_precession s m a b =
    Ret (mul (turn 1 2 (obliquity ((b - 2000) / 100))) (mul (precession a b) (tr (turn 1 2 (obliquity ((a - 2000) / 100))))), s').
Proof. exact C34_equatorial_proof. Qed.
Print Assumptions C34_equatorial.

(** C34.  mean_obliquity does not depend on the calls made before. *)
Theorem C34_mean_obliquity :
  forall s t, reachable s -> fst (mean_obliquity s t) = obliquity t.
Proof. exact C34_mean_obliquity_proof. Qed.
Print Assumptions C34_mean_obliquity.

(** C34.  At the two ends, where mean_obliquity is clipped, it jumps by less than a
    hundred-thousandth of an arcsecond. *)
Theorem C34_mean_obliquity_clip :
  Rabs (obliquity 101 - obliquity 100) < arcsec (1 / 100000) /\ Rabs (obliquity (- 101) - obliquity (- 100)) < arcsec (1 / 100000).
Proof. exact C34_mean_obliquity_clip_proof. Qed.
Print Assumptions C34_mean_obliquity_clip.

(** C34.  What the code multiplies for two years other than 2000: the rotation to 2000 comes
    after the one from 2000. *)
Theorem C34_composition :
  forall a b v, length v = 3%nat -> 1 / 100000 <= Rabs (a - b) ->
  app (precession a b) v = app (tr (from_2000 a)) (app (from_2000 b) v).
Proof. exact C34_composition_proof. Qed.
Print Assumptions C34_composition.

(** C34, a claim that fails: precessing from a to 2000 and from there to b is precessing from
    a to b.  For example from 2100 to 2200. *)
Theorem C34_via_2000_refuted :
  ~ (forall a b v, length v = 3%nat -> 1 / 100000 <= Rabs (a - b) -> 1 / 100000 <= Rabs (a - 2000) -> 1 / 100000 <= Rabs (b - 2000) ->
     app (precession 2000 b) (app (precession a 2000) v) = app (precession a b) v).
Proof. exact C34_via_2000_refuted_proof. Qed.
Print Assumptions C34_via_2000_refuted.

(** C34, a claim that fails: the matrix is a rotation for all years.  If the first call is for
    the two years the cache is initialised with, the matrix is zero. *)
Theorem C34_sentinel_refuted :
  forall m, length m = 9%nat ->
  setup_ecliptic_precession initial m SEMIRANDOM_GARBAGE1 SEMIRANDOM_GARBAGE2 = Ret ([0; 0; 0; 0; 0; 0; 0; 0; 0], initial) /\
  ~ rotation [0; 0; 0; 0; 0; 0; 0; 0; 0].
Proof. exact C34_sentinel_refuted_proof. Qed.
Print Assumptions C34_sentinel_refuted.

(** C34.  setup_equatorial_precession_from_j2000 gives the IAU 1976 rotation, the identity for 2000. *)
Theorem C34_equatorial_from_2000 :
  forall m y, length m = 9%nat ->
  setup_equatorial_precession_from_j2000 m y = Ret (equator_from_2000 y) /\ rotation (equator_from_2000 y) /\ equator_from_2000 2000 = ident.
Proof. exact C34_equatorial_from_2000_proof. Qed.
Print Assumptions C34_equatorial_from_2000.

(** C34.  Whatever the nutation is, setup_precession_with_nutation_delta gives the rotation from the
    mean equator of 2000 to the true equator of the year, the x axis then turned by the
    equation of the equinoxes.  (The obliquity of 2000 used on the way does not matter.) *)
Theorem C34_with_nutation :
  forall nutation s m y dl dobl, reachable s -> length m = 9%nat ->
  let t := (y - 2000) / 100 in
  let dpsi := arcsec (fst (nutation t)) + dl in
  let de := arcsec (snd (nutation t)) + dobl in
  let r := mul (turn 0 1 (- (dpsi * cos (obliquity t)))) (mul (nutate (obliquity t) dpsi de) (equator_from_2000 y)) in
  rotation r /\ exists s', setup_precession_with_nutation_delta nutation s m y dl dobl = Ret (r, s').
Proof. exact C34_with_nutation_proof. Qed.
Print Assumptions C34_with_nutation.

Example C34_with_nutation_case : reachable initial. Proof. apply later_now. Qed.

(** C34.  With no nutation it is the mean precession; setup_precession_with_nutation adds nothing to
    the nutation. *)
Theorem C34_without_nutation :
  forall nutation s m y, reachable s -> length m = 9%nat -> nutation ((y - 2000) / 100) = (0, 0) ->
  exists s', setup_precession_with_nutation nutation s m y = Ret (equator_from_2000 y, s').
Proof. exact C34_without_nutation_proof. Qed.
Print Assumptions C34_without_nutation.

Example C34_without_nutation_case : reachable initial /\ (fun _ : R => (0, 0)) ((1950 - 2000) / 100) = (0, 0).
Proof. split; [apply later_now|reflexivity]. Qed.

(** C34.  deprecess_vector undoes precess_vector, and the other way round, also in place; both keep
    lengths. *)
Theorem C34_vectors :
  forall m v w w', rotation m -> length v = 3%nat -> length w = 3%nat -> length w' = 3%nat ->
  exists p d, precess_vector m v w = Ret p /\ deprecess_vector m p w' = Ret v /\
    deprecess_vector m v w = Ret d /\ precess_vector m d w' = Ret v /\ norm p = norm v /\ norm d = norm v.
Proof. exact C34_vectors_proof. Qed.
Print Assumptions C34_vectors.

Example C34_vectors_case : rotation (from_2000 1950). Proof. apply (C34_from_2000_proof 1950). rewrite Rabs_left; lra. Qed.

(** C34.  equatorial_to_ecliptic turns about the x axis by one angle e between 0 and 45 degrees, from
    the z axis towards the y axis, ecliptic_to_equatorial by the same angle back, each
    with a factor that differs from 1 by less than 1e-38 (the sine and cosine are given
    to 39 digits). *)
Theorem C34_ecliptic_equatorial :
  exists k e, Rabs (k - 1) < 1 / 10 ^ 38 /\ 0 < e < PI / 4 /\ forall x y z,
    equatorial_to_ecliptic [x; y; z] = Ret (app (turn 1 2 (- e)) [x; k * y; k * z]) /\
    ecliptic_to_equatorial [x; y; z] = Ret (app (turn 1 2 e) [x; k * y; k * z]).
Proof. exact C34_ecliptic_equatorial_proof. Qed.
Print Assumptions C34_ecliptic_equatorial.

(** C34.  ecliptic_to_equatorial undoes equatorial_to_ecliptic up to a factor that differs from 1
    by less than 1e-38. *)
Theorem C34_ecliptic_equatorial_back :
  exists k, Rabs (k - 1) < 1 / 10 ^ 38 /\
  forall x y z, (do v <- equatorial_to_ecliptic [x; y; z]; ecliptic_to_equatorial v) = Ret [x; k * y; k * z] /\
    (do v <- ecliptic_to_equatorial [x; y; z]; equatorial_to_ecliptic v) = Ret [x; k * y; k * z].
Proof. exact C34_ecliptic_equatorial_back_proof. Qed.
Print Assumptions C34_ecliptic_equatorial_back.

(** C34.  precess_ra_dec applies the rotation, or its inverse if backward, to the point on the
    sphere; the right ascension is the one within half a turn of the old one, the
    declination is between -90 and 90 degrees.  The loops end. *)
Theorem C34_precess_ra_dec :
  forall m ra dec (backward : bool), rotation m -> exists enough, forall fuel, (enough <= fuel)%nat ->
  exists ra' dec', precess_ra_dec fuel m (ra, dec) backward = Ret (ra', dec') /\
    [cos ra' * cos dec'; sin ra' * cos dec'; sin dec'] =
      app (if backward then tr m else m) [cos ra * cos dec; sin ra * cos dec; sin dec] /\
    - PI <= ra' - ra <= PI /\ - (PI / 2) <= dec' <= PI / 2.
Proof. exact C34_precess_ra_dec_proof. Qed.
Print Assumptions C34_precess_ra_dec.

(** C34.  precess_ra_dec forward and then backward restores the declination and, but for whole
    turns and away from the poles, the right ascension. *)
Theorem C34_precess_ra_dec_back :
  forall m ra dec fuel ra' dec' ra'' dec'', rotation m -> - (PI / 2) <= dec <= PI / 2 ->
  precess_ra_dec fuel m (ra, dec) false = Ret (ra', dec') ->
  precess_ra_dec fuel m (ra', dec') true = Ret (ra'', dec'') ->
  dec'' = dec /\ (- (PI / 2) < dec < PI / 2 -> exists k : Z, ra'' = ra + 2 * PI * IZR k).
Proof. exact C34_precess_ra_dec_back_proof. Qed.
Print Assumptions C34_precess_ra_dec_back.
