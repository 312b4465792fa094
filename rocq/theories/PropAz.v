(** Property C55 (altitude and azimuth, galactic coordinates; alt_az.cpp).  Doubles are modelled by
    real numbers.  A point of the sky is a pair (x, y) with x = - right ascension and
    y = declination; a place on the ground a pair (longitude, latitude).

    [direction], [seen], [from_south], [from_north], [mean_equator], [mean_time], [equinoxes],
    [angle_eq] and [close] are in [AzSpec]; [reachable] (the histories of calls of the
    functions with static variables) in [PrecSpec]. *)
From Coq Require Import Lia.
From Verif Require Import TrigBase EllModel RotModel RotSpec RotProofs RotThms PrecModel PrecSpec PrecProofs PrecThms AzModel AzSpec AzProofs AzFull AzGal AzThms.
From Verif Require OrbModel.
Open Scope list_scope.

(** green_sidereal_time gives, but for whole turns, the mean sidereal time at Greenwich. *)
Theorem C55_sidereal_time :
forall jd, angle_eq (green_sidereal_time jd) (sidereal_degrees jd * PI / 180).
Proof. exact C55_sidereal_time_proof. Qed.
Print Assumptions C55_sidereal_time.

(** precess_pt from 2000 to a year gives the point as seen from the mean equator and equinox of that
    year, whatever calls were made before; back to 2000, after any calls, it gives the
    first point again, the right ascension but for whole turns and away from the poles. *)
Theorem C55_precess_pt :
forall s p y, reachable s -> - (PI / 2) <= snd p <= PI / 2 ->
  exists enough, forall fuel, (enough <= fuel)%nat ->
  exists q s', precess_pt fuel s p 2000 y = Ret (q, s') /\ reachable s' /\
    direction (- fst q) (snd q) = app (mean_equator y) (direction (- fst p) (snd p)) /\
    forall s'', reachable s'' -> exists enough', forall fuel', (enough' <= fuel')%nat ->
    exists p' s3, precess_pt fuel' s'' q y 2000 = Ret (p', s3) /\ reachable s3 /\ snd p' = snd p /\
      (- (PI / 2) < snd p < PI / 2 -> angle_eq (fst p') (fst p)).
Proof. exact C55_precess_pt_proof. Qed.
Print Assumptions C55_precess_pt.

Example C55_precess_pt_case : reachable initial /\ - (PI / 2) <= snd (-1, 1) <= PI / 2.
Proof. split; [constructor|]. pose proof PI2_1. unfold PI2 in *. cbn [snd]. lra. Qed.

(** precess_pt with two equal years leaves the point and the static variables alone. *)
Theorem C55_precess_pt_same_year :
forall fuel s p y, precess_pt fuel s p y y = Ret (p, s).
Proof. exact C55_precess_pt_same_year_proof. Qed.
Print Assumptions C55_precess_pt_same_year.

(** full_ra_dec_to_alt_az, for a latitude not within 2 arcseconds of a pole (or beyond it) and a
    point that is not in the zenith or nadir: the altitude and the azimuth, counted from
    south through west, are those of the point at the apparent sidereal time of the place;
    the hour angle, counted to the east, is within half a turn; and *loc_epoch is the point
    for the mean equator of date. *)
Theorem C55_alt_az :
forall nutation s p junk_loc latlon jd, reachable s -> - (PI / 2) <= snd p <= PI / 2 -> 1 / 100000 <= cos (snd latlon) ->
  let theta := mean_time jd (fst latlon) + equinoxes nutation jd in
  let v := seen theta (snd latlon) (app (mean_equator (year_of jd)) (direction (- fst p) (snd p))) in
  -1 < comp v 2 < 1 ->
  exists enough, forall fuel, (enough <= fuel)%nat ->
  exists az alt loc ha s', full_ra_dec_to_alt_az nutation fuel s (Some p) junk_loc latlon jd = Ret (az, alt, loc, ha, s') /\ reachable s' /\
    from_south az alt = v /\ - (PI / 2) < alt < PI / 2 /\ - PI <= az <= PI /\
    direction (- fst loc) (snd loc) = app (mean_equator (year_of jd)) (direction (- fst p) (snd p)) /\ - (PI / 2) <= snd loc <= PI / 2 /\
    - PI <= ha <= PI /\ angle_eq ha (- fst loc - theta).
Proof. exact C55_alt_az_proof. Qed.
Print Assumptions C55_alt_az.

(** For example the vernal equinox seen from the equator, rising or setting or in between. *)
Example C55_alt_az_case : reachable initial /\ - (PI / 2) <= snd (0, 0) <= PI / 2 /\ 1 / 100000 <= cos (snd (0, 0)) /\
  exists lon, let v := seen (mean_time 2451545 lon + equinoxes (fun _ => 0) 2451545) 0 (app (mean_equator (year_of 2451545)) (direction (- fst (0, 0)) (snd (0, 0)))) in -1 < comp v 2 < 1.
Proof.
  pose proof PI_RGT_0. split; [constructor|]. cbn [snd fst]. split; [lra|]. rewrite cos_0. split; [lra|].
  exists (PI / 2 - sidereal_degrees 2451545 * PI / 180). cbv zeta. replace (year_of 2451545) with 2000 by (unfold year_of; field). rewrite mean_2000, app_ident by reflexivity.
  unfold seen. rewrite turn_dir. unfold equinoxes, arcsec, mean_time. replace (- 0 + - (sidereal_degrees 2451545 * PI / 180 + (PI / 2 - sidereal_degrees 2451545 * PI / 180) + 0 * (PI / 648000) * (917482062069181825744000384639406458043 / 10 ^ 39))) with (- (PI / 2)) by field.
  unfold north_east_up, direction, comp. cbn [nth]. rewrite cos_neg, cos_PI2, sin_0, cos_0. lra.
Qed.

(** With a null pointer for the point of 2000 the same is computed from the point of date in
    *loc_epoch, which stays; no loop is run and the static variables stay too. *)
Theorem C55_at_epoch :
forall nutation fuel s loc latlon jd, - (PI / 2) <= snd loc <= PI / 2 -> 1 / 100000 <= cos (snd latlon) ->
  let theta := mean_time jd (fst latlon) + equinoxes nutation jd in
  let v := seen theta (snd latlon) (direction (- fst loc) (snd loc)) in
  -1 < comp v 2 < 1 ->
  exists az alt ha, full_ra_dec_to_alt_az nutation fuel s None loc latlon jd = Ret (az, alt, loc, ha, s) /\
    from_south az alt = v /\ - (PI / 2) < alt < PI / 2 /\ - PI <= az <= PI /\ - PI <= ha <= PI /\ angle_eq ha (- fst loc - theta).
Proof. exact C55_at_epoch_proof. Qed.
Print Assumptions C55_at_epoch.

(** full_alt_az_to_ra_dec, for an altitude between -270 and 450 degrees: the result is the point of
    2000 that is seen there at the mean sidereal time of the place, the azimuth counted from
    north through east. *)
Theorem C55_ra_dec :
forall s az alt jd latlon, reachable s -> 1 / 100000 <= cos (snd latlon) -> - (3 * PI / 2) <= alt <= 5 * PI / 2 ->
  -1 < sin (snd latlon) * sin alt + cos (snd latlon) * cos alt * cos az < 1 ->
  exists enough, forall fuel, (enough <= fuel)%nat ->
  exists p s', full_alt_az_to_ra_dec fuel s (az, alt) jd latlon = Ret (p, s') /\ reachable s' /\ - (PI / 2) <= snd p <= PI / 2 /\
    seen (mean_time jd (fst latlon)) (snd latlon) (app (mean_equator (year_of jd)) (direction (- fst p) (snd p))) = from_north az alt.
Proof. exact C55_ra_dec_proof. Qed.
Print Assumptions C55_ra_dec.

Example C55_ra_dec_case : 1 / 100000 <= cos (PI / 4) /\ - (3 * PI / 2) <= 0 <= 5 * PI / 2 /\ -1 < sin (PI / 4) * sin 0 + cos (PI / 4) * cos 0 * cos 0 < 1.
Proof.
  pose proof PI_RGT_0. rewrite sin_0, cos_0, cos_PI4. assert (S : 1 < sqrt 2 < 2).
  { split; [rewrite <- sqrt_1 at 1; apply sqrt_lt_1; lra|]. apply Rsqr_incrst_0; [|apply sqrt_pos|lra]. rewrite Rsqr_sqrt by lra. unfold Rsqr. lra. }
  assert (1 / 2 < 1 / sqrt 2 < 1). { split; apply (Rmult_lt_reg_r (sqrt 2)); try lra; unfold Rdiv; rewrite ?Rmult_assoc, ?Rinv_l by lra; lra. }
  repeat split; lra.
Qed.

(** Without nutation, half a turn added to the azimuth: from a point to altitude and azimuth, and
    from there, after any other calls, back to the point. *)
Theorem C55_round_trip :
forall nutation fuel s p junk_loc latlon jd az alt loc ha s1 s2, reachable s -> - (PI / 2) <= snd p <= PI / 2 -> 1 / 100000 <= cos (snd latlon) ->
  nutation ((jd - 2451545) / 36525) = 0 ->
  let there := app (mean_equator (year_of jd)) (direction (- fst p) (snd p)) in
  -1 < comp there 2 < 1 -> -1 < comp (seen (mean_time jd (fst latlon)) (snd latlon) there) 2 < 1 ->
  full_ra_dec_to_alt_az nutation fuel s (Some p) junk_loc latlon jd = Ret (az, alt, loc, ha, s1) -> reachable s2 ->
  exists enough, forall fuel', (enough <= fuel')%nat ->
  exists p' s3, full_alt_az_to_ra_dec fuel' s2 (az + PI, alt) jd latlon = Ret (p', s3) /\ snd p' = snd p /\
    (- (PI / 2) < snd p < PI / 2 -> angle_eq (fst p') (fst p)).
Proof. exact C55_round_trip_proof. Qed.
Print Assumptions C55_round_trip.

(** A claim that fails: full_alt_az_to_ra_dec undoes full_ra_dec_to_alt_az.  One counts the azimuth from
    south through west, the other from north through east: without nutation, whatever the
    point was, the result is another one. *)
Theorem C55_azimuth_refuted :
forall nutation fuel fuel' s p junk_loc latlon jd az alt loc ha s1 s2 p' s3, reachable s -> - (PI / 2) <= snd p <= PI / 2 -> 1 / 100000 <= cos (snd latlon) ->
  nutation ((jd - 2451545) / 36525) = 0 ->
  let there := app (mean_equator (year_of jd)) (direction (- fst p) (snd p)) in
  -1 < comp (seen (mean_time jd (fst latlon)) (snd latlon) there) 2 < 1 ->
  -1 < sin (snd latlon) * sin alt + cos (snd latlon) * cos alt * cos az < 1 ->
  full_ra_dec_to_alt_az nutation fuel s (Some p) junk_loc latlon jd = Ret (az, alt, loc, ha, s1) -> reachable s2 ->
  full_alt_az_to_ra_dec fuel' s2 (az, alt) jd latlon = Ret (p', s3) ->
  direction (- fst p') (snd p') <> direction (- fst p) (snd p).
Proof. exact C55_azimuth_refuted_proof. Qed.
Print Assumptions C55_azimuth_refuted.

(** A claim that fails: with the azimuth turned by half a turn the point comes back.  Nutation is used
    one way only: on the mean equator of date the result is off by the equation of the
    equinoxes, so it is another point unless that is a number of whole turns. *)
Theorem C55_nutation_refuted :
forall nutation fuel fuel' s p junk_loc latlon jd az alt loc ha s1 s2 p' s3, reachable s -> - (PI / 2) <= snd p <= PI / 2 -> 1 / 100000 <= cos (snd latlon) ->
  let there := app (mean_equator (year_of jd)) (direction (- fst p) (snd p)) in
  -1 < comp there 2 < 1 ->
  -1 < comp (seen (mean_time jd (fst latlon) + equinoxes nutation jd) (snd latlon) there) 2 < 1 ->
  full_ra_dec_to_alt_az nutation fuel s (Some p) junk_loc latlon jd = Ret (az, alt, loc, ha, s1) -> reachable s2 ->
  full_alt_az_to_ra_dec fuel' s2 (az + PI, alt) jd latlon = Ret (p', s3) ->
  app (mean_equator (year_of jd)) (direction (- fst p') (snd p')) = app (turn 0 1 (- equinoxes nutation jd)) there /\
  (~ angle_eq (equinoxes nutation jd) 0 -> direction (- fst p') (snd p') <> direction (- fst p) (snd p)).
Proof. exact C55_nutation_refuted_proof. Qed.
Print Assumptions C55_nutation_refuted.

(** A claim that fails: at the poles, too, the azimuth is that of the point.  At the north pole it is
    mirrored, at the south pole it is half a turn off, whatever the point. *)
Theorem C55_poles_refuted :
forall nutation fuel s loc lon jd, - (PI / 2) <= snd loc <= PI / 2 ->
  let theta := mean_time jd lon + equinoxes nutation jd in
  exists az,
    (full_ra_dec_to_alt_az nutation fuel s None loc (lon, PI / 2) jd = Ret (az, snd loc, loc, az, s) /\
     from_south (- az) (snd loc) = seen theta (PI / 2) (direction (- fst loc) (snd loc)) /\
     (sin az <> 0 -> - (PI / 2) < snd loc < PI / 2 -> from_south az (snd loc) <> seen theta (PI / 2) (direction (- fst loc) (snd loc)))) /\
    (full_ra_dec_to_alt_az nutation fuel s None loc (lon, - (PI / 2)) jd = Ret (az, - snd loc, loc, az, s) /\
     from_south (az + PI) (- snd loc) = seen theta (- (PI / 2)) (direction (- fst loc) (snd loc)) /\
     (- (PI / 2) < snd loc < PI / 2 -> from_south az (- snd loc) <> seen theta (- (PI / 2)) (direction (- fst loc) (snd loc)))).
Proof. exact C55_poles_refuted_proof. Qed.
Print Assumptions C55_poles_refuted.

Example C55_poles_case : - (PI / 2) <= snd (1, 0) <= PI / 2. Proof. pose proof PI_RGT_0. cbn [snd]. lra. Qed.

(** ra_dec_to_galactic gives a direction within 3.5e-5 of the matrix times the given one (the matrix
    is a rotation only to its printed digits, and near the galactic poles the arcsine magnifies
    that), with a latitude between -90 and 90 degrees and a longitude within half a turn of
    the right ascension; galactic_to_ra_dec gets back within 1.5e-4. *)
Theorem C55_galactic :
forall ra dec, exists enough, forall fuel, (enough <= fuel)%nat ->
  exists glat glon, ra_dec_to_galactic fuel ra dec = Ret (glat, glon) /\ close (35 / 10 ^ 6) (direction glon glat) (app j2000_to_galactic_matrix (direction ra dec)) /\
    - (PI / 2) <= glat <= PI / 2 /\ - PI <= glon - ra <= PI /\
    exists enough', forall fuel', (enough' <= fuel')%nat ->
    exists ra' dec', galactic_to_ra_dec fuel' glat glon = Ret (ra', dec') /\ close (15 / 10 ^ 5) (direction ra' dec') (direction ra dec) /\
      - (PI / 2) <= dec' <= PI / 2 /\ - PI <= ra' - glon <= PI.
Proof. exact C55_galactic_proof. Qed.
Print Assumptions C55_galactic.

(** ra_dec_to_supergalactic gives a direction within 3.3e-4 of the matrix times the given one (the matrix
    is a rotation only to its printed digits, and near the supergalactic poles the arcsine magnifies
    that), with a latitude between -90 and 90 degrees and a longitude within half a turn of
    the right ascension; supergalactic_to_ra_dec gets back within 1.4e-3. *)
Theorem C55_supergalactic :
forall ra dec, exists enough, forall fuel, (enough <= fuel)%nat ->
  exists glat glon, ra_dec_to_supergalactic fuel ra dec = Ret (glat, glon) /\ close (33 / 10 ^ 5) (direction glon glat) (app j2000_to_supergalactic_matrix (direction ra dec)) /\
    - (PI / 2) <= glat <= PI / 2 /\ - PI <= glon - ra <= PI /\
    exists enough', forall fuel', (enough' <= fuel')%nat ->
    exists ra' dec', supergalactic_to_ra_dec fuel' glat glon = Ret (ra', dec') /\ close (14 / 10 ^ 4) (direction ra' dec') (direction ra dec) /\
      - (PI / 2) <= dec' <= PI / 2 /\ - PI <= ra' - glon <= PI.
Proof. exact C55_supergalactic_proof. Qed.
Print Assumptions C55_supergalactic.

(** A claim that fails: the galactic longitude is between 0 and 360 degrees.  It is the one within half a turn
    of the right ascension given, so it is beyond -180 degrees whenever the right ascension is
    beyond -360 degrees. *)
Theorem C55_galactic_refuted :
forall ra dec fuel glat glon, ra < - (2 * PI) -> (exists enough, forall fuel, (enough <= fuel)%nat -> exists glat glon, ra_dec_to_galactic fuel ra dec = Ret (glat, glon)) /\
  (ra_dec_to_galactic fuel ra dec = Ret (glat, glon) -> glon < - PI).
Proof. exact C55_galactic_refuted_proof. Qed.
Print Assumptions C55_galactic_refuted.
