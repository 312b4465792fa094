(** Theorems of C55 with their proofs; PropAz.v states them again. *)
From Coq Require Import Lia.
From Verif Require Import TrigBase EllModel RotModel RotSpec RotProofs RotThms PrecModel PrecSpec PrecProofs PrecThms AzModel AzSpec AzProofs AzFull AzGal.
From Verif Require OrbModel.
Open Scope list_scope.

Lemma C55_sidereal_time_proof :
forall jd, angle_eq (green_sidereal_time jd) (sidereal_degrees jd * PI / 180).
Proof.
exact sidereal_ok.
Qed.

Lemma C55_precess_pt_proof :
forall s p y, reachable s -> - (PI / 2) <= snd p <= PI / 2 ->
  exists enough, forall fuel, (enough <= fuel)%nat ->
  exists q s', precess_pt fuel s p 2000 y = Ret (q, s') /\ reachable s' /\
    direction (- fst q) (snd q) = app (mean_equator y) (direction (- fst p) (snd p)) /\
    forall s'', reachable s'' -> exists enough', forall fuel', (enough' <= fuel')%nat ->
    exists p' s3, precess_pt fuel' s'' q y 2000 = Ret (p', s3) /\ reachable s3 /\ snd p' = snd p /\
      (- (PI / 2) < snd p < PI / 2 -> angle_eq (fst p') (fst p)).
Proof.
intros s p y Rs D. destruct (pt_from s p y Rs D) as (N & H). exists N. intros fuel Hf. destruct (H fuel Hf) as (q & s' & E & Rs' & Bq & Dq).
  exists q, s'. split; [exact E|]. split; [exact Rs'|]. split; [exact Dq|]. intros s'' Rs''. destruct (pt_to s'' q y Rs'' Bq) as (N' & H'). exists N'. intros fuel' Hf'.
  destruct (H' fuel' Hf') as (p' & s3 & E' & R3 & Bp & Dp). exists p', s3. split; [exact E'|]. split; [exact R3|]. rewrite Dq in Dp.
  apply rot_inj in Dp; [|apply mean_rot|reflexivity|reflexivity]. destruct (same_direction _ _ _ _ Bp D Dp) as [S A]. split; [exact S|]. intros B.
  rewrite S in A. specialize (A B). apply angle_neg in A. rewrite !Ropp_involutive in A. exact A.
Qed.

Lemma C55_precess_pt_same_year_proof :
forall fuel s p y, precess_pt fuel s p y y = Ret (p, s).
Proof.
intros fuel s p y. unfold precess_pt. destruct (Reqb_spec y y); [reflexivity|congruence].
Qed.

Lemma C55_alt_az_proof :
forall nutation s p junk_loc latlon jd, reachable s -> - (PI / 2) <= snd p <= PI / 2 -> 1 / 100000 <= cos (snd latlon) ->
  let theta := mean_time jd (fst latlon) + equinoxes nutation jd in
  let v := seen theta (snd latlon) (app (mean_equator (year_of jd)) (direction (- fst p) (snd p))) in
  -1 < comp v 2 < 1 ->
  exists enough, forall fuel, (enough <= fuel)%nat ->
  exists az alt loc ha s', full_ra_dec_to_alt_az nutation fuel s (Some p) junk_loc latlon jd = Ret (az, alt, loc, ha, s') /\ reachable s' /\
    from_south az alt = v /\ - (PI / 2) < alt < PI / 2 /\ - PI <= az <= PI /\
    direction (- fst loc) (snd loc) = app (mean_equator (year_of jd)) (direction (- fst p) (snd p)) /\ - (PI / 2) <= snd loc <= PI / 2 /\
    - PI <= ha <= PI /\ angle_eq ha (- fst loc - theta).
Proof.
intros nut s p junk_loc latlon jd Rs D L theta v V. destruct (pt_from s p (year_of jd) Rs D) as (N & H). exists N. intros fuel Hf. destruct (H fuel Hf) as (q & s' & E & Rs' & Bq & Dq).
  destruct (full_ok nut fuel s (Some p) junk_loc latlon jd q s' E Bq L) as (alt & az & ha & F & A). { rewrite Dq. exact V. }
  exists az, alt, q, ha, s'. split; [exact F|]. rewrite Dq in A. fold theta in A. tauto.
Qed.

Lemma C55_at_epoch_proof :
forall nutation fuel s loc latlon jd, - (PI / 2) <= snd loc <= PI / 2 -> 1 / 100000 <= cos (snd latlon) ->
  let theta := mean_time jd (fst latlon) + equinoxes nutation jd in
  let v := seen theta (snd latlon) (direction (- fst loc) (snd loc)) in
  -1 < comp v 2 < 1 ->
  exists az alt ha, full_ra_dec_to_alt_az nutation fuel s None loc latlon jd = Ret (az, alt, loc, ha, s) /\
    from_south az alt = v /\ - (PI / 2) < alt < PI / 2 /\ - PI <= az <= PI /\ - PI <= ha <= PI /\ angle_eq ha (- fst loc - theta).
Proof.
intros nut fuel s loc latlon jd D L theta v V.
  destruct (full_ok nut fuel s None loc latlon jd loc s eq_refl D L V) as (alt & az & ha & F & A). exists az, alt, ha. split; [exact F|]. exact A.
Qed.

Lemma C55_ra_dec_proof :
forall s az alt jd latlon, reachable s -> 1 / 100000 <= cos (snd latlon) -> - (3 * PI / 2) <= alt <= 5 * PI / 2 ->
  -1 < sin (snd latlon) * sin alt + cos (snd latlon) * cos alt * cos az < 1 ->
  exists enough, forall fuel, (enough <= fuel)%nat ->
  exists p s', full_alt_az_to_ra_dec fuel s (az, alt) jd latlon = Ret (p, s') /\ reachable s' /\ - (PI / 2) <= snd p <= PI / 2 /\
    seen (mean_time jd (fst latlon)) (snd latlon) (app (mean_equator (year_of jd)) (direction (- fst p) (snd p))) = from_north az alt.
Proof.
intros s az alt jd latlon Rs L A Z. apply back_full; auto. unfold pole_part, from_north, comp. cbn [nth].
  replace (cos (snd latlon) * (cos alt * cos az)) with (cos (snd latlon) * cos alt * cos az) by ring. exact Z.
Qed.

Lemma C55_round_trip_proof :
forall nutation fuel s p junk_loc latlon jd az alt loc ha s1 s2, reachable s -> - (PI / 2) <= snd p <= PI / 2 -> 1 / 100000 <= cos (snd latlon) ->
  nutation ((jd - 2451545) / 36525) = 0 ->
  let there := app (mean_equator (year_of jd)) (direction (- fst p) (snd p)) in
  -1 < comp there 2 < 1 -> -1 < comp (seen (mean_time jd (fst latlon)) (snd latlon) there) 2 < 1 ->
  full_ra_dec_to_alt_az nutation fuel s (Some p) junk_loc latlon jd = Ret (az, alt, loc, ha, s1) -> reachable s2 ->
  exists enough, forall fuel', (enough <= fuel')%nat ->
  exists p' s3, full_alt_az_to_ra_dec fuel' s2 (az + PI, alt) jd latlon = Ret (p', s3) /\ snd p' = snd p /\
    (- (PI / 2) < snd p < PI / 2 -> angle_eq (fst p') (fst p)).
Proof.
intros nut fuel s p junk_loc latlon jd az alt loc ha s1 s2 Rs D L N0 there T V F Rs2.
  assert (Eq0 : equinoxes nut jd = 0) by (unfold equinoxes, arcsec; rewrite N0; ring).
  destruct (forward_any _ _ _ _ _ _ _ _ _ _ _ _ Rs D L ltac:(rewrite Eq0, Rplus_0_r; exact V) F) as (Rs1 & Fs & Ba & Bz). rewrite Eq0, Rplus_0_r in Fs. fold there in Fs.
  pose proof PI_RGT_0 as P. assert (Pp : pole_part (snd latlon) (from_north (az + PI) alt) = comp there 2).
  { rewrite south_north, Fs. unfold seen. rewrite pole_neu. apply turn_comp. }
  destruct (back_full s2 (az + PI) alt jd latlon Rs2 L ltac:(lra) ltac:(rewrite Pp; exact T)) as (N & H). exists N. intros fuel' Hf. destruct (H fuel' Hf) as (p' & s3 & E & _ & Bp & Sn).
  exists p', s3. split; [exact E|]. rewrite south_north, Fs in Sn. unfold seen in Sn. apply neu_inj in Sn; [|reflexivity|reflexivity]. apply rot_inj in Sn; [|apply turn_rot, p01|reflexivity|reflexivity].
  apply rot_inj in Sn; [|apply mean_rot|reflexivity|reflexivity]. destruct (same_direction _ _ _ _ Bp D Sn) as [S A]. split; [exact S|]. intros B. rewrite S in A. specialize (A B). apply angle_neg in A. rewrite !Ropp_involutive in A. exact A.
Qed.

Lemma C55_azimuth_refuted_proof :
forall nutation fuel fuel' s p junk_loc latlon jd az alt loc ha s1 s2 p' s3, reachable s -> - (PI / 2) <= snd p <= PI / 2 -> 1 / 100000 <= cos (snd latlon) ->
  nutation ((jd - 2451545) / 36525) = 0 ->
  let there := app (mean_equator (year_of jd)) (direction (- fst p) (snd p)) in
  -1 < comp (seen (mean_time jd (fst latlon)) (snd latlon) there) 2 < 1 ->
  -1 < sin (snd latlon) * sin alt + cos (snd latlon) * cos alt * cos az < 1 ->
  full_ra_dec_to_alt_az nutation fuel s (Some p) junk_loc latlon jd = Ret (az, alt, loc, ha, s1) -> reachable s2 ->
  full_alt_az_to_ra_dec fuel' s2 (az, alt) jd latlon = Ret (p', s3) ->
  direction (- fst p') (snd p') <> direction (- fst p) (snd p).
Proof.
intros nut fuel fuel' s p junk_loc latlon jd az alt loc ha s1 s2 p' s3 Rs D L N0 there V Z F Rs2 E X.
  assert (Eq0 : equinoxes nut jd = 0) by (unfold equinoxes, arcsec; rewrite N0; ring).
  destruct (forward_any _ _ _ _ _ _ _ _ _ _ _ _ Rs D L ltac:(rewrite Eq0, Rplus_0_r; exact V) F) as (Rs1 & Fs & Ba & Bz). rewrite Eq0, Rplus_0_r in Fs. fold there in Fs.
  pose proof PI_RGT_0 as P. destruct (back_any fuel' s2 az alt jd latlon p' s3 Rs2 L ltac:(lra)) as (_ & _ & Sn); [|exact E|].
  { unfold pole_part, from_north, comp. cbn [nth]. replace (cos (snd latlon) * (cos alt * cos az)) with (cos (snd latlon) * cos alt * cos az) by ring. exact Z. }
  rewrite X in Sn. fold there in Sn. change (seen (mean_time jd (fst latlon)) (snd latlon) there = from_north az alt) in Sn. rewrite <- Fs in Sn.
  assert (0 < cos alt) by (apply cos_gt_0; lra). unfold from_south, from_north in Sn. injection Sn as E1 E2.
  assert (cos az = 0) by (apply (Rmult_eq_reg_l (cos alt)); lra). assert (sin az = 0) by (apply (Rmult_eq_reg_l (cos alt)); lra). pose proof (csq az). nra.
Qed.

Lemma C55_nutation_refuted_proof :
forall nutation fuel fuel' s p junk_loc latlon jd az alt loc ha s1 s2 p' s3, reachable s -> - (PI / 2) <= snd p <= PI / 2 -> 1 / 100000 <= cos (snd latlon) ->
  let there := app (mean_equator (year_of jd)) (direction (- fst p) (snd p)) in
  -1 < comp there 2 < 1 ->
  -1 < comp (seen (mean_time jd (fst latlon) + equinoxes nutation jd) (snd latlon) there) 2 < 1 ->
  full_ra_dec_to_alt_az nutation fuel s (Some p) junk_loc latlon jd = Ret (az, alt, loc, ha, s1) -> reachable s2 ->
  full_alt_az_to_ra_dec fuel' s2 (az + PI, alt) jd latlon = Ret (p', s3) ->
  app (mean_equator (year_of jd)) (direction (- fst p') (snd p')) = app (turn 0 1 (- equinoxes nutation jd)) there /\
  (~ angle_eq (equinoxes nutation jd) 0 -> direction (- fst p') (snd p') <> direction (- fst p) (snd p)).
Proof.
intros nut fuel fuel' s p junk_loc latlon jd az alt loc ha s1 s2 p' s3 Rs D L there T V F Rs2 E.
  destruct (forward_any _ _ _ _ _ _ _ _ _ _ _ _ Rs D L V F) as (Rs1 & Fs & Ba & Bz). fold there in Fs.
  pose proof PI_RGT_0 as P. destruct (back_any fuel' s2 (az + PI) alt jd latlon p' s3 Rs2 L ltac:(lra)) as (_ & _ & Sn); [|exact E|].
  { rewrite south_north, Fs. unfold seen. rewrite pole_neu, turn_comp. exact T. }
  rewrite south_north, Fs in Sn. unfold seen in Sn. apply neu_inj in Sn; [|reflexivity|reflexivity].
  assert (G : app (mean_equator (year_of jd)) (direction (- fst p') (snd p')) = app (turn 0 1 (- equinoxes nut jd)) there).
  { apply (rot_inj (turn 0 1 (- mean_time jd (fst latlon)))); [apply turn_rot, p01|reflexivity|reflexivity|]. rewrite Sn, <- app_mul, turn_add by exact p01. do 2 f_equal. ring. }
  split; [exact G|]. intros NE X. apply NE. rewrite X in G. fold there in G. assert (L3 : exists x y z, there = [x; y; z]) by (apply len3; reflexivity). destruct L3 as (x & y & z & L3).
  assert (U : dot there there = 1). { unfold there. rewrite dot_rot by (apply mean_rot || reflexivity). apply direction_unit. }
  rewrite L3 in *. cbv [dot comp nth] in U, T. unfold app, vec, turn, mat, cell, comp in G. cbn in G. injection G as G1 G2 _. rewrite cos_neg, sin_neg in *.
  set (c := cos (equinoxes nut jd)) in *. set (w := sin (equinoxes nut jd)) in *. assert (XY : 0 < x * x + y * y) by nra.
  pose proof (f_equal (Rmult x) G1). pose proof (f_equal (Rmult y) G2). pose proof (f_equal (Rmult y) G1). pose proof (f_equal (Rmult x) G2).
  assert (C : c = 1) by (apply (Rmult_eq_reg_r (x * x + y * y)); lra). assert (W : w = 0) by (apply (Rmult_eq_reg_r (x * x + y * y)); lra).
  apply same_angle; [rewrite cos_0; exact C|rewrite sin_0; exact W].
Qed.

Lemma C55_poles_refuted_proof :
forall nutation fuel s loc lon jd, - (PI / 2) <= snd loc <= PI / 2 ->
  let theta := mean_time jd lon + equinoxes nutation jd in
  exists az,
    (full_ra_dec_to_alt_az nutation fuel s None loc (lon, PI / 2) jd = Ret (az, snd loc, loc, az, s) /\
     from_south (- az) (snd loc) = seen theta (PI / 2) (direction (- fst loc) (snd loc)) /\
     (sin az <> 0 -> - (PI / 2) < snd loc < PI / 2 -> from_south az (snd loc) <> seen theta (PI / 2) (direction (- fst loc) (snd loc)))) /\
    (full_ra_dec_to_alt_az nutation fuel s None loc (lon, - (PI / 2)) jd = Ret (az, - snd loc, loc, az, s) /\
     from_south (az + PI) (- snd loc) = seen theta (- (PI / 2)) (direction (- fst loc) (snd loc)) /\
     (- (PI / 2) < snd loc < PI / 2 -> from_south az (- snd loc) <> seen theta (- (PI / 2)) (direction (- fst loc) (snd loc)))).
Proof.
intros nut fuel s loc lon jd D theta.
  pose proof (hour_ok (- fst loc - (green_sidereal_time jd + lon) - cos_obliq_2000 * nut ((jd - J2000) / 36525) * (PI / 180) / 3600)) as Hh. cbv zeta in Hh.
  unfold full_ra_dec_to_alt_az. cbn [obind fst snd]. cbv zeta.
  match goal with |- context [ra_dec_to_alt_az ?h _ _] => set (ha := h) in * end. destruct Hh as [Ha Bh]. clearbody ha.
  assert (Ha' : angle_eq ha (- fst loc - theta)) by exact (angle_trans _ _ _ Ha (hour_time nut jd (fst loc) lon)).
  assert (Dr : app (turn 0 1 (- theta)) (direction (- fst loc) (snd loc)) = direction ha (snd loc)). { rewrite turn_dir. apply direction_angle, angle_sym. exact Ha'. }
  assert (A : forall d, - (PI / 2) <= d <= PI / 2 -> asine (sin d) = Ret d).
  { intros d B. destruct (C43_acose_asine_proof (sin d)) as (_ & dec & _ & Ed & _ & _ & Bd & Sd). rewrite Ed. f_equal. apply sin_inj; try assumption. rewrite Sd.
    pose proof (SIN_bound d). rewrite Rmin_right, Rmax_right by lra. reflexivity. }
  unfold seen. rewrite Dr. exists ha. unfold ra_dec_to_alt_az. cbv zeta. rewrite !cos_neg, !sin_neg, cos_PI2, sin_PI2. split; (split; [|split]).
  - replace (1 * sin (snd loc) + 0 * cos (snd loc) * cos ha) with (sin (snd loc)) by ring. rewrite A by exact D. cbn [obind]. destruct (Rltb_spec 0 (1 / 100000)); [reflexivity|lra].
  - unfold from_south, north_east_up, direction, comp. cbn [nth]. rewrite cos_neg, sin_neg, cos_PI2, sin_PI2. apply l3; ring.
  - intros S B E. assert (0 < cos (snd loc)) by (apply cos_gt_0; lra). unfold from_south, north_east_up, direction, comp in E. cbn [nth] in E. rewrite cos_PI2, sin_PI2 in E. injection E as _ E _.
    apply S. apply (Rmult_eq_reg_r (cos (snd loc))); lra.
  - replace (Ropp 1 * sin (snd loc) + 0 * cos (snd loc) * cos ha) with (sin (- snd loc)) by (rewrite sin_neg; ring). rewrite A by lra. cbn [obind]. destruct (Rltb_spec 0 (1 / 100000)); [reflexivity|lra].
  - unfold from_south, north_east_up, direction, comp. cbn [nth]. rewrite !cos_neg, !sin_neg, cos_PI2, sin_PI2, neg_cos, neg_sin. apply l3; ring.
  - intros B E. assert (0 < cos (snd loc)) by (apply cos_gt_0; lra). unfold from_south, north_east_up, direction, comp in E. cbn [nth] in E. rewrite !cos_neg, !sin_neg, cos_PI2, sin_PI2 in E. injection E as E1 E2 _.
    assert (cos ha = 0) by (apply (Rmult_eq_reg_r (cos (snd loc))); lra). assert (sin ha = 0) by (apply (Rmult_eq_reg_r (cos (snd loc))); lra). pose proof (csq ha). nra.
Qed.

Lemma C55_galactic_proof :
forall ra dec, exists enough, forall fuel, (enough <= fuel)%nat ->
  exists glat glon, ra_dec_to_galactic fuel ra dec = Ret (glat, glon) /\ close (35 / 10 ^ 6) (direction glon glat) (app j2000_to_galactic_matrix (direction ra dec)) /\
    - (PI / 2) <= glat <= PI / 2 /\ - PI <= glon - ra <= PI /\
    exists enough', forall fuel', (enough' <= fuel')%nat ->
    exists ra' dec', galactic_to_ra_dec fuel' glat glon = Ret (ra', dec') /\ close (15 / 10 ^ 5) (direction ra' dec') (direction ra dec) /\
      - (PI / 2) <= dec' <= PI / 2 /\ - PI <= ra' - glon <= PI.
Proof.
intros ra dec. destruct (gal_ok j2000_to_galactic_matrix _ (35 / 10 ^ 6) (ra, dec) false galactic_nearly ltac:(lra) ltac:(lra) ltac:(lra)) as (N & H). exists N. intros fuel Hf.
  destruct (H fuel Hf) as (q & E & B & Q & C). exists (snd q), (fst q). unfold ra_dec_to_galactic. rewrite E. cbn [obind]. cbn [fst snd] in B, C. split; [reflexivity|]. split; [exact C|]. split; [exact Q|]. split; [exact B|].
  destruct (gal_ok j2000_to_galactic_matrix _ (35 / 10 ^ 6) (fst q, snd q) true galactic_nearly ltac:(lra) ltac:(lra) ltac:(lra)) as (N' & H'). exists N'. intros fuel' Hf'.
  destruct (H' fuel' Hf') as (r & E' & B' & Q' & C'). exists (fst r), (snd r). unfold galactic_to_ra_dec. rewrite E'. cbn [obind]. cbn [fst snd] in B', C'. split; [reflexivity|]. split; [|split; [exact Q'|exact B']].
  pose proof (gal_back j2000_to_galactic_matrix _ (35 / 10 ^ 6) (ra, dec) false q r galactic_nearly ltac:(lra) C ltac:(lra) C') as K. intros i. specialize (K i). cbn [fst snd] in K. lra.
Qed.

Lemma C55_supergalactic_proof :
forall ra dec, exists enough, forall fuel, (enough <= fuel)%nat ->
  exists glat glon, ra_dec_to_supergalactic fuel ra dec = Ret (glat, glon) /\ close (33 / 10 ^ 5) (direction glon glat) (app j2000_to_supergalactic_matrix (direction ra dec)) /\
    - (PI / 2) <= glat <= PI / 2 /\ - PI <= glon - ra <= PI /\
    exists enough', forall fuel', (enough' <= fuel')%nat ->
    exists ra' dec', supergalactic_to_ra_dec fuel' glat glon = Ret (ra', dec') /\ close (14 / 10 ^ 4) (direction ra' dec') (direction ra dec) /\
      - (PI / 2) <= dec' <= PI / 2 /\ - PI <= ra' - glon <= PI.
Proof.
intros ra dec. destruct (gal_ok j2000_to_supergalactic_matrix _ (33 / 10 ^ 5) (ra, dec) false supergalactic_nearly ltac:(lra) ltac:(lra) ltac:(lra)) as (N & H). exists N. intros fuel Hf.
  destruct (H fuel Hf) as (q & E & B & Q & C). exists (snd q), (fst q). unfold ra_dec_to_supergalactic. rewrite E. cbn [obind]. cbn [fst snd] in B, C. split; [reflexivity|]. split; [exact C|]. split; [exact Q|]. split; [exact B|].
  destruct (gal_ok j2000_to_supergalactic_matrix _ (33 / 10 ^ 5) (fst q, snd q) true supergalactic_nearly ltac:(lra) ltac:(lra) ltac:(lra)) as (N' & H'). exists N'. intros fuel' Hf'.
  destruct (H' fuel' Hf') as (r & E' & B' & Q' & C'). exists (fst r), (snd r). unfold supergalactic_to_ra_dec. rewrite E'. cbn [obind]. cbn [fst snd] in B', C'. split; [reflexivity|]. split; [|split; [exact Q'|exact B']].
  pose proof (gal_back j2000_to_supergalactic_matrix _ (33 / 10 ^ 5) (ra, dec) false q r supergalactic_nearly ltac:(lra) C ltac:(lra) C') as K. intros i. specialize (K i). cbn [fst snd] in K. lra.
Qed.

Lemma C55_galactic_refuted_proof :
forall ra dec fuel glat glon, ra < - (2 * PI) -> (exists enough, forall fuel, (enough <= fuel)%nat -> exists glat glon, ra_dec_to_galactic fuel ra dec = Ret (glat, glon)) /\
  (ra_dec_to_galactic fuel ra dec = Ret (glat, glon) -> glon < - PI).
Proof.
intros ra dec fuel glat glon R0. split.
  - destruct (C55_galactic_proof ra dec) as (N & H). exists N. intros f Hf. destruct (H f Hf) as (a & b & E & _). eauto.
  - intros E. unfold ra_dec_to_galactic, precess_ra_dec in E. cbv zeta in E.
    match type of E with context [precess_vector ?a ?b ?c] => destruct (precess_vector a b c) as [v| | |]; try discriminate end. cbn [obind] in E.
    destruct (get v 0) as [x| | |]; try discriminate. destruct (get v 1) as [y| | |]; try discriminate. destruct (get v 2) as [z| | |]; try discriminate. cbn [obind] in E.
    destruct (asine z) as [d| | |]; try discriminate. cbn [obind fst] in E. match type of E with context [lower_ra fuel ?r _] => destruct (lower_ra fuel r ra) as [r1| | |] eqn:E1; try discriminate end. cbn [obind] in E.
    destruct (raise_ra fuel r1 ra) as [r2| | |] eqn:E2; try discriminate. cbn [obind fst snd] in E. injection E as _ <-. pose proof PI_RGT_0.
    apply lower_bound in E1. pose proof (raise_bound _ _ _ _ E2 ltac:(lra)). lra.
Qed.
