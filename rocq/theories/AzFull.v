(** Proofs about the functions of alt_az.cpp that use precession. *)
From Coq Require Import Lia Nsatz.
From Verif Require Import TrigBase EllModel RotModel RotSpec RotProofs RotThms PrecModel PrecSpec PrecProofs PrecThms AzModel AzSpec AzProofs.
From Verif Require OrbModel OrbKepler.
Open Scope list_scope.

Lemma sidereal_ok jd : angle_eq (green_sidereal_time jd) (sidereal_degrees jd * PI / 180).
Proof.
  exists (- Int_part (jd - 2451545))%Z. unfold green_sidereal_time, sidereal_degrees. cbv zeta. rewrite opp_IZR. set (b := IZR (Int_part (jd - 2451545))). clearbody b. field.
Qed.

Lemma angle_refl a : angle_eq a a. Proof. exists 0%Z. ring. Qed.
Lemma angle_trans a b c : angle_eq a b -> angle_eq b c -> angle_eq a c.
Proof. intros [j ->] [k ->]. exists (k + j)%Z. rewrite plus_IZR. ring. Qed.
Lemma angle_sym a b : angle_eq a b -> angle_eq b a.
Proof. intros [j ->]. exists (- j)%Z. rewrite opp_IZR. ring. Qed.
Lemma angle_add a b c d : angle_eq a b -> angle_eq c d -> angle_eq (a + c) (b + d).
Proof. intros [j ->] [k ->]. exists (j + k)%Z. rewrite plus_IZR. ring. Qed.
Lemma angle_neg a b : angle_eq a b -> angle_eq (- a) (- b).
Proof. intros [j ->]. exists (- j)%Z. rewrite opp_IZR. ring. Qed.
Lemma angle_cs a b : angle_eq a b -> cos a = cos b /\ sin a = sin b.
Proof. intros [j ->]. apply shift_cs. Qed.
Lemma direction_angle a b d : angle_eq a b -> direction a d = direction b d.
Proof. intros H. destruct (angle_cs _ _ H) as [C S]. unfold direction. rewrite C, S. reflexivity. Qed.
Lemma fmod_ok a : angle_eq (OrbModel.c_fmod a (2 * PI)) a /\ - (2 * PI) < OrbModel.c_fmod a (2 * PI) < 2 * PI.
Proof. rewrite (Rmult_comm 2 PI). destruct (OrbKepler.fmod_bound a) as [B [k E]]. split; [exists k; exact E|]. lra. Qed.

Lemma turn_dir a b d : app (turn 0 1 a) (direction b d) = direction (b + a) d.
Proof. unfold app, vec, turn, mat, direction, cell, comp. cbn. rewrite cos_plus, sin_plus. apply l3; ring. Qed.

(** Two places with the same direction. *)
Lemma same_direction a b c d : - (PI / 2) <= b <= PI / 2 -> - (PI / 2) <= d <= PI / 2 -> direction a b = direction c d ->
  b = d /\ (- (PI / 2) < b < PI / 2 -> angle_eq a c).
Proof.
  intros B D E. unfold direction in E. injection E as E1 E2 E3. assert (b = d) by (apply sin_inj; assumption). split; [assumption|]. intros B'. subst d.
  assert (0 < cos b) by (apply cos_gt_0; lra). apply same_angle; apply (Rmult_eq_reg_r (cos b)); lra.
Qed.

Lemma not_sentinel_from y : ~ sentinel y 2000.
Proof. unfold sentinel, SEMIRANDOM_GARBAGE1, SEMIRANDOM_GARBAGE2. intros [[_ H]|[_ H]]; lra. Qed.

Lemma cen2000 : cen 2000 = 0. Proof. unfold cen. field. Qed.
Lemma mean_tilt y : mean_equator y = tilt (obliquity 0) (obliquity (cen y)) (precession 2000 y).
Proof. unfold mean_equator, tilt, cen. rewrite (turn_swap 1 2) by exact p12. reflexivity. Qed.
Lemma mean_rot y : rotation (mean_equator y).
Proof. rewrite mean_tilt. apply tilt_rot, prec_rot. Qed.
Lemma mean_2000 : mean_equator 2000 = ident.
Proof.
  rewrite mean_tilt, cen2000. unfold precession. destruct (Rlt_dec (Rabs (2000 - 2000)) (1 / 100000)) as [_|N].
  2:{ exfalso. apply N. replace (2000 - 2000) with 0 by ring. rewrite Rabs_R0. lra. }
  unfold tilt. rewrite mul_1_l by reflexivity. rewrite (turn_swap 2 1) by exact p21.
  destruct (turn_rot 1 2 (obliquity 0) p12) as [[_ [E _]] _]. exact E.
Qed.

Lemma setup_back s y : reachable s -> exists s', setup_precession s junk y 2000 = Ret (tr (mean_equator y), s') /\ reachable s'.
Proof.
  intros Rs. destruct (equatorial_ok s junk y 2000 (reachable_inv s Rs) eq_refl) as (r & s' & E & _ & L & F). rewrite E.
  specialize (F (not_sentinel_from y)). exists s'. split.
  - rewrite F, mean_tilt, tilt_tr, <- prec_tr, cen2000. reflexivity.
  - exact (later_step _ s s' Rs (step_equatorial s junk y 2000 r s' eq_refl E)).
Qed.

(** precess_pt( ) from 2000, and to 2000. *)
Lemma app_back m u v : rotation m -> length u = 3%nat -> u = app (tr m) v -> app m u = app (mul m (tr m)) v.
Proof. intros R L ->. rewrite app_mul. reflexivity. Qed.

Lemma pt_from s p y : reachable s -> - (PI / 2) <= snd p <= PI / 2 -> exists enough, forall fuel, (enough <= fuel)%nat ->
  exists q s', precess_pt fuel s p 2000 y = Ret (q, s') /\ reachable s' /\ - (PI / 2) <= snd q <= PI / 2 /\
    direction (- fst q) (snd q) = app (mean_equator y) (direction (- fst p) (snd p)).
Proof.
  intros Rs D. unfold precess_pt. destruct (Reqb_spec 2000 y) as [<-|N].
  - exists O. intros _ _. exists p, s. rewrite mean_2000, app_ident by reflexivity. auto.
  - destruct (Reqb_spec 2000 2000) as [_|X]; [|lra]. destruct (setup_back s y Rs) as (s' & E & Rs').
    destruct (ra_dec_ok (tr (mean_equator y)) (- fst p, snd p) true (rot_tr _ (mean_rot y))) as (N0 & H). exists N0. intros fuel Hf.
    destruct (H fuel Hf) as (q & Eq & Pq & _ & Bq). rewrite E. cbn [obind]. cbv zeta. rewrite Eq. cbn [obind]. eexists _, _. split; [reflexivity|]. split; [exact Rs'|]. cbn [fst snd].
    split; [exact Bq|]. rewrite Ropp_involutive. rewrite tr_tr in Pq by reflexivity. exact Pq.
Qed.
Lemma pt_from_any fuel s p y q s' : reachable s -> - (PI / 2) <= snd p <= PI / 2 -> precess_pt fuel s p 2000 y = Ret (q, s') ->
  reachable s' /\ - (PI / 2) <= snd q <= PI / 2 /\ direction (- fst q) (snd q) = app (mean_equator y) (direction (- fst p) (snd p)).
Proof.
  intros Rs D E. unfold precess_pt in E. destruct (Reqb_spec 2000 y) as [<-|N].
  - injection E as <- <-. rewrite mean_2000, app_ident by reflexivity. auto.
  - destruct (Reqb_spec 2000 2000) as [_|X]; [|lra]. destruct (setup_back s y Rs) as (s1 & E1 & Rs1). rewrite E1 in E. cbn [obind] in E. cbv zeta in E.
    destruct (precess_ra_dec fuel (tr (mean_equator y)) (- fst p, snd p) true) as [q'| | |] eqn:Eq; try discriminate. cbn [obind] in E. injection E as <- <-.
    destruct (ra_dec_any _ _ _ _ _ (rot_tr _ (mean_rot y)) Eq) as [Pq Bq]. split; [exact Rs1|]. cbn [fst snd]. split; [exact Bq|]. rewrite Ropp_involutive. rewrite tr_tr in Pq by reflexivity. exact Pq.
Qed.
Lemma pt_to s p y : reachable s -> - (PI / 2) <= snd p <= PI / 2 -> exists enough, forall fuel, (enough <= fuel)%nat ->
  exists q s', precess_pt fuel s p y 2000 = Ret (q, s') /\ reachable s' /\ - (PI / 2) <= snd q <= PI / 2 /\
    app (mean_equator y) (direction (- fst q) (snd q)) = direction (- fst p) (snd p).
Proof.
  intros Rs D. unfold precess_pt. destruct (Reqb_spec y 2000) as [->|N].
  - exists O. intros _ _. exists p, s. rewrite mean_2000, app_ident by reflexivity. auto.
  - destruct (setup_back s y Rs) as (s' & E & Rs').
    destruct (ra_dec_ok (tr (mean_equator y)) (- fst p, snd p) false (rot_tr _ (mean_rot y))) as (N0 & H). exists N0. intros fuel Hf.
    destruct (H fuel Hf) as (q & Eq & Pq & _ & Bq). rewrite E. cbn [obind]. cbv zeta. rewrite Eq. cbn [obind]. eexists _, _. split; [reflexivity|]. split; [exact Rs'|]. cbn [fst snd].
    split; [exact Bq|]. rewrite Ropp_involutive. change (direction (fst q) (snd q)) with (place q). rewrite Pq, <- app_mul.
    destruct (mean_rot y) as [[_ [M _]] _]. rewrite M. apply app_ident. reflexivity.
Qed.
Lemma pt_to_any fuel s p y q s' : reachable s -> - (PI / 2) <= snd p <= PI / 2 -> precess_pt fuel s p y 2000 = Ret (q, s') ->
  reachable s' /\ - (PI / 2) <= snd q <= PI / 2 /\ app (mean_equator y) (direction (- fst q) (snd q)) = direction (- fst p) (snd p).
Proof.
  intros Rs D E. unfold precess_pt in E. destruct (Reqb_spec y 2000) as [->|N].
  - injection E as <- <-. rewrite mean_2000, app_ident by reflexivity. auto.
  - destruct (setup_back s y Rs) as (s1 & E1 & Rs1). rewrite E1 in E. cbn [obind] in E. cbv zeta in E.
    destruct (precess_ra_dec fuel (tr (mean_equator y)) (- fst p, snd p) false) as [q'| | |] eqn:Eq; try discriminate. cbn [obind] in E. injection E as <- <-.
    destruct (ra_dec_any _ _ _ _ _ (rot_tr _ (mean_rot y)) Eq) as [Pq Bq]. split; [exact Rs1|]. cbn [fst snd]. split; [exact Bq|]. rewrite Ropp_involutive.
    change (direction (fst q') (snd q')) with (place q'). rewrite Pq, <- app_mul.
    destruct (mean_rot y) as [[_ [M _]] _]. rewrite M. apply app_ident. reflexivity.
Qed.

(** The hour angle: within half a turn. *)
Lemma hour_ok a : let h := OrbModel.c_fmod a (2 * PI) in let h := if Rltb PI h then h - 2 * PI else h in let h := if Rltb h (- PI) then h + 2 * PI else h in
  angle_eq h a /\ - PI <= h <= PI.
Proof.
  cbv zeta. pose proof PI_RGT_0 as P. destruct (fmod_ok a) as [[k E] B]. set (h := OrbModel.c_fmod a (2 * PI)) in *. clearbody h.
  destruct (Rltb_spec PI h).
  - destruct (Rltb_spec (h - 2 * PI) (- PI)); [lra|]. split; [|lra]. exists (k - 1)%Z. rewrite minus_IZR. lra.
  - destruct (Rltb_spec h (- PI)).
    + split; [|lra]. exists (k + 1)%Z. rewrite plus_IZR. lra.
    + split; [|lra]. exists k. exact E.
Qed.

Lemma hour_time nut jd x lon : angle_eq (- x - (green_sidereal_time jd + lon) - cos_obliq_2000 * nut ((jd - J2000) / 36525) * (PI / 180) / 3600)
  (- x - (mean_time jd lon + equinoxes nut jd)).
Proof.
  destruct (sidereal_ok jd) as [k E]. exists (- k)%Z. rewrite opp_IZR, E. unfold mean_time, equinoxes, cos_obliq_2000, J2000, arcsec. field.
Qed.

Lemma full_ok nut fuel s rd loc latlon jd loc' s1 : 
  (match rd with Some p => precess_pt fuel s p 2000 (year_of jd) | None => Ret (loc, s) end) = Ret (loc', s1) ->
  - (PI / 2) <= snd loc' <= PI / 2 -> 1 / 100000 <= cos (snd latlon) ->
  let v := north_east_up (snd latlon) (app (turn 0 1 (- (mean_time jd (fst latlon) + equinoxes nut jd))) (direction (- fst loc') (snd loc'))) in
  -1 < comp v 2 < 1 ->
  exists alt az ha, full_ra_dec_to_alt_az nut fuel s rd loc latlon jd = Ret (az, alt, loc', ha, s1) /\
    from_south az alt = v /\ - (PI / 2) < alt < PI / 2 /\ - PI <= az <= PI /\ - PI <= ha <= PI /\ angle_eq ha (- fst loc' - (mean_time jd (fst latlon) + equinoxes nut jd)).
Proof.
  intros E D L v V. unfold full_ra_dec_to_alt_az. cbv zeta.
  replace (2000 + (jd - J2000) / 36525 * 100) with (year_of jd) by (unfold year_of, J2000; field). rewrite E. cbn [obind].
  pose proof (hour_ok (- fst loc' - (green_sidereal_time jd + fst latlon) - cos_obliq_2000 * nut ((jd - J2000) / 36525) * (PI / 180) / 3600)) as Hh. cbv zeta in Hh.
  match goal with |- context [ra_dec_to_alt_az ?h _ _] => set (ha := h) in * end. destruct Hh as [Ha Bh]. clearbody ha.
  assert (Ha' : angle_eq ha (- fst loc' - (mean_time jd (fst latlon) + equinoxes nut jd))) by exact (angle_trans _ _ _ Ha (hour_time nut jd (fst loc') (fst latlon))).
  assert (Ev : v = north_east_up (snd latlon) (direction ha (snd loc'))). { unfold v. rewrite turn_dir. f_equal. apply direction_angle, angle_sym. exact Ha'. }
  rewrite Ev in *. destruct (forward_ok ha (snd loc') (snd latlon) L D V) as (alt & az & F & Fs & Ba & Bz). rewrite F. cbn [obind].
  exists alt, az, ha. split; [reflexivity|]. repeat split; try tauto; try lra.
Qed.

Lemma back_full s az alt jd latlon : reachable s -> 1 / 100000 <= cos (snd latlon) -> - (3 * PI / 2) <= alt <= 5 * PI / 2 ->
  -1 < pole_part (snd latlon) (from_north az alt) < 1 -> exists enough, forall fuel, (enough <= fuel)%nat ->
  exists p s', full_alt_az_to_ra_dec fuel s (az, alt) jd latlon = Ret (p, s') /\ reachable s' /\ - (PI / 2) <= snd p <= PI / 2 /\
   north_east_up (snd latlon) (app (turn 0 1 (- mean_time jd (fst latlon))) (app (mean_equator (year_of jd)) (direction (- fst p) (snd p)))) = from_north az alt.
Proof.
  intros Rs L A Z. destruct (back_ok alt az (snd latlon) L A Z) as (h & d & E & V & Bd & Bh). unfold full_alt_az_to_ra_dec. cbn [fst snd]. rewrite E. cbn [obind]. cbv zeta.
  replace (2000 + (jd - J2000) / (36525 / 100)) with (year_of jd) by (unfold year_of, J2000; field).
  set (x := OrbModel.c_fmod (- (h + green_sidereal_time jd + fst latlon)) (2 * PI)).
  destruct (pt_to s (x, d) (year_of jd) Rs ltac:(cbn [snd]; lra)) as (N & H). exists N. intros fuel Hf. destruct (H fuel Hf) as (p & s' & Ep & Rs' & Bp & Dp).
  exists p, s'. split; [exact Ep|]. split; [exact Rs'|]. split; [exact Bp|]. rewrite Dp. cbn [fst snd]. rewrite turn_dir, <- V. f_equal. apply direction_angle.
  destruct (fmod_ok (- (h + green_sidereal_time jd + fst latlon))) as [F _]. fold x in F. destruct F as [k F]. destruct (sidereal_ok jd) as [j G].
  exists (j - k)%Z. rewrite minus_IZR, F, G. unfold mean_time. ring.
Qed.
Lemma back_any fuel s az alt jd latlon p s' : reachable s -> 1 / 100000 <= cos (snd latlon) -> - (3 * PI / 2) <= alt <= 5 * PI / 2 ->
  -1 < pole_part (snd latlon) (from_north az alt) < 1 -> full_alt_az_to_ra_dec fuel s (az, alt) jd latlon = Ret (p, s') ->
  reachable s' /\ - (PI / 2) <= snd p <= PI / 2 /\
   north_east_up (snd latlon) (app (turn 0 1 (- mean_time jd (fst latlon))) (app (mean_equator (year_of jd)) (direction (- fst p) (snd p)))) = from_north az alt.
Proof.
  intros Rs L A Z Ep. destruct (back_ok alt az (snd latlon) L A Z) as (h & d & E & V & Bd & Bh). unfold full_alt_az_to_ra_dec in Ep. cbn [fst snd] in Ep. rewrite E in Ep. cbn [obind] in Ep. cbv zeta in Ep.
  replace (2000 + (jd - J2000) / (36525 / 100)) with (year_of jd) in Ep by (unfold year_of, J2000; field).
  set (x := OrbModel.c_fmod (- (h + green_sidereal_time jd + fst latlon)) (2 * PI)) in *.
  destruct (pt_to_any fuel s (x, d) (year_of jd) p s' Rs ltac:(cbn [snd]; lra) Ep) as (Rs' & Bp & Dp).
  split; [exact Rs'|]. split; [exact Bp|]. rewrite Dp. cbn [fst snd]. rewrite turn_dir, <- V. f_equal. apply direction_angle.
  destruct (fmod_ok (- (h + green_sidereal_time jd + fst latlon))) as [F _]. fold x in F. destruct F as [k F]. destruct (sidereal_ok jd) as [j G].
  exists (j - k)%Z. rewrite minus_IZR, F, G. unfold mean_time. ring.
Qed.

(** north_east_up can be undone. *)
Lemma neu_inj lat u v : length u = 3%nat -> length v = 3%nat -> north_east_up lat u = north_east_up lat v -> u = v.
Proof.
  intros Lu Lv E. destruct (len3 u Lu) as (a & b & c & ->). destruct (len3 v Lv) as (a' & b' & c' & ->). unfold north_east_up, comp in E. cbn [nth] in E. injection E as E1 E2 E3.
  pose proof (csq lat) as P. set (C := cos lat) in *. set (S := sin lat) in *. clearbody C S. apply l3; [|exact E2|].
  - replace a with ((C * C + S * S) * a) by (rewrite P; ring). replace a' with ((C * C + S * S) * a') by (rewrite P; ring).
    replace ((C * C + S * S) * a) with (C * (S * c + C * a) - S * (C * c - S * a)) by ring. rewrite E1, E3. ring.
  - replace c with ((C * C + S * S) * c) by (rewrite P; ring). replace c' with ((C * C + S * S) * c') by (rewrite P; ring).
    replace ((C * C + S * S) * c) with (S * (S * c + C * a) + C * (C * c - S * a)) by ring. rewrite E1, E3. ring.
Qed.
Lemma rot_inj m u v : rotation m -> length u = 3%nat -> length v = 3%nat -> app m u = app m v -> u = v.
Proof.
  intros [[_ [_ M]] _] Lu Lv E. apply (f_equal (app (tr m))) in E. rewrite <- !app_mul, M, !app_ident in E by assumption. exact E.
Qed.
Lemma south_north az alt : from_north (az + PI) alt = from_south az alt.
Proof. unfold from_north, from_south. rewrite neg_cos, neg_sin. apply l3; ring. Qed.

Lemma pole_neu lat d : pole_part lat (north_east_up lat d) = comp d 2.
Proof. unfold pole_part, north_east_up, comp. cbn [nth]. pose proof (csq lat) as P. set (c := cos lat) in *. set (s := sin lat) in *. clearbody c s. nsatz. Qed.

(** What a result of full_ra_dec_to_alt_az( ) says. *)
Lemma forward_any nut fuel s p junk_loc latlon jd az alt loc ha s1 : reachable s -> - (PI / 2) <= snd p <= PI / 2 -> 1 / 100000 <= cos (snd latlon) ->
  let v := seen (mean_time jd (fst latlon) + equinoxes nut jd) (snd latlon) (app (mean_equator (year_of jd)) (direction (- fst p) (snd p))) in
  -1 < comp v 2 < 1 ->
  full_ra_dec_to_alt_az nut fuel s (Some p) junk_loc latlon jd = Ret (az, alt, loc, ha, s1) ->
  reachable s1 /\ from_south az alt = v /\ - (PI / 2) < alt < PI / 2 /\ - PI <= az <= PI.
Proof.
  intros Rs D L v V F. destruct (precess_pt fuel s p 2000 (year_of jd)) as [[q s']| | |] eqn:E.
  2-4: exfalso; unfold full_ra_dec_to_alt_az in F; cbv zeta in F; replace (2000 + (jd - J2000) / 36525 * 100) with (year_of jd) in F by (unfold year_of, J2000; field); rewrite E in F; discriminate.
  destruct (pt_from_any _ _ _ _ _ _ Rs D E) as (Rs' & Bq & Dq).
  destruct (full_ok nut fuel s (Some p) junk_loc latlon jd q s' E Bq L) as (alt' & az' & ha' & F' & A). { rewrite Dq. exact V. }
  rewrite F in F'. injection F' as -> -> -> -> ->. rewrite Dq in A. fold v in A. tauto.
Qed.

(** The loops of precess_ra_dec( ) keep near the old value. *)
Lemma lower_bound f : forall ra old r, lower_ra f ra old = Ret r -> r - old <= PI.
Proof.
  induction f as [|f IH]; intros ra old r E; cbn [lower_ra] in E; destruct (Rltb_spec PI (ra - old)); try discriminate; try (injection E as <-; lra).
  exact (IH _ _ _ E).
Qed.
Lemma raise_bound f : forall ra old r, raise_ra f ra old = Ret r -> ra - old <= PI -> r - old <= PI.
Proof.
  induction f as [|f IH]; intros ra old r E H; cbn [raise_ra] in E; destruct (Rltb_spec (ra - old) (- PI)); try discriminate; try (injection E as <-; lra).
  pose proof PI_RGT_0. apply (IH _ _ _ E). lra.
Qed.

Lemma turn_comp a v : comp (app (turn 0 1 a) v) 2 = comp v 2.
Proof. unfold app, vec, turn, mat, cell, comp. cbn. ring. Qed.
