(** Theorems of C61 with their proofs; PropMpco.v states them again. *)
From Coq Require Import QArith Qreals Reals String Lia Lra.
From Verif Require Import CBase CStr RBase TstrSpec TstrNum DtSpec DateModel DateVocab DateSpec CtimeSpec TrigBase OrbModel OrbSpec OrbThms EopSpec MpcoModel MpcoSpec MpcoSays MpcoProofs MpcoLine.
From Verif Require SofDate.
Import ListNotations.
Local Open Scope string_scope.
Local Open Scope list_scope.
Local Open Scope Z_scope.

Lemma says_ok o jd w0 : usable o -> let ep := (inject_Z jd - (1 # 2))%Q in
  exists d, do_remaining_element_setup ep (anomaly o) (peri o) (node o) (inclination o) (eccentricity o) (axis o) w0 = Ret d /\
    says o jd (mk_asteroid ep (mag (H_mag o)) (mag (G_slope o)) d) /\ (exists el, derive_quantities el SOLAR_GM = Ret d /\
      q_ el = q_ d /\ ecc_ el = ecc_ d /\ incl el = incl d /\ asc_node el = asc_node d /\ arg_per el = arg_per d /\ perih_time el = perih_time d).
Proof.
  intros (Ha & He & Hi & HM) ep. destruct (setup_ok ep (anomaly o) (peri o) (node o) (inclination o) (eccentricity o) (axis o) w0 Ha He Hi HM)
    as (d & D & (el & EL & Eq & Ee & Ei & EW & Ew & Et) & Dq & Da & De & Di & Dw & DW & DM & _ & S1 & S2).
  exists d. split; [exact D|]. split.
  - unfold says. cbn [epoch abs_mag slope_param orbit]. repeat (split; [reflexivity || assumption|]).
    destruct (derive_ok el SOLAR_GM) as (d' & D' & _ & _ & _ & P1 & P2 & _).
    + rewrite Eq, Dq. apply Rmult_lt_0_compat; lra.
    + rewrite Ee, De. lra.
    + apply sun_pos.
    + now rewrite Ei, Di.
    + rewrite EL in D'. injection D' as <-. rewrite P1, P2, Ei, EW, Ew. repeat (split; [reflexivity|]). split; [exact S1|exact S2].
  - exists el. repeat (split; [assumption|]). assumption.
Qed.
(** A number with a point in a field. *)
Lemma point_field w i a b v : forallb isdigit (a ++ b) = true -> a ++ b <> [] -> dig_val 0 (a ++ b) = v -> (i + (List.length a + S (List.length b)) = w)%nat ->
  field w (repeat 32 i ++ a ++ 46 :: b) (v # Z.to_pos (10 ^ Z.of_nat (List.length b))).
Proof.
  intros D N V W. exists i, (a ++ 46 :: b). split; [reflexivity|]. split.
  - left. right. exists a, b, v. rewrite forallb_forall in D. repeat (split; [assumption || reflexivity|]). reflexivity.
  - rewrite !app_length, repeat_length. exact W.
Qed.

Lemma C61_mpcorb_proof :
forall f, counts_days gregorian (1, 1, 2000) 2451545 f -> forall L o t w0, long_ok L -> mpcorb_line o t -> usable o ->
  0 <= e_year o < 6200 -> valid gregorian (e_day o, e_month o, e_year o) ->
  exists a, extract_mpcorb_dat L (Some w0) t = Ret (f (e_day o, e_month o, e_year o), Some a) /\ says o (f (e_day o, e_month o, e_year o)) a.
Proof.
  intros f Hf L o t w0 HL Ht Hu Hy Hv. destruct (mpcorb_reads L o t f Ht Hf HL Hy Hv) as (_ & R). rewrite R.
  destruct (says_ok o (f (e_day o, e_month o, e_year o)) w0 Hu) as (d & D & S & _). cbv zeta in D. rewrite D. cbn [obind]. eexists. split; [reflexivity|exact S].
Qed.

Lemma C61_check_proof :
forall f, counts_days gregorian (1, 1, 2000) 2451545 f -> forall L o t, long_ok L -> mpcorb_line o t ->
  0 <= e_year o < 6200 -> valid gregorian (e_day o, e_month o, e_year o) ->
  extract_mpcorb_dat L None t = Ret (f (e_day o, e_month o, e_year o), None).
Proof.
  intros f Hf L o t HL Ht Hy Hv. apply (mpcorb_reads L o t f Ht Hf HL Hy Hv).
Qed.

Lemma C61_astorb_proof :
forall f, counts_days gregorian (1, 1, 2000) 2451545 f -> forall L o t w0, long_ok L -> astorb_line o t -> usable o ->
  0 <= e_year o < 10000 -> valid gregorian (e_day o, e_month o, e_year o) ->
  extract_astorb_dat L None t = Ret (f (e_day o, e_month o, e_year o), None) /\
  exists a, extract_astorb_dat L (Some w0) t = Ret (f (e_day o, e_month o, e_year o), Some a) /\ says o (f (e_day o, e_month o, e_year o)) a.
Proof.
  intros f Hf L o t w0 HL Ht Hu Hy Hv. pose proof (astorb_reads L 48 o t f Ht Hf HL Hy Hv) as R. rewrite !R.
  destruct (says_ok o (f (e_day o, e_month o, e_year o)) w0 Hu) as (d & D & S & _). destruct (says_ok o (f (e_day o, e_month o, e_year o)) 0%R Hu) as (d' & D' & _ & _). cbv zeta in D, D'. rewrite D, D'. cbn [obind].
  split; [reflexivity|]. eexists. split; [reflexivity|exact S].
Qed.

Lemma C61_place_proof :
forall f, counts_days gregorian (1, 1, 2000) 2451545 f -> forall L o line w0 a t, long_ok L -> usable o -> (Q2R (eccentricity o) < 9 / 10)%R ->
  valid gregorian (e_day o, e_month o, e_year o) ->
  (mpcorb_line o line /\ 0 <= e_year o < 6200 /\ extract_mpcorb_dat L (Some w0) line = Ret (f (e_day o, e_month o, e_year o), Some a) \/
   astorb_line o line /\ 0 <= e_year o < 10000 /\ extract_astorb_dat L (Some w0) line = Ret (f (e_day o, e_month o, e_year o), Some a)) ->
  let ax := Q2R (axis o) in let e := Q2R (eccentricity o) in let q := (ax * (1 - e))%R in
  let jd0 := (IZR (f (e_day o, e_month o, e_year o)) - 1 / 2)%R in
  let M := (rad (anomaly o) + daily_motion ax * (t - jd0))%R in
  let p := to_perihelion (rad (node o)) (rad (inclination o)) (rad (peri o)) in
  let s := to_quarter (rad (node o)) (rad (inclination o)) (rad (peri o)) in
  let w := to_pole (rad (node o)) (rad (inclination o)) (rad (peri o)) in
  (forall k, M <> (PI * (2 * IZR k + 1))%R) ->
  exists E v n k, (Rabs (E - e * sin E - (M + 2 * PI * IZR k)) <= 1 / 10 ^ 24)%R /\
    let loc := at_point p s (ellipse q e E) in
    on_orbit sun q e p w loc v /\
    forall fuel, (n <= fuel)%nat -> comet_posn_and_vel fuel (orbit a) t = Ret (loc, length_of loc, Some v).
Proof.
  intros f Hf L o line w0 a t HL Hu He9 Hv Hl ax e q jd0 M p s w HM. assert (HU := Hu). destruct HU as (Ha & He & Hi & HA). fold ax in Ha. fold e in He, He9.
  destruct (says_ok o (f (e_day o, e_month o, e_year o)) w0 Hu) as (d & D & S & (el & EL & Eq & Ee & Ei & EW & Ew & Et)).
  assert (X : a = mk_asteroid (inject_Z (f (e_day o, e_month o, e_year o)) - (1 # 2)) (mag (H_mag o)) (mag (G_slope o)) d).
  { destruct Hl as [(Ht & Hy & R)|(Ht & Hy & R)].
    - rewrite (proj2 (mpcorb_reads L o line f Ht Hf HL Hy Hv)) in R. rewrite D in R. cbn [obind] in R. now injection R as <-.
    - rewrite (astorb_reads L 48 o line f Ht Hf HL Hy Hv) in R. rewrite D in R. cbn [obind] in R. now injection R as <-. }
  subst a. cbn [orbit]. destruct S as (_ & _ & _ & De & Da & Dq & Di & Dw & DW & _ & _ & _ & (k & K) & _). cbn [epoch orbit] in De, Da, Dq, Di, Dw, DW, K. fold ax e q in De, Da, Dq. fold ax in K.
  assert (Q0 : (0 < q)%R) by (unfold q; apply Rmult_lt_0_compat; lra).
  pose proof (C53_ellipse_proof el SOLAR_GM d t) as C. rewrite Eq, Ee, Ei, EW, Ew, Et, Dq, De, Di, Dw, DW in C. specialize (C Q0 ltac:(lra) sun_pos Hi EL). cbv zeta in C.
  replace (q / (1 - e))%R with ax in C by (unfold q; field; lra). change (sqrt (SOLAR_GM / (ax * ax * ax))) with (daily_motion ax) in C. fold p s w in C.
  assert (MT : (daily_motion ax * (t - perih_time d) = M + 2 * PI * IZR k)%R).
  { unfold M, jd0. replace (IZR (f (e_day o, e_month o, e_year o)) - 1 / 2)%R with (Q2R (inject_Z (f (e_day o, e_month o, e_year o)) - (1 # 2))).
    - lra.
    - rewrite Q2R_minus. unfold Q2R, inject_Z. cbn. lra. }
  rewrite MT in C. destruct C as (E & v & n & C1 & C2 & C3).
  - intros j _ H. apply (HM (- j - 1 - k)%Z). rewrite !minus_IZR, opp_IZR. lra.
  - exists E, v, n, k. split; [exact C1|]. split; [exact C2|exact C3].
Qed.

Lemma C61_refused_proof :
forall L elem t,
  ((List.length t <= 200)%nat \/ nth 25 t 0 <> 32 \/ nth 29 t 0 <> 46 \/ nth 36 t 0 <> 32 \/ nth 47 t 0 <> 32 \/ nth 82 t 0 <> 46 -> extract_mpcorb_dat L elem t = Ret (0, None)) /\
  ((List.length t <= 267)%nat -> extract_astorb_dat L elem t = Ret (0, None)).
Proof.
  intros L elem t. split.
  - intro H. unfold extract_mpcorb_dat. cbv zeta. match goal with |- (if ?b then _ else _) = _ => replace b with false; [reflexivity|] end. symmetry.
    destruct (Nat.ltb_spec 200 (List.length t)); [|reflexivity].
    destruct (Z.eqb_spec (nth 47 t 0) 32); [|reflexivity]. destruct (Z.eqb_spec (nth 82 t 0) 46); [|reflexivity]. destruct (Z.eqb_spec (nth 25 t 0) 32); [|reflexivity].
    destruct (Z.eqb_spec (nth 29 t 0) 46); [|reflexivity]. destruct (Z.eqb_spec (nth 36 t 0) 32); [|reflexivity]. cbn [andb]. lia.
  - intro H. unfold extract_astorb_dat. cbv zeta. destruct (Nat.ltb_spec 267 (List.length t)); [lia|]. reflexivity.
Qed.

Lemma C61_hyperbola_refuted_proof :
forall f, counts_days gregorian (1, 1, 2000) 2451545 f -> forall L c o t w0, long_ok L -> astorb_line_from c o t -> usable o ->
  0 <= e_year o < 10000 -> valid gregorian (e_day o, e_month o, e_year o) ->
  exists a, extract_astorb_dat L (Some w0) t = Ret (f (e_day o, e_month o, e_year o), Some a) /\ ecc_ (orbit a) = Q2R (eccentricity o) /\ (Q2R (eccentricity o) < 1)%R.
Proof.
  intros f Hf L c o t w0 HL Ht Hu Hy Hv. rewrite (astorb_reads L c o t f Ht Hf HL Hy Hv).
  destruct (says_ok o (f (e_day o, e_month o, e_year o)) w0 Hu) as (d & D & S & _). cbv zeta in D. rewrite D. cbn [obind]. eexists. split; [reflexivity|]. split; [apply S|apply Hu].
Qed.

Lemma C61_month_refuted_proof :
forall L elem t y m d r, long_ok L -> 0 <= y < 6200 -> 15 <= m < 62 -> 0 <= d < 62 -> (200 < List.length t)%nat ->
  nth 25 t 0 = 32 -> nth 29 t 0 = 46 -> nth 36 t 0 = 32 -> nth 47 t 0 = 32 -> nth 82 t 0 = 46 -> skipn 20 t = packed_date y m d ++ r ->
  extract_mpcorb_dat L elem t = UB.
Proof.
  intros L elem t y m d r HL Hy Hm Hd Hlen H25 H29 H36 H47 H82 HS. unfold extract_mpcorb_dat. cbv zeta. rewrite (proj2 (Nat.ltb_lt _ _) Hlen), H25, H29, H36, H47, H82, HS. cbn [andb Z.eqb Pos.eqb].
  rewrite epoch_packed by lia. rewrite SofDate.dmy_over; [reflexivity|exact HL|unfold year_ok, long_ok in *; lia|lia|lia].
Qed.

Lemma C61_past_end_refuted_proof :
forall L t n, (forall c, In c (skipn n t) -> c <> 32) -> extract_long L (skipn n t) = UB.
Proof.
  intros L t n. generalize (skipn n t). clear. intros u H. unfold extract_long.
  assert (K : skip_blanks u = u) by (destruct u as [|c u]; [reflexivity|]; cbn; destruct (Z.eqb_spec c 32) as [->|_]; [now specialize (H 32 (or_introl eq_refl))|reflexivity]). rewrite K. clear K.
  generalize 0. induction u as [|c u IH]; intro v; [reflexivity|]. cbn [extract_loop]. destruct (Z.eqb_spec c 32) as [->|_]; [now specialize (H 32 (or_introl eq_refl))|].
  assert (Hu : forall x, In x u -> x <> 32) by (intros x Hx; apply H; now right). destruct (c =? 46); [now apply IH|].
  match goal with |- obind ?x _ = _ => destruct (SofDate.ev_cases L (v * 10%Z + (SofModel.schar c - 48)%Z)%cx) as [[y ->]| ->]; cbn [obind]; [now apply IH|reflexivity] end.
Qed.
