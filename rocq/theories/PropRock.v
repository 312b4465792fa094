(** Property C67 (positions of small moons; rocks.cpp: evaluate_rock).

    [rocks] is the table of the code; [moons], [orbit_point], [with_centre] and the other words about orbits are those of [RockSpec]. *)
From Coq Require Import Lra Lia QArith Qreals.
From Verif Require Import TrigBase RockModel RockSpec RockThms.
Local Open Scope R_scope.

(** The function knows exactly the 36 moons; for any other number it says so and leaves the vector alone. *)
Theorem C67_which :
forall jde id out,
  (In id moons -> fst (evaluate_rock jde id out) = 0%Z) /\ (~ In id moons -> evaluate_rock jde id out = ((-1)%Z, out)).
Proof. exact C67_which_proof. Qed.
Print Assumptions C67_which.

Example C67_which_case : In 401%Z moons /\ ~ In 503%Z moons.
Proof. split; [now left|cbn; lia]. Qed.

(** For every moon of the table, h and k are e sin and e cos of the longitude of an apsis, with an eccentricity below 1/50, and p and q are tan(i/2) times the sine and the cosine of the longitude of a node, with an inclination of less than half a radian. *)
Theorem C67_elements :
forall rk, In rk rocks ->
  exists e peri0 i node0, 0 <= e < 1 / 50 /\ 0 <= i < 1 / 2 /\
    e * sin peri0 = Q2R (el_h rk) /\ e * cos peri0 = Q2R (el_k rk) /\ tan (i / 2) * sin node0 = Q2R (el_p rk) /\ tan (i / 2) * cos node0 = Q2R (el_q rk).
Proof. exact C67_elements_proof. Qed.
Print Assumptions C67_elements.

Example C67_elements_case : exists rk, In rk rocks /\ jpl_id rk = 401%Z.
Proof. eexists. split; [left; reflexivity|reflexivity]. Qed.

(** With these elements, whichever way they are chosen, the position at any time, near or far from the epoch, is the point of the precessing ellipse: apsis, node and mean longitude move uniformly, the true longitude follows from the mean one by two terms of the equation of the centre. *)
Theorem C67_ellipse :
forall rk, In rk rocks ->
  forall e peri0 i node0, 0 <= e -> 0 <= i < PI ->
    e * sin peri0 = Q2R (el_h rk) -> e * cos peri0 = Q2R (el_k rk) -> tan (i / 2) * sin node0 = Q2R (el_p rk) -> tan (i / 2) * cos node0 = Q2R (el_q rk) ->
  forall jde out,
    let t := (jde - Q2R (epoch_jd rk)) * 86400 in
    let degrees x := Q2R x * PI / 180 in
    let peri := peri0 + t * degrees (apsis_rate rk) in
    let node := node0 + t * degrees (node_rate rk) in
    let mean := degrees (mean_lon0 rk) + t * degrees (mean_motion rk) in
  evaluate_rock jde (jpl_id rk) out =
    (0%Z, orbit_point (degrees (pole_ra rk)) (degrees (pole_dec rk)) (Q2R (semi_a rk)) e i node peri (with_centre e peri mean)).
Proof. exact C67_ellipse_proof. Qed.
Print Assumptions C67_ellipse.

Example C67_ellipse_case : exists rk, In rk rocks /\ jpl_id rk = 615%Z /\ 0 * sin 0 = Q2R (el_h rk) /\ 0 * cos 0 = Q2R (el_k rk) /\ tan (0 / 2) * sin 0 = Q2R (el_p rk) /\ tan (0 / 2) * cos 0 = Q2R (el_q rk).
Proof. eexists. split; [do 11 right; left; reflexivity|]. cbn [jpl_id el_h el_k el_p el_q]. replace (0 / 2) with 0 by field. rewrite tan_0. unfold Q2R; cbn. repeat split; lra. Qed.

(** The two terms of the equation of the centre are enough: for eccentricities below 1/50, as all moons have, the longitude they give is within 5 e^3 of the one of Kepler's motion, at every time. *)
Theorem C67_kepler :
forall e peri mean, 0 <= e < 1 / 50 -> exists ea nu, kepler e (mean - peri) ea nu /\ Rabs (with_centre e peri mean - (peri + nu)) <= 5 * e ^ 3.
Proof. exact C67_kepler_proof. Qed.
Print Assumptions C67_kepler.

Example C67_kepler_case : kepler 0 1 1 1 /\ with_centre 0 2 3 = 3.
Proof. split; [|unfold with_centre; ring]. unfold kepler. replace (1 - 0 * 0) with 1 by ring. rewrite sqrt_1. replace (1 - 1) with 0 by ring. rewrite Rabs_R0. pose proof PI_RGT_0. repeat split; lra. Qed.

(** So the position of every moon is, at every time, within 6 a e^3, and within 8 km, of the point where a moon that moves on that ellipse by the laws of Kepler would be. *)
Theorem C67_error :
forall rk, In rk rocks ->
  forall e peri0 i node0, 0 <= e -> 0 <= i < PI ->
    e * sin peri0 = Q2R (el_h rk) -> e * cos peri0 = Q2R (el_k rk) -> tan (i / 2) * sin node0 = Q2R (el_p rk) -> tan (i / 2) * cos node0 = Q2R (el_q rk) ->
  forall jde out,
    let t := (jde - Q2R (epoch_jd rk)) * 86400 in
    let degrees x := Q2R x * PI / 180 in
    let peri := peri0 + t * degrees (apsis_rate rk) in
    let node := node0 + t * degrees (node_rate rk) in
    let mean := degrees (mean_lon0 rk) + t * degrees (mean_motion rk) in
    let a := Q2R (semi_a rk) in
  exists pos ea nu, evaluate_rock jde (jpl_id rk) out = (0%Z, pos) /\ kepler e (mean - peri) ea nu /\
    let off := size (add pos (times (-1) (orbit_point (degrees (pole_ra rk)) (degrees (pole_dec rk)) a e i node peri (peri + nu)))) in
    off <= 6 * a * e ^ 3 /\ off <= 8.
Proof. exact C67_error_proof. Qed.
Print Assumptions C67_error.

Example C67_error_case : exists rk e peri0 i node0, In rk rocks /\ jpl_id rk = 514%Z /\ 1 / 60 < e /\ 0 <= i < PI /\
  e * sin peri0 = Q2R (el_h rk) /\ e * cos peri0 = Q2R (el_k rk) /\ tan (i / 2) * sin node0 = Q2R (el_p rk) /\ tan (i / 2) * cos node0 = Q2R (el_q rk).
Proof.
  assert (X : exists rk, In rk rocks /\ jpl_id rk = 514%Z /\ Q2R (el_h rk) < - (1 / 60)). { eexists. split; [do 3 right; left; reflexivity|]. split; [reflexivity|]. replace (- (1 / 60)) with (Q2R (-1 # 60)) by (unfold Q2R; cbn; lra). apply Qlt_Rlt. reflexivity. }
  destruct X as (rk & R & J & L). destruct (C67_elements rk R) as (e & peri0 & i & node0 & E & I & H1 & H2 & H3 & H4). exists rk, e, peri0, i, node0.
  split; [assumption|]. split; [assumption|]. split. { rewrite <- H1 in L. pose proof (SIN_bound peri0). nra. } split; [pose proof PI2_1; unfold PI2 in *; lra|]. auto.
Qed.

(** The moon is never nearer to its planet than a (1 - e) nor farther than a (1 + e), at any time; e does not change with time. *)
Theorem C67_distance :
forall rk, In rk rocks ->
  let a := Q2R (semi_a rk) in let e := sqrt (Q2R (el_h rk) ^ 2 + Q2R (el_k rk) ^ 2) in
  0 < a /\ 0 <= e < 1 / 50 /\
  forall jde out, exists pos, evaluate_rock jde (jpl_id rk) out = (0%Z, pos) /\ a * (1 - e) <= size pos <= a * (1 + e).
Proof. exact C67_distance_proof. Qed.
Print Assumptions C67_distance.

Example C67_distance_case : exists rk, In rk rocks /\ jpl_id rk = 801%Z /\ (semi_a rk == 354759146 # 1000)%Q.
Proof. eexists. split; [do 29 right; left; reflexivity|]. split; reflexivity. Qed.

(** The moon is always in a plane that keeps its inclination to the plane given by the pole of the table, and turns about that pole at the rate of the node; so it is never farther from that plane than its distance times the sine of the inclination. *)
Theorem C67_plane :
forall rk, In rk rocks -> exists i node0, 0 <= i < 1 / 2 /\ tan (i / 2) = sqrt (Q2R (el_p rk) ^ 2 + Q2R (el_q rk) ^ 2) /\
  forall jde out, exists pos, evaluate_rock jde (jpl_id rk) out = (0%Z, pos) /\
    let t := (jde - Q2R (epoch_jd rk)) * 86400 in
    let degrees x := Q2R x * PI / 180 in
    dot pos (orbit_pole (degrees (pole_ra rk)) (degrees (pole_dec rk)) i (node0 + t * degrees (node_rate rk))) = 0 /\
    Rabs (dot pos (direction (degrees (pole_ra rk)) (degrees (pole_dec rk)))) <= size pos * sin i.
Proof. exact C67_plane_proof. Qed.
Print Assumptions C67_plane.

Example C67_plane_case : direction 0 (PI / 2) = (0, 0, 1) /\ orbit_pole 0 (PI / 2) 0 0 = (0, 0, 1).
Proof. unfold orbit_pole, in_plane, rising, direction, add, times, cross. rewrite ?cos_0, ?sin_0, ?cos_PI2, ?sin_PI2. split; f_equal; [f_equal|f_equal|]; ring. Qed.

(** Any two moons of the same planet other than Perdita obey the third law of Kepler (the square of the mean motion times the cube of the semi-major axis is the same) within 0.6 percent. *)
Theorem C67_third_law :
forall x y, In x rocks -> In y rocks -> (jpl_id x / 100 = jpl_id y / 100)%Z -> jpl_id x <> 725%Z -> jpl_id y <> 725%Z ->
  (mean_motion x ^ 2 * semi_a x ^ 3 <= (1006 # 1000) * (mean_motion y ^ 2 * semi_a y ^ 3))%Q.
Proof. exact C67_third_law_proof. Qed.
Print Assumptions C67_third_law.

Example C67_third_law_case : exists x y, In x rocks /\ In y rocks /\ jpl_id x = 505%Z /\ jpl_id y = 516%Z.
Proof. eexists. eexists. split; [do 2 right; left; reflexivity|]. split; [do 5 right; left; reflexivity|]. split; reflexivity. Qed.

(** Not so Perdita (725): its semi-major axis and mean motion disagree by at least 2.8 percent with those of every other moon of Uranus in the table, so one of them is wrong. *)
Theorem C67_third_law_refuted :
forall x y, In x rocks -> In y rocks -> jpl_id x = 725%Z -> (jpl_id y / 100 = 7)%Z -> jpl_id y <> 725%Z ->
  ((1028 # 1000) * (mean_motion y ^ 2 * semi_a y ^ 3) <= mean_motion x ^ 2 * semi_a x ^ 3)%Q.
Proof. exact C67_third_law_refuted_proof. Qed.
Print Assumptions C67_third_law_refuted.

Example C67_third_law_refuted_case : exists x y, In x rocks /\ In y rocks /\ jpl_id x = 725%Z /\ (semi_a x == 77247.73127464541)%Q /\ jpl_id y = 706%Z.
Proof. eexists. eexists. split; [do 26 right; left; reflexivity|]. split; [do 16 right; left; reflexivity|]. split; [reflexivity|]. split; reflexivity. Qed.
