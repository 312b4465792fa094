(** Theorems of C67 with their proofs; PropRock.v states them again. *)
From Coq Require Import Lra Lia QArith Qreals.
From Verif Require Import TrigBase RockModel RockSpec RockProofs RockCentre.
Local Open Scope R_scope.

Lemma radius a e c : 1 <= a -> 0 <= e < 1 -> -1 <= c <= 1 -> 0 <= a * (1 - e) /\ a * (1 - e) <= a * (1 - e * e) / (1 + e * c) <= a * (1 + e).
Proof.
  intros A E C. assert (D : 0 < 1 + e * c) by nra. split; [nra|]. assert (M : a * (1 - e * e) / (1 + e * c) * (1 + e * c) = a * (1 - e * e)) by (field; lra).
  split; apply (Rmult_le_reg_r (1 + e * c)); try assumption; rewrite M.
  - assert (0 <= a * (1 - e) * (e * (1 - c))); [|nra]. apply Rmult_le_pos; [nra|]. apply Rmult_le_pos; lra.
  - assert (0 <= a * (1 + e) * (e * (1 + c))); [|nra]. apply Rmult_le_pos; [nra|]. apply Rmult_le_pos; lra.
Qed.
Definition third_law_ok (x y : rock) : bool := (negb (Z.eqb (jpl_id x / 100) (jpl_id y / 100)) || Z.eqb (jpl_id x) 725 || Z.eqb (jpl_id y) 725 ||
  Qle_bool (1000 * (mean_motion x ^ 2 * semi_a x ^ 3)) (1006 * (mean_motion y ^ 2 * semi_a y ^ 3)))%bool.
Lemma third_law_all : forallb (fun x => forallb (third_law_ok x) rocks) rocks = true. Proof. vm_compute. reflexivity. Qed.
Definition perdita_off (x y : rock) : bool := (negb (Z.eqb (jpl_id x) 725) || Z.eqb (jpl_id y) 725 || negb (Z.eqb (jpl_id y / 100) 7) ||
  Qle_bool (1028 * (mean_motion y ^ 2 * semi_a y ^ 3)) (1000 * (mean_motion x ^ 2 * semi_a x ^ 3)))%bool.
Lemma perdita_all : forallb (fun x => forallb (perdita_off x) rocks) rocks = true. Proof. vm_compute. reflexivity. Qed.

Lemma C67_which_proof :
forall jde id out,
  (In id moons -> fst (evaluate_rock jde id out) = 0%Z) /\ (~ In id moons -> evaluate_rock jde id out = ((-1)%Z, out)).
Proof.
  intros jde id out. rewrite <- ids. split; intro H.
  - apply in_map_iff in H. destruct H as (rk & <- & I). now rewrite evaluate_in.
  - now apply search_out.
Qed.

Lemma C67_elements_proof :
forall rk, In rk rocks ->
  exists e peri0 i node0, 0 <= e < 1 / 50 /\ 0 <= i < 1 / 2 /\
    e * sin peri0 = Q2R (el_h rk) /\ e * cos peri0 = Q2R (el_k rk) /\ tan (i / 2) * sin node0 = Q2R (el_p rk) /\ tan (i / 2) * cos node0 = Q2R (el_q rk).
Proof.
  exact elements_exist.
Qed.

Lemma C67_ellipse_proof :
forall rk, In rk rocks ->
  forall e peri0 i node0, 0 <= e -> 0 <= i < PI ->
    e * sin peri0 = Q2R (el_h rk) -> e * cos peri0 = Q2R (el_k rk) -> tan (i / 2) * sin node0 = Q2R (el_p rk) -> tan (i / 2) * cos node0 = Q2R (el_q rk) ->
  forall jde out,
    let t := (jde - Q2R (epoch_jd rk)) * 86400 in
    let degrees x := Q2R x * PI / 180 in
    let peri := peri0 + t * degrees (apsis_rate rk) in
    let node := node0 + t * degrees (node_rate rk) in
    let mean := degrees (mean_lon0 rk) + t * degrees (mean_motion rk) in
  evaluate_rock jde (jpl_id rk) out =
    (0%Z, orbit_point (degrees (pole_ra rk)) (degrees (pole_dec rk)) (Q2R (semi_a rk)) e i node peri (with_centre e peri mean)).
Proof.
  intros rk R e peri0 i node0 E I H1 H2 H3 H4 jde out. cbv zeta. rewrite evaluate_in by assumption. now rewrite (position_ellipse rk e peri0 i node0 jde E I H1 H2 H3 H4).
Qed.

Lemma C67_kepler_proof :
forall e peri mean, 0 <= e < 1 / 50 -> exists ea nu, kepler e (mean - peri) ea nu /\ Rabs (with_centre e peri mean - (peri + nu)) <= 5 * e ^ 3.
Proof.
  exact centre_near.
Qed.

Lemma C67_error_proof :
forall rk, In rk rocks ->
  forall e peri0 i node0, 0 <= e -> 0 <= i < PI ->
    e * sin peri0 = Q2R (el_h rk) -> e * cos peri0 = Q2R (el_k rk) -> tan (i / 2) * sin node0 = Q2R (el_p rk) -> tan (i / 2) * cos node0 = Q2R (el_q rk) ->
  forall jde out,
    let t := (jde - Q2R (epoch_jd rk)) * 86400 in
    let degrees x := Q2R x * PI / 180 in
    let peri := peri0 + t * degrees (apsis_rate rk) in
    let node := node0 + t * degrees (node_rate rk) in
    let mean := degrees (mean_lon0 rk) + t * degrees (mean_motion rk) in
    let a := Q2R (semi_a rk) in
  exists pos ea nu, evaluate_rock jde (jpl_id rk) out = (0%Z, pos) /\ kepler e (mean - peri) ea nu /\
    let off := size (add pos (times (-1) (orbit_point (degrees (pole_ra rk)) (degrees (pole_dec rk)) a e i node peri (peri + nu)))) in
    off <= 6 * a * e ^ 3 /\ off <= 8.
Proof.
  intros rk R e peri0 i node0 E I H1 H2 H3 H4 jde out. cbv zeta. destruct (fine_in rk R) as (A & F & _).
  assert (S : e * e = Q2R (el_h rk) * Q2R (el_h rk) + Q2R (el_k rk) * Q2R (el_k rk)). { rewrite <- H1, <- H2. pose proof (sin2_cos2 peri0) as P. unfold Rsqr in P. transitivity (e * e * (sin peri0 * sin peri0 + cos peri0 * cos peri0)); [rewrite P; ring|ring]. }
  assert (E50 : 0 <= e < 1 / 50) by (split; [assumption|]; rewrite <- S in F; nra).
  pose proof (error_small rk e R E S) as B. exists (position rk jde). rewrite (position_ellipse rk e peri0 i node0 jde) by assumption. cbv zeta.
  set (peri := peri0 + _). set (mean := rad (mean_lon0 rk) + _). destruct (centre_near e peri mean E50) as (ea & nu & K & N). exists ea, nu.
  split; [rewrite (evaluate_in rk jde out R), (position_ellipse rk e peri0 i node0 jde) by assumption; reflexivity|]. split; [exact K|].
  match goal with |- ?u <= _ /\ _ => assert (Z : u <= 6 * Q2R (semi_a rk) * e ^ 3) end.
  { eapply Rle_trans; [apply (points_near _ _ _ e i _ peri _ _ (5 * e ^ 3)); [lra|assumption|exact N]|]. right. field. }
  split; [exact Z|lra].
Qed.

Lemma C67_distance_proof :
forall rk, In rk rocks ->
  let a := Q2R (semi_a rk) in let e := sqrt (Q2R (el_h rk) ^ 2 + Q2R (el_k rk) ^ 2) in
  0 < a /\ 0 <= e < 1 / 50 /\
  forall jde out, exists pos, evaluate_rock jde (jpl_id rk) out = (0%Z, pos) /\ a * (1 - e) <= size pos <= a * (1 + e).
Proof.
  intros rk R. cbv zeta. destruct (elements_exist rk R) as (e & peri0 & i & node0 & E & I & H1 & H2 & H3 & H4). destruct (fine_in rk R) as (A & _ & _).
  assert (EE : sqrt (Q2R (el_h rk) ^ 2 + Q2R (el_k rk) ^ 2) = e). { rewrite <- H1, <- H2, <- !Rsqr_pow2. unfold Rsqr. apply size_of. lra. }
  rewrite EE. split; [lra|]. split; [assumption|]. intros jde out. exists (position rk jde). split; [now apply evaluate_in|].
  rewrite (position_ellipse rk e peri0 i node0 jde) by (try assumption; pose proof PI2_1; unfold PI2 in *; lra). unfold size.
  destruct (orbit_point_dots (rad (pole_ra rk)) (rad (pole_dec rk)) (Q2R (semi_a rk)) e i (node0 + (jde - Q2R (epoch_jd rk)) * 86400 * rad (node_rate rk)) (peri0 + (jde - Q2R (epoch_jd rk)) * 86400 * rad (apsis_rate rk)) (with_centre e (peri0 + (jde - Q2R (epoch_jd rk)) * 86400 * rad (apsis_rate rk)) (rad (mean_lon0 rk) + (jde - Q2R (epoch_jd rk)) * 86400 * rad (mean_motion rk)))) as (D & _ & _). cbv zeta. rewrite D.
  match goal with |- context [1 + e * cos ?x] => destruct (radius (Q2R (semi_a rk)) e (cos x) A ltac:(lra) (COS_bound x)) as (P & Q) end. rewrite sqrt_square by lra. exact Q.
Qed.

Lemma C67_plane_proof :
forall rk, In rk rocks -> exists i node0, 0 <= i < 1 / 2 /\ tan (i / 2) = sqrt (Q2R (el_p rk) ^ 2 + Q2R (el_q rk) ^ 2) /\
  forall jde out, exists pos, evaluate_rock jde (jpl_id rk) out = (0%Z, pos) /\
    let t := (jde - Q2R (epoch_jd rk)) * 86400 in
    let degrees x := Q2R x * PI / 180 in
    dot pos (orbit_pole (degrees (pole_ra rk)) (degrees (pole_dec rk)) i (node0 + t * degrees (node_rate rk))) = 0 /\
    Rabs (dot pos (direction (degrees (pole_ra rk)) (degrees (pole_dec rk)))) <= size pos * sin i.
Proof.
  intros rk R. destruct (elements_exist rk R) as (e & peri0 & i & node0 & E & I & H1 & H2 & H3 & H4). destruct (fine_in rk R) as (A & _ & _).
  assert (PI3 : 2 < PI) by (pose proof PI2_1; unfold PI2 in *; lra). exists i, node0. split; [assumption|]. split.
  { rewrite <- H3, <- H4, <- !Rsqr_pow2. unfold Rsqr. symmetry. apply size_of. destruct (Req_dec i 0) as [->|N]; [replace (0 / 2) with 0 by field; rewrite tan_0; lra|]. left. apply tan_gt_0; lra. }
  intros jde out. exists (position rk jde). split; [now apply evaluate_in|]. cbv zeta. rewrite (position_ellipse rk e peri0 i node0 jde) by (try assumption; lra). unfold size.
  destruct (orbit_point_dots (rad (pole_ra rk)) (rad (pole_dec rk)) (Q2R (semi_a rk)) e i (node0 + (jde - Q2R (epoch_jd rk)) * 86400 * rad (node_rate rk)) (peri0 + (jde - Q2R (epoch_jd rk)) * 86400 * rad (apsis_rate rk)) (with_centre e (peri0 + (jde - Q2R (epoch_jd rk)) * 86400 * rad (apsis_rate rk)) (rad (mean_lon0 rk) + (jde - Q2R (epoch_jd rk)) * 86400 * rad (mean_motion rk)))) as (D & D1 & D2). cbv zeta. rewrite D.
  fold (rad (pole_ra rk)) (rad (pole_dec rk)) (rad (node_rate rk)). split; [exact D1|]. rewrite D2.
  match goal with |- context [1 + e * cos ?x] => destruct (radius (Q2R (semi_a rk)) e (cos x) A ltac:(lra) (COS_bound x)) as (P & Q) end. rewrite sqrt_square by lra.
  rewrite Rabs_mult, (Rabs_pos_eq (_ / _)) by lra. apply Rmult_le_compat_l; [lra|]. assert (S0 : 0 <= sin i) by (apply sin_ge_0; lra).
  rewrite Rabs_mult, (Rabs_pos_eq (sin i)) by assumption. rewrite <- (Rmult_1_r (sin i)) at 2. apply Rmult_le_compat_l; [assumption|]. apply Rabs_le, SIN_bound.
Qed.

Lemma C67_third_law_proof :
forall x y, In x rocks -> In y rocks -> (jpl_id x / 100 = jpl_id y / 100)%Z -> jpl_id x <> 725%Z -> jpl_id y <> 725%Z ->
  (mean_motion x ^ 2 * semi_a x ^ 3 <= (1006 # 1000) * (mean_motion y ^ 2 * semi_a y ^ 3))%Q.
Proof.
  intros x y X Y P NX NY. pose proof (proj1 (forallb_forall _ rocks) third_law_all x X) as H. cbv beta in H. pose proof (proj1 (forallb_forall _ rocks) H y Y) as F. unfold third_law_ok in F.
  rewrite P, Z.eqb_refl in F. destruct (Z.eqb_spec (jpl_id x) 725); [contradiction|]. destruct (Z.eqb_spec (jpl_id y) 725); [contradiction|]. cbn [negb orb] in F. apply Qle_bool_iff in F.
  set (u := (mean_motion x ^ 2 * semi_a x ^ 3)%Q) in *. set (v := (mean_motion y ^ 2 * semi_a y ^ 3)%Q) in *. clearbody u v. clear - F. Lqa.lra.
Qed.

Lemma C67_third_law_refuted_proof :
forall x y, In x rocks -> In y rocks -> jpl_id x = 725%Z -> (jpl_id y / 100 = 7)%Z -> jpl_id y <> 725%Z ->
  ((1028 # 1000) * (mean_motion y ^ 2 * semi_a y ^ 3) <= mean_motion x ^ 2 * semi_a x ^ 3)%Q.
Proof.
  intros x y X Y PX PY NY. pose proof (proj1 (forallb_forall _ rocks) perdita_all x X) as H. cbv beta in H. pose proof (proj1 (forallb_forall _ rocks) H y Y) as F. unfold perdita_off in F.
  rewrite PX, PY in F. destruct (Z.eqb_spec (jpl_id y) 725); [contradiction|]. cbn [Z.eqb Pos.eqb negb orb] in F. apply Qle_bool_iff in F.
  set (u := (mean_motion x ^ 2 * semi_a x ^ 3)%Q) in *. set (v := (mean_motion y ^ 2 * semi_a y ^ 3)%Q) in *. clearbody u v. clear - F. Lqa.lra.
Qed.
