(** Proofs about precession. *)
From Coq Require Import Lia.
From Verif Require Import TrigBase RotModel RotSpec RotProofs PrecModel PrecSpec.
Open Scope list_scope.

Lemma p01 : plane 0 1. Proof. unfold plane. lia. Qed.
Lemma p10 : plane 1 0. Proof. unfold plane. lia. Qed.
Lemma p12 : plane 1 2. Proof. unfold plane. lia. Qed.
Lemma p21 : plane 2 1. Proof. unfold plane. lia. Qed.
Lemma p02 : plane 0 2. Proof. unfold plane. lia. Qed.

Lemma spin36 m a : length m = 9%nat -> spin_matrix m 3 6 a = Ret (mul (turn 1 2 a) m).
Proof. intros L. exact (spin_ok m 1 2 a L p12). Qed.
Lemma spin30 m a : length m = 9%nat -> spin_matrix m 3 0 a = Ret (mul (turn 1 0 a) m).
Proof. intros L. exact (spin_ok m 1 0 a L p10). Qed.
Lemma spin03 m a : length m = 9%nat -> spin_matrix m 0 3 a = Ret (mul (turn 0 1 a) m).
Proof. intros L. exact (spin_ok m 0 1 a L p01). Qed.
Lemma pre12 m a : length m = 9%nat -> pre_spin_matrix m 1 2 a = Ret (mul m (turn 2 1 a)).
Proof. intros L. exact (pre_spin_ok m 1 2 a L p12). Qed.

Lemma turn10 a : turn 1 0 (- a) = turn 0 1 a.
Proof. rewrite turn_opp by exact p10. rewrite (turn_swap 0 1) by exact p01. apply tr_tr. reflexivity. Qed.

Lemma j2000_ok m y : length m = 9%nat -> setup_ecliptic_precession_from_j2000 m y = Ret (from_2000 y).
Proof.
  intros L. unfold setup_ecliptic_precession_from_j2000. rewrite identity_ok by assumption. cbn [obind].
  set (t := (y - 2000) / 100). set (S := PI / 180 / 3600).
  assert (HS : forall x, x * S = arcsec x) by (intros x; unfold arcsec, S; field).
  replace (t * (470029 / 10000 * S + (- (3302 / 100000) * S + 6 / 100000 * S * t) * t)) with (eta t)
    by (unfold eta; rewrite <- HS; ring).
  replace (174876384 / 1000000 * PI / 180 - t * (8698089 / 10000 * S - 3536 / 100000 * S * t)) with (node t)
    by (unfold node; rewrite <- HS; field).
  replace (t * (50290966 / 10000 * S + (111113 / 100000 * S - 6 / 100000 * S * t) * t)) with (general t)
    by (unfold general; rewrite <- HS; ring).
  change ident with [1; 0; 0; 0; 1; 0; 0; 0; 1]. cbn [set get length Nat.ltb Nat.leb firstn skipn List.app nth_error obind].
  assert (E : [cos (node t); sin (node t); 0; - sin (node t); cos (node t); 0; 0; 0; 1] = turn 0 1 (- node t)).
  { unfold turn, mat. cbn. rewrite cos_neg, sin_neg. each; ring. }
  rewrite E. rewrite spin36 by reflexivity. cbn [obind]. rewrite spin30 by reflexivity. cbn [obind]. rewrite spin03 by reflexivity.
  f_equal. unfold from_2000. fold t. rewrite turn10. rewrite <- mul_assoc, turn_add by exact p01. reflexivity.
Qed.

Lemma from_2000_rot y : rotation (from_2000 y).
Proof.
  unfold from_2000. apply rot_mul; [apply turn_rot, p01|]. apply rot_mul; [apply turn_rot, p12|apply turn_rot, p01].
Qed.
Lemma arcsec_0 : arcsec 0 = 0. Proof. unfold arcsec. ring. Qed.
Lemma from_2000_2000 : from_2000 2000 = ident.
Proof.
  unfold from_2000. replace ((2000 - 2000) / 100) with 0 by field.
  assert (eta 0 = 0) as -> by (unfold eta, arcsec; ring).
  assert (general 0 = 0) as -> by (unfold general, arcsec; ring).
  rewrite Ropp_0, turn_0, mul_1_l by (exact p12 || reflexivity). rewrite turn_add by exact p01.
  replace (node 0 + 0 + - node 0) with 0 by ring. apply turn_0, p01.
Qed.

Lemma product_ok m n : length m = 9%nat -> length n = 9%nat -> product_loop 9 0 m n junk = Ret (mul m n).
Proof. intros. lists. reflexivity. Qed.

(** A fresh computation. *)
Lemma fresh_ok m a b : length m = 9%nat ->
  (if Reqb a 2000 then setup_ecliptic_precession_from_j2000 m b
   else
     do m <- setup_ecliptic_precession_from_j2000 m a;
     do m <- invert_orthonormal_matrix m;
     if Reqb b 2000 then Ret m
     else
       do tmatrix <- setup_ecliptic_precession_from_j2000 junk b;
       product_loop 9 0 m tmatrix junk) = Ret (mul (tr (from_2000 a)) (from_2000 b)).
Proof.
  intros L. destruct (Reqb_spec a 2000) as [->|Ha].
  - rewrite j2000_ok by assumption. rewrite from_2000_2000, tr_ident, mul_1_l by reflexivity. reflexivity.
  - rewrite j2000_ok by assumption. cbn [obind]. rewrite invert_ok by reflexivity. cbn [obind].
    destruct (Reqb_spec b 2000) as [->|Hb].
    + rewrite from_2000_2000, mul_1_r by reflexivity. reflexivity.
    + rewrite j2000_ok by reflexivity. cbn [obind]. rewrite product_ok by reflexivity. reflexivity.
Qed.

Lemma prec_len a b : length (precession a b) = 9%nat.
Proof. unfold precession. destruct (Rlt_dec _ _); reflexivity. Qed.
Lemma prec_tr a b : precession b a = tr (precession a b).
Proof.
  unfold precession. rewrite (Rabs_minus_sym b a). destruct (Rlt_dec _ _); [symmetry; apply tr_ident|].
  rewrite tr_mul, tr_tr by reflexivity. reflexivity.
Qed.
Lemma prec_rot a b : rotation (precession a b).
Proof.
  unfold precession. destruct (Rlt_dec _ _); [apply rot_ident|]. apply rot_mul; [apply rot_tr|]; apply from_2000_rot.
Qed.

(** What the cache holds. *)
Definition oblique (s : statics) : Prop := t0 s = 30000 \/ ob_rval s = arcsec (obliquity_poly (t0 s)).
Definition cached (s : statics) : Prop :=
  length (prev_matrix s) = 9%nat /\
  (prev_year_from s = SEMIRANDOM_GARBAGE1 /\ prev_year_to s = SEMIRANDOM_GARBAGE2 \/
   prev_matrix s = mul (tr (from_2000 (prev_year_from s))) (from_2000 (prev_year_to s))).
Definition inv (s : statics) : Prop := oblique s /\ cached s.

Lemma inv_initial : inv initial.
Proof. split; [left; reflexivity|]. split; [reflexivity|]. left. split; reflexivity. Qed.

Lemma obliq_loop_ok t : obliq_loop coeffs (t / 100) (t / 100) (23 * 3600 + 26 * 60 + 21448 / 1000) * ARCSECONDS_TO_RADIANS = arcsec (obliquity_poly t).
Proof.
  unfold obliquity_poly, arcsec, ARCSECONDS_TO_RADIANS, coeffs. set (u := t / 100). cbn [obliq_loop]. field.
Qed.

Lemma obliquity_ok s t : oblique s -> exists s', mean_obliquity s t = (obliquity t, s') /\ oblique s' /\ (cached s -> cached s').
Proof.
  intros H. unfold mean_obliquity. destruct (Reqb_spec t 0) as [->|Ht].
  { exists s. split; [|auto]. f_equal. unfold obliquity. destruct (Rlt_dec 100 0); [lra|]. destruct (Rlt_dec 0 (- 100)); [lra|].
    unfold arcsec, obliquity_poly, ARCSECONDS_TO_RADIANS. field. }
  destruct (Rltb_spec 100 t) as [Ht1|Ht1].
  { exists s. split; [|auto]. f_equal. unfold obliquity. destruct (Rlt_dec 100 t); [reflexivity|lra]. }
  destruct (Rltb_spec t (- 100)) as [Ht2|Ht2].
  { exists s. split; [|auto]. f_equal. unfold obliquity. destruct (Rlt_dec 100 t); [lra|]. destruct (Rlt_dec t (- 100)); [reflexivity|lra]. }
  assert (E : obliquity t = arcsec (obliquity_poly t)).
  { unfold obliquity. destruct (Rlt_dec 100 t); [lra|]. destruct (Rlt_dec t (- 100)); [lra|reflexivity]. }
  rewrite E. destruct (Reqb_spec (t0 s) t) as [Et|Et].
  { exists s. split; [|auto]. f_equal. destruct H as [H|H]; [lra|]. rewrite H, Et. reflexivity. }
  rewrite obliq_loop_ok. eexists. split; [reflexivity|]. split; [right; reflexivity|]. intros C. exact C.
Qed.

Lemma ecliptic_ok s m a b : inv s -> length m = 9%nat ->
  exists r s', setup_ecliptic_precession s m a b = Ret (r, s') /\ inv s' /\ length r = 9%nat /\ (~ sentinel a b -> r = precession a b).
Proof.
  intros [I (L9 & C)] L. unfold setup_ecliptic_precession, precession.
  destruct (Rltb_spec (Rabs (a - b)) (1 / 100000)) as [N|N].
  { rewrite identity_ok by assumption. cbn [obind]. exists ident, s. split; [reflexivity|]. split; [split; [assumption|split; assumption]|].
    split; [reflexivity|]. intros _. destruct (Rlt_dec _ _); [reflexivity|contradiction]. }
  assert (D : forall x : list R, (if Rlt_dec (Rabs (a - b)) (1 / 100000) then ident else x) = x).
  { intros x. destruct (Rlt_dec _ _); [contradiction|reflexivity]. }
  rewrite D. clear D.
  destruct (Reqb_spec a (prev_year_from s)) as [Ea|Ea]; [destruct (Reqb_spec b (prev_year_to s)) as [Eb|Eb]|]; cbn [andb].
  { exists (prev_matrix s), s. split; [reflexivity|]. split; [split; [assumption|split; assumption]|]. split; [assumption|].
    intros NS. destruct C as [[C1 C2]|C]; [exfalso; apply NS; left; split; congruence|]. rewrite C, <- Ea, <- Eb. reflexivity. }
  1, 2: destruct (Reqb_spec a (prev_year_to s)) as [Ea'|Ea']; [destruct (Reqb_spec b (prev_year_from s)) as [Eb'|Eb']|]; cbn [andb].
  1, 4: rewrite invert_ok by assumption; cbn [obind]; exists (tr (prev_matrix s)), s; (split; [reflexivity|]); (split; [split; [assumption|split; assumption]|]);
    (split; [reflexivity|]); intros NS; (destruct C as [[C1 C2]|C]; [exfalso; apply NS; right; split; congruence|]);
    rewrite C, tr_mul, tr_tr, <- Ea', <- Eb' by reflexivity; reflexivity.
  all: rewrite fresh_ok by assumption; cbn [obind]; eexists; eexists; (split; [reflexivity|]); (split; [split; [exact I|split; [reflexivity|right; reflexivity]]|]);
    (split; [reflexivity|]); reflexivity.
Qed.

Definition tilt (o1 o2 : R) (m : list R) : list R := mul (turn 1 2 o2) (mul m (turn 2 1 o1)).
Definition cen (y : R) : R := (y - 2000) / 100.

Lemma equatorial_ok s m a b : inv s -> length m = 9%nat ->
  exists r s', setup_precession s m a b = Ret (r, s') /\ inv s' /\ length r = 9%nat /\
    (~ sentinel a b -> r = tilt (obliquity (cen a)) (obliquity (cen b)) (precession a b)).
Proof.
  intros [I C] L. unfold setup_precession. fold (cen a) (cen b).
  destruct (obliquity_ok s (cen a) I) as (s1 & -> & I1 & C1). destruct (obliquity_ok s1 (cen b) I1) as (s2 & -> & I2 & C2).
  destruct (ecliptic_ok s2 m a b (conj I2 (C2 (C1 C))) L) as (r & s3 & -> & I3 & L3 & Er). cbn [obind].
  rewrite pre12 by assumption. cbn [obind]. rewrite spin36 by reflexivity. cbn [obind]. eexists. eexists. split; [reflexivity|].
  split; [assumption|]. split; [reflexivity|]. intros NS. rewrite Er by assumption. reflexivity.
Qed.

Lemma equatorial2000_ok m y : length m = 9%nat ->
  setup_equatorial_precession_from_j2000 m y = Ret (equator_from_2000 y).
Proof.
  intros L. unfold setup_equatorial_precession_from_j2000, equator_from_2000. cbv zeta.
  set (t := (y - 2000) / 100). set (a := PI / 180 / 3600).
  set (zeta := t * (_ + t * (30188 / 100000 + _ * t)) * a). set (z := t * (_ + t * (109468 / 100000 + _ * t)) * a).
  set (theta := t * (_ + t * (- (42665 / 100000) - _ * t)) * a).
  replace (zeta_a t) with zeta by (unfold zeta, zeta_a, arcsec, a; field).
  replace (z_a t) with z by (unfold z, z_a, arcsec, a; field).
  replace (theta_a t) with theta by (unfold theta, theta_a, arcsec, a; field).
  clearbody zeta z theta. lists. cbn [set length Nat.ltb Nat.leb firstn skipn List.app obind].
  f_equal. unfold turn, mul, mat, cell. cbn. each; ring.
Qed.
Lemma equator_rot y : rotation (equator_from_2000 y).
Proof. unfold equator_from_2000. apply rot_mul; [apply turn_rot, p01|]. apply rot_mul; [apply turn_rot, p02|apply turn_rot, p01]. Qed.
Lemma equator_2000 : equator_from_2000 2000 = ident.
Proof.
  unfold equator_from_2000. replace ((2000 - 2000) / 100) with 0 by field. cbv zeta.
  assert (E : zeta_a 0 = 0 /\ z_a 0 = 0 /\ theta_a 0 = 0) by (unfold zeta_a, z_a, theta_a, arcsec; repeat split; ring).
  destruct E as (-> & -> & ->). rewrite !turn_0 by (exact p01 || exact p02). rewrite !mul_1_l by reflexivity. reflexivity.
Qed.
Lemma nutate_rot e dpsi de : rotation (nutate e dpsi de).
Proof. unfold nutate. apply rot_mul; [apply turn_rot, p12|]. apply rot_mul; [apply turn_rot, p01|apply turn_rot, p12]. Qed.

Lemma nutation_ok f s m y dl dobl : oblique s -> length m = 9%nat ->
  let t := (y - 2000) / 100 in
  let dpsi := arcsec (fst (f t)) + dl in
  let de := arcsec (snd (f t)) + dobl in
  exists s', setup_precession_with_nutation_delta f s m y dl dobl =
    Ret (mul (turn 0 1 (- (dpsi * cos (obliquity t)))) (mul (nutate (obliquity t) dpsi de) (equator_from_2000 y)), s') /\
  oblique s' /\ (cached s -> cached s').
Proof.
  intros I L t dpsi de. unfold setup_precession_with_nutation_delta.
  destruct (obliquity_ok s ((y - 2000) / 100) I) as (s1 & -> & I1 & C1). fold t. destruct (f t) as [dlon dob] eqn:Ef. unfold dpsi, de. cbn [fst snd].
  rewrite (equatorial2000_ok m y L). cbn [obind].
  rewrite pre12 by reflexivity. cbn [obind]. rewrite spin36 by reflexivity. cbn [obind]. rewrite spin03 by reflexivity. cbn [obind].
  rewrite pre12 by reflexivity. cbn [obind]. rewrite spin36 by reflexivity. cbn [obind]. rewrite spin30 by reflexivity. cbn [obind].
  exists s1. split; [|split; assumption]. f_equal. f_equal. unfold nutate.
  replace (dlon * (PI / (180 * 3600)) + dl) with (arcsec dlon + dl) by (unfold arcsec; field).
  replace (dob * (PI / (180 * 3600)) + dobl) with (arcsec dob + dobl) by (unfold arcsec; field).
  set (e0 := _ / _ * _ / _). set (ob := obliquity t). set (q := equator_from_2000 y). rewrite !mul_assoc.
  rewrite turn_add by exact p21. replace (- e0 + e0) with 0 by ring. rewrite turn_0 by exact p21. rewrite (mul_1_r q) by reflexivity.
  rewrite <- (turn10 (- ((arcsec dlon + dl) * cos ob))), Ropp_involutive. reflexivity.
Qed.

Lemma step_inv s s' : step s s' -> inv s -> inv s'.
Proof.
  intros St I. destruct St as [s t r s' E|s m a b r s' L E|s m a b r s' L E|f s m y dl dobl r s' L E].
  - destruct I as [I C]. destruct (obliquity_ok s t I) as (s1 & E1 & I1 & C1). rewrite E in E1. inversion E1. subst. split; auto.
  - destruct (ecliptic_ok s m a b I L) as (r1 & s1 & E1 & I1 & _). rewrite E in E1. inversion E1. subst. assumption.
  - destruct (equatorial_ok s m a b I L) as (r1 & s1 & E1 & I1 & _). rewrite E in E1. inversion E1. subst. assumption.
  - destruct I as [I C]. destruct (nutation_ok f s m y dl dobl I L) as (s1 & E1 & I1 & C1). rewrite E in E1. inversion E1. subst. split; auto.
Qed.
Lemma later_inv s s' : later s s' -> inv s -> inv s'.
Proof. induction 1; intros I; [assumption|]. eapply step_inv; [eassumption|auto]. Qed.
Lemma reachable_inv s : reachable s -> inv s.
Proof. intros H. exact (later_inv _ _ H inv_initial). Qed.
Lemma later_trans a b c : later a b -> later b c -> later a c.
Proof. intros H K. revert H. induction K as [|x y Hx IH Hs]; intros G; [assumption|]. exact (later_step a x y (IH G) Hs). Qed.

Lemma tilt_tr o1 o2 m : tr (tilt o1 o2 m) = tilt o2 o1 (tr m).
Proof.
  unfold tilt. rewrite !tr_mul. rewrite mul_assoc. rewrite <- (turn_swap 2 1) by exact p21. rewrite <- (turn_swap 1 2) by exact p12. reflexivity.
Qed.
Lemma tilt_rot o1 o2 m : rotation m -> rotation (tilt o1 o2 m).
Proof. intros R. unfold tilt. apply rot_mul; [apply turn_rot, p12|]. apply rot_mul; [assumption|apply turn_rot, p21]. Qed.

Lemma precess_ok m v w : length m = 9%nat -> length v = 3%nat -> length w = 3%nat -> precess_vector m v w = Ret (app m v).
Proof. intros. lists. reflexivity. Qed.
Lemma deprecess_ok m v w : length m = 9%nat -> length v = 3%nat -> length w = 3%nat -> deprecess_vector m v w = Ret (app (tr m) v).
Proof. intros. lists. reflexivity. Qed.

(** Entry (2, 2) of the two products. *)
Lemma cell_mul a b i j : (i < 3)%nat -> (j < 3)%nat ->
  cell (mul a b) i j = cell a i 0 * cell b 0 j + cell a i 1 * cell b 1 j + cell a i 2 * cell b 2 j.
Proof. intros Hi Hj. destruct i as [|[|[|i]]]; try lia; destruct j as [|[|[|j]]]; try lia; reflexivity. Qed.
Lemma row2 y : let t := cen y in
  cell (from_2000 y) 2 0 = sin (eta t) * sin (node t) /\ cell (from_2000 y) 2 1 = - sin (eta t) * cos (node t) /\ cell (from_2000 y) 2 2 = cos (eta t).
Proof.
  intros t. unfold from_2000. fold (cen y). fold t. rewrite !cell_mul by lia.
  unfold turn, mat, cell. cbn [Nat.add Nat.mul nth Nat.eqb andb]. rewrite !cos_neg, !sin_neg. split; [ring|]. split; ring.
Qed.
Lemma col2 y : let t := cen y in
  cell (from_2000 y) 0 2 = - sin (eta t) * sin (node t + general t) /\ cell (from_2000 y) 1 2 = sin (eta t) * cos (node t + general t) /\
  cell (from_2000 y) 2 2 = cos (eta t).
Proof.
  intros t. unfold from_2000. fold (cen y). fold t. rewrite !cell_mul by lia.
  unfold turn, mat, cell. cbn [Nat.add Nat.mul nth Nat.eqb andb]. rewrite !cos_neg, !sin_neg. split; [ring|]. split; ring.
Qed.
Lemma prod22 a b : let ta := cen a in let tb := cen b in
  cell (mul (from_2000 a) (from_2000 b)) 2 2 =
    cos (eta ta) * cos (eta tb) - sin (eta ta) * sin (eta tb) * cos (node tb + general tb - node ta).
Proof.
  intros ta tb. rewrite cell_mul by lia. destruct (row2 a) as (-> & -> & ->). destruct (col2 b) as (-> & -> & ->).
  fold ta tb. rewrite cos_minus. ring.
Qed.
