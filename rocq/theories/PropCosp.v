(** Property C60 (orientations, rotation rates and radii of planets and satellites, from the file cospar.txt; cospar.cpp).

    [in_file] says what a file has for an object, [formula] what the text of a formula means, [rows] what the matrix should
    be: see [CospSpec].  [fuel] is only there for the loops to end in the model. *)
From Coq Require Import QArith Qreals Reals String Lia Lra.
From Verif Require Import CBase CStr RBase TstrSpec CospModel CospSpec CospHist CospThms.
From Verif Require RotSpec.
Import ListNotations.
Local Open Scope string_scope.
Local Open Scope list_scope.
Local Open Scope Z_scope.

(** For every file that has an object with its formulae, an object after it, and every date and system: the function gives
    0 and the matrix of the three directions: longitude 0, longitude 90, north pole, for the values of the formulae at the
    date (in days of dynamical time from J2000). *)
Theorem C60_orientation :
forall E file obj system jd n p angles q a d w ra na de nd wv retro fuel,
  default_file E = Some file -> (List.length file < fuel)%nat -> Z.of_nat (List.length file) <= IMAX ->
  obj <> 3 -> obj <> NO_OBJECT_SELECTED -> 0 <= system <= 9 ->
  in_file file obj system false n p angles q a d w ->
  let t := (jd + dt E jd / 86400 - 2451545)%R in
  formula p angles t a ra na -> formula p angles t d de nd -> formula p angles t w wv retro ->
  exists s, calc_planet_orientation fuel E init_statics obj system jd = Ret (0, rows ra de wv retro, s).
Proof. exact C60_orientation_proof. Qed.
Print Assumptions C60_orientation.

(** The three directions are perpendicular and of length 1, and the third is that of the pole. *)
Theorem C60_frame :
forall ra de w retro, RotSpec.orthonormal (rows ra de w retro) /\ skipn 6 (rows ra de w retro) = pole_vector ra de.
Proof. exact C60_frame_proof. Qed.
Print Assumptions C60_frame.

(** FINDING: the comment says that the matrix is right-handed for a prograde object and left-handed for a retrograde one.
    It is the other way round: the second direction is at longitude 90 west for prograde objects. *)
Theorem C60_handed_refuted :
forall ra de w, RotSpec.det (rows ra de w false) = (-1)%R /\ RotSpec.det (rows ra de w true) = 1%R.
Proof. exact C60_handed_refuted_proof. Qed.
Print Assumptions C60_handed_refuted.

(** FINDING: the last object of a file is not found: its formulae are read, and then the values replaced by others; the
    result is -1. *)
Theorem C60_last_refuted :
forall E file obj system jd n p angles q a d w ra na de nd wv retro fuel,
  default_file E = Some file -> (List.length file < fuel)%nat -> Z.of_nat (List.length file) <= IMAX ->
  obj <> 3 -> obj <> NO_OBJECT_SELECTED -> 0 <= system <= 9 ->
  in_file file obj system true n p angles q a d w ->
  let t := (jd + dt E jd / 86400 - 2451545)%R in
  formula p angles t a ra na -> formula p angles t d de nd -> formula p angles t w wv retro ->
  exists s, calc_planet_orientation fuel E init_statics obj system jd
            = Ret (-1, rows (IZR (20 * n)) (IZR (20 * n)) (t * 360 / (13 / 10)) retro, s).
Proof. exact C60_last_refuted_proof. Qed.
Print Assumptions C60_last_refuted.

(** An object the file does not have: the result is -1, and the matrix is that of a made-up rotation. *)
Theorem C60_unknown :
forall E file lines rm ps ls obj n system jd fuel,
  default_file E = Some file -> (List.length file < fuel)%nat ->
  obj <> 3 -> obj <> NO_OBJECT_SELECTED -> Z.abs n <= 90000 ->
  file_lines file lines -> lines = rm ++ ls -> remaps rm ps -> alias ps obj n -> Forall (other n) ls ->
  exists s, calc_planet_orientation fuel E init_statics obj system jd
            = Ret (-1, rows (IZR (20 * n)) (IZR (20 * n)) ((jd + dt E jd / 86400 - 2451545) * 360 / (13 / 10)) false, s).
Proof. exact C60_unknown_proof. Qed.
Print Assumptions C60_unknown.

(** The radii of the file, once it has been loaded.  (Of objects that are not the last of the file.) *)
Theorem C60_radii :
forall E s0 s file obj n p angles q a d w fuel old,
  (List.length file < fuel)%nat -> Z.of_nat (List.length file) <= IMAX -> obj <> NO_OBJECT_SELECTED ->
  in_file file obj 0 false n p angles q a d w ->
  load_cospar_file fuel E s0 (Some (Some file)) = Ret (0, s) ->
  planet_radii fuel E s obj old = Ret (0, q, s).
Proof. exact C60_radii_proof. Qed.
Print Assumptions C60_radii.

(** The rotation rate is the coefficient of d, in degrees a day; here as the first call of a process. *)
Theorem C60_rate :
forall E file obj system last n p angles q a d w rate fuel,
  default_file E = Some file -> (List.length file < fuel)%nat -> Z.of_nat (List.length file) <= IMAX ->
  obj <> -99 -> obj <> NO_OBJECT_SELECTED -> 0 <= system <= 9 ->
  in_file file obj system last n p angles q a d w -> rate_text w rate ->
  exists s, planet_rotation_rate fuel E init_statics obj system = Ret (Q2R rate, s).
Proof. exact C60_rate_proof. Qed.
Print Assumptions C60_rate.

(** Whatever calls a program makes, in whatever order, for orientations, rates and radii: each orientation is the one the
    call would give as the first of the program.  (But see C60_reload_refuted.) *)
Theorem C60_history :
forall E cs answers fuel, history fuel E init_statics cs = Ret answers ->
  (forall p y jd, In (Orient p y jd) cs -> p <> NO_OBJECT_SELECTED) ->
  forall i p y jd, nth_error cs i = Some (Orient p y jd) -> exists a, nth_error answers i = Some a /\ as_first fuel E (Orient p y jd) a.
Proof. exact C60_history_proof. Qed.
Print Assumptions C60_history.

(** FINDING: after load_cospar_file( ) has loaded another file, the same question still gets the answer of the old one,
    whatever the new file says. *)
Theorem C60_reload_refuted :
forall E s obj system jd rv m s1 file rv2 s2 fuel,
  calc_planet_orientation fuel E s obj system jd = Ret (rv, m, s1) ->
  load_cospar_file fuel E s1 (Some (Some file)) = Ret (rv2, s2) ->
  calc_planet_orientation fuel E s2 obj system jd = Ret (rv, m, s2).
Proof. exact C60_reload_refuted_proof. Qed.
Print Assumptions C60_reload_refuted.

(** FINDING: without the file (or if it cannot be opened), the matrix is computed from values that have not been set. *)
Theorem C60_missing_refuted :
forall E obj system jd fuel, default_file E = None -> obj <> 3 -> obj <> NO_OBJECT_SELECTED ->
  calc_planet_orientation fuel E init_statics obj system jd = UB.
Proof. exact C60_missing_refuted_proof. Qed.
Print Assumptions C60_missing_refuted.

(** FINDING: if the question for the radii is the first of a program, the file is loaded and success reported, but no radii are
    given: the array is left as it was.  The second such question is answered. *)
Theorem C60_first_radii_refuted :
forall E file lines obj old fuel, default_file E = Some file -> file_lines file lines -> (List.length file < fuel)%nat -> obj <> NO_OBJECT_SELECTED ->
  exists s, planet_radii fuel E init_statics obj old = Ret (0, old, s).
Proof. exact C60_first_radii_refuted_proof. Qed.
Print Assumptions C60_first_radii_refuted.

(** The Earth: the matrix of precession, nutation and rotation with its second row reversed, so that if that is a rotation,
    this is orthonormal, with determinant -1. *)
Theorem C60_earth :
forall E system jd fuel,
  let year := (2000 + (jd + dt E jd / 86400 - 2451545) / (36525 / 100))%R in
  RotSpec.rotation (earth E year) ->
  exists s m, calc_planet_orientation fuel E init_statics 3 system jd = Ret (0, m, s) /\ RotSpec.orthonormal m /\ RotSpec.det m = (-1)%R /\
    (forall i j, (i < 3)%nat -> (j < 3)%nat -> RotSpec.cell m i j = if Nat.eqb i 1 then (- RotSpec.cell (earth E year) i j)%R else RotSpec.cell (earth E year) i j).
Proof. exact C60_earth_proof. Qed.
Print Assumptions C60_earth.

(** FINDING: a line is cut at the first byte above 127.  In the file that comes with the program this happens in the line for
    the pole of Mars, which has a minus sign of Unicode: here, the right ascension of the pole is the same at all times,
    although the line says "317.269202 - 0.10927547T". *)
Theorem C60_minus_refuted :
In (zs "   a0= 317.269202 ", [226; 136; 146] ++ zs " 0.10927547T") mars_lines /\
  forall E jd fuel, default_file E = Some mars_file -> (Z.to_nat 1000 <= fuel)%nat ->
  exists w s, calc_planet_orientation fuel E init_statics 4 0 jd = Ret (0, rows (Q2R (317269202 # 1000000)) (Q2R (54432516 # 1000000)) w false, s).
Proof. exact C60_minus_refuted_proof. Qed.
Print Assumptions C60_minus_refuted.

(** The Moon, at J2000, in a file of eleven lines; [Remap] makes number 10 of 3001. *)
Example C60_moon E : default_file E = Some moon_file -> dt E 2451545 = 0%R ->
  exists ra de w s, calc_planet_orientation (Z.to_nat 1000) E init_statics 10 0 2451545 = Ret (0, rows ra de w false, s) /\
    w = (Q2R (383213 # 10000) + (Q2R (1317635815 # 100000000) * 0 + (Q2R (- ((14 # 10) * (10 # 1) ^ -12)) * (0 * 0) + (Q2R (35610 # 10000) * sin moon_2x + 0))))%R.
Proof.
  intros HF HD. destruct moon_formulas as (F1 & F2 & F3).
  assert (LF : (List.length moon_file < Z.to_nat 1000)%nat) by (apply Nat.ltb_lt; vm_compute; reflexivity).
  pose proof (C60_orientation E moon_file 10 0 2451545%R 3001 69 [moon_angle] [17374 # 10; 0; 0]%Q) as C. rewrite HD in C.
  replace (2451545 + 0 / 86400 - 2451545)%R with 0%R in C by lra.
  destruct (C _ _ _ _ _ _ _ _ _ (Z.to_nat 1000) HF LF ltac:(unfold IMAX; lia) ltac:(lia) ltac:(discriminate) ltac:(lia) moon_in F1 F2 F3) as (s & H).
  eexists _, _, _, s. split; [exact H|reflexivity].
Qed.
Example C60_moon_radii E s : load_cospar_file (Z.to_nat 1000) E init_statics (Some (Some moon_file)) = Ret (0, s) ->
  planet_radii (Z.to_nat 1000) E s 10 [] = Ret (0, [17374 # 10; 0; 0]%Q, s).
Proof.
  assert (LF : (List.length moon_file < Z.to_nat 1000)%nat) by (apply Nat.ltb_lt; vm_compute; reflexivity).
  now apply (C60_radii E init_statics s moon_file 10 3001 69 [moon_angle] [17374 # 10; 0; 0]%Q _ _ _ (Z.to_nat 1000) [] LF ltac:(unfold IMAX; lia) ltac:(discriminate) moon_in).
Qed.
