(** astfuncs.cpp: two-body motion.  A double is modelled by the real number it holds; NaN
    and infinity are [Abort].  The literals PI and SQRT_2 stand for the numbers themselves. *)
From Verif Require Export TrigBase EllModel.
Local Open Scope R_scope.

Definition vec3 : Type := (R * R * R)%type.

(** miscell.cpp:522-527 (vector_cross_product( )), for a result apart from the factors *)
Definition cross_product (a b : vec3) : vec3 :=
  let '(a0, a1, a2) := a in let '(b0, b1, b2) := b in
  (a1 * b2 - a2 * b1, a2 * b0 - a0 * b2, a0 * b1 - a1 * b0).

(** comets.h:22-33 (ELEMENTS), without epoch, abs_mag, slope_param, is_asteroid and
    central_obj, which the functions below leave alone. *)
Record elements : Type := mk_elements {
  perih_time : R; q_ : R; ecc_ : R; incl : R; arg_per : R; asc_node : R; mean_anomaly : R;
  lon_per : R; minor_to_major : R; perih_vec : vec3; sideways : vec3;
  angular_momentum : R; major_axis : R; t0 : R; w0 : R; gm_ : R }.

(** fmod( x, y) *)
Definition truncate (x : R) : Z := if Rltb x 0 then (- Int_part (- x))%Z else Int_part x.
Definition c_fmod (x y : R) : R := x - y * IZR (truncate (x / y)).
(** astfuncs.cpp:39 (CUBE_ROOT), for positive numbers *)
Definition CUBE_ROOT (x : R) : R := exp (ln x / 3).

(** astfuncs.cpp:93-120 (setup_orbit_vectors( )): lon_per, minor_to_major, perih_vec and
    sideways *)
Definition setup_orbit_vectors (ecc incl arg_per asc_node : R) : outcome (R * R * vec3 * vec3) :=
  let sin_incl := sin incl in let cos_incl := cos incl in
  let m := sqrt (Rabs (1 - ecc * ecc)) in
  let lon_per := asc_node + atan2 (sin arg_per * cos_incl) (cos arg_per) in
  let v0 := cos lon_per * cos_incl in
  let v1 := sin lon_per * cos_incl in
  let v2 := sin_incl * sin (lon_per - asc_node) in
  let vec_len := sqrt (cos_incl * cos_incl + v2 * v2) in
  let vec_len := if Rltb cos_incl 0 then vec_len * - 1 else vec_len in
  do v0 <- c_div v0 vec_len;
  do v1 <- c_div v1 vec_len;
  do v2 <- c_div v2 vec_len;
  let up := (sin asc_node * sin_incl, - cos asc_node * sin_incl, cos_incl) in
  Ret (lon_per, m, (v0, v1, v2), cross_product up (v0, v1, v2)).

(** astfuncs.cpp:122-136 (derive_quantities( )) *)
Definition derive_quantities (e : elements) (gm : R) : outcome elements :=
  do '(a, t, w) <-
    (if negb (Reqb (ecc_ e) 1) then
       do a <- c_div (q_ e) (Rabs (1 - ecc_ e));
       do s <- c_div a gm; do s <- c_sqrt s;
       Ret (a, a * s, w0 e)
     else
       do s <- c_div (q_ e) gm; do s <- c_sqrt s;
       do w <- c_div (3 / sqrt 2) (q_ e * s);
       Ret (0, 0, w));
  do h <- c_sqrt (gm * q_ e * (1 + ecc_ e));
  do '(l, m, p, s) <- setup_orbit_vectors (ecc_ e) (incl e) (arg_per e) (asc_node e);
  Ret (mk_elements (perih_time e) (q_ e) (ecc_ e) (incl e) (arg_per e) (asc_node e) (mean_anomaly e)
         l m p s h a t w (gm_ e)).

(** astfuncs.cpp:167-181 (near_parabolic( )).  The product n * (n + 1) does not wrap round: the
    loop ends long before for any anomaly whose hyperbolic sine is finite. *)
Fixpoint near_parabolic_loop (fuel : nat) (anom2 term rval : R) (n : Z) : outcome R :=
  if Rltb (1 / 10 ^ 15) (Rabs term) then
    match fuel with
    | O => Fuel
    | S f => let term := term * (anom2 / IZR (n * (n + 1))) in near_parabolic_loop f anom2 term (rval - term) (n + 2)
    end
  else Ret rval.
Definition near_parabolic (fuel : nat) (ecc_anom e : R) : outcome R :=
  let anom2 := if Rltb 1 e then ecc_anom * ecc_anom else - ecc_anom * ecc_anom in
  let term := e * anom2 * ecc_anom / 6 in
  near_parabolic_loop fuel anom2 term ((1 - e) * ecc_anom - term) 4.

Definition THRESH : R := 1 / 10 ^ 12.
Definition MIN_THRESH : R := 1 / 10 ^ 14.

(** astfuncs.cpp:214-224: the loop for eccentricities below 0.9 *)
Fixpoint newton_low (fuel : nat) (ecc mean_anom curr : R) : outcome R :=
  match fuel with
  | O => Fuel
  | S f =>
      do err <- c_div (curr - ecc * sin curr - mean_anom) (1 - ecc * cos curr);
      let curr := curr - err in
      if Rltb THRESH (Rabs err) then newton_low f ecc mean_anom curr else Ret curr
  end.

(** astfuncs.cpp:254-264: ellipses.  [k] is 20 - n_iter; the assertion fails when it gets to 0. *)
Fixpoint newton_ellipse (k fuel : nat) (ecc mean_anom thresh curr delta : R) : outcome R :=
  if Rltb thresh (Rabs delta) then
    match k with
    | O => Abort
    | S k' =>
        do err <- (if (k <? 13)%nat then do p <- near_parabolic fuel curr ecc; Ret (p - mean_anom)
                   else Ret (curr - ecc * sin curr - mean_anom));
        do delta <- c_div (- err) (1 - ecc * cos curr);
        let curr := curr + delta in
        match k' with O => Abort | _ => newton_ellipse k' fuel ecc mean_anom thresh curr delta end
    end
  else Ret curr.

(** astfuncs.cpp:265-275: hyperbolas *)
Fixpoint newton_hyperbola (k fuel : nat) (ecc mean_anom thresh curr delta : R) : outcome R :=
  if Rltb thresh (Rabs delta) then
    match k with
    | O => Abort
    | S k' =>
        do err <- (if (k <? 13)%nat && Rltb ecc (101 / 100) then do p <- near_parabolic fuel curr ecc; Ret (- p - mean_anom)
                   else Ret (ecc * sinh curr - curr - mean_anom));
        do delta <- c_div (- err) (ecc * cosh curr - 1);
        let curr := curr + delta in
        match k' with O => Abort | _ => newton_hyperbola k' fuel ecc mean_anom thresh curr delta end
    end
  else Ret curr.

(** astfuncs.cpp:202-213: the mean anomaly between -pi and pi, and what was taken away. *)
Definition within_half_turn (mean_anom : R) : R * R :=
  if Rltb mean_anom (- PI) || Rltb PI mean_anom then
    let tmod := c_fmod mean_anom (PI * 2) in
    let tmod := if Rltb PI tmod then tmod - 2 * PI else if Rltb tmod (- PI) then tmod + 2 * PI else tmod in
    (tmod, mean_anom - tmod)
  else (mean_anom, 0).

(** astfuncs.cpp:235-252: first guess and threshold, for a mean anomaly that is not
    negative. *)
Definition first_guess (ecc mean_anom : R) : outcome (R * R) :=
  let thresh := THRESH * Rabs (1 - ecc) in
  let thresh := if Rltb thresh MIN_THRESH then MIN_THRESH else thresh in
  if Rltb 1 ecc && Rltb 3 (mean_anom / ecc) then Ret (ln (mean_anom / ecc) + 85 / 100, thresh)
  else if (Rltb (8 / 10) ecc && Rltb mean_anom (PI / 3)) || Rltb 1 ecc then
    do trial <- c_div mean_anom (Rabs (1 - ecc));
    let trial := if Rltb (6 * Rabs (1 - ecc)) (trial * trial) then CUBE_ROOT (6 * mean_anom) else trial in
    Ret (trial, if Rltb THRESH thresh then THRESH else thresh)
  else Ret (mean_anom, thresh).

(** astfuncs.cpp:190-277 (kepler( )) *)
Definition kepler (fuel : nat) (ecc mean_anom : R) : outcome R :=
  if Reqb mean_anom 0 then Ret 0
  else
    let '(mean_anom, offset) := if Rltb ecc 1 then within_half_turn mean_anom else (mean_anom, 0) in
    if Rltb ecc (9 / 10) then
      do curr <- newton_low fuel ecc mean_anom (atan2 (sin mean_anom) (cos mean_anom - ecc));
      Ret (curr + offset)
    else
      let is_negative := Rltb mean_anom 0 in
      let mean_anom := if is_negative then - mean_anom else mean_anom in
      do '(curr, thresh) <- first_guess ecc mean_anom;
      do curr <- (if Rltb ecc 1 then newton_ellipse 20 fuel ecc mean_anom thresh curr 1
                  else newton_hyperbola 20 fuel ecc mean_anom thresh curr 1);
      Ret (if is_negative then offset - curr else offset + curr).

(** x p + y s *)
Definition in_plane (x : R) (p : vec3) (y : R) (s : vec3) : vec3 :=
  let '(p0, p1, p2) := p in let '(s0, s1, s2) := s in (p0 * x + s0 * y, p1 * x + s1 * y, p2 * x + s2 * y).

(** astfuncs.cpp:279-333 (comet_posn_part_ii( )): loc[0] to loc[2], loc[3] and vel, [None] where vel
    is not written. *)
Definition comet_posn_part_ii (fuel : nat) (e : elements) (t : R) : outcome (vec3 * R * option vec3) :=
  do true_anom <-
    (if Reqb (ecc_ e) 1 then
       let g := w0 e * t * (1 / 2) in
       let y := CUBE_ROOT (g + sqrt (g * g + 1)) in
       Ret (2 * atan (y - 1 / y))
     else
       do ecc_anom <- kepler fuel (ecc_ e) (mean_anomaly e);
       let x := if Rltb 1 (ecc_ e) then ecc_ e - cosh ecc_anom else cos ecc_anom - ecc_ e in
       let y := if Rltb 1 (ecc_ e) then sinh ecc_anom else sin ecc_anom in
       Ret (atan2 (y * minor_to_major e) x));
  let r0 := q_ e * (1 + ecc_ e) in
  do r <- c_div r0 (1 + ecc_ e * cos true_anom);
  let x := r * cos true_anom in
  let y := r * sin true_anom in
  do vel <-
    (if negb (Reqb (angular_momentum e) 0) then
       do angular_component <- c_div (angular_momentum e) (r * r);
       do radial_component <- c_div (ecc_ e * sin true_anom * angular_momentum e) (r * r0);
       Ret (Some (in_plane (x * radial_component - y * angular_component) (perih_vec e)
                           (y * radial_component + x * angular_component) (sideways e)))
     else Ret None);
  Ret (in_plane x (perih_vec e) y (sideways e), r, vel).

(** astfuncs.cpp:335-352 (comet_posn_and_vel( )); the new mean anomaly in *elem is left out. *)
Definition set_mean_anomaly (e : elements) (m : R) : elements :=
  mk_elements (perih_time e) (q_ e) (ecc_ e) (incl e) (arg_per e) (asc_node e) m
    (lon_per e) (minor_to_major e) (perih_vec e) (sideways e) (angular_momentum e) (major_axis e) (t0 e) (w0 e) (gm_ e).
Definition comet_posn_and_vel (fuel : nat) (e : elements) (t : R) : outcome (vec3 * R * option vec3) :=
  let t := t - perih_time e in
  if negb (Reqb (ecc_ e) 1) then
    do t <- c_div t (t0 e);
    let t := if Rltb (ecc_ e) 1 then
               let t := c_fmod t (PI * 2) in
               let t := if Rltb t (- PI) then t + 2 * PI else t in
               if Rltb PI t then t - 2 * PI else t
             else t in
    comet_posn_part_ii fuel (set_mean_anomaly e t) t
  else comet_posn_part_ii fuel e t.
