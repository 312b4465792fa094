(** classel.cpp: from a place and a velocity to orbital elements.  A double is modelled by the
    real number it holds; NaN, infinity and failed assertions are [Abort]. *)
From Verif Require Export TrigBase EllModel OrbModel.
Local Open Scope R_scope.

(** miscell.cpp:474-482 (vector3_length( ), dot_product( )) *)
Definition dot_product (a b : vec3) : R := let '(a0, a1, a2) := a in let '(b0, b1, b2) := b in a0 * b0 + a1 * b1 + a2 * b2.
Definition vector3_length (a : vec3) : R := let '(a0, a1, a2) := a in sqrt (a0 * a0 + a1 * a1 + a2 * a2).
(** miscell.cpp:67-74 (asine( )) *)
Definition asine (x : R) : outcome R :=
  if Rleb 1 x then Ret (PI / 2) else if Rleb x (- 1) then Ret (- PI / 2) else c_asin x.

(** classel.cpp:87-102 (remaining_terms( )).  The product i * (i + 1) does not overflow: the terms
    are small long before. *)
Fixpoint remaining_terms_loop (fuel : nat) (ival rval z : R) (i : Z) : outcome R :=
  match fuel with
  | O => Fuel
  | S f =>
      let z := z * (ival / IZR (i * (i + 1))) in
      let rval := rval + z in
      if Rltb (1 / 10 ^ 30) (Rabs z) then remaining_terms_loop f ival rval z (i + 2) else Ret rval
  end.
Definition remaining_terms (fuel : nat) (ival : R) : outcome R := remaining_terms_loop fuel ival 0 1 2.

(** a component-wise, and x times b *)
Definition times (x : R) (b : vec3) : vec3 := let '(b0, b1, b2) := b in (b0 * x, b1 * x, b2 * x).
Definition minus (a b : vec3) : vec3 := let '(a0, a1, a2) := a in let '(b0, b1, b2) := b in (a0 - b0, a1 - b1, a2 - b2).
Definition over (b : vec3) (x : R) : outcome vec3 :=
  let '(b0, b1, b2) := b in do c0 <- c_div b0 x; do c1 <- c_div b1 x; do c2 <- c_div b2 x; Ret (c0, c1, c2).

(** classel.cpp:141-143: "flattening" the eccentricity vector [e] into the plane at right
    angles to [h] *)
Definition flatten (e h : vec3) (h0 : R) : outcome vec3 :=
  do tval <- c_div (dot_product e h) h0;
  Ret (minus e (times tval h)).

(** classel.cpp:127-137: node and inclination, for ref & 1 *)
Definition node_and_incl (h : vec3) (n0 h0 : R) : outcome (R * R) :=
  let '(hx, hy, hz) := h in
  let asc_node := if Reqb n0 0 then 0 else atan2 hx (- hy) in
  do s <- c_div n0 h0;
  do incl <- asine s;
  Ret (asc_node, if Rltb hz 0 then PI - incl else incl).

(** classel.cpp:188-214: the argument of the perihelion, for ref & 1 *)
Definition argument (h e : vec3) (n0 h0 : R) : outcome R :=
  let '(hx, hy, hz) := h in let '(ex, ey, ez) := e in
  do cos_arg_per <- (if negb (Reqb n0 0) then c_div (hx * ey - hy * ex) n0 else Ret ex);
  do arg_per <-
    (if Rltb cos_arg_per (7 / 10) && Rltb (- (7 / 10)) cos_arg_per then c_acos cos_arg_per
     else
       do sin_arg_per <- (if negb (Reqb n0 0) then c_div (ex * hx * hz + ey * hy * hz - ez * n0 * n0) (n0 * h0)
                          else c_div (ey * hz) h0);
       do a <- c_asin sin_arg_per;
       let arg_per := Rabs a in
       Ret (if Rltb cos_arg_per 0 then PI - arg_per else arg_per));
  Ret (if Rltb ez 0 then PI + PI - arg_per else arg_per).

(** classel.cpp:158-179: the perihelion distance, and the inverse of the major axis, improved for
    eccentricities from 0.9 on *)
Definition perihelion (gm ecc inv_major_axis h0 : R) : outcome (R * R) :=
  do '(q, inv_major_axis) <-
    (if Rltb ecc (9 / 10) then do q <- c_div (1 - ecc) inv_major_axis; Ret (q, inv_major_axis)
     else
       do gm_over_h0 <- c_div gm h0;
       do x <- c_div (inv_major_axis * h0 * h0) gm;
       do s <- c_sqrt (1 - x);
       let perihelion_speed := gm_over_h0 * (1 + s) in
       if Reqb h0 0 || Reqb gm_over_h0 0 || Reqb perihelion_speed 0 then Abort
       else
         do q <- c_div h0 perihelion_speed;
         if Reqb q 0 then Abort else
         do inv <- c_div (1 - ecc) q;
         Ret (q, inv));
  if Rltb 0 q then Ret (q, inv_major_axis) else Abort.

(** classel.cpp:216-259: mean anomaly and perihelion time, for ellipses and hyperbolas *)
Definition near_one (ecc : R) : bool := Rltb (99999 / 100000) ecc && Rltb ecc (100001 / 100000).
Definition anomaly (fuel : nat) (ecc inv_major_axis m r_cos r_sin t0 t : R) : outcome (R * R) :=
  do sin_E <- c_div (r_sin * inv_major_axis) m;
  if Rltb 0 inv_major_axis then
    let cos_E := r_cos * inv_major_axis + ecc in
    let ecc_anom := atan2 sin_E cos_E in
    do mean_anomaly <-
      (if near_one ecc then do x <- remaining_terms fuel (- ecc_anom * ecc_anom); Ret (ecc_anom * (1 - ecc) - ecc * ecc_anom * x)
       else Ret (ecc_anom - ecc * sin_E));
    Ret (mean_anomaly, t - mean_anomaly * t0)
  else
    let ecc_anom := arcsinh sin_E in
    do mean_anomaly <-
      (if near_one ecc then do x <- remaining_terms fuel (ecc_anom * ecc_anom); Ret (ecc_anom * (1 - ecc) - ecc * ecc_anom * x)
       else Ret (ecc_anom - ecc * sin_E));
    if Rleb t0 0 then Ret (mean_anomaly, t - mean_anomaly * Rabs t0) else Abort.

(** classel.cpp:104-281 (calc_classical_elements( )); [angles] is ref & 1. *)
Definition calc_classical_elements (fuel : nat) (el : elements) (r v : vec3) (t : R) (angles : bool) : outcome elements :=
  let gm := gm_ el in
  let r_dot_v := dot_product r v in
  let dist := vector3_length r in
  let v2 := dot_product v v in
  do x <- c_div 2 dist;
  do y <- c_div v2 gm;
  let inv_major_axis := x - y in
  if Reqb gm 0 then Abort else
  let h := cross_product r v in
  let '(hx, hy, hz) := h in
  let n0 := hx * hx + hy * hy in
  let h0 := n0 + hz * hz in
  if negb (Rltb 0 dist && Rltb 0 v2 && Rltb 0 h0) then Abort else
  do n0 <- c_sqrt n0;
  do h0 <- c_sqrt h0;
  do '(node, inclination) <- (if angles then node_and_incl h n0 h0 else Ret (asc_node el, incl el));
  do e <- over (cross_product v h) gm;
  do u <- over r dist;
  do e <- flatten (minus e u) h h0;
  let ecc2 := dot_product e e in
  let ecc2 := if Rltb (Rabs (ecc2 - 1)) (1 / 10 ^ 14) then 1 else ecc2 in
  let m := sqrt (Rabs (1 - ecc2)) in
  do ecc <- c_sqrt ecc2;
  do e <- (if Reqb ecc 0 then over r dist else over e ecc);
  do '(q, inv_major_axis) <- perihelion gm ecc inv_major_axis h0;
  do '(a, t0) <-
    (if negb (Reqb inv_major_axis 0) then
       do a <- c_div 1 inv_major_axis;
       do x <- c_div (Rabs a) gm; do s <- c_sqrt x;
       Ret (a, a * s)
     else Ret (major_axis el, t0 el));
  let side := cross_product h e in
  do arg <- (if angles then argument h e n0 h0 else Ret (arg_per el));
  do '(mean, perih, w0, h1) <-
    (if negb (Reqb inv_major_axis 0) && negb (Reqb m 0) then
       let r_cos := dot_product r e in
       do r_sin <- c_div (dot_product r side) h0;
       do '(mean, perih) <- anomaly fuel ecc inv_major_axis m r_cos r_sin t0 t;
       Ret (mean, perih, w0 el, if Rltb 0 inv_major_axis then h0 else - h0)
     else
       do x <- c_div dist q;
       do tau <- c_sqrt (x - 1);
       let tau := if Rltb r_dot_v 0 then - tau else tau in
       do x <- c_div q gm; do s <- c_sqrt x;
       do w0 <- c_div (3 / sqrt 2) (q * s);
       do x <- c_div (tau * (tau * tau / 3 + 1) * 3) w0;
       Ret (mean_anomaly el, t - x, w0, h0));
  do side <- over side h1;
  Ret (mk_elements perih q ecc inclination arg node mean (lon_per el) m e side h1 a t0 w0 gm).
