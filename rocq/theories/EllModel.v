(** mpc_code.cpp: places on a flattened planet, as latitude and height or as
    parallax constants.  A double is modelled by the real number it holds. *)
From Verif Require Export TrigBase.
Local Open Scope R_scope.

(** Quotients and square roots that give NaN or infinity in C are [Abort] here. *)
Definition c_div (x y : R) : outcome R := if Reqb y 0 then Abort else Ret (x / y).
Definition c_sqrt (x : R) : outcome R := if Rltb x 0 then Abort else Ret (sqrt x).

(** mpc_code.cpp:122-133 (cbrt( )): the library's function where there is one. *)
Definition cbrt (z : R) : R :=
  if Rltb 0 z then Rpower z (1 / 3) else if Rltb z 0 then - Rpower (- z) (1 / 3) else 0.

(** mpc_code.cpp:104-116 (lat_alt_to_parallax( )): rho_cos_phi and rho_sin_phi.  The
    value returned, always zero, is left out. *)
Definition lat_alt_to_parallax (lat ht major minor : R) : outcome (R * R) :=
  do axis_ratio <- c_div minor major;
  do h <- c_div ht major;
  let u := atan2 (sin lat * axis_ratio) (cos lat) in
  Ret (cos u + h * cos lat, axis_ratio * sin u + h * sin lat).

(** mpc_code.cpp:180-194: a root of the cubic. *)
Definition ellipse_root (p q : R) : outcome R :=
  let d := p * p * p + q * q in
  if Rleb 0 d then
    do sqrt_d <- c_sqrt d;
    Ret (cbrt (sqrt_d - q) - cbrt (sqrt_d + q))
  else
    do sqp <- c_sqrt (- p);
    do r <- c_div q (sqp * p);
    do temp_ang <- c_acos r;
    Ret (2 * sqp * cos (temp_ang / 3)).

(** mpc_code.cpp:160-206 (point_to_ellipse( )): the angle returned and *dist.  Calls
    with a null dist give the same angle. *)
Definition point_to_ellipse (a b x y : R) : outcome (R * R) :=
  let fy := Rabs y in let fx := Rabs x in
  do '(lat, dist) <-
    (if Reqb x 0 then Ret (PI / 2, fy - a)
     else
       let c_squared := a * a - b * b in
       do e <- c_div (b * fy - c_squared) (a * fx);
       do f <- c_div (b * fy + c_squared) (a * fx);
       let p := 4 / 3 * (e * f + 1) in
       let q := 2 * (e * e - f * f) in
       do v <- ellipse_root p q;
       do s <- c_sqrt (e * e + v);
       let g := (s + e) * (1 / 2) in
       do w <- c_div (f - v * g) (2 * g - e);
       do z <- c_sqrt (g * g + w);
       let t := z - g in
       let lat := atan2 (a * (1 - t * t)) (2 * b * t) in
       Ret (lat, (fx - a * t) * cos lat + (fy - b) * sin lat));
  let lat := if Rltb x 0 then PI - lat else lat in
  let lat := if Rltb y 0 then - lat else lat in
  Ret (lat, dist).
