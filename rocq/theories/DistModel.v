(** Model of dist_pa.cpp over the reals.  Points are pairs (theta, phi). *)
From Verif Require Import TrigBase.

(** dist_pa.cpp:89-128 [calc_dist_and_posn_ang] with a non-NULL posn_ang; returns
    *dist, *posn_ang and the return value.  (With NULL, *dist is the same and 0 is
    returned.) *)
Definition calc_dist_and_posn_ang (p1 p2 : R * R) : outcome (R * R * Z) :=
  let one_minus_cos_dtheta := 1 - cos (fst p1 - fst p2) in
  let cos_dec2 := cos (snd p2) in
  let delta_dec := snd p2 - snd p1 in
  let x_component := sin (fst p2 - fst p1) * cos_dec2 in
  let y_component := sin delta_dec + one_minus_cos_dtheta * sin (snd p1) * cos_dec2 in
  let z_component := cos delta_dec - one_minus_cos_dtheta * cos (snd p1) * cos_dec2 in
  do dist <-
    (if (Rltb (- (7 / 10)) z_component && Rltb z_component (7 / 10))%bool then c_acos z_component
     else
       let sin_dist := sqrt (x_component * x_component + y_component * y_component) in
       do dist <- c_asin sin_dist;
       Ret (if Rltb z_component 0 then PI - dist else dist));
  if (negb (Reqb x_component 0) || negb (Reqb y_component 0))%bool then
    let posn_ang := atan2 y_component x_component - PI / 2 in
    let posn_ang := if Rltb posn_ang 0 then posn_ang + (PI + PI) else posn_ang in
    Ret (dist, posn_ang, 0%Z)
  else Ret (dist, 0, (-1)%Z).

(** dist_pa.cpp:130-154 [reverse_dist_and_posn_ang]; returns to. *)
Definition reverse_dist_and_posn_ang (from : R * R) (dist posn_ang : R) : outcome (R * R) :=
  let cos_lat := cos (snd from) in
  let sin_lat := sin (snd from) in
  let sin_dist := sin dist in
  let cos_dist := cos dist in
  let sin_pa := sin posn_ang in
  let sin_dist_cos_pa := sin_dist * cos posn_ang in
  let x := cos_lat * cos_dist - sin_lat * sin_dist_cos_pa in
  let y := sin_dist * sin_pa in
  let z := sin_lat * cos_dist + cos_lat * sin_dist_cos_pa in
  let to0 := if (negb (Reqb x 0) || negb (Reqb y 0))%bool then fst from - atan2 y x else fst from in
  do to1 <-
    (if (Rltb z (7 / 10) && Rltb (- (7 / 10)) z)%bool then c_asin z
     else do t <- c_acos (sqrt (x * x + y * y)); Ret (if Rltb z 0 then - t else t));
  Ret (to0, to1).
