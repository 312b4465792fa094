(** Conversions of color indices (colors.cpp 40-214).  Doubles are exact real numbers; 0/0 is [Abort]. *)
From Coq Require Export Reals List.
From Verif Require Export TrigBase.
Export ListNotations.
Local Open Scope R_scope.

(** The loop, colors.cpp 67-71, over the COLOR_ORDER coefficients. *)
Fixpoint poly_loop (coeffs : list R) (ival power rval : R) : R :=
  match coeffs with
  | [] => rval
  | c :: cs => poly_loop cs ival (power * (ival - 1)) (rval + c * power)
  end.

(** compute_color_polynomial( ), colors.cpp 58-73. *)
Definition compute_color_polynomial (ival : R) (coeffs : list R) (low_limit high_limit : R) : R :=
  let rval := if (Rltb ival low_limit || Rltb high_limit ival)%bool then 99 else poly_loop coeffs ival 1 0 in
  rval + 1.

(** The loop of compute_inverse_color_polynomial( ), colors.cpp 89-112; [n] is max_iterations. *)
Fixpoint search (n : nat) (ival : R) (coeffs : list R) (ilow ihigh low high color_low color_high : R) : outcome R :=
  match n with
  | O => Ret 99
  | S n' =>
    if Reqb (color_high - color_low) 0 then Abort else
    let rval := (ival - color_low) / (color_high - color_low) in
    let rval := rval + rval * (rval - 0.5) * (rval - 1) in
    let rval := low + (high - low) * rval in
    let color_rval := compute_color_polynomial rval coeffs ilow ihigh in
    let less := Rltb color_rval ival in
    let low := if less then rval else low in
    let color_low := if less then color_rval else color_low in
    let high := if less then high else rval in
    let color_high := if less then color_high else color_rval in
    if (Rltb 0.000001 (high - low) && negb (Nat.eqb n' 0))%bool then search n' ival coeffs ilow ihigh low high color_low color_high
    else Ret (if Nat.eqb n' 0 then 99 else rval)
  end.

(** compute_inverse_color_polynomial( ), colors.cpp 75-114. *)
Definition compute_inverse_color_polynomial (ival : R) (coeffs : list R) (ilow ihigh : R) : outcome R :=
  let color_low := compute_color_polynomial ilow coeffs ilow ihigh in
  let color_high := compute_color_polynomial ihigh coeffs ilow ihigh in
  if (Rltb ival color_low || Rltb color_high ival)%bool then Ret 99
  else search 100 ival coeffs ilow ihigh ilow ihigh color_low color_high.

(** colors.cpp 116-121. *)
Definition coeffs_vi_to_bv : list R := [-0.6865072e-01; 0.8837997e+00; -0.3889774e+00; -0.4998126e-02; 0.3867544e+00; -0.5422331e+00;
  -0.8926476e-01; 0.5194797e+00; -0.2044681e+00; -0.1009025e+00; 0.9543256e-01; -0.2567529e-01; 0.2393742e-02].
(** colors.cpp 123-133. *)
Definition v_minus_i_to_b_minus_v (v_minus_i : R) : R := compute_color_polynomial v_minus_i coeffs_vi_to_bv (-0.23) 3.70.
Definition b_minus_v_to_v_minus_i (b_minus_v : R) : outcome R := compute_inverse_color_polynomial b_minus_v coeffs_vi_to_bv (-0.23) 3.70.
(** colors.cpp 135-139. *)
Definition coeffs_vi_to_vr : list R := [-0.4708373e+00; 0.5920728e+00; -0.1095294e-01; -0.2281118e+00; -0.9372892e-01; 0.1931393e+00;
  0.5077253e-01; -0.9927284e-01; 0.8560631e-02; 0.1922702e-01; -0.7201880e-02; 0.7743020e-03; 0].
(** colors.cpp 141-151. *)
Definition v_minus_i_to_v_minus_r (v_minus_i : R) : R := compute_color_polynomial v_minus_i coeffs_vi_to_vr (-0.30) 4.00.
Definition v_minus_r_to_v_minus_i (v_minus_r : R) : outcome R := compute_inverse_color_polynomial v_minus_r coeffs_vi_to_vr (-0.30) 4.00.
(** colors.cpp 153-162. *)
Definition coeffs_vr_to_bv : list R := [0.4860429e+00; 0.6904008e+00; -0.1229411e+01; 0.2990030e+01; 0.7104513e+01; -0.1637799e+02; -0.2977123e+02;
  0.4390751e+02; 0.6145810e+02; -0.5265358e+02; -0.6135921e+02; 0.2297835e+02; 0.2385013e+02].
Definition v_minus_r_to_b_minus_v (v_minus_r : R) : R := compute_color_polynomial v_minus_r coeffs_vr_to_bv (-0.10) 1.75.
(** colors.cpp 164-172. *)
Definition coeffs_bv_to_vr : list R := [-0.4140951e+00; 0.7357165e+00; -0.5242979e-01; -0.6293304e+00; 0.2332871e+01; 0.3812365e+01; -0.5082941e+01;
  -0.6520325e+01; 0.4817797e+01; 0.5065505e+01; -0.1706011e+01; -0.1568243e+01; 0].
Definition b_minus_v_to_v_minus_r (b_minus_v : R) : R := compute_color_polynomial b_minus_v coeffs_bv_to_vr (-0.23) 1.95.

(** colors.cpp 175-190. *)
Definition johnson_b_minus_v_from_tycho_b_minus_v (b_v_t : R) : R :=
  if (Rltb b_v_t (-0.2) || Rltb 1.8 b_v_t)%bool then 99
  else
    let delta :=
      if Rltb b_v_t 0.1 then -0.006 + 0.006 * (b_v_t + 0.2) / 0.3
      else if Rltb b_v_t 0.5 then 0.046 * (b_v_t - 0.1) / 0.4
      else if Rltb b_v_t 1.4 then 0.046 - 0.054 * (b_v_t - 0.5) / 0.9
      else if Rltb b_v_t 1.8 then -0.008 - 0.024 * (b_v_t - 1.4) / 0.4
      else 0 in
    0.85 * b_v_t + delta.

(** colors.cpp 199-214. *)
Definition johnson_v_from_tycho_b_minus_v (b_v_t tycho_v : R) : R :=
  if (Rltb b_v_t (-0.2) || Rltb 1.8 b_v_t)%bool then 99
  else
    let delta :=
      if Rltb b_v_t 0.1 then 0.014 - 0.014 * (b_v_t + 0.2) / 0.3
      else if Rltb b_v_t 0.5 then -0.005 * (b_v_t - 0.1) / 0.4
      else if Rltb b_v_t 1.4 then -0.005
      else if Rltb b_v_t 1.8 then -0.005 - 0.010 * (b_v_t - 1.4) / 0.4
      else 0 in
    tycho_v - 0.09 * b_v_t + delta.
