(** Refraction (refract.cpp 45-91).  Doubles are exact real numbers; a division by zero is [Abort]. *)
From Coq Require Export Reals.
From Verif Require Export TrigBase.
Local Open Scope R_scope.

(** The division of C. *)
Definition quot (a b : R) : outcome R := if Req_EM_T b 0 then Abort else Ret (a / b).

(** refraction( ), refract.cpp 45-53. *)
Definition refraction (observed_alt : R) : outcome R :=
  do x <- quot (7.31 * PI / 180) (observed_alt * 180 / PI + 4.4);
  let ang := observed_alt + x in
  do c <- quot (cos ang) (sin ang);
  let rval := c - 0.06 * sin ((14.7 * c + 13) * PI / 180) in
  Ret (rval * (PI / 180) / 60).

(** The first approximation of reverse_refraction( ), refract.cpp 61-63. *)
Definition first_guess (true_alt : R) : outcome R :=
  do x <- quot (10.3 * PI / 180) (true_alt * 180 / PI + 5.11);
  let ang := true_alt + x in
  do c <- quot (cos ang) (sin ang);
  Ret (c * (1.02 * (PI / 180) / 60)).

(** The loop, refract.cpp 66-71; [n_iter] passes are left. *)
Definition tolerance : R := 0.01 * (PI / 180) / 3600.
Fixpoint improve (n_iter : nat) (true_alt rval delta : R) : outcome R :=
  match n_iter with
  | O => Ret rval
  | S n =>
    if (Rltb tolerance delta || Rltb delta (- tolerance))%bool then
      do r <- refraction (true_alt + rval);
      improve n true_alt r (rval - r)
    else Ret rval
  end.

(** reverse_refraction( ), refract.cpp 55-73. *)
Definition reverse_refraction (true_alt : R) : outcome R :=
  do rval <- first_guess true_alt;
  improve 10 true_alt rval 1.

(** saasta_refraction( ), refract.cpp 75-91.  exp( delta * log( x)) is as in C for x > 0; the logarithm of a number that is not positive is
    [Abort]. *)
Definition saasta_refraction (observed_alt pressure_mb temp_kelvin relative_humidity : R) : outcome R :=
  do tan_z0 <- quot (cos observed_alt) (sin observed_alt);
  let tan_z0_2 := tan_z0 * tan_z0 in
  if Rleb temp_kelvin 0 then Abort else
  let pw0 := relative_humidity * exp (18.36 * ln (temp_kelvin / 247.1)) in
  do q <- quot (pressure_mb - 0.156 * pw0) temp_kelvin;
  let xi := 16.271 * q * tan_z0 * (1 + 0.0000394 * q * tan_z0_2) - 0.0000749 * pressure_mb * tan_z0 * (1 + tan_z0_2) in
  Ret (xi * (PI / 180) / 3600).
