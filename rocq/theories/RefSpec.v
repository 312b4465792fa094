(** The published formula of Bennett for refraction, in the units of the publication, independently of the code. *)
From Coq Require Export Reals.
Local Open Scope R_scope.

(** Degrees. *)
Definition deg (x : R) : R := x * PI / 180.
Definition cot (x : R) : R := cos x / sin x.

(** Refraction, in minutes of arc, at an apparent altitude of [h] degrees (Bennett 1982; Meeus, Astronomical Algorithms, p. 102). *)
Definition bennett (h : R) : R :=
  let r := cot (deg (h + 7.31 / (h + 4.4))) in r - 0.06 * sin (deg (14.7 * r + 13)).

(** Minutes and seconds of arc. *)
Definition arcmin (x : R) : R := deg (x / 60).
Definition arcsec (x : R) : R := deg (x / 3600).

(** The formula of Saastamoinen, in seconds of arc, at the apparent zenith distance [z], for a pressure in millibars, a temperature in kelvins
    and a relative humidity: the pressure of water vapour, and the terms in tan z and its cube. *)
Definition vapour (temperature humidity : R) : R := humidity * Rpower (temperature / 247.1) 18.36.
Definition saastamoinen (z pressure temperature humidity : R) : R :=
  let q := (pressure - 0.156 * vapour temperature humidity) / temperature in
  16.271 * q * tan z + 16.271 * 0.0000394 * q ^ 2 * tan z ^ 3 - 0.0000749 * pressure * (tan z + tan z ^ 3).
