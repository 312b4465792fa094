(** Property C70 (refraction; refract.cpp).

    [deg], [arcmin], [arcsec], [cot] and [bennett] are those of [RefSpec]. *)
From Coq Require Import Lra Psatz.
From Verif Require Import CBase RBase TrigBase RefModel RefSpec RockCentre MarsThms RefProofs RefThms.
Local Open Scope R_scope.

(** The refraction is that of the published formula of Bennett, wherever the formula makes sense. *)
Theorem C70_bennett :
forall h, h + 4.4 <> 0 -> sin (deg (h + 7.31 / (h + 4.4))) <> 0 -> refraction (deg h) = Ret (arcmin (bennett h)).
Proof. exact C70_bennett_proof. Qed.
Print Assumptions C70_bennett.

Example C70_bennett_case : sin (deg (0 + 7.31 / (0 + 4.4))) <> 0.
Proof. destruct (seen_bounds 0) as (_ & H & _); [unfold seen; lra|]. unfold inner in H. lra. Qed.

(** From 4 degrees below the horizon up to the zenith the formula makes sense: nothing is divided by zero, and the refraction is between -0.08 and 58 minutes of arc. *)
Theorem C70_defined :
forall h, -4 <= h <= 90 -> exists r, refraction (deg h) = Ret r /\ arcmin (-0.08) <= r <= arcmin 58.
Proof. exact C70_defined_proof. Qed.
Print Assumptions C70_defined.

Example C70_defined_case : -4 <= -1 <= 90 /\ refraction (deg (-4.4)) = Abort.
Proof. split; [lra|]. unfold refraction. assert (X : deg (-4.4) * 180 / PI = -4.4) by (pose proof PI_lo_hi; unfold deg; field; lra). rewrite X. replace (-4.4 + 4.4) with 0 by lra. unfold quot. destruct (Req_EM_T 0 0); [reflexivity|contradiction]. Qed.

(** For every true altitude from the horizon to the zenith the refraction found from it ends with a value, and is within 0.1 second of arc of the refraction at the apparent altitude it leads to. *)
Theorem C70_reverse :
forall t, 0 <= t <= 90 -> exists r s, reverse_refraction (deg t) = Ret r /\ refraction (deg t + r) = Ret s /\ Rabs (s - r) <= arcsec 0.1.
Proof. exact C70_reverse_proof. Qed.
Print Assumptions C70_reverse.

Example C70_reverse_case : (0 <= 0 <= 90) /\ (0 <= 90 <= 90). Proof. lra. Qed.

(** An apparent altitude is found again: with the refraction r at the apparent altitude h, the refraction found from the true altitude h - r is within 0.16 second of arc of r, for all altitudes with h - r from the horizon to the zenith. *)
Theorem C70_round_trip :
forall h r, 0 <= h <= 90 -> refraction (deg h) = Ret r -> 0 <= deg h - r <= deg 90 ->
  exists s, reverse_refraction (deg h - r) = Ret s /\ Rabs (s - r) <= arcsec 0.16.
Proof. exact C70_round_trip_proof. Qed.
Print Assumptions C70_round_trip.

Example C70_round_trip_case : exists r, refraction (deg 45) = Ret r /\ 0 <= deg 45 - r <= deg 90.
Proof.
  destruct (C70_defined 45 ltac:(lra)) as (r & E & B). exists r. split; [exact E|]. pose proof pi_deg as P. unfold arcmin in B. rewrite !deg_pi in *. lra.
Qed.

(** At the zenith, where there is no refraction, the value is not zero but less than -0.75 second of arc: stars are moved away from the zenith. *)
Theorem C70_zenith_refuted :
exists r, refraction (deg 90) = Ret r /\ r < arcsec (-0.75).
Proof. exact C70_zenith_refuted_proof. Qed.
Print Assumptions C70_zenith_refuted.

Example C70_zenith_refuted_case : cos (deg 90) = 0.
Proof. unfold deg. replace (90 * PI / 180) with (PI / 2) by field. apply cos_PI2. Qed.

(** The refraction for a given pressure, temperature and humidity is that of the formula of Saastamoinen, at every zenith distance below 90 degrees. *)
Theorem C70_saastamoinen :
forall z pressure temperature humidity, 0 < temperature -> - PI / 2 < z < PI / 2 ->
  saasta_refraction (PI / 2 - z) pressure temperature humidity = Ret (arcsec (saastamoinen z pressure temperature humidity)).
Proof. exact C70_saastamoinen_proof. Qed.
Print Assumptions C70_saastamoinen.

Example C70_saastamoinen_case : 0 < 293 /\ - PI / 2 < 1 < PI / 2. Proof. pose proof PI_lo_hi. lra. Qed.

(** The other formula, of Saastamoinen, is zero at the zenith whatever the pressure, temperature and humidity, and the same on both sides of it. *)
Theorem C70_saasta :
forall pressure temperature humidity, 0 < temperature ->
  saasta_refraction (PI / 2) pressure temperature humidity = Ret 0 /\
  forall alt, 0 < alt < PI -> exists r, saasta_refraction alt pressure temperature humidity = Ret r /\ saasta_refraction (PI - alt) pressure temperature humidity = Ret (- r).
Proof. exact C70_saasta_proof. Qed.
Print Assumptions C70_saasta.

Example C70_saasta_case : 0 < 293 /\ 0 < PI / 4 < PI. Proof. pose proof PI_lo_hi. lra. Qed.
