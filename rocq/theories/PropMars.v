(** Property C41 (Mars time).  Doubles are modelled by real numbers.

    [true_solar_time] and [near_2000] are defined in [MarsSpec]. *)
From Coq Require Import Lia.
From Verif Require Import RBase MarsModel MarsSpec MarsThms.
Open Scope list_scope.

(** C41.  tt_to_mtc and mtc_to_tt are inverse functions. *)
Theorem C41_inverse :
  (forall jd, mtc_to_tt (tt_to_mtc jd) = jd) /\ (forall mtc, tt_to_mtc (mtc_to_tt mtc) = mtc).
Proof. exact C41_inverse_proof. Qed.
Print Assumptions C41_inverse.

(** C41.  Mars coordinated time advances by one sol every 1.0274912517 days, and is 44795.9990374 at
    JD 2451549.5. *)
Theorem C41_rate :
  (forall jd x, tt_to_mtc (jd + x * (10274912517 / 10000000000)) = tt_to_mtc jd + x) /\
  tt_to_mtc (24515495 / 10) = 447959990374 / 10000000.
Proof. exact C41_rate_proof. Qed.
Print Assumptions C41_rate.

(** C41.  Within a million days of J2000, true and mean solar time differ by less than 0.041 sol (an
    hour), and by less than 0.00051 sol more or less a day later. *)
Theorem C41_equation_of_time :
  forall jd, near_2000 jd ->
  Rabs (mars_true_solar_minus_mean_solar_time jd) <= 41 / 1000 /\
  forall jd', near_2000 jd' ->
    Rabs (mars_true_solar_minus_mean_solar_time jd' - mars_true_solar_minus_mean_solar_time jd) <= 51 / 100000 * Rabs (jd' - jd).
Proof. exact C41_equation_of_time_proof. Qed.
Print Assumptions C41_equation_of_time.

Example C41_equation_of_time_case : near_2000 2461361. Proof. unfold near_2000. apply Rabs_def1; lra. Qed.

(** C41.  True solar time runs forward: a later date has a later true solar time. *)
Theorem C41_monotone :
  forall jd jd', near_2000 jd -> near_2000 jd' -> jd < jd' -> true_solar_time jd < true_solar_time jd'.
Proof. exact C41_monotone_proof. Qed.
Print Assumptions C41_monotone.

(** C41.  mtst_at_airy_to_tt gives the date back from the true solar time to within 1.2e-8 day (about
    a millisecond), for every date within a million days of J2000. *)
Theorem C41_true_solar_back :
  forall jd, near_2000 jd -> Rabs (mtst_at_airy_to_tt (true_solar_time jd) - jd) <= 12 / 1000000000.
Proof. exact C41_true_solar_back_proof. Qed.
Print Assumptions C41_true_solar_back.

(** C41.  A true solar time belongs to at most one date, so there is only one right answer. *)
Theorem C41_true_solar_unique :
  forall jd jd', near_2000 jd -> near_2000 jd' -> true_solar_time jd = true_solar_time jd' -> jd = jd'.
Proof. exact C41_true_solar_unique_proof. Qed.
Print Assumptions C41_true_solar_unique.

(** C41.  The equation of time is the published one (in degrees there, in sols here). *)
Theorem C41_published :
  forall jd, 360 * mars_true_solar_minus_mean_solar_time jd = equation_of_time (jd - 2451545).
Proof. exact C41_published_proof. Qed.
Print Assumptions C41_published.
