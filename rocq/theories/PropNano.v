(** Property C66 (the time now; nanosecs.cpp).

    An instant is a number of nanoseconds since 1970; [reads_microseconds], [reads_milliseconds] and [reads_filetime] say what
    the clocks of three kinds of systems show at an instant.  See [NanoSpec].  [f], the numbering of days, is that of C05. *)
From Coq Require Import QArith Qround Lia.
From Verif Require Import CBase DateModel DateVocab DateSpec NanoModel NanoSpec NanoThms.
Local Open Scope Z_scope.

(** Where the clock gives microseconds, the result is the time in nanoseconds, exact to the microsecond. *)
Theorem C66_posix :
forall t sec usec, reads_microseconds t sec usec -> first_instant + 1000000000 <= t <= last_instant ->
  exists v, nanoseconds_posix 0 sec usec = Ret v /\ v <= t < v + 1000.
Proof. exact C66_posix_proof. Qed.
Print Assumptions C66_posix.

Example C66_posix_case : reads_microseconds 1700000000123456789 1700000000 123456 /\ nanoseconds_posix 0 1700000000 123456 = Ret 1700000000123456000.
Proof. split; [split; split; reflexivity || discriminate|reflexivity]. Qed.

(** Where it gives milliseconds, the result is exact to the millisecond. *)
Theorem C66_watcom :
forall t sec msec, reads_milliseconds t sec msec -> first_instant + 1000000000 <= t <= last_instant ->
  exists v, nanoseconds_watcom sec msec = Ret v /\ v <= t < v + 1000000.
Proof. exact C66_watcom_proof. Qed.
Print Assumptions C66_watcom.

Example C66_watcom_case : nanoseconds_watcom 1700000000 123 = Ret 1700000000123000000.
Proof. reflexivity. Qed.

(** Where it counts from 1601 in units of 100 nanoseconds, the result counts from 1970 and is exact to such a unit, before 1970 as well. *)
Theorem C66_windows :
forall f, counts_days gregorian (1, 1, 2000) 2451545 f ->
  forall t low high, reads_filetime f t low high -> first_instant + 100 <= t <= last_instant ->
  nanoseconds_windows low high <= t < nanoseconds_windows low high + 100.
Proof. exact C66_windows_proof. Qed.
Print Assumptions C66_windows.

Example C66_windows_case : nanoseconds_windows 3577643008 27111902 = 0 /\ nanoseconds_windows 3577643007 27111902 = -100.
Proof. split; reflexivity. Qed.

(** Two systems of different kinds that look at the same instant differ by less than the unit of the coarser one. *)
Theorem C66_agree :
forall f, counts_days gregorian (1, 1, 2000) 2451545 f ->
  forall t sec usec s msec low high, reads_microseconds t sec usec -> reads_milliseconds t s msec -> reads_filetime f t low high -> first_instant + 1000000000 <= t <= last_instant ->
  exists v w, nanoseconds_posix 0 sec usec = Ret v /\ nanoseconds_watcom s msec = Ret w /\ 0 <= nanoseconds_windows low high - v < 1000 /\ 0 <= v - w < 1000000.
Proof. exact C66_agree_proof. Qed.
Print Assumptions C66_agree.

Example C66_agree_case : reads_microseconds 1234567890 1 234567 /\ reads_milliseconds 1234567890 1 234 /\ nanoseconds_posix 0 1 234567 = Ret 1234567000 /\ nanoseconds_watcom 1 234 = Ret 1234000000.
Proof. split; [split; split; reflexivity || discriminate|]. split; [split; split; reflexivity || discriminate|]. split; reflexivity. Qed.

(** A clock that goes forward never gives a smaller result. *)
Theorem C66_order :
forall f, counts_days gregorian (1, 1, 2000) 2451545 f ->
  forall t1 t2, first_instant + 1000000000 <= t1 -> t1 <= t2 -> t2 <= last_instant ->
  (forall a b c d, reads_microseconds t1 a b -> reads_microseconds t2 c d -> exists v w, nanoseconds_posix 0 a b = Ret v /\ nanoseconds_posix 0 c d = Ret w /\ v <= w) /\
  (forall a b c d, reads_milliseconds t1 a b -> reads_milliseconds t2 c d -> exists v w, nanoseconds_watcom a b = Ret v /\ nanoseconds_watcom c d = Ret w /\ v <= w) /\
  (forall a b c d, reads_filetime f t1 a b -> reads_filetime f t2 c d -> nanoseconds_windows a b <= nanoseconds_windows c d).
Proof. exact C66_order_proof. Qed.
Print Assumptions C66_order.

Example C66_order_case : nanoseconds_posix 0 (-1) 999999 = Ret (-1000) /\ nanoseconds_posix 0 0 0 = Ret 0.
Proof. split; reflexivity. Qed.

(** As the comment says, this works until Friday, 2262 April 11, 23:47:16.854775807: that is the last instant. *)
Theorem C66_last_moment :
forall f, counts_days gregorian (1, 1, 2000) 2451545 f ->
  last_instant = (f (11, 4, 2262) - f (1, 1, 1970)) * ns_per_day + ((23 * 60 + 47) * 60 + 16) * 1000000000 + 854775807 /\ f (11, 4, 2262) mod 7 = 4.
Proof. exact C66_last_moment_proof. Qed.
Print Assumptions C66_last_moment.

(** After that, the signed product or sum overflows where the clock gives microseconds; where it counts from 1601, the time is before 1970 for 292 years. *)
Theorem C66_after_refuted :
forall f, counts_days gregorian (1, 1, 2000) 2451545 f ->
  forall t, last_instant < t ->
  (forall sec usec, reads_microseconds t sec usec -> last_instant + 1000 <= t -> nanoseconds_posix 0 sec usec = UB) /\
  (forall low high, reads_filetime f t low high -> last_instant + 100 <= t < 2 ^ 64 -> nanoseconds_windows low high < 0).
Proof. exact C66_after_refuted_proof. Qed.
Print Assumptions C66_after_refuted.

Example C66_after_case : nanoseconds_posix 0 9223372036 854776 = UB /\ nanoseconds_posix 0 9223372036 854775 = Ret 9223372036854775000.
Proof. split; reflexivity. Qed.

(** The Julian date of a time: days start at noon before, 1970 January 1 is the day number it has in the calendar, and the rest is the part of the day since 0h. *)
Theorem C66_current_jd :
forall f, counts_days gregorian (1, 1, 2000) 2451545 f ->
  forall v, Qfloor (current_jd v + (1 # 2)) = f (1, 1, 1970) + v / ns_per_day /\
    (current_jd v + (1 # 2) - inject_Z (Qfloor (current_jd v + (1 # 2))) == inject_Z (v mod ns_per_day) / inject_Z ns_per_day)%Q.
Proof. exact C66_current_jd_proof. Qed.
Print Assumptions C66_current_jd.

Example C66_current_jd_case : (current_jd 0 == 24405875 # 10)%Q /\ (current_jd (12 * 3600 * 1000000000) == 2440588)%Q.
Proof. split; reflexivity. Qed.

(** Finding: a clock that cannot be read is not reported; the time is then 1970 January 1, 0h. *)
Theorem C66_failure_refuted :
forall rv sec usec, rv <> 0 -> nanoseconds_posix rv sec usec = nanoseconds_posix 0 0 0.
Proof. exact C66_failure_refuted_proof. Qed.
Print Assumptions C66_failure_refuted.
