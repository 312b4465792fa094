(** Property C65 (elements for people to read: epoch, perihelion, distances; showelem.cpp: elements_in_mpc_format).

    [says_epoch], [says_perihelion] and [says_distance] say what a text tells of an instant or a distance.  See [ShowSpec].
    [dmy_result] and [switch_valid] are those of C01: the calendar date of a day by number, and that it exists. *)
From Coq Require Import QArith Qround Qabs String Lia.
From Verif Require Import CBase CStr DateModel DateVocab DateSpec TstrModel CtimeModel CtimeSpec ShowModel ShowSpec ShowThms.
Import ListNotations.
Local Open Scope string_scope.
Local Open Scope list_scope.
Local Open Scope Z_scope.

(** The line for the epoch gives its calendar date, the day with a fraction, and the Julian date, which name the same instant, within a millionth of a day of the epoch; of the decimals only zeroes are left out, the same number of them in both. *)
Theorem C65_epoch :
forall L room epoch, long_ok L -> (0 <= epoch)%Q -> (epoch <= 1000000000)%Q -> jd_ok L (Qfloor (epoch + (1 # 2))) -> (100 <= room)%nat ->
  exists d m y t, dmy_result L (Qfloor (epoch + (1 # 2))) CALENDAR_JULIAN_GREGORIAN d m y /\ switch_valid (d, m, y) /\ says_epoch epoch d m y (Qfloor (epoch + (1 # 2))) t /\
    exists N, forall fuel ic, (N <= fuel)%nat -> epoch_line L fuel ic room epoch = Ret t.
Proof. exact C65_epoch_proof. Qed.
Print Assumptions C65_epoch.

Example C65_epoch_case : epoch_line LMAX64 10 0 200 (24515452500001 # 10000000) = Ret (zs "Epoch 2000 Jan  1.75 TT = JDT 2451545.25") /\
  epoch_line LMAX64 10 0 200 (2451545123456 # 1000000) = Ret (zs "Epoch 2000 Jan  1.623456 TT = JDT 2451545.123456").
Proof. split; vm_compute; reflexivity. Qed.

(** The line for the time of perihelion names the body, and gives the calendar date with the number of decimals asked for, rounded. *)
Theorem C65_perihelion :
forall L room central t p, long_ok L -> (2 < t)%Q -> (t < 3000000)%Q -> (p <= 15)%nat -> (100 <= room)%nat ->
  exists d m y line, dmy_result L (Qfloor (t + (1 # 2))) CALENDAR_JULIAN_GREGORIAN d m y /\ switch_valid (d, m, y) /\
    says_perihelion central (inject_Z d + (t + (1 # 2)) - inject_Z (Qfloor (t + (1 # 2)))) m y p line /\
    exists N, forall fuel ic, (N <= fuel)%nat -> peri_line L fuel ic room central t p = Ret (Some line).
Proof. exact C65_perihelion_proof. Qed.
Print Assumptions C65_perihelion.

Example C65_perihelion_case : peri_line LMAX64 10 0 200 3 (2451545123456 # 1000000) 4 = Ret (Some (zs "   Perigee 2000 Jan 1.6235 TT")).
Proof. vm_compute; reflexivity. Qed.

(** Other times of perihelion are not shown. *)
Theorem C65_no_perihelion :
forall L room central t p fuel ic, (t <= 2)%Q \/ (3000000 <= t)%Q -> peri_line L fuel ic room central t p = Ret None.
Proof. exact C65_no_perihelion_proof. Qed.
Print Assumptions C65_no_perihelion.

Example C65_no_perihelion_case : peri_line LMAX64 10 0 200 0 3000000 4 = Ret None.
Proof. vm_compute; reflexivity. Qed.

(** A distance up to 999999 au is shown with the number of digits asked for and four more, in kilometres if it is at most 999999 km; the digits are cut off, so that the distance is not below the one shown and is less than one unit of the last digit above it. *)
Theorem C65_distance :
forall size d precision, (0 <= d)%Q -> (d <= 999999)%Q -> (precision <= 15)%nat -> (30 <= size)%nat ->
  exists t, show_formatted_dist size size d precision = Ret t /\ says_distance d (precision + 4) t.
Proof. exact C65_distance_proof. Qed.
Print Assumptions C65_distance.

Example C65_distance_case : show_formatted_dist 40 40 (23456789 # 10000000) 3 = Ret (zs "   2.345678") /\ show_formatted_dist 40 40 (1 # 1000) 3 = Ret (zs "149597.8km").
Proof. split; vm_compute; reflexivity. Qed.

(** A negative distance is shown as a minus sign and the distance, if there is a byte more than the size says. *)
Theorem C65_negative_distance :
forall size d precision, (d < 0)%Q -> (-999999 <= d)%Q -> (precision <= 15)%nat -> (30 <= size)%nat ->
  exists t, show_formatted_dist (S size) size d precision = Ret (45 :: t) /\ says_distance (- d) (precision + 4) t.
Proof. exact C65_negative_distance_proof. Qed.
Print Assumptions C65_negative_distance.

Example C65_negative_distance_case : show_formatted_dist 41 40 (-(23456789 # 10000000)) 3 = Ret (zs "-   2.345678").
Proof. vm_compute; reflexivity. Qed.

(** A distance above 999999 au is not shown. *)
Theorem C65_huge :
forall size d precision, (999999 < d)%Q -> (8 <= size)%nat -> show_formatted_dist size size d precision = Ret (zs " <HUGE>").
Proof. exact C65_huge_proof. Qed.
Print Assumptions C65_huge.

Example C65_huge_case : show_formatted_dist 40 40 1000000 3 = Ret (zs " <HUGE>") /\ show_formatted_dist 40 40 999999 3 = Ret (repeat 32 1 ++ zs "999999.0").
Proof. split; vm_compute; reflexivity. Qed.

(** Finding: the day shown may not exist.  Less than 0.6 millionths of a day before a month ends, its epoch is shown as day 32 (or 31, 30, 29); with few decimals, so is a perihelion hours before. *)
Theorem C65_day_32_refuted :
epoch_line LMAX64 10 0 200 (24519104999998 # 10000000) = Ret (zs "Epoch 2000 Dec 32.0 TT = JDT 2451910.5") /\
  peri_line LMAX64 10 0 200 0 (245157525 # 100) 0 = Ret (Some (zs "   Perihelion 2000 Jan 32 TT")).
Proof. exact C65_day_32_refuted_proof. Qed.
Print Assumptions C65_day_32_refuted.

(** Finding: for every negative distance from 999999 km to 9999 au, an array of 24 bytes, which is enough for the text of the distance, is overrun: the size is not made smaller behind the minus sign. *)
Theorem C65_minus_overrun_refuted :
forall x precision, (999999 < x * au_in_km)%Q -> (x <= 9999)%Q -> show_formatted_dist 24 24 (- x) precision = UB.
Proof. exact C65_minus_overrun_refuted_proof. Qed.
Print Assumptions C65_minus_overrun_refuted.

Example C65_minus_overrun_case : show_formatted_dist 24 24 (-1) 3 = UB /\ show_formatted_dist 24 24 1 3 = Ret (zs "   1.000000").
Proof. split; vm_compute; reflexivity. Qed.
