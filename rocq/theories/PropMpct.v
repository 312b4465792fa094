(** Property C39 (time stamps of observation IDs).

    [stamp], [field62], [d2], [d3] and [d4] are defined in [MpctSpec], [is_digit62] and
    [number62] in [DesigSpec], [gregorian] in [DateSpec]. *)
From Coq Require Import Lia String.
From Verif Require Import CBase CStr DateModel DateSpec DateVocab DesigModel DesigSpec MpctModel MpctSpec MpctThms.
Open Scope list_scope.

(** C39.  An ID that starts with the stamp of a date and time is printed as that date and time,
    whatever follows the stamp. *)
Theorem C39_decode :
  forall L y m d h mi s ms id rest, long_ok L -> stamp y m d h mi s ms id ->
  1800 <= y -> 1 <= m <= 12 -> 1 <= d <= 31 -> 0 <= h -> 0 <= mi < 60 -> 0 <= s < 60 -> 0 <= ms < 1000 ->
  exists lines, mpc_time L (id ++ rest) =
    Ret (d4 y ++ zs "-" ++ d2 m ++ zs "-" ++ d2 d ++ zs " " ++ d2 h ++ zs ":" ++ d2 mi ++ zs ":" ++ d2 s ++ zs "." ++ d3 ms, lines).
Proof. exact C39_decode_proof. Qed.
Print Assumptions C39_decode.

Example C39_decode_case : stamp 2021 3 7 13 22 17 190 (zs "LP6CWP34") /\
  mpc_time LMAX64 (zs "LP6CWP340000E5ZY010000QZe") = Ret (zs "2021-03-07 13:22:17.190",
    [zs "Submission counter: 0000E5ZY (mutant hex)"; zs "Sub-batch number within main batch counter: 01 (mutant hex)";
     zs "Observation number within the sub-batch: 0000QZe (mutant hex)"]).
Proof.
  split; [|vm_compute; reflexivity]. exists (zs "LP6"), (zs "CWP"), (zs "34"). split; [reflexivity|]. repeat split.
  - exists [21; 25; 6]. split; [repeat constructor; vm_compute; congruence|reflexivity].
  - exists [12; 32; 25]. split; [repeat constructor; vm_compute; congruence|reflexivity].
  - exists [3; 4]. split; [repeat constructor; vm_compute; congruence|reflexivity].
Qed.

(** C39.  Every string of eight base-62 digits is the stamp of exactly one date and time (with
    31-day months and as many hours as are needed). *)
Theorem C39_every_stamp :
  forall id ds, Forall2 is_digit62 id ds -> List.length id = 8%nat ->
  exists y m d h mi s ms, (1800 <= y /\ 1 <= m <= 12 /\ 1 <= d <= 31 /\ 0 <= h /\ 0 <= mi < 60 /\ 0 <= s < 60) /\ stamp y m d h mi s ms id /\
    forall y' m' d' h' mi' s' ms', (1800 <= y' /\ 1 <= m' <= 12 /\ 1 <= d' <= 31 /\ 0 <= h' /\ 0 <= mi' < 60 /\ 0 <= s' < 60) ->
      stamp y' m' d' h' mi' s' ms' id -> (y', m', d', h', mi', s', ms') = (y, m, d, h, mi, s, ms).
Proof. exact C39_every_stamp_proof. Qed.
Print Assumptions C39_every_stamp.

(** C39.  For a real date and time of day no warning is printed; for a bare stamp nothing else, for
    a full ID the three counters after the stamp. *)
Theorem C39_quiet :
  forall L y m d h mi s ms id rest buff lines, long_ok L -> stamp y m d h mi s ms id ->
  1800 <= y -> 1 <= m <= 12 -> 1 <= d <= gregorian m y -> 0 <= h < 24 -> 0 <= mi < 60 -> 0 <= s < 60 -> 0 <= ms < 1000 ->
  mpc_time L (id ++ rest) = Ret (buff, lines) ->
  (rest = [] -> lines = []) /\
  (forall sub batch obs more, rest = sub ++ batch ++ obs ++ more -> List.length sub = 8%nat -> List.length batch = 2%nat -> List.length obs = 7%nat ->
    lines = [zs "Submission counter: " ++ sub ++ zs " (mutant hex)";
             zs "Sub-batch number within main batch counter: " ++ batch ++ zs " (mutant hex)";
             zs "Observation number within the sub-batch: " ++ obs ++ zs " (mutant hex)"]).
Proof. exact C39_quiet_proof. Qed.
Print Assumptions C39_quiet.

Example C39_quiet_case : 1 <= 29 <= gregorian 2 2024. Proof. cbn. lia. Qed.

(** C39.  The warnings are given exactly when they apply: for a day after the end of the month, 1000
    milliseconds or more, a time after the 86400th second, and a leap second, valid only on
    the last day of June or December. *)
Theorem C39_warnings :
  forall L y m d h mi s ms id rest buff lines, long_ok L -> stamp y m d h mi s ms id ->
  1800 <= y -> 1 <= m <= 12 -> 1 <= d <= 31 -> 0 <= h -> 0 <= mi < 60 -> 0 <= s < 60 ->
  mpc_time L (id ++ rest) = Ret (buff, lines) ->
  (In (zs "WARNING: There are only " ++ dec (gregorian m y) ++ zs " days in that month") lines <-> gregorian m y < d) /\
  (In (zs "WARNING: milliseconds should be 999 or less") lines <-> 1000 <= ms) /\
  (In (zs "WARNING: time of day is out of range") lines <-> 86400 < h * 3600 + mi * 60 + s) /\
  (In (zs "WARNING: This is a leap second.") lines <-> (h = 24 /\ mi = 0 /\ s = 0) /\ (m = 6 \/ m = 12) /\ d = gregorian m y) /\
  (In (zs "WARNING: This is an invalid leap second.") lines <-> (h = 24 /\ mi = 0 /\ s = 0) /\ ~ ((m = 6 \/ m = 12) /\ d = gregorian m y)).
Proof. exact C39_warnings_proof. Qed.
Print Assumptions C39_warnings.

(** C39, a claim that fails: any argument is safe.  One of fewer than six characters is read
    beyond its end. *)
Theorem C39_short_refuted :
  forall L id, (List.length id < 6)%nat -> mpc_time L id = UB.
Proof. exact C39_short_refuted_proof. Qed.
Print Assumptions C39_short_refuted.

(** C39, a claim that fails: characters that are not base-62 digits are rejected.  Such an ID is
    printed as a time in 1800, without a warning. *)
Theorem C39_invalid_refuted :
  exists id, List.length id = 8%nat /\ (forall c, In c id -> forall v, ~ is_digit62 c v) /\
    mpc_time LMAX64 id = Ret (zs "1800-01-00 00:00:-1.-01", []).
Proof. exact C39_invalid_refuted_proof. Qed.
Print Assumptions C39_invalid_refuted.
