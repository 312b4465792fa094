(** Property C49: the dates of 80-column reports.

    [report note date line]: an 80-column line with this note (column 15) and date (columns 16-32); [date_reads L line v f]:
    extract_date_from_mpc_report( ) takes it as the Julian date v, format f, where L is LONG_MAX.  The ways of writing a date,
    [usual_date] and so on, and [day_number], are in [MpcdSpec]. *)
From Coq Require Import Lia QArith Qround Qabs.
From Coq Require Import String.
From Verif Require Import CBase CStr DateModel DateVocab TstrModel CtimeSpec MpcfModel MpcdSpec MpcdThms.
Local Open Scope string_scope.
Local Open Scope list_scope.
Local Open Scope Z_scope.

(** C49: "2013 02 13.141593", with none to six decimals, zeroes or blanks before months and days below ten, is the time it
    says, and the format is the number of decimals. *)
Theorem C49_usual :
  forall L note y zm m zd day n d jd line,
    long_ok L -> 0 <= y <= 9999 -> (zm = 48 \/ zm = 32) -> (zd = 48 \/ zd = 32) ->
    (n <= 6)%nat -> 0 <= d < 10 ^ Z.of_nat n -> ~ change_month y m day ->
    day_number L day m y jd -> ~ radar_note note ->
    report note (usual_date y zm m zd day n d) line ->
    date_reads L line (inject_Z jd - (1 # 2) + part n d) (Z.of_nat n).
Proof. exact C49_usual_proof. Qed.
Print Assumptions C49_usual.

Example C49_usual_case : date_reads L64 (zs "     K12A00A  C2013  2 13.14    01 02 03.04 +05 06 07.0          18.0 V      568") (inject_Z 2456337 - (1 # 2) + part 2 14) 2 /\
  report 67 (usual_date 2013 32 2 48 13 2 14) (a_line 67 (usual_date 2013 32 2 48 13 2 14)) /\ long_ok L64 /\ ~ change_month 2013 2 13 /\ ~ radar_note 67 /\ day_number L64 13 2 2013 2456337.
Proof. split; [eexists; split; [vm_compute; reflexivity|reflexivity]|]. split; [now apply a_report|]. split; [unfold long_ok, L64; lia|]. split; [unfold change_month; lia|]. split; [unfold radar_note; lia|exact a_day]. Qed.

(** C49: "K130213.141592653", with two to nine decimals, is the time it says, in format 30 plus the number of decimals. *)
Theorem C49_packed :
  forall L note c yy y m day n d jd line,
    long_ok L -> century c yy y -> (2 <= n <= 9)%nat -> 0 <= d < 10 ^ Z.of_nat n ->
    day_number L day m y jd -> ~ radar_note note ->
    report note (packed_date c yy m day n d) line ->
    date_reads L line (inject_Z jd - (1 # 2) + part n d) (30 + Z.of_nat n).
Proof. exact C49_packed_proof. Qed.
Print Assumptions C49_packed.

Example C49_packed_case : date_reads L64 (a_line 67 (zs "K130213.1415     ")) (inject_Z 2456337 - (1 # 2) + part 4 1415) 34 /\
  packed_date 75 13 2 13 4 1415 = zs "K130213.1415     " /\ century 75 13 2013.
Proof. split; [eexists; split; [vm_compute; reflexivity|reflexivity]|]. split; [reflexivity|unfold century; lia]. Qed.

(** C49: "K130213:032353605", hours, minutes, seconds and none to three decimals of seconds, is the time it says, in format 20 plus
    the number of decimals. *)
Theorem C49_clock :
  forall L note c yy y m day hh mm ss n d jd line,
    long_ok L -> century c yy y -> 0 <= hh < 24 -> 0 <= mm < 60 -> 0 <= ss < 60 -> (n <= 3)%nat -> 0 <= d < 10 ^ Z.of_nat n ->
    day_number L day m y jd -> ~ radar_note note ->
    report note (packed_time c yy m day hh mm ss n d) line ->
    date_reads L line (inject_Z jd - (1 # 2) + (inject_Z (hh * 3600 + mm * 60 + ss) + part n d) / 86400) (20 + Z.of_nat n).
Proof. exact C49_clock_proof. Qed.
Print Assumptions C49_clock.

Example C49_clock_case : date_reads L64 (a_line 67 (zs "K130213:032353605")) (inject_Z 2456337 - (1 # 2) + (12233 + part 3 605) / 86400) 23 /\
  packed_time 75 13 2 13 3 23 53 3 605 = zs "K130213:032353605".
Proof. split; [eexists; split; [vm_compute; reflexivity|reflexivity]|reflexivity]. Qed.

(** C49: "K130213:0323", hours and minutes, is the time it says, in format 50. *)
Theorem C49_minutes :
  forall L note c yy y m day hh mm jd line,
    long_ok L -> century c yy y -> 0 <= hh < 24 -> 0 <= mm < 60 ->
    day_number L day m y jd -> ~ radar_note note ->
    report note (packed_minutes c yy m day hh mm) line ->
    date_reads L line (inject_Z jd - (1 # 2) + inject_Z (hh * 60 + mm) / 1440) (50).
Proof. exact C49_minutes_proof. Qed.
Print Assumptions C49_minutes.

Example C49_minutes_case : date_reads L64 (a_line 67 (zs "K130213:0323     ")) (inject_Z 2456337 - (1 # 2) + 203 / 1440) 50 /\
  packed_minutes 75 13 2 13 3 23 = zs "K130213:0323     ".
Proof. split; [eexists; split; [vm_compute; reflexivity|reflexivity]|reflexivity]. Qed.

(** C49: a Julian date, "2456336.641592653", with two to nine decimals, is read as such, in format 10 plus the number of
    decimals; and "M056336.141592653", after an 'M', is a Modified Julian date, 2400000.5 days less, in format 40 plus that
    number. *)
Theorem C49_julian :
  forall L note j n d line, (2 <= n <= 9)%nat -> 0 <= d < 10 ^ Z.of_nat n -> ~ radar_note note ->
    (0 <= j < 10000000 -> report note (jd_date j n d) line ->
       date_reads L line (inject_Z j + part n d) (10 + Z.of_nat n)) /\
    (0 <= j < 1000000 -> report note (mjd_date j n d) line ->
       date_reads L line (inject_Z j + part n d + (24000005 # 10)) (40 + Z.of_nat n)).
Proof. exact C49_julian_proof. Qed.
Print Assumptions C49_julian.

Example C49_julian_case : date_reads L64 (a_line 67 (zs "M056336.14       ")) (inject_Z 2456336 + (64 # 100)) 42 /\ mjd_date 56336 2 14 = zs "M056336.14       " /\
  jd_date 2456336 3 640 = zs "2456336.640      ".
Proof. split; [eexists; split; [vm_compute; reflexivity|reflexivity]|]. split; reflexivity. Qed.

(** C49: nothing but the note and the columns of the date matters: lines that agree in those are read alike. *)
Theorem C49_columns :
  forall L note date line line', report note date line -> report note date line' ->
    extract_date_from_mpc_report L line = extract_date_from_mpc_report L line'.
Proof. exact C49_columns_proof. Qed.
Print Assumptions C49_columns.

Example C49_columns_case : report 67 (zs "2013 02 13.14    ") (zs "     K12A00A* C2013 02 13.14    01 02 03.04 +05 06 07.0          18.0 V      568").
Proof.
  exists (zs "     K12A00A* "), (zs "01 02 03.04 +05 06 07.0          18.0 V      568"). split; [reflexivity|]. split; [reflexivity|]. split; [right; now left|]. split; [reflexivity|]. split; [cbn; lia|].
  intros i Hi. assert (K : i = 45%nat \/ i = 46%nat \/ i = 47%nat) by lia. destruct K as [->|[->| ->]]; vm_compute; split; discriminate.
Qed.

(** C49: with 'R' or 'r' in column 15 a time is rounded to the nearest whole second: it is a number of seconds, and differs
    by at most half a second from what the same line gives with another note.  The format is the same. *)
Theorem C49_radar :
  forall L note note' date line line' v f, radar_note note -> ~ radar_note note' ->
    report note date line -> report note' date line' ->
    extract_date_from_mpc_report L line' = Ret (v, f) ->
    exists w, extract_date_from_mpc_report L line = Ret (w, f) /\
      ((v == 0)%Q -> (w == 0)%Q) /\
      (~ (v == 0)%Q -> exists k, (w == inject_Z k / 86400)%Q /\ (Qabs (w - v) <= 1 # 172800)%Q).
Proof. exact C49_radar_proof. Qed.
Print Assumptions C49_radar.

Example C49_radar_case : report 82 (zs "2013 02 13.141593") (a_line 82 (zs "2013 02 13.141593")) /\ radar_note 82 /\
  date_reads L64 (a_line 82 (zs "2013 02 13.141593")) (inject_Z (2456336 * 86400 + 43200 + 12234) / 86400) 6.
Proof. split; [now apply a_report|]. split; [now left|]. eexists. split; [vm_compute; reflexivity|reflexivity]. Qed.

(** C49: a line is refused (0 is returned, and the format not touched) if its length is not 80 to 82, or column 13 is not a
    blank, an asterisk or a minus sign, or columns 78 to 80 are not all of them visible characters up to 'z'; and only then. *)
Theorem C49_reject :
  forall L line, long_ok L -> (forall c, In c line -> -128 <= c <= 127) ->
    ((exists v, extract_date_from_mpc_report L line = Ret (v, None)) <->
     ~ ((80 <= List.length line <= 82)%nat /\ In (nth 12 line 0) (zs " *-") /\
        (forall i, (77 <= i < 80)%nat -> 33 <= nth i line 0 <= 122))) /\
    (forall v, extract_date_from_mpc_report L line = Ret (v, None) -> v = 0%Q).
Proof. exact C49_reject_proof. Qed.
Print Assumptions C49_reject.

Example C49_reject_case : extract_date_from_mpc_report L64 (repeat 32 79) = Ret (0%Q, None) /\ long_ok L64 /\
  exists v, extract_date_from_mpc_report L64 (a_line 67 (zs "2013 02 13.141593")) = Ret (v, Some 6).
Proof. split; [reflexivity|]. split; [unfold long_ok, L64; lia|]. eexists. vm_compute. reflexivity. Qed.

(** C49: whatever the line, it is read without undefined behaviour. *)
Theorem C49_total :
  forall L line, long_ok L -> (forall c, In c line -> -128 <= c <= 127 /\ c <> 0) ->
    exists v f, extract_date_from_mpc_report L line = Ret (v, f).
Proof. exact C49_total_proof. Qed.
Print Assumptions C49_total.

Example C49_total_case : forall c, In c (zs "2013 02 13.141593") -> -128 <= c <= 127 /\ c <> 0.
Proof. intros c H. vm_compute in H. repeat (destruct H as [<-|H]; [split; [split|]; discriminate|]). destruct H. Qed.

(** C49, finding: dates of October 1582 after the change of calendar are read with the old calendar, ten days late: the 15th
    becomes what dmy_to_day( ) gives for the 25th. *)
Theorem C49_october_1582_refuted :
  exists v, extract_date_from_mpc_report L64 (a_line 67 (zs "1582 10 15.5     ")) = Ret (v, Some 1) /\
    dmy_to_day L64 15 10 1582 CALENDAR_JULIAN_GREGORIAN = Ret 2299161 /\
    dmy_to_day L64 25 10 1582 CALENDAR_JULIAN_GREGORIAN = Ret 2299171 /\
    (v == inject_Z 2299171)%Q.
Proof. exact C49_october_1582_refuted_proof. Qed.
Print Assumptions C49_october_1582_refuted.

(** C49, finding: a month that is not one, "2013 13 13.25", is not refused: the day of the month is returned as a Julian date. *)
Theorem C49_month_refuted :
  forall note date line, ~ radar_note note -> date = zs "2013 13 13.25    " -> report note date line ->
    date_reads L64 line (1325 # 100) 2.
Proof. exact C49_month_refuted_proof. Qed.
Print Assumptions C49_month_refuted.

(** C49, finding: days a month does not have are accepted: 2013 February 31 is read as March 3. *)
Theorem C49_short_month_refuted :
  exists v, extract_date_from_mpc_report L64 (a_line 67 (zs "2013 02 31.0     ")) = Ret (v, Some 1) /\
    exists w, extract_date_from_mpc_report L64 (a_line 67 (zs "2013 03 03.0     ")) = Ret (w, Some 1) /\ (v == w)%Q.
Proof. exact C49_short_month_refuted_proof. Qed.
Print Assumptions C49_short_month_refuted.

(** C49, finding: where a leading zero may be left out, any character will do: "2013 02 /1.5" is day -9 and a half: -8.5 is
    returned, with the format of one decimal. *)
Theorem C49_not_a_digit_refuted :
  exists v, extract_date_from_mpc_report L64 (a_line 67 (zs "2013 02 /1.5     ")) = Ret (v, Some 1) /\ (v == - (85 # 10))%Q.
Proof. exact C49_not_a_digit_refuted_proof. Qed.
Print Assumptions C49_not_a_digit_refuted.

(** C49, finding: the decimals are divided by the wrong power of ten if something other than blanks follows them:
    "2013 02 13.14x" is read as the 13th plus 14/1000. *)
Theorem C49_decimals_refuted :
  exists v, extract_date_from_mpc_report L64 (a_line 67 (zs "2013 02 13.14x   ")) = Ret (v, Some 2) /\
    (v == inject_Z 2456337 - (1 # 2) + (14 # 1000))%Q.
Proof. exact C49_decimals_refuted_proof. Qed.
Print Assumptions C49_decimals_refuted.

(** C49, finding: with hours only, "K130213:03", the blanks are taken for minutes: minus 176 of them. *)
Theorem C49_no_minutes_refuted :
  exists v, extract_date_from_mpc_report L64 (a_line 67 (zs "K130213:03       ")) = Ret (v, Some 50) /\
    (v == inject_Z 2456337 - (1 # 2) + (3 * 60 - 176) / 1440)%Q.
Proof. exact C49_no_minutes_refuted_proof. Qed.
Print Assumptions C49_no_minutes_refuted.
