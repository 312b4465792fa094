(** Vocabulary of the properties of the dates of 80-column reports.  Nothing here uses the
    model's own helpers, apart from the functions themselves. *)
From Coq Require Import QArith Qround.
From Coq Require Import String.
From Verif Require Import CBase CStr DateModel CtimeSpec MpcfModel.
Local Open Scope string_scope.
Local Open Scope list_scope.
Local Open Scope Z_scope.

(** A line of 80 to 82 bytes with the given note in column 15 and date in columns 16-32, a blank,
    '*' or '-' in column 13, and an observatory code in columns 78-80. *)
Definition report (note : Z) (date line : list Z) : Prop :=
  exists front rest, line = front ++ note :: date ++ rest /\
    List.length front = 14%nat /\ In (nth 12 front 0) (zs " *-") /\
    List.length date = 17%nat /\ (48 <= List.length rest <= 50)%nat /\
    forall i, (45 <= i < 48)%nat -> 33 <= nth i rest 0 <= 122.
Definition radar_note (note : Z) : Prop := note = 82 \/ note = 114.
(** The line is read as the Julian date v, in format f. *)
Definition date_reads (L : Z) (line : list Z) (v : Q) (f : Z) : Prop :=
  exists v', extract_date_from_mpc_report L line = Ret (v', Some f) /\ (v' == v)%Q.

Definition blanks (n : nat) : list Z := repeat 32 n.
(** d of 10^n parts *)
Definition part (n : nat) (d : Z) : Q := (inject_Z d / inject_Z (10 ^ Z.of_nat n))%Q.
(** "2013 02 13.141593", with n decimals; zm and zd, '0' or ' ', precede months and days below 10. *)
Definition usual_date (y zm m zd day : Z) (n : nat) (d : Z) : list Z :=
  ndig 4 y ++ 32 :: two zm m ++ 32 :: two zd day ++ 46 :: ndig n d ++ blanks (6 - n).
(** "K130213.141592653" *)
Definition packed_date (c yy m day : Z) (n : nat) (d : Z) : list Z :=
  c :: ndig 2 yy ++ ndig 2 m ++ ndig 2 day ++ 46 :: ndig n d ++ blanks (9 - n).
(** "K130213:032353605", and "K130213:0323" *)
Definition packed_time (c yy m day hh mm ss : Z) (n : nat) (d : Z) : list Z :=
  c :: ndig 2 yy ++ ndig 2 m ++ ndig 2 day ++ 58 :: ndig 2 hh ++ ndig 2 mm ++ ndig 2 ss ++ ndig n d ++ blanks (3 - n).
Definition packed_minutes (c yy m day hh mm : Z) : list Z :=
  c :: ndig 2 yy ++ ndig 2 m ++ ndig 2 day ++ 58 :: ndig 2 hh ++ ndig 2 mm ++ blanks 5.
(** "2456336.641592653" and "M056336.141592653" *)
Definition jd_date (j : Z) (n : nat) (d : Z) : list Z := ndig 7 j ++ 46 :: ndig n d ++ blanks (9 - n).
Definition mjd_date (j : Z) (n : nat) (d : Z) : list Z := 77 :: ndig 6 j ++ 46 :: ndig n d ++ blanks (9 - n).
(** 'H' to 'K' stand for 17 to 20. *)
Definition century (c yy y : Z) : Prop := 72 <= c <= 75 /\ 0 <= yy < 100 /\ y = (c - 55) * 100 + yy.

(** jd is the day number of the day (calendar changed in October 1582).  For the dates between the change and the
    end of that month, see C49_october_1582_refuted. *)
Definition day_number (L day m y jd : Z) : Prop :=
  1 <= m <= 12 /\ 1 <= day <= 98 /\ dmy_to_day L day m y CALENDAR_JULIAN_GREGORIAN = Ret jd.
Definition change_month (y m day : Z) : Prop := y = 1582 /\ m = 10 /\ 5 < day.

(** A line with this note and date, and LONG_MAX of a 64-bit machine, for the examples. *)
Definition a_line (note : Z) (date : list Z) : list Z := repeat 32 14 ++ note :: date ++ repeat 32 45 ++ zs "568".
Definition L64 : Z := 9223372036854775807.
