(** Vocabulary of the theorems about dates: ranges of arguments, and what a
    caller of the model's functions observes. *)
From Verif Require Import CBase DateModel.

(** LONG_MAX is at least 2^31 - 1. *)
Definition long_ok (L : Z) : Prop := 2147483647 <= L.

(** Years and days for which nothing overflows a [long].  With 32-bit longs:
    |year| <= 3.05 million and |jd| <= 1.06 thousand million; [year_mid], a
    little narrower, puts every day of the year in the second range. *)
Definition year_ok (L y : Z) : Prop := 700 * Z.abs y + 10000000 <= L.
Definition jd_ok (L jd : Z) : Prop := 2 * Z.abs jd + 20000000 <= L.
Definition year_mid (L y : Z) : Prop := 1000 * Z.abs y + 40000000 <= L.

(** Calendars that are given by a rule for every year (the combined
    Julian/Gregorian calendar is treated apart). *)
Definition rule_cal (c : Z) : Prop :=
  c = CALENDAR_GREGORIAN \/ c = CALENDAR_JULIAN \/ c = CALENDAR_HEBREW \/
  c = CALENDAR_ISLAMIC \/ c = CALENDAR_REVOLUTIONARY \/ c = CALENDAR_MODERN_PERSIAN.

(** day_to_dmy( jd, ..., c) returns and stores day d, month m, year y, whatever
    the previous contents of *month and of the static variable
    chinese_intercalary_month.  (The year search is a loop; [fuel] bounds its
    rounds and any large enough bound gives this result.) *)
Definition dmy_result (L jd c d m y : Z) : Prop :=
  exists N, forall fuel ic month0, (N <= fuel)%nat ->
    exists ic', day_to_dmy_st L fuel ic month0 jd c = Ret (d, m, y, ic').

(** day_to_dmy( jd, ..., c) returns and reports an error: day = -1. *)
Definition dmy_error (L jd c : Z) : Prop :=
  exists N, forall fuel ic month0, (N <= fuel)%nat ->
    exists y ic', day_to_dmy_st L fuel ic month0 jd c = Ret (-1, month0, y, ic').

(** day_to_dmy( jd, ..., c) never returns. *)
Definition dmy_never_returns (L jd c : Z) : Prop :=
  forall fuel ic month0, day_to_dmy_st L fuel ic month0 jd c = Fuel.
