(** Independent description of clocks.  Nothing here refers to the model of nanosecs.cpp.

    An instant is the number of nanoseconds since 1970 January 1, 0h (days have 86400 seconds). *)
From Coq Require Import ZArith.
From Verif Require Import DateSpec.
Local Open Scope Z_scope.

(** Seconds and microseconds since 1970 *)
Definition reads_microseconds (t sec usec : Z) : Prop := 0 <= usec < 1000000 /\ sec * 1000000000 + usec * 1000 <= t < sec * 1000000000 + usec * 1000 + 1000.
(** Seconds and milliseconds since 1970 *)
Definition reads_milliseconds (t sec msec : Z) : Prop := 0 <= msec < 1000 /\ sec * 1000000000 + msec * 1000000 <= t < sec * 1000000000 + msec * 1000000 + 1000000.
(** Units of 100 nanoseconds since 1601 January 1, in two halves of 32 bits; [f] numbers the days *)
Definition reads_filetime (f : Z * Z * Z -> Z) (t low high : Z) : Prop :=
  0 <= low < 2 ^ 32 /\ 0 <= high < 2 ^ 32 /\
  (low + high * 2 ^ 32) * 100 <= t + (f (1, 1, 1970) - f (1, 1, 1601)) * 86400 * 1000000000 < (low + high * 2 ^ 32) * 100 + 100.
(** The first and the last instant a signed number of 64 bits can stand for *)
Definition first_instant : Z := - 2 ^ 63.
Definition last_instant : Z := 2 ^ 63 - 1.
Definition ns_per_day : Z := 86400 * 1000000000.
