(** nanosecs.cpp: the time now, from the clock of three kinds of systems.

    What the system's function gives is the argument.  int64_t and uint64_t are integers with the C rules: signed overflow is
    [UB], unsigned numbers are taken modulo 2^64. *)
From Coq Require Import QArith.
From Verif Require Import CBase DateModel.
Local Open Scope Z_scope.

Definition u64 (v : Z) : Z := v mod 2 ^ 64.
(** Conversion to int64_t (of a number that does not fit: modulo 2^64, as all compilers do) *)
Definition to_int64 (v : Z) : Z := let v := u64 v in if v <? 2 ^ 63 then v else v - 2 ^ 64.

(** nanosecs.cpp:84-97: OS/X, BSD, Linux.  gettimeofday( ) returned [rv] *)
Definition nanoseconds_posix (rv tv_sec tv_usec : Z) : outcome Z :=
  if rv =? 0 then ev LMAX64 (tv_sec * 1000000000%Z + tv_usec * 1000%Z)%cx else Ret 0.
(** nanosecs.cpp:70-79: the Watcom compiler *)
Definition nanoseconds_watcom (time millitm : Z) : outcome Z :=
  do millisec <- ev LMAX64 (millitm + 1000%Z * time)%cx;
  ev LMAX64 (millisec * 1000000%Z)%cx.
(** nanosecs.cpp:54-67: Windows.  The two halves have no bit in common, so that | is +. *)
Definition nanoseconds_windows (dwLowDateTime dwHighDateTime : Z) : Z :=
  let jd_1601 := 2305813 in
  let jd_1970 := 2440587 in
  let diff := u64 (u64 (u64 (jd_1970 - jd_1601) * 10000000) * 86400) in
  let decimicroseconds_since_1970 := u64 (u64 (dwLowDateTime + u64 (dwHighDateTime * 2 ^ 32)) - diff) in
  to_int64 (u64 (decimicroseconds_since_1970 * 100)).
(** nanosecs.cpp:117-124 [current_jd], with exact numbers *)
Definition current_jd (nanoseconds_since_1970 : Z) : Q :=
  ((24405875 # 10) + inject_Z nanoseconds_since_1970 * (1 # 1000000000) / 86400)%Q.
