(** Abbreviations for the statements about Earth orientation parameters: what can be had from the library in a state. *)
From Coq Require Import QArith Qreals Reals.
From Verif Require Import RBase CBase DateVocab TimeSpec DtSpec DtModel EopModel EopSpec.
Import ListNotations.
Local Open Scope Z_scope.

(** The days [days] from the modified Julian day [m0] on, of which [m] have the nutation, with TAI - UTC in whole
    seconds on each day.  The first day is between 1972 and November 2021. *)
Definition finals (f : DateSpec.date -> Z) (days : list day) (m : nat) (m0 : Z) (tai : nat -> Z) : Prop :=
  gregorian_mjd f /\ calendar days m0 /\ nutation_days days m /\ leap_seconds days tai /\
  f (1, 1, 1972) <= m0 < f (1, 12, 2021) /\ tai 0%nat = tai_minus_utc f m0.

(** load_earth_orientation_params( filename, &date), with L = LONG_MAX, ...; its result, the new state, *date *)
Definition load := load_earth_orientation_params.

(** Nothing is loaded: every request is answered with -1 and zeroes, but TD - UT is given if it is asked for;
    and nothing is known of the file. *)
Definition nothing_loaded (s : statics) : Prop :=
  (forall str jd mask, Z.testbit mask 2 = false -> get_earth_orientation_params str s jd true mask = Ret (-1, mk_params 0%R 0%R 0%R 0%R 0%R)) /\
  (forall str jd mask d, Z.testbit mask 2 = true -> td_minus_ut str jd = Ret d ->
     get_earth_orientation_params str s jd true mask = Ret (-1, mk_params 0%R 0%R (Q2R d) 0%R 0%R)) /\
  (forall L limit str alloc buff, load L limit str alloc buff s None true = Ret (-1, s, [0; 0; 0])).

(** The parameters of the days are loaded: every request for a time within 2^31 days of the first day is answered
    from them; if a parameter is not in the usual range, an assertion fails.  A missing TT - UT1 is replaced by td_minus_ut( ). *)
Definition serves (days : list day) (m : nat) (m0 : Z) (tai : nat -> Z) (s : statics) : Prop :=
  forall str jd mask K t, (mjd_of jd == inject_Z (m0 + K) + t)%Q -> (0 <= t < 1)%Q -> -2147483648 <= K <= 2147483647 ->
  exists rval p,
    answer (on_day days tai) (fun i => Z.of_nat (if (i <? 3)%nat then List.length days else m)) mask K (Q2R t) rval p /\
    (usual p -> Z.testbit mask 2 = false \/ p 2%nat <> 0%R ->
       get_earth_orientation_params str s jd true mask = Ret (rval, mk_params (p 0%nat) (p 1%nat) (p 2%nat) (p 3%nat) (p 4%nat))) /\
    (usual p -> Z.testbit mask 2 = true -> p 2%nat = 0%R -> forall d, td_minus_ut str jd = Ret d ->
       get_earth_orientation_params str s jd true mask = Ret (rval, mk_params (p 0%nat) (p 1%nat) (Q2R d) (p 3%nat) (p 4%nat))) /\
    (~ usual p -> get_earth_orientation_params str s jd true mask = Abort).

(** The states that any sequence of calls can lead to *)
Inductive history : statics -> Prop :=
| history_start : history statics0
| history_call s L limit str alloc buff filename file_date rval s' dates :
    history s -> load L limit str alloc buff s filename file_date = Ret (rval, s', dates) -> history s'.

(** A file as the IERS provides it: the days, at least 16371 of them, then the days without values.  (The other
    conditions: less than 80 GB; the end of the leap seconds that may be predicted is not before the first day.) *)
Definition iers_file (f : DateSpec.date -> Z) (days : list day) (m : nat) (m0 : Z) (tai : nat -> Z) (L limit : Z) (file : list Z) : Prop :=
  finals f days m m0 tai /\ 16371 <= Z.of_nat (List.length days) /\ DateVocab.long_ok L /\ m0 <= limit /\
  Z.of_nat (List.length file) < 80000000000 /\
  exists line more, empty_line (m0 + Z.of_nat (List.length days)) line /\ file_of days (line ++ more) file.

(** load_earth_orientation_params( NULL, dates) *)
Definition reports (s : statics) (dates : list Z) : Prop :=
  forall L limit str alloc buff, load L limit str alloc buff s None true = Ret (0, s, dates).
