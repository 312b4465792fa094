(** Specification for C39: the layout of an observation ID, as given in the comment
    of mpc_time.c (lines 12-70). *)
From Coq Require Import String.
From Verif Require Import CBase CStr DesigSpec DateSpec.
Open Scope list_scope.

(** [s] is [n] base-62 digits with the value [v]. *)
Definition field62 (n : nat) (s : list Z) (v : Z) : Prop :=
  List.length s = n /\ exists ds, Forall2 is_digit62 s ds /\ number62 ds = v.

(** The stamp of a date and time: three digits for the day, three for the second,
    two for the millisecond. *)
Definition stamp (y m d h mi s ms : Z) (id : list Z) : Prop :=
  exists a b c, id = a ++ b ++ c /\
    field62 3 a ((y - 1800) * 12 * 31 + (m - 1) * 31 + (d - 1)) /\
    field62 3 b (h * 3600 + mi * 60 + s) /\
    field62 2 c ms.

(** Two, three and four digits. *)
Definition d2 (v : Z) : list Z := [48 + v / 10; 48 + v mod 10].
Definition d3 (v : Z) : list Z := [48 + v / 100; 48 + (v / 10) mod 10; 48 + v mod 10].
Definition d4 (v : Z) : list Z := [48 + v / 1000; 48 + (v / 100) mod 10; 48 + (v / 10) mod 10; 48 + v mod 10].
