(** Independent description of lines of ELEMENTS.COMET and 'mpcorb.dat', and of lines in the Standard Orbit Format.
    Nothing here refers to the model of mpc2sof.cpp. *)
From Coq Require Import QArith String.
From Verif Require Import CBase CStr DateSpec TstrSpec EopSpec CtimeSpec CtimeModel.
Import ListNotations.
Local Open Scope string_scope.
Local Open Scope list_scope.
Local Open Scope Z_scope.

Definition blanks (n : nat) : list Z := repeat 32 n.
(** A text at the left or the right of [n] columns *)
Definition at_left (n : nat) (s : list Z) : list Z := s ++ blanks (n - List.length s).
Definition at_right (n : nat) (s : list Z) : list Z := blanks (n - List.length s) ++ s.

(** The name of a comet in the 44 columns of [t], and in SOF.  With a number: its four columns, and the fragment if
    there is one, -A or -AB at the end of the name.  Without one: the designation before the name in parentheses. *)
Inductive comet_named : list Z -> list Z -> Prop :=
| numbered p body k : List.length p = 4%nat -> nth 2 p 0 <> 32 -> List.length (p ++ body ++ blanks k) = 44%nat ->
    (forall u c, p ++ body = u ++ [c] -> c <> 32) -> (forall u a b, p ++ body = u ++ [a; b] -> a <> 45) -> (forall u a b c, p ++ body = u ++ [a; b; c] -> a <> 45) ->
    comet_named (p ++ body ++ blanks k) p
| fragment1 p body x c k : List.length p = 4%nat -> nth 2 p 0 <> 32 -> List.length (p ++ (body ++ [x; 45; c]) ++ blanks k) = 44%nat -> x <> 45 -> c <> 32 ->
    comet_named (p ++ (body ++ [x; 45; c]) ++ blanks k) (p ++ [45; c])
| fragment2 p body b c k : List.length p = 4%nat -> nth 2 p 0 <> 32 -> List.length (p ++ (body ++ [45; b; c]) ++ blanks k) = 44%nat -> c <> 32 ->
    comet_named (p ++ (body ++ [45; b; c]) ++ blanks k) (p ++ [45; b; c])
| designated a b s more : List.length ([a; b; 32] ++ s ++ zs " (" ++ more) = 44%nat -> ~ In 40 s -> (List.length s <= 12)%nat ->
    comet_named ([a; b; 32] ++ s ++ zs " (" ++ more) s.

(** A date as eight digits; [f] numbers the days. *)
Definition ymd (y m d : Z) : list Z := ndig 4 y ++ ndig 2 m ++ ndig 2 d.
Definition is_date (f : Z * Z * Z -> Z) (jd : Z) (t : list Z) : Prop :=
  exists y m d, t = ymd y m d /\ valid gregorian (d, m, y) /\ 0 <= y <= 9999 /\ f (d, m, y) = jd.

(** A comet: the name in SOF; the perihelion as it is written, on a day with five decimals; the epoch (a modified Julian day);
    perihelion distance, inclination, node, argument and eccentricity. *)
Record comet := mk_comet { cname : list Z; perihelion : list Z; mjd : Z; qdist : Q; inclination : Q; node : Q; peri : Q; eccentricity : Q }.
(** A line of ELEMENTS.COMET says that. *)
Definition comet_line_says (line : list Z) (c : comet) : Prop :=
  exists nm te tq tx ti tw tn rest y m d u,
    line = nm ++ te ++ 32 :: tq ++ 32 :: tx ++ 32 :: ti ++ 32 :: tw ++ 32 :: tn ++ 32 :: perihelion c ++ rest /\
    comet_named nm (cname c) /\ field 7 te (inject_Z (mjd c)) /\ field 11 tq (qdist c) /\ field 10 tx (eccentricity c) /\ field 9 ti (inclination c) /\ field 9 tw (peri c) /\ field 9 tn (node c) /\
    perihelion c = ymd y m d ++ 46 :: ndig 5 u /\ valid gregorian (d, m, y) /\ 0 <= y <= 9999 /\ 0 <= u < 100000 /\ -678000 <= mjd c <= 2972000.
(** Numbers that fit in their columns *)
Definition fits_sof (c : comet) : Prop :=
  (0 <= qdist c)%Q /\ (qdist c <= 9999999999 # 100000000)%Q /\ (0 <= inclination c)%Q /\ (inclination c <= 999999999 # 1000000)%Q /\ (0 <= node c)%Q /\ (node c <= 999999999 # 1000000)%Q /\
  (0 <= peri c)%Q /\ (peri c <= 999999999 # 1000000)%Q /\ (0 <= eccentricity c)%Q /\ (eccentricity c <= 999999999 # 100000000)%Q.
(** The line in SOF; [te] is the date of the epoch. *)
Definition sof_line (c : comet) (te : list Z) : list Z :=
  at_left 12 (cname c) ++ [32] ++ perihelion c ++ zs "00" ++ [32] ++ te ++ [32] ++ at_right 11 (fixed 8 (qdist c)) ++ [32] ++
  at_right 10 (fixed 6 (inclination c)) ++ [32] ++ at_right 10 (fixed 6 (node c)) ++ [32] ++ at_right 10 (fixed 6 (peri c)) ++ [32] ++ at_right 10 (fixed 8 (eccentricity c)) ++ [32] ++
  blanks 48 ++ [10].

(** ---- files ---- *)
(** A line of at most 398 bytes and a line feed. *)
Definition line398 (t : list Z) : Prop := exists u, t = u ++ [10] /\ ~ In 10 u /\ (List.length u <= 398)%nat.
(** What there is to say about each line, in order *)
Definition all_of {A : Type} (f : list Z -> option A) (lines : list (list Z)) : list A :=
  flat_map (fun t => match f t with Some r => [r] | None => [] end) lines.
(** [asteroid] gives for each line of 203 bytes what [ra] says; [ra] gives nothing for the others. *)
Definition asteroid_lines (asteroid : list Z -> outcome (option (list Z))) (ra : list Z -> option (list Z)) (lines : list (list Z)) : Prop :=
  Forall (fun t => line398 t /\ if (List.length t =? 203)%nat then asteroid t = Ret (ra t) else ra t = None) lines.
