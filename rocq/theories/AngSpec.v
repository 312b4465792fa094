(** Vocabulary of the properties of angles and places written by people.  Nothing here uses the model. *)
From Coq Require Import QArith.
From Coq Require Import String.
From Verif Require Import CBase CStr CtimeSpec.
Local Open Scope string_scope.
Local Open Scope list_scope.
Local Open Scope Z_scope.

Definition blanks (n : nat) : list Z := repeat 32 n.
(** "17", "017" (whole) or "17.25", "17." (not whole): up to nine digits before and after the point. *)
Inductive number : list Z -> Q -> bool -> Prop :=
| number_whole n i : (1 <= n <= 9)%nat -> 0 <= i < 10 ^ Z.of_nat n -> number (ndig n i) (inject_Z i) true
| number_decimal n i k d : (1 <= n <= 9)%nat -> 0 <= i < 10 ^ Z.of_nat n -> (k <= 9)%nat -> 0 <= d < 10 ^ Z.of_nat k ->
    number (ndig n i ++ 46 :: ndig k d) (inject_Z i + inject_Z d / inject_Z (10 ^ Z.of_nat k)) false.
(** One, two or three numbers with blanks between them: units, minutes and seconds.  [full]: no
    further number can belong to the angle. *)
Inductive angle : list Z -> Q -> Z -> bool -> Prop :=
| angle_one s v whole : number s v whole -> angle s v 1 (negb whole)
| angle_two s v b s' m whole : number s v true -> number s' m whole -> (m <= 60)%Q ->
    angle (s ++ blanks (S b) ++ s') (v + m / 60) 2 (negb whole)
| angle_three s v b s' m b' s'' sec whole : number s v true -> number s' m true -> (m <= 60)%Q -> number s'' sec whole -> (sec <= 60)%Q ->
    angle (s ++ blanks (S b) ++ s' ++ blanks (S b') ++ s'') (v + m / 60 + sec / 3600) 3 true.
(** j blanks and the text t do not continue an angle. *)
Definition follows (full : bool) (j : nat) (t : list Z) : Prop :=
  match t with
  | c :: _ => c <> 32 /\ (48 <= c <= 57 -> full = true /\ (0 < j)%nat) /\ (c = 46 -> (0 < j)%nat)
  | [] => True
  end.

Inductive kind := latitude | longitude.
Definition other (k : kind) : kind := match k with latitude => longitude | longitude => latitude end.
(** A compass sign, what it tells, and whether the angle counts as negative. *)
Inductive sign : Z -> kind -> bool -> Prop :=
| sign_n c : In c (zs "nN") -> sign c latitude false
| sign_s c : In c (zs "sS") -> sign c latitude true
| sign_e c : In c (zs "eE") -> sign c longitude false
| sign_w c : In c (zs "wW") -> sign c longitude true.
Definition signed (negative : bool) (v : Q) : Q := if negative then (- v)%Q else v.
(** "n44.01", " 69 54 1.7W": sign before or after the angle, whose value is v (without its sign),
    followed by the text t. *)
Inductive place : list Z -> kind -> bool -> Q -> list Z -> Prop :=
| place_before i c k neg j s v n full b t : sign c k neg -> angle s v n full -> follows full b t ->
    place (blanks i ++ c :: blanks j ++ s ++ blanks b) k neg v t
| place_after i s v n full b c k neg t : sign c k neg -> angle s v n full ->
    place (blanks i ++ s ++ blanks b ++ [c]) k neg v t.
(** An optional comma. *)
Definition comma (s : list Z) : Prop := s = [] \/ s = [44].
(** The text after a comma may be anything; without one, it must not start with it. *)
Definition no_comma (t : list Z) : Prop := match t with c :: _ => c <> 44 | [] => True end.
(** What is left for the altitude, and the altitude: nothing, or " alt. 1700m", "1700 ft" and so on, before any text. *)
Definition label (a : list Z) : Prop := a = [] \/ exists w i, In w [zs "alt"; zs "Alt"; zs "alt."; zs "Alt."] /\ a = w ++ blanks i.
Inductive height : list Z -> Q -> Prop :=
| height_none i : height (blanks i) 100
| height_metres i a s v whole j t : label a -> number s v whole ->
    height (blanks i ++ a ++ s ++ blanks j ++ 109 :: t) v
| height_feet i a s v whole j t : label a -> number s v whole ->
    height (blanks i ++ a ++ s ++ blanks j ++ zs "ft" ++ t) (v * (3048 # 10000)).
(** East longitude, 0 to 360, and latitude, of a pair of places. *)
Definition east (neg : bool) (v : Q) : Q := if neg && negb (Qeq_bool v 0) then (360 - v)%Q else v.
Definition limit (k : kind) : Q := match k with latitude => 90%Q | longitude => 360%Q end.
(** No run of more than nine digits. *)
Definition short_runs (s : list Z) : Prop :=
  forall a b c, s = a ++ b ++ c -> (forall x, In x b -> 48 <= x <= 57) -> (List.length b <= 9)%nat.
(** The last byte is one that cannot be the end of a bare number. *)
Definition well_ended (s : list Z) : Prop := exists a c, s = a ++ [c] /\ c <> 32 /\ c <> 46 /\ ~ 48 <= c <= 57.
(** More than 60 minutes or seconds. *)
Inductive over : list Z -> Prop :=
| over_minutes s v b s' m whole : number s v true -> number s' m whole -> (60 < m)%Q -> over (s ++ blanks (S b) ++ s')
| over_seconds s v b s' m b' s'' sec whole : number s v true -> number s' m true -> (m <= 60)%Q -> number s'' sec whole -> (60 < sec)%Q ->
    over (s ++ blanks (S b) ++ s' ++ blanks (S b') ++ s'').
(** No digit or point goes on the number before t. *)
Definition number_ends (t : list Z) : Prop := match t with c :: _ => ~ 48 <= c <= 57 /\ c <> 46 | [] => True end.
(** Text without the letters of "Lat." and "Alt.". *)
Definition quiet (s : list Z) : Prop := forall c, In c s -> c <> 76 /\ c <> 65.
(** An altitude in metres and the text behind it. *)
Inductive metres : list Z -> Q -> Prop :=
| metres_up i s v whole t : number s v whole -> number_ends t -> match t with c :: _ => ~ In c (zs "eEx") | [] => True end ->
    metres (blanks i ++ s ++ t) v
| metres_down i s v whole t : number s v whole -> number_ends t -> match t with c :: _ => ~ In c (zs "eEx") | [] => True end ->
    metres (blanks i ++ 45 :: s ++ t) (- v).
