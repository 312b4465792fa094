(** Vocabulary of the properties of get_mpc_code_info( ): how a line that describes an
    observatory is laid out, and what it means. *)
From Coq Require Import QArith Qreals.
From Coq Require Import String.
From Verif Require Import CBase CStr TstrSpec TrigBase EllSpec.
Local Open Scope string_scope.
Local Open Scope list_scope.
Local Open Scope Z_scope.

Definition blanks (n : nat) : list Z := repeat 32 n.
Definition all_digits (s : list Z) : Prop := forall c, In c s -> isdigit c = true.
Definition printable (c : Z) : Prop := 32 < c <= 126 /\ c <> 33.
(** Digits, at least one, at the right of a field of [w] bytes. *)
Definition whole_field (w : nat) (s : list Z) (v : Z) : Prop :=
  exists i t, s = blanks i ++ t /\ List.length s = w /\ digits_of t v.
(** [k] digits at the left of a field of [w] bytes. *)
Definition decimals_field (w : nat) (s : list Z) (k : nat) (v : Z) : Prop :=
  exists t j, s = t ++ blanks j /\ List.length s = w /\ List.length t = k /\ all_digits t /\ dig_val 0 t = v.
(** The number with whole part [v] and the [k] decimals [d]. *)
Definition with_decimals (v : Z) (k : nat) (d : Z) : Q := (inject_Z v + inject_Z d / inject_Z (10 ^ Z.of_nat k))%Q.

(** A line of the list of observatories:
      001   0.1542 0.62411 +0.77873 Crowborough
    with [k1] decimals in the longitude and [k2] in rho cos phi. *)
Inductive observatory : list Z -> list Z -> Q -> Q -> Q -> nat -> nat -> list Z -> Prop :=
| observatory_line c0 c1 c2 li v ld k1 d ci cd k2 e sg si sd k3 g name :
    printable c0 -> printable c1 -> printable c2 ->
    whole_field 3 li v -> decimals_field 5 ld k1 d ->
    isdigit ci = true -> decimals_field 6 cd k2 e ->
    In sg [32; 43; 45] -> isdigit si = true -> decimals_field 6 sd k3 g ->
    observatory ([c0; c1; c2; 32] ++ li ++ 46 :: ld ++ ci :: 46 :: cd ++ sg :: si :: 46 :: sd ++ name)
      [c0; c1; c2] (with_decimals v k1 d) (with_decimals (ci - 48) k2 e)
      (let q := with_decimals (si - 48) k3 g in if sg =? 45 then - q else q)%Q k1 k2 name.

(** A number, perhaps with a sign. *)
Inductive signed : list Z -> Q -> Prop :=
| signed_bare n q : number_of n q -> signed n q
| signed_plus n q : number_of n q -> signed (43 :: n) q
| signed_minus n q : number_of n q -> signed (45 :: n) (- q)%Q.

(** A line of rovers.txt: a code of three or four bytes, an exclamation mark in column 5,
    longitude, latitude and altitude, and any text that does not continue the last
    number.  *)
Inductive rover : list Z -> list Z -> Q -> Q -> Q -> list Z -> Prop :=
| rover_line c0 c1 c2 c3 i s1 q1 j s2 q2 k s3 q3 rest :
    printable c0 -> printable c1 -> printable c2 -> (printable c3 \/ c3 = 32) ->
    signed s1 q1 -> signed s2 q2 -> signed s3 q3 -> (1 <= j)%nat -> (1 <= k)%nat ->
    (match rest with c :: _ => c = 32 | [] => True end) ->
    rover ([c0; c1; c2; c3; 33] ++ blanks i ++ s1 ++ blanks j ++ s2 ++ blanks k ++ s3 ++ rest)
      (if c3 =? 32 then [c0; c1; c2] else [c0; c1; c2; c3]) q1 q2 q3 rest.

(** The planet named in the text behind the numbers: the number behind the first '@', and
    the Earth, number 3, without one. *)
Inductive world : list Z -> Z -> Prop :=
| world_earth t : ~ In 64 t -> world t 3
| world_number t d n t' : ~ In 64 t -> digits_of d n -> (match t' with c :: _ => isdigit c = false | [] => True end) ->
    world (t ++ 64 :: d ++ t') n.

(** Degrees, minutes and seconds run together, as 191333.1 for 19 degrees 13 minutes 33.1. *)
Definition together (q d : Q) : Prop :=
  exists (neg : bool) D M S f, 0 <= D < 1000 /\ 0 <= M < 100 /\ 0 <= S < 100 /\ (0 <= f < 1)%Q /\
    (q == (if neg then - 1 else 1) * (inject_Z (10000 * D + 100 * M + S) + f))%Q /\
    (d == (if neg then - 1 else 1) * (inject_Z D + inject_Z M / 60 + (inject_Z S + f) / 3600))%Q.
(** The coordinates in degrees: as they are, or both run together if one of them is too
    large. *)
Definition small (q1 q2 : Q) : Prop := (-361 <= q1 <= 361 /\ -91 <= q2 <= 91)%Q.
Inductive coordinates : Q -> Q -> Q -> Q -> Prop :=
| coordinates_degrees q1 q2 : small q1 q2 -> coordinates q1 q2 q1 q2
| coordinates_together q1 q2 lon lat : ~ small q1 q2 -> together q1 lon -> together q2 lat -> coordinates q1 q2 lon lat.

(** Semi-axes in metres: Sun, Mercury to Pluto, the Moon, and Jupiter's large moons. *)
Definition axes : list (Q * Q) :=
  [(695700000, 695700000); (2440530, 2438260); (6051800, 6051800); (6378137, 6356752314140347 # 1000000000);
   (3396190, 3376200); (71492000, 66854000); (60268000, 54364000); (25559000, 24973000); (24764000, 24341000);
   (1188300, 1188300); (1737400, 1737400); (1821490, 1821490); (1560800, 1560800); (2631200, 2631200);
   (2410300, 2410300)]%Q.
Definition major (n : Z) : R := Q2R (fst (nth (Z.to_nat n) axes (0, 0)%Q)).
Definition minor (n : Z) : R := Q2R (snd (nth (Z.to_nat n) axes (0, 0)%Q)).

(** An angle of [q] degrees in radians, and the same from 0 up to a turn if it is not less
    than minus one turn. *)
Definition radians (q : Q) : R := (Q2R q * (PI / 180))%R.
Definition east (q : Q) (r : R) : Prop := ((0 <= q)%Q /\ r = radians q) \/ ((q < 0)%Q /\ r = (radians q + 2 * PI)%R).
