(** Specification vocabulary for the designation theorems. *)
From Coq Require Import String.
From Verif Require Import CBase CStr DesigModel.
Open Scope list_scope.

(** Packing [name] yields 12 characters, and unpacking these yields [name] and
    the type [ty].  [b] and [o] are the destinations: of at least 13 and 24
    bytes, with any contents. *)
Definition round_trip (name : list Z) (ty : Z) : Prop :=
  forall b o : buf, (13 <= length b)%nat -> (24 <= length o)%nat ->
  exists packed b' o',
    create_mpc_packed_desig b name = Ret (0, b') /\ holds b' 0 packed /\
    length packed = 12%nat /\ no_nul packed /\
    unpack_mpc_desig (Some o) packed = Ret (ty, Some o') /\ holds o' 0 name.

(** Letters. *)
Definition capital (c : Z) : Prop := 65 <= c <= 90.
(** The number after the letters of a provisional designation; zero is not written. *)
Definition cycle (k : Z) : list Z := if k =? 0 then [] else dec k.
(** "1995 XA", "2016 JQ123". *)
Definition asteroid_name (year half second k : Z) : list Z :=
  dec year ++ [32; half; second] ++ cycle k.
(** A comet name: "C/1995 O1", "P/1994 P1-A". *)
Definition comet_name (kind year half k : Z) (fragment : list Z) : list Z :=
  [kind; 47] ++ dec year ++ [32; half] ++ cycle k ++ fragment.

(** Roman numerals: as many of each value as fit, the largest first. *)
Definition roman_values : list (Z * list Z) :=
  [(1000, zs "M"); (900, zs "CM"); (500, zs "D"); (400, zs "CD"); (100, zs "C"); (90, zs "XC"); (50, zs "L");
   (40, zs "XL"); (10, zs "X"); (9, zs "IX"); (5, zs "V"); (4, zs "IV"); (1, zs "I")].
Fixpoint roman_of (values : list (Z * list Z)) (n : Z) : list Z :=
  match values with
  | [] => []
  | (v, s) :: rest => concat (repeat s (Z.to_nat (n / v))) ++ roman_of rest (n mod v)
  end.
Definition roman_numeral (n : Z) : list Z := roman_of roman_values n.

(** Planets with natural satellites, and their initials. *)
Definition satellite_planets : list (list Z) :=
  [zs "Venus"; zs "Earth"; zs "Mars"; zs "Jupiter"; zs "Saturn"; zs "Uranus"; zs "Neptune"; zs "Pluto"].
(** "Jupiter XIII". *)
Definition satellite_name (planet : list Z) (n : Z) : list Z := planet ++ [32] ++ roman_numeral n.
(** "S/2003 J 105". *)
Definition provisional_satellite_name (year initial n : Z) : list Z :=
  zs "S/" ++ dec year ++ [32; initial; 32] ++ dec n.
(** Artificial satellites: "1998-067A", with one to three letters. *)
Definition artsat_name (year launch : Z) (letters : list Z) : list Z :=
  dec year ++ [45] ++ pad0 3 launch ++ letters.

(** No run of more than seven digits. *)
Definition short_numbers (s : list Z) : Prop :=
  forall p d q, s = p ++ d ++ q -> forallb isdigit d = true -> (length d <= 7)%nat.
(** No capital letter is followed by the number 620 or 621. *)
Definition no_620 (s : list Z) : Prop :=
  forall p h q, s = p ++ h :: q -> isupper h = true -> dig_val 0 q <> 620 /\ dig_val 0 q <> 621.

(** The field [q] has the form of a numbered satellite, and the name does not fit
    in the 16 bytes the unpacker allows for it. *)
Definition long_satellite (q : list Z) : Prop :=
  exists planet n, In planet satellite_planets /\ 0 <= n < 1000 /\
    q = [nth 0 planet 0] ++ pad0 3 n ++ zs "S       " /\ (16 <= length (satellite_name planet n))%nat.
(** An extended provisional designation follows a number. *)
Definition number_and_extended (q : list Z) : Prop :=
  nth 5 q 0 = 95 /\ (isalnum (nth 0 q 0) = true \/ nth 0 q 0 = 126).

(** The types the unpacker can report (mpc_func.h 86-93). *)
Definition designation_types : list Z :=
  [OBJ_DESIG_OTHER; OBJ_DESIG_ASTEROID_NUMBERED; OBJ_DESIG_ASTEROID_PROVISIONAL; OBJ_DESIG_COMET_NUMBERED;
   OBJ_DESIG_COMET_PROVISIONAL; OBJ_DESIG_NATSAT_NUMBERED; OBJ_DESIG_NATSAT_PROVISIONAL; OBJ_DESIG_ARTSAT].


(** The digits of base 62 in order, and the value of a sequence of digits. *)
Definition base62 : list Z := zs "0123456789ABCDEFGHIJKLMNOPQRSTUVWXYZabcdefghijklmnopqrstuvwxyz".
Definition is_digit62 (c d : Z) : Prop := 0 <= d /\ nth_error base62 (Z.to_nat d) = Some c.
Definition number62 (ds : list Z) : Z := fold_left (fun v d => 62 * v + d) ds 0.
(** The second letters of a provisional designation, in order: no I. *)
Definition second_letters : list Z := zs "ABCDEFGHJKLMNOPQRSTUVWXYZ".
