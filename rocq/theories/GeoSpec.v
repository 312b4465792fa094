(** Independent description of a file of rectangles on the Earth, and of what it is to be in one.
    Nothing here refers to the model of mpc_code.cpp. *)
From Coq Require Import QArith Qabs.
From Verif Require Import CBase CStr TstrSpec.
Import ListNotations.
Local Open Scope list_scope.
Local Open Scope Z_scope.

(** Ten columns with a number, blanks before it and at least one behind it *)
Definition column (t : list Z) (q : Q) : Prop :=
  exists i sg n v j, t = repeat 32 i ++ sg ++ n ++ repeat 32 (S j) /\ List.length t = 10%nat /\ number_of n v /\
    ((sg = [] \/ sg = [43]) /\ (q == v)%Q \/ sg = [45] /\ (q == - v)%Q).
(** A rectangle: two corners, in degrees, and its name *)
Record rectangle := mk_rectangle { lon1 : Q; lat1 : Q; lon2 : Q; lat2 : Q; name : list Z }.
Definition line_of (r : rectangle) (t : list Z) : Prop :=
  exists c1 c2 c3 c4, t = c1 ++ c2 ++ c3 ++ c4 ++ name r ++ [10] /\ column c1 (lon1 r) /\ column c2 (lat1 r) /\ column c3 (lon2 r) /\ column c4 (lat2 r) /\
    name r <> [] /\ (List.length (name r) <= 48)%nat /\ (forall c, In c (name r) -> 32 <= c <= 127).
(** A comment *)
Definition comment (t : list Z) : Prop := exists u, t = 35 :: u ++ [10] /\ ~ In 10 u /\ ~ In 0 u /\ (List.length u <= 87)%nat.
(** A file with these rectangles, and comments *)
Inductive file_of : list rectangle -> list Z -> Prop :=
| file_nil : file_of [] []
| file_comment rs t f : comment t -> file_of rs f -> file_of rs (t ++ f)
| file_rectangle r rs t f : line_of r t -> file_of rs f -> file_of (r :: rs) (t ++ f).

(** Longitudes that differ by whole turns *)
Definition same_lon (a b : Q) : Prop := exists k : Z, (a == b + 360 * inject_Z k)%Q.
Definition between (x a b : Q) : Prop := (a < x /\ x < b)%Q \/ (b < x /\ x < a)%Q.
(** In the rectangle: the latitude between the two given, the longitude on the shorter arc between the two given *)
Definition inside (lat lon : Q) (r : rectangle) : Prop :=
  between lat (lat1 r) (lat2 r) /\ exists a b, same_lon a (lon1 r) /\ same_lon b (lon2 r) /\ (Qabs (a - b) < 180)%Q /\ between lon a b.
(** Half of the Earth: there is no shorter arc. *)
Definition half (r : rectangle) : Prop := same_lon (lon2 r) (lon1 r + 180).
(** The answer: the first rectangle the place is in, or -2 *)
Definition answer (rs : list rectangle) (lat lon : Q) (v : Z) (text : list Z) : Prop :=
  (exists before r after, rs = before ++ r :: after /\ (forall x, In x before -> ~ inside lat lon x) /\ inside lat lon r /\ v = 0 /\ text = name r) \/
  ((forall x, In x rs -> ~ inside lat lon x) /\ v = -2 /\ text = []).
