(** Vocabulary for observations from spacecraft: the position of the spacecraft goes to a second line. *)
From Coq Require Import QArith String.
From Verif Require Import CBase CStr CtimeSpec DesigModel DesigSpec MpcfSpec MpcdSpec AdesModel AdesSpec ObsModel ObsSpec.
Import ListNotations.
Local Open Scope string_scope.
Local Open Scope list_scope.
Local Open Scope Z_scope.

Inductive frame := Km | Au.
Definition frame_name (u : frame) : list Z := match u with Km => zs "ICRF_KM" | Au => zs "ICRF_AU" end.
Definition frame_digit (u : frame) : Z := match u with Km => 49 | Au => 50 end.
(** A coordinate: perhaps a sign (Some true for minus), [whole] digits, a point, and decimals; [units] of the last. *)
Record coordinate := { sign : option bool; whole : nat; decs : nat; units : Z }.
Definition digits_text (c : coordinate) : list Z :=
  ndig (whole c) (units c / 10 ^ Z.of_nat (decs c)) ++ 46 :: ndig (decs c) (units c mod 10 ^ Z.of_nat (decs c)).
Definition coordinate_text (c : coordinate) : list Z :=
  (match sign c with Some true => zs "-" | Some false => zs "+" | None => [] end) ++ digits_text c.
(** Those that fit in their columns: see C59_coordinates_refuted for others. *)
Definition coordinate_ok (u : frame) (c : coordinate) : Prop :=
  (1 <= decs c)%nat /\ (whole c + decs c <= 37)%nat /\
  match u with Km => (1 <= whole c <= 7)%nat /\ ((5 <= whole c)%nat \/ (decs c <= 4)%nat) | Au => (1 <= whole c <= 2)%nat end.
(** The twelve columns: the sign, and ten for the number, with the point in the seventh of the columns for distances in
    kilometres (or later, if there are more than five digits) and digits that have no column left out. *)
Definition coordinate_columns (u : frame) (c : coordinate) : list Z :=
  (match sign c with Some true => 45 | _ => 43 end) ::
  on_left 11 (blanks (match u with Km => 5 - whole c | Au => 0 end) ++ firstn 10 (digits_text c)).
(** The centre of the coordinates, by its number; it is the Earth's, 399, if it is not given. *)
Definition centre_ok (ct : option Z) : Prop := match ct with Some n => 0 <= n < 10 ^ 7 | None => True end.
(** The elements of a spacecraft's position. *)
Definition place (u : frame) (centre : option Z) (c1 c2 c3 : coordinate) : list (string * list Z) :=
  [("sys", frame_name u)] ++ (match centre with Some n => [("ctr", dec n)] | None => [] end) ++
  [("pos1", coordinate_text c1); ("pos2", coordinate_text c2); ("pos3", coordinate_text c3)].
Fixpoint hand_raw (h : hooks obs) (l : list (string * list Z * list Z)) (w : obs) : outcome obs :=
  match l with
  | [] => Ret w
  | (tag, t, after) :: l =>
      do '(r, o, w) <- h_tag h w (num tag) (t ++ after) (List.length t);
      match r, o with false, [] => hand_raw h l w | _, _ => Abort end
  end.
(** The first line has an S, the second an s. *)
Definition with_S (f : zone -> list Z) (z : zone) : list Z := match z with Note2 => zs "S" | _ => f z end.
Definition second_line (u : frame) (centre : option Z) (c1 c2 c3 : coordinate) (f : zone -> list Z) : list Z :=
  f Object ++ zs "  s" ++ f Date ++ [frame_digit u] ++ zs " " ++ coordinate_columns u c1 ++ coordinate_columns u c2 ++
  firstn 11 (coordinate_columns u c3) ++
  (match centre with None => blanks 8 | Some n => if n =? 399 then blanks 8 else on_right 8 (dec n) end) ++ f Site.
