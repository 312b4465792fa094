(** Specification for C56: a table with named columns. *)
From Coq Require Import QArith Qreals String.
From Verif Require Import CBase CStr DateModel TstrModel MpcfModel TrigBase SofModel.
Local Open Scope string_scope.
Local Open Scope list_scope.
Local Open Scope Z_scope.

(** A column: its name, blanks after it included, and the text in the line, equally long. *)
Record col : Type := mk_col { cname : list Z; ctext : list Z }.
Definition good (c : col) : Prop :=
  (2 <= List.length (cname c) < 80)%nat /\ (forall x, In x (cname c) -> 32 <= x < 128 /\ x <> 124) /\ List.length (ctext c) = List.length (cname c).

(** The header: the names, '|' between them; and what may follow: its end, or a control character. *)
Fixpoint header_of (cs : list col) : list Z :=
  match cs with
  | [] => []
  | [c] => cname c
  | c :: cs => cname c ++ 124 :: header_of cs
  end.
Definition ended (e : list Z) : Prop := match e with [] => True | x :: _ => 0 < x < 32 end.

(** A line: the texts, any one byte between them, anything after them. *)
Inductive line_of : list col -> list Z -> Prop :=
| line_last c rest : line_of [c] (ctext c ++ rest)
| line_more c x cs l : line_of cs l -> cs <> [] -> line_of (c :: cs) (ctext c ++ x :: l).

(** A column whose name begins so, and the last such column. *)
Definition named (n : string) (c : col) : bool := prefix (zs n) (cname c).
Definition last_named (n : string) (cs : list col) : option col := find (named n) (rev cs).

(** The value [v] is what [reads] gives for the last column whose name begins with [n]; the
    default if there is none. *)
Definition value {X : Type} (n : string) (cs : list col) (reads : list Z -> X -> Prop) (default v : X) : Prop :=
  match last_named n cs with Some c => reads (ctext c) v | None => v = default end.
Definition number (t : list Z) (v : Q) : Prop := atof t = Ret v.
Definition angle (t : list Z) (v : R) : Prop := exists d, atof t = Ret d /\ v = (Q2R d * PI / 180)%R.
Definition whole (t : list Z) (v : Z) : Prop := atoi t = Ret v.
Definition calendar_day (L : Z) (t : list Z) (v : Q) : Prop := extract_yyyymmdd_to_jd L t = Ret v.

(** The columns without which there is no orbit. *)
Definition complete (cs : list col) : bool :=
  forallb (fun n => existsb (named n) cs) ["q "; "e "; "i "; "O"; "o"; "Tp"].

(** Columns whose text can be read: no "inf", "nan" or hexadecimal numbers (not modelled), no
    dates with impossible months, no integers that do not fit. *)
Definition readable (L : Z) (c : col) : Prop :=
  (existsb (fun n => named n c) ["q "; "e "; "i "; "H "; "G "; "O"; "o"; "rms"] = true -> exists v, atof (ctext c) = Ret v) /\
  (named "T" c = true -> named "T " c = false -> exists v, extract_yyyymmdd_to_jd L (ctext c) = Ret v) /\
  (named "C " c = true -> exists v, atoi (ctext c) = Ret v).

(** How many columns say that the elements are about the Earth. *)
Definition geocentric (c : col) : bool := (named "C " c && match atoi (ctext c) with Ret v => 3 =? v | _ => false end)%bool.

(** A line that begins with the texts of these columns, one byte after each; and the header over it. *)
Inductive starts : list col -> list Z -> list Z -> Prop :=
| starts_none l : starts [] l l
| starts_more c x cs l rest : starts cs l rest -> starts (c :: cs) (ctext c ++ x :: l) rest.
Definition header_start (cs : list col) : list Z := List.concat (map (fun c => cname c ++ [124]) cs).
(** A name too short or too long for a column, and what ends it. *)
Definition bad_name (n e : list Z) : Prop :=
  (forall x, In x n -> 32 <= x < 128 /\ x <> 124) /\
  ((List.length n = 0%nat /\ exists e', e = 124 :: e') \/
   ((List.length n = 1 \/ 80 <= List.length n)%nat /\ match e with [] => True | x :: _ => 0 < x < 32 \/ x = 124 end)).

(** An example. *)
Definition a_table : list col :=
  [mk_col (zs "Name      ") (zs "  2024 AA1"); mk_col (zs "Tp      .    ") (zs "20240229.2500"); mk_col (zs "q       ") (zs "1.250000"); mk_col (zs "e       ") (zs "0.500000");
   mk_col (zs "i       ") (zs " 12.5000"); mk_col (zs "Om      ") (zs "100.0000"); mk_col (zs "om      ") (zs " 30.0000"); mk_col (zs "C ") (zs " 3"); mk_col (zs "rms  ") (zs "0.43 ")].
