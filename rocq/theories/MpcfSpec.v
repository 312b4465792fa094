(** Vocabulary of the properties of the 80-column report format.  Nothing here uses
    the model's own helpers, apart from the functions themselves. *)
From Coq Require Import QArith Qround.
From Coq Require Import String.
From Verif Require Import CBase CStr CtimeSpec MpcfModel.
Local Open Scope string_scope.
Local Open Scope list_scope.
Local Open Scope Z_scope.

(** The layouts of right ascensions and declinations, with n decimals:
    "hh mm ss.ss", "hh mm.mm", "dd.dd", "ddd.dd", "hhmmssss", "ddd mm ss.s".  Angles
    are in hours or degrees; the layouts with ddd show 15 times the angle. *)
Inductive layout : Set := Seconds | Minutes | Decimal | Decimal3 | Packed | Seconds3.
(** The numbers that stand for them (mpc_fmt.cpp:291-320). *)
Definition format_of (l : layout) (n : nat) : Z :=
  match l with
  | Seconds => Z.of_nat n
  | Minutes => -1 - Z.of_nat n
  | Decimal => 100 + Z.of_nat n
  | Decimal3 => 200 + Z.of_nat n
  | Packed => 306 + Z.of_nat n
  | Seconds3 => 400 + Z.of_nat n
  end.
(** Decimals that can be written, and those that can be read. *)
Definition can_write (l : layout) (n : nat) : Prop :=
  match l with
  | Seconds => (n <= 9)%nat
  | Minutes => (n <= 6)%nat
  | Decimal => (n <= 16)%nat
  | Decimal3 => (1 <= n <= 15)%nat
  | Packed => (1 <= n <= 6)%nat
  | Seconds3 => (n <= 2)%nat
  end.
Definition can_read (l : layout) (n : nat) : Prop :=
  match l with
  | Seconds => (n <= 3)%nat
  | Minutes => (n <= 6)%nat
  | Decimal => (1 <= n <= 9)%nat
  | Decimal3 => (1 <= n <= 8)%nat
  | Packed => (2 <= n <= 6)%nat
  | Seconds3 => (n <= 2)%nat
  end.
(** Units of the last place in an hour or degree; k of them as an angle. *)
Definition per (l : layout) : Z :=
  match l with
  | Seconds | Packed => 3600 | Minutes => 60 | Decimal => 1 | Decimal3 => 15 | Seconds3 => 54000
  end.
Definition angle_of (l : layout) (n : nat) (k : Z) : Q :=
  (inject_Z k / inject_Z (per l * 10 ^ Z.of_nat n))%Q.
(** The first field has two or three digits. *)
Definition fits_layout (l : layout) (n : nat) (k : Z) : Prop :=
  0 <= k < 10 ^ Z.of_nat n *
    match l with
    | Seconds | Packed => 360000 | Minutes => 6000 | Decimal => 100 | Decimal3 => 1000 | Seconds3 => 3600000
    end.
(** The text of k units of the last place. *)
Definition angle_text (l : layout) (n : nat) (k : Z) : list Z :=
  let i := k / 10 ^ Z.of_nat n in
  let d := k mod 10 ^ Z.of_nat n in
  match l with
  | Seconds => ndig 2 (i / 3600) ++ 32 :: ndig 2 (i / 60 mod 60) ++ 32 :: ndig 2 (i mod 60) ++ decimals n d
  | Minutes => ndig 2 (i / 60) ++ 32 :: ndig 2 (i mod 60) ++ decimals n d
  | Decimal => ndig 2 i ++ decimals n d
  | Decimal3 => ndig 3 i ++ decimals n d
  | Packed => ndig 2 (i / 3600) ++ ndig 2 (i / 60 mod 60) ++ ndig 2 (i mod 60) ++ ndig n d
  | Seconds3 => ndig 3 (i / 3600) ++ 32 :: ndig 2 (i / 60 mod 60) ++ 32 :: ndig 2 (i mod 60) ++ decimals n d
  end.
(** The digits of a packed angle, as one number. *)
Definition packed_number (n : nat) (k : Z) : Z :=
  let i := k / 10 ^ Z.of_nat n in
  ((i / 3600 * 100 + i / 60 mod 60) * 100 + i mod 60) * 10 ^ Z.of_nat n + k mod 10 ^ Z.of_nat n.
(** Blanks up to twelve columns. *)
Definition columns (s : list Z) : list Z := s ++ repeat 32 (12 - List.length s).

(** output_angle_to_buff( obuff, angle, format) stores the string s and its
    terminator, and nothing else, whatever is around them. *)
Definition prints (angle : Q) (format : Z) (s : list Z) : Prop :=
  no_nul s /\
  forall pre room post : buf, List.length room = S (List.length s) ->
    output_angle_to_buff (pre ++ room ++ post) (Z.of_nat (List.length pre)) angle format
    = Ret (pre ++ map Some s ++ Some 0 :: post).
Definition prints_signed (angle : Q) (format : Z) (s : list Z) : Prop :=
  no_nul s /\
  forall room post : buf, List.length room = S (List.length s) ->
    output_signed_angle_to_buff (room ++ post) angle format = Ret (map Some s ++ Some 0 :: post).
(** The sign of a declination. *)
Definition sign_char (a : Q) : Z := if Qlt_le_dec a 0 then 45 else 43.
(** Text that starts in the column of a right ascension or declination is read as the
    angle v in the given format, with a precision of p seconds (of time, or of arc, as v is in
    hours or degrees). *)
Definition reads_angle (s : list Z) (v : Q) (format : Z) (p : Q) : Prop :=
  exists v' p', get_ra_dec s = Ret (v', format, p') /\ (v' == v)%Q /\ (p' == p)%Q.
(** A unit of the last place, in seconds. *)
Definition unit_of (l : layout) (n : nat) : Q := (3600 / inject_Z (per l * 10 ^ Z.of_nat n))%Q.
(** The nearest number of units. *)
Definition units (l : layout) (n : nat) (a : Q) : Z := Qfloor (a * inject_Z (per l * 10 ^ Z.of_nat n) + (1 # 2)).
(** Packed digits must fit into an int (see C47_packed_overflow_refuted). *)
Definition packed_ok (l : layout) (n : nat) (k : Z) : Prop := l = Packed -> packed_number n k <= IMAX.
(** Decimals there are columns for. *)
Definition most_decimals (l : layout) : nat :=
  match l with Seconds => 3 | Minutes => 6 | Decimal => 9 | Decimal3 => 8 | Packed => 6 | Seconds3 => 2 end.

(** [replaced old new s t n]: t is s with its n occurrences of old, found from left to
    right without overlap, replaced by new. *)
Inductive replaced (old new : list Z) : list Z -> list Z -> Z -> Prop :=
  | replaced_none : forall s, (forall p r, s <> p ++ old ++ r) -> replaced old new s s 0
  | replaced_next : forall p r t n,
      (forall q r', p ++ old ++ r = q ++ old ++ r' -> (List.length p <= List.length q)%nat) ->
      replaced old new r t n -> replaced old new (p ++ old ++ r) (p ++ new ++ t) (n + 1).
