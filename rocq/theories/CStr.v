(** Memory of byte buffers and C strings.  Nothing here models a particular
    function of /repo. *)
From Coq Require Import Ascii String.
From Verif Require Export CBase.

(** A buffer: its length is its size, [None] is a byte never written. *)
Definition buf : Type := list (option Z).

(** Read and write one byte; outside the buffer, or an uninitialised read, is
    undefined behaviour. *)
Definition rd (b : buf) (i : Z) : outcome Z :=
  do o <- nth_ub b i;
  match o with Some c => Ret c | None => UB end.
Definition wr (b : buf) (i : Z) (c : Z) : outcome buf := set_ub b i (Some c).

(** A constant string argument: the bytes before the terminator.  Reading the
    terminator yields 0, reading beyond it is undefined behaviour. *)
Definition at_ (s : list Z) (i : Z) : outcome Z :=
  if i =? Z.of_nat (List.length s) then Ret 0 else nth_ub s i.

(** The bytes of a literal.  [char] is signed, so bytes from 128 on are negative. *)
Definition zc (a : ascii) : Z := to_char (Z.of_nat (nat_of_ascii a)).
Fixpoint zs (s : string) : list Z :=
  match s with
  | EmptyString => []
  | String a r => zc a :: zs r
  end.

(** <ctype.h> in the "C" locale; bytes outside ASCII (negative) belong to no class. *)
Definition isdigit (c : Z) : bool := (48 <=? c) && (c <=? 57).
Definition isupper (c : Z) : bool := (65 <=? c) && (c <=? 90).
Definition islower (c : Z) : bool := (97 <=? c) && (c <=? 122).
Definition isalpha (c : Z) : bool := isupper c || islower c.
Definition isalnum (c : Z) : bool := isalpha c || isdigit c.
Definition toupper (c : Z) : Z := if islower c then c - 32 else c.

(** strchr( s, c) != NULL: note that the terminator is found. *)
Definition strchr (s : list Z) (c : Z) : bool := existsb (Z.eqb c) s || (c =? 0).

(** Decimal digits, as printf's %d writes them.  [n] bounds the number of
    digits; 20 are enough for any C integer. *)
Fixpoint digits (n : nat) (v : Z) (acc : list Z) : list Z :=
  match n with
  | O => acc
  | S n' => let acc' := (48 + v mod 10) :: acc in
            if v / 10 =? 0 then acc' else digits n' (v / 10) acc'
  end.
Definition dec (v : Z) : list Z :=
  if v <? 0 then 45 :: digits 20 (- v) [] else digits 20 v [].
(** %0[w]d *)
Definition pad0 (w : nat) (v : Z) : list Z :=
  let d := digits 20 (Z.abs v) [] in
  let sign := if v <? 0 then [45] else [] in
  sign ++ repeat 48 (w - List.length d - List.length sign) ++ d.

(** Number of leading bytes that satisfy [f]. *)
Fixpoint span (f : Z -> bool) (s : list Z) : nat :=
  match s with
  | c :: r => if f c then S (span f r) else O
  | [] => O
  end.

(** [b] holds, from offset [i] on, the string [s] and its terminator. *)
Definition holds (b : buf) (i : nat) (s : list Z) : Prop :=
  firstn (List.length s + 1) (skipn i b) = map Some s ++ [Some 0].
Definition no_nul (s : list Z) : Prop := forall c, In c s -> c <> 0.
Definition byte (c : Z) : Prop := -128 <= c <= 127.

(** && and || evaluate their right side only if needed. *)
Definition oand (a b : outcome bool) : outcome bool := do x <- a; if x then b else Ret false.
Definition oor (a b : outcome bool) : outcome bool := do x <- a; if x then Ret true else b.
Infix "&&&" := oand (at level 40, left associativity).
Infix "|||" := oor (at level 50, left associativity).
(** A test of one byte of a string. *)
Definition tst (s : list Z) (i : Z) (f : Z -> bool) : outcome bool := do c <- at_ s i; Ret (f c).

(** Value of the leading digits of [s], and atoi( ): white space, sign, digits.
    A value outside [int] is undefined behaviour. *)
Fixpoint dig_val (acc : Z) (s : list Z) : Z :=
  match s with
  | c :: r => if isdigit c then dig_val (acc * 10 + (c - 48)) r else acc
  | [] => acc
  end.
Definition isspace (c : Z) : bool := (c =? 32) || ((9 <=? c) && (c <=? 13)).
Definition atoi (s : list Z) : outcome Z :=
  let t := skipn (span isspace s) s in
  match t with
  | 45 :: r => chk IMAX (- dig_val 0 r)
  | 43 :: r => chk IMAX (dig_val 0 r)
  | _ => chk IMAX (dig_val 0 t)
  end.

(** Two strings are equal (strcmp); [p] is a prefix of [s] (strncmp with the
    length of [p]). *)
Fixpoint streq (s t : list Z) : bool :=
  match s, t with
  | [], [] => true
  | c :: s', d :: t' => (c =? d) && streq s' t'
  | _, _ => false
  end.
Fixpoint prefix (p s : list Z) : bool :=
  match p, s with
  | [], _ => true
  | c :: p', d :: s' => (c =? d) && prefix p' s'
  | _, [] => false
  end.
