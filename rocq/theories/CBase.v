(** Common base of the model: outcomes of C functions and checked C integer
    arithmetic.  Nothing here models a particular function of /repo. *)
From Coq Require Export ZArith List Bool.
Export ListNotations.
Global Open Scope Z_scope.

(** Result of running a piece of C code. *)
Inductive outcome (A : Type) : Type :=
| Ret (a : A)      (* returned normally *)
| UB               (* undefined behaviour: overflow, out of bounds, uninitialised read *)
| Abort            (* failed assert( ) or exit( ) *)
| Fuel.            (* the loop bound given to the model was used up *)
Arguments Ret {A} a.
Arguments UB {A}.
Arguments Abort {A}.
Arguments Fuel {A}.

Definition obind {A B : Type} (m : outcome A) (k : A -> outcome B) : outcome B :=
  match m with
  | Ret a => k a
  | UB => UB
  | Abort => Abort
  | Fuel => Fuel
  end.

Notation "'do' x <- m ; k" := (obind m (fun x => k))
  (at level 200, x name, m at level 100, k at level 200, right associativity).
Notation "'do' ' p <- m ; k" := (obind m (fun x => match x with p => k end))
  (at level 200, p pattern, m at level 100, k at level 200, right associativity).

(** Arithmetic expressions of one signed C integer type whose largest value is
    [L] (its smallest is [-L-1]).  Every intermediate result is checked. *)
Inductive cexpr : Type :=
| EC (z : Z)
| EAdd (a b : cexpr)
| ESub (a b : cexpr)
| EMul (a b : cexpr)
| EQuot (a b : cexpr)      (* C's / : rounds towards zero *)
| ERem (a b : cexpr)       (* C's % : sign of the dividend *)
| ENeg (a : cexpr).
Coercion EC : Z >-> cexpr.

Declare Scope cexpr_scope.
Delimit Scope cexpr_scope with cx.
Bind Scope cexpr_scope with cexpr.
Infix "+" := EAdd : cexpr_scope.
Infix "-" := ESub : cexpr_scope.
Infix "*" := EMul : cexpr_scope.
Infix "/" := EQuot : cexpr_scope.
Infix "mod" := ERem : cexpr_scope.
Notation "- x" := (ENeg x) : cexpr_scope.

Definition in_rng (L z : Z) : bool := (- L - 1 <=? z) && (z <=? L).
Definition chk (L z : Z) : outcome Z := if in_rng L z then Ret z else UB.

Fixpoint ev (L : Z) (e : cexpr) : outcome Z :=
  match e with
  | EC z => chk L z
  | EAdd a b => do x <- ev L a; do y <- ev L b; chk L (x + y)
  | ESub a b => do x <- ev L a; do y <- ev L b; chk L (x - y)
  | EMul a b => do x <- ev L a; do y <- ev L b; chk L (x * y)
  | EQuot a b => do x <- ev L a; do y <- ev L b;
                 if y =? 0 then UB else chk L (Z.quot x y)
  | ERem a b => do x <- ev L a; do y <- ev L b;
                if y =? 0 then UB else
                (do _ <- chk L (Z.quot x y); chk L (Z.rem x y))
  | ENeg a => do x <- ev L a; chk L (- x)
  end.

(** [int] is 32 bits; [long] is 32 or 64 bits (a parameter of the model). *)
Definition IMAX : Z := 2147483647.
Definition LMAX32 : Z := 2147483647.
Definition LMAX64 : Z := 9223372036854775807.

(** Narrowing conversions wrap (gcc). [char] is signed, 8 bits (x86-64). *)
Definition wrap (bits z : Z) : Z :=
  (z + 2 ^ (bits - 1)) mod 2 ^ bits - 2 ^ (bits - 1).
Definition to_char (z : Z) : Z := wrap 8 z.
Definition to_int (z : Z) : Z := wrap 32 z.

(** Array access with bounds check. *)
Definition nth_ub {A : Type} (l : list A) (i : Z) : outcome A :=
  if i <? 0 then UB
  else match nth_error l (Z.to_nat i) with
       | Some a => Ret a
       | None => UB
       end.

(** Array store with bounds check. *)
Fixpoint upd {A : Type} (l : list A) (n : nat) (v : A) : list A :=
  match l, n with
  | [], _ => []
  | _ :: t, O => v :: t
  | h :: t, S m => h :: upd t m v
  end.
Definition set_ub {A : Type} (l : list A) (i : Z) (v : A) : outcome (list A) :=
  if (i <? 0) || (Z.of_nat (length l) <=? i) then UB
  else Ret (upd l (Z.to_nat i) v).
