(** Specification for C60: calls one after the other, in one process. *)
From Coq Require Import QArith Reals.
From Verif Require Import CBase RBase CospModel.
Import ListNotations.
Local Open Scope Z_scope.

Inductive call :=
| Orient (planet_no system_no : Z) (jd : R)
| Rate (planet_no system_no : Z)
| Radii (planet_no : Z) (old : list Q).
Inductive answer :=
| Matrix (rv : Z) (m : list R)
| Turns (v : R)
| Sizes (rv : Z) (r : list Q).
Definition serve (fuel : nat) (E : env) (s : statics) (c : call) : outcome (answer * statics) :=
  match c with
  | Orient p y jd => do '(rv, m, s) <- calc_planet_orientation fuel E s p y jd; Ret (Matrix rv m, s)
  | Rate p y => do '(v, s) <- planet_rotation_rate fuel E s p y; Ret (Turns v, s)
  | Radii p old => do '(rv, r, s) <- planet_radii fuel E s p old; Ret (Sizes rv r, s)
  end.
Fixpoint history (fuel : nat) (E : env) (s : statics) (cs : list call) : outcome (list answer) :=
  match cs with
  | [] => Ret []
  | c :: cs => do '(a, s) <- serve fuel E s c; do l <- history fuel E s cs; Ret (a :: l)
  end.
(** What the call would give as the first of a process *)
Definition as_first (fuel : nat) (E : env) (c : call) (a : answer) : Prop := exists s, serve fuel E init_statics c = Ret (a, s).
