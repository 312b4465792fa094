(** Real arithmetic for the models of floating-point code.  A double is modelled
    by the real number it holds: rounding, overflow and underflow are not
    modelled.  Nothing here models a particular function of /repo. *)
From Coq Require Export Reals Lra.
From Verif Require Export CBase.
Global Open Scope R_scope.

Definition Rltb (x y : R) : bool := if Rlt_dec x y then true else false.
Definition Rleb (x y : R) : bool := if Rle_dec x y then true else false.
Definition Reqb (x y : R) : bool := if Req_EM_T x y then true else false.

Lemma Rltb_spec x y : reflect (x < y) (Rltb x y).
Proof. unfold Rltb. destruct (Rlt_dec x y); constructor; assumption. Qed.
Lemma Rleb_spec x y : reflect (x <= y) (Rleb x y).
Proof. unfold Rleb. destruct (Rle_dec x y); constructor; assumption. Qed.
Lemma Reqb_spec x y : reflect (x = y) (Reqb x y).
Proof. unfold Reqb. destruct (Req_EM_T x y); constructor; assumption. Qed.

(** assert( ) with assertions enabled. *)
Definition check (c : bool) : outcome unit := if c then Ret tt else Abort.
