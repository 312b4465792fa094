(** Model of brentmin.cpp over the reals. *)
From Verif Require Import RBase.

(** brentmin.h:24-33 [brent_min_t].  [pts] is the five pairs (x[i], y[i]).
    prev_range and prev_range2 are only written, and left out.  n_iterations is
    a nat: it is assumed not to pass INT_MAX. *)
Record brent : Type := mk {
  pts : list (R * R);
  xmin : R; xmax : R;
  next_x : R;
  gold_ratio : R;
  tolerance : R; ytolerance : R;
  step_type : Z; n_iterations : nat }.

Definition pt (a : list (R * R)) (i : nat) : R * R := nth i a (0, 0).
Definition put (a : list (R * R)) (i : nat) (p : R * R) : list (R * R) := firstn i a ++ p :: skipn (S i) a.
(** x[i] and y[i]. *)
Definition X (b : brent) (i : nat) : R := fst (pt (pts b) i).
Definition Y (b : brent) (i : nat) : R := snd (pt (pts b) i).

(** brentmin.cpp:15-28 [bubble_down]. *)
Fixpoint bubble_down (a : list (R * R)) (count : nat) : list (R * R) :=
  match count with
  | O => a
  | S c => let a' := if Rltb (snd (pt a (c + 1))) (snd (pt a c))
                     then put (put a (c + 1) (pt a c)) c (pt a (c + 1)) else a in
           bubble_down a' c
  end.

(** brentmin.cpp:30: the literal, all its digits. *)
Definition PHI : R :=
  6180339887498948482045868343656381177203091798057628621354486227052605 / 10 ^ 70.

(** brentmin.cpp:32-36. *)
Definition STEP_TYPE_INITIALIZED : Z := -1.
Definition STEP_TYPE_DONE : Z := 0.
Definition STEP_TYPE_GOLDEN : Z := 1.
Definition STEP_TYPE_CUBIC : Z := 2.
Definition STEP_TYPE_QUADRATIC : Z := 4.

(** brentmin.cpp:38-66 [brent_min_init].  [junk] is what *b holds before the
    call in the places that are not set: (x[3], y[3]), (x[4], y[4]), next_x. *)
Definition brent_min_init (junk : (R * R) * (R * R) * R) (x1 y1 x2 y2 x3 y3 : R) : outcome brent :=
  let '(j3, j4, jn) := junk in
  let a := [(x1, y1); (x2, y2); (x3, y3); j3; j4] in
  let lo := x1 in
  let hi := x1 in
  let lo := if Rltb x2 lo then x2 else lo in
  let lo := if Rltb x3 lo then x3 else lo in
  let hi := if Rltb hi x2 then x2 else hi in
  let hi := if Rltb hi x3 then x3 else hi in
  let a := bubble_down a 2 in
  let a := bubble_down a 2 in
  do _ <- check (Rltb lo (fst (pt a 0)));
  do _ <- check (Rltb (fst (pt a 0)) hi);
  Ret (mk a lo hi jn PHI 0 0 STEP_TYPE_INITIALIZED O).

(** What a floating-point division can give: a number, an infinity (its sign does
    not matter below), or NaN. *)
Inductive quotient : Type :=
| Number (r : R)
| Infinite
| NotANumber.
Definition divide (n d : R) : quotient :=
  if Reqb d 0 then (if Reqb n 0 then NotANumber else Infinite) else Number (n / d).

(** brentmin.cpp:75-91 [fit_parabola]; returns a, b and c. *)
Definition fit_parabola (a : list (R * R)) : outcome (R * R * R) :=
  let x i := fst (pt a i) in
  let y i := snd (pt a i) in
  let x21 := x 2%nat - x 1%nat in
  let x01 := x 0%nat - x 1%nat in
  let x20 := x 2%nat - x 0%nat in
  let y21 := y 2%nat - y 1%nat in
  let y01 := y 0%nat - y 1%nat in
  do _ <- check (negb (Reqb x21 0) && negb (Reqb x20 0) && negb (Reqb x01 0));
  let qa := (y21 / x21 - y01 / x01) / x20 in
  let qb := y01 / x01 - qa * (x 1%nat + x 0%nat) in
  let qc := y 0%nat - x 0%nat * (qb + qa * x 0%nat) in
  Ret (qa, qb, qc).

(** brentmin.cpp:125-156 [cubic_min]; [None] is *err = 1.  (k12_denom != 0 makes
    x1 != 0.)  x[0] plus an infinity or NaN is the same again. *)
Definition cubic_min (p : list (R * R)) : outcome (option quotient) :=
  let x i := fst (pt p i) in
  let y i := snd (pt p i) in
  let x1 := x 1%nat - x 0%nat in
  let x2 := x 2%nat - x 0%nat in
  let x3 := x 3%nat - x 0%nat in
  let y1 := y 1%nat - y 0%nat in
  let y2 := y 2%nat - y 0%nat in
  let y3 := y 3%nat - y 0%nat in
  let k12_denom := x1 * x2 * (x1 - x2) in
  let k13_denom := x1 * x3 * (x1 - x3) in
  do _ <- check (negb (Reqb k12_denom 0) && negb (Reqb k13_denom 0) && negb (Reqb x2 x3));
  let k12 := (y1 * x2 - y2 * x1) / k12_denom in
  let k13 := (y1 * x3 - y3 * x1) / k13_denom in
  let a := (k12 - k13) / (x2 - x3) in
  let b := k12 - a * (x1 + x2) in
  let c := y1 / x1 - x1 * (a * x1 + b) in
  let a := a * 3 in
  let b := b + b in
  let discr := b * b - 4 * a * c in
  if Rltb discr 0 then Ret None
  else
    let discr := sqrt discr in
    let rval := if Rltb b 0 then - b + discr else - b - discr in
    Ret (Some (match divide (2 * c) rval with
               | Number q => Number (x 0%nat + q)
               | other => other
               end)).

(** brentmin.cpp:158-163 [is_done]. *)
Definition is_done (b : brent) : bool :=
  (Nat.ltb 3 (n_iterations b) && Rleb (Y b 3 - Y b 0) (ytolerance b))
  || (Rltb (xmax b - X b 0) (tolerance b) && Rltb (X b 0 - xmin b) (tolerance b)).

Definition set_step (b : brent) (s : Z) (nx : R) : brent :=
  mk (pts b) (xmin b) (xmax b) nx (gold_ratio b) (tolerance b) (ytolerance b) s (n_iterations b).

(** brentmin.cpp:192-218, for a step that is not golden: the adjusted rval (as
    long as it is a number) and whether the step is to be golden after all.  An
    infinity of either sign is outside the bracket; with NaN every comparison is
    false. *)
Definition adjust (b : brent) (rval : quotient) : quotient * bool :=
  let right := xmax b - X b 0 in
  let left := X b 0 - xmin b in
  let tol := tolerance b * (9 / 10) in
  let '(rval, golden) :=
    match rval with
    | NotANumber => (NotANumber, false)
    | Infinite => (Infinite, true)
    | Number r =>
        if Rltb (X b 0 - tol) r && Rltb r (X b 0 + tol) then
          (Number (X b 0 + (if Rltb left right then tol else - tol)), false)
        else if Rltb r (X b 0) then
          if Rltb r (xmin b) then (Number r, true)
          else if Rltb r (xmin b + tol) then (Number (xmin b + tol), false)
          else (Number r, false)
        else
          if Rltb (xmax b) r then (Number r, true)
          else if Rltb (xmax b - tol) r then (Number (xmax b - tol), false)
          else (Number r, false)
    end in
  (rval, golden || (Nat.ltb 30 (n_iterations b) && Nat.odd (n_iterations b))).

(** brentmin.cpp:165-227 [brent_min_next]. *)
Definition brent_min_next (b : brent) : outcome (R * brent) :=
  let right := xmax b - X b 0 in
  let left := X b 0 - xmin b in
  do _ <- check (negb (Reqb right 0));
  do _ <- check (negb (Reqb left 0));
  if is_done b then Ret (X b 0, set_step b STEP_TYPE_DONE (next_x b)) else
  do '(cand, step) <-
    (match n_iterations b with
     | S _ => do r <- cubic_min (pts b);
              Ret (match r with
                   | Some q => (q, STEP_TYPE_CUBIC)
                   | None => (Number 0, STEP_TYPE_GOLDEN)
                   end)
     | O => do '(quad, linear, _) <- fit_parabola (pts b);
            Ret (divide (- linear * (1 / 2)) quad, STEP_TYPE_QUADRATIC)
     end);
  let '(cand, step) :=
    if Z.eqb step STEP_TYPE_GOLDEN then (cand, step)
    else let '(c, golden) := adjust b cand in (c, if golden then STEP_TYPE_GOLDEN else step) in
  let cand :=
    if Z.eqb step STEP_TYPE_GOLDEN
    then Number (X b 0 + (if Rltb left right then right else - left) * (1 - gold_ratio b))
    else cand in
  match cand with
  | Number rval =>
      do _ <- check (Rleb (xmin b) rval);
      do _ <- check (Rleb rval (xmax b));
      do _ <- check (negb (Reqb rval (X b 0)));
      Ret (rval, set_step b step rval)
  | _ => Abort
  end.

(** brentmin.cpp:249-254: move the pairs from idx - 1 down that are not below
    next_y. *)
Fixpoint make_room (a : list (R * R)) (idx : nat) (next_y : R) : list (R * R) * nat :=
  match idx with
  | O => (a, O)
  | S i => if Rleb next_y (snd (pt a i)) then make_room (put a idx (pt a i)) i next_y else (a, idx)
  end.

(** brentmin.cpp:229-263 [brent_min_add]; returns is_done( ). *)
Definition brent_min_add (b : brent) (next_y : R) : outcome (bool * brent) :=
  let idx := match n_iterations b with O => 3%nat | _ => 4%nat end in
  let golden := Z.eqb (step_type b) STEP_TYPE_GOLDEN in
  let '(lo, hi, g) :=
    if Rleb next_y (Y b 0) then
      (if Rltb (next_x b) (X b 0) then xmin b else X b 0,
       if Rltb (next_x b) (X b 0) then X b 0 else xmax b,
       if golden then (1 + gold_ratio b) / 2 else gold_ratio b)
    else
      (if Rltb (next_x b) (X b 0) then next_x b else xmin b,
       if Rltb (next_x b) (X b 0) then xmax b else next_x b,
       if golden then (PHI + gold_ratio b) / 2 else gold_ratio b) in
  let '(a, i) := make_room (pts b) idx next_y in
  let a := put a i (next_x b, next_y) in
  let b' := mk a lo hi (next_x b) g (tolerance b) (ytolerance b) (step_type b) (S (n_iterations b)) in
  do _ <- check (Rleb (Y b' 0) (Y b' 1));
  do _ <- check (Rleb (Y b' 1) (Y b' 2));
  do _ <- check (Rleb (Y b' 2) (Y b' 3));
  do _ <- check (Rltb (xmin b') (X b' 0));
  do _ <- check (Rltb (X b' 0) (xmax b'));
  Ret (is_done b', b').
