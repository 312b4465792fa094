(** Designations of comets, independently of the code that finds them.  A text is a list of bytes. *)
From Coq Require Import List ZArith.
Export ListNotations.
Local Open Scope Z_scope.

Definition a_digit (c : Z) : Prop := 48 <= c <= 57.
Definition a_capital (c : Z) : Prop := 65 <= c <= 90.
Definition not_first (f : Z -> Prop) (s : list Z) : Prop := match s with [] => True | c :: _ => ~ f c end.

(** [s] is [a], then (number)P in parentheses, then [b]; there is no P) before, and no parenthesis opens inside.
    80, 40 and 41 are P, the opening and the closing parenthesis. *)
Definition numbered (s a d b : list Z) : Prop :=
  s = a ++ [40] ++ d ++ [80; 41] ++ b /\ ~ In 40 d /\ forall u v, s = u ++ [80; 41] ++ v -> (length (a ++ [40%Z] ++ d) <= length u)%nat.

(** Nothing in [s] ends in P). *)
Definition no_number (s : list Z) : Prop := forall u v, s <> u ++ [80; 41] ++ v.

(** A designation with a letter starts at the end of [u]: P or C (80, 67), a slash (47) and a digit that is not 0. *)
Definition starts_at (s u : list Z) : Prop := exists c d v, s = u ++ [c; 47; d] ++ v /\ (c = 80 \/ c = 67) /\ 49 <= d <= 57.
Definition no_letter (s : list Z) : Prop := forall u, ~ starts_at s u.

(** The first designation with a letter in [s] is letter [c], [year], any number of blanks, capitals [id], digits [sub] and [frag],
    the letters of a fragment with a hyphen (45) before them, or nothing. *)
Definition lettered (s : list Z) (c : Z) (year id sub frag : list Z) : Prop :=
  exists a n b, s = a ++ [c; 47] ++ year ++ repeat 32 n ++ id ++ sub ++ frag ++ b /\ (c = 80 \/ c = 67) /\
    (forall u, starts_at s u -> (length a <= length u)%nat) /\
    (exists y0 ys, year = y0 :: ys /\ 49 <= y0 <= 57) /\ Forall a_digit year /\ id <> [] /\ Forall a_capital id /\ sub <> [] /\ Forall a_digit sub /\
    ((frag = [] /\ not_first (fun x => a_digit x \/ x = 45) b) \/ (exists f, frag = 45 :: f /\ Forall a_capital f /\ not_first a_capital b)).

(** Value of a text of digits. *)
Definition year_of (y : list Z) (v : Z) : Prop := exists d1 d2 d3 d4, y = [48 + d1; 48 + d2; 48 + d3; 48 + d4] /\ 0 <= d1 <= 9 /\ 0 <= d2 <= 9 /\ 0 <= d3 <= 9 /\ 0 <= d4 <= 9 /\ v = 1000 * d1 + 100 * d2 + 10 * d3 + d4.
