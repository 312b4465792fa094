(** Property C37 (bracketed minimisation).  Doubles are modelled by real numbers;
    a failed assert( ) is the outcome [Abort].

    [session] is any history of calls with any function values; [h] is the list of
    all points so far.  See [BrentSpec]. *)
From Verif Require Import RBase BrentModel BrentSpec BrentThms.
Open Scope list_scope.

(** C37.  Any three points of which the middle one is the lowest, given in any order,
    are accepted; the bracket is then the outer two and the best point the middle
    one. *)
Theorem C37_init :
  forall junk p q r, bracketed p q r ->
  exists b, brent_min_init junk (fst p) (snd p) (fst q) (snd q) (fst r) (snd r) = Ret b /\
    forall u v w, (forall t, In t [p; q; r] <-> In t [u; v; w]) -> lowest_between u v w ->
      xmin b = fst u /\ xmax b = fst w /\ X b 0 = fst v /\ Y b 0 = snd v.
Proof. exact C37_init_proof. Qed.
Print Assumptions C37_init.

Example C37_init_case : bracketed (5, 2) (0, 1) (3, -7).
Proof. unfold bracketed, lowest_between. cbn. right. right. right. left. lra. Qed.

(** C37.  After any history of calls with any function values and any tolerances, the
    best point is strictly inside the bracket, it is one of the points that were
    tried, no point that was tried was lower, and the ends of the bracket were
    tried. *)
Theorem C37_bracket :
  forall P b h, session P b h ->
  xmin b < X b 0 < xmax b /\ In (X b 0, Y b 0) h /\ (forall q, In q h -> Y b 0 <= snd q) /\
  (exists y, In (xmin b, y) h) /\ (exists y, In (xmax b, y) h) /\
  (forall q, In q h -> q = (X b 0, Y b 0) \/ fst q <= xmin b \/ xmax b <= fst q).
Proof. exact C37_bracket_proof. Qed.
Print Assumptions C37_bracket.

(** C37.  A round never makes the bracket larger nor the best value higher, and the
    best value is at most the one just added.  With a positive tolerance the bracket
    gets strictly smaller. *)
Theorem C37_shrinks :
  forall P b h x b' y done b'', session P b h ->
  brent_min_next b = Ret (x, b') -> step_type b' <> STEP_TYPE_DONE -> brent_min_add b' y = Ret (done, b'') ->
  xmin b <= xmin b'' /\ xmax b'' <= xmax b /\ Y b'' 0 <= Y b 0 /\ Y b'' 0 <= y /\
  (0 < tolerance b -> xmax b'' - xmin b'' < xmax b - xmin b).
Proof. exact C37_shrinks_proof. Qed.
Print Assumptions C37_shrinks.

(** C37.  A suggestion is in the bracket and is not the best point.  With a positive
    tolerance it is strictly inside the bracket, and it is a point that was not
    tried before. *)
Theorem C37_suggestion :
  forall P b h x b', session P b h -> brent_min_next b = Ret (x, b') -> step_type b' <> STEP_TYPE_DONE ->
  xmin b <= x <= xmax b /\ x <> X b 0 /\
  (0 < tolerance b -> xmin b < x < xmax b /\ forall q, In q h -> fst q <> x).
Proof. exact C37_suggestion_proof. Qed.
Print Assumptions C37_suggestion.

(** C37.  With a positive tolerance, any function value at the suggested point can be
    added: no assertion fails. *)
Theorem C37_add_never_fails :
  forall P b h x b' y, session P b h -> 0 < tolerance b ->
  brent_min_next b = Ret (x, b') -> step_type b' <> STEP_TYPE_DONE ->
  exists done b'', brent_min_add b' y = Ret (done, b'').
Proof. exact C37_add_never_fails_proof. Qed.
Print Assumptions C37_add_never_fails.

(** C37.  With positive tolerances, asking for a suggestion fails an assertion only if
    the points lie so that the interpolation is 0/0 (all values so far equal, or the
    four lowest points on a cubic that is flat at the best point), or if an end of
    the bracket is at exactly 0.9 tolerance from the best point. *)
Theorem C37_next_fails_only :
  forall b h, session (fun t => 0 < t) b h -> 0 < tolerance b ->
  (exists x b', brent_min_next b = Ret (x, b')) \/
  (brent_min_next b = Abort /\
    ((n_iterations b = O /\ exists y, forall q, In q h -> snd q = y) \/
     (n_iterations b <> O /\ exists a, forall i, (i < 4)%nat -> Y b i = Y b 0 + a * (X b i - X b 0) ^ 3) \/
     edge b)).
Proof. exact C37_next_fails_only_proof. Qed.
Print Assumptions C37_next_fails_only.

(** C37.  After the first round the minimiser holds four of the points tried, in order
    of value, and no point tried that it does not hold is lower than any of them. *)
Theorem C37_four_lowest :
  forall P b h, session P b h -> n_iterations b <> O ->
  Y b 0 <= Y b 1 <= Y b 2 /\ Y b 2 <= Y b 3 /\
  (forall i, (i < 4)%nat -> In (X b i, Y b i) h) /\
  (forall q, In q h -> (exists i, (i < 4)%nat /\ q = (X b i, Y b i)) \/ Y b 3 <= snd q).
Proof. exact C37_four_lowest_proof. Qed.
Print Assumptions C37_four_lowest.

(** C37.  The first suggestion, unless it is a golden-section step, is where the parabola
    through the three points has slope zero, moved away from the best point and the
    ends of the bracket. *)
Theorem C37_quadratic_step :
  forall b h x b', session (fun t => 0 < t) b h -> 0 < tolerance b ->
  brent_min_next b = Ret (x, b') -> step_type b' = STEP_TYPE_QUADRATIC ->
  exists p q c z, (forall i, (i < 3)%nat -> quadratic_through p q c (X b i, Y b i)) /\
    2 * p * z + q = 0 /\ moved b z x.
Proof. exact C37_quadratic_step_proof. Qed.
Print Assumptions C37_quadratic_step.

(** C37.  A later suggestion, unless it is a golden-section step, is a point where the
    cubic through the four lowest points has slope zero, moved away from the best
    point and the ends of the bracket; of the two such points it is the one nearer
    to the best point. *)
Theorem C37_cubic_step :
  forall b h x b', session (fun t => 0 < t) b h -> 0 < tolerance b ->
  brent_min_next b = Ret (x, b') -> step_type b' = STEP_TYPE_CUBIC ->
  exists p q c z, (forall i, (i < 4)%nat -> cubic_through p q c (X b 0, Y b 0) (X b i, Y b i)) /\
    slope p q c (z - X b 0) = 0 /\ (forall t, slope p q c t = 0 -> Rabs (z - X b 0) <= Rabs t) /\ moved b z x.
Proof. exact C37_cubic_step_proof. Qed.
Print Assumptions C37_cubic_step.

(** C37.  A golden-section suggestion divides the wider side of the bracket: it is at
    less than 0.382 of the way from the best point to that end. *)
Theorem C37_golden_step :
  forall P b h x b', session P b h -> 0 < tolerance b ->
  brent_min_next b = Ret (x, b') -> step_type b' = STEP_TYPE_GOLDEN ->
  exists e, 0 < e < 382 / 1000 /\
    ((X b 0 - xmin b < xmax b - X b 0 /\ x = X b 0 + (xmax b - X b 0) * e) \/
     (xmax b - X b 0 <= X b 0 - xmin b /\ x = X b 0 - (X b 0 - xmin b) * e)).
Proof. exact C37_golden_step_proof. Qed.
Print Assumptions C37_golden_step.

(** C37.  The result of adding a value says whether both ends of the bracket are nearer
    to the best point than the tolerance, or (from the fourth round on) the four
    lowest values are within the y tolerance; the next suggestion is then the best
    point, and only then. *)
Theorem C37_done :
  forall P b h x b' y done b'', session P b h ->
  brent_min_next b = Ret (x, b') -> step_type b' <> STEP_TYPE_DONE -> brent_min_add b' y = Ret (done, b'') ->
  (done = true <->
    (xmax b'' - X b'' 0 < tolerance b'' /\ X b'' 0 - xmin b'' < tolerance b'') \/
    ((3 < n_iterations b'')%nat /\ Y b'' 3 - Y b'' 0 <= ytolerance b'')) /\
  (done = true -> exists c, brent_min_next b'' = Ret (X b'' 0, c) /\ step_type c = STEP_TYPE_DONE) /\
  (done = false -> forall x' c, brent_min_next b'' = Ret (x', c) -> step_type c <> STEP_TYPE_DONE).
Proof. exact C37_done_proof. Qed.
Print Assumptions C37_done.

(** The hypotheses of the theorems above are met: a session, with positive tolerance,
    of two rounds (one quadratic, one cubic), in which the next suggestion
    succeeds. *)
Theorem C37_session_exists :
  exists b h x b', session (fun t => 0 < t) b h /\ length h = 5%nat /\ 0 < tolerance b /\ n_iterations b = 2%nat /\
    brent_min_next b = Ret (x, b') /\ step_type b' = STEP_TYPE_GOLDEN.
Proof. exact C37_session_exists_proof. Qed.
Print Assumptions C37_session_exists.

(** C37, a claim that fails: with the tolerance as brent_min_init( ) leaves it, a
    suggestion can always be had.  For x^2 at -1, 0 and 1 the parabola is lowest
    at the best point, and the last assertion of brent_min_next( ) fails. *)
Theorem C37_zero_tolerance_refuted :
  ~ (forall junk x1 y1 x2 y2 x3 y3 b, bracketed (x1, y1) (x2, y2) (x3, y3) ->
     brent_min_init junk x1 y1 x2 y2 x3 y3 = Ret b -> exists x b', brent_min_next b = Ret (x, b')).
Proof. exact C37_zero_tolerance_refuted_proof. Qed.
Print Assumptions C37_zero_tolerance_refuted.

(** C37, a claim that fails: three points of which the middle one is at least as low as
    the others are accepted.  If an end has the same value and comes first in the
    list, it is taken for the best point, and an assertion fails. *)
Theorem C37_tie_refuted :
  ~ (forall junk x1 y1 x2 y2 x3 y3, x1 < x2 < x3 -> y2 <= y1 -> y2 <= y3 ->
     exists b, brent_min_init junk x1 y1 x2 y2 x3 y3 = Ret b).
Proof. exact C37_tie_refuted_proof. Qed.
Print Assumptions C37_tie_refuted.

(** C37, a claim that fails: with a positive tolerance every accepted start gives a
    suggestion.  Three equal values give 0/0. *)
Theorem C37_flat_refuted :
  ~ (forall junk x1 y1 x2 y2 x3 y3 b t, brent_min_init junk x1 y1 x2 y2 x3 y3 = Ret b -> 0 < t ->
     exists x b', brent_min_next (set_tolerance b t 0) = Ret (x, b')).
Proof. exact C37_flat_refuted_proof. Qed.
Print Assumptions C37_flat_refuted.

(** C37, a claim that fails: the rounds can be repeated "until the bracket is narrowed
    to your satisfaction".  There is a function with one trough, falling to -4 and
    then rising, and a start, for which after any number of rounds the bracket is
    still more than 0.8 wide and the best value 0.1 above the least: every golden
    step that succeeds halves the next. *)
Theorem C37_convergence_refuted :
  ~ (forall f x1 x2 x3 m, bracketed (x1, f x1) (x2, f x2) (x3, f x3) ->
     (forall x y, x < y <= m -> f y < f x) -> (forall x y, m <= x < y -> f x < f y) ->
     exists n, forall k b, (n <= k)%nat -> follow f (1 / 1000) x1 x2 x3 k b -> xmax b - xmin b < 8 / 10 \/ Y b 0 < f m + 1 / 10).
Proof. exact C37_convergence_refuted_proof. Qed.
Print Assumptions C37_convergence_refuted.

(** The run of C37_convergence_refuted exists for every number of rounds. *)
Theorem C37_convergence_follows :
  exists f x1 x2 x3, forall n, exists b, follow f (1 / 1000) x1 x2 x3 (2 + n) b /\ 8 / 10 < xmax b - xmin b.
Proof. exact C37_convergence_follows_proof. Qed.
Print Assumptions C37_convergence_follows.
