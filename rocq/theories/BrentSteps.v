(** The interpolation steps of brentmin.cpp. *)
From Verif Require Import RBase BrentModel BrentSpec BrentProofs.
Open Scope list_scope.


Lemma parabola_ok p0 p1 p2 rest :
  fst p0 <> fst p1 -> fst p0 <> fst p2 -> fst p1 <> fst p2 ->
  exists a b c, fit_parabola (p0 :: p1 :: p2 :: rest) = Ret (a, b, c) /\
    quadratic_through a b c p0 /\ quadratic_through a b c p1 /\ quadratic_through a b c p2.
Proof.
  intros H1 H2 H3. unfold fit_parabola, pt. cbn [nth].
  destruct p0 as [x0 y0], p1 as [x1 y1], p2 as [x2 y2]. cbn [fst snd] in *.
  destruct (Reqb_spec (x2 - x1) 0); [lra|]. destruct (Reqb_spec (x2 - x0) 0); [lra|].
  destruct (Reqb_spec (x0 - x1) 0); [lra|]. cbn [negb andb check obind].
  do 3 eexists. split; [reflexivity|]. unfold quadratic_through. cbn [fst snd].
  repeat split; field; repeat split; lra.
Qed.


Lemma cubic_ok p0 p1 p2 p3 rest :
  fst p0 <> fst p1 -> fst p0 <> fst p2 -> fst p0 <> fst p3 ->
  fst p1 <> fst p2 -> fst p1 <> fst p3 -> fst p2 <> fst p3 ->
  exists a b c o, cubic_min (p0 :: p1 :: p2 :: p3 :: rest) = Ret o /\
    cubic_through a b c p0 p1 /\ cubic_through a b c p0 p2 /\ cubic_through a b c p0 p3 /\
    match o with
    | None => forall t, slope a b c t <> 0
    | Some (Number z) => slope a b c (z - fst p0) = 0 /\
        (forall t, slope a b c t = 0 -> Rabs (z - fst p0) <= Rabs t)
    | Some Infinite => a = 0 /\ b = 0 /\ c <> 0
    | Some NotANumber => b = 0 /\ c = 0
    end.
Proof.
  intros H01 H02 H03 H12 H13 H23. unfold cubic_min, pt. cbn [nth].
  destruct p0 as [x0 y0], p1 as [x1 y1], p2 as [x2 y2], p3 as [x3 y3]. cbn [fst snd] in *.
  set (u1 := x1 - x0). set (u2 := x2 - x0). set (u3 := x3 - x0).
  set (v1 := y1 - y0). set (v2 := y2 - y0). set (v3 := y3 - y0).
  assert (N1 : u1 <> 0) by (unfold u1; lra). assert (N2 : u2 <> 0) by (unfold u2; lra).
  assert (N3 : u3 <> 0) by (unfold u3; lra). assert (N12 : u1 - u2 <> 0) by (unfold u1, u2; lra).
  assert (N13 : u1 - u3 <> 0) by (unfold u1, u3; lra). assert (N23 : u2 - u3 <> 0) by (unfold u2, u3; lra).
  destruct (Reqb_spec (u1 * u2 * (u1 - u2)) 0) as [Z|_].
  { apply Rmult_integral in Z. destruct Z as [Z|Z]; [apply Rmult_integral in Z|]; tauto. }
  destruct (Reqb_spec (u1 * u3 * (u1 - u3)) 0) as [Z|_].
  { apply Rmult_integral in Z. destruct Z as [Z|Z]; [apply Rmult_integral in Z|]; tauto. }
  destruct (Reqb_spec u2 u3) as [Z|_]; [lra|]. cbn [negb andb check obind].
  set (k12 := (v1 * u2 - v2 * u1) / (u1 * u2 * (u1 - u2))).
  set (k13 := (v1 * u3 - v3 * u1) / (u1 * u3 * (u1 - u3))).
  set (a := (k12 - k13) / (u2 - u3)). set (b := k12 - a * (u1 + u2)). set (c := v1 / u1 - u1 * (a * u1 + b)).
  exists a, b, c.
  assert (T1 : v1 = u1 * (c + u1 * (b + u1 * a))) by (unfold c; field; assumption).
  assert (T2 : v2 = u2 * (c + u2 * (b + u2 * a))) by (unfold c, b, a, k12, k13; field; repeat split; assumption).
  assert (T3 : v3 = u3 * (c + u3 * (b + u3 * a))) by (unfold c, b, a, k12, k13; field; repeat split; assumption).
  clearbody c. clearbody b. clearbody a. clear k12 k13.
  replace ((b + b) * (b + b) - 4 * (a * 3) * c) with (4 * (b * b - 3 * a * c)) by ring.
  match goal with |- exists o, (if ?d then Ret ?x else Ret ?y) = Ret o /\ _ =>
    exists (if d then x else y); split; [destruct d; reflexivity|] end.
  split; [unfold cubic_through; cbn; fold u1; rewrite <- T1; unfold v1; ring|].
  split; [unfold cubic_through; cbn; fold u2; rewrite <- T2; unfold v2; ring|].
  split; [unfold cubic_through; cbn; fold u3; rewrite <- T3; unfold v3; ring|].
  unfold slope. clear.
  destruct (Rltb_spec (4 * (b * b - 3 * a * c)) 0) as [D|D].
  - intros t Z. assert (S : (3 * a * t + b) * (3 * a * t + b) = b * b - 3 * a * c).
    { replace c with (- (3 * a * t * t + 2 * b * t)) by lra. ring. }
    pose proof (Rle_0_sqr (3 * a * t + b)). unfold Rsqr in *. lra.
  - set (s := sqrt (4 * (b * b - 3 * a * c))).
    assert (S0 : 0 <= s) by apply sqrt_pos.
    assert (S1 : s * s = 4 * (b * b - 3 * a * c)) by (apply sqrt_sqrt; lra).
    clearbody s.
    set (r := if Rltb (b + b) 0 then - (b + b) + s else - (b + b) - s).
    assert (R1 : r * r + 4 * b * r + 12 * a * c = 0).
    { assert ((r + 2 * b) * (r + 2 * b) = s * s).
      { unfold r. destruct (Rltb (b + b) 0); ring. } nra. }
    assert (R2 : Rabs r = Rabs (2 * b) + s).
    { unfold r. destruct (Rltb_spec (b + b) 0).
      - rewrite Rabs_right by lra. rewrite Rabs_left by lra. lra.
      - rewrite Rabs_left1 by lra. rewrite (Rabs_right (2 * b)) by lra. lra. }
    unfold divide. clearbody r. destruct (Reqb_spec r 0) as [Zr|Nr].
    + subst r. rewrite Rabs_R0 in R2. pose proof (Rabs_pos (2 * b)) as Pb.
      assert (s = 0) by lra. assert (Eb : Rabs (2 * b) = 0) by lra.
      assert (b = 0).
      { destruct (Req_EM_T b 0) as [|N]; [assumption|]. assert (N2 : 2 * b <> 0) by lra. apply Rabs_no_R0 in N2. tauto. }
      subst s b. clear R2 Pb Eb. destruct (Reqb_spec (2 * c) 0); [split; [reflexivity|lra]|].
      assert (Z : a * c = 0) by lra. apply Rmult_integral in Z. split; [lra|]. split; [reflexivity|lra].
    + replace (x0 + 2 * c / r - x0) with (2 * c / r) by (field; assumption).
      split.
      * replace (3 * a * (2 * c / r) * (2 * c / r) + 2 * b * (2 * c / r) + c)
          with (c * (r * r + 4 * b * r + 12 * a * c) / (r * r)) by (field; assumption).
        rewrite R1. field. assumption.
      * intros t Z. unfold Rdiv. rewrite Rabs_mult, Rabs_inv.
        apply Rmult_le_reg_r with (Rabs r); [apply Rabs_pos_lt; assumption|].
        rewrite Rmult_assoc, Rinv_l by (apply Rabs_no_R0; assumption). rewrite Rmult_1_r, R2.
        replace (2 * c) with (- t * (6 * a * t + 4 * b)) by lra.
        rewrite Rabs_mult, Rabs_Ropp. apply Rmult_le_compat_l; [apply Rabs_pos|].
        replace (6 * a * t + 4 * b) with ((6 * a * t + 2 * b) + 2 * b) by ring.
        eapply Rle_trans; [apply Rabs_triang|]. rewrite Rplus_comm. apply Rplus_le_compat_l.
        rewrite <- (Rabs_right s) by lra. apply Rsqr_le_abs_0. unfold Rsqr. rewrite S1. replace c with (- (3 * a * t * t + 2 * b * t)) by lra.
        apply Req_le. ring.
Qed.

(** The suggestion, after the tests that it is not finished. *)
Definition candidate (b : brent) : outcome (quotient * Z) :=
  match n_iterations b with
  | S _ => do r <- cubic_min (pts b);
           Ret (match r with
                | Some q => (q, STEP_TYPE_CUBIC)
                | None => (Number 0, STEP_TYPE_GOLDEN)
                end)
  | O => do '(quad, linear, _) <- fit_parabola (pts b);
         Ret (divide (- linear * (1 / 2)) quad, STEP_TYPE_QUADRATIC)
  end.
Definition golden_point (b : brent) : R :=
  let right := xmax b - X b 0 in
  let left := X b 0 - xmin b in
  X b 0 + (if Rltb left right then right else - left) * (1 - gold_ratio b).
Definition finish (b : brent) (step : Z) (c : quotient) : outcome (R * brent) :=
  match c with
  | Number rval =>
      do _ <- check (Rleb (xmin b) rval);
      do _ <- check (Rleb rval (xmax b));
      do _ <- check (negb (Reqb rval (X b 0)));
      Ret (rval, set_step b step rval)
  | _ => Abort
  end.

Lemma next_eq b : xmin b < X b 0 < xmax b -> is_done b = false ->
  brent_min_next b =
  do '(c, s) <- candidate b;
  if Z.eqb s STEP_TYPE_GOLDEN then finish b STEP_TYPE_GOLDEN (Number (golden_point b))
  else let '(c', golden) := adjust b c in
       if golden then finish b STEP_TYPE_GOLDEN (Number (golden_point b)) else finish b s c'.
Proof.
  intros B D. unfold brent_min_next. destruct (Reqb_spec (xmax b - X b 0) 0); [lra|].
  destruct (Reqb_spec (X b 0 - xmin b) 0); [lra|]. cbn [negb check obind]. rewrite D.
  fold (candidate b). destruct (candidate b) as [[c s]| | |]; cbn [obind]; try reflexivity.
  destruct (Z.eqb s STEP_TYPE_GOLDEN) eqn:Es.
  - rewrite Es. apply Z.eqb_eq in Es. rewrite Es. reflexivity.
  - destruct (adjust b c) as [c' [|]]; [reflexivity|]. rewrite Es. reflexivity.
Qed.

Lemma golden_inside b : xmin b < X b 0 < xmax b -> PHI <= gold_ratio b < 1 ->
  xmin b < golden_point b < xmax b /\ golden_point b <> X b 0.
Proof.
  intros B G. pose proof PHI_bounds. unfold golden_point.
  assert (E : 0 < 1 - gold_ratio b < 4 / 10) by lra. set (e := 1 - gold_ratio b) in *. clearbody e.
  destruct (Rltb (X b 0 - xmin b) (xmax b - X b 0)); split; [split| |split|]; nra.
Qed.

Lemma finish_ok b s r : xmin b < r < xmax b -> r <> X b 0 -> finish b s (Number r) = Ret (r, set_step b s r).
Proof.
  intros B N. unfold finish. destruct (Rleb_spec (xmin b) r); [|lra]. destruct (Rleb_spec r (xmax b)); [|lra].
  destruct (Reqb_spec r (X b 0)); [tauto|]. reflexivity.
Qed.

Lemma not_done_wide b : is_done b = false -> tolerance b <= xmax b - X b 0 \/ tolerance b <= X b 0 - xmin b.
Proof.
  unfold is_done. intros D. apply Bool.orb_false_iff in D. destruct D as [_ D].
  destruct (Rltb_spec (xmax b - X b 0) (tolerance b)); [|left; lra].
  destruct (Rltb_spec (X b 0 - xmin b) (tolerance b)); [discriminate|right; lra].
Qed.

Lemma adjust_number b z : xmin b < X b 0 < xmax b -> is_done b = false -> 0 < tolerance b ->
  exists x g, adjust b (Number z) = (Number x, g) /\
  ((z < xmin b \/ xmax b < z) -> ~ Rabs (z - X b 0) < tolerance b * (9 / 10) -> g = true) /\
  (g = false -> (Nat.ltb 30 (n_iterations b) && Nat.odd (n_iterations b) = false)%bool /\
    moved b z x /\ xmin b < x < xmax b /\ (x <> X b 0 \/ edge b)).
Proof.
  intros B D T. apply not_done_wide in D. unfold adjust, moved, edge, wider_side.
  assert (T1 : 0 < tolerance b * (9 / 10) < tolerance b) by lra. set (t := tolerance b * (9 / 10)) in *.
  set (od := (Nat.ltb 30 (n_iterations b) && Nat.odd (n_iterations b))%bool). clearbody t od.
  set (x0 := X b 0) in *. clearbody x0.
  destruct (Rltb_spec (x0 - t) z) as [W1|W1]; cbn [andb].
  1: destruct (Rltb_spec z (x0 + t)) as [W2|W2].
  - assert (A : Rabs (z - x0) < t) by (apply Rabs_def1; lra).
    do 2 eexists. split; [reflexivity|]. split; [tauto|]. cbn [orb]. intros ->. split; [reflexivity|].
    destruct (Rltb_spec (x0 - xmin b) (xmax b - x0)).
    + split; [left; split; [assumption|lra]|]. lra.
    + split; [left; split; [assumption|lra]|]. lra.
  - assert (A : t <= Rabs (z - x0)) by (rewrite Rabs_right by lra; lra).
    destruct (Rltb_spec z x0); [lra|]. destruct (Rltb_spec (xmax b) z).
    + do 2 eexists. split; [reflexivity|]. split; [reflexivity|]. discriminate.
    + destruct (Rltb_spec (xmax b - t) z).
      * do 2 eexists. split; [reflexivity|]. split; [intros; lra|]. cbn [orb]. intros ->. split; [reflexivity|].
        split; [right; split; [assumption|]; right; left; lra|].
        destruct (Req_EM_T (xmax b - x0) t); lra.
      * do 2 eexists. split; [reflexivity|]. split; [intros; lra|]. cbn [orb]. intros ->. split; [reflexivity|].
        split; [right; split; [assumption|]; right; right; lra|]. lra.
  - assert (A : t <= Rabs (z - x0)) by (rewrite Rabs_left1 by lra; lra).
    destruct (Rltb_spec z x0); [|lra]. destruct (Rltb_spec z (xmin b)).
    + do 2 eexists. split; [reflexivity|]. split; [reflexivity|]. discriminate.
    + destruct (Rltb_spec z (xmin b + t)).
      * do 2 eexists. split; [reflexivity|]. split; [intros; lra|]. cbn [orb]. intros ->. split; [reflexivity|].
        split; [right; split; [assumption|]; left; lra|].
        destruct (Req_EM_T (x0 - xmin b) t); lra.
      * do 2 eexists. split; [reflexivity|]. split; [intros; lra|]. cbn [orb]. intros ->. split; [reflexivity|].
        split; [right; split; [assumption|]; right; right; lra|]. lra.
Qed.
