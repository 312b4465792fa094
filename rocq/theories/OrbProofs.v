(** Lemmas for C53. *)
From Coq Require Import Lia.
From Verif Require Import TrigBase OrbModel OrbSpec.
Local Open Scope R_scope.

Lemma sc t : sin t * sin t + cos t * cos t = 1.
Proof. pose proof (sin2_cos2 t). unfold Rsqr in *. lra. Qed.
Lemma c_div_ok x y : y <> 0 -> c_div x y = Ret (x / y).
Proof. intros H. unfold c_div. destruct (Reqb_spec y 0); [contradiction|reflexivity]. Qed.
Lemma c_sqrt_ok x : 0 <= x -> c_sqrt x = Ret (sqrt x).
Proof. intros H. unfold c_sqrt. destruct (Rltb_spec x 0); [lra|reflexivity]. Qed.

(** * The axes of the orbit *)
Lemma axes_ok e i om node : cos i <> 0 -> exists l,
  setup_orbit_vectors e i om node = Ret (l, sqrt (Rabs (1 - e * e)), to_perihelion node i om, to_quarter node i om).
Proof.
  intros Hi. unfold setup_orbit_vectors. cbv zeta. eexists.
  set (th := atan2 (sin om * cos i) (cos om)). destruct (atan2_polar (sin om * cos i) (cos om)) as [Pc Ps]. cbv zeta in Pc, Ps. fold th in Pc, Ps.
  set (rho := sqrt (cos om * cos om + sin om * cos i * (sin om * cos i))) in *.
  assert (Hpos : 0 < cos om * cos om + sin om * cos i * (sin om * cos i)).
  { pose proof (sc om) as S. pose proof (Rle_0_sqr (cos om)) as A. pose proof (Rle_0_sqr (sin om * cos i)) as B. unfold Rsqr in A, B.
    destruct (Req_dec (cos om) 0) as [Z|Z]; [|pose proof (Rlt_0_sqr _ Z) as C; unfold Rsqr in C; lra].
    rewrite Z in S. assert (N : sin om * cos i <> 0). { apply Rmult_integral_contrapositive. split; [|assumption]. intros W. rewrite W in S. lra. }
    pose proof (Rlt_0_sqr _ N) as C. unfold Rsqr in C. lra. }
  assert (Hrho : 0 < rho) by (apply sqrt_lt_R0; exact Hpos). assert (Hr2 : rho * rho = cos om * cos om + sin om * cos i * (sin om * cos i)) by (unfold rho; apply sqrt_sqrt; lra).
  replace (node + th - node) with th by ring.
  assert (L : sqrt (cos i * cos i + sin i * sin th * (sin i * sin th)) = Rabs (cos i) / rho).
  { assert (E : cos i * cos i + sin i * sin th * (sin i * sin th) = (cos i / rho) * (cos i / rho)).
    { apply Rmult_eq_reg_l with (rho * rho); [|nra]. replace (rho * rho * (cos i / rho * (cos i / rho))) with (cos i * cos i) by (field; lra).
      replace (rho * rho * (cos i * cos i + sin i * sin th * (sin i * sin th))) with (rho * rho * (cos i * cos i) + sin i * sin i * ((rho * sin th) * (rho * sin th))) by ring. rewrite Ps, Hr2. pose proof (sc i). pose proof (sc om).
      replace (sin i * sin i) with (1 - cos i * cos i) by lra. replace (cos om * cos om) with (1 - sin om * sin om) by lra. ring. }
    rewrite E. change (cos i / rho * (cos i / rho)) with (Rsqr (cos i / rho)). rewrite sqrt_Rsqr_abs. unfold Rdiv. rewrite Rabs_mult. f_equal. apply Rabs_right. left. apply Rinv_0_lt_compat. exact Hrho. }
  rewrite L.
  assert (V : (if Rltb (cos i) 0 then Rabs (cos i) / rho * - 1 else Rabs (cos i) / rho) = cos i / rho).
  { destruct (Rltb_spec (cos i) 0) as [N|N]; [rewrite Rabs_left by lra; field; lra|rewrite Rabs_right by lra; reflexivity]. }
  rewrite V. assert (NV : cos i / rho <> 0) by (unfold Rdiv; apply Rmult_integral_contrapositive; split; [assumption|apply Rinv_neq_0_compat; lra]).
  rewrite !c_div_ok by exact NV. cbn [obind].
  assert (E0 : cos (node + th) * cos i / (cos i / rho) = rho * cos th * cos node - rho * sin th * sin node) by (rewrite cos_plus; field; lra).
  assert (E1 : sin (node + th) * cos i / (cos i / rho) = rho * cos th * sin node + rho * sin th * cos node) by (rewrite sin_plus; field; lra).
  assert (E2 : sin i * sin th / (cos i / rho) = sin i * (rho * sin th) / cos i) by (field; lra).
  rewrite E0, E1, E2, Pc, Ps. assert (E3 : sin i * (sin om * cos i) / cos i = sin i * sin om) by (field; exact Hi). rewrite E3.
  assert (EP : to_perihelion node i om = (cos om * cos node - sin om * cos i * sin node, cos om * sin node + sin om * cos i * cos node, sin i * sin om)).
  { unfold to_perihelion, orbit_axis, turn_z, turn_x. f_equal; [f_equal|]; ring. }
  rewrite EP. assert (EQ : forall v, v = (cos om * cos node - sin om * cos i * sin node, cos om * sin node + sin om * cos i * cos node, sin i * sin om) ->
    cross_product (sin node * sin i, - cos node * sin i, cos i) v = to_quarter node i om).
  { intros v ->. unfold cross_product, to_quarter, orbit_axis, turn_z, turn_x. pose proof (sc i) as SI. pose proof (sc node) as SN. f_equal; [f_equal|].
    - transitivity (- (sin i * sin i + cos i * cos i) * sin om * cos node - cos i * cos om * sin node); [ring|rewrite SI; ring].
    - transitivity (- (sin i * sin i + cos i * cos i) * sin om * sin node + cos i * cos om * cos node); [ring|rewrite SI; ring].
    - transitivity ((sin node * sin node + cos node * cos node) * (sin i * cos om)); [ring|rewrite SN; ring]. }
  rewrite EQ by reflexivity. reflexivity.
Qed.

Lemma perihelion_eq node i om : to_perihelion node i om = (cos om * cos node - sin om * cos i * sin node, cos om * sin node + sin om * cos i * cos node, sin i * sin om).
Proof. unfold to_perihelion, orbit_axis, turn_z, turn_x. f_equal; [f_equal|]; ring. Qed.
Lemma quarter_eq node i om : to_quarter node i om = (- sin om * cos node - cos om * cos i * sin node, - sin om * sin node + cos om * cos i * cos node, sin i * cos om).
Proof. unfold to_quarter, orbit_axis, turn_z, turn_x. f_equal; [f_equal|]; ring. Qed.
Lemma pole_eq node i om : to_pole node i om = (sin node * sin i, - cos node * sin i, cos i).
Proof. unfold to_pole, orbit_axis, turn_z, turn_x. f_equal; [f_equal|]; ring. Qed.

(** The turns keep lengths, angles and orientation. *)
Definition frame (p s w : vec3) : Prop := dot p p = 1 /\ dot s s = 1 /\ dot p s = 0 /\ cross p s = w.
Lemma turn_z_dot t a b : dot (turn_z t a) (turn_z t b) = dot a b.
Proof.
  destruct a as [[a0 a1] a2], b as [[b0 b1] b2]. unfold dot, turn_z. pose proof (sc t) as S.
  transitivity ((a0 * b0 + a1 * b1) * (sin t * sin t + cos t * cos t) + a2 * b2); [ring|rewrite S; ring].
Qed.
Lemma turn_x_dot t a b : dot (turn_x t a) (turn_x t b) = dot a b.
Proof.
  destruct a as [[a0 a1] a2], b as [[b0 b1] b2]. unfold dot, turn_x. pose proof (sc t) as S.
  transitivity (a0 * b0 + (a1 * b1 + a2 * b2) * (sin t * sin t + cos t * cos t)); [ring|rewrite S; ring].
Qed.
Lemma turn_z_cross t a b : cross (turn_z t a) (turn_z t b) = turn_z t (cross a b).
Proof.
  destruct a as [[a0 a1] a2], b as [[b0 b1] b2]. unfold cross, turn_z. pose proof (sc t) as S. f_equal; [f_equal; ring|].
  transitivity ((a0 * b1 - a1 * b0) * (sin t * sin t + cos t * cos t)); [ring|rewrite S; ring].
Qed.
Lemma turn_x_cross t a b : cross (turn_x t a) (turn_x t b) = turn_x t (cross a b).
Proof.
  destruct a as [[a0 a1] a2], b as [[b0 b1] b2]. unfold cross, turn_x. pose proof (sc t) as S. f_equal; [f_equal|]; try ring.
  transitivity ((a1 * b2 - a2 * b1) * (sin t * sin t + cos t * cos t)); [ring|rewrite S; ring].
Qed.
Lemma orbit_frame node i om : frame (to_perihelion node i om) (to_quarter node i om) (to_pole node i om).
Proof.
  unfold frame, to_perihelion, to_quarter, to_pole, orbit_axis. rewrite !turn_z_dot, !turn_x_dot, !turn_z_dot, turn_z_cross, turn_x_cross, turn_z_cross.
  unfold dot, cross. repeat split; try ring. do 3 f_equal. f_equal; [f_equal|]; ring.
Qed.

(** * Place and velocity belong to the orbit *)
Lemma in_plane_eq x p y s : in_plane x p y s = plus (scale x p) (scale y s).
Proof. destruct p as [[p0 p1] p2], s as [[s0 s1] s2]. unfold in_plane, plus, scale. f_equal; [f_equal|]; ring. Qed.
Lemma cross_plane x y x1 y1 p s : cross (in_plane x p y s) (in_plane x1 p y1 s) = scale (x * y1 - y * x1) (cross p s).
Proof. destruct p as [[p0 p1] p2], s as [[s0 s1] s2]. unfold in_plane, cross, scale. f_equal; [f_equal|]; ring. Qed.
Lemma triple v h p s : cross v (scale h (cross p s)) = plus (scale (h * dot v s) p) (scale (- (h * dot v p)) s).
Proof. destruct v as [[v0 v1] v2], p as [[p0 p1] p2], s as [[s0 s1] s2]. unfold cross, scale, plus, dot. f_equal; [f_equal|]; ring. Qed.
Lemma dot_plane x y p s w : frame p s w -> dot (in_plane x p y s) p = x /\ dot (in_plane x p y s) s = y /\ dot (in_plane x p y s) (in_plane x p y s) = x * x + y * y.
Proof.
  intros (A & B & C & _). destruct p as [[p0 p1] p2], s as [[s0 s1] s2]. unfold in_plane, dot in *. repeat split.
  - transitivity (x * (p0 * p0 + p1 * p1 + p2 * p2) + y * (p0 * s0 + p1 * s1 + p2 * s2)); [ring|rewrite A, C; ring].
  - transitivity (x * (p0 * s0 + p1 * s1 + p2 * s2) + y * (s0 * s0 + s1 * s1 + s2 * s2)); [ring|rewrite B, C; ring].
  - transitivity (x * x * (p0 * p0 + p1 * p1 + p2 * p2) + y * y * (s0 * s0 + s1 * s1 + s2 * s2) + 2 * x * y * (p0 * s0 + p1 * s1 + p2 * s2)); [ring|rewrite A, B, C; ring].
Qed.
Lemma state_on_orbit gm q e nu p s w : 0 < gm -> 0 < q -> 0 <= e -> 0 < 1 + e * cos nu -> frame p s w ->
  let h := sqrt (gm * q * (1 + e)) in let r0 := q * (1 + e) in let r := r0 / (1 + e * cos nu) in
  let x := r * cos nu in let y := r * sin nu in
  let rad := e * sin nu * h / (r * r0) in let ang := h / (r * r) in
  0 < r /\ length_of (in_plane x p y s) = r /\ on_orbit gm q e p w (in_plane x p y s) (in_plane (x * rad - y * ang) p (y * rad + x * ang) s).
Proof.
  intros Hg Hq He Hd F h r0 r x y rad ang.
  assert (R0 : 0 < r0) by (unfold r0; apply Rmult_lt_0_compat; lra). assert (Hr : 0 < r) by (unfold r; apply Rdiv_lt_0_compat; assumption).
  assert (H2 : h * h = gm * r0) by (unfold h, r0; rewrite sqrt_sqrt; [ring|apply Rmult_le_pos; [apply Rmult_le_pos; lra|lra]]).
  pose proof (sc nu) as S. destruct (dot_plane x y p s w F) as (_ & _ & LL).
  assert (L : length_of (in_plane x p y s) = r).
  { unfold length_of. rewrite LL. replace (x * x + y * y) with (Rsqr r); [apply sqrt_Rsqr; lra|]. unfold x, y, Rsqr. transitivity (r * r * (sin nu * sin nu + cos nu * cos nu)); [rewrite S; ring|ring]. }
  split; [exact Hr|]. split; [exact L|]. unfold on_orbit. fold h. rewrite L.
  assert (Er : r * (1 + e * cos nu) = r0) by (unfold r; field; lra).
  assert (X1 : x * rad - y * ang = - (h * sin nu / r0)).
  { unfold x, y, rad, ang. apply Rmult_eq_reg_r with (r * r0); [|apply Rmult_integral_contrapositive; lra].
    transitivity (h * (sin nu * (e * r * cos nu - r0))); [field; lra|]. rewrite <- Er at 1. transitivity (- h * sin nu * r); [ring|field; lra]. }
  assert (Y1 : y * rad + x * ang = h * (e + cos nu) / r0).
  { unfold x, y, rad, ang. apply Rmult_eq_reg_r with (r * r0); [|apply Rmult_integral_contrapositive; lra].
    transitivity (h * (e * r * (sin nu * sin nu) + cos nu * r0)); [field; lra|]. rewrite <- Er at 1. transitivity (h * r * (e * (sin nu * sin nu + cos nu * cos nu) + cos nu)); [ring|]. rewrite S. field; lra. }
  assert (C : cross (in_plane x p y s) (in_plane (x * rad - y * ang) p (y * rad + x * ang) s) = scale h w).
  { rewrite cross_plane. destruct F as (_ & _ & _ & ->). f_equal. unfold x, y, ang. transitivity (h * (sin nu * sin nu + cos nu * cos nu)); [field; lra|rewrite S; ring]. }
  split; [exact C|]. rewrite C, X1, Y1. destruct (dot_plane (- (h * sin nu / r0)) (h * (e + cos nu) / r0) p s w F) as (D1 & D2 & _).
  destruct F as (_ & _ & _ & <-). rewrite triple, D1, D2.
  replace (h * (h * (e + cos nu) / r0)) with (gm * (e + cos nu)) by (unfold Rdiv; rewrite <- !Rmult_assoc, H2; field; lra).
  replace (- (h * - (h * sin nu / r0))) with (gm * sin nu) by (replace (- (h * - (h * sin nu / r0))) with (h * h * sin nu / r0) by (field; lra); rewrite H2; field; lra).
  unfold x, y. clear -Hg Hr. destruct p as [[p0 p1] p2], s as [[s0 s1] s2]. unfold in_plane, plus, scale. f_equal; [f_equal|]; field; lra.
Qed.

(** * Eccentric and true anomaly *)
Lemma polar_unique rho X Y : 0 < rho -> X * X + Y * Y = rho * rho -> cos (atan2 Y X) = X / rho /\ sin (atan2 Y X) = Y / rho.
Proof.
  intros H E. destruct (atan2_polar Y X) as [A B]. cbv zeta in A, B. assert (S : sqrt (X * X + Y * Y) = rho) by (rewrite E; apply sqrt_square; lra). rewrite S in A, B.
  split; apply Rmult_eq_reg_l with rho; try lra; [rewrite A|rewrite B]; field; lra.
Qed.
Lemma conic_point q e rho X Y nu : 0 < q -> 0 < rho -> rho + e * X <> 0 -> cos nu = X / rho -> sin nu = Y / rho ->
  let r := q * (1 + e) / (1 + e * cos nu) in r * cos nu = q * (1 + e) / (rho + e * X) * X /\ r * sin nu = q * (1 + e) / (rho + e * X) * Y.
Proof.
  intros Hq Hr N C S r. unfold r. rewrite C, S. assert (E : 1 + e * (X / rho) = (rho + e * X) / rho) by (field; lra). rewrite E. split; field; lra.
Qed.
Lemma ellipse_point q e E : 0 < q -> 0 <= e < 1 -> let nu := atan2 (sin E * sqrt (1 - e * e)) (cos E - e) in
  let r := q * (1 + e) / (1 + e * cos nu) in 0 < 1 + e * cos nu /\ (r * cos nu, r * sin nu) = ellipse q e E.
Proof.
  intros Hq He nu r. assert (Hb : 0 < 1 - e * e) by nra. pose proof (sqrt_sqrt (1 - e * e) ltac:(lra)) as S2. set (b := sqrt (1 - e * e)) in *. pose proof (sc E) as SC.
  assert (Hrho : 0 < 1 - e * cos E) by (pose proof (COS_bound E); nra).
  destruct (polar_unique (1 - e * cos E) (cos E - e) (sin E * b) Hrho) as [C S].
  { replace ((cos E - e) * (cos E - e) + sin E * b * (sin E * b)) with ((cos E - e) * (cos E - e) + sin E * sin E * (b * b)) by ring. rewrite S2. replace (sin E * sin E) with (1 - cos E * cos E) by lra. ring. }
  fold nu in C, S. assert (D : 1 - e * cos E + e * (cos E - e) = 1 - e * e) by ring.
  split.
  - rewrite C. replace (1 + e * ((cos E - e) / (1 - e * cos E))) with ((1 - e * e) / (1 - e * cos E)) by (field; lra). apply Rdiv_lt_0_compat; assumption.
  - destruct (conic_point q e _ _ _ nu Hq Hrho ltac:(rewrite D; lra) C S) as [X Y]. unfold r. cbv zeta in X, Y. rewrite X, Y, D. unfold ellipse. fold b. f_equal; field; nra.
Qed.
Lemma cosh_sinh x : cosh x * cosh x - sinh x * sinh x = 1.
Proof. unfold cosh, sinh. assert (E : exp x * exp (- x) = 1) by (rewrite <- exp_plus, Rplus_opp_r; apply exp_0). nra. Qed.
Lemma cosh_ge_1 x : 1 <= cosh x.
Proof. unfold cosh. assert (E : exp x * exp (- x) = 1) by (rewrite <- exp_plus, Rplus_opp_r; apply exp_0). pose proof (exp_pos x). pose proof (exp_pos (- x)). pose proof (Rle_0_sqr (exp x - exp (- x))) as S. unfold Rsqr in S. nra. Qed.
Lemma hyperbola_point q e H : 0 < q -> 1 < e -> let nu := atan2 (sinh H * sqrt (e * e - 1)) (e - cosh H) in
  let r := q * (1 + e) / (1 + e * cos nu) in 0 < 1 + e * cos nu /\ (r * cos nu, r * sin nu) = hyperbola q e H.
Proof.
  intros Hq He nu r. assert (Hb : 0 < e * e - 1) by nra. pose proof (sqrt_sqrt (e * e - 1) ltac:(lra)) as S2. set (b := sqrt (e * e - 1)) in *. pose proof (cosh_sinh H) as SC.
  assert (Hrho : 0 < e * cosh H - 1) by (pose proof (cosh_ge_1 H); nra).
  destruct (polar_unique (e * cosh H - 1) (e - cosh H) (sinh H * b) Hrho) as [C S].
  { replace ((e - cosh H) * (e - cosh H) + sinh H * b * (sinh H * b)) with ((e - cosh H) * (e - cosh H) + sinh H * sinh H * (b * b)) by ring. rewrite S2. replace (sinh H * sinh H) with (cosh H * cosh H - 1) by lra. ring. }
  fold nu in C, S. assert (D : e * cosh H - 1 + e * (e - cosh H) = e * e - 1) by ring.
  split.
  - rewrite C. replace (1 + e * ((e - cosh H) / (e * cosh H - 1))) with ((e * e - 1) / (e * cosh H - 1)) by (field; lra). apply Rdiv_lt_0_compat; assumption.
  - destruct (conic_point q e _ _ _ nu Hq Hrho ltac:(rewrite D; lra) C S) as [X Y]. unfold r. cbv zeta in X, Y. rewrite X, Y, D. unfold hyperbola. fold b. f_equal; field; nra.
Qed.
Lemma parabola_point q s : 0 < q -> let nu := 2 * atan s in
  let r := q * (1 + 1) / (1 + 1 * cos nu) in 0 < 1 + 1 * cos nu /\ (r * cos nu, r * sin nu) = parabola q s.
Proof.
  intros Hq nu r. pose proof (Rle_0_sqr s) as S0. unfold Rsqr in S0. assert (S1 : 0 < sqrt (1 + s²)) by (apply sqrt_lt_R0; unfold Rsqr; lra).
  assert (S2 : sqrt (1 + s²) * sqrt (1 + s²) = 1 + s * s) by (rewrite sqrt_sqrt; unfold Rsqr; lra).
  assert (C : cos nu = (1 - s * s) / (1 + s * s)).
  { unfold nu. rewrite cos_2a, cos_atan, sin_atan. set (w := sqrt (1 + s²)) in *. rewrite <- S2. transitivity ((1 - s * s) / (w * w)); [field; lra|reflexivity]. }
  assert (Sn : sin nu = 2 * s / (1 + s * s)).
  { unfold nu. rewrite sin_2a, cos_atan, sin_atan. set (w := sqrt (1 + s²)) in *. rewrite <- S2. field; lra. }
  assert (D : 1 + 1 * cos nu = 2 / (1 + s * s)) by (rewrite C; field; lra). split.
  - rewrite D. apply Rdiv_lt_0_compat; lra.
  - unfold r. rewrite D, C, Sn. unfold parabola. f_equal; field; lra.
Qed.
(** The cubic of a parabolic orbit is solved. *)
Lemma barker g : let y := CUBE_ROOT (g + sqrt (g * g + 1)) in let s := y - 1 / y in 0 < y /\ s * s * s + 3 * s = 2 * g.
Proof.
  intros y s. assert (P0 : 0 <= g * g + 1) by nra. pose proof (sqrt_sqrt _ P0) as S. assert (Q0 : 0 < sqrt (g * g + 1)) by (apply sqrt_lt_R0; nra). set (w := sqrt (g * g + 1)) in *.
  assert (W : 0 < g + w) by nra.
  assert (Y : y * y * y = g + w). { unfold y, CUBE_ROOT. rewrite <- !exp_plus. replace (ln (g + w) / 3 + ln (g + w) / 3 + ln (g + w) / 3) with (ln (g + w)) by field. apply exp_ln. exact W. }
  assert (Y0 : 0 < y) by apply exp_pos. split; [exact Y0|]. unfold s.
  transitivity (y * y * y - 1 / (y * y * y)); [field; lra|]. rewrite Y. apply Rmult_eq_reg_r with (g + w); [|lra].
  transitivity ((g + w) * (g + w) - 1); [field; lra|]. nra.
Qed.
