(** Lemmas for C54: running calc_classical_elements( ). *)
From Coq Require Import Lia.
From Verif Require Import TrigBase OrbModel OrbSpec OrbProofs OrbKepler OrbSeries OrbNewton ClaModel ClaSpec ClaProofs ClaOrbit.
Local Open Scope R_scope.

(** What the result says about the node, the inclination and the argument of the perihelion *)
Definition angles_from (h P : vec3) (H : R) (el : elements) : Prop :=
  let '(hx, hy, hz) := h in let n0 := sqrt (hx * hx + hy * hy) in
  node_and_incl h n0 H = Ret (asc_node el, incl el) /\ argument h P n0 H = Ret (arg_per el).

Lemma calc_ok el r v t angles : 0 < gm_ el -> momentum r v <> (0, 0, 0) ->
  let gm := gm_ el in let h := momentum r v in let e := length_of (ecc_vector gm r v) in let H := length_of h in
  (e = 1 \/ 1 / 10 ^ 14 <= Rabs (e * e - 1)) ->
  let p := dot h h / gm in let q := p / (1 + e) in
  exists P n el', dot P P = 1 /\ dot P h = 0 /\ scale e P = ecc_vector gm r v /\
    (forall fuel, (n <= fuel)%nat -> calc_classical_elements fuel el r v t angles = Ret el') /\
    gm_ el' = gm /\ q_ el' = q /\ ecc_ el' = e /\ perih_vec el' = P /\ minor_to_major el' = sqrt (Rabs (1 - e * e)) /\
    (angles = true -> angles_from h P H el') /\
    let S := scale (1 / H) (cross h P) in
    (e < 1 -> let a := q / (1 - e) in sideways el' = S /\ angular_momentum el' = H /\ t0 el' = a * sqrt (a / gm) /\
       exists E M, (dot r P, dot r S) = ellipse q e E /\ - PI < E <= PI /\ Rabs (M - (E - e * sin E)) <= ARC /\ (near_one e = false -> M = E - e * sin E) /\ perih_time el' = t - M * t0 el') /\
    (1 < e -> let a := q / (e - 1) in sideways el' = scale (- 1) S /\ angular_momentum el' = - H /\ t0 el' = - (a * sqrt (a / gm)) /\
       exists E M, (dot r P, dot r S) = hyperbola q e E /\ Rabs (M - (e * sinh E - E)) <= e * (Rabs E * TOL * cosh E) /\ (near_one e = false -> M = e * sinh E - E) /\ perih_time el' = t - M * Rabs (t0 el')) /\
    (e = 1 -> sideways el' = S /\ angular_momentum el' = H /\ w0 el' = 3 / sqrt 2 / (q * sqrt (q / gm)) /\
       exists k, (dot r P, dot r S) = parabola q k /\ perih_time el' = t - k * (k * k / 3 + 1) * 3 / w0 el').
Proof.
  intros Hg N gm h e H Snap p q. change (0 < gm) in Hg. destruct (ecc_facts gm r v Hg N) as (D0 & V0 & P0 & EH & RE & EE). cbv zeta in D0, V0, P0, EH, RE, EE. fold h p in P0, EH, RE, EE. set (d := length_of r) in *. set (ev := ecc_vector gm r v) in *.
  assert (H0 : 0 < H) by (apply length_nonzero; exact N). assert (HH : H * H = dot h h) by apply length_sq.
  assert (e0 : 0 <= e) by apply length_pos. assert (ee : e * e = dot ev ev) by apply length_sq. set (inv := (1 - e * e) / p).
  assert (Einv : 2 / d - dot v v / gm = inv). { unfold inv. rewrite ee, EE. field. repeat split; lra. }
  assert (Hp : p = H * H / gm) by (unfold p; rewrite HH; reflexivity).
  assert (Q0 : 0 < q) by (apply Rdiv_lt_0_compat; lra).
  (* the direction of the perihelion *)
  assert (rh : dot r h = 0) by (unfold h, momentum; rewrite dot_sym; apply cross_l). assert (vh : dot v h = 0) by (unfold h, momentum; rewrite dot_sym; apply cross_r).
  set (P := if Reqb e 0 then scale (1 / d) r else scale (1 / e) ev).
  assert (PF : dot P P = 1 /\ dot P h = 0 /\ scale e P = ev /\ e * dot r P = p - d /\ e * dot r (cross h P) = p * dot r v).
  { assert (RR : d * d = dot r r) by apply length_sq.
    assert (RC : dot r (cross h ev) = p * dot r v).
    { unfold ev, ecc_vector. fold h. change (cross r v) with h. assert (C : cross h (plus (scale (1 / gm) (cross v h)) (scale (- (1 / length_of r)) r)) = plus (scale (1 / gm) (cross h (cross v h))) (scale (- (1 / length_of r)) (cross h r))) by (clear; generalize (cross v h) (length_of r); intros c l; vec; f_equal; [f_equal|]; ring).
      rewrite C, dot_plus_r, !dot_scale_r. clearbody gm. rewrite (dot_sym r (cross h r)), cross_r, cross_cross, dot_plus_r, !dot_scale_r, rh. unfold p. fold d. field. split; lra. }
    unfold P. destruct (Reqb_spec e 0) as [Z|Z].
    - assert (ZV : ev = (0, 0, 0)) by (apply dot_zero; rewrite <- ee, Z; ring). rewrite !dot_scale, !dot_scale_r, rh, <- RR. split; [field; lra|]. split; [ring|]. split; [rewrite ZV, Z; clear; vec; f_equal; [f_equal|]; ring|]. split.
      + rewrite <- RE, ZV, Z. clear. vec. ring.
      + rewrite <- RC, ZV, Z. clear. vec. ring.
    - rewrite !dot_scale, !dot_scale_r, EH, <- ee, RE, cross_scale_r, dot_scale_r, RC. split; [field; exact Z|]. split; [ring|]. split; [rewrite scale_scale; replace (e * (1 / e)) with 1 by (field; exact Z); apply scale_1|]. split; field; exact Z. }
  destruct PF as (P1 & Ph & PE & ex & ey). pose proof (plane_frame h P H H0 HH P1 Ph) as F. set (S := scale (1 / H) (cross h P)) in *.
  assert (rW : dot r (scale (1 / H) h) = 0) by (rewrite dot_scale_r, rh; ring). pose proof (in_frame P S _ r F rW) as RXY. set (x := dot r P) in *. set (y := dot r S) in *.
  assert (Y1 : e * y * H = p * dot r v) by (unfold y, S; rewrite dot_scale_r, <- ey; field; lra).
  assert (DXY : d * d = x * x + y * y).
  { unfold d. rewrite length_sq. destruct (dot_plane x y P S _ F) as (_ & _ & D2). rewrite <- D2. rewrite in_plane_eq. rewrite RXY at 1 2. reflexivity. }
  assert (DX : d = p - e * x) by lra.
  (* running *)
  assert (CALC : forall fuel, calc_classical_elements fuel el r v t angles =
    do '(node, inclination) <- (if angles then node_and_incl h (let '(hx, hy, hz) := h in sqrt (hx * hx + hy * hy)) H else Ret (asc_node el, incl el));
    do '(a, t0) <- (if negb (Reqb inv 0) then Ret (1 / inv, 1 / inv * sqrt (Rabs (1 / inv) / gm)) else Ret (major_axis el, t0 el));
    do arg <- (if angles then argument h P (let '(hx, hy, hz) := h in sqrt (hx * hx + hy * hy)) H else Ret (arg_per el));
    do '(mean, perih, w0, h1) <-
     (if negb (Reqb inv 0) && negb (Reqb (sqrt (Rabs (1 - e * e))) 0) then
       do '(mean, perih) <- anomaly fuel e inv (sqrt (Rabs (1 - e * e))) x y t0 t;
       Ret (mean, perih, w0 el, if Rltb 0 inv then H else - H)
     else
       do tau <- c_sqrt (d / q - 1);
       let tau := if Rltb (dot r v) 0 then - tau else tau in
       let w0 := 3 / sqrt 2 / (q * sqrt (q / gm)) in
       Ret (mean_anomaly el, t - tau * (tau * tau / 3 + 1) * 3 / w0, w0, H));
    do side <- over (cross h P) h1;
    Ret (mk_elements perih q e inclination arg node mean (lon_per el) (sqrt (Rabs (1 - e * e))) P side h1 a t0 w0 gm)).
  { intros fuel. unfold calc_classical_elements. rewrite !dot_product_eq, length_eq. fold gm d. rewrite !c_div_ok by lra. cbn [obind]. rewrite Einv. destruct (Reqb_spec gm 0); [lra|].
    change (cross_product r v) with h. destruct h as [[hx hy] hz] eqn:Eh. unfold dot in HH.
    assert (E0 : sqrt (hx * hx + hy * hy + hz * hz) = H) by reflexivity. assert (HP : 0 < hx * hx + hy * hy + hz * hz) by (rewrite <- HH; nra).
    destruct (Rltb_spec 0 d); [|lra]. destruct (Rltb_spec 0 (dot v v)); [|lra]. destruct (Rltb_spec 0 (hx * hx + hy * hy + hz * hz)); [|lra]. cbn [andb negb].
    rewrite !c_sqrt_ok by nra. cbn [obind]. rewrite E0.
    destruct (if angles then node_and_incl (hx, hy, hz) (sqrt (hx * hx + hy * hy)) H else Ret (asc_node el, incl el)) as [[node inc]| | |]; cbn [obind]; try reflexivity.
    rewrite !over_ok by lra. cbn [obind]. unfold flatten.
    assert (EV : minus (scale (1 / gm) (cross_product v (hx, hy, hz))) (scale (1 / d) r) = ev).
    { unfold ev, ecc_vector. change (momentum r v) with h. try change (cross r v) with h. rewrite Eh. fold d. rewrite minus_eq, scale_scale. rewrite cross_product_eq. do 2 f_equal. ring. }
    rewrite EV, dot_product_eq, EH, c_div_ok by lra. cbn [obind].
    assert (EV2 : minus ev (times (0 / H) (hx, hy, hz)) = ev). { replace (0 / H) with 0 by (field; lra). generalize ev. intros [[? ?] ?]. unfold minus, times. f_equal; [f_equal|]; ring. }
    rewrite EV2, dot_product_eq, <- ee.
    assert (SN : (if Rltb (Rabs (e * e - 1)) (1 / 10 ^ 14) then 1 else e * e) = e * e). { destruct Snap as [->|K]; [destruct (Rltb _ _); ring|]. destruct (Rltb_spec (Rabs (e * e - 1)) (1 / 10 ^ 14)); [lra|reflexivity]. }
    cbv zeta. rewrite SN, c_sqrt_ok by nra. cbn [obind]. rewrite (sqrt_square e e0).
    assert (OV : (if Reqb e 0 then Ret (scale (1 / d) r) else over ev e) = Ret P). { unfold P. destruct (Reqb_spec e 0); [reflexivity|]. rewrite over_ok by lra; reflexivity. }
    rewrite OV. cbn [obind]. unfold inv at 1. rewrite (perihelion_ok gm e p H Hg H0 Hp e0). cbn [obind]. fold inv q.
    assert (AT : (if negb (Reqb inv 0) then do a <- c_div 1 inv; do x0 <- c_div (Rabs a) gm; do s <- c_sqrt x0; Ret (a, a * s) else Ret (major_axis el, t0 el)) =
                 (if negb (Reqb inv 0) then Ret (1 / inv, 1 / inv * sqrt (Rabs (1 / inv) / gm)) else Ret (major_axis el, t0 el))).
    { destruct (Reqb_spec inv 0) as [Z|Z]; cbn [negb]; [reflexivity|]. rewrite c_div_ok by exact Z. cbn [obind]. rewrite c_div_ok by lra. cbn [obind]. rewrite c_sqrt_ok; [reflexivity|]. apply Rmult_le_pos; [apply Rabs_pos|left; apply Rinv_0_lt_compat; lra]. }
    rewrite AT. rewrite (dot_product_eq r v).
    rewrite cross_product_eq. rewrite (dot_product_eq r P), (dot_product_eq r (cross _ P)). fold x.
    assert (RS : dot r (cross (hx, hy, hz) P) / H = y). { unfold y, S. rewrite dot_scale_r. field. lra. }
    rewrite (c_div_ok _ H) by lra. cbn [obind]. rewrite RS.
    assert (LAST : (do x0 <- c_div d q; do tau <- c_sqrt (x0 - 1); do x1 <- c_div q gm; do s <- c_sqrt x1; do w0 <- c_div (3 / sqrt 2) (q * s); do x2 <- c_div ((if Rltb (dot r v) 0 then - tau else tau) * ((if Rltb (dot r v) 0 then - tau else tau) * (if Rltb (dot r v) 0 then - tau else tau) / 3 + 1) * 3) w0; Ret (mean_anomaly el, t - x2, w0, H)) =
      (do tau <- c_sqrt (d / q - 1); let tau := if Rltb (dot r v) 0 then - tau else tau in let w0 := 3 / sqrt 2 / (q * sqrt (q / gm)) in Ret (mean_anomaly el, t - tau * (tau * tau / 3 + 1) * 3 / w0, w0, H))).
    { rewrite (c_div_ok d q) by lra. cbn [obind]. destruct (c_sqrt (d / q - 1)) as [tau| | |]; cbn [obind]; try reflexivity.
      assert (QG : 0 < q / gm) by (apply Rdiv_lt_0_compat; lra). pose proof (sqrt_lt_R0 _ QG) as SG. assert (S2 : 0 < sqrt 2) by (apply sqrt_lt_R0; lra).
      rewrite c_div_ok by lra. cbn [obind]. rewrite c_sqrt_ok by lra. cbn [obind]. rewrite c_div_ok by nra. cbn [obind]. rewrite c_div_ok by (apply Rgt_not_eq; apply Rdiv_lt_0_compat; [apply Rdiv_lt_0_compat; lra|nra]). cbn [obind]. reflexivity. }
    rewrite LAST. reflexivity. }
  exists P.
  (* the angles *)
  assert (ANG : exists node inc arg, (if angles then node_and_incl h (let '(hx, hy, hz) := h in sqrt (hx * hx + hy * hy)) H else Ret (asc_node el, incl el)) = Ret (node, inc) /\
    (if angles then argument h P (let '(hx, hy, hz) := h in sqrt (hx * hx + hy * hy)) H else Ret (arg_per el)) = Ret arg).
  { destruct angles; [|eexists _, _, _; split; reflexivity]. destruct h as [[hx hy] hz]. unfold dot in HH. destruct (node_ok hx hy hz H H0 HH) as (node & i & EN & _). destruct P as [[px py] pz]. destruct (argument_ok hx hy hz px py pz H H0 HH P1 Ph) as (a & EA & _).
    eexists _, _, _. split; [exact EN|exact EA]. }
  destruct ANG as (node & inc & arg & AN & AA). rewrite AN, AA in CALC. cbn [obind] in CALC.
  assert (AF : forall el', asc_node el' = node -> incl el' = inc -> arg_per el' = arg -> angles = true -> angles_from h P H el').
  { intros el' <- <- <- ->. unfold angles_from. destruct h as [[hx hy] hz]. split; assumption. }
  assert (OVS : forall h1, h1 <> 0 -> over (cross h P) h1 = Ret (scale (H / h1) S)). { intros h1 N1. rewrite over_ok by exact N1. unfold S. rewrite scale_scale. do 2 f_equal. field. split; lra. }
  destruct (Rtotal_order e 1) as [L|[E1|L]].
  - assert (I0 : 0 < inv) by (unfold inv; apply Rdiv_lt_0_compat; nra). assert (M0 : 0 < sqrt (Rabs (1 - e * e))) by (apply sqrt_lt_R0; rewrite Rabs_right; nra).
    assert (AX : 1 / inv = q / (1 - e)) by (unfold inv, q; field; repeat split; nra). assert (A0 : 0 < q / (1 - e)) by (apply Rdiv_lt_0_compat; lra).
    rewrite AX, (Rabs_right (q / (1 - e))) in CALC by lra. set (a := q / (1 - e)) in *.
    destruct (anomaly_ellipse e p x y d (a * sqrt (a / gm)) t ltac:(lra) P0 DXY DX) as (E & M & n & XY & BE & B & NO & R). fold inv q in XY, R. exists n.
    destruct (Reqb_spec inv 0); [lra|]. destruct (Reqb_spec (sqrt (Rabs (1 - e * e))) 0); [lra|]. cbn [negb andb obind] in CALC. destruct (Rltb_spec 0 inv); [|lra].
    eexists. split; [exact P1|]. split; [exact Ph|]. split; [exact PE|]. split.
    { intros fuel Fu. rewrite CALC. rewrite (Rabs_right (1 - e * e)) by nra. rewrite (R fuel Fu). cbn [obind]. rewrite OVS by lra. cbn [obind]. reflexivity. }
    cbn [gm_ q_ ecc_ perih_vec minor_to_major sideways angular_momentum t0 w0 perih_time]. repeat (split; [first [reflexivity|rewrite (Rabs_right (1 - e * e)) by nra; reflexivity]|]). split; [apply AF; reflexivity|]. split; [|split; intros; lra].
    intros _. split; [replace (H / H) with 1 by (field; lra); apply scale_1|]. split; [reflexivity|]. split; [reflexivity|]. exists E, M. repeat (split; [assumption|]). reflexivity.
  - assert (I0 : inv = 0) by (unfold inv; rewrite E1; field; lra). destruct (Reqb_spec inv 0); [|lra]. cbn [negb andb obind] in CALC.
    assert (TT : 0 <= d / q - 1). { unfold q. rewrite E1. replace (d / (p / (1 + 1)) - 1) with ((2 * d - p) / p) by (field; lra). apply Rmult_le_pos; [|left; apply Rinv_0_lt_compat; lra]. rewrite E1 in DX. nra. }
    rewrite c_sqrt_ok in CALC by exact TT. cbn [obind] in CALC. cbv zeta in CALC. set (k := if Rltb (dot r v) 0 then - sqrt (d / q - 1) else sqrt (d / q - 1)) in *. exists O.
    eexists. split; [exact P1|]. split; [exact Ph|]. split; [exact PE|]. split.
    { intros fuel _. rewrite CALC. rewrite OVS by lra. cbn [obind]. reflexivity. }
    cbn [gm_ q_ ecc_ perih_vec minor_to_major sideways angular_momentum t0 w0 perih_time]. repeat (split; [reflexivity|]). split; [apply AF; reflexivity|]. split; [intros; lra|]. split; [intros; lra|].
    intros _. split; [replace (H / H) with 1 by (field; lra); apply scale_1|]. split; [reflexivity|]. split; [reflexivity|]. exists k. split; [|reflexivity].
    assert (Q2 : q = p / 2) by (unfold q; rewrite E1; field). assert (KK : k * k = d / q - 1) by (pose proof (sqrt_sqrt _ TT); unfold k; destruct (Rltb (dot r v) 0); lra). rewrite E1 in DX.
    assert (X1 : x = q * (1 - k * k)) by (rewrite KK; transitivity (2 * q - d); [lra|field; lra]).
    assert (YY : y * y = 2 * q * k * (2 * q * k)). { replace (2 * q * k * (2 * q * k)) with (4 * (q * q) * (k * k)) by ring. rewrite KK. replace (4 * (q * q) * (d / q - 1)) with (4 * q * d - 4 * q * q) by (field; lra). replace (y * y) with (d * d - x * x) by lra. replace x with (p - d) by lra. rewrite Q2. field. }
    unfold parabola. f_equal; [exact X1|]. change (y = 2 * q * k). rewrite E1 in Y1. pose proof (sqrt_pos (d / q - 1)) as SP. unfold k in YY |- *. destruct (Rltb_spec (dot r v) 0) as [G|G].
    + assert (y < 0) by nra. assert (Z : (y - 2 * q * - sqrt (d / q - 1)) * (y + 2 * q * - sqrt (d / q - 1)) = 0) by lra. assert (0 <= q * sqrt (d / q - 1)) by (apply Rmult_le_pos; lra). apply Rmult_integral in Z. destruct Z; lra.
    + assert (0 <= y). { destruct (Rle_or_lt 0 y) as [|W]; [assumption|]. exfalso. assert (0 <= p * dot r v) by (apply Rmult_le_pos; lra). assert (0 < (- y) * H) by (apply Rmult_lt_0_compat; lra). lra. }
      assert (Z : (y - 2 * q * sqrt (d / q - 1)) * (y + 2 * q * sqrt (d / q - 1)) = 0) by lra. assert (0 <= q * sqrt (d / q - 1)) by (apply Rmult_le_pos; lra). apply Rmult_integral in Z. destruct Z; lra.
  - assert (I0 : inv < 0). { unfold inv. assert (0 < (e * e - 1) / p) by (apply Rdiv_lt_0_compat; nra). replace ((1 - e * e) / p) with (- ((e * e - 1) / p)) by (field; lra). lra. }
    assert (M0 : 0 < sqrt (Rabs (1 - e * e))) by (apply sqrt_lt_R0; rewrite Rabs_left; nra).
    assert (AX : 1 / inv = - (q / (e - 1))) by (unfold inv, q; field; repeat split; nra). assert (A0 : 0 < q / (e - 1)) by (apply Rdiv_lt_0_compat; lra).
    rewrite AX, Rabs_Ropp, (Rabs_right (q / (e - 1))) in CALC by lra. set (a := q / (e - 1)) in *. assert (AG : 0 < a / gm) by (apply Rdiv_lt_0_compat; lra). pose proof (sqrt_lt_R0 _ AG) as SG.
    replace (- a * sqrt (a / gm)) with (- (a * sqrt (a / gm))) in CALC by ring.
    destruct (anomaly_hyperbola e p x y d (- (a * sqrt (a / gm))) t L P0 D0 DXY DX ltac:(nra)) as (E & M & n & XY & B & NO & R). fold inv q in XY, R. exists n.
    destruct (Reqb_spec inv 0); [lra|]. destruct (Reqb_spec (sqrt (Rabs (1 - e * e))) 0); [lra|]. cbn [negb andb obind] in CALC. destruct (Rltb_spec 0 inv); [lra|].
    eexists. split; [exact P1|]. split; [exact Ph|]. split; [exact PE|]. split.
    { intros fuel Fu. rewrite CALC. rewrite (R fuel Fu). cbn [obind]. rewrite OVS by lra. cbn [obind]. reflexivity. }
    cbn [gm_ q_ ecc_ perih_vec minor_to_major sideways angular_momentum t0 w0 perih_time]. repeat (split; [reflexivity|]). split; [apply AF; reflexivity|]. split; [intros; lra|]. split; [|intros; lra].
    intros _. split; [f_equal; field; lra|]. split; [reflexivity|]. split; [reflexivity|]. exists E, M. repeat (split; [assumption|]). reflexivity.
Qed.
