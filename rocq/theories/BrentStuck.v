(** A function that the minimiser never finishes with. *)
From Verif Require Import RBase BrentModel BrentSpec BrentProofs BrentSteps.
Open Scope list_scope.

(** Falls at slope -1 to its least value, -4 at 4, then rises steeply. *)
Definition trough (x : R) : R :=
  if Rleb x 4 then - x else (136697 / 160 + 4) / (27 / 40) * (x - 4) - 4.
Definition M : R := 187 / 40.

Ltac dec :=
  repeat match goal with
         | |- context [Rltb ?a ?b] => destruct (Rltb_spec a b); [try (exfalso; lra)|try (exfalso; lra)]
         | |- context [Rleb ?a ?b] => destruct (Rleb_spec a b); [try (exfalso; lra)|try (exfalso; lra)]
         | |- context [Reqb ?a ?b] => destruct (Reqb_spec a b); [try (exfalso; lra)|try (exfalso; lra)]
         end.

Lemma ltb_t a b : a < b -> Rltb a b = true. Proof. intros. dec. reflexivity. Qed.
Lemma ltb_f a b : b <= a -> Rltb a b = false. Proof. intros. dec. reflexivity. Qed.
Lemma leb_t a b : a <= b -> Rleb a b = true. Proof. intros. dec. reflexivity. Qed.
Lemma leb_f a b : b < a -> Rleb a b = false. Proof. intros. dec. reflexivity. Qed.
Lemma eqb_t a b : a = b -> Reqb a b = true. Proof. intros. dec. reflexivity. Qed.
Lemma eqb_f a b : a < b \/ b < a -> Reqb a b = false. Proof. intros. dec. reflexivity. Qed.
Ltac simp := cbn -[Rltb Rleb Reqb is_done Rplus Rminus Rmult Rdiv Ropp IZR PHI]; unfold pt, X, Y; cbn -[Rltb Rleb Reqb is_done Rplus Rminus Rmult Rdiv Ropp IZR PHI].
Ltac plain t := lazymatch t with
  | context [nth] => fail | context [Rltb] => fail | context [Rleb] => fail | _ => idtac end.
Ltac one :=
  match goal with
  | |- context [Rltb ?a ?b] => plain a; plain b; first [rewrite (ltb_t a b) by lra | rewrite (ltb_f a b) by lra]
  | |- context [Rleb ?a ?b] => plain a; plain b; first [rewrite (leb_t a b) by lra | rewrite (leb_f a b) by lra]
  | |- context [Reqb ?a ?b] => plain a; plain b; first [rewrite (eqb_t a b) by lra | rewrite (eqb_f a b) by lra]
  end.
Ltac go := simp; repeat (one; simp).

Lemma trough_0 : trough 0 = 0. Proof. unfold trough. dec. lra. Qed.
Lemma trough_1 : trough 1 = -1. Proof. unfold trough. dec. lra. Qed.
Lemma trough_M : trough M = 136697 / 160. Proof. unfold trough, M. dec. lra. Qed.
Lemma trough_line x : x <= 4 -> trough x = - x. Proof. intros. unfold trough. dec. lra. Qed.

Record stuck (b : brent) (p0 p1 p2 p3 p4 : R * R) (e : R) : Prop := {
  k_pts : pts b = [p0; p1; p2; p3; p4];
  k_0 : snd p0 = - fst p0; k_1 : snd p1 = - fst p1; k_2 : snd p2 = - fst p2; k_3 : snd p3 = - fst p3;
  k_o : fst p3 < fst p2 /\ fst p2 < fst p1 /\ fst p1 < fst p0;
  k_lo : xmin b < fst p0; k_hi : xmax b = M;
  k_w : fst p0 - xmin b < M - fst p0;
  k_g : gold_ratio b = 1 - e; k_e : 0 < e <= 1 - PHI;
  k_r : (M - 1) * (1 - 2 * (1 - PHI) + 2 * e) <= M - fst p0 <= M - 1;
  k_n : n_iterations b <> O; k_t : tolerance b = 1 / 1000; k_y : ytolerance b = 0 }.

Lemma PHI_close : 618 / 1000 < PHI < 6181 / 10000.
Proof. unfold PHI. split; lra. Qed.

Lemma stuck_candidate b p0 p1 p2 p3 p4 e : stuck b p0 p1 p2 p3 p4 e ->
  exists s, candidate b = Ret s /\ (s = (Infinite, STEP_TYPE_CUBIC) \/ s = (Number 0, STEP_TYPE_GOLDEN)).
Proof.
  intros [Ep E0 E1 E2 E3 O _ _ _ _ _ _ N _ _]. unfold candidate.
  destruct (n_iterations b) eqn:En; [congruence|]. rewrite Ep.
  destruct (cubic_ok p0 p1 p2 p3 [p4]) as (a & c & d & o & -> & T1 & T2 & T3 & Ho); try lra.
  cbn [obind]. eexists. split; [reflexivity|].
  assert (A : a = 0 /\ c = 0 /\ d = -1).
  { unfold cubic_through in *. cbv zeta in *.
    assert (U1 : fst p1 - fst p0 <> 0) by lra. assert (U2 : fst p2 - fst p0 <> 0) by lra. assert (U3 : fst p3 - fst p0 <> 0) by lra.
    assert (U12 : fst p1 - fst p0 <> fst p2 - fst p0) by lra. assert (U13 : fst p1 - fst p0 <> fst p3 - fst p0) by lra.
    assert (U23 : fst p2 - fst p0 <> fst p3 - fst p0) by lra.
    rewrite E0, E1 in T1. rewrite E0, E2 in T2. rewrite E0, E3 in T3.
    assert (V1 : (fst p1 - fst p0) * (d + 1 + (fst p1 - fst p0) * (c + (fst p1 - fst p0) * a)) = 0) by lra.
    assert (V2 : (fst p2 - fst p0) * (d + 1 + (fst p2 - fst p0) * (c + (fst p2 - fst p0) * a)) = 0) by lra.
    assert (V3 : (fst p3 - fst p0) * (d + 1 + (fst p3 - fst p0) * (c + (fst p3 - fst p0) * a)) = 0) by lra.
    set (t1 := fst p1 - fst p0) in *. set (t2 := fst p2 - fst p0) in *. set (t3 := fst p3 - fst p0) in *.
    clearbody t1 t2 t3. clear T1 T2 T3 Ho.
    apply Rmult_integral in V1; destruct V1 as [V1|V1]; [tauto|].
    apply Rmult_integral in V2; destruct V2 as [V2|V2]; [tauto|].
    apply Rmult_integral in V3; destruct V3 as [V3|V3]; [tauto|].
    assert (W1 : (t1 - t2) * (c + (t1 + t2) * a) = 0) by lra. assert (W2 : (t1 - t3) * (c + (t1 + t3) * a) = 0) by lra.
    apply Rmult_integral in W1; destruct W1 as [W1|W1]; [lra|].
    apply Rmult_integral in W2; destruct W2 as [W2|W2]; [lra|].
    assert (Z : (t2 - t3) * a = 0) by lra. apply Rmult_integral in Z; destruct Z as [Z|Z]; [lra|].
    subst a. assert (c = 0) by lra. subst c. lra. }
  destruct A as (-> & -> & ->). unfold slope in Ho.
  destruct o as [[z| |]|]; [|left; reflexivity| |right; reflexivity]; lra.
Qed.

Lemma stuck_next b p0 p1 p2 p3 p4 e : stuck b p0 p1 p2 p3 p4 e ->
  brent_min_next b = Ret (fst p0 + (M - fst p0) * e, set_step b STEP_TYPE_GOLDEN (fst p0 + (M - fst p0) * e)).
Proof.
  intros K. destruct (stuck_candidate _ _ _ _ _ _ _ K) as (s & Es & Hs).
  destruct K as [Ep E0 E1 E2 E3 O Lo Hi W G E Rg N T Ty]. pose proof PHI_close as PH.
  assert (EX : X b 0 = fst p0) by (unfold X; rewrite Ep; reflexivity).
  assert (Rt : M - fst p0 >= 8 / 10) by (unfold M in *; nra).
  assert (D : is_done b = false).
  { unfold is_done. rewrite EX, Hi, T, Ty. unfold Y. rewrite Ep. unfold pt. cbn [nth].
    dec; rewrite ?Bool.andb_false_r; reflexivity. }
  rewrite next_eq by (rewrite ?EX, ?Hi; auto; lra). rewrite Es. cbn [obind].
  assert (GP : golden_point b = fst p0 + (M - fst p0) * e).
  { unfold golden_point. rewrite EX, Hi, G. dec. lra. }
  assert (In : xmin b < golden_point b < xmax b) by (rewrite GP, Hi; unfold M in *; nra).
  assert (Ne : golden_point b <> X b 0) by (rewrite GP, EX; nra).
  pose proof (finish_ok b STEP_TYPE_GOLDEN _ In Ne) as F. rewrite GP in *.
  destruct Hs as [-> | ->]; cbn; exact F.
Qed.

Lemma stuck_add b p0 p1 p2 p3 p4 e : stuck b p0 p1 p2 p3 p4 e ->
  let x := fst p0 + (M - fst p0) * e in
  exists d b' q4, brent_min_add (set_step b STEP_TYPE_GOLDEN x) (trough x) = Ret (d, b') /\
    stuck b' (x, trough x) p0 p1 p2 q4 (e / 2) /\ x <= 4.
Proof.
  intros K x. destruct K as [Ep E0 E1 E2 E3 O Lo Hi W G E Rg N T Ty]. pose proof PHI_close as PH.
  assert (Rt : M - x >= (M - 1) * (1 - 2 * (1 - PHI) + 2 * (e / 2))).
  { unfold x, M in *. nra. }
  assert (X4 : x <= 4) by (unfold M in *; nra).
  assert (Lx : fst p0 < x) by (unfold x, M in *; nra).
  assert (Tx : trough x = - x) by (apply trough_line; exact X4).
  set (b1 := set_step b STEP_TYPE_GOLDEN x).
  destruct (add_eq b1 (trough x) p0 p1 p2 p3 p4) as (q0 & q1 & q2 & q3 & q4 & EA & Q1 & Q2 & C); try exact Ep; try lra.
  destruct C as [C|C]; [|lra]. destruct C as (_ & -> & -> & -> & ->). cbv zeta in EA.
  change (next_x b1) with x in *.
  assert (EX : X b1 0 = fst p0) by (unfold X, b1; cbn; rewrite Ep; reflexivity).
  assert (EY : Y b1 0 = snd p0) by (unfold Y, b1; cbn; rewrite Ep; reflexivity).
  unfold grown in EA. rewrite EX, EY in EA. change (next_x b1) with x in EA. revert EA.
  destruct (Rleb_spec (trough x) (snd p0)); [|lra]. destruct (Rltb_spec x (fst p0)); [lra|].
  cbn [xmin xmax]. change (xmax b1) with (xmax b). rewrite Hi. cbn [fst].
  destruct (Rltb_spec (fst p0) x); [|lra]. destruct (Rltb_spec x M); [|unfold M in *; nra].
  cbn [andb]. intros ->. do 3 eexists. split; [reflexivity|]. split; [|exact X4].
  split; cbn [pts xmin xmax gold_ratio n_iterations tolerance ytolerance fst snd]; try reflexivity; try assumption; try lra.
  - unfold x, M in *; nra.
  - cbn. rewrite G. lra.
  - congruence.
Qed.

Lemma stuck_start : exists b p0 p1 p2 p3 p4, follow trough (1 / 1000) 0 1 M 2 b /\
  stuck b p0 p1 p2 p3 p4 (1 - PHI).
Proof.
  assert (MV : M = 187 / 40) by reflexivity.
  assert (I0 : exists b, brent_min_init ((0, 0), (0, 0), 0) 0 (trough 0) 1 (trough 1) M (trough M) = Ret b /\
     b = mk [(1, -1); (0, 0); (M, 136697 / 160); (0, 0); (0, 0)] 0 M 0 PHI 0 0 STEP_TYPE_INITIALIZED O).
  { rewrite trough_0, trough_1, trough_M. unfold brent_min_init. go. eexists. split; reflexivity. }
  destruct I0 as (b0 & I0 & E0).
  pose proof (follow_init trough (1 / 1000) 0 1 M _ _ I0) as F0. rewrite E0 in F0. unfold set_tolerance in F0. cbn in F0.
  clear b0 I0 E0. set (b0 := mk _ _ _ _ _ _ _ _ _) in F0. pose proof PHI_close as PH.
  assert (N1 : exists b1, brent_min_next b0 = Ret (51 / 100, b1) /\ b1 = set_step b0 STEP_TYPE_QUADRATIC (51 / 100)).
  { rewrite next_eq.
    - unfold candidate. cbn [n_iterations b0 pts].
      destruct (parabola_ok (1, -1) (0, 0) (M, 136697 / 160) [(0, 0); (0, 0)]) as (a & b & c & -> & T1 & T2 & T3); try (cbn; unfold M; lra).
      unfold quadratic_through, M in T1, T2, T3. cbn [fst snd] in *.
      assert (A : a = 50 /\ b = -51) by lra. destruct A as [-> ->]. cbn [obind].
      unfold divide. one. replace (- -51 * (1 / 2) / 50) with (51 / 100) by lra. simp.
      unfold adjust. go. eexists. split; reflexivity.
    - unfold X, pt. cbn. unfold M. lra.
    - unfold is_done, X, pt. cbn. unfold M. dec. reflexivity. }
  destruct N1 as (b1 & N1 & E1).
  assert (A1 : exists b2, brent_min_add b1 (trough (51 / 100)) = Ret (false, b2) /\ 
     b2 = mk [(1, -1); (51 / 100, - (51 / 100)); (0, 0); (M, 136697 / 160); (0, 0)] (51 / 100) M (51 / 100) PHI (1 / 1000) 0 STEP_TYPE_QUADRATIC 1).
  { rewrite E1, trough_line by lra. unfold brent_min_add. go. unfold is_done. go. eexists. split; reflexivity. }
  destruct A1 as (b2 & A1 & E2).
  assert (F1 : follow trough (1 / 1000) 0 1 M 1 b2).
  { eapply follow_round; [exact F0|exact N1| |exact A1]. rewrite E1. cbn. discriminate. }
  clear F0 N1 A1 E1 b1. clearbody b0. clear b0.
  assert (N2 : exists b3, brent_min_next b2 = Ret (251 / 300, b3) /\ b3 = set_step b2 STEP_TYPE_CUBIC (251 / 300)).
  { rewrite E2, next_eq.
    - unfold candidate. cbn [n_iterations pts].
      destruct (cubic_ok (1, -1) (51 / 100, - (51 / 100)) (0, 0) (M, 136697 / 160) [(0, 0)]) as (a & b & c & o & -> & T1 & T2 & T3 & Ho); try (cbn; unfold M; lra).
      unfold cubic_through, M in T1, T2, T3. cbn [fst snd] in *.
      assert (A : a = 10000 / 833 /\ b = 14900 / 833 /\ c = 83 / 17) by lra. destruct A as (-> & -> & ->). cbn [obind].
      unfold slope in Ho.
      assert (O : o = Some (Number (251 / 300))).
      { destruct o as [[z| |]|].
        - destruct Ho as [Hz Hm]. specialize (Hm (- (49 / 300)) ltac:(lra)).
          assert (Z : (z - 1 + 49 / 300) * (z - 1 + 83 / 100) = 0) by lra.
          rewrite (Rabs_left (- (49 / 300))) in Hm by lra.
          apply Rmult_integral in Z. destruct Z as [Z|Z].
          + do 2 f_equal. lra.
          + rewrite Rabs_left in Hm by lra. lra.
        - lra.
        - lra.
        - specialize (Ho (- (49 / 300))). lra. }
      clear Ho T1 T2 T3. subst o. simp.
      unfold adjust. go. eexists. split; reflexivity.
    - unfold X, pt. cbn. unfold M. lra.
    - unfold is_done, X, pt. cbn. unfold M. dec. reflexivity. }
  destruct N2 as (b3 & N2 & E3).
  assert (A2 : exists b4, brent_min_add b3 (trough (251 / 300)) = Ret (false, b4) /\ 
     b4 = mk [(1, -1); (251 / 300, - (251 / 300)); (51 / 100, - (51 / 100)); (0, 0); (M, 136697 / 160)] (251 / 300) M (251 / 300) PHI (1 / 1000) 0 STEP_TYPE_CUBIC 2).
  { rewrite E3, E2, trough_line by lra. unfold brent_min_add. go. unfold is_done. go. eexists. split; reflexivity. }
  destruct A2 as (b4 & A2 & E4).
  exists b4, (1, -1), (251 / 300, - (251 / 300)), (51 / 100, - (51 / 100)), (0, 0), (M, 136697 / 160).
  split.
  - eapply follow_round; [exact F1|exact N2| |exact A2]. rewrite E3. cbn. discriminate.
  - rewrite E4. split; cbn [pts xmin xmax gold_ratio n_iterations tolerance ytolerance fst snd]; try reflexivity; try lra; congruence.
Qed.

Lemma stuck_forever n : exists b p0 p1 p2 p3 p4 e, follow trough (1 / 1000) 0 1 M (2 + n) b /\
  stuck b p0 p1 p2 p3 p4 e.
Proof.
  induction n as [|n IH].
  - destruct stuck_start as (b & p0 & p1 & p2 & p3 & p4 & F & K). eauto 9.
  - destruct IH as (b & p0 & p1 & p2 & p3 & p4 & e & F & K).
    pose proof (stuck_next _ _ _ _ _ _ _ K) as N.
    destruct (stuck_add _ _ _ _ _ _ _ K) as (d & b' & q4 & A & K' & _).
    do 7 eexists. split; [|exact K']. replace (2 + S n)%nat with (S (2 + n)) by reflexivity.
    eapply follow_round; [exact F|exact N| |exact A]. cbn. discriminate.
Qed.

Lemma stuck_far b p0 p1 p2 p3 p4 e : stuck b p0 p1 p2 p3 p4 e ->
  xmax b - X b 0 >= 8 / 10 /\ Y b 0 >= - (39 / 10) /\ is_done b = false.
Proof.
  intros [Ep E0 E1 E2 E3 O Lo Hi W G E Rg N T Ty]. pose proof PHI_close as PH.
  assert (Rt : M - fst p0 >= 8 / 10) by (unfold M in *; nra).
  unfold is_done, X, Y. rewrite Ep, Hi, T, Ty. unfold pt. cbn [nth].
  split; [exact Rt|]. split; [unfold M in *; lra|]. dec; rewrite ?Bool.andb_false_r; reflexivity.
Qed.
