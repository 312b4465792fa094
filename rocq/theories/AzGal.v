(** Proofs about the galactic and supergalactic coordinates of alt_az.cpp. *)
From Coq Require Import Lia.
From Verif Require Import TrigBase EllModel RotModel RotSpec RotProofs RotThms PrecModel PrecSpec PrecProofs PrecThms AzModel AzSpec AzProofs.
Open Scope list_scope.

(** precess_ra_dec( ) for any matrix. *)
Lemma ra_dec_gen m p (back : bool) x y z : length m = 9%nat -> app (if back then tr m else m) (place p) = [x; y; z] -> exists N, forall fuel, (N <= fuel)%nat ->
  exists q, precess_ra_dec fuel m p back = Ret q /\ - PI <= fst q - fst p <= PI /\ - (PI / 2) <= snd q <= PI / 2 /\
    sqrt (x * x + y * y) * cos (fst q) = x /\ sqrt (x * x + y * y) * sin (fst q) = y /\ sin (snd q) = Rmax (- 1) (Rmin 1 z).
Proof.
  intros L Eu. pose proof PI_RGT_0 as P.
  destruct (C43_acose_asine_proof z) as (_ & dec & _ & Ed & _ & _ & Bd & Sd).
  set (ra0 := if (negb (Reqb y 0) || negb (Reqb x 0))%bool then atan2 y x else 0).
  assert (Pol : sqrt (x * x + y * y) * cos ra0 = x /\ sqrt (x * x + y * y) * sin ra0 = y).
  { unfold ra0. destruct (Reqb_spec y 0) as [Ey|]; [|apply atan2_polar]. destruct (Reqb_spec x 0) as [Ex|]; [|apply atan2_polar].
    cbn. rewrite Ex, Ey. replace (0 * 0 + 0 * 0) with 0 by ring. rewrite sqrt_0. lra. }
  destruct (archimed_cor1 (/ (Rabs (ra0 - fst p) + 1))) as (N & HN & HN0).
  { apply Rinv_0_lt_compat. pose proof (Rabs_pos (ra0 - fst p)). lra. }
  assert (HN' : Rabs (ra0 - fst p) < INR N).
  { assert (0 < INR N) by (apply lt_0_INR; lia). pose proof (Rabs_pos (ra0 - fst p)). apply Rnot_le_lt. intros Q. apply (Rlt_not_le _ _ HN). apply Rinv_le_contravar; lra. }
  exists N. intros fuel Hf. assert (Hf' : INR N <= INR fuel) by (apply le_INR; assumption).
  pose proof (Rle_abs (ra0 - fst p)) as A1. pose proof (Rle_abs (- (ra0 - fst p))) as A2. rewrite Rabs_Ropp in A2.
  assert (PI3 : 2 < PI) by (pose proof PI2_1; unfold PI2 in *; lra).
  destruct (lower_ok fuel ra0 (fst p)) as (k & E1 & B1 & B2); [nra|].
  destruct (raise_ok fuel (ra0 - 2 * PI * IZR k) (fst p)) as (j & E2 & B3); [destruct B2 as [B2| ->]; nra|assumption|].
  exists (ra0 + 2 * PI * IZR (j - k), dec). split; [|split; [|split; [assumption|]]].
  - unfold precess_ra_dec. fold (place p).
    replace (if back then deprecess_vector m (place p) [0; 0; 0] else precess_vector m (place p) [0; 0; 0]) with (Ret [x; y; z])
      by (rewrite <- Eu; destruct back; [rewrite deprecess_ok|rewrite precess_ok]; auto).
    cbn [obind get nth_error]. fold ra0. rewrite Ed. cbn [obind]. rewrite E1. cbn [obind]. rewrite E2. cbn [obind].
    do 2 f_equal. rewrite minus_IZR. ring.
  - cbn [fst]. rewrite minus_IZR. lra.
  - cbn [fst snd]. destruct (shift_cs ra0 (j - k)) as [-> ->]. rewrite Sd. rewrite (Rmin_comm 1), (Rmax_comm (- 1)). tauto.
Qed.

Lemma close_trans e e' u v w : close e u v -> close e' v w -> close (e + e') u w.
Proof. intros A B i. specialize (A i). specialize (B i). replace (comp u i - comp w i) with ((comp u i - comp v i) + (comp v i - comp w i)) by ring. eapply Rle_trans; [apply Rabs_triang|]. lra. Qed.

Lemma root_diff a b d : 0 <= a -> 0 <= b -> 0 <= d -> - (d * d) <= a * a - b * b <= d * d -> Rabs (a - b) <= d.
Proof.
  intros A B D H. destruct (Rle_dec b a).
  - rewrite Rabs_right by lra. apply Rnot_lt_le. intros N. nra.
  - rewrite Rabs_left by lra. apply Rnot_lt_le. intros N. nra.
Qed.

(** A result of ra_dec_gen is close to the direction of the vector, if that is nearly a unit vector. *)
Lemma near_unit x y z q d : 0 <= d <= 1 -> Rabs (x * x + y * y + z * z - 1) <= d * d -> - (PI / 2) <= snd q <= PI / 2 ->
  sqrt (x * x + y * y) * cos (fst q) = x -> sqrt (x * x + y * y) * sin (fst q) = y -> sin (snd q) = Rmax (- 1) (Rmin 1 z) ->
  close d (direction (fst q) (snd q)) [x; y; z].
Proof.
  intros D U B C S Z. set (h := sqrt (x * x + y * y)) in *. pose proof (Rle_0_sqr x) as X2. pose proof (Rle_0_sqr y) as Y2. pose proof (Rle_0_sqr z) as Z2. unfold Rsqr in *.
  assert (H2 : h * h = x * x + y * y) by (apply sqrt_sqrt; lra). assert (H0 : 0 <= h) by apply sqrt_pos. assert (U' : - (d * d) <= x * x + y * y + z * z - 1 <= d * d) by (revert U; unfold Rabs; destruct (Rcase_abs _); lra). clear U.
  assert (C0 : 0 <= cos (snd q)) by (apply cos_ge_0; lra). pose proof (csq (snd q)) as Q. pose proof (csq (fst q)) as Q1.
  assert (K : Rabs (sin (snd q) - z) <= d /\ Rabs (cos (snd q) - h) <= d).
  { unfold Rmax, Rmin in Z. destruct (Rle_dec 1 z) as [G|G].
    - destruct (Rle_dec (- 1) 1); [|lra]. rewrite Z in *. split.
      + rewrite Rabs_left1 by lra. apply Rnot_lt_le. intros N. nra.
      + apply root_diff; try lra. split; nra.
    - destruct (Rle_dec (- 1) z) as [F|F].
      + rewrite Z in *. split; [replace (z - z) with 0 by ring; rewrite Rabs_R0; lra|]. apply root_diff; try lra.
      + rewrite Z in *. split.
        * rewrite Rabs_right by lra. apply Rnot_lt_le. intros N. nra.
        * apply root_diff; try lra. split; nra. }
  destruct K as [K1 K2]. assert (F : forall t, Rabs t <= 1 -> Rabs (t * cos (snd q) - h * t) <= d).
  { intros t T. replace (t * cos (snd q) - h * t) with (t * (cos (snd q) - h)) by ring. rewrite Rabs_mult. pose proof (Rabs_pos t). pose proof (Rabs_pos (cos (snd q) - h)). nra. }
  assert (T1 : Rabs (cos (fst q)) <= 1) by (apply Rabs_le; pose proof (COS_bound (fst q)); lra).
  assert (T2 : Rabs (sin (fst q)) <= 1) by (apply Rabs_le; pose proof (SIN_bound (fst q)); lra).
  intros [|[|[|i]]]; unfold direction, comp; cbn [nth].
  - rewrite <- C at 1. apply F. exact T1.
  - rewrite <- S at 1. apply F. exact T2.
  - exact K1.
  - destruct i; replace (0 - 0) with 0 by ring; rewrite Rabs_R0; lra.
Qed.

Lemma abs_prod a b A B : Rabs a <= A -> Rabs b <= B -> Rabs (a * b) <= A * B.
Proof. intros H K. rewrite Rabs_mult. apply Rmult_le_compat; try assumption; apply Rabs_pos. Qed.
Lemma abs_3 a b c e : Rabs a <= e -> Rabs b <= e -> Rabs c <= e -> Rabs (a + b + c) <= 3 * e.
Proof. intros A B C. eapply Rle_trans; [apply Rabs_triang|]. pose proof (Rabs_triang a b). lra. Qed.

(** A matrix whose products with its transpose are within eps of the identity. *)
Definition nearly (eps : R) (m : list R) : Prop := length m = 9%nat /\ forall i j, (i < 3)%nat -> (j < 3)%nat ->
  Rabs (cell (mul m (tr m)) i j - cell ident i j) <= eps /\ Rabs (cell (mul (tr m) m) i j - cell ident i j) <= eps /\ Rabs (cell m i j) <= 1.

Lemma app_close m u v e : (forall i j, (i < 3)%nat -> (j < 3)%nat -> Rabs (cell m i j) <= 1) -> 0 <= e -> close e u v -> close (3 * e) (app m u) (app m v).
Proof.
  intros M E C. assert (A : forall i, (i < 3)%nat -> Rabs (comp (app m u) i - comp (app m v) i) <= 3 * e).
  { intros i I. replace (comp (app m u) i - comp (app m v) i) with (cell m i 0 * (comp u 0 - comp v 0) + cell m i 1 * (comp u 1 - comp v 1) + cell m i 2 * (comp u 2 - comp v 2)).
    2:{ destruct i as [|[|[|i]]]; [| | |lia]; unfold app, vec, comp; cbn [map seq nth]; ring. }
    rewrite <- (Rmult_1_l e). apply abs_3; apply abs_prod; auto. }
  intros [|[|[|i]]]; try (apply A; lia). unfold app, vec, comp. cbn [map seq nth]. destruct i; replace (0 - 0) with 0 by ring; rewrite Rabs_R0; lra.
Qed.
Lemma app_near n v e : 0 <= e -> (forall i j, (i < 3)%nat -> (j < 3)%nat -> Rabs (cell n i j - cell ident i j) <= e) -> length v = 3%nat -> (forall i, Rabs (comp v i) <= 1) ->
  close (3 * e) (app n v) v.
Proof.
  intros E M L V. assert (A : forall i, (i < 3)%nat -> Rabs (comp (app n v) i - comp v i) <= 3 * e).
  { intros i I. replace (comp (app n v) i - comp v i) with ((cell n i 0 - cell ident i 0) * comp v 0 + (cell n i 1 - cell ident i 1) * comp v 1 + (cell n i 2 - cell ident i 2) * comp v 2).
    2:{ destruct i as [|[|[|i]]]; [| | |lia]; unfold app, vec, comp, ident, mat, cell; cbn [map seq nth Nat.mul Nat.add Nat.eqb]; ring. }
    rewrite <- (Rmult_1_r e). apply abs_3; apply abs_prod; auto. }
  destruct (len3 v L) as (a & b & c & ->). intros [|[|[|i]]]; try (apply A; lia). unfold app, vec, comp. cbn [map seq nth]. destruct i; replace (0 - 0) with 0 by ring; rewrite Rabs_R0; lra.
Qed.

Lemma unit_comp v : length v = 3%nat -> dot v v = 1 -> forall i, Rabs (comp v i) <= 1.
Proof.
  intros L U. destruct (len3 v L) as (a & b & c & ->). cbv [dot comp nth] in U. pose proof (Rle_0_sqr a). pose proof (Rle_0_sqr b). pose proof (Rle_0_sqr c). unfold Rsqr in *.
  intros [|[|[|i]]]; unfold comp; cbn [nth]; try (apply Rabs_le; split; nra). destruct i; rewrite Rabs_R0; lra.
Qed.
(** The image of a unit vector is nearly a unit vector. *)
Lemma norm_near m p e : 0 <= e -> (forall i j, (i < 3)%nat -> (j < 3)%nat -> Rabs (cell (mul (tr m) m) i j - cell ident i j) <= e) ->
  length p = 3%nat -> dot p p = 1 -> Rabs (dot (app m p) (app m p) - 1) <= 9 * e.
Proof.
  intros E M L U. rewrite dot_app, <- app_mul. pose proof (app_near (mul (tr m) m) p e E M L (unit_comp p L U)) as C. pose proof (unit_comp p L U) as B.
  replace (dot p (app (mul (tr m) m) p) - 1) with (dot p (app (mul (tr m) m) p) - dot p p) by (rewrite U; reflexivity). unfold dot. set (w := app (mul (tr m) m) p) in *. clearbody w.
  replace (comp p 0 * comp w 0 + comp p 1 * comp w 1 + comp p 2 * comp w 2 - (comp p 0 * comp p 0 + comp p 1 * comp p 1 + comp p 2 * comp p 2))
    with (comp p 0 * (comp w 0 - comp p 0) + comp p 1 * (comp w 1 - comp p 1) + comp p 2 * (comp w 2 - comp p 2)) by ring.
  replace (9 * e) with (3 * (1 * (3 * e))) by ring. apply abs_3; apply abs_prod; auto.
Qed.

Lemma gal_ok m e d p (back : bool) : nearly e m -> 0 <= e -> 0 <= d <= 1 -> 9 * e <= d * d -> exists N, forall fuel, (N <= fuel)%nat ->
  exists q, precess_ra_dec fuel m p back = Ret q /\ - PI <= fst q - fst p <= PI /\ - (PI / 2) <= snd q <= PI / 2 /\
    close d (direction (fst q) (snd q)) (app (if back then tr m else m) (direction (fst p) (snd p))).
Proof.
  intros [L M] E D ED. change (direction (fst p) (snd p)) with (place p). set (u := app (if back then tr m else m) (place p)).
  assert (Eu : exists x y z, u = [x; y; z]) by (apply len3; reflexivity). destruct Eu as (x & y & z & Eu).
  assert (U : Rabs (x * x + y * y + z * z - 1) <= d * d).
  { eapply Rle_trans; [|exact ED]. assert (H : Rabs (dot u u - 1) <= 9 * e).
    { unfold u. destruct back; apply norm_near; auto; try apply place_unit.
      - intros i j I J. rewrite tr_tr by exact L. apply (M i j I J).
      - intros i j I J. apply (M i j I J). }
    rewrite Eu in H. exact H. }
  destruct (ra_dec_gen m p back x y z L Eu) as (N & H). exists N. intros fuel Hf. destruct (H fuel Hf) as (q & Eq & Bq & Dq & C & S & Z).
  exists q. split; [exact Eq|]. split; [exact Bq|]. split; [exact Dq|]. rewrite Eu. apply near_unit; assumption.
Qed.

(** There and back. *)
Lemma gal_back m e d p (back : bool) q r : nearly e m -> 0 <= e -> close d (direction (fst q) (snd q)) (app (if back then tr m else m) (direction (fst p) (snd p))) -> 0 <= d -> 
  close d (direction (fst r) (snd r)) (app (if back then m else tr m) (direction (fst q) (snd q))) ->
  close (4 * d + 3 * e) (direction (fst r) (snd r)) (direction (fst p) (snd p)).
Proof.
  intros [L M] E C1 D C2. replace (4 * d + 3 * e) with (d + (3 * d + 3 * e)) by ring. eapply close_trans; [exact C2|]. eapply close_trans.
  - apply app_close; [|exact D|exact C1]. intros i j I J. destruct back; [apply (M i j I J)|]. replace (cell (tr m) i j) with (cell m j i); [apply (M j i J I)|].
    destruct i as [|[|[|i]]]; [| | |lia]; (destruct j as [|[|[|j]]]; [| | |lia]); reflexivity.
  - rewrite <- app_mul. apply app_near; [exact E| |reflexivity|apply unit_comp; [reflexivity|apply direction_unit]].
    intros i j I J. destruct back; apply (M i j I J).
Qed.

Ltac cells := intros i j I J; destruct i as [|[|[|i]]]; [| | |lia]; (destruct j as [|[|[|j]]]; [| | |lia]); unfold mul, tr, ident, mat, cell; cbn [nth Nat.mul Nat.add Nat.eqb]; repeat split; apply Rabs_le; lra.
Lemma galactic_nearly : nearly (13 / 10 ^ 11) j2000_to_galactic_matrix.
Proof. split; [reflexivity|]. unfold j2000_to_galactic_matrix. cells. Qed.
Lemma supergalactic_nearly : nearly (12 / 10 ^ 9) j2000_to_supergalactic_matrix.
Proof. split; [reflexivity|]. unfold j2000_to_supergalactic_matrix. cells. Qed.
