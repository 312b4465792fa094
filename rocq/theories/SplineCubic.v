(** Proofs about the cubic interpolation of spline.cpp. *)
From Coq Require Import Lia.
From Verif Require Import RBase SplineModel SplineSpec SplineProofs.
Open Scope list_scope.

(** The piece about entry i, and its slope. *)
Definition Kc (t : list R) (i : Z) : R := (entry t (i + 1) - entry t (i - 1)) * (1 / 2).
Definition Ka (t : list R) (i : Z) : R :=
  (entry t (i + 2) - entry t i) * (1 / 2) - 2 * (entry t (i + 1) - entry t i) + Kc t i.
Definition Kb (t : list R) (i : Z) : R := entry t (i + 1) - entry t i - Ka t i - Kc t i.
Definition K (t : list R) (i : Z) (x : R) : R :=
  entry t i + (x - IZR i) * (Kc t i + (x - IZR i) * (Kb t i + (x - IZR i) * Ka t i)).
Definition Kd (t : list R) (i : Z) (x : R) : R :=
  Kc t i + (x - IZR i) * (2 * Kb t i + (x - IZR i) * (3 * Ka t i)).

Definition clamp (m i : Z) : Z := if Z.ltb i 1 then 1%Z else if Z.ltb (m - 3) i then (m - 3)%Z else i.
Definition err (m i : Z) : Z :=
  if Z.ltb i 1 then (if Z.ltb i 0 then -2 else -1)%Z
  else if Z.ltb (m - 3) i then (if Z.ltb (m - 2) i then -2 else -1)%Z else 0%Z.

Lemma cubic_eq t x : let m := Z.of_nat (length t) in (4 <= m)%Z -> - 2147483648 <= x < 2147483648 ->
  cubic_spline_interpolate_within_table t m x = Ret (K t (clamp m (Int_part x)) x, err m (Int_part x)).
Proof.
  intros m Hm Hx. unfold cubic_spline_interpolate_within_table. rewrite floor_ok by assumption. cbn [obind].
  assert (E : (if Z.ltb (Int_part x) 1 then (1, if Z.ltb (Int_part x) 0 then -2 else -1)%Z
    else if Z.ltb (m - 3) (Int_part x) then
      (m - 3, if Z.ltb (m - 2) (Int_part x) then -2 else -1)%Z
    else (Int_part x, 0%Z)) = (clamp m (Int_part x), err m (Int_part x))).
  { unfold clamp, err. destruct (Z.ltb (Int_part x) 1); [reflexivity|]. destruct (Z.ltb (m - 3) (Int_part x)); reflexivity. }
  rewrite E. set (i := clamp m (Int_part x)).
  assert (Hi : (1 <= i <= m - 3)%Z).
  { unfold i, clamp. destruct (Z.ltb_spec (Int_part x) 1); [lia|]. destruct (Z.ltb_spec (m - 3) (Int_part x)); lia. }
  clearbody i. rewrite !rd_ok by (fold m; lia). reflexivity.
Qed.

Lemma K_node t i : K t i (IZR i) = entry t i.
Proof. unfold K. ring. Qed.
Lemma K_next t i : K t i (IZR (i + 1)) = entry t (i + 1).
Proof. unfold K, Kb. rewrite plus_IZR. ring. Qed.
Lemma Kd_node t i : Kd t i (IZR i) = Kc t i.
Proof. unfold Kd. ring. Qed.
Lemma Kd_next t i : Kd t i (IZR (i + 1)) = Kc t (i + 1).
Proof.
  unfold Kd, Kb, Ka, Kc. rewrite plus_IZR.
  replace (i + 1 + 1)%Z with (i + 2)%Z by ring. replace (i + 1 - 1)%Z with i by ring. field.
Qed.

Lemma K_deriv t i x : derivable_pt_lim (K t i) x (Kd t i x).
Proof.
  intros eps He. set (u := x - IZR i). set (a := Ka t i). set (b := Kb t i). set (c := Kc t i).
  assert (P : forall h, h <> 0 -> (K t i (x + h) - K t i x) / h - Kd t i x = h * (b + 3 * u * a + h * a)).
  { intros h Hh. unfold K, Kd. fold a b c. replace (x + h - IZR i) with (u + h) by (unfold u; ring). fold u. field. assumption. }
  set (B := Rabs (b + 3 * u * a) + Rabs a + 1).
  assert (HB : 0 < B) by (unfold B; pose proof (Rabs_pos (b + 3 * u * a)); pose proof (Rabs_pos a); lra).
  assert (Hd : 0 < Rmin 1 (eps / B)) by (apply Rmin_glb_lt; [lra|apply Rdiv_lt_0_compat; assumption]).
  exists (mkposreal _ Hd). cbn. intros h Nh Lh. rewrite P by assumption. rewrite Rabs_mult.
  assert (L1 : Rabs h < 1) by (eapply Rlt_le_trans; [exact Lh|apply Rmin_l]).
  assert (L2 : Rabs h < eps / B) by (eapply Rlt_le_trans; [exact Lh|apply Rmin_r]).
  apply Rle_lt_trans with (Rabs h * B).
  - apply Rmult_le_compat_l; [apply Rabs_pos|]. eapply Rle_trans; [apply Rabs_triang|]. rewrite Rabs_mult. unfold B.
    pose proof (Rabs_pos a). nra.
  - replace eps with (eps / B * B) by (field; lra). apply Rmult_lt_compat_r; assumption.
Qed.
Lemma Kd_cont t i x : continuity_pt (Kd t i) x.
Proof. unfold Kd. reg. Qed.

(** Gluing. *)
Lemma glue_deriv f p q x l d : 0 < d -> (forall u, x - d < u <= x -> f u = p u) -> (forall u, x <= u < x + d -> f u = q u) ->
  derivable_pt_lim p x l -> derivable_pt_lim q x l -> derivable_pt_lim f x l.
Proof.
  intros Hd Ep Eq Dp Dq eps He. destruct (Dp eps He) as (d1 & H1). destruct (Dq eps He) as (d2 & H2).
  assert (Hm : 0 < Rmin d (Rmin d1 d2)).
  { apply Rmin_glb_lt; [assumption|]. apply Rmin_glb_lt; [apply (cond_pos d1)|apply (cond_pos d2)]. }
  exists (mkposreal _ Hm). cbn. intros h Nh Lh.
  assert (L0 : Rabs h < d) by (eapply Rlt_le_trans; [exact Lh|apply Rmin_l]).
  assert (L1 : Rabs h < d1) by (eapply Rlt_le_trans; [exact Lh|eapply Rle_trans; [apply Rmin_r|apply Rmin_l]]).
  assert (L2 : Rabs h < d2) by (eapply Rlt_le_trans; [exact Lh|eapply Rle_trans; [apply Rmin_r|apply Rmin_r]]).
  apply Rabs_def2 in L0. destruct (Rlt_le_dec h 0).
  - rewrite (Ep (x + h)), (Ep x) by lra. apply H1; assumption.
  - rewrite (Eq (x + h)), (Eq x) by lra. apply H2; assumption.
Qed.
Lemma glue_cont f p q x d : 0 < d -> (forall u, x - d < u <= x -> f u = p u) -> (forall u, x <= u < x + d -> f u = q u) ->
  continuity_pt p x -> continuity_pt q x -> continuity_pt f x.
Proof.
  intros Hd Ep Eq Dp Dq eps He. destruct (Dp eps He) as (d1 & Hd1 & H1). destruct (Dq eps He) as (d2 & Hd2 & H2).
  exists (Rmin d (Rmin d1 d2)). split.
  { apply Rmin_glb_lt; [assumption|]. apply Rmin_glb_lt; assumption. }
  intros u [Du Lu]. cbn in *. unfold R_dist in *.
  assert (L0 : Rabs (u - x) < d) by (eapply Rlt_le_trans; [exact Lu|apply Rmin_l]).
  assert (L1 : Rabs (u - x) < d1) by (eapply Rlt_le_trans; [exact Lu|eapply Rle_trans; [apply Rmin_r|apply Rmin_l]]).
  assert (L2 : Rabs (u - x) < d2) by (eapply Rlt_le_trans; [exact Lu|eapply Rle_trans; [apply Rmin_r|apply Rmin_r]]).
  apply Rabs_def2 in L0. destruct (Rlt_le_dec u x).
  - rewrite (Ep u), (Ep x) by lra. apply H1. split; assumption.
  - rewrite (Eq u), (Eq x) by lra. apply H2. split; assumption.
Qed.

Lemma pieces t x : let m := Z.of_nat (length t) in (4 <= m)%Z ->
  exists d i j, 0 < d <= 1 /\ (forall u, x - d < u < x -> clamp m (Int_part u) = i) /\
    (forall u, x <= u < x + d -> clamp m (Int_part u) = j) /\ K t i x = K t j x /\ Kd t i x = Kd t j x.
Proof.
  intros m Hm. pose proof (IntP x) as I. set (z := Int_part x) in *.
  destruct (Req_EM_T x (IZR z)) as [Ex|Nx].
  - exists 1, (clamp m (z - 1)), (clamp m z). split; [lra|]. split.
    { intros u Hu. rewrite (IntP_unique u (z - 1)); [reflexivity|]. rewrite minus_IZR. lra. }
    split. { intros u Hu. rewrite (IntP_unique u z); [reflexivity|]. lra. }
    unfold clamp. destruct (Z.ltb_spec (z - 1) 1), (Z.ltb_spec z 1); try lia; [tauto| |].
    + assert (z = 1)%Z by lia. destruct (Z.ltb_spec (m - 3) z); [|rewrite H1; tauto]. replace (m - 3)%Z with 1%Z by lia. tauto.
    + destruct (Z.ltb_spec (m - 3) (z - 1)), (Z.ltb_spec (m - 3) z); try lia; [tauto| |].
      * replace (m - 3)%Z with (z - 1)%Z by lia. tauto.
      * clearbody z. assert (Hz : z = (z - 1 + 1)%Z) by ring. set (w := (z - 1)%Z) in *. clearbody w. subst z. rewrite Ex. rewrite K_next, K_node, Kd_next, Kd_node. tauto.
  - exists (Rmin (x - IZR z) (IZR z + 1 - x)), (clamp m z), (clamp m z). split.
    { split; [apply Rmin_glb_lt; lra|]. eapply Rle_trans; [apply Rmin_l|]. lra. }
    pose proof (Rmin_l (x - IZR z) (IZR z + 1 - x)). pose proof (Rmin_r (x - IZR z) (IZR z + 1 - x)).
    split; [|split; [|tauto]]; intros u Hu; rewrite (IntP_unique u z); auto; lra.
Qed.

(** Where the interpolated value and slope come from. *)
Lemma smooth t f : let m := Z.of_nat (length t) in (4 <= m)%Z ->
  (forall x, - 2147483648 <= x < 2147483648 -> f x = K t (clamp m (Int_part x)) x) ->
  let g x := Kd t (clamp m (Int_part x)) x in
  forall x, - 2147483647 <= x <= 2147483647 -> derivable_pt_lim f x (g x) /\ continuity_pt g x.
Proof.
  intros m Hm Hf g x Hx. destruct (pieces t x Hm) as (d & i & j & Hd & Hi & Hj & E1 & E2).
  assert (G : g x = Kd t j x) by (unfold g; rewrite Hj by lra; reflexivity).
  split.
  - apply (glue_deriv f (K t i) (K t j) x (g x) (d / 2)); [lra| | | |].
    + intros u Hu. destruct (Req_EM_T u x) as [->|]; [rewrite Hf, Hj, E1 by lra; reflexivity|]. rewrite Hf, Hi by lra. reflexivity.
    + intros u Hu. rewrite Hf, Hj by lra. reflexivity.
    + rewrite G, <- E2. apply K_deriv.
    + rewrite G. apply K_deriv.
  - apply (glue_cont g (Kd t i) (Kd t j) x d); [lra| | |apply Kd_cont|apply Kd_cont].
    + intros u Hu. unfold g. destruct (Req_EM_T u x) as [->|]; [rewrite Hj, E2 by lra; reflexivity|]. rewrite Hi by lra. reflexivity.
    + intros u Hu. unfold g. rewrite Hj by lra. reflexivity.
Qed.
