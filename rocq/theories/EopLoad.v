(** Loading a file of Earth orientation parameters. *)
From Coq Require Import QArith Qabs Qreals Reals Lra Lia String.
From Verif Require Import RBase CBase CStr TstrModel TstrNum TstrSpec DtSpec DtProofs SplineModel RotModel EopModel EopSpec EopProofs.
From Verif Require MpcfModel SofModel.
Import ListNotations.
Local Open Scope list_scope.
Local Open Scope Z_scope.

Definition cell (data : list R) (size : Z) (c j : nat) : R := nth (Z.to_nat (Z.of_nat j + size * Z.of_nat c)) data 0%R.
Lemma arcsec_same : arcsec_to_radians = arcsec.
Proof. unfold arcsec_to_radians, arcsec. field. Qed.
Lemma marcsec_same x : (x * marcsec_to_radians = x / 1000 * arcsec)%R.
Proof. unfold marcsec_to_radians, arcsec. field. Qed.

Section Load.
Variables (days : list day) (tai : nat -> Z) (m : nat) (size : Z) (initial : Q).
Hypothesis LEAP : leap_seconds days tai.
Hypothesis NUT : nutation_days days m.
Hypothesis INIT : (initial == (32184 # 1000) + inject_Z (tai 0%nat))%Q.

(** the columns are right up to day i *)
Definition good (i : nat) (data : list R) : Prop :=
  List.length data = Z.to_nat (5 * size) /\
  forall c j, (c < 5)%nat -> (j < i)%nat -> ((3 <= c)%nat -> (j < m)%nat) -> cell data size c j = on_day days tai c j.

Lemma leap_floor i d d' : nth_error days i = Some d -> nth_error days (S i) = Some d' ->
  Int_part (on_day days tai 2 i - (- Q2R (ut1_utc d') + Q2R initial) + 1 / 2) = tai (S i) - tai 0%nat.
Proof.
  intros E E'. pose proof (LEAP i d d' E E') as L. apply Qabs_Qlt_condition in L. destruct L as (L1 & L2).
  apply Qlt_Rlt in L1, L2. rewrite (Qeq_eqR _ _ INIT). unfold on_day. rewrite E.
  rewrite ?Q2R_minus, ?Q2R_plus, ?Q2R_opp, ?Q2R_Z in *. replace (Q2R (1 # 2)) with (1 / 2)%R in * by (unfold Q2R; cbn; lra).
  apply IntPart. rewrite minus_IZR. lra.
Qed.

Lemma store_ok i d line r data nut : nth_error days i = Some d -> day_line d line -> Z.of_nat i < size -> good i data ->
  exists data', store_line size (Z.of_nat i) initial (line ++ 0 :: r) data nut =
    Ret (data', nut + if nutation d then 1 else 0) /\ good (S i) data'.
Proof.
  intros E DL B (GL & GC). destruct (line_facts d line r DL) as (_ & _ & X & Y & U & _ & _ & _ & N).
  set (buff := line ++ 0 :: r) in *. unfold store_line. rewrite X. cbn [obind].
  destruct (put_ok data (Z.of_nat i) (Q2R (pole_x d) * arcsec_to_radians)) as (d1 & -> & L1 & C1); [lia|]. cbn [obind].
  rewrite Y. cbn [obind].
  destruct (put_ok d1 (Z.of_nat i + size) (Q2R (pole_y d) * arcsec_to_radians)) as (d2 & -> & L2 & C2); [lia|]. cbn [obind].
  rewrite U. cbn [obind]. set (v := (- Q2R (ut1_utc d) + Q2R initial)%R).
  assert (V : (if Z.of_nat i =? 0 then Ret v else do previous <- rd d2 (Z.of_nat i + size + size - 1); Ret (v + IZR (Int_part (previous - v + 1 / 2)))%R) = Ret (on_day days tai 2 i)).
  { destruct i as [|i].
    - cbn [Z.of_nat Z.eqb]. f_equal. unfold v, on_day. rewrite E. rewrite (Qeq_eqR _ _ INIT), Q2R_minus. lra.
    - rewrite (proj2 (Z.eqb_neq _ _)) by lia. rewrite rd_ok by lia. cbn [obind]. rewrite C2 by lia. rewrite (proj2 (Z.eqb_neq _ _)) by lia.
      rewrite C1 by lia. rewrite (proj2 (Z.eqb_neq _ _)) by lia.
      replace (nth (Z.to_nat (Z.of_nat (S i) + size + size - 1)) data 0%R) with (cell data size 2 i) by (unfold cell; f_equal; f_equal; lia).
      rewrite GC by lia. destruct (nth_error days i) as [dp|] eqn:Ep; [|apply nth_error_None in Ep; assert (Hn : nth_error days (S i) <> None) by congruence; apply nth_error_Some in Hn; lia].
      unfold v. rewrite (leap_floor i dp d Ep E). f_equal. unfold on_day at 1. rewrite E, minus_IZR, (Qeq_eqR _ _ INIT), Q2R_minus, !Q2R_plus, !Q2R_Z. lra. }
  cbv zeta. rewrite V. cbn [obind].
  destruct (put_ok d2 (Z.of_nat i + size + size) (on_day days tai 2 i)) as (d3 & -> & L3 & C3); [lia|]. cbn [obind].
  assert (G3 : forall c j, (c < 3)%nat -> (j < S i)%nat -> cell d3 size c j = on_day days tai c j).
  { intros c j Hc Hj. unfold cell. rewrite C3 by lia. destruct (Z.eqb_spec (Z.of_nat j + size * Z.of_nat c) (Z.of_nat i + size + size)) as [Eq|Ne].
    - assert (Hi : j = i /\ c = 2%nat) by (destruct c as [|[|[|]]]; lia). destruct Hi as (-> & ->). reflexivity.
    - rewrite C2 by lia. destruct (Z.eqb_spec (Z.of_nat j + size * Z.of_nat c) (Z.of_nat i + size)) as [Eq|Ne2].
      + assert (Hi : j = i /\ c = 1%nat) by (destruct c as [|[|[|]]]; lia). destruct Hi as (-> & ->). unfold on_day. rewrite E, arcsec_same. reflexivity.
      + rewrite C1 by lia. destruct (Z.eqb_spec (Z.of_nat j + size * Z.of_nat c) (Z.of_nat i)) as [Eq|Ne3].
        * assert (Hi : j = i /\ c = 0%nat) by (destruct c as [|[|[|]]]; lia). destruct Hi as (-> & ->). unfold on_day. rewrite E, arcsec_same. reflexivity.
        * apply GC; try lia. assert (j <> i) by (intros ->; destruct c as [|[|[|]]]; lia). lia. }
  assert (O3 : forall c j, (3 <= c)%nat -> (c < 5)%nat -> (j < i)%nat -> (j < m)%nat -> cell d3 size c j = on_day days tai c j).
  { intros c j Hc Hc5 Hj Hm. unfold cell. rewrite C3, C2, C1 by lia. rewrite !(proj2 (Z.eqb_neq _ _)) by nia. apply GC; lia. }
  destruct NUT as (_ & NU). specialize (NU i d E).
  destruct (nutation d) as [(psi, eps)|] eqn:En.
  - destruct N as (N1 & N2 & N3). rewrite (proj2 (Z.eqb_neq _ _) N1). cbn [negb]. rewrite N2. cbn [obind].
    destruct (put_ok d3 (Z.of_nat i + size + size + size) (Q2R psi * marcsec_to_radians)) as (d4 & -> & L4 & C4); [lia|]. cbn [obind].
    rewrite N3. cbn [obind].
    destruct (put_ok d4 (Z.of_nat i + size + size + size + size) (Q2R eps * marcsec_to_radians)) as (d5 & -> & L5 & C5); [lia|]. cbn [obind].
    eexists. split; [reflexivity|]. split; [lia|]. intros c j Hc Hj Hm. unfold cell. rewrite C5 by lia.
    destruct (Z.eqb_spec (Z.of_nat j + size * Z.of_nat c) (Z.of_nat i + size + size + size + size)) as [Eq|Ne].
    + assert (Hi : j = i /\ c = 4%nat) by (destruct c as [|[|[|[|[|]]]]]; lia). destruct Hi as (-> & ->). unfold on_day. rewrite E, En, marcsec_same. reflexivity.
    + rewrite C4 by lia. destruct (Z.eqb_spec (Z.of_nat j + size * Z.of_nat c) (Z.of_nat i + size + size + size)) as [Eq|Ne2].
      * assert (Hi : j = i /\ c = 3%nat) by (destruct c as [|[|[|[|[|]]]]]; lia). destruct Hi as (-> & ->). unfold on_day. rewrite E, En, marcsec_same. reflexivity.
      * destruct (Nat.lt_ge_cases c 3) as [H3|H3]; [now apply G3|]. assert (j <> i) by (intros ->; destruct c as [|[|[|[|[|]]]]]; lia). apply O3; lia || (apply Hm; lia).
  - rewrite N. cbn [Z.eqb Pos.eqb negb]. eexists. split; [rewrite Z.add_0_r; reflexivity|]. split; [lia|]. intros c j Hc Hj Hm.
    destruct (Nat.lt_ge_cases c 3) as [H3|H3]; [now apply G3|]. assert (j <> i) by (intros ->; assert (i < m)%nat by (apply Hm; lia); apply NU in H; congruence). apply O3; lia || (apply Hm; lia).
Qed.

(** ---- the loop over the lines ---- *)
Fixpoint nut_count (l : list day) : Z := match l with [] => 0 | d :: r => (if nutation d then 1 else 0) + nut_count r end.
Definition later (old new : option Z) : option Z := match new with Some x => Some x | None => old end.
Lemma lines_ok suf : forall pre lines k fd tail b data nut date, days = pre ++ suf -> Forall2 day_line suf lines ->
  Z.of_nat (List.length days) <= size -> good (List.length pre) data ->
  exists data' b',
    read_lines (List.length suf + k) fd size (Z.of_nat (List.length pre)) initial (concat lines ++ tail) b data nut date =
    read_lines k fd size (Z.of_nat (List.length days)) initial tail b' data' (nut + nut_count suf) (if fd then later date (last_observed suf) else date) /\
    good (List.length days) data' /\
    (suf = [] -> b' = b) /\ (forall d, last (map Some suf) None = Some d -> exists line r, day_line d line /\ b' = line ++ 0 :: r).
Proof.
  induction suf as [|d suf IH]; intros pre lines k fd tail b data nut date E F B G.
  - inversion F; subst lines. rewrite app_nil_r in E. subst pre. exists data, b. cbn [List.length Nat.add concat app nut_count last_observed later].
    rewrite Z.add_0_r. split; [now destruct fd, date|]. split; [assumption|]. split; [reflexivity|]. intros d H. discriminate.
  - inversion F as [|d' line suf' lines' DL F' Eq1 Eq2]; subst. cbn [List.length Nat.add concat]. rewrite <- app_assoc.
    cbn [read_lines]. rewrite fgets_line by apply DL. destruct (line_facts d line (skipn 189 b) DL) as (V & FL & _ & _ & _ & _ & AI & _ & _).
    rewrite V, FL. replace (negb ((if is_observed d then 73 else 80) =? 32) && true) with true by (destruct (is_observed d); reflexivity). cbv iota.
    assert (Nd : nth_error days (List.length pre) = Some d) by (rewrite E, nth_error_app2, Nat.sub_diag by lia; reflexivity).
    assert (Lp : (List.length pre < List.length days)%nat) by (rewrite E, app_length; cbn; lia).
    destruct (store_ok _ d line (skipn 189 b) data nut Nd DL ltac:(lia) G) as (data1 & -> & G1). cbn [obind].
    set (b1 := line ++ 0 :: skipn 189 b) in *.
    assert (D : (if fd && ((if is_observed d then 73 else 80) =? 73) then do n <- SofModel.atoi (text b1 7); Ret (Some n) else Ret date)
                = Ret (if fd then later date (if is_observed d then Some (mjd d) else None) else date)).
    { destruct fd, (is_observed d); cbn [andb Z.eqb Pos.eqb later]; rewrite ?AI; cbn [obind]; try reflexivity; now destruct date. }
    rewrite D. cbn [obind].
    replace (Z.of_nat (List.length pre) + 1) with (Z.of_nat (List.length (pre ++ [d]))) by (rewrite app_length; cbn; lia).
    destruct (IH (pre ++ [d]) lines' k fd tail b1 data1 (nut + (if nutation d then 1 else 0)) (if fd then later date (if is_observed d then Some (mjd d) else None) else date)) as (data' & b' & R & G' & S0 & S1).
    { rewrite <- app_assoc. exact E. } { assumption. } { assumption. }
    { replace (List.length (pre ++ [d])) with (S (List.length pre)) by (rewrite app_length; cbn; lia). exact G1. }
    exists data', b'. split.
    { rewrite R. f_equal; [cbn [nut_count]; lia|]. destruct fd; [|reflexivity]. cbn [last_observed]. destruct (last_observed suf); [reflexivity|]. now destruct (is_observed d), date. }
    split; [assumption|]. split; [discriminate|]. intros dl Hl. destruct suf as [|d2 suf].
    + cbn in Hl. injection Hl as <-. exists line, (skipn 189 b). split; [assumption|]. now apply S0.
    + apply S1. exact Hl.
Qed.
Lemma nut_count_days : nut_count days = Z.of_nat m.
Proof.
  destruct NUT as (M & H). clear - M H. revert m M H. induction days as [|d l IH]; intros k M H.
  - cbn in M. replace k with 0%nat by lia. reflexivity.
  - cbn [nut_count]. pose proof (H 0%nat d eq_refl) as H0. destruct k as [|k].
    + rewrite (IH 0%nat); [|lia|]. { destruct (nutation d); [exfalso; assert (0 < 0)%nat by (apply H0; discriminate); lia|reflexivity]. }
      intros j e Ej. specialize (H (S j) e Ej). split; intro A; [apply H in A; lia|lia].
    + rewrite (IH k); [|cbn in M; lia|]. { destruct (nutation d); [lia|exfalso; apply (proj2 H0); [lia|reflexivity]]. }
      intros j e Ej. specialize (H (S j) e Ej). rewrite H. lia.
Qed.
End Load.
