(** Proofs of the theorems stated in [PropCon]. *)
From Coq Require Import Lia String.
From Verif Require Import RBase CStr CLemmas ConModel ConSpec.
Open Scope list_scope.
Open Scope Z_scope.

Definition ent (i : Z) : Z * Z * Z := nth (Z.to_nat i) bounds (0, 0, 0).
Definition cov (ra : Z) (e : Z * Z * Z) : bool :=
  ((arc_ra e <=? ra) && (ra <? arc_ra e + arc_len e)) || ((arc_ra e <=? ra + 86400) && (ra + 86400 <? arc_ra e + arc_len e)).
Definition okb (e : Z * Z * Z) : bool :=
  (0 <=? arc_ra e) && (arc_ra e <? 86400) && (0 <? arc_len e) && (arc_len e <=? 65535) && (0 <=? arc_south e) && (arc_south e <=? 87) && (0 <=? fst (fst e)).
Definition apart (e f : Z * Z * Z) : bool :=
  forallb (fun k => (arc_ra e + arc_len e <=? arc_ra f + 86400 * k) || (arc_ra f + 86400 * k + arc_len f <=? arc_ra e)) [-2; -1; 0; 1; 2].
Definition pairb (e f : Z * Z * Z) : bool := (arc_spd f <=? arc_spd e) && (negb (arc_spd e =? arc_spd f) || apart e f).
Fixpoint allpairs (l : list (Z * Z * Z)) : bool :=
  match l with [] => true | e :: r => forallb (pairb e) r && allpairs r end.
Lemma bounds_ok : forallb okb bounds = true. Proof. vm_compute. reflexivity. Qed.
Lemma bounds_pairs : allpairs bounds = true. Proof. vm_compute. reflexivity. Qed.
Lemma bounds_len : Z.of_nat (List.length bounds) = 324. Proof. vm_compute. reflexivity. Qed.
Lemma ent_in i : 0 <= i < 324 -> In (ent i) bounds.
Proof. intros H. apply nth_In. pose proof bounds_len. lia. Qed.
Lemma in_ent e : In e bounds -> exists i, 0 <= i < 324 /\ ent i = e.
Proof. intros H. apply (In_nth _ _ (0, 0, 0)) in H. destruct H as (n & L & E). exists (Z.of_nat n). pose proof bounds_len. split; [lia|]. unfold ent. rewrite Nat2Z.id. assumption. Qed.
Lemma in_ok e : In e bounds -> 0 <= arc_ra e < 86400 /\ 0 < arc_len e <= 65535 /\ 0 <= arc_south e <= 87 /\ 0 <= fst (fst e).
Proof. intros H. pose proof (proj1 (forallb_forall _ _) bounds_ok e H) as B. unfold okb in B. rewrite !andb_true_iff in B. lia. Qed.
Lemma allpairs_nth l : allpairs l = true -> forall i j, (i < j < List.length l)%nat -> pairb (nth i l (0, 0, 0)) (nth j l (0, 0, 0)) = true.
Proof.
  induction l as [|e r IH]; intros A i j H; [cbn in H; lia|]. cbn [allpairs] in A. apply andb_true_iff in A. destruct A as [A B].
  destruct j as [|j]; [lia|]. cbn [List.length] in H. destruct i as [|i]; cbn [nth].
  - apply (proj1 (forallb_forall _ _) A). apply nth_In. lia.
  - apply IH; [assumption|lia].
Qed.
Lemma ent_pair i j : 0 <= i < j -> j < 324 -> pairb (ent i) (ent j) = true.
Proof. intros H L. apply (allpairs_nth _ bounds_pairs). pose proof bounds_len. lia. Qed.
Lemma ent_sorted i j : 0 <= i <= j -> j < 324 -> arc_spd (ent j) <= arc_spd (ent i).
Proof.
  intros H L. destruct (Z.eq_dec i j) as [->|N]; [lia|]. pose proof (ent_pair i j ltac:(lia) L) as P. unfold pairb in P.
  apply andb_true_iff in P. lia.
Qed.
Lemma ent_apart i j : 0 <= i < j -> j < 324 -> arc_spd (ent i) = arc_spd (ent j) -> apart (ent i) (ent j) = true.
Proof.
  intros H L E. pose proof (ent_pair i j H L) as P. unfold pairb in P. apply andb_true_iff in P. destruct P as [_ P].
  rewrite E, Z.eqb_refl in P. assumption.
Qed.
Lemma bget i : 0 <= i < 324 -> nth_ub bounds i = Ret (ent i).
Proof. intros H. apply nth_ub_ok. rewrite bounds_len. assumption. Qed.
Lemma SPD_ok i : 0 <= i < 324 -> SPD i = Ret (arc_spd (ent i)).
Proof. intros H. unfold SPD. rewrite bget by assumption. cbn [obind]. unfold arc_spd. destruct (ent i) as [[p q] r]. rewrite Z.shiftr_div_pow2 by lia. reflexivity. Qed.
Lemma RA_ok i : 0 <= i < 324 -> RA i = Ret (arc_ra (ent i)).
Proof. intros H. unfold RA. rewrite bget by assumption. cbn [obind]. unfold arc_ra. destruct (ent i) as [[p q] r]. change 131071 with (Z.ones 17). rewrite Z.land_ones by lia. reflexivity. Qed.
(** The binary search. *)
Definition good (spd idx s : Z) : Prop :=
  -1 <= idx < 324 /\ (forall i, 0 <= i <= idx -> spd < arc_spd (ent i)) /\ (forall i, idx + s <= i < 324 -> arc_spd (ent i) <= spd).
Fixpoint halving (s : Z) (l : list Z) : Prop := match l with [] => s = 1 | t :: r => s = 2 * t /\ 0 < t /\ halving t r end.
Lemma search_ok l : forall s spd idx, halving s l -> good spd idx s -> exists idx', search l spd idx = Ret idx' /\ good spd idx' 1.
Proof.
  induction l as [|t r IH]; intros s spd idx H G; cbn [search].
  - cbn in H. subst s. exists idx. auto.
  - destruct H as (-> & T0 & H). destruct G as (B & A & C). unfold n_bounds. destruct (Z.ltb_spec (idx + t) 324) as [L|L].
    + rewrite SPD_ok by lia. cbn [obind]. destruct (Z.ltb_spec spd (arc_spd (ent (idx + t)))) as [Q|Q].
      * apply (IH t); [assumption|]. split; [lia|]. split; intros i I.
        -- pose proof (ent_sorted i (idx + t) ltac:(lia) L). lia.
        -- apply C. lia.
      * apply (IH t); [assumption|]. split; [lia|]. split; [assumption|]. intros i I. pose proof (ent_sorted (idx + t) i ltac:(lia) ltac:(lia)). lia.
    + cbn [obind]. apply (IH t); [assumption|]. split; [lia|]. split; [assumption|]. intros i I. lia.
Qed.
Lemma search_all spd : exists idx, search [256; 128; 64; 32; 16; 8; 4; 2; 1] spd (-1) = Ret idx /\ good spd idx 1.
Proof. apply (search_ok _ 512); [cbn; lia|]. split; [lia|]. split; intros; lia. Qed.
Lemma northwards_ok ra : forall n idx, (Z.to_nat (idx + 1) < n)%nat -> -1 <= idx < 324 ->
  exists c, northwards n ra idx (-1) = Ret c /\
  ((exists i, 0 <= i <= idx /\ cov ra (ent i) = true /\ c = arc_south (ent i) /\ forall j, i < j <= idx -> cov ra (ent j) = false) \/
   (c = -1 /\ forall j, 0 <= j <= idx -> cov ra (ent j) = false)).
Proof.
  induction n as [|n IH]; intros idx F B; [lia|]. cbn [northwards]. rewrite Z.eqb_refl. destruct (Z.leb_spec 0 idx) as [I|I]; cbn [andb].
  2:{ exists (-1). split; [reflexivity|]. right. split; [reflexivity|]. intros j J. lia. }
  rewrite RA_ok, bget by lia. cbn [obind]. destruct (ent idx) as [[p q] r] eqn:E.
  replace ((arc_ra (p, q, r) <=? ra) && (ra <? arc_ra (p, q, r) + q) || (arc_ra (p, q, r) <=? ra + 86400) && (ra + 86400 <? arc_ra (p, q, r) + q)) with (cov ra (ent idx)) by (rewrite E; reflexivity).
  destruct (cov ra (ent idx)) eqn:Cv.
  - pose proof (in_ok _ (ent_in idx ltac:(lia))) as K. rewrite E in K. unfold arc_south in K. cbn [snd] in K. destruct n as [|n]; [lia|]. cbn [northwards].
    destruct (Z.eqb_spec r (-1)); [lia|]. rewrite andb_false_r. exists r. split; [reflexivity|]. left. exists idx. split; [lia|]. split; [assumption|].
    split; [rewrite E; reflexivity|]. intros j J. lia.
  - destruct (IH (idx - 1) ltac:(lia) ltac:(lia)) as (c & Ec & Cc). exists c. split; [assumption|]. destruct Cc as [(i & I1 & I2 & I3 & I4)|(Cc & Z0)].
    + left. exists i. split; [lia|]. split; [assumption|]. split; [assumption|]. intros j J. destruct (Z.eq_dec j idx) as [->|N]; [assumption|]. apply I4. lia.
    + right. split; [assumption|]. intros j J. destruct (Z.eq_dec j idx) as [->|N]; [assumption|]. apply Z0. lia.
Qed.
Lemma index_ok ra spd : exists c, constell_index ra spd = Ret c /\ 0 <= c <= 87 /\
  ((exists i, 0 <= i < 324 /\ spd < arc_spd (ent i) /\ cov ra (ent i) = true /\ c = arc_south (ent i) /\
     forall j, 0 <= j < 324 -> spd < arc_spd (ent j) -> cov ra (ent j) = true -> j <= i) \/
   (c = 83 /\ forall j, 0 <= j < 324 -> spd < arc_spd (ent j) -> cov ra (ent j) = false)).
Proof.
  unfold constell_index. destruct (search_all spd) as (idx & -> & (B & A & C)). cbn [obind].
  destruct (northwards_ok ra 400 idx ltac:(lia) B) as (c & -> & Cc). cbn [obind].
  assert (LE : forall j, 0 <= j < 324 -> spd < arc_spd (ent j) -> j <= idx). { intros j J S. destruct (Z_le_gt_dec j idx); [assumption|]. pose proof (C j ltac:(lia)). lia. }
  destruct Cc as [(i & I1 & I2 & I3 & I4)|(Cc & Z0)].
  - pose proof (in_ok _ (ent_in i ltac:(lia))) as K. rewrite <- I3 in K. destruct (Z.eqb_spec c (-1)); [lia|]. exists c. split; [reflexivity|]. split; [lia|].
    left. exists i. split; [lia|]. split; [apply A; assumption|]. split; [assumption|]. split; [assumption|]. intros j J1 J2 J3.
    pose proof (LE j J1 J2). destruct (Z_le_gt_dec j i); [assumption|]. pose proof (I4 j ltac:(lia)). congruence.
  - subst c. cbn [Z.eqb]. exists 83. split; [reflexivity|]. split; [lia|]. right. split; [reflexivity|]. intros j J1 J2. apply Z0. pose proof (LE j J1 J2). lia.
Qed.
(** From degrees to whole seconds and arcminutes. *)
Lemma int_le x n : (IZR n <= x)%R <-> n <= Int_part x.
Proof.
  pose proof (base_Int_part x) as [A B]. split; intros H.
  - assert (IZR n < IZR (Int_part x + 1))%R by (rewrite plus_IZR; lra). apply lt_IZR in H0. lia.
  - apply IZR_le in H. lra.
Qed.
Lemma int_lt x n : (x < IZR n)%R <-> Int_part x < n.
Proof.
  pose proof (int_le x n). split; intros K.
  - apply Znot_ge_lt. intros G. apply Z.ge_le in G. apply H in G. lra.
  - apply Rnot_le_lt. intros G. apply H in G. lia.
Qed.
Lemma trunc_nonneg x : (0 <= x)%R -> trunc x = Int_part x.
Proof. intros H. unfold trunc. destruct (Rltb_spec x 0); [lra|reflexivity]. Qed.
Lemma Int_part_IZR z : Int_part (IZR z) = z.
Proof.
  pose proof (int_le (IZR z) z) as [A _]. pose proof (int_lt (IZR z) (z + 1)) as [B _]. assert (z <= Int_part (IZR z)) by (apply A; lra).
  assert (Int_part (IZR z) < z + 1) by (apply B; rewrite plus_IZR; lra). lia.
Qed.
Lemma trunc_IZR z : trunc (IZR z) = z.
Proof. unfold trunc. destruct (Rltb_spec (IZR z) 0); [rewrite <- opp_IZR|]; rewrite Int_part_IZR; lia. Qed.
Lemma cov_spec s e : 0 <= arc_ra e < 86400 -> 0 < arc_len e <= 65535 ->
  cov (s mod 86400) e = true <-> exists k, arc_ra e <= s + 86400 * k < arc_ra e + arc_len e.
Proof.
  intros A B. unfold cov. pose proof (Z.mod_pos_bound s 86400 ltac:(lia)). pose proof (Z.div_mod s 86400 ltac:(lia)).
  rewrite orb_true_iff, !andb_true_iff, !Z.leb_le, !Z.ltb_lt. split.
  - intros [K|K]; [exists (- (s / 86400))|exists (1 - s / 86400)]; lia.
  - intros (k & K). assert (k + s / 86400 = 0 \/ k + s / 86400 = 1) by lia. destruct H1; [left|right]; lia.
Qed.
Lemma below_int ra dec e : In e bounds -> (-90 <= dec)%R ->
  below ra dec e <-> Int_part ((dec + 90) * 60) < arc_spd e /\ cov (Int_part (ra * 240) mod 86400) e = true.
Proof.
  intros I D. pose proof (in_ok e I) as (K1 & K2 & _). rewrite cov_spec by assumption. unfold below. rewrite <- int_lt. split; intros [A (k & B)].
  - split; [lra|]. exists k. split.
    + assert (arc_ra e - 86400 * k <= Int_part (ra * 240)); [|lia]. apply int_le. rewrite minus_IZR, mult_IZR. lra.
    + assert (Int_part (ra * 240) < arc_ra e + arc_len e - 86400 * k); [|lia]. apply int_lt. rewrite minus_IZR, mult_IZR. lra.
  - split; [lra|]. exists k. destruct B as [B1 B2]. split.
    + assert (Q : (IZR (arc_ra e - 86400 * k) <= ra * 240)%R) by (apply int_le; lia). rewrite minus_IZR, mult_IZR in Q. lra.
    + assert (Q : (ra * 240 < IZR (arc_ra e + arc_len e - 86400 * k))%R) by (apply int_lt; lia). rewrite minus_IZR, mult_IZR in Q. lra.
Qed.
Definition usable (ra dec : R) : Prop :=
  (ra <= 8944248 /\ -90 <= dec <= 90)%R /\ ((0 <= ra)%R \/ (-3600 <= ra)%R /\ exists s : Z, ra = (IZR s / 240)%R).
Lemma start_ok ra dec : usable ra dec -> exists c, 
  (forall name, constell_from_ra_dec ra dec name = match name with None => Ret (c, None) | Some b => do b <- copy 3 b 0 constell_names (3 * c); do b <- wr b 3 0; Ret (c, Some b) end) /\
  constell_index (Int_part (ra * 240) mod 86400) (Int_part ((dec + 90) * 60)) = Ret c.
Proof.
  intros [(R1 & D) R2].
  assert (T : trunc (ra * 240) = Int_part (ra * 240)).
  { destruct R2 as [R2|(R2 & s & ->)]; [apply trunc_nonneg; lra|]. replace (IZR s / 240 * 240)%R with (IZR s) by field. rewrite trunc_IZR, Int_part_IZR. reflexivity. }
  assert (T2 : trunc ((dec + 90) * 60) = Int_part ((dec + 90) * 60)) by (apply trunc_nonneg; lra).
  assert (B1 : -864000 <= Int_part (ra * 240)) by (apply int_le; destruct R2 as [R2|[R2 _]]; lra).
  assert (B2 : Int_part (ra * 240) < 2146619521) by (apply int_lt; lra).
  assert (B3 : 0 <= Int_part ((dec + 90) * 60)) by (apply int_le; lra).
  assert (B4 : Int_part ((dec + 90) * 60) < 10801) by (apply int_lt; lra).
  destruct (index_ok (Int_part (ra * 240) mod 86400) (Int_part ((dec + 90) * 60))) as (c & Ec & _). exists c. split; [|assumption]. intros name.
  unfold constell_from_ra_dec, cvt. rewrite T, T2. rewrite chk_ok by (unfold fits; lia). cbn [obind].
  assert (M : Z.rem (Int_part (ra * 240) + 864000) 86400 = Int_part (ra * 240) mod 86400).
  { rewrite Z.rem_mod_nonneg by lia. replace (Int_part (ra * 240) + 864000) with (Int_part (ra * 240) + 10 * 86400) by ring. apply Z_mod_plus_full. }
  rewrite ev_val. 2:{ cbn [safe val]. unfold fits, IMAX. rewrite M. pose proof (Z.mod_pos_bound (Int_part (ra * 240)) 86400 ltac:(lia)).
    repeat split; try lia; pose proof (Z.quot_pos (Int_part (ra * 240) + 864000) 86400 ltac:(lia) ltac:(lia)); pose proof (Z.quot_le_upper_bound (Int_part (ra * 240) + 864000) 86400 24856 ltac:(lia) ltac:(lia)); lia. }
  cbn [obind val]. rewrite M. rewrite chk_ok by (unfold fits; lia). cbn [obind]. rewrite Ec. cbn [obind]. reflexivity.
Qed.
Lemma con_ok ra dec : usable ra dec -> exists c, constell_from_ra_dec ra dec None = Ret (c, None) /\ 0 <= c <= 87 /\ in_constellation ra dec c.
Proof.
  intros U. destruct (start_ok ra dec U) as (c & E & Ec). exists c. split; [apply (E None)|].
  assert (D : (-90 <= dec)%R) by (destruct U as [U _]; lra).
  destruct (index_ok (Int_part (ra * 240) mod 86400) (Int_part ((dec + 90) * 60))) as (c' & Ec' & B & S). rewrite Ec in Ec'. inversion Ec'. subst c'.
  split; [assumption|]. destruct S as [(i & I1 & I2 & I3 & I4 & I5)|(-> & N)].
  - left. exists (ent i). split; [apply ent_in; assumption|]. split; [apply below_int; [apply ent_in; assumption|assumption|auto]|]. split; [auto|].
    intros e' Ie Be. destruct (in_ent e' Ie) as (j & J & <-). apply below_int in Be; [|assumption|assumption]. destruct Be as [Be1 Be2].
    apply ent_sorted; [|lia]. pose proof (I5 j J Be1 Be2). lia.
  - right. split; [|reflexivity]. intros e Ie Be. destruct (in_ent e Ie) as (j & J & <-). apply below_int in Be; [|assumption|assumption]. destruct Be as [Be1 Be2].
    rewrite (N j J Be1) in Be2. discriminate.
Qed.
Lemma apart_sym_no e f : 0 <= arc_ra e < 86400 -> 0 < arc_len e <= 65535 -> 0 <= arc_ra f < 86400 -> 0 < arc_len f <= 65535 -> apart e f = true ->
  forall s k l, arc_ra e <= s + 86400 * k < arc_ra e + arc_len e -> arc_ra f <= s + 86400 * l < arc_ra f + arc_len f -> False.
Proof.
  intros A B C D P s k l H1 H2. unfold apart in P. cbn [forallb] in P. rewrite !andb_true_iff, !orb_true_iff, !Z.leb_le in P.
  assert (-2 <= k - l <= 2) by lia.
  assert (k - l = -2 \/ k - l = -1 \/ k - l = 0 \/ k - l = 1 \/ k - l = 2) as Q by lia.
  destruct P as (P1 & P2 & P3 & P4 & P5 & _). lia.
Qed.
Lemma below_unique ra dec e f : In e bounds -> In f bounds -> below ra dec e -> below ra dec f -> arc_spd e = arc_spd f -> e = f.
Proof.
  intros Ie If [_ (k & Be)] [_ (l & Bf)] S. destruct (in_ent e Ie) as (i & I & <-). destruct (in_ent f If) as (j & J & <-).
  pose proof (in_ok _ Ie) as (A1 & A2 & _). pose proof (in_ok _ If) as (A3 & A4 & _).
  set (s := Int_part (ra * 240)).
  assert (Q : forall m k, (IZR (arc_ra (ent m)) / 240 <= ra + 360 * IZR k < IZR (arc_ra (ent m) + arc_len (ent m)) / 240)%R -> arc_ra (ent m) <= s + 86400 * k < arc_ra (ent m) + arc_len (ent m)).
  { intros m k0 [B1 B2]. split.
    - assert (arc_ra (ent m) - 86400 * k0 <= s); [|lia]. apply int_le. rewrite minus_IZR, mult_IZR. lra.
    - assert (s < arc_ra (ent m) + arc_len (ent m) - 86400 * k0); [|lia]. apply int_lt. rewrite minus_IZR, mult_IZR. lra. }
  apply Q in Be. apply Q in Bf. destruct (Z.lt_trichotomy i j) as [L|[->|L]]; [|reflexivity|].
  - exfalso. eapply (apart_sym_no (ent i) (ent j)); try eassumption. apply ent_apart; [lia|lia|assumption].
  - exfalso. eapply (apart_sym_no (ent j) (ent i)); try eassumption. apply ent_apart; [lia|lia|auto].
Qed.
Lemma in_constellation_unique ra dec c c' : in_constellation ra dec c -> in_constellation ra dec c' -> c = c'.
Proof.
  intros [(e & Ie & Be & <- & Me)|(N & ->)] [(f & If & Bf & <- & Mf)|(N' & ->)].
  - f_equal. apply (below_unique ra dec); try assumption. pose proof (Me f If Bf). pose proof (Mf e Ie Be). lia.
  - exfalso. apply (N' e Ie Be).
  - exfalso. apply (N f If Bf).
  - reflexivity.
Qed.
Lemma below_turn ra dec e n : below ra dec e -> below (ra + 360 * IZR n) dec e.
Proof. intros [A (k & B)]. split; [assumption|]. exists (k - n). rewrite minus_IZR. lra. Qed.
Lemma in_constellation_turn ra dec c n : in_constellation ra dec c -> in_constellation (ra + 360 * IZR n) dec c.
Proof.
  assert (Q : forall e, below (ra + 360 * IZR n) dec e -> below ra dec e).
  { intros e B. apply (below_turn _ _ _ (- n)) in B. rewrite opp_IZR in B. replace (ra + 360 * IZR n + 360 * - IZR n)%R with ra in B by ring. assumption. }
  intros [(e & Ie & Be & S & Me)|(N & ->)].
  - left. exists e. split; [assumption|]. split; [apply below_turn; assumption|]. split; [assumption|]. auto.
  - right. split; [|reflexivity]. intros e Ie Be. apply (N e Ie). auto.
Qed.

Lemma C38_constellation_proof :
  forall ra dec, (0 <= ra <= 8944248)%R -> (-90 <= dec <= 90)%R ->
  exists c, constell_from_ra_dec ra dec None = Ret (c, None) /\ 0 <= c <= 87 /\ in_constellation ra dec c.
Proof.
  intros ra dec R D. apply con_ok. split; [lra|]. left. lra.
Qed.

Lemma C38_one_proof :
  forall ra dec, (-90 <= dec <= 90)%R -> exists c, in_constellation ra dec c /\ forall c', in_constellation ra dec c' -> c' = c.
Proof.
  intros ra dec D. set (n := Int_part (ra / 360)). pose proof (base_Int_part (ra / 360)) as [B1 B2]. fold n in B1, B2.
  destruct (con_ok (ra + 360 * IZR (- n)) dec) as (c & _ & _ & C). { rewrite opp_IZR. split; [lra|]. left. lra. }
  exists c. apply (in_constellation_turn _ _ _ n) in C. rewrite opp_IZR in C. replace (ra + 360 * - IZR n + 360 * IZR n)%R with ra in C by ring.
  split; [assumption|]. intros c' C'. eapply in_constellation_unique; eassumption.
Qed.

Lemma C38_turns_proof :
  forall ra dec n, (0 <= ra <= 8944248)%R -> (0 <= ra + 360 * IZR n <= 8944248)%R -> (-90 <= dec <= 90)%R ->
  constell_from_ra_dec (ra + 360 * IZR n) dec None = constell_from_ra_dec ra dec None.
Proof.
  intros ra dec n R R' D. destruct (con_ok ra dec) as (c & E & _ & C); [split; [lra|left; lra]|].
  destruct (con_ok (ra + 360 * IZR n) dec) as (c' & E' & _ & C'); [split; [lra|left; lra]|]. rewrite E, E'. repeat f_equal.
  apply (in_constellation_unique (ra + 360 * IZR n) dec); [assumption|]. apply in_constellation_turn. assumption.
Qed.

Lemma C38_negative_proof :
  forall s dec, -864000 <= s <= 0 -> (-90 <= dec <= 90)%R ->
  exists c, constell_from_ra_dec (IZR s / 240) dec None = Ret (c, None) /\ in_constellation (IZR s / 240) dec c.
Proof.
  intros s dec S D. assert (-864000 <= IZR s <= 0)%R by (split; apply IZR_le; lia).
  destruct (con_ok (IZR s / 240) dec) as (c & E & _ & C); [split; [lra|right; split; [lra|exists s; reflexivity]]|]. eauto.
Qed.

Lemma C38_negative_refuted_proof :
  ~ (forall ra dec, (-3600 <= ra <= 0)%R -> (-90 <= dec <= 90)%R ->
     exists c, constell_from_ra_dec ra dec None = Ret (c, None) /\ in_constellation ra dec c).
Proof.
  intros H. set (ra := ((82800 - 86400 - 1 / 2) / 240)%R). set (dec := (10679 / 60 - 90)%R).
  assert (D : (-90 <= dec <= 90)%R) by (unfold dec; lra). assert (R : (-3600 <= ra <= 0)%R) by (unfold ra; lra).
  destruct (H ra dec R D) as (c & E & C).
  destruct (con_ok (ra + 360 * IZR 1) dec) as (c' & E' & _ & C'); [split; [unfold ra; lra|left; unfold ra; lra]|].
  assert (Q : c = c') by (apply (in_constellation_unique (ra + 360 * IZR 1) dec); [apply in_constellation_turn; assumption|assumption]). subst c'.
  assert (T : trunc (ra * 240) = -3600).
  { unfold trunc. destruct (Rltb_spec (ra * 240) 0) as [L|L]; [|exfalso; apply L; unfold ra; lra].
    assert (Int_part (- (ra * 240)) = 3600); [|lia]. pose proof (int_le (- (ra * 240)) 3600) as [A _]. pose proof (int_lt (- (ra * 240)) 3601) as [B _].
    assert (3600 <= Int_part (- (ra * 240))) by (apply A; unfold ra; lra). assert (Int_part (- (ra * 240)) < 3601) by (apply B; unfold ra; lra). lia. }
  assert (T2 : trunc ((ra + 360 * IZR 1) * 240) = 82799).
  { rewrite trunc_nonneg by (unfold ra; lra). pose proof (int_le ((ra + 360 * IZR 1) * 240) 82799) as [A _]. pose proof (int_lt ((ra + 360 * IZR 1) * 240) 82800) as [B _].
    assert (82799 <= Int_part ((ra + 360 * IZR 1) * 240)) by (apply A; unfold ra; lra). assert (Int_part ((ra + 360 * IZR 1) * 240) < 82800) by (apply B; unfold ra; lra). lia. }
  assert (T3 : trunc ((dec + 90) * 60) = 10679). { replace ((dec + 90) * 60)%R with (IZR 10679) by (unfold dec; lra). apply trunc_IZR. }
  unfold constell_from_ra_dec, cvt in E, E'. rewrite T, T3 in E. rewrite T2, T3 in E'. vm_compute in E. vm_compute in E'. congruence.
Qed.

Lemma C38_far_negative_refuted_proof :
  exists dec, (-90 <= dec <= 90)%R /\
  exists c, constell_from_ra_dec (IZR (-921601) / 240) dec None = Ret (c, None) /\ ~ in_constellation (IZR (-921601) / 240) dec c.
Proof.
  set (dec := (10679 / 60 - 90)%R). exists dec. assert (D : (-90 <= dec <= 90)%R) by (unfold dec; lra). split; [assumption|].
  destruct (con_ok (IZR (-921601) / 240 + 360 * IZR 11) dec) as (c' & E' & _ & C'); [split; [lra|left; lra]|].
  assert (T3 : trunc ((dec + 90) * 60) = 10679). { replace ((dec + 90) * 60)%R with (IZR 10679) by (unfold dec; lra). apply trunc_IZR. }
  assert (T1 : trunc (IZR (-921601) / 240 * 240) = -921601).
  { replace (IZR (-921601) / 240 * 240)%R with (IZR (-921601)) by field. apply trunc_IZR. }
  assert (T2 : trunc ((IZR (-921601) / 240 + 360 * IZR 11) * 240) = 28799).
  { replace ((IZR (-921601) / 240 + 360 * IZR 11) * 240)%R with (IZR 28799) by lra. apply trunc_IZR. }
  exists 83. split.
  - unfold constell_from_ra_dec, cvt. rewrite T1, T3. vm_compute. reflexivity.
  - intros C. apply (in_constellation_turn _ _ _ 11) in C. pose proof (in_constellation_unique _ _ _ _ C C') as Q. subst c'.
    unfold constell_from_ra_dec, cvt in E'. rewrite T2, T3 in E'. vm_compute in E'. congruence.
Qed.

Definition places : list (Z * Z) := [(82320,8549); (33720,3959); (61200,1349); (67920,6509); (77280,5564); (59115,2669); (8700,7239); (18000,8759); (50520,8729); (16920,3764); (28800,10589); (76800,4859); (21600,2354); (1200,10019); (45300,3629); (82800,10679); (7200,5994); (27600,899); (52320,2099); (22020,4739); (27000,6209); (28800,7409); (18000,3764); (43200,7439); (64200,3179); (55560,7799); (38700,5039); (42600,2099); (42600,4739); (43500,8579); (73932,9054); (72900,6629); (14700,2459); (64800,10559); (76020,6149); (12900,5399); (6000,3936); (23520,7529); (76800,3179); (56700,8489); (13920,2999); (29100,5819); (4800,1889); (73200,2669); (80340,8774); (33300,7409); (17700,4739); (52800,5399); (34500,7919); (53700,3629); (21960,9119); (65430,8249); (16500,1199); (73200,3719); (22710,6119); (40500,1559); (56400,2879); (64800,899); (62100,6259); (20520,6769); (63000,1979); (78240,7559); (6870,8909); (84000,2999); (17400,2819); (76800,3869); (2580,7379); (26520,4739); (30120,4379); (12600,2209); (82800,3869); (57300,4919); (65700,5159); (54300,6959); (34500,5819); (71400,6674); (67920,4677); (12120,7239); (64800,2669); (55200,1799); (7200,7604); (79200,1979); (28680,9809); (48900,10199); (30120,3194); (46200,6299); (23700,1559); (70800,7139)].
Lemma places_ok : forallb (fun c => let '(ra, spd) := nth (Z.to_nat c) places (0, 0) in
  (0 <=? ra) && (ra <? 86400) && (0 <=? spd) && (spd <? 10800) && match constell_index ra spd with Ret c' => c' =? c | _ => false end) (map Z.of_nat (seq 0 88)) = true.
Proof. vm_compute. reflexivity. Qed.

Lemma C38_all_used_proof :
  forall c, 0 <= c <= 87 ->
  exists ra dec, (0 <= ra < 360)%R /\ (-90 <= dec <= 90)%R /\ constell_from_ra_dec ra dec None = Ret (c, None).
Proof.
  intros c C. assert (I : In c (map Z.of_nat (seq 0 88))) by (apply in_map_iff; exists (Z.to_nat c); split; [lia|apply in_seq; lia]).
  pose proof (proj1 (forallb_forall _ _) places_ok c I) as P. cbv beta in P. destruct (nth (Z.to_nat c) places (0, 0)) as [s p].
  rewrite !andb_true_iff in P. destruct P as ((((P1 & P2) & P3) & P4) & P5). apply Z.leb_le in P1, P3. apply Z.ltb_lt in P2, P4.
  assert (0 <= IZR s < 86400)%R by (split; [apply (IZR_le 0)|apply IZR_lt]; assumption). assert (0 <= IZR p < 10800)%R by (split; [apply (IZR_le 0)|apply IZR_lt]; assumption).
  exists (IZR s / 240)%R, (IZR p / 60 - 90)%R. split; [lra|]. split; [lra|].
  destruct (start_ok (IZR s / 240) (IZR p / 60 - 90)) as (c' & E & Ec); [split; [lra|left; lra]|]. rewrite (E None).
  replace (IZR s / 240 * 240)%R with (IZR s) in Ec by field. replace ((IZR p / 60 - 90 + 90) * 60)%R with (IZR p) in Ec by field.
  rewrite !Int_part_IZR, Z.mod_small in Ec by lia. rewrite Ec in P5. apply Z.eqb_eq in P5. subst. reflexivity.
Qed.

Definition names_ok (c : Z) : bool :=
  match copy 3 [None; None; None; None] 0 constell_names (3 * c) with
  | Ret b => match wr b 3 0 with Ret b => match b with [Some x; Some y; Some z; Some 0] => (x =? nth 0 (abbreviation c) 0) && (y =? nth 1 (abbreviation c) 0) && (z =? nth 2 (abbreviation c) 0) && Nat.eqb (List.length (abbreviation c)) 3 && isupper x && isalpha y && isalpha z | _ => false end | _ => false end
  | _ => false end.
Lemma names_all : forallb names_ok (map Z.of_nat (seq 0 88)) = true.
Proof. vm_compute. reflexivity. Qed.
Lemma wr_app x y i v : 0 <= i < Z.of_nat (List.length x) -> wr (x ++ y) i v = do b <- wr x i v; Ret (b ++ y).
Proof.
  intros H. unfold wr, set_ub. rewrite app_length, Nat2Z.inj_add. destruct (Z.ltb_spec i 0); [lia|]. destruct (Z.leb_spec (Z.of_nat (List.length x) + Z.of_nat (List.length y)) i); [lia|].
  destruct (Z.leb_spec (Z.of_nat (List.length x)) i); [lia|]. cbn [orb obind]. f_equal.
  assert (K : (Z.to_nat i < List.length x)%nat) by lia. revert K. generalize (Z.to_nat i) as n. clear. induction x as [|a x IH]; intros n K; [cbn in K; lia|]. destruct n; [reflexivity|]. cbn [upd app]. f_equal. apply IH. cbn in K. lia.
Qed.
Lemma copy_app n : forall x y i src from, 0 <= i -> i + Z.of_nat n <= Z.of_nat (List.length x) -> copy n (x ++ y) i src from = do b <- copy n x i src from; Ret (b ++ y).
Proof.
  induction n as [|n IH]; intros x y i src from I L; cbn [copy]; [reflexivity|]. destruct (at_ src from); cbn [obind]; try reflexivity.
  rewrite wr_app by lia. destruct (wr x i a) eqn:E; cbn [obind]; try reflexivity. apply IH; [lia|].
  unfold wr, set_ub in E. destruct ((i <? 0) || (Z.of_nat (List.length x) <=? i)); [discriminate|]. inversion E. subst. 
  assert (U : forall (l : buf) n v, List.length (upd l n v) = List.length l) by (induction l as [|h l IHl]; intros [|m] v; cbn; auto). rewrite U. lia.
Qed.
Lemma wr_len b i v b' : wr b i v = Ret b' -> List.length b' = List.length b.
Proof.
  unfold wr, set_ub. destruct ((i <? 0) || (Z.of_nat (List.length b) <=? i)); [discriminate|]. intros E. inversion E.
  assert (U : forall (l : buf) n v, List.length (upd l n v) = List.length l) by (induction l as [|h l IHl]; intros [|m] w; cbn; auto). apply U.
Qed.
Lemma copy_len n : forall b i src from b', copy n b i src from = Ret b' -> List.length b' = List.length b.
Proof.
  induction n as [|n IH]; intros b i src from b' E; cbn [copy] in E; [congruence|]. destruct (at_ src from); try discriminate. cbn [obind] in E.
  destruct (wr b i a) eqn:W; try discriminate. cbn [obind] in E. rewrite (IH _ _ _ _ _ E). eapply wr_len. eassumption.
Qed.
Lemma init4 (b : buf) : (4 <= List.length b)%nat -> exists x0 x1 x2 x3 y, b = [x0; x1; x2; x3] ++ y.
Proof. destruct b as [|x0 [|x1 [|x2 [|x3 y]]]]; cbn; intros H; try lia. exists x0, x1, x2, x3, y. reflexivity. Qed.
Lemma copy4 x0 x1 x2 x3 c : copy 3 [x0; x1; x2; x3] 0 constell_names (3 * c) = do b <- copy 3 [None; None; None; None] 0 constell_names (3 * c); Ret (firstn 3 b ++ [x3]).
Proof.
  cbn [copy]. destruct (at_ constell_names (3 * c)); cbn [obind]; try reflexivity. 
  change (wr [x0; x1; x2; x3] 0 a) with (@Ret buf [Some a; x1; x2; x3]). change (wr [None; None; None; None] 0 a) with (@Ret buf [Some a; None; None; None]). cbn [obind copy].
  destruct (at_ constell_names (3 * c + 1)) as [a1| | |]; cbn [obind]; try reflexivity.
  change (wr [Some a; x1; x2; x3] (0 + 1) a1) with (@Ret buf [Some a; Some a1; x2; x3]). change (wr [Some a; None; None; None] (0 + 1) a1) with (@Ret buf [Some a; Some a1; None; None]). cbn [obind].
  destruct (at_ constell_names (3 * c + 1 + 1)) as [a2| | |]; cbn [obind]; try reflexivity.
Qed.
Lemma name_ok b c : (4 <= List.length b)%nat -> 0 <= c <= 87 ->
  exists b', (do b <- copy 3 b 0 constell_names (3 * c); wr b 3 0) = Ret b' /\ holds b' 0 (abbreviation c) /\ skipn 4 b' = skipn 4 b /\ List.length b' = List.length b /\
  List.length (abbreviation c) = 3%nat /\ forallb isalpha (abbreviation c) = true.
Proof.
  intros L C. destruct (init4 b L) as (x0 & x1 & x2 & x3 & y & ->).
  assert (I : In c (map Z.of_nat (seq 0 88))) by (apply in_map_iff; exists (Z.to_nat c); split; [lia|apply in_seq; lia]).
  pose proof (proj1 (forallb_forall _ _) names_all c I) as P. unfold names_ok in P.
  rewrite copy_app by (cbn; lia). rewrite copy4. destruct (copy 3 [None; None; None; None] 0 constell_names (3 * c)) as [b4| | |] eqn:Ec4; try discriminate. cbn [obind].
  pose proof (copy_len _ _ _ _ _ _ Ec4) as L4. destruct b4 as [|a0 [|a1 [|a2 [|a3 [|? ?]]]]]; cbn in L4; try discriminate.
  change (wr [a0; a1; a2; a3] 3 0) with (@Ret buf [a0; a1; a2; Some 0]) in P. destruct a0 as [a0|]; [|discriminate]. destruct a1 as [a1|]; [|discriminate]. destruct a2 as [a2|]; [|discriminate].
  rewrite !andb_true_iff in P. destruct P as ((((((P0 & P1) & P2) & P3) & P4) & P5) & P6).
  apply Z.eqb_eq in P0, P1, P2. apply Nat.eqb_eq in P3. cbn [firstn app].
  change (wr (Some a0 :: Some a1 :: Some a2 :: x3 :: y) 3 0) with (wr ([Some a0; Some a1; Some a2; x3] ++ y) 3 0). rewrite wr_app by (cbn; lia).
  change (wr [Some a0; Some a1; Some a2; x3] 3 0) with (@Ret buf [Some a0; Some a1; Some a2; Some 0]). cbn [obind app].
  eexists. split; [reflexivity|]. destruct (abbreviation c) as [|l0 [|l1 [|l2 [|? ?]]]]; cbn in P3; try discriminate. cbn [nth] in P0, P1, P2. subst.
  split; [reflexivity|]. split; [reflexivity|]. split; [reflexivity|]. split; [reflexivity|]. cbn [forallb]. unfold isalpha at 1. rewrite P4, P5, P6. reflexivity.
Qed.

Lemma C38_name_proof :
  forall ra dec b, (0 <= ra <= 8944248)%R -> (-90 <= dec <= 90)%R -> (4 <= List.length b)%nat ->
  exists c b', constell_from_ra_dec ra dec (Some b) = Ret (c, Some b') /\ constell_from_ra_dec ra dec None = Ret (c, None) /\
    holds b' 0 (abbreviation c) /\ List.length (abbreviation c) = 3%nat /\ forallb isalpha (abbreviation c) = true /\
    List.length b' = List.length b /\ skipn 4 b' = skipn 4 b.
Proof.
  intros ra dec b R D L. destruct (con_ok ra dec) as (c & E & B & _); [split; [lra|left; lra]|].
  destruct (start_ok ra dec) as (c' & E' & _); [split; [lra|left; lra]|]. pose proof (E' None) as E2. rewrite E in E2. inversion E2. subst c'.
  destruct (name_ok b c L B) as (b' & Eb & H1 & H2 & H3 & H4 & H5). exists c, b'. split; [|auto 10].
  rewrite (E' (Some b)). destruct (copy 3 b 0 constell_names (3 * c)) as [b1| | |]; cbn [obind] in *; try discriminate. rewrite Eb. reflexivity.
Qed.

Lemma C38_poles_proof :
  forall ra, (0 <= ra <= 8944248)%R ->
  constell_from_ra_dec ra 90 None = Ret (83, None) /\ constell_from_ra_dec ra (-90) None = Ret (57, None).
Proof.
  intros ra R. split.
  - destruct (con_ok ra 90) as (c & E & _ & C); [split; [lra|left; lra]|]. rewrite E. destruct C as [(e & Ie & [Be _] & _)|(_ & ->)]; [|reflexivity].
    exfalso. destruct (in_ent e Ie) as (j & J & <-). pose proof (ent_sorted 0 j ltac:(lia) ltac:(lia)) as Q. change (arc_spd (ent 0)) with 10680 in Q.
    apply IZR_le in Q. lra.
  - destruct (start_ok ra (-90)) as (c & E & Ec); [split; [lra|left; lra]|]. rewrite (E None). replace ((-90 + 90) * 60)%R with 0%R in Ec by ring. rewrite (Int_part_IZR 0) in Ec.
    pose proof (Z.mod_pos_bound (Int_part (ra * 240)) 86400 ltac:(lia)) as M. set (s := Int_part (ra * 240) mod 86400) in *. clearbody s.
    destruct (index_ok s 0) as (c' & Ec' & _ & S). rewrite Ec in Ec'. inversion Ec'. subst c'.
    assert (H : forall j, (j = 322 \/ j = 323) -> arc_spd (ent j) = 300 /\ arc_south (ent j) = 57) by (intros j [->| ->]; vm_compute; auto).
    assert (K : cov s (ent 322) = true \/ cov s (ent 323) = true).
    { unfold cov. change (arc_ra (ent 322)) with 43200. change (arc_len (ent 322)) with 43200. change (arc_ra (ent 323)) with 0. change (arc_len (ent 323)) with 43200.
      destruct (Z_lt_le_dec s 43200); [right|left]; apply orb_true_iff; left; apply andb_true_iff; rewrite Z.leb_le, Z.ltb_lt; lia. }
    destruct S as [(i & I1 & I2 & I3 & I4 & I5)|(-> & N)].
    + assert (i = 322 \/ i = 323).
      { destruct K as [K|K]; [pose proof (I5 322 ltac:(lia) ltac:(rewrite (proj1 (H 322 ltac:(auto))); lia) K)|pose proof (I5 323 ltac:(lia) ltac:(rewrite (proj1 (H 323 ltac:(auto))); lia) K)]; lia. }
      rewrite I4, (proj2 (H i H0)). reflexivity.
    + exfalso. destruct K as [K|K]; [rewrite (N 322) in K by (rewrite ?(proj1 (H 322 ltac:(auto))); lia)|rewrite (N 323) in K by (rewrite ?(proj1 (H 323 ltac:(auto))); lia)]; discriminate.
Qed.
