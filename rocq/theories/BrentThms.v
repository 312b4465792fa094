(** Proofs of the theorems stated in [PropBrent]. *)
From Coq Require Import Lia.
From Verif Require Import RBase BrentModel BrentSpec BrentProofs BrentSteps BrentStuck.
Open Scope list_scope.

Definition always (t : R) : Prop := True.
Definition positive (t : R) : Prop := 0 < t.

Lemma inv_X b h p0 p1 p2 p3 p4 : inv b h p0 p1 p2 p3 p4 -> X b 0 = fst p0 /\ Y b 0 = snd p0 /\
  X b 1 = fst p1 /\ Y b 1 = snd p1 /\ X b 2 = fst p2 /\ Y b 2 = snd p2 /\ X b 3 = fst p3 /\ Y b 3 = snd p3.
Proof. intros I. unfold X, Y. rewrite (i_pts _ _ _ _ _ _ _ I). repeat split. Qed.

Lemma done_step b x b' : xmin b < X b 0 < xmax b -> brent_min_next b = Ret (x, b') ->
  step_type b' <> STEP_TYPE_DONE -> is_done b = false.
Proof. intros _ E D. apply (next_fields _ _ _ E D). Qed.

Lemma cand_step b c s : candidate b = Ret (c, s) ->
  (s = STEP_TYPE_GOLDEN /\ n_iterations b <> O) \/ (s = STEP_TYPE_CUBIC /\ n_iterations b <> O) \/
  (s = STEP_TYPE_QUADRATIC /\ n_iterations b = O).
Proof.
  unfold candidate. destruct (n_iterations b).
  - destruct (fit_parabola (pts b)) as [[[q l] k]| | |]; cbn; try discriminate. intros E; inversion E. tauto.
  - destruct (cubic_min (pts b)) as [[q|]| | |]; cbn; try discriminate; intros E; inversion E; subst; [right|]; left; split; auto.
Qed.

(** A suggestion with a positive tolerance, in full. *)
Lemma next_full b x b' : xmin b < X b 0 < xmax b -> PHI <= gold_ratio b < 1 -> 0 < tolerance b ->
  brent_min_next b = Ret (x, b') -> step_type b' <> STEP_TYPE_DONE ->
  xmin b < x < xmax b /\ x <> X b 0 /\
  ((step_type b' = STEP_TYPE_GOLDEN /\ x = golden_point b) \/
   (exists z, candidate b = Ret (Number z, step_type b') /\ step_type b' <> STEP_TYPE_GOLDEN /\ moved b z x)).
Proof.
  intros B G T E D. pose proof (done_step _ _ _ B E D) as N.
  destruct (golden_inside b B G) as [G1 G2].
  rewrite next_eq in E by assumption. destruct (candidate b) as [[c s]| | |] eqn:Ec; cbn [obind] in E; try discriminate.
  assert (GG : finish b STEP_TYPE_GOLDEN (Number (golden_point b)) = Ret (x, b') ->
    xmin b < x < xmax b /\ x <> X b 0 /\ step_type b' = STEP_TYPE_GOLDEN /\ x = golden_point b).
  { rewrite finish_ok by assumption. intros F. inversion F; subst. repeat split; auto; lra. }
  destruct (Z.eqb_spec s STEP_TYPE_GOLDEN) as [Es|Es]; [destruct (GG E) as (? & ? & ? & ?); auto|].
  destruct c as [z| |].
  - destruct (adjust_number b z B N T) as (r & g & EA & _ & HF). rewrite EA in E.
    destruct g; [destruct (GG E) as (? & ? & ? & ?); auto|].
    destruct (HF eq_refl) as (_ & Mv & In & _). cbn [finish] in E.
    destruct (Rleb (xmin b) r); [|discriminate]. destruct (Rleb r (xmax b)); [|discriminate].
    destruct (Reqb_spec r (X b 0)); [discriminate|]. cbn in E. inversion E; subst. cbn [step_type set_step].
    split; [assumption|]. split; [assumption|]. right. exists z. repeat split; assumption.
  - cbn in E. destruct (GG E) as (? & ? & ? & ?); auto.
  - cbn [adjust orb] in E. destruct (_ && _)%bool; [destruct (GG E) as (? & ? & ? & ?); auto|discriminate].
Qed.

Lemma strict_session b h : session positive b h ->
  exists p0 p1 p2 p3 p4, inv b h p0 p1 p2 p3 p4 /\ distinct b p0 p1 p2 p3.
Proof.
  intros S. induction S as [junk x1 y1 x2 y2 x3 y3 b E|b h t yt S IH|b h x b' y d b'' S IH T E D A].
  - exact (inv_init _ _ _ _ _ _ _ _ E).
  - destruct IH as (p0 & p1 & p2 & p3 & p4 & [Ep Lo Hi H01 H12 H23 In0 In1 In2 In3 Mn Bl Bh Ou Lw Go] & [? ? ? ? ? ?]).
    exists p0, p1, p2, p3, p4. split; split; assumption.
  - destruct IH as (p0 & p1 & p2 & p3 & p4 & I & Dp).
    destruct (inv_X _ _ _ _ _ _ _ I) as (EX & _).
    assert (B : xmin b < X b 0 < xmax b) by (rewrite EX; split; [apply (i_lo _ _ _ _ _ _ _ I)|apply (i_hi _ _ _ _ _ _ _ I)]).
    destruct (next_full b x b' B (i_gold _ _ _ _ _ _ _ I) T E D) as (In & _).
    destruct (inv_round _ _ _ _ _ _ _ _ _ _ _ _ I E D A) as (q0 & q1 & q2 & q3 & q4 & I' & _ & _ & _ & DD & _).
    exists q0, q1, q2, q3, q4. split; [exact I'|]. apply DD; assumption.
Qed.
Lemma session_B P b h : session P b h -> xmin b < X b 0 < xmax b /\ PHI <= gold_ratio b < 1.
Proof.
  intros S. destruct (inv_session _ _ _ S) as (p0 & p1 & p2 & p3 & p4 & I). destruct (inv_X _ _ _ _ _ _ _ I) as (EX & _).
  rewrite EX. destruct I. auto.
Qed.

Lemma C37_init_proof :
  forall junk p q r, bracketed p q r ->
  exists b, brent_min_init junk (fst p) (snd p) (fst q) (snd q) (fst r) (snd r) = Ret b /\
    forall u v w, (forall t, In t [p; q; r] <-> In t [u; v; w]) -> lowest_between u v w ->
      xmin b = fst u /\ xmax b = fst w /\ X b 0 = fst v /\ Y b 0 = snd v.
Proof.
  intros [[j3 j4] jn] p q r B.
  assert (NA : exists b, brent_min_init (j3, j4, jn) (fst p) (snd p) (fst q) (snd q) (fst r) (snd r) = Ret b).
  { unfold brent_min_init. cbv zeta.
    destruct (sort3 (fst p, snd p) (fst q, snd q) (fst r, snd r) j3 j4) as (p0 & p1 & p2 & E & Sd & Pm). rewrite E.
    pose proof (low3 (fst p) (fst q) (fst r)) as L. pose proof (high3 (fst p) (fst q) (fst r)) as H. cbv zeta in L, H.
    set (lo := if Rltb (fst r) (if Rltb (fst q) (fst p) then fst q else fst p) then fst r else (if Rltb (fst q) (fst p) then fst q else fst p)) in *.
    set (hi := if Rltb (if Rltb (fst p) (fst q) then fst q else fst p) (fst r) then fst r else (if Rltb (fst p) (fst q) then fst q else fst p)) in *.
    clearbody lo hi. unfold pt. cbn [nth]. destruct L as (_ & L1 & L2 & L3), H as (_ & H1 & H2 & H3).
    assert (lo < fst p0 < hi).
    { unfold bracketed, lowest_between in B.
      destruct Pm as [Pm|[Pm|[Pm|[Pm|[Pm|Pm]]]]]; inversion Pm; subst; clear Pm E; cbn [fst snd] in *;
      destruct B as [B|[B|[B|[B|[B|B]]]]]; lra. }
    destruct (Rltb_spec lo (fst p0)); [|lra]. destruct (Rltb_spec (fst p0) hi); [|lra]. cbn. eauto. }
  destruct NA as [b NA]. exists b. split; [exact NA|].
  intros u v w M (L1 & L2 & L3).
  destruct (init_inv _ _ _ _ _ _ _ _ NA) as (p0 & p1 & p2 & Ep & Sd & M0 & _ & _ & B0 & C & _).
  rewrite <- !surjective_pairing in M0.
  assert (Mv : In v [p0; p1; p2]) by (apply M0, M; cbn; tauto).
  assert (Mu : In u [p0; p1; p2]) by (apply M0, M; cbn; tauto).
  assert (Mw : In w [p0; p1; p2]) by (apply M0, M; cbn; tauto).
  unfold X, Y, pt. rewrite Ep. cbn [nth].
  cbn in Mv, Mu, Mw.
  assert (v = p0).
  { destruct Mv as [<-|[<-|[<-|[]]]]; [reflexivity| |];
    (destruct Mu as [<-|[<-|[<-|[]]]]; [lra| |]); (destruct Mw as [<-|[<-|[<-|[]]]]; lra). }
  subst v. repeat split;
  destruct Mu as [<-|[<-|[<-|[]]]]; try lra; destruct Mw as [<-|[<-|[<-|[]]]]; lra.
Qed.

Lemma C37_bracket_proof :
  forall P b h, session P b h ->
  xmin b < X b 0 < xmax b /\ In (X b 0, Y b 0) h /\ (forall q, In q h -> Y b 0 <= snd q) /\
  (exists y, In (xmin b, y) h) /\ (exists y, In (xmax b, y) h) /\
  (forall q, In q h -> q = (X b 0, Y b 0) \/ fst q <= xmin b \/ xmax b <= fst q).
Proof.
  intros P b h S. destruct (inv_session _ _ _ S) as (p0 & p1 & p2 & p3 & p4 & I). destruct (inv_X _ _ _ _ _ _ _ I) as (EX & EY & _).
  rewrite EX, EY, <- surjective_pairing. destruct I. repeat split; assumption.
Qed.

Lemma C37_shrinks_proof :
  forall P b h x b' y done b'', session P b h ->
  brent_min_next b = Ret (x, b') -> step_type b' <> STEP_TYPE_DONE -> brent_min_add b' y = Ret (done, b'') ->
  xmin b <= xmin b'' /\ xmax b'' <= xmax b /\ Y b'' 0 <= Y b 0 /\ Y b'' 0 <= y /\
  (0 < tolerance b -> xmax b'' - xmin b'' < xmax b - xmin b).
Proof.
  intros P b h x b' y d b'' S E D A.
  destruct (session_B _ _ _ S) as (B & G).
  destruct (inv_session _ _ _ S) as (p0 & p1 & p2 & p3 & p4 & I). destruct (inv_X _ _ _ _ _ _ _ I) as (EX & EY & _).
  destruct (inv_round _ _ _ _ _ _ _ _ _ _ _ _ I E D A) as (q0 & q1 & q2 & q3 & q4 & I' & L1 & L2 & L3 & _ & SS).
  destruct (inv_X _ _ _ _ _ _ _ I') as (EX' & EY' & _). rewrite EY', EY.
  repeat split; try assumption.
  - apply (i_min _ _ _ _ _ _ _ I' (x, y)). left. reflexivity.
  - intros T. destruct (next_full b x b' B G T E D) as (In & _). destruct (SS In); lra.
Qed.

Lemma C37_suggestion_proof :
  forall P b h x b', session P b h -> brent_min_next b = Ret (x, b') -> step_type b' <> STEP_TYPE_DONE ->
  xmin b <= x <= xmax b /\ x <> X b 0 /\
  (0 < tolerance b -> xmin b < x < xmax b /\ forall q, In q h -> fst q <> x).
Proof.
  intros P b h x b' S E D. destruct (next_fields _ _ _ E D) as (_ & _ & _ & _ & _ & _ & _ & _ & _ & R1 & R2).
  split; [assumption|]. split; [assumption|]. intros T. destruct (session_B _ _ _ S) as (B & G).
  destruct (next_full b x b' B G T E D) as (In & _). split; [assumption|]. intros q Q Eq.
  destruct (C37_bracket_proof _ _ _ S) as (_ & _ & _ & _ & _ & O). destruct (O q Q) as [->|]; [cbn in Eq; congruence|lra].
Qed.

Lemma C37_add_never_fails_proof :
  forall P b h x b' y, session P b h -> 0 < tolerance b ->
  brent_min_next b = Ret (x, b') -> step_type b' <> STEP_TYPE_DONE ->
  exists done b'', brent_min_add b' y = Ret (done, b'').
Proof.
  intros P b h x b' y S T E D. destruct (session_B _ _ _ S) as (B & G).
  destruct (next_full b x b' B G T E D) as (In & Ne & _).
  destruct (inv_session _ _ _ S) as (p0 & p1 & p2 & p3 & p4 & I). destruct (inv_X _ _ _ _ _ _ _ I) as (EX & EY & _).
  destruct (next_fields _ _ _ E D) as (_ & Fp & Fl & Fh & Fg & Ft & Fy & Fn & Fx & _).
  destruct I as [Ep Lo Hi H01 H12 H23 In0 In1 In2 In3 Mn Bl Bh Ou Lw Go].
  destruct (add_eq b' y p0 p1 p2 p3 p4) as (q0 & q1 & q2 & q3 & q4 & EA & Q1 & Q2 & C); try congruence; try assumption.
  { rewrite Fn. assumption. }
  cbv zeta in EA. rewrite EA.
  match goal with |- exists d b'', (if ?c then _ else _) = _ => assert (c = true) as ->; [|eauto] end.
  unfold grown. replace (X b' 0) with (fst p0) by (unfold X; rewrite Fp, Ep; reflexivity).
  replace (Y b' 0) with (snd p0) by (unfold Y; rewrite Fp, Ep; reflexivity). rewrite Fl, Fh, Fx in *. rewrite EX in *.
  destruct C as [(L & -> & _)|(L & -> & _)]; (destruct (Rleb_spec y (snd p0)); [try lra|try lra]); cbn [xmin xmax fst];
    (destruct (Rltb_spec x (fst p0)); cbn [xmin xmax]);
    repeat match goal with |- context [Rltb ?a ?c] => destruct (Rltb_spec a c); [|lra] end; reflexivity.
Qed.

Lemma C37_next_fails_only_proof :
  forall b h, session (fun t => 0 < t) b h -> 0 < tolerance b ->
  (exists x b', brent_min_next b = Ret (x, b')) \/
  (brent_min_next b = Abort /\
    ((n_iterations b = O /\ exists y, forall q, In q h -> snd q = y) \/
     (n_iterations b <> O /\ exists a, forall i, (i < 4)%nat -> Y b i = Y b 0 + a * (X b i - X b 0) ^ 3) \/
     edge b)).
Proof.
  intros b h S T. destruct (session_B _ _ _ S) as (B & G).
  destruct (is_done b) eqn:Ed.
  { left. unfold brent_min_next. destruct (Reqb_spec (xmax b - X b 0) 0); [lra|].
    destruct (Reqb_spec (X b 0 - xmin b) 0); [lra|]. cbn [negb check obind]. rewrite Ed. eauto. }
  destruct (strict_session _ _ S) as (p0 & p1 & p2 & p3 & p4 & I & Dp).
  destruct (inv_X _ _ _ _ _ _ _ I) as (EX0 & EY0 & EX1 & EY1 & EX2 & EY2 & EX3 & EY3).
  destruct (golden_inside b B G) as [G1 G2].
  assert (GG : exists x b', finish b STEP_TYPE_GOLDEN (Number (golden_point b)) = Ret (x, b')).
  { rewrite finish_ok by assumption. eauto. }
  pose proof (i_pts _ _ _ _ _ _ _ I) as Ep. rewrite next_eq by assumption.
  assert (FN : forall z s, (let '(c', golden) := adjust b (Number z) in
     if golden then finish b STEP_TYPE_GOLDEN (Number (golden_point b)) else finish b s c') = Abort -> edge b).
  { intros z s. destruct (adjust_number b z B Ed T) as (r & g & -> & _ & HF). destruct g.
    - destruct GG as (x & b' & ->). discriminate.
    - destruct (HF eq_refl) as (_ & _ & In & [Ne|]); [|auto]. rewrite finish_ok by assumption. discriminate. }
  assert (FR : forall z s, (exists x b', (let '(c', golden) := adjust b (Number z) in
     if golden then finish b STEP_TYPE_GOLDEN (Number (golden_point b)) else finish b s c') = Ret (x, b')) \/
     ((let '(c', golden) := adjust b (Number z) in
     if golden then finish b STEP_TYPE_GOLDEN (Number (golden_point b)) else finish b s c') = Abort /\ edge b)).
  { intros z s. specialize (FN z s). destruct (adjust b (Number z)) as [c [|]]; [left; exact GG|].
    destruct c as [r| |]; cbn [finish] in *; [|right; split; auto; apply FN; reflexivity..].
    destruct (Rleb (xmin b) r); [|right; split; auto; apply FN; reflexivity].
    destruct (Rleb r (xmax b)); [|right; split; auto; apply FN; reflexivity].
    destruct (Reqb r (X b 0)); [right; split; auto; apply FN; reflexivity|]. left. cbn. eauto. }
  unfold candidate. destruct (n_iterations b) eqn:En; rewrite Ep.
  - destruct (parabola_ok p0 p1 p2 [p3; p4]) as (qa & qb & qc & -> & T0 & T1 & T2); try apply Dp.
    cbn [obind]. unfold divide. change (Z.eqb STEP_TYPE_QUADRATIC STEP_TYPE_GOLDEN) with false. cbv iota.
    destruct (Reqb_spec qa 0) as [Zq|Zq].
    + destruct (Reqb_spec (- qb * (1 / 2)) 0) as [Zl|Zl].
      * right. cbn [adjust orb]. rewrite En. cbn. split; [reflexivity|]. left. split; [reflexivity|].
        unfold quadratic_through in *. assert (qb = 0) by lra. subst qa qb. exists qc. intros q Q.
        destruct (i_low _ _ _ _ _ _ _ I q Q) as [->|[->|[->|[N _]]]]; [lra..|congruence].
      * left. cbn [adjust orb]. exact GG.
    + destruct (FR (- qb * (1 / 2) / qa) STEP_TYPE_QUADRATIC) as [F|[F1 F2]]; [left; exact F|right].
      split; [exact F1|tauto].
  - assert (N0 : n_iterations b <> O) by congruence.
    destruct (cubic_ok p0 p1 p2 p3 [p4]) as (qa & qb & qc & o & -> & T1 & T2 & T3 & Ho); try (apply Dp; assumption); try apply Dp.
    cbn [obind]. destruct o as [[z| |]|].
    + change (Z.eqb STEP_TYPE_CUBIC STEP_TYPE_GOLDEN) with false. cbv iota.
      destruct (FR z STEP_TYPE_CUBIC) as [F|[F1 F2]]; [left; exact F|right]. split; [exact F1|tauto].
    + left. cbn [Z.eqb STEP_TYPE_CUBIC STEP_TYPE_GOLDEN Pos.eqb adjust orb]. exact GG.
    + cbn [Z.eqb STEP_TYPE_CUBIC STEP_TYPE_GOLDEN Pos.eqb adjust orb].
      destruct (Nat.ltb 30 (n_iterations b) && Nat.odd (n_iterations b))%bool; [left; exact GG|right].
      split; [reflexivity|]. right. left. split; [congruence|]. exists qa. destruct Ho as [-> ->].
      unfold cubic_through in *. cbv zeta in *.
      intros i Hi. destruct i as [|[|[|[|i]]]]; [..|lia]; rewrite ?EX0, ?EX1, ?EX2, ?EX3, ?EY0, ?EY1, ?EY2, ?EY3; [ring|rewrite T1; ring|rewrite T2; ring|rewrite T3; ring].
    + left. cbn [Z.eqb STEP_TYPE_GOLDEN Pos.eqb]. exact GG.
Qed.

Lemma C37_four_lowest_proof :
  forall P b h, session P b h -> n_iterations b <> O ->
  Y b 0 <= Y b 1 <= Y b 2 /\ Y b 2 <= Y b 3 /\
  (forall i, (i < 4)%nat -> In (X b i, Y b i) h) /\
  (forall q, In q h -> (exists i, (i < 4)%nat /\ q = (X b i, Y b i)) \/ Y b 3 <= snd q).
Proof.
  intros P b h S N. destruct (inv_session _ _ _ S) as (p0 & p1 & p2 & p3 & p4 & I).
  destruct (inv_X _ _ _ _ _ _ _ I) as (EX0 & EY0 & EX1 & EY1 & EX2 & EY2 & EX3 & EY3).
  destruct I as [Ep Lo Hi H01 H12 H23 In0 In1 In2 In3 Mn Bl Bh Ou Lw Go].
  rewrite EY0, EY1, EY2, EY3. split; [lra|]. split; [auto|]. split.
  - intros i Hi'. destruct i as [|[|[|[|i]]]]; [..|lia];
      rewrite ?EX0, ?EX1, ?EX2, ?EX3, ?EY0, ?EY1, ?EY2, ?EY3, <- surjective_pairing; auto.
  - intros q Q. destruct (Lw q Q) as [->|[->|[->|[_ [->|L]]]]]; [left..|right; assumption].
    + exists 0%nat. split; [lia|]. rewrite EX0, EY0. apply surjective_pairing.
    + exists 1%nat. split; [lia|]. rewrite EX1, EY1. apply surjective_pairing.
    + exists 2%nat. split; [lia|]. rewrite EX2, EY2. apply surjective_pairing.
    + exists 3%nat. split; [lia|]. rewrite EX3, EY3. apply surjective_pairing.
Qed.

Lemma C37_quadratic_step_proof :
  forall b h x b', session (fun t => 0 < t) b h -> 0 < tolerance b ->
  brent_min_next b = Ret (x, b') -> step_type b' = STEP_TYPE_QUADRATIC ->
  exists p q c z, (forall i, (i < 3)%nat -> quadratic_through p q c (X b i, Y b i)) /\
    2 * p * z + q = 0 /\ moved b z x.
Proof.
  intros b h x b' S T E D. destruct (session_B _ _ _ S) as (B & G).
  destruct (strict_session _ _ S) as (p0 & p1 & p2 & p3 & p4 & I & Dp).
  destruct (inv_X _ _ _ _ _ _ _ I) as (EX0 & EY0 & EX1 & EY1 & EX2 & EY2 & EX3 & EY3).
  destruct (next_full b x b' B G T E ltac:(rewrite D; discriminate)) as (_ & _ & [[Q _]|(z & Ec & Q & Mv)]); [rewrite D in Q; discriminate|].
  destruct (cand_step _ _ _ Ec) as [[Es N]|[[Es N]|[Es N]]]; rewrite D in Es; try discriminate.
  unfold candidate in Ec. rewrite N, (i_pts _ _ _ _ _ _ _ I) in Ec.
  destruct (parabola_ok p0 p1 p2 [p3; p4]) as (qa & qb & qc & EF & T0 & T1 & T2); try apply Dp. rewrite EF in Ec. cbn [obind] in Ec.
  unfold divide in Ec. destruct (Reqb_spec qa 0); [destruct (Reqb (- qb * (1 / 2)) 0); discriminate|].
  inversion Ec as [Ez]. exists qa, qb, qc, z. split; [|split; [|exact Mv]].
  - intros i Hi. destruct i as [|[|[|i]]]; [..|lia]; unfold quadratic_through in *; cbn [fst snd]; rewrite ?EX0, ?EX1, ?EX2, ?EY0, ?EY1, ?EY2; assumption.
  - rewrite <- Ez. field. assumption.
Qed.

Lemma C37_cubic_step_proof :
  forall b h x b', session (fun t => 0 < t) b h -> 0 < tolerance b ->
  brent_min_next b = Ret (x, b') -> step_type b' = STEP_TYPE_CUBIC ->
  exists p q c z, (forall i, (i < 4)%nat -> cubic_through p q c (X b 0, Y b 0) (X b i, Y b i)) /\
    slope p q c (z - X b 0) = 0 /\ (forall t, slope p q c t = 0 -> Rabs (z - X b 0) <= Rabs t) /\ moved b z x.
Proof.
  intros b h x b' S T E D. destruct (session_B _ _ _ S) as (B & G).
  destruct (strict_session _ _ S) as (p0 & p1 & p2 & p3 & p4 & I & Dp).
  destruct (inv_X _ _ _ _ _ _ _ I) as (EX0 & EY0 & EX1 & EY1 & EX2 & EY2 & EX3 & EY3).
  destruct (next_full b x b' B G T E ltac:(rewrite D; discriminate)) as (_ & _ & [[Q _]|(z & Ec & Q & Mv)]); [rewrite D in Q; discriminate|].
  destruct (cand_step _ _ _ Ec) as [[Es N]|[[Es N]|[Es N]]]; rewrite D in Es; try discriminate.
  unfold candidate in Ec. destruct (n_iterations b) eqn:En; [congruence|]. assert (N0 : n_iterations b <> O) by congruence.
  rewrite (i_pts _ _ _ _ _ _ _ I) in Ec.
  destruct (cubic_ok p0 p1 p2 p3 [p4]) as (qa & qb & qc & o & EF & T1 & T2 & T3 & Ho); try (apply Dp; assumption); try apply Dp.
  rewrite EF in Ec. cbn [obind] in Ec. destruct o as [[z'| |]|]; try discriminate.
  - inversion Ec; subst z'. exists qa, qb, qc, z. destruct Ho as [Z1 Z2]. rewrite <- EX0 in Z1, Z2.
    split; [|split; [assumption|split; assumption]].
    intros i Hi. destruct i as [|[|[|[|i]]]]; [..|lia]; unfold cubic_through in *; cbn [fst snd] in *;
      rewrite ?EX0, ?EX1, ?EX2, ?EX3, ?EY0, ?EY1, ?EY2, ?EY3; try assumption. ring.
  - inversion Ec as [[E1 E2]]. congruence.
Qed.

Lemma C37_golden_step_proof :
  forall P b h x b', session P b h -> 0 < tolerance b ->
  brent_min_next b = Ret (x, b') -> step_type b' = STEP_TYPE_GOLDEN ->
  exists e, 0 < e < 382 / 1000 /\
    ((X b 0 - xmin b < xmax b - X b 0 /\ x = X b 0 + (xmax b - X b 0) * e) \/
     (xmax b - X b 0 <= X b 0 - xmin b /\ x = X b 0 - (X b 0 - xmin b) * e)).
Proof.
  intros P b h x b' S T E D. destruct (session_B _ _ _ S) as (B & G).
  destruct (next_full b x b' B G T E ltac:(rewrite D; discriminate)) as (_ & _ & [[_ ->]|(z & _ & Q & _)]); [|congruence].
  pose proof PHI_close. exists (1 - gold_ratio b). split; [lra|]. unfold golden_point.
  destruct (Rltb_spec (X b 0 - xmin b) (xmax b - X b 0)); [left|right]; split; lra.
Qed.

Lemma C37_done_proof :
  forall P b h x b' y done b'', session P b h ->
  brent_min_next b = Ret (x, b') -> step_type b' <> STEP_TYPE_DONE -> brent_min_add b' y = Ret (done, b'') ->
  (done = true <->
    (xmax b'' - X b'' 0 < tolerance b'' /\ X b'' 0 - xmin b'' < tolerance b'') \/
    ((3 < n_iterations b'')%nat /\ Y b'' 3 - Y b'' 0 <= ytolerance b'')) /\
  (done = true -> exists c, brent_min_next b'' = Ret (X b'' 0, c) /\ step_type c = STEP_TYPE_DONE) /\
  (done = false -> forall x' c, brent_min_next b'' = Ret (x', c) -> step_type c <> STEP_TYPE_DONE).
Proof.
  intros P b h x b' y d b'' S E D A.
  destruct (inv_session _ _ _ S) as (p0 & p1 & p2 & p3 & p4 & I).
  destruct (inv_round _ _ _ _ _ _ _ _ _ _ _ _ I E D A) as (q0 & q1 & q2 & q3 & q4 & I' & _).
  destruct (inv_X _ _ _ _ _ _ _ I') as (EX & _).
  assert (B : xmin b'' < X b'' 0 < xmax b'') by (rewrite EX; split; [apply (i_lo _ _ _ _ _ _ _ I')|apply (i_hi _ _ _ _ _ _ _ I')]).
  assert (Ed : d = is_done b'').
  { revert A. unfold brent_min_add. destruct (if Rleb y (Y b' 0) then _ else _) as [[lo hi] g].
    destruct (make_room _ _ _) as [a i]. destruct (Rleb _ _); [|discriminate]. destruct (Rleb _ _); [|discriminate].
    destruct (Rleb _ _); [|discriminate]. destruct (Rltb _ _); [|discriminate]. destruct (Rltb _ _); [|discriminate].
    cbn [check obind]. intros A. inversion A. reflexivity. }
  assert (Nd : brent_min_next b'' = (if is_done b'' then Ret (X b'' 0, set_step b'' STEP_TYPE_DONE (next_x b'')) else
       brent_min_next b'')).
  { destruct (is_done b'') eqn:Eq; [|reflexivity]. unfold brent_min_next.
    destruct (Reqb_spec (xmax b'' - X b'' 0) 0); [lra|].
    destruct (Reqb_spec (X b'' 0 - xmin b'') 0); [lra|]. cbn [negb check obind]. rewrite Eq. reflexivity. }
  split; [|split].
  - rewrite Ed. unfold is_done. rewrite Bool.orb_true_iff, !Bool.andb_true_iff.
    rewrite <- (reflect_iff _ _ (Rltb_spec _ _)), <- (reflect_iff _ _ (Rltb_spec _ _)), <- (reflect_iff _ _ (Rleb_spec _ _)), Nat.ltb_lt. tauto.
  - intros ->. rewrite Nd, <- Ed. eexists. split; reflexivity.
  - intros ->. intros x' c En.
    rewrite next_eq in En by auto. destruct (candidate b'') as [[q s]| | |] eqn:Ec; try discriminate. cbn [obind] in En.
    assert (Fs : forall s' q', s' <> STEP_TYPE_DONE -> finish b'' s' q' = Ret (x', c) -> step_type c <> STEP_TYPE_DONE).
    { intros s' q' Hs. unfold finish. destruct q' as [r| |]; try discriminate.
      destruct (Rleb _ _); [|discriminate]. destruct (Rleb _ _); [|discriminate]. destruct (Reqb _ _); [discriminate|].
      cbn. intros F. inversion F. assumption. }
    destruct (Z.eqb s STEP_TYPE_GOLDEN); [eapply Fs; [|exact En]; discriminate|].
    destruct (adjust b'' q) as [q' [|]]; (eapply Fs; [|exact En]); [discriminate|].
    destruct (cand_step _ _ _ Ec) as [[-> _]|[[-> _]|[-> _]]]; discriminate.
Qed.

Definition t0 : (R * R) * (R * R) * R := ((0, 0), (0, 0), 0).
Lemma case_init : exists b, brent_min_init t0 (-1) 1 0 0 1 1 = Ret b /\ b =
  mk [(0, 0); (-1, 1); (1, 1); (0, 0); (0, 0)] (-1) 1 0 PHI 0 0 STEP_TYPE_INITIALIZED O.
Proof. unfold brent_min_init, t0. go. eexists. split; reflexivity. Qed.

Lemma C37_session_exists_proof :
  exists b h x b', session (fun t => 0 < t) b h /\ length h = 5%nat /\ 0 < tolerance b /\ n_iterations b = 2%nat /\
    brent_min_next b = Ret (x, b') /\ step_type b' = STEP_TYPE_GOLDEN.
Proof.
  destruct stuck_start as (b & p0 & p1 & p2 & p3 & p4 & F & K). pose proof (stuck_next _ _ _ _ _ _ _ K) as N.
  assert (G : forall n b, follow trough (1 / 1000) 0 1 M n b -> exists h, session (fun t => 0 < t) b h /\ length h = (3 + n)%nat /\ tolerance b = 1 / 1000 /\ n_iterations b = n).
  { clear. induction 1 as [junk b E|n b x b' d b'' F IH E D A].
    - eexists. split; [apply session_set; eapply session_init; exact E|]. repeat split.
      destruct (init_inv _ _ _ _ _ _ _ _ E) as (? & ? & ? & _ & _ & _ & _ & _ & _ & _ & _ & N & _). exact N.
    - destruct IH as (h & S & L & T & N). eexists. split; [eapply session_round; eauto; cbv beta; rewrite T; lra|].
      split; [cbn; rewrite L; lia|].
      destruct (next_fields _ _ _ E D) as (_ & _ & _ & _ & _ & Ft & _ & Fn & _).
      revert A. unfold brent_min_add. destruct (if Rleb _ (Y b' 0) then _ else _) as [[lo hi] g].
      destruct (make_room _ _ _) as [a i]. destruct (Rleb _ _); [|discriminate]. destruct (Rleb _ _); [|discriminate].
      destruct (Rleb _ _); [|discriminate]. destruct (Rltb _ _); [|discriminate]. destruct (Rltb _ _); [|discriminate].
      cbn [check obind]. intros A. inversion A. cbn. rewrite Ft, Fn, T, N. split; reflexivity. }
  destruct (G _ _ F) as (h & S & L & T & Nn). do 4 eexists. split; [exact S|]. split; [exact L|]. split; [rewrite T; lra|].
  split; [exact Nn|]. split; [exact N|reflexivity].
Qed.

Lemma C37_zero_tolerance_refuted_proof :
  ~ (forall junk x1 y1 x2 y2 x3 y3 b, bracketed (x1, y1) (x2, y2) (x3, y3) ->
     brent_min_init junk x1 y1 x2 y2 x3 y3 = Ret b -> exists x b', brent_min_next b = Ret (x, b')).
Proof.
  intros H. destruct case_init as (b & E & Eb).
  destruct (H t0 (-1) 1 0 0 1 1 b ltac:(left; unfold lowest_between; cbn; lra) E) as (x & b' & N).
  rewrite Eb in N. rewrite next_eq in N.
  - unfold candidate in N. cbn [n_iterations pts] in N.
    destruct (parabola_ok (0, 0) (-1, 1) (1, 1) [(0, 0); (0, 0)]) as (p & q & c & EF & T1 & T2 & T3); try (cbn; lra).
    rewrite EF in N. unfold quadratic_through in *. cbn [fst snd] in *.
    assert (A : p = 1 /\ q = 0) by lra. destruct A as [-> ->]. cbn [obind] in N. unfold divide in N.
    rewrite (eqb_f 1 0) in N by lra. replace (- 0 * (1 / 2) / 1) with 0 in N by lra. revert N. simp. unfold adjust. go. discriminate.
  - unfold X, pt. cbn. lra.
  - unfold is_done. go. reflexivity.
Qed.

Lemma C37_tie_refuted_proof :
  ~ (forall junk x1 y1 x2 y2 x3 y3, x1 < x2 < x3 -> y2 <= y1 -> y2 <= y3 ->
     exists b, brent_min_init junk x1 y1 x2 y2 x3 y3 = Ret b).
Proof.
  intros H. destruct (H t0 1 0 2 0 3 5) as (b & E); try lra. revert E. unfold brent_min_init, t0. go. discriminate.
Qed.

Lemma C37_flat_refuted_proof :
  ~ (forall junk x1 y1 x2 y2 x3 y3 b t, brent_min_init junk x1 y1 x2 y2 x3 y3 = Ret b -> 0 < t ->
     exists x b', brent_min_next (set_tolerance b t 0) = Ret (x, b')).
Proof.
  intros H.
  assert (I : exists b, brent_min_init t0 2 0 1 0 3 0 = Ret b /\ b =
    mk [(2, 0); (1, 0); (3, 0); (0, 0); (0, 0)] 1 3 0 PHI 0 0 STEP_TYPE_INITIALIZED O).
  { unfold brent_min_init, t0. go. eexists. split; reflexivity. }
  destruct I as (b & E & Eb). destruct (H _ _ _ _ _ _ _ _ (1 / 10) E ltac:(lra)) as (x & b' & N).
  rewrite Eb in N. unfold set_tolerance in N. rewrite next_eq in N.
  - unfold candidate in N. cbn [n_iterations pts] in N.
    destruct (parabola_ok (2, 0) (1, 0) (3, 0) [(0, 0); (0, 0)]) as (p & q & c & EF & T1 & T2 & T3); try (cbn; lra).
    cbn [BrentModel.xmin BrentModel.pts] in N. cbn in EF. rewrite EF in N. unfold quadratic_through in *. cbn [fst snd] in *.
    assert (A : p = 0 /\ q = 0) by lra. destruct A as [-> ->]. cbn [obind] in N. unfold divide in N.
    rewrite (eqb_t 0 0) in N by lra. rewrite eqb_t in N by lra. revert N. simp. discriminate.
  - unfold X, pt. cbn. lra.
  - unfold is_done. go. reflexivity.
Qed.

Lemma C37_convergence_refuted_proof :
  ~ (forall f x1 x2 x3 m, bracketed (x1, f x1) (x2, f x2) (x3, f x3) ->
     (forall x y, x < y <= m -> f y < f x) -> (forall x y, m <= x < y -> f x < f y) ->
     exists n, forall k b, (n <= k)%nat -> follow f (1 / 1000) x1 x2 x3 k b -> xmax b - xmin b < 8 / 10 \/ Y b 0 < f m + 1 / 10).
Proof.
  intros H. destruct (H trough 0 1 M 4) as (n & N).
  - left. unfold lowest_between. rewrite trough_0, trough_1, trough_M. cbn. unfold M. lra.
  - intros x y L. rewrite !trough_line by lra. lra.
  - intros x y L. unfold trough. dec; lra.
  - destruct (stuck_forever n) as (b & p0 & p1 & p2 & p3 & p4 & e & F & K).
    destruct (stuck_far _ _ _ _ _ _ _ K) as (K1 & K2 & _). pose proof (k_lo _ _ _ _ _ _ _ K) as K3.
    replace (fst p0) with (X b 0) in K3 by (unfold X; rewrite (k_pts _ _ _ _ _ _ _ K); reflexivity).
    rewrite trough_line in N by lra. destruct (N (2 + n)%nat b ltac:(lia) F); lra.
Qed.

Lemma C37_convergence_follows_proof :
  exists f x1 x2 x3, forall n, exists b, follow f (1 / 1000) x1 x2 x3 (2 + n) b /\ 8 / 10 < xmax b - xmin b.
Proof.
  exists trough, 0, 1, M. intros n. destruct (stuck_forever n) as (b & p0 & p1 & p2 & p3 & p4 & e & F & K). exists b. split; [exact F|].
  destruct (stuck_far _ _ _ _ _ _ _ K) as (K1 & _). pose proof (k_lo _ _ _ _ _ _ _ K) as K3.
  replace (fst p0) with (X b 0) in K3 by (unfold X; rewrite (k_pts _ _ _ _ _ _ _ K); reflexivity). lra.
Qed.
