(** Proofs about the model of brentmin.cpp. *)
From Verif Require Import RBase BrentModel BrentSpec.
Open Scope list_scope.

Ltac cases :=
  repeat match goal with
         | |- context [Rltb ?a ?b] => destruct (Rltb_spec a b)
         | |- context [Rleb ?a ?b] => destruct (Rleb_spec a b)
         | |- context [Reqb ?a ?b] => destruct (Reqb_spec a b)
         | H : context [Rltb ?a ?b] |- _ => destruct (Rltb_spec a b)
         | H : context [Rleb ?a ?b] |- _ => destruct (Rleb_spec a b)
         | H : context [Reqb ?a ?b] |- _ => destruct (Reqb_spec a b)
         end.

Lemma PHI_bounds : 6 / 10 < PHI < 7 / 10.
Proof. unfold PHI. split; lra. Qed.

Record inv (b : brent) (h : list (R * R)) (p0 p1 p2 p3 p4 : R * R) : Prop := {
  i_pts : pts b = [p0; p1; p2; p3; p4];
  i_lo : xmin b < fst p0;
  i_hi : fst p0 < xmax b;
  i_01 : snd p0 <= snd p1;
  i_12 : snd p1 <= snd p2;
  i_23 : n_iterations b <> O -> snd p2 <= snd p3;
  i_in0 : In p0 h;
  i_in1 : In p1 h;
  i_in2 : In p2 h;
  i_in3 : n_iterations b <> O -> In p3 h;
  i_min : forall q, In q h -> snd p0 <= snd q;
  i_blo : exists y, In (xmin b, y) h;
  i_bhi : exists y, In (xmax b, y) h;
  i_out : forall q, In q h -> q = p0 \/ fst q <= xmin b \/ xmax b <= fst q;
  i_low : forall q, In q h -> q = p0 \/ q = p1 \/ q = p2 \/ n_iterations b <> O /\ (q = p3 \/ snd p3 <= snd q);
  i_gold : PHI <= gold_ratio b < 1 }.

Record distinct (b : brent) (p0 p1 p2 p3 : R * R) : Prop := {
  d_01 : fst p0 <> fst p1;
  d_02 : fst p0 <> fst p2;
  d_12 : fst p1 <> fst p2;
  d_03 : n_iterations b <> O -> fst p0 <> fst p3;
  d_13 : n_iterations b <> O -> fst p1 <> fst p3;
  d_23 : n_iterations b <> O -> fst p2 <> fst p3 }.

Lemma sort3 p q r j3 j4 :
  exists a b c, bubble_down (bubble_down [p; q; r; j3; j4] 2) 2 = [a; b; c; j3; j4] /\
    snd a <= snd b <= snd c /\
    ([a; b; c] = [p; q; r] \/ [a; b; c] = [p; r; q] \/ [a; b; c] = [q; p; r] \/
     [a; b; c] = [q; r; p] \/ [a; b; c] = [r; p; q] \/ [a; b; c] = [r; q; p]).
Proof.
  cbn. unfold pt. cbn.
  destruct (Rltb_spec (snd r) (snd q)); cbn.
  - destruct (Rltb_spec (snd r) (snd p)); cbn.
    + destruct (Rltb_spec (snd q) (snd p)); cbn.
      * destruct (Rltb_spec (snd q) (snd r)); cbn; [lra|]. do 3 eexists. split; [reflexivity|]. split; [lra|]. intuition.
      * destruct (Rltb_spec (snd p) (snd r)); cbn; [lra|]. do 3 eexists. split; [reflexivity|]. split; [lra|]. intuition.
    + destruct (Rltb_spec (snd q) (snd r)); cbn; [lra|].
      destruct (Rltb_spec (snd r) (snd p)); cbn; [lra|]. do 3 eexists. split; [reflexivity|]. split; [lra|]. intuition.
  - destruct (Rltb_spec (snd q) (snd p)); cbn.
    + destruct (Rltb_spec (snd r) (snd p)); cbn.
      * destruct (Rltb_spec (snd r) (snd q)); cbn; [lra|]. do 3 eexists. split; [reflexivity|]. split; [lra|]. intuition.
      * destruct (Rltb_spec (snd p) (snd q)); cbn; [lra|]. do 3 eexists. split; [reflexivity|]. split; [lra|]. intuition.
    + destruct (Rltb_spec (snd r) (snd q)); cbn; [lra|].
      destruct (Rltb_spec (snd q) (snd p)); cbn; [lra|]. do 3 eexists. split; [reflexivity|]. split; [lra|]. intuition.
Qed.

Lemma low3 x1 x2 x3 : let l := if Rltb x2 x1 then x2 else x1 in
  let lo := if Rltb x3 l then x3 else l in
  (lo = x1 \/ lo = x2 \/ lo = x3) /\ lo <= x1 /\ lo <= x2 /\ lo <= x3.
Proof. cbv zeta. cases; intuition lra. Qed.
Lemma high3 x1 x2 x3 : let l := if Rltb x1 x2 then x2 else x1 in
  let hi := if Rltb l x3 then x3 else l in
  (hi = x1 \/ hi = x2 \/ hi = x3) /\ x1 <= hi /\ x2 <= hi /\ x3 <= hi.
Proof. cbv zeta. cases; intuition lra. Qed.

(** What a successful initialisation means. *)
Lemma init_inv junk x1 y1 x2 y2 x3 y3 b :
  brent_min_init junk x1 y1 x2 y2 x3 y3 = Ret b ->
  exists p0 p1 p2, pts b = [p0; p1; p2; fst (fst junk); snd (fst junk)] /\
    snd p0 <= snd p1 <= snd p2 /\
    (forall q, In q [p0; p1; p2] <-> In q [(x1, y1); (x2, y2); (x3, y3)]) /\
    (xmin b = x1 \/ xmin b = x2 \/ xmin b = x3) /\ (xmax b = x1 \/ xmax b = x2 \/ xmax b = x3) /\
    xmin b < fst p0 < xmax b /\
    ((fst p1 = xmin b /\ fst p2 = xmax b) \/ (fst p2 = xmin b /\ fst p1 = xmax b)) /\
    gold_ratio b = PHI /\ n_iterations b = O /\ tolerance b = 0 /\ ytolerance b = 0.
Proof.
  destruct junk as [[j3 j4] jn]. unfold brent_min_init. cbn [fst snd].
  destruct (sort3 (x1, y1) (x2, y2) (x3, y3) j3 j4) as (p0 & p1 & p2 & E & S & Pm). cbv zeta. rewrite E.
  pose proof (low3 x1 x2 x3) as L. pose proof (high3 x1 x2 x3) as H. cbv zeta in L, H.
  set (lo := if Rltb x3 (if Rltb x2 x1 then x2 else x1) then x3 else (if Rltb x2 x1 then x2 else x1)) in *.
  set (hi := if Rltb (if Rltb x1 x2 then x2 else x1) x3 then x3 else (if Rltb x1 x2 then x2 else x1)) in *.
  clearbody lo hi. unfold pt. cbn [nth].
  destruct (Rltb_spec lo (fst p0)); [|discriminate]. destruct (Rltb_spec (fst p0) hi); [|discriminate].
  cbn [check obind]. intros B. inversion B; subst b; clear B. cbn.
  exists p0, p1, p2. destruct L as (L & L1 & L2 & L3), H as (H & H1 & H2 & H3).
  split; [reflexivity|]. split; [lra|].
  split; [destruct Pm as [Pm|[Pm|[Pm|[Pm|[Pm|Pm]]]]]; inversion Pm; subst; cbn; tauto|].
  split; [assumption|]. split; [assumption|]. split; [lra|]. split; [|repeat split].
  destruct Pm as [Pm|[Pm|[Pm|[Pm|[Pm|Pm]]]]]; inversion Pm; subst; cbn [fst snd] in *; clear Pm E;
    destruct L as [->|[->| ->]], H as [->|[->| ->]]; lra.
Qed.

Lemma inv_init junk x1 y1 x2 y2 x3 y3 b :
  brent_min_init junk x1 y1 x2 y2 x3 y3 = Ret b ->
  exists p0 p1 p2 p3 p4, inv b [(x1, y1); (x2, y2); (x3, y3)] p0 p1 p2 p3 p4 /\ distinct b p0 p1 p2 p3.
Proof.
  intros E. destruct (init_inv _ _ _ _ _ _ _ _ E) as (p0 & p1 & p2 & Ep & S & M & Hl & Hh & B & C & G & N & _ & _).
  assert (O : forall q, In q [p0; p1; p2] -> q = p0 \/ q = p1 \/ q = p2) by (cbn; intuition).
  exists p0, p1, p2. do 2 eexists. split; split; rewrite ?N, ?G; try exact Ep; try tauto; try lra.
  - apply M. cbn. tauto.
  - apply M. cbn. tauto.
  - apply M. cbn. tauto.
  - intros q Q. apply M, O in Q. destruct Q as [->|[->| ->]]; lra.
  - destruct Hl as [->|[->| ->]]; eexists; cbn; eauto.
  - destruct Hh as [->|[->| ->]]; eexists; cbn; eauto.
  - intros q Q. apply M, O in Q. destruct Q as [->|[->| ->]]; [tauto|right..]; lra.
  - intros q Q. apply M, O in Q. tauto.
  - pose proof PHI_bounds. lra.
Qed.

(** What the fields are after a suggestion. *)
Lemma next_fields b x b' : brent_min_next b = Ret (x, b') -> step_type b' <> STEP_TYPE_DONE ->
  is_done b = false /\ pts b' = pts b /\ xmin b' = xmin b /\ xmax b' = xmax b /\ gold_ratio b' = gold_ratio b /\
  tolerance b' = tolerance b /\ ytolerance b' = ytolerance b /\ n_iterations b' = n_iterations b /\
  next_x b' = x /\ xmin b <= x <= xmax b /\ x <> X b 0.
Proof.
  unfold brent_min_next. intros E D. revert E.
  destruct (Reqb _ 0); [discriminate|]. destruct (Reqb _ 0); [discriminate|]. cbn [negb check obind].
  destruct (is_done b).
  { intros E. inversion E; subst. cbn in D. congruence. }
  match goal with |- obind ?m _ = _ -> _ => destruct m as [[c s]| | |]; cbn [obind]; try discriminate end.
  match goal with |- (let '(_, _) := ?m in _) = _ -> _ => destruct m as [c' s'] end.
  match goal with |- match ?m with _ => _ end = _ -> _ => destruct m as [r| |]; try discriminate end.
  destruct (Rleb_spec (xmin b) r); [|discriminate]. destruct (Rleb_spec r (xmax b)); [|discriminate].
  destruct (Reqb_spec r (X b 0)); [discriminate|]. cbn [check obind negb].
  intros E. inversion E; subst. cbn. repeat split; auto.
Qed.

Lemma room_spec a idx y : make_room a idx y = 
  match idx with O => (a, O) | S i => if Rleb y (snd (pt a i)) then make_room (put a idx (pt a i)) i y else (a, idx) end.
Proof. destruct idx; reflexivity. Qed.

(** The list after an insertion. *)
Lemma insert5 p0 p1 p2 p3 p4 n x y : snd p0 <= snd p1 -> snd p1 <= snd p2 -> (n <> O -> snd p2 <= snd p3) ->
  exists q0 q1 q2 q3 q4,
    (let '(a, i) := make_room [p0; p1; p2; p3; p4] (match n with O => 3 | _ => 4 end)%nat y in put a i (x, y))
      = [q0; q1; q2; q3; q4] /\
    snd q0 <= snd q1 <= snd q2 /\ snd q2 <= snd q3 /\
    ((y <= snd p0 /\ q0 = (x, y) /\ q1 = p0 /\ q2 = p1 /\ q3 = p2) \/
     (snd p0 < y /\ q0 = p0 /\
       ((q1 = (x, y) /\ q2 = p1 /\ q3 = p2) \/ (q1 = p1 /\ q2 = (x, y) /\ q3 = p2) \/
        ((n <> O -> y <= snd p3) /\ q1 = p1 /\ q2 = p2 /\ q3 = (x, y)) \/ (n <> O /\ snd p3 < y /\ q1 = p1 /\ q2 = p2 /\ q3 = p3)))).
Proof.
  intros H1 H2 H3. destruct n as [|n].
  - clear H3. cbn. unfold pt. cbn.
    destruct (Rleb_spec y (snd p2)); cbn; [destruct (Rleb_spec y (snd p1)); cbn; [destruct (Rleb_spec y (snd p0)); cbn|]|];
    do 5 eexists; (split; [reflexivity|]); cbn; repeat split; try lra; try (left; repeat split; auto; lra);
      right; split; try lra; split; try reflexivity; try tauto; right; right; left; repeat split; congruence.
  - assert (H3' : snd p2 <= snd p3) by (apply H3; congruence). clear H3. cbn. unfold pt. cbn.
    destruct (Rleb_spec y (snd p3)); cbn; [destruct (Rleb_spec y (snd p2)); cbn; [destruct (Rleb_spec y (snd p1)); cbn; [destruct (Rleb_spec y (snd p0)); cbn|]|]|];
    do 5 eexists; (split; [reflexivity|]); cbn; repeat split; try lra; try (left; repeat split; auto; lra);
      right; split; try lra; split; try reflexivity; try tauto; right; right; right; repeat split; congruence || lra.
Qed.

(** The state after an addition, without the assertions. *)
Definition grown (b : brent) (y : R) (q0 q1 q2 q3 q4 : R * R) : brent :=
  let golden := Z.eqb (step_type b) STEP_TYPE_GOLDEN in
  let x := next_x b in
  let '(lo, hi, g) :=
    if Rleb y (Y b 0) then
      (if Rltb x (X b 0) then xmin b else X b 0, if Rltb x (X b 0) then X b 0 else xmax b,
       if golden then (1 + gold_ratio b) / 2 else gold_ratio b)
    else (if Rltb x (X b 0) then x else xmin b, if Rltb x (X b 0) then xmax b else x,
       if golden then (PHI + gold_ratio b) / 2 else gold_ratio b) in
  mk [q0; q1; q2; q3; q4] lo hi x g (tolerance b) (ytolerance b) (step_type b) (S (n_iterations b)).

Lemma add_eq b y p0 p1 p2 p3 p4 : pts b = [p0; p1; p2; p3; p4] ->
  snd p0 <= snd p1 -> snd p1 <= snd p2 -> (n_iterations b <> O -> snd p2 <= snd p3) ->
  exists q0 q1 q2 q3 q4,
    let b' := grown b y q0 q1 q2 q3 q4 in
    brent_min_add b y = (if Rltb (xmin b') (fst q0) && Rltb (fst q0) (xmax b') then Ret (is_done b', b') else Abort) /\
    snd q0 <= snd q1 <= snd q2 /\ snd q2 <= snd q3 /\
    ((y <= snd p0 /\ q0 = (next_x b, y) /\ q1 = p0 /\ q2 = p1 /\ q3 = p2) \/
     (snd p0 < y /\ q0 = p0 /\
       ((q1 = (next_x b, y) /\ q2 = p1 /\ q3 = p2) \/ (q1 = p1 /\ q2 = (next_x b, y) /\ q3 = p2) \/
        ((n_iterations b <> O -> y <= snd p3) /\ q1 = p1 /\ q2 = p2 /\ q3 = (next_x b, y)) \/ (n_iterations b <> O /\ snd p3 < y /\ q1 = p1 /\ q2 = p2 /\ q3 = p3)))).
Proof.
  intros Ep H1 H2 H3.
  destruct (insert5 p0 p1 p2 p3 p4 (n_iterations b) (next_x b) y H1 H2 H3) as (q0 & q1 & q2 & q3 & q4 & E & Q1 & Q2 & C).
  exists q0, q1, q2, q3, q4. split; [|split; [|split]; assumption].
  unfold brent_min_add, grown. rewrite Ep.
  destruct (make_room _ _ y) as [a i]. rewrite E.
  destruct (if Rleb y (Y b 0) then _ else _) as [[lo hi] g]. unfold X, Y, pt. cbn.
  destruct (Rleb_spec (snd q0) (snd q1)); [|lra]. destruct (Rleb_spec (snd q1) (snd q2)); [|lra].
  destruct (Rleb_spec (snd q2) (snd q3)); [|lra]. cbn.
  destruct (Rltb lo (fst q0)); cbn; [|reflexivity]. destruct (Rltb (fst q0) hi); reflexivity.
Qed.

Definition outside (b : brent) (q : R * R) : Prop := fst q <= xmin b \/ xmax b <= fst q.

Lemma others_outside b h p0 p1 p2 p3 p4 : inv b h p0 p1 p2 p3 p4 -> distinct b p0 p1 p2 p3 ->
  outside b p1 /\ outside b p2 /\ (n_iterations b <> O -> outside b p3).
Proof.
  intros [Ep Lo Hi H01 H12 H23 In0 In1 In2 In3 Mn Bl Bh Ou Lw Go] [D01 D02 D12 D03 D13 D23]. unfold outside.
  repeat split.
  - destruct (Ou p1 In1) as [->|]; [congruence|assumption].
  - destruct (Ou p2 In2) as [->|]; [congruence|assumption].
  - intros N. destruct (Ou p3 (In3 N)) as [->|]; [|assumption]. specialize (D03 N). congruence.
Qed.

Lemma inv_round b h x b' y d b'' p0 p1 p2 p3 p4 :
  inv b h p0 p1 p2 p3 p4 -> brent_min_next b = Ret (x, b') -> step_type b' <> STEP_TYPE_DONE ->
  brent_min_add b' y = Ret (d, b'') ->
  exists q0 q1 q2 q3 q4, inv b'' ((x, y) :: h) q0 q1 q2 q3 q4 /\
    xmin b <= xmin b'' /\ xmax b'' <= xmax b /\ snd q0 <= snd p0 /\
    (xmin b < x < xmax b -> distinct b p0 p1 p2 p3 -> distinct b'' q0 q1 q2 q3) /\
    (xmin b < x < xmax b -> xmin b < xmin b'' \/ xmax b'' < xmax b).
Proof.
  intros I E D A. pose proof (others_outside _ _ _ _ _ _ _ I) as OO.
  destruct (next_fields _ _ _ E D) as (_ & Fp & Fl & Fh & Fg & Ft & Fy & Fn & Fx & Fr & Fne). clear E D.
  destruct I as [Ep Lo Hi H01 H12 H23 In0 In1 In2 In3 Mn Bl Bh Ou Lw Go].
  assert (Ep' : pts b' = [p0; p1; p2; p3; p4]) by congruence.
  destruct (add_eq b' y p0 p1 p2 p3 p4 Ep' H01 H12) as (q0 & q1 & q2 & q3 & q4 & EA & Q1 & Q2 & C).
  { rewrite Fn. assumption. }
  cbv zeta in EA. rewrite A in EA. clear A.
  unfold grown, X, Y in EA. rewrite Ep', ?Fl, ?Fh, ?Fg, ?Ft, ?Fy, ?Fn, ?Fx in EA. unfold pt in EA. cbn [nth] in EA.
  unfold X, pt in Fne. rewrite Ep in Fne. cbn [nth] in Fne. rewrite Fx, Fn in C.
  set (gold := Z.eqb (step_type b') STEP_TYPE_GOLDEN) in *. clearbody gold.
  assert (PH := PHI_bounds).
  assert (DD : xmin b < x < xmax b -> distinct b p0 p1 p2 p3 -> forall t, distinct (mk [] 0 0 0 0 0 0 0 (S t)) q0 q1 q2 q3).
  { intros Hx Dp t. destruct (OO Dp) as (O1 & O2 & O3). destruct Dp as [D01 D02 D12 D03 D13 D23].
    unfold outside in *.
    assert (x <> fst p1) by (intros ->; lra). assert (x <> fst p2) by (intros ->; lra).
    assert (n_iterations b <> O -> x <> fst p3) by (intros N ->; specialize (O3 N); lra).
    destruct C as [(_ & -> & -> & -> & ->)|(_ & -> & [(-> & -> & ->)|[(-> & -> & ->)|[(Nx & -> & -> & ->)|(N & Ny & -> & -> & ->)]]])];
      split; cbn [fst snd n_iterations]; intros; auto. }
  assert (LL : forall t q, In q ((x, y) :: h) -> q = q0 \/ q = q1 \/ q = q2 \/ S t <> O /\ (q = q3 \/ snd q3 <= snd q)).
  { intros t q [<-|Q].
    - destruct C as [(_ & -> & -> & -> & ->)|(_ & -> & [(-> & -> & ->)|[(-> & -> & ->)|[(Nx & -> & -> & ->)|(N & Ny & -> & -> & ->)]]])];
        auto 6. right; right; right. split; [congruence|]. right. cbn [snd]. lra.
    - apply Lw in Q.
      destruct C as [(_ & -> & -> & -> & ->)|(_ & -> & [(-> & -> & ->)|[(-> & -> & ->)|[(Nx & -> & -> & ->)|(N & Ny & -> & -> & ->)]]])];
      destruct Q as [->|[->|[->|[N' [->|Q]]]]]; auto 6; right; right; right; (split; [congruence|]); right;
      try specialize (H23 N'); try specialize (Nx N'); cbn [snd] in *; lra. }
  exists q0, q1, q2, q3, q4.
  destruct (Rleb_spec y (snd p0)) as [L|L].
  - destruct C as [C|C]; [|lra]. destruct C as (_ & -> & -> & -> & ->). cbn [fst snd] in *.
    destruct (Rltb_spec x (fst p0)) as [Lx|Lx]; cbn [xmin xmax] in EA;
    (match type of EA with _ = (if ?c then _ else _) => destruct c eqn:EC; [|discriminate] end);
    apply andb_prop in EC; destruct EC as [EC1 EC2];
    repeat match goal with H : Rltb _ _ = true |- _ => apply (reflect_iff _ _ (Rltb_spec _ _)) in H end;
    inversion EA; subst d b''; clear EA; cbn [xmin xmax].
    + split; [split|]; cbn [pts xmin xmax n_iterations gold_ratio fst snd]; auto; try lra; try (cbn; tauto).
      * intros q [<-|Q]; cbn; [lra|]. apply Mn in Q. lra.
      * destruct Bl as [ya Q]. exists ya. right. assumption.
      * exists (snd p0). right. destruct p0; assumption.
      * intros q [<-|Q]; cbn; [tauto|]. apply Ou in Q. destruct Q as [->|Q]; [right; right; lra|right; lra].
      * destruct gold; lra.
      * split; [lra|split; [lra|split; [lra|split; [|intros; lra]]]].
        intros X1 X2. destruct (DD X1 X2 (n_iterations b)). split; assumption.
    + split; [split|]; cbn [pts xmin xmax n_iterations gold_ratio fst snd]; auto; try lra; try (cbn; tauto).
      * intros q [<-|Q]; cbn; [lra|]. apply Mn in Q. lra.
      * exists (snd p0). right. destruct p0; assumption.
      * destruct Bh as [ya Q]. exists ya. right. assumption.
      * intros q [<-|Q]; cbn; [tauto|]. apply Ou in Q. destruct Q as [->|Q]; [right; left; lra|right; lra].
      * destruct gold; lra.
      * split; [lra|split; [lra|split; [lra|split; [|intros; lra]]]].
        intros X1 X2. destruct (DD X1 X2 (n_iterations b)). split; assumption.
  - destruct C as [C|C]; [lra|]. destruct C as (_ & -> & C).
    assert (I1 : In q1 ((x, y) :: h)) by (cbn; intuition subst; auto).
    assert (I2 : In q2 ((x, y) :: h)) by (cbn; intuition subst; auto).
    assert (I3 : In q3 ((x, y) :: h)) by (cbn; intuition subst; auto).
    clear C.
    destruct (Rltb_spec x (fst p0)) as [Lx|Lx]; cbn [xmin xmax] in EA;
    (match type of EA with _ = (if ?c then _ else _) => destruct c eqn:EC; [|discriminate] end);
    apply andb_prop in EC; destruct EC as [EC1 EC2];
    repeat match goal with H : Rltb _ _ = true |- _ => apply (reflect_iff _ _ (Rltb_spec _ _)) in H end;
    inversion EA; subst d b''; clear EA; cbn [xmin xmax].
    + split; [split|]; cbn [pts xmin xmax n_iterations gold_ratio fst snd]; auto; try lra; try (cbn; tauto).
      * intros q [<-|Q]; cbn; [lra|]. apply Mn in Q. lra.
      * exists y. cbn. tauto.
      * destruct Bh as [ya Q]. exists ya. right. assumption.
      * intros q [<-|Q]; cbn; [lra|]. apply Ou in Q. destruct Q as [->|Q]; [tauto|right; lra].
      * destruct gold; lra.
      * split; [lra|split; [lra|split; [lra|split; [|intros; lra]]]].
        intros X1 X2. destruct (DD X1 X2 (n_iterations b)). split; assumption.
    + split; [split|]; cbn [pts xmin xmax n_iterations gold_ratio fst snd]; auto; try lra; try (cbn; tauto).
      * intros q [<-|Q]; cbn; [lra|]. apply Mn in Q. lra.
      * destruct Bl as [ya Q]. exists ya. right. assumption.
      * exists y. cbn. tauto.
      * intros q [<-|Q]; cbn; [lra|]. apply Ou in Q. destruct Q as [->|Q]; [tauto|right; lra].
      * destruct gold; lra.
      * split; [lra|split; [lra|split; [lra|split; [|intros; lra]]]].
        intros X1 X2. destruct (DD X1 X2 (n_iterations b)). split; assumption.
Qed.

Lemma inv_session P b h : session P b h -> exists p0 p1 p2 p3 p4, inv b h p0 p1 p2 p3 p4.
Proof.
  intros S. induction S as [junk x1 y1 x2 y2 x3 y3 b E|b h t yt S IH|b h x b' y d b'' S IH T E D A].
  - destruct (inv_init _ _ _ _ _ _ _ _ E) as (p0 & p1 & p2 & p3 & p4 & I & _). eauto 6.
  - destruct IH as (p0 & p1 & p2 & p3 & p4 & [Ep Lo Hi H01 H12 H23 In0 In1 In2 In3 Mn Bl Bh Ou Lw Go]).
    exists p0, p1, p2, p3, p4. split; assumption.
  - destruct IH as (p0 & p1 & p2 & p3 & p4 & I).
    destruct (inv_round _ _ _ _ _ _ _ _ _ _ _ _ I E D A) as (q0 & q1 & q2 & q3 & q4 & I' & _). eauto 6.
Qed.
