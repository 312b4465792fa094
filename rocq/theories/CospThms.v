(** Theorems of C60 with their proofs; PropCosp.v states them again. *)
From Coq Require Import QArith Qreals Reals String Lia Lra.
From Verif Require Import CBase CStr RBase TstrModel TstrSpec TstrNum CospModel CospSpec CospHist CospText CospTerms CospScan CospFind CospLoad.
From Verif Require RotSpec.
Import ListNotations.
Local Open Scope string_scope.
Local Open Scope list_scope.
Local Open Scope Z_scope.

Lemma in_file_loads file obj system last n p angles q a d w fuel : in_file file obj system last n p angles q a d w -> (List.length file < fuel)%nat ->
  Z.of_nat (List.length file) <= IMAX -> obj <> NO_OBJECT_SELECTED ->
  exists lines rm ps s rest, load fuel file = Ret lines /\ remaps rm ps /\ alias ps obj (obj_no s) /\ is_section s angles /\ obj_no s = n /\ letter s = p /\
    lines = rm ++ section_lines s ++ rest /\ Z.of_nat (List.length lines) <= IMAX /\ (angles <> [] -> rm ++ before s <> []) /\
    (forall t, In t lines -> (List.length t < fuel)%nat) /\
    (if last then rest = [] else exists stop post, rest = stop :: post /\ ends_object stop) /\ items system (item_lines s) q a d w.
Proof.
  intros (lines & rm & ps & s & rest & H1 & H2 & H3 & H4 & H5 & H6 & H7 & H8 & H9 & H10) Hl HI Ho.
  destruct (load_file file lines fuel H1 Hl) as (L1 & L2 & L3).
  exists lines, rm, ps, s, rest. rewrite H5. repeat (split; [assumption || lia|]). assumption.
Qed.
Lemma calc_first fuel E obj system jd : obj <> NO_OBJECT_SELECTED -> obj <> 3 ->
  calc_planet_orientation fuel E init_statics obj system jd =
  do '(rv, r, s) <- get_cospar_data fuel E (mk_asked true true false) init_statics obj system (jd + dt E jd / 86400)%R;
  do m <- orientation r;
  Ret (rv, m, mk_statics (text s) (prev_planet s) (prev_system s) (prev_omega s) obj system jd m rv).
Proof.
  intros Ho H3. unfold calc_planet_orientation. cbn [p_planet init_statics].
  replace (obj =? NO_OBJECT_SELECTED) with false by (symmetry; now apply Z.eqb_neq). cbn [andb].
  replace (obj =? 3) with false by (symmetry; now apply Z.eqb_neq). reflexivity.
Qed.
Lemma get_first fuel E file lines A obj system jde : default_file E = Some file -> load fuel file = Ret lines -> obj <> NO_OBJECT_SELECTED -> a_omega A = true ->
  get_cospar_data fuel E A init_statics obj system jde = do r <- find fuel A lines obj system jde; Ret (rval r, Some r, set_text init_statics (Some lines)).
Proof.
  intros HF HL Ho HA. unfold get_cospar_data. replace (obj =? FREE_INTERNAL_DATA) with false by (symmetry; now apply Z.eqb_neq).
  cbn [text init_statics]. rewrite HF, HL. cbn [obind]. now rewrite HA.
Qed.

Lemma C60_orientation_proof :
forall E file obj system jd n p angles q a d w ra na de nd wv retro fuel,
  default_file E = Some file -> (List.length file < fuel)%nat -> Z.of_nat (List.length file) <= IMAX ->
  obj <> 3 -> obj <> NO_OBJECT_SELECTED -> 0 <= system <= 9 ->
  in_file file obj system false n p angles q a d w ->
  let t := (jd + dt E jd / 86400 - 2451545)%R in
  formula p angles t a ra na -> formula p angles t d de nd -> formula p angles t w wv retro ->
  exists s, calc_planet_orientation fuel E init_statics obj system jd = Ret (0, rows ra de wv retro, s).
Proof.
  intros E file obj system jd n p angles q a d w ra na de nd wv retro fuel HF Hl HI H3 Ho Hs Hin t Fa Fd Fw.
  destruct (in_file_loads _ _ _ _ _ _ _ _ _ _ _ fuel Hin Hl HI Ho) as (lines & rm & ps & s & rest & L & Hrm & Hal & HS & Hn & Hp & EL & HL & Hne & Hf & (stop & post & -> & Hst) & Hit).
  rewrite calc_first by assumption. rewrite (get_first fuel E file lines) by (assumption || reflexivity). subst p n.
  rewrite (find_found fuel (mk_asked true true false) lines system _ rm ps obj s angles stop post q a d w ra na de nd wv retro); try assumption; try (intros _; assumption); try reflexivity.
  cbn [obind a_poles a_omega opt rval]. rewrite orientation_rows. cbn [obind]. rewrite andb_true_r. eexists. reflexivity.
Qed.

Lemma C60_frame_proof :
forall ra de w retro, RotSpec.orthonormal (rows ra de w retro) /\ skipn 6 (rows ra de w retro) = pole_vector ra de.
Proof.
  intros ra de w retro. split; [|reflexivity].
  pose proof (sin2_cos2 (rad ra)) as S1. pose proof (sin2_cos2 (rad de)) as S2. pose proof (sin2_cos2 (rad w)) as S3. unfold Rsqr in S1, S2, S3.
  destruct (rad_quarter w) as (E1 & E2 & E3 & E4).
  unfold rows, on_equator. destruct retro; rewrite ?E1, ?E2, ?E3, ?E4; unfold combine2, cross, pole_vector, node_vector, RotSpec.comp; cbn [app nth];
  set (sr := sin (rad ra)) in *; set (cr := cos (rad ra)) in *; set (sd := sin (rad de)) in *; set (cd := cos (rad de)) in *; set (sw := sin (rad w)) in *; set (cw := cos (rad w)) in *;
  (split; [reflexivity|]; split; unfold RotSpec.mul, RotSpec.tr, RotSpec.ident, RotSpec.mat, RotSpec.cell; cbn [nth Nat.mul Nat.add Nat.eqb];
  assert (R1 : (cr * cr = 1 - sr * sr)%R) by lra; assert (R2 : (cd * cd = 1 - sd * sd)%R) by lra; assert (R3 : (cw * cw = 1 - sw * sw)%R) by lra;
  apply list9; ring [R1 R2 R3]).
Qed.

Lemma C60_handed_refuted_proof :
forall ra de w, RotSpec.det (rows ra de w false) = (-1)%R /\ RotSpec.det (rows ra de w true) = 1%R.
Proof.
  intros ra de w.
  pose proof (sin2_cos2 (rad ra)) as S1. pose proof (sin2_cos2 (rad de)) as S2. pose proof (sin2_cos2 (rad w)) as S3. unfold Rsqr in S1, S2, S3.
  destruct (rad_quarter w) as (E1 & E2 & E3 & E4).
  unfold rows, on_equator. rewrite ?E1, ?E2, ?E3, ?E4; unfold combine2, cross, pole_vector, node_vector, RotSpec.comp; cbn [app nth].
  set (sr := sin (rad ra)) in *; set (cr := cos (rad ra)) in *; set (sd := sin (rad de)) in *; set (cd := cos (rad de)) in *; set (sw := sin (rad w)) in *; set (cw := cos (rad w)) in *.
  unfold RotSpec.det, RotSpec.cell; cbn [nth Nat.mul Nat.add].
  assert (R1 : (cr * cr = 1 - sr * sr)%R) by lra; assert (R2 : (cd * cd = 1 - sd * sd)%R) by lra; assert (R3 : (cw * cw = 1 - sw * sw)%R) by lra.
  split; ring [R1 R2 R3].
Qed.

Lemma C60_last_refuted_proof :
forall E file obj system jd n p angles q a d w ra na de nd wv retro fuel,
  default_file E = Some file -> (List.length file < fuel)%nat -> Z.of_nat (List.length file) <= IMAX ->
  obj <> 3 -> obj <> NO_OBJECT_SELECTED -> 0 <= system <= 9 ->
  in_file file obj system true n p angles q a d w ->
  let t := (jd + dt E jd / 86400 - 2451545)%R in
  formula p angles t a ra na -> formula p angles t d de nd -> formula p angles t w wv retro ->
  exists s, calc_planet_orientation fuel E init_statics obj system jd
            = Ret (-1, rows (IZR (20 * n)) (IZR (20 * n)) (t * 360 / (13 / 10)) retro, s).
Proof.
  intros E file obj system jd n p angles q a d w ra na de nd wv retro fuel HF Hl HI H3 Ho Hs Hin t Fa Fd Fw.
  destruct (in_file_loads _ _ _ _ _ _ _ _ _ _ _ fuel Hin Hl HI Ho) as (lines & rm & ps & s & rest & L & Hrm & Hal & HS & Hn & Hp & EL & HL & Hne & Hf & -> & Hit).
  rewrite app_nil_r in EL.
  rewrite calc_first by assumption. rewrite (get_first fuel E file lines) by (assumption || reflexivity). subst p n.
  rewrite (find_last fuel (mk_asked true true false) lines system _ rm ps obj s angles q a d w ra na de nd wv retro); try assumption; try (intros _; assumption); try reflexivity.
  cbn [obind a_poles a_omega rval]. rewrite orientation_rows. cbn [obind]. eexists. reflexivity.
Qed.

Lemma C60_unknown_proof :
forall E file lines rm ps ls obj n system jd fuel,
  default_file E = Some file -> (List.length file < fuel)%nat ->
  obj <> 3 -> obj <> NO_OBJECT_SELECTED -> Z.abs n <= 90000 ->
  file_lines file lines -> lines = rm ++ ls -> remaps rm ps -> alias ps obj n -> Forall (other n) ls ->
  exists s, calc_planet_orientation fuel E init_statics obj system jd
            = Ret (-1, rows (IZR (20 * n)) (IZR (20 * n)) ((jd + dt E jd / 86400 - 2451545) * 360 / (13 / 10)) false, s).
Proof.
  intros E file lines rm ps ls obj n system jd fuel HF Hl H3 Ho Hn HL EL Hrm Hal Hls.
  destruct (load_file file lines fuel HL Hl) as (L1 & L2 & L3).
  rewrite calc_first by assumption. rewrite (get_first fuel E file lines) by (assumption || reflexivity).
  unfold find. set (d := (jd + dt E jd / 86400 - 2451545)%R). set (A := mk_asked true true false).
  change (mk_work obj 0 0 NO_OBJECT_SELECTED false false 0 None None None false [0; 0; 0]%Q) with (start obj).
  destruct (go_remaps fuel A lines system d rm ps Hrm) with (i := 0) (rest := ls) (w := start obj) as (w1 & E1 & -> & O1); try reflexivity.
  { intros t I. apply L2. rewrite EL. apply in_or_app. now left. }
  { apply Hal. }
  { now split. }
  { assumption. }
  cbn [object start] in E1, O1. rewrite (fold_alias ps obj n Hal) in E1, O1. rewrite <- EL in E1. rewrite E1.
  set (w1 := set_object (start obj) n) in *.
  assert (A1 : away n w1).
  { split; [now split|]. split; [reflexivity|]. cbn. unfold NO_OBJECT_SELECTED. lia. }
  destruct (go_other fuel A lines system d n ls Hn Hls (0 + Z.of_nat (List.length rm)) [] w1 A1) as (w2 & E2 & S2 & A2 & _).
  rewrite app_nil_r in E2. rewrite E2. cbn [scan obind]. destruct A2 as ((D2 & R2) & O2 & _). rewrite D2, R2. cbn [negb Z.eqb A a_poles a_omega].
  replace (ev IMAX (object w2 * 20%Z)%cx) with (@Ret Z (20 * n)).
  2:{ symmetry. cbn [ev]. rewrite !chk_ok by (unfold IMAX; lia). cbn [obind]. rewrite chk_ok by (unfold IMAX; lia). f_equal. rewrite O2. lia. }
  destruct S2 as (_ & _ & _ & _ & _ & _ & _ & S8 & _). cbn [obind rval]. rewrite orientation_rows, S8. cbn [obind]. eexists. reflexivity.
Qed.

Lemma C60_radii_proof :
forall E s0 s file obj n p angles q a d w fuel old,
  (List.length file < fuel)%nat -> Z.of_nat (List.length file) <= IMAX -> obj <> NO_OBJECT_SELECTED ->
  in_file file obj 0 false n p angles q a d w ->
  load_cospar_file fuel E s0 (Some (Some file)) = Ret (0, s) ->
  planet_radii fuel E s obj old = Ret (0, q, s).
Proof.
  intros E s0 s file obj n p angles q a d w fuel old Hl HI Ho Hin Hld.
  destruct (in_file_loads _ _ _ _ _ _ _ _ _ _ _ fuel Hin Hl HI Ho) as (lines & rm & ps & sc & rest & L & Hrm & Hal & HS & Hn & Hp & EL & HL & Hne & Hf & (stop & post & -> & Hst) & Hit).
  unfold load_cospar_file, get_cospar_data in Hld. change (FREE_INTERNAL_DATA =? FREE_INTERNAL_DATA) with true in Hld. cbn [obind] in Hld.
  change (0 =? FREE_INTERNAL_DATA) with false in Hld. cbn [text set_text default_file] in Hld. rewrite L in Hld. cbn in Hld. injection Hld as <-.
  unfold planet_radii, get_cospar_data. replace (obj =? FREE_INTERNAL_DATA) with false by (symmetry; now apply Z.eqb_neq). cbn [text set_text].
  rewrite (find_found fuel (mk_asked false false true) lines 0 _ rm ps obj sc angles stop post q a d w 0 false 0 false 0 false); try assumption; try discriminate; try lia.
  reflexivity.
Qed.

Lemma rate_value fuel C u w q retro : rate_text w q -> ~ In 61 u -> s_omega C = true -> s_poles C = false -> (List.length w < fuel)%nat ->
  exists r, value fuel C (u ++ 61 :: w) retro 0 = Ret (Q2R q, r, 0, true).
Proof.
  intros (n & c & m & more & Hn & Hm & -> & H50) Hu HO HP Hf. unfold value. rewrite behind_app by assumption. cbn [obind].
  rewrite (strtold_first n c) by (assumption || now apply signed_end with q). cbn [obind].
  destruct (after_minus n c (m ++ 100 :: more) Hn) as (k & -> & Lk & Ns). rewrite app_length in Hf.
  assert (Ex : exists f', fuel = (List.length k + S f')%nat) by (exists (fuel - List.length k - 1)%nat; rewrite app_length in Hf; cbn [List.length] in Hf; lia).
  destruct Ex as (f' & ->). rewrite pass_over by assumption.
  destruct (signed_head m q Hm) as (sg & m' & Em & Hsg).
  assert (E0 : forall v r, term_loop (S f') C (m ++ 100 :: more) v r 0 =
      (do '(q, t) <- strtold (m ++ 100 :: more);
            let c := nth 0 t 0 in
            if c =? 100 then
              let square := nth 1 t 0 =? 50 in
              let retro := r || (negb square && qlt q 0 && s_omega C) in
              let coeff := if square then (Q2R q * s_d C)%R else Q2R q in
              if s_omega C && negb (s_poles C) then Ret (coeff, retro, 0, true)
              else term_loop f' C t (v + coeff * s_d C)%R retro 0
            else if c =? 84 then
              let square := nth 1 t 0 =? 50 in
              let retro := r || (negb square && qlt q 0 && s_omega C) in
              let coeff := if square then (Q2R q * t_cen C)%R else Q2R q in
              term_loop f' C t (v + coeff * t_cen C)%R retro 0
            else do '(f, err) <- CospModel.periodic C t 0; term_loop f' C t (v + Q2R q * f)%R r err)).
  { intros. rewrite Em. cbn [app term_loop]. destruct Hsg as [-> | ->]; reflexivity. }
  rewrite E0. rewrite (strtold_signed m q) by (assumption || (cbn; repeat split; discriminate)). cbn [obind nth]. change (100 =? 100) with true. cbv iota zeta.
  replace (nth 0 more 0 =? 50) with false by (symmetry; apply Z.eqb_neq; destruct more; assumption). rewrite HO, HP. cbn [andb negb]. eexists. reflexivity.
Qed.

Lemma C60_rate_proof :
forall E file obj system last n p angles q a d w rate fuel,
  default_file E = Some file -> (List.length file < fuel)%nat -> Z.of_nat (List.length file) <= IMAX ->
  obj <> -99 -> obj <> NO_OBJECT_SELECTED -> 0 <= system <= 9 ->
  in_file file obj system last n p angles q a d w -> rate_text w rate ->
  exists s, planet_rotation_rate fuel E init_statics obj system = Ret (Q2R rate, s).
Proof.
  intros E file obj system last n p angles q a d w rate fuel HF Hl HI H99 Ho Hs Hin Hw.
  destruct (in_file_loads _ _ _ _ _ _ _ _ _ _ _ fuel Hin Hl HI Ho) as (lines & rm & ps & s & rest & L & Hrm & Hal & HS & Hn & Hp & EL & HL & Hne & Hf & _ & Hit).
  unfold planet_rotation_rate. cbn [prev_planet init_statics]. replace (obj =? -99) with false by (symmetry; now apply Z.eqb_neq). cbn [negb orb].
  rewrite (get_first fuel E file lines) by (assumption || reflexivity). set (A := mk_asked false true false).
  unfold find. set (dd := (2451545 - 2451545)%R).
  change (mk_work obj 0 0 NO_OBJECT_SELECTED false false 0 None None None false [0; 0; 0]%Q) with (start obj).
  destruct (reach fuel A lines system dd rm ps obj s angles rest Hrm Hal Ho HS EL HL Hne Hf) as (w1 & i & E1 & I1 & EO & EP & S1 & T & LA).
  rewrite E1. destruct S1 as (_ & _ & G1 & _ & _ & _ & _ & _ & R1). cbn in G1, R1.
  assert (HfI : forall t, In t (item_lines s) -> (List.length t < fuel)%nat).
  { intros t It. apply Hf. rewrite EL. unfold section_lines. rewrite !in_app_iff. tauto. }
  destruct Hit as (rs & ws1 & wl & ws2 & Hr & H1 & Hwl & H2 & Eit). rewrite Eit in *. rewrite <- !app_assoc.
  rewrite (go_sizes fuel A lines system dd i rs q w1) by assumption.
  set (w2 := set_radii w1 (if a_radii A then q else [0; 0; 0]%Q)).
  assert (I2 : inside w2) by (destruct I1 as ((? & ?) & ? & ?); now repeat split).
  assert (Hp2 : isalpha p = true) by (rewrite <- Hp; apply HS).
  rewrite (go_pole fuel A lines system dd _ a d w2 _ p angles 0 false 0 false); try assumption; try discriminate.
  2:{ cbn. congruence. }
  2:{ intro K. rewrite <- Hp. now apply (T K). }
  2:{ assert (K : (List.length (zs "a0=" ++ a) < fuel)%nat) by (apply HfI; apply in_or_app; right; now left). rewrite app_length in K. lia. }
  2:{ assert (K : (List.length (zs "d0=" ++ d) < fuel)%nat) by (apply HfI; apply in_or_app; right; right; now left). rewrite app_length in K. lia. }
  match goal with |- context [scan fuel A lines system dd _ _ ?x] => set (w3 := x) end.
  assert (I3 : inside w3) by (destruct I1 as ((? & ?) & ? & ?); now repeat split).
  rewrite go_others by assumption. cbn [app].
  match goal with |- context [scan fuel A lines system dd ?k (wl :: _) w3] => set (i3 := k) end.
  destruct (w_step fuel A lines system dd i3 wl w3 w Hs Hwl I3 G1) as (u & Eu & Nu & Es). cbn [a_omega A] in Es.
  assert (Lw : (List.length w < fuel)%nat).
  { assert (K : (List.length wl < fuel)%nat) by (apply HfI; rewrite !in_app_iff; cbn [In]; tauto). rewrite Eu, app_length in K. cbn [List.length] in K. lia. }
  assert (Er : err w3 = 0) by apply I3. rewrite Er in Es. rewrite Eu in Es at 2.
  destruct (rate_value fuel (mk_setting (planet w3) lines (ang w3) dd (a_poles A) true) u w rate (retro w3) Hw Nu eq_refl eq_refl Lw) as (r & Ev).
  rewrite Ev in Es. cbn [obind] in Es. cbn [scan]. destruct I3 as ((D3 & _) & _). rewrite D3, Er. cbn [orb negb Z.eqb]. rewrite Es. cbn. eexists. reflexivity.
Qed.

(** What the static variables hold: the default file or nothing, and the answer to an earlier call *)
Definition fair (fuel : nat) (E : env) (s : statics) : Prop :=
  (text s = None \/ exists f ls, default_file E = Some f /\ load fuel f = Ret ls /\ text s = Some ls) /\
  (p_planet s = NO_OBJECT_SELECTED \/ as_first fuel E (Orient (p_planet s) (p_system s) (p_jd s)) (Matrix (p_rval s) (p_matrix s))).
Lemma get_fair fuel E A s p y t rv r s' : fair fuel E s -> get_cospar_data fuel E A s p y t = Ret (rv, r, s') ->
  exists x, s' = set_text s x /\ fair fuel E s' /\
    (a_omega A = true -> p <> FREE_INTERNAL_DATA -> exists s2, get_cospar_data fuel E A init_statics p y t = Ret (rv, r, s2)).
Proof.
  intros (Ht & Hc) H. unfold get_cospar_data in H |- *. destruct (Z.eqb_spec p FREE_INTERNAL_DATA) as [->|Hp].
  - injection H as <- <- <-. exists None. split; [reflexivity|]. split; [now split; [left|]|]. intros _ K. contradiction.
  - destruct (text s) as [lines|] eqn:Et.
    + destruct (find fuel A lines p y t) as [x| | |] eqn:Ef; try discriminate H. cbn [obind] in H. injection H as <- <- <-.
      exists (text s). split; [now destruct s|]. split; [split; [rewrite Et; exact Ht|exact Hc]|]. intros HA _.
      destruct Ht as [K|(f & ls & E1 & E2 & E3)]; [discriminate|]. injection E3 as <-. cbn [text init_statics]. rewrite E1, E2. cbn [obind]. rewrite HA, Ef. cbn [obind]. eexists. reflexivity.
    + destruct (default_file E) as [f|] eqn:EF.
      * destruct (load fuel f) as [ls| | |] eqn:EL; try discriminate H. cbn [obind] in H. cbn [text init_statics].
        assert (F : fair fuel E (set_text s (Some ls))) by (split; [right; exists f, ls; now repeat split|exact Hc]).
        destruct (a_omega A) eqn:EA.
        -- destruct (find fuel A ls p y t) as [x| | |] eqn:Ef; try discriminate H. cbn [obind] in H. injection H as <- <- <-.
           exists (Some ls). split; [reflexivity|]. split; [exact F|]. intros _ _. rewrite ?EL. cbn [obind]. rewrite ?Ef. eexists. reflexivity.
        -- injection H as <- <- <-. exists (Some ls). split; [reflexivity|]. split; [exact F|]. discriminate.
      * injection H as <- <- <-. exists None. split; [destruct s; cbn in Et; now rewrite Et|]. split; [split; [left; exact Et|exact Hc]|].
        intros _ _. cbn [text init_statics]. eexists. reflexivity.
Qed.
Lemma serve_fair fuel E s c a s' : fair fuel E s -> serve fuel E s c = Ret (a, s') ->
  (forall p y jd, c = Orient p y jd -> p <> NO_OBJECT_SELECTED) ->
  fair fuel E s' /\ (forall p y jd, c = Orient p y jd -> as_first fuel E c a).
Proof.
  intros HF H Hc. destruct c as [p y jd|p y|p old]; cbn [serve] in H.
  - specialize (Hc p y jd eq_refl).
    assert (K : forall a s2, calc_planet_orientation fuel E init_statics p y jd = Ret (fst a, snd a, s2) -> as_first fuel E (Orient p y jd) (Matrix (fst a) (snd a))).
    { intros (rv & m) s2 X. exists s2. cbn [serve fst snd] in *. now rewrite X. }
    unfold calc_planet_orientation at 1 in H.
    destruct ((p =? p_planet s) && (y =? p_system s) && Reqb jd (p_jd s)) eqn:B.
    + cbn [obind] in H. injection H as <- <-. split; [exact HF|]. intros _ _ _ _.
      rewrite !andb_true_iff, !Z.eqb_eq in B. destruct B as ((-> & ->) & B). destruct (Reqb_spec jd (p_jd s)) as [->|]; [|discriminate].
      destruct HF as (_ & [Q|Q]); [contradiction|exact Q].
    + destruct (Z.eqb_spec p 3) as [->|H3].
      * cbn [obind] in H. injection H as <- <-.
        assert (X : as_first fuel E (Orient 3 y jd) (Matrix 0 (negate_row (earth E (2000 + (jd + dt E jd / 86400 - 2451545) / (36525 / 100)))))).
        { eexists. cbn [serve]. unfold calc_planet_orientation. cbn [p_planet init_statics]. change (3 =? NO_OBJECT_SELECTED) with false. cbn [andb].
          change (3 =? 3) with true. cbn [obind]. reflexivity. }
        split; [|intros _ _ _ _; exact X]. destruct HF as (Q1 & _). split; [exact Q1|]. right. exact X.
      * destruct (get_cospar_data fuel E (mk_asked true true false) s p y (jd + dt E jd / 86400)%R) as [((rv, r), s2)| | |] eqn:G; try discriminate H.
        cbn [obind] in H. destruct (orientation r) as [m| | |] eqn:Em; try discriminate H. cbn [obind] in H. injection H as <- <-.
        destruct (get_fair fuel E _ s p y _ rv r s2 HF G) as (x & -> & F2 & G2). destruct (G2 eq_refl Hc) as (s3 & G3).
        assert (X : as_first fuel E (Orient p y jd) (Matrix rv m)).
        { eexists. cbn [serve]. rewrite calc_first by assumption. rewrite G3. cbn [obind]. rewrite Em. cbn [obind]. reflexivity. }
        split; [|intros _ _ _ _; exact X]. destruct F2 as (Q1 & _). split; [exact Q1|]. right. exact X.
  - split; [|discriminate]. unfold planet_rotation_rate in H.
    destruct (negb (p =? prev_planet s) || negb (y =? prev_system s)); [|injection H as <- <-; exact HF].
    destruct (get_cospar_data fuel E (mk_asked false true false) s p y 2451545) as [((rv, r), s2)| | |] eqn:G; try discriminate H. cbn [obind] in H. injection H as <- <-.
    destruct (get_fair fuel E _ s p y _ rv r s2 HF G) as (x & -> & F2 & _). exact F2.
  - split; [|discriminate]. unfold planet_radii in H.
    destruct (get_cospar_data fuel E (mk_asked false false true) s p 0 2451545) as [((rv, r), s2)| | |] eqn:G; try discriminate H. cbn [obind] in H. injection H as <- <-.
    destruct (get_fair fuel E _ s p 0 _ rv r s2 HF G) as (x & -> & F2 & _). exact F2.
Qed.
Lemma init_fair fuel E : fair fuel E init_statics.
Proof. split; [now left|now left]. Qed.

Lemma C60_history_proof :
forall E cs answers fuel, history fuel E init_statics cs = Ret answers ->
  (forall p y jd, In (Orient p y jd) cs -> p <> NO_OBJECT_SELECTED) ->
  forall i p y jd, nth_error cs i = Some (Orient p y jd) -> exists a, nth_error answers i = Some a /\ as_first fuel E (Orient p y jd) a.
Proof.
  intros E cs answers fuel. generalize (init_fair fuel E). generalize init_statics. intros s HF. revert s HF answers.
  induction cs as [|c cs IH]; intros s HF answers H Hc i p y jd Hi; [destruct i; discriminate|].
  cbn [history] in H. destruct (serve fuel E s c) as [(a, s')| | |] eqn:ES; try discriminate H. cbn [obind] in H.
  destruct (history fuel E s' cs) as [l| | |] eqn:EH; try discriminate H. cbn [obind] in H. injection H as <-.
  destruct (serve_fair fuel E s c a s' HF ES) as (F2 & A2).
  { intros p0 y0 jd0 ->. apply (Hc p0 y0 jd0). now left. }
  destruct i as [|i]; cbn [nth_error] in *.
  - injection Hi as ->. exists a. split; [reflexivity|]. now apply (A2 p y jd).
  - apply (IH s' F2 l EH (fun p y jd I => Hc p y jd (or_intror I)) i p y jd Hi).
Qed.

Lemma C60_reload_refuted_proof :
forall E s obj system jd rv m s1 file rv2 s2 fuel,
  calc_planet_orientation fuel E s obj system jd = Ret (rv, m, s1) ->
  load_cospar_file fuel E s1 (Some (Some file)) = Ret (rv2, s2) ->
  calc_planet_orientation fuel E s2 obj system jd = Ret (rv, m, s2).
Proof.
  intros E s obj system jd rv m s1 file rv2 s2 fuel H HL.
  assert (K : p_planet s1 = obj /\ p_system s1 = system /\ p_jd s1 = jd /\ p_rval s1 = rv /\ p_matrix s1 = m).
  { unfold calc_planet_orientation in H. destruct ((obj =? p_planet s) && (system =? p_system s) && Reqb jd (p_jd s)) eqn:B.
    - injection H as <- <- <-. rewrite !andb_true_iff, !Z.eqb_eq in B. destruct B as ((-> & ->) & B). destruct (Reqb_spec jd (p_jd s)) as [->|]; [|discriminate]. now repeat split.
    - destruct (obj =? 3); [injection H as <- <- <-; now repeat split|].
      destruct (get_cospar_data fuel E (mk_asked true true false) s obj system (jd + dt E jd / 86400)) as [((rv', r), s')| | |]; try discriminate H. cbn [obind] in H.
      destruct (orientation r) as [m'| | |]; try discriminate H. cbn [obind] in H. injection H as <- <- <-. now repeat split. }
  destruct K as (K1 & K2 & K3 & K4 & K5).
  assert (S2 : exists x, s2 = set_text s1 x).
  { unfold load_cospar_file, get_cospar_data in HL. change (FREE_INTERNAL_DATA =? FREE_INTERNAL_DATA) with true in HL. cbn [obind] in HL.
    change (0 =? FREE_INTERNAL_DATA) with false in HL. cbn [text set_text default_file] in HL. destruct (load fuel file) as [ls| | |]; try discriminate HL.
    cbn in HL. injection HL as _ <-. now exists (Some ls). }
  destruct S2 as (x & ->). unfold calc_planet_orientation. cbn [p_planet p_system p_jd p_rval p_matrix set_text].
  rewrite K1, K2, K3, K4, K5, !Z.eqb_refl. destruct (Reqb_spec jd jd); [reflexivity|congruence].
Qed.

Lemma C60_missing_refuted_proof :
forall E obj system jd fuel, default_file E = None -> obj <> 3 -> obj <> NO_OBJECT_SELECTED ->
  calc_planet_orientation fuel E init_statics obj system jd = UB.
Proof.
  intros E obj system jd fuel HF H3 Ho. rewrite calc_first by assumption. unfold get_cospar_data.
  replace (obj =? FREE_INTERNAL_DATA) with false by (symmetry; now apply Z.eqb_neq). cbn [text init_statics]. rewrite HF. reflexivity.
Qed.

Lemma C60_first_radii_refuted_proof :
forall E file lines obj old fuel, default_file E = Some file -> file_lines file lines -> (List.length file < fuel)%nat -> obj <> NO_OBJECT_SELECTED ->
  exists s, planet_radii fuel E init_statics obj old = Ret (0, old, s).
Proof.
  intros E file lines obj old fuel HF HL Hl Ho. destruct (load_file file lines fuel HL Hl) as (L1 & _).
  unfold planet_radii, get_cospar_data. replace (obj =? FREE_INTERNAL_DATA) with false by (symmetry; now apply Z.eqb_neq). cbn [text init_statics]. rewrite HF, L1. eexists. reflexivity.
Qed.

Lemma C60_earth_proof :
forall E system jd fuel,
  let year := (2000 + (jd + dt E jd / 86400 - 2451545) / (36525 / 100))%R in
  RotSpec.rotation (earth E year) ->
  exists s m, calc_planet_orientation fuel E init_statics 3 system jd = Ret (0, m, s) /\ RotSpec.orthonormal m /\ RotSpec.det m = (-1)%R /\
    (forall i j, (i < 3)%nat -> (j < 3)%nat -> RotSpec.cell m i j = if Nat.eqb i 1 then (- RotSpec.cell (earth E year) i j)%R else RotSpec.cell (earth E year) i j).
Proof.
  intros E system jd fuel year ((L & O1 & O2) & D). unfold calc_planet_orientation. cbn [p_planet init_statics]. change (3 =? NO_OBJECT_SELECTED) with false. cbn [andb].
  change (3 =? 3) with true. fold year. set (M := earth E year) in *. clearbody M.
  destruct M as [|a [|b [|c [|d [|e [|f [|g [|h [|i [|]]]]]]]]]]; try discriminate L.
  eexists _, _. split; [reflexivity|].
  unfold RotSpec.mul, RotSpec.tr, RotSpec.ident, RotSpec.mat, RotSpec.cell in O1, O2. cbn [nth Nat.mul Nat.add Nat.eqb] in O1, O2.
  injection O1 as P1 P2 P3 P4 P5 P6 P7 P8 P9. injection O2 as Q1 Q2 Q3 Q4 Q5 Q6 Q7 Q8 Q9.
  unfold RotSpec.det, RotSpec.cell in D. cbn [nth Nat.mul Nat.add] in D.
  unfold negate_row. cbn [firstn skipn map app]. split; [|split].
  - split; [reflexivity|]. unfold RotSpec.mul, RotSpec.tr, RotSpec.ident, RotSpec.mat, RotSpec.cell. cbn [nth Nat.mul Nat.add Nat.eqb].
    split; apply list9; lra.
  - unfold RotSpec.det, RotSpec.cell. cbn [nth Nat.mul Nat.add]. lra.
  - intros x y Hx Hy. unfold RotSpec.cell. destruct x as [|[|[|x]]]; [| | |lia]; (destruct y as [|[|[|y]]]; [| | |lia]); reflexivity.
Qed.

(** Files, for the examples *)
Definition file_of (raws : list (list Z * list Z)) : list Z := flat_map (fun r => fst r ++ snd r ++ [10%Z]) raws ++ zs "END of the data".
Definition moon_lines : list (list Z * list Z) :=
  [(zs "Remap: 3001 10  4001 28", []); ([], zs "# a comment"); (zs "Planet: E", []); (zs "  E1 = 125.045 - 0.0529921d", []); ([], []);
   (zs "Obj: 3001 ", zs "# Moon"); (zs "   r=1737.4", []); (zs "   a0=269.9949 +0.0031T -3.8787 sin E1", []); (zs "   d0=66.5392 +0.0130T", []);
   (zs "   W=38.3213 +13.17635815d -1.4e-12d2 +3.5610 sin 2E1", []); (zs "Planet: M", [])].
Definition moon_file : list Z := file_of moon_lines.
Definition moon_angle : angle := mk_angle (125045 # 1000) (- (529921 # 10000000)) true.
(** The line for Mars in cospar.txt has the bytes 226, 136, 146 (a minus sign of Unicode) *)
Definition mars_lines : list (list Z * list Z) :=
  [(zs "Planet: M", []); (zs "Obj: 4 ", zs "# Mars"); (zs "   a0= 317.269202 ", [226; 136; 146] ++ zs " 0.10927547T"); (zs "   d0= 54.432516", []);
   (zs "   W= 176.049863 + 350.891982443297d", []); (zs "Obj: 5", [])].
Definition mars_file : list Z := file_of mars_lines.

Definition readableb (c : Z) : bool := (32 <=? c) && (c <? 128) && negb (c =? 35).
Definition raw_ok (r : list Z * list Z) : bool :=
  forallb readableb (fst r) && (match snd r with [] => true | c :: _ => negb (readableb c) end) && forallb (fun c => negb (c =? 10)) (fst r ++ snd r) &&
  (List.length (fst r ++ snd r) <=? 298)%nat && negb (prefix (zs "END") (fst r ++ snd r)).
Lemma raw_ok_ok c t : raw_ok (c, t) = true -> raw_line c t.
Proof.
  unfold raw_ok. cbn [fst snd]. rewrite !andb_true_iff, negb_true_iff, Nat.leb_le, !forallb_forall. intros ((((H1 & H2) & H3) & H4) & H5).
  assert (R : forall x, readableb x = true <-> readable x).
  { intro x. unfold readableb, readable. rewrite !andb_true_iff, negb_true_iff, Z.leb_le, Z.ltb_lt, Z.eqb_neq. tauto. }
  split; [intros x I; apply R, H1, I|]. split; [|split; [|split]].
  - destruct t as [|x t]; [exact I|]. rewrite negb_true_iff in H2. intro K. apply R in K. congruence.
  - intros x I. apply H3 in I. rewrite negb_true_iff, Z.eqb_neq in I. exact I.
  - exact H4.
  - intro K. assert (P : prefix (zs "END") (c ++ t) = true); [|congruence].
    rewrite <- (firstn_skipn 3 (c ++ t)), K. reflexivity.
Qed.
Lemma file_of_lines raws : forallb raw_ok raws = true -> file_lines (file_of raws) (flat_map (fun r => what_is_left (fst r)) raws).
Proof.
  intro H. rewrite forallb_forall in H. exists raws, (zs "END of the data"). split; [intros c t I; now apply raw_ok_ok, H|].
  split; [right; now exists (zs " of the data")|]. split; reflexivity.
Qed.
Ltac number := right; match goal with |- exists a b v, _ /\ _ /\ ?s = _ /\ _ =>
  let k := eval vm_compute in (span isdigit s) in let x := eval vm_compute in (firstn k s) in let y := eval vm_compute in (skipn (S k) s) in
  exists x, y, (dig_val 0 (x ++ y)) end;
  (split; [intros ? HH; cbn in HH; repeat (destruct HH as [<-|HH]; [reflexivity|]); destruct HH|]); (split; [discriminate|]); split; [reflexivity|]; split; [reflexivity|vm_compute; reflexivity].
Lemma moon_table : table_from 69 1 [moon_angle] [zs "E1=125.045-0.0529921d"].
Proof.
  constructor; [|constructor]. exists (zs "125.045"), (45 :: zs "0.0529921"), []. split; [constructor; number|]. split; [apply with_minus; constructor; number|]. reflexivity.
Qed.
Lemma moon_in : in_file moon_file 10 0 false 3001 69 [moon_angle] [17374 # 10; 0; 0]%Q (zs "269.9949+0.0031T-3.8787sinE1") (zs "66.5392+0.0130T") (zs "38.3213+13.17635815d-1.4e-12d2+3.5610sin2E1").
Proof.
  exists (flat_map (fun r => what_is_left (fst r)) moon_lines), [zs "Remap: 3001 10  4001 28"], ([(3001, 10); (4001, 28)] ++ []),
    (mk_section 3001 69 [] (zs "Planet:E") [zs "E1=125.045-0.0529921d"] [] (zs "Obj:3001")
      [zs "r=1737.4"; zs "a0=269.9949+0.0031T-3.8787sinE1"; zs "d0=66.5392+0.0130T"; zs "W=38.3213+13.17635815d-1.4e-12d2+3.5610sin2E1"]), [zs "Planet:M"].
  split; [apply file_of_lines; vm_compute; reflexivity|].
  split.
  { change (zs "Remap: 3001 10  4001 28") with (zs "Remap:" ++ (repeat 32 1 ++ dec 3001 ++ repeat 32 1 ++ dec 10 ++ (repeat 32 2 ++ dec 4001 ++ repeat 32 1 ++ dec 28 ++ repeat 32 0))).
    constructor; [|constructor]. constructor; try lia; [constructor; try lia; [constructor|now left]|right; eexists; reflexivity]. }
  split.
  { split; [|split].
    - cbn. intros a b [E|[E|[]]]; injection E as <- <-; lia.
    - repeat constructor; cbn; lia.
    - left. cbn. tauto. }
  split.
  { split; [cbn; lia|]. split; [reflexivity|]. split; [cbn; intuition discriminate|]. split; [constructor|].
    split; [exists []; reflexivity|]. split; [apply moon_table|]. split; [repeat split; constructor|].
    exists (zs "3001"). split; [constructor; repeat split; [discriminate|intros c H; cbn in H; repeat (destruct H as [<-|H]; [reflexivity|]); destruct H]|].
    split; [cbn; lia|reflexivity]. }
  split; [reflexivity|]. split; [reflexivity|]. split; [vm_compute; reflexivity|]. split; [discriminate|].
  split; [exists (zs "Planet:M"), []; split; [reflexivity|]; right; exists 77, []; reflexivity|].
  exists [zs "r=1737.4"], [], (zs "W=38.3213+13.17635815d-1.4e-12d2+3.5610sin2E1"), []. split.
  { constructor. change (zs "r=1737.4") with (zs "r=" ++ zs "1737.4"). constructor. constructor. number. }
  split; [constructor|]. split; [left; reflexivity|]. split; [constructor|reflexivity].
Qed.
(** The values at J2000 *)
Definition moon_x : R := (degrees moon_angle 0 * (IZR 1 * PI / 180))%R.
Definition moon_2x : R := (degrees moon_angle 0 * (IZR 2 * PI / 180))%R.
Lemma moon_angles : moon_x <> 0%R /\ moon_2x <> 0%R.
Proof.
  unfold moon_x, moon_2x, degrees, moon_angle. cbn [constant linear by_day]. rewrite Rmult_0_r, Rplus_0_r. pose proof PI_RGT_0.
  assert (Q : (Q2R (125045 # 1000) <> 0)%R) by (unfold Q2R; cbn; lra). split; apply Rmult_integral_contrapositive_currified; try assumption; lra.
Qed.
Lemma moon_formulas :
  formula 69 [moon_angle] 0 (zs "269.9949+0.0031T-3.8787sinE1") (Q2R (2699949 # 10000) + (Q2R (31 # 10000) * (0 / 36525) + (Q2R (- (38787 # 10000)) * sin moon_x + 0))) false /\
  formula 69 [moon_angle] 0 (zs "66.5392+0.0130T") (Q2R (665392 # 10000) + (Q2R (130 # 10000) * (0 / 36525) + 0)) false /\
  formula 69 [moon_angle] 0 (zs "38.3213+13.17635815d-1.4e-12d2+3.5610sin2E1")
    (Q2R (383213 # 10000) + (Q2R (1317635815 # 100000000) * 0 + (Q2R (- ((14 # 10) * (10 # 1) ^ -12)) * (0 * 0) + (Q2R (35610 # 10000) * sin moon_2x + 0)))) false.
Proof.
  destruct moon_angles as (X1 & X2). repeat split.
  - exists (zs "269.9949"), (2699949 # 10000)%Q, (zs "+0.0031T-3.8787sinE1"). eexists. split; [constructor; number|]. split; [|split; [reflexivity|reflexivity]].
    apply (one_term 69 [moon_angle] 0 (43 :: zs "0.0031") (31 # 10000) (zs "T") (0 / 36525) true (zs "-3.8787sinE1") _ false).
    + constructor. constructor. number.
    + constructor.
    + apply (one_term 69 [moon_angle] 0 (45 :: zs "3.8787") (- (38787 # 10000)) (zs "sinE1") (sin moon_x) false [] 0 false).
      * constructor. constructor. number.
      * apply (CospSpec.periodic 69 [moon_angle] 0 true None 0 moon_angle); [reflexivity|exact I|exact X1].
      * constructor.
  - exists (zs "66.5392"), (665392 # 10000)%Q, (zs "+0.0130T"). eexists. split; [constructor; number|]. split; [|split; [reflexivity|reflexivity]].
    apply (one_term 69 [moon_angle] 0 (43 :: zs "0.0130") (130 # 10000) (zs "T") (0 / 36525) true [] 0 false); [constructor; constructor; number|constructor|constructor].
  - exists (zs "38.3213"), (383213 # 10000)%Q, (zs "+13.17635815d-1.4e-12d2+3.5610sin2E1"). eexists. split; [constructor; number|]. split; [|split; [reflexivity|reflexivity]].
    apply (one_term 69 [moon_angle] 0 (43 :: zs "13.17635815") (1317635815 # 100000000) (zs "d") 0 true (zs "-1.4e-12d2+3.5610sin2E1") _ false).
    + constructor. constructor. number.
    + constructor.
    + apply (one_term 69 [moon_angle] 0 (45 :: zs "1.4e-12") (- ((14 # 10) * (10 # 1) ^ -12)) (zs "d2") (0 * 0) false (zs "+3.5610sin2E1") _ false).
      * apply with_minus. change (zs "1.4e-12") with (zs "1.4" ++ 101 :: [45] ++ zs "12"). apply (num_scaled (zs "1.4") (14 # 10) [45] (zs "12") 12); [number| |cbn; tauto].
        repeat split; [discriminate|intros c H; cbn in H; repeat (destruct H as [<-|H]; [reflexivity|]); destruct H].
      * constructor.
      * apply (one_term 69 [moon_angle] 0 (43 :: zs "3.5610") (35610 # 10000) (zs "sin2E1") (sin moon_2x) false [] 0 false).
        -- constructor. constructor. number.
        -- apply (CospSpec.periodic 69 [moon_angle] 0 true (Some 2) 0 moon_angle); [reflexivity|lia|exact X2].
        -- constructor.
Qed.
Lemma mars_in : in_file mars_file 4 0 false 4 77 [] [0; 0; 0]%Q (zs "317.269202") (zs "54.432516") (zs "176.049863+350.891982443297d").
Proof.
  exists (flat_map (fun r => what_is_left (fst r)) mars_lines), [], [],
    (mk_section 4 77 [] (zs "Planet:M") [] [] (zs "Obj:4") [zs "a0=317.269202"; zs "d0=54.432516"; zs "W=176.049863+350.891982443297d"]), [zs "Obj:5"].
  split; [apply file_of_lines; vm_compute; reflexivity|]. split; [constructor|].
  split; [split; [intros a b []|split; [constructor|right; split; [reflexivity|intros []]]]|].
  assert (OB : forall k, 4 <= k <= 5 -> CospSpec.object_line k (zs "Obj:" ++ [48 + k])).
  { intros k Hk. exists [48 + k]. split; [constructor; apply one_digit; lia|]. split; [lia|reflexivity]. }
  split.
  { split; [cbn; lia|]. split; [reflexivity|]. split; [cbn; intuition discriminate|]. split; [constructor|].
    split; [exists []; reflexivity|]. split; [constructor|]. split; [repeat split; constructor|]. apply (OB 4). lia. }
  split; [reflexivity|]. split; [reflexivity|]. split; [vm_compute; reflexivity|]. split; [intro K; now contradiction K|].
  split; [exists (zs "Obj:5"), []; split; [reflexivity|]; left; exists 5; apply (OB 5); lia|].
  exists [], [], (zs "W=176.049863+350.891982443297d"), []. split; [constructor|]. split; [constructor|]. split; [left; reflexivity|]. split; [constructor|reflexivity].
Qed.
Lemma constant_formula p angles d t q : number_of t q -> formula p angles d t (Q2R q + 0) false.
Proof. intro H. exists t, q, [], 0%R. split; [now constructor|]. split; [constructor|]. split; [now rewrite app_nil_r|reflexivity]. Qed.

Lemma C60_minus_refuted_proof :
In (zs "   a0= 317.269202 ", [226; 136; 146] ++ zs " 0.10927547T") mars_lines /\
  forall E jd fuel, default_file E = Some mars_file -> (Z.to_nat 1000 <= fuel)%nat ->
  exists w s, calc_planet_orientation fuel E init_statics 4 0 jd = Ret (0, rows (Q2R (317269202 # 1000000)) (Q2R (54432516 # 1000000)) w false, s).
Proof.
  split; [right; right; now left|]. intros E jd fuel HF Hf.
  set (t := (jd + dt E jd / 86400 - 2451545)%R).
  assert (FW : formula 77 [] t (zs "176.049863+350.891982443297d") (Q2R (176049863 # 1000000) + (Q2R (350891982443297 # 1000000000000) * t + 0)) false).
  { exists (zs "176.049863"), (176049863 # 1000000)%Q, (zs "+350.891982443297d"). eexists. split; [constructor; number|]. split; [|split; [reflexivity|reflexivity]].
    apply (one_term 77 [] t (43 :: zs "350.891982443297") (350891982443297 # 1000000000000) (zs "d") t true [] 0 false); [constructor; constructor; number|constructor|constructor]. }
  pose proof (constant_formula 77 [] t (zs "317.269202") (317269202 # 1000000)%Q ltac:(number)) as FA.
  pose proof (constant_formula 77 [] t (zs "54.432516") (54432516 # 1000000)%Q ltac:(number)) as FD.
  rewrite Rplus_0_r in FA, FD.
  assert (LF : (List.length mars_file < Z.to_nat 1000)%nat) by (apply Nat.ltb_lt; vm_compute; reflexivity).
  destruct (C60_orientation_proof E mars_file 4 0 jd 4 77 [] [0; 0; 0]%Q _ _ _ _ _ _ _ _ _ fuel HF ltac:(lia) ltac:(unfold IMAX; lia) ltac:(lia) ltac:(discriminate) ltac:(lia) mars_in FA FD FW) as (s & H).
  eexists _, s. exact H.
Qed.
