(** Lemmas for C60: an object's lines, and the whole file. *)
From Coq Require Import QArith Qreals Reals String Lia Lra.
From Verif Require Import CBase CStr RBase TstrModel TstrSpec TstrNum CospModel CospSpec CospText CospTerms CospScan.
From Verif Require SofModel DesigBase.
Import ListNotations.
Local Open Scope string_scope.
Local Open Scope list_scope.
Local Open Scope Z_scope.

Lemma scan_lf_numeral n q r : numeral n q -> num_end r -> scan_lf (n ++ r) = Ret (Some (q, r)).
Proof. intros H Hr. apply (strtold_text false [] n q r); [left; intuition|assumption|assumption]. Qed.
Lemma radii_text t q : radii_line t q -> exists u, t = zs "r=" ++ u /\ scan_radii u [0; 0; 0]%Q = Ret q.
Proof.
  intros [n x H|n m x y H H2|n m k x y z H H2 H3]; eexists; (split; [reflexivity|]); unfold scan_radii.
  - rewrite <- (app_nil_r n), (scan_lf_numeral n x) by (assumption || exact I). reflexivity.
  - rewrite (scan_lf_numeral n x) by (assumption || (cbn; repeat split; discriminate)). cbn [obind lit]. change (44 =? 44) with true. cbv iota.
    rewrite <- (app_nil_r m), (scan_lf_numeral m y) by (assumption || exact I). reflexivity.
  - rewrite (scan_lf_numeral n x) by (assumption || (cbn; repeat split; discriminate)). cbn [obind lit]. change (44 =? 44) with true. cbv iota.
    rewrite (scan_lf_numeral m y) by (assumption || (cbn; repeat split; discriminate)). cbn [obind lit]. change (44 =? 44) with true. cbv iota.
    rewrite <- (app_nil_r k), (scan_lf_numeral k z) by (assumption || exact I). reflexivity.
Qed.

Section Items.
Variables (fuel : nat) (A : asked) (lines : list (list Z)) (system : Z) (d : R).
Let step := line_step fuel A lines system d.
Let go := scan fuel A lines system d.
Definition inside (w : work) : Prop := open_ w /\ cur w = object w /\ Z.abs (object w) <= 90000.

Lemma item_step i t w : inside w -> ~ In (nth 0 t 0) [82; 80; 79] -> step i t w = CospModel.object_line fuel A lines system d t w.
Proof.
  intros (_ & Hc & Ho) Ht. cbn [In] in Ht. unfold step, line_step.
  replace (nth 0 t 0 =? 82) with false by (symmetry; apply Z.eqb_neq; lia). cbn [andb obind].
  replace (nth 0 t 0 =? 80) with false by (symmetry; apply Z.eqb_neq; lia).
  replace (nth 0 t 0 =? 79) with false by (symmetry; apply Z.eqb_neq; lia).
  replace (cur w =? PLANET_SELECTED) with false by (symmetry; apply Z.eqb_neq; unfold PLANET_SELECTED; lia).
  rewrite andb_false_r. cbn [andb]. now rewrite Hc, Z.eqb_refl.
Qed.
Lemma go_sizes i rs q w rest : sizes rs q -> inside w -> radii w = [0; 0; 0]%Q ->
  go i (rs ++ rest) w = go (i + Z.of_nat (List.length rs)) rest (set_radii w (if a_radii A then q else [0; 0; 0]%Q)).
Proof.
  intros [|t q' H] Hw Hr.
  - cbn [app List.length]. rewrite Z.add_0_r. f_equal. destruct w. cbn in Hr |- *. subst. now destruct (a_radii A).
  - destruct (radii_text t q' H) as (u & -> & E). cbn [app List.length].
    change (map zc _) with (zs "r="). unfold go.
    rewrite (go_step fuel A lines system d i (zs "r=" ++ u) rest w (set_radii w (if a_radii A then q' else [0; 0; 0]%Q))); [reflexivity|apply Hw|].
    change (line_step fuel A lines system d) with step. rewrite item_step; [|assumption|cbn; intuition discriminate].
    unfold CospModel.object_line. change (nth 0 (zs "r=" ++ u) 0 =? 114) with true. cbv iota.
    destruct (a_radii A).
    + change (zs "r=" ++ u) with (114 :: 61 :: u). rewrite from_ret by (cbn [List.length]; lia). cbn [skipn obind]. rewrite Hr, E. reflexivity.
    + destruct w. cbn in Hr |- *. now subst.
Qed.

Definition opt (b : bool) (v : R) (old : option R) : option R := if b then Some v else old.
Lemma go_pole i a vd w rest p angles v neg v2 neg2 : inside w -> planet w = p -> isalpha p = true -> (List.length angles < Z.to_nat IMAX)%nat ->
  (angles <> [] -> table_ok (mk_setting p lines (ang w) d (a_poles A) false) angles) ->
  (a_poles A = true -> formula p angles d a v neg) -> (a_poles A = true -> formula p angles d vd v2 neg2) -> (List.length a < fuel)%nat -> (List.length vd < fuel)%nat ->
  go i ([zs "a0=" ++ a; zs "d0=" ++ vd] ++ rest) w =
  go (i + 2) rest (mk_work (object w) p (ang w) (cur w) (done w) (got_omega w) (err w) (opt (a_poles A) v (ra w)) (opt (a_poles A) v2 (decl w)) (om w) (retro w) (radii w)).
Proof.
  intros Hw HP Hp Hl HT Fa Fd La Ld. cbn [app]. unfold go.
  set (w1 := mk_work (object w) p (ang w) (cur w) (done w) (got_omega w) (err w) (opt (a_poles A) v (ra w)) (decl w) (om w) (retro w) (radii w)).
  assert (Ew : err w = 0) by apply Hw.
  rewrite (go_step fuel A lines system d i (zs "a0=" ++ a) _ w w1); [|apply Hw|].
  - rewrite (go_step fuel A lines system d (i + 1) (zs "d0=" ++ vd) rest w1
      (mk_work (object w) p (ang w) (cur w) (done w) (got_omega w) (err w) (opt (a_poles A) v (ra w)) (opt (a_poles A) v2 (decl w)) (om w) (retro w) (radii w))).
    + f_equal. lia.
    + destruct Hw as ((? & ?) & _). now split.
    + change (line_step fuel A lines system d) with step. rewrite item_step; [|destruct Hw as ((? & ?) & ? & ?); now repeat split|cbn; intuition discriminate].
      unfold CospModel.object_line. change (nth 0 (zs "d0=" ++ vd) 0 =? 114) with false. change (nth 0 (zs "d0=" ++ vd) 0 =? 97) with false.
      change (nth 0 (zs "d0=" ++ vd) 0 =? 100) with true. cbv iota. unfold opt. unfold w1. cbn [planet ang retro err]. rewrite Ew.
      destruct (a_poles A) eqn:EA; [|rewrite <- Ew; reflexivity].
      change (zs "d0=" ++ vd) with ([100; 48] ++ 61 :: vd).
      rewrite (value_text p angles d [100; 48] vd v2 neg2) by (try (now apply Fd); try assumption; try reflexivity; try (cbn; intuition discriminate); try (now left)).
      cbn [s_omega obind]. rewrite andb_false_r, orb_false_r. unfold set_flags, set_decl. cbn. reflexivity.
  - change (line_step fuel A lines system d) with step. rewrite item_step; [|assumption|cbn; intuition discriminate].
    unfold CospModel.object_line. change (nth 0 (zs "a0=" ++ a) 0 =? 114) with false. change (nth 0 (zs "a0=" ++ a) 0 =? 97) with true.
    cbv iota. unfold w1, opt. rewrite Ew, HP.
    destruct (a_poles A) eqn:EA; [|rewrite <- Ew; subst p; now destruct w].
    change (zs "a0=" ++ a) with ([97; 48] ++ 61 :: a).
    rewrite (value_text p angles d [97; 48] a v neg) by (try (now apply Fa); try assumption; try reflexivity; try (cbn; intuition discriminate); try (now left)).
    cbn [s_omega obind]. rewrite andb_false_r, orb_false_r. unfold set_flags, set_ra. cbn. now rewrite HP.
Qed.

Lemma digit_of_system : 0 <= system <= 9 -> ev IMAX (system + 48%Z)%cx = Ret (48 + system) /\ (48 + system + 128) mod 256 - 128 = 48 + system.
Proof.
  intro H. split; [cbn [ev]; rewrite !chk_ok by (unfold IMAX; lia); cbn [obind]; rewrite chk_ok by (unfold IMAX; lia); f_equal; lia|].
  rewrite Z.mod_small by lia. lia.
Qed.
Lemma go_others i ws w rest : 0 <= system <= 9 -> Forall (other_system system) ws -> inside w -> got_omega w = false ->
  go i (ws ++ rest) w = go (i + Z.of_nat (List.length ws)) rest w.
Proof.
  intros Hs H. revert i. induction H as [|t ws (c & more & -> & H61 & Hc) Hws IH]; intros i Hw Hg; [cbn [app List.length]; now rewrite Z.add_0_r|].
  cbn [app]. unfold go. rewrite (go_step fuel A lines system d i (87 :: c :: more) (ws ++ rest) w w); [|apply Hw|].
  - change (scan fuel A lines system d) with go. rewrite IH by assumption. f_equal. cbn [List.length]. lia.
  - change (line_step fuel A lines system d) with step. rewrite item_step; [|assumption|cbn; intuition discriminate].
    unfold CospModel.object_line. cbn [nth]. change (87 =? 114) with false. change (87 =? 97) with false. change (87 =? 100) with false. change (87 =? 87) with true.
    rewrite Hg. cbn [negb andb]. destruct (digit_of_system Hs) as (-> & E2). cbn [obind]. rewrite E2.
    now rewrite (proj2 (Z.eqb_neq _ _) H61), (proj2 (Z.eqb_neq _ _) Hc).
Qed.
Lemma go_more_w i ws w rest : Forall (fun t => nth 0 t 0 = 87) ws -> inside w -> got_omega w = true ->
  go i (ws ++ rest) w = go (i + Z.of_nat (List.length ws)) rest w.
Proof.
  intros H. revert i. induction H as [|t ws Ht Hws IH]; intros i Hw Hg; [cbn [app List.length]; now rewrite Z.add_0_r|].
  cbn [app]. unfold go. rewrite (go_step fuel A lines system d i t (ws ++ rest) w w); [|apply Hw|].
  - change (scan fuel A lines system d) with go. rewrite IH by assumption. f_equal. cbn [List.length]. lia.
  - change (line_step fuel A lines system d) with step. rewrite item_step; [|assumption|rewrite Ht; cbn; intuition discriminate].
    unfold CospModel.object_line. rewrite Ht. change (87 =? 114) with false. change (87 =? 97) with false. change (87 =? 100) with false. now rewrite Hg.
Qed.
Lemma w_step i t w wt : 0 <= system <= 9 -> w_line system wt t -> inside w -> got_omega w = false ->
  exists u, t = u ++ 61 :: wt /\ ~ In 61 u /\
  step i t w = (if a_omega A then do '(v, r, e, out) <- value fuel (mk_setting (planet w) lines (ang w) d (a_poles A) true) t (retro w) (err w); Ret (set_flags (set_om w v) r e, out)
       else Ret (mk_work (object w) (planet w) (ang w) (cur w) (done w) true (err w) (ra w) (decl w) (om w) (retro w) (radii w), false)).
Proof.
  intros Hs H Hw Hg. assert (E : exists u, t = 87 :: u ++ 61 :: wt /\ (u = [] \/ u = [48 + system])).
  { destruct H as [-> | ->]; [now exists []; split; [reflexivity|left]|exists [48 + system]; split; [reflexivity|now right]]. }
  destruct E as (u & -> & Hu). exists (87 :: u). split; [reflexivity|].
  split; [destruct Hu as [-> | ->]; cbn [In]; intros K; lia|].
  rewrite item_step; [|assumption|cbn; intuition discriminate].
  unfold CospModel.object_line. cbn [nth]. change (87 =? 114) with false. change (87 =? 97) with false. change (87 =? 100) with false. change (87 =? 87) with true.
  rewrite Hg. cbn [negb andb]. destruct (digit_of_system Hs) as (-> & E2). cbn [obind]. rewrite E2.
  replace (((nth 0 (u ++ 61 :: wt) 0 =? 48 + system) || (nth 0 (u ++ 61 :: wt) 0 =? 61))) with true; [reflexivity|].
  destruct Hu as [-> | ->]; cbn [app nth]; [|now rewrite Z.eqb_refl]. symmetry. apply orb_true_iff. now right.
Qed.

Lemma go_items i ls q a dd wt w rest p angles va na vd nd vw nw : 0 <= system <= 9 -> items system ls q a dd wt -> inside w -> planet w = p -> isalpha p = true ->
  (List.length angles < Z.to_nat IMAX)%nat ->
  (angles <> [] -> forall b, table_ok (mk_setting p lines (ang w) d (a_poles A) b) angles) ->
  (a_poles A = true -> formula p angles d a va na) -> (a_poles A = true -> formula p angles d dd vd nd) -> (a_omega A = true -> formula p angles d wt vw nw) ->
  (forall t, In t ls -> (List.length t < fuel)%nat) -> radii w = [0; 0; 0]%Q -> got_omega w = false -> (a_omega A = true -> a_poles A = true) ->
  go i (ls ++ rest) w = go (i + Z.of_nat (List.length ls)) rest
    (mk_work (object w) p (ang w) (cur w) (done w) true (err w) (opt (a_poles A) va (ra w)) (opt (a_poles A) vd (decl w)) (opt (a_omega A) vw (om w))
       (retro w || (nw && a_omega A)) (if a_radii A then q else [0; 0; 0]%Q)).
Proof.
  intros Hs (rs & ws1 & wl & ws2 & Hr & H1 & Hwl & H2 & ->) Hw HP Hp Hl HT Fa Fd Fw Hf Hr0 Hg HA.
  assert (Ew : err w = 0) by apply Hw.
  rewrite <- !app_assoc. rewrite (go_sizes i rs q w) by assumption.
  set (w1 := set_radii w (if a_radii A then q else [0; 0; 0]%Q)).
  assert (I1 : inside w1) by (destruct Hw as ((? & ?) & ? & ?); now repeat split).
  rewrite (go_pole _ a dd w1 _ p angles va na vd nd); try assumption.
  2:{ intro K. now apply (HT K). }
  2:{ assert (K : (List.length (zs "a0=" ++ a) < fuel)%nat) by (apply Hf; apply in_or_app; right; now left). rewrite app_length in K. lia. }
  2:{ assert (K : (List.length (zs "d0=" ++ dd) < fuel)%nat) by (apply Hf; apply in_or_app; right; right; now left). rewrite app_length in K. lia. }
  match goal with |- go _ _ ?x = _ => set (w2 := x) end.
  assert (I2 : inside w2) by (destruct Hw as ((? & ?) & ? & ?); now repeat split).
  rewrite go_others by assumption.
  destruct (w_step 0 wl w2 wt Hs Hwl I2 Hg) as (u & Eu & Nu & Es0).
  assert (Es : forall i, step i wl w2 = Ret (mk_work (object w) p (ang w) (cur w) (done w) true (err w) (opt (a_poles A) va (ra w)) (opt (a_poles A) vd (decl w)) (opt (a_omega A) vw (om w))
       (retro w || (nw && a_omega A)) (if a_radii A then q else [0; 0; 0]%Q), false)).
  { intro j. destruct (w_step j wl w2 wt Hs Hwl I2 Hg) as (_ & _ & _ & ->). unfold opt at 3.
    destruct (a_omega A) eqn:EO.
    - rewrite Eu. unfold w2. cbn [planet ang retro err]. unfold w1. cbn [planet ang retro err set_radii]. rewrite Ew. rewrite (HA eq_refl).
      assert (Lw : (List.length wt < fuel)%nat).
      { assert (K : (List.length wl < fuel)%nat) by (apply Hf; rewrite !in_app_iff; cbn [In]; tauto). rewrite Eu, app_length in K. cbn [List.length] in K. lia. }
      rewrite (value_text p angles d u wt vw nw (Fw eq_refl)); try assumption; try reflexivity.
      + intro K. specialize (HT K true). now rewrite (HA eq_refl) in HT.
      + now left.
    - unfold w2, w1. cbn. now rewrite andb_false_r, orb_false_r. }
  cbn [app]. unfold go. rewrite (go_step fuel A lines system d _ wl _ w2 _ (proj1 I2) (Es _)).
  change (scan fuel A lines system d) with go. rewrite go_more_w; [|assumption|destruct Hw as ((? & ?) & ? & ?); now repeat split|reflexivity].
  f_equal. rewrite !app_length. cbn [List.length]. rewrite !app_length. cbn [List.length]. lia.
Qed.
End Items.

(** ---- the whole file ---- *)
Lemma table_index (pre tab post : list (list Z)) p angles : table_from p 1 angles tab ->
  forall k a, nth_error angles k = Some a -> exists t, angle_line p (Z.of_nat k + 1) a t /\ nth_error (pre ++ tab ++ post) (List.length pre + k) = Some t.
Proof.
  intros H k a Hk. rewrite nth_error_app2 by lia. replace (List.length pre + k - List.length pre)%nat with k by lia.
  assert (G : forall j, table_from p j angles tab -> exists t, angle_line p (j + Z.of_nat k) a t /\ nth_error (tab ++ post) k = Some t).
  { clear H. revert angles Hk tab. induction k as [|k IH]; intros angles Hk tab j H; (inversion H as [j'|j' a0 t an ts Ht Hts]; subst; [discriminate|]); cbn [nth_error] in Hk.
    - injection Hk as ->. exists t. rewrite Z.add_0_r. now split.
    - destruct (IH an Hk ts (j + 1) Hts) as (t' & H1 & H2). exists t'. split; [|assumption]. now replace (j + Z.of_nat (S k)) with (j + 1 + Z.of_nat k) by lia. }
  destruct (G 1 H) as (t & H1 & H2). exists t. split; [|assumption]. now replace (Z.of_nat k + 1) with (1 + Z.of_nat k) by lia.
Qed.
Lemma table_length p j angles tab : table_from p j angles tab -> List.length angles = List.length tab.
Proof. induction 1; cbn [List.length]; lia. Qed.

Definition start (obj : Z) : work := mk_work obj 0 0 NO_OBJECT_SELECTED false false 0 None None None false [0; 0; 0]%Q.
(** up to the line of the object *)
Lemma reach fuel A lines system d rm ps obj s angles rest :
  remaps rm ps -> alias ps obj (obj_no s) -> obj <> NO_OBJECT_SELECTED -> is_section s angles ->
  lines = rm ++ section_lines s ++ rest -> Z.of_nat (List.length lines) <= IMAX ->
  (angles <> [] -> rm ++ before s <> []) ->
  (forall t, In t lines -> (List.length t < fuel)%nat) ->
  exists w i, scan fuel A lines system d 0 lines (start obj) = scan fuel A lines system d i (item_lines s ++ rest) w /\
    inside w /\ object w = obj_no s /\ planet w = letter s /\ same (set_object (start obj) (obj_no s)) w /\
    (angles <> [] -> forall b c, table_ok (mk_setting (letter s) lines (ang w) d b c) angles) /\ (List.length angles < Z.to_nat IMAX)%nat.
Proof.
  intros Hrm Hal Hob (Hn & Hp & Hno & Hbef & Hpl & Htab & (Hbt & Hbt2 & Hbt3) & Hol) EL HL Hne Hf.
  set (n := obj_no s) in *. set (p := letter s) in *.
  assert (Flat : lines = rm ++ before s ++ (p_line s :: tab s ++ between s ++ o_line s :: (item_lines s ++ rest))).
  { rewrite EL. unfold section_lines. rewrite <- !app_assoc. reflexivity. }
  destruct (go_remaps fuel A lines system d rm ps Hrm) with (i := 0) (rest := before s ++ (p_line s :: tab s ++ between s ++ o_line s :: (item_lines s ++ rest))) (w := start obj)
    as (w1 & E1 & -> & O1); try reflexivity.
  { intros t I. apply Hf. rewrite EL. apply in_or_app. now left. }
  { apply Hal. }
  { now split. }
  { assumption. }
  cbn [object start] in E1, O1. rewrite (fold_alias ps obj n Hal) in E1, O1.
  set (w1 := set_object (start obj) n) in *.
  assert (A1 : away n w1).
  { split; [now split|]. split; [reflexivity|]. cbn. unfold NO_OBJECT_SELECTED. lia. }
  destruct (go_other fuel A lines system d n (before s) Hn Hbef (0 + Z.of_nat (List.length rm)) (p_line s :: tab s ++ between s ++ o_line s :: (item_lines s ++ rest)) w1 A1)
    as (w2 & E2 & S2 & A2 & _).
  set (i2 := 0 + Z.of_nat (List.length rm) + Z.of_nat (List.length (before s))) in *.
  set (w3 := set_cur (set_planet w2 p) PLANET_SELECTED).
  assert (F2 : (cur w2 =? object w2) = false) by (destruct A2 as (_ & X & Y); apply Z.eqb_neq; congruence).
  assert (D3 : done w3 = done w2) by (cbn; rewrite F2; apply orb_false_r).
  assert (A3 : away n w3).
  { destruct A2 as ((X1 & X2) & X3 & X4). split; [split; [now rewrite D3|assumption]|]. split; [assumption|]. cbn. unfold PLANET_SELECTED. lia. }
  assert (S3 : same w2 w3) by (unfold same; rewrite D3; now repeat split).
  pose proof (planet_step fuel A lines system d i2 p (p_line s) w2 Hpl) as P3. fold w3 in P3.
  pose proof (go_step fuel A lines system d i2 (p_line s) (tab s ++ between s ++ o_line s :: (item_lines s ++ rest)) w2 w3 (proj1 A2) P3) as E3.
  assert (LT : Z.of_nat (List.length (tab s)) + Z.of_nat (List.length rm) + Z.of_nat (List.length (before s)) + 1 <= IMAX).
  { rewrite Flat in HL. rewrite !app_length in HL. cbn [List.length] in HL. rewrite !app_length in HL. lia. }
  pose proof (go_table fuel A lines system d p angles (tab s) Hp Hno Htab ltac:(unfold IMAX in LT; lia) n (i2 + 1) (between s ++ o_line s :: (item_lines s ++ rest)) w3 A3 eq_refl eq_refl) as E4.
  set (w4 := match tab s with [] => w3 | _ => set_ang w3 (i2 + 1 - 1) end) in *.
  assert (Q4 : away n w4 /\ planet w4 = p /\ cur w4 = PLANET_SELECTED /\ same w3 w4 /\ (tab s <> [] -> ang w4 = i2)).
  { unfold w4. destruct (tab s).
    - repeat split; try reflexivity; try apply A3. congruence.
    - split; [destruct A3 as ((? & ?) & ? & ?); now repeat split|]. split; [reflexivity|]. split; [reflexivity|]. split; [now repeat split|]. intros _. cbn. lia. }
  destruct Q4 as (A4 & P4 & C4 & S4 & N4).
  set (i4 := i2 + 1 + Z.of_nat (List.length (tab s))) in *.
  destruct (go_other fuel A lines system d n (between s) Hn Hbt i4 (o_line s :: (item_lines s ++ rest)) w4 A4) as (w5 & E5 & S5 & A5 & P5).
  destruct (P5 Hbt2 (or_intror Hbt3)) as (P5a & P5b & _).
  set (i5 := i4 + Z.of_nat (List.length (between s))) in *.
  set (w6 := set_cur w5 n).
  pose proof (object_step fuel A lines system d i5 n (o_line s) w5 Hol) as P6. fold w6 in P6.
  pose proof (go_step fuel A lines system d i5 (o_line s) (item_lines s ++ rest) w5 w6 (proj1 A5) P6) as E6.
  assert (F5 : (cur w5 =? object w5) = false) by (destruct A5 as (_ & X & Y); apply Z.eqb_neq; congruence).
  assert (D6 : done w6 = done w5) by (cbn; rewrite F5; apply orb_false_r).
  exists w6, (i5 + 1). split; [|split; [|split; [|split; [|split; [|split]]]]].
  - rewrite Flat at 2. cbn [scan] in *. rewrite E1, E2, E3, E4, E5, E6. reflexivity.
  - destruct A5 as ((X1 & X2) & X3 & X4). split; [split; [now rewrite D6|assumption]|]. split; [cbn; congruence|]. cbn. now rewrite X3.
  - destruct A5 as (_ & X3 & _). exact X3.
  - cbn. congruence.
  - eapply same_trans; [exact S2|]. eapply same_trans; [exact S3|]. eapply same_trans; [exact S4|]. eapply same_trans; [exact S5|].
    unfold same. rewrite D6. now repeat split.
  - intros Ha b c. pose proof (table_length _ _ _ _ Htab) as TL.
    assert (Ht : tab s <> []) by (intro K; rewrite K in TL; destruct angles; [congruence|discriminate]).
    assert (EA : ang w6 = i2) by (change (ang w6) with (ang w5); rewrite P5b; now apply N4).
    assert (Hi : 0 < i2).
    { specialize (Hne Ha). unfold i2. destruct rm; [|cbn [List.length]; lia]. cbn [app] in Hne. destruct (before s); [congruence|cbn [List.length]; lia]. }
    unfold table_ok. cbn [s_ang s_planet s_lines]. rewrite EA. split; [assumption|].
    intros k a Hk. assert (Lk : (k < List.length angles)%nat) by (apply nth_error_Some; congruence).
    destruct (table_index (rm ++ before s ++ [p_line s]) (tab s) (between s ++ o_line s :: (item_lines s ++ rest)) p angles Htab k a Hk) as (t & T1 & T2).
    exists t, (Z.of_nat k + 1). unfold IMAX in *. split; [lia|]. split; [exact T1|]. split; [unfold i2; lia|].
    replace (Z.to_nat (i2 + Z.of_nat k + 1)) with (List.length (rm ++ before s ++ [p_line s]) + k)%nat.
    + rewrite <- T2. f_equal. rewrite Flat, <- !app_assoc. reflexivity.
    + rewrite !app_length. cbn [List.length]. unfold i2. lia.
  - pose proof (table_length _ _ _ _ Htab) as TL. unfold IMAX in *. lia.
Qed.

(** to the end of the object's lines *)
Lemma reach_end fuel A lines system d rm ps obj s angles rest q a dd wt va na vd nd vw nw :
  remaps rm ps -> alias ps obj (obj_no s) -> obj <> NO_OBJECT_SELECTED -> is_section s angles ->
  lines = rm ++ section_lines s ++ rest -> Z.of_nat (List.length lines) <= IMAX ->
  (angles <> [] -> rm ++ before s <> []) ->
  (forall t, In t lines -> (List.length t < fuel)%nat) ->
  0 <= system <= 9 -> items system (item_lines s) q a dd wt ->
  (a_poles A = true -> formula (letter s) angles d a va na) -> (a_poles A = true -> formula (letter s) angles d dd vd nd) -> (a_omega A = true -> formula (letter s) angles d wt vw nw) ->
  (a_omega A = true -> a_poles A = true) ->
  exists w i, scan fuel A lines system d 0 lines (start obj) = scan fuel A lines system d i rest w /\ inside w /\ object w = obj_no s /\
   ra w = opt (a_poles A) va None /\ decl w = opt (a_poles A) vd None /\ om w = opt (a_omega A) vw None /\ retro w = nw && a_omega A /\
   radii w = (if a_radii A then q else [0; 0; 0]%Q).
Proof.
  intros Hrm Hal Hob HS EL HL Hne Hf Hs Hi Fa Fd Fw HA.
  destruct (reach fuel A lines system d rm ps obj s angles rest Hrm Hal Hob HS EL HL Hne Hf) as (w & i & E & I & EO & EP & S & T & LA).
  destruct S as (S1 & S2 & S3 & S4 & S5 & S6 & S7 & S8 & S9). cbn in S1, S2, S3, S4, S5, S6, S7, S8, S9.
  assert (Hp : isalpha (letter s) = true) by apply HS.
  assert (HfI : forall t, In t (item_lines s) -> (List.length t < fuel)%nat).
  { intros t It. apply Hf. rewrite EL. unfold section_lines. rewrite !in_app_iff. tauto. }
  rewrite (go_items fuel A lines system d i (item_lines s) q a dd wt w rest (letter s) angles va na vd nd vw nw Hs Hi I EP Hp LA
     (fun K b => T K (a_poles A) b) Fa Fd Fw HfI S9 S3 HA) in E.
  eexists _, _. split; [exact E|]. destruct I as ((I1 & I2) & I3 & I4).
  split; [now repeat split|]. cbn. rewrite S5, S6, S7, S8. now repeat split.
Qed.

Lemma find_found fuel A lines system jde rm ps obj s angles stop post q a dd wt va na vd nd vw nw :
  remaps rm ps -> alias ps obj (obj_no s) -> obj <> NO_OBJECT_SELECTED -> is_section s angles ->
  lines = rm ++ section_lines s ++ stop :: post -> Z.of_nat (List.length lines) <= IMAX ->
  (angles <> [] -> rm ++ before s <> []) -> ends_object stop ->
  (forall t, In t lines -> (List.length t < fuel)%nat) ->
  0 <= system <= 9 -> items system (item_lines s) q a dd wt ->
  let d := (jde - 2451545)%R in
  (a_poles A = true -> formula (letter s) angles d a va na) -> (a_poles A = true -> formula (letter s) angles d dd vd nd) -> (a_omega A = true -> formula (letter s) angles d wt vw nw) ->
  (a_omega A = true -> a_poles A = true) ->
  find fuel A lines obj system jde = Ret (mk_results 0 (opt (a_poles A) va None) (opt (a_poles A) vd None) (opt (a_omega A) vw None) (nw && a_omega A)
    (if a_radii A then q else [0; 0; 0]%Q)).
Proof.
  intros Hrm Hal Hob HS EL HL Hne Hst Hf Hs Hi d Fa Fd Fw HA. unfold find. fold d.
  change (mk_work obj 0 0 NO_OBJECT_SELECTED false false 0 None None None false [0; 0; 0]%Q) with (start obj).
  destruct (reach_end fuel A lines system d rm ps obj s angles (stop :: post) q a dd wt va na vd nd vw nw Hrm Hal Hob HS EL HL Hne Hf Hs Hi Fa Fd Fw HA)
    as (w & i & E & I & EO & R1 & R2 & R3 & R4 & R5).
  rewrite E. destruct I as (I1 & I3 & I4).
  assert (K : exists w', line_step fuel A lines system d i stop w = Ret (w', false) /\ done w' = true /\ err w' = 0 /\
    ra w' = ra w /\ decl w' = decl w /\ om w' = om w /\ retro w' = retro w /\ radii w' = radii w).
  { assert (D : done w || (cur w =? object w) = true) by (rewrite I3, Z.eqb_refl; apply orb_true_r). destruct I1 as (X1 & X2).
    destruct Hst as [(m & Hm)|(p & Hp)].
    - eexists. split; [apply (object_step fuel A lines system d i m stop w Hm)|]. cbn [done err ra decl om retro radii set_cur]. now repeat split.
    - eexists. split; [apply (planet_step fuel A lines system d i p stop w Hp)|]. cbn. now repeat split. }
  destruct K as (w' & K & D & Er & K1 & K2 & K3 & K4 & K5).
  rewrite (go_step fuel A lines system d i stop post w w' I1 K).
  assert (G : forall j, scan fuel A lines system d j post w' = Ret (w', false)).
  { intro j. destruct post; [reflexivity|]. cbn [scan]. now rewrite D. }
  rewrite G. cbn [obind]. rewrite Er, D. cbn. rewrite K1, K2, K3, K4, K5, R1, R2, R3, R4, R5. reflexivity.
Qed.
Lemma find_last fuel A lines system jde rm ps obj s angles q a dd wt va na vd nd vw nw :
  remaps rm ps -> alias ps obj (obj_no s) -> obj <> NO_OBJECT_SELECTED -> is_section s angles ->
  lines = rm ++ section_lines s -> Z.of_nat (List.length lines) <= IMAX ->
  (angles <> [] -> rm ++ before s <> []) ->
  (forall t, In t lines -> (List.length t < fuel)%nat) ->
  0 <= system <= 9 -> items system (item_lines s) q a dd wt ->
  let d := (jde - 2451545)%R in
  (a_poles A = true -> formula (letter s) angles d a va na) -> (a_poles A = true -> formula (letter s) angles d dd vd nd) -> (a_omega A = true -> formula (letter s) angles d wt vw nw) ->
  a_poles A = true -> a_omega A = true ->
  find fuel A lines obj system jde = Ret (mk_results (-1) (Some (IZR (20 * obj_no s))) (Some (IZR (20 * obj_no s))) (Some (d * 360 / (13 / 10))%R) nw
    (if a_radii A then q else [0; 0; 0]%Q)).
Proof.
  intros Hrm Hal Hob HS EL HL Hne Hf Hs Hi d Fa Fd Fw HA HO. unfold find. fold d.
  change (mk_work obj 0 0 NO_OBJECT_SELECTED false false 0 None None None false [0; 0; 0]%Q) with (start obj).
  destruct (reach_end fuel A lines system d rm ps obj s angles [] q a dd wt va na vd nd vw nw Hrm Hal Hob HS (eq_trans EL (f_equal (fun x => rm ++ x) (eq_sym (app_nil_r _)))) HL Hne Hf Hs Hi Fa Fd Fw (fun _ => HA))
    as (w & i & E & I & EO & R1 & R2 & R3 & R4 & R5).
  rewrite E. destruct I as ((I1 & I2) & I3 & I4). cbn [scan obind]. rewrite I1, I2, HA, HO. cbn [negb Z.eqb]. 
  replace (ev IMAX (object w * 20%Z)%cx) with (@Ret Z (20 * obj_no s)).
  - cbn [obind]. rewrite R4, R5, HO, andb_true_r. reflexivity.
  - symmetry. cbn [ev]. rewrite !chk_ok by (unfold IMAX; lia). cbn [obind]. rewrite chk_ok by (unfold IMAX; lia). f_equal. rewrite EO. lia.
Qed.
