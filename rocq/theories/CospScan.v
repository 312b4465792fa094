(** Lemmas for C60: the search for an object. *)
From Coq Require Import QArith Qreals Reals String Lia Lra.
From Verif Require Import CBase CStr RBase TstrModel TstrSpec TstrNum CospModel CospSpec CospText CospTerms.
From Verif Require SofModel DesigBase.
Import ListNotations.
Local Open Scope string_scope.
Local Open Scope list_scope.
Local Open Scope Z_scope.

Lemma chk_ok z : - IMAX - 1 <= z <= IMAX -> chk IMAX z = Ret z.
Proof. intros Hz. unfold chk, in_rng. now rewrite !(proj2 (Z.leb_le _ _)) by lia. Qed.
Lemma atoi_integer ds n : integer ds n -> Z.abs n <= 90000 -> SofModel.atoi ds = Ret n.
Proof.
  intros H Hn. destruct H as [ds n H|ds n H].
  - rewrite <- (app_nil_r ds). apply atoi_num; [assumption|exact I|]. pose proof (dig_val_nonneg ds 0 ltac:(lia)). destruct H as (_ & _ & <-).
    unfold IMAX. lia.
  - unfold SofModel.atoi, scan_d. change (skip_ws (45 :: ds)) with (45 :: ds). cbn [sign_of].
    destruct H as (Hne & Hd & Hv). assert (Sp : span isdigit ds = List.length ds) by (rewrite <- (app_nil_r ds) at 1; rewrite span_all_app by assumption; cbn [span]; apply Nat.add_0_r). rewrite Sp.
    destruct (List.length ds =? 0)%nat eqn:E; [apply Nat.eqb_eq in E; destruct ds; [congruence|discriminate]|].
    rewrite Hv. rewrite chk_ok by (unfold IMAX; lia). reflexivity.
Qed.

(** ---- remaps ---- *)
Definition renumber (o : Z) (pr : Z * Z) : Z := if o =? snd pr then fst pr else o.
Lemma skip_blanks k s : skip_ws (repeat 32 k ++ s) = skip_ws s.
Proof. induction k as [|k IH]; [reflexivity|]. cbn [repeat app]. now rewrite skip_ws_sp. Qed.
Lemma scan_d_blanks k s v r : digits_of s v -> no_digit r -> 0 <= v <= IMAX -> scan_d IMAX (repeat 32 k ++ s ++ r) = Ret (Some (v, r)).
Proof.
  intros H Hr Hv. rewrite <- (scan_d_num IMAX s v r H Hr Hv). unfold scan_d. now rewrite skip_blanks.
Qed.
Lemma scan_d_no k : scan_d IMAX (repeat 32 k) = Ret None.
Proof. unfold scan_d. rewrite <- (app_nil_r (repeat 32 k)), skip_blanks. reflexivity. Qed.
Lemma no_digit_blanks k r : (0 < k)%nat -> no_digit (repeat 32 k ++ r).
Proof. destruct k; [lia|]. intros _. reflexivity. Qed.
Lemma remap_pairs t ps : pairs t ps -> forall fuel o, (List.length t < fuel)%nat -> remap fuel t o = Ret (fold_left renumber ps o).
Proof.
  induction 1 as [k|k1 a k2 b ts ps Ha Hb H IH Hk Hts]; intros fuel o Hf; (destruct fuel as [|fuel]; [lia|]); cbn [remap].
  - rewrite scan_d_no. reflexivity.
  - rewrite (scan_d_blanks k1 (dec a) a) by (try (apply dec_digits; lia); try (now apply no_digit_blanks); unfold IMAX; lia).
    cbn [obind]. rewrite (scan_d_blanks k2 (dec b) b) by (try (apply dec_digits; lia); try (destruct Hts as [->|(r & ->)]; reflexivity || exact I); unfold IMAX; lia).
    cbn [obind]. rewrite IH; [reflexivity|]. rewrite !app_length in Hf. destruct (dec_digits a ltac:(lia)) as (Hd & _).
    destruct (dec a); [congruence|]. cbn [List.length] in Hf. lia.
Qed.
Lemma fold_stays ps o : ~ In o (map snd ps) -> fold_left renumber ps o = o.
Proof.
  induction ps as [|(a, b) ps IH]; intro H; [reflexivity|]. cbn [fold_left map snd] in *. unfold renumber at 2. cbn [fst snd].
  destruct (Z.eqb_spec o b); [exfalso; apply H; now left|]. apply IH. intro; apply H; now right.
Qed.
Lemma fold_alias ps obj n : alias ps obj n -> fold_left renumber ps obj = n.
Proof.
  intros (Hr & Hd & [Hi|(-> & Hi)]); [|now apply fold_stays].
  induction ps as [|(a, b) ps IH]; [destruct Hi|]. cbn [map snd] in Hd. inversion Hd as [|x xs Hx Hxs]; subst.
  cbn [fold_left]. unfold renumber at 2. cbn [fst snd]. destruct Hi as [E|Hi].
  - injection E as -> ->. rewrite Z.eqb_refl. apply fold_stays. intro J. apply in_map_iff in J. destruct J as ((a', b') & E & J).
    cbn [snd] in E. subst. destruct (Hr a' n (or_intror J)) as (_ & K). destruct (Hr n obj (or_introl eq_refl)) as (K2 & _). lia.
  - destruct (Z.eqb_spec obj b).
    + subst. exfalso. apply Hx. apply in_map_iff. now exists (n, b).
    + apply IH; [intros; apply Hr; now right|assumption|assumption].
Qed.

Lemma fold_large ps : forall o, o <> NO_OBJECT_SELECTED -> (forall a b, In (a, b) ps -> 1000 <= a) -> fold_left renumber ps o <> NO_OBJECT_SELECTED.
Proof.
  induction ps as [|(a, b) ps IH]; intros o Ho G; [assumption|]. cbn [fold_left]. apply IH.
  - unfold renumber. cbn [fst snd]. destruct (o =? b); [|assumption]. specialize (G a b (or_introl eq_refl)). unfold NO_OBJECT_SELECTED. lia.
  - intros a0 b0 I. apply (G a0 b0). now right.
Qed.

(** ---- lines ---- *)
Section Search.
Variables (fuel : nat) (A : asked) (lines : list (list Z)) (system : Z) (d : R).
Let step := line_step fuel A lines system d.
Let go := scan fuel A lines system d.

Definition open_ (w : work) : Prop := done w = false /\ err w = 0.
(** the same but for where it is in the file *)
Definition same (w w' : work) : Prop :=
  object w' = object w /\ done w' = done w /\ got_omega w' = got_omega w /\ err w' = err w /\ ra w' = ra w /\ decl w' = decl w /\
  om w' = om w /\ retro w' = retro w /\ radii w' = radii w.
Lemma same_refl w : same w w.
Proof. now repeat split. Qed.
Lemma same_trans a b c : same a b -> same b c -> same a c.
Proof. unfold same. intros (? & ? & ? & ? & ? & ? & ? & ? & ?) (? & ? & ? & ? & ? & ? & ? & ? & ?). repeat split; congruence. Qed.
Lemma same_open a b : same a b -> open_ a -> open_ b.
Proof. unfold same, open_. intros (? & ? & ? & ? & ?) (? & ?). split; congruence. Qed.

Lemma go_step i t rest w w' : open_ w -> step i t w = Ret (w', false) -> go i (t :: rest) w = go (i + 1) rest w'.
Proof. intros (H1 & H2) E. unfold go. cbn [scan]. rewrite H1, H2. cbn [orb negb]. change (0 =? 0) with true. cbn [negb]. fold step. rewrite E. reflexivity. Qed.

Ltac eqbs := repeat match goal with
  | |- context [?a =? ?b] => first [replace (a =? b) with true by (symmetry; apply Z.eqb_eq; first [lia|congruence])
                                   |replace (a =? b) with false by (symmetry; apply Z.eqb_neq; first [lia|congruence])]
  end.

Lemma planet_step i p t w : planet_line p t -> step i t w = Ret (set_cur (set_planet w p) PLANET_SELECTED, false).
Proof. intros (more & ->). reflexivity. Qed.
Lemma object_step i m t w : CospSpec.object_line m t -> step i t w = Ret (set_cur w m, false).
Proof.
  intros (ds & Hd & Hm & ->). change (zs "Obj:" ++ ds) with (79 :: 98 :: 106 :: 58 :: ds). unfold step, line_step. cbn [nth].
  change ((79 =? 82)) with false. cbn [andb obind]. change (79 =? 80) with false. change (79 =? 79) with true. cbv iota.
  rewrite from_ret by (cbn [List.length]; lia). cbn [obind skipn]. rewrite (atoi_integer ds m) by assumption. reflexivity.
Qed.
Definition NS : Z := NO_OBJECT_SELECTED.
(** elsewhere in the file than in object n's lines *)
Definition away (n : Z) (w : work) : Prop := open_ w /\ object w = n /\ cur w <> n.
Lemma other_step i n t w : Z.abs n <= 90000 -> other n t -> away n w -> exists w', step i t w = Ret (w', false) /\ same w w' /\ away n w' /\
  (nth 0 t 0 <> 80 -> planet w' = planet w /\ (cur w <> PLANET_SELECTED -> ang w' = ang w /\ cur w' <> PLANET_SELECTED)) /\
  (nth 0 t 0 = 79 -> planet w' = planet w /\ ang w' = ang w /\ cur w' <> PLANET_SELECTED).
Proof.
  intros Hn (H82 & H80 & H79) (Ho & <- & Hc).
  destruct (Z.eq_dec (nth 0 t 0) 80) as [E|E].
  - destruct (H80 E) as (p & Hp). eexists. split; [apply (planet_step i p t w Hp)|].
    destruct Ho as (O1 & O2).
    assert (F : (cur w =? object w) = false) by now apply Z.eqb_neq.
    split; [unfold same; cbn; rewrite F, orb_false_r; now repeat split|].
    split; [split; [split; cbn; rewrite ?F, ?orb_false_r; assumption|split; cbn; [reflexivity|unfold PLANET_SELECTED; lia]]|].
    split; intro K; [contradiction|congruence].
  - destruct (Z.eq_dec (nth 0 t 0) 79) as [E2|E2].
    + destruct (H79 E2) as (m & Hm & Hmn). eexists. split; [apply (object_step i m t w Hm)|].
      destruct Ho as (O1 & O2). assert (F : (cur w =? object w) = false) by now apply Z.eqb_neq.
      destruct Hm as (ds & _ & Hm & _).
      split; [unfold same; cbn; rewrite F, orb_false_r; now repeat split|].
      split; [split; [split; cbn; rewrite ?F, ?orb_false_r; assumption|split; cbn; [reflexivity|assumption]]|].
      split; intros _; cbn; repeat split; unfold PLANET_SELECTED; lia.
    + unfold step, line_step. rewrite (proj2 (Z.eqb_neq _ _) H82). cbn [andb obind].
      rewrite (proj2 (Z.eqb_neq _ _) E), (proj2 (Z.eqb_neq _ _) E2).
      destruct (negb (planet w =? 0) && (cur w =? PLANET_SELECTED) && (nth 0 t 0 =? planet w) && (nth 1 t 0 =? 49) && (nth 2 t 0 =? 61)) eqn:B.
      * eexists. split; [reflexivity|]. split; [now repeat split|]. split; [destruct Ho; now repeat split|]. split; [|intro; congruence].
        intros _. split; [reflexivity|]. intro K. exfalso. rewrite !andb_true_iff in B. destruct B as ((((_ & B) & _) & _) & _). apply Z.eqb_eq in B. contradiction.
      * rewrite (proj2 (Z.eqb_neq _ _) Hc). exists w. split; [reflexivity|]. split; [apply same_refl|]. split; [destruct Ho; now repeat split|].
        split; [|intro; congruence]. intros _. now split.
Qed.
Lemma go_other n ls : Z.abs n <= 90000 -> Forall (other n) ls -> forall i rest w, away n w ->
  exists w', go i (ls ++ rest) w = go (i + Z.of_nat (List.length ls)) rest w' /\ same w w' /\ away n w' /\
   (Forall (fun t => nth 0 t 0 <> 80) ls -> (cur w <> PLANET_SELECTED \/ match ls with [] => True | t :: _ => nth 0 t 0 = 79 end) ->
     planet w' = planet w /\ ang w' = ang w /\ (cur w <> PLANET_SELECTED -> cur w' <> PLANET_SELECTED)).
Proof.
  intro Hn. induction 1 as [|t ls Ht Hls IH]; intros i rest w Hw.
  - exists w. cbn [app List.length]. rewrite Z.add_0_r. split; [reflexivity|]. split; [apply same_refl|]. split; [assumption|]. intros _ _. now repeat split.
  - destruct (other_step i n t w Hn Ht Hw) as (w1 & E & S1 & A1 & P1 & P2).
    destruct (IH (i + 1) rest w1 A1) as (w2 & E2 & S2 & A2 & P3).
    exists w2. split; [|split; [now apply same_trans with w1|split; [assumption|]]].
    + cbn [app]. rewrite (go_step i t (ls ++ rest) w w1) by (assumption || apply Hw). rewrite E2. f_equal. cbn [List.length]. lia.
    + intros F K. inversion F as [|x xs F1 F2]; subst. destruct (P1 F1) as (Q1 & Q2).
      assert (Q3 : ang w1 = ang w /\ cur w1 <> PLANET_SELECTED) by (destruct K as [K|K]; [now apply Q2|now apply P2]).
      destruct Q3 as (Q3 & Q4). destruct (P3 F2 (or_introl Q4)) as (R1 & R2 & R3). repeat split; try congruence. intros _. now apply R3.
Qed.

(** ---- the table ---- *)
Lemma first_line_number i : 2 <= i < 10 ^ 20 -> forall r, ~ (nth 0 (dec i ++ 61 :: r) 0 = 49 /\ nth 1 (dec i ++ 61 :: r) 0 = 61).
Proof.
  intros Hi r (H1 & H2). destruct (dec_digits i ltac:(lia)) as (Hn & Hd & Hv).
  destruct (dec i) as [|c [|c' s]]; [congruence| |].
  - cbn [app nth] in H1. rewrite H1 in Hv. cbn in Hv. lia.
  - cbn [app nth] in H2. rewrite H2 in Hd. specialize (Hd 61 ltac:(right; now left)). discriminate.
Qed.
Lemma table_more p k angles ts : isalpha p = true -> ~ In p [79; 80; 82] -> table_from p k angles ts -> 2 <= k -> k + Z.of_nat (List.length ts) < 10 ^ 20 ->
  forall n i rest w, away n w -> cur w = PLANET_SELECTED -> planet w = p -> go i (ts ++ rest) w = go (i + Z.of_nat (List.length ts)) rest w.
Proof.
  intros Hp Hno H. induction H as [k|k a t angles ts Ht Hts IH]; intros Hk Hl n i rest w Hw Hc HP.
  - cbn [app List.length]. now rewrite Z.add_0_r.
  - cbn [List.length] in Hl. cbn [app]. rewrite (go_step i t (ts ++ rest) w w); [|apply Hw|].
    + rewrite (IH ltac:(lia) ltac:(lia) n) by assumption. f_equal. cbn [List.length]. lia.
    + destruct Ht as (n1 & n2 & more & _ & _ & ->). unfold step, line_step.
      set (R0 := n1 ++ n2 ++ (if by_day a then 100 else 84) :: more).
      pose proof (first_line_number k ltac:(lia) R0) as F. cbn [nth].
      change (nth 1 (p :: dec k ++ 61 :: R0) 0) with (nth 0 (dec k ++ 61 :: R0) 0).
      change (nth 2 (p :: dec k ++ 61 :: R0) 0) with (nth 1 (dec k ++ 61 :: R0) 0).
      replace (p =? 82) with false by (symmetry; apply Z.eqb_neq; intro; apply Hno; cbn [In]; lia). cbn [andb obind].
      replace (p =? 80) with false by (symmetry; apply Z.eqb_neq; intro; apply Hno; cbn [In]; lia).
      replace (p =? 79) with false by (symmetry; apply Z.eqb_neq; intro; apply Hno; cbn [In]; lia).
      assert (B : (nth 0 (dec k ++ 61 :: R0) 0 =? 49) && (nth 1 (dec k ++ 61 :: R0) 0 =? 61) = false).
      { apply andb_false_iff. destruct (Z.eqb_spec (nth 0 (dec k ++ 61 :: R0) 0) 49); [|now left].
        right. apply Z.eqb_neq. intro. now apply F. }
      rewrite <- (andb_assoc _ (nth 0 (dec k ++ 61 :: R0) 0 =? 49)), B, andb_false_r.
      destruct Hw as (_ & <- & Hw). now rewrite (proj2 (Z.eqb_neq _ _) Hw).
Qed.
Lemma go_table p angles ts : isalpha p = true -> ~ In p [79; 80; 82] -> table_from p 1 angles ts -> Z.of_nat (List.length ts) < 10 ^ 19 ->
  forall n i rest w, away n w -> cur w = PLANET_SELECTED -> planet w = p ->
  go i (ts ++ rest) w = go (i + Z.of_nat (List.length ts)) rest (match ts with [] => w | _ => set_ang w (i - 1) end).
Proof.
  intros Hp Hno H Hl n i rest w Hw Hc HP. inversion H as [k|k a t an ts' Ht Hts]; subst.
  - cbn [app List.length]. now rewrite Z.add_0_r.
  - cbn [List.length] in Hl. cbn [app]. rewrite (go_step i t (ts' ++ rest) w (set_ang w (i - 1))); [|apply Hw|].
    + rewrite (table_more (planet w) (1 + 1) an ts' Hp Hno Hts ltac:(lia) ltac:(lia) n); [f_equal; cbn [List.length]; lia| |assumption|reflexivity].
      destruct Hw as ((W1 & W2) & W3 & W4). now repeat split.
    + destruct Ht as (n1 & n2 & more & _ & _ & ->). unfold step, line_step. cbn [nth].
      change (dec 1) with [49]. cbn [app nth]. pose proof (alpha_range _ Hp) as Rp.
      replace (planet w =? 82) with false by (symmetry; apply Z.eqb_neq; intro; apply Hno; cbn [In]; lia). cbn [andb obind].
      replace (planet w =? 80) with false by (symmetry; apply Z.eqb_neq; intro; apply Hno; cbn [In]; lia).
      replace (planet w =? 79) with false by (symmetry; apply Z.eqb_neq; intro; apply Hno; cbn [In]; lia).
      rewrite Hc, !Z.eqb_refl. replace (planet w =? 0) with false by (symmetry; apply Z.eqb_neq; lia). reflexivity.
Qed.

(** ---- remaps ---- *)
Lemma go_remaps ts ps : remaps ts ps -> (forall t, In t ts -> (List.length t < fuel)%nat) ->
  (forall a b, In (a, b) ps -> 1000 <= a /\ 9 < b < 1000) ->
  forall i rest w, open_ w -> planet w = 0 -> cur w = NS -> object w <> NS ->
  exists w', go i (ts ++ rest) w = go (i + Z.of_nat (List.length ts)) rest w' /\
   w' = set_object w (fold_left renumber ps (object w)) /\ object w' <> NS.
Proof.
  intro H. induction H as [|t ts ps qs Ht Hts IH]; intros Hf Hr i rest w Ho HP HC HO.
  - exists w. cbn [app List.length fold_left]. rewrite Z.add_0_r. repeat split; try assumption. now destruct w.
  - assert (K : fold_left renumber ps (object w) <> NS).
    { apply fold_large; [assumption|]. intros a b I. apply (Hr a b). apply in_or_app. now left. }
    destruct (IH (fun t I => Hf t (or_intror I)) (fun a b I => Hr a b (in_or_app _ _ _ (or_intror I))) (i + 1) rest (set_object w (fold_left renumber ps (object w))) Ho HP HC K)
      as (w' & E & -> & Q).
    exists (set_object (set_object w (fold_left renumber ps (object w))) (fold_left renumber qs (fold_left renumber ps (object w)))).
    split; [|split; [rewrite fold_left_app; reflexivity|exact Q]]. cbn [app].
    change (zs "Remap:" ++ t) with (82 :: 101 :: 109 :: 97 :: 112 :: 58 :: t) in *.
    rewrite (go_step i (82 :: 101 :: 109 :: 97 :: 112 :: 58 :: t) (ts ++ rest) w (set_object w (fold_left renumber ps (object w)))); [|assumption|].
    + rewrite E. f_equal. cbn [List.length]. lia.
    + unfold step, line_step. cbn [nth]. change (82 =? 82) with true. cbn [andb].
      assert (R1 : (do w0 <- (if (9 <? object w) && (object w <? 1000) then do u <- from (82 :: 101 :: 109 :: 97 :: 112 :: 58 :: t) 6; do o <- remap fuel u (object w); Ret (set_object w o) else Ret w); Ret w0)
         = Ret (set_object w (fold_left renumber ps (object w)))).
      { destruct ((9 <? object w) && (object w <? 1000)) eqn:B.
        - rewrite from_ret by (cbn [List.length]; lia). cbn [skipn obind]. rewrite (remap_pairs t ps) by (assumption || (specialize (Hf _ (or_introl eq_refl)); cbn [List.length] in Hf; lia)).
          reflexivity.
        - cbn [obind]. rewrite fold_stays; [now destruct w|]. intro I. apply in_map_iff in I. destruct I as ((a, b) & E1 & I). cbn [snd] in E1.
          destruct (Hr a b (in_or_app _ _ _ (or_introl I))) as (_ & R2). subst. apply andb_false_iff in B. rewrite !Z.ltb_ge in B. lia. }
      destruct ((9 <? object w) && (object w <? 1000)).
      * destruct (from _ 6) as [u| | |]; try discriminate R1. cbn [obind] in R1 |- *. destruct (remap fuel u (object w)) as [o| | |]; try discriminate R1. cbn [obind] in R1 |- *.
        injection R1 as ->. change (82 =? 80) with false. change (82 =? 79) with false. cbn [planet set_object cur object]. rewrite HP, HC. change (negb (0 =? 0)) with false. cbn [andb].
        now rewrite (proj2 (Z.eqb_neq NS _)) by (intro X; apply K; now rewrite <- X).
      * cbn [obind] in R1 |- *. injection R1 as R1. rewrite <- R1. change (82 =? 80) with false. change (82 =? 79) with false. rewrite HP, HC. change (negb (0 =? 0)) with false. cbn [andb].
        now rewrite (proj2 (Z.eqb_neq NS _)) by (intro X; apply HO; now rewrite <- X).
Qed.
End Search.
