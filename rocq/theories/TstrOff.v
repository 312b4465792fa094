(** The loop over the trailing offsets and the offset's place in the result. *)
From Coq Require Import QArith Lia.
From Coq Require Import String.
From Verif Require Import CBase CLemmas CStr DateModel TstrModel TstrSpec TstrCopy TstrNum.
Local Open Scope list_scope.
Local Open Scope Z_scope.

Lemma sf_app a : forall x b c t, boundary (last (x :: a) 0) c = false -> b = c :: t ->
  sf x (a ++ b) = sf x a ++ tolower c :: sf c t.
Proof.
  induction a as [|y a IH]; intros x b c t H ->.
  - cbn [app sf last] in *. rewrite H. reflexivity.
  - cbn [app sf]. rewrite <- app_assoc. cbn [app]. f_equal. f_equal.
    apply IH; [|reflexivity]. exact H.
Qed.
Lemma spread_app a c t : (a <> [] -> boundary (last a 0) c = false) ->
  spread (a ++ c :: t) = spread a ++ spread (c :: t).
Proof.
  destruct a as [|x a]; intro H; [reflexivity|]. cbn [app]. rewrite !spread_sf.
  rewrite (sf_app a x (c :: t) c t) by (try reflexivity; apply H; discriminate). reflexivity.
Qed.
Lemma boundary_sp x : boundary x 32 = false.
Proof. unfold boundary. change (isalpha 32) with false. change (isdigit 32) with false. reflexivity. Qed.
Lemma num_char_low c : num_char c -> tolower c = c /\ isalpha c = false /\ c <> 32.
Proof.
  unfold num_char. intro H. assert (isupper c = false).
  { unfold isupper. rewrite andb_false_iff, !Z.leb_gt. lia. }
  split; [unfold tolower; now rewrite H0|]. split; [|lia].
  unfold isalpha. rewrite H0. unfold islower. cbn [orb]. rewrite andb_false_iff, !Z.leb_gt. lia.
Qed.
Lemma sf_num n : forall x, isalpha x = false -> (forall c, In c n -> num_char c) ->
  sf x n = n.
Proof.
  induction n as [|c n IH]; intros x Hx H; [reflexivity|]. cbn [sf].
  destruct (num_char_low c) as (E1 & E2 & _); [apply H; now left|].
  unfold boundary. rewrite E2, Hx, andb_false_r. cbn [andb orb app]. rewrite E1. f_equal.
  apply IH; [assumption|]. intros; apply H; now right.
Qed.
Lemma spread_offset sg n q u d : (sg = 43 \/ sg = 45) -> number_of n q -> isdigit (last n 0) = true -> unit_days u d ->
  spread (32 :: sg :: n ++ [u]) = 32 :: sg :: n ++ [32; u].
Proof.
  intros Hs Hn Hd Hu. destruct (unit_scale u d Hu) as (_ & _ & El & Eq_ & _).
  destruct (number_chars n q Hn) as (Hne & Hc).
  assert (As : isalpha sg = false /\ tolower sg = sg) by (destruct Hs as [->| ->]; split; reflexivity).
  rewrite spread_sf. cbn [sf]. unfold boundary at 1.
  assert (Ds : isdigit sg = false) by (destruct Hs as [->| ->]; reflexivity).
  rewrite (proj1 As), Ds. cbn [andb orb app]. rewrite (proj2 As). change (tolower 32) with 32. f_equal. f_equal.
  assert (Eu : boundary (last n 0) u = true).
  { unfold boundary. rewrite Hd. unfold isalpha. rewrite El, orb_true_r. cbn [andb orb].
    replace (u =? 113) with false by (symmetry; now apply Z.eqb_neq).
    replace (u =? 81) with false. reflexivity.
    symmetry. apply Z.eqb_neq. unfold islower in El. apply andb_true_iff in El. rewrite !Z.leb_le in El. lia. }
  assert (Lu : tolower u = u).
  { unfold tolower. unfold islower in El. apply andb_true_iff in El. rewrite !Z.leb_le in El.
    unfold isupper. replace (u <=? 90) with false by (symmetry; apply Z.leb_gt; lia). now rewrite andb_false_r. }
  assert (G : forall n x, n <> [] -> isalpha x = false -> (forall c, In c n -> num_char c) -> boundary (last n 0) u = true ->
     sf x (n ++ [u]) = n ++ [32; u]).
  { clear -Lu. induction n as [|c n IH]; intros x Hne Hx H HB; [congruence|].
    cbn [app sf]. destruct (num_char_low c) as (E1 & E2 & _); [apply H; now left|].
    unfold boundary at 1. rewrite E2, Hx, andb_false_r. cbn [andb orb app]. rewrite E1. f_equal.
    destruct n as [|c2 n].
    - cbn [app sf last] in *. rewrite HB. cbn [app]. now rewrite Lu.
    - apply IH; [discriminate|assumption|intros; apply H; now right|exact HB]. }
  apply G; tauto.
Qed.

(** The normalised form of a list of offsets. *)
Fixpoint norm_offsets (l : list (list Z * Q)) : list Z :=
  match l with [] => [] | (s, _) :: r => spread s ++ norm_offsets r end.
Lemma offset_head s v : offset_text s v -> exists t, s = 32 :: t.
Proof. intros (sg & n & q & u & d & _ & _ & _ & _ & _ & -> & _). eexists. reflexivity. Qed.
Lemma texts_head l : offset_texts l -> l = [] \/ exists t, texts l = 32 :: t.
Proof.
  destruct l as [|[s v] l]; [now left|]. intros [H _]. right. destruct (offset_head s v H) as [t ->].
  eexists. unfold texts. cbn [map fst concat app]. reflexivity.
Qed.
Lemma spread_texts b l : offset_texts l -> spread (b ++ texts l) = spread b ++ norm_offsets l.
Proof.
  revert b. induction l as [|[s v] l IH]; intros b H.
  - cbn. now rewrite !app_nil_r.
  - destruct H as [H1 H2]. unfold texts. cbn [map fst concat norm_offsets]. fold (texts l).
    rewrite app_assoc, IH by assumption. destruct (offset_head s v H1) as [t ->].
    rewrite spread_app by (intros _; apply boundary_sp). now rewrite <- app_assoc.
Qed.
Lemma trim_sp b : trim_end (b ++ [32]) = trim_end b.
Proof.
  induction b as [|c b IH]; [reflexivity|]. cbn [app trim_end]. now rewrite IH.
Qed.
Lemma trim_idem b : trim_end (trim_end b) = trim_end b.
Proof.
  induction b as [|c b IH]; [reflexivity|]. cbn [trim_end].
  destruct (trim_end b) as [|x t] eqn:E.
  - destruct (c =? 32) eqn:E2; [reflexivity|]. cbn [trim_end]. now rewrite E2.
  - cbn [trim_end] in IH |- *. now rewrite IH.
Qed.
Lemma trim_id p c : c <> 32 -> trim_end (p ++ [c]) = p ++ [c].
Proof.
  intro H. induction p as [|x p IH]; cbn [app trim_end].
  - now rewrite (proj2 (Z.eqb_neq c 32) H).
  - rewrite IH. destruct (p ++ [c]) eqn:E; [destruct p; discriminate|reflexivity].
Qed.
Lemma trim_nonempty c t : c <> 32 -> exists t', trim_end (c :: t) = c :: t'.
Proof.
  intro H. cbn [trim_end]. destruct (trim_end t); [rewrite (proj2 (Z.eqb_neq c 32) H)|]; eexists; reflexivity.
Qed.

Lemma offsets_step fuel s o : s <> [] -> offsets (S fuel) s o =
  (do '(tval, s') <- collect_time_offset s;
   if Qeq_bool tval 0 then Ret (s', o) else offsets fuel (remove_trailing_spaces s') (o + tval)%Q).
Proof. destruct s; [congruence|reflexivity]. Qed.
Lemma offsets_mono n : forall m s o r, (n <= m)%nat -> offsets n s o = Ret r -> offsets m s o = Ret r.
Proof.
  induction n as [|n IH]; intros m s o r H E.
  - destruct s; [|discriminate]. destruct m; exact E.
  - destruct s as [|c s]; [destruct m; exact E|]. destruct m as [|m]; [lia|].
    rewrite offsets_step in E |- * by discriminate.
    destruct (collect_time_offset (c :: s)) as [[tv s']| | |]; cbn [obind] in E |- *; try discriminate.
    destruct (Qeq_bool tv 0); [assumption|]. apply IH; [lia|assumption].
Qed.
Lemma offsets_shift n : forall s o1 o2 s' o', offsets n s o1 = Ret (s', o') ->
  exists o'', offsets n s o2 = Ret (s', o'') /\ (o'' == o' + (o2 - o1))%Q.
Proof.
  induction n as [|n IH]; intros s o1 o2 s' o' E.
  - destruct s; [|discriminate]. injection E as <- <-. exists o2. split; [reflexivity|ring].
  - destruct s as [|c s]; [injection E as <- <-; exists o2; split; [reflexivity|ring]|].
    rewrite offsets_step in E by discriminate. 
    destruct (collect_time_offset (c :: s)) as [[tv s1]| | |] eqn:EC; cbn [obind] in E; try discriminate.
    destruct (Qeq_bool tv 0) eqn:EQ.
    + injection E as <- <-. exists o2. rewrite offsets_step by discriminate. rewrite EC. cbn [obind]. rewrite EQ.
      split; [reflexivity|ring].
    + destruct (IH _ _ (o2 + tv)%Q _ _ E) as (o'' & E2 & H). exists o''.
      rewrite offsets_step by discriminate. rewrite EC. cbn [obind]. rewrite EQ. split; [assumption|].
      rewrite H. ring.
Qed.
Lemma norm_offsets_app l1 l2 : norm_offsets (l1 ++ l2) = norm_offsets l1 ++ norm_offsets l2.
Proof. induction l1 as [|[s v] l1 IH]; [reflexivity|]. cbn [app norm_offsets]. rewrite IH. now rewrite app_assoc. Qed.
Lemma offset_texts_app l1 l2 : offset_texts (l1 ++ l2) <-> offset_texts l1 /\ offset_texts l2.
Proof. induction l1 as [|[s v] l1 IH]; cbn [app offset_texts]; [tauto|]. rewrite IH. tauto. Qed.
Lemma total_app l1 l2 : (total (l1 ++ l2) == total l1 + total l2)%Q.
Proof.
  induction l1 as [|[s v] l1 IH]; unfold total in *; cbn [app map snd fold_right]; [ring|]. rewrite IH. ring.
Qed.
Lemma unit_nz u d : unit_days u d -> ~ (d == 0)%Q.
Proof.
  unfold unit_days. cbn [In]. intros H.
  repeat (destruct H as [H|H]; [injection H as <- <-; intro K; vm_compute in K; discriminate|]). destruct H.
Qed.
(** A list of offsets is collected from its end. *)
Lemma offsets_list l : forall b o, offset_texts l -> b <> [] ->
  exists o', (o' == o + total l)%Q /\
    forall fuel, offsets (List.length l + fuel) (trim_end (b ++ norm_offsets l)) o = offsets fuel (trim_end b) o'.
Proof.
  induction l as [|[s v] l IH] using rev_ind; intros b o H Hb.
  - exists o. split; [unfold total; cbn; ring|]. intro fuel. cbn [norm_offsets List.length Nat.add]. now rewrite app_nil_r.
  - apply offset_texts_app in H. destruct H as [H [Hs _]].
    destruct Hs as (sg & n & q & u & d & Hsg & Hn & Hq & Hl & Hu & -> & ->).
    set (v := ((if sg =? 45 then - q else q) * d)%Q).
    destruct (IH b (o + v)%Q H Hb) as (o' & Eo & K). exists o'. split.
    + rewrite Eo, total_app. unfold total at 3. cbn [map snd fold_right]. ring.
    + intro fuel. rewrite app_length. cbn [List.length]. rewrite norm_offsets_app. cbn [norm_offsets].
      rewrite app_nil_r. rewrite (spread_offset sg n q u d) by assumption.
      rewrite app_assoc.
      destruct (unit_scale u d Hu) as (_ & _ & El & _ & _ & Ews).
      assert (Nu : u <> 32) by (intros ->; discriminate).
      replace ((b ++ norm_offsets l) ++ 32 :: sg :: n ++ [32; u])
        with (((b ++ norm_offsets l) ++ 32 :: sg :: n ++ [32]) ++ [u]).
      2:{ rewrite <- !app_assoc. cbn [app]. do 4 f_equal. rewrite <- app_assoc. reflexivity. }
      rewrite trim_id by assumption.
      replace (((b ++ norm_offsets l) ++ 32 :: sg :: n ++ [32]) ++ [u])
        with ((b ++ norm_offsets l) ++ 32 :: sg :: n ++ [32; u]).
      2:{ rewrite <- !app_assoc. cbn [app]. do 4 f_equal. rewrite <- app_assoc. reflexivity. }
      replace (List.length l + 1 + fuel)%nat with (S (List.length l + fuel)) by lia.
      rewrite offsets_step by (destruct b; [congruence|discriminate]).
      rewrite (collect_offset _ sg n q u d) by assumption. cbn [obind]. fold v.
      assert (Ev : Qeq_bool v 0 = false).
      { destruct (Qeq_bool v 0) eqn:E; [|reflexivity]. exfalso. apply Qeq_bool_eq in E. unfold v in E.
        apply Qmult_integral in E. destruct E as [E|E]; [|exact (unit_nz u d Hu E)].
        apply Hq. destruct (sg =? 45); [|assumption]. rewrite <- (Qopp_involutive q), E. reflexivity. }
      rewrite Ev, !rts_trim, trim_sp, trim_idem. apply K.
Qed.

(** The offset is added to the result, whatever the date was. *)
Definition shifted (o1 o2 : Q) (a b : outcome (Q * Z)) : Prop :=
  match a with
  | Ret (t, u) => u <> -2 -> exists t', b = Ret (t', u) /\ (t' == t + (o2 - o1))%Q
  | _ => True
  end.
Lemma shifted_bind {A} o1 o2 (m : outcome A) k1 k2 : (forall x, shifted o1 o2 (k1 x) (k2 x)) ->
  shifted o1 o2 (obind m k1) (obind m k2).
Proof. intro H. destruct m; [apply H|exact I|exact I|exact I]. Qed.
Lemma finish_shift E cal bc y m d h mi s u o1 o2 :
  shifted o1 o2 (do t <- finish E cal bc y m d h mi s o1; Ret (t, u)) (do t <- finish E cal bc y m d h mi s o2; Ret (t, u)).
Proof.
  unfold finish.
  destruct (if bc then ev (e_long E) (1 - y)%cx else Ret y); cbn [obind shifted]; try exact I.
  destruct (to_integer IMAX d); cbn [obind shifted]; try exact I.
  destruct (dmy_to_day (e_long E) a0 m a cal); cbn [obind shifted]; try exact I.
  destruct (ev (e_long E) (a1 - 2451545)%cx); cbn [obind shifted]; try exact I.
  destruct (ev IMAX (h * 60 + mi)%cx); cbn [obind shifted]; try exact I.
  intros _. eexists. split; [reflexivity|]. ring.
Qed.
Lemma date_and_time_shift E t0 fmt str bc u o1 o2 :
  shifted o1 o2 (date_and_time E t0 fmt str bc u o1) (date_and_time E t0 fmt str bc u o2).
Proof.
  unfold date_and_time. apply shifted_bind. intro s1. apply shifted_bind.
  intros [[[[[y m] d] h] mi] sec]. apply shifted_bind. intro fits. apply shifted_bind. intros [[y' m'] d'].
  destruct (am_pm s1) as [s2 ap]. apply shifted_bind. intros [[[s3 h'] mi'] sec'].
  destruct fits; [apply finish_shift|]. apply shifted_bind. intro sym.
  destruct (_ =? 58); [apply finish_shift|]. destruct (_ =? 0).
  - unfold single_field. destruct s3 as [|c s3]; [cbn [obind]; apply finish_shift|].
    destruct (negb (month_name_to_index (c :: s3) =? 0)); [cbn [obind]; apply finish_shift|].
    destruct (0 <=? day_of_week_name_to_index (c :: s3)).
    { destruct (to_integer (e_long E) (t0 + (13 # 2))); cbn [obind shifted]; try exact I. apply finish_shift. }
    destruct (scan_d IMAX (c :: s3)) as [[[iv rest]|]| | |]; cbn [obind shifted]; try exact I.
    2:{ intro H. congruence. }
    set (tv := match rest with 46 :: _ => _ | _ => _ end).
    destruct tv as [tv'| | |]; cbn [obind shifted]; try exact I.
    set (n := Z.of_nat _ - Z.of_nat _).
    destruct ((n =? 1) || (n =? 2)); [apply finish_shift|].
    destruct (n =? 3); [apply finish_shift|].
    destruct ((n =? 4) || (n =? 5)).
    { destruct (Qeq_bool (inject_Z iv) (tv' + inject_Z iv)); [apply finish_shift|].
      cbn [obind shifted]. intros _. eexists. split; [reflexivity|ring]. }
    destruct (n =? 7); [cbn [obind shifted]; intros _; eexists; split; [reflexivity|ring]|].
    destruct ((n =? 6) || (n =? 8)); apply finish_shift.
  - apply shifted_bind. intros [[[y'' m''] d''] u'']. apply finish_shift.
Qed.

Lemma text_prefix b t norm : text (b ++ t) norm -> b <> [] -> spread (b ++ t) = spread b ++ skipn (List.length (spread b)) norm ->
  text b (spread b).
Proof.
  intros (Hn & Hh & He & Hl & <- & Hs) Hb Hp. repeat split.
  - intros c Hc. apply Hn. apply in_or_app. now left.
  - destruct b; [congruence|]. exact Hh.
  - assumption.
  - rewrite app_length in Hl. lia.
  - rewrite Hp, app_length in Hs. lia.
Qed.
Lemma get_time_step fuel E t0 txt fmt :
  get_time_from_stringl (S fuel) E t0 txt fmt =
  (do copied <- copy_text txt;
   match copied with
   | None => Ret (t0, -3)
   | Some str =>
       do '(str, offset) <- offsets fuel str 0;
       let n := List.length str in
       let phase := match rev str with b :: a :: _ => get_phase_idx a b | _ => -1 end in
       if negb (phase =? -1) then
         (do '(rval, _) <- get_time_from_stringl fuel E t0 (firstn (n - 2) str) fmt;
          Ret ((find_nearest_lunar_phase_time E phase rval + offset)%Q,
               if is_rval_unset rval then 0 else 1))
       else
         let '(str, is_bc) := check_for_bc str in
         do '(rval, is_ut, str, t0') <- keywords E t0 str;
         if negb (is_rval_unset rval) then Ret ((rval + offset)%Q, is_ut)
         else date_and_time E t0' fmt str is_bc is_ut offset
   end).
Proof. reflexivity. Qed.
Lemma spread_nonempty c b : exists t, spread (c :: b) = tolower c :: t.
Proof. rewrite spread_sf. eexists. reflexivity. Qed.

Lemma offsets_add_up L now ph t0 b l fmt norm t u :
  text (b ++ texts l) norm -> b <> [] -> offset_texts l -> u <> -2 ->
  reads L now ph t0 b fmt t u -> reads L now ph t0 (b ++ texts l) fmt (t + total l) u.
Proof.
  intros HT Hb Hl Hu (N & HN).
  assert (Esp : spread (b ++ texts l) = spread b ++ norm_offsets l) by now apply spread_texts.
  assert (HTb : text b (spread b)).
  { eapply text_prefix; [exact HT|assumption|]. destruct HT as (_ & _ & _ & _ & <- & _).
    rewrite Esp. now rewrite skipn_app_l. }
  assert (Hsb : spread b <> []) by (destruct b as [|c b]; [congruence|]; destruct (spread_nonempty c b) as [x ->]; discriminate).
  exists (S (N + List.length l)). intros fuel dfuel Hf Hd.
  destruct fuel as [|f]; [lia|]. set (E := {| e_long := L; e_now := now; e_fuel := dfuel; e_phase := ph |}).
  rewrite get_time_step. rewrite (copy_text_ok _ norm) by assumption.
  assert (En : norm = spread b ++ norm_offsets l) by (destruct HT as (_ & _ & _ & _ & <- & _); assumption).
  rewrite En. cbn [obind].
  destruct (offsets_list l (spread b) 0 Hl Hsb) as (o' & Eo & K).
  specialize (K (f - List.length l)%nat). replace (List.length l + (f - List.length l))%nat with f in K by lia.
  rewrite K.
  (* what is known of b alone, with the two bounds *)
  destruct (HN (S (f - List.length l)) dfuel ltac:(lia) ltac:(lia)) as (t1 & H1 & _).
  destruct (HN (S f) dfuel ltac:(lia) ltac:(lia)) as (t2 & H2 & E2).
  fold E in H1, H2. rewrite get_time_step in H1, H2. rewrite (copy_text_ok _ _ HTb) in H1, H2. cbn [obind] in H1, H2.
  destruct (offsets (f - List.length l) (trim_end (spread b)) 0) as [[s1 o1]| | |] eqn:E1; cbn [obind] in H1; try discriminate.
  rewrite (offsets_mono (f - List.length l) f _ _ _ ltac:(lia) E1) in H2. cbn [obind] in H2.
  destruct (offsets_shift _ _ _ o' _ _ E1) as (o2 & K2 & Eo2). rewrite K2. cbn [obind].
  assert (Ed : (o2 - o1 == total l)%Q) by (rewrite Eo2, Eo; ring).
  clear H1 K E1. cbv zeta in H2 |- *.
  set (phase := match rev s1 with b0 :: a :: _ => get_phase_idx a b0 | _ => -1 end) in *.
  destruct (negb (phase =? -1)).
  - destruct (get_time_from_stringl f E t0 _ fmt) as [[rv ru]| | |]; cbn [obind] in H2 |- *; try discriminate.
    set (w := find_nearest_lunar_phase_time E phase rv) in *. clearbody w.
    injection H2 as <- <-. eexists. split; [reflexivity|]. rewrite <- E2, <- Ed. ring.
  - destruct (check_for_bc s1) as [s2 bc].
    destruct (keywords E t0 s2) as [[[[rv ru] s3] t0']| | |]; cbn [obind] in H2 |- *; try discriminate.
    destruct (negb (is_rval_unset rv)).
    + injection H2 as <- <-. eexists. split; [reflexivity|]. rewrite <- E2, <- Ed. ring.
    + pose proof (date_and_time_shift E t0' fmt s3 bc ru o1 o2) as S. unfold shifted in S. rewrite H2 in S.
      destruct (S Hu) as (t' & E3 & E4). exists t'. split; [assumption|]. rewrite E4, E2, Ed. reflexivity.
Qed.
