(** Proofs about sof.cpp. *)
From Coq Require Import QArith Qreals String Lia.
From Verif Require Import CBase CLemmas CStr DateModel TstrModel MpcfModel TrigBase SofModel SofSpec.
From Verif Require OrbModel.
Local Open Scope string_scope.
Local Open Scope list_scope.
Local Open Scope Z_scope.

Lemma name_length_app n r : (forall x, In x n -> 32 <= x < 128 /\ x <> 124) -> (match r with [] => True | x :: _ => 0 < x < 32 \/ x = 124 end) ->
  name_length (n ++ r) = List.length n.
Proof.
  induction n as [|a n IH]; intros P E.
  - destruct r as [|x r]; [reflexivity|]. cbn [app name_length]. unfold schar. destruct (Z.leb_spec 128 x); [lia|].
    destruct (Z.leb_spec 32 x); [|reflexivity]. destruct E as [E| ->]; [lia|reflexivity].
  - cbn [app name_length List.length]. destruct (P a (or_introl eq_refl)) as [A B]. unfold schar. destruct (Z.leb_spec 128 a); [lia|].
    destruct (Z.leb_spec 32 a); [|lia]. destruct (Z.eqb_spec a 124); [lia|]. cbn [negb andb]. f_equal. apply IH; [|exact E]. intros x I. apply P. now right.
Qed.

(** A column looks at its own name only. *)
Lemma column_own L ex c r s : good c -> (match r with [] => True | x :: _ => 0 < x < 32 \/ x = 124 end) ->
  column L ex (cname c ++ r) (ctext c) s = column L ex (cname c) (ctext c) s.
Proof.
  intros (Len & P & _) E. destruct (cname c) as [|a [|b n]]; cbn [List.length] in Len; try lia.
  unfold column, chr. cbn [app nth]. destruct n as [|d n].
  - cbn [app]. replace (prefix (zs "rms") (a :: b :: r)) with (prefix (zs "rms") [a; b]); [reflexivity|].
    change (zs "rms") with [114; 109; 115]. cbn [prefix]. destruct (114 =? a); [|reflexivity]. destruct (109 =? b); [|reflexivity]. destruct r as [|x r]; [reflexivity|]. destruct (Z.eqb_spec 115 x); [lia|reflexivity].
  - reflexivity.
Qed.

Fixpoint run (L : Z) (ex : bool) (cs : list col) (s : sof) : outcome sof :=
  match cs with
  | [] => Ret s
  | c :: cs => do s <- column L ex (cname c) (ctext c) s; run L ex cs s
  end.

Lemma ended_bar e : ended e -> match e with [] => True | x :: _ => 0 < x < 32 \/ x = 124 end.
Proof. destruct e; cbn; tauto. Qed.
Lemma ended_stop e : ended e -> (32 <=? schar (chr e 0)) = false.
Proof. destruct e as [|x e]; intros H; cbn in *; [reflexivity|]. unfold schar, chr. cbn. destruct (Z.leb_spec 128 x); [lia|]. apply Z.leb_gt. lia. Qed.

Lemma columns_run L ex : forall cs fuel buff e s, (forall c, In c cs -> good c) -> line_of cs buff -> ended e -> (List.length cs <= fuel)%nat ->
  columns fuel L ex (header_of cs ++ e) buff s = do s' <- run L ex cs s; Ret (Some s').
Proof.
  induction cs as [|c cs IH]; intros fuel buff e s G Ln E F; [inversion Ln|]. destruct fuel as [|fuel]; [cbn in F; lia|].
  assert (Gc : good c) by (apply G; now left). assert (P0 := Gc). destruct P0 as ((N2 & N80) & P & Tx).
  assert (H0 : forall r, (32 <=? schar (chr (cname c ++ r) 0)) = true).
  { intros r. destruct (cname c) as [|a n]; cbn [List.length] in N2; [lia|]. cbn. destruct (P a (or_introl eq_refl)). unfold schar. destruct (Z.leb_spec 128 a); [lia|]. apply Z.leb_le. lia. }
  inversion Ln as [c0 rest E1 E2|c0 x cs0 l Hl Hne E1 E2]; subst.
  - clear IH. cbn [header_of run]. cbn [columns]. rewrite H0. cbn [negb]. rewrite name_length_app by (exact P || apply ended_bar; exact E).
    replace ((List.length (cname c) <? 2) || (80 <=? List.length (cname c)))%nat with false.
    2:{ symmetry. apply orb_false_iff. split; [apply Nat.ltb_ge; lia|apply Nat.leb_gt; lia]. }
    rewrite app_length. replace (List.length (cname c) <=? List.length (ctext c) + List.length rest)%nat with true by (symmetry; apply Nat.leb_le; lia). cbn [obind].
    rewrite <- Tx, firstn_app, Nat.sub_diag, firstn_O, app_nil_r, firstn_all, Tx. rewrite column_own by (exact Gc || apply ended_bar; exact E).
    destruct (column L ex (cname c) (ctext c) s) as [s1| | |]; try reflexivity. cbn [obind].
    assert (Hc : chr (cname c ++ e) (List.length (cname c)) =? 124 = false).
    { unfold chr. rewrite app_nth2, Nat.sub_diag by lia. destruct e as [|y e]; cbn in *; [reflexivity|]. apply Z.eqb_neq. lia. }
    rewrite Hc. cbv iota. replace (List.length (cname c) <=? List.length (cname c) + List.length rest)%nat with true by (symmetry; apply Nat.leb_le; lia). cbn [obind].
    rewrite skipn_app, Nat.sub_diag, skipn_all. cbn [skipn app]. destruct fuel; cbn [columns]; rewrite (ended_stop e E); reflexivity.
  - assert (Hd : header_of (c :: cs) = cname c ++ 124 :: header_of cs) by (destruct cs; [congruence|reflexivity]). rewrite Hd, <- app_assoc. cbn [app].
    cbn [columns run]. rewrite H0. cbn [negb]. rewrite name_length_app by (exact P || now right).
    replace ((List.length (cname c) <? 2) || (80 <=? List.length (cname c)))%nat with false.
    2:{ symmetry. apply orb_false_iff. split; [apply Nat.ltb_ge; lia|apply Nat.leb_gt; lia]. }
    rewrite app_length. cbn [List.length]. replace (List.length (cname c) <=? List.length (ctext c) + S (List.length l))%nat with true by (symmetry; apply Nat.leb_le; lia). cbn [obind].
    rewrite <- Tx at 1. rewrite firstn_app, Nat.sub_diag, firstn_O, app_nil_r, firstn_all. rewrite column_own by (exact Gc || now right).
    destruct (column L ex (cname c) (ctext c) s) as [s1| | |]; try reflexivity. cbn [obind].
    assert (Hc : chr (cname c ++ 124 :: header_of cs ++ e) (List.length (cname c)) =? 124 = true).
    { unfold chr. rewrite app_nth2, Nat.sub_diag by lia. reflexivity. }
    rewrite Hc. cbv iota. replace (S (List.length (cname c)) <=? List.length (ctext c) + S (List.length l))%nat with true by (symmetry; apply Nat.leb_le; lia). cbn [obind].
    replace (skipn (S (List.length (cname c))) (cname c ++ 124 :: header_of cs ++ e)) with (header_of cs ++ e).
    2:{ rewrite skipn_app, skipn_all2 by lia. replace (S (List.length (cname c)) - List.length (cname c))%nat with 1%nat by lia. reflexivity. }
    replace (skipn (S (List.length (cname c))) (ctext c ++ x :: l)) with l.
    2:{ rewrite skipn_app, skipn_all2 by lia. replace (S (List.length (cname c)) - List.length (ctext c))%nat with 1%nat by lia. reflexivity. }
    apply IH; auto; [intros; apply G; now right|cbn in F; lia].
Qed.

Lemma run_snoc L ex cs c : forall s, run L ex (cs ++ [c]) s = do s <- run L ex cs s; column L ex (cname c) (ctext c) s.
Proof.
  induction cs as [|a cs IH]; intros s; cbn [app run obind].
  - destruct (column L ex (cname c) (ctext c) s); reflexivity.
  - destruct (column L ex (cname a) (ctext a) s); cbn [obind]; [apply IH|reflexivity|reflexivity|reflexivity].
Qed.

(** One member, for any list of columns. *)
Lemma slot_run {X} L ex (slot : sof -> X) (kind : col -> bool) (reads : list Z -> X -> Prop) :
  (forall c s s', good c -> column L ex (cname c) (ctext c) s = Ret s' -> if kind c then reads (ctext c) (slot s') else slot s' = slot s) ->
  forall cs s s', (forall c, In c cs -> good c) -> run L ex cs s = Ret s' -> match find kind (rev cs) with Some c => reads (ctext c) (slot s') | None => slot s' = slot s end.
Proof.
  intros St cs. induction cs as [|c cs IH] using rev_ind; intros s s' G Rn; [cbn in *; congruence|]. rewrite run_snoc in Rn. rewrite rev_unit. cbn [find].
  destruct (run L ex cs s) as [s1| | |] eqn:E; try discriminate. cbn [obind] in Rn.
  pose proof (St c s1 s' ltac:(apply G, in_or_app; right; now left) Rn) as H. destruct (kind c); [exact H|].
  specialize (IH s s1 ltac:(intros; apply G, in_or_app; now left) E). destruct (find kind (rev cs)); rewrite H; exact IH.
Qed.

(** What one column does. *)
Lemma rms_only a b r : (prefix (zs "rms") (a :: b :: r)) = true -> a = 114 /\ b = 109.
Proof. change (zs "rms") with [114; 109; 115]. cbn [prefix]. destruct (Z.eqb_spec 114 a); [|discriminate]. destruct (Z.eqb_spec 109 b); [|discriminate]. intros _. split; congruence. Qed.

Ltac known E := repeat match type of E with context [Z.eqb ?x ?k] => is_var x; destruct (Z.eqb_spec x k); [subst x|]; cbn [obind] in E end.
(** The columns with a name of one letter, the others, and the end. *)
Lemma column_cases L ex c s s' : good c -> column L ex (cname c) (ctext c) s = Ret s' ->
  exists a b r s1, cname c = a :: b :: r /\ (if b =? 32 then one_letter a (ctext c) s else longer_name L ex a b (ctext c) s) = Ret s1 /\
    (if (prefix (zs "rms") (a :: b :: r) && ex)%bool then a = 114 /\ b = 109 /\ exists v, atof (ctext c) = Ret v /\ s' = set_rms s1 v else s' = s1).
Proof.
  intros (Len & _ & _) E. destruct (cname c) as [|a [|b r]]; cbn [List.length] in Len; try lia. unfold column in E. cbv zeta in E.
  change (chr (a :: b :: r) 0) with a in E. change (chr (a :: b :: r) 1) with b in E. exists a, b, r.
  destruct (if b =? 32 then one_letter a (ctext c) s else longer_name L ex a b (ctext c) s) as [s1| | |]; try discriminate. cbn [obind] in E. exists s1. split; [reflexivity|]. split; [reflexivity|].
  destruct (prefix (zs "rms") (a :: b :: r) && ex)%bool eqn:Rm.
  - apply andb_true_iff in Rm. destruct Rm as [Rm _]. apply rms_only in Rm. destruct Rm. destruct (atof (ctext c)) as [v| | |]; try discriminate. cbn [obind] in E. injection E as <-. eauto.
  - congruence.
Qed.

(** one_letter( ) and longer_name( ), by what they set. *)
Inductive sets (L : Z) (ex : bool) : Z -> Z -> list Z -> sof -> sof -> Prop :=
| sets_q t s v : atof t = Ret v -> sets L ex 113 32 t s (set_q s v SOF_Q_FOUND)
| sets_e t s v : atof t = Ret v -> sets L ex 101 32 t s (set_ecc s v SOF_ECC_FOUND)
| sets_i t s v : atof t = Ret v -> sets L ex 105 32 t s (set_incl s (degrees v) SOF_INCL_FOUND)
| sets_O b t s v : atof t = Ret v -> sets L ex 79 b t s (set_node s (degrees v) SOF_ASC_NODE_FOUND)
| sets_o b t s v : atof t = Ret v -> sets L ex 111 b t s (set_argp s (degrees v) SOF_ARG_PERIH_FOUND)
| sets_H t s v : atof t = Ret v -> sets L ex 72 32 t s (set_mag s v SOF_ABS_MAG_FOUND)
| sets_G t s v : atof t = Ret v -> sets L ex 71 32 t s (set_slope s v SOF_SLOPE_PARAM_FOUND)
| sets_C t s v : atoi t = Ret v -> sets L ex 67 32 t s (set_central s v (if 3 =? v then (gm s * MASS_EARTH)%R else gm s))
| sets_Tp t s v : extract_yyyymmdd_to_jd L t = Ret v -> sets L ex 84 112 t s (set_perih s v SOF_TPERIH_FOUND)
| sets_Te t s v : extract_yyyymmdd_to_jd L t = Ret v -> sets L ex 84 101 t s (set_epoch s v SOF_TEPOCH_FOUND)
| sets_Tw t s v : extract_yyyymmdd_to_jd L t = Ret v -> ex = true -> sets L ex 84 119 t s (set_written s v SOF_TWRITTEN_FOUND)
| sets_Tf t s v : extract_yyyymmdd_to_jd L t = Ret v -> ex = true -> sets L ex 84 102 t s (set_first s v SOF_TFIRST_FOUND)
| sets_Tl t s v : extract_yyyymmdd_to_jd L t = Ret v -> ex = true -> sets L ex 84 108 t s (set_last s v SOF_TLAST_FOUND)
| sets_none a b t s : ~ (b = 32 /\ In a [113; 101; 105; 72; 71; 67]) -> a <> 79 -> a <> 111 -> ~ (a = 84 /\ In b [112; 101]) -> ~ (ex = true /\ a = 84 /\ In b [119; 102; 108]) -> sets L ex a b t s s.

Ltac got E := match type of E with (do v <- ?x; _) = _ => let v := fresh "v" in destruct x as [v| | |] eqn:?; try discriminate E; cbn [obind] in E end; injection E as <-.
Lemma sets_of L ex a b t s s1 : (if b =? 32 then one_letter a t s else longer_name L ex a b t s) = Ret s1 -> sets L ex a b t s s1.
Proof.
  intros E. destruct (Z.eqb_spec b 32) as [->|B].
  - unfold one_letter in E.
    destruct (Z.eqb_spec a 113) as [->|]; [got E; now constructor|]. destruct (Z.eqb_spec a 101) as [->|]; [got E; now constructor|].
    destruct (Z.eqb_spec a 105) as [->|]; [got E; now constructor|]. destruct (Z.eqb_spec a 79) as [->|]; [got E; now constructor|].
    destruct (Z.eqb_spec a 111) as [->|]; [got E; now constructor|]. destruct (Z.eqb_spec a 72) as [->|]; [got E; now constructor|].
    destruct (Z.eqb_spec a 71) as [->|]; [got E; now constructor|]. destruct (Z.eqb_spec a 67) as [->|]; [got E; now constructor|].
    injection E as <-. apply sets_none; cbn; intuition lia.
  - unfold longer_name in E.
    destruct (Z.eqb_spec a 84) as [->|].
    + destruct (extract_yyyymmdd_to_jd L t) as [v| | |] eqn:X; try discriminate. cbn [obind] in E. injection E as <-.
      destruct (Z.eqb_spec b 112) as [->|]; [now constructor|]. destruct (Z.eqb_spec b 101) as [->|]; [now constructor|].
      destruct ex.
      * destruct (Z.eqb_spec b 119) as [->|]; [now constructor|]. destruct (Z.eqb_spec b 102) as [->|]; [now constructor|]. destruct (Z.eqb_spec b 108) as [->|]; [now constructor|].
        apply sets_none; cbn; intuition lia.
      * apply sets_none; cbn; intuition (lia || discriminate).
    + destruct (Z.eqb_spec a 79) as [->|]; [got E; now constructor|]. destruct (Z.eqb_spec a 111) as [->|]; [got E; now constructor|].
      injection E as <-. apply sets_none; cbn; intuition lia.
Qed.

Lemma named2 x y n c a b r : zs n = [x; y] -> cname c = a :: b :: r -> named n c = ((x =? a) && (y =? b))%bool.
Proof. intros Z N. unfold named. rewrite Z, N. cbn [prefix]. now rewrite andb_true_r. Qed.
Lemma named1 x n c a b r : zs n = [x] -> cname c = a :: b :: r -> named n c = (x =? a).
Proof. intros Z N. unfold named. rewrite Z, N. cbn [prefix]. apply andb_true_r. Qed.

Ltac letters := repeat match goal with |- context [Z.eqb ?x ?y] => destruct (Z.eqb_spec x y); try (exfalso; lia) end.
Ltac step_of := intros c s s' G E; destruct (column_cases _ _ _ _ _ G E) as (a & b & r & s1 & N & S1 & Rm); apply sets_of in S1;
  repeat match goal with |- context [named ?n c] => first [erewrite (named2 _ _ n c a b r eq_refl N)|erewrite (named1 _ n c a b r eq_refl N)] end;
  repeat match goal with |- context [zc ?x] => let v := eval vm_compute in (zc x) in change (zc x) with v end;
  match type of Rm with if ?x then _ else _ => destruct x eqn:Rx end; [destruct Rm as (Ra & Rb & v0 & Rv & ->); subst a b|subst s'];
  inversion S1; subst; cbn [andb]; letters; cbn [andb]; try reflexivity; try (exfalso; cbn [In] in *; intuition lia); try assumption.

Lemma q_step L ex : forall c s s', good c -> column L ex (cname c) (ctext c) s = Ret s' -> if named "q " c then number (ctext c) (q_ s') else q_ s' = q_ s.
Proof. step_of. Qed.
Lemma e_step L ex : forall c s s', good c -> column L ex (cname c) (ctext c) s = Ret s' -> if named "e " c then number (ctext c) (ecc s') else ecc s' = ecc s.
Proof. step_of. Qed.
Lemma i_step L ex : forall c s s', good c -> column L ex (cname c) (ctext c) s = Ret s' -> if named "i " c then angle (ctext c) (incl s') else incl s' = incl s.
Proof. step_of. all: try (eexists; split; [eassumption|reflexivity]). Qed.
Lemma O_step L ex : forall c s s', good c -> column L ex (cname c) (ctext c) s = Ret s' -> if named "O" c then angle (ctext c) (asc_node s') else asc_node s' = asc_node s.
Proof. step_of. all: try (eexists; split; [eassumption|reflexivity]). Qed.
Lemma o_step L ex : forall c s s', good c -> column L ex (cname c) (ctext c) s = Ret s' -> if named "o" c then angle (ctext c) (arg_per s') else arg_per s' = arg_per s.
Proof. step_of. all: try (eexists; split; [eassumption|reflexivity]). Qed.
Lemma H_step L ex : forall c s s', good c -> column L ex (cname c) (ctext c) s = Ret s' -> if named "H " c then number (ctext c) (abs_mag s') else abs_mag s' = abs_mag s.
Proof. step_of. Qed.
Lemma G_step L ex : forall c s s', good c -> column L ex (cname c) (ctext c) s = Ret s' -> if named "G " c then number (ctext c) (slope_param s') else slope_param s' = slope_param s.
Proof. step_of. Qed.
Lemma C_step L ex : forall c s s', good c -> column L ex (cname c) (ctext c) s = Ret s' -> if named "C " c then whole (ctext c) (central_obj s') else central_obj s' = central_obj s.
Proof. step_of. Qed.
Lemma Tp_step L ex : forall c s s', good c -> column L ex (cname c) (ctext c) s = Ret s' -> if named "Tp" c then calendar_day L (ctext c) (perih_time s') else perih_time s' = perih_time s.
Proof. step_of. Qed.
Lemma Te_step L ex : forall c s s', good c -> column L ex (cname c) (ctext c) s = Ret s' -> if named "Te" c then calendar_day L (ctext c) (epoch s') else epoch s' = epoch s.
Proof. step_of. Qed.
Lemma Tw_step L : forall c s s', good c -> column L true (cname c) (ctext c) s = Ret s' -> if named "Tw" c then calendar_day L (ctext c) (written s') else written s' = written s.
Proof. step_of. Qed.
Lemma Tf_step L : forall c s s', good c -> column L true (cname c) (ctext c) s = Ret s' -> if named "Tf" c then calendar_day L (ctext c) (first_obs s') else first_obs s' = first_obs s.
Proof. step_of. Qed.
Lemma Tl_step L : forall c s s', good c -> column L true (cname c) (ctext c) s = Ret s' -> if named "Tl" c then calendar_day L (ctext c) (last_obs s') else last_obs s' = last_obs s.
Proof. step_of. Qed.
Lemma rms_step L : forall c s s', good c -> column L true (cname c) (ctext c) s = Ret s' -> if named "rms" c then number (ctext c) (rms s') else rms s' = rms s.
Proof.
  intros c s s' G E; destruct (column_cases _ _ _ _ _ G E) as (a & b & r & s1 & N & S1 & Rm); apply sets_of in S1. unfold named. rewrite N.
  rewrite andb_true_r in Rm. destruct (prefix (zs "rms") (a :: b :: r)).
  - destruct Rm as (_ & _ & v & Rv & ->). exact Rv.
  - subst s'. inversion S1; subst; reflexivity.
Qed.
Lemma none_step L : forall c s s', good c -> column L false (cname c) (ctext c) s = Ret s' -> first_obs s' = first_obs s /\ last_obs s' = last_obs s /\ written s' = written s /\ rms s' = rms s.
Proof.
  intros c s s' G E; destruct (column_cases _ _ _ _ _ G E) as (a & b & r & s1 & N & S1 & Rm); apply sets_of in S1.
  rewrite andb_false_r in Rm. subst s'. inversion S1; subst; try discriminate; repeat split.
Qed.
Lemma gm_step L ex : forall c s s', good c -> column L ex (cname c) (ctext c) s = Ret s' -> gm s' = (gm s * (if geocentric c then MASS_EARTH else 1))%R.
Proof.
  unfold geocentric. step_of. all: cbn [gm set_q set_ecc set_incl set_node set_argp set_mag set_slope set_central set_perih set_epoch set_written set_first set_last set_rms] in *; rewrite ?Rmult_1_r; try reflexivity.
  all: match goal with H : atoi _ = Ret ?v |- _ => rewrite H; destruct (Z.eqb_spec 3 v); try contradiction; rewrite ?Rmult_1_r; reflexivity end.
Qed.

(** Bits of the fields found. *)
Lemma found_step L ex k n : In (k, n) [(0, "q "); (1, "e "); (5, "i "); (6, "O"); (7, "o"); (3, "Tp")] ->
  forall c s s', good c -> column L ex (cname c) (ctext c) s = Ret s' -> Z.testbit (found s') k = (Z.testbit (found s) k || named n c)%bool.
Proof.
  intros I. cbn [In] in I.
  destruct I as [I|[I|[I|[I|[I|[I|[]]]]]]]; injection I as <- <-; step_of; cbn [found set_q set_ecc set_incl set_node set_argp set_mag set_slope set_central set_perih set_epoch set_written set_first set_last set_rms];
  rewrite ?Z.lor_spec; cbn [Z.testbit Pos.testbit]; rewrite ?orb_false_r, ?orb_true_r; try reflexivity.
Qed.

(** All columns. *)
Lemma column_total L ex c s : good c -> readable L c -> exists s', column L ex (cname c) (ctext c) s = Ret s'.
Proof.
  intros (Len & _ & _) (Rn & Rd & Rc). destruct (cname c) as [|a [|b r]] eqn:N; cbn [List.length] in Len; try lia. unfold column. cbv zeta.
  change (chr (a :: b :: r) 0) with a. change (chr (a :: b :: r) 1) with b.
  assert (exists s1, (if b =? 32 then one_letter a (ctext c) s else longer_name L ex a b (ctext c) s) = Ret s1) as [s1 E1].
  { unfold one_letter, longer_name.
    assert (At : (a = 79 \/ a = 111 \/ (b = 32 /\ (a = 113 \/ a = 101 \/ a = 105 \/ a = 72 \/ a = 71))) -> exists v, atof (ctext c) = Ret v).
    { intros K. apply Rn. apply existsb_exists. destruct K as [->|[->|[-> [->|[->|[->|[->| ->]]]]]]]; unfold named; rewrite N;
      [exists "O"|exists "o"|exists "q "|exists "e "|exists "i "|exists "H "|exists "G "]; (split; [cbn [In]; tauto|reflexivity]). }
    assert (Ad : a = 84 -> b <> 32 -> exists v, extract_yyyymmdd_to_jd L (ctext c) = Ret v).
    { intros -> B. apply Rd; unfold named; rewrite N; [reflexivity|]. change (zs "T ") with [84; 32]. cbn [prefix]. destruct (Z.eqb_spec 32 b); [lia|reflexivity]. }
    assert (Ai : a = 67 -> b = 32 -> exists v, atoi (ctext c) = Ret v).
    { intros -> ->. apply Rc. unfold named. rewrite N. reflexivity. }
    destruct (Z.eqb_spec b 32) as [->|].
    - repeat match goal with |- context [a =? ?k] => destruct (Z.eqb_spec a k) as [->|];
        [first [destruct (At ltac:(tauto)) as [v ->]|destruct (Ai eq_refl eq_refl) as [v ->]]; cbn [obind]; eexists; reflexivity|] end. eexists; reflexivity.
    - destruct (Z.eqb_spec a 84) as [->|]; [destruct (Ad eq_refl ltac:(assumption)) as [v ->]; cbn [obind]; eexists; reflexivity|].
      repeat match goal with |- context [a =? ?k] => destruct (Z.eqb_spec a k) as [->|]; [destruct (At ltac:(tauto)) as [v ->]; cbn [obind]; eexists; reflexivity|] end. eexists; reflexivity. }
  rewrite E1. cbn [obind]. destruct (prefix (zs "rms") (a :: b :: r)) eqn:Rm; cbn [andb]; [|eexists; reflexivity]. destruct ex; [|eexists; reflexivity].
  destruct Rn as [v ->]; [|cbn [obind]; eexists; reflexivity]. apply existsb_exists. exists "rms". split; [cbn [In]; tauto|]. unfold named. now rewrite N.
Qed.
Lemma run_total L ex cs : (forall c, In c cs -> good c) -> (forall c, In c cs -> readable L c) -> forall s, exists s', run L ex cs s = Ret s'.
Proof.
  induction cs as [|c cs IH]; intros G Rd s; [eexists; reflexivity|]. cbn [run].
  destruct (column_total L ex c s) as [s1 ->]; [apply G; now left|apply Rd; now left|]. cbn [obind]. apply IH; intros; [apply G|apply Rd]; now right.
Qed.
Lemma gm_run L ex : forall cs s s', (forall c, In c cs -> good c) -> run L ex cs s = Ret s' -> gm s' = (gm s * MASS_EARTH ^ List.length (filter geocentric cs))%R.
Proof.
  induction cs as [|c cs IH]; intros s s' G Rn; cbn [run filter] in *; [injection Rn as <-; cbn; ring|].
  destruct (column L ex (cname c) (ctext c) s) as [s1| | |] eqn:E; try discriminate. cbn [obind] in Rn.
  rewrite (IH _ _ ltac:(intros; apply G; now right) Rn). rewrite (gm_step L ex c s s1 ltac:(apply G; now left) E). destruct (geocentric c); cbn [List.length pow]; ring.
Qed.
Lemma none_run L : forall cs s s', (forall c, In c cs -> good c) -> run L false cs s = Ret s' ->
  first_obs s' = first_obs s /\ last_obs s' = last_obs s /\ written s' = written s /\ rms s' = rms s.
Proof.
  induction cs as [|c cs IH]; intros s s' G Rn; cbn [run] in *; [injection Rn as <-; auto|].
  destruct (column L false (cname c) (ctext c) s) as [s1| | |] eqn:E; try discriminate. cbn [obind] in Rn.
  destruct (IH _ _ ltac:(intros; apply G; now right) Rn) as (-> & -> & -> & ->). exact (none_step L c s s1 ltac:(apply G; now left) E).
Qed.
Lemma found_run L ex k n : In (k, n) [(0, "q "); (1, "e "); (5, "i "); (6, "O"); (7, "o"); (3, "Tp")] ->
  forall cs s s', (forall c, In c cs -> good c) -> run L ex cs s = Ret s' -> Z.testbit (found s') k = (Z.testbit (found s) k || existsb (named n) cs)%bool.
Proof.
  intros I. induction cs as [|c cs IH]; intros s s' G Rn; cbn [run existsb] in *; [injection Rn as <-; now rewrite orb_false_r|].
  destruct (column L ex (cname c) (ctext c) s) as [s1| | |] eqn:E; try discriminate. cbn [obind] in Rn.
  rewrite (IH _ _ ltac:(intros; apply G; now right) Rn). rewrite (found_step L ex k n I c s s1 ltac:(apply G; now left) E). now rewrite orb_assoc.
Qed.
Lemma min_fields f : (Z.land f MIN_FIELDS_NEEDED =? MIN_FIELDS_NEEDED) =
  (Z.testbit f 0 && Z.testbit f 1 && Z.testbit f 5 && Z.testbit f 6 && Z.testbit f 7 && Z.testbit f 3)%bool.
Proof.
  change MIN_FIELDS_NEEDED with 235. apply eq_true_iff_eq. rewrite Z.eqb_eq. split.
  - intros E. assert (B : forall k, Z.testbit 235 k = true -> Z.testbit f k = true).
    { intros k Hk. rewrite <- E, Z.land_spec in Hk. apply andb_true_iff in Hk. tauto. }
    rewrite !B by reflexivity. reflexivity.
  - rewrite !andb_true_iff. intros (((((B0 & B1) & B5) & B6) & B7) & B3). apply Z.bits_inj'. intros k Hk. rewrite Z.land_spec.
    destruct (Z.testbit 235 k) eqn:T; [|apply andb_false_r]. rewrite andb_true_r.
    assert (k < 8). { destruct (Z.lt_ge_cases k 8); [assumption|]. rewrite Z.bits_above_log2 in T; [discriminate|lia|]. change (Z.log2 235) with 7. lia. }
    assert (k = 0 \/ k = 1 \/ k = 2 \/ k = 3 \/ k = 4 \/ k = 5 \/ k = 6 \/ k = 7) as K by lia.
    destruct K as [->|[->|[->|[->|[->|[->|[->| ->]]]]]]]; assumption || discriminate T.
Qed.
Lemma complete_run L ex cs s' : (forall c, In c cs -> good c) -> run L ex cs sof0 = Ret s' -> (Z.land (found s') MIN_FIELDS_NEEDED =? MIN_FIELDS_NEEDED) = complete cs.
Proof.
  intros G Rn. rewrite min_fields.
  rewrite (found_run L ex 0 "q " ltac:(cbn [In]; tauto) cs sof0 s' G Rn), (found_run L ex 1 "e " ltac:(cbn [In]; tauto) cs sof0 s' G Rn), (found_run L ex 5 "i " ltac:(cbn [In]; tauto) cs sof0 s' G Rn),
    (found_run L ex 6 "O" ltac:(cbn [In]; tauto) cs sof0 s' G Rn), (found_run L ex 7 "o" ltac:(cbn [In]; tauto) cs sof0 s' G Rn), (found_run L ex 3 "Tp" ltac:(cbn [In]; tauto) cs sof0 s' G Rn).
  unfold complete. cbn [forallb sof0 found Z.testbit orb]. rewrite andb_true_r, !andb_assoc. reflexivity.
Qed.
Lemma sof_run L ex cs buff e : (forall c, In c cs -> good c) -> line_of cs buff -> ended e ->
  extract_sof_data_ex L ex buff (header_of cs ++ e) = do s <- run L ex cs sof0;
    if complete cs then do d <- OrbModel.derive_quantities (as_elements s) (gm s); Ret (0, Some (s, d)) else Ret (-1, None).
Proof.
  intros G Ln E. unfold extract_sof_data_ex. rewrite columns_run; auto.
  - destruct (run L ex cs sof0) as [s| | |] eqn:Rn; try reflexivity. cbn [obind]. rewrite (complete_run L ex cs s G Rn). reflexivity.
  - clear Ln E. rewrite app_length. enough (List.length cs <= S (List.length (header_of cs)))%nat by lia. induction cs as [|c [|c2 cs] IH]; try (cbn [List.length]; lia).
    change (header_of (c :: c2 :: cs)) with (cname c ++ 124 :: header_of (c2 :: cs)). rewrite app_length. specialize (IH ltac:(intros; apply G; now right)). set (h := header_of (c2 :: cs)) in *. cbn [List.length] in IH |- *. lia.
Qed.
Lemma solar_pos k : (0 < SOLAR_GM * MASS_EARTH ^ k)%R.
Proof.
  assert (0 < 10 ^ 11)%R by (apply pow_lt; lra). assert (0 < 10 ^ 21)%R by (apply pow_lt; lra).
  apply Rmult_lt_0_compat; [|apply pow_lt]; unfold SOLAR_GM, GAUSS_K, MASS_EARTH; [apply Rmult_lt_0_compat|]; apply Rdiv_lt_0_compat; lra.
Qed.
Definition goodb (c : col) : bool :=
  ((2 <=? List.length (cname c))%nat && (List.length (cname c) <? 80)%nat && forallb (fun x => (32 <=? x) && (x <? 128) && negb (x =? 124)) (cname c) && (List.length (ctext c) =? List.length (cname c))%nat)%bool.
Lemma goodb_ok c : goodb c = true -> good c.
Proof.
  unfold goodb. rewrite !andb_true_iff. intros (((A & B) & C) & D). apply Nat.leb_le in A. apply Nat.ltb_lt in B. apply Nat.eqb_eq in D. rewrite forallb_forall in C.
  repeat split; auto; apply C in H; lia.
Qed.
Lemma columns_bad L ex n e : bad_name n e -> forall cs fuel buff rest s, (forall c, In c cs -> good c) -> (forall c, In c cs -> readable L c) -> starts cs buff rest -> (S (List.length cs) <= fuel)%nat ->
  columns fuel L ex (header_start cs ++ n ++ e) buff s = Ret None.
Proof.
  intros (P & B) cs. induction cs as [|c cs IH]; intros fuel buff rest s G Rd St F; (destruct fuel as [|fuel]; [cbn in F; lia|]).
  - cbn [header_start map List.concat app]. cbn [columns].
    assert (He : match e with [] => True | x :: _ => 0 < x < 32 \/ x = 124 end) by (destruct B as [(_ & e' & ->)|(_ & B)]; [now right|exact B]).
    assert (H0 : (32 <=? schar (chr (n ++ e) 0)) = true).
    { destruct B as [(N & e' & ->)|(N & _)].
      - destruct n; [reflexivity|discriminate].
      - destruct n as [|a n]; cbn [List.length] in N; [lia|]. cbn. destruct (P a (or_introl eq_refl)). unfold schar. destruct (Z.leb_spec 128 a); [lia|]. apply Z.leb_le. lia. }
    rewrite H0. cbn [negb]. rewrite name_length_app by assumption.
    replace ((List.length n <? 2) || (80 <=? List.length n))%nat with true; [reflexivity|]. symmetry. apply orb_true_iff.
    destruct B as [(N & _)|([N|N] & _)]; [left; apply Nat.ltb_lt; lia|left; apply Nat.ltb_lt; lia|right; apply Nat.leb_le; lia].
  - assert (Gc : good c) by (apply G; now left). assert (P0 := Gc). destruct P0 as ((N2 & N80) & Pc & Tx). inversion St as [|c0 x cs0 l r0 St']; subst. set (h := header_start cs ++ n ++ e).
    replace (header_start (c :: cs) ++ n ++ e) with (cname c ++ 124 :: h) by (unfold h, header_start; cbn [map List.concat]; now rewrite <- !app_assoc).
    assert (H0 : (32 <=? schar (chr (cname c ++ 124 :: h) 0)) = true).
    { destruct (cname c) as [|a m]; cbn [List.length] in N2; [lia|]. cbn. destruct (Pc a (or_introl eq_refl)). unfold schar. destruct (Z.leb_spec 128 a); [lia|]. apply Z.leb_le. lia. }
    cbn [columns]. rewrite H0. cbn [negb]. rewrite name_length_app by (exact Pc || now right).
    replace ((List.length (cname c) <? 2) || (80 <=? List.length (cname c)))%nat with false.
    2:{ symmetry. apply orb_false_iff. split; [apply Nat.ltb_ge; lia|apply Nat.leb_gt; lia]. }
    rewrite app_length. cbn [List.length]. replace (List.length (cname c) <=? List.length (ctext c) + S (List.length l))%nat with true by (symmetry; apply Nat.leb_le; lia). cbn [obind].
    rewrite <- Tx at 1. rewrite firstn_app, Nat.sub_diag, firstn_O, app_nil_r, firstn_all. rewrite column_own by (exact Gc || now right).
    destruct (column_total L ex c s Gc ltac:(apply Rd; now left)) as [s1 ->]. cbn [obind].
    assert (Hc : chr (cname c ++ 124 :: h) (List.length (cname c)) =? 124 = true).
    { unfold chr. rewrite app_nth2, Nat.sub_diag by lia. reflexivity. }
    rewrite Hc. cbv iota. replace (S (List.length (cname c)) <=? List.length (ctext c) + S (List.length l))%nat with true by (symmetry; apply Nat.leb_le; lia). cbn [obind].
    replace (skipn (S (List.length (cname c))) (cname c ++ 124 :: h)) with h.
    2:{ rewrite skipn_app, skipn_all2 by lia. replace (S (List.length (cname c)) - List.length (cname c))%nat with 1%nat by lia. reflexivity. }
    replace (skipn (S (List.length (cname c))) (ctext c ++ x :: l)) with l.
    2:{ rewrite skipn_app, skipn_all2 by lia. replace (S (List.length (cname c)) - List.length (ctext c))%nat with 1%nat by lia. reflexivity. }
    apply (IH _ l rest); auto; try (intros; (apply G || apply Rd); now right). cbn [List.length] in F. lia.
Qed.

Fixpoint line_text (cs : list col) (rest : list Z) : list Z := match cs with [] => rest | [c] => ctext c ++ rest | c :: cs => ctext c ++ 32 :: line_text cs rest end.
Lemma line_text_ok cs rest : cs <> [] -> line_of cs (line_text cs rest).
Proof. induction cs as [|c [|c2 cs] IH]; intros N; [congruence|constructor|]. apply (line_more c 32 (c2 :: cs)); [apply IH|]; discriminate. Qed.
