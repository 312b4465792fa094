(** Reading angles and places. *)
From Coq Require Import Lia QArith Qround Qabs Lqa.
From Coq Require Import String.
From Verif Require Import CBase CLemmas CStr TstrModel CtimeSpec MpcfModel CtimeBuf MpcfWrite MpcfRead AngModel AngSpec.
Local Open Scope string_scope.
Local Open Scope list_scope.
Local Open Scope Z_scope.

Lemma skip_blanks i t : skip_spaces (blanks i ++ t) = skip_spaces t.
Proof. unfold skip_spaces, blanks. induction i as [|i IH]; [reflexivity|]. cbn [repeat app span]. change (32 =? 32) with true. cbn [skipn]. exact IH. Qed.
Lemma skip_not c t : c <> 32 -> skip_spaces (c :: t) = c :: t.
Proof. intros H. unfold skip_spaces. cbn [span]. destruct (Z.eqb_spec 32 c); [lia|]. reflexivity. Qed.
Lemma pow9 n : (n <= 9)%nat -> 10 ^ Z.of_nat n <= 1000000000.
Proof. intros H. change 1000000000 with (10 ^ 9). apply Z.pow_le_mono_r; lia. Qed.
Lemma qs_blanks i m v t q r : quick_strtod (ndig (S m) v ++ t) = Ret (q, r) -> quick_strtod (blanks i ++ ndig (S m) v ++ t) = Ret (q, r).
Proof.
  unfold quick_strtod. rewrite skip_blanks, skip_ndig, sign_ndig.
  destruct (int_digits (ndig (S m) v ++ t) 0) as [[ip s]| | |]; try discriminate. cbn [obind].
  assert (G : match ndig (S m) v ++ t with c :: _ => isdigit c | [] => false end = true).
  { cbn [ndig app]. apply is_digit_48. apply Z.mod_pos_bound. lia. }
  rewrite G. destruct s as [|c s]; [exact (fun H => H)|]. cbn [negb].
  assert (E : forall (A : outcome (Q * list Z)) (b : bool) (B : outcome (Q * list Z)), (if b && false then A else B) = B) by (intros A b B; now rewrite Bool.andb_false_r).
  destruct c as [|c|c]; try exact (fun H => H). do 6 (destruct c as [c|c|]; try exact (fun H => H)). now rewrite !E.
Qed.
Lemma q_whole m i t : 0 <= i < 10 ^ Z.of_nat (S m) -> i <= IMAX -> stops t -> not_point t ->
  quick_strtod (ndig (S m) i ++ t) = Ret (inject_Z i, t).
Proof.
  intros Hi HI Ht Hp. unfold quick_strtod. rewrite skip_ndig, sign_ndig.
  rewrite int_ndig; [|exact Ht|lia|lia|rewrite Z.mod_small by lia; lia].
  cbn [obind]. rewrite Z.mul_0_l, Z.add_0_l, Z.mod_small by lia.
  destruct t as [|c t]; [reflexivity|]. cbn [not_point] in Hp.
  destruct c as [|c|c]; try reflexivity. do 6 (destruct c as [c|c|]; try reflexivity). now elim Hp.
Qed.
Lemma q_dec m i p d t : 0 <= i < 10 ^ Z.of_nat (S m) -> i <= IMAX -> 0 <= d < 10 ^ Z.of_nat p -> (p <= 9)%nat -> stops t ->
  quick_strtod (ndig (S m) i ++ 46 :: ndig p d ++ t) = Ret ((inject_Z i + inject_Z d / inject_Z (10 ^ Z.of_nat p))%Q, t).
Proof.
  intros Hi HI Hd Hp Ht. unfold quick_strtod. rewrite skip_ndig, sign_ndig.
  rewrite int_ndig; [|reflexivity|lia|lia|rewrite Z.mod_small by lia; lia].
  cbn [obind]. rewrite Z.mul_0_l, Z.add_0_l, Z.mod_small by lia.
  assert (G : match ndig (S m) i ++ 46 :: ndig p d ++ t with c :: _ => isdigit c | [] => false end = true).
  { cbn [ndig app]. apply is_digit_48. apply Z.mod_pos_bound. lia. }
  rewrite G. cbn [negb]. rewrite Bool.andb_false_r. pose proof (pow9 p Hp).
  rewrite frac_ndig; [|exact Ht|lia|lia|lia|rewrite Z.mod_small by lia; unfold IMAX; lia|unfold IMAX; lia].
  cbn [obind]. rewrite Z.mul_0_l, Z.add_0_l, Z.mod_small, Z.mul_1_l by lia. reflexivity.
Qed.
Lemma Qz_nonneg i : 0 <= i -> (0 <= inject_Z i)%Q.
Proof. intros H. change 0%Q with (inject_Z 0). rewrite <- Zle_Qle. exact H. Qed.
Lemma qlt_false a b : (b <= a)%Q -> qlt a b = false.
Proof. intros H. unfold qlt. apply Bool.negb_false_iff. now apply Qle_bool_iff. Qed.
Lemma qlt_true a b : (a < b)%Q -> qlt a b = true.
Proof. intros H. unfold qlt. apply Bool.negb_true_iff. destruct (Qle_bool b a) eqn:E; [|reflexivity]. apply Qle_bool_iff in E. lra. Qed.
Lemma qlt_iff a b : qlt a b = true <-> (a < b)%Q.
Proof.
  split; [|apply qlt_true]. unfold qlt. intros H. apply Bool.negb_true_iff in H. destruct (Qlt_le_dec a b) as [L|L]; [exact L|].
  apply Qle_bool_iff in L. congruence.
Qed.
Lemma frac_nonneg k d : 0 <= d -> (0 <= inject_Z d / inject_Z (10 ^ Z.of_nat k))%Q.
Proof.
  intros H. pose proof (pow_pos k). apply Qle_shift_div_l; [change 0%Q with (inject_Z 0); rewrite <- Zlt_Qlt; lia|]. rewrite Qmult_0_l. now apply Qz_nonneg.
Qed.
Lemma number_nonneg s v w : number s v w -> (0 <= v)%Q.
Proof.
  intros [n i Hn Hi|n i k d Hn Hi Hk Hd]; [apply Qz_nonneg; lia|]. pose proof (Qz_nonneg i ltac:(lia)). pose proof (frac_nonneg k d ltac:(lia)). lra.
Qed.
Lemma number_head s v w : number s v w -> exists c r, s = c :: r /\ 48 <= c <= 57.
Proof.
  intros [n i Hn Hi|n i k d Hn Hi Hk Hd]; (destruct n as [|n]; [lia|]); cbn [ndig app]; eexists _, _; (split; [reflexivity|]);
    pose proof (Z.mod_pos_bound (i / 10 ^ Z.of_nat n) 10 ltac:(lia)); lia.
Qed.
Lemma get_number s v w i t : number s v w -> stops t -> not_point t ->
  get_number_for_angle (blanks i ++ s ++ t) = Ret (v, if w then 1 else 0, t).
Proof.
  intros H Ht Hp. pose proof (number_nonneg _ _ _ H) as V. destruct (number_head _ _ _ H) as (c & r & E & C).
  unfold get_number_for_angle. rewrite skip_blanks.
  assert (S0 : skip_spaces (s ++ t) = s ++ t) by (rewrite E; cbn [app]; apply skip_not; lia). rewrite S0.
  assert (H0 : isdigit (head (s ++ t)) = true) by (rewrite E; cbn [app head]; unfold isdigit; lia). rewrite H0. cbn [negb].
  assert (Q1 : quick_strtod (blanks i ++ s ++ t) = Ret (v, t) /\ head (skipn (span isdigit (s ++ t)) (s ++ t)) =? 46 = negb w).
  { destruct H as [n a Hn Ha|n a k d Hn Ha Hk Hd]; (destruct n as [|n]; [lia|]); pose proof (pow9 (S n) ltac:(lia)).
    - split; [apply qs_blanks, q_whole; try assumption; unfold IMAX; lia|].
      rewrite span_ndig, stops_span, Nat.add_0_r by exact Ht. rewrite skipn_app, ndig_length, Nat.sub_diag, skipn_all2 by (rewrite ndig_length; lia).
      cbn [app skipn negb]. destruct t as [|x t]; [reflexivity|]. cbn [head]. cbn [not_point] in Hp. now destruct (Z.eqb_spec x 46).
    - rewrite <- app_assoc. cbn [app]. split; [apply qs_blanks, q_dec; try assumption; unfold IMAX; lia|].
      rewrite span_ndig. cbn [span]. change (isdigit 46) with false. cbv iota. rewrite Nat.add_0_r.
      rewrite skipn_app, ndig_length, Nat.sub_diag, skipn_all2 by (rewrite ndig_length; lia). reflexivity. }
  destruct Q1 as [-> ->]. cbn [obind].
  assert (N : (List.length (blanks i ++ s ++ t) - List.length t =? 0)%nat = false).
  { apply Nat.eqb_neq. rewrite !app_length, E. cbn [List.length]. lia. }
  rewrite N, qlt_false by exact V. cbn [orb]. now destruct w.
Qed.
Lemma get_none t : isdigit (head (skip_spaces t)) = false -> get_number_for_angle t = Ret (0%Q, -1, t).
Proof. intros H. unfold get_number_for_angle. now rewrite H. Qed.
Lemma follows_skip full j t : follows full j t -> skip_spaces (blanks j ++ t) = t.
Proof. intros H. rewrite skip_blanks. destruct t as [|c t]; [reflexivity|]. cbn [follows] in H. apply skip_not. tauto. Qed.
Lemma digit_iff c : isdigit c = true <-> 48 <= c <= 57.
Proof. unfold isdigit. lia. Qed.
Lemma follows_stops full j t : follows full j t -> stops (blanks j ++ t) /\ not_point (blanks j ++ t).
Proof.
  intros H. destruct j as [|j]; [|split; [reflexivity|discriminate]]. cbn [blanks repeat app]. destruct t as [|c t]; [split; exact I|].
  cbn [follows] in H. destruct H as (_ & H1 & H2). cbn [stops not_point]. split.
  - destruct (isdigit c) eqn:E; [|reflexivity]. apply digit_iff in E. apply H1 in E. lia.
  - intros ->. lia.
Qed.
Lemma follows_none j t : follows false j t -> isdigit (head (skip_spaces (blanks j ++ t))) = false.
Proof.
  intros H. rewrite (follows_skip _ _ _ H). destruct t as [|c t]; [reflexivity|]. cbn [head]. cbn [follows] in H.
  destruct (isdigit c) eqn:E; [|reflexivity]. apply digit_iff in E. destruct H as (_ & H1 & _). apply H1 in E. destruct E. discriminate.
Qed.
Lemma blank_stops b t : stops (blanks (S b) ++ t) /\ not_point (blanks (S b) ++ t).
Proof. split; [reflexivity|discriminate]. Qed.
Lemma angle_nonneg s v n full : angle s v n full -> (0 <= v)%Q.
Proof.
  intros [s0 v0 w H|s0 v0 b s' m w H1 H2 H3|s0 v0 b s' m b' s'' x w H1 H2 H3 H4 H5].
  - now apply number_nonneg in H.
  - apply number_nonneg in H1, H2. assert (0 <= m / 60)%Q by (apply Qle_shift_div_l; [reflexivity|]; lra). lra.
  - apply number_nonneg in H1, H2, H4. assert (0 <= m / 60)%Q by (apply Qle_shift_div_l; [reflexivity|]; lra).
    assert (0 <= x / 3600)%Q by (apply Qle_shift_div_l; [reflexivity|]; lra). lra.
Qed.
Lemma angle_head s v n full : angle s v n full -> exists c r, s = c :: r /\ 48 <= c <= 57.
Proof.
  intros [s0 v0 w H|s0 v0 b s' m w H1 H2 H3|s0 v0 b s' m b' s'' x w H1 H2 H3 H4 H5].
  - exact (number_head _ _ _ H).
  - destruct (number_head _ _ _ H1) as (c & r & -> & C). eexists _, _. split; [reflexivity|exact C].
  - destruct (number_head _ _ _ H1) as (c & r & -> & C). eexists _, _. split; [reflexivity|exact C].
Qed.
Lemma angle_fields s v n full : angle s v n full -> n = 1 \/ n = 2 \/ n = 3.
Proof. intros []; tauto. Qed.
Lemma get_angle_reads i s v n full j t : angle s v n full -> follows full j t ->
  get_angle (blanks i ++ s ++ blanks j ++ t) = Ret (v, t, n).
Proof.
  intros H F. pose proof (follows_stops _ _ _ F) as [F1 F2]. pose proof (follows_skip _ _ _ F) as F3.
  destruct H as [s0 v0 w H|s0 v0 b s' m w H1 H2 H3|s0 v0 b s' m b' s'' x w H1 H2 H3 H4 H5]; unfold get_angle.
  - rewrite (get_number _ _ _ i _ H F1 F2). cbn [obind]. destruct w.
    + change (1 =? -1) with false. change (1 =? 0) with false. cbv iota. rewrite (get_none (blanks j ++ t)) by (apply follows_none; exact F).
      cbn [obind]. change (qlt 60 0) with false. change (-1 =? -1) with true. cbv iota. now rewrite F3.
    + change (0 =? -1) with false. change (0 =? 0) with true. cbv iota. now rewrite F3.
  - rewrite <- !app_assoc. destruct (blank_stops b (s' ++ blanks j ++ t)) as [B1 B2]. rewrite (get_number _ _ _ i _ H1 B1 B2). cbn [obind].
    change (1 =? -1) with false. change (1 =? 0) with false. cbv iota. rewrite (get_number _ _ _ (S b) _ H2 F1 F2). cbn [obind].
    rewrite qlt_false by exact H3. destruct w.
    + change (1 =? -1) with false. change (1 =? 0) with false. cbv iota. rewrite (get_none (blanks j ++ t)) by (apply follows_none; exact F).
      cbn [obind]. change (qlt 60 0) with false. change (-1 =? -1) with true. cbv iota. now rewrite F3.
    + change (0 =? -1) with false. change (0 =? 0) with true. cbv iota. now rewrite F3.
  - rewrite <- !app_assoc. destruct (blank_stops b (s' ++ blanks (S b') ++ s'' ++ blanks j ++ t)) as [B1 B2]. rewrite (get_number _ _ _ i _ H1 B1 B2). cbn [obind].
    change (1 =? -1) with false. change (1 =? 0) with false. cbv iota. destruct (blank_stops b' (s'' ++ blanks j ++ t)) as [B3 B4].
    rewrite (get_number _ _ _ (S b) _ H2 B3 B4). cbn [obind]. rewrite qlt_false by exact H3.
    change (1 =? -1) with false. change (1 =? 0) with false. cbv iota. rewrite (get_number _ _ _ (S b') _ H4 F1 F2). cbn [obind].
    rewrite qlt_false by exact H5. rewrite F3. now destruct w.
Qed.

(** ---- A place ---- *)
Definition code (k : kind) : Z := match k with latitude => GOT_LAT | longitude => GOT_LON end.
Definition drop_comma (r : list Z) : list Z := if head r =? 44 then tl r else r.
Lemma not_alt t : tolower (head t) <> 97 -> memieq t (zs "alt") 3 = false.
Proof.
  intros H. change (zs "alt") with [97; 108; 116]. destruct t as [|c t]; [reflexivity|]. cbn [head] in H. cbn [memieq].
  change (tolower 97) with 97. destruct (Z.eqb_spec (tolower c) 97); [contradiction|]. reflexivity.
Qed.
Lemma sign_letter c k neg : sign c k neg -> In c compass.
Proof. intros [a H|a H|a H|a H]; cbn in H |- *; intuition. Qed.
Lemma strchr_compass c k neg : sign c k neg -> strchr compass c = true.
Proof. intros H. apply sign_letter in H. cbn in H. repeat (destruct H as [<-|H]; [reflexivity|]). destruct H. Qed.
Lemma sign_apart c k neg : sign c k neg -> c <> 32 /\ c <> 46 /\ ~ 48 <= c <= 57 /\ c <> 0 /\ c <> 44.
Proof. intros H. apply sign_letter in H. change compass with [110; 78; 101; 69; 115; 83; 119; 87] in H. cbn [In] in H. repeat (destruct H as [<-|H]; [lia|]). destruct H. Qed.
Lemma digit_compass c : 48 <= c <= 57 -> strchr compass c = false.
Proof.
  intros H. change compass with [110; 78; 101; 69; 115; 83; 119; 87]. unfold strchr. cbn [existsb].
  repeat match goal with |- context[?a =? ?b] => destruct (Z.eqb_spec a b); [lia|] end. reflexivity.
Qed.
Lemma lower_digit c : 48 <= c <= 57 -> tolower c <> 97.
Proof. intros H. unfold tolower, isupper. destruct ((65 <=? c) && (c <=? 90)) eqn:E; lia. Qed.
Lemma head_blanks_digit j c r : 48 <= c <= 57 -> tolower (head (blanks j ++ c :: r)) <> 97.
Proof. intros H. destruct j as [|j]; [cbn [blanks repeat app head]; now apply lower_digit|discriminate]. Qed.
Lemma follows_letter full b c r : c <> 32 -> c <> 46 -> ~ 48 <= c <= 57 -> follows full b (c :: r).
Proof. intros A B C. cbn [follows]. split; [exact A|]. split; intros H; contradiction. Qed.
Lemma extract_place wb p k neg v r : place p k neg v r ->
  extract_lat_lon wb (p ++ r) = Ret (code k, Some (signed neg v), if wb then Some (drop_comma r) else None).
Proof.
  intros [i c k0 neg0 j s v0 n full b t HS HA HF|i s v0 n full b c k0 neg0 t HS HA]; unfold extract_lat_lon.
  - rewrite <- !app_assoc. cbn [app]. rewrite skip_blanks, skip_not by apply (sign_apart _ _ _ HS).
    unfold place_start. cbn [head tl]. rewrite (strchr_compass _ _ _ HS). cbn [head].
    destruct (angle_head _ _ _ _ HA) as (d & sr & Es & D). rewrite <- !app_assoc.
    rewrite not_alt by (rewrite Es; cbn [app]; now apply head_blanks_digit). cbn [andb]. rewrite (get_angle_reads _ _ _ _ _ _ _ HA HF). cbn [obind].
    assert (C0 : (c =? 0) = false) by (apply Z.eqb_neq; apply (sign_apart _ _ _ HS)).
    unfold AngModel.height, direction. rewrite C0. cbn [andb]. assert (N0 : (n =? 0) = false) by (apply Z.eqb_neq; destruct (angle_fields _ _ _ _ HA) as [->|[->| ->]]; lia).
    rewrite N0. cbn [negb andb]. change (GOT_NOTHING =? GOT_NOTHING) with true. cbv iota.
    destruct HS as [c H|c H|c H|c H]; cbn in H; destruct H as [<-|[<-|[]]]; destruct wb; reflexivity.
  - rewrite <- !app_assoc. destruct (angle_head _ _ _ _ HA) as (d & sr & Es & D). rewrite skip_blanks.
    assert (S0 : skip_spaces (s ++ blanks b ++ [c] ++ t) = s ++ blanks b ++ c :: t) by (rewrite Es; cbn [app]; apply skip_not; lia). rewrite S0.
    assert (F : follows full b (c :: t)) by (apply follows_letter; apply (sign_apart _ _ _ HS)).
    pose proof (get_angle_reads 0 _ _ _ _ _ _ HA F) as G. cbn [blanks repeat app] in G.
    assert (P : place_start (s ++ blanks b ++ c :: t) = (0, s ++ blanks b ++ c :: t)).
    { unfold place_start. rewrite Es. cbn [app head]. rewrite digit_compass by exact D. rewrite not_alt by (cbn [head]; now apply lower_digit). reflexivity. }
    assert (M : (match s ++ blanks b ++ c :: t with
                 | [] => Ret (GOT_NOTHING, None, None)
                 | _ :: _ => let '(value, tptr, rval) := AngModel.height 0 n (c :: t) v0 in
                      let '(tptr0, is_negative, rval0) := direction 0 n tptr rval in
                      if wb then match tptr0 with
                                 | Some t0 => Ret (rval0, Some (if is_negative then (- value)%Q else value), Some (if rval0 =? GOT_NOTHING then blanks i ++ s ++ blanks b ++ [c] ++ t else if head t0 =? 44 then tl t0 else t0))
                                 | None => UB end
                      else Ret (rval0, Some (if is_negative then (- value)%Q else value), None)
                 end) = Ret (code k0, Some (signed neg0 v0), if wb then Some (drop_comma t) else None)).
    { rewrite Es. cbn [app]. assert (N0 : (n =? 0) = false) by (apply Z.eqb_neq; destruct (angle_fields _ _ _ _ HA) as [->|[->| ->]]; lia).
      assert (HH : AngModel.height 0 n (c :: t) v0 = (v0, c :: t, GOT_NOTHING)).
      { unfold AngModel.height. change (0 =? 0) with true. cbn [andb]. destruct (n =? 1); [|reflexivity]. cbn [head].
        destruct HS as [c H|c H|c H|c H]; cbn in H; destruct H as [<-|[<-|[]]]; reflexivity. }
      rewrite HH. unfold direction. rewrite N0. change (GOT_NOTHING =? GOT_NOTHING) with true. change (0 =? 0) with true. cbn [negb andb head].
      rewrite (strchr_compass _ _ _ HS).
      destruct HS as [c H|c H|c H|c H]; cbn in H; destruct H as [<-|[<-|[]]]; destruct wb; reflexivity. }
    destruct (s ++ blanks b ++ c :: t) as [|x y] eqn:EE; [rewrite Es in EE; discriminate|].
    rewrite P. rewrite G. cbn [obind]. exact M.
Qed.
