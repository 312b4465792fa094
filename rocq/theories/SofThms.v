(** Theorems of C56 with their proofs; PropSof.v states them again. *)
From Coq Require Import QArith Qreals String Lia Lqa.
From Verif Require Import CBase CLemmas CStr DateModel DateVocab DateSpec DateFacts DateJG DateThms TstrModel TstrSpec TstrNum CtimeModel CtimeSpec CtimeBuf MpcfModel MpcdSpec MpcdProofs TrigBase SofModel SofSpec SofProofs SofDate.
From Verif Require OrbModel OrbThms.
Local Open Scope string_scope.
Local Open Scope list_scope.
Local Open Scope Z_scope.

Lemma C56_values_proof :
forall L ex cs buff e r s el, (forall c, In c cs -> good c) -> line_of cs buff -> ended e ->
  extract_sof_data_ex L ex buff (header_of cs ++ e) = Ret (r, Some (s, el)) -> r = 0 /\
  value "q " cs number 0%Q (q_ s) /\ value "e " cs number 0%Q (ecc s) /\ value "i " cs angle 0%R (incl s) /\ value "O" cs angle 0%R (asc_node s) /\ value "o" cs angle 0%R (arg_per s) /\
  value "H " cs number 0%Q (abs_mag s) /\ value "G " cs number (15 # 100)%Q (slope_param s) /\ value "C " cs whole 0 (central_obj s) /\
  value "Tp" cs (calendar_day L) 0%Q (perih_time s) /\ value "Te" cs (calendar_day L) 0%Q (epoch s) /\
  (if ex then value "Tf" cs (calendar_day L) 0%Q (first_obs s) /\ value "Tl" cs (calendar_day L) 0%Q (last_obs s) /\ value "Tw" cs (calendar_day L) 0%Q (written s) /\ value "rms" cs number 0%Q (rms s)
   else first_obs s = 0%Q /\ last_obs s = 0%Q /\ written s = 0%Q /\ rms s = 0%Q) /\
  gm s = (SOLAR_GM * MASS_EARTH ^ List.length (filter geocentric cs))%R /\
  OrbModel.perih_time el = Q2R (perih_time s) /\ OrbModel.q_ el = Q2R (q_ s) /\ OrbModel.ecc_ el = Q2R (ecc s) /\
  OrbModel.incl el = incl s /\ OrbModel.asc_node el = asc_node s /\ OrbModel.arg_per el = arg_per s.
Proof.
intros L ex cs buff e r s el G Ln En X. rewrite (sof_run L ex cs buff e G Ln En) in X. destruct (run L ex cs sof0) as [s1| | |] eqn:Rn; try discriminate. cbn [obind] in X.
  destruct (complete cs); [|discriminate]. destruct (OrbModel.derive_quantities (as_elements s1) (gm s1)) as [d| | |] eqn:D; try discriminate. cbn [obind] in X. injection X as <- <- <-.
  split; [reflexivity|].
  split; [exact (slot_run L ex q_ _ _ (q_step L ex) cs sof0 s1 G Rn)|]. split; [exact (slot_run L ex ecc _ _ (e_step L ex) cs sof0 s1 G Rn)|].
  split; [exact (slot_run L ex incl _ _ (i_step L ex) cs sof0 s1 G Rn)|]. split; [exact (slot_run L ex asc_node _ _ (O_step L ex) cs sof0 s1 G Rn)|].
  split; [exact (slot_run L ex arg_per _ _ (o_step L ex) cs sof0 s1 G Rn)|]. split; [exact (slot_run L ex abs_mag _ _ (H_step L ex) cs sof0 s1 G Rn)|].
  split; [exact (slot_run L ex slope_param _ _ (G_step L ex) cs sof0 s1 G Rn)|]. split; [exact (slot_run L ex central_obj _ _ (C_step L ex) cs sof0 s1 G Rn)|].
  split; [exact (slot_run L ex perih_time _ _ (Tp_step L ex) cs sof0 s1 G Rn)|]. split; [exact (slot_run L ex epoch _ _ (Te_step L ex) cs sof0 s1 G Rn)|].
  split.
  { destruct ex.
    - split; [exact (slot_run L true first_obs _ _ (Tf_step L) cs sof0 s1 G Rn)|]. split; [exact (slot_run L true last_obs _ _ (Tl_step L) cs sof0 s1 G Rn)|].
      split; [exact (slot_run L true written _ _ (Tw_step L) cs sof0 s1 G Rn)|exact (slot_run L true rms _ _ (rms_step L) cs sof0 s1 G Rn)].
    - exact (none_run L cs sof0 s1 G Rn). }
  split; [exact (gm_run L ex cs sof0 s1 G Rn)|].
  unfold OrbModel.derive_quantities in D. match type of D with obind ?o _ = _ => destruct o as [[[a t] w]| | |]; try discriminate end. cbn [obind] in D.
  match type of D with obind ?o _ = _ => destruct o as [h| | |]; try discriminate end. cbn [obind] in D.
  match type of D with obind ?o _ = _ => destruct o as [[[[l m] p] s]| | |]; try discriminate end. cbn [obind] in D. injection D as <-. repeat split.
Qed.

Lemma C56_result_proof :
forall L ex cs buff e, (forall c, In c cs -> readable L c) -> (forall c, In c cs -> good c) -> line_of cs buff -> ended e ->
  (complete cs = false -> extract_sof_data_ex L ex buff (header_of cs ++ e) = Ret (-1, None)) /\
  (complete cs = true -> (forall v, value "q " cs number 0%Q v -> (0 < v)%Q) -> (forall v, value "e " cs number 0%Q v -> (0 <= v)%Q) ->
   (forall v, value "i " cs angle 0%R v -> cos v <> 0%R) -> exists s el, extract_sof_data_ex L ex buff (header_of cs ++ e) = Ret (0, Some (s, el))).
Proof.
intros L ex cs buff e Rd G Ln En. rewrite (sof_run L ex cs buff e G Ln En). destruct (run_total L ex cs G Rd sof0) as [s Rn]. rewrite Rn. cbn [obind].
  split; intros ->; [reflexivity|]. intros Hq He Hi.
  destruct (OrbThms.derive_ok (as_elements s) (gm s)) as (d & D & _).
  - cbn. replace 0%R with (Q2R 0) by (unfold Q2R; cbn; lra). apply Qlt_Rlt, Hq. exact (slot_run L ex q_ _ _ (q_step L ex) cs sof0 s G Rn).
  - cbn. replace 0%R with (Q2R 0) by (unfold Q2R; cbn; lra). apply Qle_Rle, He. exact (slot_run L ex ecc _ _ (e_step L ex) cs sof0 s G Rn).
  - rewrite (gm_run L ex cs sof0 s G Rn). apply solar_pos.
  - cbn. apply Hi. exact (slot_run L ex incl _ _ (i_step L ex) cs sof0 s G Rn).
  - rewrite D. cbn [obind]. eauto.
Qed.

Lemma C56_width_proof :
forall L ex cs n e buff rest, (forall c, In c cs -> good c) -> (forall c, In c cs -> readable L c) -> starts cs buff rest -> bad_name n e ->
  extract_sof_data_ex L ex buff (header_start cs ++ n ++ e) = Ret (-1, None).
Proof.
intros L ex cs n e buff rest G Rd St B. unfold extract_sof_data_ex. rewrite (columns_bad L ex n e B cs _ buff rest sof0 G Rd St); [reflexivity|].
  rewrite app_length. enough (List.length cs <= List.length (header_start cs))%nat by lia. clear. induction cs as [|c cs IH]; [cbn; lia|].
  unfold header_start in *. cbn [map List.concat List.length]. rewrite !app_length. cbn [List.length]. lia.
Qed.

Lemma C56_short_refuted_proof :
forall L ex c e buff, good c -> ended e \/ (exists e', e = 124 :: e') -> (List.length buff < List.length (cname c))%nat ->
  extract_sof_data_ex L ex buff (cname c ++ e) = UB.
Proof.
intros L ex c e buff (( N2 & N80) & P & _) En Sh. unfold extract_sof_data_ex.
  assert (H0 : (32 <=? schar (chr (cname c ++ e) 0)) = true).
  { destruct (cname c) as [|a m]; cbn [List.length] in N2; [lia|]. cbn. destruct (P a (or_introl eq_refl)). unfold schar. destruct (Z.leb_spec 128 a); [lia|]. apply Z.leb_le. lia. }
  cbn [columns]. rewrite H0. cbn [negb]. rewrite name_length_app; [|exact P|destruct En as [En|(e' & ->)]; [apply ended_bar, En|now right]].
  replace ((List.length (cname c) <? 2) || (80 <=? List.length (cname c)))%nat with false.
  2:{ symmetry. apply orb_false_iff. split; [apply Nat.ltb_ge; lia|apply Nat.leb_gt; lia]. }
  replace (List.length (cname c) <=? List.length buff)%nat with false by (symmetry; apply Nat.leb_gt; lia). reflexivity.
Qed.

Lemma C56_date_proof :
forall f, counts_days gregorian (1, 1, 2000) 2451545 f -> forall L y m d, long_ok L -> 0 <= y < 10000 -> valid gregorian (d, m, y) ->
  (forall t, num_end t -> extract_yyyymmdd_to_jd L (ndig 8 (y * 10000 + m * 100 + d) ++ t) = Ret (inject_Z (f (d, m, y)) - (1 # 2))%Q) /\
  forall n v t, (1 <= n)%nat -> 0 <= v < 10 ^ Z.of_nat n -> num_end t ->
    exists q, extract_yyyymmdd_to_jd L (ndig 8 (y * 10000 + m * 100 + d) ++ 46 :: ndig n v ++ t) = Ret q /\ (q == inject_Z (f (d, m, y)) - (1 # 2) + part n v)%Q.
Proof.
intros f Hf L y m d HL Hy Vd. assert (Vd' := Vd). destruct Vd' as (Hm & Hd1 & Hd2). assert (Yk : year_ok L y) by (unfold year_ok, long_ok in *; lia).
  assert (Hd31 : d <= 31). { revert Hd2. unfold gregorian, roman_month. repeat match goal with |- context [if ?b then _ else _] => destruct b end; lia. }
  pose proof (C05_gregorian_is_day_count_proof f Hf L d m y HL Yk Vd) as Dm. split.
  - intros t Et. rewrite read8; try assumption; try lia.
    + rewrite Dm. cbn [obind]. destruct t as [|c t]; [reflexivity|]. destruct Et as (_ & E46 & _). cbn [chr nth]. unfold chr. cbn [nth]. destruct (Z.eqb_spec c 46); [lia|reflexivity].
    + destruct t as [|c t]; [exact I|]. apply Et.
  - intros n v t Hn Hv Et. rewrite read8; try assumption; try lia; [|reflexivity]. rewrite Dm. cbn [obind]. change (chr (46 :: ndig n v ++ t) 0 =? 46) with true. cbv iota.
    destruct (atof_parts 0 0 n v t ltac:(cbn; lia) Hv ltac:(lia) Et) as (q & E & Q). cbn [ndig app] in E. rewrite E. cbn [obind]. eexists. split; [reflexivity|]. rewrite Q. change (inject_Z 0) with 0%Q. ring.
Qed.

Lemma C56_date_refuted_proof :
forall L n v t, long_ok L -> n <> 7%nat -> 0 <= v < 10 ^ Z.of_nat (S n) -> v <= L -> num_end t -> extract_yyyymmdd_to_jd L (ndig (S n) v ++ t) = Ret 0%Q.
Proof.
intros L n v t HL Hn Hv HvL Et. unfold extract_yyyymmdd_to_jd. rewrite (scan_d_num L _ v t).
  - cbn [obind]. rewrite app_length, ndig_length. replace (S n + List.length t - List.length t)%nat with (S n) by lia. destruct (Nat.eqb_spec (S n) 8); [lia|]. cbn [obind].
    replace (chr (ndig (S n) v ++ t) (S n)) with (chr t 0).
    + destruct t as [|c t]; [reflexivity|]. destruct Et as (_ & E46 & _). unfold chr. cbn [nth]. destruct (Z.eqb_spec c 46); [lia|reflexivity].
    + unfold chr. rewrite app_nth2; rewrite ndig_length; [|lia]. now rewrite Nat.sub_diag.
  - now apply ndig_is_digits.
  - destruct t as [|c t]; [exact I|]. apply Et.
  - lia.
Qed.

Lemma C56_month_refuted_proof :
forall L y m d t, long_ok L -> 0 <= y < 10000 -> 15 <= m < 100 -> 0 <= d < 100 -> (match t with [] => True | c :: _ => isdigit c = false end) ->
  extract_yyyymmdd_to_jd L (ndig 8 (y * 10000 + m * 100 + d) ++ t) = UB.
Proof.
intros L y m d t HL Hy Hm Hd Ht. rewrite read8 by (assumption || lia). rewrite dmy_over; [reflexivity|assumption| |assumption|lia]. unfold year_ok, long_ok in *. lia.
Qed.

Lemma C56_name_refuted_proof :
forall L ex cs c buff e r s el v, named "o" c = true -> number (ctext c) v -> (forall x, In x (cs ++ [c]) -> good x) -> line_of (cs ++ [c]) buff -> ended e ->
  extract_sof_data_ex L ex buff (header_of (cs ++ [c]) ++ e) = Ret (r, Some (s, el)) -> arg_per s = (Q2R v * PI / 180)%R.
Proof.
intros L ex cs c buff e r s el v Nc Nv G Ln En X. destruct (C56_values_proof L ex (cs ++ [c]) buff e r s el G Ln En X) as (_ & _ & _ & _ & _ & V & _).
  unfold value, last_named in V. rewrite rev_unit in V. cbn [find] in V. rewrite Nc in V. destruct V as (d & E & ->). unfold number in Nv. rewrite Nv in E. now injection E as ->.
Qed.
