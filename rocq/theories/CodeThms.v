(** Proofs of the theorems stated in [PropCode]. *)
From Coq Require Import Lia QArith Qround Qreals Lqa.
From Coq Require Import String.
From Verif Require Import CBase CLemmas CStr TstrModel TstrSpec TstrNum MpcfModel MpcfRead TrigBase EllModel EllSpec EllProofs EllThms CodeModel CodeSpec CodeProofs.
Local Open Scope string_scope.
Local Open Scope list_scope.
Local Open Scope Z_scope.

Definition codechar (c : Z) : bool := (32 <? c) && (c <=? 126) && negb (c =? 33).
Lemma codechar_ok c : printable c -> codechar c = true.
Proof. intros [H N]. unfold codechar. lia. Qed.

Lemma info_unfold buff : get_mpc_code_info buff =
  let i := span codechar buff in
  do f <-
    (if (3 <=? i)%nat && (i <=? 4)%nat && (30 <=? List.length buff)%nat then
       let i := (i + span (Z.eqb 32) (skipn i buff))%nat in
       do bang <- tst buff 4 (Z.eqb 33);
       if bang then rovers_line buff
       else
         do std <- tst buff 7 (Z.eqb 46) &&& tst buff 21 (strchr (zs "+- ")) &&& tst buff 14 (Z.eqb 46)
                   &&& tst buff 23 (Z.eqb 46) &&& tst buff 3 (Z.eqb 32);
         if std then standard_line buff
         else if (i =? 30)%nat then Ret (mk_found 0 0 0 0 0 0 0 MPC_CODE_SATELLITE (text_at 30 buff) (-2))
         else Ret nothing
     else Ret nothing);
  do c0 <- at_ buff 0; do c1 <- at_ buff 1; do c2 <- at_ buff 2; do c3 <- at_ buff 3;
  let code := (if c3 =? 32 then [c0; c1; c2] else if c3 =? 0 then [c0; c1; c2] else [c0; c1; c2; c3]) in
  let rval := f_rval f in
  let lon := (if negb (rval =? -1) && Rltb (f_lon f) 0 then f_lon f + (PI + PI) else f_lon f)%R in
  let name := (if rval =? -1 then Some (zs "Unkn") else f_name f) in
  let planet := (if rval =? -1 then 3 else rval) in
  Ret (rval, mk_code (f_lat f) lon (f_alt f) (f_rho_cos f) (f_rho_sin f) planet (f_prec1 f) (f_prec2 f) (f_format f) name code).
Proof. reflexivity. Qed.

(** The Earth's axes. *)
Lemma earth_ratio : (0 < Q2R (EARTH_MINOR_AXIS / EARTH_MAJOR_AXIS) < 1)%R.
Proof.
  split; [rewrite <- RMicromega.Q2R_0|rewrite <- RMicromega.Q2R_1]; apply Qlt_Rlt; reflexivity.
Qed.
Lemma Q2R_ne q : ~ (q == 0)%Q -> Q2R q <> 0%R.
Proof. intros H E. apply H. apply eqR_Qeq. now rewrite E, RMicromega.Q2R_0. Qed.
(** point_to_ellipse( ) on the unit ellipse has a result, whatever the numbers. *)
Lemma ellipse_total rc rs : exists lat alt, point_to_ellipse 1 (Q2R (EARTH_MINOR_AXIS / EARTH_MAJOR_AXIS)) (Q2R rc) (Q2R rs) = Ret (lat, alt) /\
  (~ (rc == 0)%Q -> place 1 (Q2R (EARTH_MINOR_AXIS / EARTH_MAJOR_AXIS)) lat alt (Q2R rc, Q2R rs)).
Proof.
  destruct earth_ratio as [B0 B1]. set (b := Q2R (EARTH_MINOR_AXIS / EARTH_MAJOR_AXIS)) in *. clearbody b.
  destruct (Qeq_dec rc 0) as [E|N].
  - rewrite (Qeq_eqR _ _ E), RMicromega.Q2R_0. unfold point_to_ellipse. destruct (Reqb_spec 0 0) as [_|Z]; [|now destruct Z]. cbn [obind].
    eexists _, _. split; [reflexivity|]. intros N. now destruct N.
  - destruct (C51_latitude_proof 1 b (Q2R rc) (Q2R rs)) as (lat & alt & E & P & _); [split; [exact B0|now apply Rlt_le]|now apply Q2R_ne|now left|].
    exists lat, alt. split; [exact E|]. intros _. exact P.
Qed.

Ltac list3 l H := destruct l as [|? [|? [|? [|? ?]]]]; try discriminate H.
Ltac list5 l H := destruct l as [|? [|? [|? [|? [|? [|? ?]]]]]]; try discriminate H.
Ltac list6 l H := destruct l as [|? [|? [|? [|? [|? [|? [|? ?]]]]]]]; try discriminate H.

Lemma place_scale a b lat h p s : (0 < s)%R -> (0 < a)%R -> (0 < b)%R -> place a b lat h p -> place (s * a) (s * b) lat (s * h) (s * fst p, s * snd p)%R.
Proof.
  intros Hs Ha Hb (q & (E & k & K & Ec & Es) & Px & Py). exists (s * fst q, s * snd q)%R. cbn [fst snd]. split; [split|].
  - unfold on_ellipse in *. cbn [fst snd]. rewrite <- E. field. repeat split; apply Rgt_not_eq; assumption.
  - exists (k / s)%R. cbn [fst snd]. split; [now apply Rdiv_lt_0_compat|]. split.
    + transitivity (fst q / (a * a) / s)%R; [field; repeat split; apply Rgt_not_eq; assumption|]. rewrite Ec. field. repeat split; apply Rgt_not_eq; assumption.
    + transitivity (snd q / (b * b) / s)%R; [field; repeat split; apply Rgt_not_eq; assumption|]. rewrite Es. field. repeat split; apply Rgt_not_eq; assumption.
  - rewrite Px, Py. split; ring.
Qed.
Lemma degree_radians q : degree q = radians q.
Proof. reflexivity. Qed.
Lemma radians_sign q : Rltb (radians q) 0 = negb (Qle_bool 0 q).
Proof.
  unfold radians. pose proof PI_RGT_0 as P. destruct (Qle_bool 0 q) eqn:L.
  - apply Qle_bool_iff in L. apply Qle_Rle in L. rewrite RMicromega.Q2R_0 in L. destruct (Rltb_spec (Q2R q * (PI / 180)) 0) as [G|G]; [|reflexivity].
    exfalso. assert (0 <= Q2R q * (PI / 180))%R by (apply Rmult_le_pos; [assumption|lra]). lra.
  - assert (G : (q < 0)%Q) by (apply Qnot_le_lt; intros G; apply Qle_bool_iff in G; congruence). apply Qlt_Rlt in G. rewrite RMicromega.Q2R_0 in G.
    destruct (Rltb_spec (Q2R q * (PI / 180)) 0) as [_|N]; [reflexivity|]. exfalso. apply N. assert (0 < - Q2R q * (PI / 180))%R by (apply Rmult_lt_0_compat; lra). lra.
Qed.
Lemma east_of q r : r = radians q -> east q (if Rltb r 0 then r + (PI + PI) else r)%R.
Proof.
  intros ->. rewrite radians_sign. destruct (Qle_bool 0 q) eqn:L; cbn [negb].
  - left. split; [now apply Qle_bool_iff|reflexivity].
  - right. split; [apply Qnot_le_lt; intros G; apply Qle_bool_iff in G; congruence|ring].
Qed.
Lemma with_decimals_nonneg v k d : 0 <= v -> 0 <= d -> (0 <= with_decimals v k d)%Q.
Proof.
  intros Hv Hd. unfold with_decimals. assert (P : 0 < 10 ^ Z.of_nat k) by (apply Z.pow_pos_nonneg; lia).
  assert (0 <= inject_Z v)%Q by (unfold Qle, inject_Z; cbn; lia).
  assert (0 <= inject_Z d / inject_Z (10 ^ Z.of_nat k))%Q. { apply Qle_shift_div_l; [unfold Qlt, inject_Z; cbn; lia|]. rewrite Qmult_0_l. unfold Qle, inject_Z; cbn; lia. }
  Lqa.lra.
Qed.
Lemma std_reads buff code lon rc rs k1 k2 name : observatory buff code lon rc rs k1 k2 name ->
  (0 <= lon)%Q /\ exists lat alt,
  get_mpc_code_info buff = Ret (3, mk_code lat (radians lon) alt (Q2R rc) (Q2R rs) 3 (Z.of_nat k1) (Z.of_nat k2) 1 (Some name) code) /\
  ((rc == 0 /\ rs == 0 -> lat = 0%R /\ alt = 0%R)%Q) /\
  (~ (rc == 0)%Q -> place 1 (Q2R (EARTH_MINOR_AXIS / EARTH_MAJOR_AXIS)) lat (alt / Q2R EARTH_MAJOR_AXIS) (Q2R rc, Q2R rs)).
Proof.
  intros HO. destruct HO as [c0 c1 c2 li v ld m1 d ci cd m2 e sg si sd m3 g nm P0 P1 P2 (i1 & t1 & E1 & L1 & D1) (t2 & j2 & E2 & L2 & K2 & D2 & V2) Hci (t4 & j4 & E4 & L4 & K4 & D4 & V4) Hsg Hsi (t6 & j6 & E6 & L6 & K6 & D6 & V6)].
  assert (F1 : quick_atof (li ++ 46 :: ld) = Ret (with_decimals v m1 d)).
  { rewrite E1, E2. rewrite <- app_assoc. rewrite <- K2. apply qa_field; [exact D1| |exact D2|exact V2|].
    - rewrite E1, app_length in L1. lia.
    - rewrite E2, app_length in L2. lia. }
  assert (F2 : quick_atof (ci :: 46 :: cd) = Ret (with_decimals (ci - 48) m2 e)).
  { rewrite E4. rewrite <- K4. apply (qa_field 0 [ci]); [| |exact D4|exact V4|].
    - split; [discriminate|]. split; [intros x [<-|[]]; exact Hci|]. cbn [dig_val]. rewrite Hci. lia.
    - cbn; lia.
    - rewrite E4, app_length in L4. lia. }
  assert (F3 : quick_atof (sg :: si :: 46 :: sd) = Ret (let q := with_decimals (si - 48) m3 g in if sg =? 45 then - q else q)%Q).
  { rewrite E6. rewrite <- K6. apply qa_signed; [exact Hsg|exact Hsi|exact D6|exact V6|]. rewrite E6, app_length in L6. lia. }
  assert (S1 : span isdigit ld = m1) by (rewrite E2, <- K2; now apply span_dec).
  assert (S2 : span isdigit cd = m2) by (rewrite E4, <- K4; now apply span_dec).
  assert (NB : forall x, In x li -> x <> 33).
  { intros x Hx. rewrite E1 in Hx. apply in_app_or in Hx. destruct Hx as [Hx|Hx]; [apply repeat_spec in Hx; lia|]. destruct D1 as (_ & D & _). apply D in Hx. apply dig_range in Hx. lia. }
  assert (V0 : 0 <= v). { destruct D1 as (_ & _ & <-). apply dig_val_nonneg. lia. }
  assert (D0 : 0 <= d). { rewrite <- V2. apply dig_val_nonneg. lia. }
  assert (LN : (0 <= with_decimals v m1 d)%Q) by now apply with_decimals_nonneg. split; [exact LN|].
  clear E1 D1 E2 K2 D2 V2 E4 K4 D4 V4 E6 K6 D6 V6.
  list3 li L1. list5 ld L2. list6 cd L4. list6 sd L6. cbn [app] in *.
  set (lon := with_decimals v m1 d) in *. set (rc := with_decimals (ci - 48) m2 e) in *. set (rs := (let q := with_decimals (si - 48) m3 g in if sg =? 45 then - q else q)%Q) in *. clearbody lon rc rs.
  match goal with |- context [get_mpc_code_info ?b] => set (buff := b) end.
  assert (Hi : span codechar buff = 3%nat). { unfold buff. cbn [span]. rewrite !codechar_ok by assumption. reflexivity. }
  destruct (ellipse_total rc rs) as (lat0 & alt0 & EE & EP).
  assert (ST : exists lat alt, standard_line buff = Ret (mk_found lat (degree lon) alt (Q2R rc) (Q2R rs) (Z.of_nat m1) (Z.of_nat m2) MPC_CODE_PARALLAXES (Some nm) 3) /\
     ((rc == 0 /\ rs == 0 -> lat = 0%R /\ alt = 0%R)%Q) /\ (~ (rc == 0)%Q -> place 1 (Q2R (EARTH_MINOR_AXIS / EARTH_MAJOR_AXIS)) lat (alt / Q2R EARTH_MAJOR_AXIS) (Q2R rc, Q2R rs))).
  { unfold standard_line. unfold limited_atof, buff. cbn [skipn firstn]. rewrite F1. cbn [obind]. rewrite F2. cbn [obind]. rewrite F3. cbn [obind]. rewrite S1, S2.
    assert (M0 : (Q2R EARTH_MAJOR_AXIS <> 0)%R) by (apply Q2R_ne; discriminate).
    destruct (Qeq_bool rc 0) eqn:Z1; [destruct (Qeq_bool rs 0) eqn:Z2|]; cbn [negb orb].
    - cbn [obind]. eexists _, _. split; [reflexivity|]. split; [intros _; split; [reflexivity|ring]|]. intros N. apply Qeq_bool_iff in Z1. now destruct N.
    - rewrite EE. cbn [obind]. eexists _, _. split; [reflexivity|]. split; [intros [_ N]; apply Qeq_bool_neq in Z2; now destruct Z2|].
      intros N. apply Qeq_bool_iff in Z1. now destruct N.
    - rewrite EE. cbn [obind]. eexists _, _. split; [reflexivity|]. split; [intros [N _]; apply Qeq_bool_neq in Z1; now destruct Z1|].
      intros N. replace (alt0 * Q2R EARTH_MAJOR_AXIS / Q2R EARTH_MAJOR_AXIS)%R with alt0 by (field; exact M0). now apply EP. }
  destruct ST as (lat & alt & SE & SZ & SP). exists lat, alt. split; [|now split].
  rewrite info_unfold. cbv zeta. rewrite Hi. change (30 <=? List.length buff)%nat with true. change ((3 <=? 3)%nat && (3 <=? 4)%nat && true) with true. cbv iota.
  change 4 with (Z.of_nat 4). rewrite (tst_byte buff 4 z) by reflexivity. cbn [obind]. destruct (Z.eqb_spec 33 z) as [Q|_]; [exfalso; apply (NB z); [now left|now symmetry]|].
  change 7 with (Z.of_nat 7). rewrite (tst_byte buff 7 46) by reflexivity. change 21 with (Z.of_nat 21). rewrite (tst_byte buff 21 sg) by reflexivity.
  change 14 with (Z.of_nat 14). rewrite (tst_byte buff 14 46) by reflexivity. change 23 with (Z.of_nat 23). rewrite (tst_byte buff 23 46) by reflexivity.
  change 3 with (Z.of_nat 3). rewrite (tst_byte buff 3 32) by reflexivity.
  assert (SG : strchr (zs "+- ") sg = true) by (cbn [In] in Hsg; destruct Hsg as [<-|[<-|[<-|[]]]]; reflexivity).
  rewrite SG. unfold oand. cbn [obind]. change (46 =? 46) with true. change (32 =? 32) with true. cbv iota. cbn [obind].
  rewrite SE. cbn [obind]. rewrite (at_byte buff 3 32) by reflexivity.
  change 0 with (Z.of_nat 0) at 1. rewrite (at_byte buff 0 c0) by reflexivity. change 1 with (Z.of_nat 1) at 1. rewrite (at_byte buff 1 c1) by reflexivity. change 2 with (Z.of_nat 2) at 1. rewrite (at_byte buff 2 c2) by reflexivity.
  cbn [obind]. unfold f_lat, f_lon, f_alt, f_rho_cos, f_rho_sin, f_prec1, f_prec2, f_format, f_name, f_rval. rewrite degree_radians, radians_sign. apply Qle_bool_iff in LN. rewrite LN. reflexivity.
Qed.

(** ---- lines of rovers.txt ---- *)
Lemma skip_ws_blanks i t : skip_ws (blanks i ++ t) = skip_ws t.
Proof. induction i as [|i IH]; [reflexivity|]. cbn [blanks repeat app]. rewrite skip_ws_sp. exact IH. Qed.
Lemma scan_signed i s q r : signed s q -> num_end r -> scan_lf (blanks i ++ s ++ r) = Ret (Some (q, r)).
Proof.
  intros H Hr. unfold scan_lf. rewrite skip_ws_blanks. change (scan_lf (s ++ r) = Ret (Some (q, r))).
  destruct H as [n q N|n q N|n q N]; cbn [app]; [now apply scan_lf_num|now apply scan_lf_plus|now apply scan_lf_minus].
Qed.
Lemma blank_end j t : (1 <= j)%nat -> num_end (blanks j ++ t).
Proof. intros H. destruct j; [lia|]. cbn. repeat split; discriminate. Qed.
Lemma rest_end t : (match t with c :: _ => c = 32 | [] => True end) -> num_end t.
Proof. destruct t as [|c t]; [intros _; exact I|]. intros ->. cbn. repeat split; discriminate. Qed.
Lemma find_app a b : ~ In 64 a -> find_char 64 (a ++ b) = find_char 64 b.
Proof.
  induction a as [|c a IH]; intros N; [reflexivity|]. cbn [app find_char]. destruct (Z.eqb_spec c 64) as [->|_]; [exfalso; apply N; now left|]. apply IH. intros H. apply N. now right.
Qed.
Lemma find_none a : ~ In 64 a -> find_char 64 a = None.
Proof. intros N. rewrite <- (app_nil_r a), find_app by exact N. reflexivity. Qed.
Lemma signed_no_at s q : signed s q -> ~ In 64 s.
Proof.
  assert (K : forall n q, number_of n q -> ~ In 64 n). { intros n q0 N H. destruct (number_chars n q0 N) as [_ C]. specialize (C 64 H). unfold num_char in C. lia. }
  intros [n q0 N|n q0 N|n q0 N]; [now apply (K n q0)|intros [H|H]; [discriminate|now apply (K n q0) in H]|intros [H|H]; [discriminate|now apply (K n q0) in H]].
Qed.
Lemma blanks_no_at i : ~ In 64 (blanks i).
Proof. intros H. apply repeat_spec in H. discriminate. Qed.

(** Truncation. *)
Lemma trunc_nonneg q : (0 <= q)%Q -> trunc q = Qfloor q.
Proof. intros H. unfold trunc. destruct q as [n d]. cbn [Qnum Qden]. unfold Qfloor. apply Z.quot_div_nonneg; [|lia]. unfold Qle in H. cbn in H. lia. Qed.
Lemma trunc_neg q : (q <= 0)%Q -> trunc q = - Qfloor (- q).
Proof.
  intros H. unfold trunc. destruct q as [n d]. unfold Qopp, Qfloor. cbn [Qnum Qden]. rewrite <- Z.quot_div_nonneg; [rewrite Z.quot_opp_l by lia; lia| |lia]. unfold Qle in H. cbn in H. lia.
Qed.
Lemma floor_part n f : (0 <= f < 1)%Q -> Qfloor (inject_Z n + f) = n.
Proof.
  intros [F0 F1]. assert (A : n <= Qfloor (inject_Z n + f)). { rewrite <- (Qfloor_Z n) at 1. apply Qfloor_resp_le. Lqa.lra. }
  assert (B : Qfloor (inject_Z n + f) < n + 1). { rewrite Zlt_Qlt. rewrite inject_Z_plus. pose proof (Qfloor_le (inject_Z n + f)). change (inject_Z 1) with 1%Q. Lqa.lra. }
  lia.
Qed.
Lemma together_reads q d : together q d -> exists d', convert_base_60_to_decimal q = Ret d' /\ (d' == d)%Q.
Proof.
  intros (neg & D & M & S & f & HD & HM & HS & [F0 F1] & Eq & Ed). set (N := 10000 * D + 100 * M + S) in *.
  assert (N0 : 0 <= N < 10000000) by (unfold N; lia).
  assert (NQ : (0 <= inject_Z N)%Q) by (unfold Qle, inject_Z; cbn; lia).
  assert (T : trunc q = if neg then - N else N).
  { destruct neg.
    - rewrite trunc_neg by (rewrite Eq; Lqa.lra). f_equal. rewrite <- (floor_part N f) by now split. apply Qfloor_comp. rewrite Eq. ring.
    - rewrite trunc_nonneg by (rewrite Eq; Lqa.lra). rewrite <- (floor_part N f) by now split. apply Qfloor_comp. rewrite Eq. ring. }
  unfold convert_base_60_to_decimal, to_integer. rewrite T. rewrite chk_ok by (unfold fits, IMAX; destruct neg; lia). cbn [obind].
  eexists. split; [reflexivity|]. rewrite Eq, Ed.
  assert (A1 : Z.quot N 10000 = D) by (rewrite Z.quot_div_nonneg by lia; unfold N; symmetry; apply Z.div_unique with (100 * M + S); lia).
  assert (A2 : Z.quot N 100 = 100 * D + M) by (rewrite Z.quot_div_nonneg by lia; unfold N; symmetry; apply Z.div_unique with S; lia).
  assert (A3 : Z.rem N 100 = S) by (rewrite Z.rem_mod_nonneg by lia; unfold N; symmetry; apply Z.mod_unique with (100 * D + M); lia).
  assert (A4 : Z.rem (100 * D + M) 100 = M) by (rewrite Z.rem_mod_nonneg by lia; symmetry; apply Z.mod_unique with D; lia).
  assert (NI : inject_Z N == 10000 * inject_Z D + 100 * inject_Z M + inject_Z S) by (unfold N; rewrite !inject_Z_plus, !inject_Z_mult; reflexivity).
  destruct neg.
  - rewrite !Z.quot_opp_l by lia. rewrite A2. rewrite !Z.rem_opp_l by lia. rewrite A1, A3, A4. rewrite !inject_Z_opp. rewrite NI. field.
  - rewrite A1, A2, A3, A4, NI. field.
Qed.
Lemma qabs_small q b : (- b <= q <= b)%Q -> qabs_gt q b = false.
Proof.
  intros [A B]. unfold qabs_gt, qlt. assert (Qle_bool q b = true) by now apply Qle_bool_iff. assert (Qle_bool (- b) q = true) by now apply Qle_bool_iff. rewrite H, H0. reflexivity.
Qed.
Lemma qabs_small_iff q b : qabs_gt q b = false -> (- b <= q <= b)%Q.
Proof.
  unfold qabs_gt, qlt. intros H. apply Bool.orb_false_iff in H. destruct H as [A B]. apply Bool.negb_false_iff in A, B. apply Qle_bool_iff in A, B. now split.
Qed.
Lemma coords_read q1 q2 lon lat : coordinates q1 q2 lon lat -> exists lon' lat', (lon' == lon)%Q /\ (lat' == lat)%Q /\
  (if qabs_gt q1 361 || qabs_gt q2 91 then do lon <- convert_base_60_to_decimal q1; do lat <- convert_base_60_to_decimal q2; Ret (lon, lat) else Ret (q1, q2)) = Ret (lon', lat').
Proof.
  intros [a b [A B]|a b lo la N T1 T2].
  - exists a, b. split; [reflexivity|]. split; [reflexivity|]. now rewrite !qabs_small by assumption.
  - destruct (together_reads a lo T1) as (d1 & E1 & V1). destruct (together_reads b la T2) as (d2 & E2 & V2). exists d1, d2. split; [exact V1|]. split; [exact V2|].
    destruct (qabs_gt a 361 || qabs_gt b 91) eqn:G; [now rewrite E1, E2|]. exfalso. apply N. apply Bool.orb_false_iff in G. destruct G as [G1 G2]. split; [exact (qabs_small_iff _ _ G1)|exact (qabs_small_iff _ _ G2)].
Qed.
Definition told (rest : list Z) (rlon rlat ralt : R) : outcome (R * R * R * Z) :=
  match find_char 64 rest with
  | Some t => do rval <- atoi (tl t); if 9000 <? rval then Ret (0%R, 0%R, 0%R, rval) else Ret (rlon, rlat, ralt, rval)
  | None => Ret (rlon, rlat, ralt, 3)
  end.
Definition rover_found (buff : list Z) (rlon rlat ralt : R) (rval : Z) : outcome found :=
  do '(rc, rs) <- (if negb (Reqb rlat 0) && negb (Reqb rlon 0) then set_parallax_constants rval rlat ralt else Ret (0%R, 0%R));
  Ret (mk_found rlat rlon ralt rc rs 0 0 MPC_CODE_LAT_LON_ALT (text_at 47 buff) rval).
Definition finish (f : found) (code : list Z) : Z * mpc_code :=
  let rval := f_rval f in
  let lon := (if negb (rval =? -1) && Rltb (f_lon f) 0 then f_lon f + (PI + PI) else f_lon f)%R in
  let name := (if rval =? -1 then Some (zs "Unkn") else f_name f) in
  let planet := (if rval =? -1 then 3 else rval) in
  (rval, mk_code (f_lat f) lon (f_alt f) (f_rho_cos f) (f_rho_sin f) planet (f_prec1 f) (f_prec2 f) (f_format f) name code).
Lemma rover_reads buff code q1 q2 q3 rest lon lat : rover buff code q1 q2 q3 rest -> coordinates q1 q2 lon lat -> (30 <= List.length buff)%nat ->
  get_mpc_code_info buff =
    do '(rlon, rlat, ralt, rval) <- told rest (radians lon) (radians lat) (Q2R q3);
    do f <- rover_found buff rlon rlat ralt rval; Ret (finish f code).
Proof.
  intros HR HC HL. destruct (coords_read _ _ _ _ HC) as (lon' & lat' & V1 & V2 & EC).
  destruct HR as [c0 c1 c2 c3 i s1 q1 j s2 q2 k s3 q3 rest P0 P1 P2 P3 S1 S2 S3 J K HE].
  set (T := blanks i ++ s1 ++ blanks j ++ s2 ++ blanks k ++ s3 ++ rest) in *. set (buff := [c0; c1; c2; c3; 33] ++ T) in *.
  assert (SC : scan_lfs 3 T = Ret [q1; q2; q3]).
  { unfold T. cbn [scan_lfs]. rewrite (scan_signed i s1 q1) by (try assumption; now apply blank_end). cbn [obind].
    rewrite (scan_signed j s2 q2) by (try assumption; now apply blank_end). cbn [obind].
    rewrite (scan_signed k s3 q3) by (try assumption; now apply rest_end). reflexivity. }
  assert (FC : find_char 64 (skipn 4 buff) = find_char 64 rest).
  { unfold buff. cbn [app skipn]. change (find_char 64 (33 :: T)) with (find_char 64 T). unfold T.
    rewrite find_app by apply blanks_no_at. rewrite find_app by now apply (signed_no_at s1 q1). rewrite find_app by apply blanks_no_at. rewrite find_app by now apply (signed_no_at s2 q2).
    rewrite find_app by apply blanks_no_at. rewrite find_app by now apply (signed_no_at s3 q3). reflexivity. }
  assert (RV : rovers_line buff = do '(rlon, rlat, ralt, rval) <- told rest (radians lon) (radians lat) (Q2R q3); rover_found buff rlon rlat ralt rval).
  { unfold rovers_line. change (skipn 5 buff) with T. rewrite SC. cbn [obind]. rewrite FC, EC. cbn [obind]. unfold degree. rewrite (Qeq_eqR _ _ V1), (Qeq_eqR _ _ V2). reflexivity. }
  rewrite info_unfold. cbv zeta.
  assert (Hi : (3 <=? span codechar buff)%nat && (span codechar buff <=? 4)%nat = true).
  { unfold buff. cbn [app span]. rewrite !codechar_ok by assumption. destruct P3 as [P3| ->]; [rewrite codechar_ok by assumption|]; reflexivity. }
  rewrite Hi. destruct (Nat.leb_spec 30 (List.length buff)) as [_|G]; [|lia]. cbn [andb].
  change 4 with (Z.of_nat 4). rewrite (tst_byte buff 4 33) by reflexivity. cbn [obind]. change (33 =? 33) with true. cbv iota. rewrite RV.
  change 0 with (Z.of_nat 0) at 1. rewrite (at_byte buff 0 c0) by reflexivity. change 1 with (Z.of_nat 1) at 1. rewrite (at_byte buff 1 c1) by reflexivity. change 2 with (Z.of_nat 2) at 1. rewrite (at_byte buff 2 c2) by reflexivity.
  change 3 with (Z.of_nat 3) at 1. rewrite (at_byte buff 3 c3) by reflexivity.
  assert (CC : (if c3 =? 32 then [c0; c1; c2] else if c3 =? 0 then [c0; c1; c2] else [c0; c1; c2; c3]) = if c3 =? 32 then [c0; c1; c2] else [c0; c1; c2; c3]).
  { destruct P3 as [[P3 _]| ->]; [|reflexivity]. destruct (Z.eqb_spec c3 0); [lia|reflexivity]. }
  destruct (told rest (radians lon) (radians lat) (Q2R q3)) as [[[[rlon rlat] ralt] rval]| | |]; try reflexivity. cbn [obind].
  destruct (rover_found buff rlon rlat ralt rval) as [f| | |]; try reflexivity. cbn [obind]. unfold finish. rewrite CC. reflexivity.
Qed.
Lemma dig_val_app d t : all_digits d -> (match t with c :: _ => isdigit c = false | [] => True end) -> forall acc, dig_val acc (d ++ t) = dig_val acc d.
Proof.
  intros D T. induction d as [|c d IH]; intros acc.
  - cbn [app]. destruct t as [|c t]; [reflexivity|]. cbn [dig_val]. now rewrite T.
  - cbn [app dig_val]. rewrite (D c (or_introl eq_refl)). apply IH. intros x Hx. apply D. now right.
Qed.
Lemma atoi_num d n t : digits_of d n -> (match t with c :: _ => isdigit c = false | [] => True end) -> n <= IMAX -> atoi (d ++ t) = Ret n.
Proof.
  intros (NE & D & V) T B. destruct d as [|c d]; [congruence|]. cbn [app]. pose proof (D c (or_introl eq_refl)) as C. pose proof (dig_val_app (c :: d) t D T 0) as A. cbn [app] in A.
  pose proof (dig_val_nonneg (c :: d) 0 ltac:(lia)) as P. rewrite V in A, P.
  unfold atoi. pose proof (dig_range c C) as R. assert (W : isspace c = false) by (unfold isspace; lia). cbn [span]. rewrite W. cbn [skipn].
  assert (G : forall z, (match c :: d ++ t with 45 :: r => chk IMAX (- dig_val 0 r) | 43 :: r => chk IMAX (dig_val 0 r) | _ => z end) = z).
  { intros z. assert (K : c = 48 \/ c = 49 \/ c = 50 \/ c = 51 \/ c = 52 \/ c = 53 \/ c = 54 \/ c = 55 \/ c = 56 \/ c = 57) by lia.
    clear - K. repeat (destruct K as [->|K]; [reflexivity|]). now subst c. }
  rewrite G, A. apply chk_ok. unfold fits, IMAX in *. lia.
Qed.
Lemma told_world rest n rlon rlat ralt : world rest n -> n <= IMAX -> told rest rlon rlat ralt = Ret (if 9000 <? n then (0%R, 0%R, 0%R, n) else (rlon, rlat, ralt, n)).
Proof.
  intros [t N|t d m t' N D T] B; unfold told.
  - rewrite find_none by exact N. reflexivity.
  - rewrite find_app by exact N. cbn [find_char]. change (64 =? 64) with true. cbv iota. cbn [tl]. rewrite (atoi_num d m t' D T B). cbn [obind]. now destruct (9000 <? m).
Qed.
Lemma world_nonneg rest n : world rest n -> 0 <= n.
Proof. intros [t N|t d m t' N (_ & _ & <-) T]; [lia|]. apply dig_val_nonneg. lia. Qed.
(** The sizes of the planets. *)
Lemma radii n : 0 <= n <= 14 -> exists r, planet_axis_ratio n = Ret r /\ Q2R (planet_radius_in_meters n) = major n /\ Q2R (planet_radius_in_meters n * r) = minor n /\ (0 < major n)%R /\ (0 < minor n)%R.
Proof.
  intros H. assert (K : forall m, (m < 15)%nat -> exists r, planet_axis_ratio (Z.of_nat m) = Ret r /\ planet_radius_in_meters (Z.of_nat m) == fst (nth m axes (0, 0)%Q) /\
     (planet_radius_in_meters (Z.of_nat m) * r == snd (nth m axes (0, 0)%Q))%Q /\ (0 < fst (nth m axes (0, 0)))%Q /\ (0 < snd (nth m axes (0, 0)))%Q).
  { intros m L. do 15 (destruct m as [|m]; [eexists; split; [reflexivity|]; split; [reflexivity|]; split; [reflexivity|]; split; reflexivity|]). lia. }
  destruct (K (Z.to_nat n) ltac:(lia)) as (r & E & A & B & C & D). rewrite Z2Nat.id in * by lia. exists r. split; [exact E|].
  unfold major, minor. split; [now apply Qeq_eqR|]. split; [now apply Qeq_eqR|]. split; rewrite <- RMicromega.Q2R_0; now apply Qlt_Rlt.
Qed.
Lemma radians_ne q : ~ (q == 0)%Q -> Reqb (radians q) 0 = false.
Proof.
  intros N. destruct (Reqb_spec (radians q) 0) as [E|_]; [|reflexivity]. exfalso. unfold radians in E. pose proof PI_RGT_0. apply Rmult_integral in E. destruct E as [E|E]; [now apply (Q2R_ne q)|lra].
Qed.
Lemma radians_0 q : (q == 0)%Q -> radians q = 0%R.
Proof. intros E. unfold radians. rewrite (Qeq_eqR _ _ E), RMicromega.Q2R_0. ring. Qed.

Lemma earth_axes : major 3 = Q2R EARTH_MAJOR_AXIS /\ minor 3 = (Q2R EARTH_MAJOR_AXIS * Q2R (EARTH_MINOR_AXIS / EARTH_MAJOR_AXIS))%R /\ (0 < major 3)%R.
Proof.
  split; [reflexivity|]. split; [rewrite <- Q2R_mult; unfold minor; apply Qeq_eqR; reflexivity|]. unfold major. rewrite <- RMicromega.Q2R_0. apply Qlt_Rlt. reflexivity.
Qed.
Lemma found_parallax buff rlon rlat ralt n : 0 <= n <= 14 -> Reqb rlat 0 = false -> Reqb rlon 0 = false -> exists rc rs,
  rover_found buff rlon rlat ralt n = Ret (mk_found rlat rlon ralt rc rs 0 0 MPC_CODE_LAT_LON_ALT (text_at 47 buff) n) /\ place (major n) (minor n) rlat ralt (major n * rc, major n * rs)%R.
Proof.
  intros Hn A B. destruct (radii n Hn) as (r & E & M1 & M2 & P1 & P2). destruct (C51_parallax_proof rlat ralt (major n) (minor n) P1 P2) as (rc & rs & EP & PL & _).
  exists rc, rs. split; [|exact PL]. unfold rover_found. rewrite A, B. cbn [negb andb]. unfold set_parallax_constants. rewrite E. cbn [obind]. rewrite M1, M2, EP. reflexivity.
Qed.
Lemma finish_not buff rlat rlon ralt rc rs n code : n <> -1 -> finish (mk_found rlat rlon ralt rc rs 0 0 MPC_CODE_LAT_LON_ALT (text_at 47 buff) n) code =
  (n, mk_code rlat (if Rltb rlon 0 then rlon + (PI + PI) else rlon)%R ralt rc rs n 0 0 2 (text_at 47 buff) code).
Proof. intros N. unfold finish. cbn [f_rval f_lat f_lon f_alt f_rho_cos f_rho_sin f_prec1 f_prec2 f_format f_name]. destruct (Z.eqb_spec n (-1)); [lia|]. reflexivity. Qed.

Lemma C52_standard_proof :
forall buff code lon rho_cos rho_sin k1 k2 name, observatory buff code lon rho_cos rho_sin k1 k2 name ->
  exists c, get_mpc_code_info buff = Ret (3, c) /\ c_code c = code /\ c_name c = Some name /\ c_planet c = 3 /\ c_format c = 1 /\
    c_lon c = radians lon /\ c_rho_cos c = Q2R rho_cos /\ c_rho_sin c = Q2R rho_sin /\ c_prec1 c = Z.of_nat k1 /\ c_prec2 c = Z.of_nat k2 /\
    (~ (rho_cos == 0)%Q -> place (major 3) (minor 3) (c_lat c) (c_alt c) (major 3 * Q2R rho_cos, major 3 * Q2R rho_sin)%R) /\
    ((rho_cos == 0)%Q /\ (rho_sin == 0)%Q -> c_lat c = 0%R /\ c_alt c = 0%R).
Proof.
  intros buff code lon rc rs k1 k2 name H. destruct (std_reads _ _ _ _ _ _ _ _ H) as (_ & lat & alt & E & Z & P). eexists. split; [exact E|].
  cbn [c_code c_name c_planet c_format c_lon c_rho_cos c_rho_sin c_prec1 c_prec2 c_lat c_alt].
  do 9 (split; [reflexivity|]). split; [|exact Z]. intros N. specialize (P N). destruct earth_axes as (M1 & M2 & M0). rewrite M1 in *. rewrite M2. destruct earth_ratio as [B0 _].
  pose proof (place_scale 1 _ lat _ _ (Q2R EARTH_MAJOR_AXIS) M0 Rlt_0_1 B0 P) as Q. cbn [fst snd] in Q. rewrite Rmult_1_r in Q.
  replace (Q2R EARTH_MAJOR_AXIS * (alt / Q2R EARTH_MAJOR_AXIS))%R with alt in Q by (field; apply Rgt_not_eq; exact M0). exact Q.
Qed.

Lemma C52_rover_proof :
forall buff code q1 q2 alt rest n lon lat, rover buff code q1 q2 alt rest -> (30 <= List.length buff)%nat -> world rest n -> 0 <= n <= 14 ->
  coordinates q1 q2 lon lat -> ~ (lon == 0)%Q -> ~ (lat == 0)%Q ->
  exists c, get_mpc_code_info buff = Ret (n, c) /\ c_code c = code /\ c_planet c = n /\ c_format c = 2 /\
    east lon (c_lon c) /\ c_lat c = radians lat /\ c_alt c = Q2R alt /\
    place (major n) (minor n) (c_lat c) (c_alt c) (major n * c_rho_cos c, major n * c_rho_sin c)%R /\
    ((47 <= List.length buff)%nat -> c_name c = Some (skipn 47 buff)).
Proof.
  intros buff code q1 q2 alt rest n lon lat HR HL HW Hn HC Nlon Nlat. rewrite (rover_reads _ _ _ _ _ _ _ _ HR HC HL). rewrite (told_world _ n) by (try exact HW; unfold IMAX; lia).
  destruct (Z.ltb_spec 9000 n) as [G|_]; [lia|]. cbn [obind].
  destruct (found_parallax buff (radians lon) (radians lat) (Q2R alt) n Hn (radians_ne _ Nlat) (radians_ne _ Nlon)) as (rc & rs & E & P). rewrite E. cbn [obind].
  rewrite finish_not by lia. eexists. split; [reflexivity|]. cbn [c_code c_name c_planet c_format c_lon c_rho_cos c_rho_sin c_prec1 c_prec2 c_lat c_alt].
  do 3 (split; [reflexivity|]). split; [now apply east_of|]. do 2 (split; [reflexivity|]). split; [exact P|]. intros L. unfold text_at. destruct (Nat.leb_spec 47 (List.length buff)); [reflexivity|lia].
Qed.

Lemma C52_dynamical_proof :
forall buff code q1 q2 alt rest n lon lat, rover buff code q1 q2 alt rest -> (30 <= List.length buff)%nat -> world rest n -> 9000 < n <= IMAX ->
  coordinates q1 q2 lon lat -> exists c, get_mpc_code_info buff = Ret (n, c) /\ c_code c = code /\ c_planet c = n /\
    c_lon c = 0%R /\ c_lat c = 0%R /\ c_alt c = 0%R /\ c_rho_cos c = 0%R /\ c_rho_sin c = 0%R.
Proof.
  intros buff code q1 q2 alt rest n lon lat HR HL HW Hn HC. rewrite (rover_reads _ _ _ _ _ _ _ _ HR HC HL). rewrite (told_world _ n) by (try exact HW; lia).
  destruct (Z.ltb_spec 9000 n) as [_|G]; [|lia]. cbn [obind]. unfold rover_found. destruct (Reqb_spec 0 0) as [_|G]; [|now destruct G]. cbn [negb andb obind].
  rewrite finish_not by lia. destruct (Rltb_spec 0 0) as [G|_]; [exfalso; exact (Rlt_irrefl _ G)|]. eexists. split; [reflexivity|]. repeat split; reflexivity.
Qed.

Lemma C52_satellite_proof :
forall code name, (List.length code = 3 \/ List.length code = 4)%nat -> (forall c, In c code -> printable c) -> (match name with c :: _ => c <> 32 | [] => True end) ->
  exists c, get_mpc_code_info (code ++ blanks (30 - List.length code) ++ name) = Ret (-2, c) /\ c_code c = code /\ c_name c = Some name /\ c_format c = 3 /\
    c_lon c = 0%R /\ c_lat c = 0%R /\ c_alt c = 0%R /\ c_rho_cos c = 0%R /\ c_rho_sin c = 0%R.
Proof.
  intros code name L P N. assert (SN : span (Z.eqb 32) name = 0%nat). { destruct name as [|x name]; [reflexivity|]. cbn [span]. destruct (Z.eqb_spec 32 x); [lia|reflexivity]. }
  assert (K : forall c0 c1 c2 c3, printable c0 -> printable c1 -> printable c2 -> (printable c3 \/ c3 = 32) ->
    get_mpc_code_info ([c0; c1; c2; c3] ++ blanks 26 ++ name) = Ret (-2, mk_code 0 0 0 0 0 (-2) 0 0 3 (Some name) (if c3 =? 32 then [c0; c1; c2] else [c0; c1; c2; c3]))).
  { intros c0 c1 c2 c3 P0 P1 P2 P3. set (buff := [c0; c1; c2; c3] ++ blanks 26 ++ name). rewrite info_unfold. cbv zeta.
    assert (CC : (if c3 =? 32 then [c0; c1; c2] else if c3 =? 0 then [c0; c1; c2] else [c0; c1; c2; c3]) = if c3 =? 32 then [c0; c1; c2] else [c0; c1; c2; c3]).
    { destruct P3 as [[P3 _]| ->]; [|reflexivity]. destruct (Z.eqb_spec c3 0); [lia|reflexivity]. }
    assert (Hi : (3 <=? span codechar buff)%nat && (span codechar buff <=? 4)%nat = true /\ (span codechar buff + span (Z.eqb 32) (skipn (span codechar buff) buff) = 30)%nat).
    { unfold buff. cbn [app span blanks repeat]. rewrite !codechar_ok by assumption. destruct P3 as [P3| ->].
      - rewrite codechar_ok by assumption. change (codechar 32) with false. cbv iota. cbn [skipn span]. change (32 =? 32) with true. cbv iota. cbn [span]. rewrite SN. split; reflexivity.
      - change (codechar 32) with false. cbv iota. cbn [skipn span]. change (32 =? 32) with true. cbv iota. cbn [span]. rewrite SN. split; reflexivity. }
    destruct Hi as [Hi Hj]. rewrite Hi, Hj. change (30 <=? List.length buff)%nat with true. cbn [andb].
    change 4 with (Z.of_nat 4). rewrite (tst_byte buff 4 32) by reflexivity. cbn [obind]. change (33 =? 32) with false. cbv iota.
    change 7 with (Z.of_nat 7). rewrite (tst_byte buff 7 32) by reflexivity. unfold oand. cbn [obind]. change (46 =? 32) with false. cbv iota. cbn [obind]. change (30 =? 30)%nat with true. cbv iota. cbn [obind].
    change 0 with (Z.of_nat 0) at 1. rewrite (at_byte buff 0 c0) by reflexivity. change 1 with (Z.of_nat 1) at 1. rewrite (at_byte buff 1 c1) by reflexivity. change 2 with (Z.of_nat 2) at 1. rewrite (at_byte buff 2 c2) by reflexivity.
    change 3 with (Z.of_nat 3) at 1. rewrite (at_byte buff 3 c3) by reflexivity. cbn [obind]. rewrite CC. unfold f_lat, f_lon, f_alt, f_rho_cos, f_rho_sin, f_prec1, f_prec2, f_format, f_name, f_rval.
    destruct (Rltb_spec 0 0) as [G|_]; [exfalso; exact (Rlt_irrefl _ G)|]. reflexivity. }
  destruct code as [|c0 [|c1 [|c2 [|c3 [|c4 code]]]]]; cbn [List.length] in L; try lia.
  - assert (E := K c0 c1 c2 32 ltac:(apply P; cbn; tauto) ltac:(apply P; cbn; tauto) ltac:(apply P; cbn; tauto) ltac:(now right)).
    eexists. split; [exact E|]. repeat split; reflexivity.
  - assert (P3 : printable c3) by (apply P; cbn; tauto).
    assert (E := K c0 c1 c2 c3 ltac:(apply P; cbn; tauto) ltac:(apply P; cbn; tauto) ltac:(apply P; cbn; tauto) ltac:(now left)).
    destruct (Z.eqb_spec c3 32) as [Z|_]; [destruct P3; lia|]. eexists. split; [exact E|]. repeat split; reflexivity.
Qed.

Lemma C52_short_proof :
forall buff, (3 <= List.length buff < 30)%nat -> exists c, get_mpc_code_info buff = Ret (-1, c) /\ c_name c = Some (zs "Unkn") /\ c_planet c = 3 /\
    c_lon c = 0%R /\ c_lat c = 0%R /\ c_alt c = 0%R /\ c_rho_cos c = 0%R /\ c_rho_sin c = 0%R.
Proof.
  intros buff [L1 L2]. rewrite info_unfold. cbv zeta. destruct (Nat.leb_spec 30 (List.length buff)) as [G|_]; [lia|]. rewrite Bool.andb_false_r. cbn [obind].
  destruct buff as [|c0 [|c1 [|c2 buff]]]; cbn [List.length] in L1; try lia.
  set (b := c0 :: c1 :: c2 :: buff). change 0 with (Z.of_nat 0) at 1. rewrite (at_byte b 0 c0) by reflexivity. change 1 with (Z.of_nat 1) at 1. rewrite (at_byte b 1 c1) by reflexivity. change 2 with (Z.of_nat 2) at 1. rewrite (at_byte b 2 c2) by reflexivity.
  assert (E : exists c3, at_ b 3 = Ret c3). { unfold b, at_. destruct buff as [|c3 buff]; [exists 0; reflexivity|]. exists c3. cbn [List.length]. destruct (Z.eqb_spec 3 (Z.of_nat (S (S (S (S (List.length buff))))))); [lia|reflexivity]. }
  destruct E as (c3 & E). rewrite E. cbn [obind]. eexists. split; [reflexivity|]. repeat split; reflexivity.
Qed.

Lemma C52_total_proof :
forall buff, (3 <= List.length buff)%nat -> nth 4 buff 0 <> 33 -> exists r, get_mpc_code_info buff = Ret r.
Proof.
  intros buff L N. rewrite info_unfold. cbv zeta.
  assert (F : exists f, (if (3 <=? span codechar buff)%nat && (span codechar buff <=? 4)%nat && (30 <=? List.length buff)%nat then
       do bang <- tst buff 4 (Z.eqb 33);
       if bang then rovers_line buff
       else
         do std <- tst buff 7 (Z.eqb 46) &&& tst buff 21 (strchr (zs "+- ")) &&& tst buff 14 (Z.eqb 46)
                   &&& tst buff 23 (Z.eqb 46) &&& tst buff 3 (Z.eqb 32);
         if std then standard_line buff
         else if ((span codechar buff + span (Z.eqb 32) (skipn (span codechar buff) buff)) =? 30)%nat then Ret (mk_found 0 0 0 0 0 0 0 MPC_CODE_SATELLITE (text_at 30 buff) (-2))
         else Ret nothing
     else Ret nothing) = Ret f).
  { destruct (_ && (30 <=? List.length buff)%nat) eqn:B; [|eexists; reflexivity]. apply Bool.andb_true_iff in B. destruct B as [_ B]. apply Nat.leb_le in B.
    assert (T : forall n f, (n < 30)%nat -> tst buff (Z.of_nat n) f = Ret (f (nth n buff 0))) by (intros n f H; apply tst_byte, nth_error_nth'; lia).
    change 4 with (Z.of_nat 4). rewrite T by lia. cbn [obind]. destruct (Z.eqb_spec 33 (nth 4 buff 0)) as [G|_]; [congruence|].
    change 7 with (Z.of_nat 7). rewrite T by lia. change 21 with (Z.of_nat 21). rewrite T by lia. change 14 with (Z.of_nat 14). rewrite T by lia. change 23 with (Z.of_nat 23). rewrite T by lia. change 3 with (Z.of_nat 3). rewrite T by lia.
    assert (O : forall x y, (Ret x &&& Ret y) = Ret (x && y)) by (intros [|] y; reflexivity). rewrite !O. cbn [obind].
    destruct (_ && _ && _ && _ && _); [|destruct (_ =? 30)%nat; eexists; reflexivity].
    unfold standard_line, limited_atof.
    destruct (qa_short (firstn 9 (skipn 4 buff))) as (v1 & ->); [rewrite firstn_length; lia|]. destruct (qa_short (firstn 8 (skipn 13 buff))) as (v2 & ->); [rewrite firstn_length; lia|].
    destruct (qa_short (firstn 9 (skipn 21 buff))) as (v3 & ->); [rewrite firstn_length; lia|]. cbn [obind].
    destruct (negb (Qeq_bool v2 0) || negb (Qeq_bool v3 0)); [|cbn [obind]; eexists; reflexivity].
    destruct (ellipse_total v2 v3) as (la & al & -> & _). cbn [obind]. eexists; reflexivity. }
  destruct F as (f & F). rewrite F. cbn [obind].
  destruct buff as [|c0 [|c1 [|c2 buff]]]; cbn [List.length] in L; try lia.
  set (b := c0 :: c1 :: c2 :: buff) in *. change 0 with (Z.of_nat 0) at 1. rewrite (at_byte b 0 c0) by reflexivity. change 1 with (Z.of_nat 1) at 1. rewrite (at_byte b 1 c1) by reflexivity. change 2 with (Z.of_nat 2) at 1. rewrite (at_byte b 2 c2) by reflexivity.
  assert (E : exists c3, at_ b 3 = Ret c3). { unfold b, at_. destruct buff as [|c3 buff]; [exists 0; reflexivity|]. exists c3. cbn [List.length]. destruct (Z.eqb_spec 3 (Z.of_nat (S (S (S (S (List.length buff))))))); [lia|reflexivity]. }
  destruct E as (c3 & E). rewrite E. cbn [obind]. eexists. reflexivity.
Qed.

Lemma C52_tiny_refuted_proof :
forall buff, (List.length buff < 3)%nat -> get_mpc_code_info buff = UB.
Proof.
  intros buff L. rewrite info_unfold. cbv zeta. destruct (Nat.leb_spec 30 (List.length buff)) as [G|_]; [lia|]. rewrite Bool.andb_false_r. cbn [obind].
  destruct buff as [|c0 [|c1 [|c2 buff]]]; cbn [List.length] in L; try lia; reflexivity.
Qed.

Lemma C52_zero_refuted_proof :
forall buff code q1 q2 alt rest n lon lat, rover buff code q1 q2 alt rest -> (30 <= List.length buff)%nat -> world rest n -> n <= 9000 ->
  coordinates q1 q2 lon lat -> ((lon == 0)%Q \/ (lat == 0)%Q) ->
  exists c, get_mpc_code_info buff = Ret (n, c) /\ c_planet c = n /\ east lon (c_lon c) /\ c_lat c = radians lat /\ c_alt c = Q2R alt /\ c_rho_cos c = 0%R /\ c_rho_sin c = 0%R.
Proof.
  intros buff code q1 q2 alt rest n lon lat HR HL HW Hn HC HZ. pose proof (world_nonneg _ _ HW) as N0. rewrite (rover_reads _ _ _ _ _ _ _ _ HR HC HL). rewrite (told_world _ n) by (try exact HW; unfold IMAX; lia).
  destruct (Z.ltb_spec 9000 n) as [G|_]; [lia|]. cbn [obind]. unfold rover_found.
  assert (Z : negb (Reqb (radians lat) 0) && negb (Reqb (radians lon) 0) = false).
  { destruct HZ as [Z|Z]; rewrite (radians_0 _ Z); destruct (Reqb_spec 0 0) as [_|G]; try (now destruct G); [apply Bool.andb_false_r|reflexivity]. }
  rewrite Z. cbn [obind]. rewrite finish_not by lia. eexists. split; [reflexivity|]. cbn [c_code c_name c_planet c_format c_lon c_rho_cos c_rho_sin c_prec1 c_prec2 c_lat c_alt].
  split; [reflexivity|]. split; [now apply east_of|]. repeat split; reflexivity.
Qed.

Lemma C52_name_refuted_proof :
forall buff code q1 q2 alt rest n lon lat, rover buff code q1 q2 alt rest -> (30 <= List.length buff < 47)%nat -> world rest n -> 0 <= n <= 14 ->
  coordinates q1 q2 lon lat -> exists c, get_mpc_code_info buff = Ret (n, c) /\ c_name c = None.
Proof.
  intros buff code q1 q2 alt rest n lon lat HR [HL HL2] HW Hn HC. rewrite (rover_reads _ _ _ _ _ _ _ _ HR HC HL). rewrite (told_world _ n) by (try exact HW; unfold IMAX; lia).
  destruct (Z.ltb_spec 9000 n) as [G|_]; [lia|]. cbn [obind]. assert (TN : text_at 47 buff = None). { unfold text_at. destruct (Nat.leb_spec 47 (List.length buff)); [lia|reflexivity]. }
  destruct (Reqb (radians lat) 0) eqn:E1; [|destruct (Reqb (radians lon) 0) eqn:E2].
  - unfold rover_found. rewrite E1. cbn [negb andb obind]. rewrite finish_not by lia. eexists. split; [reflexivity|exact TN].
  - unfold rover_found. rewrite E1, E2. cbn [negb andb obind]. rewrite finish_not by lia. eexists. split; [reflexivity|exact TN].
  - destruct (found_parallax buff (radians lon) (radians lat) (Q2R alt) n Hn E1 E2) as (rc & rs & E & _). rewrite E. cbn [obind]. rewrite finish_not by lia. eexists. split; [reflexivity|exact TN].
Qed.

Lemma C52_negative_planet_refuted_proof :
forall buff code q1 q2 alt t d n t' lon lat, rover buff code q1 q2 alt (t ++ 64 :: 45 :: d ++ t') -> (30 <= List.length buff)%nat -> ~ In 64 t ->
  digits_of d n -> (match t' with c :: _ => isdigit c = false | [] => True end) -> 1 <= n <= IMAX -> coordinates q1 q2 lon lat -> ~ (lon == 0)%Q -> ~ (lat == 0)%Q ->
  get_mpc_code_info buff = UB.
Proof.
  intros buff code q1 q2 alt t d n t' lon lat HR HL HT HD HE Hn HC Nlon Nlat. rewrite (rover_reads _ _ _ _ _ _ _ _ HR HC HL).
  unfold told. rewrite find_app by exact HT. cbn [find_char]. change (64 =? 64) with true. cbv iota. cbn [tl].
  assert (A : atoi (45 :: d ++ t') = Ret (- n)).
  { unfold atoi. cbn [span]. change (isspace 45) with false. cbv iota. cbn [skipn]. destruct HD as (_ & D & V). rewrite (dig_val_app d t' D HE), V. apply chk_ok. unfold fits, IMAX in *. lia. }
  rewrite A. cbn [obind]. destruct (Z.ltb_spec 9000 (- n)) as [G|_]; [lia|]. cbn [obind]. unfold rover_found. rewrite !radians_ne by assumption. cbn [negb andb].
  unfold set_parallax_constants, planet_axis_ratio. destruct (Z.leb_spec 9 (- n)) as [G|_]; [lia|]. unfold nth_ub. destruct (Z.ltb_spec (- n) 0) as [_|G]; [|lia]. reflexivity.
Qed.

Lemma C52_no_such_planet_refuted_proof :
forall buff code q1 q2 alt rest n lon lat, rover buff code q1 q2 alt rest -> (30 <= List.length buff)%nat -> world rest n -> 15 <= n <= 9000 ->
  coordinates q1 q2 lon lat -> ~ (lon == 0)%Q -> ~ (lat == 0)%Q -> get_mpc_code_info buff = Abort.
Proof.
  intros buff code q1 q2 alt rest n lon lat HR HL HW Hn HC Nlon Nlat. rewrite (rover_reads _ _ _ _ _ _ _ _ HR HC HL). rewrite (told_world _ n) by (try exact HW; unfold IMAX; lia).
  destruct (Z.ltb_spec 9000 n) as [G|_]; [lia|]. cbn [obind]. unfold rover_found. rewrite !radians_ne by assumption. cbn [negb andb].
  unfold set_parallax_constants, planet_axis_ratio. destruct (Z.leb_spec 9 n) as [_|G]; [|lia]. cbn [obind]. unfold planet_radius_in_meters.
  assert (Z : (0 <=? n) && (n <? 15) = false) by lia. rewrite Z. unfold lat_alt_to_parallax, c_div. rewrite RMicromega.Q2R_0. destruct (Reqb_spec 0 0) as [_|G]; [|now destruct G]. reflexivity.
Qed.

Lemma C52_at_sign_refuted_proof :
forall buff code q1 q2 alt t x t' lon lat, rover buff code q1 q2 alt (t ++ 64 :: x :: t') -> (30 <= List.length buff)%nat -> ~ In 64 t ->
  isalpha x = true -> coordinates q1 q2 lon lat -> exists c, get_mpc_code_info buff = Ret (0, c) /\ c_planet c = 0.
Proof.
  intros buff code q1 q2 alt t x t' lon lat HR HL HT HX HC. rewrite (rover_reads _ _ _ _ _ _ _ _ HR HC HL).
  unfold told. rewrite find_app by exact HT. cbn [find_char]. change (64 =? 64) with true. cbv iota. cbn [tl].
  assert (A : atoi (x :: t') = Ret 0).
  { assert (X : 65 <= x <= 90 \/ 97 <= x <= 122) by (unfold isalpha, isupper, islower in HX; lia). unfold atoi. cbn [span]. assert (W : isspace x = false) by (unfold isspace; lia). rewrite W. cbn [skipn].
    assert (G : forall z, (match x :: t' with 45 :: r => chk IMAX (- dig_val 0 r) | 43 :: r => chk IMAX (dig_val 0 r) | _ => z end) = z).
    { intros z. destruct x as [|x|x]; try reflexivity. do 6 (destruct x as [x|x|]; try reflexivity); lia. }
    rewrite G. cbn [dig_val]. assert (D : isdigit x = false) by (unfold isdigit; lia). rewrite D. reflexivity. }
  rewrite A. cbn [obind]. destruct (Z.ltb_spec 9000 0) as [G|_]; [lia|]. cbn [obind].
  destruct (Reqb (radians lat) 0) eqn:E1; [|destruct (Reqb (radians lon) 0) eqn:E2].
  - unfold rover_found. rewrite E1. cbn [negb andb obind]. rewrite finish_not by lia. eexists. split; reflexivity.
  - unfold rover_found. rewrite E1, E2. cbn [negb andb obind]. rewrite finish_not by lia. eexists. split; reflexivity.
  - destruct (found_parallax buff (radians lon) (radians lat) (Q2R alt) 0 ltac:(lia) E1 E2) as (rc & rs & E & _). rewrite E. cbn [obind]. rewrite finish_not by lia. eexists. split; reflexivity.
Qed.
