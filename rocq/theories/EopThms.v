(** Theorems of C58 with their proofs; PropEop.v states them again. *)
From Coq Require Import QArith Qround Qabs Qreals Reals String Lia Lqa Lra.
From Verif Require Import RBase CBase CLemmas CStr DateModel DateVocab DateSpec TimeModel TimeSpec TimeThms TstrModel TstrSpec TstrNum TstrThms DtModel DtSpec DtProofs DtUtc DtThms CtimeSpec CtimeBuf MpcdProofs CodeThms SplineModel RotModel RotSpec RotProofs RotThms PrecModel PrecSpec PrecProofs PrecThms AzModel EopModel EopSpec EopProofs EopLoad EopGet EopVocab EopCore EopSample.
From Verif Require MpcfModel SofModel.
Import ListNotations.
Local Open Scope string_scope.
Local Open Scope list_scope.
Local Open Scope Z_scope.

Lemma empty_facts n line r : empty_line n line -> nth 16 (line ++ 0 :: r) 0 = 32 /\ SofModel.atoi (text (line ++ 0 :: r) 7) = Ret n /\ 0 <= n < 100000 /\ List.length line = 188%nat.
Proof.
  intros (AL & date & d & e & E & Ld & D & Dl & H). pose proof (a_line_no0 _ AL) as N0. assert (Lt : List.length line = 188%nat) by (destruct AL as (w & _ & L & _); exact L).
  change (zs ".00 ") with [46; 48; 48; 32] in E. pose proof (digits_bound d _ D) as MB. rewrite Dl in MB. change (10 ^ Z.of_nat 5) with 100000 in MB.
  assert (E16 : line = (date ++ d ++ [46; 48; 48; 32]) ++ e) by (rewrite <- !app_assoc; exact E).
  assert (Le : (0 < List.length e)%nat) by (rewrite E, !app_length in Lt; cbn [List.length] in Lt; lia).
  split; [|split; [|split; [lia|exact Lt]]].
  - pose proof (nth_at _ _ r line 0 16 E16 ltac:(rewrite !app_length; cbn [List.length]; lia) Le) as N. cbn [Nat.add] in N. rewrite N. destruct e; [cbn in Le; lia|exact H].
  - rewrite (text_app line r 7 _ _ E Ld N0). unfold SofModel.atoi. rewrite (scan_d_num IMAX d n); [reflexivity|exact D|reflexivity|change IMAX with 2147483647; lia].
Qed.

Lemma last_observed_some days m0 : calendar days m0 -> exists x, last_observed days = Some x.
Proof.
  intros (_ & d & E & _ & O). destruct days as [|d' l]; [discriminate|]. cbn in E. injection E as ->. cbn [last_observed]. destruct (last_observed l); [eauto|]. rewrite O. eauto.
Qed.

Lemma mjd_at days m0 : calendar days m0 -> forall k d, nth_error days k = Some d -> mjd d = m0 + Z.of_nat k.
Proof.
  intros (C & d0 & E & M & _). induction k as [|k IH]; intros d N.
  - rewrite E in N. injection N as <-. lia.
  - destruct (nth_error days k) as [d1|] eqn:E1; [|apply nth_error_None in E1; assert (X : nth_error days (S k) <> None) by congruence; apply nth_error_Some in X; lia].
    rewrite (C k d1 d E1 N), (IH d1 eq_refl). lia.
Qed.

Lemma reports_ok s data m0 n m : eop_data s = Some data -> (eop_jd0 s == inject_Z m0 + (24000005 # 10))%Q -> eop_usable s = n -> eop_usable_nutation s = m ->
  0 <= m0 < 100000 -> 0 <= n < 1000000000 -> 0 <= m <= n -> reports s [m0; m0 + n; m0 + m].
Proof.
  intros D J U N B1 B2 B3 L limit str alloc buff. unfold load, load_earth_orientation_params. rewrite D.
  assert (T : to_integer IMAX (eop_jd0 s - (2400000499 # 1000))%Q = Ret m0).
  { unfold to_integer. assert (X : (eop_jd0 s - (2400000499 # 1000) == inject_Z m0 + (1 # 1000))%Q) by (rewrite J; ring).
    rewrite trunc_nonneg. 2:{ rewrite X. assert (0 <= inject_Z m0)%Q by (change 0%Q with (inject_Z 0); rewrite <- Zle_Qle; lia). Lqa.lra. }
    rewrite (Qfloor_comp _ _ X), floor_part by (split; reflexivity || discriminate). apply chk_in. change IMAX with 2147483647. lia. }
  rewrite T. cbn [obind]. rewrite U, N. rewrite !chk_in by (change IMAX with 2147483647; lia). reflexivity.
Qed.

(** a file of days with any tail at which the loop stops at once *)
Lemma load_tail f days m m0 tai tail file L limit str buff s fd : finals f days m m0 tai -> 16371 <= Z.of_nat (List.length days) -> long_ok L -> m0 <= limit ->
  Z.of_nat (List.length file) < 80000000000 -> file_of days tail file ->
  forall N, (forall line r d ini data nut date, nth_error days (List.length days - 1) = Some d -> day_line d line ->
     exists b, read_lines (Z.to_nat (Z.of_nat (List.length file) / 188 - Z.of_nat (List.length days))) fd (Z.of_nat (List.length file) / 188) (Z.of_nat (List.length days)) ini tail (line ++ 0 :: r) data nut date
       = Ret (Z.of_nat (List.length days), nut, data, b, date) /\ SofModel.atoi (text b 7) = Ret N) -> 0 <= N < 100000 ->
  exists s' x, last_observed days = Some x /\ load L limit str true buff s (Some (Some file)) fd = Ret (N - 1, s', if fd then [x] else []) /\ loaded days tai m m0 s' /\
    serves days m m0 tai s' /\ reports s' [m0; m0 + Z.of_nat (List.length days); m0 + Z.of_nat m].
Proof.
  intros FIN N1 LOK LIM SIZE FILE N ST NB. destruct (last_observed_some days m0 ltac:(apply FIN)) as (x & Ex).
  destruct (load_core f days m m0 tai tail file L limit str buff s FIN FILE SIZE LOK LIM true fd) as (data & b & ini & jd0 & G & J & (d & line & r & Nd & DL & Eb) & LE).
  destruct (size_facts f days m m0 tai tail file FIN FILE SIZE) as (S1 & S2 & S3 & S4 & S5).
  destruct (ST line r d ini data (Z.of_nat m) (if fd then last_observed days else None) Nd DL) as (b2 & RL & AT).
  subst b. rewrite RL in LE. cbn [obind] in LE. cbv zeta in LE. rewrite (proj2 (Z.ltb_ge _ enough)) in LE by (unfold enough; lia). cbn [Z.eqb negb] in LE. rewrite AT in LE. cbn [obind] in LE.
  rewrite chk_in in LE by (change IMAX with 2147483647; lia). cbn [obind] in LE.
  eexists. exists x. split; [exact Ex|]. split; [rewrite LE, Ex; destruct fd; reflexivity|].
  assert (LO : loaded days tai m m0 (mk_statics (Some data) jd0 (Z.of_nat (List.length file) / 188) (Z.of_nat (List.length days)) (Z.of_nat m))).
  { exists data. cbn. split; [reflexivity|]. split; [exact G|]. split; [reflexivity|]. split; [reflexivity|]. destruct FIN as (_ & _ & (NU & _) & _). split; [exact NU|]. split; [exact J|lia]. }
  split; [exact LO|]. split; [now apply loaded_serves|].
  destruct FIN as (_ & CAL & (NU & _) & _).
  eapply (reports_ok _ data); cbn; try reflexivity; try exact J; try lia.
  destruct CAL as (_ & d0 & E0 & M0 & _). destruct FILE as (lines & F & _). inversion F as [|d1 l1 dd ll DL1 F1]; subst; [discriminate|]. cbn in E0. injection E0 as <-.
  destruct (line_facts d1 l1 [] DL1) as (_ & _ & _ & _ & _ & _ & _ & B & _). exact B.
Qed.

Lemma load_iers f days m m0 tai L limit file str buff s fd : iers_file f days m m0 tai L limit file ->
  exists s' x, last_observed days = Some x /\ load L limit str true buff s (Some (Some file)) fd = Ret (m0 + Z.of_nat (List.length days) - 1, s', if fd then [x] else []) /\ loaded days tai m m0 s' /\
    serves days m m0 tai s' /\ reports s' [m0; m0 + Z.of_nat (List.length days); m0 + Z.of_nat m].
Proof.
  intros (FIN & N1 & LOK & LIM & SIZE & line & more & EL & FILE).
  destruct (empty_facts _ line [] EL) as (_ & _ & EB & LL).
  destruct (size_facts f days m m0 tai _ file FIN FILE SIZE) as (S1 & S2 & S3 & S4 & S5). rewrite app_length, LL in S4.
  apply (load_tail f days m m0 tai (line ++ more) file L limit str buff s fd FIN N1 LOK LIM SIZE FILE); [|exact EB].
  intros line' r d ini data nut date Nd DL.
  assert (K : exists k, Z.to_nat (Z.of_nat (List.length file) / 188 - Z.of_nat (List.length days)) = S k).
  { exists (Z.to_nat (Z.of_nat (List.length file) / 188 - Z.of_nat (List.length days) - 1)). rewrite S4. assert (Z.of_nat (List.length days) + 1 <= (188 * Z.of_nat (List.length days) + Z.of_nat (188 + List.length more)) / 188) by (apply Z.div_le_lower_bound; lia). lia. }
  destruct K as (k & ->). cbn [read_lines]. rewrite fgets_line by apply EL. destruct (empty_facts _ line (skipn 189 (line' ++ 0 :: r)) EL) as (E16 & AT & _ & _).
  rewrite E16. cbn [Z.eqb Pos.eqb negb andb]. eexists. split; [reflexivity|exact AT].
Qed.

Lemma in_firstn {A} n (l : list A) x : In x (firstn n l) -> In x l.
Proof. intros H. rewrite <- (firstn_skipn n l). apply in_or_app. now left. Qed.

Lemma matrix_example : exists eo, reachable initial /\ get_earth_orientation_params None statics0 (2451545 + (2000 - 2000) * (36525 # 100))%Q true 31 = Ret (-1, eo).
Proof.
  destruct (null_nothing statics0 eq_refl) as (_ & H & _).
  eexists. split; [apply later_now|]. eapply (H None _ 31); [reflexivity|]. vm_compute. reflexivity.
Qed.

Lemma loaded_example : exists days m m0 tai s, List.length days = Z.to_nat 16371 /\ serves days m m0 tai s /\ reports s [m0; m0 + 16371; m0 + Z.of_nat m].
Proof.
  destruct sample_ok as (f & F & _). destruct (load_iers f _ _ _ _ _ _ _ None [] statics0 true F) as (s & x & _ & _ & _ & SV & RP).
  exists sample, (Z.to_nat 12000), 41684, sample_tai, s. split; [apply sample_length|]. split; [exact SV|]. rewrite sample_length in RP. exact RP.
Qed.

Lemma plain_example : exists f file, finals f sample (Z.to_nat 12000) 41684 sample_tai /\ 16371 <= Z.of_nat (List.length sample) /\ 41684 <= IMAX /\
  Z.of_nat (List.length file) < 80000000000 /\ file_of sample [] file.
Proof.
  destruct sample_ok as (f & (F & _) & _). exists f, (concat (map sample_line (seq 0 (Z.to_nat 16371))) ++ []). pose proof (lines_n (Z.to_nat 16371) ltac:(lia)) as F2.
  split; [exact F|]. split; [rewrite sample_length; lia|]. split; [vm_compute; discriminate|]. split; [|eexists; split; [exact F2|reflexivity]].
  rewrite app_nil_r, (concat_length _ _ F2), map_length, seq_length. lia.
Qed.

Lemma short_example : exists f days file line more, finals f days 180 41684 sample_tai /\ List.length days = 180%nat /\ empty_line (41684 + 180) line /\
  file_of days (line ++ more) file /\ Z.of_nat (List.length file) < 80000000000.
Proof.
  destruct (finals_n 180) as (f & F); [lia|lia|]. replace (Nat.min 180 (Z.to_nat 12000)) with 180%nat in F by (symmetry; apply Nat.min_l; lia).
  pose proof (lines_n 180 ltac:(lia)) as F2. exists f, (map sample_day (seq 0 180)), (concat (map sample_line (seq 0 180)) ++ ((zs "73 7 1 " ++ ndig 5 41864 ++ zs ".00 " ++ repeat 32 171) ++ [10]) ++ []), ((zs "73 7 1 " ++ ndig 5 41864 ++ zs ".00 " ++ repeat 32 171) ++ [10]), [].
  split; [exact F|]. split; [reflexivity|]. split; [|split; [eexists; split; [exact F2|reflexivity]|rewrite app_length, Nat2Z.inj_add, (concat_length _ _ F2); vm_compute; reflexivity]].
  split.
  - eexists. split; [reflexivity|]. split; [reflexivity|]. split; apply has_no; reflexivity.
  - exists (zs "73 7 1 "), (ndig 5 41864), (repeat 32 171 ++ [10]). split; [reflexivity|]. split; [reflexivity|]. split; [apply ndig_is_digits; vm_compute; split; [discriminate|reflexivity]|]. split; reflexivity.
Qed.

Lemma atoi_letter c t : 65 <= c <= 122 -> SofModel.atoi (c :: t) = Ret 0.
Proof.
  intros H. unfold SofModel.atoi. replace (scan_d IMAX (c :: t)) with (Ret (None : option (Z * list Z))); [reflexivity|].
  assert (D : exists k, (k < 58)%nat /\ c = 65 + Z.of_nat k) by (exists (Z.to_nat (c - 65)); lia). destruct D as (k & K & ->). clear H.
  do 58 (destruct k as [|k]; [reflexivity|]). lia.
Qed.

Lemma C58_load_proof :
forall f days m m0 tai L limit file str buff s fd, iers_file f days m m0 tai L limit file ->
  exists s' x, last_observed days = Some x /\
    load L limit str true buff s (Some (Some file)) fd = Ret (m0 + Z.of_nat (List.length days) - 1, s', if fd then [x] else []) /\
    serves days m m0 tai s' /\ reports s' [m0; m0 + Z.of_nat (List.length days); m0 + Z.of_nat m].
Proof.
intros f days m m0 tai L limit file str buff s fd H. destruct (load_iers f days m m0 tai L limit file str buff s fd H) as (s' & x & A & B & _ & C & D). exists s', x. now repeat split.
Qed.

Lemma C58_day_proof :
forall days m m0 tai s, serves days m m0 tai s -> (m <= List.length days)%nat ->
  forall str k d psi eps jd, (1 <= k)%nat -> (k + 3 <= m)%nat -> nth_error days k = Some d -> nutation d = Some (psi, eps) ->
  (mjd_of jd == inject_Z (m0 + Z.of_nat k))%Q -> Z.of_nat k <= 2147483647 ->
  (-28 # 100 < pole_x d < 36 # 100)%Q -> (-3 # 100 < pole_y d < 61 # 100)%Q -> (-130 # 1 < psi < 55)%Q -> (-18 # 1 < eps < 10)%Q ->
  ~ ((32184 # 1000) + inject_Z (tai k) - ut1_utc d == 0)%Q ->
  get_earth_orientation_params str s jd true 31 =
    Ret (0%Z, mk_params (Q2R (pole_x d) * arcsec) (Q2R (pole_y d) * arcsec) (Q2R ((32184 # 1000) + inject_Z (tai k) - ut1_utc d))
              (Q2R psi / 1000 * arcsec) (Q2R eps / 1000 * arcsec))%R.
Proof.
intros days m m0 tai s SV M str k d psi eps jd K1 K3 Nd Nu MJ KB PX PY PP PE TZ.
  destruct (SV str jd 31 (Z.of_nat k) 0%Q) as (rval & p & (RB & A) & G1 & _ & _); [rewrite MJ; ring|split; [discriminate|reflexivity]|lia|].
  assert (Z0 : Q2R 0 = 0%R) by (unfold Q2R; cbn; Lra.lra).
  assert (P : forall i, (i < 5)%nat -> Z.testbit rval (Z.of_nat i) = false /\ p i = on_day days tai i k).
  { intros i I. specialize (A i I). replace (Z.testbit 31 (Z.of_nat i)) with true in A by (destruct i as [|[|[|[|[|]]]]]; [reflexivity..|lia]).
    rewrite (proj2 (Z.leb_le 1 _)) in A by lia. rewrite (proj2 (Z.leb_le (Z.of_nat k) _)) in A by (destruct (i <? 3)%nat; lia). cbn [andb] in A. destruct A as (A1 & a & b & c & A2 & _). split; [exact A1|].
    rewrite A2, Z0, Nat2Z.id. ring. }
  assert (R0 : rval = 0).
  { destruct (P 0%nat ltac:(lia)) as (B0 & _), (P 1%nat ltac:(lia)) as (B1 & _), (P 2%nat ltac:(lia)) as (B2 & _), (P 3%nat ltac:(lia)) as (B3 & _), (P 4%nat ltac:(lia)) as (B4 & _).
    apply Z.bits_inj'. intros j Hj. rewrite Z.bits_0. destruct (Z.lt_ge_cases j 5) as [J5|J5].
    - assert (J : j = 0 \/ j = 1 \/ j = 2 \/ j = 3 \/ j = 4) by lia. destruct J as [->|[->|[->|[->| ->]]]]; assumption.
    - apply (Z.bits_above_log2 rval j); [lia|]. destruct (Z.eq_dec rval 0) as [->|NZ]; [cbn; lia|]. assert (Z.log2 rval < 5) by (apply Z.log2_lt_pow2; [lia|cbn; lia]). lia. }
  destruct (P 0%nat ltac:(lia)) as (_ & P0), (P 1%nat ltac:(lia)) as (_ & P1), (P 2%nat ltac:(lia)) as (_ & P2), (P 3%nat ltac:(lia)) as (_ & P3), (P 4%nat ltac:(lia)) as (_ & P4).
  unfold on_day in P0, P1, P2, P3, P4. rewrite Nd in P0, P1, P2, P3, P4. rewrite Nu in P3, P4.
  assert (AP : (0 < arcsec)%R) by (unfold arcsec; pose proof PI_RGT_0; Lra.lra).
  assert (LT : forall a b, (a < b)%Q -> (Q2R a * arcsec < Q2R b * arcsec)%R) by (intros a b H; apply Rmult_lt_compat_r; [exact AP|now apply Qlt_Rlt]).
  assert (LM : forall a b, (a < b)%Q -> (Q2R a / 1000 * arcsec < Q2R b / 1000 * arcsec)%R) by (intros a b H; apply Rmult_lt_compat_r; [exact AP|]; apply Qlt_Rlt in H; Lra.lra).
  rewrite G1.
  - rewrite P0, P1, P2, P3, P4, R0. reflexivity.
  - unfold usual. rewrite P0, P1, P3, P4. destruct PX as (X1 & X2), PY as (Y1 & Y2), PP as (S1 & S2), PE as (E1 & E2).
    apply LT in X1, X2, Y1, Y2. apply LM in S1, S2, E1, E2.
    replace (Q2R (-28 # 100)) with (- (28 / 100))%R in X1 by (unfold Q2R; cbn; Lra.lra). replace (Q2R (36 # 100)) with (36 / 100)%R in X2 by (unfold Q2R; cbn; Lra.lra).
    replace (Q2R (-3 # 100)) with (- (3 / 100))%R in Y1 by (unfold Q2R; cbn; Lra.lra). replace (Q2R (61 # 100)) with (61 / 100)%R in Y2 by (unfold Q2R; cbn; Lra.lra).
    replace (Q2R (-130 # 1)) with (- 130)%R in S1 by (unfold Q2R; cbn; Lra.lra). replace (Q2R 55) with 55%R in S2 by (unfold Q2R; cbn; Lra.lra).
    replace (Q2R (-18 # 1)) with (- 18)%R in E1 by (unfold Q2R; cbn; Lra.lra). replace (Q2R 10) with 10%R in E2 by (unfold Q2R; cbn; Lra.lra).
    repeat split; Lra.nra.
  - right. rewrite P2. intros H. apply TZ. apply eqR_Qeq. rewrite H. symmetry. exact Z0.
Qed.

Lemma day_example : exists s, get_earth_orientation_params None s (24420485 # 10) true 31 =
  Ret (0%Z, mk_params (Q2R (12 # 100) * arcsec) (Q2R (32 # 100) * arcsec) (Q2R (44284 # 1000)) (Q2R (-1044 # 100) / 1000 * arcsec) (Q2R (12 # 10) / 1000 * arcsec))%R.
Proof.
  destruct sample_ok as (f & F & N). destruct (load_iers f _ _ _ _ _ _ _ None [] statics0 true F) as (s & x & _ & _ & _ & SV & _). exists s.
  rewrite (C58_day_proof _ _ _ _ _ SV ltac:(rewrite sample_length; lia) None 364%nat _ (-10440 # 1000)%Q (1200 # 1000)%Q (24420485 # 10)%Q ltac:(lia) ltac:(lia) N eq_refl); try (vm_compute; reflexivity); try (vm_compute; discriminate); try (split; reflexivity).
  f_equal. f_equal. cbn [pole_x pole_y ut1_utc].
  f_equal; try (f_equal; apply Qeq_eqR; reflexivity); try (apply Qeq_eqR; reflexivity); f_equal; f_equal; apply Qeq_eqR; reflexivity.
Qed.

Lemma C58_nothing_proof :
nothing_loaded statics0 /\ forall L limit str alloc buff s fd,
  (exists s', load L limit str alloc buff s None false = Ret (0, s', []) /\ nothing_loaded s') /\
  (forall file, file = None \/ file = Some [] -> exists s', load L limit str alloc buff s (Some file) fd = Ret (EOP_FILE_NOT_FOUND, s', []) /\ nothing_loaded s') /\
  (forall first rest, ~ In 10 first -> ~ In 0 first -> List.length first <> 187%nat ->
     exists s', load L limit str alloc buff s (Some (Some (first ++ 10 :: rest))) fd = Ret (EOP_FILE_WRONG_FORMAT, s', []) /\ nothing_loaded s').
Proof.
split; [now apply null_nothing|]. intros L limit str alloc buff s fd. split; [|split].
  - eexists. split; [reflexivity|now apply null_nothing].
  - intros file [->| ->]; (eexists; split; [reflexivity|now apply null_nothing]).
  - intros first rest N10 N0 LN. assert (FG : exists r, fgets (first ++ 10 :: rest) buff = Some (firstn (line_length 199 (first ++ 10 :: rest)) (first ++ 10 :: rest) ++ 0 :: skipn (S (line_length 199 (first ++ 10 :: rest))) buff, r)).
    { unfold fgets. destruct (first ++ 10 :: rest) as [|c w] eqn:E; [destruct first; discriminate|]. eexists. reflexivity. }
    destruct FG as (r & FG). unfold load, load_earth_orientation_params. rewrite FG.
    match goal with |- context[is_valid_eop_line ?b] => assert (V : is_valid_eop_line b = false) end.
    { assert (CS : exists t, ~ In 0 t /\ List.length t <> 188%nat /\ firstn (line_length 199 (first ++ 10 :: rest)) (first ++ 10 :: rest) = t).
      { destruct (Nat.lt_ge_cases (List.length first) 199) as [H|H].
        - rewrite line_length_line by assumption. exists (first ++ [10]). split; [intros I; apply in_app_or in I; destruct I as [I|[I|[]]]; [now apply N0|discriminate]|]. split; [rewrite app_length; cbn; lia|].
          replace (S (List.length first)) with (List.length (first ++ [10])) by (rewrite app_length; cbn; lia). replace (first ++ 10 :: rest) with ((first ++ [10]) ++ rest) by (rewrite <- app_assoc; reflexivity). apply firstn_app_l.
        - assert (LL : forall n u r, ~ In 10 u -> (n <= List.length u)%nat -> line_length n (u ++ r) = n).
          { clear. induction n as [|n IH]; intros u r N B; [reflexivity|]. destruct u as [|c u]; [cbn in B; lia|]. cbn [List.app line_length]. destruct (Z.eqb_spec c 10) as [->|_]; [exfalso; apply N; now left|]. f_equal. apply IH; [intros I; apply N; now right|cbn in B; lia]. }
          rewrite LL by assumption. exists (firstn 199 first). split; [intros I; apply N0; eapply in_firstn; exact I|]. split; [rewrite firstn_length; lia|]. rewrite firstn_app. replace (199 - List.length first)%nat with 0%nat by lia. cbn [firstn]. apply app_nil_r. }
      destruct CS as (t & T0 & T1 & ->). unfold is_valid_eop_line. rewrite c_string_app by assumption. rewrite (proj2 (Z.eqb_neq _ _)); [reflexivity|]. unfold eop_iline_len. lia. }
    rewrite V. cbn [negb orb]. eexists. split; [reflexivity|now apply null_nothing].
Qed.

Lemma C58_safe_proof :
forall s, history s -> exists jd0, forall str jd mask, Z.testbit mask 2 = false -> (Qabs (jd - jd0) <= 2147483647)%Q ->
  get_earth_orientation_params str s jd true mask <> UB.
Proof.
intros s H. exists (eop_jd0 s). intros str jd mask M2 B. pose proof (history_sound s H) as S.
  unfold get_earth_orientation_params.
  assert (TAIL : forall rval l, (if negb true then UB else let r i := nth i l 0%R in let p := mk_params (r 0%nat) (r 1%nat) (r 2%nat) (r 3%nat) (r 4%nat) in
    do _ <- check (Rltb (- (28 / 100) * arcsec_to_radians) (dX p)); do _ <- check (Rltb (dX p) (36 / 100 * arcsec_to_radians)); do _ <- check (Rltb (- (3 / 100) * arcsec_to_radians) (dY p)); do _ <- check (Rltb (dY p) (61 / 100 * arcsec_to_radians));
    do _ <- check (Rltb (-130 * marcsec_to_radians) (dPsi p)); do _ <- check (Rltb (dPsi p) (55 * marcsec_to_radians)); do _ <- check (Rltb (dEps p) (10 * marcsec_to_radians)); do _ <- check (Rltb (-18 * marcsec_to_radians) (dEps p));
    do t <- (if Z.testbit mask 2 && Reqb (tdt_minus_ut1 p) 0 then do d <- default_td_minus_ut str jd; Ret (Q2R d) else Ret (tdt_minus_ut1 p));
    Ret (rval, mk_params (dX p) (dY p) t (dPsi p) (dEps p))) <> (UB : outcome (Z * earth_orientation_params))).
  { intros rval l. cbv zeta. cbn [negb]. rewrite M2. cbn [andb]. repeat match goal with |- context[check ?b] => destruct b; cbn [check obind]; [|discriminate] end. discriminate. }
  destruct (eop_data s) as [data|] eqn:D; [|cbn [obind]; apply TAIL].
  apply Qabs_Qle_condition in B. destruct B as (B1 & B2).
  set (q := (jd - eop_jd0 s)%Q) in *. pose proof (Qfloor_le q) as F1. pose proof (Qlt_floor q) as F2.
  assert (FB : -2147483648 <= Qfloor q <= 2147483647).
  { split.
    - assert (X : (inject_Z (-2147483648) < inject_Z (Qfloor q + 1))%Q) by (change (inject_Z (-2147483648)) with (-2147483648)%Q; Lqa.lra). rewrite <- Zlt_Qlt in X. lia.
    - rewrite Zle_Qle. change (inject_Z 2147483647) with 2147483647%Q. Lqa.lra. }
  assert (T : (0 <= q - inject_Z (Qfloor q) < 1)%Q) by (rewrite inject_Z_plus in F2; change (inject_Z 1) with 1%Q in F2; split; Lqa.lra).
  assert (X : Q2R q = (IZR (Qfloor q) + Q2R (q - inject_Z (Qfloor q)))%R) by (rewrite Q2R_minus, Q2R_Z; Lra.lra).
  destruct (sound_loop s data (Q2R q) mask _ _ S D X (Q2R_lt1 _ T) FB 5 0 0 eq_refl ltac:(lia)) as (rv & l & ->). cbn [obind]. apply TAIL.
Qed.

Lemma C58_matrix_proof :
forall str nut s p m y rval eo, reachable p -> List.length m = 9%nat ->
  get_earth_orientation_params str s (2451545 + (y - 2000) * (36525 # 100))%Q true 31 = Ret (rval, eo) ->
  let t := ((Q2R y - 2000) / 100)%R in
  let dpsi := (PrecSpec.arcsec (fst (nut t)) + dPsi eo)%R in
  let de := (PrecSpec.arcsec (snd (nut t)) + dEps eo)%R in
  let ut1 := (2451545 + (Q2R y - 2000) * (36525 / 100) - tdt_minus_ut1 eo / 86400)%R in
  let r := mul (turn 1 2 (dY eo)) (mul (turn 0 2 (- dX eo)) (mul (turn 0 1 (- green_sidereal_time ut1))
             (mul (turn 0 1 (- (dpsi * cos (obliquity t)))) (mul (nutate (obliquity t) dpsi de) (equator_from_2000 (Q2R y)))))) in
  rotation r /\ exists p', setup_precession_with_nutation_eops str nut s p m y = Ret (rval, r, p').
Proof.
intros str nut s p m y rval eo RP LM G t dpsi de ut1 r.
  destruct (C34_with_nutation_proof nut p m (Q2R y) (dPsi eo) (dEps eo) RP LM) as (R0 & p' & E).
  assert (L9 : forall x, rotation x -> List.length x = 9%nat) by (intros x ((H & _) & _); exact H).
  pose proof (spin_rot _ 0 1 (- green_sidereal_time ut1) ltac:(unfold plane; lia) R0) as R1.
  pose proof (spin_rot _ 0 2 (- dX eo) ltac:(unfold plane; lia) R1) as R2.
  pose proof (spin_rot _ 1 2 (dY eo) ltac:(unfold plane; lia) R2) as R3.
  split; [exact R3|]. exists p'. unfold setup_precession_with_nutation_eops. unfold EopModel.J2000. rewrite G. cbn [obind]. rewrite E. cbn [obind].
  assert (U : (Q2R (2451545 + (y - 2000) * (36525 # 100)) - tdt_minus_ut1 eo / 86400 = ut1)%R).
  { unfold ut1. rewrite Q2R_plus, Q2R_mult, Q2R_minus. replace (Q2R 2451545) with 2451545%R by (unfold Q2R; cbn; Lra.lra). replace (Q2R 2000) with 2000%R by (unfold Q2R; cbn; Lra.lra). replace (Q2R (36525 # 100)) with (36525 / 100)%R by (unfold Q2R; cbn; Lra.lra). reflexivity. }
  rewrite U.
  change 3%nat with (3 * 1)%nat at 1. change 0%nat with (3 * 0)%nat at 1. rewrite (spin_ok _ 0 1) by (unfold plane; (apply L9; exact R0) || lia). cbn [obind].
  change 6%nat with (3 * 2)%nat at 1. change 0%nat with (3 * 0)%nat at 1. rewrite (spin_ok _ 0 2) by (unfold plane; (apply L9; exact R1) || lia). cbn [obind].
  change 3%nat with (3 * 1)%nat at 1. change 6%nat with (3 * 2)%nat at 1. rewrite (spin_ok _ 1 2) by (unfold plane; (apply L9; exact R2) || lia). reflexivity.
Qed.

Lemma C58_info_refuted_proof :
forall days m m0 tai s, serves days m m0 tai s -> forall str jd K t d, (mjd_of jd == inject_Z (m0 + K) + t)%Q -> (0 <= t < 1)%Q ->
  Z.of_nat (List.length days) - 2 <= K <= 2147483647 -> 0 <= K -> td_minus_ut str jd = Ret d ->
  get_earth_orientation_params str s jd true 7 = Ret (7%Z, mk_params 0 0 (Q2R d) 0 0)%R.
Proof.
intros days m m0 tai s SV str jd K t d MJ T KB K0 TD.
  destruct (SV str jd 7 K t MJ T ltac:(lia)) as (rval & p & (RB & A) & _ & G2 & _).
  assert (P : forall i, (i < 5)%nat -> Z.testbit rval (Z.of_nat i) = (i <? 3)%nat /\ p i = 0%R).
  { intros i I. specialize (A i I).
    destruct i as [|[|[|i]]]; [..|assert (i = 0 \/ i = 1)%nat as [->| ->] by lia; cbn in A |- *; tauto];
      (cbn [Z.of_nat Pos.of_succ_nat Pos.succ Z.testbit Pos.testbit Pos.pred_N Nat.ltb Nat.leb] in A; rewrite (proj2 (Z.leb_gt K _)), andb_false_r in A by lia; exact A). }
  assert (R7 : rval = 7).
  { destruct (P 0%nat ltac:(lia)) as (B0 & _), (P 1%nat ltac:(lia)) as (B1 & _), (P 2%nat ltac:(lia)) as (B2 & _), (P 3%nat ltac:(lia)) as (B3 & _), (P 4%nat ltac:(lia)) as (B4 & _).
    assert (J : exists j, (j < 32)%nat /\ rval = Z.of_nat j) by (exists (Z.to_nat rval); lia). destruct J as (j & J & ->). clear - B0 B1 B2 B3 B4 J.
    do 32 (destruct j as [|j]; [cbn in *; (reflexivity || discriminate)|]). lia. }
  rewrite (G2 ltac:(unfold usual; rewrite !(fun i H => proj2 (P i H)) by lia; pose proof PI_RGT_0; unfold arcsec; repeat split; Lra.lra) eq_refl (proj2 (P 2%nat ltac:(lia))) d TD).
  rewrite !(fun i H => proj2 (P i H)) by lia. now rewrite R7.
Qed.

Lemma C58_end_refuted_proof :
forall f days m m0 tai L limit file str buff s fd, finals f days m m0 tai -> 16371 <= Z.of_nat (List.length days) -> long_ok L -> m0 <= limit ->
  Z.of_nat (List.length file) < 80000000000 -> file_of days [] file ->
  exists s' dates, load L limit str true buff s (Some (Some file)) fd = Ret (m0 + Z.of_nat (List.length days) - 2, s', dates) /\ serves days m m0 tai s' /\
    exists d, nth_error days (List.length days - 1) = Some d /\ mjd d = m0 + Z.of_nat (List.length days) - 1.
Proof.
intros f days m m0 tai L limit file str buff s fd FIN N1 LOK LIM SIZE FILE.
  destruct (nth_error days (List.length days - 1)) as [d|] eqn:Ed; [|apply nth_error_None in Ed; lia].
  assert (MD : mjd d = m0 + Z.of_nat (List.length days) - 1) by (rewrite (mjd_at days m0 ltac:(apply FIN) _ _ Ed); lia).
  destruct (size_facts f days m m0 tai _ file FIN FILE SIZE) as (_ & _ & _ & S4 & _). cbn [List.length Z.of_nat] in S4.
  assert (DL0 : exists l, day_line d l).
  { destruct FILE as (lines & F & _). clear - F Ed. revert Ed. generalize (List.length days - 1)%nat. induction F as [|a b l l' H F IH]; intros [|k] E; try discriminate; cbn in E; [injection E as <-; now exists b|now apply (IH k)]. }
  destruct DL0 as (l0 & DL0). destruct (line_facts d l0 [] DL0) as (_ & _ & _ & _ & _ & _ & _ & MB & _).
  destruct (load_tail f days m m0 tai [] file L limit str buff s fd FIN N1 LOK LIM SIZE FILE (mjd d)) as (s' & x & _ & LD & _ & SV & _).
  - intros line r d' ini data nut date Ed' DL. rewrite Ed in Ed'. injection Ed' as <-.
    replace (Z.to_nat _) with 0%nat. 2:{ rewrite S4, Z.add_0_r, Z.mul_comm, Z.div_mul by lia. lia. }
    eexists. split; [reflexivity|]. apply (line_facts d line r DL).
  - exact MB.
  - exists s'. eexists. split; [rewrite LD, MD; f_equal; f_equal; f_equal; lia|]. split; [exact SV|]. exists d. now split.
Qed.

Lemma C58_trailer_refuted_proof :
forall f days m m0 tai L limit file str buff s fd start c line more, finals f days m m0 tai -> 16371 <= Z.of_nat (List.length days) -> long_ok L -> m0 <= limit ->
  Z.of_nat (List.length file) < 80000000000 -> file_of days (start ++ c :: line ++ 10 :: more) file ->
  List.length start = 7%nat -> 65 <= c <= 122 -> (forall x, In x (start ++ line) -> x <> 0 /\ x <> 10) -> (List.length line < 179)%nat -> (179 <= List.length line + List.length more)%nat ->
  exists s' dates, load L limit str true buff s (Some (Some file)) fd = Ret (EOP_FILE_NOT_FOUND, s', dates) /\ serves days m m0 tai s'.
Proof.
intros f days m m0 tai L limit file str buff s fd start c line more FIN N1 LOK LIM SIZE FILE LS CB NX LL LM.
  destruct (size_facts f days m m0 tai _ file FIN FILE SIZE) as (_ & _ & _ & S4 & _).
  assert (LT : (188 <= List.length (start ++ c :: line ++ 10%Z :: more))%nat) by (rewrite !app_length; cbn [List.length]; rewrite app_length; cbn [List.length]; lia).
  destruct (load_tail f days m m0 tai _ file L limit str buff s fd FIN N1 LOK LIM SIZE FILE 0) as (s' & x & _ & LD & _ & SV & _); [|lia|].
  - intros l r d' ini data nut date Ed' DL.
    assert (K : exists k, Z.to_nat (Z.of_nat (List.length file) / 188 - Z.of_nat (List.length days)) = S k).
    { exists (Z.to_nat (Z.of_nat (List.length file) / 188 - Z.of_nat (List.length days) - 1)). assert (Z.of_nat (List.length days) + 1 <= Z.of_nat (List.length file) / 188) by (apply Z.div_le_lower_bound; lia). lia. }
    destruct K as (k & ->). cbn [read_lines].
    set (u := start ++ c :: line). assert (U10 : ~ In 10 u) by (intros I; unfold u in I; apply in_app_or in I; destruct I as [I|[I|I]]; [destruct (NX 10 ltac:(apply in_or_app; now left)) as (_ & Q); now apply Q|lia|destruct (NX 10 ltac:(apply in_or_app; now right)) as (_ & Q); now apply Q]).
    assert (U0 : ~ In 0 u) by (intros I; unfold u in I; apply in_app_or in I; destruct I as [I|[I|I]]; [destruct (NX 0 ltac:(apply in_or_app; now left)) as (Q & _); now apply Q|lia|destruct (NX 0 ltac:(apply in_or_app; now right)) as (Q & _); now apply Q]).
    assert (LU : (List.length u < 187)%nat) by (unfold u; rewrite app_length; cbn [List.length]; lia).
    replace (start ++ c :: line ++ 10 :: more) with (u ++ 10 :: more) by (unfold u; rewrite <- app_assoc; reflexivity).
    unfold fgets at 1. destruct (u ++ 10 :: more) as [|h w] eqn:EU; [destruct u; discriminate|]. rewrite <- EU. rewrite line_length_line by (assumption || (cbn; lia)).
    replace (firstn (S (List.length u)) (u ++ 10 :: more)) with (u ++ [10]).
    2:{ symmetry. replace (S (List.length u)) with (List.length (u ++ [10])) by (rewrite app_length; cbn; lia). replace (u ++ 10 :: more) with ((u ++ [10]) ++ more) by (rewrite <- app_assoc; reflexivity). apply firstn_app_l. }
    match goal with |- context[is_valid_eop_line ?b] => set (bb := b) end.
    assert (T0 : ~ In 0 (u ++ [10])) by (intros I; apply in_app_or in I; destruct I as [I|[I|[]]]; [now apply U0|discriminate]).
    assert (V : is_valid_eop_line bb = false).
    { unfold is_valid_eop_line, bb. rewrite c_string_app by assumption. rewrite (proj2 (Z.eqb_neq _ _)); [reflexivity|]. rewrite app_length. unfold eop_iline_len. cbn [List.length]. lia. }
    rewrite V, andb_false_r. exists bb. split; [reflexivity|]. unfold bb. rewrite (text_app (u ++ [10]) _ 7 start (c :: line ++ [10])); [|unfold u; rewrite <- app_assoc; reflexivity|exact LS|exact T0].
    apply atoi_letter. exact CB.
  - exists s'. eexists. split; [exact LD|exact SV].
Qed.

Lemma C58_short_refuted_proof :
forall f days m m0 tai L limit file str buff s fd line more, finals f days m m0 tai -> Z.of_nat (List.length days) < 16371 -> long_ok L -> m0 <= limit ->
  Z.of_nat (List.length file) < 80000000000 -> empty_line (m0 + Z.of_nat (List.length days)) line -> file_of days (line ++ more) file ->
  exists s' dates, load L limit str true buff s (Some (Some file)) fd = Ret (EOP_FILE_WRONG_FORMAT, s', dates) /\ nothing_loaded s'.
Proof.
intros f days m m0 tai L limit file str buff s fd line more FIN N1 LOK LIM SIZE EL FILE.
  destruct (load_core f days m m0 tai _ file L limit str buff s FIN FILE SIZE LOK LIM true fd) as (data & b & ini & jd0 & G & J & _ & LE).
  destruct (empty_facts _ line [] EL) as (_ & _ & _ & LL).
  destruct (size_facts f days m m0 tai _ file FIN FILE SIZE) as (S1 & S2 & S3 & S4 & S5). rewrite app_length, LL in S4.
  assert (K : exists k, Z.to_nat (Z.of_nat (List.length file) / 188 - Z.of_nat (List.length days)) = S k).
  { exists (Z.to_nat (Z.of_nat (List.length file) / 188 - Z.of_nat (List.length days) - 1)). assert (Z.of_nat (List.length days) + 1 <= Z.of_nat (List.length file) / 188) by (apply Z.div_le_lower_bound; lia). lia. }
  destruct K as (k & EK). rewrite EK in LE. cbn [read_lines] in LE. rewrite fgets_line in LE by apply EL. destruct (empty_facts _ line (skipn 189 b) EL) as (E16 & _).
  rewrite E16 in LE. cbn [Z.eqb Pos.eqb negb andb obind] in LE. cbv zeta in LE. rewrite (proj2 (Z.ltb_lt _ enough)) in LE by exact N1. cbn [EOP_FILE_WRONG_FORMAT Z.eqb negb] in LE.
  eexists. eexists. split; [exact LE|]. now apply null_nothing.
Qed.

Lemma C58_alloc_refuted_proof :
forall f days m m0 tai L limit file str buff s fd, iers_file f days m m0 tai L limit file ->
  exists s', load L limit str false buff s (Some (Some file)) fd = Ret (EOP_FILE_WRONG_FORMAT, s', []) /\ nothing_loaded s'.
Proof.
intros f days m m0 tai L limit file str buff s fd (FIN & N1 & LOK & LIM & SIZE & line & more & EL & FILE).
  destruct (load_core f days m m0 tai _ file L limit str buff s FIN FILE SIZE LOK LIM false fd) as (data & b & ini & jd0 & G & J & _ & LE).
  cbn [obind] in LE. cbv zeta in LE. cbn [Z.ltb Z.compare enough EOP_FILE_WRONG_FORMAT Z.eqb negb] in LE. eexists. split; [exact LE|]. now apply null_nothing.
Qed.

Lemma C58_far_refuted_proof :
forall f days m m0 tai L limit file str buff s fd, iers_file f days m m0 tai L limit file ->
  exists s' dates, load L limit str true buff s (Some (Some file)) fd = Ret (m0 + Z.of_nat (List.length days) - 1, s', dates) /\
    forall str jd mask, Z.testbit mask 0 = true -> (inject_Z (m0 + 2147483648) <= mjd_of jd)%Q \/ (mjd_of jd < inject_Z (m0 - 2147483648))%Q ->
      get_earth_orientation_params str s' jd true mask = UB.
Proof.
intros f days m m0 tai L limit file str buff s fd H. destruct (load_iers f days m m0 tai L limit file str buff s fd H) as (s' & x & _ & LD & (data & ED & _ & _ & _ & _ & J & _) & _).
  exists s'. eexists. split; [exact LD|]. intros str' jd mask M FAR. unfold get_earth_orientation_params. rewrite ED. cbn [get_loop]. rewrite M. unfold spline.
  assert (FI : floor_int (Q2R (jd - eop_jd0 s')) = UB).
  { assert (X : (jd - eop_jd0 s' == mjd_of jd - inject_Z m0)%Q) by (unfold mjd_of; rewrite J; ring). rewrite (Qeq_eqR _ _ X), Q2R_minus, Q2R_Z.
    unfold floor_int. set (z := (Q2R (mjd_of jd) - IZR m0)%R). pose proof (base_Int_part z) as (B1 & B2).
    destruct FAR as [F|F].
    - apply Qle_Rle in F. rewrite Q2R_Z, plus_IZR in F. assert (Q : (2147483647 < Int_part z)) by (apply lt_IZR; unfold z in *; Lra.lra). rewrite (proj2 (Z.leb_gt (Int_part z) _)), andb_false_r by exact Q. reflexivity.
    - apply Qlt_Rlt in F. rewrite Q2R_Z, minus_IZR in F. assert (Q : (Int_part z < - 2147483648)) by (apply lt_IZR; unfold z in *; Lra.lra). rewrite (proj2 (Z.leb_gt _ (Int_part z))) by exact Q. reflexivity. }
  rewrite FI. reflexivity.
Qed.

Lemma C58_null_refuted_proof :
forall str s jd mask, get_earth_orientation_params str s jd false mask = UB.
Proof.
intros str s jd mask. unfold get_earth_orientation_params. destruct (eop_data s); reflexivity.
Qed.
