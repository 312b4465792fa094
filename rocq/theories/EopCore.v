(** The whole of load_earth_orientation_params( ), and the histories of calls. *)
From Coq Require Import QArith Qround Qabs Qreals Reals String Lia Lqa Lra.
From Verif Require Import RBase CBase CLemmas CStr DateModel DateVocab DateSpec TimeModel TimeSpec TstrModel TstrSpec TstrNum DtModel DtSpec DtThms CodeThms SplineModel RotModel EopModel EopSpec EopProofs EopLoad EopGet EopVocab.
From Verif Require MpcfModel SofModel.
Import ListNotations.
Local Open Scope list_scope.
Local Open Scope Z_scope.

Lemma concat_length days lines : Forall2 day_line days lines -> Z.of_nat (List.length (concat lines)) = 188 * Z.of_nat (List.length days).
Proof.
  induction 1 as [|d l days lines DL F IH]; [reflexivity|]. cbn [concat List.length]. rewrite app_length. destruct DL as ((u & _ & L & _) & _). lia.
Qed.
Lemma good0 days tai m size : 0 <= size -> good days tai m size 0 (repeat 0%R (Z.to_nat (size * 5))).
Proof. intros H. split; [rewrite repeat_length; lia|]. intros; lia. Qed.
Lemma chk_in L z : Z.abs z <= L -> chk L z = Ret z.
Proof. intros H. apply chk_ok. unfold fits. lia. Qed.

(** what is read from the file before the loop *)
Lemma initial_ok f L limit str m0 q : gregorian_mjd f -> long_ok L -> f (1, 1, 1972) <= m0 < f (1, 12, 2021) -> m0 <= limit -> (q == inject_Z m0)%Q ->
  exists r, td_minus_utc L limit str (q + (24000005 # 10) + (1 # 10))%Q = Ret r /\ (r == (32184 # 1000) + inject_Z (tai_minus_utc f m0))%Q.
Proof.
  intros Hf HL (A & B) Lm Q. set (jd := (q + (24000005 # 10) + (1 # 10))%Q).
  assert (J : (mjd_of jd == inject_Z m0 + (1 # 10))%Q) by (unfold mjd_of, jd; rewrite Q; ring).
  assert (F : Qfloor (mjd_of jd) = m0) by (rewrite (Qfloor_comp _ _ J); apply floor_part; split; reflexivity || discriminate).
  destruct (C57_utc_leap_proof f Hf L limit str jd HL) as (r & E & V).
  - rewrite J. rewrite Zle_Qle in A. Lqa.lra.
  - rewrite J. assert (B' : m0 + 1 <= f (1, 12, 2021)) by lia. rewrite Zle_Qle, inject_Z_plus in B'. change (inject_Z 1) with 1%Q in B'. Lqa.lra.
  - lia.
  - exists r. split; [exact E|]. rewrite F in V. exact V.
Qed.

Section Whole.
Variables (f : date -> Z) (days : list day) (m : nat) (m0 : Z) (tai : nat -> Z) (tail file : list Z) (L limit : Z) (str : option (list Z)) (buff : list Z) (s : statics).
Hypothesis FIN : finals f days m m0 tai.
Hypothesis FILE : file_of days tail file.
Hypothesis SIZE : Z.of_nat (List.length file) < 80000000000.
Hypothesis LOK : long_ok L.
Hypothesis LIM : m0 <= limit.
Let n := Z.of_nat (List.length days).
Let size := Z.of_nat (List.length file) / 188.

Lemma size_facts : n <= size /\ 0 <= size /\ size * 5 <= 2147483647 /\ Z.of_nat (List.length file) = 188 * n + Z.of_nat (List.length tail) /\ 1 <= n.
Proof.
  destruct FILE as (lines & F & E). pose proof (concat_length _ _ F) as CL. rewrite E, app_length in *. fold n in CL.
  assert (N1 : 1 <= n). { destruct FIN as (_ & (_ & d & N & _) & _). unfold n. destruct days; [discriminate|cbn; lia]. }
  unfold size. repeat split; try lia; rewrite E, app_length in *; Z.to_euclidean_division_equations; lia.
Qed.

(** the loop leaves the days in the columns, then reads [tail] *)
Lemma load_core alloc fd : exists data b initial jd0, good days tai m size (List.length days) data /\ (jd0 == inject_Z m0 + (24000005 # 10))%Q /\
  (exists d line r, nth_error days (List.length days - 1) = Some d /\ day_line d line /\ b = line ++ 0 :: r) /\
  load L limit str alloc buff s (Some (Some file)) fd =
    (do '(i, nutation, data, buff, date) <-
       (if alloc then read_lines (Z.to_nat (size - n)) fd size n initial tail b data (Z.of_nat m) (if fd then last_observed days else None)
        else Ret (0, 0, repeat 0%R (Z.to_nat (size * 5)), b, None));
     let written := match date with Some d => [d] | None => [] end in
     let rval := if i <? enough then EOP_FILE_WRONG_FORMAT else if alloc then 0 else EOP_ALLOC_FAILED in
     if negb (rval =? 0) then Ret (rval, mk_statics None jd0 size i nutation, written)
     else do k <- SofModel.atoi (text buff 7); do rval <- chk IMAX (k - 1); Ret (rval, mk_statics (Some data) jd0 size i nutation, written)).
Proof.
  destruct size_facts as (S1 & S2 & S3 & S4 & S5).
  destruct FIN as (Hf & (_ & d0 & N0 & M0 & O0) & NUT & LEAP & RANGE & T0).
  destruct FILE as (lines & F & E).
  assert (EX : exists l0 lines' days', lines = l0 :: lines' /\ days = d0 :: days' /\ day_line d0 l0).
  { destruct days as [|d ds]; [discriminate|]. cbn in N0. injection N0 as ->. inversion F; subst. eauto 6. }
  destruct EX as (l0 & lines' & days' & El & Ed & DL).
  set (b1 := l0 ++ 0 :: skipn 189 buff).
  destruct (line_facts d0 l0 (skipn 189 buff) DL) as (V & FL & _ & _ & _ & (q & AF & Q) & _). fold b1 in V, FL, AF. rewrite O0 in FL. rewrite M0 in Q.
  destruct (initial_ok f L limit str m0 q Hf LOK RANGE LIM Q) as (ini & EI & VI). rewrite <- T0 in VI.
  assert (FG : fgets file buff = Some (b1, concat lines' ++ tail)). { rewrite E, El. cbn [concat]. rewrite <- app_assoc. apply fgets_line. apply DL. }
  destruct (lines_ok days tai m size ini LEAP NUT VI days [] lines (Z.to_nat (size - n)) fd tail b1 (repeat 0%R (Z.to_nat (size * 5))) 0 None eq_refl F S1 (good0 _ _ _ _ S2)) as (data & b' & RL & G & _ & LASTL).
  assert (B' : exists d line r, nth_error days (List.length days - 1) = Some d /\ day_line d line /\ b' = line ++ 0 :: r).
  { destruct (exists_last (l := days)) as (p & d & Ep); [intros Ex; rewrite Ex in Ed; discriminate|].
    destruct (LASTL d) as (line & r & H1 & H2); [rewrite Ep, map_app; apply last_last|]. exists d, line, r. split; [|now split].
    rewrite Ep, app_length. cbn [List.length]. replace (List.length p + 1 - 1)%nat with (List.length p) by lia. rewrite nth_error_app2, Nat.sub_diag by lia. reflexivity. }
  destruct alloc.
  - exists data, b', ini, (q + (24000005 # 10))%Q. split; [exact G|]. split; [rewrite Q; reflexivity|]. split; [exact B'|].
    unfold load, load_earth_orientation_params. rewrite FG, V, FL. cbn [negb orb Z.eqb Pos.eqb]. rewrite AF. cbn [obind]. rewrite EI. cbn [obind].
    change eop_iline_len with 188. fold size. rewrite chk_in by (change IMAX with 2147483647; lia). cbn [obind]. rewrite chk_in by (change IMAX with 2147483647; lia). cbn [obind]. cbv zeta.
    replace (Z.to_nat size) with (List.length days + Z.to_nat (size - n))%nat by lia. cbn [List.length Z.of_nat] in RL. 
    rewrite E. rewrite RL. rewrite Z.add_0_l, (nut_count_days days m NUT). fold n.
    replace (if fd then later None (last_observed days) else None) with (if fd then last_observed days else None) by (destruct fd, (last_observed days); reflexivity).
    reflexivity.
  - exists data, b', ini, (q + (24000005 # 10))%Q. split; [exact G|]. split; [rewrite Q; reflexivity|]. split; [exact B'|].
    unfold load, load_earth_orientation_params. rewrite FG, V, FL. cbn [negb orb Z.eqb Pos.eqb]. rewrite AF. cbn [obind]. rewrite EI. cbn [obind].
    change eop_iline_len with 188. fold size. rewrite chk_in by (change IMAX with 2147483647; lia). cbn [obind]. rewrite chk_in by (change IMAX with 2147483647; lia). cbn [obind]. cbv zeta. reflexivity.
Qed.
End Whole.

(** ---- requests ---- *)
Lemma check_true b : b = true -> check b = Ret tt.
Proof. intros ->. reflexivity. Qed.
Lemma Rltb_t x y : (x < y)%R -> Rltb x y = true.
Proof. intros H. destruct (Rltb_spec x y); [reflexivity|contradiction]. Qed.
Lemma Rltb_f x y : ~ (x < y)%R -> Rltb x y = false.
Proof. intros H. destruct (Rltb_spec x y); [contradiction|reflexivity]. Qed.
Lemma Q2R_lt1 q : (0 <= q < 1)%Q -> (0 <= Q2R q < 1)%R.
Proof.
  intros (A & B). apply Qle_Rle in A. apply Qlt_Rlt in B. replace (Q2R 0) with 0%R in A by (unfold Q2R; cbn; lra). replace (Q2R 1) with 1%R in B by (unfold Q2R; cbn; lra). Lra.lra.
Qed.

Lemma loaded_serves days tai m m0 s : loaded days tai m m0 s -> serves days m m0 tai s.
Proof.
  intros (data & D & G & U & UN & M & J & S) str jd mask K t MJ T B.
  assert (X : Q2R (jd - eop_jd0 s) = (IZR K + Q2R t)%R).
  { rewrite <- (Q2R_Z K), <- Q2R_plus. apply Qeq_eqR. rewrite J. unfold mjd_of in MJ. rewrite inject_Z_plus in MJ.
    assert (E : (jd == (24000005 # 10) + (inject_Z m0 + inject_Z K + t))%Q) by (rewrite <- MJ; ring). rewrite E. ring. }
  destruct (loop_ok days tai m s data G U UN M S mask K (Q2R t) _ X (Q2R_lt1 t T) B) as (rval & p & A & EL).
  exists rval, p. split.
  { unfold answer in *. destruct A as (A1 & A2). split; [exact A1|]. intros i I. specialize (A2 i I). unfold count_of in A2. destruct (i <? 3)%nat; exact A2. }
  assert (AS : arcsec_to_radians = arcsec) by apply arcsec_same.
  assert (MS : forall x, (x * marcsec_to_radians = x / 1000 * arcsec)%R) by apply marcsec_same.
  assert (PRE : usual p -> get_earth_orientation_params str s jd true mask =
    do t <- (if Z.testbit mask 2 && Reqb (p 2%nat) 0 then do d <- DtModel.default_td_minus_ut str jd; Ret (Q2R d) else Ret (p 2%nat)); Ret (rval, mk_params (p 0%nat) (p 1%nat) t (p 3%nat) (p 4%nat))).
  { intros ((P1 & P2) & (P3 & P4) & (P5 & P6) & (P7 & P8)). unfold get_earth_orientation_params. rewrite D. rewrite EL. cbn [obind negb nth dX dY tdt_minus_ut1 dPsi dEps]. rewrite AS, !MS.
    rewrite !Rltb_t by Lra.lra. cbn [check obind]. reflexivity. }
  split; [|split].
  - intros H C. rewrite (PRE H). replace (Z.testbit mask 2 && Reqb (p 2%nat) 0) with false; [reflexivity|]. destruct C as [->|C]; [reflexivity|]. destruct (Reqb_spec (p 2%nat) 0); [contradiction|]. now rewrite andb_false_r.
  - intros H C C0 d Hd. rewrite (PRE H), C, C0. destruct (Reqb_spec 0 0); [|congruence]. cbn [andb]. unfold td_minus_ut in Hd. rewrite Hd. reflexivity.
  - intros H. unfold get_earth_orientation_params. rewrite D. rewrite EL. cbn [obind negb nth dX dY tdt_minus_ut1 dPsi dEps]. rewrite AS, !MS.
    unfold usual in H.
    repeat match goal with |- context[Rltb ?a ?b] => destruct (Rltb_spec a b); cbn [check obind]; [|reflexivity] end.
    exfalso. apply H. repeat split; Lra.lra.
Qed.

Lemma null_nothing s : eop_data s = None -> nothing_loaded s.
Proof.
  intros E.
  assert (PI0 : (0 < PI)%R) by apply PI_RGT_0.
  assert (A0 : (0 < arcsec_to_radians)%R) by (unfold arcsec_to_radians; apply Rdiv_lt_0_compat; Lra.lra).
  assert (M0 : (0 < marcsec_to_radians)%R) by (unfold marcsec_to_radians; apply Rdiv_lt_0_compat; Lra.lra).
  assert (PRE : forall str jd mask, get_earth_orientation_params str s jd true mask =
    do t <- (if Z.testbit mask 2 then do d <- DtModel.default_td_minus_ut str jd; Ret (Q2R d) else Ret 0%R); Ret (-1, mk_params 0%R 0%R t 0%R 0%R)).
  { intros. unfold get_earth_orientation_params. rewrite E. cbn [obind negb nth dX dY tdt_minus_ut1 dPsi dEps]. rewrite !Rltb_t by Lra.nra. cbn [check obind].
    destruct (Reqb_spec 0 0); [|congruence]. rewrite andb_true_r. reflexivity. }
  split; [|split].
  - intros str jd mask C. rewrite PRE, C. reflexivity.
  - intros str jd mask d C Hd. rewrite PRE, C. unfold td_minus_ut in Hd. rewrite Hd. reflexivity.
  - intros. unfold load, load_earth_orientation_params. now rewrite E.
Qed.

(** ---- any file ---- *)
Lemma put_length data i v data' : put data i v = Ret data' -> List.length data' = List.length data.
Proof.
  unfold put. destruct (Z.leb_spec 0 i), (Z.ltb_spec i (Z.of_nat (List.length data))); cbn [andb]; try discriminate. intros E.
  assert (E' : data' = firstn (Z.to_nat i) data ++ v :: skipn (S (Z.to_nat i)) data) by congruence. rewrite E', app_length, firstn_length. cbn [List.length]. rewrite skipn_length. lia.
Qed.
Ltac step := match goal with |- context[obind ?a _] => let E := fresh "E" in destruct a eqn:E; cbn [obind]; try discriminate end.
Lemma store_length size i ini b data nut data' nut' : store_line size i ini b data nut = Ret (data', nut') ->
  List.length data' = List.length data /\ (nut' = nut \/ nut' = nut + 1).
Proof.
  unfold store_line. step. step. step. step. step. cbv zeta. step. step.
  apply put_length in E0, E2, E5. destruct (negb (nth 95 b 0 =? 32)).
  - step. step. step. step. apply put_length in E7, E9. intros H. injection H as <- <-. split; [congruence|now right].
  - intros H. injection H as <- <-. split; [congruence|now left].
Qed.
Lemma read_bounds k : forall fd size i ini file b data nut date i' nut' data' b' date', 
  read_lines k fd size i ini file b data nut date = Ret (i', nut', data', b', date') -> 0 <= nut <= i ->
  i <= i' <= i + Z.of_nat k /\ 0 <= nut' <= i' /\ List.length data' = List.length data.
Proof.
  induction k as [|k IH]; intros until date'; cbn [read_lines].
  - intros E H. injection E as <- <- <- <- <-. lia.
  - destruct (fgets file b) as [(b1, file1)|]; [|intros E H; injection E as <- <- <- <- <-; lia].
    destruct (negb (nth 16 b1 0 =? 32) && is_valid_eop_line b1); [|intros E H; injection E as <- <- <- <- <-; lia].
    destruct (store_line size i ini b1 data nut) as [(data1, nut1)| | |] eqn:ES; cbn [obind]; try discriminate. apply store_length in ES.
    step. intros R H. apply IH in R; [|lia]. lia.
Qed.
Definition sound (s : statics) : Prop := forall data, eop_data s = Some data ->
  List.length data = Z.to_nat (5 * eop_size s) /\ 0 <= eop_usable_nutation s <= eop_usable s /\ 16371 <= eop_usable s <= eop_size s.
Lemma load_sound L limit str alloc buff s filename fd rval s' dates : sound s -> load L limit str alloc buff s filename fd = Ret (rval, s', dates) -> sound s'.
Proof.
  intros S. unfold load, load_earth_orientation_params. destruct filename as [[file|]|].
  - destruct (fgets file buff) as [(b, r)|]; [|intros E; injection E as _ <- _; intros data D; discriminate].
    destruct (negb (is_valid_eop_line b) || negb (nth 16 b 0 =? 73)); [intros E; injection E as _ <- _; intros data D; discriminate|].
    step. step. step. unfold chk in E1. destruct (in_rng IMAX _); [|discriminate]. injection E1 as <-.
    step. unfold chk in E1. destruct (in_rng IMAX _); [|discriminate]. injection E1 as <-. cbv zeta.
    set (size := Z.of_nat (Datatypes.length file) / eop_iline_len) in *.
    assert (S0 : 0 <= size) by (unfold size; apply Z.div_pos; [lia|reflexivity]).  clearbody size.
    destruct alloc.
    + destruct (read_lines _ _ _ _ _ _ _ _ _ _) as [((((i, nut), data), b'), date)| | |] eqn:ER; cbn [obind]; try discriminate. apply read_bounds in ER; [|lia]. rewrite repeat_length in ER.
      unfold enough. destruct (Z.ltb_spec i 16371) as [H|H].
      * cbn [Z.eqb Pos.eqb negb]. change (EOP_FILE_WRONG_FORMAT =? 0) with false. cbn [negb]. intros E1; injection E1 as _ <- _; intros d D; discriminate.
      * cbn [Z.eqb negb]. step. step. intros E3; injection E3 as _ <- _; intros d D. cbn [eop_data eop_size eop_usable eop_usable_nutation] in D |- *. injection D as <-. lia.
    + cbn [obind]. change (0 <? enough) with true. cbv iota. change (EOP_FILE_WRONG_FORMAT =? 0) with false. cbn [negb]. intros E1; injection E1 as _ <- _; intros d D; discriminate.
  - intros E; injection E as _ <- _; intros data D; discriminate.
  - destruct fd.
    + destruct (eop_data s) as [data|] eqn:D; [|intros E; injection E as _ <- _; exact S]. step. step. step. intros E2; injection E2 as _ <- _; exact S.
    + intros E; injection E as _ <- _; intros data D; discriminate.
Qed.
Lemma history_sound s : history s -> sound s.
Proof. induction 1 as [|s L limit str alloc buff filename fd rval s' dates H IH E]; [intros data D; discriminate|]. eapply load_sound; eassumption. Qed.

Lemma sound_loop s data x mask K t : sound s -> eop_data s = Some data -> x = (IZR K + t)%R -> (0 <= t < 1)%R -> -2147483648 <= K <= 2147483647 ->
  forall k i rval, (Z.of_nat k + i = 5) -> 0 <= i -> exists rval' l, get_loop k i s data x mask rval = Ret (rval', l).
Proof.
  intros S D X T B. destruct (S data D) as (LD & UB1 & UB2). induction k as [|k IH]; intros i rval Hk Hi; [cbn; eauto|]. cbn [get_loop].
  assert (Hs : exists a b, (if Z.testbit mask i then
     do '(result, t_rval) <- spline data (eop_size s * i) (if i <? 3 then eop_usable s else eop_usable_nutation s) x;
     if negb (t_rval =? 0) then Ret (Z.lor rval (2 ^ i), 0%R) else Ret (rval, result)
   else Ret (rval, 0%R)) = Ret (a, b)).
  { destruct (Z.testbit mask i); [|eauto]. set (n := if i <? 3 then eop_usable s else eop_usable_nutation s).
    assert (N : 0 <= n <= eop_size s) by (unfold n; destruct (i <? 3); lia).
    assert (N3 : (Z.to_nat i < 3)%nat -> 4 <= n) by (intros; unfold n; rewrite (proj2 (Z.ltb_lt i 3)) by lia; lia).
    replace (eop_size s * i) with (eop_size s * Z.of_nat (Z.to_nat i)) by (f_equal; lia).
    assert (IN : {1 <= K <= n - 3} + {~ (1 <= K <= n - 3)}) by (destruct (Z_le_dec 1 K), (Z_le_dec K (n - 3)); (left; lia) || (right; lia)).
    destruct IN as [IN|IN].
    - destruct (spline_in data (eop_size s) (Z.to_nat i) n K t x (EopLoad.cell data (eop_size s) (Z.to_nat i)) X T B) as (r & -> & _); try assumption; try lia; [reflexivity|]. cbn [obind]. destruct (negb (0 =? 0)); eauto.
    - destruct (spline_out data (eop_size s) (Z.to_nat i) n K t x X T B) as (r & e & -> & _); try assumption; try lia. cbn [obind]. destruct (negb (e =? 0)); eauto. }
  destruct Hs as (a & b & ->). cbn [obind]. destruct (IH (i + 1) a ltac:(lia) ltac:(lia)) as (rv & l & ->). cbn [obind]. eauto.
Qed.
