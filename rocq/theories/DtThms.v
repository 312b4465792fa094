(** Theorems of C57 with their proofs; PropDt.v states them again. *)
From Coq Require Import QArith Qround Qabs Qreals Reals String Lia Lqa Lra.
From Verif Require Import CBase CLemmas CStr DateModel DateVocab DateSpec DatePure DateFacts TimeModel TimeSpec TimeProofs LeapProofs TimeThms TstrModel TstrSpec TstrNum DtModel DtSpec DtProofs DtTable DtUtc MarsThms.
Local Open Scope string_scope.
Local Open Scope list_scope.
Local Open Scope Z_scope.

Lemma plain0 : plain td_minus_dt_string0.
Proof. now left. Qed.

Lemma C57_table_proof :
forall jd y v w, observed y v -> observed (y + 2) w -> (inject_Z y <= year_of jd)%Q -> (year_of jd <= inject_Z (y + 2))%Q ->
  exists r, td_minus_ut td_minus_dt_string0 jd = Ret r /\
    (r == (inject_Z v + inject_Z (w - v) * ((year_of jd - inject_Z y) / 2)) / 100)%Q.
Proof.
intros jd y v w V W A B. destruct (observed_at y v V) as (k & Ek & ->). destruct (observed_at _ w W) as (k2 & Ek2 & E2). assert (k2 = S k) by lia. subst k2.
  assert (K : (S k < 203)%nat). { rewrite <- table_size. apply nth_error_Some. congruence. }
  assert (Qk : (inject_Z (1620 + 2 * Z.of_nat k) == 1620 + 2 * inject_Z (Z.of_nat k))%Q) by (rewrite inject_Z_plus, inject_Z_mult; reflexivity).
  rewrite inject_Z_plus in B. rewrite Qk in A, B. change (inject_Z 2) with 2%Q in B.
  destruct (table_between k jd ltac:(lia)) as (r & E & X); [rewrite half; Lqa.lra|rewrite half; Lqa.lra|].
  rewrite (ut_table _ jd plain0). 2:{ assert (0 <= inject_Z (Z.of_nat k))%Q by (change 0%Q with (inject_Z 0); rewrite <- Zle_Qle; lia). Lqa.lra. }
  exists r. split; [exact E|]. rewrite X, Qk. unfold value_at. rewrite (nth_value _ _ _ Ek), (nth_value _ _ _ Ek2). rewrite !half. unfold Qdiv. ring.
Qed.

Lemma C57_steady_proof :
forall jd1 jd2, (1620 <= year_of jd1)%Q -> (jd1 <= jd2)%Q -> (year_of jd2 <= 2024)%Q ->
  exists r1 r2, td_minus_ut td_minus_dt_string0 jd1 = Ret r1 /\ td_minus_ut td_minus_dt_string0 jd2 = Ret r2 /\
    (Qabs (r2 - r1) <= 9 * ((jd2 - jd1) / (7305 # 10)))%Q.
Proof.
intros j1 j2 A J B. pose proof (year_lin j1) as Y1. pose proof (year_lin j2) as Y2.
  destruct (interpolated j1 A ltac:(Lqa.lra)) as (k1 & r1 & K1 & L1 & H1 & E1 & V1). destruct (interpolated j2 ltac:(Lqa.lra) B) as (k2 & r2 & K2 & L2 & H2 & E2 & V2).
  exists r1, r2. rewrite !(ut_table _ _ plain0) by Lqa.lra. split; [exact E1|]. split; [exact E2|].
  pose proof (steady ((year_of j1 - 1620) / 2) k1 r1 ((year_of j2 - 1620) / 2) k2 r2 ltac:(rewrite !half; Lqa.lra) K1 K2 L1 H1 L2 H2 V1 V2) as S. rewrite !half in S.
  assert (D : ((j2 - j1) / (7305 # 10) == (j2 - j1) * (10 # 7305))%Q) by (unfold Qdiv; reflexivity). rewrite D. apply Qabs_Qle_condition. split; Lqa.lra.
Qed.

Lemma C57_future_proof :
forall jd, (2024 <= year_of jd)%Q -> (year_of jd < 4294968916)%Q ->
  exists r, td_minus_ut td_minus_dt_string0 jd = Ret r /\
    (r == (6918 # 100) + (6918 - 6929) / 100 * ((year_of jd - 2024) / 2) + (325 # 10) * ((year_of jd - 2024) / 100) ^ 2)%Q.
Proof.
intros jd A B. destruct (table_after jd) as (r & E & V); [rewrite half; Lqa.lra|rewrite half; Lqa.lra|]. exists r. rewrite (ut_table _ jd plain0) by Lqa.lra. split; [exact E|].
  rewrite V. rewrite !half. change ((year_of jd - 2024) / 100)%Q with ((year_of jd - 2024) * (1 # 100))%Q. change ((6918 - 6929) / 100)%Q with (-11 # 100). ring.
Qed.

Lemma C57_huge_refuted_proof :
forall jd, (4294968916 <= year_of jd)%Q -> td_minus_ut td_minus_dt_string0 jd = UB.
Proof.
intros jd A. rewrite (ut_table _ jd plain0) by Lqa.lra. unfold from_table, to_integer, chk. assert (T : IMAX < trunc ((year_of jd - 1620) / 2)).
  { assert (U : (2147483648 <= (year_of jd - 1620) / 2)%Q) by (rewrite half; Lqa.lra). destruct ((year_of jd - 1620) / 2)%Q as [n d]. unfold trunc. cbn [Qnum Qden]. unfold Qle in U. cbn [Qnum Qden] in U. rewrite Z.quot_div_nonneg by lia.
    assert (2147483648 <= n / Z.pos d) by (apply Z.div_le_lower_bound; lia). unfold IMAX. lia. }
  replace (in_rng IMAX (trunc ((year_of jd - 1620) / 2))) with false; [reflexivity|]. symmetry. unfold in_rng. apply andb_false_iff. right. apply Z.leb_gt. exact T.
Qed.

Lemma C57_past_proof :
forall jd a b o l, In (a, b, o, l) past_formulae -> (a <= year_of jd)%Q -> (year_of jd < b)%Q ->
  exists r, td_minus_ut td_minus_dt_string0 jd = Ret r /\ (r == poly l ((year_of jd - o) / 100))%Q.
Proof.
intros jd a b o l I A B. destruct (default_past (year_of jd) a b o l I A B) as (Y & v & E & V). exists v. split; [|exact V]. exact (ut_past _ jd v plain0 Y E).
Qed.

Lemma C57_jump_refuted_proof :
forall d, (0 < d)%Q -> (d <= 1)%Q -> exists r1 r2,
  td_minus_ut td_minus_dt_string0 (2312750 - d) = Ret r1 /\ td_minus_ut td_minus_dt_string0 2312750 = Ret r2 /\ (28 < r2 - r1)%Q.
Proof.
intros d A B. pose proof (year_lin (2312750 - d)) as Y.
  destruct (default_past (year_of (2312750 - d)) 1600 1620 1600 [120; -9808 # 100; -1532 # 10; 140272 # 1000]%Q) as (Yl & v & E & V).
  { unfold past_formulae. cbn [In]. right. right. right. now left. } { Lqa.lra. } { Lqa.lra. }
  exists v. eexists. split; [exact (ut_past _ _ v plain0 Yl E)|]. split; [vm_compute; reflexivity|]. rewrite V. cbn [poly].
  set (x := ((year_of (2312750 - d) - 1600) / 100)%Q). assert (X : (x == (year_of (2312750 - d) - 1600) * (1 # 100))%Q) by reflexivity.
  assert (X1 : (199 # 1000 <= x)%Q) by Lqa.lra. assert (X2 : (x <= 2 # 10)%Q) by Lqa.lra. clearbody x.
  clear - X1 X2. assert (X3 : ((199 # 1000) * (199 # 1000) <= x * x)%Q) by Lqa.nra. assert (X4 : (x * x <= (2 # 10) * (2 # 10))%Q) by Lqa.nra. assert (X5 : (x * (x * x) <= (2 # 10) * ((2 # 10) * (2 # 10)))%Q) by (apply (Qle_trans _ ((2 # 10) * (x * x))); [apply Qmult_le_compat_r; [assumption|Lqa.lra]|Lqa.lra]).
  match goal with |- (28 < ?q - _)%Q => assert (Eq : (q == 124)%Q) by reflexivity; rewrite Eq end.
  setoid_replace (120 + x * ((-9808 # 100) + x * ((-1532 # 10) + x * ((140272 # 1000) + x * 0))))%Q with (120 - (9808 # 100) * x - (1532 # 10) * (x * x) + (140272 # 1000) * (x * (x * x)))%Q by ring. Lqa.lra.
Qed.

Lemma C57_reset_proof :
forall jd, td_minus_ut (reset_td_minus_dt_string None) jd = td_minus_ut td_minus_dt_string0 jd /\
  td_minus_ut (reset_td_minus_dt_string (Some [])) jd = td_minus_ut td_minus_dt_string0 jd.
Proof.
intro jd. cbn [reset_td_minus_dt_string]. split; apply ut_reset.
Qed.

Lemma C57_string_proof :
forall ps s e jd, formulae_text ps s -> (e = [] \/ e = zs ";") ->
  (forall before p after, ps = before ++ p :: after -> covers (year_of jd) p -> (forall q, In q before -> ~ covers (year_of jd) q) ->
     exists r, td_minus_ut (reset_td_minus_dt_string (Some (s ++ e))) jd = Ret r /\ (r == formula_value (year_of jd) p)%Q) /\
  ((forall q, In q ps -> ~ covers (year_of jd) q) ->
     td_minus_ut (reset_td_minus_dt_string (Some (s ++ e))) jd = td_minus_ut td_minus_dt_string0 jd).
Proof.
intros ps s e jd F He. assert (R : reset_td_minus_dt_string (Some (s ++ e)) = Some (s ++ e)).
  { assert (N : s <> []). { apply formulae_are_read in F. destruct F as [p t F|p t ps u F _]; destruct (formula_chars p t F) as (N & _); [exact N|destruct t; [congruence|discriminate]]. }
    destruct s; [congruence|reflexivity]. }
  rewrite R. pose proof (string_run ps s e (year_of jd) (formulae_are_read ps s F) He) as S. split.
  - intros b p a -> C Nb. assert (Fd : find (coversb (year_of jd)) (b ++ p :: a) = Some p).
    { clear - C Nb. induction b as [|q b IH]; cbn [app find].
      - rewrite (proj2 (coversb_spec _ p) C). reflexivity.
      - rewrite (proj2 (covers_iff _ q)) by (apply Nb; now left). apply IH. intros; apply Nb; now right. }
    rewrite Fd in S. eexists. split; [unfold td_minus_ut, default_td_minus_ut; fold (year_of jd); rewrite S; reflexivity|]. rewrite added_poly. unfold formula_value, x_of. ring.
  - intros N. assert (Fd : find (coversb (year_of jd)) ps = None).
    { clear - N. induction ps as [|q ps IH]; cbn [find]; [reflexivity|]. rewrite (proj2 (covers_iff _ q)) by (apply N; now left). apply IH. intros; apply N; now right. }
    rewrite Fd in S. unfold td_minus_ut, default_td_minus_ut. fold (year_of jd). rewrite S. reflexivity.
Qed.

Lemma C57_string_refuted_proof :
td_minus_ut (reset_td_minus_dt_string (Some (zs "1900,2100:64,50 "))) 2451545 = UB /\
  (exists r, td_minus_ut (reset_td_minus_dt_string (Some (zs "1900,2100:64,5 "))) (24332825 # 10) = Ret r /\ (r == 64 + 5 * (- (1 # 2)) + 5 * (- (1 # 2)) ^ 2)%Q) /\
  (exists r, td_minus_ut (reset_td_minus_dt_string (Some (zs "1900,2100:64,5"))) (24332825 # 10) = Ret r /\ (r == 64 + 5 * (- (1 # 2)))%Q) /\
  td_minus_ut (reset_td_minus_dt_string (Some (zs "1900,2100"))) 2451545 = UB /\
  td_minus_ut (reset_td_minus_dt_string (Some (zs "1900,2100:o1950"))) 2451545 = UB.
Proof.
split; [vm_compute; reflexivity|]. split; [eexists; split; [vm_compute; reflexivity|reflexivity]|]. split; [eexists; split; [vm_compute; reflexivity|reflexivity]|]. split; vm_compute; reflexivity.
Qed.

Lemma C57_utc_sixties_proof :
forall f, gregorian_mjd f -> forall L limit str jd d, long_ok L -> In d drifts ->
  (inject_Z (f (1, month d, year d)%Z) <= mjd_of jd)%Q -> (mjd_of jd < inject_Z (f (1, next_month d, next_year d)%Z))%Q ->
  exists r, td_minus_utc L limit str jd = Ret r /\ (r == (32184 # 1000) + (constant d + (mjd_of jd - inject_Z (base d)) * rate d))%Q.
Proof.
exact utc_sixties.
Qed.

Lemma C57_utc_leap_proof :
forall f, gregorian_mjd f -> forall L limit str jd, long_ok L ->
  (inject_Z (f (1, 1, 1972)%Z) <= mjd_of jd)%Q -> (mjd_of jd < inject_Z (f (1, 12, 2021)%Z))%Q -> Qfloor (mjd_of jd) <= limit ->
  exists r, td_minus_utc L limit str jd = Ret r /\ (r == (32184 # 1000) + inject_Z (tai_minus_utc f (Qfloor (mjd_of jd))))%Q.
Proof.
intros f Hf L limit str jd HL A B C. day 1 1972 41317 Md1 f Hf L HL. day 12 2021 59549 Md2 f Hf L HL.
  assert (N1 : f (1, 1, 1972) <= Qfloor (mjd_of jd)) by (rewrite <- (Qfloor_Z (f (1, 1, 1972))); now apply Qfloor_resp_le).
  assert (N2 : Qfloor (mjd_of jd) < f (1, 12, 2021)) by (rewrite Zlt_Qlt; apply (Qle_lt_trans _ (mjd_of jd)); [apply Qfloor_le|exact B]).
  rewrite (utc_since f Hf) by (try assumption; unfold IMAX; lia). rewrite (C19_leap_seconds_proof f Hf) by (assumption || lia). cbn [obind]. eexists. split; [reflexivity|]. unfold tdt_minus_tai. ring.
Qed.

Lemma C57_utc_near_proof :
forall f, gregorian_mjd f -> forall L limit jd, long_ok L ->
  (inject_Z (f (1, 1, 1972)%Z) <= mjd_of jd)%Q -> (mjd_of jd < inject_Z (f (1, 12, 2021)%Z))%Q -> Qfloor (mjd_of jd) <= limit ->
  exists utc ut, td_minus_utc L limit td_minus_dt_string0 jd = Ret utc /\ td_minus_ut td_minus_dt_string0 jd = Ret ut /\
    (Qabs (utc - ut) < 9 # 10)%Q.
Proof.
intros f Hf L limit jd HL A B C. destruct (C57_utc_leap_proof f Hf L limit td_minus_dt_string0 jd HL A B C) as (r & E & V). rewrite (tai_minus_utc_count f _ Hf) in V.
  day 1 1972 41317 Md1 f Hf L HL. day 12 2021 59549 Md2 f Hf L HL.
  assert (N1 : f (1, 1, 1972) <= Qfloor (mjd_of jd)) by (rewrite <- (Qfloor_Z (f (1, 1, 1972))); now apply Qfloor_resp_le).
  assert (N2 : Qfloor (mjd_of jd) < f (1, 12, 2021)) by (rewrite Zlt_Qlt; apply (Qle_lt_trans _ (mjd_of jd)); [apply Qfloor_le|exact B]).
  rewrite H in *. rewrite H0 in *. set (n := Qfloor (mjd_of jd)) in *. pose proof (Qfloor_le (mjd_of jd)) as F1. pose proof (Qlt_floor (mjd_of jd)) as F2. fold n in F1, F2. rewrite inject_Z_plus in F2. change (inject_Z 1) with 1%Q in F2.
  change (inject_Z 41317) with 41317%Q in A. change (inject_Z 59549) with 59549%Q in B.
  pose proof (near_sweep n ltac:(rewrite Z2Nat.id by lia; lia)) as N. unfold near_at in N. set (j1 := day_jd n) in *.
  assert (J1 : (j1 == (24000005 # 10) + inject_Z n)%Q) by reflexivity. assert (J2 : (jd == (24000005 # 10) + mjd_of jd)%Q) by (unfold mjd_of; ring).
  pose proof (year_lin j1) as Y1. pose proof (year_lin jd) as Y2.
  assert (Q1 : (41317 <= inject_Z n)%Q) by (change 41317%Q with (inject_Z 41317); rewrite <- Zle_Qle; lia). assert (Q2 : (inject_Z n <= 59548)%Q) by (change 59548%Q with (inject_Z 59548); rewrite <- Zle_Qle; lia).
  destruct (interpolated j1 ltac:(Lqa.lra) ltac:(Lqa.lra)) as (k1 & r1 & K1 & L1 & H1 & E1 & V1). destruct (interpolated jd ltac:(Lqa.lra) ltac:(Lqa.lra)) as (k2 & r2 & K2 & L2 & H2 & E2 & V2).
  rewrite E1 in N. apply andb_true_iff in N. destruct N as (Na & Nb). apply Qle_bool_iff in Na, Nb.
  pose proof (steady ((year_of j1 - 1620) / 2) k1 r1 ((year_of jd - 1620) / 2) k2 r2 ltac:(rewrite !half; Lqa.lra) K1 K2 L1 H1 L2 H2 V1 V2) as S. rewrite !half in S.
  exists r, r2. split; [exact E|]. split; [rewrite (ut_table _ jd plain0) by Lqa.lra; exact E2|]. apply Qabs_Qlt_condition. split; Lqa.lra.
Qed.

Lemma C57_utc_predicted_proof :
forall f, gregorian_mjd f -> forall L limit str jd, long_ok L ->
  (inject_Z (f (1, 12, 2021)%Z) <= mjd_of jd)%Q -> Qfloor (mjd_of jd) <= 1000000000 -> f (1, 12, 2021) <= limit ->
  exists low high y, low <= Z.min (Qfloor (mjd_of jd)) limit < high /\
    ((low = f (1, 1, y) /\ high = f (1, 7, y)) \/ (low = f (1, 7, y) /\ high = f (1, 1, y + 1))) /\
    forall middle d, (mjd_of middle == (inject_Z low + inject_Z high) / 2)%Q -> (forall j, (j == middle)%Q -> exists d', td_minus_ut str j = Ret d' /\ (d' == d)%Q) ->
      exists r n, td_minus_utc L limit str jd = Ret r /\ (r == (32184 # 1000) + inject_Z n)%Q /\ (r - (1 # 2) <= d < r + (1 # 2))%Q.
Proof.
intros f Hf L limit str jd HL A B C. day 1 1972 41317 Md1 f Hf L HL. day 12 2021 59549 Md2 f Hf L HL.
  assert (N1 : f (1, 12, 2021) <= Qfloor (mjd_of jd)) by (rewrite <- (Qfloor_Z (f (1, 12, 2021))); now apply Qfloor_resp_le).
  destruct (C18_half_year_proof f Hf L limit (Qfloor (mjd_of jd)) HL N1 C ltac:(lia)) as (low & high & y & E & Lh & Hh). exists low, high, y. split; [exact Lh|]. split; [exact Hh|].
  intros middle d Mid Ut.
  assert (Bd : low + 400 >= high /\ 0 <= low).
  { assert (J : forall y, f (1, 1, y) = greg_ny y - 2400001).
    { intros y'. rewrite (mjd_unique f Hf) by (try rewrite greg_len_31 by (cbn; tauto); lia). rewrite greg_day_early by lia. lia. }
    assert (J7 : forall y, f (1, 7, y) = greg_ny (y + 1) - 184 - 2400001).
    { intros y'. rewrite (mjd_unique f Hf) by (try rewrite greg_len_31 by (cbn; tauto); lia). rewrite greg_day_late by lia. change (before_next 7) with 184. lia. }
    rewrite H0 in *. rewrite !J, !J7 in Hh. unfold greg_ny in Hh. split; lia. }
  destruct (Ut ((24000005 # 10) + inject_Z (low + high) * (1 # 2))%Q) as (d' & Ed & Vd).
  { rewrite inject_Z_plus. unfold mjd_of in Mid. rewrite half in Mid. Lqa.lra. }
  rewrite (utc_since f Hf) by (assumption || (rewrite H; rewrite H0 in A; unfold inject_Z in *; Lqa.lra) || (unfold IMAX; lia)). rewrite E. cbn [obind].
  rewrite ev_val by (cbn [safe val]; unfold fits, IMAX; rewrite H0 in *; repeat split; lia). cbn [val obind]. rewrite Ed. cbn [obind].
  eexists. exists (Qfloor (d' + (1 # 2) - tdt_minus_tai)). split; [reflexivity|]. split; [reflexivity|].
  pose proof (Qfloor_le (d' + (1 # 2) - tdt_minus_tai)) as F1. pose proof (Qlt_floor (d' + (1 # 2) - tdt_minus_tai)) as F2. rewrite inject_Z_plus in F2. change (inject_Z 1) with 1%Q in F2. split; Lqa.lra.
Qed.

Lemma C57_utc_before_proof :
forall f, gregorian_mjd f -> forall L limit str jd, long_ok L -> (mjd_of jd < inject_Z (f (1, 1, 1961)%Z))%Q -> td_minus_utc L limit str jd = td_minus_ut str jd.
Proof.
exact utc_early.
Qed.

Lemma C57_tdb_proof :
forall t, (Rabs (tdb_minus_tdt t) < 2 / 1000)%R.
Proof.
intro t. apply (Rle_lt_trans _ _ _ (tdb_bound t)). lra.
Qed.

Lemma C57_tdb_refuted_proof :
forall L limit str, long_ok L -> 51638 <= limit ->
  exists d r, td_minus_utc L limit str 2451639 = Ret d /\ tdb_minus_utc L limit str 2451639 = Ret r /\
    (r + 16 / 10000 < tdb_minus_tdt (94 / 36525) + Q2R d)%R.
Proof.
intros L limit str HL Hl. destruct C19_numbering_exists_proof as ((f & Hf) & _ & _). day 1 1972 41317 Md1 f Hf L HL. day 12 2021 59549 Md2 f Hf L HL.
  destruct (C57_utc_leap_proof f Hf L limit str 2451639 HL) as (d & E & V); [rewrite H; vm_compute; discriminate|rewrite H0; reflexivity|exact Hl|].
  exists d. eexists. split; [exact E|]. unfold tdb_minus_utc. rewrite E. cbn [obind]. split; [reflexivity|].
  assert (T : Q2R ((2451639 - 2451545) / 36525) = (94 / 36525)%R) by (unfold Q2R; cbn; lra). rewrite T. set (x := tdb_minus_tdt (94 / 36525)).
  assert (X : (16083 / 10000000 < x)%R).
  { unfold x, tdb_minus_tdt, tdb_terms. cbn [fold_left].
    assert (S1 : (1 - 2 / 10000 <= sin (62830758494 / 10 ^ 8 * (94 / 36525) + 62400497 / 10 ^ 7))%R).
    { set (a := (62830758494 / 10 ^ 8 * (94 / 36525) + 62400497 / 10 ^ 7)%R). assert (A : (78570 / 10000 < a < 78571 / 10000)%R) by (unfold a; lra). clearbody a. pose proof PI_lo_hi as P.
      replace a with ((a - 5 * (PI / 2)) + PI / 2 + 2 * PI)%R by field. rewrite (sin_period (a - 5 * (PI / 2) + PI / 2) 1) || (replace (a - 5 * (PI / 2) + PI / 2 + 2 * PI)%R with (a - 5 * (PI / 2) + PI / 2 + 2 * INR 1 * PI)%R by (cbn; ring); rewrite (sin_period (a - 5 * (PI / 2) + PI / 2) 1)). rewrite sin_plus, sin_PI2, cos_PI2. pose proof (cos_lower (a - 5 * (PI / 2))) as C. nra. }
    repeat match goal with |- context [(?a * sin ?x)%R] => match a with (16566894 / _)%R => fail 1 | _ => pose proof (term_bound a x ltac:(lra)); generalize dependent (a * sin x)%R; intros end end.
    lra. }
  unfold seconds_per_day. lra.
Qed.
