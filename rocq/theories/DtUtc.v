(** Proofs about delta_t.cpp: TD - UT as a function of time, TD - UTC, TDB - TD. *)
From Coq Require Import QArith Qround Qabs Qreals Reals Lia Lqa Lra.
From Coq Require Import String.
From Verif Require Import CBase CLemmas CStr DateModel DateVocab DateSpec DatePure DateFacts TimeModel TimeSpec LeapProofs TimeThms TstrModel TstrSpec TstrNum DtModel DtSpec DtProofs DtTable.
Local Open Scope string_scope.
Local Open Scope list_scope.
Local Open Scope Z_scope.

(** ---- which of the three is used ---- *)
(** no formulae of the user *)
Definition plain (str : option (list Z)) : Prop := str = td_minus_dt_string0 \/ str = reset_td_minus_dt_string None.
Lemma ut_table str jd : plain str -> (1620 <= year_of jd)%Q -> td_minus_ut str jd = from_table (year_of jd) jd.
Proof.
  intros P Y. unfold td_minus_ut, default_td_minus_ut. fold (year_of jd). assert (A : (match str with Some s => evaluate_delta_t_string (year_of jd) s | None => Ret None end) = Ret None).
  { destruct P as [->| ->]; [reflexivity|]. cbn [reset_td_minus_dt_string]. now apply default_none. }
  rewrite A. cbn [obind]. rewrite (proj2 (qlt_false (year_of jd) 1620) Y). reflexivity.
Qed.
Lemma ut_past str jd v : plain str -> (year_of jd < 1620)%Q -> evaluate_delta_t_string (year_of jd) default_delta_t_string = Ret (Some v) -> td_minus_ut str jd = Ret v.
Proof.
  intros P Y E. unfold td_minus_ut, default_td_minus_ut. fold (year_of jd). destruct P as [->| ->].
  - cbn [td_minus_dt_string0 obind]. rewrite (proj2 (qlt_spec (year_of jd) 1620) Y), E. reflexivity.
  - cbn [reset_td_minus_dt_string]. rewrite E. reflexivity.
Qed.
Lemma ut_reset jd : td_minus_ut (Some default_delta_t_string) jd = td_minus_ut None jd.
Proof.
  unfold td_minus_ut, default_td_minus_ut. cbn [obind]. fold (year_of jd). destruct (qlt (year_of jd) 1620) eqn:Q.
  - rewrite default_eval. destruct (find _ _) as [p|]; reflexivity.
  - rewrite (default_none (year_of jd)) by now apply qlt_false. reflexivity.
Qed.

(** ---- the table changes by at most 9 s in 2 years ---- *)
Definition T (k : nat) : Q := inject_Z (value_at k).
Lemma step_900 k : (k <= 201)%nat -> (- (900) <= T (S k) - T k <= 900)%Q.
Proof.
  intro H. assert (A : forallb (fun k => (-900 <=? value_at (S k) - value_at k) && (value_at (S k) - value_at k <=? 900))%bool (seq 0 202) = true) by (vm_compute; reflexivity).
  rewrite forallb_forall in A. specialize (A k ltac:(apply in_seq; lia)). rewrite andb_true_iff, !Z.leb_le in A. unfold T.
  setoid_replace (inject_Z (value_at (S k)) - inject_Z (value_at k))%Q with (inject_Z (value_at (S k) - value_at k)) by (unfold Z.sub; rewrite inject_Z_plus, inject_Z_opp; reflexivity).
  change (- (900))%Q with (inject_Z (-900)). change 900%Q with (inject_Z 900). rewrite <- !Zle_Qle. lia.
Qed.
Lemma steps_900 i n : (i + n <= 202)%nat -> (- (900) * inject_Z (Z.of_nat n) <= T (i + n) - T i <= 900 * inject_Z (Z.of_nat n))%Q.
Proof.
  induction n as [|n IH]; intro H; [rewrite Nat.add_0_r; change (inject_Z (Z.of_nat 0)) with 0%Q; split; Lqa.lra|].
  specialize (IH ltac:(lia)). pose proof (step_900 (i + n) ltac:(lia)) as S. rewrite Nat.add_succ_r, Nat2Z.inj_succ. unfold Z.succ. rewrite inject_Z_plus. change (inject_Z 1) with 1%Q. split; Lqa.lra.
Qed.
Lemma mul_bound a x : (- (900) <= a <= 900)%Q -> (0 <= x)%Q -> (- (900) * x <= a * x <= 900 * x)%Q.
Proof. intros (A & B) X. split; apply Qmult_le_compat_r; assumption. Qed.
Lemma place u : (0 <= u)%Q -> (u <= 202)%Q -> exists k, (k <= 201)%nat /\ (inject_Z (Z.of_nat k) <= u)%Q /\ (u <= inject_Z (Z.of_nat k) + 1)%Q.
Proof.
  intros A B. destruct (Qlt_le_dec u 202) as [L|L].
  - pose proof (Qfloor_le u) as F1. pose proof (Qlt_floor u) as F2. assert (P : 0 <= Qfloor u) by (change 0 with (Qfloor 0); now apply Qfloor_resp_le).
    assert (Q : Qfloor u < 202). { rewrite Zlt_Qlt. apply (Qle_lt_trans _ u); assumption. }
    exists (Z.to_nat (Qfloor u)). rewrite Z2Nat.id by assumption. split; [lia|]. split; [assumption|]. rewrite inject_Z_plus in F2. change (inject_Z 1) with 1%Q in F2. Lqa.lra.
  - exists 201%nat. split; [lia|]. change (inject_Z (Z.of_nat 201)) with 201%Q. split; Lqa.lra.
Qed.
Lemma interpolated jd : (1620 <= year_of jd)%Q -> (year_of jd <= 2024)%Q -> let u := ((year_of jd - 1620) / 2)%Q in
  exists k r, (k <= 201)%nat /\ (inject_Z (Z.of_nat k) <= u)%Q /\ (u <= inject_Z (Z.of_nat k) + 1)%Q /\ from_table (year_of jd) jd = Ret r /\ (r * 100 == T k + (T (S k) - T k) * (u - inject_Z (Z.of_nat k)))%Q.
Proof.
  intros A B u. destruct (place u) as (k & K & L & H); [unfold u; rewrite half; Lqa.lra|unfold u; rewrite half; Lqa.lra|].
  destruct (table_between k jd K L H) as (r & E & V). exists k, r. repeat (split; [assumption|]). rewrite V. unfold T, Z.sub. rewrite inject_Z_plus, inject_Z_opp. fold u. field.
Qed.
Lemma steady u1 k1 r1 u2 k2 r2 : (u1 <= u2)%Q -> (k1 <= 201)%nat -> (k2 <= 201)%nat ->
  (inject_Z (Z.of_nat k1) <= u1)%Q -> (u1 <= inject_Z (Z.of_nat k1) + 1)%Q -> (inject_Z (Z.of_nat k2) <= u2)%Q -> (u2 <= inject_Z (Z.of_nat k2) + 1)%Q ->
  (r1 * 100 == T k1 + (T (S k1) - T k1) * (u1 - inject_Z (Z.of_nat k1)))%Q -> (r2 * 100 == T k2 + (T (S k2) - T k2) * (u2 - inject_Z (Z.of_nat k2)))%Q ->
  (- (9) * (u2 - u1) <= r2 - r1 <= 9 * (u2 - u1))%Q.
Proof.
  intros U K1 K2 L1 H1 L2 H2 V1 V2. destruct (lt_eq_lt_dec k1 k2) as [[Lt|E]|Gt].
  - pose proof (mul_bound _ (u2 - inject_Z (Z.of_nat k2)) (step_900 k2 K2) ltac:(Lqa.lra)) as B2.
    pose proof (mul_bound _ (inject_Z (Z.of_nat k1) + 1 - u1) (step_900 k1 K1) ltac:(Lqa.lra)) as B1.
    pose proof (steps_900 (S k1) (k2 - S k1) ltac:(lia)) as B. replace (S k1 + (k2 - S k1))%nat with k2 in B by lia.
    assert (N : (inject_Z (Z.of_nat (k2 - S k1)) == inject_Z (Z.of_nat k2) - inject_Z (Z.of_nat k1) - 1)%Q).
    { rewrite Nat2Z.inj_sub by lia. rewrite Nat2Z.inj_succ. unfold Z.sub, Z.succ. rewrite inject_Z_plus, inject_Z_opp, inject_Z_plus. change (inject_Z 1) with 1%Q. ring. }
    rewrite N in B. assert (X : (r1 * 100 == T (S k1) - (T (S k1) - T k1) * (inject_Z (Z.of_nat k1) + 1 - u1))%Q) by (rewrite V1; ring). split; Lqa.lra.
  - subst k2. pose proof (mul_bound _ (u2 - u1) (step_900 k1 K1) ltac:(Lqa.lra)) as B.
    assert (X : ((r2 - r1) * 100 == (T (S k1) - T k1) * (u2 - u1))%Q) by (setoid_replace ((r2 - r1) * 100)%Q with (r2 * 100 - r1 * 100)%Q by ring; rewrite V1, V2; ring). split; Lqa.lra.
  - assert (G : (inject_Z (Z.of_nat k2) + 1 <= inject_Z (Z.of_nat k1))%Q). { change 1%Q with (inject_Z 1). rewrite <- inject_Z_plus, <- Zle_Qle. lia. }
    assert (K : k1 = S k2). { assert (inject_Z (Z.of_nat k1) <= inject_Z (Z.of_nat k2 + 1))%Q by (rewrite inject_Z_plus; change (inject_Z 1) with 1%Q; Lqa.lra). rewrite <- Zle_Qle in H. lia. }
    subst k1. assert (X1 : (u1 - inject_Z (Z.of_nat (S k2)) == 0)%Q) by Lqa.lra. assert (X2 : (u2 - inject_Z (Z.of_nat k2) == 1)%Q).
    { rewrite Nat2Z.inj_succ in *. unfold Z.succ in *. rewrite inject_Z_plus in *. change (inject_Z 1) with 1%Q in *. Lqa.lra. }
    rewrite X1 in V1. rewrite X2 in V2. rewrite Qmult_0_r in V1. rewrite Qmult_1_r in V2. split; Lqa.lra.
Qed.

(** ---- TD - UTC ---- *)
Lemma macro_value m y z : 1 <= m <= 12 -> 0 <= y <= 3000 -> dayA CALENDAR_GREGORIAN 1 m y - 2400001 = z -> (1 <=? lenA CALENDAR_GREGORIAN m y) = true ->
  forall f, gregorian_mjd f -> forall L, long_ok L -> f (1, m, y) = z /\ month_macro m L y = Ret z.
Proof.
  intros Hm Hy E Hl f Hf L HL. apply Z.leb_le in Hl. assert (V : f (1, m, y) = z) by (rewrite (mjd_unique f Hf) by (assumption || lia); exact E).
  split; [exact V|]. rewrite <- V. apply C17_month_macros_proof; [assumption|assumption| |assumption]. unfold long_ok, year_ok in *. lia.
Qed.
Ltac day m y z H f Hf L HL := destruct (macro_value m y z ltac:(lia) ltac:(lia) ltac:(vm_compute; reflexivity) ltac:(vm_compute; reflexivity) f Hf L HL) as [? H].
Lemma sixties_step L x m y s a y0 d0 scale l : month_macro m L y = Ret s -> JAN_1 L y0 = Ret d0 -> (0 <=? s) && (s <? 65536) = true ->
  sixties_search L x ((m, y, (a, y0, scale)) :: l) =
    if Qle_bool (inject_Z s) x then Ret (Some (a - inject_Z d0 * (scale # 10000000) + x * inject_Z scale * (1 # 10000000))%Q) else sixties_search L x l.
Proof.
  intros M D B. rewrite andb_true_iff, Z.leb_le, Z.ltb_lt in B. cbn [sixties_search]. rewrite M. cbn [obind]. unfold to_ushort. rewrite Z.mod_small by lia. destruct (Qle_bool (inject_Z s) x); [|reflexivity].
  rewrite D. reflexivity.
Qed.
Lemma le_no a x : (x < a)%Q -> Qle_bool a x = false.
Proof. intro H. destruct (Qle_bool a x) eqn:E; [|reflexivity]. apply Qle_bool_iff in E. exfalso. Lqa.lra. Qed.
Lemma utc_sixties f : gregorian_mjd f -> forall L limit str jd d, long_ok L -> In d drifts ->
  (inject_Z (f (1, month d, year d)%Z) <= mjd_of jd)%Q -> (mjd_of jd < inject_Z (f (1, next_month d, next_year d)%Z))%Q ->
  exists r, td_minus_utc L limit str jd = Ret r /\ (r == (32184 # 1000) + (constant d + (mjd_of jd - inject_Z (base d)) * rate d))%Q.
Proof.
  intros Hf L limit str jd d HL I A B. unfold td_minus_utc. fold (mjd_of jd).
  day 1 1961 37300 M1 f Hf L HL. day 8 1961 37512 M2 f Hf L HL. day 1 1962 37665 M3 f Hf L HL. day 11 1963 38334 M4 f Hf L HL. day 1 1964 38395 M5 f Hf L HL.
  day 4 1964 38486 M6 f Hf L HL. day 9 1964 38639 M7 f Hf L HL. day 1 1965 38761 M8 f Hf L HL. day 3 1965 38820 M9 f Hf L HL. day 7 1965 38942 M10 f Hf L HL.
  day 9 1965 39004 M11 f Hf L HL. day 1 1966 39126 M12 f Hf L HL. day 2 1968 39887 M13 f Hf L HL. day 1 1972 41317 M14 f Hf L HL.
  set (x := mjd_of jd) in *. clearbody x.
  change (JAN_1 L 1972) with (month_macro 1 L 1972). rewrite M14. cbn [obind].
  assert (U : (x < 41317)%Q). { unfold drifts in I. cbn [In] in I. repeat (destruct I as [<-|I]; [cbn [next_month next_year] in B; match goal with E : f _ = _ |- _ => rewrite E in B end; unfold inject_Z in B; Lqa.lra|]); destruct I. }
  rewrite (proj2 (qlt_spec x (inject_Z 41317))) by exact U. cbv iota.
  change (rev sixties) with
    [(2, 1968, (42131700 # 10000000, 1966, 25920)); (1, 1966, (43131700 # 10000000, 1966, 25920)); (9, 1965, (38401300 # 10000000, 1965, 12960));
     (7, 1965, (37401300 # 10000000, 1965, 12960)); (3, 1965, (36401300 # 10000000, 1965, 12960)); (1, 1965, (35401300 # 10000000, 1965, 12960));
     (9, 1964, (34401300 # 10000000, 1965, 12960)); (4, 1964, (33401300 # 10000000, 1965, 12960)); (1, 1964, (32401300 # 10000000, 1965, 12960));
     (11, 1963, (19458580 # 10000000, 1962, 11232)); (1, 1962, (18458580 # 10000000, 1962, 11232));
     (8, 1961, (13728180 # 10000000, 1961, 12960)); (1, 1961, (14228180 # 10000000, 1961, 12960))].
  assert (J61 : JAN_1 L 1961 = Ret 37300) by exact M1. assert (J62 : JAN_1 L 1962 = Ret 37665) by exact M3. assert (J65 : JAN_1 L 1965 = Ret 38761) by exact M8. assert (J66 : JAN_1 L 1966 = Ret 39126) by exact M12.
  rewrite (sixties_step L x _ _ _ _ _ _ _ _ M13 J66 eq_refl), (sixties_step L x _ _ _ _ _ _ _ _ M12 J66 eq_refl), (sixties_step L x _ _ _ _ _ _ _ _ M11 J65 eq_refl),
    (sixties_step L x _ _ _ _ _ _ _ _ M10 J65 eq_refl), (sixties_step L x _ _ _ _ _ _ _ _ M9 J65 eq_refl), (sixties_step L x _ _ _ _ _ _ _ _ M8 J65 eq_refl),
    (sixties_step L x _ _ _ _ _ _ _ _ M7 J65 eq_refl), (sixties_step L x _ _ _ _ _ _ _ _ M6 J65 eq_refl), (sixties_step L x _ _ _ _ _ _ _ _ M5 J65 eq_refl),
    (sixties_step L x _ _ _ _ _ _ _ _ M4 J62 eq_refl), (sixties_step L x _ _ _ _ _ _ _ _ M3 J62 eq_refl), (sixties_step L x _ _ _ _ _ _ _ _ M2 J61 eq_refl), (sixties_step L x _ _ _ _ _ _ _ _ M1 J61 eq_refl).
  clear M1 M2 M3 M4 M5 M6 M7 M8 M9 M10 M11 M12 M13 M14 J61 J62 J65 J66.
  unfold drifts in I. cbn [In] in I.
  repeat (destruct I as [<-|I]; [cbn [month year next_month next_year constant base rate] in *;
    match type of A with context [f ?a] => match goal with E : f a = _ |- _ => rewrite E in A end end;
    match type of B with context [f ?a] => match goal with E : f a = _ |- _ => rewrite E in B end end;
    repeat (match goal with |- context [Qle_bool ?a x] => rewrite (le_no a x) by (unfold inject_Z in *; Lqa.lra) end; cbv iota);
    match goal with |- context [Qle_bool ?a x] => rewrite (proj2 (Qle_bool_iff a x)) by (unfold inject_Z in *; Lqa.lra) end;
    cbn [obind]; eexists; split; [reflexivity|unfold tdt_minus_tai, inject_Z; ring]|]); destruct I.
Qed.
Lemma utc_early f : gregorian_mjd f -> forall L limit str jd, long_ok L -> (mjd_of jd < inject_Z (f (1, 1, 1961)%Z))%Q -> td_minus_utc L limit str jd = td_minus_ut str jd.
Proof.
  intros Hf L limit str jd HL A. unfold td_minus_utc. fold (mjd_of jd).
  day 1 1961 37300 M1 f Hf L HL. day 8 1961 37512 M2 f Hf L HL. day 1 1962 37665 M3 f Hf L HL. day 11 1963 38334 M4 f Hf L HL. day 1 1964 38395 M5 f Hf L HL.
  day 4 1964 38486 M6 f Hf L HL. day 9 1964 38639 M7 f Hf L HL. day 1 1965 38761 M8 f Hf L HL. day 3 1965 38820 M9 f Hf L HL. day 7 1965 38942 M10 f Hf L HL.
  day 9 1965 39004 M11 f Hf L HL. day 1 1966 39126 M12 f Hf L HL. day 2 1968 39887 M13 f Hf L HL. day 1 1972 41317 M14 f Hf L HL.
  rewrite H in A. set (x := mjd_of jd) in *. clearbody x.
  change (JAN_1 L 1972) with (month_macro 1 L 1972). rewrite M14. cbn [obind].
  rewrite (proj2 (qlt_spec x (inject_Z 41317))) by (unfold inject_Z in *; Lqa.lra). cbv iota.
  assert (J61 : JAN_1 L 1961 = Ret 37300) by exact M1. assert (J62 : JAN_1 L 1962 = Ret 37665) by exact M3. assert (J65 : JAN_1 L 1965 = Ret 38761) by exact M8. assert (J66 : JAN_1 L 1966 = Ret 39126) by exact M12.
  unfold sixties. cbn [rev app].
  rewrite (sixties_step L x _ _ _ _ _ _ _ _ M13 J66 eq_refl), (sixties_step L x _ _ _ _ _ _ _ _ M12 J66 eq_refl), (sixties_step L x _ _ _ _ _ _ _ _ M11 J65 eq_refl),
    (sixties_step L x _ _ _ _ _ _ _ _ M10 J65 eq_refl), (sixties_step L x _ _ _ _ _ _ _ _ M9 J65 eq_refl), (sixties_step L x _ _ _ _ _ _ _ _ M8 J65 eq_refl),
    (sixties_step L x _ _ _ _ _ _ _ _ M7 J65 eq_refl), (sixties_step L x _ _ _ _ _ _ _ _ M6 J65 eq_refl), (sixties_step L x _ _ _ _ _ _ _ _ M5 J65 eq_refl),
    (sixties_step L x _ _ _ _ _ _ _ _ M4 J62 eq_refl), (sixties_step L x _ _ _ _ _ _ _ _ M3 J62 eq_refl), (sixties_step L x _ _ _ _ _ _ _ _ M2 J61 eq_refl), (sixties_step L x _ _ _ _ _ _ _ _ M1 J61 eq_refl).
  repeat (match goal with |- context [Qle_bool ?a x] => rewrite (le_no a x) by (unfold inject_Z in *; Lqa.lra) end; cbv iota). reflexivity.
Qed.
(** the whole days of a date from 1972 on *)
Lemma whole_days x : (0 <= x)%Q -> Qfloor x <= IMAX -> to_integer IMAX x = Ret (Qfloor x).
Proof.
  intros A B. assert (P : 0 <= Qfloor x) by (change 0 with (Qfloor 0); now apply Qfloor_resp_le). unfold to_integer.
  rewrite (trunc_at x (Qfloor x)); [|apply Qfloor_le| |assumption].
  - unfold chk. replace (in_rng IMAX (Qfloor x)) with true; [reflexivity|]. symmetry. unfold in_rng. rewrite andb_true_iff, !Z.leb_le. unfold IMAX in *. lia.
  - pose proof (Qlt_floor x) as F. rewrite inject_Z_plus in F. exact F.
Qed.
Lemma utc_since f : gregorian_mjd f -> forall L limit str jd, long_ok L -> (inject_Z (f (1, 1, 1972)%Z) <= mjd_of jd)%Q -> Qfloor (mjd_of jd) <= IMAX ->
  td_minus_utc L limit str jd =
    (do r <- td_minus_utc_int L limit (Qfloor (mjd_of jd));
     match r with
     | Predicted low high => do mid <- ev IMAX (low + high)%cx; do d <- td_minus_ut str ((24000005 # 10) + inject_Z mid * (1 # 2))%Q; Ret (tdt_minus_tai + inject_Z (Qfloor (d + (1 # 2) - tdt_minus_tai)))%Q
     | Tabulated n => Ret (inject_Z n + tdt_minus_tai)%Q
     | Universal => td_minus_ut str jd
     end).
Proof.
  intros Hf L limit str jd HL A B. unfold td_minus_utc. fold (mjd_of jd). day 1 1972 41317 M f Hf L HL. rewrite H in A. change (JAN_1 L 1972) with (month_macro 1 L 1972). rewrite M. cbn [obind].
  rewrite (proj2 (qlt_false (mjd_of jd) (inject_Z 41317)) A). cbv iota. rewrite whole_days; [reflexivity| |assumption]. unfold inject_Z in A. Lqa.lra.
Qed.

(** ---- TD - UTC against TD - UT, from 1972 to November 2021 ---- *)
Definition day_jd (n : Z) : Q := ((24000005 # 10) + inject_Z n)%Q.
Definition near_at (n : Z) : bool :=
  match from_table (year_of (day_jd n)) (day_jd n) with
  | Ret r => let x := ((inject_Z (count_spec n) + (32184 # 1000)) - r)%Q in (Qle_bool (-885 # 1000) x && Qle_bool x (885 # 1000))%bool
  | _ => false
  end.
Lemma near_sweep : forall n, 41317 <= n < 41317 + Z.of_nat (Z.to_nat 18232) -> near_at n = true.
Proof.
  assert (C : zall near_at (Z.to_nat 18232) 41317 = true) by (vm_compute; reflexivity). intros n H. exact (zall_spec _ _ _ C n H).
Qed.
Lemma utc_near x n r : 41317 <= n < 59549 -> (inject_Z n <= x)%Q -> (x < inject_Z n + 1)%Q -> from_table (year_of ((24000005 # 10) + x)) ((24000005 # 10) + x) = Ret r ->
  (- (9 # 10) < (32184 # 1000) + inject_Z (count_spec n) - r < 9 # 10)%Q.
Proof.
  intros Hn A B E. pose proof (near_sweep n ltac:(rewrite Z2Nat.id by lia; lia)) as N. unfold near_at in N.
  set (j1 := day_jd n) in *. set (j2 := ((24000005 # 10) + x)%Q) in *.
  assert (Q1 : (41317 <= inject_Z n)%Q) by (change 41317%Q with (inject_Z 41317); rewrite <- Zle_Qle; lia). assert (Q2 : (inject_Z n <= 59548)%Q) by (change 59548%Q with (inject_Z 59548); rewrite <- Zle_Qle; lia).
  assert (J1 : (j1 == (24000005 # 10) + inject_Z n)%Q) by reflexivity. assert (J2 : (j2 == (24000005 # 10) + x)%Q) by reflexivity.
  pose proof (year_lin j1) as Y1. pose proof (year_lin j2) as Y2.
  destruct (interpolated j1 ltac:(Lqa.lra) ltac:(Lqa.lra)) as (k1 & r1 & K1 & L1 & H1 & E1 & V1). destruct (interpolated j2 ltac:(Lqa.lra) ltac:(Lqa.lra)) as (k2 & r2 & K2 & L2 & H2 & E2 & V2).
  rewrite E1 in N. rewrite E2 in E. injection E as <-.
  apply andb_true_iff in N. destruct N as (N1 & N2). apply Qle_bool_iff in N1, N2.
  pose proof (steady ((year_of j1 - 1620) / 2) k1 r1 ((year_of j2 - 1620) / 2) k2 r2 ltac:(rewrite !half; Lqa.lra) K1 K2 L1 H1 L2 H2 V1 V2) as S. rewrite !half in S. split; Lqa.lra.
Qed.

(** ---- TDB - TD ---- *)
Local Open Scope R_scope.
Lemma term_bound a x : 0 <= a -> - a <= a * sin x <= a.
Proof. intro A. pose proof (SIN_bound x) as (L & H). split; nra. Qed.
Lemma tdb_bound t : Rabs (tdb_minus_tdt t) <= 17046502 / 10 ^ 10.
Proof.
  unfold tdb_minus_tdt, tdb_terms. cbn [fold_left].
  repeat match goal with |- context [?a * sin ?x] => pose proof (term_bound a x ltac:(lra)); generalize dependent (a * sin x); intros end. apply Rabs_le. lra.
Qed.
Lemma cos_lower d : 1 - d * d / 2 <= cos d.
Proof.
  pose proof (cos_2a_sin (d / 2)) as C. replace (2 * (d / 2)) with d in C by field.
  assert (S : sin (d / 2) * sin (d / 2) <= (d / 2) * (d / 2)).
  { destruct (Rle_dec 0 d) as [P|P].
    - destruct (Req_dec d 0) as [->|]; [replace (0 / 2) with 0 by field; rewrite sin_0; lra|]. pose proof (sin_lt_x (d / 2) ltac:(lra)) as U. destruct (Rle_dec 0 (sin (d / 2))); [nra|]. pose proof (SIN_bound (d / 2)) as (B1 & B2).
      pose proof (sin_lt_x (d / 2) ltac:(lra)). destruct (Rle_dec (d / 2) 1); [|nra]. exfalso. assert (0 <= sin (d / 2)) by (apply sin_ge_0; pose proof PI_RGT_0; pose proof PI2_1; lra). lra.
    - pose proof (sin_lt_x (- d / 2) ltac:(lra)) as U. replace (- d / 2) with (- (d / 2)) in U by field. rewrite sin_neg in U. destruct (Rle_dec 0 (- sin (d / 2))); [nra|]. pose proof (SIN_bound (d / 2)) as (B1 & B2).
      destruct (Rle_dec (- (d / 2)) 1); [|nra]. exfalso. assert (0 <= sin (- (d / 2))) by (apply sin_ge_0; pose proof PI_RGT_0; pose proof PI2_1; lra). rewrite sin_neg in *. lra. }
  lra.
Qed.
