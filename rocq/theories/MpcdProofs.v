(** Dates of reports. *)
From Coq Require Import Lia QArith Qround Qabs Lqa.
From Coq Require Import String.
From Verif Require Import CBase CLemmas CStr DateModel DateVocab DateFacts DateJG TstrModel TstrSpec TstrNum CtimeModel CtimeSpec CtimeBuf CtimeRound MpcfModel MpcfWrite MpcfRead MpcdSpec.
Local Open Scope string_scope.
Local Open Scope list_scope.
Local Open Scope Z_scope.

(* ---------- which columns are digits ---------- *)
Lemma bits_scale s : forall b k, digit_bits s (b * k) = digit_bits s b * k.
Proof.
  induction s as [|c s IH]; intros b k; cbn [digit_bits]; [lia|].
  replace (b * k * 2) with (b * 2 * k) by ring. rewrite IH. destruct (isdigit c); ring.
Qed.
Lemma bits_app s : forall t b, digit_bits (s ++ t) b = digit_bits s b + 2 ^ Z.of_nat (List.length s) * digit_bits t b.
Proof.
  induction s as [|c s IH]; intros t b; cbn [app digit_bits List.length]; [change (2 ^ Z.of_nat 0) with 1; lia|].
  rewrite IH. rewrite Nat2Z.inj_succ, Z.pow_succ_r, bits_scale, (bits_scale t) by lia. ring.
Qed.
Lemma bits_range s : 0 <= digit_bits s 1 < 2 ^ Z.of_nat (List.length s).
Proof.
  induction s as [|c s IH]; cbn [digit_bits List.length]; [cbn; lia|].
  rewrite bits_scale, Nat2Z.inj_succ, Z.pow_succ_r by lia. destruct (isdigit c); lia.
Qed.
Lemma bits_10 s t : List.length s = 10%nat -> Z.land (digit_bits (s ++ t) 1) 1023 = digit_bits s 1.
Proof.
  intros H. change 1023 with (Z.ones 10). rewrite Z.land_ones by lia. rewrite bits_app, H.
  pose proof (bits_range s) as B. rewrite H in B. change (2 ^ Z.of_nat 10) with (2 ^ 10) in *.
  rewrite (Z.mul_comm (2 ^ 10)), Z.mod_add, Z.mod_small by lia. reflexivity.
Qed.
Lemma land_735 m : Z.land m 735 = Z.land (Z.land m 1023) 735.
Proof. rewrite <- Z.land_assoc. reflexivity. Qed.
Lemma land_1022 m : Z.land m 1022 = Z.land (Z.land m 1023) 1022.
Proof. rewrite <- Z.land_assoc. reflexivity. Qed.
Lemma lor_288 m : Z.land (Z.lor m 288) 1023 = Z.lor (Z.land m 1023) 288.
Proof. rewrite Z.land_lor_distr_l. reflexivity. Qed.
Lemma dd v k : isdigit (48 + v / k mod 10) = true.
Proof. apply is_digit_48, Z.mod_pos_bound. lia. Qed.

(* ---------- numbers ---------- *)
Lemma two_digits_at pre v t : 0 <= v < 100 -> get_two_digits (pre ++ ndig 2 v ++ t) (Z.of_nat (List.length pre)) = Ret v.
Proof.
  intros H. unfold get_two_digits.
  assert (A : forall k c, nth_error (ndig 2 v ++ t) k = Some c -> at_ (pre ++ ndig 2 v ++ t) (Z.of_nat (List.length pre) + Z.of_nat k) = Ret c).
  { intros k c Hk. replace (Z.of_nat (List.length pre) + Z.of_nat k) with (Z.of_nat (List.length pre + k)) by lia.
    assert (E : nth_error (pre ++ ndig 2 v ++ t) (List.length pre + k) = Some c) by (rewrite nth_error_app2 by lia; replace (List.length pre + k - List.length pre)%nat with k by lia; exact Hk).
    assert (Lk : (List.length pre + k < List.length (pre ++ ndig 2 v ++ t))%nat) by (apply nth_error_Some; rewrite E; discriminate).
    unfold at_. destruct (Z.eqb_spec (Z.of_nat (List.length pre + k)) (Z.of_nat (List.length (pre ++ ndig 2 v ++ t)))); [lia|].
    unfold nth_ub. destruct (Z.ltb_spec (Z.of_nat (List.length pre + k)) 0); [lia|]. rewrite Nat2Z.id, E. reflexivity. }
  pose proof (A 0%nat (48 + v / 10 mod 10) eq_refl) as A0. pose proof (A 1%nat (48 + v / 1 mod 10) eq_refl) as A1.
  change (Z.of_nat 0) with 0 in A0. rewrite Z.add_0_r in A0. change (Z.of_nat 1) with 1 in A1. rewrite A0. cbn [obind]. rewrite A1. cbn [obind].
  rewrite Z.div_1_r. pose proof (Z.mod_pos_bound (v / 10) 10 ltac:(lia)). pose proof (Z.mod_pos_bound v 10 ltac:(lia)).
  rewrite ev_val by (cbn [safe val]; unfold fits, IMAX; lia). cbn [val]. f_equal.
  rewrite (Z.mod_small (v / 10)) by (split; [apply Z.div_pos; lia|apply Z.div_lt_upper_bound; lia]).
  pose proof (Z.div_mod v 10 ltac:(lia)). lia.
Qed.
Lemma qatoi_ndig m v t : 0 <= v < 10 ^ Z.of_nat m -> v <= IMAX -> stops t -> quick_atoi (ndig m v ++ t) = Ret v.
Proof.
  intros H K S. unfold quick_atoi. rewrite int_ndig; [|exact S|lia|lia|rewrite Z.mod_small; lia].
  cbn [obind]. rewrite Z.mul_0_l, Z.add_0_l, Z.mod_small by lia. reflexivity.
Qed.
Lemma ndig_is_digits m v : 0 <= v < 10 ^ Z.of_nat (S m) -> digits_of (ndig (S m) v) v.
Proof.
  intros H. split; [discriminate|]. split; [apply ndig_digit|]. rewrite dig_val_ndig by lia. rewrite Z.mul_0_l, Z.add_0_l, Z.mod_small by lia. reflexivity.
Qed.
Lemma atof_whole m v t : 0 <= v < 10 ^ Z.of_nat (S m) -> num_end t -> atof (ndig (S m) v ++ t) = Ret (inject_Z v).
Proof.
  intros H E. unfold atof. rewrite (strtold_num _ (inject_Z v)); [reflexivity| |exact E]. left. exists v. split; [now apply ndig_is_digits|reflexivity].
Qed.
Lemma Qmake_div a b : 0 < b -> (a # Z.to_pos b == inject_Z a / inject_Z b)%Q.
Proof. intros Hb. destruct b as [|b|b]; try lia. unfold Qdiv, Qinv, inject_Z, Qmult, Qeq. cbn. lia. Qed.
Lemma atof_parts m v n d t : 0 <= v < 10 ^ Z.of_nat m -> 0 <= d < 10 ^ Z.of_nat n -> (1 <= m + n)%nat -> num_end t ->
  exists q, atof (ndig m v ++ 46 :: ndig n d ++ t) = Ret q /\ (q == inject_Z v + part n d)%Q.
Proof.
  intros Hv Hd Hn E. unfold atof. replace (ndig m v ++ 46 :: ndig n d ++ t) with ((ndig m v ++ 46 :: ndig n d) ++ t) by (rewrite <- app_assoc; reflexivity).
  pose proof (pow_pos n) as P.
  rewrite (strtold_num _ ((v * 10 ^ Z.of_nat n + d) # Z.to_pos (10 ^ Z.of_nat n))); [| |exact E].
  - eexists. split; [reflexivity|]. rewrite Qmake_div by exact P. unfold part. rewrite inject_Z_plus, inject_Z_mult. field. apply pow_ne.
  - right. exists (ndig m v), (ndig n d), (v * 10 ^ Z.of_nat n + d). rewrite (ndig_join m n v d) by lia. split; [apply ndig_digit|].
    split; [intro Z0; apply (f_equal (@List.length Z)) in Z0; rewrite ndig_length in Z0; cbn in Z0; lia|]. split; [reflexivity|].
    split; [|now rewrite ndig_length]. rewrite dig_val_ndig by lia. rewrite Z.mul_0_l, Z.add_0_l. apply Z.mod_small.
    rewrite Nat2Z.inj_add, Z.pow_add_r by lia. nia.
Qed.
Lemma blanks_end n : num_end (blanks n).
Proof. destruct n; [exact I|]. repeat split; discriminate. Qed.

(* ---------- the line around the date ---------- *)
Lemma copy_n : forall n s r, List.length s = n -> copy_bytes n (s ++ r) = Ret s.
Proof. exact copy_12. Qed.
Lemma valid_code s : (3 <= List.length s)%nat -> (forall i, (i < 3)%nat -> 33 <= nth i s 0 <= 122) -> is_valid_mpc_code s = Ret true.
Proof.
  intros L H. destruct s as [|a [|b [|c s]]]; cbn [List.length] in L; try lia.
  pose proof (H 0%nat ltac:(lia)) as A. pose proof (H 1%nat ltac:(lia)) as B. pose proof (H 2%nat ltac:(lia)) as C. cbn [nth] in A, B, C.
  assert (A0 : forall k x, (k < 3)%nat -> nth k (a :: b :: c :: s) 0 = x -> at_ (a :: b :: c :: s) (Z.of_nat k) = Ret x).
  { intros k x Hk E. unfold at_. cbn [List.length]. destruct (Z.eqb_spec (Z.of_nat k) (Z.of_nat (S (S (S (List.length s)))))); [lia|].
    unfold nth_ub. destruct (Z.ltb_spec (Z.of_nat k) 0); [lia|]. rewrite Nat2Z.id. destruct k as [|[|[|k]]]; [| | |lia]; cbn in E |- *; now rewrite E. }
  unfold is_valid_mpc_code, tst. pose proof (A0 0%nat a ltac:(lia) eq_refl) as E0. pose proof (A0 1%nat b ltac:(lia) eq_refl) as E1. pose proof (A0 2%nat c ltac:(lia) eq_refl) as E2.
  change (Z.of_nat 0) with 0 in E0. change (Z.of_nat 1) with 1 in E1. change (Z.of_nat 2) with 2 in E2. rewrite E0, E1, E2.
  cbn [obind]. repeat match goal with |- context [?x <=? 32] => destruct (Z.leb_spec x 32); [lia|] | |- context [122 <? ?x] => destruct (Z.ltb_spec 122 x); [lia|] end. reflexivity.
Qed.
Lemma extract_line L note date line : report note date line ->
  extract_date_from_mpc_report L line =
    (let '(tbuff, m) := fill_zeroes date (digit_bits date 1) in
     do '(rval, year, month, ff, sd) <- date_fields tbuff m;
     do rval <- add_month L rval year month;
     Ret (radar note rval, Some match sd with O => ff | s => ff + count_digits tbuff s end)).
Proof.
  intros (front & rest & -> & L1 & B12 & L2 & L3 & HC).
  set (line := front ++ note :: date ++ rest).
  assert (LL : List.length line = (32 + List.length rest)%nat) by (unfold line; rewrite app_length; cbn [List.length]; rewrite app_length; lia).
  unfold extract_date_from_mpc_report. cbv zeta.
  destruct (Z.ltb_spec (Z.of_nat (List.length line)) 80); [lia|]. destruct (Z.ltb_spec 82 (Z.of_nat (List.length line))); [lia|]. cbn [orb].
  assert (E12 : nth 12 line 0 = nth 12 front 0) by (unfold line; apply app_nth1; lia). rewrite E12.
  assert (C12 : negb (nth 12 front 0 =? 32) && negb (nth 12 front 0 =? 42) && negb (nth 12 front 0 =? 45) = false).
  { cbn in B12. destruct B12 as [<-|[<-|[<-|[]]]]; reflexivity. }
  rewrite C12.
  assert (E77 : skipn 77 line = skipn 45 rest).
  { unfold line. replace (front ++ note :: date ++ rest) with ((front ++ note :: date) ++ rest) by (rewrite <- app_assoc; reflexivity).
    rewrite skipn_app, skipn_all2 by (rewrite app_length; cbn [List.length]; lia). rewrite app_length. cbn [List.length app]. f_equal. lia. }
  assert (NS : forall j k (q : list Z), nth j (skipn k q) 0 = nth (k + j) q 0).
  { intros j k. induction k as [|k IH]; intros q; [reflexivity|]. destruct q as [|x q]; [destruct j; reflexivity|]. cbn [skipn Nat.add nth]. apply IH. }
  rewrite E77, valid_code; [|rewrite skipn_length; lia|intros i Hi; rewrite NS; apply HC; lia].
  cbn [obind negb].
  assert (E15 : skipn 15 line = date ++ rest).
  { unfold line. replace (front ++ note :: date ++ rest) with ((front ++ [note]) ++ date ++ rest) by (rewrite <- app_assoc; reflexivity).
    rewrite skipn_app, skipn_all2 by (rewrite app_length; cbn [List.length]; lia). rewrite app_length, L1. reflexivity. }
  rewrite E15, copy_n by exact L2. cbn [obind].
  assert (E14 : nth 14 line 0 = note) by (unfold line; rewrite app_nth2 by lia; rewrite L1; reflexivity). rewrite E14.
  destruct (fill_zeroes date (digit_bits date 1)) as [tb m]. destruct (date_fields tb m) as [[[[[r y] mo] ff] sd]| | |]; reflexivity.
Qed.
Lemma radar_not note v : ~ radar_note note -> radar note v = v.
Proof.
  intros H. unfold radar. destruct (Z.eqb_spec note 82); [elim H; now left|]. destruct (Z.eqb_spec note 114); [elim H; now right|].
  cbn [orb]. now rewrite Bool.andb_false_r.
Qed.
(* ---------- the month ---------- *)
Lemma day_zero L day m y jd : long_ok L -> 0 <= y <= 9999 -> day_number L day m y jd -> ~ change_month y m day ->
  dmy_to_day L 0 m y CALENDAR_JULIAN_GREGORIAN = Ret (jd - day).
Proof.
  intros HL Hy (Hm & Hd & E) Hc. rewrite jg_dmy_to_day in *.
  assert (C : dmy_calendar_to_use 0 m y CALENDAR_JULIAN_GREGORIAN = dmy_calendar_to_use day m y CALENDAR_JULIAN_GREGORIAN).
  { unfold dmy_calendar_to_use. change (CALENDAR_JULIAN_GREGORIAN =? CALENDAR_JULIAN_GREGORIAN) with true. cbv iota.
    unfold change_month in Hc.
    destruct (Z.ltb_spec 1582 y); [reflexivity|]. destruct (Z.eqb_spec y 1582); [|reflexivity].
    destruct (Z.ltb_spec 10 m); [reflexivity|]. destruct (Z.eqb_spec m 10); [|reflexivity].
    destruct (Z.ltb_spec 5 0); [lia|]. destruct (Z.ltb_spec 5 day); [|reflexivity]. elim Hc. lia. }
  rewrite C. set (c := dmy_calendar_to_use day m y CALENDAR_JULIAN_GREGORIAN) in *.
  assert (R : rule_cal c).
  { unfold c, dmy_calendar_to_use. change (CALENDAR_JULIAN_GREGORIAN =? CALENDAR_JULIAN_GREGORIAN) with true. cbv iota.
    destruct ((1582 <? y) || (y =? 1582) && ((10 <? m) || (m =? 10) && (5 <? day))); unfold rule_cal; tauto. }
  assert (Y : year_dom L c y) by (left; split; [exact R|]; unfold year_ok, long_ok in *; lia).
  rewrite dmy_to_dayA in E by (try assumption; lia). rewrite dmy_to_dayA by (try assumption; lia).
  injection E as <-. f_equal. unfold dayA. lia.
Qed.
Lemma add_month_ok L day m y jd v f : long_ok L -> 0 <= y <= 9999 -> day_number L day m y jd -> ~ change_month y m day ->
  (0 <= f)%Q -> (f < 1)%Q -> (v == inject_Z day + f)%Q ->
  exists r, add_month L v y m = Ret r /\ (r == inject_Z jd - (1 # 2) + f)%Q.
Proof.
  intros HL Hy D Hc F0 F1 Ev. pose proof (day_zero L day m y jd HL Hy D Hc) as E0. destruct D as (Hm & Hd & _).
  unfold add_month. destruct (Z.leb_spec 1 m); [|lia]. destruct (Z.leb_spec m 12); [|lia].
  assert (D1 : (1 <= inject_Z day)%Q) by (change 1%Q with (inject_Z 1); rewrite <- Zle_Qle; lia).
  assert (D2 : (inject_Z day <= 98)%Q) by (change 98%Q with (inject_Z 98); rewrite <- Zle_Qle; lia).
  assert (Q1 : qlt 0 v = true).
  { unfold qlt. destruct (Qle_bool v 0) eqn:K; [|reflexivity]. apply Qle_bool_iff in K. exfalso. rewrite Ev in K. lra. }
  assert (Q2 : qlt v 99 = true).
  { unfold qlt. destruct (Qle_bool 99 v) eqn:K; [|reflexivity]. apply Qle_bool_iff in K. exfalso. rewrite Ev in K. lra. }
  rewrite Q1, Q2. cbn [andb]. rewrite E0. cbn [obind]. eexists. split; [reflexivity|]. rewrite Ev. unfold Zminus. rewrite inject_Z_plus, inject_Z_opp. ring.
Qed.
Lemma part_range n d : 0 <= d < 10 ^ Z.of_nat n -> (0 <= part n d)%Q /\ (part n d < 1)%Q.
Proof.
  intros H. pose proof (pow_pos n) as P. assert (PQ : (0 < inject_Z (10 ^ Z.of_nat n))%Q) by (change 0%Q with (inject_Z 0); now rewrite <- Zlt_Qlt).
  unfold part. split.
  - apply Qle_shift_div_l; [exact PQ|]. rewrite Qmult_0_l. change 0%Q with (inject_Z 0). rewrite <- Zle_Qle. lia.
  - apply Qlt_shift_div_r; [exact PQ|]. rewrite Qmult_1_l. rewrite <- Zlt_Qlt. lia.
Qed.

(* ---------- "2013 02 13.141593" ---------- *)
Lemma dn v k : (48 + v / k mod 10 =? 32) = false.
Proof. pose proof (Z.mod_pos_bound (v / k) 10 ltac:(lia)). apply Z.eqb_neq. lia. Qed.
Lemma fill_gen a b c e p q r s t : isdigit a = true -> isdigit b = true -> isdigit c = true -> isdigit e = true -> isdigit q = true -> isdigit s = true ->
  isdigit p = true \/ p = 32 -> isdigit r = true \/ r = 32 ->
  let l := a :: b :: c :: e :: 32 :: p :: q :: 32 :: r :: s :: 46 :: t in
  exists M, Z.land M 1023 = 879 /\
    fill_zeroes l (digit_bits l 1) =
      (a :: b :: c :: e :: 32 :: (if p =? 32 then 48 else p) :: q :: 32 :: (if r =? 32 then 48 else r) :: s :: 46 :: t, M).
Proof.
  intros Ha Hb Hc He Hq Hs Hp Hr l.
  assert (B : Z.land (digit_bits l 1) 1023 = digit_bits [a; b; c; e; 32; p; q; 32; r; s] 1) by (apply (bits_10 [a; b; c; e; 32; p; q; 32; r; s]); reflexivity).
  assert (I32 : forall x, isdigit x = true -> (x =? 32) = false) by (intros x Hx; destruct (Z.eqb_spec x 32); [subst; discriminate|reflexivity]).
  cbn [digit_bits] in B. rewrite Ha, Hb, Hc, He, Hq, Hs in B. change (isdigit 32) with false in B. cbv iota in B.
  unfold fill_zeroes. rewrite land_735, B.
  destruct Hp as [Hp| ->], Hr as [Hr| ->]; rewrite ?Hp, ?Hr in *; change (isdigit 32) with false in *; cbv iota in *.
  - exists (digit_bits l 1). split; [exact B|]. rewrite (I32 p), (I32 r) by assumption. reflexivity.
  - exists (Z.lor (digit_bits l 1) 288). split; [rewrite lor_288, B; reflexivity|]. rewrite (I32 p) by assumption.
    match goal with |- (if ?c then _ else _) = _ => change c with true end. cbv iota. cbn [nth l]. rewrite (I32 p) by assumption. reflexivity.
  - exists (Z.lor (digit_bits l 1) 288). split; [rewrite lor_288, B; reflexivity|]. rewrite (I32 r) by assumption.
    match goal with |- (if ?c then _ else _) = _ => change c with true end. cbv iota. unfold l. cbn [nth Z.eqb Pos.eqb upd]. rewrite (I32 r) by assumption. reflexivity.
  - exists (Z.lor (digit_bits l 1) 288). split; [rewrite lor_288, B; reflexivity|]. reflexivity.
Qed.
Lemma two_split z v : z = 48 \/ z = 32 -> 0 <= v < 100 ->
  exists p, two z v = [p; 48 + v / 10 ^ 0 mod 10] /\ (isdigit p = true \/ p = 32) /\ (if p =? 32 then 48 else p) = 48 + v / 10 ^ 1 mod 10.
Proof.
  intros Hz Hv. unfold two. change (10 ^ 0) with 1. rewrite Z.div_1_r. change (10 ^ 1) with 10. destruct (Z.ltb_spec v 10).
  - exists z. rewrite (Z.mod_small v 10), (Z.div_small v 10) by lia. split; [reflexivity|]. destruct Hz as [-> | ->]; split; auto.
  - exists (48 + v / 10 mod 10). split; [cbn [ndig]; change (10 ^ Z.of_nat 0) with 1; rewrite Z.div_1_r; reflexivity|]. split; [left; apply dd|]. now rewrite dn.
Qed.
Lemma blank_ndig n d : (n <= 6)%nat -> forall h, List.length h = 11%nat -> 0 <= d < 10 ^ Z.of_nat n ->
  (inject_Z d / inject_Z (blank_divisor 5 (h ++ ndig n d ++ blanks (6 - n)) 1000000) == part n d)%Q.
Proof.
  intros Hn h Lh Hd.
  assert (N : forall k x, nth (S (S (S (S (S (S (S (S (S (S (S k))))))))))) (h ++ x) 0 = nth k x 0).
  { intros k x. rewrite app_nth2 by lia. f_equal. lia. }
  cbn [blank_divisor Nat.add]. rewrite !N.
  do 7 (destruct n as [|n]; [cbn [ndig app blanks repeat Nat.sub nth]; rewrite ?dn; change (32 =? 32) with true; cbv iota; unfold part;
    try (reflexivity); replace d with 0 by lia; reflexivity|]). lia.
Qed.
Lemma stops_blanks n : stops (blanks n). Proof. apply blanks_stop. Qed.
Lemma usual_fields y zm m zd day n d : 0 <= y <= 9999 -> 0 <= m < 100 -> 0 <= day < 100 -> zm = 48 \/ zm = 32 -> zd = 48 \/ zd = 32 ->
  (n <= 6)%nat -> 0 <= d < 10 ^ Z.of_nat n ->
  exists tb M q, fill_zeroes (usual_date y zm m zd day n d) (digit_bits (usual_date y zm m zd day n d) 1) = (tb, M) /\
    date_fields tb M = Ret (q, y, m, 0, 11%nat) /\ count_digits tb 11 = Z.of_nat n /\ (q == inject_Z day + part n d)%Q.
Proof.
  intros Hy Hm Hday Zm Zd Hn Hd. destruct (two_split zm m Zm Hm) as (p & E1 & P1 & F1). destruct (two_split zd day Zd Hday) as (r & E2 & P2 & F2).
  unfold usual_date. rewrite E1, E2. cbn [ndig app].
  edestruct (fill_gen (48 + y / 10 ^ Z.of_nat 3 mod 10) (48 + y / 10 ^ Z.of_nat 2 mod 10) (48 + y / 10 ^ Z.of_nat 1 mod 10) (48 + y / 10 ^ Z.of_nat 0 mod 10)
    p (48 + m / 10 ^ 0 mod 10) r (48 + day / 10 ^ 0 mod 10) (ndig n d ++ blanks (6 - n))) as (M & HM & FZ); try apply dd; try assumption.
  cbv zeta in FZ. rewrite FZ, F1, F2.
  set (T := ndig 4 y ++ 32 :: ndig 2 m ++ 32 :: ndig 2 day ++ 46 :: ndig n d ++ blanks (6 - n)).
  exists T, M, (inject_Z day + inject_Z d / inject_Z (blank_divisor 5 T 1000000))%Q. split; [reflexivity|].
  assert (PP : 10 ^ Z.of_nat n <= 10 ^ Z.of_nat 6) by (apply Z.pow_le_mono_r; lia). change (10 ^ Z.of_nat 6) with 1000000 in PP.
  split; [|split].
  - unfold date_fields. change (nth 4 T 0) with 32. change (nth 7 T 0) with 32. change (nth 10 T 0) with 46. rewrite HM.
    change (32 =? 32) with true. change (879 =? 879) with true. change (46 =? 46) with true. cbn [andb]. cbv iota.
    assert (Q1 : quick_atoi T = Ret y) by (apply (qatoi_ndig 4 y); [change (10 ^ Z.of_nat 4) with 10000; lia|unfold IMAX; lia|reflexivity]).
    assert (Q2 : get_two_digits T 5 = Ret m) by (apply (two_digits_at (ndig 4 y ++ [32]) m); lia).
    assert (Q3 : get_two_digits T 8 = Ret day) by (apply (two_digits_at (ndig 4 y ++ 32 :: ndig 2 m ++ [32]) day); lia).
    assert (Q4 : quick_atoi (skipn 11 T) = Ret d).
    { change (skipn 11 T) with (ndig n d ++ blanks (6 - n)).
      apply qatoi_ndig; [exact Hd|clear - Hd PP; unfold IMAX; lia|apply stops_blanks]. }
    rewrite Q1. cbn [obind]. rewrite Q2. cbn [obind]. rewrite Q3. cbn [obind]. rewrite Q4. cbn [obind]. reflexivity.
  - unfold count_digits. change (skipn 11 T) with (ndig n d ++ blanks (6 - n)). rewrite span_ndig, stops_span by apply stops_blanks. lia.
  - pose proof (blank_ndig n d Hn (ndig 4 y ++ 32 :: ndig 2 m ++ 32 :: ndig 2 day ++ [46]) eq_refl Hd) as B.
    replace ((ndig 4 y ++ 32 :: ndig 2 m ++ 32 :: ndig 2 day ++ [46]) ++ ndig n d ++ blanks (6 - n)) with T in B by reflexivity.
    rewrite B. reflexivity.
Qed.
Lemma usual_read L note y zm m zd day n d jd line : long_ok L -> 0 <= y <= 9999 -> zm = 48 \/ zm = 32 -> zd = 48 \/ zd = 32 -> (n <= 6)%nat -> 0 <= d < 10 ^ Z.of_nat n ->
  day_number L day m y jd -> ~ change_month y m day -> ~ radar_note note -> report note (usual_date y zm m zd day n d) line ->
  date_reads L line (inject_Z jd - (1 # 2) + part n d) (Z.of_nat n).
Proof.
  intros HL Hy Zm Zd Hn Hd D Hc Hnote HR. destruct (part_range n d Hd) as [F0 F1].
  destruct (usual_fields y zm m zd day n d) as (tb & M & q & E1 & E2 & E3 & E4); try assumption; try (destruct D; lia).
  destruct (add_month_ok L day m y jd q (part n d) HL Hy D Hc F0 F1 E4) as (r & R1 & R2).
  exists r. rewrite (extract_line L _ _ _ HR), E1. cbv iota. rewrite E2. cbn [obind]. rewrite R1. cbn [obind]. rewrite radar_not by exact Hnote. rewrite E3.
  split; [reflexivity|exact R2].
Qed.

(* ---------- packed dates ---------- *)
Lemma bits_packed c q0 q1 q2 q3 q4 q5 x a b t : isdigit c = false -> isdigit x = false ->
  (forall z, In z [q0; q1; q2; q3; q4; q5; a; b] -> isdigit z = true) ->
  let l := c :: q0 :: q1 :: q2 :: q3 :: q4 :: q5 :: x :: a :: b :: t in
  Z.land (digit_bits l 1) 1023 = 894.
Proof.
  intros Hc Hx H l.
  assert (B : Z.land (digit_bits l 1) 1023 = digit_bits [c; q0; q1; q2; q3; q4; q5; x; a; b] 1) by (apply (bits_10 [c; q0; q1; q2; q3; q4; q5; x; a; b]); reflexivity).
  rewrite B. cbn [digit_bits]. rewrite Hc, Hx, (H q0), (H q1), (H q2), (H q3), (H q4), (H q5), (H a), (H b) by (cbn; tauto). reflexivity.
Qed.
Lemma fill_not l m : Z.land m 1023 = 894 \/ Z.land m 1023 = 895 -> fill_zeroes l m = (l, m).
Proof. intros [H|H]; unfold fill_zeroes; rewrite land_735, H; reflexivity. Qed.
Definition all_digits_ (l : list Z) : Prop := forall z, In z l -> isdigit z = true.
Ltac indig := let H := fresh in intros ? H; cbn [In] in H; repeat (destruct H as [<-|H]; [apply dd|]); destruct H.
Lemma century_hi c yy y : century c yy y -> isdigit c = false /\ (72 <=? c) && (c <=? 75) = true /\ (c =? 77) = false /\ ev IMAX ((c - 74) * 100 + 1900 + yy)%cx = Ret y.
Proof.
  intros (Hc & Hy & ->). assert (K : c = 72 \/ c = 73 \/ c = 74 \/ c = 75) by lia. repeat split.
  - destruct K as [->|[->|[->| ->]]]; reflexivity.
  - destruct K as [->|[->|[->| ->]]]; reflexivity.
  - destruct K as [->|[->|[->| ->]]]; reflexivity.
  - rewrite ev_val by (cbn [safe val]; unfold fits, IMAX; lia). cbn [val]. f_equal. lia.
Qed.
Lemma packed_date_fields c yy y m day n d : century c yy y -> 0 <= m < 100 -> 0 <= day < 100 -> (2 <= n <= 9)%nat -> 0 <= d < 10 ^ Z.of_nat n ->
  let T := packed_date c yy m day n d in
  exists q, fill_zeroes T (digit_bits T 1) = (T, digit_bits T 1) /\ date_fields T (digit_bits T 1) = Ret (q, y, m, 30, 8%nat) /\
    count_digits T 8 = Z.of_nat n /\ (q == inject_Z day + part n d)%Q.
Proof.
  intros HC Hm Hday Hn Hd T. destruct (century_hi c yy y HC) as (C1 & C2 & _ & C4). pose proof HC as (_ & HYY & _).
  destruct n as [|[|n]]; [lia|lia|]. set (p := S (S n)) in *.
  assert (M : Z.land (digit_bits T 1) 1023 = 894).
  { unfold T, packed_date, p. cbn [ndig app]. apply bits_packed; [exact C1|reflexivity|indig]. }
  destruct (atof_parts 2 day p d (blanks (9 - p))) as (q & Q1 & Q2); [lia|exact Hd|lia|apply blanks_end|].
  exists q. split; [apply fill_not; now left|]. split; [|split; [|exact Q2]].
  - unfold date_fields. change (nth 4 T 0) with (48 + m / 10 ^ Z.of_nat 0 mod 10). rewrite dn. change (nth 0 T 0) with c. rewrite C2. change (nth 7 T 0) with 46.
    rewrite M. change ((46 =? 46) || (46 =? 58)) with true. change (894 =? 894) with true. cbn [andb]. cbv iota.
    assert (T1 : get_two_digits T 1 = Ret yy) by (apply (two_digits_at [c] yy); lia).
    assert (T2 : get_two_digits T 3 = Ret m) by (apply (two_digits_at (c :: ndig 2 yy) m); lia).
    rewrite T1. cbn [obind]. rewrite C4. cbn [obind]. rewrite T2. cbn [obind].
    change (skipn 5 T) with (ndig 2 day ++ 46 :: ndig p d ++ blanks (9 - p)). rewrite Q1. reflexivity.
  - unfold count_digits. change (skipn 8 T) with (ndig p d ++ blanks (9 - p)). rewrite span_ndig, stops_span by apply stops_blanks. lia.
Qed.
Lemma packed_read L note c yy y m day n d jd line : long_ok L -> century c yy y -> (2 <= n <= 9)%nat -> 0 <= d < 10 ^ Z.of_nat n ->
  day_number L day m y jd -> ~ radar_note note -> report note (packed_date c yy m day n d) line ->
  date_reads L line (inject_Z jd - (1 # 2) + part n d) (30 + Z.of_nat n).
Proof.
  intros HL HC Hn Hd D Hnote HR. destruct (part_range n d Hd) as [F0 F1].
  assert (Hc : ~ change_month y m day) by (unfold change_month, century in *; lia). assert (Hy : 0 <= y <= 9999) by (unfold century in HC; lia).
  destruct (packed_date_fields c yy y m day n d HC) as (q & E1 & E2 & E3 & E4); try assumption; try (destruct D; lia).
  destruct (add_month_ok L day m y jd q (part n d) HL Hy D Hc F0 F1 E4) as (r & R1 & R2).
  exists r. rewrite (extract_line L _ _ _ HR), E1. cbv iota. rewrite E2. cbn [obind]. rewrite R1. cbn [obind]. rewrite radar_not by exact Hnote. rewrite E3.
  split; [reflexivity|exact R2].
Qed.
Definition clock_part (hh mm ss : Z) (s : Q) : Q := ((inject_Z (hh * 3600 + mm * 60 + ss) + s) / 86400)%Q.
Lemma packed_time_fields c yy y m day hh mm ss n d : century c yy y -> 0 <= m < 100 -> 0 <= day < 100 -> 0 <= hh < 100 -> 0 <= mm < 100 -> 0 <= ss < 100 ->
  (n <= 3)%nat -> 0 <= d < 10 ^ Z.of_nat n ->
  let T := packed_time c yy m day hh mm ss n d in
  exists q, fill_zeroes T (digit_bits T 1) = (T, digit_bits T 1) /\ date_fields T (digit_bits T 1) = Ret (q, y, m, 20, 14%nat) /\
    count_digits T 14 = Z.of_nat n /\ (q == inject_Z day + clock_part hh mm ss (part n d))%Q.
Proof.
  intros HC Hm Hday Hh Hmm Hs Hn Hd T. destruct (century_hi c yy y HC) as (C1 & C2 & _ & C4). pose proof HC as (_ & HYY & _).
  assert (M : Z.land (digit_bits T 1) 1023 = 894).
  { unfold T, packed_time. cbn [ndig app]. apply bits_packed; [exact C1|reflexivity|indig]. }
  assert (A : exists f, atof (46 :: ndig n d ++ blanks (3 - n)) = Ret f /\ (f == part n d)%Q).
  { destruct n as [|n].
    - replace d with 0 by (cbn in Hd; lia). exists 0%Q. split; reflexivity.
    - destruct (atof_parts 0 0 (S n) d (blanks (3 - S n))) as (f & Q1 & Q2); [cbn; lia|exact Hd|lia|apply blanks_end|].
      exists f. split; [exact Q1|]. rewrite Q2. change (inject_Z 0) with 0%Q. ring. }
  destruct A as (f & A1 & A2).
  exists (inject_Z day + (inject_Z hh / 24 + inject_Z mm / 1440) + inject_Z ss / 86400 + f / 86400)%Q.
  split; [apply fill_not; now left|]. split; [|split].
  - unfold date_fields. change (nth 4 T 0) with (48 + m / 10 ^ Z.of_nat 0 mod 10). rewrite dn. change (nth 0 T 0) with c. rewrite C2. change (nth 7 T 0) with 58.
    rewrite M. change ((58 =? 46) || (58 =? 58)) with true. change (894 =? 894) with true. change (58 =? 58) with true. cbn [andb]. cbv iota.
    assert (T1 : get_two_digits T 1 = Ret yy) by (apply (two_digits_at [c] yy); lia).
    assert (T2 : get_two_digits T 3 = Ret m) by (apply (two_digits_at (c :: ndig 2 yy) m); lia).
    set (h8 := c :: ndig 2 yy ++ ndig 2 m ++ ndig 2 day ++ [58]).
    assert (T3 : get_two_digits T 8 = Ret hh) by (apply (two_digits_at h8 hh); lia).
    assert (T4 : get_two_digits T 10 = Ret mm) by (apply (two_digits_at (h8 ++ ndig 2 hh) mm); lia).
    assert (T5 : get_two_digits T 12 = Ret ss) by (apply (two_digits_at (h8 ++ ndig 2 hh ++ ndig 2 mm) ss); lia).
    assert (T6 : atof (skipn 5 T) = Ret (inject_Z day)) by (apply (atof_whole 1 day); [change (10 ^ Z.of_nat 2) with 100; lia|repeat split; discriminate]).
    rewrite T1. cbn [obind]. rewrite C4. cbn [obind]. rewrite T2. cbn [obind]. rewrite T6. cbn [obind]. rewrite T3. cbn [obind]. rewrite T4. cbn [obind].
    change (nth 12 T 0) with (48 + ss / 10 ^ Z.of_nat 1 mod 10). rewrite dn. cbn [negb]. rewrite T5. cbn [obind].
    change (skipn 13 (upd T 13 46)) with (46 :: ndig n d ++ blanks (3 - n)). rewrite A1. reflexivity.
  - unfold count_digits. change (skipn 14 T) with (ndig n d ++ blanks (3 - n)). rewrite span_ndig, stops_span by apply stops_blanks. lia.
  - rewrite A2. unfold clock_part. repeat (rewrite inject_Z_mult || rewrite inject_Z_plus). change (inject_Z 3600) with 3600%Q. change (inject_Z 60) with 60%Q. field.
Qed.
Lemma packed_minutes_fields c yy y m day hh mm : century c yy y -> 0 <= m < 100 -> 0 <= day < 100 -> 0 <= hh < 100 -> 0 <= mm < 100 ->
  let T := packed_minutes c yy m day hh mm in
  exists q, fill_zeroes T (digit_bits T 1) = (T, digit_bits T 1) /\ date_fields T (digit_bits T 1) = Ret (q, y, m, 50, 0%nat) /\
    (q == inject_Z day + clock_part hh mm 0 0)%Q.
Proof.
  intros HC Hm Hday Hh Hmm T. destruct (century_hi c yy y HC) as (C1 & C2 & _ & C4). pose proof HC as (_ & HYY & _).
  assert (M : Z.land (digit_bits T 1) 1023 = 894).
  { unfold T, packed_minutes. cbn [ndig app]. apply bits_packed; [exact C1|reflexivity|indig]. }
  exists (inject_Z day + (inject_Z hh / 24 + inject_Z mm / 1440))%Q.
  split; [apply fill_not; now left|]. split.
  - unfold date_fields. change (nth 4 T 0) with (48 + m / 10 ^ Z.of_nat 0 mod 10). rewrite dn. change (nth 0 T 0) with c. rewrite C2. change (nth 7 T 0) with 58.
    rewrite M. change ((58 =? 46) || (58 =? 58)) with true. change (894 =? 894) with true. change (58 =? 58) with true. cbn [andb]. cbv iota.
    assert (T1 : get_two_digits T 1 = Ret yy) by (apply (two_digits_at [c] yy); lia).
    assert (T2 : get_two_digits T 3 = Ret m) by (apply (two_digits_at (c :: ndig 2 yy) m); lia).
    set (h8 := c :: ndig 2 yy ++ ndig 2 m ++ ndig 2 day ++ [58]).
    assert (T3 : get_two_digits T 8 = Ret hh) by (apply (two_digits_at h8 hh); lia).
    assert (T4 : get_two_digits T 10 = Ret mm) by (apply (two_digits_at (h8 ++ ndig 2 hh) mm); lia).
    assert (T6 : atof (skipn 5 T) = Ret (inject_Z day)) by (apply (atof_whole 1 day); [change (10 ^ Z.of_nat 2) with 100; lia|repeat split; discriminate]).
    rewrite T1. cbn [obind]. rewrite C4. cbn [obind]. rewrite T2. cbn [obind]. rewrite T6. cbn [obind]. rewrite T3. cbn [obind]. rewrite T4. cbn [obind].
    change (nth 12 T 0) with 32. reflexivity.
  - unfold clock_part. repeat (rewrite inject_Z_mult || rewrite inject_Z_plus). change (inject_Z 3600) with 3600%Q. change (inject_Z 60) with 60%Q. change (inject_Z 0) with 0%Q. field.
Qed.
Lemma clock_range hh mm ss s : 0 <= hh < 24 -> 0 <= mm < 60 -> 0 <= ss < 60 -> (0 <= s)%Q -> (s < 1)%Q ->
  (0 <= clock_part hh mm ss s)%Q /\ (clock_part hh mm ss s < 1)%Q.
Proof.
  intros Hh Hm Hs S0 S1. unfold clock_part.
  assert (B0 : (0 <= inject_Z (hh * 3600 + mm * 60 + ss))%Q) by (change 0%Q with (inject_Z 0); rewrite <- Zle_Qle; lia).
  assert (B1 : (inject_Z (hh * 3600 + mm * 60 + ss) <= 86399)%Q) by (change 86399%Q with (inject_Z 86399); rewrite <- Zle_Qle; lia).
  split; [apply Qle_shift_div_l; [reflexivity|]; lra|apply Qlt_shift_div_r; [reflexivity|]; lra].
Qed.
Lemma packed_time_read L note c yy y m day hh mm ss n d jd line : long_ok L -> century c yy y -> 0 <= hh < 24 -> 0 <= mm < 60 -> 0 <= ss < 60 -> (n <= 3)%nat -> 0 <= d < 10 ^ Z.of_nat n ->
  day_number L day m y jd -> ~ radar_note note -> report note (packed_time c yy m day hh mm ss n d) line ->
  date_reads L line (inject_Z jd - (1 # 2) + (inject_Z (hh * 3600 + mm * 60 + ss) + part n d) / 86400) (20 + Z.of_nat n).
Proof.
  intros HL HC Hh Hm Hs Hn Hd D Hnote HR. destruct (part_range n d Hd) as [P0 P1]. destruct (clock_range hh mm ss (part n d) Hh Hm Hs P0 P1) as [F0 F1].
  assert (Hc : ~ change_month y m day) by (unfold change_month, century in *; lia). assert (Hy : 0 <= y <= 9999) by (unfold century in HC; lia).
  destruct (packed_time_fields c yy y m day hh mm ss n d HC) as (q & E1 & E2 & E3 & E4); try assumption; try lia; try (destruct D; lia).
  destruct (add_month_ok L day m y jd q _ HL Hy D Hc F0 F1 E4) as (r & R1 & R2).
  exists r. rewrite (extract_line L _ _ _ HR), E1. cbv iota. rewrite E2. cbn [obind]. rewrite R1. cbn [obind]. rewrite radar_not by exact Hnote. rewrite E3.
  split; [reflexivity|exact R2].
Qed.
Lemma packed_minutes_read L note c yy y m day hh mm jd line : long_ok L -> century c yy y -> 0 <= hh < 24 -> 0 <= mm < 60 ->
  day_number L day m y jd -> ~ radar_note note -> report note (packed_minutes c yy m day hh mm) line ->
  date_reads L line (inject_Z jd - (1 # 2) + inject_Z (hh * 60 + mm) / 1440) 50.
Proof.
  intros HL HC Hh Hm D Hnote HR. destruct (clock_range hh mm 0 0 Hh Hm ltac:(lia) ltac:(lra) ltac:(lra)) as [F0 F1].
  assert (Hc : ~ change_month y m day) by (unfold change_month, century in *; lia). assert (Hy : 0 <= y <= 9999) by (unfold century in HC; lia).
  destruct (packed_minutes_fields c yy y m day hh mm HC) as (q & E1 & E2 & E4); try assumption; try lia; try (destruct D; lia).
  destruct (add_month_ok L day m y jd q _ HL Hy D Hc F0 F1 E4) as (r & R1 & R2).
  exists r. rewrite (extract_line L _ _ _ HR), E1. cbv iota. rewrite E2. cbn [obind]. rewrite R1. cbn [obind]. rewrite radar_not by exact Hnote.
  split; [reflexivity|]. rewrite R2. unfold clock_part. repeat (rewrite inject_Z_mult || rewrite inject_Z_plus). change (inject_Z 3600) with 3600%Q. change (inject_Z 60) with 60%Q. change (inject_Z 0) with 0%Q. field.
Qed.

(* ---------- day numbers ---------- *)
Lemma add_month_0 L v y : add_month L v y 0 = Ret v. Proof. reflexivity. Qed.
Lemma jd_read L note j n d line : 0 <= j < 10000000 -> (2 <= n <= 9)%nat -> 0 <= d < 10 ^ Z.of_nat n -> ~ radar_note note -> report note (jd_date j n d) line ->
  date_reads L line (inject_Z j + part n d) (10 + Z.of_nat n).
Proof.
  intros Hj Hn Hd Hnote HR. destruct n as [|[|n]]; [lia|lia|]. set (p := S (S n)) in *. set (T := jd_date j p d) in *.
  assert (M : Z.land (digit_bits T 1) 1023 = 895).
  { unfold T, jd_date, p. cbn [ndig app].
    match goal with |- Z.land (digit_bits (?a0 :: ?a1 :: ?a2 :: ?a3 :: ?a4 :: ?a5 :: ?a6 :: ?a7 :: ?a8 :: ?a9 :: ?r) 1) 1023 = _ =>
      transitivity (digit_bits [a0; a1; a2; a3; a4; a5; a6; a7; a8; a9] 1); [exact (bits_10 [a0; a1; a2; a3; a4; a5; a6; a7; a8; a9] r eq_refl)|] end.
    cbn [digit_bits]. rewrite !dd. reflexivity. }
  destruct (atof_parts 7 j p d (blanks (9 - p))) as (q & Q1 & Q2); [cbn; lia|exact Hd|lia|apply blanks_end|].
  exists q. rewrite (extract_line L _ _ _ HR). fold T. rewrite (fill_not T) by now right. cbv iota.
  assert (E : date_fields T (digit_bits T 1) = Ret (q, 0, 0, 10, 8%nat)).
  { unfold date_fields. change (nth 4 T 0) with (48 + j / 10 ^ Z.of_nat 2 mod 10). rewrite dn. change (nth 7 T 0) with 46. rewrite land_1022, M.
    change (nth 0 T 0) with (48 + j / 10 ^ Z.of_nat 6 mod 10). pose proof (Z.mod_pos_bound (j / 10 ^ Z.of_nat 6) 10 ltac:(lia)).
    destruct (Z.leb_spec 72 (48 + j / 10 ^ Z.of_nat 6 mod 10)); [lia|]. destruct (Z.eqb_spec (48 + j / 10 ^ Z.of_nat 6 mod 10) 77); [lia|]. cbn [andb].
    change (46 =? 46) with true. change (Z.land 895 1022 =? 894) with true. cbv iota. change T with (ndig 7 j ++ 46 :: ndig p d ++ blanks (9 - p)). rewrite Q1. reflexivity. }
  rewrite E. cbn [obind]. rewrite add_month_0. cbn [obind]. rewrite radar_not by exact Hnote. split; [|exact Q2].
  unfold count_digits. change (skipn 8 T) with (ndig p d ++ blanks (9 - p)). rewrite span_ndig, stops_span by apply stops_blanks. repeat f_equal. lia.
Qed.
Lemma mjd_read L note j n d line : 0 <= j < 1000000 -> (2 <= n <= 9)%nat -> 0 <= d < 10 ^ Z.of_nat n -> ~ radar_note note -> report note (mjd_date j n d) line ->
  date_reads L line (inject_Z (2400000 + j) + (1 # 2) + part n d) (40 + Z.of_nat n).
Proof.
  intros Hj Hn Hd Hnote HR. destruct n as [|[|n]]; [lia|lia|]. set (p := S (S n)) in *. set (T := mjd_date j p d) in *.
  assert (M : Z.land (digit_bits T 1) 1023 = 894).
  { unfold T, mjd_date, p. cbn [ndig app]. apply bits_packed; [reflexivity|reflexivity|indig]. }
  destruct (atof_parts 6 j p d (blanks (9 - p))) as (q & Q1 & Q2); [cbn; lia|exact Hd|lia|apply blanks_end|].
  exists ((24000005 # 10) + q)%Q. rewrite (extract_line L _ _ _ HR). fold T. rewrite (fill_not T) by now left. cbv iota.
  assert (E : date_fields T (digit_bits T 1) = Ret (((24000005 # 10) + q)%Q, 0, 0, 40, 8%nat)).
  { unfold date_fields. change (nth 4 T 0) with (48 + j / 10 ^ Z.of_nat 2 mod 10). rewrite dn. change (nth 7 T 0) with 46. rewrite land_1022, M.
    change (nth 0 T 0) with 77. change ((72 <=? 77) && (77 <=? 75)) with false. change (77 =? 77) with true.
    change (46 =? 46) with true. change (Z.land 894 1022 =? 894) with true. cbv iota. change (skipn 1 T) with (ndig 6 j ++ 46 :: ndig p d ++ blanks (9 - p)). rewrite Q1. reflexivity. }
  rewrite E. cbn [obind]. rewrite add_month_0. cbn [obind]. rewrite radar_not by exact Hnote. split.
  - unfold count_digits. change (skipn 8 T) with (ndig p d ++ blanks (9 - p)). rewrite span_ndig, stops_span by apply stops_blanks. repeat f_equal. lia.
  - rewrite Q2, inject_Z_plus. change (inject_Z 2400000) with 2400000%Q. ring.
Qed.
