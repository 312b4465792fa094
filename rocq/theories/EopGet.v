(** Parameters out of the columns. *)
From Coq Require Import QArith Qabs Qreals Reals Lra Lia String.
From Verif Require Import RBase CBase CStr TstrModel SplineModel RotModel EopModel EopSpec EopProofs EopLoad.
Import ListNotations.
Local Open Scope list_scope.
Local Open Scope Z_scope.

Lemma floor_int_ok K t x : x = (IZR K + t)%R -> (0 <= t < 1)%R -> -2147483648 <= K <= 2147483647 -> floor_int x = Ret K.
Proof.
  intros -> T B. unfold floor_int. rewrite (IntPart K) by lra.
  rewrite (proj2 (Z.leb_le _ K)), (proj2 (Z.leb_le K _)) by lia. reflexivity.
Qed.
Lemma spline_in data size c n K t x (v : nat -> R) : x = (IZR K + t)%R -> (0 <= t < 1)%R -> -2147483648 <= K <= 2147483647 ->
  (c < 5)%nat -> List.length data = Z.to_nat (5 * size) -> 0 <= n <= size -> 1 <= K <= n - 3 ->
  (forall j, (j < Z.to_nat n)%nat -> cell data size c j = v j) ->
  exists r, spline data (size * Z.of_nat c) n x = Ret (r, 0) /\ between v (Z.to_nat K) t r.
Proof.
  intros Ex T B Hc L N HK C. unfold spline. rewrite (floor_int_ok K t x) by assumption. cbn [obind].
  rewrite (proj2 (Z.ltb_ge K 1)), (proj2 (Z.ltb_ge (n - 3) K)) by lia.
  set (k := Z.to_nat K). assert (Hk : K = Z.of_nat k) by (unfold k; lia).
  assert (RD : forall o, -1 <= o <= 2 -> rd data (size * Z.of_nat c + K + o) = Ret (v (Z.to_nat (K + o)))).
  { intros o Ho. rewrite rd_ok by nia. rewrite <- C by lia. unfold cell. f_equal. f_equal. f_equal. lia. }
  pose proof (RD 1 ltac:(lia)) as R1. pose proof (RD (-1) ltac:(lia)) as Rm. pose proof (RD 0 ltac:(lia)) as R0. pose proof (RD 2 ltac:(lia)) as R2.
  replace (size * Z.of_nat c + K + -1) with (size * Z.of_nat c + K - 1) in Rm by lia. rewrite Z.add_0_r in R0.
  rewrite R1, Rm, R0, R2. cbn [obind]. eexists. split; [reflexivity|].
  replace (Z.to_nat (K + 1)) with (k + 1)%nat by lia. replace (Z.to_nat (K + -1)) with (k - 1)%nat by lia. replace (Z.to_nat (K + 0)) with k by lia. replace (Z.to_nat (K + 2)) with (k + 2)%nat by lia.
  replace (x - IZR K)%R with t by (rewrite Ex; lra). unfold between. fold k.
  set (c1 := ((v (k + 1)%nat - v (k - 1)%nat) * (1 / 2))%R). set (y1 := (v (k + 1)%nat - v k)%R).
  exists ((v (k + 2)%nat - v k) * (1 / 2) - 2 * y1 + c1)%R. eexists. exists c1. split; [|split; [|split]]; [| |unfold c1; lra|].
  2:{ instantiate (1 := (y1 - ((v (k + 2)%nat - v k) * (1 / 2) - 2 * y1 + c1) - c1)%R). unfold y1. lra. }
  { ring. } { unfold y1. lra. }
Qed.
Lemma spline_out data size c n K t x : x = (IZR K + t)%R -> (0 <= t < 1)%R -> -2147483648 <= K <= 2147483647 ->
  (c < 5)%nat -> List.length data = Z.to_nat (5 * size) -> 0 <= n <= size -> 4 <= size -> ((c < 3)%nat -> 4 <= n) -> ~ (1 <= K <= n - 3) ->
  exists r e, spline data (size * Z.of_nat c) n x = Ret (r, e) /\ e <> 0.
Proof.
  intros Ex T B Hc L N S4 C3 HK. unfold spline. rewrite (floor_int_ok K t x) by assumption. cbn [obind].
  assert (B4 : 4 <= size * Z.of_nat c + n) by (destruct (Nat.lt_ge_cases c 3) as [H|H]; [specialize (C3 H)|]; nia).
  destruct (Z.ltb_spec K 1) as [H|H].
  - rewrite !rd_ok by nia. cbn [obind]. eexists. eexists. split; [reflexivity|]. destruct (K <? 0); lia.
  - rewrite (proj2 (Z.ltb_lt (n - 3) K)) by lia. rewrite !rd_ok by nia. cbn [obind]. eexists. eexists. split; [reflexivity|]. destruct (n - 2 <? K); lia.
Qed.

(** ---- the request ---- *)
Definition loaded (days : list day) (tai : nat -> Z) (m : nat) (m0 : Z) (s : statics) : Prop :=
  exists data, eop_data s = Some data /\ good days tai m (eop_size s) (List.length days) data /\
    eop_usable s = Z.of_nat (List.length days) /\ eop_usable_nutation s = Z.of_nat m /\ (m <= List.length days)%nat /\
    (eop_jd0 s == inject_Z m0 + (24000005 # 10))%Q /\ 16371 <= Z.of_nat (List.length days) <= eop_size s.

Definition count_of (days : list day) (m i : nat) : Z := if (i <? 3)%nat then Z.of_nat (List.length days) else Z.of_nat m.
Definition slot (days : list day) (tai : nat -> Z) (m : nat) (mask K : Z) (t : R) (i : nat) (b : bool) (r : R) : Prop :=
  if Z.testbit mask (Z.of_nat i) then
    if (1 <=? K) && (K <=? count_of days m i - 3) then b = false /\ between (on_day days tai i) (Z.to_nat K) t r else b = true /\ r = 0%R
  else b = false /\ r = 0%R.

Section Get.
Variables (days : list day) (tai : nat -> Z) (m : nat) (m0 : Z) (s : statics) (data : list R).
Hypothesis G : good days tai m (eop_size s) (List.length days) data.
Hypothesis U : eop_usable s = Z.of_nat (List.length days).
Hypothesis UN : eop_usable_nutation s = Z.of_nat m.
Hypothesis M : (m <= List.length days)%nat.
Hypothesis S : 16371 <= Z.of_nat (List.length days) <= eop_size s.
Variables (mask K : Z) (t : R) (x : R).
Hypothesis X : x = (IZR K + t)%R.
Hypothesis T : (0 <= t < 1)%R.
Hypothesis B : -2147483648 <= K <= 2147483647.

Lemma slot_ok i rval : (i < 5)%nat -> exists b r,
  (if Z.testbit mask (Z.of_nat i) then
     do '(result, t_rval) <- spline data (eop_size s * Z.of_nat i) (if Z.of_nat i <? 3 then eop_usable s else eop_usable_nutation s) x;
     if negb (t_rval =? 0) then Ret (Z.lor rval (2 ^ Z.of_nat i), 0%R) else Ret (rval, result)
   else Ret (rval, 0%R)) = Ret (if b : bool then Z.lor rval (2 ^ Z.of_nat i) else rval, r) /\ slot days tai m mask K t i b r.
Proof.
  intros I. unfold slot. destruct (Z.testbit mask (Z.of_nat i)).
  2:{ exists false, 0%R. split; [reflexivity|split; reflexivity]. }
  replace (if Z.of_nat i <? 3 then eop_usable s else eop_usable_nutation s) with (count_of days m i).
  2:{ unfold count_of. rewrite U, UN. destruct (Nat.ltb_spec i 3), (Z.ltb_spec (Z.of_nat i) 3); (reflexivity || lia). }
  assert (CB : 0 <= count_of days m i <= eop_size s) by (unfold count_of; destruct (i <? 3)%nat; lia).
  destruct G as (GL & GC).
  destruct (Z.leb_spec 1 K) as [K1|K1]; [destruct (Z.leb_spec K (count_of days m i - 3)) as [K2|K2]|]; cbn [andb].
  - destruct (spline_in data (eop_size s) i (count_of days m i) K t x (on_day days tai i) X T B I GL CB ltac:(lia)) as (r & -> & BT).
    { intros j Hj. unfold count_of in Hj. destruct (Nat.ltb_spec i 3) as [H|H]; apply GC; lia. }
    cbn [obind Z.eqb negb]. exists false, r. split; [reflexivity|now split].
  - destruct (spline_out data (eop_size s) i (count_of days m i) K t x X T B I GL CB ltac:(lia)) as (r & e & -> & BT); [|lia|].
    { intros H. unfold count_of. rewrite (proj2 (Nat.ltb_lt _ _) H). lia. }
    cbn [obind]. rewrite (proj2 (Z.eqb_neq _ _) BT). cbn [negb]. exists true, 0%R. split; [reflexivity|now split].
  - destruct (spline_out data (eop_size s) i (count_of days m i) K t x X T B I GL CB ltac:(lia)) as (r & e & -> & BT); [|lia|].
    { intros H. unfold count_of. rewrite (proj2 (Nat.ltb_lt _ _) H). lia. }
    cbn [obind]. rewrite (proj2 (Z.eqb_neq _ _) BT). cbn [negb]. exists true, 0%R. split; [reflexivity|now split].
Qed.

Lemma loop_ok : exists rval p, answer (on_day days tai) (count_of days m) mask K t rval p /\
  get_loop 5 0 s data x mask 0 = Ret (rval, [p 0%nat; p 1%nat; p 2%nat; p 3%nat; p 4%nat]).
Proof.
  cbn [get_loop]. change 0 with (Z.of_nat 0) at 1 2 3. change (0 + 1) with (Z.of_nat 1). 
  change (Z.of_nat 1 + 1) with (Z.of_nat 2). change (Z.of_nat 2 + 1) with (Z.of_nat 3). change (Z.of_nat 3 + 1) with (Z.of_nat 4).
  destruct (slot_ok 0 0 ltac:(lia)) as (b0 & r0 & E0 & S0). change (Z.of_nat 0) with 0 in E0 |- *. rewrite E0. cbn [obind].
  destruct (slot_ok 1 (if b0 then Z.lor 0 (2 ^ 0) else 0) ltac:(lia)) as (b1 & r1 & E1 & S1). change (Z.of_nat 1) with 1 in E1 |- *. rewrite E1. cbn [obind].
  match goal with |- context[Z.lor ?a (2 ^ 1)] => set (v1 := if b1 then Z.lor a (2 ^ 1) else a) in * end.
  destruct (slot_ok 2 v1 ltac:(lia)) as (b2 & r2 & E2 & S2). change (Z.of_nat 2) with 2 in E2 |- *. rewrite E2. cbn [obind].
  match goal with |- context[Z.lor ?a (2 ^ 2)] => set (v2 := if b2 then Z.lor a (2 ^ 2) else a) in * end.
  destruct (slot_ok 3 v2 ltac:(lia)) as (b3 & r3 & E3 & S3). change (Z.of_nat 3) with 3 in E3 |- *. rewrite E3. cbn [obind].
  match goal with |- context[Z.lor ?a (2 ^ 3)] => set (v3 := if b3 then Z.lor a (2 ^ 3) else a) in * end.
  destruct (slot_ok 4 v3 ltac:(lia)) as (b4 & r4 & E4 & S4). change (Z.of_nat 4) with 4 in E4 |- *. rewrite E4. cbn [obind].
  match goal with |- context[Z.lor ?a (2 ^ 4)] => set (v4 := if b4 then Z.lor a (2 ^ 4) else a) in * end.
  exists v4, (fun i => nth i [r0; r1; r2; r3; r4] 0%R). split; [|reflexivity].
  assert (BITS : 0 <= v4 < 32 /\ Z.testbit v4 0 = b0 /\ Z.testbit v4 1 = b1 /\ Z.testbit v4 2 = b2 /\ Z.testbit v4 3 = b3 /\ Z.testbit v4 4 = b4).
  { unfold v4, v3, v2, v1. clear. destruct b0, b1, b2, b3, b4; vm_compute; repeat split; (reflexivity || discriminate). }
  destruct BITS as (BB & B0 & B1 & B2 & B3 & B4). split; [exact BB|]. intros i I. unfold slot in *.
  destruct i as [|[|[|[|[|]]]]]; [| | | | |lia]; cbn [nth Z.of_nat Pos.of_succ_nat Pos.succ]; rewrite ?B0, ?B1, ?B2, ?B3, ?B4; assumption.
Qed.
End Get.
