(** full_ctimel( ): Julian days and years. *)
From Coq Require Import Lia ZifyBool QArith Qround Qabs Lqa.
From Coq Require Import String.
From Verif Require Import CBase CLemmas CStr StrModel StrProofs DateModel DateVocab TstrModel CtimeModel CtimeSpec CtimeBuf CtimeProofs CtimeText.
From Verif Require DesigBase.
Local Open Scope string_scope.
Local Open Scope list_scope.
Local Open Scope Z_scope.

(* ---------- numbers ---------- *)
Lemma digits_more n : forall v k acc, 0 <= v < 10 ^ Z.of_nat n -> (1 <= n)%nat -> digits (n + k) v acc = digits n v acc.
Proof.
  induction n as [|n IH]; intros v k acc Hv Hn; [lia|]. cbn [digits Nat.add].
  destruct (Z.eqb_spec (v / 10) 0) as [E|E]; [reflexivity|]. rewrite Nat2Z.inj_succ, Z.pow_succ_r in Hv by lia.
  apply IH; [lia|]. destruct n; [cbn in Hv; lia|lia].
Qed.
Lemma digits_dec v : 0 <= v < 10 ^ 20 -> digits 100 v [] = dec v.
Proof. intros H. unfold dec. destruct (Z.ltb_spec v 0); [lia|]. apply (digits_more 20 v 80 []); lia. Qed.
Lemma ndig_snoc p : forall v, ndig (S p) v = ndig p (v / 10) ++ [48 + v mod 10].
Proof.
  induction p as [|p IH]; intros v.
  - cbn [ndig app]. change (10 ^ Z.of_nat 0) with 1. now rewrite Z.div_1_r.
  - change (ndig (S (S p)) v) with (48 + v / 10 ^ Z.of_nat (S p) mod 10 :: ndig (S p) v). rewrite IH.
    change (ndig (S p) (v / 10)) with (48 + v / 10 / 10 ^ Z.of_nat p mod 10 :: ndig p (v / 10)).
    rewrite Nat2Z.inj_succ, Z.pow_succ_r by lia. rewrite Z.div_div by (try lia; apply Z.pow_pos_nonneg; lia). reflexivity.
Qed.
Lemma digits_ndig w : forall m v, 0 <= v < 10 ^ Z.of_nat w -> (1 <= w <= m)%nat ->
  repeat 48 (w - List.length (digits m v [])) ++ digits m v [] = ndig w v /\ (List.length (digits m v []) <= w)%nat.
Proof.
  induction w as [|w IH]; intros m v Hv Hw; [lia|]. destruct m as [|m]; [lia|]. cbn [digits].
  rewrite Nat2Z.inj_succ, Z.pow_succ_r in Hv by lia.
  destruct (Z.eqb_spec (v / 10) 0) as [E|E].
  - cbn [List.length]. replace (S w - 1)%nat with w by lia. split; [|lia]. rewrite ndig_snoc, E. f_equal.
    clear. induction w as [|w IH]; [reflexivity|]. cbn [repeat ndig]. rewrite <- IH. rewrite Zdiv_0_l. reflexivity.
  - destruct w as [|w]; [cbn in Hv; lia|].
    rewrite DesigBase.digits_app, app_length. cbn [List.length]. destruct (IH m (v / 10) ltac:(lia) ltac:(lia)) as [A B].
    replace (S (S w) - (List.length (digits m (v / 10) []) + 1))%nat with (S w - List.length (digits m (v / 10) []))%nat by lia.
    rewrite app_assoc, A, (ndig_snoc (S w) v). split; [reflexivity|lia].
Qed.
Lemma pad0_is_ndig w v : 0 <= v < 10 ^ Z.of_nat w -> (1 <= w <= 20)%nat -> pad0 w v = ndig w v.
Proof.
  intros Hv Hw. unfold pad0. cbv zeta. rewrite Z.abs_eq by lia. destruct (Z.ltb_spec v 0); [lia|]. cbn [app List.length]. rewrite Nat.sub_0_r.
  now apply digits_ndig.
Qed.

Lemma nearest_ok q : (0 <= q)%Q -> 0 <= nearest q /\ (Qabs (inject_Z (nearest q) - q) <= 1 # 2)%Q.
Proof.
  intros H. pose proof (floor_bounds q) as [A B]. unfold nearest. cbv zeta. set (f := Qfloor q) in *.
  assert (F : 0 <= f).
  { destruct (Z.lt_ge_cases f 0) as [G|G]; [|lia]. assert (f + 1 <= 0) by lia. assert (inject_Z (f + 1) <= inject_Z 0)%Q by (rewrite <- Zle_Qle; lia).
    rewrite inject_Z_plus in *. change (inject_Z 1) with 1%Q in *. change (inject_Z 0) with 0%Q in *. lra. }
  assert (U : (q - inject_Z f <= 1 # 2)%Q -> 0 <= f /\ (Qabs (inject_Z f - q) <= 1 # 2)%Q).
  { intros E. split; [lia|]. apply Qabs_case; intros; lra. }
  assert (V : (1 # 2 <= q - inject_Z f)%Q -> 0 <= f + 1 /\ (Qabs (inject_Z (f + 1) - q) <= 1 # 2)%Q).
  { intros E. split; [lia|]. rewrite inject_Z_plus. change (inject_Z 1) with 1%Q. apply Qabs_case; intros; lra. }
  destruct (Qcompare_spec (q - inject_Z f) (1 # 2)) as [E|E|E].
  - destruct (Z.even f); [apply U|apply V]; lra.
  - apply U. lra.
  - apply V. lra.
Qed.
Lemma nearest_intro q z : (inject_Z z - (1 # 2) < q)%Q -> (q < inject_Z z + (1 # 2))%Q -> (0 <= q)%Q -> nearest q = z.
Proof.
  intros A B H. destruct (nearest_ok q H) as [_ C]. apply Qabs_Qle_condition in C. destruct C as [C D].
  assert (E : (inject_Z (nearest q) < inject_Z (z + 1))%Q) by (rewrite inject_Z_plus; change (inject_Z 1) with 1%Q; lra).
  assert (F : (inject_Z z < inject_Z (nearest q + 1))%Q) by (rewrite inject_Z_plus; change (inject_Z 1) with 1%Q; lra).
  rewrite <- Zlt_Qlt in E, F. lia.
Qed.

(** What %.pLf writes, for numbers below 10^19. *)
Lemma fixed_ok p x : (p <= 16)%nat -> (Qabs x <= inject_Z (10 ^ 19))%Q ->
  exists v, fixed p x = minus x ++ fixed_text p v /\ 0 <= v < 10 ^ 20 * 10 ^ Z.of_nat p /\
    (Qabs (inject_Z v - Qabs x * inject_Z (10 ^ Z.of_nat p)) <= 1 # 2)%Q /\ v = nearest (Qabs x * inject_Z (10 ^ Z.of_nat p)).
Proof.
  intros Hp Hx. unfold fixed. cbv zeta.
  assert (P : 0 < 10 ^ Z.of_nat p) by (apply Z.pow_pos_nonneg; lia).
  assert (QP : (0 < inject_Z (10 ^ Z.of_nat p))%Q) by (change 0%Q with (inject_Z 0); now rewrite <- Zlt_Qlt).
  assert (En : forall a b, (a == b)%Q -> nearest a = nearest b).
  { intros a b E. unfold nearest. cbv zeta. rewrite (Qfloor_comp _ _ E). setoid_rewrite E at 1. reflexivity. }
  assert (Hneg : (match Qcompare x 0 with Lt => [45] | _ => [] end = minus x) /\
    (match Qcompare x 0 with Lt => - x | _ => x end == Qabs x)%Q).
  { unfold minus. destruct (Qcompare_spec x 0) as [E|E|E].
    - assert (Qle_bool 0 x = true) as -> by (apply Qle_bool_iff; lra). split; [reflexivity|]. rewrite Qabs_pos; lra.
    - assert (Qle_bool 0 x = false) as -> by (apply not_true_is_false; rewrite Qle_bool_iff; lra). split; [reflexivity|]. rewrite Qabs_neg; lra.
    - assert (Qle_bool 0 x = true) as -> by (apply Qle_bool_iff; lra). split; [reflexivity|]. rewrite Qabs_pos; lra. }
  destruct Hneg as [N1 N2].
  set (v := nearest (Qabs x * inject_Z (10 ^ Z.of_nat p))).
  assert (Ev : nearest ((if match (x ?= 0)%Q with Lt => true | _ => false end then - x else x) * inject_Z (10 ^ Z.of_nat p)) = v).
  { apply En. destruct (x ?= 0)%Q; now rewrite <- N2. }
  rewrite Ev. exists v.
  destruct (nearest_ok (Qabs x * inject_Z (10 ^ Z.of_nat p))) as [V0 V1]. { apply Qmult_le_0_compat; [apply Qabs_nonneg|lra]. }
  fold v in V0, V1.
  assert (V2 : v < 10 ^ 20 * 10 ^ Z.of_nat p).
  { assert (G : (Qabs x * inject_Z (10 ^ Z.of_nat p) <= inject_Z (10 ^ 19) * inject_Z (10 ^ Z.of_nat p))%Q) by (apply Qmult_le_compat_r; lra).
    rewrite <- inject_Z_mult in G. apply Qabs_Qle_condition in V1. destruct V1 as [_ V1].
    assert (H : (inject_Z v < inject_Z (10 ^ 19 * 10 ^ Z.of_nat p + 1))%Q) by (rewrite inject_Z_plus; change (inject_Z 1) with 1%Q; lra).
    rewrite <- Zlt_Qlt in H. nia. }
  split; [|split; [lia|split; [exact V1|reflexivity]]].
  unfold fixed_text. replace (if match (x ?= 0)%Q with Lt => true | _ => false end then [45] else []) with (minus x) by (rewrite <- N1; destruct (x ?= 0)%Q; reflexivity).
  rewrite digits_dec by (split; [apply Z.div_pos; lia|apply Z.div_lt_upper_bound; lia]).
  f_equal. f_equal. unfold decimals. destruct p; [reflexivity|]. rewrite pad0_is_ndig by (try lia; apply Z.mod_pos_bound; lia). reflexivity.
Qed.
Lemma minus_facts x : (List.length (minus x) <= 1)%nat /\ no_nul (minus x).
Proof. unfold minus. destruct (Qle_bool 0 x); [split; [cbn; lia|intros c []]|]. split; [cbn; lia|]. intros c [<-|[]]. discriminate. Qed.
Lemma fixed_text_facts p v : 0 <= v < 10 ^ 20 * 10 ^ Z.of_nat p -> (p <= 16)%nat ->
  (List.length (fixed_text p v) <= 38)%nat /\ no_nul (fixed_text p v).
Proof.
  intros Hv Hp. assert (P : 0 < 10 ^ Z.of_nat p) by (apply Z.pow_pos_nonneg; lia). unfold fixed_text. split.
  - rewrite app_length. pose proof (decimals_len p (v mod 10 ^ Z.of_nat p)).
    pose proof (dec_len 20 (v / 10 ^ Z.of_nat p) ltac:(change (10 ^ Z.of_nat 20) with (10 ^ 20); rewrite Z.abs_eq by (apply Z.div_pos; lia); apply Z.div_lt_upper_bound; lia) ltac:(lia)). lia.
  - apply no_nul_app; [apply dec_nul|apply decimals_nul].
Qed.

(* ---------- buffers ---------- *)
Lemma vsn_short b off n out : (List.length out < n)%nat -> vsnprintf b off n out = vsnprintf b off (S (List.length out)) out.
Proof. intros H. destruct n as [|n]; [lia|]. cbn [vsnprintf]. rewrite !firstn_all2 by lia. reflexivity. Qed.
Lemma err_at (pre room post : buf) n out : (List.length out < n)%nat -> (List.length out < List.length room)%nat ->
  snprintf_err (pre ++ room ++ post) (Z.of_nat (List.length pre)) n out
  = Ret (Z.of_nat (List.length out), pre ++ map Some out ++ Some 0 :: skipn (S (List.length out)) room ++ post).
Proof.
  intros Hn Hr. pose proof (snprintf_err_exact pre room post out) as E. unfold snprintf_err in *.
  rewrite vsn_short in E by lia. rewrite vsn_short by lia.
  destruct (Nat.ltb_spec (List.length out) (List.length room)); [|lia].
  destruct (vsnprintf _ _ _ _) as [[r b']| | |]; cbn [obind] in *; try discriminate E.
  destruct (Z.of_nat (List.length room) <=? r); [discriminate E|]. injection E as -> ->.
  destruct (Z.leb_spec (Z.of_nat n) (Z.of_nat (List.length out))); [lia|]. rewrite <- !app_assoc. cbn [app]. reflexivity.
Qed.
Lemma zero_loop_ok : forall k (pre : buf) c tl f, c <> 32 -> (k < f)%nat ->
  zero_loop f (pre ++ map Some (repeat 32 k) ++ Some c :: tl) (Z.of_nat (List.length pre))
  = Ret (pre ++ map Some (repeat 48 k) ++ Some c :: tl).
Proof.
  induction k as [|k IH]; intros pre c tl f Hc Hf; (destruct f as [|f]; [lia|]); cbn [zero_loop repeat map app].
  - rewrite (rd_at _ pre c tl eq_refl). cbn [obind]. destruct (Z.eqb_spec c 32); [contradiction|reflexivity].
  - rewrite (rd_at _ pre 32 (map Some (repeat 32 k) ++ Some c :: tl) eq_refl). cbn [obind]. change (32 =? 32) with true. cbv iota.
    rewrite (wr_at _ pre (Some 32) (map Some (repeat 32 k) ++ Some c :: tl) 48 eq_refl). cbn [obind].
    replace (pre ++ Some 48 :: map Some (repeat 32 k) ++ Some c :: tl) with ((pre ++ [Some 48]) ++ map Some (repeat 32 k) ++ Some c :: tl) by (rewrite <- app_assoc; reflexivity).
    replace (Z.of_nat (List.length pre) + 1) with (Z.of_nat (List.length (pre ++ [Some 48]))) by (rewrite app_length; cbn; lia).
    rewrite IH by (try assumption; lia). now rewrite <- app_assoc.
Qed.


Lemma fixed_comp p a b : (a == b)%Q -> fixed p a = fixed p b.
Proof.
  intros E. unfold fixed. cbv zeta.
  assert (C : (a ?= 0)%Q = (b ?= 0)%Q) by now rewrite E. rewrite C.
  assert (En : forall a b, (a == b)%Q -> nearest a = nearest b).
  { intros u v F. unfold nearest. cbv zeta. rewrite (Qfloor_comp _ _ F). setoid_rewrite F at 1. reflexivity. }
  set (ng := match (b ?= 0)%Q with Lt => true | _ => false end).
  assert (F : nearest ((if ng then - a else a) * inject_Z (10 ^ Z.of_nat p)) = nearest ((if ng then - b else b) * inject_Z (10 ^ Z.of_nat p))) by (apply En; destruct ng; now rewrite E).
  rewrite F. reflexivity.
Qed.
Lemma nudge_1 fmt : ((if has fmt 2097152 then tenths (places fmt) 1 * ((1 # 2) / inject_Z 1) else tenths (places fmt) 1 * ((5 # 100) / 86400)) == nudge fmt 1)%Q.
Proof.
  pose proof (pow_q (places fmt)) as P.
  unfold nudge, last_place. destruct (has fmt 2097152); rewrite tenths_eq, inject_Z_mult.
  - change (inject_Z 1) with 1%Q. field. exact P.
  - change (inject_Z 1728000) with 1728000%Q. field. exact P.
Qed.

Lemma jd_text L t fmt : style fmt = 1280 \/ style fmt = 1536 ->
  let x := (t + nudge fmt 1 + jd_base fmt)%Q in (Qabs x <= inject_Z (10 ^ 19))%Q ->
  let v := nearest (Qabs x * inject_Z (10 ^ Z.of_nat (places fmt))) in
  writes L t fmt (jd_mark fmt ++ minus x ++ fixed_text (places fmt) v) /\
  0 <= v < 10 ^ 20 * 10 ^ Z.of_nat (places fmt) /\ (Qabs (inject_Z v - Qabs x * inject_Z (10 ^ Z.of_nat (places fmt))) <= 1 # 2)%Q.
Proof.
  intros Hs x Hx v. pose proof (places_15 fmt) as P15. destruct (fixed_ok (places fmt) x ltac:(lia) Hx) as (v' & E & Hv & Hb & Ev).
  fold v in Ev. subst v'. split; [|split; assumption].
  destruct (minus_facts x) as [Lm Nm]. destruct (fixed_text_facts (places fmt) v Hv ltac:(lia)) as [Lf Nf].
  set (s := jd_mark fmt ++ minus x ++ fixed_text (places fmt) v).
  assert (Ns : no_nul s).
  { unfold s. apply no_nul_app; [|now apply no_nul_app]. unfold jd_mark. destruct (style fmt =? 1280); intros c Hc; cbn in Hc; intuition (subst; discriminate). }
  split; [exact Ns|]. exists 0%nat. intros fuel ic month0 room post _ Hroom.
  unfold full_ctimel. cbv zeta. change (Z.land fmt FULL_CTIME_FORMAT_MASK) with (style fmt).
  change (Z.to_nat (Z.land (Z.shiftr fmt 4) 15)) with (places fmt).
  change FULL_CTIME_FORMAT_SECONDS with 0. change FULL_CTIME_FORMAT_HH_MM with 256. change FULL_CTIME_FORMAT_HH with 512.
  change FULL_CTIME_FORMAT_YEAR with 1024. change FULL_CTIME_FORMAT_JD with 1280. change FULL_CTIME_FORMAT_MJD with 1536. change FULL_CTIME_ROUNDING with 2097152.
  unfold show_jd. change FULL_CTIME_LEADING_ZEROES with 32768.
  assert (Zl : forall (pre tl : buf) f, (0 < f)%nat -> zero_loop f (pre ++ Some 74 :: tl) (Z.of_nat (List.length pre)) = Ret (pre ++ Some 74 :: tl)).
  { intros pre tl f Hf. apply (zero_loop_ok 0 pre 74 tl f); [discriminate|exact Hf]. }
  unfold s, jd_mark in *.
  destruct Hs as [Es|Es]; rewrite Es; cbn [Z.eqb Pos.eqb orb].
  - set (a := (if has fmt 2097152 then tenths (places fmt) 1 * ((1 # 2) / inject_Z 1) else tenths (places fmt) 1 * ((5 # 100) / 86400))%Q).
    assert (Ex : (t + a + (2451545 # 1) == x)%Q) by (unfold a, x; rewrite nudge_1; unfold jd_base; rewrite Es; reflexivity).
    cbn [obind]. rewrite (fixed_comp _ _ _ Ex), E.
    set (out := zs "JD " ++ minus x ++ fixed_text (places fmt) v).
    assert (Lo : (List.length out < 80)%nat) by (unfold out; rewrite !app_length; cbn [zs List.length]; lia).
    pose proof (err_at [] room post 80 out Lo ltac:(lia)) as G. cbn [app List.length] in G. change (Z.of_nat 0) with 0 in G. rewrite G. cbn [obind].
    exists (skipn (S (List.length out)) room). split; [|rewrite skipn_length; lia].
    destruct (has fmt 32768); [|reflexivity]. unfold out. cbn [zs app map]. exact (Zl [] _ _ (Nat.lt_0_succ _)).
  - set (a := (if has fmt 2097152 then tenths (places fmt) 1 * ((1 # 2) / inject_Z 1) else tenths (places fmt) 1 * ((5 # 100) / 86400))%Q).
    assert (Ex : (t + a + ((2451545 # 1) - (24000005 # 10)) == x)%Q) by (unfold a, x; rewrite nudge_1; unfold jd_base; rewrite Es; cbn [Z.eqb Pos.eqb]; ring).
    destruct room as [|o room]; [discriminate Hroom|]. cbn [app]. change (wr (o :: room ++ post) 0 77) with (@Ret buf (Some 77 :: room ++ post)). cbn [obind].
    rewrite (fixed_comp _ _ _ Ex), E.
    set (out := zs "JD " ++ minus x ++ fixed_text (places fmt) v).
    assert (Lo : (List.length out < 79)%nat) by (unfold out; rewrite !app_length; cbn [zs List.length]; lia).
    cbn [List.length] in Hroom.
    pose proof (err_at [Some 77] room post 80 out ltac:(lia) ltac:(lia)) as G. cbn [app List.length] in G. change (Z.of_nat 1) with 1 in G. rewrite G. cbn [obind].
    exists (skipn (S (List.length out)) room).
    assert (ER : forall tl, zs "MJD " ++ minus x ++ fixed_text (places fmt) v = 77 :: out -> Some 77 :: map Some out ++ Some 0 :: tl = map Some (zs "MJD " ++ minus x ++ fixed_text (places fmt) v) ++ Some 0 :: tl) by (intros tl ->; reflexivity).
    split; [|cbn [zs app List.length] in *; fold out; unfold out in *; cbn [zs app List.length] in *; rewrite skipn_length; lia].
    rewrite <- ER by reflexivity.
    destruct (has fmt 32768); [|reflexivity]. unfold out. cbn [zs app map]. exact (Zl [Some 77] _ _ (Nat.lt_0_succ _)).
Qed.

(* ---------- years ---------- *)
Lemma firstn_ndig p : forall q v, firstn p (ndig (p + q) v) = ndig p (v / 10 ^ Z.of_nat q).
Proof.
  induction p as [|p IH]; intros q v; [reflexivity|]. cbn [Nat.add ndig firstn]. rewrite IH. f_equal.
  rewrite Z.div_div by (try apply Z.pow_nonzero; try apply Z.pow_pos_nonneg; lia). rewrite <- Z.pow_add_r by lia.
  replace (Z.of_nat q + Z.of_nat p) with (Z.of_nat (p + q)) by lia. reflexivity.
Qed.
Lemma cut_at s (rest : buf) i : (i <= List.length s)%nat ->
  exists tl, wr (map Some s ++ Some 0 :: rest) (Z.of_nat i) 0 = Ret (map Some (firstn i s) ++ Some 0 :: tl).
Proof.
  intros Hi. assert (Li : List.length (map (@Some Z) (firstn i s)) = i) by (rewrite map_length, firstn_length; lia).
  destruct (skipn i s) as [|c r] eqn:E.
  - assert (i = List.length s) as Ei by (pose proof (f_equal (@List.length Z) E) as F; rewrite skipn_length in F; cbn in F; lia).
    exists rest. rewrite Ei, firstn_all. rewrite <- (map_length (@Some Z) s) at 1. apply (wr_at _ (map Some s) (Some 0) rest 0 eq_refl).
  - exists (map Some r ++ Some 0 :: rest).
    assert (ES : map (@Some Z) s = map Some (firstn i s) ++ Some c :: map Some r) by (rewrite <- (firstn_skipn i s) at 1; rewrite E, map_app; reflexivity).
    rewrite ES, <- app_assoc. cbn [app]. rewrite <- Li at 2. apply (wr_at _ (map Some (firstn i s)) (Some c)). reflexivity.
Qed.

Lemma firstn_nul i s : no_nul s -> no_nul (firstn i s).
Proof. intros H c Hc. apply H. rewrite <- (firstn_skipn i s). apply in_or_app. now left. Qed.

(** The text written for years: the first places + 5 bytes (4, if no decimals are wanted) of %21.16Lf. *)
Lemma year_writes L t fmt s k r : style fmt = 1024 ->
  let x := ((t + nudge fmt 1) / (36525 # 100) + 2000)%Q in
  (List.length (fixed 16 x) < 40)%nat -> no_nul (fixed 16 x) ->
  firstn (if Nat.eqb (places fmt) 0 then 4 else places fmt + 5) (repeat 32 (21 - List.length (fixed 16 x)) ++ fixed 16 x) = repeat 32 k ++ s :: r ->
  s <> 32 ->
  writes L t fmt (repeat (zero_or_space fmt) k ++ s :: r).
Proof.
  intros Es x Lx Nx Hf Hs32. pose proof (places_15 fmt) as P15.
  set (out := repeat 32 (21 - List.length (fixed 16 x)) ++ fixed 16 x) in *.
  assert (Lo : (List.length out < 40)%nat) by (unfold out; rewrite app_length, repeat_length; lia).
  assert (Lo' : (21 <= List.length out)%nat) by (unfold out; rewrite app_length, repeat_length; lia).
  assert (No : no_nul out) by (unfold out; apply no_nul_app; [apply repeat_nul; discriminate|exact Nx]).
  set (m := if Nat.eqb (places fmt) 0 then 4%nat else (places fmt + 5)%nat) in *.
  assert (Hm : (m <= 20)%nat) by (unfold m; destruct (Nat.eqb (places fmt) 0); lia).
  assert (Nt : no_nul (firstn m out)) by now apply firstn_nul.
  assert (Lt : List.length (firstn m out) = m) by (rewrite firstn_length; lia).
  split.
  { rewrite Hf in Nt. apply no_nul_app; [apply repeat_nul, zs_nul|]. intros c Hc. apply Nt. apply in_or_app. now right. }
  exists 0%nat. intros fuel ic month0 room post _ Hroom.
  unfold full_ctimel. cbv zeta. change (Z.land fmt FULL_CTIME_FORMAT_MASK) with (style fmt).
  change (Z.to_nat (Z.land (Z.shiftr fmt 4) 15)) with (places fmt).
  change FULL_CTIME_FORMAT_SECONDS with 0. change FULL_CTIME_FORMAT_HH_MM with 256. change FULL_CTIME_FORMAT_HH with 512.
  change FULL_CTIME_FORMAT_YEAR with 1024. change FULL_CTIME_ROUNDING with 2097152.
  rewrite Es. cbn [Z.eqb Pos.eqb]. unfold show_year. cbv zeta. change FULL_CTIME_LEADING_ZEROES with 32768.
  set (a := (if has fmt 2097152 then tenths (places fmt) 1 * ((1 # 2) / inject_Z 1) else tenths (places fmt) 1 * ((5 # 100) / 86400))%Q).
  assert (Ex : ((t + a) / (36525 # 100) + 2000 == x)%Q) by (unfold a, x; now rewrite nudge_1).
  rewrite !(fixed_comp _ _ _ Ex). fold out.
  pose proof (err_at [] (repeat None 40) [] 40 out Lo ltac:(rewrite repeat_length; lia)) as G. cbn [app List.length] in G. rewrite app_nil_r in G.
  change (Z.of_nat 0) with 0 in G. rewrite G. cbn [obind]. rewrite app_nil_r.
  set (rs := skipn (S (List.length out)) (repeat None 40)).
  destruct (cut_at out rs (places fmt + 5) ltac:(lia)) as (tl1 & W1).
  replace (Z.of_nat (places fmt) + 5) with (Z.of_nat (places fmt + 5)) by lia. rewrite W1. cbn [obind].
  assert (W2 : exists tl2, (if Nat.eqb (places fmt) 0 then wr (map Some (firstn (places fmt + 5) out) ++ Some 0 :: tl1) 4 0 else @Ret buf (map Some (firstn (places fmt + 5) out) ++ Some 0 :: tl1))
     = @Ret buf (map Some (firstn m out) ++ Some 0 :: tl2)).
  { unfold m. destruct (Nat.eqb_spec (places fmt) 0) as [E|E].
    - destruct (cut_at (firstn (places fmt + 5) out) tl1 4) as (tl2 & W2); [rewrite firstn_length; lia|].
      change (Z.of_nat 4) with 4 in W2. rewrite W2. exists tl2. rewrite firstn_firstn. replace (Nat.min 4 (places fmt + 5)) with 4%nat by lia. reflexivity.
    - exists tl1. reflexivity. }
  destruct W2 as (tl2 & ->). cbn [obind].
  pose proof (buf_str_ok (firstn m out) [] tl2 _ 41 Nt ltac:(lia) eq_refl) as BS. cbn [app List.length] in BS. change (Z.of_nat 0) with 0 in BS. rewrite BS. cbn [obind].
  pose proof (strlcpy_err_exact [] room post (firstn m out) Nt) as F. cbn [app List.length] in F. change (Z.of_nat 0) with 0 in F. rewrite Hroom in F. rewrite F.
  destruct (Nat.ltb_spec (List.length (firstn m out)) 80) as [_|]; [|lia]. cbn [obind].
  exists (skipn (S m) room). rewrite Lt. rewrite <- !app_assoc. cbn [app].
  assert (Lk : (k + S (List.length r) = m)%nat) by (rewrite <- Lt, Hf, app_length, repeat_length; reflexivity).
  split; [|rewrite app_length, repeat_length, skipn_length; cbn [List.length]; lia].
  unfold zero_or_space. destruct (has fmt 32768); [|now rewrite Hf].
  rewrite Hf, !map_app, <- !app_assoc. cbn [map app].
  apply (zero_loop_ok k [] s); [exact Hs32|]. rewrite app_length, map_length, repeat_length. cbn [List.length]. lia.
Qed.

Lemma year_text_ok L t fmt : style fmt = 1024 ->
  let x := ((t + nudge fmt 1) / (36525 # 100) + 2000)%Q in (0 <= x)%Q -> (x <= 999999 # 100)%Q ->
  exists w, 0 <= w /\ writes L t fmt (four_text (zero_or_space fmt) (w / 10 ^ Z.of_nat (places fmt)) ++ decimals (places fmt) w) /\
    (inject_Z w / inject_Z (10 ^ Z.of_nat (places fmt)) - (1 # 20000000000000000) <= x)%Q /\
    (x < inject_Z (w + 1) / inject_Z (10 ^ Z.of_nat (places fmt)))%Q.
Proof.
  intros Es x X0 X1. pose proof (places_15 fmt) as P15. set (p := places fmt) in *.
  assert (Ax : (Qabs x == x)%Q) by (apply Qabs_pos; exact X0).
  destruct (fixed_ok 16 x ltac:(lia)) as (v & E & Hv & Hb & _). { rewrite Ax. change (inject_Z (10 ^ 19)) with (10000000000000000000 # 1)%Q. lra. }
  rewrite Ax in Hb. change (10 ^ Z.of_nat 16) with 10000000000000000 in *.
  assert (Em : minus x = []) by (unfold minus; apply Qle_bool_iff in X0; now rewrite X0).
  rewrite Em in E. cbn [app] in E.
  apply Qabs_Qle_condition in Hb. destruct Hb as [B1 B2]. change (inject_Z 10000000000000000) with (10000000000000000 # 1)%Q in B1, B2.
  assert (V1 : v <= 9999 * 10000000000000000 + 9999999999999999).
  { assert (H : (inject_Z v < inject_Z (9999 * 10000000000000000 + 10000000000000000))%Q).
    { change (inject_Z (9999 * 10000000000000000 + 10000000000000000)) with (100000000000000000000 # 1)%Q. lra. }
    rewrite <- Zlt_Qlt in H. lia. }
  set (w := v / 10 ^ Z.of_nat (16 - p)).
  assert (Q16 : 10 ^ Z.of_nat (16 - p) * 10 ^ Z.of_nat p = 10000000000000000) by (rewrite <- Z.pow_add_r by lia; replace (Z.of_nat (16 - p) + Z.of_nat p) with 16 by lia; reflexivity).
  assert (PA : 0 < 10 ^ Z.of_nat (16 - p)) by (apply Z.pow_pos_nonneg; lia). assert (PB : 0 < 10 ^ Z.of_nat p) by (apply Z.pow_pos_nonneg; lia).
  assert (Y : v / 10000000000000000 = w / 10 ^ Z.of_nat p) by (unfold w; rewrite Z.div_div by lia; now rewrite Q16).
  assert (Y9 : 0 <= w / 10 ^ Z.of_nat p <= 9999) by (rewrite <- Y; split; [apply Z.div_pos; lia|]; assert (v / 10000000000000000 < 10000) by (apply Z.div_lt_upper_bound; lia); lia).
  set (yr := w / 10 ^ Z.of_nat p) in *.
  destruct (DesigBase.dec_ok yr ltac:(lia)) as (Dd & Dv & Dn).
  assert (Ld : (List.length (dec yr) <= 4)%nat).
  { unfold dec. destruct (Z.ltb_spec yr 0); [lia|]. apply digits_len; [|lia]. change (10 ^ Z.of_nat 4) with 10000. lia. }
  destruct (fixed_text_facts 16 v ltac:(change (10 ^ Z.of_nat 16) with 10000000000000000; lia) ltac:(lia)) as [Lf Nf].
  assert (Ef : fixed 16 x = dec yr ++ 46 :: ndig 16 v).
  { rewrite E. unfold fixed_text. change (10 ^ Z.of_nat 16) with 10000000000000000. rewrite Y. cbn [decimals].
    rewrite (ndig_mod 16 v). reflexivity. }
  exists w. split; [unfold w; apply Z.div_pos; lia|]. split.
  - assert (Eo : repeat 32 (21 - List.length (fixed 16 x)) ++ fixed 16 x = four_text 32 yr ++ 46 :: ndig 16 v).
    { rewrite Ef at 1 2. rewrite app_length. cbn [List.length]. rewrite ndig_length. unfold four_text. rewrite <- app_assoc. f_equal. f_equal. lia. }
    assert (Lq : List.length (four_text 32 yr) = 4%nat) by (unfold four_text; rewrite app_length, repeat_length; lia).
    destruct (dec yr) as [|c0 cs] eqn:Ed; [congruence|].
    assert (C0 : c0 <> 32) by (intros ->; specialize (Dd 32 (or_introl eq_refl)); discriminate Dd).
    assert (ER : four_text (zero_or_space fmt) yr ++ decimals p w = repeat (zero_or_space fmt) (4 - List.length (c0 :: cs)) ++ c0 :: cs ++ decimals p w)
      by (unfold four_text; rewrite Ed, <- app_assoc; reflexivity).
    fold yr. rewrite ER. apply (year_writes L t fmt c0 _ _ Es); fold x; [rewrite E; lia|rewrite E; exact Nf| |exact C0].
    rewrite Eo. fold p.
    assert (ET : firstn (if Nat.eqb p 0 then 4 else p + 5) (four_text 32 yr ++ 46 :: ndig 16 v) = four_text 32 yr ++ decimals p w).
    { rewrite firstn_app, Lq. rewrite firstn_all2 by (rewrite Lq; destruct (Nat.eqb p 0); lia). f_equal.
      destruct p as [|p'] eqn:Ep; [reflexivity|]. cbn [Nat.eqb]. replace (S p' + 5 - 4)%nat with (S (S p')) by lia. cbn [decimals]. change (firstn (S (S p')) (46 :: ndig 16 v)) with (46 :: firstn (S p') (ndig 16 v)).
      f_equal. pose proof (firstn_ndig (S p') (16 - S p') v) as F. replace (S p' + (16 - S p'))%nat with 16%nat in F by lia. exact F. }
    rewrite ET. unfold four_text. rewrite Ed, <- app_assoc. reflexivity.
  - pose proof (Z.div_mod v (10 ^ Z.of_nat (16 - p)) ltac:(lia)) as DM. fold w in DM. pose proof (Z.mod_pos_bound v (10 ^ Z.of_nat (16 - p)) PA) as MB.
    set (A := 10 ^ Z.of_nat (16 - p)) in *. set (B := 10 ^ Z.of_nat p) in *.
    assert (QB : (0 < inject_Z B)%Q) by (change 0%Q with (inject_Z 0); now rewrite <- Zlt_Qlt).
    assert (QA : (0 < inject_Z A)%Q) by (change 0%Q with (inject_Z 0); now rewrite <- Zlt_Qlt).
    assert (QAB : (inject_Z A * inject_Z B == 10000000000000000 # 1)%Q) by (rewrite <- inject_Z_mult, Q16; reflexivity).
    assert (W1 : (inject_Z (A * w) <= inject_Z v)%Q) by (rewrite <- Zle_Qle; lia).
    assert (W2 : (inject_Z v <= inject_Z (A * w + A - 1))%Q) by (rewrite <- Zle_Qle; lia).
    unfold Z.sub in W2. rewrite ?inject_Z_plus, ?inject_Z_mult in *. change (inject_Z 1) with 1%Q in *. change (inject_Z (- (1))) with (- (1))%Q in W2.
    split.
    + assert (G : (inject_Z w / inject_Z B == inject_Z A * inject_Z w / (10000000000000000 # 1))%Q) by (rewrite <- QAB; field; split; lra).
      rewrite G. setoid_replace (inject_Z A * inject_Z w / (10000000000000000 # 1))%Q with (inject_Z A * inject_Z w * (1 # 10000000000000000))%Q by (unfold Qdiv; reflexivity).
      lra.
    + assert (G : ((inject_Z w + 1) / inject_Z B == (inject_Z A * inject_Z w + inject_Z A) / (10000000000000000 # 1))%Q) by (rewrite <- QAB; field; split; lra).
      rewrite G. setoid_replace ((inject_Z A * inject_Z w + inject_Z A) / (10000000000000000 # 1))%Q with ((inject_Z A * inject_Z w + inject_Z A) * (1 # 10000000000000000))%Q by (unfold Qdiv; reflexivity).
      lra.
Qed.

(** Years of five digits lose the last one. *)
Lemma dec_cut y : 10000 <= y <= 99999 -> firstn 4 (dec y) = dec (y / 10) /\ List.length (dec y) = 5%nat.
Proof.
  intros H. assert (E : dec y = dec (y / 10) ++ [48 + y mod 10]).
  { unfold dec. destruct (Z.ltb_spec y 0); [lia|]. assert (0 <= y / 10) by (apply Z.div_pos; lia). destruct (Z.ltb_spec (y / 10) 0); [lia|].
    change (digits 20 y []) with (if y / 10 =? 0 then [48 + y mod 10] else digits 19 (y / 10) [48 + y mod 10]).
    assert (1000 <= y / 10 < 10000) by (split; [apply Z.div_le_lower_bound; lia|apply Z.div_lt_upper_bound; lia]).
    destruct (Z.eqb_spec (y / 10) 0); [lia|]. rewrite DesigBase.digits_app.
    rewrite <- (digits_more 19 (y / 10) 1 []) by (change (10 ^ Z.of_nat 19) with 10000000000000000000; lia). reflexivity. }
  assert (1000 <= y / 10 < 10000) by (split; [apply Z.div_le_lower_bound; lia|apply Z.div_lt_upper_bound; lia]).
  assert (L4 : List.length (dec (y / 10)) = 4%nat).
  { unfold dec. destruct (Z.ltb_spec (y / 10) 0); [lia|]. destruct (digits_ndig 4 20 (y / 10) ltac:(change (10 ^ Z.of_nat 4) with 10000; lia) ltac:(lia)) as [_ Hl].
    destruct (Nat.eq_dec (List.length (digits 20 (y / 10) [])) 4) as [|N]; [assumption|]. exfalso.
    destruct (DesigBase.digits_ok 20 (y / 10) ltac:(change (10 ^ Z.of_nat 20) with 100000000000000000000; lia) ltac:(lia)) as (A & B & C).
    assert (G : forall s acc, (forall c, In c s -> isdigit c = true) -> 0 <= acc -> dig_val acc s < (acc + 1) * 10 ^ Z.of_nat (List.length s)).
    { induction s as [|c s IH]; intros acc Hc Ha; [cbn; lia|]. cbn [dig_val List.length]. rewrite (Hc c (or_introl eq_refl)).
      pose proof (Hc c (or_introl eq_refl)) as Dc. unfold isdigit in Dc. rewrite Nat2Z.inj_succ, Z.pow_succ_r by lia.
      specialize (IH (acc * 10 + (c - 48)) ltac:(intros; apply Hc; now right) ltac:(lia)). assert (0 < 10 ^ Z.of_nat (List.length s)) by (apply Z.pow_pos_nonneg; lia). nia. }
    specialize (G _ 0 A ltac:(lia)). rewrite B in G. assert (10 ^ Z.of_nat (List.length (digits 20 (y / 10) [])) <= 10 ^ 3) by (apply Z.pow_le_mono_r; lia). lia. }
  rewrite E. split; [|rewrite app_length, L4; reflexivity]. rewrite firstn_app, L4, Nat.sub_diag, firstn_O, app_nil_r. apply firstn_all2. lia.
Qed.
