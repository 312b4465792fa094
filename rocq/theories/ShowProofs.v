(** Lemmas about the model of showelem.cpp. *)
From Coq Require Import QArith Qround Qabs String Lia Lqa.
From Verif Require Import CBase CStr DateModel DateVocab DateSpec DateJG TstrModel TstrNum TstrSpec CtimeModel CtimeSpec CtimeBuf ShowModel ShowSpec.
From Verif Require CtimeJd CtimeProofs DesigBase.
Import ListNotations.
Local Open Scope string_scope.
Local Open Scope list_scope.
Local Open Scope Z_scope.

Lemma pow_pos n : 0 < 10 ^ Z.of_nat n. Proof. apply Z.pow_pos_nonneg; lia. Qed.
Lemma qpow_pos n : (0 < inject_Z (10 ^ Z.of_nat n))%Q. Proof. change 0%Q with (inject_Z 0). rewrite <- Zlt_Qlt. apply pow_pos. Qed.
Lemma fixed_pos P x : (P <= 18)%nat -> (0 <= x)%Q -> (x <= inject_Z (10 ^ 19))%Q ->
  fixed P x = fixed_text P (nearest (x * inject_Z (10 ^ Z.of_nat P))) /\ 0 <= nearest (x * inject_Z (10 ^ Z.of_nat P)) < 10 ^ 20 * 10 ^ Z.of_nat P /\
  (Qabs (inject_Z (nearest (x * inject_Z (10 ^ Z.of_nat P))) - x * inject_Z (10 ^ Z.of_nat P)) <= 1 # 2)%Q.
Proof.
  intros HP H0 H1. pose proof (pow_pos P) as PP. pose proof (qpow_pos P) as QP. set (v := nearest (x * inject_Z (10 ^ Z.of_nat P))).
  destruct (CtimeJd.nearest_ok (x * inject_Z (10 ^ Z.of_nat P))) as [V0 V1]. { apply Qmult_le_0_compat; lra. } fold v in V0, V1.
  assert (V2 : v < 10 ^ 20 * 10 ^ Z.of_nat P).
  { assert (G : (x * inject_Z (10 ^ Z.of_nat P) <= inject_Z (10 ^ 19) * inject_Z (10 ^ Z.of_nat P))%Q) by (apply Qmult_le_compat_r; lra).
    rewrite <- inject_Z_mult in G. apply Qabs_Qle_condition in V1. destruct V1 as [_ V1].
    assert (H : (inject_Z v < inject_Z (10 ^ 19 * 10 ^ Z.of_nat P + 1))%Q) by (rewrite inject_Z_plus; change (inject_Z 1) with 1%Q; lra).
    rewrite <- Zlt_Qlt in H. nia. }
  split; [|split; [lia|exact V1]].
  unfold fixed. cbv zeta. destruct (Qcompare_spec x 0) as [E|E|E]; [|lra|]; fold v; unfold fixed_text; cbn [app];
    (rewrite CtimeJd.digits_dec by (split; [apply Z.div_pos; lia|apply Z.div_lt_upper_bound; lia])); f_equal; unfold decimals; destruct P; try reflexivity; now rewrite CtimeJd.pad0_is_ndig by (try lia; apply Z.mod_pos_bound; lia).
Qed.
Lemma dec_digit v : 0 <= v < 10 ^ 20 -> dec v <> [] /\ forall c, In c (dec v) -> 48 <= c <= 57.
Proof. intro H. destruct (DesigBase.dec_ok v H) as (B & _ & A). split; [exact A|]. intros c I. apply B in I. unfold isdigit in I. lia. Qed.
Lemma ndig_first P : forall p v, (p <= P)%nat -> firstn p (ndig P v) = ndig p (v / 10 ^ Z.of_nat (P - p)).
Proof.
  induction P as [|P IH]; intros p v H; [assert (p = 0%nat) as -> by lia; reflexivity|]. destruct p as [|p]; [reflexivity|]. cbn [ndig firstn]. rewrite IH by lia. replace (S P - S p)%nat with (P - p)%nat by lia. f_equal.
  rewrite Z.div_div by (try apply pow_pos; pose proof (pow_pos (P - p)); lia). rewrite <- Z.pow_add_r by lia. f_equal. f_equal. f_equal. f_equal. lia.
Qed.
Lemma text_cut P p v : (1 <= p <= P)%nat -> 0 <= v -> dec (v / 10 ^ Z.of_nat P) ++ 46 :: firstn p (ndig P (v mod 10 ^ Z.of_nat P)) = fixed_text p (v / 10 ^ Z.of_nat (P - p)).
Proof.
  intros H Hv. unfold fixed_text. pose proof (pow_pos P) as PP. pose proof (pow_pos p) as Pp. pose proof (pow_pos (P - p)) as Pd.
  assert (E : 10 ^ Z.of_nat P = 10 ^ Z.of_nat (P - p) * 10 ^ Z.of_nat p) by (rewrite <- Z.pow_add_r by lia; f_equal; lia).
  rewrite Z.div_div, <- E by lia. f_equal. unfold decimals. destruct p as [|p]; [lia|]. f_equal. rewrite ndig_first by lia. rewrite ndig_mod. rewrite (ndig_mod (S p) ((v / _) mod _)). rewrite Zmod_mod.
  f_equal. rewrite E. rewrite Z.rem_mul_r by lia. rewrite Z.mul_comm, Z.div_add by lia. rewrite Z.div_small by (apply Z.mod_pos_bound; lia). rewrite Z.add_0_l, Zmod_mod. reflexivity.
Qed.
Lemma text_whole P v : 0 <= v -> dec (v / 10 ^ Z.of_nat P) = fixed_text 0 (v / 10 ^ Z.of_nat P).
Proof. intro H. unfold fixed_text. cbn [decimals]. change (10 ^ Z.of_nat 0) with 1. now rewrite Z.div_1_r, app_nil_r. Qed.
Lemma value_cut P p v x : (p <= P)%nat -> (15 <= P)%nat -> (Qabs (inject_Z v - x * inject_Z (10 ^ Z.of_nat P)) <= 1 # 2)%Q ->
  (value p (v / 10 ^ Z.of_nat (P - p)) <= x + (1 # 1000000000000000))%Q /\ (x < value p (v / 10 ^ Z.of_nat (P - p)) + value p 1 + (1 # 1000000000000000))%Q.
Proof.
  intros Hp HP V. apply Qabs_Qle_condition in V. destruct V as (V1 & V2). pose proof (pow_pos (P - p)) as Pd. pose proof (pow_pos p) as Pp.
  assert (E : 10 ^ Z.of_nat P = 10 ^ Z.of_nat p * 10 ^ Z.of_nat (P - p)) by (rewrite <- Z.pow_add_r by lia; f_equal; lia).
  set (u := v / 10 ^ Z.of_nat (P - p)). pose proof (Z.div_mod v (10 ^ Z.of_nat (P - p)) ltac:(lia)) as D. fold u in D. pose proof (Z.mod_pos_bound v (10 ^ Z.of_nat (P - p)) Pd) as M.
  set (a := 10 ^ Z.of_nat (P - p)) in *. set (b := 10 ^ Z.of_nat p) in *. rewrite E, inject_Z_mult in V1, V2.
  assert (B15 : 10 ^ 15 <= b * a). { rewrite <- E. apply Z.pow_le_mono_r; lia. }
  assert (QB : (inject_Z (10 ^ 15) <= inject_Z b * inject_Z a)%Q) by (rewrite <- inject_Z_mult, <- Zle_Qle; exact B15). change (inject_Z (10 ^ 15)) with 1000000000000000%Q in QB.
  assert (QD1 : (inject_Z a * inject_Z u <= inject_Z v)%Q) by (rewrite <- inject_Z_mult, <- Zle_Qle; lia).
  assert (QD2 : (inject_Z v <= inject_Z a * (inject_Z u + 1) - 1)%Q). { assert (X : (inject_Z v <= inject_Z (a * (u + 1) - 1))%Q) by (rewrite <- Zle_Qle; lia). unfold Z.sub in X. rewrite inject_Z_plus, inject_Z_mult, inject_Z_plus, inject_Z_opp in X. change (inject_Z 1) with 1%Q in X. lra. }
  assert (Qb : (0 < inject_Z b)%Q) by (change 0%Q with (inject_Z 0); rewrite <- Zlt_Qlt; exact Pp). assert (Qa : (0 < inject_Z a)%Q) by (change 0%Q with (inject_Z 0); rewrite <- Zlt_Qlt; exact Pd).
  unfold value. fold b. change (inject_Z 1) with 1%Q. assert (EU : (inject_Z u == (inject_Z u / inject_Z b) * inject_Z b)%Q) by (field; lra). assert (E1 : (1 == (1 / inject_Z b) * inject_Z b)%Q) by (field; lra).
  set (y := (inject_Z u / inject_Z b)%Q) in *. set (z := (1 / inject_Z b)%Q) in *. set (A := inject_Z a) in *. set (B := inject_Z b) in *. set (U := inject_Z u) in *.
  assert (AB : (0 < A * B)%Q) by (apply Qmult_lt_0_compat; assumption). split.
  - apply Qmult_le_r with (z := (A * B)%Q); [exact AB|]. assert (X : (y * (A * B) == A * U)%Q) by (rewrite EU; ring). rewrite X. nra.
  - apply Qmult_lt_r with (z := (A * B)%Q); [exact AB|]. assert (X : ((y + z + (1 # 1000000000000000)) * (A * B) == A * U + A + (1 # 1000000000000000) * (A * B))%Q) by (rewrite EU at 1; transitivity (A * (y * B) + A * (z * B) + (1 # 1000000000000000) * (A * B))%Q; [ring|rewrite <- E1; ring]). rewrite X. nra.
Qed.
Lemma blanks_ok k u : (forall c, In c u -> c <> 32) -> blanks (repeat 32 k ++ u) = k.
Proof. intro H. induction k as [|k IH]; [|cbn [repeat app blanks]; rewrite IH; reflexivity]. destruct u as [|c u]; [reflexivity|]. cbn. destruct (Z.eqb_spec c 32) as [->|]; [elim (H 32 (or_introl eq_refl)); reflexivity|reflexivity]. Qed.
Lemma point_ok u r : (forall c, In c u -> c <> 46) -> before_point (u ++ 46 :: r) = Ret (List.length u).
Proof. induction u as [|c u IH]; intro H; [reflexivity|]. cbn [app before_point]. destruct (Z.eqb_spec c 46) as [->|]; [elim (H 46 (or_introl eq_refl)); reflexivity|]. rewrite IH; [reflexivity|]. intros x X. apply H. now right. Qed.
Lemma cut_ok P x k D : (15 <= P <= 18)%nat -> (0 <= x)%Q -> (x <= inject_Z (10 ^ 19))%Q ->
  exists n p u, let s := repeat 32 k ++ fixed P x in
    blanks s = k /\ before_point (skipn k s) = Ret n /\ cut x p n u /\ (p = D - n \/ p = P /\ P < D - n)%nat /\
    firstn (if (n <? D)%nat then k + n + 1 + (D - n) else k + n + 1 - 1)%nat s = repeat 32 k ++ u /\ (1 <= n)%nat /\ List.length (fixed P x) = (n + 1 + P)%nat /\ (List.length u <= n + 1 + p)%nat /\ (forall M m, (x <= inject_Z M)%Q -> M < 10 ^ Z.of_nat m -> (1 <= m)%nat -> (n <= m)%nat).
Proof.
  intros HP H0 H1. destruct (fixed_pos P x ltac:(lia) H0 H1) as (E & V0 & V1). rewrite E. set (v := nearest (x * inject_Z (10 ^ Z.of_nat P))) in *.
  pose proof (pow_pos P) as PP. assert (VD : 0 <= v / 10 ^ Z.of_nat P < 10 ^ 20) by (split; [apply Z.div_pos; lia|apply Z.div_lt_upper_bound; lia]).
  destruct (dec_digit _ VD) as (DN & DD).
  assert (ET : fixed_text P v = dec (v / 10 ^ Z.of_nat P) ++ 46 :: ndig P (v mod 10 ^ Z.of_nat P)) by (unfold fixed_text, decimals; destruct P; [lia|reflexivity]).
  set (n := List.length (dec (v / 10 ^ Z.of_nat P))). assert (N1 : (1 <= n)%nat) by (unfold n; destruct (dec (v / 10 ^ Z.of_nat P)); [contradiction|cbn; lia]).
  set (p := Nat.min P (D - n)). exists n, p, (fixed_text p (v / 10 ^ Z.of_nat (P - p))). cbv zeta.
  assert (B : blanks (repeat 32 k ++ fixed_text P v) = k).
  { apply blanks_ok. intros c I. rewrite ET in I. apply in_app_or in I. destruct I as [I|[I|I]]; [apply DD in I; lia|lia|apply ndig_digit in I; unfold isdigit in I; lia]. }
  assert (CD : dec (v / 10 ^ Z.of_nat (P - p) / 10 ^ Z.of_nat p) = dec (v / 10 ^ Z.of_nat P)).
  { pose proof (pow_pos p). pose proof (pow_pos (P - p)). rewrite Z.div_div by lia. rewrite <- Z.pow_add_r by lia. f_equal. f_equal. f_equal. lia. }
  split; [exact B|]. split.
  { pose proof (skipn_app_l (repeat 32 k) (fixed_text P v)) as X. rewrite repeat_length in X. rewrite X, ET. apply point_ok. intros c I. apply DD in I. lia. }
  split.
  { exists (v / 10 ^ Z.of_nat (P - p)). split; [reflexivity|]. split; [now rewrite CD|]. split; [apply Z.div_pos; [lia|apply pow_pos]|]. apply value_cut; [lia|lia|exact V1]. }
  assert (FN : forall a r, firstn (n + a) (dec (v / 10 ^ Z.of_nat P) ++ r) = dec (v / 10 ^ Z.of_nat P) ++ firstn a r) by (intros a r; apply firstn_app_2).
  split; [lia|]. split; [|split; [exact N1|split; [|split]]].
  - destruct (Nat.ltb_spec n D) as [X|X].
    + replace (k + n + 1 + (D - n))%nat with (List.length (repeat 32%Z k) + (n + S (D - n)))%nat by (rewrite repeat_length; lia). 
    rewrite firstn_app_2. f_equal. rewrite ET, FN. cbn [firstn].
      rewrite <- (text_cut P p v) by lia. f_equal. f_equal. unfold p. destruct (Nat.le_gt_cases (D - n) P); [rewrite Nat.min_r by lia; reflexivity|]. rewrite Nat.min_l by lia. rewrite !firstn_all2; [reflexivity| |]; rewrite ndig_length; lia.
    + replace (k + n + 1 - 1)%nat with (List.length (repeat 32%Z k) + (n + 0))%nat by (rewrite repeat_length; lia). rewrite firstn_app_2. f_equal. rewrite ET, FN. cbn [firstn]. rewrite app_nil_r.
      assert (p = 0%nat) as -> by (unfold p; lia). replace (P - 0)%nat with P by lia. apply text_whole. lia.
  - rewrite ET, app_length. cbn [List.length]. rewrite ndig_length. fold n. lia.
  - unfold fixed_text. rewrite app_length, CD. fold n. pose proof (CtimeProofs.decimals_len p ((v / 10 ^ Z.of_nat (P - p)) mod 10 ^ Z.of_nat p)). lia.
  - intros M m HM Hm M1. unfold n. unfold dec. destruct (Z.ltb_spec (v / 10 ^ Z.of_nat P) 0); [lia|]. apply CtimeProofs.digits_len; [|exact M1]. split; [lia|].
    assert (X : v <= M * 10 ^ Z.of_nat P).
    { apply Qabs_Qle_condition in V1. destruct V1 as [_ V1]. pose proof (qpow_pos P). assert (G : (x * inject_Z (10 ^ Z.of_nat P) <= inject_Z M * inject_Z (10 ^ Z.of_nat P))%Q) by (apply Qmult_le_compat_r; lra). rewrite <- inject_Z_mult in G.
      assert (F : (inject_Z v < inject_Z (M * 10 ^ Z.of_nat P + 1))%Q) by (rewrite inject_Z_plus; change (inject_Z 1) with 1%Q; lra). rewrite <- Zlt_Qlt in F. lia. }
    apply Z.div_lt_upper_bound; nia.
Qed.
Lemma shown_ok room size P x M m D (km : bool) : (15 <= P <= 18)%nat -> (0 <= x)%Q -> (x <= inject_Z M)%Q -> 0 < M < 10 ^ Z.of_nat m -> (1 <= m)%nat -> (m + 1 + P <= 23)%nat -> (D <= 19)%nat -> (30 <= room)%nat -> (30 <= size)%nat ->
  exists k p n u, (do s <- put room size (wide 23 (fixed P x));
    let i := blanks s in
    do n_digits <- before_point (skipn i s);
    let i := (i + n_digits + 1)%nat in
    let e := if (n_digits <? D)%nat then (i + (D - n_digits))%nat else (i - 1)%nat in
    if (e <? room)%nat then let s := firstn e s in if km then put room size (s ++ zs "km") else Ret s else UB) = Ret (repeat 32 k ++ u ++ (if km then zs "km" else [])) /\
    cut x p n u /\ (p = D - n \/ 15 <= p /\ p < D - n)%nat.
Proof.
  intros HP H0 HM M0 M1 LM HD HR HS.
  assert (H1 : (x <= inject_Z (10 ^ 19))%Q). { apply Qle_trans with (inject_Z M); [exact HM|]. rewrite <- Zle_Qle. assert (10 ^ Z.of_nat m <= 10 ^ 19) by (apply Z.pow_le_mono_r; lia). lia. }
  unfold wide. set (k := (23 - List.length (fixed P x))%nat). destruct (cut_ok P x k D HP H0 H1) as (n & p & u & C). cbv zeta in C. destruct C as (B & N & C & PD & F & N1 & LF & LU & NM).
  pose proof (NM M m HM ltac:(lia) M1) as NB. exists k, p, n, u. set (s := repeat 32 k ++ fixed P x) in *.
  assert (LS : List.length s = 23%nat) by (unfold s, k; rewrite app_length, repeat_length; lia).
  unfold put at 1. rewrite LS. replace (23 <? size)%nat with true by (symmetry; apply Nat.ltb_lt; lia). replace (23 <? room)%nat with true by (symmetry; apply Nat.ltb_lt; lia). cbn [obind]. rewrite B, N. cbn [obind].
  split; [|split; [exact C|lia]].
  assert (K : (k + n + 1 + P = 23)%nat) by (unfold k; lia).
  rewrite F. destruct (Nat.ltb_spec (if (n <? D)%nat then k + n + 1 + (D - n) else k + n + 1 - 1)%nat room) as [_|X]; [|destruct (n <? D)%nat; lia].
  destruct km; [|now rewrite app_nil_r]. rewrite <- app_assoc. unfold put. rewrite !app_length, repeat_length. change (List.length (zs "km")) with 2%nat.
  replace (k + (List.length u + 2) <? size)%nat with true by (symmetry; apply Nat.ltb_lt; lia). replace (k + (List.length u + 2) <? room)%nat with true by (symmetry; apply Nat.ltb_lt; lia). reflexivity.
Qed.
Lemma km_same d : Qle_bool d (999999 / AU_IN_KM) = Qle_bool (d * au_in_km) 999999.
Proof.
  destruct (Qle_bool (d * au_in_km) 999999) eqn:E; [apply Qle_bool_iff in E; apply Qle_bool_iff|apply Bool.not_true_iff_false in E; apply Bool.not_true_iff_false; intro X; apply E; apply Qle_bool_iff in X; apply Qle_bool_iff].
  - apply Qle_shift_div_l; [reflexivity|exact E].
  - assert (Y : (999999 / AU_IN_KM * au_in_km == 999999)%Q) by reflexivity. rewrite <- Y. apply Qmult_le_compat_r; [exact X|discriminate].
Qed.
Lemma dist_ok room size d precision : (0 <= d)%Q -> (d <= 999999)%Q -> (precision <= 15)%nat -> (30 <= room)%nat -> (30 <= size)%nat ->
  exists t, positive_dist room size d precision = Ret t /\ says_distance d (precision + 4) t.
Proof.
  intros H0 H1 HP HR HS. unfold positive_dist. assert (X : Qle_bool d 999999 = true) by now apply Qle_bool_iff. rewrite X. cbn [negb].
  assert (HK := km_same d).
  destruct (Qle_bool d 9999) eqn:E9; cbn [negb].
  - apply Qle_bool_iff in E9. destruct (Qle_bool d (999999 / AU_IN_KM)) eqn:EK.
    + symmetry in HK. pose proof HK as HK'. apply Qle_bool_iff in HK'. change au_in_km with AU_IN_KM in HK'.
      destruct (shown_ok room size 16 (d * AU_IN_KM) 999999 6 (precision + 4) true) as (k & p & n & u & E & C & PD); try lia; [apply Qmult_le_0_compat; [exact H0|discriminate]|exact HK'|].
      exists (repeat 32 k ++ u ++ zs "km"). split; [exact E|]. exists k, p, n, u. rewrite HK. now repeat split.
    + symmetry in HK. destruct (shown_ok room size 18 d 9999 4 (precision + 4) false) as (k & p & n & u & E & C & PD); try lia; [exact H0|exact E9|].
      exists (repeat 32 k ++ u ++ []). split; [exact E|]. exists k, p, n, u. rewrite HK. now repeat split.
  - assert (EK : Qle_bool d (999999 / AU_IN_KM) = false).
    { apply Bool.not_true_iff_false. apply Bool.not_true_iff_false in E9. intro Y. apply E9. apply Qle_bool_iff in Y. apply Qle_bool_iff. apply Qle_trans with (999999 / AU_IN_KM)%Q; [exact Y|discriminate]. }
    rewrite EK in HK |- *. symmetry in HK. destruct (shown_ok room size 15 d 999999 6 (precision + 4) false) as (k & p & n & u & E & C & PD); try lia; [exact H0|exact H1|].
    exists (repeat 32 k ++ u ++ []). split; [exact E|]. exists k, p, n, u. rewrite HK. now repeat split.
Qed.
