(** What full_ctimel( ) writes, get_time_from_stringl( ) reads back. *)
From Coq Require Import Lia ZifyBool QArith Qround Qabs Lqa Permutation.
From Coq Require Import String.
From Verif Require Import CBase CLemmas CStr StrModel StrProofs DateModel DateVocab DateThms TstrModel TstrSpec TstrThms
  CtimeModel CtimeSpec CtimeBuf CtimeProofs CtimeText CtimeJd.
From Verif Require DesigBase.
Local Open Scope string_scope.
Local Open Scope list_scope.
Local Open Scope Z_scope.

(* ---------- the text as it is read ---------- *)
Lemma spread_space a b : spread (a ++ 32 :: b) = spread a ++ 32 :: spread b.
Proof.
  induction a as [|x a IH].
  - cbn [app spread]. destruct b as [|y b]; [reflexivity|]. change (isdigit 32) with false. change (isalpha 32) with false. cbn [andb orb]. reflexivity.
  - destruct a as [|y a].
    + cbn [app spread] in *. change (isdigit 32) with false. change (isalpha 32) with false. rewrite !andb_false_r. cbn [orb andb app]. f_equal. exact IH.
    + cbn [app] in *. change (spread (x :: y :: a ++ 32 :: b)) with (if ((isdigit x && isalpha y) || (isalpha x && isdigit y)) && negb (y =? 113) && negb (y =? 81) then low x :: 32 :: spread (y :: a ++ 32 :: b) else low x :: spread (y :: a ++ 32 :: b)).
      change (spread (x :: y :: a)) with (if ((isdigit x && isalpha y) || (isalpha x && isdigit y)) && negb (y =? 113) && negb (y =? 81) then low x :: 32 :: spread (y :: a) else low x :: spread (y :: a)).
      rewrite IH. destruct (_ && _ && _); reflexivity.
Qed.
Lemma spread_plain s : (forall c, In c s -> isalpha c = false) -> spread s = s.
Proof.
  induction s as [|x s IH]; intros H; [reflexivity|].
  assert (Lx : low x = x).
  { pose proof (H x (or_introl eq_refl)) as E. unfold isalpha, isupper, islower in E. unfold low.
    destruct ((65 <=? x) && (x <=? 90)) eqn:G; [cbn in E; discriminate E|reflexivity]. }
  destruct s as [|y s]; [cbn; now rewrite Lx|].
  change (spread (x :: y :: s)) with (if ((isdigit x && isalpha y) || (isalpha x && isdigit y)) && negb (y =? 113) && negb (y =? 81) then low x :: 32 :: spread (y :: s) else low x :: spread (y :: s)).
  rewrite (H x (or_introl eq_refl)), (H y (or_intror (or_introl eq_refl))), !andb_false_r. cbn [orb andb]. rewrite Lx, IH; [reflexivity|]. intros c Hc. apply H. now right.
Qed.
Lemma digit_alpha c : isdigit c = true -> isalpha c = false.
Proof. unfold isdigit, isalpha, isupper, islower. lia. Qed.

Lemma dig_val_ndig p : forall v acc, 0 <= acc -> dig_val acc (ndig p v) = acc * 10 ^ Z.of_nat p + v mod 10 ^ Z.of_nat p.
Proof.
  induction p as [|p IH]; intros v acc Ha; [cbn [ndig dig_val]; change (10 ^ Z.of_nat 0) with 1; rewrite Z.mod_1_r; lia|].
  cbn [ndig dig_val]. assert (P : 0 < 10 ^ Z.of_nat p) by (apply Z.pow_pos_nonneg; lia).
  pose proof (Z.mod_pos_bound (v / 10 ^ Z.of_nat p) 10 ltac:(lia)) as B.
  assert (D : isdigit (48 + v / 10 ^ Z.of_nat p mod 10) = true) by (unfold isdigit; lia). rewrite D.
  replace (48 + v / 10 ^ Z.of_nat p mod 10 - 48) with (v / 10 ^ Z.of_nat p mod 10) by lia.
  rewrite IH by lia. rewrite Nat2Z.inj_succ, Z.pow_succ_r by lia. replace (10 * 10 ^ Z.of_nat p) with (10 ^ Z.of_nat p * 10) by lia.
  rewrite (Z.rem_mul_r v (10 ^ Z.of_nat p) 10) by lia. lia.
Qed.
Lemma two_48 v : 0 <= v < 100 -> two 48 v = ndig 2 v.
Proof. intros H. now rewrite <- pad0_two, pad0_ndig. Qed.
Lemma digits_two v : 0 <= v < 100 -> digits_of (two 48 v) v.
Proof.
  intros H. rewrite two_48 by exact H. split; [discriminate|]. split; [apply ndig_digit|]. rewrite dig_val_ndig by lia.
  change (10 ^ Z.of_nat 2) with 100. rewrite Z.mod_small by lia. lia.
Qed.
Lemma last_in (s : list Z) x : s <> [] -> In (last s x) s.
Proof.
  induction s as [|a s IH]; intros H; [contradiction|]. destruct s as [|b s]; [now left|]. right. apply IH. discriminate.
Qed.
Lemma last_app (a b : list Z) x : b <> [] -> last (a ++ b) x = last b x.
Proof.
  induction a as [|y a IH]; intros H; [reflexivity|]. cbn [app]. rewrite <- IH by exact H. destruct (a ++ b) eqn:E; [|reflexivity].
  destruct a; [cbn in E; congruence|discriminate E].
Qed.
Lemma ndig_nil p v : ndig (S p) v <> [].
Proof. discriminate. Qed.
(** A number of two digits and p decimals. *)
Lemma number_two p v f : 0 <= v < 100 -> 0 <= f < 10 ^ Z.of_nat p ->
  let s := two 48 v ++ decimals p f in let q := (v * 10 ^ Z.of_nat p + f # Z.to_pos (10 ^ Z.of_nat p))%Q in
  number_of s q /\ isdigit (last s 0) = true /\ (q == inject_Z v + inject_Z f / inject_Z (10 ^ Z.of_nat p))%Q /\ Qfloor q = v.
Proof.
  intros Hv Hf s q. assert (P : 0 < 10 ^ Z.of_nat p) by (apply Z.pow_pos_nonneg; lia).
  assert (Eq : (q == inject_Z v + inject_Z f / inject_Z (10 ^ Z.of_nat p))%Q).
  { unfold q. rewrite Qmake_Qdiv, Z2Pos.id by lia. rewrite inject_Z_plus, inject_Z_mult. field. apply pow_q. }
  assert (Fq : Qfloor q = v).
  { apply floor_intro; rewrite Eq.
    - assert (0 <= inject_Z f / inject_Z (10 ^ Z.of_nat p))%Q; [|lra]. apply Qle_shift_div_l; [change 0%Q with (inject_Z 0); now rewrite <- Zlt_Qlt|].
      rewrite Qmult_0_l. change 0%Q with (inject_Z 0). rewrite <- Zle_Qle. lia.
    - assert (inject_Z f / inject_Z (10 ^ Z.of_nat p) < 1)%Q; [|lra]. apply Qlt_shift_div_r; [change 0%Q with (inject_Z 0); now rewrite <- Zlt_Qlt|].
      rewrite Qmult_1_l. rewrite <- Zlt_Qlt. lia. }
  destruct (digits_two v Hv) as (D1 & D2 & D3). split; [|split; [|split; assumption]].
  - destruct p as [|p].
    + left. exists v. unfold s. cbn [decimals]. rewrite app_nil_r. split; [now repeat split|]. unfold q. cbn in Hf. assert (f = 0) as -> by lia.
      change (10 ^ Z.of_nat 0) with 1. unfold inject_Z. f_equal. lia.
    + right. exists (two 48 v), (ndig (S p) f), (v * 10 ^ Z.of_nat (S p) + f). split.
      { intros c Hc. apply in_app_or in Hc as [Hc|Hc]; [now apply D2|]. now apply (ndig_digit (S p) f). }
      split; [destruct (two 48 v); [contradiction|discriminate]|]. split; [reflexivity|]. split.
      { rewrite (DesigBase.dig_val_app (two 48 v)) by exact D2. rewrite D3, dig_val_ndig by lia. rewrite (Z.mod_small f) by lia. reflexivity. }
      rewrite ndig_length. reflexivity.
  - unfold s. destruct p as [|p].
    + cbn [decimals]. rewrite app_nil_r. apply D2, last_in, D1.
    + cbn [decimals]. rewrite last_app by discriminate. change (46 :: ndig (S p) f) with ([46] ++ ndig (S p) f). rewrite last_app by apply ndig_nil.
      apply (ndig_digit (S p) f), last_in, ndig_nil.
Qed.

Lemma year_digits fmt y : has fmt 32768 = true -> has fmt 65536 = false -> 0 <= y < 10 ^ 9 ->
  TstrSpec.year_text (CtimeSpec.year_text fmt y) y.
Proof.
  intros Hz H2 Hy. unfold CtimeSpec.year_text. rewrite Hz, H2. unfold pad0. cbv zeta. destruct (Z.ltb_spec y 0); [lia|]. cbn [app List.length].
  rewrite Z.abs_eq, Nat.sub_0_r by lia.
  destruct (DesigBase.digits_ok 20 y ltac:(change (10 ^ Z.of_nat 20) with (10 ^ 20); lia) ltac:(lia)) as (A & B & C).
  pose proof (digits_len 20 9 y ltac:(change (10 ^ Z.of_nat 9) with (10 ^ 9); lia) ltac:(lia)) as Hl.
  set (d := digits 20 y []) in *.
  assert (R : forall n acc, dig_val acc (repeat 48 n ++ d) = dig_val (acc * 10 ^ Z.of_nat n) d).
  { induction n as [|n IH]; intros acc; [cbn [repeat app]; change (10 ^ Z.of_nat 0) with 1; f_equal; lia|]. cbn [repeat app dig_val]. change (isdigit 48) with true. cbv iota.
    rewrite IH, Nat2Z.inj_succ, Z.pow_succ_r by lia. f_equal. lia. }
  split; [split; [|split]|].
  - destruct (repeat 48 (4 - List.length d)); [exact C|discriminate].
  - intros c Hc. apply in_app_or in Hc as [Hc|Hc]; [apply repeat_spec in Hc; rewrite Hc; reflexivity|now apply A].
  - rewrite R, Z.mul_0_l. exact B.
  - rewrite app_length, repeat_length. lia.
Qed.
Lemma month_low m : 1 <= m <= 12 -> exists s, spread (nth (Z.to_nat (m - 1)) months3 []) = s /\ In (s, m) month_texts.
Proof.
  intros H. assert (C : m = 1 \/ m = 2 \/ m = 3 \/ m = 4 \/ m = 5 \/ m = 6 \/ m = 7 \/ m = 8 \/ m = 9 \/ m = 10 \/ m = 11 \/ m = 12) by lia.
  repeat destruct C as [->|C]; try subst m; eexists; (split; [vm_compute; reflexivity|cbn; tauto]).
Qed.

(** Seconds shown, and their text. *)
Lemma clock_ok fmt n k : per_day fmt n -> 0 <= k < n * 10 ^ Z.of_nat (places fmt) -> has fmt 32768 = true ->
  style fmt = 0 \/ (style fmt = 256 /\ places fmt = 0%nat) ->
  exists secs, clock_text (time_text fmt k) secs /\ (secs / 86400 == inject_Z k * last_place fmt n)%Q.
Proof.
  intros Hn Hk Hz Hs. assert (P : 0 < 10 ^ Z.of_nat (places fmt)) by (apply Z.pow_pos_nonneg; lia).
  unfold time_text. cbv zeta. unfold zero_or_space. rewrite Hz. set (p := places fmt) in *. set (i := k / 10 ^ Z.of_nat p).
  assert (Ei : k = i * 10 ^ Z.of_nat p + k mod 10 ^ Z.of_nat p) by (unfold i; rewrite (Z.div_mod k (10 ^ Z.of_nat p)) at 1 by lia; lia).
  pose proof (Z.mod_pos_bound k (10 ^ Z.of_nat p) P) as Hm. set (f := k mod 10 ^ Z.of_nat p) in *.
  assert (Hi : 0 <= i < n) by (unfold i; split; [apply Z.div_pos; lia|apply Z.div_lt_upper_bound; lia]).
  pose proof (pow_q p) as PQ.
  destruct Hs as [Es|[Es Ep]].
  - assert (n = 86400) as -> by (unfold per_day in Hn; rewrite Es in Hn; cbn in Hn; destruct Hn as [H|[H|[H|[H|[]]]]]; injection H; intros; congruence || lia).
    rewrite Es. cbn [Z.eqb].
    assert (A : 0 <= i / 3600 < 100) by (split; [apply Z.div_pos; lia|apply Z.div_lt_upper_bound; lia]).
    pose proof (Z.mod_pos_bound (i / 60) 60 ltac:(lia)) as B. pose proof (Z.mod_pos_bound i 60 ltac:(lia)) as C.
    destruct (number_two p (i mod 60) f ltac:(lia) Hm) as (N1 & _ & N2 & _). set (q := (i mod 60 * 10 ^ Z.of_nat p + f # Z.to_pos (10 ^ Z.of_nat p))%Q) in *.
    exists (inject_Z (i / 3600 * 3600 + i / 60 mod 60 * 60) + q)%Q. split.
    + exists (two 48 (i / 3600)), (i / 3600), (two 48 (i / 60 mod 60)), (i / 60 mod 60).
      split; [apply digits_two; lia|]. split; [apply digits_two; lia|]. split; [rewrite two_len; lia|]. right.
      exists (two 48 (i mod 60) ++ decimals p f), q. split; [exact N1|]. split; [|reflexivity].
      rewrite <- app_assoc. cbn [app]. f_equal. f_equal. rewrite <- app_assoc. reflexivity.
    + rewrite N2. assert (Es3 : i = i / 3600 * 3600 + i / 60 mod 60 * 60 + i mod 60).
      { pose proof (Z.div_mod i 60 ltac:(lia)). pose proof (Z.div_mod (i / 60) 60 ltac:(lia)). rewrite Z.div_div in * by lia. change (60 * 60) with 3600 in *. lia. }
      assert (EK : (inject_Z k == (inject_Z (i / 3600 * 3600 + i / 60 mod 60 * 60) + inject_Z (i mod 60)) * inject_Z (10 ^ Z.of_nat p) + inject_Z f)%Q)
        by (rewrite <- inject_Z_plus, <- Es3, <- inject_Z_mult, <- inject_Z_plus, <- Ei; reflexivity).
      rewrite EK. unfold last_place. fold p. rewrite (inject_Z_mult 86400).
      change (inject_Z 86400) with 86400%Q. field. exact PQ.
  - assert (n = 1440) as -> by (unfold per_day in Hn; rewrite Es in Hn; cbn in Hn; destruct Hn as [H|[H|[H|[H|[]]]]]; injection H; intros; congruence || lia).
    rewrite Es. cbn [Z.eqb]. rewrite Ep in *. cbn [decimals]. rewrite app_nil_r.
    change (10 ^ Z.of_nat 0) with 1 in *. assert (f = 0) by lia.
    assert (A : 0 <= i / 60 < 100) by (split; [apply Z.div_pos; lia|apply Z.div_lt_upper_bound; lia]).
    pose proof (Z.mod_pos_bound i 60 ltac:(lia)) as B.
    exists (inject_Z (i / 60 * 3600 + i mod 60 * 60)). split.
    + exists (two 48 (i / 60)), (i / 60), (two 48 (i mod 60)), (i mod 60).
      split; [apply digits_two; lia|]. split; [apply digits_two; lia|]. split; [rewrite two_len; lia|]. now left.
    + unfold last_place. fold p. rewrite Ep. change (1440 * 10 ^ Z.of_nat 0) with 1440.
      assert (Es3 : i / 60 * 3600 + i mod 60 * 60 = k * 60) by (pose proof (Z.div_mod i 60 ltac:(lia)); lia).
      rewrite Es3, inject_Z_mult. change (inject_Z 60) with 60%Q. change (inject_Z 1440) with 1440%Q. field.
Qed.
Lemma number_chars s q : number_of s q -> forall c, In c s -> isdigit c = true \/ c = 46.
Proof.
  intros [(v & (_ & H & _) & _)|(a & b & v & H & _ & -> & _)] c Hc; [left; now apply H|].
  apply in_app_or in Hc as [Hc|[Hc|Hc]]; [left; apply H, in_or_app; now left|now right|left; apply H, in_or_app; now right].
Qed.
Lemma clock_chars s t : clock_text s t -> forall c, In c s -> isdigit c = true \/ c = 46 \/ c = 58.
Proof.
  intros (h & hv & m & mv & (_ & Hh & _) & (_ & Hm & _) & _ & H) c Hc.
  destruct H as [[-> _]|(x & xv & Hx & -> & _)].
  - apply in_app_or in Hc as [Hc|[Hc|Hc]]; [left; now apply Hh|now right; right|left; now apply Hm].
  - apply in_app_or in Hc as [Hc|[Hc|Hc]]; [left; now apply Hh|now right; right|].
    apply in_app_or in Hc as [Hc|[Hc|Hc]]; [left; now apply Hm|now right; right|]. destruct (number_chars x xv Hx c Hc); tauto.
Qed.
Lemma plain_char c : isdigit c = true \/ c = 46 \/ c = 58 -> isalpha c = false.
Proof. intros [H|[-> | ->]]; [now apply digit_alpha|reflexivity|reflexivity]. Qed.

(** The parts of a date with three fields. *)
Definition order_of (fmt : Z) : list part :=
  let md := if has fmt 4096 then [Month; Day] else [Day; Month] in
  if has fmt 2048 then Year :: md else md ++ [Year].
Lemma order_perm fmt : Permutation (order_of fmt) [Year; Month; Day].
Proof.
  unfold order_of. destruct (has fmt 2048), (has fmt 4096); cbn [app].
  - apply Permutation_refl.
  - apply perm_skip, perm_swap.
  - apply Permutation_sym, (Permutation_cons_append [Month; Day] Year).
  - apply Permutation_trans with [Year; Day; Month]; [apply Permutation_sym, (Permutation_cons_append [Day; Month] Year)|apply perm_skip, perm_swap].
Qed.
Lemma date_written fmt jd j0 d m y k : has fmt 131072 = false -> has fmt 8388608 = false ->
  date_text fmt jd j0 d m y k = written 32 (tx (CtimeSpec.year_text fmt y) (month_text fmt m) (two (zero_or_space fmt) d ++ (if style fmt =? 768 then decimals (places fmt) k else []))) (order_of fmt).
Proof.
  intros H1 H2. unfold date_text, order_of. cbv zeta. rewrite H1, H2. cbn [negb].
  destruct (has fmt 2048), (has fmt 4096); cbn [andb negb app written tx map concat];
    rewrite ?app_nil_r; repeat (rewrite <- ?app_assoc; cbn [app]); reflexivity.
Qed.
Lemma spread_written (f g : part -> list Z) order : (forall p, spread (f p) = g p) -> spread (written 32 f order) = written 32 g order.
Proof.
  intros H. destruct order as [|p r]; [reflexivity|]. cbn [written]. revert p.
  induction r as [|q r IH]; intros p; cbn [map concat]; [rewrite !app_nil_r; apply H|].
  change ((32 :: f q) ++ concat (map (fun p0 => 32 :: f p0) r)) with (32 :: (f q ++ concat (map (fun p0 => 32 :: f p0) r))).
  change ((32 :: g q) ++ concat (map (fun p0 => 32 :: g p0) r)) with (32 :: (g q ++ concat (map (fun p0 => 32 :: g p0) r))).
  now rewrite spread_space, IH, H.
Qed.
Lemma spread_length_space s : (List.length (spread s) <= 2 * List.length s)%nat.
Proof.
  induction s as [|x [|y s] IH]; [cbn; lia|cbn; lia|].
  change (spread (x :: y :: s)) with (if ((isdigit x && isalpha y) || (isalpha x && isdigit y)) && negb (y =? 113) && negb (y =? 81) then low x :: 32 :: spread (y :: s) else low x :: spread (y :: s)).
  destruct (_ && _ && _); cbn [List.length] in *; lia.
Qed.
Lemma dig_chars s v : digits_of s v -> forall c, In c s -> isalpha c = false.
Proof. intros (_ & H & _) c Hc. now apply digit_alpha, H. Qed.

Definition month_shown (fmt m : Z) : Prop :=
  m <= 12 \/ (has fmt 8192 = true /\ m <= 13 /\ Z.land fmt 15 = CALENDAR_HEBREW).

Lemma round_trip L now ph t0 t fmt n d m y :
  long_ok L -> per_day fmt n -> in_full fmt -> has fmt 8388608 = false -> good_cal (Z.land fmt 15) -> start_ok L t0 fmt ->
  let jd := day_shown t fmt n in
  jd_ok L jd -> dmy_result L jd (Z.land fmt 15) d m y -> 33 <= y < 10 ^ 9 -> month_shown fmt m ->
  exists s T, writes L t fmt s /\ reads L now ph t0 s fmt T 0 /\ (T <= t + nudge fmt n)%Q /\ (t + nudge fmt n < T + last_place fmt n)%Q.
Proof.
  intros HL Hn Hf Hdoy Hc Hst jd Hj Hr Hy Hm. destruct Hf as (Hz & Ht & H2 & Hny & Hw1 & Hw2 & Hns & Hnc & Hstyle).
  destruct (date_facts L jd (Z.land fmt 15) d m y HL Hj Hc Hr) as (Hd & Hm1 & _ & j0 & Hj0' & Rj0 & Dj0).
  pose proof (Hj0' 0 ltac:(lia)) as Hj0. rewrite Z.add_0_r in Hj0.
  destruct (shown_bounds t fmt n Hn) as (S1 & S2 & Hk). fold jd in S1, S2. set (k := count_shown t fmt n) in *.
  pose proof (calendar_text L t fmt n d m y j0 HL Hn Hc) as W. cbv zeta in W. fold jd in W. fold k in W.
  set (s := whole_text fmt jd j0 d m y k) in *. exists s, (shown fmt n jd k).
  assert (Hs11 : style fmt = 768 -> (places fmt <= 6)%nat) by (intros E; destruct Hstyle as [E'|[[E' _]|[_ E']]]; [congruence|congruence|exact E']).
  assert (DF : date_fits fmt d m y jd j0).
  { split; [lia|]. split; [lia|]. split; [lia|]. split; [lia|]. split; [intros E; destruct Hm as [|(E' & _)]; [lia|congruence]|].
    split; [intros E; specialize (Hs11 E); lia|]. rewrite H2. discriminate. }
  specialize (W Hj Hr Hj0 Rj0 (fun _ => DF)). split; [exact W|]. split; [|split; assumption].
  set (ys := CtimeSpec.year_text fmt y). set (ms := month_text fmt m).
  set (ds := two (zero_or_space fmt) d ++ (if style fmt =? 768 then decimals (places fmt) k else [])).
  set (clk := if style fmt =? 768 then [] else 32 :: time_text fmt k).
  assert (Es : s = written 32 (tx ys ms ds) (order_of fmt) ++ clk).
  { unfold s, whole_text. cbv zeta. rewrite Hw1, Ht, Hw2, Hns, Hnc, (date_written fmt jd j0 d m y k Hny Hdoy). fold ds. fold ms. fold ys. unfold clk.
    destruct (style fmt =? 768); cbn [app]; rewrite ?app_nil_r, <- ?app_assoc; reflexivity. }
  pose proof (year_digits fmt y Hz H2 ltac:(lia)) as Yt. fold ys in Yt.
  assert (Ezs : zero_or_space fmt = 48) by (unfold zero_or_space; now rewrite Hz).
  (* the day *)
  assert (Hq : exists q, day_text ds q /\ Qfloor q = d /\ (day_fraction q == if style fmt =? 768 then inject_Z k * last_place fmt n else 0)%Q).
  { unfold ds. rewrite Ezs. destruct (Z.eqb_spec (style fmt) 768) as [E|E].
    - assert (n = 1) as -> by (unfold per_day in Hn; rewrite E in Hn; cbn in Hn; destruct Hn as [H|[H|[H|[H|[]]]]]; injection H; intros; congruence || lia).
      assert (P : 0 < 10 ^ Z.of_nat (places fmt)) by (apply Z.pow_pos_nonneg; lia).
      destruct (number_two (places fmt) d k ltac:(lia) ltac:(lia)) as (N1 & N2 & N3 & N4).
      eexists. split; [split; [exact N1|split; [exact N2|split]]|split; [exact N4|]].
      + rewrite app_length, two_len. pose proof (decimals_len (places fmt) k). specialize (Hs11 E). lia.
      + rewrite N3. assert (inject_Z k / inject_Z (10 ^ Z.of_nat (places fmt)) <= 1)%Q.
        { apply Qle_shift_div_r; [change 0%Q with (inject_Z 0); now rewrite <- Zlt_Qlt|]. rewrite Qmult_1_l, <- Zle_Qle. lia. }
        assert (inject_Z d <= 31)%Q by (change 31%Q with (inject_Z 31); rewrite <- Zle_Qle; lia). lra.
      + unfold day_fraction. rewrite N4, N3. unfold last_place. rewrite Z.mul_1_l. field. apply pow_q.
    - rewrite app_nil_r. destruct (digits_two d ltac:(lia)) as (A & B & C). exists (inject_Z d). split; [|split].
      + split; [left; exists d; split; [now apply digits_two; lia|reflexivity]|]. split; [apply B, last_in, A|]. split; [rewrite two_len; lia|].
        change 32%Q with (inject_Z 32). rewrite <- Zle_Qle. lia.
      + apply Qfloor_Z.
      + unfold day_fraction. rewrite Qfloor_Z. ring. }
  destruct Hq as (q & Dt & Fq & Frac).
  (* the clock *)
  assert (Hclk : exists secs, clock_suffix clk secs /\ (secs / 86400 == if style fmt =? 768 then 0 else inject_Z k * last_place fmt n)%Q).
  { unfold clk. destruct (Z.eqb_spec (style fmt) 768) as [E|E].
    - exists 0%Q. split; [now left|]. field.
    - destruct (clock_ok fmt n k Hn Hk Hz) as (secs & C1 & C2); [destruct Hstyle as [E'|[E'|[E' _]]]; [now left|now right|congruence]|].
      exists secs. split; [right; now exists (time_text fmt k)|exact C2]. }
  destruct Hclk as (secs & Cs & Esec).
  assert (Inst : (instant jd secs + day_fraction q == shown fmt n jd k)%Q).
  { unfold instant, shown. rewrite Frac, Esec. destruct (style fmt =? 768); ring. }
  assert (Back : dmy_to_day L (Qfloor q) m y (calendar_of fmt) = Ret jd).
  { rewrite Fq. apply (C01_jd_to_date_and_back_proof L jd (Z.land fmt 15) HL Hj Hc). exact Hr. }
  assert (Ym : year_meant now fmt y y) by (unfold year_meant, two_digit_years; unfold has in H2; rewrite H2; reflexivity).
  (* the text, as it is read *)
  assert (Sclk : spread clk = clk).
  { unfold clk. destruct Cs as [[E _]|(c & E & Hc1)]; fold clk; rewrite E; [reflexivity|]. apply spread_plain. intros x [<-|Hx]; [reflexivity|].
    apply plain_char. now apply (clock_chars c secs). }
  assert (Sds : spread ds = ds).
  { apply spread_plain. destruct Dt as (N & _). intros c Hc1. destruct (number_chars ds q N c Hc1) as [H| ->]; [now apply digit_alpha|reflexivity]. }
  assert (Sys : spread ys = ys) by (apply spread_plain, (dig_chars ys y), Yt).
  assert (TX : forall ms', spread ms = ms' -> text s (written 32 (tx ys ms' ds) (order_of fmt) ++ clk)).
  { intros ms' Em. destruct W as [Nn _].
    assert (Sp : spread s = written 32 (tx ys ms' ds) (order_of fmt) ++ clk).
    { rewrite Es. assert (E : spread (written 32 (tx ys ms ds) (order_of fmt)) = written 32 (tx ys ms' ds) (order_of fmt)) by (apply spread_written; intros []; assumption).
      destruct Cs as [[Ec _]|(c & Ec & _)].
      - rewrite Ec, !app_nil_r. exact E.
      - rewrite Ec in *. rewrite spread_space, E. f_equal. change (32 :: spread c = 32 :: c). change (spread ([] ++ 32 :: c) = 32 :: c) in Sclk. rewrite spread_space in Sclk. exact Sclk. }
    assert (Lms : List.length ms' = List.length ms).
    { rewrite <- Em. unfold ms, month_text. destruct (has fmt 8192) eqn:E8.
      - rewrite spread_plain; [reflexivity|]. intros c Hc1. rewrite Ezs in Hc1. apply digit_alpha. apply (digits_two m ltac:(lia)). exact Hc1.
      - destruct Hm as [Hm|(E & _)].
        + destruct (month_low m ltac:(lia)) as (s3 & E3 & I3). rewrite E3.
          assert (C : m = 1 \/ m = 2 \/ m = 3 \/ m = 4 \/ m = 5 \/ m = 6 \/ m = 7 \/ m = 8 \/ m = 9 \/ m = 10 \/ m = 11 \/ m = 12) by lia.
          rewrite <- E3. clear - C. repeat destruct C as [->|C]; try subst m; reflexivity.
        + congruence. }
    assert (LS : List.length (written 32 (tx ys ms' ds) (order_of fmt)) = List.length (written 32 (tx ys ms ds) (order_of fmt))).
    { unfold order_of. destruct (has fmt 2048), (has fmt 4096); cbn [app written tx map concat]; rewrite !app_length; cbn [List.length]; rewrite ?app_length; cbn [List.length]; rewrite ?app_length; cbn [List.length]; lia. }
    assert (Ls : (List.length s <= 61)%nat).
    { unfold s, whole_text. cbv zeta. rewrite Hw1, Ht, Hw2, Hns, Hnc. cbn [app]. rewrite !app_length. pose proof (text_len fmt jd j0 d m y k DF). pose proof (time_len fmt k).
      destruct (style fmt =? 768); cbn [List.length]; lia. }
    assert (Hh : s <> [] /\ hd 0 s <> 32).
    { assert (Gen : forall a b : list Z, a <> [] -> (forall c, In c a -> c <> 32) -> a ++ b <> [] /\ hd 0 (a ++ b) <> 32).
      { intros [|a0 a] b Ha Hb; [contradiction|]. split; [discriminate|]. apply Hb. now left. }
      rewrite Es. destruct Yt as ((Y1 & Y2 & _) & _). destruct Dt as (Dn & _).
      assert (D1 : ds <> []) by (unfold ds; pose proof (two_len (zero_or_space fmt) d) as E; destruct (two (zero_or_space fmt) d); [discriminate E|discriminate]).
      assert (D2 : forall c, In c ds -> c <> 32) by (intros c Hc1 ->; destruct (number_chars ds q Dn 32 Hc1) as [H|H]; discriminate H).
      assert (M1 : ms <> [] /\ forall c, In c ms -> c <> 32).
      { unfold ms, month_text. destruct (has fmt 8192) eqn:E8.
        - rewrite Ezs. destruct (digits_two m ltac:(lia)) as (A & B & _). split; [exact A|]. intros c Hc1 ->. specialize (B 32 Hc1). discriminate B.
        - destruct Hm as [Hm|(E & _)]; [|congruence].
          assert (C : m = 1 \/ m = 2 \/ m = 3 \/ m = 4 \/ m = 5 \/ m = 6 \/ m = 7 \/ m = 8 \/ m = 9 \/ m = 10 \/ m = 11 \/ m = 12) by lia.
          clear - C. repeat destruct C as [->|C]; try subst m; (split; [discriminate|]; intros c Hc ->; vm_compute in Hc; repeat (destruct Hc as [Hc|Hc]; [discriminate Hc|]); exact Hc). }
      destruct M1 as [M1 M2].
      unfold order_of. destruct (has fmt 2048), (has fmt 4096); cbn [app written tx]; rewrite <- app_assoc; apply Gen; try assumption.
      all: intros c Hc1 ->; specialize (Y2 32 Hc1); discriminate Y2. }
    destruct Hh as [Hh1 Hh2].
    split; [exact Nn|]. split; [exact Hh2|]. split; [exact Hh1|]. split; [lia|]. split; [exact Sp|].
    rewrite app_length, LS, <- app_length, <- Es. lia. }
  apply (TstrForms.reads_eq _ _ _ _ _ _ _ _ _ Inst).
  destruct (has fmt 8192) eqn:Emd.
  - assert (Md : month_digits ms m).
    { unfold ms, month_text. rewrite Emd, Ezs. split; [apply digits_two; lia|]. rewrite two_len. lia. }
    apply (C45_numbers_proof L now ph t0 s fmt ys ms ds 32 (order_of fmt) clk secs y y m q jd Hst (or_introl eq_refl) (order_perm fmt)); try assumption; try lia.
    + apply TX. apply spread_plain, (dig_chars ms m), Md.
    + unfold last_month, calendar_of. destruct Hm as [Hm|(_ & Hm & ->)]; [destruct (_ || _); lia|]. cbn. lia.
    + right. right. unfold order_of, month_first, has. destruct (negb (Z.land fmt 2048 =? 0)), (negb (Z.land fmt 4096 =? 0)); reflexivity.
  - destruct Hm as [Hm|(E & _)]; [|congruence]. destruct (month_low m ltac:(lia)) as (ms' & E3 & I3).
    apply (C45_named_month_proof L now ph t0 s fmt ys ms' ds 32 (order_of fmt) clk secs y y m q jd Hst (or_introl eq_refl) (order_perm fmt)); try assumption; try lia.
    apply TX. unfold ms, month_text. rewrite Emd. exact E3.
Qed.

(** The same with days of the year. *)
Lemma pad_three v : 0 <= v < 1000 -> pad0 3 v = ndig 3 v.
Proof. intros H. apply pad0_is_ndig; [change (10 ^ Z.of_nat 3) with 1000|]; lia. Qed.
Lemma number_three p v f : 0 <= v < 1000 -> 0 <= f < 10 ^ Z.of_nat p ->
  let s := ndig 3 v ++ decimals p f in let q := (v * 10 ^ Z.of_nat p + f # Z.to_pos (10 ^ Z.of_nat p))%Q in
  number_of s q /\ isdigit (last s 0) = true /\ (q == inject_Z v + inject_Z f / inject_Z (10 ^ Z.of_nat p))%Q /\ Qfloor q = v.
Proof.
  intros Hv Hf s q. assert (P : 0 < 10 ^ Z.of_nat p) by (apply Z.pow_pos_nonneg; lia).
  assert (Eq : (q == inject_Z v + inject_Z f / inject_Z (10 ^ Z.of_nat p))%Q).
  { unfold q. rewrite Qmake_Qdiv, Z2Pos.id by lia. rewrite inject_Z_plus, inject_Z_mult. field. apply pow_q. }
  assert (Fq : Qfloor q = v).
  { apply floor_intro; rewrite Eq.
    - assert (0 <= inject_Z f / inject_Z (10 ^ Z.of_nat p))%Q; [|lra]. apply Qle_shift_div_l; [change 0%Q with (inject_Z 0); now rewrite <- Zlt_Qlt|].
      rewrite Qmult_0_l. change 0%Q with (inject_Z 0). rewrite <- Zle_Qle. lia.
    - assert (inject_Z f / inject_Z (10 ^ Z.of_nat p) < 1)%Q; [|lra]. apply Qlt_shift_div_r; [change 0%Q with (inject_Z 0); now rewrite <- Zlt_Qlt|].
      rewrite Qmult_1_l. rewrite <- Zlt_Qlt. lia. }
  assert (D2 : forall c, In c (ndig 3 v) -> isdigit c = true) by apply ndig_digit.
  assert (D3 : dig_val 0 (ndig 3 v) = v) by (rewrite dig_val_ndig by lia; change (10 ^ Z.of_nat 3) with 1000; rewrite Z.mod_small by lia; lia).
  split; [|split; [|split; assumption]].
  - destruct p as [|p].
    + left. exists v. unfold s. cbn [decimals]. rewrite app_nil_r. split; [split; [discriminate|now split]|]. unfold q. cbn in Hf. assert (f = 0) as -> by lia.
      change (10 ^ Z.of_nat 0) with 1. unfold inject_Z. f_equal. lia.
    + right. exists (ndig 3 v), (ndig (S p) f), (v * 10 ^ Z.of_nat (S p) + f). split.
      { intros c Hc. apply in_app_or in Hc as [Hc|Hc]; [now apply D2|]. now apply (ndig_digit (S p) f). }
      split; [discriminate|]. split; [reflexivity|]. split.
      { rewrite (DesigBase.dig_val_app (ndig 3 v)) by exact D2. rewrite D3, dig_val_ndig by lia. rewrite (Z.mod_small f) by lia. reflexivity. }
      rewrite ndig_length. reflexivity.
  - unfold s. destruct p as [|p].
    + cbn [decimals]. rewrite app_nil_r. apply D2, last_in. discriminate.
    + cbn [decimals]. rewrite last_app by discriminate. change (46 :: ndig (S p) f) with ([46] ++ ndig (S p) f). rewrite last_app by apply ndig_nil.
      apply (ndig_digit (S p) f), last_in, ndig_nil.
Qed.

Lemma round_trip_doy L now ph t0 t fmt n d m y d0 m0 y0 :
  long_ok L -> per_day fmt n -> in_full fmt -> (style fmt = 768 -> (places fmt <= 5)%nat) -> has fmt 8388608 = true -> good_cal (Z.land fmt 15) ->
  date_of_start L t0 fmt d0 m0 y0 ->
  let jd := day_shown t fmt n in
  jd_ok L jd -> dmy_result L jd (Z.land fmt 15) d m y -> 500 <= y < 10 ^ 9 -> (has fmt 8192 = false -> m <= 12) ->
  exists s T, writes L t fmt s /\ reads L now ph t0 s fmt T 0 /\ (T <= t + nudge fmt n)%Q /\ (t + nudge fmt n < T + last_place fmt n)%Q.
Proof.
  intros HL Hn Hf H5 Hdoy Hc Hst jd Hj Hr Hy Hm. destruct Hf as (Hz & Ht & H2 & Hny & Hw1 & Hw2 & Hns & Hnc & Hstyle).
  destruct (date_facts L jd (Z.land fmt 15) d m y HL Hj Hc Hr) as (Hd & Hm1 & _ & j0 & Hj0' & Rj0 & Dj0).
  pose proof (Hj0' 0 ltac:(lia)) as Hj0. rewrite Z.add_0_r in Hj0.
  destruct (shown_bounds t fmt n Hn) as (S1 & S2 & Hk). fold jd in S1, S2. set (k := count_shown t fmt n) in *.
  pose proof (calendar_text L t fmt n d m y j0 HL Hn Hc) as W. cbv zeta in W. fold jd in W. fold k in W.
  set (s := whole_text fmt jd j0 d m y k) in *. exists s, (shown fmt n jd k).
  assert (DF : date_fits fmt d m y jd j0).
  { split; [lia|]. split; [lia|]. split; [lia|]. split; [lia|]. split; [exact Hm|].
    split; [intros E; specialize (H5 E); lia|]. rewrite H2. discriminate. }
  specialize (W Hj Hr Hj0 Rj0 (fun _ => DF)). split; [exact W|]. split; [|split; assumption].
  set (ys := CtimeSpec.year_text fmt y).
  set (ns := pad0 3 (jd - j0) ++ (if style fmt =? 768 then decimals (places fmt) k else [])).
  set (clk := if style fmt =? 768 then [] else 32 :: time_text fmt k).
  set (swap := negb (has fmt 2048)).
  assert (Es : s = (if swap then ns ++ 32 :: ys else ys ++ 32 :: ns) ++ clk).
  { unfold s, whole_text, date_text, clk, swap, ns. cbv zeta. rewrite Hw1, Ht, Hw2, Hns, Hnc, Hdoy, Hny. fold ys.
    destruct (style fmt =? 768), (has fmt 2048); cbn [app andb negb]; rewrite ?app_nil_r; repeat (rewrite <- ?app_assoc; cbn [app]); rewrite ?app_nil_r; reflexivity. }
  pose proof (year_digits fmt y Hz H2 ltac:(lia)) as Yt. fold ys in Yt.
  assert (Hq : exists q, number_of ns q /\ isdigit (last ns 0) = true /\ (List.length ns <= 9)%nat /\ (q <= 421)%Q /\ Qfloor q = jd - j0 /\
    (day_fraction q == if style fmt =? 768 then inject_Z k * last_place fmt n else 0)%Q).
  { unfold ns. rewrite pad_three by lia. destruct (Z.eqb_spec (style fmt) 768) as [E|E].
    - assert (n = 1) as -> by (unfold per_day in Hn; rewrite E in Hn; cbn in Hn; destruct Hn as [H|[H|[H|[H|[]]]]]; injection H; intros; congruence || lia).
      assert (P : 0 < 10 ^ Z.of_nat (places fmt)) by (apply Z.pow_pos_nonneg; lia).
      destruct (number_three (places fmt) (jd - j0) k ltac:(lia) ltac:(lia)) as (N1 & N2 & N3 & N4).
      eexists. split; [exact N1|split; [exact N2|split; [|split; [|split; [exact N4|]]]]].
      + rewrite app_length, ndig_length. pose proof (decimals_len (places fmt) k). specialize (H5 E). lia.
      + rewrite N3. assert (inject_Z k / inject_Z (10 ^ Z.of_nat (places fmt)) <= 1)%Q.
        { apply Qle_shift_div_r; [change 0%Q with (inject_Z 0); now rewrite <- Zlt_Qlt|]. rewrite Qmult_1_l, <- Zle_Qle. lia. }
        assert (inject_Z (jd - j0) <= 420)%Q by (change 420%Q with (inject_Z 420); rewrite <- Zle_Qle; lia). lra.
      + unfold day_fraction. rewrite N4, N3. unfold last_place. rewrite Z.mul_1_l. field. apply pow_q.
    - destruct (number_three 0 (jd - j0) 0 ltac:(lia) ltac:(cbn; lia)) as (N1 & N2 & N3 & N4). cbn [decimals] in N1, N2.
      rewrite app_nil_r in *. eexists. split; [exact N1|split; [exact N2|split; [|split; [|split; [exact N4|]]]]].
      + rewrite ndig_length. lia.
      + rewrite N3. assert (inject_Z (jd - j0) <= 420)%Q by (change 420%Q with (inject_Z 420); rewrite <- Zle_Qle; lia).
        change (inject_Z (10 ^ Z.of_nat 0)) with 1%Q. change (inject_Z 0) with 0%Q. setoid_replace (0 / 1)%Q with 0%Q by reflexivity. lra.
      + unfold day_fraction. rewrite N4, N3. change (inject_Z (10 ^ Z.of_nat 0)) with 1%Q. change (inject_Z 0) with 0%Q. field. }
  destruct Hq as (q & Nn1 & Nl & Ln & Q421 & Fq & Frac).
  assert (Hclk : exists secs, clock_suffix clk secs /\ (secs / 86400 == if style fmt =? 768 then 0 else inject_Z k * last_place fmt n)%Q).
  { unfold clk. destruct (Z.eqb_spec (style fmt) 768) as [E|E].
    - exists 0%Q. split; [now left|]. field.
    - destruct (clock_ok fmt n k Hn Hk Hz) as (secs & C1 & C2); [destruct Hstyle as [E'|[E'|[E' _]]]; [now left|now right|congruence]|].
      exists secs. split; [right; now exists (time_text fmt k)|exact C2]. }
  destruct Hclk as (secs & Cs & Esec).
  assert (Inst : (instant jd secs + day_fraction q == shown fmt n jd k)%Q).
  { unfold instant, shown. rewrite Frac, Esec. destruct (style fmt =? 768); ring. }
  assert (Back : dmy_to_day L (Qfloor q) 1 y (calendar_of fmt) = Ret jd).
  { rewrite Fq. unfold dmy_to_day, calendar_of. destruct (Hj0' (jd - j0) ltac:(lia) 0) as [ic' ->]. cbn [obind]. f_equal. lia. }
  assert (Ym : year_meant now fmt y y) by (unfold year_meant, two_digit_years; unfold has in H2; rewrite H2; reflexivity).
  assert (Pns : forall c, In c ns -> isdigit c = true \/ c = 46) by (intros c Hc1; exact (number_chars ns q Nn1 c Hc1)).
  assert (Pys : forall c, In c ys -> isdigit c = true) by (apply Yt).
  assert (Pclk : forall c, In c clk -> c = 32 \/ isdigit c = true \/ c = 46 \/ c = 58).
  { destruct Cs as [[-> _]|(c & -> & Hc1)]; intros x Hx; [destruct Hx|]. destruct Hx as [<-|Hx]; [now left|right]. now apply (clock_chars c secs). }
  apply (TstrForms.reads_eq _ _ _ _ _ _ _ _ _ Inst).
  apply (C45_year_and_day_of_year_proof L now ph t0 s fmt ys y y ns q 32 swap clk secs d0 m0 y0 jd Hst (or_introl eq_refl)); try assumption; try lia.
  - rewrite <- Es.
    assert (Sp : spread s = s).
    { apply spread_plain. rewrite Es. intros c Hc1. assert (G : c = 32 \/ isdigit c = true \/ c = 46 \/ c = 58).
      { apply in_app_or in Hc1 as [Hc1|Hc1]; [|now apply Pclk].
        destruct swap; apply in_app_or in Hc1 as [Hc1|[<-|Hc1]]; try (now left); try (right; left; now apply Pys); destruct (Pns c Hc1); tauto. }
      destruct G as [->|G]; [reflexivity|now apply plain_char]. }
    destruct W as [Nn _].
    assert (Ls : (List.length s <= 61)%nat).
    { unfold s, whole_text. cbv zeta. rewrite Hw1, Ht, Hw2, Hns, Hnc. cbn [app]. rewrite !app_length. pose proof (text_len fmt jd j0 d m y k DF). pose proof (time_len fmt k).
      destruct (style fmt =? 768); cbn [List.length]; lia. }
    assert (Hh : s <> [] /\ hd 0 s <> 32).
    { assert (Gen : forall a b : list Z, a <> [] -> (forall c, In c a -> c <> 32) -> a ++ b <> [] /\ hd 0 (a ++ b) <> 32).
      { intros [|a0 a] b Ha Hb; [contradiction|]. split; [discriminate|]. apply Hb. now left. }
      rewrite Es. destruct Yt as ((Y1 & Y2 & _) & _).
      destruct swap; rewrite <- app_assoc; apply Gen; try assumption.
      - unfold ns. rewrite pad_three by lia. discriminate.
      - intros c Hc1 ->. destruct (Pns 32 Hc1) as [H|H]; discriminate H.
      - intros c Hc1 ->. specialize (Y2 32 Hc1). discriminate Y2. }
    destruct Hh as [Hh1 Hh2]. split; [exact Nn|]. split; [exact Hh2|]. split; [exact Hh1|]. split; [lia|]. split; [exact Sp|lia].
  - assert (500 <= inject_Z y)%Q by (change 500%Q with (inject_Z 500); rewrite <- Zle_Qle; lia). lra.
  - lra.
Qed.

(** Julian days. *)
Lemma jd_round_trip L now ph t0 t fmt : style fmt = 1280 \/ style fmt = 1536 ->
  let x := (t + nudge fmt 1 + jd_base fmt)%Q in (0 <= x)%Q -> (x <= inject_Z (10 ^ 19))%Q ->
  (style fmt = 1280 -> (1 <= x)%Q) ->
  exists s T, writes L t fmt s /\ reads L now ph t0 s fmt T 1 /\ (Qabs (T - (t + nudge fmt 1)) <= (1 # 2) * last_place fmt 1)%Q.
Proof.
  intros Hs x X0 X1 Hx1. assert (Ax : (Qabs x == x)%Q) by (now apply Qabs_pos).
  destruct (jd_text L t fmt Hs) as (W & Hv & Hb); fold x; [now rewrite Ax|]. cbv zeta in W, Hv, Hb. fold x in W, Hv, Hb.
  set (v := nearest (Qabs x * inject_Z (10 ^ Z.of_nat (places fmt)))) in *. rewrite Ax in Hb.
  assert (Em : minus x = []) by (unfold minus; apply Qle_bool_iff in X0; now rewrite X0). rewrite Em in W. cbn [app] in W.
  pose proof (places_15 fmt) as P15. set (p := places fmt) in *. assert (P : 0 < 10 ^ Z.of_nat p) by (apply Z.pow_pos_nonneg; lia).
  assert (QP : (0 < inject_Z (10 ^ Z.of_nat p))%Q) by (change 0%Q with (inject_Z 0); now rewrite <- Zlt_Qlt).
  set (q := (v # Z.to_pos (10 ^ Z.of_nat p))%Q).
  assert (Eq : (q == inject_Z v / inject_Z (10 ^ Z.of_nat p))%Q) by (unfold q; rewrite Qmake_Qdiv, Z2Pos.id by lia; reflexivity).
  assert (I : 0 <= v / 10 ^ Z.of_nat p < 10 ^ 20) by (split; [apply Z.div_pos; lia|apply Z.div_lt_upper_bound; lia]).
  destruct (DesigBase.dec_ok (v / 10 ^ Z.of_nat p) I) as (D1 & D2 & D3).
  assert (N : exists q', number_of (fixed_text p v) q' /\ (q' == q)%Q).
  { unfold fixed_text. destruct p as [|p'] eqn:Ep.
    - exists (inject_Z v). split; [|rewrite Eq; change (inject_Z (10 ^ Z.of_nat 0)) with 1%Q; field].
      left. exists v. split; [|reflexivity]. cbn [decimals]. rewrite app_nil_r. split; [exact D3|]. split; [exact D1|]. rewrite D2. change (10 ^ Z.of_nat 0) with 1. apply Z.div_1_r.
    - exists q. split; [|reflexivity]. right. exists (dec (v / 10 ^ Z.of_nat (S p'))), (ndig (S p') (v mod 10 ^ Z.of_nat (S p'))), v.
      split. { intros c Hc. apply in_app_or in Hc as [Hc|Hc]; [now apply D1|now apply (ndig_digit _ _ _ Hc)]. }
      split; [destruct (dec _); [contradiction|discriminate]|]. split; [reflexivity|]. split.
      + rewrite DesigBase.dig_val_app by exact D1. rewrite D2, dig_val_ndig by lia. rewrite Z.mod_mod by lia. rewrite (Z.div_mod v (10 ^ Z.of_nat (S p'))) at 3 by lia. lia.
      + rewrite ndig_length. reflexivity. }
  destruct N as (q' & N & Eq').
  assert (Sf : spread (fixed_text p v) = fixed_text p v).
  { apply spread_plain. intros c Hc. destruct (number_chars _ _ N c Hc) as [H| ->]; [now apply digit_alpha|reflexivity]. }
  destruct (fixed_text_facts p v Hv ltac:(lia)) as [Lf Nf].
  assert (Close : (Qabs (q - x) <= (1 # 2) * last_place fmt 1)%Q).
  { unfold last_place. fold p. rewrite Z.mul_1_l. apply Qabs_Qle_condition in Hb. destruct Hb as [B1 B2].
    set (M := inject_Z (10 ^ Z.of_nat p)) in *. assert (Hi : (0 < / M)%Q) by (apply Qinv_lt_0_compat; exact QP).
    assert (Em1 : (/ M * M == 1)%Q) by (field; lra).
    assert (B1' : (- (1 # 2) * / M <= (inject_Z v - x * M) * / M)%Q) by (apply Qmult_le_compat_r; lra).
    assert (B2' : ((inject_Z v - x * M) * / M <= (1 # 2) * / M)%Q) by (apply Qmult_le_compat_r; lra).
    assert (E : (q - x == (inject_Z v - x * M) * / M)%Q) by (rewrite Eq; field; lra).
    rewrite E. apply Qabs_Qle_condition. setoid_replace (1 / M)%Q with (/ M)%Q by (field; lra). lra. }
  exists (jd_mark fmt ++ fixed_text p v).
  assert (TX : forall mk, (List.length mk <= 4)%nat -> no_nul mk -> mk = zs "JD" \/ mk = zs "MJD" -> text (mk ++ 32 :: fixed_text p v) (spread mk ++ 32 :: fixed_text p v)).
  { intros mk Lm Nm Hmk. split; [apply no_nul_app; [exact Nm|intros c [<-|Hc]; [discriminate|now apply Nf]]|].
    split; [destruct Hmk as [-> | ->]; discriminate|]. split; [destruct Hmk as [-> | ->]; discriminate|].
    split; [rewrite app_length; cbn [List.length]; lia|]. split; [rewrite spread_space, Sf; reflexivity|].
    rewrite app_length. cbn [List.length]. assert (List.length (spread mk) <= 4)%nat by (destruct Hmk as [-> | ->]; vm_compute; lia). lia. }
  pose proof (C45_keywords_proof L now ph t0 (jd_mark fmt ++ fixed_text p v) fmt (fixed_text p v) q' N) as (K1 & K2 & _).
  assert (Xe : (x == t + nudge fmt 1 + (if style fmt =? 1280 then 2451545 else 515445 # 10))%Q) by reflexivity. clearbody x.
  unfold jd_mark in *. destruct Hs as [Es|Es]; rewrite Es in *; cbn [Z.eqb Pos.eqb] in *.
  - exists (q' - 2451545)%Q. split; [exact W|]. split.
    + apply K1.
      * apply (TX (zs "JD")); [cbn; lia|intros c Hc; cbn in Hc; intuition (subst; discriminate)|now left].
      * rewrite Eq'. intros E0. specialize (Hx1 eq_refl). apply Qabs_Qle_condition in Close. rewrite E0 in Close.
        assert (last_place fmt 1 <= 1)%Q. { unfold last_place. fold p. rewrite Z.mul_1_l. apply Qle_shift_div_r; [exact QP|]. rewrite Qmult_1_l. change 1%Q with (inject_Z 1). rewrite <- Zle_Qle. lia. }
        lra.
    + rewrite Eq'. setoid_replace (q - 2451545 - (t + nudge fmt 1))%Q with (q - x)%Q by (rewrite Xe; ring). exact Close.
  - exists (q' + 2400000 + (1 # 2) - 2451545)%Q. split; [exact W|]. split.
    + apply K2. apply (TX (zs "MJD")); [cbn; lia|intros c Hc; cbn in Hc; intuition (subst; discriminate)|now right].
    + rewrite Eq'. setoid_replace (q + 2400000 + (1 # 2) - 2451545 - (t + nudge fmt 1))%Q with (q - x)%Q by (rewrite Xe; ring). exact Close.
Qed.
