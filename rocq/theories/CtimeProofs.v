(** What full_ctimel( ) writes, calendar dates and times of day. *)
From Coq Require Import Lia ZifyBool QArith Qround Lqa.
From Coq Require Import String.
From Verif Require Import CBase CLemmas CStr StrModel StrProofs DateModel DateVocab DatePure DateFacts DateJG DateThms TstrModel
  CtimeModel CtimeSpec CtimeBuf.
From Verif Require DesigBase.
Local Open Scope string_scope.
Local Open Scope list_scope.
Local Open Scope Z_scope.

(* ---------- printf ---------- *)
Lemma digits_len m : forall n v, 0 <= v < 10 ^ Z.of_nat n -> (1 <= n)%nat -> (List.length (digits m v []) <= n)%nat.
Proof.
  induction m as [|m IH]; intros n v Hv Hn; cbn [digits]; [cbn; lia|].
  destruct (Z.eqb_spec (v / 10) 0); [cbn; lia|]. rewrite DesigBase.digits_app, app_length. cbn [List.length].
  destruct n as [|n]; [lia|]. rewrite Nat2Z.inj_succ, Z.pow_succ_r in Hv by lia.
  destruct n as [|n]; [exfalso; cbn in Hv; lia|].
  specialize (IH (S n) (v / 10) ltac:(lia) ltac:(lia)). lia.
Qed.
Lemma digits_chars m : forall v, 0 <= v -> forall c, In c (digits m v []) -> isdigit c = true.
Proof.
  induction m as [|m IH]; intros v Hv c Hc; cbn [digits] in Hc; [destruct Hc|].
  assert (D : isdigit (48 + v mod 10) = true) by (pose proof (Z.mod_pos_bound v 10 ltac:(lia)); unfold isdigit; lia).
  destruct (v / 10 =? 0).
  - destruct Hc as [<-|[]]. exact D.
  - rewrite DesigBase.digits_app in Hc. apply in_app_or in Hc. destruct Hc as [Hc|[<-|[]]]; [|exact D]. apply (IH (v / 10)); [lia|exact Hc].
Qed.
Lemma dec_nul v : no_nul (dec v).
Proof.
  unfold dec. destruct (Z.ltb_spec v 0).
  - intros c [<-|Hc]; [discriminate|]. apply (digit_no_nul (digits 20 (- v) [])); [apply digits_chars; lia|exact Hc].
  - apply digit_no_nul. apply digits_chars. lia.
Qed.
Lemma dec_len n v : Z.abs v < 10 ^ Z.of_nat n -> (1 <= n)%nat -> (List.length (dec v) <= n + 1)%nat.
Proof.
  intros H Hn. unfold dec. destruct (Z.ltb_spec v 0).
  - cbn [List.length]. pose proof (digits_len 20 n (- v) ltac:(lia) Hn). lia.
  - pose proof (digits_len 20 n v ltac:(lia) Hn). lia.
Qed.
Lemma repeat_nul x n : x <> 0 -> no_nul (repeat x n).
Proof. intros H c Hc. apply repeat_spec in Hc. now subst. Qed.
Lemma pad0_nul w v : no_nul (pad0 w v).
Proof.
  unfold pad0. cbv zeta. apply no_nul_app; [|apply no_nul_app].
  - destruct (v <? 0); [intros c [<-|[]]; discriminate|intros c []].
  - apply repeat_nul. discriminate.
  - apply digit_no_nul, digits_chars. lia.
Qed.
Lemma pad0_len w n v : Z.abs v < 10 ^ Z.of_nat n -> (1 <= n)%nat -> (List.length (pad0 w v) <= Nat.max w (n + 1))%nat.
Proof.
  intros H Hn. unfold pad0. cbv zeta. pose proof (digits_len 20 n (Z.abs v) ltac:(lia) Hn). rewrite !app_length, repeat_length.
  destruct (v <? 0); cbn [List.length]; lia.
Qed.
Lemma padsp_nul w v : no_nul (padsp w v).
Proof. unfold padsp. cbv zeta. apply no_nul_app; [apply repeat_nul; discriminate|apply dec_nul]. Qed.

Lemma below_100 (P : Z -> bool) : forallb P (map Z.of_nat (seq 0 100)) = true -> forall v, 0 <= v < 100 -> P v = true.
Proof.
  intros H v Hv. rewrite forallb_forall in H. apply H. rewrite <- (Z2Nat.id v) by lia. apply in_map, in_seq. lia.
Qed.
Fixpoint leq (s t : list Z) : bool :=
  match s, t with [], [] => true | a :: s', b :: t' => (a =? b) && leq s' t' | _, _ => false end.
Lemma leq_eq s : forall t, leq s t = true -> s = t.
Proof.
  induction s as [|a s IH]; intros [|b t] H; try discriminate H; [reflexivity|]. cbn in H.
  apply andb_prop in H as [A B]. apply Z.eqb_eq in A. f_equal; [exact A|now apply IH].
Qed.
Lemma pad0_two v : 0 <= v < 100 -> pad0 2 v = two 48 v.
Proof. intros H. apply leq_eq. revert v H. apply (below_100 (fun v => leq (pad0 2 v) (two 48 v))). vm_compute. reflexivity. Qed.
Lemma pad0_ndig v : 0 <= v < 100 -> pad0 2 v = ndig 2 v.
Proof. intros H. apply leq_eq. revert v H. apply (below_100 (fun v => leq (pad0 2 v) (ndig 2 v))). vm_compute. reflexivity. Qed.
Lemma padsp_two v : 0 <= v < 100 -> padsp 2 v = two 32 v.
Proof. intros H. apply leq_eq. revert v H. apply (below_100 (fun v => leq (padsp 2 v) (two 32 v))). vm_compute. reflexivity. Qed.
Lemma padded_two fmt v : 0 <= v < 100 -> padded (has fmt 32768) 2 v = two (zero_or_space fmt) v.
Proof. intros H. unfold padded, zero_or_space. destruct (has fmt 32768); [now apply pad0_two|now apply padsp_two]. Qed.
Lemma two_len z v : List.length (two z v) = 2%nat.
Proof. unfold two. destruct (v <? 10); reflexivity. Qed.
Lemma two_nul z v : z <> 0 -> 0 <= v -> no_nul (two z v).
Proof.
  intros Hz Hv. unfold two. destruct (Z.ltb_spec v 10).
  - intros c [<-|[<-|[]]]; lia.
  - apply digit_no_nul, ndig_digit.
Qed.
Lemma zs_nul fmt : zero_or_space fmt <> 0.
Proof. unfold zero_or_space. destruct (has fmt 32768); discriminate. Qed.
Lemma decimals_len p v : (List.length (decimals p v) <= p + 1)%nat.
Proof. destruct p; cbn [decimals List.length]; rewrite ?ndig_length; lia. Qed.
Lemma decimals_nul p v : no_nul (decimals p v).
Proof. destruct p; [intros c []|]. intros c [<-|H]; [discriminate|]. now apply (digit_no_nul _ (ndig_digit (S p) v)). Qed.
Lemma places_15 fmt : (places fmt <= 15)%nat.
Proof.
  unfold places. change 15 with (Z.ones 4). rewrite Z.land_ones by lia. change (2 ^ 4) with 16.
  pose proof (Z.mod_pos_bound (Z.shiftr fmt 4) 16 ltac:(lia)). lia.
Qed.

(* ---------- names ---------- *)
Lemma month_name_ok m : 1 <= m <= 12 -> month_name m = Ret (nth (Z.to_nat (m - 1)) months3 []) /\
  List.length (nth (Z.to_nat (m - 1)) months3 []) = 3%nat /\ no_nul (nth (Z.to_nat (m - 1)) months3 []).
Proof.
  intros H. assert (C : m = 1 \/ m = 2 \/ m = 3 \/ m = 4 \/ m = 5 \/ m = 6 \/ m = 7 \/ m = 8 \/ m = 9 \/ m = 10 \/ m = 11 \/ m = 12) by lia.
  repeat (destruct C as [C|C]); subst m; (split; [reflexivity|]); (split; [reflexivity|]); intros c Hc; vm_compute in Hc; intuition (subst; discriminate).
Qed.
Lemma day_name_ok w : 0 <= w < 7 -> day_name w = Ret (nth (Z.to_nat w) days3 []) /\
  List.length (nth (Z.to_nat w) days3 []) = 3%nat /\ no_nul (nth (Z.to_nat w) days3 []).
Proof.
  intros H. assert (C : w = 0 \/ w = 1 \/ w = 2 \/ w = 3 \/ w = 4 \/ w = 5 \/ w = 6) by lia.
  repeat (destruct C as [C|C]); subst w; (split; [reflexivity|]); (split; [reflexivity|]); intros c Hc; vm_compute in Hc; intuition (subst; discriminate).
Qed.

(* ---------- the date ---------- *)
Definition st_ok (L c d m y v : Z) : Prop := forall ic, exists ic', dmy_to_day_st L ic d m y c = Ret (v, ic').

Definition date_fits (fmt d m y jd j0 : Z) : Prop :=
  0 <= d <= 99 /\ 1 <= m <= 13 /\ Z.abs y <= 10 ^ 15 /\ 0 <= jd - j0 <= 1000 /\
  (has fmt 8192 = false -> m <= 12) /\ (style fmt = 768 -> (places fmt <= 11)%nat) /\
  (has fmt 65536 = true -> Z.abs y <= IMAX).

Lemma year_text_facts fmt y : Z.abs y <= 10 ^ 15 -> (List.length (year_text fmt y) <= 17)%nat /\ no_nul (year_text fmt y).
Proof.
  intros H. assert (H' : Z.abs y < 10 ^ Z.of_nat 16) by (change (10 ^ Z.of_nat 16) with (10 ^ 16); lia).
  unfold year_text. destruct (has fmt 65536); [|destruct (has fmt 32768)].
  - rewrite ndig_length. split; [lia|]. apply digit_no_nul, ndig_digit.
  - split; [|apply pad0_nul]. pose proof (pad0_len 4 16 y H' ltac:(lia)). lia.
  - split; [|apply (padsp_nul 4 y)]. rewrite app_length, repeat_length. pose proof (dec_len 16 y H' ltac:(lia)). lia.
Qed.
Lemma month_text_facts fmt m : 1 <= m <= 13 -> (has fmt 8192 = false -> m <= 12) ->
  (List.length (month_text fmt m) <= 3)%nat /\ no_nul (month_text fmt m).
Proof.
  intros Hm H. unfold month_text. destruct (has fmt 8192).
  - rewrite two_len. split; [lia|]. apply two_nul; [apply zs_nul|lia].
  - destruct (month_name_ok m) as (_ & A & B); [specialize (H eq_refl); lia|]. rewrite A. split; [lia|exact B].
Qed.
Lemma fit_ok n s : (List.length s < n)%nat -> fit n s = Ret s.
Proof. intros H. unfold fit. destruct (Nat.ltb_spec (List.length s) n); [reflexivity|lia]. Qed.

Lemma to_int_ok v : Z.abs v <= IMAX -> to_int v = v.
Proof.
  unfold IMAX, to_int, wrap. intros H. change (2 ^ 32) with 4294967296. change (2 ^ (32 - 1)) with 2147483648.
  rewrite Z.mod_small by lia. lia.
Qed.
Lemma ndig2_abs y : ndig 2 (Z.abs y) = pad0 2 (Z.abs (Z.rem y 100)).
Proof.
  rewrite pad0_ndig by (pose proof (Z.rem_bound_abs y 100 ltac:(lia)); lia).
  rewrite (ndig_mod 2 (Z.abs y)). change (10 ^ Z.of_nat 2) with 100. f_equal. rewrite <- Z.rem_abs by lia. now rewrite Z.rem_mod_nonneg by lia.
Qed.

Lemma str_hold n b s post k d : hold n b s post -> (List.length s < k)%nat -> (d <= List.length s)%nat ->
  buf_str k b (Z.of_nat d) = Ret (skipn d s).
Proof.
  intros (Hs & rest & -> & _) Hk Hd. rewrite <- (firstn_skipn d s) at 1. rewrite map_app, <- app_assoc.
  replace (Z.of_nat d) with (Z.of_nat (List.length (map Some (firstn d s)))) by (rewrite map_length, firstn_length; f_equal; lia).
  apply (buf_str_ok (skipn d s) (map Some (firstn d s)) (rest ++ post)).
  - intros c Hc. apply Hs. rewrite <- (firstn_skipn d s). apply in_or_app. now right.
  - rewrite skipn_length. lia.
  - reflexivity.
Qed.

Lemma day_part fmt d r k : 0 <= d <= 99 -> (style fmt = 768 -> (places fmt <= 11)%nat) ->
  (0 <= r)%Q -> (r < 1)%Q -> (style fmt = 768 -> k = Qfloor (r * inject_Z (10 ^ Z.of_nat (places fmt)))) ->
  exists x b0 b1, snprintf_err (repeat None 15) 0 15 (padded (has fmt 32768) 2 d) = Ret (x, b0) /\
    (if (style fmt =? 768) && negb (Nat.eqb (places fmt) 0) then show_remainder b0 2 r (places fmt) else Ret b0) = Ret b1 /\
    hold 15 b1 (two (zero_or_space fmt) d ++ (if style fmt =? 768 then decimals (places fmt) k else [])) [].
Proof.
  intros Hd Hp A B Hk. rewrite padded_two by lia.
  destruct (err_ok 15 (repeat None 15) [] (two (zero_or_space fmt) d)) as (x & b0 & E0 & H0).
  { reflexivity. } { apply two_nul; [apply zs_nul|lia]. } { rewrite two_len. lia. }
  rewrite app_nil_r in E0. exists x, b0. rewrite E0. destruct (Z.eqb_spec (style fmt) 768) as [E|E].
  - specialize (Hp E). specialize (Hk E). destruct (places fmt) as [|p] eqn:Ep.
    + cbn [andb negb Nat.eqb decimals]. exists b0. rewrite app_nil_r. (split; [reflexivity|]); (split; [reflexivity|exact H0]).
    + cbn [andb negb Nat.eqb]. destruct (show_ok 15 b0 _ [] r (S p) H0 A B) as (b1 & E1 & H1); [rewrite two_len; lia|].
      rewrite two_len in E1. change (Z.of_nat 2) with 2 in E1. exists b1. split; [reflexivity|]. split; [exact E1|]. cbn [decimals]. now subst k.
  - cbn [andb]. exists b0. rewrite app_nil_r. (split; [reflexivity|]); (split; [reflexivity|exact H0]).
Qed.

Lemma skip2 z d t : skipn 2 (two z d ++ t) = t.
Proof. unfold two. destruct (d <? 10); reflexivity. Qed.

Lemma date_ok L ic b s post fmt p t2 d m y c r k jd j0 :
  hold 80 b s post -> (List.length s <= 4)%nat -> date_fits fmt d m y jd j0 -> p = places fmt ->
  st_ok L c 0 1 y j0 -> jd = t2 + 2451545 -> long_ok L -> in_rng L jd = true -> in_rng L j0 = true -> in_rng L t2 = true ->
  (0 <= r)%Q -> (r < 1)%Q -> (style fmt = 768 -> k = Qfloor (r * inject_Z (10 ^ Z.of_nat (places fmt)))) ->
  exists b', show_date L ic b fmt p (style fmt) t2 d m y c r = Ret b' /\
    hold 80 b' (s ++ date_text fmt jd j0 d m y k ++ (if style fmt =? 768 then [] else [32])) post.
Proof.
  intros Hb Hs (Hd & Hm & Hy & Hj & Hm12 & Hp & H2) -> Hst Ejd HL Rjd Rj0 Rt A B Hk.
  unfold show_date, FULL_CTIME_LEADING_ZEROES, FULL_CTIME_MONTHS_AS_DIGITS, FULL_CTIME_TWO_DIGIT_YEAR, FULL_CTIME_YEAR_FIRST,
    FULL_CTIME_NO_YEAR, FULL_CTIME_DAY_OF_YEAR, FULL_CTIME_MONTH_DAY, FULL_CTIME_FORMAT_DAY. cbv zeta.
  destruct (month_text_facts fmt m Hm Hm12) as [Lm Nm]. destruct (year_text_facts fmt y Hy) as [Ly Ny].
  assert (EM : (if has fmt 8192 then fit 25 (padded (has fmt 32768) 2 m) else do n <- month_name m; fit 25 n) = Ret (month_text fmt m)).
  { unfold month_text in *. destruct (has fmt 8192) eqn:E.
    - rewrite padded_two by lia. apply fit_ok. rewrite two_len. lia.
    - destruct (month_name_ok m) as (Q1 & Q2 & _); [specialize (Hm12 eq_refl); lia|]. rewrite Q1. cbn [obind]. apply fit_ok. lia. }
  rewrite EM. clear EM. cbn [obind].
  assert (EY : (if has fmt 65536 then fit 20 (pad0 2 (Z.abs (Z.rem (to_int y) 100))) else fit 20 (padded (has fmt 32768) 4 y)) = Ret (year_text fmt y)).
  { unfold year_text in *. destruct (has fmt 65536) eqn:E.
    - rewrite to_int_ok by (apply H2; reflexivity). rewrite <- ndig2_abs. apply fit_ok. rewrite ndig_length. lia.
    - unfold padded. destruct (has fmt 32768); apply fit_ok; [lia|]. unfold padsp. cbv zeta. lia. }
  rewrite EY. clear EY. cbn [obind].
  set (yp := if has fmt 2048 && negb (has fmt 131072) then year_text fmt y ++ [32] else []).
  assert (Lyp : (List.length yp <= 18)%nat) by (unfold yp; destruct (_ && _); rewrite ?app_length; cbn [List.length]; lia).
  assert (S1 : exists b1, (if has fmt 2048 && negb (has fmt 131072) then do '(_, b0) <- snprintf_append b 0 80 (year_text fmt y ++ zs " "); Ret b0 else Ret b) = Ret b1
              /\ hold 80 b1 (s ++ yp) post).
  { unfold yp. destruct (_ && _).
    - destruct (append_ok 80 b s post (year_text fmt y ++ zs " ") Hb) as (x & b1 & E & H).
      + apply no_nul_app; [exact Ny|]. intros q [<-|[]]. discriminate.
      + rewrite !app_length. cbn [zs List.length]. lia.
      + rewrite E. cbn [obind]. exists b1. split; [reflexivity|exact H].
    - exists b. rewrite app_nil_r. split; [reflexivity|exact Hb]. }
  destruct S1 as (b1 & -> & H1). cbn [obind].
  destruct (day_part fmt d r k Hd Hp A B Hk) as (x0 & ds0 & ds1 & -> & E1 & Hds). cbn [obind]. rewrite E1. clear E1. cbn [obind].
  set (dc := if style fmt =? 768 then decimals (places fmt) k else []) in *.
  assert (Ldc : (List.length dc <= 12)%nat).
  { unfold dc. destruct (Z.eqb_spec (style fmt) 768) as [E|E]; [|cbn; lia]. specialize (Hp E). pose proof (decimals_len (places fmt) k). lia. }
  assert (Ndc : no_nul dc) by (unfold dc; destruct (style fmt =? 768); [apply decimals_nul|intros q []]).
  assert (Ldw : (List.length (two (zero_or_space fmt) d ++ dc) <= 14)%nat) by (rewrite app_length, two_len; lia).
  assert (Ndw : no_nul (two (zero_or_space fmt) d ++ dc)) by (apply no_nul_app; [apply two_nul; [apply zs_nul|lia]|exact Ndc]).
  set (mid := if has fmt 8388608 then pad0 3 (jd - j0) ++ dc
              else if has fmt 4096 then month_text fmt m ++ 32 :: (two (zero_or_space fmt) d ++ dc)
              else (two (zero_or_space fmt) d ++ dc) ++ 32 :: month_text fmt m).
  assert (Lmid : (List.length mid <= 18)%nat).
  { unfold mid. destruct (has fmt 8388608); [|destruct (has fmt 4096)]; rewrite !app_length in *; cbn [List.length].
    - pose proof (pad0_len 3 4 (jd - j0) ltac:(change (10 ^ Z.of_nat 4) with 10000; lia) ltac:(lia)). lia.
    - rewrite app_length. lia.
    - lia. }
  assert (Nmid : no_nul mid).
  { unfold mid. destruct (has fmt 8388608); [|destruct (has fmt 4096)].
    - apply no_nul_app; [apply pad0_nul|exact Ndc].
    - apply no_nul_app; [exact Nm|]. intros q [<-|Hq]; [discriminate|now apply Ndw].
    - apply no_nul_app; [exact Ndw|]. intros q [<-|Hq]; [discriminate|now apply Nm]. }
  match goal with |- exists b', (do '(_, buff) <- ?X; _) = _ /\ _ =>
    assert (S2 : exists x b2, X = Ret (x, b2) /\ hold 80 b2 ((s ++ yp) ++ mid) post) end.
  { assert (Lq : (List.length ((s ++ yp) ++ mid) < 80)%nat) by (rewrite !app_length; lia).
    unfold mid in *. destruct (has fmt 8388608) eqn:E8; [|destruct (has fmt 4096) eqn:E4].
    - rewrite ev_val by (cbn [safe val]; unfold fits, long_ok in *; unfold in_rng in *; lia). cbn [obind val]. rewrite <- Ejd.
      destruct (Hst ic) as [ic' ->]. cbn [obind].
      rewrite ev_val by (cbn [safe val]; unfold fits, long_ok in *; unfold in_rng in *; lia). cbn [obind val].
      rewrite to_int_ok by (unfold IMAX; lia).
      change 2 with (Z.of_nat 2) at 1. rewrite (str_hold 15 ds1 _ [] 16 2 Hds) by (rewrite ?app_length, ?two_len in *; lia).
      cbn [obind]. rewrite skip2. apply append_ok; [exact H1|exact Nmid|exact Lq].
    - change 0 with (Z.of_nat 0) at 1. rewrite (str_hold 15 ds1 _ [] 16 0 Hds) by lia. cbn [obind skipn].
      apply append_ok; [exact H1|exact Nmid|exact Lq].
    - change 0 with (Z.of_nat 0) at 1. rewrite (str_hold 15 ds1 _ [] 16 0 Hds) by lia. cbn [obind skipn].
      apply append_ok; [exact H1|exact Nmid|exact Lq]. }
  destruct S2 as (x2 & b2 & -> & H3). cbn [obind].
  set (ye := if negb (has fmt 2048) && negb (has fmt 131072) then 32 :: year_text fmt y else []).
  assert (Lye : (List.length ye <= 18)%nat).
  { unfold ye. clear - Ly. destruct (negb (has fmt 2048) && negb (has fmt 131072)); cbn [List.length]; lia. }
  assert (S3 : exists b3, (if negb (has fmt 2048) && negb (has fmt 131072) then do '(_, b0) <- snprintf_append b2 0 80 (zs " " ++ year_text fmt y); Ret b0 else Ret b2) = Ret b3
              /\ hold 80 b3 (((s ++ yp) ++ mid) ++ ye) post).
  { unfold ye. destruct (negb (has fmt 2048) && negb (has fmt 131072)).
    - destruct (append_ok 80 b2 _ post (zs " " ++ year_text fmt y) H3) as (x & b3 & E & H).
      + apply no_nul_app; [|exact Ny]. intros q [<-|[]]. discriminate.
      + rewrite !app_length. cbn [zs List.length]. lia.
      + rewrite E. cbn [obind]. exists b3. split; [reflexivity|exact H].
    - exists b2. rewrite app_nil_r. split; [reflexivity|exact H3]. }
  destruct S3 as (b3 & -> & H4). cbn [obind].
  assert (ET : ((s ++ yp) ++ mid) ++ ye = s ++ date_text fmt jd j0 d m y k).
  { unfold date_text. cbv zeta. fold dc. fold yp. fold mid. fold ye. now rewrite <- !app_assoc. }
  rewrite ET in H4. destruct (Z.eqb_spec (style fmt) 768) as [E|E]; cbn [negb].
  - exists b3. rewrite app_nil_r. split; [reflexivity|exact H4].
  - destruct (cat_ok 80 b3 _ post (zs " ") H4) as (x & b4 & E5 & H5).
    + intros q [<-|[]]. discriminate.
    + rewrite <- ET, !app_length. cbn [zs List.length]. lia.
    + rewrite E5. cbn [obind]. exists b4. split; [reflexivity|]. rewrite app_assoc. exact H5.
Qed.

(* ---------- the time of day ---------- *)
Lemma lead_two n b s post h t (zeroes : bool) : hold n b (s ++ two 32 h ++ t) post ->
  exists b', (if zeroes then do c <- rd b (Z.of_nat (List.length s)); if c =? 32 then wr b (Z.of_nat (List.length s)) 48 else Ret b else Ret b) = Ret b' /\
    hold n b' (s ++ two (if zeroes then 48 else 32) h ++ t) post.
Proof.
  intros H. destruct zeroes; [|exists b; split; [reflexivity|exact H]].
  unfold two in *. destruct (Z.ltb_spec h 10) as [Hh|Hh].
  - cbn [app] in *. destruct (wr_hold n b s 32 _ post 48 H ltac:(discriminate)) as (E & b' & F & G). rewrite E. cbn [obind]. rewrite Z.eqb_refl. exists b'. now split.
  - cbn [ndig app] in *. destruct (wr_hold n b s _ _ post 48 H ltac:(discriminate)) as (E & _). rewrite E. cbn [obind].
    assert (48 + h / 10 ^ Z.of_nat 1 mod 10 <> 32) by (pose proof (Z.mod_pos_bound (h / 10 ^ Z.of_nat 1) 10 ltac:(lia)); lia).
    destruct (Z.eqb_spec (48 + h / 10 ^ Z.of_nat 1 mod 10) 32); [contradiction|]. exists b. split; [reflexivity|exact H].
Qed.

Lemma time_ok L b s post fmt n r k : hold 80 b s post -> (List.length s <= 50)%nat -> long_ok L -> per_day fmt n ->
  (0 <= r)%Q -> (r < 1)%Q -> k = Qfloor (r * inject_Z (n * 10 ^ Z.of_nat (places fmt))) ->
  exists b', show_time L b fmt (places fmt) (style fmt) n r = Ret b' /\
    hold 80 b' (s ++ (if style fmt =? 768 then [] else time_text fmt k)) post.
Proof.
  intros Hb Hs HL Hn A B Hk. unfold show_time, FULL_CTIME_FORMAT_SECONDS, FULL_CTIME_FORMAT_HH_MM, FULL_CTIME_FORMAT_HH, FULL_CTIME_FORMAT_DAY, FULL_CTIME_LEADING_ZEROES. cbv zeta.
  assert (Hn0 : 0 < n <= 86400) by (unfold per_day in Hn; cbn in Hn; intuition congruence || (repeat match goal with H : _ \/ _ |- _ => destruct H as [H|H] | H : (_, _) = _ |- _ => injection H; intros; subst n; lia | H : False |- _ => destruct H end)).
  set (p := places fmt) in *. assert (Hp : 0 < 10 ^ Z.of_nat p) by (apply Z.pow_pos_nonneg; lia).
  destruct (floor_two r n (10 ^ Z.of_nat p) A ltac:(lia) Hp) as [F1 F2]. rewrite <- Hk in F1, F2.
  pose proof (floor_scale r n A B ltac:(lia)) as G. set (i := Qfloor (r * inject_Z n)) in *.
  rewrite chk_ok by (unfold fits, long_ok in *; lia). cbn [obind].
  destruct (Z.eqb_spec i n) as [E|_]; [lia|]. cbn [obind].
  rewrite (len_ok 80 b s post Hb). cbn [obind].
  assert (P15 : (p <= 15)%nat) by apply places_15.
  assert (TAIL : forall hms b1 h t, hms = two 32 h ++ t -> hold 80 b1 (s ++ hms) post -> (List.length hms <= 8)%nat ->
     exists b', (do buff <- (if has fmt 32768 then do c <- rd b1 (Z.of_nat (List.length s)); if c =? 32 then wr b1 (Z.of_nat (List.length s)) 48 else Ret b1 else Ret b1);
       if negb (Nat.eqb p 0) then do n0 <- buf_len (S (List.length buff)) buff 0; show_remainder buff n0 (r * inject_Z n - inject_Z i)%Q p else Ret buff) = Ret b' /\
       hold 80 b' (s ++ (two (zero_or_space fmt) h ++ t) ++ decimals p (k mod 10 ^ Z.of_nat p)) post).
  { intros hms b1 h t -> H1 Hl. destruct (lead_two 80 b1 s post h t (has fmt 32768) H1) as (b2 & -> & H2). cbn [obind].
    change (if has fmt 32768 then 48 else 32) with (zero_or_space fmt) in H2.
    destruct p as [|p'] eqn:Ep.
    - cbn [Nat.eqb negb decimals]. exists b2. rewrite app_nil_r. split; [reflexivity|exact H2].
    - cbn [Nat.eqb negb]. rewrite (len_ok 80 b2 _ post H2). cbn [obind].
      pose proof (floor_bounds (r * inject_Z n)) as [C D]. fold i in C, D.
      destruct (show_ok 80 b2 _ post (r * inject_Z n - inject_Z i)%Q (S p') H2) as (b3 & E3 & H3); [lra|lra| |].
      { rewrite app_length, two_len in Hl. rewrite !app_length, two_len. lia. }
      rewrite E3. exists b3. split; [reflexivity|]. cbn [decimals]. rewrite F2. rewrite <- app_assoc in H3. exact H3. }
  unfold time_text. cbv zeta. fold p. rewrite F1.
  unfold per_day in Hn. cbn [In] in Hn. destruct Hn as [Hn|[Hn|[Hn|[Hn|[]]]]]; injection Hn as Es En; rewrite <- Es.
  - change (0 =? 0) with true. change (0 =? 768) with false. cbv iota.
    rewrite Z.quot_div_nonneg, (Z.quot_div_nonneg i 60), !Z.rem_mod_nonneg by lia.
    rewrite padsp_two, !pad0_two by lia.
    destruct (append_ok 80 b s post (two 32 (i / 3600) ++ zs ":" ++ two 48 (i / 60 mod 60) ++ zs ":" ++ two 48 (i mod 60)) Hb) as (x & b1 & -> & H1).
    { repeat apply no_nul_app; try (apply two_nul; lia); intros q [<-|[]]; discriminate. }
    { rewrite !app_length, !two_len. cbn [zs List.length]. lia. }
    cbn [obind]. destruct (TAIL _ b1 (i / 3600) _ eq_refl H1) as (b' & E' & H'); [rewrite !app_length, !two_len; cbn [zs List.length]; lia|].
    rewrite E'. exists b'. split; [reflexivity|]. exact H'.
  - change (256 =? 0) with false. change (256 =? 256) with true. change (256 =? 768) with false. cbv iota.
    rewrite Z.quot_div_nonneg, !Z.rem_mod_nonneg by lia. rewrite padsp_two, !pad0_two by lia.
    destruct (append_ok 80 b s post (two 32 (i / 60) ++ zs ":" ++ two 48 (i mod 60)) Hb) as (x & b1 & -> & H1).
    { repeat apply no_nul_app; try (apply two_nul; lia); intros q [<-|[]]; discriminate. }
    { rewrite !app_length, !two_len. cbn [zs List.length]. lia. }
    cbn [obind]. destruct (TAIL _ b1 (i / 60) _ eq_refl H1) as (b' & E' & H'); [rewrite !app_length, !two_len; cbn [zs List.length]; lia|].
    rewrite E'. exists b'. split; [reflexivity|]. exact H'.
  - change (512 =? 0) with false. change (512 =? 256) with false. change (512 =? 512) with true. change (512 =? 768) with false. cbv iota.
    rewrite padsp_two by lia.
    destruct (append_ok 80 b s post (two 32 i) Hb) as (x & b1 & -> & H1).
    { apply two_nul; lia. }
    { rewrite !app_length, !two_len. lia. }
    cbn [obind]. destruct (TAIL _ b1 i [] (eq_sym (app_nil_r _)) H1) as (b' & E' & H'); [rewrite two_len; lia|].
    rewrite E'. exists b'. split; [reflexivity|]. rewrite app_nil_r in H'. exact H'.
  - change (768 =? 0) with false. change (768 =? 256) with false. change (768 =? 512) with false. change (768 =? 768) with true. cbv iota. cbn [obind].
    exists b. rewrite app_nil_r. split; [reflexivity|exact Hb].
Qed.
