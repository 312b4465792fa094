(** Other ways to write a time. *)
From Coq Require Import QArith Qround Lia Permutation.
From Coq Require Import Ascii String.
From Verif Require Import CBase CLemmas CStr DateModel DateVocab DateThms TstrModel TstrSpec TstrCopy TstrNum TstrOff TstrDate TstrSplit TstrField TstrThree TstrRoles TstrRead.
Local Open Scope list_scope.
Local Open Scope Z_scope.

(** ---- one field ---- *)
Definition no_sep (a : list Z) : Prop := forall c, In c a -> c <> 45 /\ c <> 58 /\ c <> 47 /\ c <> 32 /\ c <> 0.
Lemma no_sep_is c : c <> 45 /\ c <> 58 /\ c <> 47 /\ c <> 32 /\ c <> 0 -> negb (is_sep c) = true.
Proof.
  intro H. unfold is_sep, strchr. cbn [zs existsb]. repeat (rewrite (proj2 (Z.eqb_neq c _)) by (vm_compute; lia)). reflexivity.
Qed.
Lemma no_dash_fits s : ~ In 45 s -> fits_time s = Ret false.
Proof.
  intro H. rewrite fits_bool. f_equal. replace (nth 4 s 0 =? 45) with false; [rewrite !andb_false_r; reflexivity|].
  symmetry. apply Z.eqb_neq. intro K. destruct (nth_in_or_default 4 s 0) as [I0|I0]; [apply H; now rewrite <- K|lia].
Qed.
Lemma suffix_no_dash clk t : clock_suffix clk t -> ~ In 45 clk.
Proof. intros Hc I0. pose proof (suffix_chars clk t 45 Hc I0). unfold num_char in *. lia. Qed.
Definition go (E : env) (fmt h : Z) (b : Q) (r : (Q * Z) + (Z * Z * Q)) : outcome (Q * Z) :=
  match r with
  | inl res => Ret res
  | inr (y, m, d) => do t <- finish E (calendar_of fmt) false y m d h 0 b 0; Ret (t, 0)
  end.
Lemma single_run L now dfuel ph t0 fmt a clk t y m d h0 mi sec :
  a <> [] -> no_sep a -> dots_to_slashes (a ++ clk) = Ret (a ++ clk) -> good (a ++ clk) = true -> clock_suffix clk t ->
  split_time {| e_long := L; e_now := now; e_fuel := dfuel; e_phase := ph |} t0 (Z.land fmt CALENDAR_MASK) = Ret (y, m, d, h0, mi, sec) ->
  exists h b, 0 <= h < 10000 /\ (inject_Z (h * 60 + 0) / 1440 + b / 86400 == t / 86400)%Q /\
    date_and_time {| e_long := L; e_now := now; e_fuel := dfuel; e_phase := ph |} t0 fmt (a ++ clk) false 0 0 =
    (do r <- single_field {| e_long := L; e_now := now; e_fuel := dfuel; e_phase := ph |} t0 0 a 0 y m (inject_Z d);
     go {| e_long := L; e_now := now; e_fuel := dfuel; e_phase := ph |} fmt h b r).
Proof.
  intros Ha Hs Hd Hg Hc Es.
  assert (N58 : ~ In 58 a) by (intro K; specialize (Hs _ K); lia).
  destruct (clock_any a clk t h0 mi sec Hc N58) as (h & b & Ec & Hh & Ht).
  exists h, b. split; [assumption|]. split; [assumption|].
  unfold date_and_time. rewrite Hd. cbn [obind]. rewrite Es. cbn [obind].
  rewrite no_dash_fits.
  2:{ intro K. apply in_app_or in K. destruct K as [K|K]; [specialize (Hs _ K); lia|exact (suffix_no_dash clk t Hc K)]. }
  cbn [obind]. rewrite am_pm_plain by assumption. rewrite Ec. cbn [obind]. cbv zeta.
  destruct a as [|c r]; [congruence|].
  rewrite span_all by (intros x Hx; apply no_sep_is; apply Hs; now right).
  assert (Ea : at_ (c :: r) (Z.of_nat (S (List.length r))) = Ret 0).
  { unfold at_. cbn [List.length]. now rewrite Z.eqb_refl. }
  rewrite Ea. cbn [obind]. change (0 =? 58) with false. change (0 =? 0) with true. cbv iota.
  destruct (single_field _ _ _ _ _ _ _ _) as [[res|[[y1 m1] d1]]| | |]; reflexivity.
Qed.
(** The date of the starting time. *)
Lemma split_date L t0 fmt d m y : date_of_start L t0 fmt d m y ->
  exists N, forall now ph dfuel, (N <= dfuel)%nat -> exists h mi s,
    split_time {| e_long := L; e_now := now; e_fuel := dfuel; e_phase := ph |} t0 (Z.land fmt CALENDAR_MASK) = Ret (y, m, d, h, mi, s).
Proof.
  intros (HL & Hj & N & H). exists N. intros now ph dfuel Hd. destruct (H dfuel 0 0 Hd) as (ic & E).
  assert (E' : day_to_dmy L dfuel 0 (day_of t0) (calendar_of fmt) = Ret (d, m, y)) by (unfold day_to_dmy; now rewrite E).
  destruct (split_form L now dfuel ph t0 fmt d m y HL Hj E') as (h & mi & s & E2 & _). eauto.
Qed.
(** From one field to the result: [P] is what single_field( ) gives. *)
Lemma single_reads L now ph t0 txt fmt a clk t y0 m0 d0 y m q jd :
  date_of_start L t0 fmt d0 m0 y0 -> text txt (a ++ clk) -> ordinary (a ++ clk) -> no_keyword (a ++ clk) ->
  a <> [] -> no_sep a -> dots_to_slashes (a ++ clk) = Ret (a ++ clk) -> clock_suffix clk t ->
  (forall dfuel, single_field {| e_long := L; e_now := now; e_fuel := dfuel; e_phase := ph |} t0 0 a 0 y0 m0 (inject_Z d0) = Ret (inr (y, m, q))) ->
  (0 <= q)%Q -> (q <= 1000)%Q -> dmy_to_day L (Qfloor q) m y (calendar_of fmt) = Ret jd -> jd_ok L jd ->
  reads L now ph t0 txt fmt (instant jd t + day_fraction q)%Q 0.
Proof.
  intros HS HT Ho Hk Ha Hs Hd Hc HP Q0 Q1 Hj Hjd. destruct (split_date L t0 fmt d0 m0 y0 HS) as (N & HN).
  exists (S (S N)). intros fuel dfuel Hf Hdf. destruct fuel as [|[|fuel]]; [lia|lia|].
  rewrite (run_date fuel _ t0 txt _ fmt HT Ho Hk).
  destruct (HN now ph dfuel ltac:(lia)) as (h0 & mi & sec & Es).
  destruct (single_run L now dfuel ph t0 fmt a clk t y0 m0 d0 h0 mi sec Ha Hs Hd ltac:(apply Ho) Hc Es) as (h & b & Hh & Ht & ->).
  rewrite HP. cbn [obind go]. destruct HS as (HL & _).
  destruct (finish_frac {| e_long := L; e_now := now; e_fuel := dfuel; e_phase := ph |} fmt y m q h b jd t) as (r & -> & Hr); try assumption.
  exists r. split; [reflexivity|assumption].
Qed.
Lemma single_direct L now ph t0 txt fmt a t u :
  start_ok L t0 fmt -> text txt a -> ordinary a -> no_keyword a ->
  a <> [] -> no_sep a -> dots_to_slashes a = Ret a ->
  (forall dfuel y0 m0 d0, exists t', single_field {| e_long := L; e_now := now; e_fuel := dfuel; e_phase := ph |} t0 0 a 0 y0 m0 d0 = Ret (inl (t', u)) /\ (t' == t)%Q) ->
  reads L now ph t0 txt fmt t u.
Proof.
  intros HS HT Ho Hk Ha Hs Hd HP. destruct (split_some L t0 fmt HS) as (N & HN).
  exists (S (S N)). intros fuel dfuel Hf Hdf. destruct fuel as [|[|fuel]]; [lia|lia|].
  rewrite (run_date fuel _ t0 txt _ fmt HT Ho Hk).
  destruct (HN now ph dfuel ltac:(lia)) as (y0 & m0 & d0 & h0 & mi & sec & Es).
  pose proof (app_nil_r a) as Ea.
  destruct (single_run L now dfuel ph t0 fmt a [] 0 y0 m0 d0 h0 mi sec Ha Hs) as (h & b & Hh & Ht & Er);
    [now rewrite Ea|rewrite Ea; apply Ho|left; tauto|assumption|].
  rewrite Ea in Er. rewrite Er. destruct (HP dfuel y0 m0 (inject_Z d0)) as (t' & -> & Ht'). cbn [obind go].
  exists t'. split; [reflexivity|assumption].
Qed.

(** ---- a number with k digits before the point ---- *)
Lemma split_chars s k v f : split_number s k v f -> (0 < k)%nat /\ s <> [] /\ (forall c, In c s -> num_char c) /\ isdigit (last s 0) = true /\ isdigit (hd 0 s) = true.
Proof.
  intros (ip & Hi & Hk & [[-> _]|(b & u & Hb & _ & -> & _)]).
  - pose proof Hi as (Hn & Hd & _). destruct ip as [|c ip]; [congruence|]. split; [cbn in Hk; lia|]. split; [discriminate|]. split.
    + intros x Hx. left. apply digit_range. now apply Hd.
    + split; [|apply Hd; now left]. destruct (exists_last Hn) as (p & y & Ep). rewrite Ep at 1. rewrite last_last. apply Hd. rewrite Ep. apply in_or_app. right. now left.
  - pose proof Hi as (Hn & Hd & _). pose proof Hb as (Hbn & Hbd & _). destruct ip as [|c ip]; [congruence|].
    split; [cbn in Hk; lia|]. split; [discriminate|]. split.
    + intros x Hx. apply in_app_or in Hx. destruct Hx as [Hx|[<-|Hx]]; [left; apply digit_range; now apply Hd|now right|left; apply digit_range; now apply Hbd].
    + split; [|apply Hd; now left]. destruct (exists_last Hbn) as (p & y & ->).
      replace ((c :: ip) ++ 46 :: p ++ [y]) with (((c :: ip) ++ 46 :: p) ++ [y]) by (rewrite <- app_assoc; reflexivity).
      rewrite last_last. apply Hbd. apply in_or_app. right. now left.
Qed.
Lemma split_range s k v f : split_number s k v f -> 0 <= v < 10 ^ Z.of_nat k /\ (0 <= f)%Q /\ (f < 1)%Q.
Proof.
  intros (ip & Hi & Hk & H). pose proof (digits_bound ip v Hi) as B. rewrite Hk in B. split; [assumption|].
  destruct H as [[_ ->]|(b & u & Hb & _ & _ & ->)]; [split; [discriminate|reflexivity]|].
  pose proof (digits_bound b u Hb) as Bb. assert (P : 0 < 10 ^ Z.of_nat (List.length b)) by (apply Z.pow_pos_nonneg; lia).
  split; [unfold Qle|unfold Qlt]; cbn [Qnum Qden]; rewrite ?Z2Pos.id by assumption; lia.
Qed.
Definition clean_end (r : list Z) : Prop := match r with [] => True | c :: _ => c = 32 end.
Lemma suffix_clean clk t : clock_suffix clk t -> clean_end clk.
Proof. intros [[-> _]|(c & -> & _)]; [exact I|reflexivity]. Qed.
Lemma split_dots s k v f r : split_number s k v f -> (k <= 9)%nat -> clean_end r ->
  dots_to_slashes (s ++ r) = Ret (s ++ r).
Proof.
  intros (ip & Hi & Hk & H) Hk9 Hr. pose proof (short_digits ip v Hi ltac:(lia)) as B. unfold dots_to_slashes.
  assert (Hl : forall x, clean_end x -> lit 46 x = None) by (intros [|c x] K; [reflexivity|cbn in K; subst c; reflexivity]).
  assert (He : match r with [] => True | c :: _ => isdigit c = false end) by (destruct r as [|c x]; [exact I|cbn in Hr; subst c; reflexivity]).
  destruct H as [[-> _]|(b & u & Hb & Lb & -> & _)].
  - rewrite (scan_d_num IMAX ip v r Hi He) by (unfold IMAX; lia). cbn [obind]. now rewrite Hl.
  - rewrite <- app_assoc. cbn [app]. pose proof (short_digits b u Hb Lb).
    rewrite (scan_d_num IMAX ip v (46 :: b ++ r) Hi eq_refl) by (unfold IMAX; lia). cbn [obind]. rewrite lit_same.
    rewrite (scan_d_num IMAX b u r Hb He) by (unfold IMAX; lia). cbn [obind]. now rewrite Hl.
Qed.
Lemma num_chars_plain s : (forall c, In c s -> num_char c) -> good s = true.
Proof. intro H. apply good_plain. intros c Hc. specialize (H c Hc). unfold num_char in H. lia. Qed.
Lemma split_ordinary s k v f clk t : split_number s k v f -> clock_suffix clk t -> ordinary (s ++ clk) /\ no_keyword (s ++ clk) /\ s <> [] /\ no_sep s.
Proof.
  intros H Hc. destruct (split_chars s k v f H) as (_ & Hn & Hch & Hl & Hh). destruct s as [|c r]; [congruence|].
  cbn [hd] in Hh. pose proof (Hch c (or_introl eq_refl)) as Kc. apply digit_range in Hh.
  split; [|split; [|split]].
  - apply (fin_ordinary _ c (r ++ clk)); [| |reflexivity|lia|unfold is_sign; rewrite orb_false_iff, !Z.eqb_neq; lia].
    + eapply fin_suffix; [apply fin_digit; [discriminate|now left]|eassumption].
    + eapply suffix_good; [now apply num_chars_plain|eassumption].
  - cbn [app]. now apply num_no_keyword.
  - discriminate.
  - intros x Hx. specialize (Hch x Hx). unfold num_char in Hch. lia.
Qed.
Lemma split_field E t0 s k v f is_ut y m d : split_number s k v f -> (k <= 9)%nat ->
  exists g, (g == f)%Q /\ (f = 0%Q -> g = 0%Q) /\ single_field E t0 0 s is_ut y m d =
  (let tval := (g + inject_Z v)%Q in let n_bytes := Z.of_nat k in let ival := v in let offset := 0%Q in
   let month := m in let dday := d in let year := y in
              if (n_bytes =? 1) || (n_bytes =? 2) then Ret (inr (year, month, tval))
              else if n_bytes =? 3 then Ret (inr (year, 1, tval))
              else if (n_bytes =? 4) || (n_bytes =? 5) then
                (if Qeq_bool (inject_Z ival) tval then Ret (inr (ival, 1, 1%Q))
                 else Ret (inl (((tval - 2000) * (36525 # 100) + offset - (1 # 2))%Q, is_ut)))
              else if n_bytes =? 7 then Ret (inl ((tval + offset - J2000)%Q, 1))
              else if (n_bytes =? 6) || (n_bytes =? 8) then
                (let y := Z.quot ival 10000 in
                 let y := if n_bytes =? 6 then y + (if y <? 40 then 2000 else 1900) else y in
                 Ret (inr (y, Z.rem (Z.quot ival 100) 100,
                           (inject_Z (Z.rem ival 100) + (tval - inject_Z ival))%Q)))
              else Ret (inr (year, month, dday))).
Proof.
  intros H Hk9. destruct (split_chars s k v f H) as (_ & Hn & Hch & _ & _). destruct H as (ip & Hi & Hk & H).
  pose proof (short_digits ip v Hi ltac:(lia)) as B.
  destruct H as [[Hs ->]|(b & u & Hb & Lb & Hs & ->)].
  - exists 0%Q. split; [reflexivity|]. split; [reflexivity|]. subst s.
    destruct ip as [|c r] eqn:Ei; [congruence|]. rewrite <- Ei in *.
    destruct (num_index ip c r Ei (Hch c ltac:(rewrite Ei; now left))) as [E1 E2].
    unfold single_field. rewrite E1, E2. change (negb (0 =? 0)) with false. change (0 <=? -1) with false. cbv iota.
    assert (E3 : scan_d IMAX ip = Ret (Some (v, []))) by (rewrite <- (app_nil_r ip) at 1; apply scan_d_num; [assumption|exact I|unfold IMAX; lia]).
    rewrite E3. cbn [obind List.length]. rewrite Hk. rewrite Z.sub_0_r. rewrite Ei at 1. reflexivity.
  - exists (u # Z.to_pos (10 ^ Z.of_nat (List.length b)))%Q. split; [reflexivity|]. split; [tauto|].
    destruct s as [|c r] eqn:Es; [congruence|]. rewrite <- Es in *.
    destruct (num_index s c r Es (Hch c ltac:(rewrite Es; now left))) as [E1 E2].
    unfold single_field. rewrite E1, E2. change (negb (0 =? 0)) with false. change (0 <=? -1) with false. cbv iota.
    assert (E3 : scan_d IMAX s = Ret (Some (v, 46 :: b))) by (rewrite Hs; apply scan_d_num; [assumption|reflexivity|unfold IMAX; lia]).
    rewrite E3. cbn [obind].
    assert (E4 : scan_lf (46 :: b) = Ret (Some ((u # Z.to_pos (10 ^ Z.of_nat (List.length b)))%Q, []))).
    { rewrite <- (app_nil_r (46 :: b)). apply scan_lf_num; [|exact I]. right. exists [], b, u. destruct Hb as (Hbn & Hbd & Hbv).
      repeat split; assumption. }
    rewrite E4. cbn [obind]. rewrite Es at 1.
    replace (Z.of_nat (List.length s) - Z.of_nat (List.length (46 :: b))) with (Z.of_nat k); [reflexivity|].
    rewrite Hs, app_length. cbn [List.length]. lia.
Qed.
