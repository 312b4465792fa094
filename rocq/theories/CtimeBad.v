(** full_ctimel( ): formats that are undefined behaviour. *)
From Coq Require Import Lia ZifyBool QArith Qround Qabs Lqa.
From Coq Require Import String.
From Verif Require Import CBase CLemmas CStr StrModel StrProofs DateModel DateVocab TstrModel CtimeModel CtimeSpec CtimeBuf CtimeProofs CtimeText.
Local Open Scope string_scope.
Local Open Scope list_scope.
Local Open Scope Z_scope.

Lemma show_digits_over p : forall b i r, (0 <= r)%Q -> (r < 1)%Q -> (i <= List.length b)%nat -> (List.length b <= i + p)%nat ->
  (do '(b', i') <- show_digits p b (Z.of_nat i) r; wr b' i' 0) = UB.
Proof.
  induction p as [|p IH]; intros b i r A B Hi H; cbn [show_digits].
  - cbn [obind]. apply wr_ub. lia.
  - destruct (sd_step r A B) as (C & D & E). rewrite to_char_digit by lia.
    destruct (Nat.eq_dec i (List.length b)) as [Eb|Nb]; [rewrite wr_ub by lia; reflexivity|].
    rewrite wr_ok by lia. cbn [obind]. destruct (Z.leb_spec (Qfloor (r * 10)) 9); [|lia]. cbn [negb].
    replace (Z.of_nat i + 1) with (Z.of_nat (i + 1)) by lia. apply IH; try assumption; rewrite splice_length by (cbn; lia); lia.
Qed.
Lemma show_over b i r p : (0 <= r)%Q -> (r < 1)%Q -> (i < List.length b)%nat -> (List.length b <= i + p + 1)%nat ->
  show_remainder b (Z.of_nat i) r p = UB.
Proof.
  intros A B Hi H. unfold show_remainder. rewrite wr_ok by lia. cbn [obind].
  assert (E1 : Qle_bool 0 r = true) by (now apply Qle_bool_iff). rewrite E1.
  assert (E2 : Qle_bool 1 r = false).
  { destruct (Qle_bool 1 r) eqn:E; [|reflexivity]. apply Qle_bool_iff in E. exfalso. apply (Qlt_not_le r 1); assumption. }
  rewrite E2. cbn [negb andb]. replace (Z.of_nat i + 1) with (Z.of_nat (i + 1)) by lia.
  apply show_digits_over; try assumption; rewrite splice_length by (cbn; lia); lia.
Qed.

(** If the date cannot be written, neither can the whole. *)
Lemma date_crash L t fmt n d m y : long_ok L -> per_day fmt n ->
  let jd := day_shown t fmt n in
  jd_ok L jd -> dmy_result L jd (Z.land fmt 15) d m y -> has fmt 16384 = false ->
  (forall ic b s post r, hold 80 b s post -> (List.length s <= 4)%nat -> (0 <= r)%Q -> (r < 1)%Q ->
     show_date L ic b fmt (places fmt) (style fmt) (jd - 2451545) d m y (Z.land fmt 15) r = UB) ->
  writing_crashes L t fmt.
Proof.
  intros HL Hn jd Hj [N Hr] Ht HD. set (x := (t + nudge fmt n + (1 # 2))%Q) in *.
  exists N. intros fuel ic month0 room post Hf Hroom.
  unfold full_ctimel. cbv zeta.
  set (units := if Z.land fmt FULL_CTIME_FORMAT_MASK =? FULL_CTIME_FORMAT_SECONDS then 86400 else if Z.land fmt FULL_CTIME_FORMAT_MASK =? FULL_CTIME_FORMAT_HH_MM then 1440
      else if Z.land fmt FULL_CTIME_FORMAT_MASK =? FULL_CTIME_FORMAT_HH then 24 else 1).
  assert (Eu : units = n /\ (style fmt =? 1024) = false /\ (style fmt =? 1280) || (style fmt =? 1536) = false).
  { unfold units. change (Z.land fmt FULL_CTIME_FORMAT_MASK) with (style fmt). unfold per_day in Hn. cbn [In] in Hn.
    destruct Hn as [H|[H|[H|[H|[]]]]]; injection H as Es En; rewrite <- Es; subst n; repeat split; reflexivity. }
  destruct Eu as (-> & E1 & E2).
  change (Z.land fmt FULL_CTIME_FORMAT_MASK) with (style fmt). change FULL_CTIME_FORMAT_YEAR with 1024. change FULL_CTIME_FORMAT_JD with 1280.
  change FULL_CTIME_FORMAT_MJD with 1536. change FULL_CTIME_ROUNDING with 2097152. rewrite E1, E2.
  change (Z.to_nat (Z.land (Z.shiftr fmt 4) 15)) with (places fmt).
  set (add := if has fmt 2097152 then (tenths (places fmt) 1 * ((1 # 2) / inject_Z n))%Q else (tenths (places fmt) 1 * ((5 # 100) / 86400))%Q).
  assert (Ea : (add == nudge fmt n)%Q) by (apply (nudge_eq fmt n Hn)).
  unfold show_calendar. cbv zeta.
  assert (Ef : Qfloor (t + add + (1 # 2)) = Qfloor x) by (apply Qfloor_comp; unfold x; now rewrite Ea).
  rewrite Ef. set (t2 := Qfloor x) in *. assert (Ejd : jd = t2 + 2451545) by reflexivity.
  assert (Ht2 : Z.abs t2 + 5000000 <= L) by (unfold jd_ok, long_ok in *; lia).
  rewrite chk_ok by (unfold fits, long_ok in *; lia). cbn [obind].
  rewrite ev_val by (cbn [safe val]; unfold fits, long_ok in *; lia). cbn [obind val].
  pose proof (dow_eq t2) as Ew. cbv zeta in Ew. rewrite Ew. rewrite <- Ejd.
  destruct (dow_facts jd) as (Ld & Nd & Ed).
  set (s0 := if has fmt 262144 then dow_text jd ++ [32] else []).
  change FULL_CTIME_DAY_OF_WEEK_FIRST with 262144.
  assert (S0 : exists b0, (if has fmt 262144 then do n0 <- day_name ((jd + 1) mod 7); do '(_, b) <- snprintf_err (room ++ post) 0 80 (n0 ++ zs " "); Ret b else wr (room ++ post) 0 0) = Ret b0 /\ hold 80 b0 s0 post).
  { unfold s0. destruct (has fmt 262144).
    - rewrite Ed. cbn [obind]. destruct (err_ok 80 room post (dow_text jd ++ zs " ") Hroom) as (q & b0 & E & H).
      + apply no_nul_app; [exact Nd|]. intros c [<-|[]]. discriminate.
      + rewrite app_length, Ld. cbn. lia.
      + rewrite E. cbn [obind]. exists b0. split; [reflexivity|exact H].
    - destruct room as [|o room]; [discriminate Hroom|]. cbn [app]. change (wr (o :: room ++ post) 0 0) with (@Ret buf (Some 0 :: room ++ post)).
      eexists. split; [reflexivity|]. split; [intros c []|]. exists room. split; [reflexivity|]. cbn in *. lia. }
  destruct S0 as (b0 & -> & H0). cbn [obind].
  rewrite ev_val by (cbn [safe val]; unfold fits, long_ok in *; lia). cbn [obind val]. rewrite <- Ejd.
  destruct (Hr fuel ic month0 Hf) as [ic' ->]. cbn [obind].
  set (r := (t + add + (1 # 2) - inject_Z t2)%Q).
  pose proof (floor_bounds x) as [C D]. fold t2 in C, D.
  assert (Er : (r == x - inject_Z t2)%Q) by (unfold r, x; now rewrite Ea).
  assert (R0 : (0 <= r)%Q) by (rewrite Er; lra). assert (R1 : (r < 1)%Q) by (rewrite Er; lra).
  assert (L0 : (List.length s0 <= 4)%nat) by (unfold s0; destruct (has fmt 262144); rewrite ?app_length, ?Ld; cbn; lia).
  change FULL_CTIME_TIME_ONLY with 16384. rewrite Ht. cbn [negb].
  replace t2 with (jd - 2451545) by lia. rewrite (HD ic' b0 s0 post r H0 L0 R0 R1). reflexivity.
Qed.

Lemma month_13_crash L t fmt n d y : long_ok L -> per_day fmt n ->
  let jd := day_shown t fmt n in
  jd_ok L jd -> dmy_result L jd (Z.land fmt 15) d 13 y -> has fmt 16384 = false -> has fmt 8192 = false -> writing_crashes L t fmt.
Proof.
  intros HL Hn jd Hj Hr Ht Hm. apply (date_crash L t fmt n d 13 y HL Hn Hj Hr Ht). intros ic b s post r _ _ _ _.
  unfold show_date. cbv zeta. change FULL_CTIME_MONTHS_AS_DIGITS with 8192. rewrite Hm. reflexivity.
Qed.

Lemma picodays_crash L t fmt d m y : long_ok L -> style fmt = 768 -> (12 <= places fmt)%nat -> good_cal (Z.land fmt 15) ->
  let jd := day_shown t fmt 1 in
  jd_ok L jd -> dmy_result L jd (Z.land fmt 15) d m y -> has fmt 16384 = false -> (has fmt 8192 = false -> m <= 12) -> Z.abs y <= 10 ^ 15 ->
  (has fmt 65536 = true -> Z.abs y <= IMAX) ->
  writing_crashes L t fmt.
Proof.
  intros HL Es Hp Hc jd Hj Hr Ht Hm12 Hy H2.
  assert (Hn : per_day fmt 1) by (unfold per_day; rewrite Es; cbn; tauto).
  destruct (date_facts L jd (Z.land fmt 15) d m y HL Hj Hc Hr) as (Hd & Hm & _).
  apply (date_crash L t fmt 1 d m y HL Hn Hj Hr Ht). intros ic b s post r Hb Hs A B.
  unfold show_date, FULL_CTIME_LEADING_ZEROES, FULL_CTIME_MONTHS_AS_DIGITS, FULL_CTIME_TWO_DIGIT_YEAR, FULL_CTIME_YEAR_FIRST,
    FULL_CTIME_NO_YEAR, FULL_CTIME_DAY_OF_YEAR, FULL_CTIME_MONTH_DAY, FULL_CTIME_FORMAT_DAY. cbv zeta.
  destruct (month_text_facts fmt m Hm Hm12) as [Lm Nm]. destruct (year_text_facts fmt y Hy) as [Ly Ny].
  assert (EM : (if has fmt 8192 then fit 25 (padded (has fmt 32768) 2 m) else do n <- month_name m; fit 25 n) = Ret (month_text fmt m)).
  { unfold month_text in *. destruct (has fmt 8192) eqn:E.
    - rewrite padded_two by lia. apply fit_ok. rewrite two_len. lia.
    - destruct (month_name_ok m) as (Q1 & Q2 & _); [specialize (Hm12 eq_refl); lia|]. rewrite Q1. cbn [obind]. apply fit_ok. lia. }
  rewrite EM. clear EM. cbn [obind].
  assert (EY : (if has fmt 65536 then fit 20 (pad0 2 (Z.abs (Z.rem (to_int y) 100))) else fit 20 (padded (has fmt 32768) 4 y)) = Ret (year_text fmt y)).
  { unfold year_text in *. destruct (has fmt 65536) eqn:E.
    - rewrite to_int_ok by (apply H2; reflexivity). rewrite <- ndig2_abs. apply fit_ok. rewrite ndig_length. lia.
    - unfold padded. destruct (has fmt 32768); apply fit_ok; [lia|]. unfold padsp. cbv zeta. lia. }
  rewrite EY. clear EY. cbn [obind].
  assert (S1 : exists b1, (if has fmt 2048 && negb (has fmt 131072) then do '(_, b0) <- snprintf_append b 0 80 (year_text fmt y ++ zs " "); Ret b0 else Ret b) = Ret b1).
  { destruct (has fmt 2048 && negb (has fmt 131072)).
    - destruct (append_ok 80 b s post (year_text fmt y ++ zs " ") Hb) as (x & b1 & E & H).
      + apply no_nul_app; [exact Ny|]. intros q [<-|[]]. discriminate.
      + rewrite !app_length. cbn [zs List.length]. lia.
      + rewrite E. cbn [obind]. now exists b1.
    - now exists b. }
  destruct S1 as (b1 & ->). cbn [obind]. rewrite padded_two by lia.
  destruct (err_ok 15 (repeat None 15) [] (two (zero_or_space fmt) d)) as (x & b0 & E0 & H0).
  { reflexivity. } { apply two_nul; [apply zs_nul|lia]. } { rewrite two_len. lia. }
  rewrite app_nil_r in E0. rewrite E0. cbn [obind]. rewrite Es. change (768 =? 768) with true.
  destruct (Nat.eqb_spec (places fmt) 0); [lia|]. cbn [andb negb].
  destruct H0 as (_ & rest & Eb & Lr). rewrite app_nil_r in Eb.
  assert (Lb : List.length b0 = 15%nat) by (rewrite Eb, app_length, map_length; cbn [List.length]; lia).
  pose proof (show_over b0 2 r (places fmt) A B) as G. change (Z.of_nat 2) with 2 in G. rewrite G by lia. reflexivity.
Qed.
