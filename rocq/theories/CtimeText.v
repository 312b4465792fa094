(** The whole text written by full_ctimel( ), and the instant it names. *)
From Coq Require Import Lia ZifyBool QArith Qround Lqa.
From Coq Require Import String.
From Verif Require Import CBase CLemmas CStr StrModel StrProofs DateModel DateVocab DateSpec DatePure DateRound DateFacts DateJG DateThms TstrModel
  CtimeModel CtimeSpec CtimeBuf CtimeProofs.
Local Open Scope string_scope.
Local Open Scope list_scope.
Local Open Scope Z_scope.

Definition good_cal (c : Z) : Prop := rule_cal c \/ c = CALENDAR_JULIAN_GREGORIAN.

(* ---------- the first day of the year ---------- *)
Lemma st_rule L c y n : long_ok L -> year_dom L c y -> c <> CALENDAR_JULIAN_GREGORIAN -> 0 <= n <= 1000 -> st_ok L c n 1 y (nyA c y - 1 + n).
Proof.
  intros HL Hy Hc Hn ic. unfold dmy_to_day_st, dmy_calendar_to_use. rewrite (dom_not6 L c y Hy).
  rewrite dataA by assumption. cbn [obind]. unfold RETURN_DAYS_IN_MONTH, IMAX. destruct (Z.eqb_spec n (-999)); [lia|].
  change (ev 2147483647 (1 - 1)%cx) with (Ret 0). cbn [obind]. change (Z.to_nat 0) with 0%nat.
  assert (A0 : add_first L (nyA c y) (msA c y) 0 = Ret (nyA c y)) by (destruct (msA c y); reflexivity). rewrite A0.
  pose proof (ny_absA L c y HL Hy) as Hb. unfold long_ok in *.
  cbn [obind]. rewrite ev_val by (cbn [safe val]; unfold fits; lia). cbn [obind val]. exists (icA c ic y). (f_equal; f_equal; lia).
Qed.
Lemma jg_st L ic d m y :
  dmy_to_day_st L ic d m y CALENDAR_JULIAN_GREGORIAN
  = dmy_to_day_st L ic d m y (dmy_calendar_to_use d m y CALENDAR_JULIAN_GREGORIAN).
Proof.
  unfold dmy_to_day_st, dmy_calendar_to_use.
  change (CALENDAR_JULIAN_GREGORIAN =? CALENDAR_JULIAN_GREGORIAN) with true. cbv iota.
  destruct ((1582 <? y) || (y =? 1582) && ((10 <? m) || (m =? 10) && (5 <? d))); reflexivity.
Qed.

Lemma msum_small L c y : year_dom L c y -> msum (msA c y) <= 900 * 2.
Proof.
  intros Hy. destruct (shapeA L c y Hy) as (Hl & Hf & _). pose proof (msum_bound _ Hf) as B. rewrite Hl in B. lia.
Qed.
Lemma msum_rule c y : rule_cal c -> msum (msA c y) <= 403.
Proof.
  intros H. destruct (months_shape c y H) as [Hl Hf]. unfold msA. destruct (rule_not57 c H) as (-> & -> & _).
  assert (G : forall l, Forall (fun m => 0 <= m <= 31) l -> msum l <= 31 * Z.of_nat (List.length l)).
  { induction 1 as [|x l Hx Hl' IH]; [cbn; lia|]. cbn [msum fold_right List.length] in *. unfold msum in IH. lia. }
  specialize (G _ Hf). rewrite Hl in G. lia.
Qed.

(** The date of a day, and the day before its year. *)
Lemma date_facts L jd c d m y : long_ok L -> jd_ok L jd -> good_cal c -> dmy_result L jd c d m y ->
  (1 <= d <= 31) /\ (1 <= m <= 13) /\ (c <> CALENDAR_HEBREW -> c <> CALENDAR_REVOLUTIONARY -> m <= 12) /\
  exists j0, (forall n, 0 <= n <= 1000 -> st_ok L c n 1 y (j0 + n)) /\ in_rng L j0 = true /\ 1 <= jd - j0 <= 420.
Proof.
  intros HL Hj Hc Hr.
  destruct (C03_dates_well_formed_proof L jd c d m y HL Hj Hc Hr) as (Hm & Hm' & n & _ & Hd & Hn).
  split; [lia|]. split; [exact Hm|]. split; [exact Hm'|].
  assert (RULE : forall c', rule_cal c' -> dmy_result L jd c' d m y ->
    year_dom L c' y /\ 1 <= jd - (nyA c' y - 1) <= 403 /\ in_rng L (nyA c' y - 1) = true /\ year_ok L y /\ 1 <= d <= lenA c' m y /\ dayA c' d m y = jd).
  { intros c' Hc' Hr'. destruct (result_facts L jd c' d m y HL) as (Hy & _ & Hdd & E); [left; split; assumption|exact Hr'|].
    pose proof (dayA_in_year L c' d m y Hy Hm Hdd) as I. pose proof (msum_rule c' y Hc'). split; [exact Hy|]. split; [lia|].
    pose proof (ny_absA L c' y HL Hy) as Hb. split; [unfold in_rng, long_ok in *; lia|]. split; [now apply (dom_year_ok L c')|]. split; [exact Hdd|exact E]. }
  destruct Hc as [Hc|Hc].
  - destruct (RULE c Hc Hr) as (Hy & I & R & _). exists (nyA c y - 1). split; [|split; [exact R|lia]].
    intros k Hk. apply st_rule; [exact HL|exact Hy| |exact Hk]. intros ->. apply rule_not57 in Hc. destruct Hc as (_ & _ & H). discriminate H.
  - subst c. set (c' := if 2299160 <? jd then CALENDAR_GREGORIAN else CALENDAR_JULIAN).
    assert (Hr' : dmy_result L jd c' d m y).
    { destruct Hr as [N H]. exists N. intros fuel ic m0 Hf. specialize (H fuel ic m0 Hf). now rewrite jg_day_to_dmy in H. }
    assert (Hg : rule_cal CALENDAR_GREGORIAN) by (now left). assert (Hu : rule_cal CALENDAR_JULIAN) by (right; now left).
    assert (Hc' : rule_cal c') by (unfold c'; destruct (2299160 <? jd); assumption).
    destruct (RULE c' Hc' Hr') as (Hy & I & R & Hyo & Hdd & E).
    assert (STG : 1582 < y -> forall k, 0 <= k <= 1000 -> st_ok L CALENDAR_JULIAN_GREGORIAN k 1 y (nyA CALENDAR_GREGORIAN y - 1 + k)).
    { intros Hlt k Hk ic. rewrite jg_st. unfold dmy_calendar_to_use. rewrite Z.eqb_refl. destruct (Z.ltb_spec 1582 y); [|lia]. cbn [orb].
      apply st_rule; [exact HL|left; split; assumption|discriminate|exact Hk]. }
    assert (STJ : y <= 1582 -> forall k, 0 <= k <= 1000 -> st_ok L CALENDAR_JULIAN_GREGORIAN k 1 y (nyA CALENDAR_JULIAN y - 1 + k)).
    { intros Hlt k Hk ic. rewrite jg_st. unfold dmy_calendar_to_use. rewrite Z.eqb_refl. destruct (Z.ltb_spec 1582 y); [lia|].
      change (10 <? 1) with false. change (1 =? 10) with false. cbn [orb andb]. rewrite andb_false_r. cbn [orb].
      apply st_rule; [exact HL|left; split; assumption|discriminate|exact Hk]. }
    unfold c' in *. destruct (Z.ltb_spec 2299160 jd) as [Hl|Hl].
    + assert (Hlt : date_lt (14, 10, 1582) (d, m, y)) by (apply (greg_after L); try assumption; lia).
      assert (1582 <= y) by (unfold date_lt in Hlt; lia).
      destruct (Z.eq_dec y 1582) as [E2|E2].
      * subst y. exists (nyA CALENDAR_JULIAN 1582 - 1). split; [apply STJ; lia|].
        change (nyA CALENDAR_JULIAN 1582) with 2298884. change (nyA CALENDAR_GREGORIAN 1582) with 2298874 in *.
        split; [unfold in_rng, long_ok in *; lia|]. lia.
      * exists (nyA CALENDAR_GREGORIAN y - 1). split; [apply STG; lia|]. split; [exact R|lia].
    + assert (Hlt : date_lt (d, m, y) (5, 10, 1582)) by (apply (jul_before L); try assumption; lia).
      exists (nyA CALENDAR_JULIAN y - 1). split; [apply STJ; unfold date_lt in Hlt; lia|]. split; [exact R|lia].
Qed.

(* ---------- the whole text ---------- *)
Lemma dow_eq t2 : (let w := Z.rem (t2 + 6) 7 in if w <? 0 then w + 7 else w) = (t2 + 2451545 + 1) mod 7.
Proof.
  cbv zeta. pose proof (Z.quot_rem' (t2 + 6) 7) as E. pose proof (Z.rem_bound_abs (t2 + 6) 7 ltac:(lia)) as B.
  set (w := Z.rem (t2 + 6) 7) in *. set (q := Z.quot (t2 + 6) 7) in *.
  replace (t2 + 2451545 + 1) with (w + (q + 350220) * 7) by lia. rewrite Z.mod_add by lia.
  destruct (Z.ltb_spec w 0).
  - rewrite <- (Z.mod_add w 1 7) by lia. rewrite Z.mod_small by lia. lia.
  - rewrite Z.mod_small by lia. reflexivity.
Qed.

Lemma tenths_eq p : forall a, (tenths p a == a / inject_Z (10 ^ Z.of_nat p))%Q.
Proof.
  induction p as [|p IH]; intros a; cbn [tenths].
  - change (inject_Z (10 ^ Z.of_nat 0)) with 1%Q. field.
  - rewrite IH. rewrite Nat2Z.inj_succ, Z.pow_succ_r, inject_Z_mult by lia. change (inject_Z 10) with 10%Q.
    assert (~ inject_Z (10 ^ Z.of_nat p) == 0)%Q.
    { change 0%Q with (inject_Z 0). rewrite inject_Z_injective. assert (0 < 10 ^ Z.of_nat p) by (apply Z.pow_pos_nonneg; lia). lia. }
    field. exact H.
Qed.
Lemma pow_q p : ~ (inject_Z (10 ^ Z.of_nat p) == 0)%Q.
Proof. change 0%Q with (inject_Z 0). rewrite inject_Z_injective. assert (0 < 10 ^ Z.of_nat p) by (apply Z.pow_pos_nonneg; lia). lia. Qed.
Lemma per_pos fmt n : per_day fmt n -> 0 < n <= 86400.
Proof.
  unfold per_day. cbn [In]. intros [H|[H|[H|[H|[]]]]]; injection H as _ <-; lia.
Qed.
Lemma nudge_eq fmt n : per_day fmt n ->
  ((if has fmt 2097152 then tenths (places fmt) 1 * ((1 # 2) / inject_Z n) else tenths (places fmt) 1 * ((5 # 100) / 86400)) == nudge fmt n)%Q.
Proof.
  intros Hn. pose proof (per_pos fmt n Hn). pose proof (pow_q (places fmt)) as P.
  assert (~ inject_Z n == 0)%Q by (change 0%Q with (inject_Z 0); rewrite inject_Z_injective; lia).
  unfold nudge, last_place. destruct (has fmt 2097152); rewrite tenths_eq, inject_Z_mult.
  - field. split; assumption.
  - change (inject_Z 1728000) with 1728000%Q. field. exact P.
Qed.

Definition day_shown (t : Q) (fmt n : Z) : Z := Qfloor (t + nudge fmt n + (1 # 2)) + 2451545.
Definition count_shown (t : Q) (fmt n : Z) : Z :=
  let x := (t + nudge fmt n + (1 # 2))%Q in
  Qfloor ((x - inject_Z (Qfloor x)) * inject_Z (n * 10 ^ Z.of_nat (places fmt))).

Lemma dow_facts jd : (List.length (dow_text jd) = 3)%nat /\ no_nul (dow_text jd) /\ day_name ((jd + 1) mod 7) = Ret (dow_text jd).
Proof.
  destruct (day_name_ok ((jd + 1) mod 7)) as (A & B & C); [apply Z.mod_pos_bound; lia|]. unfold dow_text. now rewrite A.
Qed.

Lemma text_len fmt jd j0 d m y k : date_fits fmt d m y jd j0 -> (List.length (date_text fmt jd j0 d m y k) <= 36)%nat.
Proof.
  intros (Hd & Hm & Hy & Hj & Hm12 & Hp & H2). unfold date_text. cbv zeta.
  destruct (month_text_facts fmt m Hm Hm12) as [Lm _]. destruct (year_text_facts fmt y Hy) as [Ly _].
  set (dc := if style fmt =? 768 then decimals (places fmt) k else []) in *.
  assert (Ldc : (List.length dc <= 12)%nat).
  { unfold dc. destruct (Z.eqb_spec (style fmt) 768) as [E|E]; [|cbn; lia]. specialize (Hp E). pose proof (decimals_len (places fmt) k). lia. }
  pose proof (pad0_len 3 4 (jd - j0) ltac:(change (10 ^ Z.of_nat 4) with 10000; lia) ltac:(lia)).
  assert (Lm' : (List.length (if has fmt 8388608 then pad0 3 (jd - j0) ++ dc
    else if has fmt 4096 then month_text fmt m ++ 32%Z :: two (zero_or_space fmt) d ++ dc
    else (two (zero_or_space fmt) d ++ dc) ++ 32%Z :: month_text fmt m) <= 18)%nat).
  { destruct (has fmt 8388608); [|destruct (has fmt 4096)]; rewrite !app_length; cbn [List.length]; rewrite ?app_length, ?two_len; lia. }
  rewrite !app_length. destruct (has fmt 2048), (has fmt 131072); cbn [andb negb List.length]; rewrite ?app_length; cbn [List.length]; lia.
Qed.
Lemma time_len fmt k : (List.length (time_text fmt k) <= 24)%nat.
Proof.
  unfold time_text. cbv zeta. pose proof (places_15 fmt). pose proof (decimals_len (places fmt) (k mod 10 ^ Z.of_nat (places fmt))).
  rewrite app_length. destruct (style fmt =? 0); [|destruct (style fmt =? 256)]; rewrite ?app_length; cbn [List.length]; rewrite ?app_length; cbn [List.length]; rewrite ?two_len; lia.
Qed.

Lemma calendar_text L t fmt n d m y j0 : long_ok L -> per_day fmt n -> good_cal (Z.land fmt 15) ->
  let jd := day_shown t fmt n in let k := count_shown t fmt n in
  jd_ok L jd -> dmy_result L jd (Z.land fmt 15) d m y -> st_ok L (Z.land fmt 15) 0 1 y j0 -> in_rng L j0 = true ->
  (has fmt 16384 = false -> date_fits fmt d m y jd j0) ->
  writes L t fmt (whole_text fmt jd j0 d m y k).
Proof.
  intros HL Hn Hc jd k Hj [N Hr] Hst Rj0 Hfit.
  set (x := (t + nudge fmt n + (1 # 2))%Q) in *.
  set (body := (if has fmt 262144 then dow_text jd ++ [32] else []) ++
    (if has fmt 16384 then [] else date_text fmt jd j0 d m y k ++ (if style fmt =? 768 then [] else [32])) ++
    (if style fmt =? 768 then [] else time_text fmt k) ++ (if has fmt 524288 then 32 :: dow_text jd else [])).
  set (b2 := if has fmt 1048576 then filter (fun c => negb (c =? 32)) body else body).
  assert (MAIN : forall fuel ic month0 (room post : buf), (N <= fuel)%nat -> List.length room = 80%nat ->
    exists b', full_ctimel L fuel ic month0 (room ++ post) t fmt = Ret b' /\ hold 80 b' (whole_text fmt jd j0 d m y k) post).
  { intros fuel ic month0 room post Hf Hroom.
    unfold full_ctimel. cbv zeta.
    set (units := if Z.land fmt FULL_CTIME_FORMAT_MASK =? FULL_CTIME_FORMAT_SECONDS then 86400 else if Z.land fmt FULL_CTIME_FORMAT_MASK =? FULL_CTIME_FORMAT_HH_MM then 1440
      else if Z.land fmt FULL_CTIME_FORMAT_MASK =? FULL_CTIME_FORMAT_HH then 24 else 1).
    assert (Eu : units = n /\ (style fmt =? 1024) = false /\ (style fmt =? 1280) || (style fmt =? 1536) = false).
    { unfold units. change (Z.land fmt FULL_CTIME_FORMAT_MASK) with (style fmt). unfold per_day in Hn. cbn [In] in Hn.
      destruct Hn as [H|[H|[H|[H|[]]]]]; injection H as Es En; rewrite <- Es; subst n; repeat split; reflexivity. }
    destruct Eu as (-> & E1 & E2).
    change (Z.land fmt FULL_CTIME_FORMAT_MASK) with (style fmt). change FULL_CTIME_FORMAT_YEAR with 1024. change FULL_CTIME_FORMAT_JD with 1280.
    change FULL_CTIME_FORMAT_MJD with 1536. change FULL_CTIME_ROUNDING with 2097152. rewrite E1, E2.
    change (Z.to_nat (Z.land (Z.shiftr fmt 4) 15)) with (places fmt).
    set (add := if has fmt 2097152 then (tenths (places fmt) 1 * ((1 # 2) / inject_Z n))%Q else (tenths (places fmt) 1 * ((5 # 100) / 86400))%Q).
    assert (Ea : (add == nudge fmt n)%Q) by (apply (nudge_eq fmt n Hn)).
    unfold show_calendar. cbv zeta.
    assert (Ef : Qfloor (t + add + (1 # 2)) = Qfloor x) by (apply Qfloor_comp; unfold x; now rewrite Ea).
    rewrite Ef. set (t2 := Qfloor x) in *. assert (Ejd : jd = t2 + 2451545) by reflexivity.
    assert (Ht2 : Z.abs t2 + 5000000 <= L) by (unfold jd_ok, long_ok in *; lia).
    rewrite chk_ok by (unfold fits, long_ok in *; lia). cbn [obind].
    rewrite ev_val by (cbn [safe val]; unfold fits, long_ok in *; lia). cbn [obind val].
    pose proof (dow_eq t2) as Ew. cbv zeta in Ew. rewrite Ew. rewrite <- Ejd.
    destruct (dow_facts jd) as (Ld & Nd & Ed).
    set (s0 := if has fmt 262144 then dow_text jd ++ [32] else []).
    change FULL_CTIME_DAY_OF_WEEK_FIRST with 262144.
    assert (S0 : exists b0, (if has fmt 262144 then do n0 <- day_name ((jd + 1) mod 7); do '(_, b) <- snprintf_err (room ++ post) 0 80 (n0 ++ zs " "); Ret b else wr (room ++ post) 0 0) = Ret b0 /\ hold 80 b0 s0 post).
    { unfold s0. destruct (has fmt 262144).
      - rewrite Ed. cbn [obind]. destruct (err_ok 80 room post (dow_text jd ++ zs " ") Hroom) as (q & b0 & E & H).
        + apply no_nul_app; [exact Nd|]. intros c [<-|[]]. discriminate.
        + rewrite app_length, Ld. cbn. lia.
        + rewrite E. cbn [obind]. exists b0. split; [reflexivity|exact H].
      - destruct room as [|o room]; [discriminate Hroom|]. cbn [app]. change (wr (o :: room ++ post) 0 0) with (@Ret buf (Some 0 :: room ++ post)).
        eexists. split; [reflexivity|]. split; [intros c []|]. exists room. split; [reflexivity|]. cbn in *. lia. }
    destruct S0 as (b0 & -> & H0). cbn [obind].
    rewrite ev_val by (cbn [safe val]; unfold fits, long_ok in *; lia). cbn [obind val]. rewrite <- Ejd.
    destruct (Hr fuel ic month0 Hf) as [ic' ->]. cbn [obind].
    set (r := (t + add + (1 # 2) - inject_Z t2)%Q).
    pose proof (floor_bounds x) as [C D]. fold t2 in C, D.
    assert (Er : (r == x - inject_Z t2)%Q) by (unfold r, x; now rewrite Ea).
    assert (R0 : (0 <= r)%Q) by (rewrite Er; lra). assert (R1 : (r < 1)%Q) by (rewrite Er; lra).
    assert (Ek : k = Qfloor (r * inject_Z (n * 10 ^ Z.of_nat (places fmt)))).
    { unfold k, count_shown. cbv zeta. fold x. fold t2. apply Qfloor_comp. now rewrite Er. }
    assert (Ek1 : style fmt = 768 -> k = Qfloor (r * inject_Z (10 ^ Z.of_nat (places fmt)))).
    { intros E. rewrite Ek. unfold per_day in Hn. rewrite E in Hn. cbn in Hn. destruct Hn as [H|[H|[H|[H|[]]]]]; injection H; try discriminate.
      intros <-. now rewrite Z.mul_1_l. }
    assert (L0 : (List.length s0 <= 4)%nat) by (unfold s0; destruct (has fmt 262144); rewrite ?app_length, ?Ld; cbn; lia).
    set (s1 := if has fmt 16384 then [] else date_text fmt jd j0 d m y k ++ (if style fmt =? 768 then [] else [32])).
    change FULL_CTIME_TIME_ONLY with 16384.
    assert (S1 : exists b1, (if negb (has fmt 16384) then show_date L ic' b0 fmt (places fmt) (style fmt) t2 d m y (Z.land fmt 15) r else Ret b0) = Ret b1 /\ hold 80 b1 (s0 ++ s1) post /\ (List.length s1 <= 37)%nat).
    { unfold s1. destruct (has fmt 16384) eqn:E; cbn [negb].
      - exists b0. rewrite app_nil_r. split; [reflexivity|]. split; [exact H0|cbn; lia].
      - specialize (Hfit eq_refl).
        destruct (date_ok L ic' b0 s0 post fmt (places fmt) t2 d m y (Z.land fmt 15) r k jd j0) as (b1 & -> & H1); try assumption; try reflexivity.
        + unfold in_rng, jd_ok, long_ok in *. lia.
        + unfold in_rng, long_ok in *. lia.
        + exists b1. split; [reflexivity|]. split; [exact H1|]. rewrite app_length. pose proof (text_len fmt jd j0 d m y k Hfit).
          destruct (style fmt =? 768); cbn [List.length]; lia. }
    destruct S1 as (b1 & -> & H1 & L1). cbn [obind].
    destruct (time_ok L b1 (s0 ++ s1) post fmt n r k H1) as (b3 & -> & H3); try assumption.
    { rewrite app_length. lia. }
    cbn [obind]. change FULL_CTIME_DAY_OF_WEEK_LAST with 524288.
    set (s2 := if style fmt =? 768 then [] else time_text fmt k) in *.
    assert (L2 : (List.length s2 <= 24)%nat) by (unfold s2; destruct (style fmt =? 768); [cbn; lia|apply time_len]).
    set (s3 := if has fmt 524288 then 32 :: dow_text jd else []).
    assert (S3 : exists b4, (if has fmt 524288 then do n0 <- day_name ((jd + 1) mod 7); do '(_, b) <- snprintf_append b3 0 80 (zs " " ++ n0); Ret b else Ret b3) = Ret b4 /\ hold 80 b4 body post).
    { assert (EB : body = ((s0 ++ s1) ++ s2) ++ s3) by (unfold body; fold s0; fold s1; fold s2; fold s3; now rewrite <- !app_assoc).
      rewrite EB. unfold s3. destruct (has fmt 524288).
      - rewrite Ed. cbn [obind]. destruct (append_ok 80 b3 _ post (zs " " ++ dow_text jd) H3) as (q & b4 & E & H).
        + apply no_nul_app; [|exact Nd]. intros c [<-|[]]. discriminate.
        + rewrite !app_length, Ld. cbn [zs List.length]. lia.
        + rewrite E. cbn [obind]. exists b4. split; [reflexivity|exact H].
      - exists b3. rewrite app_nil_r. split; [reflexivity|exact H3]. }
    destruct S3 as (b4 & -> & H4). cbn [obind]. change FULL_CTIME_NO_SPACES with 1048576. change FULL_CTIME_NO_COLONS with 4194304.
    assert (S4 : exists b5, (if has fmt 1048576 then remove_char b4 32 else Ret b4) = Ret b5 /\ hold 80 b5 b2 post).
    { unfold b2. destruct (has fmt 1048576); [apply remove_ok; [exact H4|discriminate]|exists b4; split; [reflexivity|exact H4]]. }
    destruct S4 as (b5 & -> & H5). cbn [obind]. unfold whole_text. cbv zeta. fold body. fold b2.
    destruct (has fmt 4194304); [apply remove_ok; [exact H5|discriminate]|exists b5; split; [reflexivity|exact H5]]. }
  split.
  - destruct (MAIN N 0 0 (repeat None 80) [] (Nat.le_refl _) eq_refl) as (b' & _ & (H & _)). exact H.
  - exists N. intros fuel ic month0 room post Hf Hroom. destruct (MAIN fuel ic month0 room post Hf Hroom) as (b' & E & _ & rest & Eb & Hl).
    exists rest. rewrite E, Eb. split; [reflexivity|exact Hl].
Qed.

(** What is shown is the time, cut to the last place after the nudge. *)
Lemma shown_bounds t fmt n : per_day fmt n ->
  let T := shown fmt n (day_shown t fmt n) (count_shown t fmt n) in
  (T <= t + nudge fmt n)%Q /\ (t + nudge fmt n < T + last_place fmt n)%Q /\
  0 <= count_shown t fmt n < n * 10 ^ Z.of_nat (places fmt).
Proof.
  intros Hn. pose proof (per_pos fmt n Hn) as Pn. unfold shown, day_shown, count_shown. cbv zeta.
  set (x := (t + nudge fmt n + (1 # 2))%Q). set (t2 := Qfloor x).
  pose proof (floor_bounds x) as [C D]. fold t2 in C, D.
  assert (Hp : 0 < 10 ^ Z.of_nat (places fmt)) by (apply Z.pow_pos_nonneg; lia).
  set (M := n * 10 ^ Z.of_nat (places fmt)) in *. assert (HM : 0 < M) by (unfold M; nia).
  unfold last_place. fold M.
  pose proof (floor_scale (x - inject_Z t2) M ltac:(lra) ltac:(lra) HM) as G.
  pose proof (floor_bounds ((x - inject_Z t2) * inject_Z M)) as [E F]. set (k := Qfloor ((x - inject_Z t2) * inject_Z M)) in *.
  assert (QM : (0 < inject_Z M)%Q) by (change 0%Q with (inject_Z 0); now rewrite <- Zlt_Qlt).
  assert (NM : ~ (inject_Z M == 0)%Q) by lra.
  replace (t2 + 2451545 - 2451545) with t2 by lia.
  assert (E' : (inject_Z k * (1 / inject_Z M) <= x - inject_Z t2)%Q).
  { setoid_replace (inject_Z k * (1 / inject_Z M))%Q with (inject_Z k / inject_Z M)%Q by (field; exact NM). apply Qle_shift_div_r; assumption. }
  assert (F' : (x - inject_Z t2 < inject_Z k * (1 / inject_Z M) + 1 / inject_Z M)%Q).
  { setoid_replace (inject_Z k * (1 / inject_Z M) + 1 / inject_Z M)%Q with ((inject_Z k + 1) / inject_Z M)%Q by (field; exact NM). apply Qlt_shift_div_l; assumption. }
  unfold x in E', F'. split; [lra|]. split; [lra|exact G].
Qed.
