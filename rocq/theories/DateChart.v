(** The calendars given by tables over a limited range of years: Jalali
    (years -1096..2327) and Chinese (years -363..9636). *)
From Coq Require Import Lia ZifyBool.
From Verif Require Import CBase CLemmas ChineseData DateModel DatePure
  DatePureIslRev DatePurePersian DatePureHebrew DateRound.

(* ---------- the year search, for any calendar with data on a range ---------- *)
Lemma chart_search L c jd (ny : Z -> Z) (ms : Z -> list Z) (ics : Z -> Z -> Z) lo hi ys :
  1000000 <= L -> - 100000 <= lo -> hi <= 100000 ->
  (forall ic y, lo <= y <= hi -> get_calendar_data L ic y c
                = Ret (DataOk (ny y) (ny y + msum (ms y)) (ms y), ics ic y)) ->
  (forall y, lo <= y < ys -> y <= hi -> ny y <= jd) ->
  (forall y, ys < y <= hi -> lo <= y -> jd < ny y) ->
  (forall y, lo <= y <= hi -> 0 <= msum (ms y)) ->
  lo <= ys <= hi -> ny ys <= jd < ny ys + msum (ms ys) ->
  forall (k : nat) y0, Z.abs (y0 - ys) <= Z.of_nat k -> lo <= y0 <= hi ->
    exists y, lo <= y <= hi /\ ny y <= jd < ny y + msum (ms y) /\
      forall ic fuel, (k < fuel)%nat -> exists ic0,
        year_search L fuel ic jd y0 c
        = Ret (y, DataOk (ny y) (ny y + msum (ms y)) (ms y), ics ic0 y).
Proof.
  intros HL Hlo Hhi Hdata Hbef Haft Hpos Hys Hin. induction k as [|k IH]; intros y0 Hk Hy0.
  - assert (y0 = ys) by lia. subst y0. exists ys. split; [lia|]. split; [exact Hin|].
    intros ic fuel Hf. exists ic. destruct fuel as [|fuel]; [lia|]. cbn [year_search].
    rewrite Hdata by lia. cbn [obind].
    destruct (Z.ltb_spec jd (ny ys)); [lia|]. cbn [obind].
    destruct (Z.leb_spec (ny ys + msum (ms ys)) jd); [lia|]. reflexivity.
  - destruct (Z_lt_le_dec jd (ny y0)) as [Hlow|Hlow].
    + assert (ys < y0).
      { destruct (Z_lt_le_dec y0 ys); [specialize (Hbef y0 ltac:(lia) ltac:(lia)); lia|].
        destruct (Z.eq_dec y0 ys) as [->|]; lia. }
      destruct (IH (y0 - 1) ltac:(lia) ltac:(lia)) as (y & H1 & H2 & H3).
      exists y. split; [exact H1|]. split; [exact H2|].
      intros ic fuel Hf. destruct fuel as [|fuel]; [lia|]. cbn [year_search].
      rewrite Hdata by lia. cbn [obind].
      destruct (Z.ltb_spec jd (ny y0)); [|lia]. ev_step. specialize (Hpos y0 ltac:(lia)).
      destruct (Z.leb_spec (ny y0 + msum (ms y0)) jd); [lia|]. cbn [obind orb].
      apply H3. lia.
    + destruct (Z_lt_le_dec jd (ny y0 + msum (ms y0))) as [Hi|Hi].
      * exists y0. split; [lia|]. split; [lia|].
        intros ic fuel Hf. exists ic. destruct fuel as [|fuel]; [lia|]. cbn [year_search].
        rewrite Hdata by lia. cbn [obind].
        destruct (Z.ltb_spec jd (ny y0)); [lia|]. cbn [obind].
        destruct (Z.leb_spec (ny y0 + msum (ms y0)) jd); [lia|]. reflexivity.
      * assert (y0 < ys).
        { destruct (Z_lt_le_dec ys y0); [specialize (Haft y0 ltac:(lia) ltac:(lia)); lia|].
          destruct (Z.eq_dec y0 ys) as [->|]; lia. }
        destruct (IH (y0 + 1) ltac:(lia) ltac:(lia)) as (y & H1 & H2 & H3).
        exists y. split; [exact H1|]. split; [exact H2|].
        intros ic fuel Hf. destruct fuel as [|fuel]; [lia|]. cbn [year_search].
        rewrite Hdata by lia. cbn [obind].
        destruct (Z.ltb_spec jd (ny y0)); [lia|]. cbn [obind].
        destruct (Z.leb_spec (ny y0 + msum (ms y0)) jd); [|lia]. ev_step. cbn [orb].
        apply H3. lia.
Qed.

(** The year of a day, when the years of a range are known to be ordered. *)
Lemma year_in_range (ny : Z -> Z) lo hi jd :
  lo <= hi -> ny lo <= jd -> jd < ny hi -> exists y, lo <= y < hi /\ ny y <= jd < ny (y + 1).
Proof.
  intros Hlh Hlo Hhi.
  assert (H : forall (n : nat) a, lo <= a -> a + Z.of_nat n = hi -> ny a <= jd ->
    exists y, lo <= y < hi /\ ny y <= jd < ny (y + 1)).
  { induction n as [|n IH]; intros a Ha E Hj.
    - replace a with hi in Hj by lia. lia.
    - destruct (Z_lt_le_dec jd (ny (a + 1))); [exists a; lia|]. apply (IH (a + 1)); lia. }
  apply (H (Z.to_nat (hi - lo)) lo); lia.
Qed.

Lemma range_mono (ny : Z -> Z) lo hi :
  (forall y, lo <= y < hi -> ny y < ny (y + 1)) ->
  forall a b, lo <= a -> b <= hi -> a < b -> ny a < ny b.
Proof.
  intros Hs a b Ha Hb Hab.
  assert (H : forall n : nat, a + 1 + Z.of_nat n <= hi -> ny a < ny (a + 1 + Z.of_nat n)).
  { induction n as [|n IH]; intros Hn.
    - replace (a + 1 + Z.of_nat 0) with (a + 1) by lia. apply Hs. lia.
    - specialize (IH ltac:(lia)). pose proof (Hs (a + 1 + Z.of_nat n) ltac:(lia)) as H1.
      replace (a + 1 + Z.of_nat (S n)) with (a + 1 + Z.of_nat n + 1) by lia. lia. }
  specialize (H (Z.to_nat (b - a - 1)) ltac:(lia)).
  replace (a + 1 + Z.of_nat (Z.to_nat (b - a - 1))) with b in H by lia. exact H.
Qed.

(* ---------- Jalali ---------- *)
Lemma jal_step2 y : -1096 <= y <= 2327 ->
  jal_ny (y + 1) - jal_ny y = 365 \/ jal_ny (y + 1) - jal_ny y = 366.
Proof.
  intros H. destruct (Z.eq_dec y 2327) as [->|]; [left; reflexivity|apply jal_step; lia].
Qed.

Lemma jal_shape y : -1096 <= y <= 2327 ->
  length (jal_months y) = 13%nat /\ Forall (fun m => 0 <= m <= 127) (jal_months y) /\
  jal_ny (y + 1) <= jal_ny y + msum (jal_months y) /\
  (y <= 2326 -> jal_ny (y + 1) = jal_ny y + msum (jal_months y)) /\
  1500000 <= jal_ny y <= 2800000.
Proof.
  intros Hy. pose proof (jal_step2 y Hy) as Hs. unfold jal_months.
  split; [reflexivity|]. split.
  { repeat (apply Forall_cons; [|]); try apply Forall_nil; try lia.
    destruct (y =? 2327); lia. }
  unfold msum. cbn [fold_right].
  assert (Hm : forall a b, -1096 <= a -> b <= 2328 -> a < b -> jal_ny a < jal_ny b).
  { apply range_mono. intros z Hz. pose proof (jal_step2 z ltac:(lia)). lia. }
  assert (E1 : jal_ny (-1096) = 1547650) by reflexivity.
  assert (E2 : jal_ny 2328 = 2798239) by reflexivity.
  assert (1547650 <= jal_ny y) by
    (destruct (Z.eq_dec y (-1096)) as [->|]; [lia|pose proof (Hm (-1096) y); lia]).
  pose proof (Hm y 2328 ltac:(lia) ltac:(lia) ltac:(lia)).
  destruct (Z.eqb_spec y 2327) as [->|]; lia.
Qed.

Lemma jal_data_ok L ic y : long_ok L -> -1096 <= y <= 2327 ->
  get_calendar_data L ic y CALENDAR_PERSIAN
  = Ret (DataOk (jal_ny y) (jal_ny y + msum (jal_months y)) (jal_months y), ic).
Proof.
  intros HL Hy. unfold get_calendar_data, calendar_switch, CALENDAR_PERSIAN.
  cbn [Z.eqb Pos.eqb orb]. unfold CALENDAR_GREGORIAN, CALENDAR_JULIAN, CALENDAR_HEBREW,
   CALENDAR_ISLAMIC, CALENDAR_REVOLUTIONARY. cbn [Z.eqb Pos.eqb orb].
  rewrite jalali_ok by assumption. cbn [obind].
  unfold LOWER_PERSIAN_YEAR, UPPER_PERSIAN_YEAR.
  destruct (Z.ltb_spec y (-1096)); [lia|]. destruct (Z.ltb_spec 2327 y); [lia|]. cbn [orb obind].
  destruct (jal_shape y Hy) as (H1 & H2 & _ & _ & H5). unfold long_ok in HL.
  rewrite add_all_ok; [reflexivity|exact H2| | | |]; unfold fits; rewrite ?H1; lia.
Qed.

Lemma jal_data_err L ic y : long_ok L -> year_ok L y -> y < -1096 \/ 2327 < y ->
  get_calendar_data L ic y CALENDAR_PERSIAN = Ret (DataErr (-1), ic).
Proof.
  intros HL Hy Hr. unfold get_calendar_data, calendar_switch, CALENDAR_PERSIAN.
  unfold CALENDAR_GREGORIAN, CALENDAR_JULIAN, CALENDAR_HEBREW,
   CALENDAR_ISLAMIC, CALENDAR_REVOLUTIONARY. cbn [Z.eqb Pos.eqb orb].
  assert (E : get_jalali_year_data L y false = get_jalali_year_data L y true).
  { unfold get_jalali_year_data, LOWER_PERSIAN_YEAR, UPPER_PERSIAN_YEAR. cbn [orb].
    destruct (Z.ltb_spec y (-1096)); destruct (Z.ltb_spec 2327 y); try lia; reflexivity. }
  rewrite E, modern_persian_ok by assumption. cbn [obind].
  unfold LOWER_PERSIAN_YEAR, UPPER_PERSIAN_YEAR.
  destruct (Z.ltb_spec y (-1096)); destruct (Z.ltb_spec 2327 y); try lia; reflexivity.
Qed.

(* ---------- Chinese ---------- *)
Fixpoint tri (l : list Z) : list (Z * Z * Z) :=
  match l with
  | a :: b :: c :: t => (a, b, c) :: tri t
  | _ => []
  end.

Lemma tri_nth d : forall (i : nat) l, (3 * i + 2 < length l)%nat ->
  nth i (tri l) d = (nth (3 * i) l 0, nth (3 * i + 1) l 0, nth (3 * i + 2) l 0).
Proof.
  induction i as [|i IH]; intros l Hl.
  - destruct l as [|a [|b [|c t]]]; cbn in Hl; try lia. reflexivity.
  - destruct l as [|a [|b [|c t]]]; cbn [length] in Hl; try lia.
    replace (3 * S i)%nat with (S (S (S (3 * i)))) by lia. cbn [tri nth plus].
    apply IH. lia.
Qed.

Definition chin_tri : list (Z * Z * Z) := tri (skipn 4 chinese_bytes).
Definition chin_packed (t : Z * Z * Z) : Z :=
  let '(a, b, c) := t in a + 256 * b + 65536 * c.
Definition chin_im (t : Z * Z * Z) : Z := Z.rem (Z.shiftr (chin_packed t) 13) 14.
Definition chin_ms (t : Z * Z * Z) : list Z :=
  if chin_im t =? 0 then firstn 12 (chinese_months (chin_packed t)) ++ [0]
  else chinese_months (chin_packed t).
Definition chin_nyt (y : Z) (t : Z * Z * Z) : Z :=
  y * 365 + y ÷ 4 + 757862 + (Z.shiftr (chin_packed t) 13) ÷ 14.

Definition chin_entry (y : Z) : Z * Z * Z := nth (Z.to_nat (y + 363)) chin_tri (0, 0, 0).
Definition chin_ny (y : Z) : Z := chin_nyt y (chin_entry y).
Definition chin_months (y : Z) : list Z := chin_ms (chin_entry y).
Definition chin_ic (y : Z) : Z :=
  if chin_im (chin_entry y) =? 0 then 0 else chin_im (chin_entry y) + 1.

(** The eight years that end one day before the next one begins. *)
Definition chin_gap (y : Z) : bool :=
  existsb (Z.eqb y) [-33; 119; 187; 301; 339; 711; 1064; 1827].

Definition chin_one (y : Z) (t : Z * Z * Z) : bool :=
  let '(a, b, c) := t in
  (0 <=? a) && (a <=? 255) && (0 <=? b) && (b <=? 255) && (0 <=? c) && (c <=? 255) &&
  (0 <=? chin_nyt y t) && (chin_nyt y t <=? 10000000) && (chin_im t <=? 12).
Definition chin_link (y : Z) (t t2 : Z * Z * Z) : bool :=
  chin_nyt y t + msum (chin_ms t) + (if chin_gap y then 1 else 0) =? chin_nyt (y + 1) t2.
Fixpoint chin_check (y : Z) (l : list (Z * Z * Z)) : bool :=
  match l with
  | [] => true
  | t :: r => chin_one y t &&
      match r with [] => true | t2 :: _ => chin_link y t t2 end && chin_check (y + 1) r
  end.

Lemma chin_check_spec : forall l y, chin_check y l = true ->
  forall i : nat, ((i < length l)%nat -> chin_one (y + Z.of_nat i) (nth i l (0, 0, 0)) = true) /\
    ((S i < length l)%nat ->
      chin_link (y + Z.of_nat i) (nth i l (0, 0, 0)) (nth (S i) l (0, 0, 0)) = true).
Proof.
  induction l as [|t r IH]; intros y H i; [cbn; split; lia|].
  cbn [chin_check] in H. apply andb_prop in H. destruct H as [H H3].
  apply andb_prop in H. destruct H as [H1 H2].
  destruct i as [|i].
  - replace (y + Z.of_nat 0) with y by lia. cbn [nth]. split; [intros _; exact H1|].
    intros Hl. destruct r as [|t2 r2]; [cbn in Hl; lia|]. exact H2.
  - destruct (IH (y + 1) H3 i) as [Ha Hb].
    replace (y + Z.of_nat (S i)) with (y + 1 + Z.of_nat i) by lia.
    cbn [length]. split; intros Hl; [apply Ha; lia|]. cbn [nth] in *. apply Hb. lia.
Qed.

Lemma chin_checked : chin_check (-363) chin_tri = true.
Proof. vm_compute. reflexivity. Qed.
Lemma chin_tri_len : length chin_tri = Z.to_nat 10000.
Proof. vm_compute. reflexivity. Qed.
Lemma chin_bytes_len : length chinese_bytes = Z.to_nat 30004.
Proof. vm_compute. reflexivity. Qed.

Lemma chin_one_ok y : -363 <= y <= 9636 -> chin_one y (chin_entry y) = true.
Proof.
  intros H. destruct (chin_check_spec _ _ chin_checked (Z.to_nat (y + 363))) as [Ha _].
  rewrite chin_tri_len in Ha. specialize (Ha ltac:(lia)).
  replace (-363 + Z.of_nat (Z.to_nat (y + 363))) with y in Ha by lia. exact Ha.
Qed.

Lemma chin_link_ok y : -363 <= y <= 9635 ->
  chin_ny (y + 1) = chin_ny y + msum (chin_months y) + (if chin_gap y then 1 else 0).
Proof.
  intros H. destruct (chin_check_spec _ _ chin_checked (Z.to_nat (y + 363))) as [_ Hb].
  rewrite chin_tri_len in Hb. specialize (Hb ltac:(lia)).
  replace (-363 + Z.of_nat (Z.to_nat (y + 363))) with y in Hb by lia.
  unfold chin_link in Hb. apply Z.eqb_eq in Hb. unfold chin_ny, chin_months, chin_entry.
  replace (Z.to_nat (y + 1 + 363)) with (S (Z.to_nat (y + 363))) by lia. lia.
Qed.

Lemma chin_shape y : -363 <= y <= 9636 ->
  length (chin_months y) = 13%nat /\
  Forall (fun m => 0 <= m <= 127) (chin_months y) /\
  354 - 6 <= msum (chin_months y) /\ 0 <= chin_ny y <= 10000000.
Proof.
  intros H. pose proof (chin_one_ok y H) as Ho. unfold chin_months, chin_ny.
  destruct (chin_entry y) as [[a b] c] eqn:E. unfold chin_one in Ho.
  unfold chin_ms. set (p := chin_packed (a, b, c)). unfold chinese_months.
  destruct (chin_im (a, b, c) =? 0); cbn [map firstn app];
  (split; [reflexivity|]); split;
    [repeat (apply Forall_cons; [|]); try apply Forall_nil; try lia;
     match goal with |- context [if ?t then _ else _] => destruct t end; lia| |
     repeat (apply Forall_cons; [|]); try apply Forall_nil; try lia;
     match goal with |- context [if ?t then _ else _] => destruct t end; lia|];
    (split; [|lia]); unfold msum; cbn [fold_right];
    repeat match goal with |- context [if ?t then _ else _] =>
      let v := fresh "v" in set (v := if t then 30 else 29);
      assert (29 <= v <= 30) by (subst v; destruct t; lia); clearbody v end; lia.
Qed.

Lemma chin_data_ok L ic y : long_ok L -> -363 <= y <= 9636 ->
  get_calendar_data L ic y CALENDAR_CHINESE
  = Ret (DataOk (chin_ny y) (chin_ny y + msum (chin_months y)) (chin_months y), chin_ic y).
Proof.
  intros HL Hy. unfold get_calendar_data, calendar_switch, CALENDAR_CHINESE.
  unfold CALENDAR_GREGORIAN, CALENDAR_JULIAN, CALENDAR_HEBREW,
   CALENDAR_ISLAMIC, CALENDAR_REVOLUTIONARY, CALENDAR_PERSIAN. cbn [Z.eqb Pos.eqb orb].
  unfold get_chinese_year_data, chinese_byte.
  change (nth_ub chinese_bytes 2) with (@Ret Z 149). change (nth_ub chinese_bytes 3) with (@Ret Z 254).
  change (nth_ub chinese_bytes 0) with (@Ret Z 16). change (nth_ub chinese_bytes 1) with (@Ret Z 39).
  cbn [obind]. change (get16sbits 149 254) with (-363). change (get16sbits 16 39) with 10000.
  rewrite wrap32_id by lia. unfold IMAX. ev_step.
  destruct (Z.ltb_spec (y - -363) 0); [lia|]. destruct (Z.leb_spec 10000 (y - -363)); [lia|].
  cbn [orb].
  assert (Hl : Z.of_nat (length chinese_bytes) = 30004) by (rewrite chin_bytes_len; lia).
  rewrite !(nth_ub_ok _ _ 0) by lia. cbn [obind].
  assert (He : chin_entry y = (nth (Z.to_nat (4 + 3 * (y - -363))) chinese_bytes 0,
     nth (Z.to_nat (4 + 3 * (y - -363) + 1)) chinese_bytes 0,
     nth (Z.to_nat (4 + 3 * (y - -363) + 2)) chinese_bytes 0)).
  { unfold chin_entry, chin_tri. rewrite tri_nth.
    - assert (Hs : forall (n : nat) k, nth k (skipn n chinese_bytes) 0 = nth (n + k) chinese_bytes 0).
      { generalize chinese_bytes. intros l n. revert l. induction n as [|n IH]; intros l k; [reflexivity|].
        destruct l; [destruct k; reflexivity|]. cbn [skipn plus nth]. apply IH. }
      rewrite !Hs. repeat f_equal; lia.
    - rewrite skipn_length. lia. }
  pose proof (chin_one_ok y Hy) as Ho. pose proof (chin_shape y Hy) as (S1 & S2 & _ & S4).
  unfold chin_ny, chin_months, chin_ic in *. rewrite He in *.
  set (a := nth (Z.to_nat (4 + 3 * (y - -363))) chinese_bytes 0) in *.
  set (b := nth (Z.to_nat (4 + 3 * (y - -363) + 1)) chinese_bytes 0) in *.
  set (c := nth (Z.to_nat (4 + 3 * (y - -363) + 2)) chinese_bytes 0) in *.
  clearbody a b c. unfold chin_one in Ho.
  assert (Hp : get32sbits a b c 0 = chin_packed (a, b, c)).
  { unfold get32sbits, chin_packed. fold (to_int (a + 256 * b + 65536 * c + 16777216 * 0)).
    rewrite wrap32_id by lia. lia. }
  rewrite Hp. fold (chin_im (a, b, c)). fold (chin_ms (a, b, c)).
  assert (Hsh : 0 <= Z.shiftr (chin_packed (a, b, c)) 13 <= 2100).
  { rewrite Z.shiftr_div_pow2 by lia. change (2 ^ 13) with 8192. unfold chin_packed. lia. }
  unfold chin_nyt in *. unfold CHINESE_CALENDAR_EPOCH. unfold long_ok in HL.
  set (sh := Z.shiftr (chin_packed (a, b, c)) 13) in *. clearbody sh.
  ev_step.
  rewrite add_all_ok; [reflexivity|exact S2| | | |]; unfold fits; rewrite ?S1; lia.
Qed.

Lemma chin_data_err L ic y : long_ok L -> -2147483648 <= y <= 2147483647 ->
  -2147483648 <= y + 363 <= 2147483647 ->
  y < -363 \/ 9636 < y -> get_calendar_data L ic y CALENDAR_CHINESE = Ret (DataErr (-2), ic).
Proof.
  intros HL Hy Hy2 Hr. unfold get_calendar_data, calendar_switch, CALENDAR_CHINESE.
  unfold CALENDAR_GREGORIAN, CALENDAR_JULIAN, CALENDAR_HEBREW,
   CALENDAR_ISLAMIC, CALENDAR_REVOLUTIONARY, CALENDAR_PERSIAN. cbn [Z.eqb Pos.eqb orb].
  unfold get_chinese_year_data, chinese_byte.
  change (nth_ub chinese_bytes 2) with (@Ret Z 149). change (nth_ub chinese_bytes 3) with (@Ret Z 254).
  change (nth_ub chinese_bytes 0) with (@Ret Z 16). change (nth_ub chinese_bytes 1) with (@Ret Z 39).
  cbn [obind]. change (get16sbits 149 254) with (-363). change (get16sbits 16 39) with 10000.
  rewrite wrap32_id by lia. unfold IMAX. ev_step.
  destruct (Z.ltb_spec (y - -363) 0); destruct (Z.leb_spec 10000 (y - -363)); try lia; reflexivity.
Qed.
