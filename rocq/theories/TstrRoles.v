(** Which field is the year, which the month and which the day. *)
From Coq Require Import QArith Qround Lia Permutation.
From Coq Require Import Ascii String.
From Verif Require Import CBase CLemmas CStr DateModel DateVocab TstrModel TstrSpec TstrCopy TstrNum TstrOff TstrDate TstrSplit TstrField TstrThree.
Local Open Scope list_scope.
Local Open Scope Z_scope.

Lemma qlt_true a b : qlt a b = true <-> (a < b)%Q.
Proof.
  unfold qlt. rewrite negb_true_iff, <- not_true_iff_false, Qle_bool_iff. split.
  - apply Qnot_le_lt.
  - apply Qlt_not_le.
Qed.
Lemma qlt_false a b : qlt a b = false <-> (b <= a)%Q.
Proof. unfold qlt. rewrite negb_false_iff. apply Qle_bool_iff. Qed.
Lemma inj_lt a b : a < b -> (inject_Z a < inject_Z b)%Q.
Proof. intro H. now rewrite <- Zlt_Qlt. Qed.
Lemma inj_le a b : a <= b -> (inject_Z a <= inject_Z b)%Q.
Proof. intro H. now rewrite <- Zle_Qle. Qed.
Lemma floor_half z : Qfloor (inject_Z z + (1 # 2)) = z.
Proof.
  unfold inject_Z, Qplus, Qfloor. cbn [Qnum Qden]. rewrite Pos.mul_1_l. 
  change (Z.pos 2) with 2. replace (z * 2 + 1 * 1) with (1 + z * 2) by lia. rewrite Z.div_add by lia. reflexivity.
Qed.
Lemma trunc_half z : 0 <= z -> trunc (inject_Z z + (1 # 2)) = z.
Proof.
  intro H. rewrite trunc_floor; [apply floor_half|]. 
  apply Qle_trans with (inject_Z z); [now apply (inj_le 0)|]. rewrite <- (Qplus_0_r (inject_Z z)) at 1.
  apply Qplus_le_r. discriminate.
Qed.

(** The choice, once the fields are read. *)
Definition choose (E : env) (fmt : Z) (v1 v2 v3 : Q) (mf df : Z) : outcome (Z * Z * Q) :=
  do yf <- find_year [v1; v2; v3] [v1; v2; v3] 0 0;
  let df := if negb (yf =? 0) || (3 =? 2)
            then find_day [v1; v2; v3] (max_month (Z.land fmt CALENDAR_MASK)) 0 yf df else df in
  three_fields E fmt [v1; v2; v3] mf yf df.
Lemma date_fields_three E fmt f1 q1 m1 f2 q2 m2 f3 q3 m3 s y0 d0 : fld f1 q1 m1 -> fld f2 q2 m2 -> fld f3 q3 m3 ->
  date_sep s -> (List.length f1 < 80)%nat -> (List.length f2 < 80)%nat ->
  date_fields E fmt (f1 ++ s :: f2 ++ s :: f3) (List.length f1) s 0 false y0 d0 =
  (do '(y, m, d) <- choose E fmt q1 q2 q3 (if m3 then 3 else if m2 then 2 else if m1 then 1 else 0)
                      (if has_dot f3 then 3 else if has_dot f2 then 2 else if has_dot f1 then 1 else 0);
   do y <- two_digit_year E fmt false y; Ret (y, m, d, 0)).
Proof.
  intros F1 F2 F3 Hs L1 L2. unfold date_fields.
  rewrite (read_three f1 q1 m1 f2 q2 m2 f3 q3 m3) by assumption. cbn [obind]. unfold choose.
  change (3 =? 2) with false. cbv iota zeta. destruct (find_year _ _ _ _); reflexivity.
Qed.
(** The facts about the three values that matter. *)
Definition year_val (v : Q) : Prop := qlt v 0 = false /\ qlt 32 v = true /\ qlt v 32 = false.
Definition small_val (v : Q) : Prop := qlt v 0 = false /\ qlt 32 v = false.
Definition looks_day (fmt : Z) (v : Q) : bool :=
  qlt (inject_Z (max_month (Z.land fmt CALENDAR_MASK)) + (1 # 10000)) v && qlt v 32.
Lemma looks_year fmt v i yf : year_val v ->
  qlt (inject_Z (max_month (Z.land fmt CALENDAR_MASK)) + (1 # 10000)) v && qlt v 32 && negb (i =? yf) = false.
Proof. intros (_ & _ & ->). now rewrite andb_false_r. Qed.
Definition answer (E : env) (vy vm vd : Q) : outcome (Z * Z * Q) :=
  do year <- chk (e_long E) (Qfloor (vy + (1 # 2)));
  do month <- to_integer IMAX (vm + (1 # 2));
  Ret (year, month, vd).
Lemma three_answer E fmt v1 v2 v3 mf yf df y m d vy vm vd :
  roles fmt mf yf df = (y, m, d) -> role_ok y && role_ok m && role_ok d = true ->
  nth_val [v1; v2; v3] (y - 1) = Ret vy -> nth_val [v1; v2; v3] (m - 1) = Ret vm -> nth_val [v1; v2; v3] (d - 1) = Ret vd ->
  three_fields E fmt [v1; v2; v3] mf yf df = answer E vy vm vd.
Proof.
  intros Hr Ho H1 H2 H3. unfold three_fields. rewrite Hr, Ho, H1. cbn [obind]. unfold answer.
  destruct (chk (e_long E) _); try reflexivity. cbn [obind]. rewrite H3. cbn [obind]. rewrite H2. reflexivity.
Qed.
(** Year recognised by its size. *)
Ltac qs := repeat match goal with H : qlt ?a ?b = _ |- context [qlt ?a ?b] => rewrite H end.
Lemma choose_year E fmt v1 v2 v3 mf df : True ->
  (year_val v1 -> small_val v2 -> small_val v3 ->
   choose E fmt v1 v2 v3 mf df = three_fields E fmt [v1; v2; v3] mf 1 (if looks_day fmt v3 then 3 else if looks_day fmt v2 then 2 else df)) /\
  (year_val v2 -> small_val v1 -> small_val v3 ->
   choose E fmt v1 v2 v3 mf df = three_fields E fmt [v1; v2; v3] mf 2 (if looks_day fmt v3 then 3 else if looks_day fmt v1 then 1 else df)) /\
  (year_val v3 -> small_val v1 -> small_val v2 ->
   choose E fmt v1 v2 v3 mf df = three_fields E fmt [v1; v2; v3] mf 3 (if looks_day fmt v2 then 2 else if looks_day fmt v1 then 1 else df)) /\
  (small_val v1 -> small_val v2 -> small_val v3 ->
   choose E fmt v1 v2 v3 mf df = three_fields E fmt [v1; v2; v3] mf 0 df).
Proof.
  intros _. unfold looks_day, year_val, small_val.
  repeat split; intros Y A B; repeat match goal with H : _ /\ _ |- _ => destruct H end;
    unfold choose; cbn [find_year]; qs; cbn [obind]; cbv zeta;
    change (0 =? 0) with true; cbv iota; cbn [obind]; qs; cbn [obind]; try reflexivity;
    change (0 + 1) with 1; change (1 + 1) with 2; change (2 + 1) with 3; cbn [negb orb Z.eqb Pos.eqb find_day];
    change (0 + 1) with 1; change (1 + 1) with 2; change (2 + 1) with 3; cbn [negb orb Z.eqb Pos.eqb]; qs;
    rewrite ?andb_false_r, ?andb_true_r; reflexivity.
Qed.
