(** Lemmas about the model of eop_prec.cpp. *)
From Coq Require Import QArith Qreals Reals Lra Lia String.
From Verif Require Import RBase CBase CStr TstrModel TstrNum TstrSpec DtSpec DtProofs SplineModel RotModel EopModel EopSpec.
From Verif Require MpcfModel SofModel.
Import ListNotations.
Local Open Scope list_scope.
Local Open Scope Z_scope.

(** ---- the buffer ---- *)
Lemma c_string_app t r : ~ In 0 t -> c_string (t ++ 0 :: r) = t.
Proof.
  induction t as [|c t IH]; intros H; [reflexivity|]. cbn [app c_string]. destruct (Z.eqb_spec c 0) as [->|_]; [exfalso; apply H; now left|].
  f_equal. apply IH. intro I. apply H. now right.
Qed.
Lemma text_app t r k u v : t = u ++ v -> List.length u = k -> ~ In 0 t -> text (t ++ 0 :: r) k = v.
Proof.
  intros -> <- N. unfold text. rewrite <- app_assoc, skipn_app_l. apply c_string_app. intro I. apply N. apply in_or_app. now right.
Qed.
Lemma nth_at (u v r : list Z) t i k : t = u ++ v -> List.length u = k -> (i < List.length v)%nat -> nth (k + i) (t ++ 0 :: r) 0 = nth i v 0.
Proof. intros -> <- H. rewrite <- app_assoc, app_nth2_plus, app_nth1 by assumption. reflexivity. Qed.

Lemma line_length_line u r n : ~ In 10 u -> (List.length u < n)%nat -> line_length n (u ++ 10 :: r) = S (List.length u).
Proof.
  revert n. induction u as [|c u IH]; intros n H B; (destruct n as [|n]; [cbn in B; lia|]); cbn [app line_length List.length].
  - reflexivity.
  - destruct (Z.eqb_spec c 10) as [->|_]; [exfalso; apply H; now left|]. rewrite IH; [reflexivity| |cbn in B; lia]. intro I. apply H. now right.
Qed.
Lemma a_line_no0 t : a_line t -> ~ In 0 t.
Proof. intros (u & -> & _ & N & _) I. apply in_app_or in I. destruct I as [I|[I|[]]]; [now apply N|discriminate]. Qed.
Lemma fgets_line t r b : a_line t -> fgets (t ++ r) b = Some (t ++ 0 :: skipn 189 b, r).
Proof.
  intros (u & -> & H & _ & N). rewrite app_length in H. cbn in H.
  unfold fgets. rewrite <- app_assoc. cbn [app]. rewrite line_length_line by (assumption || (change buff_size with 200%nat; lia)).
  replace (S (List.length u)) with (List.length (u ++ [10])) by (rewrite app_length; cbn; lia).
  replace (u ++ 10 :: r) with ((u ++ [10]) ++ r) by (rewrite <- app_assoc; reflexivity). rewrite firstn_app_l, skipn_app_l.
  replace (List.length (u ++ [10])) with 188%nat by (rewrite app_length; cbn; lia).
  destruct ((u ++ [10]) ++ r) as [|c w] eqn:E; [|reflexivity]. destruct u; discriminate.
Qed.

(** ---- numbers ---- *)
Lemma scan_strtold s q r : scan_lf s = Ret (Some (q, r)) -> strtold s = Ret (q, r).
Proof.
  unfold scan_lf, strtold. destruct (sign_of (skip_ws s)) as (neg, t). destruct (unmodelled_number t); [discriminate|].
  destruct (mantissa t) as [[[m k] u]|]; [|discriminate]. destruct (exponent u) as [[(e, w)|]|]; intro H; (discriminate || congruence).
Qed.
Lemma scan_blanks i t : scan_lf (repeat 32 i ++ t) = scan_lf t.
Proof.
  unfold scan_lf. replace (skip_ws (repeat 32 i ++ t)) with (skip_ws t); [reflexivity|]. induction i as [|i IH]; [reflexivity|]. cbn [repeat app]. rewrite IH. reflexivity.
Qed.
Lemma atof_field w t q r : field w t q -> num_end r -> MpcfModel.atof (t ++ r) = Ret q.
Proof.
  intros (i & n & -> & H & _) E. unfold MpcfModel.atof. rewrite <- app_assoc.
  rewrite (scan_strtold _ q r); [reflexivity|]. rewrite scan_blanks. now apply signed_scan.
Qed.
Lemma gap_end w t r : gap w t -> (1 <= w)%nat -> num_end (t ++ r).
Proof. intros (H & B) L. destruct t as [|c t]; [cbn in H; lia|]. cbn in B |- *. subst c. repeat split; discriminate. Qed.
Lemma hd_end r : hd 0 r = 32 -> num_end r.
Proof. destruct r as [|c r]; [intros _; exact I|]. cbn. intros ->. repeat split; discriminate. Qed.
Lemma field_length w t q : field w t q -> List.length t = w.
Proof. now intros (i & n & _ & _ & H). Qed.

(** ---- the array ---- *)
Lemma put_ok data i v : 0 <= i < Z.of_nat (List.length data) -> exists data', put data i v = Ret data' /\ List.length data' = List.length data /\
  forall j, 0 <= j -> nth (Z.to_nat j) data' 0%R = if j =? i then v else nth (Z.to_nat j) data 0%R.
Proof.
  intros B. unfold put. rewrite (proj2 (Z.leb_le 0 i)), (proj2 (Z.ltb_lt i _)) by lia. cbn [andb]. eexists. split; [reflexivity|].
  assert (E : List.length (firstn (Z.to_nat i) data) = Z.to_nat i) by (rewrite firstn_length; lia).
  split; [rewrite app_length, E; cbn [List.length]; rewrite skipn_length; lia|]. intros j Hj.
  destruct (Z.eqb_spec j i) as [->|N].
  - rewrite app_nth2 by lia. rewrite E, Nat.sub_diag. reflexivity.
  - destruct (Z.lt_ge_cases j i) as [H|H].
    + rewrite app_nth1 by lia. rewrite <- (firstn_skipn (Z.to_nat i) data) at 2. rewrite app_nth1 by lia. reflexivity.
    + rewrite app_nth2 by lia. rewrite E. rewrite <- (firstn_skipn (S (Z.to_nat i)) data) at 2. rewrite app_nth2 by (rewrite firstn_length; lia).
      rewrite firstn_length. replace (Z.to_nat j - Z.to_nat i)%nat with (S (Z.to_nat j - Nat.min (S (Z.to_nat i)) (List.length data))) by lia. reflexivity.
Qed.
Lemma rd_ok data i : 0 <= i < Z.of_nat (List.length data) -> rd data i = Ret (nth (Z.to_nat i) data 0%R).
Proof. intros B. unfold rd. rewrite (proj2 (Z.leb_le 0 i)), (proj2 (Z.ltb_lt i _)) by lia. reflexivity. Qed.
Lemma IntPart z x : (IZR z <= x < IZR z + 1)%R -> Int_part x = z.
Proof. intros H. symmetry. unfold Int_part. assert (E : (z + 1)%Z = up x) by (apply tech_up; rewrite plus_IZR; lra). lia. Qed.
Lemma Q2R_Z z : Q2R (inject_Z z) = IZR z.
Proof. unfold Q2R. cbn. field. Qed.

(** ---- one line ---- *)
Section Line.
Variables (d : day) (t : list Z) (r : list Z).
Hypothesis H : day_line d t.
Let buff := t ++ 0 :: r.
Lemma line_facts :
  is_valid_eop_line buff = true /\ nth 16 buff 0 = (if is_observed d then 73 else 80) /\
  MpcfModel.atof (text buff 18) = Ret (pole_x d) /\ MpcfModel.atof (text buff 37) = Ret (pole_y d) /\ MpcfModel.atof (text buff 58) = Ret (ut1_utc d) /\
  (exists q, MpcfModel.atof (text buff 7) = Ret q /\ (q == inject_Z (mjd d))%Q) /\ SofModel.atoi (text buff 7) = Ret (mjd d) /\ 0 <= mjd d < 100000 /\
  match nutation d with
  | None => nth 95 buff 0 = 32
  | Some (psi, eps) => nth 95 buff 0 <> 32 /\ MpcfModel.atof (text buff 97) = Ret psi /\ MpcfModel.atof (text buff 116) = Ret eps
  end.
Proof.
  destruct H as (AL & date & m & x & g1 & y & g2 & u & g3 & n & E & Ld & M & Lm & X & X2 & G1 & Y & G2 & U & G3 & N).
  pose proof (a_line_no0 t AL) as N0. assert (Lt : List.length t = 188%nat) by (destruct AL as (w & _ & L & _); exact L).
  pose proof (field_length _ _ _ X) as Lx. pose proof (field_length _ _ _ Y) as Ly. pose proof (field_length _ _ _ U) as Lu.
  destruct G1 as (Lg1 & Hg1), G2 as (Lg2 & Hg2), G3 as (Lg3 & Hg3).
  change (zs ".00 ") with [46; 48; 48; 32] in E. change (zs " ") with [32] in E. set (fl := if is_observed d then 73 else 80) in *.
  assert (E7 : t = date ++ (m ++ [46; 48; 48; 32] ++ [fl] ++ [32] ++ x ++ g1 ++ y ++ g2 ++ u ++ g3 ++ n)) by exact E.
  assert (E12 : t = (date ++ m) ++ ([46; 48; 48; 32] ++ [fl] ++ [32] ++ x ++ g1 ++ y ++ g2 ++ u ++ g3 ++ n)) by (rewrite <- !app_assoc; exact E).
  assert (E18 : t = (date ++ m ++ [46; 48; 48; 32] ++ [fl] ++ [32]) ++ (x ++ g1 ++ y ++ g2 ++ u ++ g3 ++ n)) by (rewrite <- !app_assoc; exact E).
  assert (E27 : t = (date ++ m ++ [46; 48; 48; 32] ++ [fl] ++ [32] ++ x) ++ (g1 ++ y ++ g2 ++ u ++ g3 ++ n)) by (rewrite <- !app_assoc; exact E).
  assert (E37 : t = (date ++ m ++ [46; 48; 48; 32] ++ [fl] ++ [32] ++ x ++ g1) ++ (y ++ g2 ++ u ++ g3 ++ n)) by (rewrite <- !app_assoc; exact E).
  assert (E58 : t = (date ++ m ++ [46; 48; 48; 32] ++ [fl] ++ [32] ++ x ++ g1 ++ y ++ g2) ++ (u ++ g3 ++ n)) by (rewrite <- !app_assoc; exact E).
  assert (E95 : t = (date ++ m ++ [46; 48; 48; 32] ++ [fl] ++ [32] ++ x ++ g1 ++ y ++ g2 ++ u ++ g3) ++ n) by (rewrite <- !app_assoc; exact E).
  assert (Ln : List.length n = 93%nat) by (rewrite E95, !app_length in Lt; cbn [List.length] in Lt; lia).
  assert (NB : nth 95 buff 0 = hd 0 n).
  { pose proof (nth_at _ _ r t 0 95 E95 ltac:(rewrite !app_length; cbn [List.length]; lia) ltac:(lia)) as N95. cbn [Nat.add] in N95. unfold buff. rewrite N95. now destruct n. }
  split.
  { unfold is_valid_eop_line, buff. rewrite c_string_app by assumption. rewrite Lt. change (Z.of_nat 188 =? eop_iline_len) with true.
    pose proof (nth_at _ _ r t 0 12 E12 ltac:(rewrite !app_length; cbn [List.length]; lia) ltac:(rewrite !app_length; cbn [List.length]; lia)) as N12.
    pose proof (nth_at _ _ r t 1 12 E12 ltac:(rewrite !app_length; cbn [List.length]; lia) ltac:(rewrite !app_length; cbn [List.length]; lia)) as N13.
    pose proof (nth_at _ _ r t 2 12 E12 ltac:(rewrite !app_length; cbn [List.length]; lia) ltac:(rewrite !app_length; cbn [List.length]; lia)) as N14.
    pose proof (nth_at _ _ r t 0 27 E27 ltac:(rewrite !app_length; cbn [List.length]; lia) ltac:(rewrite !app_length; cbn [List.length]; lia)) as N27.
    pose proof (nth_at _ _ r t 2 18 E18 ltac:(rewrite !app_length; cbn [List.length]; lia) ltac:(rewrite !app_length; cbn [List.length]; lia)) as N20.
    cbn [Nat.add] in N12, N13, N14, N27, N20. rewrite N12, N13, N14, N27, N20.
    rewrite (app_nth1 x) by lia. rewrite X2. rewrite (app_nth1 g1) by lia. destruct g1 as [|c g1]; [cbn in Lg1; lia|]. cbn in Hg1 |- *. subst c. reflexivity. }
  split.
  { pose proof (nth_at _ _ r t 4 12 E12 ltac:(rewrite !app_length; cbn [List.length]; lia) ltac:(rewrite !app_length; cbn [List.length]; lia)) as N16. exact N16. }
  split; [unfold buff; rewrite (text_app t r 18 _ _ E18) by (assumption || (rewrite !app_length; cbn [List.length]; lia)); apply (atof_field 9); [assumption|]; apply (gap_end 10); [now split|lia]|].
  split; [unfold buff; rewrite (text_app t r 37 _ _ E37) by (assumption || (rewrite !app_length; cbn [List.length]; lia)); apply (atof_field 9); [assumption|]; apply (gap_end 12); [now split|lia]|].
  split; [unfold buff; rewrite (text_app t r 58 _ _ E58) by (assumption || (rewrite !app_length; cbn [List.length]; lia)); apply (atof_field 10); [assumption|]; apply (gap_end 27); [now split|lia]|].
  pose proof (digits_bound m _ M) as MB. rewrite Lm in MB. change (10 ^ Z.of_nat 5) with 100000 in MB.
  unfold buff. rewrite (text_app t r 7 _ _ E7) by assumption. split.
  { exists (mjd d * 100 # 100)%Q. split; [|unfold Qeq; cbn; lia]. unfold MpcfModel.atof.
    replace (m ++ [46; 48; 48; 32] ++ [fl] ++ [32] ++ x ++ g1 ++ y ++ g2 ++ u ++ g3 ++ n) with ((m ++ 46 :: [48; 48]) ++ 32 :: [fl] ++ [32] ++ x ++ g1 ++ y ++ g2 ++ u ++ g3 ++ n) by (rewrite <- !app_assoc; reflexivity).
    rewrite (strtold_num _ (mjd d * 100 # 100)%Q); [reflexivity| |apply sp_end].
    right. exists m, [48; 48], (mjd d * 100). destruct M as (Ne & Dg & V). split; [|split; [destruct m; discriminate|split; [reflexivity|split; [|reflexivity]]]].
    - intros c I. apply in_app_or in I. destruct I as [I|[<-|[<-|[]]]]; [now apply Dg|reflexivity|reflexivity].
    - clear - V Dg. assert (G : forall l acc, (forall c, In c l -> isdigit c = true) -> dig_val acc (l ++ [48; 48]) = dig_val acc l * 100).
      { induction l as [|c l IH]; intros acc A; [cbn; lia|]. cbn [app dig_val]. rewrite (A c) by now left. apply IH. intros c' I. apply A. now right. }
      rewrite G by assumption. lia. }
  split.
  { unfold SofModel.atoi. rewrite (scan_d_num IMAX m (mjd d)); [reflexivity|exact M|reflexivity|change IMAX with 2147483647; lia]. }
  split; [lia|].
  destruct (nutation d) as [(psi, eps)|].
  - destruct N as (c & c' & a & h & b & e & En & Hc & A & G & B & Ee). pose proof (field_length _ _ _ A) as La. pose proof (field_length _ _ _ B) as Lb. destruct G as (Lh & Hh).
    split; [fold buff; rewrite NB, En; exact Hc|].
    assert (E97 : t = (date ++ m ++ [46; 48; 48; 32] ++ [fl] ++ [32] ++ x ++ g1 ++ y ++ g2 ++ u ++ g3 ++ [c; c']) ++ (a ++ h ++ b ++ e)) by (rewrite E, En, <- !app_assoc; reflexivity).
    assert (E116 : t = (date ++ m ++ [46; 48; 48; 32] ++ [fl] ++ [32] ++ x ++ g1 ++ y ++ g2 ++ u ++ g3 ++ [c; c'] ++ a ++ h) ++ (b ++ e)) by (rewrite E, En, <- !app_assoc; reflexivity).
    rewrite (text_app t r 97 _ _ E97) by (assumption || (rewrite !app_length; cbn [List.length]; lia)).
    rewrite (text_app t r 116 _ _ E116) by (assumption || (rewrite !app_length; cbn [List.length]; lia)).
    split; apply (atof_field 9); try assumption; [apply (gap_end 10); [now split|lia]|now apply hd_end].
  - fold buff. now rewrite NB.
Qed.
End Line.
