(** Lemmas about the model of the search for a region. *)
From Coq Require Import QArith Qround Qabs Lia Lqa.
From Verif Require Import CBase CLemmas CStr TstrModel TstrNum TstrSpec MpcfModel MpcfRead CodeSpec CodeProofs GeoModel GeoSpec.
From Verif Require EopModel EopProofs.
Import ListNotations.
Local Open Scope list_scope.
Local Open Scope Z_scope.

(** ---- longitudes ---- *)
Lemma qlt_ok a b : qlt a b = true <-> (a < b)%Q.
Proof. unfold qlt. rewrite Bool.negb_true_iff. split; intro H; [apply Qnot_le_lt; intro X; apply Qle_bool_iff in X; congruence|]. destruct (Qle_bool b a) eqn:E; [|reflexivity]. apply Qle_bool_iff in E. exfalso. Lqa.lra. Qed.
Lemma qlt_no a b : qlt a b = false <-> (b <= a)%Q.
Proof. unfold qlt. rewrite Bool.negb_false_iff. apply Qle_bool_iff. Qed.
Lemma same_refl a b : (a == b)%Q -> same_lon a b. Proof. intro H. exists 0. rewrite H. ring. Qed.
Lemma same_sym a b : same_lon a b -> same_lon b a.
Proof. intros (k & H). exists (- k). rewrite H, inject_Z_opp. ring. Qed.
Lemma same_trans a b c : same_lon a b -> same_lon b c -> same_lon a c.
Proof. intros (k & H) (l & I). exists (k + l). rewrite H, I, inject_Z_plus. ring. Qed.
Lemma same_add a b x y : (x == y)%Q -> same_lon a b -> same_lon (a + x) (b + y).
Proof. intros E (k & H). exists k. rewrite H, E. ring. Qed.
Lemma same_small a b : same_lon a b -> (Qabs (a - b) < 360)%Q -> (a == b)%Q.
Proof.
  intros (k & H) L. apply Qabs_Qlt_condition in L. assert (K : k = 0).
  { assert (X : (-1 < inject_Z k)%Q /\ (inject_Z k < 1)%Q) by (rewrite H in L; split; Lqa.lra). destruct X as (X1 & X2). change (-1)%Q with (inject_Z (-1)) in X1. change 1%Q with (inject_Z 1) in X2. rewrite <- Zlt_Qlt in X1, X2. lia. }
  rewrite H, K. ring.
Qed.
Lemma lower_ok base : forall n d, (d - base <= 180 + 360 * inject_Z (Z.of_nat n))%Q ->
  exists d', (forall fuel, (n < fuel)%nat -> lower fuel base d = Ret d') /\ same_lon d' d /\ (d' - base <= 180)%Q.
Proof.
  induction n as [|n IH]; intros d H.
  - exists d. split; [|split; [now apply same_refl|change (inject_Z (Z.of_nat 0)) with 0%Q in H; Lqa.lra]]. intros [|fuel] F; [lia|]. cbn [lower]. assert (qlt 180 (d - base) = false) as ->; [|reflexivity]. apply qlt_no. change (inject_Z (Z.of_nat 0)) with 0%Q in H. Lqa.lra.
  - destruct (qlt 180 (d - base)) eqn:E.
    + destruct (IH (d - 360)%Q) as (d' & D1 & D2 & D3); [rewrite Nat2Z.inj_succ in H; unfold Z.succ in H; rewrite inject_Z_plus in H; change (inject_Z 1) with 1%Q in H; Lqa.lra|].
      exists d'. split; [|split; [|exact D3]]. { intros [|fuel] F; [lia|]. cbn [lower]. rewrite E. apply D1. lia. }
      apply (same_trans _ _ _ D2). exists (-1). change (inject_Z (-1)) with (-1)%Q. ring.
    + exists d. split; [|split; [now apply same_refl|now apply qlt_no]]. intros [|fuel] F; [lia|]. cbn [lower]. now rewrite E.
Qed.
Lemma raise_ok base : forall n d, (- (180 + 360 * inject_Z (Z.of_nat n)) <= d - base)%Q -> (d - base <= 180)%Q ->
  exists d', (forall fuel, (n < fuel)%nat -> raise fuel base d = Ret d') /\ same_lon d' d /\ (-180 <= d' - base <= 180)%Q.
Proof.
  induction n as [|n IH]; intros d H U.
  - exists d. split; [|split; [now apply same_refl|change (inject_Z (Z.of_nat 0)) with 0%Q in H; split; Lqa.lra]]. intros [|fuel] F; [lia|]. cbn [raise]. assert (qlt (d - base) (-180) = false) as ->; [|reflexivity]. apply qlt_no. change (inject_Z (Z.of_nat 0)) with 0%Q in H. Lqa.lra.
  - destruct (qlt (d - base) (-180)) eqn:E.
    + apply qlt_ok in E. destruct (IH (d + 360)%Q) as (d' & D1 & D2 & D3); [rewrite Nat2Z.inj_succ in H; unfold Z.succ in H; rewrite inject_Z_plus in H; change (inject_Z 1) with 1%Q in H; Lqa.lra|Lqa.lra|].
      apply qlt_ok in E. exists d'. split; [|split; [|exact D3]]. { intros [|fuel] F; [lia|]. cbn [raise]. rewrite E. apply D1. lia. }
      apply (same_trans _ _ _ D2). exists 1. change (inject_Z 1) with 1%Q. ring.
    + exists d. split; [|split; [now apply same_refl|split; [now apply qlt_no|exact U]]]. intros [|fuel] F; [lia|]. cbn [raise]. now rewrite E.
Qed.
Lemma big (x : Q) : exists n, (x <= 180 + 360 * inject_Z (Z.of_nat n))%Q.
Proof.
  exists (Z.to_nat (Z.max 0 (Qceiling x))). rewrite Z2Nat.id by lia. pose proof (Qle_ceiling x) as A. assert (B : (inject_Z (Qceiling x) <= inject_Z (Z.max 0 (Qceiling x)))%Q) by (rewrite <- Zle_Qle; lia).
  assert (C : (0 <= inject_Z (Z.max 0 (Qceiling x)))%Q) by (change 0%Q with (inject_Z 0); rewrite <- Zle_Qle; lia). Lqa.lra.
Qed.
Lemma wrap_ok base d : exists d', (exists N, forall fuel, (N <= fuel)%nat -> (do x <- lower fuel base d; raise fuel base x) = Ret d') /\ same_lon d' d /\ (-180 <= d' - base <= 180)%Q.
Proof.
  destruct (big (d - base)) as (n & Hn). destruct (lower_ok base n d Hn) as (d1 & A1 & A2 & A3).
  destruct (big (- (d1 - base))) as (m & Hm). destruct (raise_ok base m d1 ltac:(Lqa.lra) A3) as (d2 & B1 & B2 & B3).
  exists d2. split; [|split; [exact (same_trans _ _ _ B2 A2)|exact B3]]. exists (n + m + 1)%nat. intros fuel F. rewrite A1 by lia. cbn [obind]. apply B1. lia.
Qed.
Lemma neg_prod x y : (x * y < 0)%Q <-> between 0 x y.
Proof.
  unfold between. split.
  - intro H. destruct (Qlt_le_dec x 0) as [X|X]; destruct (Qlt_le_dec 0 y) as [Y|Y]; [now left| | |].
    + exfalso. assert (0 <= (- x) * (- y))%Q by (apply Qmult_le_0_compat; Lqa.lra). Lqa.lra.
    + exfalso. assert (0 <= x * y)%Q by (apply Qmult_le_0_compat; Lqa.lra). Lqa.lra.
    + destruct (Qlt_le_dec y 0) as [Y2|Y2]; destruct (Qlt_le_dec 0 x) as [X2|X2]; [right; now split| | |]; exfalso.
      * assert (x == 0)%Q as E by Lqa.lra. rewrite E in H. Lqa.lra.
      * assert (y == 0)%Q as E by Lqa.lra. rewrite E in H. Lqa.lra.
      * assert (y == 0)%Q as E by Lqa.lra. rewrite E in H. Lqa.lra.
  - intros [(A & B)|(A & B)].
    + assert (0 < (- x) * y)%Q by (apply Qmult_lt_0_compat; Lqa.lra). Lqa.lra.
    + assert (0 < x * (- y))%Q by (apply Qmult_lt_0_compat; Lqa.lra). Lqa.lra.
Qed.
Lemma between_shift l x y : between 0 (x - l) (y - l) <-> between l x y.
Proof. unfold between. split; (intros [(A & B)|(A & B)]; [left|right]; split; Lqa.lra). Qed.
(** The test of the program *)
Lemma arc_ok l l1 l2 d1 d2 : ~ same_lon l2 (l1 + 180) -> same_lon d1 (l1 - l) -> (-180 <= d1 - 0 <= 180)%Q -> same_lon d2 (l2 - l) -> (-180 <= d2 - d1 <= 180)%Q ->
  ((d1 * d2 < 0)%Q <-> exists a b, same_lon a l1 /\ same_lon b l2 /\ (Qabs (a - b) < 180)%Q /\ between l a b).
Proof.
  intros NH S1 R1 S2 R2.
  assert (T1 : same_lon (d1 + l) l1). { destruct S1 as (k & E). exists k. rewrite E. ring. }
  assert (T2 : same_lon (d2 + l) l2). { destruct S2 as (k & E). exists k. rewrite E. ring. }
  assert (N1 : ~ (d2 - d1 == 180)%Q).
  { intro E. apply NH. apply (same_trans _ (d2 + l)); [now apply same_sym|]. apply (same_trans _ (d1 + l + 180)); [apply same_refl; Lqa.lra|]. now apply same_add. }
  assert (N2 : ~ (d2 - d1 == -180)%Q).
  { intro E. apply NH. apply (same_trans _ (d2 + l)); [now apply same_sym|]. apply (same_trans _ (d1 + l + 180)); [exists (-1); change (inject_Z (-1)) with (-1)%Q; Lqa.lra|]. now apply same_add. }
  split.
  - intro H. apply neg_prod in H. exists (d1 + l)%Q, (d2 + l)%Q. split; [exact T1|]. split; [exact T2|]. split.
    + apply Qabs_Qlt_condition. split; [destruct (Qlt_le_dec (-180) (d1 + l - (d2 + l))); [assumption|exfalso; apply N1; Lqa.lra]|destruct (Qlt_le_dec (d1 + l - (d2 + l)) 180); [assumption|exfalso; apply N2; Lqa.lra]].
    + apply between_shift. unfold between in *. destruct H as [(A & B)|(A & B)]; [left|right]; split; Lqa.lra.
  - intros (a & b & Sa & Sb & L & B). apply Qabs_Qlt_condition in L. apply between_shift in B.
    assert (E1 : (d1 == a - l)%Q).
    { apply same_small; [apply (same_trans _ (l1 - l)); [exact S1|]; destruct (same_sym _ _ Sa) as (k & E); exists k; rewrite E; ring|]. apply Qabs_Qlt_condition. unfold between in B. split; Lqa.lra. }
    assert (E2 : (d2 == b - l)%Q).
    { apply same_small; [apply (same_trans _ (l2 - l)); [exact S2|]; destruct (same_sym _ _ Sb) as (k & E); exists k; rewrite E; ring|]. apply Qabs_Qlt_condition. split; Lqa.lra. }
    apply neg_prod. unfold between in *. destruct B as [(A & B)|(A & B)]; [left|right]; split; Lqa.lra.
Qed.

(** ---- numbers ---- *)
Lemma stops_32 r : stops (32 :: r). Proof. reflexivity. Qed.
Lemma skip_sp32 i r : skip_spaces (repeat 32 i ++ r) = skip_spaces r.
Proof. induction i as [|i IH]; [reflexivity|]. unfold skip_spaces in *. cbn [repeat app span Z.eqb Pos.eqb skipn]. exact IH. Qed.
Lemma digits_bound s : all_digits s -> 0 <= dig_val 0 s < 10 ^ Z.of_nat (List.length s) \/ (9 < List.length s)%nat.
Proof.
  intro D. destruct (Nat.le_gt_cases (List.length s) 9) as [L|L]; [left|right; exact L]. pose proof (p10 _ L). destruct (int_all s [] 0 D I) as (_ & B); lia.
Qed.
Lemma quick_number n v r : number_of n v -> (List.length n <= 9)%nat -> exists c t, n = c :: t /\ (isdigit c = true \/ c = 46) /\
  forall (neg : bool) (ib : list Z), exists q : Q, (q == if neg then - v else v)%Q /\
  (do '(integer_part, s) <- int_digits (n ++ 32 :: r) 0;
   match s with
   | 46 :: s =>
      if negb (match s with c :: _ => isdigit c | [] => false end) && negb (isdigit c)
      then Ret (0%Q, ib)
      else
        do '(frac_part, divisor, s) <- frac_digits s 0 1;
        let rval := (inject_Z integer_part + inject_Z frac_part / inject_Z divisor)%Q in
        Ret ((if neg then - rval else rval)%Q, s)
   | _ => let rval := inject_Z integer_part in
         Ret ((if neg then - rval else rval)%Q, s)
   end) = Ret (q, 32 :: r).
Proof.
  intros H L. destruct H as [(w & (NE & D & V) & ->)|(a & b & w & D & NE & -> & V & ->)].
  - destruct n as [|c t]; [congruence|]. exists c, t. split; [reflexivity|]. split; [left; apply D; now left|]. intros neg ib.
    exists (if neg then - inject_Z w else inject_Z w)%Q. split; [reflexivity|].
    destruct (int_all (c :: t) (32 :: r) 0 D (stops_32 r)) as (E & _); [lia|pose proof (p10 _ L); lia|]. rewrite E, V. reflexivity.
  - assert (Da : all_digits a) by (intros x X; apply D, in_or_app; now left). assert (Db : all_digits b) by (intros x X; apply D, in_or_app; now right).
    rewrite app_length in L. cbn [List.length] in L. pose proof (p10 (List.length a) ltac:(lia)) as Pa. pose proof (p10 (List.length b) ltac:(lia)) as Pb.
    assert (X : exists c t, a ++ 46 :: b = c :: t /\ (isdigit c = true \/ c = 46) /\ (isdigit c = false -> a = [])).
    { destruct a as [|c a]; [exists 46, b; split; [reflexivity|]; split; [now right|reflexivity]|]. exists c, (a ++ 46 :: b). split; [reflexivity|]. assert (isdigit c = true) as C by (apply Da; now left). split; [now left|congruence]. }
    destruct X as (c & t & Ec & C1 & C2). exists c, t. split; [exact Ec|]. split; [exact C1|]. intros neg ib.
    rewrite <- app_assoc. cbn [app]. destruct (int_all a (46 :: b ++ 32 :: r) 0 Da eq_refl) as (E & _); [lia|lia|]. rewrite E. cbn [obind].
    assert (G : negb (match b ++ 32 :: r with c :: _ => isdigit c | [] => false end) && negb (isdigit c) = false).
    { destruct (isdigit c) eqn:Ic; [now rewrite Bool.andb_false_r|]. specialize (C2 eq_refl). subst a. destruct b as [|x b]; [now elim NE|]. cbn [app]. rewrite (Db x (or_introl eq_refl)). reflexivity. }
    rewrite G, (frac_all b (32 :: r) 0 1 Db (stops_32 r)) by lia. cbn [obind]. eexists. split; [|reflexivity].
    assert (VV : (inject_Z (dig_val 0 a) + inject_Z (dig_val 0 b) / inject_Z (1 * 10 ^ Z.of_nat (List.length b)) == w # Z.to_pos (10 ^ Z.of_nat (List.length b)))%Q).
    { rewrite <- V, Z.mul_1_l. rewrite (Qmake_Qdiv _ (Z.to_pos _)), Z2Pos.id by lia. 
      assert (DA : dig_val 0 (a ++ b) = dig_val 0 a * 10 ^ Z.of_nat (List.length b) + dig_val 0 b).
      { clear - Da Db. enough (A : forall acc, dig_val acc (a ++ b) = dig_val acc a * 10 ^ Z.of_nat (List.length b) + dig_val 0 b) by apply A. revert Da. assert (Y : forall s, all_digits s -> forall acc, dig_val acc s = acc * 10 ^ Z.of_nat (List.length s) + dig_val 0 s).
        { induction s as [|x s IH]; intros Ds acc; [cbn; lia|]. cbn [dig_val List.length]. rewrite (Ds x (or_introl eq_refl)). rewrite IH, (IH (fun y H => Ds y (or_intror H)) (0 * 10 + (x - 48))) by (intros y H; apply Ds; now right). rewrite Nat2Z.inj_succ, Z.pow_succ_r by lia. ring. }
        induction a as [|x a IH]; intros Da acc; [cbn [app dig_val]; apply Y; exact Db|]. cbn [app dig_val]. rewrite (Da x (or_introl eq_refl)). apply IH. intros y H. apply Da. now right. }
      rewrite DA, inject_Z_plus, inject_Z_mult. field. intro Z0. change 0%Q with (inject_Z 0) in Z0. unfold Qeq in Z0. cbn in Z0. lia. }
    destruct neg; rewrite VV; reflexivity.
Qed.
Lemma sign_46 t : sign_of (46 :: t) = (false, 46 :: t). Proof. reflexivity. Qed.
Lemma column_read t q r : column t q -> exists v, (v == q)%Q /\ quick_atof (t ++ r) = Ret v.
Proof.
  intros (i & sg & n & v & j & -> & L & N & SQ). assert (LN : (List.length n <= 9)%nat) by (rewrite !app_length, !repeat_length in L; lia).
  destruct (quick_number n v (repeat 32 j ++ r) N LN) as (c & t & Ec & C & F). unfold quick_atof, quick_strtod. rewrite <- !app_assoc. rewrite skip_sp32. change (repeat 32 (S j) ++ r) with (32 :: repeat 32 j ++ r).
  assert (NS : c <> 32 /\ c <> 43 /\ c <> 45) by (destruct C as [C| ->]; [unfold isdigit in C; lia|lia]).
  assert (SK : forall x u, x <> 32 -> skip_spaces (x :: u) = x :: u) by (intros x u X; unfold skip_spaces; cbn [span]; destruct (Z.eqb_spec 32 x); [congruence|reflexivity]).
  assert (SG : sign_of (c :: t ++ 32 :: repeat 32 j ++ r) = (false, c :: t ++ 32 :: repeat 32 j ++ r)) by (destruct C as [C| ->]; [now apply sign_digit|apply sign_46]).
  destruct SQ as [([-> | ->] & E)|(-> & E)]; cbn [app].
  - destruct (F false (repeat 32 i ++ c :: t ++ 32 :: repeat 32 j ++ r)) as (x & X1 & X2). exists x. split; [now rewrite X1, E|]. rewrite Ec in X2 |- *. cbn [app] in X2 |- *. rewrite SK by lia. rewrite SG. exact (f_equal (fun m : outcome (Q * list Z) => do '(v, _) <- m; Ret v) X2).
  - destruct (F false (repeat 32 i ++ 43 :: c :: t ++ 32 :: repeat 32 j ++ r)) as (x & X1 & X2). exists x. split; [now rewrite X1, E|]. rewrite Ec in X2 |- *. cbn [app] in X2 |- *. rewrite SK by lia. exact (f_equal (fun m : outcome (Q * list Z) => do '(v, _) <- m; Ret v) X2).
  - destruct (F true (repeat 32 i ++ 45 :: c :: t ++ 32 :: repeat 32 j ++ r)) as (x & X1 & X2). exists x. split; [now rewrite X1, E|]. rewrite Ec in X2 |- *. cbn [app] in X2 |- *. rewrite SK by lia. exact (f_equal (fun m : outcome (Q * list Z) => do '(v, _) <- m; Ret v) X2).
Qed.

(** ---- lines ---- *)
Lemma string_ok s r : ~ In 0 s -> string_at (s ++ 0 :: r) = Ret s.
Proof. induction s as [|c s IH]; intro H; [reflexivity|]. cbn [app string_at]. destruct (Z.eqb_spec c 0) as [->|]; [elim H; now left|]. rewrite IH; [reflexivity|]. intro X. apply H. now right. Qed.
Lemma string_fill tb u v k : List.length u = k -> ~ In 0 (u ++ v) -> string_at (skipn k (fill tb (u ++ v))) = Ret v.
Proof. intros <- H. unfold fill. rewrite <- !app_assoc, skipn_app_l. apply string_ok. intro X. apply H, in_or_app. now right. Qed.
Lemma number_bytes n v : number_of n v -> forall c, In c n -> isdigit c = true \/ c = 46.
Proof. intros [(w & (_ & D & _) & _)|(a & b & w & D & _ & -> & _)] c I; [left; now apply D|]. apply in_app_or in I. destruct I as [I|[I|I]]; [left; apply D, in_or_app; now left|now right|left; apply D, in_or_app; now right]. Qed.
Lemma column_bytes t q : column t q -> forall c, In c t -> c = 32 \/ c = 43 \/ c = 45 \/ 46 <= c <= 57.
Proof.
  intros (i & sg & n & v & j & -> & L & N & SQ) c I. apply in_app_or in I. destruct I as [I|I]; [apply repeat_spec in I; now left|]. apply in_app_or in I. destruct I as [I|I].
  - destruct SQ as [([-> | ->] & _)|(-> & _)]; [destruct I|destruct I as [<-|[]]; tauto|destruct I as [<-|[]]; tauto].
  - apply in_app_or in I. destruct I as [I|I]; [|apply repeat_spec in I; now left]. destruct (number_bytes n v N c I) as [X| ->]; [unfold isdigit in X; lia|lia].
Qed.
Lemma column_len t q : column t q -> List.length t = 10%nat. Proof. now intros (i & sg & n & v & j & _ & L & _). Qed.
Lemma name_ok s r : (forall c, In c s -> 32 <= c <= 127) -> name_of (s ++ 10 :: r) = s.
Proof. induction s as [|c s IH]; intro H; [reflexivity|]. cbn [app name_of]. pose proof (H c (or_introl eq_refl)). replace ((32 <=? c) && (c <=? 127)) with true by lia. rewrite IH; [reflexivity|]. intros x X. apply H. now right. Qed.
Lemma line_bytes r t : line_of r t -> (exists u, t = u ++ [10] /\ ~ In 10 u /\ (List.length u <= 88)%nat) /\ ~ In 0 t /\ nth 0 t 0 <> 35.
Proof.
  intros (c1 & c2 & c3 & c4 & -> & H1 & H2 & H3 & H4 & NE & LN & NB).
  assert (B : forall c, In c (c1 ++ c2 ++ c3 ++ c4 ++ name r) -> 32 <= c).
  { intros c I. repeat (apply in_app_or in I; destruct I as [I|I]; [first [pose proof (column_bytes _ _ H1 c I)|pose proof (column_bytes _ _ H2 c I)|pose proof (column_bytes _ _ H3 c I)|pose proof (column_bytes _ _ H4 c I)]; lia|]). apply NB in I. lia. }
  assert (E : c1 ++ c2 ++ c3 ++ c4 ++ name r ++ [10] = (c1 ++ c2 ++ c3 ++ c4 ++ name r) ++ [10]) by now rewrite <- !app_assoc.
  split; [|split].
  - exists (c1 ++ c2 ++ c3 ++ c4 ++ name r). split; [exact E|]. split; [intro I; apply B in I; lia|]. rewrite !app_length, (column_len _ _ H1), (column_len _ _ H2), (column_len _ _ H3), (column_len _ _ H4). lia.
  - rewrite E. intro I. apply in_app_or in I. destruct I as [I|[I|[]]]; [apply B in I; lia|discriminate].
  - pose proof (column_len _ _ H1) as L. destruct c1 as [|c c1]; [discriminate|]. cbn [app nth]. pose proof (column_bytes _ _ H1 c (or_introl eq_refl)). lia.
Qed.
Lemma qlt_between x y l1 l2 l : (x == l1 - l)%Q -> (y == l2 - l)%Q -> (qlt (x * y) 0 = true <-> between l l1 l2).
Proof. intros X Y. rewrite qlt_ok, X, Y, neg_prod. apply between_shift. Qed.
Lemma line_ok lat lon r t : line_of r t -> ~ half r -> exists b : bool, (b = true <-> inside lat lon r) /\ exists N, forall fuel tb, (N <= fuel)%nat -> region_of_line fuel (fill tb t) lat lon = Ret (if b then name r else []).
Proof.
  intros HL NH. pose proof (line_bytes r t HL) as (_ & N0 & _). destruct HL as (c1 & c2 & c3 & c4 & -> & H1 & H2 & H3 & H4 & NE & LN & NB).
  pose proof (column_len _ _ H1) as L1. pose proof (column_len _ _ H2) as L2. pose proof (column_len _ _ H3) as L3. pose proof (column_len _ _ H4) as L4.
  destruct (column_read c1 _ (c2 ++ c3 ++ c4 ++ name r ++ [10]) H1) as (a1 & A1 & E1). destruct (column_read c2 _ (c3 ++ c4 ++ name r ++ [10]) H2) as (b1 & B1 & E2).
  destruct (column_read c3 _ (c4 ++ name r ++ [10]) H3) as (a2 & A2 & E3). destruct (column_read c4 _ (name r ++ [10]) H4) as (b2 & B2 & E4).
  destruct (wrap_ok 0 (a1 - lon)) as (d1 & (n1 & W1) & S1 & R1). destruct (wrap_ok d1 (a2 - lon)) as (d2 & (n2 & W2) & S2 & R2).
  assert (S1' : same_lon d1 (lon1 r - lon)) by (apply (same_trans _ _ _ S1), same_refl; rewrite A1; reflexivity).
  assert (S2' : same_lon d2 (lon2 r - lon)) by (apply (same_trans _ _ _ S2), same_refl; rewrite A2; reflexivity).
  pose proof (arc_ok lon (lon1 r) (lon2 r) d1 d2 NH S1' R1 S2' R2) as ARC.
  assert (LAT : qlt ((b1 - lat) * (b2 - lat)) 0 = true <-> between lat (lat1 r) (lat2 r)) by (apply qlt_between; [rewrite B1|rewrite B2]; reflexivity).
  exists (qlt (d1 * d2) 0 && qlt ((b1 - lat) * (b2 - lat)) 0). split.
  - rewrite Bool.andb_true_iff, LAT, qlt_ok, ARC. unfold inside. tauto.
  - exists (n1 + n2)%nat. intros fuel tb F. unfold region_of_line.
    assert (T0 : string_at (skipn 0 (fill tb (c1 ++ c2 ++ c3 ++ c4 ++ name r ++ [10]))) = Ret (c1 ++ c2 ++ c3 ++ c4 ++ name r ++ [10])) by (apply (string_fill tb [] _ 0); [reflexivity|exact N0]).
    assert (T1 : string_at (skipn 10 (fill tb (c1 ++ c2 ++ c3 ++ c4 ++ name r ++ [10]))) = Ret (c2 ++ c3 ++ c4 ++ name r ++ [10])) by (apply (string_fill tb c1 _ 10); [exact L1|exact N0]).
    assert (T2 : string_at (skipn 20 (fill tb (c1 ++ c2 ++ c3 ++ c4 ++ name r ++ [10]))) = Ret (c3 ++ c4 ++ name r ++ [10])).
    { rewrite (app_assoc c1). apply (string_fill tb (c1 ++ c2) _ 20); [rewrite app_length; lia|rewrite <- app_assoc; exact N0]. }
    assert (T3 : string_at (skipn 30 (fill tb (c1 ++ c2 ++ c3 ++ c4 ++ name r ++ [10]))) = Ret (c4 ++ name r ++ [10])).
    { replace (c1 ++ c2 ++ c3 ++ c4 ++ name r ++ [10]) with ((c1 ++ c2 ++ c3) ++ c4 ++ name r ++ [10]) in N0 |- * by now rewrite <- !app_assoc. apply (string_fill tb _ _ 30); [rewrite !app_length; lia|exact N0]. }
    assert (T4 : string_at (skipn 40 (fill tb (c1 ++ c2 ++ c3 ++ c4 ++ name r ++ [10]))) = Ret (name r ++ [10])).
    { replace (c1 ++ c2 ++ c3 ++ c4 ++ name r ++ [10]) with ((c1 ++ c2 ++ c3 ++ c4) ++ name r ++ [10]) in N0 |- * by now rewrite <- !app_assoc. apply (string_fill tb _ _ 40); [rewrite !app_length; lia|exact N0]. }
    rewrite T0, T2. cbn [obind]. rewrite E1. cbn [obind]. rewrite E3. cbn [obind].
    pose proof (W1 fuel ltac:(lia)) as X1. destruct (lower fuel 0 (a1 - lon)) as [x1| | |]; cbn [obind] in X1; try discriminate. cbn [obind]. rewrite X1. cbn [obind].
    pose proof (W2 fuel ltac:(lia)) as X2. destruct (lower fuel d1 (a2 - lon)) as [x2| | |]; cbn [obind] in X2; try discriminate. cbn [obind]. rewrite X2. cbn [obind].
    destruct (qlt (d1 * d2) 0); cbn [andb]; [|reflexivity]. rewrite T1. cbn [obind]. rewrite E2. cbn [obind]. rewrite T3. cbn [obind]. rewrite E4. cbn [obind].
    destruct (qlt ((b1 - lat) * (b2 - lat)) 0); [|reflexivity]. rewrite T4. cbn [obind]. now rewrite name_ok.
Qed.
Lemma regions_step n fuel tb t f lat lon : (exists u, t = u ++ [10] /\ ~ In 10 u /\ (List.length u <= 88)%nat) ->
  regions (S n) fuel tb (t ++ f) lat lon =
    (do buff <- (if nth 0 t 0 =? 35 then Ret [] else region_of_line fuel (fill tb t) lat lon);
     match buff with [] => regions n fuel (fill tb t) f lat lon | _ => Ret (0, buff) end).
Proof.
  intros (u & -> & N & L). assert (E : EopModel.line_length 89 ((u ++ [10]) ++ f) = List.length (u ++ [10])). { rewrite <- app_assoc. cbn [app]. rewrite EopProofs.line_length_line by (assumption || lia). rewrite app_length. cbn. lia. }
  cbn [regions]. rewrite E, firstn_app_l, skipn_app_l. destruct ((u ++ [10]) ++ f) eqn:X; [destruct u; discriminate|].
  replace (nth 0 (fill tb (u ++ [10])) 0) with (nth 0 (u ++ [10]) 0) by (destruct u; reflexivity). reflexivity.
Qed.
Lemma regions_ok lat lon rs f : file_of rs f -> (forall r, In r rs -> ~ half r) ->
  exists v text, answer rs lat lon v text /\ exists N, forall n fuel tb, (N <= n)%nat -> (N <= fuel)%nat -> regions n fuel tb f lat lon = Ret (v, text).
Proof.
  induction 1 as [|rs t f C H IH|r rs t f HL H IH]; intro NH.
  - exists (-2), []. split; [right; split; [now intros x []|now split]|]. exists 0%nat. intros n fuel tb _ _. destruct n; reflexivity.
  - destruct (IH NH) as (v & text & A & N & R). exists v, text. split; [exact A|]. exists (S N). intros n fuel tb Hn Hf. destruct n as [|n]; [lia|]. destruct C as (u & -> & N10 & N0 & L).
    rewrite regions_step; [|exists (35 :: u); split; [reflexivity|]; split; [intros [X|X]; [discriminate|now apply N10]|cbn; lia]]. cbn [app nth Z.eqb Pos.eqb obind]. apply R; lia.
  - destruct (IH (fun x X => NH x (or_intror X))) as (v & text & A & N & R). destruct (line_ok lat lon r t HL (NH r (or_introl eq_refl))) as (b & B & M & G). pose proof (line_bytes r t HL) as (LB & _ & N35).
    assert (NN : name r <> []) by (destruct HL as (c1 & c2 & c3 & c4 & _ & _ & _ & _ & _ & NE & _); exact NE).
    destruct b.
    + exists 0, (name r). split; [left; exists [], r, rs; split; [reflexivity|]; split; [now intros x []|]; split; [now apply B|]; now split|]. exists (S (N + M))%nat. intros n fuel tb Hn Hf. destruct n as [|n]; [lia|].
      rewrite regions_step by exact LB. destruct (Z.eqb_spec (nth 0 t 0) 35); [contradiction|]. rewrite G by lia. cbn [obind]. destruct (name r); [contradiction|reflexivity].
    + assert (NI : ~ inside lat lon r) by (intro X; apply B in X; discriminate). exists v, text. split.
      * destruct A as [(before & x & after & -> & A1 & A2)|(A1 & A2)].
        -- left. exists (r :: before), x, after. split; [reflexivity|]. split; [|exact A2]. intros y [<-|Y]; [exact NI|now apply A1].
        -- right. split; [|exact A2]. intros y [<-|Y]; [exact NI|now apply A1].
      * exists (S (N + M))%nat. intros n fuel tb Hn Hf. destruct n as [|n]; [lia|]. rewrite regions_step by exact LB. destruct (Z.eqb_spec (nth 0 t 0) 35); [contradiction|]. rewrite G by lia. cbn [obind]. apply R; lia.
Qed.
Lemma answer_unique rs lat lon v1 t1 v2 t2 : answer rs lat lon v1 t1 -> answer rs lat lon v2 t2 -> v1 = v2 /\ t1 = t2.
Proof.
  induction rs as [|r rs IH].
  - intros [(b & x & a & E & _)|(_ & -> & ->)]; [destruct b; discriminate|]. intros [(b & x & a & E & _)|(_ & -> & ->)]; [destruct b; discriminate|now split].
  - intros A1 A2.
    assert (D : forall v t, answer (r :: rs) lat lon v t -> (inside lat lon r /\ v = 0 /\ t = name r) \/ (~ inside lat lon r /\ answer rs lat lon v t)).
    { intros v t [(b & x & a & E & N & I & V & T)|(N & V & T)].
      - destruct b as [|y b]; [injection E as <- <-; left; exact (conj I (conj V T))|]. injection E as <- ->. right. split; [apply N; now left|]. left. exists b, x, a. split; [reflexivity|]. split; [intros z Z0; apply N; now right|]. exact (conj I (conj V T)).
      - right. split; [apply N; now left|]. right. split; [intros z Z0; apply N; now right|now split]. }
    destruct (D _ _ A1) as [(I1 & -> & ->)|(N1 & B1)]; destruct (D _ _ A2) as [(I2 & -> & ->)|(N2 & B2)]; try contradiction; [now split|now apply IH].
Qed.
