(** Proofs about delta_t.cpp: strings of formulae. *)
From Coq Require Import QArith Qround Lia Lqa.
From Coq Require Import String.
From Verif Require Import CBase CLemmas CStr DateModel TimeModel TstrModel TstrSpec TstrNum DtModel DtSpec.
Local Open Scope string_scope.
Local Open Scope list_scope.
Local Open Scope Z_scope.

(** ---- numbers in text ---- *)
Definition stop (c : Z) : Prop := c = 44 \/ c = 58 \/ c = 59.
Lemma stop_end c r : stop c -> num_end (c :: r).
Proof. unfold stop, num_end. intros [->|[->| ->]]; cbn; repeat split; try reflexivity; lia. Qed.
Lemma signed_scan t q r : signed_number t q -> num_end r -> scan_lf (t ++ r) = Ret (Some (q, r)).
Proof.
  intros [H|[(n & -> & H)|(n & q' & -> & H & ->)]] E.
  - now apply scan_lf_num.
  - cbn [app]. now apply scan_lf_plus.
  - cbn [app]. now apply scan_lf_minus.
Qed.
(** the characters of a signed number *)
Definition sgn_char (c : Z) : Prop := num_char c \/ c = 43 \/ c = 45.
Lemma signed_chars t q : signed_number t q -> t <> [] /\ forall c, In c t -> sgn_char c.
Proof.
  intros [H|[(n & -> & H)|(n & q' & -> & H & ->)]]; destruct (number_chars _ _ H) as (N & C).
  - split; [assumption|]. intros c I. left. now apply C.
  - split; [discriminate|]. intros c [<-|I]; [right; now left|left; now apply C].
  - split; [discriminate|]. intros c [<-|I]; [right; now right|left; now apply C].
Qed.
Lemma signed_not_blank t q r : signed_number t q -> exists c u, skip_ws (t ++ r) = c :: u.
Proof.
  intro S. destruct (signed_chars t q S) as (N & C). destruct t as [|c t]; [congruence|]. exists c, (t ++ r). cbn [app].
  unfold skip_ws. cbn [span]. assert (K : sgn_char c) by (apply C; now left). unfold sgn_char, num_char in K.
  replace (isspace c) with false; [reflexivity|]. unfold isspace. symmetry. rewrite orb_false_iff, andb_false_iff, Z.eqb_neq, !Z.leb_gt. lia.
Qed.
Lemma scan_semi r : scan_lf (59 :: r) = Ret None.
Proof. reflexivity. Qed.

(** ---- bytes ---- *)
Lemma byte_app a b k : byte (a ++ b) (List.length a + k) = byte b k.
Proof.
  unfold byte. rewrite app_length, app_nth2_plus. destruct (Nat.leb_spec (List.length a + k) (List.length a + List.length b)), (Nat.leb_spec k (List.length b)); (reflexivity || lia).
Qed.
Lemma byte_0 c r : byte (c :: r) 0 = Ret c.
Proof. reflexivity. Qed.
Lemma byte_nil : byte [] 0 = Ret 0.
Proof. reflexivity. Qed.
Lemma byte_last a c r : byte (a ++ c :: r) (List.length a) = Ret c.
Proof. rewrite <- (Nat.add_0_r (List.length a)). rewrite byte_app. reflexivity. Qed.

(** ---- the coefficients ---- *)
Definition done_at (r : list Z) : Prop := r = [] \/ exists u, r = 59 :: u.
Lemma done_end r : done_at r -> num_end r.
Proof. intros [->|(u & ->)]; [exact I|apply stop_end; right; now right]. Qed.
(** as the loop adds them up *)
Fixpoint added (l : list Q) (x power delta_t : Q) : Q :=
  match l with [] => delta_t | c :: r => added r x (power * x)%Q (delta_t + power * c)%Q end.
Lemma added_poly l : forall x power d, (added l x power d == d + power * poly l x)%Q.
Proof. induction l as [|c l IH]; intros; cbn [added poly]; [ring|]. rewrite IH. ring. Qed.
(** the byte before: neither absent nor a semicolon *)
Lemma coefficients_run l t : coeffs_text l t -> forall f a c r x power co br d, c <> 59 -> done_at r -> (List.length t < f)%nat ->
  coefficients f (a ++ c :: t ++ r) (S (List.length a)) x power co br d = Ret (added l x power d).
Proof.
  induction 1 as [t q S|t q l u S _ IH]; intros f a c r x power co br d Hc Dn Hf.
  - destruct f as [|f]; [lia|]. cbn [coefficients]. rewrite Nat.sub_succ, Nat.sub_0_r, byte_last. cbn [obind]. rewrite (proj2 (Z.eqb_neq c 59) Hc).
    destruct (signed_chars t q S) as (N & C). destruct t as [|h t]; [congruence|]. cbn [app]. assert (K : sgn_char h) by (apply C; now left). unfold sgn_char, num_char in K.
    replace (Datatypes.S (List.length a)) with (List.length (a ++ [c]) + 0)%nat by (rewrite app_length; cbn; lia).
    replace (a ++ c :: h :: t ++ r) with ((a ++ [c]) ++ (h :: t) ++ r) by (rewrite <- app_assoc; reflexivity).
    rewrite byte_app. cbn [app]. rewrite byte_0. cbn [obind]. rewrite (proj2 (Z.eqb_neq h 0)) by lia. rewrite Nat.add_0_r, skipn_app_l.
    destruct (signed_not_blank (h :: t) q r S) as (c1 & u1 & E1). cbn [app] in E1. rewrite E1.
    change (h :: t ++ r) with ((h :: t) ++ r). rewrite (signed_scan (h :: t) q r S (done_end r Dn)). cbn [obind].
    replace (List.length ((h :: t) ++ r) - List.length r)%nat with (List.length (h :: t)) by (rewrite app_length; lia).
    replace (List.length (a ++ [c]) + List.length (h :: t))%nat with (List.length ((a ++ [c]) ++ h :: t) + 0)%nat by (rewrite !app_length; lia).
    rewrite app_assoc. rewrite byte_app. cbn [added].
    assert (B : byte r 0 = Ret (nth 0 r 0) /\ nth 0 r 0 <> 44) by (destruct Dn as [->|(u & ->)]; split; cbn; (reflexivity || lia)).
    destruct B as (-> & B). cbn [obind]. rewrite (proj2 (Z.eqb_neq _ _) B). rewrite Nat.add_0_r.
    destruct f as [|f]; [cbn in Hf; lia|]. cbn [coefficients].
    destruct (exists_last N) as (w & z & Ew). rewrite Ew. rewrite app_assoc. rewrite app_length. cbn [List.length].
    replace (List.length ((a ++ [c]) ++ w) + 1 - 1)%nat with (List.length ((a ++ [c]) ++ w)) by lia. rewrite <- (app_assoc _ [z] r). cbn [app]. rewrite byte_last. cbn [obind].
    assert (Kz : sgn_char z) by (apply C; rewrite Ew; apply in_or_app; right; now left). unfold sgn_char, num_char in Kz.
    rewrite (proj2 (Z.eqb_neq z 59)) by lia.
    replace (List.length ((a ++ [c]) ++ w) + 1)%nat with (List.length (((a ++ [c]) ++ w) ++ [z]) + 0)%nat by (rewrite app_length; cbn; lia).
    replace (((a ++ [c]) ++ w) ++ z :: r) with ((((a ++ [c]) ++ w) ++ [z]) ++ r) by (rewrite <- app_assoc; reflexivity).
    rewrite byte_app. destruct Dn as [->|(u & ->)]; [reflexivity|]. rewrite byte_0. cbn [obind]. change (59 =? 0) with false. cbv iota.
    rewrite Nat.add_0_r, skipn_app_l. reflexivity.
  - destruct f as [|f]; [lia|]. cbn [coefficients]. rewrite Nat.sub_succ, Nat.sub_0_r, byte_last. cbn [obind]. rewrite (proj2 (Z.eqb_neq c 59) Hc).
    destruct (signed_chars t q S) as (N & C). destruct t as [|h t]; [congruence|]. change (zs ",") with [44] in *. rewrite <- !app_assoc. cbn [app].
    assert (K : sgn_char h) by (apply C; now left). unfold sgn_char, num_char in K.
    replace (Datatypes.S (List.length a)) with (List.length (a ++ [c]) + 0)%nat by (rewrite app_length; cbn; lia).
    replace (a ++ c :: h :: t ++ 44 :: u ++ r) with ((a ++ [c]) ++ (h :: t) ++ 44 :: u ++ r) by (rewrite <- app_assoc; reflexivity).
    rewrite byte_app. cbn [app]. rewrite byte_0. cbn [obind]. rewrite (proj2 (Z.eqb_neq h 0)) by lia. rewrite Nat.add_0_r, skipn_app_l.
    destruct (signed_not_blank (h :: t) q (44 :: u ++ r) S) as (c1 & u1 & E1). cbn [app] in E1. rewrite E1.
    change (h :: t ++ 44 :: u ++ r) with ((h :: t) ++ 44 :: u ++ r). rewrite (signed_scan (h :: t) q (44 :: u ++ r) S) by (apply stop_end; now left). cbn [obind].
    replace (List.length ((h :: t) ++ 44%Z :: u ++ r) - List.length (44%Z :: u ++ r))%nat with (List.length (h :: t)) by (rewrite app_length; lia).
    replace (List.length (a ++ [c]) + List.length (h :: t))%nat with (List.length ((a ++ [c]) ++ h :: t)) by (rewrite !app_length; lia).
    rewrite app_assoc. rewrite byte_last. cbn [obind]. change (44 =? 44) with true. cbv iota. cbn [added].
    apply IH; [lia|assumption|]. rewrite !app_length in Hf. cbn in Hf. lia.
Qed.

(** ---- one formula ---- *)
(** the first year may have an exponent, as in the default string *)
Definition readable (a : list Z) (q : Q) : Prop := a <> [] /\ ~ In 59 a /\ forall r, scan_lf (a ++ 44 :: r) = Ret (Some (q, 44 :: r)).
Lemma signed_readable a q : signed_number a q -> readable a q.
Proof.
  intro S. destruct (signed_chars a q S) as (N & C). split; [assumption|]. split.
  - intro I. specialize (C 59 I). unfold sgn_char, num_char in C. lia.
  - intro r. apply signed_scan; [assumption|]. apply stop_end. now left.
Qed.
Definition formula_read (p : formula) (t : list Z) : Prop :=
  exists a b o c, readable a (from p) /\ signed_number b (until p) /\ coeffs_text (coeffs p) c /\
    match origin p with None => o = [] | Some y => exists n, signed_number n y /\ o = zs "o" ++ n ++ zs "," end /\
    t = a ++ zs "," ++ b ++ zs ":" ++ o ++ c.
Inductive formulae_read : list formula -> list Z -> Prop :=
| read_one p t : formula_read p t -> formulae_read [p] t
| read_more p t ps u : formula_read p t -> formulae_read ps u -> formulae_read (p :: ps) (t ++ zs ";" ++ u).
Lemma formulae_are_read ps s : formulae_text ps s -> formulae_read ps s.
Proof.
  assert (A : forall p t, formula_text p t -> formula_read p t).
  { intros p t (a & b & o & c & A & H). exists a, b, o, c. split; [now apply signed_readable|exact H]. }
  induction 1; constructor; auto.
Qed.
Definition x_of (year : Q) (p : formula) : Q := ((year - match origin p with Some y => y | None => 2000 end) / 100)%Q.
Lemma years_read p a b o c r : readable a (from p) -> signed_number b (until p) ->
  scan_years ((a ++ zs "," ++ b ++ zs ":" ++ o ++ c) ++ r) = Ret (Some (from p, until p, Some (List.length (a ++ zs "," ++ b ++ zs ":")))).
Proof.
  intros (_ & _ & A) B. unfold scan_years. change (zs ",") with [44]. change (zs ":") with [58]. rewrite <- !app_assoc. cbn [app].
  rewrite A. cbn [obind lit]. change (44 =? 44) with true. cbv iota.
  rewrite (signed_scan b _ (58 :: o ++ c ++ r) B) by (apply stop_end; right; now left). cbn [obind lit]. change (58 =? 58) with true. cbv iota.
  do 3 f_equal. f_equal. rewrite !app_length. cbn [List.length]. rewrite !app_length. cbn [List.length]. rewrite !app_length. lia.
Qed.
Lemma coeffs_first l t : coeffs_text l t -> exists c u, t = c :: u /\ sgn_char c.
Proof.
  destruct 1 as [t q S|t q l u S _]; destruct (signed_chars t q S) as (N & C); (destruct t as [|c t]; [congruence|]); exists c; eexists; (split; [reflexivity|]); apply C; now left.
Qed.
Lemma formula_run p t : formula_read p t -> forall a r year n, done_at r -> (a = [] \/ exists u, a = u ++ [59]) -> (0 < n)%nat ->
  search n (a ++ t ++ r) (List.length a) year =
    if (Qle_bool (from p) year && qlt year (until p))%bool then Ret (Some (added (coeffs p) (x_of year p) 1 0))
    else search (n - 1) (a ++ t ++ r) (S (List.length a)) year.
Proof.
  intros (y1 & y2 & o & c & Y1 & Y2 & C & O & ->) a r year n Dn Ha Hn. destruct n as [|n]; [lia|]. rewrite Nat.sub_succ, Nat.sub_0_r. cbn [search].
  assert (St : (if (List.length a =? 0)%nat then Ret true else do c0 <- byte (a ++ (y1 ++ zs "," ++ y2 ++ zs ":" ++ o ++ c) ++ r) (List.length a - 1); Ret (c0 =? 59)) = Ret true).
  { destruct Ha as [->|(u & ->)]; [reflexivity|]. rewrite app_length. cbn [List.length]. destruct (Nat.eqb_spec (List.length u + 1) 0); [reflexivity|].
    rewrite <- !app_assoc. cbn [app]. replace (List.length u + 1 - 1)%nat with (List.length u) by lia. rewrite byte_last. reflexivity. }
  rewrite St. cbn [obind negb]. rewrite skipn_app_l. rewrite (years_read p y1 y2 o c r Y1 Y2). cbn [obind].
  destruct (Qle_bool (from p) year && qlt year (until p))%bool; [|reflexivity].
  set (pre := y1 ++ zs "," ++ y2 ++ zs ":").
  assert (Es : a ++ (y1 ++ zs "," ++ y2 ++ zs ":" ++ o ++ c) ++ r = (a ++ pre) ++ (o ++ c) ++ r) by (unfold pre; rewrite <- !app_assoc; reflexivity).
  rewrite Es. set (s := (a ++ pre) ++ (o ++ c) ++ r).
  assert (P58 : exists pre', a ++ pre = pre' ++ [58]) by (exists (a ++ y1 ++ zs "," ++ y2); unfold pre; rewrite <- !app_assoc; reflexivity).
  destruct P58 as (pre' & P58).
  assert (Off : exists k c0 w, scan_offset s (List.length a + List.length pre) (List.length pre) =
      Ret (match origin p with Some y => y | None => 2000%Q end, S (List.length w), k) /\ s = w ++ c0 :: c ++ r /\ c0 <> 59).
  { unfold scan_offset. rewrite <- app_length. destruct (origin p) as [y|].
    - destruct O as (n0 & N & ->). unfold s. change (zs "o") with [111]. change (zs ",") with [44]. rewrite <- !app_assoc. cbn [app].
      rewrite (app_assoc a pre). rewrite byte_last. cbn [obind]. change (111 =? 111) with true. cbv iota.
      replace (skipn (S (List.length (a ++ pre))) ((a ++ pre) ++ 111 :: n0 ++ 44 :: c ++ r)) with (n0 ++ 44 :: c ++ r).
      2:{ change ((a ++ pre) ++ 111 :: n0 ++ 44 :: c ++ r) with ((a ++ pre) ++ [111] ++ n0 ++ 44 :: c ++ r). rewrite app_assoc.
          replace (S (List.length (a ++ pre))) with (List.length ((a ++ pre) ++ [111])) by (rewrite (app_length (a ++ pre)); cbn; lia). now rewrite skipn_app_l. }
      rewrite (signed_scan n0 y (44 :: c ++ r) N) by (apply stop_end; now left). cbn [obind lit]. change (44 =? 44) with true. cbv iota zeta.
      eexists _, 44, ((a ++ pre) ++ 111 :: n0). split; [|split; [rewrite <- !app_assoc; reflexivity|lia]].
      f_equal. f_equal. f_equal. rewrite !app_length. cbn [List.length]. rewrite !app_length. lia.
    - subst o. unfold s. cbn [app]. destruct (coeffs_first _ _ C) as (h & u & -> & K). unfold sgn_char, num_char in K. cbn [app]. rewrite byte_last. cbn [obind].
      rewrite (proj2 (Z.eqb_neq h 111)) by lia. eexists _, 58, pre'. split; [|split; [rewrite P58, <- app_assoc; reflexivity|lia]].
      rewrite P58, app_length. cbn [List.length]. rewrite Nat.add_1_r. reflexivity. }
  destruct Off as (k & c0 & w & E & Ew & Hc0). rewrite E. cbn [obind]. fold (x_of year p). rewrite Ew.
  rewrite (coefficients_run _ _ C) by (try assumption; rewrite app_length; cbn [List.length]; rewrite app_length; lia). reflexivity.
Qed.

(** ---- from one formula to the next ---- *)
Lemma formula_chars p t : formula_read p t -> t <> [] /\ ~ In 59 t.
Proof.
  intros (a & b & o & c & A & B & C & O & ->). destruct A as (Na & Ca & _). destruct (signed_chars b _ B) as (Nb & Cb).
  assert (S : ~ sgn_char 59) by (unfold sgn_char, num_char; lia). split; [destruct a; [congruence|discriminate]|].
  assert (Cc : forall l t, coeffs_text l t -> ~ In 59 t).
  { clear - S. induction 1 as [t q H|t q l u H _ IH]; intro X; destruct (signed_chars t q H) as (_ & K).
    - exact (S (K 59 X)).
    - apply in_app_or in X. destruct X as [X|X]; [exact (S (K 59 X))|]. change (zs ",") with [44] in X. destruct X as [X|X]; [lia|exact (IH X)]. }
  change (zs ",") with [44]. change (zs ":") with [58]. intro X. apply in_app_or in X. destruct X as [X|X]; [exact (Ca X)|].
  cbn [app] in X. destruct X as [X|X]; [lia|]. apply in_app_or in X. destruct X as [X|X]; [exact (S (Cb 59 X))|].
  destruct X as [X|X]; [lia|]. apply in_app_or in X. destruct X as [X|X]; [|exact (Cc _ _ C X)].
  destruct (origin p) as [y|]; [|subst o; exact X]. destruct O as (n & N & ->). destruct (signed_chars n _ N) as (_ & K).
  change (zs "o") with [111] in X. change (zs ",") with [44] in X. destruct X as [X|X]; [lia|]. cbn [app] in X. apply in_app_or in X. destruct X as [X|[X|[]]]; [exact (S (K 59 X))|lia].
Qed.
(** positions that do not start a formula are passed over *)
Lemma search_skip t : ~ In 59 t -> forall a c r year m, c <> 59 ->
  search (List.length t + m) (a ++ c :: t ++ r) (S (List.length a)) year = search m (a ++ c :: t ++ r) (S (List.length a) + List.length t) year.
Proof.
  induction t as [|h t IH]; intros N a c r year m Hc; [cbn [List.length]; now rewrite Nat.add_0_r|].
  cbn [List.length Nat.add search]. change (S (List.length a) =? 0)%nat with false. cbv iota. rewrite Nat.sub_succ, Nat.sub_0_r, byte_last. cbn [obind].
  rewrite (proj2 (Z.eqb_neq c 59) Hc). cbn [negb].
  specialize (IH ltac:(intro; apply N; now right) (a ++ [c]) h r year m ltac:(intro; apply N; left; congruence)).
  rewrite <- app_assoc in IH. cbn [app] in IH. rewrite app_length in IH. cbn [List.length] in IH. rewrite Nat.add_1_r in IH. cbn [app]. rewrite IH. f_equal. lia.
Qed.
Lemma skip_rest p t a r year : formula_read p t ->
  search (List.length (t ++ r) - 1) (a ++ t ++ r) (S (List.length a)) year = search (List.length r) (a ++ t ++ r) (List.length (a ++ t)) year.
Proof.
  intros F. destruct (formula_chars p t F) as (N & I). destruct t as [|h t]; [congruence|]. cbn [app List.length]. rewrite Nat.sub_succ, Nat.sub_0_r, !app_length.
  assert (Hh : h <> 59) by (intros ->; apply I; now left). assert (It : ~ In 59 t) by (intro; apply I; now right).
  rewrite (search_skip t It) by assumption. f_equal. cbn [List.length]. lia.
Qed.
Lemma semi_step p t a u year : formula_read p t ->
  search (List.length (59 :: u)) (a ++ t ++ 59 :: u) (List.length (a ++ t)) year = search (List.length u) ((a ++ t ++ [59]) ++ u) (List.length (a ++ t ++ [59])) year.
Proof.
  intros F. destruct (formula_chars p t F) as (N & I). destruct (exists_last N) as (w & z & E). cbn [List.length search].
  assert (z <> 59). { intros ->. apply I. rewrite E. apply in_or_app. right. now left. }
  rewrite E. rewrite (app_assoc a w [z]). replace (a ++ (w ++ [z]) ++ 59 :: u) with ((a ++ w) ++ z :: 59 :: u) by (rewrite <- !app_assoc; reflexivity).
  rewrite (app_length (a ++ w)). cbn [List.length].
  replace ((List.length (a ++ w) + 1 =? 0)%nat) with false by (symmetry; apply Nat.eqb_neq; lia). rewrite Nat.add_sub, byte_last. cbn [obind].
  rewrite (proj2 (Z.eqb_neq z 59)) by assumption. cbn [negb]. f_equal; [rewrite <- !app_assoc; reflexivity|]. rewrite !app_length. cbn. rewrite ?app_length. cbn. lia.
Qed.

(** the first formula that holds for the year *)
Definition coversb (year : Q) (p : formula) : bool := (Qle_bool (from p) year && qlt year (until p))%bool.
Lemma formulae_run ps s : formulae_read ps s -> forall a tl year, (tl = [] \/ tl = [59]) -> (a = [] \/ exists u, a = u ++ [59]) ->
  search (List.length (s ++ tl)) (a ++ s ++ tl) (List.length a) year =
    Ret (match find (coversb year) ps with Some p => Some (added (coeffs p) (x_of year p) 1 0) | None => None end).
Proof.
  induction 1 as [p t F|p t ps u F _ IH]; intros a tl year Ht Ha; cbn [find].
  - assert (Dn : done_at tl) by (destruct Ht as [->| ->]; [now left|right; now exists []]). destruct (formula_chars p t F) as (N & _).
    rewrite (formula_run p t F) by (assumption || (rewrite app_length; destruct t; [congruence|cbn; lia])). fold (coversb year p). destruct (coversb year p); [reflexivity|].
    rewrite (skip_rest p) by assumption. destruct Ht as [->| ->]; [reflexivity|]. rewrite (semi_step p) by assumption. reflexivity.
  - destruct (formula_chars p t F) as (N & _). change (zs ";") with [59]. rewrite <- !app_assoc. cbn [app].
    rewrite (formula_run p t F) by (assumption || (right; now eexists) || (rewrite app_length; destruct t; [congruence|cbn; lia])). fold (coversb year p). destruct (coversb year p); [reflexivity|].
    rewrite (skip_rest p) by assumption. rewrite (semi_step p) by assumption. apply IH; [assumption|]. right. exists (a ++ t). now rewrite <- app_assoc.
Qed.
Lemma string_run ps s tl year : formulae_read ps s -> (tl = [] \/ tl = [59]) ->
  evaluate_delta_t_string year (s ++ tl) = Ret (match find (coversb year) ps with Some p => Some (added (coeffs p) (x_of year p) 1 0) | None => None end).
Proof. intros F Ht. unfold evaluate_delta_t_string. exact (formulae_run ps s F [] tl year Ht (or_introl eq_refl)). Qed.
Lemma coversb_spec year p : coversb year p = true <-> covers year p.
Proof.
  unfold coversb, covers, qlt. rewrite andb_true_iff, negb_true_iff, Qle_bool_iff. split; intros (A & B); (split; [exact A|]).
  - apply Qnot_le_lt. intro C. apply Qle_bool_iff in C. congruence.
  - destruct (Qle_bool (until p) year) eqn:E; [|reflexivity]. apply Qle_bool_iff in E. exfalso. lra.
Qed.
