(** Proofs about extract_periodic_name( ) of com_file.cpp. *)
From Coq Require Import Lia List.
From Verif Require Import CBase CLemmas CStr ComModel ComSpec.
Import ListNotations.
Local Open Scope list_scope.
Local Open Scope Z_scope.

Lemma isdigit_ok c : isdigit c = true <-> a_digit c.
Proof. unfold isdigit, a_digit. destruct (Z.leb_spec 48 c), (Z.leb_spec c 57); cbn; split; intro; try discriminate; try reflexivity; lia. Qed.
Lemma isupper_ok c : isupper c = true <-> a_capital c.
Proof. unfold isupper, a_capital. destruct (Z.leb_spec 65 c), (Z.leb_spec c 90); cbn; split; intro; try discriminate; try reflexivity; lia. Qed.
Lemma prefix_app p : forall s, prefix p s = true <-> exists v, s = p ++ v.
Proof.
  induction p as [|c p IH]; intro s; [cbn; split; [intros _; now exists s|reflexivity]|]. destruct s as [|d s]; cbn [prefix]; [split; [discriminate|intros (v & V); discriminate]|].
  destruct (Z.eqb_spec c d) as [->|N]; cbn [andb]; [|split; [discriminate|intros (v & V); injection V as V1 V2; congruence]]. rewrite IH. split; intros (v & V); exists v; [now rewrite V|now injection V].
Qed.
Lemma strstr_some s p : forall n, strstr s p = Some n -> exists v, s = firstn n s ++ p ++ v.
Proof.
  induction s as [|c s IH]; intros n H; cbn [strstr] in H; destruct (prefix p _) eqn:E.
  - injection H as <-. apply prefix_app in E. destruct E as (v & E). exists v. exact E.
  - discriminate.
  - injection H as <-. apply prefix_app in E. destruct E as (v & E). exists v. exact E.
  - destruct (strstr s p) as [k|]; [|discriminate]. injection H as <-. destruct (IH k eq_refl) as (v & V). exists v. cbn [firstn app]. now rewrite <- V.
Qed.
Lemma strstr_le p v : forall u, exists n, strstr (u ++ p ++ v) p = Some n /\ (n <= length u)%nat.
Proof.
  induction u as [|c u (n & E & H)]; cbn [app].
  - exists O. split; [|cbn; lia]. assert (X : prefix p (p ++ v) = true) by (apply prefix_app; now exists v). destruct (p ++ v) eqn:E; cbn [strstr]; rewrite X; reflexivity.
  - cbn [strstr]. destruct (prefix p (c :: u ++ p ++ v)); [exists O; split; [reflexivity|lia]|]. rewrite E. exists (S n). split; [reflexivity|cbn [length]; lia].
Qed.
Lemma strstr_first s p u v : p <> [] -> s = u ++ p ++ v -> (forall x y, s = x ++ p ++ y -> (length u <= length x)%nat) -> strstr s p = Some (length u).
Proof.
  intros N E F. destruct (strstr_le p v u) as (n & S & L). rewrite <- E in S. rewrite S. f_equal. destruct (strstr_some _ _ _ S) as (w & W). apply F in W. rewrite firstn_length in W. lia.
Qed.
Lemma strstr_no s p : (forall u v, s <> u ++ p ++ v) -> strstr s p = None.
Proof. intro H. destruct (strstr s p) as [n|] eqn:E; [|reflexivity]. destruct (strstr_some _ _ _ E) as (v & V). now apply H in V. Qed.

Lemma back_ok a d r : ~ In 40 d -> forall k, (k <= length d)%nat -> back (a ++ 40 :: d ++ r) (length a + k) = length a.
Proof.
  intros N. induction k as [|k IH]; intro L.
  - rewrite Nat.add_0_r. destruct (length a) as [|n] eqn:E; [reflexivity|]. cbn [back]. rewrite <- E. rewrite app_nth2 by lia. rewrite Nat.sub_diag. reflexivity.
  - rewrite Nat.add_succ_r. cbn [back]. rewrite app_nth2 by lia. replace (S (length a + k) - length a)%nat with (S k) by lia. cbn [nth]. rewrite app_nth1 by lia.
    destruct (Z.eqb_spec (nth k d 0) 40) as [X|X]; [exfalso; apply N; rewrite <- X; apply nth_In; lia|]. apply IH. lia.
Qed.
Lemma permanent_ok s a d b : numbered s a d b -> permanent s = Some (d ++ [80]).
Proof.
  intros (E & N & F). unfold permanent. change (zs _) with [80; 41]. assert (E' : s = (a ++ [40] ++ d) ++ [80; 41] ++ b) by (rewrite E, <- !app_assoc; reflexivity).
  rewrite (strstr_first s [80; 41] (a ++ [40] ++ d) b) by (assumption || discriminate). cbv zeta. assert (NP : ~ In 40 (d ++ [80])). { intro I. apply in_app_or in I. destruct I as [I|[I|[]]]; [auto|discriminate]. }
  assert (E2 : s = a ++ 40 :: (d ++ [80]) ++ 41 :: b) by (rewrite E; cbn [app]; rewrite <- app_assoc; reflexivity).
  assert (B : back s (length (a ++ [40] ++ d)) = length a). { rewrite E2. replace (length (a ++ [40] ++ d)) with (length a + (1 + length d))%nat by (rewrite !app_length; reflexivity). apply back_ok; [assumption|rewrite app_length; cbn; lia]. }
  rewrite B. rewrite E2 at 1. rewrite app_nth2, Nat.sub_diag by lia. cbn [nth Z.eqb Pos.eqb]. f_equal. rewrite E2. replace (a ++ 40 :: (d ++ [80]) ++ 41 :: b) with ((a ++ [40]) ++ (d ++ [80]) ++ 41 :: b) by (rewrite <- app_assoc; reflexivity).
  replace (length a + 1)%nat with (length (a ++ [40])) by (rewrite app_length; reflexivity). rewrite skipn_app, skipn_all, Nat.sub_diag. cbn [app skipn]. replace (length (a ++ 40%Z :: d) - length a)%nat with (length (d ++ [80])) by (rewrite !app_length; cbn; lia).
  now rewrite firstn_app, Nat.sub_diag, firstn_all, firstn_O, app_nil_r.
Qed.
Lemma permanent_none s : no_number s -> permanent s = None.
Proof. intro H. unfold permanent. change (zs _) with [80; 41]. now rewrite strstr_no. Qed.

Lemma takes_app f x y : Forall (fun c => f c = true) x -> not_first (fun c => f c = true) y -> takes f (x ++ y) = x.
Proof. intros F N. induction F as [|c x E F IH]; cbn [app takes]; [destruct y as [|c y]; [reflexivity|]; cbn in *; destruct (f c); congruence|]. now rewrite E, IH. Qed.
Lemma skips_app f x y : Forall (fun c => f c = true) x -> not_first (fun c => f c = true) y -> skips f (x ++ y) = y.
Proof. intros F N. induction F as [|c x E F IH]; cbn [app skips]; [destruct y as [|c y]; [reflexivity|]; cbn in *; destruct (f c); congruence|]. now rewrite E, IH. Qed.
Lemma digits_f x : Forall a_digit x -> Forall (fun c => isdigit c = true) x.
Proof. apply Forall_impl. intro c. apply isdigit_ok. Qed.
Lemma capitals_f x : Forall a_capital x -> Forall (fun c => isupper c = true) x.
Proof. apply Forall_impl. intro c. apply isupper_ok. Qed.
Lemma head_of (P : Z -> Prop) (f : Z -> Prop) x y : x <> [] -> Forall P x -> (forall c, P c -> ~ f c) -> not_first f (x ++ y).
Proof. intros N F H. destruct F as [|c x E F]; [congruence|]. cbn. auto. Qed.
Lemma blanks n : Forall (fun c => (32 =? c) = true) (repeat 32 n). Proof. induction n; constructor; [reflexivity|assumption]. Qed.

(** Everything behind the letter. *)
Lemma rest_ok year n id sub frag b : (exists y0 ys, year = y0 :: ys /\ 49 <= y0 <= 57) -> Forall a_digit year -> id <> [] -> Forall a_capital id -> sub <> [] -> Forall a_digit sub ->
  ((frag = [] /\ not_first (fun x => a_digit x \/ x = 45) b) \/ (exists f, frag = 45 :: f /\ Forall a_capital f /\ not_first a_capital b)) ->
  year_and_rest (year ++ repeat 32 n ++ id ++ sub ++ frag ++ b) = year ++ [32] ++ id ++ sub ++ frag.
Proof.
  intros (y0 & ys & EY & BY) FY NI FI NS FS FR. unfold year_and_rest. cbv zeta.
  assert (S0 : skips (Z.eqb 32) (year ++ repeat 32 n ++ id ++ sub ++ frag ++ b) = year ++ repeat 32 n ++ id ++ sub ++ frag ++ b). { rewrite EY. cbn [app skips]. destruct (Z.eqb_spec 32 y0); [lia|reflexivity]. }
  rewrite S0. assert (H1 : not_first (fun c => isdigit c = true) (repeat 32 n ++ id ++ sub ++ frag ++ b)).
  { destruct n; cbn [repeat app]; [|discriminate]. apply (head_of a_capital); try assumption. intros c C D. apply isdigit_ok in D. unfold a_capital, a_digit in *. lia. }
  rewrite takes_app, skips_app by (try assumption; now apply digits_f).
  rewrite skips_app; [|apply blanks|]. 2:{ apply (head_of a_capital); try assumption. intros c C D. apply Z.eqb_eq in D. unfold a_capital in *. lia. }
  assert (H2 : not_first (fun c => isupper c = true) (sub ++ frag ++ b)). { apply (head_of a_digit); try assumption. intros c C D. apply isupper_ok in D. unfold a_capital, a_digit in *. lia. }
  rewrite takes_app, skips_app by (try assumption; now apply capitals_f).
  assert (H3 : not_first (fun c => isdigit c = true) (frag ++ b)).
  { destruct FR as [[-> B]|(f & -> & F & B)]; [|cbn; discriminate]. cbn [app]. destruct b as [|c b]; [exact I|]. cbn in *. intro X. apply isdigit_ok in X. tauto. }
  rewrite takes_app, skips_app by (try assumption; now apply digits_f). do 4 f_equal.
  destruct FR as [[-> B]|(f & -> & F & B)]; cbn [app].
  - destruct b as [|c b]; [reflexivity|]. cbn in B. assert (c <> 45) by tauto. destruct c as [|p|p]; try reflexivity. do 6 (destruct p as [p|p|]; try reflexivity; try congruence).
  - f_equal. apply takes_app; [now apply capitals_f|]. destruct b as [|c b]; [exact I|]. cbn in *. intro X. apply B. now apply isupper_ok.
Qed.

Definition here (c : Z) (r : list Z) : bool := ((c =? 80) || (c =? 67)) && (nth 0 r 0 =? 47) && ((49 <=? nth 1 r 0) && (nth 1 r 0 <=? 57)).
Lemma here_ok c r : here c r = true <-> exists d v, r = 47 :: d :: v /\ (c = 80 \/ c = 67) /\ 49 <= d <= 57.
Proof.
  unfold here. split.
  - intro H. apply andb_prop in H. destruct H as [H H3]. apply andb_prop in H. destruct H as [H1 H2]. apply Z.eqb_eq in H2. apply andb_prop in H3. destruct H3 as [H3 H4]. apply Z.leb_le in H3, H4.
    destruct r as [|x [|d v]]; cbn in *; try lia. subst x. exists d, v. split; [reflexivity|]. split; [|lia]. apply orb_prop in H1. destruct H1 as [H1|H1]; apply Z.eqb_eq in H1; auto.
  - intros (d & v & -> & C & D). cbn. destruct (Z.leb_spec 49 d); [|lia]. destruct (Z.leb_spec d 57); [|lia]. destruct C as [-> | ->]; reflexivity.
Qed.
Lemma starts_here c r : here c r = true <-> starts_at (c :: r) [].
Proof.
  rewrite here_ok. split.
  - intros (d & v & -> & C & D). exists c, d, v. auto.
  - intros (c' & d & v & E & C & D). cbn in E. injection E as -> ->. exists d, v. auto.
Qed.
Lemma starts_cons s u c : starts_at s u -> starts_at (c :: s) (c :: u).
Proof. intros (x & d & v & -> & C & D). exists x, d, v. auto. Qed.
Lemma provisional_first a c t : (c = 80 \/ c = 67) -> (exists d v, t = d :: v /\ 49 <= d <= 57) -> (forall u, starts_at (a ++ [c; 47] ++ t) u -> (length a <= length u)%nat) ->
  provisional (a ++ [c; 47] ++ t) = Some (c :: 47 :: year_and_rest t).
Proof.
  intros C (d & v & -> & D). induction a as [|x a IH]; intro F; cbn [app provisional].
  - fold (here c (47 :: d :: v)). assert (X : here c (47 :: d :: v) = true) by (apply here_ok; exists d, v; auto). now rewrite X.
  - fold (here x (a ++ c :: 47 :: d :: v)). destruct (here x (a ++ c :: 47 :: d :: v)) eqn:X; [apply starts_here, F in X; cbn in X; lia|].
    apply IH. intros u U. apply (starts_cons _ _ x), F in U. cbn [length] in U. lia.
Qed.
Lemma provisional_none s : no_letter s -> provisional s = None.
Proof.
  induction s as [|c s IH]; intro H; [reflexivity|]. cbn [provisional]. fold (here c s). destruct (here c s) eqn:X; [apply starts_here, H in X; destruct X|]. apply IH. intros u U. apply (H (c :: u)). now apply starts_cons.
Qed.

(** Lengths. *)
Lemma takes_skips f s : takes f s ++ skips f s = s.
Proof. induction s as [|c s IH]; [reflexivity|]. cbn. destruct (f c); [cbn; now rewrite IH|reflexivity]. Qed.
Lemma takes_skips_len f s : length s = (length (takes f s) + length (skips f s))%nat.
Proof. rewrite <- (takes_skips f s) at 1. apply app_length. Qed.
Lemma rest_len t : (length (year_and_rest t) <= length t + 1)%nat.
Proof.
  unfold year_and_rest. cbv zeta. rewrite !app_length. cbn [length].
  pose proof (takes_skips_len (Z.eqb 32) t) as L0. set (t1 := skips (Z.eqb 32) t) in *. pose proof (takes_skips_len isdigit t1) as L1. set (t2 := skips isdigit t1) in *.
  pose proof (takes_skips_len (Z.eqb 32) t2) as L2. set (t3 := skips (Z.eqb 32) t2) in *. pose proof (takes_skips_len isupper t3) as L3. set (t4 := skips isupper t3) in *.
  pose proof (takes_skips_len isdigit t4) as L4. set (t5 := skips isdigit t4) in *. clearbody t5 t4 t3 t2 t1.
  assert (L5 : (length (match t5 with 45%Z :: loc' => 45%Z :: takes isupper loc' | _ => [] end) <= length t5)%nat).
  { destruct t5 as [|c t5]; [cbn; lia|]. destruct (Z.eq_dec c 45) as [->|N]; [cbn; pose proof (takes_skips_len isupper t5); lia|].
    assert (X : match c with 45 => 45 :: takes isupper t5 | _ => [] end = []) by (destruct c as [|p|p]; try reflexivity; do 6 (destruct p as [p|p|]; try reflexivity; try congruence)). rewrite X. cbn. lia. }
  lia.
Qed.
Lemma back_le s i : (back s i <= i)%nat. Proof. induction i as [|i IH]; [reflexivity|]. cbn [back]. destruct (_ =? _); lia. Qed.
Lemma provisional_len s : forall t, provisional s = Some t -> (length t <= length s + 1)%nat.
Proof.
  induction s as [|c s IH]; intros t H; cbn [provisional] in H; [discriminate|]. fold (here c s) in H. destruct (here c s) eqn:X.
  - injection H as <-. apply here_ok in X. destruct X as (d & v & -> & _). cbn [skipn length]. pose proof (rest_len (d :: v)). cbn [length] in *. lia.
  - apply IH in H. cbn. lia.
Qed.
Lemma bare_len s : forall t, bare s = Ret (Some t) -> (length t <= length s)%nat.
Proof.
  induction s as [|c s IH]; intros t H; cbn [bare] in H; [discriminate|]. destruct (c =? 40).
  - destruct (atoi s) as [y| | |]; try discriminate. cbn [obind] in H. destruct (_ && _); [|apply IH in H; cbn; lia]. injection H as <-. pose proof (takes_skips_len (fun x => negb (x =? 41)) s). cbn. lia.
  - apply IH in H. cbn. lia.
Qed.

(** A year in parentheses. *)
Lemma year_atoi y v t : year_of y v -> 1000 < v < 2300 -> not_first a_digit t -> atoi (y ++ t) = Ret v.
Proof.
  intros (d1 & d2 & d3 & d4 & -> & B1 & B2 & B3 & B4 & V) H N. unfold atoi. assert (G : forall d, 0 <= d <= 9 -> isdigit (48 + d) = true) by (intros; apply isdigit_ok; unfold a_digit; lia).
  assert (S : span isspace ([48 + d1; 48 + d2; 48 + d3; 48 + d4] ++ t) = O). { cbn [app span]. unfold isspace. destruct (Z.eqb_spec (48 + d1) 32); [lia|]. destruct (Z.leb_spec 9 (48 + d1)); [|lia]. destruct (Z.leb_spec (48 + d1) 13); [lia|]. reflexivity. }
  rewrite S. cbn [skipn app].
  assert (D : dig_val 0 (48 + d1 :: 48 + d2 :: 48 + d3 :: 48 + d4 :: t) = v). { cbn [dig_val]. rewrite !G by assumption. destruct t as [|c t]; cbn [dig_val]; [lia|]. cbn in N. destruct (isdigit c) eqn:E; [apply isdigit_ok in E; contradiction|]. lia. }
  assert (K : chk IMAX v = Ret v) by (apply chk_ok; unfold fits, IMAX; lia).
  assert (C : d1 = 1 \/ d1 = 2) by lia. destruct C as [-> | ->]; cbn [Z.add Pos.add Pos.succ] in *; rewrite D; exact K.
Qed.
Lemma bare_ok a y v t b : ~ In 40 a -> year_of y v -> 1000 < v < 2300 -> not_first a_digit (t ++ [41]) -> ~ In 41 t -> bare (a ++ [40] ++ y ++ t ++ [41] ++ b) = Ret (Some (y ++ t)).
Proof.
  intros NA Y V NT N41. induction a as [|c a IH]; cbn [app bare].
  - cbn [Z.eqb Pos.eqb]. rewrite (year_atoi y v) by (try assumption; destruct t; exact NT). cbn [obind]. destruct (Z.ltb_spec 1000 v); [|lia]. destruct (Z.ltb_spec v 2300); [|lia]. cbn [andb]. do 2 f_equal.
    change (41 :: b) with ([41] ++ b). rewrite app_assoc. apply takes_app; [|cbn; discriminate]. apply Forall_app. split; [|apply Forall_forall; intros x X; destruct (Z.eqb_spec x 41) as [->|]; [contradiction|reflexivity]].
    destruct Y as (d1 & d2 & d3 & d4 & -> & B1 & B2 & B3 & B4 & _). repeat (constructor; [cbv beta; match goal with |- negb (?x =? 41) = true => destruct (Z.eqb_spec x 41); [lia|reflexivity] end|]). constructor.
  - destruct (Z.eqb_spec c 40) as [->|_]; [exfalso; apply NA; now left|]. apply IH. intro I. apply NA. now right.
Qed.
Lemma bare_none s : ~ In 40 s -> bare s = Ret None.
Proof. induction s as [|c s IH]; intro H; [reflexivity|]. cbn [bare]. destruct (Z.eqb_spec c 40) as [->|_]; [exfalso; apply H; now left|]. apply IH. intro I. apply H. now right. Qed.
