(** Proofs about delta_t.cpp: the default formulae and the table. *)
From Coq Require Import QArith Qround Qabs Lia Lqa.
From Coq Require Import String.
From Verif Require Import CBase CLemmas CStr DateModel TimeModel TstrModel TstrSpec TstrNum DtModel DtSpec DtProofs.
Local Open Scope string_scope.
Local Open Scope list_scope.
Local Open Scope Z_scope.

(** ---- the default string ---- *)
Definition default_formulae : list formula := map (fun '(a, b, o, l) => Build_formula a b (Some o) l) past_formulae.
Ltac digits_ok := let c := fresh "c" in let I := fresh "I" in intros c I; cbn in I; repeat (destruct I as [<-|I]; [reflexivity|]); destruct I.
Ltac whole_number := left; eexists; split; [split; [discriminate|split; [digits_ok|vm_compute; reflexivity]]|vm_compute; reflexivity].
Ltac point_number k := match goal with |- number_of ?s _ => right; exists (firstn k s), (skipn (S k) s) end; eexists; split; [digits_ok|]; split; [discriminate|]; split; [reflexivity|]; split; vm_compute; reflexivity.
Ltac a_number := first [whole_number | point_number 0%nat | point_number 1%nat | point_number 2%nat | point_number 3%nat | point_number 4%nat | point_number 5%nat].
Ltac a_signed := first [left; a_number | match goal with |- signed_number ?s ?q => right; right; exists (tl s), (- q)%Q end; split; [reflexivity|]; split; [a_number|vm_compute; reflexivity]].
Fixpoint upto (c : Z) (s : list Z) : list Z := match s with [] => [] | d :: r => if d =? c then [] else d :: upto c r end.
Fixpoint after (c : Z) (s : list Z) : list Z := match s with [] => [] | d :: r => if d =? c then r else after c r end.
Ltac coeffs_ok := match goal with
  | |- coeffs_text [_] _ => apply coeffs_one; a_signed
  | |- coeffs_text (_ :: _) ?s => let a := eval vm_compute in (upto 44 s) in let b := eval vm_compute in (after 44 s) in
      change (coeffs_text) with coeffs_text; replace s with (a ++ zs "," ++ b) by reflexivity; apply coeffs_more; [a_signed|coeffs_ok] end.
Ltac formula_ok rd := match goal with |- formula_read _ ?s =>
  let a := eval vm_compute in (upto 44 s) in let b := eval vm_compute in (upto 58 (after 44 s)) in
  let o := eval vm_compute in (upto 44 (after 111 s)) in let c := eval vm_compute in (after 44 (after 111 s)) in
  exists a, b, (zs "o" ++ o ++ zs ","), c; split; [rd|]; split; [a_signed|]; split; [cbn [coeffs]; coeffs_ok|]; split; [exists o; split; [a_signed|reflexivity]|reflexivity] end.
Lemma first_readable : readable (zs "-1e+308") (- inject_Z (10 ^ 308)).
Proof.
  split; [discriminate|]. split; [intro I; cbn in I; repeat (destruct I as [I|I]; [discriminate|]); destruct I|].
  intro r. vm_compute. reflexivity.
Qed.
Lemma default_read : formulae_read default_formulae default_delta_t_string.
Proof.
  unfold default_delta_t_string.
  change (formulae_read default_formulae ((zs "-1e+308,-500:o1820,-20,0,32") ++ zs ";" ++
    zs "-500,500:o0,10583.6,-1014.41,33.78311,-5.952053,-.1798452,.022174192,.0090316521" ++ zs ";" ++
    zs "500,1600:o1000,1574.2,-556.01,71.23472,.319781,-.8503463,-.005050998,.0083572073" ++ zs ";" ++
    zs "1600,1620:o1600,120,-98.08,-153.2,140.272")).
  apply read_more; [|apply read_more; [|apply read_more; [|apply read_one]]].
  - formula_ok ltac:(exact first_readable).
  - formula_ok ltac:(apply signed_readable; a_signed).
  - formula_ok ltac:(apply signed_readable; a_signed).
  - formula_ok ltac:(apply signed_readable; a_signed).
Qed.

(** ---- what is found for which year ---- *)
Lemma qlt_spec a b : qlt a b = true <-> (a < b)%Q.
Proof.
  unfold qlt. rewrite negb_true_iff. split; intro H.
  - apply Qnot_le_lt. intro C. apply Qle_bool_iff in C. congruence.
  - destruct (Qle_bool b a) eqn:E; [|reflexivity]. apply Qle_bool_iff in E. exfalso. lra.
Qed.
Lemma qlt_false a b : qlt a b = false <-> (b <= a)%Q.
Proof. destruct (qlt a b) eqn:E; [apply qlt_spec in E|unfold qlt in E; rewrite negb_false_iff, Qle_bool_iff in E]; split; intro; (discriminate || lra || reflexivity || assumption). Qed.
Lemma default_eval year : evaluate_delta_t_string year default_delta_t_string =
  Ret (match find (coversb year) default_formulae with Some p => Some (added (coeffs p) (x_of year p) 1 0) | None => None end).
Proof. pose proof (string_run default_formulae default_delta_t_string [] year default_read (or_introl eq_refl)) as H. now rewrite app_nil_r in H. Qed.
Lemma huge : (1000 <= inject_Z (10 ^ 308))%Q.
Proof. unfold Qle. cbn [Qnum Qden inject_Z]. apply Z.leb_le. vm_compute. reflexivity. Qed.
Lemma covers_iff year p : coversb year p = false <-> ~ covers year p.
Proof. rewrite <- coversb_spec. destruct (coversb year p); split; congruence. Qed.
Lemma default_none year : (1620 <= year)%Q -> evaluate_delta_t_string year default_delta_t_string = Ret None.
Proof.
  intro H. rewrite default_eval. f_equal. unfold default_formulae, past_formulae. cbn [map find].
  repeat match goal with |- context [coversb year ?p] => let E := fresh in destruct (coversb year p) eqn:E; [apply coversb_spec in E; unfold covers in E; cbn [from until] in E; exfalso; lra|]; clear E end. reflexivity.
Qed.
Lemma default_past year a b o l : In (a, b, o, l) past_formulae -> (a <= year)%Q -> (year < b)%Q ->
  (year < 1620)%Q /\ exists v, evaluate_delta_t_string year default_delta_t_string = Ret (Some v) /\ (v == poly l ((year - o) / 100))%Q.
Proof.
  intros I A B. pose proof huge as Hg. unfold past_formulae in I.
  assert (Y : (year < 1620)%Q) by (cbn [In] in I; repeat (destruct I as [I|I]; [injection I as <- <- <- <-; lra|]); destruct I).
  split; [exact Y|].
  assert (E : exists p, find (coversb year) default_formulae = Some p /\ p = Build_formula a b (Some o) l).
  { unfold default_formulae, past_formulae. cbn [map]. revert I Hg. generalize (inject_Z (10 ^ 308)). intros M I Hg. cbn [In] in I.
    destruct I as [I|[I|[I|[I|[]]]]]; injection I as <- <- <- <-; cbn [find];
    repeat match goal with |- exists p, (if coversb year ?f then _ else _) = _ /\ _ = ?f => rewrite (proj2 (coversb_spec year f)) by (split; cbn [from until]; lra); eexists; split; reflexivity
      | |- exists p, (if coversb year ?f then _ else _) = _ /\ _ => rewrite (proj2 (covers_iff year f)) by (unfold covers; cbn [from until]; lra) end. }
  destruct E as (p & E & ->). rewrite default_eval, E. eexists. split; [reflexivity|]. cbn [coeffs]. rewrite added_poly. unfold x_of. cbn [origin]. ring.
Qed.

(** ---- the table ---- *)
Definition rows_agree : bool :=
  forallb (fun '(first, values) => (Z.even first && (1620 <=? first) && (if list_eq_dec Z.eq_dec (firstn (List.length values) (skipn (Z.to_nat ((first - 1620) / 2)) delta_t_table)) values then true else false))%bool) rows.
Lemma nth_firstn {A} (l : list A) : forall n j, (j < n)%nat -> nth_error (firstn n l) j = nth_error l j.
Proof. induction l as [|x l IH]; intros [|n] j H; try lia; [now destruct j|]. destruct j as [|j]; [reflexivity|]. cbn. apply IH. lia. Qed.
Lemma observed_at y v : observed y v -> exists k, nth_error delta_t_table k = Some v /\ y = 1620 + 2 * Z.of_nat k.
Proof.
  intros (first & values & j & I & N & ->). assert (A : rows_agree = true) by (vm_compute; reflexivity). unfold rows_agree in A. rewrite forallb_forall in A.
  specialize (A _ I). cbv beta iota in A. destruct (list_eq_dec _ _ _) as [E|]; [|rewrite andb_false_r in A; discriminate]. rewrite andb_true_r, andb_true_iff, Z.leb_le in A. destruct A as (Ev & A).
  set (i := Z.to_nat ((first - 1620) / 2)) in *. exists (i + j)%nat. split.
  - assert (J : (j < List.length values)%nat) by (apply nth_error_Some; congruence). rewrite <- E in N. rewrite nth_firstn in N by assumption.
    rewrite <- N. clear. clearbody i. revert i. induction delta_t_table as [|x l IH]; intros [|i]; cbn; try reflexivity; [now destruct j|apply IH].
  - apply Z.even_spec in Ev. destruct Ev as (m & ->). unfold i. replace (2 * m - 1620) with ((m - 810) * 2) by lia. rewrite Z.div_mul by lia. lia.
Qed.

Lemma trunc_at q k : (inject_Z k <= q)%Q -> (q < inject_Z k + 1)%Q -> 0 <= k -> trunc q = k.
Proof.
  intros A B K. unfold trunc. destruct q as [n d]. cbn [Qnum Qden]. unfold Qle, Qlt in *. cbn [Qnum Qden inject_Z Qplus] in *.
  symmetry. apply (Z.quot_unique n (Z.pos d) k (n - Z.pos d * k)); lia.
Qed.
Lemma year_lin jd : (year_of jd == 2000 + (jd - 2451545) * (100 # 36525))%Q.
Proof. unfold year_of. unfold Qdiv. change (/ (36525 # 100))%Q with (100 # 36525). reflexivity. Qed.
Lemma half q : (q / 2 == q * (1 # 2))%Q.
Proof. reflexivity. Qed.
Definition value_at (k : nat) : Z := nth k delta_t_table 0.
Lemma nth_value l k v : nth_error l k = Some v -> nth k l 0 = v.
Proof. intro H. exact (nth_error_nth l k 0 H). Qed.
Lemma table_size : List.length delta_t_table = 203%nat.
Proof. vm_compute. reflexivity. Qed.
Lemma table_read k : 0 <= k < 203 -> nth_ub delta_t_table k = Ret (value_at (Z.to_nat k)).
Proof. intro H. apply nth_ub_ok. rewrite table_size. exact H. Qed.
(** between two entries *)
Lemma table_between k jd : (k <= 201)%nat -> let u := ((year_of jd - 1620) / 2)%Q in (inject_Z (Z.of_nat k) <= u)%Q -> (u <= inject_Z (Z.of_nat k) + 1)%Q ->
  exists r, from_table (year_of jd) jd = Ret r /\ (r == (inject_Z (value_at k) + inject_Z (value_at (S k) - value_at k) * (u - inject_Z (Z.of_nat k))) / 100)%Q.
Proof.
  intros K u A B. unfold from_table. fold u. rewrite table_size.
  assert (Hj : qlt 30000000 jd = false). { apply qlt_false. pose proof (year_lin jd) as Y. unfold u in B. rewrite half in B. assert (inject_Z (Z.of_nat k) <= 201)%Q by (change 201%Q with (inject_Z 201); rewrite <- Zle_Qle; lia). lra. }
  rewrite Hj.
  destruct (Qlt_le_dec u (inject_Z (Z.of_nat k) + 1)) as [L|L].
  - unfold to_integer. rewrite (trunc_at u (Z.of_nat k) A L) by lia. unfold chk. replace (in_rng IMAX (Z.of_nat k)) with true by (symmetry; unfold in_rng, IMAX; rewrite andb_true_iff, !Z.leb_le; lia).
    cbn [obind]. replace (Z.of_nat 203 - 2 <? Z.of_nat k) with false by (symmetry; apply Z.ltb_ge; lia). cbn [orb]. cbv iota zeta.
    rewrite !table_read by lia. cbn [obind]. replace (qlt 1 (u - inject_Z (Z.of_nat k))) with false by (symmetry; apply qlt_false; lra).
    rewrite Nat2Z.id. replace (Z.to_nat (Z.of_nat k + 1)) with (S k) by lia. eexists. split; [reflexivity|reflexivity].
  - assert (E : (u == inject_Z (Z.of_nat (S k)))%Q). { rewrite Nat2Z.inj_succ. unfold Z.succ. rewrite inject_Z_plus. change (inject_Z 1) with 1%Q. lra. }
    assert (T : trunc u = Z.of_nat (S k)). { apply trunc_at; [|lra|lia]. rewrite E. apply Qle_refl. }
    unfold to_integer. rewrite T. unfold chk. replace (in_rng IMAX (Z.of_nat (S k))) with true by (symmetry; unfold in_rng, IMAX; rewrite andb_true_iff, !Z.leb_le; lia).
    cbn [obind]. destruct (Nat.eq_dec k 201) as [->|Ne].
    + change (Z.of_nat 203 - 2 <? Z.of_nat 202) with true. cbn [orb]. cbv iota zeta. change (Z.of_nat 203 - 2) with 201. rewrite !table_read by lia. cbn [obind].
      replace (qlt 1 (u - inject_Z 201)) with false by (symmetry; apply qlt_false; change (inject_Z (Z.of_nat 201)) with 201%Q in B; change (inject_Z 201) with 201%Q; lra).
      eexists. split; [reflexivity|]. reflexivity.
    + replace (Z.of_nat 203 - 2 <? Z.of_nat (S k)) with false by (symmetry; apply Z.ltb_ge; lia). cbn [orb]. cbv iota zeta. rewrite !table_read by lia. cbn [obind].
      replace (qlt 1 (u - inject_Z (Z.of_nat (S k)))) with false by (symmetry; apply qlt_false; lra).
      eexists. split; [reflexivity|]. rewrite Nat2Z.id. unfold Z.sub at 1 2. rewrite !inject_Z_plus, !inject_Z_opp.
      assert (E2 : (u == inject_Z (Z.of_nat k) + 1)%Q) by lra. setoid_replace (u - inject_Z (Z.of_nat (S k)))%Q with 0%Q by lra. setoid_replace (u - inject_Z (Z.of_nat k))%Q with 1%Q by lra. unfold Qdiv. ring.
Qed.
(** after the last *)
Lemma table_after jd : let u := ((year_of jd - 1620) / 2)%Q in (202 <= u)%Q -> (u < 2147483648)%Q ->
  exists r, from_table (year_of jd) jd = Ret r /\ (r == (6918 # 100) - (11 # 100) * ((year_of jd - 2024) / 2) + (325 # 10) * (((year_of jd - 2024) / 100) * ((year_of jd - 2024) / 100)))%Q.
Proof.
  intros u A B. unfold from_table. fold u. rewrite table_size.
  assert (T : 202 <= trunc u <= IMAX).
  { unfold trunc. destruct u as [n d]. cbn [Qnum Qden]. unfold Qle, Qlt in *. cbn in *. rewrite ?Z.mul_1_r, ?Pos.mul_1_r in *. rewrite Z.quot_div_nonneg by lia. split; [apply Z.div_le_lower_bound; lia|]. assert (n / Z.pos d < 2147483648) by (apply Z.div_lt_upper_bound; lia). unfold IMAX. lia. }
  unfold to_integer, chk. replace (in_rng IMAX (trunc u)) with true by (symmetry; unfold in_rng; rewrite andb_true_iff, !Z.leb_le; lia).
  cbn [obind]. replace (Z.of_nat 203 - 2 <? trunc u) with true by (symmetry; apply Z.ltb_lt; lia). cbn [orb]. cbv zeta. change (Z.of_nat 203 - 2) with 201. rewrite !table_read by lia. cbn [obind].
  change (value_at (Z.to_nat 201)) with 6929. change (value_at (Z.to_nat (201 + 1))) with 6918. change (inject_Z 201) with 201%Q.
  assert (U : (u == (year_of jd - 1620) / 2)%Q) by reflexivity.
  destruct (qlt 1 (u - 201)) eqn:Q.
  - eexists. split; [reflexivity|]. rewrite U. unfold Qdiv. change (inject_Z 6929) with 6929%Q. change (inject_Z (6918 - 6929)) with (- (11))%Q. change (/ 2)%Q with (1 # 2). change (/ 50)%Q with (1 # 50). change (/ 100)%Q with (1 # 100). ring.
  - apply qlt_false in Q. eexists. split; [reflexivity|]. assert (E : (year_of jd == 2024)%Q) by (rewrite half in U; lra). rewrite U, E. reflexivity.
Qed.
