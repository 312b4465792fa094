(** The stack of open tags is never left. *)
From Coq Require Import String Lia.
From Verif Require Import CBase CLemmas CStr AdesModel AdesSpec AdesProofs AdesXml.
Local Open Scope string_scope.
Local Open Scope list_scope.
Local Open Scope Z_scope.

(** Suffixes. *)
Definition suffix (t s : list Z) : Prop := exists a, s = a ++ t.
Lemma suffix_refl s : suffix s s.
Proof. exists []. reflexivity. Qed.
Lemma suffix_trans a b c : suffix a b -> suffix b c -> suffix a c.
Proof. intros [x ->] [y ->]. exists (y ++ x). apply app_assoc. Qed.
Lemma suffix_skipn n s : suffix (skipn n s) s.
Proof. exists (firstn n s). symmetry. apply firstn_skipn. Qed.
Lemma suffix_cons x s : suffix s (x :: s).
Proof. exists [x]. reflexivity. Qed.
Lemma suffix_len t s : suffix t s -> (List.length t <= List.length s)%nat.
Proof. intros [a ->]. rewrite app_length. lia. Qed.
Lemma suffix_occurs u t s : suffix t s -> occurs u t -> occurs u s.
Proof. intros [a ->] (x & y & ->). exists (a ++ x), y. rewrite <- app_assoc. reflexivity. Qed.
Lemma suffix_ws s : suffix (skip_whitespace s) s.
Proof. apply suffix_skipn. Qed.

Definition starts47 (r : list Z) : bool := match r with 47 :: _ => true | _ => false end.
Lemma match47 {A} (r : list Z) (a b : A) : match r with 47 :: _ => a | _ => b end = if starts47 r then a else b.
Proof. destruct r as [|[|p|p] r]; try reflexivity. do 6 (destruct p; try reflexivity). Qed.
Lemma opens_cons x r : opens (x :: r) = (if x =? 60 then if starts47 r then 0 else 1 else 0) + opens r.
Proof. destruct (Z.eqb_spec x 60) as [->|N]; [cbn [opens]; rewrite match47; reflexivity|]. cbn. destruct x as [|p|p]; try reflexivity. do 6 (destruct p; try reflexivity). congruence. Qed.
Lemma closes_cons x r : closes (x :: r) = (if x =? 60 then if starts47 r then 1 else 0 else 0) + closes r.
Proof. destruct (Z.eqb_spec x 60) as [->|N]; [cbn [closes]; rewrite match47; reflexivity|]. cbn. destruct x as [|p|p]; try reflexivity. do 6 (destruct p; try reflexivity). congruence. Qed.
Lemma opens_nonneg s : 0 <= opens s.
Proof. induction s as [|x r IH]; [cbn; lia|]. rewrite opens_cons. destruct (x =? 60), (starts47 r); lia. Qed.
Lemma closes_nonneg s : 0 <= closes s.
Proof. induction s as [|x r IH]; [cbn; lia|]. rewrite closes_cons. destruct (x =? 60), (starts47 r); lia. Qed.
Lemma suffix_opens t s : suffix t s -> opens t <= opens s.
Proof. intros [a ->]. induction a as [|x a IH]; cbn [app]; [lia|]. rewrite opens_cons. destruct (x =? 60), (starts47 (a ++ t)); lia. Qed.
Lemma suffix_closes t s : suffix t s -> closes t <= closes s.
Proof. intros [a ->]. induction a as [|x a IH]; cbn [app]; [lia|]. rewrite closes_cons. destruct (x =? 60), (starts47 (a ++ t)); lia. Qed.
Lemma suffix_printable t s : suffix t s -> printable s -> printable t.
Proof. intros [a ->] H. apply Forall_app in H. apply H. Qed.

(** If a tag has the number of mpcCode, it is there. *)
Lemma memeq_prefix : forall n a b, memeq a b n = true -> List.length a = n -> exists r, b = a ++ r.
Proof.
  induction n as [|n IH]; intros a b H L.
  - destruct a; [exists b; reflexivity|discriminate].
  - destruct a as [|x a]; [discriminate|]. destruct b as [|y b]; [discriminate|]. cbn in H, L. apply andb_true_iff in H. destruct H as [E H]. apply Z.eqb_eq in E. subst y.
    destruct (IH a b H ltac:(lia)) as [r ->]. exists r. reflexivity.
Qed.
Lemma find_loop_spec buff len : forall table i k, find_loop table i buff len = k -> 0 <= i ->
  k = -1 \/ exists t r, nth_error table (Z.to_nat (k - 1 - i)) = Some t /\ i < k /\ buff = t ++ r.
Proof.
  induction table as [|t table IH]; intros i k H Hi; cbn in H; [auto|].
  destruct (memeq t buff len && Nat.eqb (List.length t) len) eqn:E.
  - apply andb_true_iff in E. destruct E as [E L]. apply Nat.eqb_eq in L. destruct (memeq_prefix _ _ _ E L) as [r ->]. right. exists t, r.
    subst k. replace (i + 1 - 1 - i) with 0 by lia. split; [reflexivity|]. split; [lia|reflexivity].
  - destruct (IH _ _ H ltac:(lia)) as [->|(t' & r & N & Hk & ->)]; [auto|]. right. exists t', r. split; [|split; [lia|reflexivity]].
    replace (Z.to_nat (k - 1 - i)) with (S (Z.to_nat (k - 1 - (i + 1)))) by lia. exact N.
Qed.
Lemma find_tag_code buff len : find_tag buff len = num "mpcCode" -> occurs (zs "mpcCode") buff.
Proof.
  change (num "mpcCode") with 53. unfold find_tag.
  assert (G : forall b l, (if memeq b (zs "ades") 4 then 0 else find_loop tag_table 0 b l) = 53 -> occurs (zs "mpcCode") b).
  { intros b l. destruct (memeq b (zs "ades") 4); [discriminate|]. intros H. destruct (find_loop_spec _ _ _ _ _ H ltac:(lia)) as [X|(t & r & N & _ & ->)]; [discriminate|].
    change (Z.to_nat (53 - 1 - 0)) with 52%nat in N. vm_compute in N. injection N as <-. exists [], r. reflexivity. }
  destruct buff as [|x b]; [apply G|]. destruct (Z.eqb_spec x 47) as [->|N].
  - intros H. destruct (G _ _ H) as (p & q & ->). exists (47 :: p), q. reflexivity.
  - assert (E : (let '(buff, l) := match x :: b with 47 :: c => (c, pred len) | _ => (x :: b, len) end in if memeq buff (zs "ades") 4 then 0 else find_loop tag_table 0 buff l) =
      (if memeq (x :: b) (zs "ades") 4 then 0 else find_loop tag_table 0 (x :: b) len)).
    { clear -N. destruct x as [|p|p]; try reflexivity. do 6 (destruct p; try reflexivity). congruence. }
    rewrite E. apply G.
Qed.

(** A code of 40 bytes or more cannot occur: at most [short] bytes, or no code. *)
Definition code_ok {W} (b : bool) (c : ctx W) (s : list Z) : Prop :=
  if b then (List.length s < 40)%nat
  else ~ occurs (zs "mpcCode") s /\ codeless c.
Lemma code_cases {W} (c : ctx W) s : no_long_code c s <-> exists b, code_ok b c s.
Proof.
  unfold no_long_code. split.
  - intros [H|H]; [exists true|exists false]; exact H.
  - intros [[|] H]; [left|right]; exact H.
Qed.
Lemma code_suffix {W} b (c : ctx W) t s : suffix t s -> code_ok b c s -> code_ok b c t.
Proof.
  intros S. destruct b; cbn.
  - pose proof (suffix_len _ _ S). lia.
  - intros (H & H'). split; [|exact H']. intros O. apply H. exact (suffix_occurs _ _ _ S O).
Qed.
Definition code_keeps {W} (b : bool) (c c' : ctx W) : Prop := b = false -> ~ In (num "mpcCode") (tags c) -> ~ In (num "mpcCode") (tags c').

Lemma tag_safe {W} (h : hooks W) c k s len b : total h -> sane c -> code_ok b c s -> (b = false -> k <> num "mpcCode") -> (len <= List.length s)%nat ->
  process_ades_tag h c k s len = Abort \/
  exists r o w, process_ades_tag h c k s len = Ret (r, o, set_rest c w) /\ 0 <= r.
Proof.
  intros (T & _) (L & D & _) C Hk Hl. assert (SE : set_rest c (rest c) = c) by (destruct c; reflexivity).
  assert (P : forall x : list Z, put_221 x = Abort \/ put_221 x = Ret x) by (intros x; unfold put_221; destruct (221 <=? _); auto).
  unfold process_ades_tag. change ADES_mpcCode with (num "mpcCode"). destruct (Z.eqb_spec k (num "mpcCode")) as [E|_].
  - destruct b; [|exfalso; tauto]. cbn in C. destruct (Nat.leb_spec 40 len); [lia|].
    destruct (P (zs "COD " ++ firstn len s ++ [10])) as [->| ->]; cbn [obind]; [auto|]. right. do 2 eexists. exists (rest c). rewrite SE. split; [reflexivity|lia].
  - destruct (_ || _).
    + destruct (Z.ltb_spec 1 (depth c)).
      * unfold nth_ub. destruct (Z.ltb_spec (depth c - 2) 0); [lia|]. destruct (nth_error (tags c) (Z.to_nat (depth c - 2))) as [v|] eqn:N.
        2:{ apply nth_error_None in N. unfold MAX_DEPTH in L. lia. }
        cbn [obind]. destruct (P ((if (v =? num "mpcCode") || (v =? ADES_comment) then zs "COM " else if v =? ADES_observatory then zs "COM Observatory name " else if v =? ADES_observers then zs "OBS "
          else if v =? ADES_measurers then zs "MEA " else if v =? ADES_submitter then zs "CON " else zs "COM Mangled '") ++ firstn len s ++
          (if (v =? num "mpcCode") || (v =? ADES_comment) || (v =? ADES_observatory) || (v =? ADES_observers) || (v =? ADES_measurers) || (v =? ADES_submitter) then [10] else [39; 10]))) as [->| ->]; cbn [obind]; [auto|].
        right. do 2 eexists. exists (rest c). rewrite SE. split; [reflexivity|lia].
      * right. do 2 eexists. exists (rest c). rewrite SE. split; [reflexivity|lia].
    + destruct (T (rest c) k s len) as [[[r o] w] ->]. cbn [obind]. right. do 3 eexists. split; [reflexivity|]. destruct r; lia.
Qed.

Lemma drop_trailing_le f s n : (drop_trailing f s n <= n)%nat.
Proof. induction n as [|n IH]; cbn; [lia|]. destruct (f _); lia. Qed.
Lemma drop_trailing_pos f s n : (0 < n)%nat -> f (nth 0 s 0) = false -> (0 < drop_trailing f s n)%nat.
Proof.
  induction n as [|n IH]; intros H E; [lia|]. cbn. destruct (f (nth n s 0)) eqn:F; [|lia]. apply IH; [|exact E]. destruct n; [congruence|lia].
Qed.
Lemma set_ub_in (l : list Z) i v l' x : set_ub l i v = Ret l' -> In x l' -> x = v \/ In x l.
Proof.
  unfold set_ub. destruct (_ || _); [discriminate|]. intros E. injection E as <-. generalize (Z.to_nat i). induction l as [|y l IH]; intros [|k]; cbn; try tauto.
  - intros [->|H]; auto.
  - intros [->|H]; auto. destruct (IH _ H); auto.
Qed.
Lemma set_ub_ok (l : list Z) i v : 0 <= i < Z.of_nat (List.length l) -> exists l', set_ub l i v = Ret l' /\ List.length l' = List.length l.
Proof.
  intros H. unfold set_ub. destruct (Z.ltb_spec i 0); [lia|]. destruct (Z.leb_spec (Z.of_nat (List.length l)) i); [lia|]. cbn [orb]. eexists. split; [reflexivity|]. apply upd_len.
Qed.

(** Everything the theorem says of the loop. *)
Definition fine {W} (b : bool) (c c' : ctx W) (s : list Z) : Prop :=
  List.length (tags c') = MAX_DEPTH /\ 0 <= depth c' <= depth c + opens s /\ psv_tags c' = psv_tags c /\ n_psv_fields c' = n_psv_fields c /\ code_keeps b c c'.
Lemma fine_refl {W} b (c : ctx W) s : sane c -> fine b c c s.
Proof. intros (L & D & _). pose proof (opens_nonneg s). repeat split; try assumption; try lia; intros _; auto. Qed.

Lemma loop_safe {W} (h : hooks W) b : total h -> forall fuel c out r s,
  sane c -> closes s <= depth c -> depth c + opens s <= 19 -> code_ok b c s -> (s = [] \/ exists x t, s = x :: t /\ isspace x = false) ->
  match xml_loop h fuel c out r s with
  | Ret (_, c', _) => fine b c c' s
  | Abort => True
  | UB => False
  | Fuel => printable s -> (fuel <= List.length s)%nat
  end.
Proof.
  intros T. induction fuel as [|fuel IH]; intros c out r s Sa Hc Ho Hk Hs; [cbn; lia|]. cbn [xml_loop].
  destruct (Z.ltb_spec r 0); [apply fine_refl, Sa|]. destruct s as [|x t]; [apply fine_refl, Sa|]. destruct Hs as [Hs|(x' & t' & Hs & Hx)]; [discriminate|]. injection Hs as <- <-.
  assert (WS : forall u, skip_whitespace u = [] \/ exists y v, skip_whitespace u = y :: v /\ isspace y = false).
  { intros u. destruct (skip_ws_cases u) as [[_ E]|(a & y & v & _ & _ & Hy & E)]; [left; exact E|right; exists y, v; auto]. }
  destruct (Z.eqb_spec x 60) as [->|Nx].
  - (* a tag *)
    set (len := span (fun y => negb (y =? 62)) (60 :: t)). destruct (Nat.eqb_spec len (List.length (60 :: t))) as [|NE]; [apply fine_refl, Sa|].
    set (rs := skip_whitespace (skipn (S len) (60 :: t))).
    assert (Srs : suffix rs t) by (eapply suffix_trans; [apply suffix_ws|]; cbn [skipn]; apply suffix_skipn).
    assert (Lrs : (List.length rs < List.length (60%Z :: t))%nat) by (pose proof (suffix_len _ _ Srs); cbn [List.length]; lia).
    assert (Sall : suffix rs (60 :: t)) by (eapply suffix_trans; [exact Srs|apply suffix_cons]).
    rewrite closes_cons in Hc. rewrite opens_cons in Ho. change (60 =? 60) with true in Hc, Ho. cbv iota in Hc, Ho.
    pose proof (suffix_opens _ _ Srs) as So. pose proof (suffix_closes _ _ Srs) as Sc. pose proof (opens_nonneg rs) as On. pose proof (closes_nonneg rs) as Cn.
    rewrite match47. destruct Sa as (L & D & PS).
    (* what remains, for a context with these properties *)
    assert (K : forall c1 r1, fine b c c1 [] \/ (starts47 t = false /\ fine b c c1 [60]) \/ (starts47 t = true /\ List.length (tags c1) = MAX_DEPTH /\ depth c1 = depth c - 1 /\ psv_tags c1 = psv_tags c /\ n_psv_fields c1 = n_psv_fields c /\ tags c1 = tags c) ->
              (starts47 t = false -> depth c <= depth c1) -> (starts47 t = true -> depth c - 1 <= depth c1) -> 
              match xml_loop h fuel c1 out r1 rs with
              | Ret (_, c', _) => fine b c c' (60 :: t) | Abort => True | UB => False | Fuel => printable (60 :: t) -> (S fuel <= List.length (60%Z :: t))%nat end).
    { intros c1 r1 HF H1 H2.
      assert (Q : List.length (tags c1) = MAX_DEPTH /\ psv_tags c1 = psv_tags c /\ n_psv_fields c1 = n_psv_fields c /\ code_keeps b c c1 /\
                  0 <= depth c1 <= depth c + (if starts47 t then 0 else 1)).
      { destruct HF as [(A1 & A2 & A3 & A4 & A5)|[(E & A1 & A2 & A3 & A4 & A5)|(E & A1 & A2 & A3 & A4 & A5)]].
        - repeat split; auto; try lia. cbn [opens] in A2. destruct (starts47 t); lia.
        - rewrite E. repeat split; auto; try lia. rewrite opens_cons in A2. cbn in A2. lia.
        - rewrite E in *. repeat split; auto; try lia. unfold code_keeps. rewrite A5. auto. }
      destruct Q as (Q1 & Q2 & Q3 & Q4 & Q5).
      assert (Cl : closes rs <= depth c1) by (destruct (starts47 t); [specialize (H2 eq_refl)|specialize (H1 eq_refl)]; lia).
      assert (Op : depth c1 + opens rs <= 19) by (destruct (starts47 t); lia).
      assert (Hk1 : code_ok b c1 rs).
      { assert (Z := code_suffix b c rs _ Sall Hk). destruct b; [exact Z|]. cbn [code_ok] in Z |- *. destruct Z as (Z1 & Z2 & Z3). unfold codeless. rewrite Q2. split; [exact Z1|]. split; [apply Q4; auto|exact Z3]. }
      assert (Sa1 : sane c1) by (split; [exact Q1|]; split; [destruct (starts47 t); lia|rewrite Q2, Q3; exact PS]).
      specialize (IH c1 out r1 rs Sa1 Cl Op Hk1 (WS _)). destruct (xml_loop h fuel c1 out r1 rs) as [[[o' c'] q]| | |]; auto.
      - destruct IH as (A1 & A2 & A3 & A4 & A5). unfold fine. rewrite opens_cons. change (60 =? 60) with true. cbv iota. split; [exact A1|]. split; [destruct (starts47 t); lia|]. split; [congruence|]. split; [congruence|].
        intros E N. apply (A5 E). apply (Q4 E). exact N.
      - intros Pr. specialize (IH (suffix_printable _ _ Sall Pr)). lia. }
    destruct (Z.ltb_spec (find_tag t (pred len)) 0) as [Hneg|Hpos]; cbn [obind].
    + apply K; [left; apply fine_refl; repeat split; assumption || lia|lia|lia].
    + destruct (starts47 t) eqn:E47.
      * rewrite ev_val by (cbn [safe val]; unfold fits, IMAX; lia). cbn [obind val]. cbn [tags set_depth].
        destruct (Z.ltb_spec (depth c - 1) 0); [lia|]. unfold nth_ub at 1. destruct (Z.ltb_spec (depth c - 1) 0); [lia|].
        destruct (nth_error (tags c) (Z.to_nat (depth c - 1))) as [v|] eqn:N; [|apply nth_error_None in N; unfold MAX_DEPTH in L; lia]. cbn [obind].
        destruct (find_tag t (pred len) =? ADES_optical); cbn [obind]; apply K; try (right; right; repeat split; assumption || reflexivity); cbn; intros; try discriminate; lia.
      * destruct (set_ub_ok (tags c) (depth c) (find_tag t (pred len))) as (l' & E & L'); [rewrite L; unfold MAX_DEPTH; lia|]. rewrite E. cbn [obind].
        assert (F : forall g w, fine b c (mk (depth c + 1) l' g (passed_through c) (prev_rval c) (n_psv_fields c) (psv_tags c) w) [60]).
        { intros g w. split; [cbn; congruence|]. split; [rewrite opens_cons; cbn; lia|]. split; [reflexivity|]. split; [reflexivity|].
          intros Eb N. cbn [tags]. intros I. destruct (set_ub_in _ _ _ _ _ E I) as [X|X]; [|tauto]. symmetry in X. apply find_tag_code in X. subst b. destruct Hk as [Hk _]. apply Hk. eapply suffix_occurs; [apply suffix_cons|exact X]. }
        destruct (find_tag t (pred len) =? ADES_optical); cbn [obind]; apply K; try (right; left; split; [reflexivity|]; unfold set_depth, setup_observation, set_rest; cbn [depth tags getting_lines passed_through prev_rval n_psv_fields psv_tags rest]; apply F); cbn; intros; lia.
  - (* text *)
    destruct (Z.eqb_spec (depth c) 0) as [|Nd]; cbn [negb]; [apply fine_refl, Sa|]. pose proof Sa as (L & D & PS).
    unfold nth_ub at 1. destruct (Z.ltb_spec (depth c - 1) 0); [lia|].
    destruct (nth_error (tags c) (Z.to_nat (depth c - 1))) as [v|] eqn:N; [|apply nth_error_None in N; unfold MAX_DEPTH in L; lia]. cbn [obind].
    set (len0 := span (fun y => negb (y =? 60)) (x :: t)). set (len := drop_trailing (fun y => (0 <=? y) && (y <=? 32)) (x :: t) len0).
    assert (Ll : (len <= List.length (x :: t))%nat).
    { subst len len0. pose proof (drop_trailing_le (fun y => (0 <=? y) && (y <=? 32)) (x :: t) (span (fun y => negb (y =? 60)) (x :: t))).
      pose proof (span_le (fun y => negb (y =? 60)) (x :: t)). lia. }
    destruct (tag_safe h c v (x :: t) len b T Sa Hk) as [->|(r1 & o1 & w1 & -> & Hr1)]; [|exact Ll|exact I|].
    { intros -> ->. destruct Hk as (_ & Hk & _). apply nth_error_In in N. exact (Hk N). }
    cbn [obind]. set (rs := skip_whitespace (skipn len (x :: t))).
    assert (Srs : suffix rs (x :: t)) by (eapply suffix_trans; [apply suffix_ws|apply suffix_skipn]).
    pose proof (suffix_opens _ _ Srs) as So. pose proof (suffix_closes _ _ Srs) as Sc.
    specialize (IH (set_rest c w1) o1 r1 rs Sa ltac:(cbn [depth set_rest]; lia) ltac:(cbn [depth set_rest]; lia) (code_suffix b c rs _ Srs Hk) (WS _)).
    destruct (xml_loop h fuel (set_rest c w1) o1 r1 rs) as [[[o' c'] q]| | |]; auto.
    + destruct IH as (A1 & A2 & A3 & A4 & A5). split; [exact A1|]. split; [cbn [depth set_rest] in A2; lia|]. split; [exact A3|]. split; [exact A4|exact A5].
    + intros Pr. specialize (IH (suffix_printable _ _ Srs Pr)).
      assert (P0 : (0 < len)%nat).
      { inversion Pr as [|? ? Px _]; subst. subst len. apply drop_trailing_pos.
        - subst len0. cbn [span]. destruct (Z.eqb_spec x 60); [congruence|]. cbn [negb]. lia.
        - cbn [nth]. destruct Px as [Px|[Px|Px]]; [congruence| |]; lia. }
      assert (X := suffix_len _ _ (suffix_ws (skipn len (x :: t)))). rewrite skipn_length in X. fold rs in X. cbn [List.length] in *. lia.
Qed.

(** PSV headers. *)
Lemma find_char_some s r : find_char 124 s = Some r -> exists a t, r = 124 :: t /\ s = a ++ 124 :: t /\ ~ In 124 a.
Proof.
  intros H. destruct (fields_find s) as [[E _]|(f & t & E & NI & E1 & _)]; [congruence|]. rewrite E1 in H. injection H as <-. exists f, t. auto.
Qed.
Lemma find_char_ws s : skip_whitespace s <> [] -> find_char 124 (skip_whitespace s) = find_char 124 s.
Proof.
  destruct (skip_ws_cases s) as [[_ E]|(a & y & r & -> & Ha & Hy & E)]; [congruence|]. intros _. rewrite E. clear E Hy.
  induction Ha as [|z a Hz _ IH]; [reflexivity|]. cbn [app find_char]. destruct (Z.eqb_spec z 124) as [->|]; [discriminate|exact IH].
Qed.
Lemma header_tags_spec : forall fuel s, (List.length s < fuel)%nat ->
  header_tags fuel s = Abort \/ exists l, header_tags fuel s = Ret l /\ List.length l = List.length (fields s) /\
    (In (num "mpcCode") l -> occurs (zs "mpcCode") s) /\ Forall (fun t => 0 < t) l.
Proof.
  induction fuel as [|fuel IH]; intros s Hf; [lia|]. cbn [header_tags]. set (t := find_tag _ _). destruct (Z.leb_spec t 0); [left; reflexivity|].
  assert (NE : skip_whitespace s <> []).
  { intros E. subst t. rewrite E in H. cbn [span] in H. vm_compute in H. discriminate. }
  assert (Ot : t = num "mpcCode" -> occurs (zs "mpcCode") s).
  { intros E. eapply suffix_occurs; [apply suffix_ws|]. eapply find_tag_code. exact E. }
  rewrite (find_char_ws s NE). destruct (fields_find s) as [[E1 E2]|(f & r & Es & NI & E1 & E2)]; rewrite E1, E2.
  - right. exists [t]. repeat split; auto. intros [E|[]]. auto.
  - cbn [tl]. destruct (IH r) as [->|(l & -> & L & O & F)]; [rewrite Es, app_length in Hf; cbn [List.length] in Hf; lia|left; reflexivity|].
    right. exists (t :: l). cbn [obind]. repeat split; auto; [cbn; lia|]. intros [E|E]; [auto|]. rewrite Es. eapply suffix_occurs; [|exact (O E)]. exists (f ++ [124]). rewrite <- app_assoc. reflexivity.
Qed.
Lemma header_safe {W} (c : ctx W) s : check_for_psv_header c s = Abort \/ check_for_psv_header c s = Ret (0, c) \/
  exists l, l <> [] /\ check_for_psv_header c s = Ret (Z.of_nat (List.length l), set_psv c (Z.of_nat (List.length l)) (Some l)) /\
    (In (num "mpcCode") l -> occurs (zs "mpcCode") s).
Proof.
  unfold check_for_psv_header. rewrite header_fields_spec by lia. cbn [obind]. destruct (Forall_dec _ _ _) as [F|F]; [|right; left; reflexivity].
  destruct (Z.ltb_spec (0 + Z.of_nat (List.length (fields s))) 4); [right; left; reflexivity|].
  destruct (header_tags_spec (S (List.length s)) s ltac:(lia)) as [->|(l & -> & L & O & _)]; [left; reflexivity|]. right. right. exists l.
  cbn [obind]. rewrite L. split; [intros ->; cbn in L; lia|]. split; [reflexivity|exact O].
Qed.

(** PSV data lines. *)
Lemma psv_tag_safe {W} (h : hooks W) c o k s b : total h -> sane c -> code_ok b c s -> (b = false -> k <> num "mpcCode") ->
  process_psv_tag h c o k s = Abort \/ exists o' w, process_psv_tag h c o k s = Ret (o', set_rest c w).
Proof.
  intros T Sa Hk Hn. unfold process_psv_tag. set (s1 := skip_whitespace s). set (len := drop_trailing _ _ _). assert (SE : set_rest c (rest c) = c) by (destruct c; reflexivity).
  destruct (_ && _); [|right; exists o, (rest c); rewrite SE; reflexivity].
  destruct (tag_safe h c k s1 len b T Sa) as [->|(r & o' & w & -> & _)].
  - apply (code_suffix b c s1 s); [apply suffix_ws|exact Hk].
  - exact Hn.
  - subst len. match goal with |- (drop_trailing ?f ?a ?n <= _)%nat => pose proof (drop_trailing_le f a n); pose proof (span_le (fun x => negb (x =? 124) && (32 <=? x)) a) end. lia.
  - left. reflexivity.
  - right. cbn [obind]. eauto.
Qed.
Lemma psv_loop_safe {W} (h : hooks W) tg b : total h -> forall k i c o s,
  sane c -> psv_tags c = Some tg -> 0 <= i -> i + Z.of_nat k = Z.of_nat (List.length tg) -> code_ok b c s ->
  psv_loop h k i c tg o (Some s) = Abort \/ exists o' w a, psv_loop h k i c tg o (Some s) = Ret (o', set_rest c w, a).
Proof.
  intros T. induction k as [|k IH]; intros i c o s Sa Pt Hi Hn Hk; assert (SE : set_rest c (rest c) = c) by (destruct c; reflexivity).
  - right. exists o, (rest c), (Some s). rewrite SE. reflexivity.
  - cbn [psv_loop]. unfold nth_ub. destruct (Z.ltb_spec i 0); [lia|]. destruct (nth_error tg (Z.to_nat i)) as [v|] eqn:N; [|apply nth_error_None in N; lia]. cbn [obind].
    destruct (psv_tag_safe h c o v s b T Sa Hk) as [->|(o1 & w1 & ->)]; [intros -> ->; destruct Hk as (_ & _ & Hk); rewrite Pt in Hk; apply nth_error_In in N; exact (Hk N)|left; reflexivity|].
    cbn [obind]. pose proof Sa as (_ & _ & PS). rewrite Pt in PS. change (n_psv_fields (set_rest c w1)) with (n_psv_fields c).
    destruct (Z.eqb_spec i (n_psv_fields c - 1)) as [E|E].
    + cbn [obind]. assert (k = O) by lia. subst k. right. exists o1, w1. eexists. reflexivity.
    + destruct (find_char 124 s) as [r|] eqn:Ef; [|left; reflexivity]. cbn [obind]. destruct (find_char_some _ _ Ef) as (a & t & -> & -> & _). cbn [tl].
      destruct (IH (i + 1) (set_rest c w1) o1 t) as [->|(o2 & w2 & q & ->)]; try assumption; try lia.
      * apply (code_suffix b c t (a ++ 124 :: t)); [exists (a ++ [124]); rewrite <- app_assoc; reflexivity|exact Hk].
      * left. reflexivity.
      * right. exists o2, w2, q. reflexivity.
Qed.
Lemma psv_line_safe {W} (h : hooks W) c tg o s b : total h -> sane c -> psv_tags c = Some tg -> code_ok b c s ->
  process_psv_line h c o tg s = Abort \/ (exists o', process_psv_line h c o tg s = Ret (0, o', c)) \/ exists o' w, process_psv_line h c o tg s = Ret (1, o', set_rest c w).
Proof.
  intros T Sa Pt Hk. unfold process_psv_line. destruct (negb _); [right; left; eauto|]. pose proof Sa as (_ & _ & PS). rewrite Pt in PS. rewrite PS, Nat2Z.id.
  destruct (psv_loop_safe h tg b T (List.length tg) 0 (setup_observation h c) o s) as [->|(o' & w & a & ->)]; try assumption; try lia; [left; reflexivity|].
  cbn [obind]. destruct a; [left; reflexivity|]. right. right. exists o', w. reflexivity.
Qed.
Lemma psv_info_safe {W} (h : hooks W) c o s b : total h -> sane c -> code_ok b c s ->
  process_psv_header h c o s = Abort \/ exists r o' c', process_psv_header h c o s = Ret (r, o', c') /\ sane c' /\ (depth c' = depth c \/ depth c' = 0) /\
    getting_lines c' = getting_lines c /\ code_ok b c' s /\ psv_tags c' = psv_tags c.
Proof.
  intros T Sa Hk. unfold process_psv_header. set (i := span _ _). set (k := find_tag _ _). destruct (Z.leb_spec 0 k) as [Hp|].
  2:{ right. exists 0, o, c. repeat split; try apply Sa; auto. }
  pose proof Sa as (L & D & PS).
  assert (Ck : forall l', (forall x, In x l' -> x = k \/ In x (tags c)) -> forall d g (w : W), code_ok b (mk d l' g (passed_through c) (prev_rval c) (n_psv_fields c) (psv_tags c) w) s).
  { intros l' Hin d g w. destruct b; [exact Hk|]. destruct Hk as (H1 & H2 & H3). split; [exact H1|]. split; [|exact H3]. cbn [tags]. intros I. destruct (Hin _ I) as [X|X]; [|tauto].
    apply H1. eapply suffix_occurs; [apply (suffix_skipn 2)|]. eapply find_tag_code. symmetry. exact X. }
  destruct (nth 0 s 0 =? 35).
  - destruct (set_ub_ok (tags c) 1 k) as (l' & E & L'); [rewrite L; unfold MAX_DEPTH; lia|]. rewrite E. cbn [obind]. right. do 3 eexists. split; [reflexivity|].
    split; [split; [cbn; congruence|split; [exact D|exact PS]]|]. split; [left; reflexivity|]. split; [reflexivity|]. split; [|reflexivity]. apply (Ck l'). intros x Hx. exact (set_ub_in _ _ _ _ _ E Hx).
  - destruct (set_ub_ok (tags c) 2 k) as (l' & E & L'); [rewrite L; unfold MAX_DEPTH; lia|]. rewrite E. cbn [obind].
    assert (Ck3 := Ck l' (fun x Hx => set_ub_in _ _ _ _ _ E Hx)).
    assert (Sa3 : sane (set_depth c 3 l')) by (split; [cbn; congruence|split; [cbn; lia|exact PS]]).
    set (s3 := skip_whitespace (skipn i (skipn 2 s))). assert (Sf : suffix s3 s) by (eapply suffix_trans; [apply suffix_ws|]; eapply suffix_trans; [apply suffix_skipn|apply suffix_skipn]).
    destruct (tag_safe h (set_depth c 3 l') k s3 (span (fun x => 32 <=? x) s3) b T Sa3) as [->|(r & o' & w & -> & _)].
    + apply (code_suffix b _ s3 s Sf). apply Ck3.
    + intros Eb X. subst b. destruct Hk as (H1 & _). apply H1. eapply suffix_occurs; [apply (suffix_skipn 2)|]. eapply find_tag_code. exact X.
    + apply span_le.
    + left. reflexivity.
    + cbn [obind]. right. do 3 eexists. split; [reflexivity|]. split; [split; [cbn; congruence|split; [cbn; lia|exact PS]]|]. split; [right; reflexivity|]. split; [reflexivity|]. split; [apply Ck3|reflexivity].
Qed.

Lemma line_safe {W} (h : hooks W) c o b s : total h -> sane c -> code_ok b c s ->
  exists r o' c', get_a_line h c o = Ret (r, o', c') /\ sane c' /\ depth c' = depth c /\ code_ok b c' s.
Proof.
  intros (_ & T & _) Sa Hk. unfold get_a_line. destruct (T (rest c) o) as [[[m o'] w] ->]. cbn [obind]. do 3 eexists. split; [reflexivity|].
  destruct m; (split; [exact Sa|split; [reflexivity|exact Hk]]).
Qed.
Lemma code_psv {W} b (c : ctx W) d n s : code_ok b c s -> code_ok b (set_depth (set_psv c n None) d (tags c)) s.
Proof. destruct b; [auto|]. intros (H1 & H2 & _). split; [exact H1|]. split; [exact H2|exact I]. Qed.

Lemma xlate_safe {W} (h : hooks W) fuel ip temp c o s b : total h -> sane c -> code_ok b c s ->
  closes s = 0 \/ (psv_tags c = None /\ ~ psv_info s /\ closes s <= depth c) -> Z.max 1 (depth c) + opens s <= 19 ->
  match xlate_ades2mpc h fuel ip temp c o s with
  | Ret (_, _, c') => sane c' /\ depth c' <= Z.max 1 (depth c) + opens s /\ (b = false -> codeless c')
  | UB => False
  | Abort => True
  | Fuel => ~ (printable s /\ (List.length s < fuel)%nat)
  end.
Proof.
  intros T Sa Hk Hc Ho. pose proof (opens_nonneg s) as On. pose proof (closes_nonneg s) as Cn.
  assert (Z0 : forall c' : ctx W, code_ok b c' s -> b = false -> codeless c') by (intros c' H ->; apply H).
  unfold xlate_ades2mpc. destruct (passed_through c).
  { split; [exact Sa|]. split; [cbn; lia|]. apply (Z0 (set_passed c false)), Hk. }
  destruct (getting_lines c) eqn:G.
  { destruct (line_safe h c o b s T Sa Hk) as (r & o' & c' & -> & Sa' & D' & Hk'). split; [exact Sa'|]. split; [lia|]. apply Z0, Hk'. }
  set (c0 := if (depth c =? 0) && _ then _ else _).
  assert (S0 : sane c0 /\ depth c <= depth c0 <= Z.max 1 (depth c) /\ code_ok b c0 s /\ psv_tags c0 = psv_tags c /\ getting_lines c0 = false).
  { subst c0. destruct Sa as (L & D & P). destruct (Z.eqb_spec (depth c) 0); cbn [andb].
    - destruct (contains _ _); (split; [split; [exact L|split; [cbn [depth set_depth]; lia|exact P]]|split; [cbn [depth set_depth]; lia|split; [exact Hk|split; [reflexivity|exact G]]]]).
    - split; [split; [exact L|split; [exact D|exact P]]|]. split; [lia|]. auto. }
  clearbody c0. destruct S0 as (Sa0 & D0 & Hk0 & P0 & G0). pose proof Sa0 as (L0 & DD0 & PS0).
  destruct (header_safe c0 s) as [->|[->|(l & Nl & -> & Hl)]]; cbn [obind]; [exact I| |].
  2:{ destruct (Z.eqb_spec (Z.of_nat (List.length l)) 0) as [E|_]; [destruct l; [congruence|cbn in E; lia]|]. cbn [negb].
      split; [split; [exact L0|split; [cbn; lia|reflexivity]]|]. split; [cbn; lia|]. intros ->. split; [apply Hk0|]. cbn. intros X. apply (proj1 Hk0), Hl, X. }
  cbn [Z.eqb negb].
  set (W1 := if ip then temp else o).
  (* the PSV line *)
  assert (A : (match psv_tags c0 with
     | None => Ret (0, W1, c0)
     | Some tg => do '(rval, w, c) <- process_psv_line h c0 W1 tg s; Ret (rval, w, if rval =? 0 then set_depth (set_psv c 0 None) 0 (tags c) else c) end) = Abort \/
     exists r w1 c1, (match psv_tags c0 with
     | None => Ret (0, W1, c0)
     | Some tg => do '(rval, w, c) <- process_psv_line h c0 W1 tg s; Ret (rval, w, if rval =? 0 then set_depth (set_psv c 0 None) 0 (tags c) else c) end) = Ret (r, w1, c1) /\
     sane c1 /\ depth c1 <= depth c0 /\ code_ok b c1 s /\ getting_lines c1 = false /\ (closes s = 0 \/ depth c1 = depth c0)).
  { destruct (psv_tags c0) as [tg|] eqn:Pt.
    - destruct (psv_line_safe h c0 tg W1 s b T Sa0 Pt Hk0) as [->|[[o1 ->]|(o1 & w1 & ->)]]; cbn [obind]; [left; reflexivity| |]; right; do 3 eexists; (split; [reflexivity|]).
      + cbn [Z.eqb]. split; [split; [exact L0|split; [cbn; lia|exact I]]|]. split; [cbn; lia|]. split; [apply code_psv; exact Hk0|]. split; [exact G0|].
        left. destruct Hc as [Hc|(Hc & _)]; [exact Hc|congruence].
      + cbn [Z.eqb]. split; [exact Sa0|]. split; [cbn; lia|]. split; [exact Hk0|]. split; [exact G0|]. right. reflexivity.
    - right. exists 0, W1, c0. split; [reflexivity|]. split; [exact Sa0|]. split; [lia|]. split; [exact Hk0|]. split; [exact G0|right; reflexivity]. }
  destruct A as [->|(r & w1 & c1 & -> & Sa1 & D1 & Hk1 & G1 & Hc1)]; cbn [obind]; [exact I|]. clear PS0 L0 DD0.
  (* the sigmas *)
  assert (A : exists r2 c2, (if r =? 0 then do '(t, r) <- h_tholen h (rest c1) s; Ret (if t : bool then (1, set_getting (set_rest c1 r) true) else (0, set_rest c1 r)) else Ret (r, c1)) = Ret (r2, c2) /\
     sane c2 /\ depth c2 = depth c1 /\ code_ok b c2 s /\ (r2 = 0 -> getting_lines c2 = false)).
  { destruct (r =? 0) eqn:Er.
    - destruct T as (_ & _ & T). destruct (T (rest c1) s) as [[t q] ->]. cbn [obind]. destruct t; do 2 eexists; (split; [reflexivity|]); (split; [exact Sa1|split; [reflexivity|split; [exact Hk1|]]]); [discriminate|intros _; exact G1].
    - do 2 eexists. split; [reflexivity|]. apply Z.eqb_neq in Er. split; [exact Sa1|]. split; [reflexivity|]. split; [exact Hk1|]. intros X. congruence. }
  destruct A as (r2 & c2 & -> & Sa2 & D2 & Hk2 & G2). cbn [obind].
  (* a line of PSV header data *)
  set (test := (r2 =? 0) && _).
  assert (A : (if test then process_psv_header h c2 w1 s else Ret (0, w1, c2)) = Abort \/ exists hd w3 c3, (if test then process_psv_header h c2 w1 s else Ret (0, w1, c2)) = Ret (hd, w3, c3) /\
     sane c3 /\ depth c3 <= depth c2 /\ code_ok b c3 s /\ (r2 = 0 -> getting_lines c3 = false) /\ (closes s = 0 \/ depth c3 = depth c0)).
  { destruct test eqn:Et.
    - apply andb_true_iff in Et. destruct Et as [E0 Et]. apply Z.eqb_eq in E0. specialize (G2 E0).
      destruct (psv_info_safe h c2 w1 s b T Sa2 Hk2) as [->|(hd & w3 & c3 & -> & Sa3 & D3 & G3 & Hk3 & _)]; [left; reflexivity|]. right. exists hd, w3, c3. split; [reflexivity|].
      split; [exact Sa3|]. destruct Sa3 as (_ & D3' & _), Sa2 as (_ & D2' & _). split; [lia|]. split; [exact Hk3|]. split; [congruence|].
      left. destruct Hc as [Hc|(_ & Hi & _)]; [exact Hc|]. apply not_info in Hi. congruence.
    - right. exists 0, w1, c2. split; [reflexivity|]. split; [exact Sa2|]. split; [lia|]. split; [exact Hk2|]. split; [exact G2|]. destruct Hc1 as [Hc1|Hc1]; [left; exact Hc1|right; lia]. }
  clearbody test. destruct A as [->|(hd & w3 & c3 & -> & Sa3 & D3 & Hk3 & G3 & Hc3)]; cbn [obind]; [exact I|].
  assert (Dm : depth c3 <= Z.max 1 (depth c)) by lia.
  destruct (negb (hd =? 0)).
  { destruct (hd =? 1).
    - assert (PP : forall x : list Z, put_221 x = Abort \/ put_221 x = Ret x) by (intros x; unfold put_221; destruct (221 <=? _); auto).
      destruct ip; [destruct (PP w3) as [->| ->]|]; cbn [obind]; try exact I; (split; [exact Sa3|split; [cbn; lia|apply (Z0 (set_passed c3 true)), Hk3]]).
    - split; [exact Sa3|]. split; [cbn; lia|apply (Z0 (set_passed c3 false)), Hk3]. }
  set (c4 := if negb (r2 =? 0) then set_getting c3 true else c3).
  assert (S4 : sane c4 /\ depth c4 = depth c3 /\ code_ok b c4 s) by (subst c4; destruct (negb _); (split; [exact Sa3|split; [reflexivity|exact Hk3]])).
  clearbody c4. destruct S4 as (Sa4 & D4 & Hk4).
  destruct (_ && negb _).
  { assert (PP : forall x : list Z, put_221 x = Abort \/ put_221 x = Ret x) by (intros x; unfold put_221; destruct (221 <=? _); auto).
    destruct ip; [|destruct (PP s) as [->| ->]]; cbn [obind]; try exact I; (split; [exact Sa4|split; [cbn; lia|apply (Z0 (set_passed c4 true)), Hk4]]). }
  destruct (getting_lines c4).
  { destruct (line_safe h c4 (if ip then s else w3) b s T Sa4 Hk4) as (q & o' & c' & -> & Sa' & D' & Hk'). split; [exact Sa'|]. split; [lia|]. apply Z0, Hk'. }
  (* the loop *)
  pose proof (suffix_ws s) as Sw. pose proof (suffix_opens _ _ Sw). pose proof (suffix_closes _ _ Sw). pose proof (suffix_len _ _ Sw).
  assert (WS : skip_whitespace s = [] \/ exists y v, skip_whitespace s = y :: v /\ isspace y = false).
  { destruct (skip_ws_cases s) as [[_ E]|(a & y & v & _ & _ & Hy & E)]; [left; exact E|right; exists y, v; auto]. }
  pose proof Sa4 as (_ & D4' & P4).
  assert (LS := loop_safe h b T fuel c4 (if ip then [] else w3) r2 (skip_whitespace s) Sa4 ltac:(lia) ltac:(lia) (code_suffix b c4 _ s Sw Hk4) WS).
  destruct (xml_loop h fuel c4 (if ip then [] else w3) r2 (skip_whitespace s)) as [[[o5 c5] res]| | |]; cbn [obind]; auto.
  2:{ intros [Pr Hf]. specialize (LS (suffix_printable _ _ Sw Pr)). lia. }
  destruct LS as (L5 & D5 & P5 & N5 & K5).
  assert (Sa5 : sane c5) by (split; [exact L5|]; split; [lia|rewrite P5, N5; exact P4]).
  assert (Hk5 : code_ok b c5 s).
  { destruct b; [exact Hk4|]. destruct Hk4 as (X1 & X2 & X3). split; [exact X1|]. split; [apply K5; auto|rewrite P5; exact X3]. }
  destruct res as [q|q].
  2:{ split; [exact Sa5|]. split; [lia|]. apply Z0, Hk5. }
  assert (PP : forall x : list Z, put_221 x = Abort \/ put_221 x = Ret x) by (intros x; unfold put_221; destruct (221 <=? _); auto).
  destruct (q =? 0); cbn [obind].
  - destruct ip; [destruct (PP o5) as [->| ->]|]; cbn [obind]; try exact I; (split; [exact Sa5|split; [lia|apply Z0, Hk5]]).
  - destruct (line_safe h c5 o5 b s T Sa5 Hk5) as (q' & o' & c' & -> & Sa' & D' & Hk'). cbn [obind].
    destruct ip; [destruct (PP o') as [->| ->]|]; cbn [obind]; try exact I; (split; [exact Sa'|split; [lia|apply Z0, Hk']]).
Qed.
