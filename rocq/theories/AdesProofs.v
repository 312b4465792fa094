(** Lemmas about the model of ades2mpc.cpp. *)
From Coq Require Import String Lia.
From Verif Require Import CBase CLemmas CStr AdesModel AdesSpec.
Local Open Scope string_scope.
Local Open Scope list_scope.
Local Open Scope Z_scope.

(** Strings. *)
Lemma prefix_spec p : forall s, prefix p s = true <-> exists r, s = p ++ r.
Proof.
  induction p as [|x p IH]; intros s; cbn; [split; [eauto|reflexivity]|].
  destruct s as [|y s]; cbn; [split; [discriminate|intros [r E]; discriminate]|].
  rewrite andb_true_iff, Z.eqb_eq, IH. split.
  - intros [-> [r ->]]. eauto.
  - intros [r E]. injection E as -> ->. eauto.
Qed.
Lemma contains_spec t : forall s, contains t s = true <-> occurs t s.
Proof.
  intros s. induction s as [|x s IH]; cbn [contains]; rewrite orb_true_iff, prefix_spec.
  - split.
    + intros [[r E]|F]; [exists [], r; exact E|discriminate].
    + intros (a & b & E). left. exists b. destruct a; [exact E|discriminate].
  - rewrite IH. split.
    + intros [[r E]|(a & b & ->)]; [exists [], r; exact E|exists (x :: a), b; reflexivity].
    + intros (a & b & E). destruct a as [|y a]; [left; exists b; exact E|]. injection E as -> ->. right. exists a, b. reflexivity.
Qed.
Lemma contains_false t s : ~ occurs t s -> contains t s = false.
Proof. intros H. destruct (contains t s) eqn:E; [|reflexivity]. apply contains_spec in E. tauto. Qed.

Lemma span_le f s : (span f s <= List.length s)%nat.
Proof. induction s as [|x s IH]; cbn; [lia|]. destruct (f x); lia. Qed.
Lemma span_app f a b : Forall (fun x => f x = true) a -> span f (a ++ b) = (List.length a + span f b)%nat.
Proof. induction 1 as [|x a Hx _ IH]; [reflexivity|]. cbn. rewrite Hx, IH. reflexivity. Qed.
Lemma span_stop f x s : f x = false -> span f (x :: s) = 0%nat.
Proof. intros H. cbn. rewrite H. reflexivity. Qed.
Lemma span_all f s : Forall (fun x => f x = true) s -> span f s = List.length s.
Proof. intros H. rewrite <- (app_nil_r s) at 1. rewrite span_app by assumption. cbn. lia. Qed.
Lemma span_take f s : Forall (fun x => f x = true) (firstn (span f s) s).
Proof. induction s as [|x s IH]; cbn; [constructor|]. destruct (f x) eqn:E; [constructor; assumption|constructor]. Qed.
Lemma span_next f s x r : skipn (span f s) s = x :: r -> f x = false.
Proof. induction s as [|y s IH]; cbn; [discriminate|]. destruct (f y) eqn:E; [exact IH|]. cbn. intros H. congruence. Qed.
Lemma skipn_len {A} (a b : list A) : skipn (List.length a) (a ++ b) = b.
Proof. induction a; [reflexivity|assumption]. Qed.
Lemma firstn_len {A} (a b : list A) : firstn (List.length a) (a ++ b) = a.
Proof. induction a as [|x a IH]; cbn; [reflexivity|]. now rewrite IH. Qed.

Lemma skip_ws_app a b : blank_ok a -> skip_whitespace (a ++ b) = skip_whitespace b.
Proof.
  intros H. unfold skip_whitespace. rewrite span_app by exact H.
  rewrite Nat.add_comm. induction H as [|x a Hx Ha IH]; [cbn; f_equal; lia|].
  cbn [List.length app]. rewrite Nat.add_succ_r. cbn [skipn]. exact IH.
Qed.
Lemma skip_ws_stop x s : isspace x = false -> skip_whitespace (x :: s) = x :: s.
Proof. intros H. unfold skip_whitespace. rewrite span_stop by exact H. reflexivity. Qed.
Lemma skip_ws_cases s : blank_ok s /\ skip_whitespace s = [] \/
  exists a x r, s = a ++ x :: r /\ blank_ok a /\ isspace x = false /\ skip_whitespace s = x :: r.
Proof.
  unfold skip_whitespace. destruct (skipn (span isspace s) s) as [|x r] eqn:E.
  - left. split; [|reflexivity]. pose proof (span_take isspace s) as H. rewrite <- (firstn_skipn (span isspace s) s), E, app_nil_r. exact H.
  - right. exists (firstn (span isspace s) s), x, r. split; [rewrite <- E; symmetry; apply firstn_skipn|]. split; [apply span_take|].
    split; [exact (span_next _ _ _ _ E)|reflexivity].
Qed.

Lemma fields_cons s : exists f l, fields s = f :: l.
Proof. destruct s as [|x s]; cbn; [eauto|]. destruct (x =? 124); [eauto|]. destruct (fields s); eauto. Qed.
(** The first '|'. *)
Lemma fields_find s : (find_char 124 s = None /\ fields s = [s]) \/
  exists f r, s = f ++ 124 :: r /\ ~ In 124 f /\ find_char 124 s = Some (124 :: r) /\ fields s = f :: fields r.
Proof.
  induction s as [|x s IH]; cbn; [auto|]. destruct (Z.eqb_spec x 124) as [->|N].
  - right. exists [], s. cbn. auto.
  - destruct IH as [[E1 E2]|(f & r & -> & NI & E1 & E2)].
    + left. rewrite E2. auto.
    + right. exists (x :: f), r. cbn. rewrite E2. repeat split; auto. intros [->|H]; auto.
Qed.

Lemma blank_isspace a x b (H : blank_ok a) : isspace x = false -> skip_whitespace (a ++ x :: b) = x :: b.
Proof. intros E. rewrite skip_ws_app by exact H. apply skip_ws_stop, E. Qed.
Lemma lower_not_space x : islower x = true -> isspace x = false.
Proof. unfold islower, isspace. intros H. apply andb_true_iff in H. destruct H as [A B]. lia. Qed.
Lemma starts_lower_dec f : {starts_lower f} + {~ starts_lower f}.
Proof.
  destruct (skip_whitespace f) as [|x r] eqn:E.
  - right. intros (a & x & b & -> & Ha & Hx). rewrite blank_isspace in E by (try assumption; apply lower_not_space; unfold islower; lia). discriminate.
  - destruct (islower x) eqn:L.
    + left. destruct (skip_ws_cases f) as [[_ E']|(a & y & r' & -> & Ha & Hy & E')]; [congruence|]. rewrite E in E'. injection E' as <- <-.
      exists a, x, r. split; [reflexivity|]. split; [exact Ha|]. unfold islower in L. lia.
    + right. intros (a & y & b & -> & Ha & Hy). rewrite blank_isspace in E by (try assumption; apply lower_not_space; unfold islower; lia).
      injection E as -> _. unfold islower in L. lia.
Qed.
Lemma starts_lower_skip f : starts_lower f <-> exists x r, skip_whitespace f = x :: r /\ islower x = true.
Proof.
  split.
  - intros (a & x & b & -> & Ha & Hx). exists x, b. assert (L : islower x = true) by (unfold islower; lia).
    split; [apply blank_isspace; [exact Ha|apply lower_not_space, L]|exact L].
  - intros (x & r & E & L). destruct (skip_ws_cases f) as [[_ E']|(a & y & r' & -> & Ha & Hy & E')]; [congruence|]. rewrite E in E'. injection E' as <- <-.
    exists a, x, r. split; [reflexivity|]. split; [exact Ha|]. unfold islower in L. lia.
Qed.

Lemma find_char_skip s : (exists x r, skip_whitespace s = x :: r /\ x <> 124) ->
  match find_char 124 (skip_whitespace s) with Some r => Some r | None => None end = find_char 124 s /\ True.
Proof.
  intros (x & r & E & N). split; [|exact I]. destruct (skip_ws_cases s) as [[_ E']|(a & y & r' & -> & Ha & Hy & E')]; [congruence|].
  rewrite E'. assert (F : find_char 124 (a ++ y :: r') = find_char 124 (y :: r')).
  { clear -Ha. induction Ha as [|z a Hz _ IH]; [reflexivity|]. cbn [app find_char]. destruct (Z.eqb_spec z 124) as [->|]; [discriminate|exact IH]. }
  rewrite F. now destruct (find_char 124 (y :: r')).
Qed.

(** The fields of a possible header. *)
Lemma header_fields_spec fuel : forall s n, (List.length s < fuel)%nat ->
  header_fields fuel s n = Ret (if Forall_dec starts_lower starts_lower_dec (fields s) then n + Z.of_nat (List.length (fields s)) else 0).
Proof.
  induction fuel as [|fuel IH]; intros s n Hf; [lia|]. cbn [header_fields].
  destruct (starts_lower_dec (hd [] (fields s))) as [SL|SL].
  - assert (SL' : exists x r, skip_whitespace s = x :: r /\ islower x = true).
    { apply starts_lower_skip. destruct SL as (a & x & b & E & Ha & Hx). destruct (fields_find s) as [[_ E2]|(f & r & -> & _ & _ & E2)]; rewrite E2 in E; cbn in E.
      - exists a, x, b. auto.
      - exists a, x, (b ++ 124 :: r). rewrite E, <- app_assoc. auto. }
    destruct SL' as (x & r & E & L). rewrite E, L. rewrite <- E. destruct (find_char_skip s) as [FC _].
    { exists x, r. split; [exact E|]. intros ->. discriminate. }
    destruct (fields_find s) as [[E1 E2]|(f & t & Es & NI & E1 & E2)]; rewrite E1 in FC.
    + destruct (find_char 124 (skip_whitespace s)); [discriminate|]. rewrite E2 in SL |- *. cbn [hd] in SL.
      destruct (Forall_dec _ _ _) as [_|F]; [reflexivity|]. exfalso. apply F. auto.
    + destruct (find_char 124 (skip_whitespace s)) as [q|]; [|discriminate]. injection FC as ->. cbn [tl].
      rewrite IH by (rewrite Es, app_length in Hf; cbn in Hf; lia). f_equal. rewrite E2 in SL |- *. cbn [hd] in SL.
      destruct (Forall_dec _ _ (fields t)) as [F|F], (Forall_dec _ _ (f :: fields t)) as [G|G].
      * cbn [List.length]. lia.
      * exfalso. apply G. constructor; assumption.
      * exfalso. apply F. inversion G. assumption.
      * reflexivity.
  - assert (NG : ~ Forall starts_lower (fields s)).
    { intros F. apply SL. destruct (fields_cons s) as (f & l & E). rewrite E in *. inversion F. assumption. }
    destruct (Forall_dec _ _ _) as [F|_]; [tauto|].
    destruct (skip_whitespace s) as [|x r] eqn:E; [reflexivity|]. destruct (islower x) eqn:L; [|reflexivity]. exfalso.
    assert (S : starts_lower s) by (apply starts_lower_skip; eauto).
    apply SL. destruct S as (a & y & b & -> & Ha & Hy).
    destruct (fields_find (a ++ y :: b)) as [[_ E2]|(f & t & Es & NI & _ & E2)]; rewrite E2; cbn [hd].
    + exists a, y, b. auto.
    + clear -Es Ha Hy. revert f Es. induction Ha as [|z a Hz Ha IH]; intros f Es.
      * destruct f as [|y' f]; cbn in Es; [injection Es; lia|]. injection Es as -> ->. exists [], y', f. auto.
      * destruct f as [|z' f]; cbn in Es; [injection Es as -> _; discriminate|]. injection Es as -> Es.
        destruct (IH _ Es) as (a' & x' & b' & -> & Ha' & Hx'). exists (z' :: a'), x', b'. auto.
Qed.
Lemma no_header {W} (c : ctx W) s : ~ psv_header s -> check_for_psv_header c s = Ret (0, c).
Proof.
  intros H. unfold check_for_psv_header. rewrite header_fields_spec by lia. cbn [obind].
  destruct (Forall_dec _ _ _) as [F|F]; [|reflexivity].
  destruct (Z.ltb_spec (0 + Z.of_nat (List.length (fields s))) 4); [reflexivity|]. exfalso. apply H. split; [lia|assumption].
Qed.

Lemma not_info s : ~ psv_info s -> (match s with a :: 32 :: _ => (a =? 35) || (a =? 33) | _ => false end) = false.
Proof.
  intros H. destruct s as [|a s]; [reflexivity|]. destruct s as [|b s]; [reflexivity|]. destruct (Z.eqb_spec b 32) as [->|N].
  - destruct (Z.eqb_spec a 35) as [->|]; [exfalso; apply H; exists s; left; reflexivity|].
    destruct (Z.eqb_spec a 33) as [->|]; [exfalso; apply H; exists s; right; reflexivity|reflexivity].
  - destruct b as [|b|b]; try reflexivity. do 6 (destruct b; try reflexivity). congruence.
Qed.
Lemma ctx_eta {W} (c : ctx W) : mk (depth c) (tags c) (getting_lines c) (passed_through c) (prev_rval c) (n_psv_fields c) (psv_tags c) (rest c) = c.
Proof. destruct c. reflexivity. Qed.

(** A plain line outside ADES data. *)
Lemma pass_line {W} (h : hooks W) fuel (ip : bool) temp c o s : outside c -> plain s -> not_tholen h s ->
  xlate_ades2mpc h fuel ip temp c o s = (do o <- (if ip then Ret s else put_221 s); Ret (1, o, set_passed c true)).
Proof.
  intros (D & G & P & N) (H1 & H2 & H3 & H4) T. unfold xlate_ades2mpc. rewrite P, G, D.
  rewrite (contains_false _ _ H1). cbn [andb Z.eqb]. rewrite (no_header _ _ H3). cbn [obind Z.eqb negb]. rewrite N. cbn [obind Z.eqb].
  rewrite T. cbn [obind]. rewrite (not_info _ H4). cbn [andb obind Z.eqb negb].
  destruct c as [d tg g p pr n ps w]. unfold set_rest, set_passed. cbn [depth tags getting_lines passed_through prev_rval n_psv_fields psv_tags rest andb Z.eqb] in *. subst. cbn [Z.eqb andb].
  rewrite (contains_false _ _ H2). reflexivity.
Qed.
Lemma pass_next {W} (h : hooks W) fuel ip temp c o s : xlate_ades2mpc h fuel ip temp (set_passed c true) o s = Ret (0, o, set_passed c false).
Proof. reflexivity. Qed.

Lemma trim_line s : ~ In 10 s -> ~ In 13 s -> firstn (span (fun x => negb (x =? 10) && negb (x =? 13)) s) s = s.
Proof.
  intros A B. rewrite span_all; [apply firstn_all|]. apply Forall_forall. intros x Hx.
  destruct (Z.eqb_spec x 10); [congruence|]. destruct (Z.eqb_spec x 13); [congruence|]. reflexivity.
Qed.
Lemma plain_reads {W} (h : hooks W) fuel temp : forall lines c buff, outside c -> prev_rval c = 0 \/ prev_rval c = 1 ->
  Forall (fun s => plain s /\ not_tholen h s /\ ~ In 10 s /\ ~ In 13 s) lines ->
  outputs h fuel temp (if prev_rval c =? 0 then c else set_passed c true) buff lines lines.
Proof.
  induction lines as [|s lines IH]; intros c buff Ho Hp Hl.
  - assert (E : exists o c', fgets_with_ades_xlation h fuel temp (if prev_rval c =? 0 then c else set_passed c true) buff [] = Ret (0, o, c', [])).
    { unfold fgets_with_ades_xlation. destruct Hp as [E|E]; rewrite E; cbn [Z.eqb prev_rval set_passed]; rewrite E; cbn [Z.eqb obind read_loop negb].
      - eauto.
      - rewrite pass_next. cbn. eauto. }
    destruct E as (o & c' & E). eapply outputs_end. exact E.
  - inversion Hl as [|? ? (Pl & Th & N1 & N2) Hl']; subst.
    assert (E : fgets_with_ades_xlation h fuel temp (if prev_rval c =? 0 then c else set_passed c true) buff (s :: lines) =
                Ret (1, s, set_passed (set_prev c 1) true, lines)).
    { unfold fgets_with_ades_xlation. destruct Hp as [E|E]; rewrite E; cbn [Z.eqb prev_rval set_passed]; rewrite E; cbn [Z.eqb obind read_loop negb].
      - rewrite (pass_line h fuel true temp c s s Ho Pl Th). cbn [obind]. destruct lines; cbn [read_loop Z.eqb negb obind]; rewrite trim_line by assumption; reflexivity.
      - rewrite pass_next. cbn [obind read_loop Z.eqb negb]. rewrite (pass_line h fuel true temp (set_passed c false) s s); [|destruct Ho as (? & ? & ? & ?); repeat split; assumption|assumption|assumption].
        cbn [obind]. destruct lines; cbn [read_loop Z.eqb negb obind]; rewrite trim_line by assumption; reflexivity. }
    eapply outputs_more; [exact E|lia|]. apply (IH (set_prev c 1) s); [destruct Ho as (? & ? & ? & ?); repeat split; assumption|right; reflexivity|assumption].
Qed.
