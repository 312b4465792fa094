(** PSV data. *)
From Coq Require Import String Lia.
From Verif Require Import CBase CLemmas CStr AdesModel AdesSpec AdesProofs AdesXml AdesNest AdesSafe.
Local Open Scope string_scope.
Local Open Scope list_scope.
Local Open Scope Z_scope.

Lemma fields_none s : ~ In 124 s -> fields s = [s].
Proof.
  induction s as [|x s IH]; intros H; [reflexivity|]. cbn [fields]. destruct (Z.eqb_spec x 124) as [->|]; [exfalso; apply H; left; reflexivity|].
  rewrite IH by (intros X; apply H; right; exact X). reflexivity.
Qed.
Lemma fields_app f s : ~ In 124 f -> fields (f ++ 124 :: s) = f :: fields s.
Proof.
  induction f as [|x f IH]; intros H; [reflexivity|]. cbn [app fields]. destruct (Z.eqb_spec x 124) as [->|]; [exfalso; apply H; left; reflexivity|].
  rewrite IH by (intros X; apply H; right; exact X). reflexivity.
Qed.
Lemma fields_join fs : fs <> [] -> Forall (fun f => ~ In 124 f) fs -> fields (join fs) = fs.
Proof.
  intros N H. induction H as [|f fs Hf H IH]; [congruence|]. destruct fs as [|g fs]; [apply fields_none, Hf|].
  change (join (f :: g :: fs)) with (f ++ 124 :: join (g :: fs)). rewrite fields_app by exact Hf. f_equal. apply IH. discriminate.
Qed.
Lemma blank_no a : blank_ok a -> ~ In 124 a.
Proof. intros H X. unfold blank_ok in H. rewrite Forall_forall in H. specialize (H _ X). discriminate. Qed.
Lemma named_no f n : named f n -> ~ In 124 f.
Proof.
  intros (Hn & _ & _ & a & b & -> & Ha & Hb) X. apply in_app_iff in X. destruct X as [X|X]; [exact (blank_no _ Ha X)|].
  apply in_app_iff in X. destruct X as [X|X]; [|exact (blank_no _ Hb X)]. revert X. apply name_no; [exact Hn|reflexivity].
Qed.
Lemma named_lower f n : named f n -> starts_lower f.
Proof.
  intros (Hn & _ & Hl & a & b & -> & Ha & Hb). destruct (zs n) as [|x r] eqn:E; [cbn in Hl; lia|]. cbn in Hl. exists a, x, (r ++ b). split; [reflexivity|]. split; [exact Ha|exact Hl].
Qed.
Lemma num_pos n : In n tag_names -> n <> "ades" -> 0 < num n.
Proof.
  intros H N. assert (Q := all_names (fun n => String.eqb n "ades" || (0 <? num n)) ltac:(vm_compute; reflexivity) n H). apply orb_true_iff in Q. destruct Q as [Q|Q].
  - apply String.eqb_eq in Q. congruence.
  - lia.
Qed.
Lemma alnum_range x : isalnum x = true -> 32 < x /\ x <> 124 /\ isspace x = false.
Proof. unfold isalnum, isalpha, isupper, islower, isdigit, isspace. intros H. lia. Qed.
Lemma one_header_tag f n t : named f n -> t = [] \/ (exists r, t = 124 :: r) ->
  exists s, skip_whitespace (f ++ t) = s /\ find_tag s (span (fun x => negb (x =? 124) && (32 <? x)) s) = num n /\ find_char 124 s = find_char 124 t.
Proof.
  intros (Hn & _ & _ & a & b & -> & Ha & Hb) Ht. destruct (name_chars n Hn) as (Fn & Nn & _). exists (zs n ++ b ++ t). rewrite <- !app_assoc. rewrite skip_ws_app by exact Ha. split.
  - destruct (zs n) as [|x r] eqn:E; [congruence|]. inversion Fn as [|? ? Hx _]; subst. cbn [app]. apply skip_ws_stop. apply alnum_range, Hx.
  - split.
    + rewrite span_app.
      2:{ eapply Forall_impl; [|exact Fn]. cbn beta. intros x Hx. apply alnum_range in Hx. lia. }
      assert (S0 : span (fun x => negb (x =? 124) && (32 <? x)) (b ++ t) = 0%nat).
      { destruct b as [|y b].
        - destruct Ht as [->|[r ->]]; reflexivity.
        - inversion Hb as [|? ? Hy _]; subst. apply space_range in Hy. cbn [app]. apply span_stop. lia. }
      rewrite S0, Nat.add_0_r. apply tag_found, Hn.
    + assert (FA : forall p q, ~ In 124 p -> find_char 124 (p ++ q) = find_char 124 q).
      { induction p as [|y p IHp]; intros q Hp; [reflexivity|]. cbn [app find_char]. destruct (Z.eqb_spec y 124) as [->|]; [exfalso; apply Hp; left; reflexivity|]. apply IHp. intros X. apply Hp. right. exact X. }
      rewrite FA by (apply name_no; [exact Hn|reflexivity]). apply FA, blank_no, Hb.
Qed.
Lemma header_tags_named : forall fs ns, Forall2 named fs ns -> fs <> [] -> forall fuel, (List.length (join fs) < fuel)%nat -> header_tags fuel (join fs) = Ret (map num ns).
Proof.
  intros fs ns H. induction H as [|f n fs ns Hf H IH]; [congruence|]. intros _ fuel Hl. destruct fuel as [|fuel]; [lia|].
  destruct fs as [|g fs].
  - inversion H; subst. cbn [join header_tags]. destruct (one_header_tag f n [] Hf (or_introl eq_refl)) as (s & E1 & E2 & E3). rewrite app_nil_r in E1. rewrite E1, E2, E3.
    cbn [find_char]. destruct Hf as (Hn & Ha & _). pose proof (num_pos n Hn Ha). destruct (Z.leb_spec (num n) 0); [lia|]. reflexivity.
  - change (join (f :: g :: fs)) with (f ++ 124 :: join (g :: fs)) in *. cbn [header_tags].
    destruct (one_header_tag f n (124 :: join (g :: fs)) Hf (or_intror (ex_intro _ _ eq_refl))) as (s & E1 & E2 & E3). rewrite E1, E2, E3.
    cbn [find_char]. change (124 =? 124) with true. cbv iota. destruct Hf as (Hn & Ha & _). pose proof (num_pos n Hn Ha). destruct (Z.leb_spec (num n) 0); [lia|].
    cbn [tl]. rewrite IH; [reflexivity|discriminate|]. rewrite app_length in Hl. cbn [List.length] in Hl. lia.
Qed.
Lemma psv_header_line {W} (h : hooks W) fuel ip temp c o fs ns : getting_lines c = false -> passed_through c = false ->
  Forall2 named fs ns -> (4 <= List.length fs)%nat ->
  exists c', xlate_ades2mpc h fuel ip temp c o (join fs) = Ret (0, o, c') /\ in_psv c' ns /\ tags c' = tags c /\ rest c' = rest c.
Proof.
  intros G P H L. unfold xlate_ades2mpc. rewrite P, G. set (c0 := if (depth c =? 0) && _ then _ else _).
  assert (C0 : getting_lines c0 = false /\ passed_through c0 = false /\ tags c0 = tags c /\ rest c0 = rest c) by (subst c0; destruct (_ && _); auto). clearbody c0.
  assert (N : fs <> []) by (destruct fs; [cbn in L; lia|discriminate]).
  assert (F : fields (join fs) = fs).
  { apply fields_join; [exact N|]. clear -H. induction H as [|f n fs ns Hf H IH]; constructor; [exact (named_no _ _ Hf)|exact IH]. }
  assert (S : Forall starts_lower fs). { clear -H. induction H as [|f n fs ns Hf H IH]; constructor; [exact (named_lower _ _ Hf)|exact IH]. }
  assert (LN : List.length fs = List.length ns) by (clear -H; induction H; cbn; congruence).
  unfold check_for_psv_header. rewrite header_fields_spec by lia. rewrite F. cbn [obind]. destruct (Forall_dec _ _ fs) as [_|NS]; [|tauto].
  destruct (Z.ltb_spec (0 + Z.of_nat (List.length fs)) 4); [lia|]. rewrite (header_tags_named fs ns H N) by lia. cbn [obind]. rewrite map_length.
  destruct (Z.eqb_spec (Z.of_nat (List.length ns)) 0); [lia|]. cbn [negb]. eexists. split; [reflexivity|]. destruct C0 as (A1 & A2 & A3 & A4).
  split; [|split; assumption]. split; [exact A1|]. split; [exact A2|]. split; [reflexivity|]. split; [reflexivity|]. split; [cbn; lia|].
  clear -H. induction H as [|f n fs ns Hf H IH]; constructor; [|exact IH]. destruct Hf as (? & ? & _). auto.
Qed.

(** Data lines. *)
Lemma count_spec : forall k s i, count_fields k (Some s) i = i + Z.of_nat (Nat.min k (List.length (fields s))).
Proof.
  induction k as [|k IH]; intros s i; [cbn; lia|]. cbn [count_fields]. destruct (fields_find s) as [[E1 E2]|(f & r & Es & NI & E1 & E2)]; rewrite E1, E2.
  - assert (X : forall i, count_fields k None i = i) by (destruct k; reflexivity). rewrite X. cbn [List.length]. lia.
  - cbn [tl]. rewrite IH. cbn [List.length]. lia.
Qed.
Lemma trim_end_snoc f x : trim_end (f ++ [x]) = if x =? 32 then trim_end f else f ++ [x].
Proof.
  induction f as [|y f IH]; [cbn; destruct (x =? 32); reflexivity|]. cbn [app trim_end]. rewrite IH. destruct (x =? 32).
  - reflexivity.
  - destruct f; reflexivity.
Qed.
Lemma drop_trim f t : drop_trailing (Z.eqb 32) (f ++ t) (List.length f) = List.length (trim_end f).
Proof.
  rewrite drop_trailing_pre by lia. clear t. induction f as [|x f IH] using rev_ind; [reflexivity|].
  rewrite app_length, Nat.add_comm. cbn [List.length Nat.add drop_trailing]. rewrite app_nth2 by lia. rewrite Nat.sub_diag. cbn [nth]. rewrite trim_end_snoc, (Z.eqb_sym x).
  destruct (32 =? x).
  - rewrite drop_trailing_pre by lia. exact IH.
  - rewrite app_length. cbn [List.length]. lia.
Qed.
Lemma skip_field f t : t = [] \/ (exists r, t = 124 :: r) -> skip_whitespace (f ++ t) = skip_blanks f ++ t.
Proof.
  intros Ht. unfold skip_blanks. change (skipn (span isspace f) f) with (skip_whitespace f). destruct (skip_ws_cases f) as [[Hb ->]|(a & x & r & -> & Ha & Hx & ->)].
  - rewrite skip_ws_app by exact Hb. destruct Ht as [->|[r ->]]; [reflexivity|]. apply skip_ws_stop. reflexivity.
  - rewrite <- app_assoc. rewrite skip_ws_app by exact Ha. cbn [app]. apply skip_ws_stop, Hx.
Qed.
Lemma field_skip f : field_ok f -> field_ok (skip_blanks f).
Proof. intros H. unfold field_ok, skip_blanks in *. rewrite <- (firstn_skipn (span isspace f) f) in H. apply Forall_app in H. apply H. Qed.
Lemma value_one {W} (h : hooks W) c n s len : depth c = 1 -> In n tag_names ->
  process_ades_tag h c (num n) s len = (do '(r, o, w) <- value h [n] (rest c) s len; Ret (r, o, set_rest c w)).
Proof.
  intros D Ht. pose proof (set_rest_same c) as SE. unfold process_ades_tag, value.
  change ADES_mpcCode with (num "mpcCode"). change ADES_name with (num "name"). change ADES_line with (num "line"). change ADES_institution with (num "institution").
  rewrite !(num_is n) by (assumption || inn).
  destruct (String.eqb n "mpcCode").
  - destruct (Nat.leb_spec 40 len), (Nat.ltb_spec len 40); try lia; [reflexivity|]. rewrite put_221_if.
    assert (LT : (List.length (zs "COD " ++ firstn len s ++ [10%Z]) < 221)%nat).
    { rewrite !app_length. cbn [zs List.length]. pose proof (firstn_le_length len s). lia. }
    apply Nat.ltb_lt in LT. rewrite LT. cbn [obind]. rewrite SE. reflexivity.
  - destruct (String.eqb n "name" || String.eqb n "line" || String.eqb n "institution").
    + rewrite D. cbn [Z.ltb Z.compare Pos.compare Pos.compare_cont obind]. rewrite SE. reflexivity.
    + destruct (h_tag h (rest c) (num n) s len) as [[[r o] w]| | |]; reflexivity.
Qed.
Definition after (fs : list (list Z)) : list Z := match fs with [] => [] | _ => 124 :: join fs end.
Lemma psv_tag_value {W} (h : hooks W) c o n f fs : depth c = 1 -> In n tag_names -> n <> "ades" -> field_ok f ->
  match (match trim f with
         | [] => Ret (rest c)
         | t => do '(_, _, w) <- value h [n] (rest c) (skip_blanks f ++ after fs) (List.length t); Ret w
         end) with
  | Ret w => exists o', process_psv_tag h c o (num n) (f ++ after fs) = Ret (o', set_rest c w)
  | UB => process_psv_tag h c o (num n) (f ++ after fs) = UB
  | Abort => process_psv_tag h c o (num n) (f ++ after fs) = Abort
  | Fuel => process_psv_tag h c o (num n) (f ++ after fs) = Fuel
  end.
Proof.
  intros D Hn Na Hf. unfold process_psv_tag. assert (Ha : after fs = [] \/ exists r, after fs = 124 :: r) by (destruct fs; [left; reflexivity|right; eexists; reflexivity]).
  rewrite (skip_field f _ Ha).
  assert (SP : span (fun x => negb (x =? 124) && (32 <=? x)) (skip_blanks f ++ after fs) = List.length (skip_blanks f)).
  { rewrite span_app.
    - destruct Ha as [->|[r ->]]; cbn; lia.
    - eapply Forall_impl; [|exact (field_skip _ Hf)]. cbn beta. intros x Hx. lia. }
  rewrite SP, drop_trim. fold (trim f). pose proof (num_pos n Hn Na). destruct (Z.leb_spec 0 (num n)); [|lia]. rewrite andb_true_r.
  destruct (trim f) as [|x t] eqn:E.
  - cbn [List.length Nat.ltb Nat.leb]. exists o. rewrite set_rest_same. reflexivity.
  - cbn [List.length]. change ((0 <? S (List.length t))%nat) with true. cbv iota. rewrite (value_one h c n _ _ D Hn).
    destruct (value h [n] (rest c) (skip_blanks f ++ after fs) (S (List.length t))) as [[[r o'] w]| | |]; cbn [obind]; try reflexivity. eauto.
Qed.
Lemma join_after f fs : join (f :: fs) = f ++ after fs.
Proof. destruct fs; cbn; [rewrite app_nil_r|]; reflexivity. Qed.
Lemma psv_loop_fields {W} (h : hooks W) all : forall fs ns done c o, all = (done ++ ns)%list -> List.length fs = List.length ns -> fs <> [] ->
  depth c = 1 -> Forall (fun n => In n tag_names /\ n <> "ades") ns -> Forall field_ok fs -> n_psv_fields c = Z.of_nat (List.length all) ->
  match feed_fields h ns fs (rest c) with
  | Ret w => exists o', psv_loop h (List.length ns) (Z.of_nat (List.length done)) c (map num all) o (Some (join fs)) = Ret (o', set_rest c w, None)
  | UB => psv_loop h (List.length ns) (Z.of_nat (List.length done)) c (map num all) o (Some (join fs)) = UB
  | Abort => psv_loop h (List.length ns) (Z.of_nat (List.length done)) c (map num all) o (Some (join fs)) = Abort
  | Fuel => psv_loop h (List.length ns) (Z.of_nat (List.length done)) c (map num all) o (Some (join fs)) = Fuel
  end.
Proof.
  induction fs as [|f fs IH]; intros ns done c o Ea El Ne D Fn Ff Np; [congruence|]. destruct ns as [|n ns]; [discriminate|].
  cbn [feed_fields List.length psv_loop]. unfold nth_ub. destruct (Z.ltb_spec (Z.of_nat (List.length done)) 0); [lia|]. rewrite Nat2Z.id.
  assert (N : nth_error (map num all) (List.length done) = Some (num n)).
  { rewrite Ea, map_app, nth_error_app2 by (rewrite map_length; lia). rewrite map_length, Nat.sub_diag. reflexivity. }
  rewrite N. cbn [obind]. inversion Fn as [|? ? [Hn Na] Fn']; subst. inversion Ff as [|? ? Hf Ff']; subst.
  rewrite join_after. change (match fs with [] => [] | _ :: _ => 124 :: join fs end) with (after fs).
  pose proof (psv_tag_value h c o n f fs D Hn Na Hf) as Q.
  destruct (match trim f with [] => _ | _ => _ end) as [w| | |]; cbn [obind]; try (rewrite Q; reflexivity).
  destruct Q as (o' & ->). cbn [obind]. change (n_psv_fields (set_rest c w)) with (n_psv_fields c).
  assert (FC : find_char 124 (f ++ after fs) = find_char 124 (after fs)).
  { clear -Hf. induction Hf as [|x f Hx _ IH]; [reflexivity|]. cbn [app find_char]. destruct (Z.eqb_spec x 124); [lia|exact IH]. }
  rewrite FC. destruct fs as [|g fs].
  - destruct ns; [|discriminate]. cbn [after find_char List.length]. rewrite Np, app_length. cbn [List.length].
    destruct (Z.eqb_spec (Z.of_nat (List.length done)) (Z.of_nat (List.length done + 1) - 1)); [|lia]. cbn [obind psv_loop feed_fields]. eauto.
  - destruct ns as [|n2 ns]; [discriminate|]. cbn [after find_char]. change (124 =? 124) with true. cbv iota.
    destruct (Z.eqb_spec (Z.of_nat (List.length done)) (n_psv_fields c - 1)) as [X|_]; [rewrite Np, app_length in X; cbn [List.length] in X; lia|]. cbn [obind tl].
    specialize (IH (n2 :: ns) (done ++ [n])%list (set_rest c w) o').
    rewrite <- app_assoc in IH. cbn [app] in IH. replace (Z.of_nat (List.length done) + 1) with (Z.of_nat (List.length (done ++ [n]))) by (rewrite app_length; cbn [List.length]; lia).
    change (rest (set_rest c w)) with w in IH. cbn [List.length] in El |- *.
    apply IH; try assumption; try reflexivity; try discriminate. cbn [List.length]. lia.
Qed.

Lemma fields_ok_join fs : fs <> [] -> Forall field_ok fs -> fields (join fs) = fs.
Proof.
  intros N F. apply fields_join; [exact N|]. eapply Forall_impl; [|exact F]. cbn beta. intros f Hf X. unfold field_ok in Hf. rewrite Forall_forall in Hf. specialize (Hf _ X). lia.
Qed.
Lemma psv_data_line {W} (h : hooks W) fuel temp c fs ns : in_psv c ns -> ns <> [] -> List.length fs = List.length ns -> Forall field_ok fs -> ~ psv_header (join fs) ->
  xlate_ades2mpc h fuel true temp c (join fs) (join fs) =
  do w <- feed_fields h ns fs (h_setup h (rest c));
  do '(more, o, w) <- h_line h w (join fs);
  Ret (if more : bool then 1 else 0, o, set_getting (set_rest c w) more).
Proof.
  intros (G & P & D & Pt & Np & Fn) Nn L Ff H. assert (Nf : fs <> []) by (destruct fs; [destruct ns; [congruence|discriminate]|discriminate]).
  unfold xlate_ades2mpc. rewrite P, G, D. cbn [Z.eqb andb]. rewrite (no_header _ _ H). cbn [obind Z.eqb negb]. rewrite Pt. unfold process_psv_line.
  rewrite Np, count_spec, (fields_ok_join fs Nf Ff). replace (0 + Z.of_nat (Nat.min (Z.to_nat (Z.of_nat (List.length ns) + 1)) (List.length fs))) with (Z.of_nat (List.length ns)) by lia.
  rewrite Z.eqb_refl. cbn [negb]. rewrite Nat2Z.id.
  pose proof (psv_loop_fields h ns fs ns [] (setup_observation h c) temp eq_refl L Nf D Fn Ff Np) as Q. cbn [List.length] in Q. change (Z.of_nat 0) with 0 in Q.
  change (rest (setup_observation h c)) with (h_setup h (rest c)) in Q.
  destruct (feed_fields h ns fs (h_setup h (rest c))) as [w| | |]; cbn [obind]; try (rewrite Q; reflexivity).
  destruct Q as (o' & ->). cbn [obind Z.eqb negb andb]. cbn [getting_lines set_getting]. unfold get_a_line. cbn [rest set_getting set_rest setup_observation].
  destruct (h_line h w (join fs)) as [[[more o2] w2]| | |]; cbn [obind]; try reflexivity. destruct more; reflexivity.
Qed.
Lemma psv_ends {W} (h : hooks W) fuel ip temp c o s ns : in_psv c ns -> List.length (fields s) <> List.length ns -> plain s -> not_tholen h s ->
  xlate_ades2mpc h fuel ip temp c o s = (do o <- (if ip then Ret s else put_221 s); Ret (1, o, set_passed (set_depth (set_psv c 0 None) 0 (tags c)) true)).
Proof.
  intros (G & P & D & Pt & Np & Fn) L (H1 & H2 & H3 & H4) T. unfold xlate_ades2mpc. rewrite P, G, D. cbn [Z.eqb andb]. rewrite (no_header _ _ H3). cbn [obind Z.eqb negb]. rewrite Pt.
  unfold process_psv_line. rewrite Np, count_spec. destruct (Z.eqb_spec (0 + Z.of_nat (Nat.min (Z.to_nat (Z.of_nat (List.length ns) + 1)) (List.length (fields s)))) (Z.of_nat (List.length ns))); [lia|].
  cbn [negb obind Z.eqb]. rewrite T. cbn [obind]. rewrite (not_info _ H4). cbn [andb obind Z.eqb negb]. cbn [depth set_rest set_depth Z.eqb andb]. rewrite (contains_false _ _ H2). reflexivity.
Qed.

(** Lines of header data, "# observers" and "! name J. Doe". *)
Lemma info_tag n t : In n tag_names -> t = [] \/ (exists x r, t = x :: r /\ x <= 32) ->
  span (fun x => 32 <? x) (zs n ++ t) = List.length (zs n) /\ find_tag (zs n ++ t) (List.length (zs n)) = num n.
Proof.
  intros Hn Ht. destruct (name_chars n Hn) as (Fn & _ & _). split; [|apply tag_found, Hn]. rewrite span_app.
  - destruct Ht as [->|(x & r & -> & Hx)]; [cbn; lia|]. rewrite span_stop by lia. lia.
  - eapply Forall_impl; [|exact Fn]. cbn beta. intros x Hx. apply alnum_range in Hx. lia.
Qed.
Lemma no_header_mark x s : x = 35 \/ x = 33 -> ~ psv_header (x :: s).
Proof.
  intros Hx (_ & F). destruct (fields_cons (x :: s)) as (f & l & E). rewrite E in F. inversion F as [|? ? (a & y & b & Ef & Ha & Hy) _]; subst f.
  assert (S : starts_lower (x :: s)).
  { destruct (fields_find (x :: s)) as [[_ E2]|(f' & r & Es & _ & _ & E2)]; rewrite E in E2; injection E2 as E2 _.
    - exists a, y, b. auto.
    - exists a, y, (b ++ 124 :: r). rewrite Es, <- E2, <- app_assoc. auto. }
  apply starts_lower_skip in S. destruct S as (z & r & S & L). rewrite skip_ws_stop in S by (destruct Hx as [->| ->]; reflexivity). injection S as -> ->. destruct Hx as [->| ->]; discriminate.
Qed.
Lemma info_container {W} (h : hooks W) fuel temp c p t : outside c -> List.length (tags c) = MAX_DEPTH -> In p tag_names ->
  t = [] \/ (exists x r, t = x :: r /\ x <= 32) -> not_tholen h (zs "# " ++ zs p ++ t) -> ~ occurs (zs "<optical>") (zs "# " ++ zs p ++ t) ->
  exists c', xlate_ades2mpc h fuel true temp c (zs "# " ++ zs p ++ t) (zs "# " ++ zs p ++ t) = Ret (0, zs "# " ++ zs p ++ t, c') /\
    outside c' /\ List.length (tags c') = MAX_DEPTH /\ nth_error (tags c') 1 = Some (num p) /\ rest c' = rest c.
Proof.
  intros (D & G & P & N) L Hp Ht T O. unfold xlate_ades2mpc. rewrite P, G, D, (contains_false _ _ O). cbn [Z.eqb andb].
  rewrite no_header by (apply no_header_mark; auto). cbn [obind Z.eqb negb]. rewrite N. cbn [obind Z.eqb]. rewrite T. cbn [obind].
  set (line := zs "# " ++ zs p ++ t) in *. assert (X : (0 =? 0) && (match line with a :: 32 :: _ => (a =? 35) || (a =? 33) | _ => false end) = true) by reflexivity. rewrite X. clear X.
  rewrite set_rest_same. unfold process_psv_header. subst line. change (skipn 2 (zs "# " ++ zs p ++ t)) with (zs p ++ t). destruct (info_tag p t Hp Ht) as (-> & ->).
  destruct (name_chars p Hp) as (_ & _ & Hpos). destruct (Z.leb_spec 0 (num p)); [|lia]. change (nth 0 (zs "# " ++ zs p ++ t) 0 =? 35) with true. cbv iota.
  unfold set_ub. rewrite L. change ((1 <? 0) || (Z.of_nat MAX_DEPTH <=? 1)) with false. cbv iota. cbn [obind Z.eqb negb Pos.eqb]. eexists. split; [reflexivity|].
  unfold outside. cbn [depth getting_lines passed_through psv_tags set_passed set_depth tags rest]. repeat split; try assumption.
  - rewrite upd_len. exact L.
  - change (Z.to_nat 1) with 1%nat. destruct (tags c) as [|a [|b l]]; try discriminate L. reflexivity.
Qed.
Lemma info_name {W} (h : hooks W) fuel temp c p n text : outside c -> List.length (tags c) = MAX_DEPTH -> nth_error (tags c) 1 = Some (num p) -> In p tag_names ->
  n = "name" \/ n = "line" \/ n = "institution" -> Forall (fun x => 32 <= x) text -> text <> [] -> hd 0 text <> 32 ->
  (List.length (name_line p text) < 221)%nat -> not_tholen h (zs "! " ++ zs n ++ 32 :: text) -> ~ occurs (zs "<optical>") (zs "! " ++ zs n ++ 32 :: text) ->
  exists c', xlate_ades2mpc h fuel true temp c (zs "! " ++ zs n ++ 32 :: text) (zs "! " ++ zs n ++ 32 :: text) = Ret (1, name_line p text, c') /\
    outside (set_passed c' false) /\ passed_through c' = true /\ rest c' = rest c /\ nth_error (tags c') 1 = Some (num p) /\ List.length (tags c') = MAX_DEPTH.
Proof.
  intros (D & G & P & N) L N1 Hp Hn F Ne Hd Hl T O. unfold xlate_ades2mpc. rewrite P, G, D, (contains_false _ _ O). cbn [Z.eqb andb].
  rewrite no_header by (apply no_header_mark; auto). cbn [obind Z.eqb negb]. rewrite N. cbn [obind Z.eqb]. rewrite T. cbn [obind].
  set (line := zs "! " ++ zs n ++ 32 :: text) in *. assert (X : (0 =? 0) && (match line with a :: 32 :: _ => (a =? 35) || (a =? 33) | _ => false end) = true) by reflexivity. rewrite X. clear X.
  assert (In n tag_names) as Hin by (destruct Hn as [->|[->| ->]]; inn).
  rewrite set_rest_same. unfold process_psv_header. subst line. change (skipn 2 (zs "! " ++ zs n ++ 32 :: text)) with (zs n ++ 32 :: text).
  destruct (info_tag n (32 :: text) Hin) as (-> & ->); [right; exists 32, text; split; [reflexivity|lia]|].
  destruct (name_chars n Hin) as (_ & _ & Hpos). destruct (Z.leb_spec 0 (num n)); [|lia]. change (nth 0 (zs "! " ++ zs n ++ 32 :: text) 0 =? 35) with false. cbv iota.
  unfold set_ub. rewrite L. change ((2 <? 0) || (Z.of_nat MAX_DEPTH <=? 2)) with false. cbv iota. cbn [obind].
  rewrite (skipn_len (zs n)). change (skip_whitespace (32 :: text)) with (skip_whitespace text). 
  destruct text as [|x text]; [congruence|]. cbn [hd] in Hd. inversion F as [|? ? Hx F']; subst.
  rewrite skip_ws_stop by (unfold isspace; lia). rewrite (span_all _ (x :: text)) by (eapply Forall_impl; [|exact F]; cbn beta; intros y Hy; lia).
  set (c1 := set_depth c 3 (upd (tags c) (Z.to_nat 2) (num n))).
  assert (PT : process_ades_tag h c1 (num n) (x :: text) (List.length (x :: text)) = Ret (1, name_line p (x :: text), c1)).
  { unfold process_ades_tag. rewrite firstn_all. replace (num n =? ADES_mpcCode) with false by (destruct Hn as [->|[->| ->]]; reflexivity).
    replace ((num n =? ADES_name) || (num n =? ADES_line) || (num n =? ADES_institution)) with true by (destruct Hn as [->|[->| ->]]; reflexivity).
    change (1 <? depth c1) with true. cbv iota. change (depth c1 - 2) with 1. subst c1. cbn [tags set_depth]. unfold nth_ub. cbn [Z.ltb Z.compare].
    change (Z.to_nat 1) with 1%nat. change (Z.to_nat 2) with 2%nat.
    assert (N1' : nth_error (upd (tags c) 2 (num n)) 1 = Some (num p)) by (destruct (tags c) as [|a [|b [|d l]]]; try discriminate L; exact N1).
    rewrite N1'. cbn [obind]. change ADES_mpcCode with (num "mpcCode").
    change ADES_comment with (num "comment"). change ADES_observatory with (num "observatory"). change ADES_observers with (num "observers").
    change ADES_measurers with (num "measurers"). change ADES_submitter with (num "submitter").
    rewrite !(num_is p) by (assumption || inn). unfold name_line in *. rewrite !put_221_if.
    apply Nat.ltb_lt in Hl.
    assert (K : forall (d : ctx W) (y : list Z), (List.length y <? 221)%nat = true -> (do o <- (if (List.length y <? 221)%nat then Ret y else Abort); Ret (1, o, d)) = Ret (1, y, d)) by (intros d y ->; reflexivity).
    destruct (String.eqb p "mpcCode"), (String.eqb p "comment"), (String.eqb p "observatory"), (String.eqb p "observers"), (String.eqb p "measurers"), (String.eqb p "submitter");
      cbn [orb]; apply K; exact Hl. }
  rewrite PT. cbn [obind Z.eqb negb Pos.eqb]. rewrite put_221_if. pose proof Hl as Hl'. apply Nat.ltb_lt in Hl'. rewrite Hl'. cbn [obind]. eexists. split; [reflexivity|].
  subst c1. unfold outside. cbn [depth getting_lines passed_through psv_tags set_passed set_depth tags rest]. repeat split; try assumption.
  - change (Z.to_nat 2) with 2%nat. destruct (tags c) as [|a [|b [|d l]]]; try discriminate L. exact N1.
  - rewrite upd_len. exact L.
Qed.
