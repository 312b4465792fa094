(** create_mpc_packed_desig( ) on arbitrary names. *)
From Coq Require Import Lia ZifyBool String Bool.
From Verif Require Import CBase CLemmas CStr StrModel StrProofs DesigModel DesigBase DesigUnpack DesigPack DesigSpec.
Open Scope list_scope.

Definition post {A} (m : outcome A) (P : A -> Prop) : Prop := exists x, m = Ret x /\ P x.
Lemma post_ret {A} (x : A) (P : A -> Prop) : P x -> post (Ret x) P.
Proof. intros H. exists x. split; [reflexivity|exact H]. Qed.
Lemma post_bind {A B} (m : outcome A) (k : A -> outcome B) (P : B -> Prop) : post m (fun x => post (k x) P) -> post (obind m k) P.
Proof. intros (x & -> & H). exact H. Qed.
Lemma post_and (m1 m2 : outcome bool) (P : bool -> Prop) : post m1 (fun a => if a then post m2 P else P false) -> post (m1 &&& m2) P.
Proof. intros (a & -> & H). unfold oand. cbn [obind]. destruct a; [exact H|apply post_ret, H]. Qed.
Lemma post_weak {A} (m : outcome A) (P Q : A -> Prop) : post m P -> (forall x, P x -> Q x) -> post m Q.
Proof. intros (x & H1 & H2) H. exists x. split; [exact H1|apply H, H2]. Qed.

Lemma at_chr s i : (i <= length s)%nat -> at_ s (Z.of_nat i) = Ret (nth i s 0).
Proof.
  intros H. destruct (Nat.eq_dec i (length s)) as [->|].
  - rewrite at_end, nth_overflow by lia. reflexivity.
  - rewrite at_nth by lia. rewrite Nat2Z.id. reflexivity.
Qed.
Lemma post_at s i (P : Z -> Prop) : (i <= length s)%nat -> P (nth i s 0) -> post (at_ s (Z.of_nat i)) P.
Proof. intros H1 H2. rewrite at_chr by exact H1. apply post_ret, H2. Qed.
Lemma post_tst s i f (P : bool -> Prop) : (i <= length s)%nat -> P (f (nth i s 0)) -> post (tst s (Z.of_nat i) f) P.
Proof. intros H1 H2. unfold tst. rewrite at_chr by exact H1. cbn [obind]. apply post_ret, H2. Qed.
Lemma nth_in s i : nth i s 0 <> 0 -> (i < length s)%nat.
Proof. intros H. destruct (Nat.lt_ge_cases i (length s)) as [|G]; [assumption|]. rewrite nth_overflow in H by exact G. contradiction. Qed.

(* ---------- the hypotheses on the name ---------- *)
Lemma span_all f s : forallb f (firstn (span f s) s) = true.
Proof. induction s as [|c s IH]; [reflexivity|]. cbn [span]. destruct (f c) eqn:E; [cbn; rewrite E; exact IH|reflexivity]. Qed.
Lemma dig_val_digits d : forall acc, 0 <= acc -> forallb isdigit d = true -> dig_val acc d < (acc + 1) * 10 ^ Z.of_nat (length d).
Proof.
  induction d as [|c d IH]; intros acc Ha H; [cbn; lia|]. cbn [forallb] in H. apply andb_prop in H as (H1 & H2).
  cbn [dig_val length]. rewrite H1. specialize (IH (acc * 10 + (c - 48)) ltac:(unfold isdigit in H1; lia) H2).
  rewrite Nat2Z.inj_succ, Z.pow_succ_r by lia.
  assert (0 < 10 ^ Z.of_nat (length d)) by (apply Z.pow_pos_nonneg; lia). unfold isdigit in H1. nia.
Qed.
Lemma dig_val_span s : forall acc, dig_val acc s = dig_val acc (firstn (span isdigit s) s).
Proof. induction s as [|c s IH]; intros acc; [reflexivity|]. cbn [span dig_val]. destruct (isdigit c) eqn:E; [cbn; rewrite E; apply IH|reflexivity]. Qed.
Lemma short_val s i : short_numbers s -> 0 <= dig_val 0 (skipn i s) < 10000000.
Proof.
  intros H. split; [apply dig_val_mono; lia|]. rewrite dig_val_span.
  set (t := skipn i s). pose proof (span_all isdigit t) as SA.
  assert (L : (length (firstn (span isdigit t) t) <= 7)%nat).
  { apply (H (firstn i s) _ (skipn (span isdigit t) t)); [|exact SA]. rewrite firstn_skipn. unfold t. symmetry. apply firstn_skipn. }
  pose proof (dig_val_digits _ 0 ltac:(lia) SA) as X.
  assert (10 ^ Z.of_nat (length (firstn (span isdigit t) t)) <= 10 ^ 7) by (apply Z.pow_le_mono_r; lia). lia.
Qed.
Lemma short_skip k s : short_numbers s -> short_numbers (skipn k s).
Proof.
  intros H p d q E. apply (H (firstn k s ++ p) d q). rewrite <- app_assoc, <- E. symmetry. apply firstn_skipn.
Qed.
Lemma no620_skip k s : no_620 s -> no_620 (skipn k s).
Proof.
  intros H p h q E. apply (H (firstn k s ++ p) h q). rewrite <- app_assoc, <- E. symmetry. apply firstn_skipn.
Qed.
Lemma nonul_skip k s : no_nul s -> no_nul (skipn k s).
Proof. intros H c I. apply H. rewrite <- (firstn_skipn k s). apply in_or_app. right. exact I. Qed.
Lemma nonul_first k s : no_nul s -> no_nul (firstn k s).
Proof. intros H c I. apply H. rewrite <- (firstn_skipn k s). apply in_or_app. left. exact I. Qed.
Lemma nonul_nth s i : no_nul s -> (i < length s)%nat -> nth i s 0 <> 0.
Proof. intros H L. apply H, nth_In, L. Qed.

Lemma atoi_post s k (P : Z -> Prop) : short_numbers s -> (forall v, -10000000 < v < 10000000 -> P v) -> post (atoi (skipn k s)) P.
Proof.
  intros H HP. unfold atoi. set (t := skipn (span isspace (skipn k s)) (skipn k s)).
  assert (S : short_numbers t) by (unfold t; apply short_skip, short_skip, H).
  assert (D : forall z, -10000000 < z < 10000000 -> post (chk IMAX z) P).
  { intros z Hz. rewrite chk_ok by (unfold fits, IMAX; lia). apply post_ret, HP, Hz. }
  assert (V0 := short_val t 0 S). cbn [skipn] in V0.
  assert (V1 := short_val t 1 S).
  destruct t as [|c r]; [apply D; cbn; lia|]. cbn [skipn] in V1.
  assert (X : forall A (x y z : A) (Q : A -> Prop), Q x -> Q y -> Q z -> Q match c with 45 => x | 43 => y | _ => z end).
  { intros A x y z Q Q1 Q2 Q3. destruct c as [|p|p]; try exact Q3.
    repeat (destruct p as [p|p|]; try exact Q3; try exact Q1; try exact Q2). }
  apply (X _ _ _ _ (fun m => post m P)); apply D; lia.
Qed.
Lemma quick_atoi_post s k (P : Z -> Prop) : short_numbers s -> P (dig_val 0 (skipn k s)) -> post (quick_atoi (skipn k s) 0) P.
Proof.
  intros H HP. pose proof (short_val s k H). rewrite quick_atoi_val by (unfold IMAX; lia). apply post_ret, HP.
Qed.
Lemma roman_post s : forall acc (P : Z -> Prop), Z.abs acc + 1000 * Z.of_nat (length s) <= IMAX ->
  (forall v, P v) -> post (extract_roman_loop s acc) P.
Proof.
  induction s as [|c r IH]; intros acc P B HP; [apply post_ret, HP|].
  cbn [extract_roman_loop]. set (nx := match r with d :: _ => d | [] => 0 end). clearbody nx.
  assert (K : forall v, -1000 <= v <= 1000 -> post (do x <- ev IMAX (acc + v)%cx; extract_roman_loop r x) P).
  { intros v Hv. cbn [length] in B. rewrite ev_val by (cbn; unfold fits, IMAX in *; lia). cbn [val obind]. apply IH; [lia|exact HP]. }
  destruct (c =? 73); [destruct (_ || _); apply K; lia|]. destruct (c =? 86); [apply K; lia|].
  destruct (c =? 88); [destruct (_ || _); apply K; lia|]. destruct (c =? 76); [apply K; lia|].
  destruct (c =? 67); [destruct (_ || _); apply K; lia|]. destruct (c =? 68); [apply K; lia|].
  destruct (c =? 77); [apply K; lia|]. apply post_ret, HP.
Qed.

(* ---------- the buffer ---------- *)
Definition good (r b : buf) : Prop := exists q, b = W (q ++ [0]) r /\ length q = 12%nat /\ no_nul q.

Lemma good_wr r b k c (P : buf -> Prop) : good r b -> 0 <= k < 12 -> c <> 0 -> (forall b', good r b' -> P b') -> post (wr b k c) P.
Proof.
  intros (q & -> & L & N) Hk Hc HP. rewrite W_wr by (rewrite app_length; cbn [length]; lia). apply post_ret, HP.
  exists (upd q (Z.to_nat k) c). split; [rewrite upd_app by lia; reflexivity|]. split; [rewrite upd_len; exact L|].
  assert (U : forall n (l : list Z), no_nul l -> no_nul (upd l n c)).
  { intros n l. revert n. induction l as [|x l IH]; intros n Hl; destruct n; cbn [upd]; try exact Hl.
    - apply no_nul_cons; [exact Hc|]. intros y I. apply Hl. right. exact I.
    - apply no_nul_cons; [apply Hl; left; reflexivity|]. apply IH. intros y I. apply Hl. right. exact I. }
  apply U, N.
Qed.
Lemma good_store r b i s (P : buf -> Prop) : good r b -> (i + length s <= 12)%nat -> no_nul s -> (forall b', good r b' -> P b') ->
  post (store b (Z.of_nat i) s) P.
Proof.
  intros (q & -> & L & N) Hk Hc HP. rewrite W_store by (rewrite app_length; cbn [length]; lia). apply post_ret, HP.
  exists (firstn i q ++ s ++ skipn (i + length s) q). split.
  - f_equal. rewrite firstn_app, skipn_app. replace (i - length q)%nat with 0%nat by lia. replace (i + length s - length q)%nat with 0%nat by lia.
    cbn [firstn skipn]. rewrite app_nil_r, <- !app_assoc. reflexivity.
  - split; [rewrite !app_length, firstn_length, skipn_length; lia|].
    apply no_nul_app; [apply nonul_first, N|]. apply no_nul_app; [exact Hc|apply nonul_skip, N].
Qed.
Lemma good_snprintf r b out (P : Z * buf -> Prop) : good r b -> length out = 12%nat -> no_nul out -> (forall n b', good r b' -> P (n, b')) ->
  post (snprintf_err b 0 PACKED_DESIG_LEN out) P.
Proof.
  intros (q & -> & L & N) Lo No HP. rewrite W_snprintf by (rewrite ?app_length; cbn [length]; unfold PACKED_DESIG_LEN; lia).
  apply post_ret, HP. exists out. split; [|split; assumption]. f_equal. rewrite skipn_all2; [reflexivity|]. rewrite app_length. cbn [length]. lia.
Qed.
Lemma good_encode r b i v (P : Z * buf -> Prop) : good r b -> (i + 4 <= 12)%nat -> 0 <= v -> (forall n b', good r b' -> P (n, b')) ->
  post (encode_value_in_mutant_hex b (Z.of_nat i) 4 v) P.
Proof.
  intros (q & -> & L & N) Hi Hv HP. rewrite W_encode by (rewrite ?app_length; cbn [length]; lia).
  apply post_ret, HP. exists (firstn i q ++ enc62 4 v ++ skipn (i + 4) q). split.
  - f_equal. rewrite firstn_app, skipn_app. replace (i - length q)%nat with 0%nat by lia. replace (i + 4 - length q)%nat with 0%nat by lia.
    cbn [firstn skipn]. rewrite app_nil_r, <- !app_assoc. reflexivity.
  - split; [rewrite !app_length, firstn_length, skipn_length, enc62_length; lia|].
    apply no_nul_app; [apply nonul_first, N|]. apply no_nul_app; [|apply nonul_skip, N].
    intros c I. apply isalnum_nz. apply (enc62_alnum 4 v), I.
Qed.
Lemma good_rd r b k (P : Z -> Prop) : good r b -> 0 <= k < 12 -> (forall c, c <> 0 -> P c) -> post (rd b k) P.
Proof.
  intros (q & -> & L & N) Hk HP. rewrite W_rd by (rewrite ?app_length; cbn [length]; lia). apply post_ret, HP.
  rewrite app_nth1 by lia. apply nonul_nth; [exact N|lia].
Qed.
Lemma good_blank r : good r (W blank r).
Proof. exists (repeat 32 12). split; [reflexivity|]. split; [reflexivity|]. intros c H. apply repeat_spec in H. lia. Qed.

(* ---------- the functions ---------- *)
Definition fineN (r : buf) (x : Z * buf) : Prop := -1 <= fst x /\ good r (snd x).
Definition fine (r : buf) (x : Z * buf) : Prop := (fst x = 0 \/ fst x = -1) /\ good r (snd x).

Lemma prefix_len p : forall s, prefix p s = true -> (length p <= length s)%nat.
Proof. induction p as [|c p IH]; intros [|d s] H; cbn in *; try lia; try discriminate. apply andb_prop in H as (_ & H). apply IH in H. lia. Qed.

Lemma natsat_post names : forall i r b s, 0 <= i -> good r b -> no_nul s -> short_numbers s -> Z.of_nat (length s) <= 2000000 ->
  (forall nm, In nm names -> nm <> []) ->
  post (pack_natsat_loop names i b s) (fineN r).
Proof.
  induction names as [|nm l IH]; intros i r b s Hi G N S L Hne; [apply post_ret; split; [discriminate|exact G]|].
  cbn [pack_natsat_loop]. apply post_bind, post_and, post_ret.
  assert (K : forall v, (prefix nm s = true \/ v = 0) -> post (if (0 <? v) && (v <? 1000) then
     do c0 <- at_ s 0; do '(_, b0) <- snprintf_err b 0 PACKED_DESIG_LEN ([c0] ++ pad0 3 v ++ zs "S       "); Ret (i, b0)
     else pack_natsat_loop l (i + 1) b s) (fineN r)).
  { intros v Hv. destruct ((0 <? v) && (v <? 1000)) eqn:E.
    - destruct Hv as [Hv|]; [|lia]. apply prefix_len in Hv. assert (nm <> []) by (apply Hne; left; reflexivity).
      assert (0 < length s)%nat by (destruct nm; [contradiction|cbn in Hv; lia]).
      apply post_bind. change 0 with (Z.of_nat 0) at 1. apply post_at; [lia|]. apply post_bind. apply (good_snprintf r); [exact G| | |].
      + rewrite pad0_3 by lia. reflexivity.
      + rewrite pad0_3 by lia. apply no_nul_app; [apply no_nul_cons; [apply nonul_nth; [exact N|lia]|apply no_nul_nil]|].
        apply no_nul_app; [|intros c I; cbn in I; repeat (destruct I as [<-|I]; [discriminate|]); destruct I].
        intros c [<-|[<-|[<-|[]]]]; lia.
      + intros n b' G'. apply post_ret. split; [cbn [fst]; lia|exact G'].
    - apply IH; try assumption; [lia|]. intros x Hx. apply Hne. right. exact Hx. }
  destruct (prefix nm s) eqn:P.
  - pose proof (prefix_len _ _ P) as PL. apply post_tst; [exact PL|]. destruct (nth (length nm) s 0 =? 32).
    + apply post_bind, post_bind, atoi_post; [exact S|]. intros v _. destruct (v =? 0).
      * apply roman_post; [|intros v'; apply K; left; reflexivity]. rewrite skipn_length. unfold IMAX. lia.
      * apply post_ret, K. left. reflexivity.
    + apply post_bind, post_ret, K. left. reflexivity.
  - apply post_bind, post_ret, K. right. reflexivity.
Qed.

Lemma prov_natsat_post r b s : good r b -> no_nul s -> short_numbers s ->
  post (pack_provisional_natsat b s) (fine r).
Proof.
  intros G N S. unfold pack_provisional_natsat.
  assert (F : post (Ret (-1, b)) (fine r)) by (apply post_ret; split; [auto|exact G]).
  apply post_bind. apply post_and, post_and, post_and, post_and, post_and.
  change 0 with (Z.of_nat 0) at 1. apply post_tst; [lia|]. destruct (nth 0 s 0 =? 83) eqn:E0; [|exact F].
  assert (0 < length s)%nat by (apply nth_in; lia).
  change 1 with (Z.of_nat 1) at 1. apply post_tst; [lia|]. destruct (nth 1 s 0 =? 47); [|exact F].
  apply post_ret. destruct (Nat.ltb_spec 9 (length s)); [|exact F].
  change 6 with (Z.of_nat 6) at 1. apply post_tst; [lia|]. destruct (nth 6 s 0 =? 32); [|exact F].
  change 8 with (Z.of_nat 8) at 1. apply post_tst; [lia|]. destruct (nth 8 s 0 =? 32); [|exact F].
  change 7 with (Z.of_nat 7) at 1. apply post_tst; [lia|]. destruct (strchr (zs "MVEMJSUNP") (nth 7 s 0)); [|exact F].
  cbn [negb]. apply post_bind, atoi_post; [exact S|]. intros y _. apply post_bind, atoi_post; [exact S|]. intros n _.
  destruct ((1900 <? y) && (y <? 2100) && (0 <? n) && (n <? 620)) eqn:E; [|exact F].
  apply post_bind. change 7 with (Z.of_nat 7) at 1. apply post_at; [lia|]. apply post_bind.
  rewrite !Z.quot_div_nonneg, !Z.rem_mod_nonneg by lia. rewrite pad0_2 by lia. unfold to_char. rewrite !wrap8_id by lia.
  apply (good_snprintf r); [exact G|reflexivity| |].
  - apply no_nul_app; [intros c I; cbn in I; repeat (destruct I as [<-|I]; [discriminate|]); destruct I|].
    cbn [app]. repeat (apply no_nul_cons; [first [lia|apply nonul_nth; [exact N|lia]|apply isalnum_nz, hex_alnum; lia]|]). apply no_nul_nil.
  - intros k b' G'. apply post_ret. split; [auto|exact G'].
Qed.

Lemma satellite_post r b s len number : good r b -> no_nul s -> short_numbers s -> Z.of_nat (length s) <= 2000000 ->
  (len <= length s)%nat -> (4 <= length s)%nat \/ number < 1957 ->
  post (pack_satellite b s len number) (fine r).
Proof.
  intros G N S L Hlen H4. unfold pack_satellite.
  assert (F : post (Ret (-1, b)) (fine r)) by (apply post_ret; split; [auto|exact G]).
  assert (Sat : post (do '(r0, b0) <- pack_permanent_natsat b s; if 0 <=? r0 then Ret (0, b0)
     else do '(r1, b1) <- pack_provisional_natsat b0 s; Ret (if 0 <=? r1 then 0 else -1, b1)) (fine r)).
  { apply post_bind. unfold pack_permanent_natsat. eapply post_weak; [apply (natsat_post _ 0 r); try assumption; [lia|]|].
    - intros nm I. cbn in I. repeat (destruct I as [<-|I]; [discriminate|]). destruct I.
    - intros (r0 & b0) (Hr & G0). cbn [fst snd] in *. destruct (0 <=? r0); [apply post_ret; split; [auto|exact G0]|].
      apply post_bind. eapply post_weak; [apply (prov_natsat_post r); assumption|].
      intros (r1 & b1) (Hr1 & G1). cbn [fst snd] in *. apply post_ret. split; [destruct (0 <=? r1); auto|exact G1]. }
  apply post_bind, post_and, post_and, post_ret.
  destruct ((1957 <=? number) && (number <? 2100)) eqn:EN; [|exact Sat].
  change 4 with (Z.of_nat 4) at 1. apply post_tst; [lia|]. destruct (nth 4 s 0 =? 45) eqn:E4; [|exact Sat].
  apply post_ret. destruct ((9 <=? len)%nat && (len <=? 11)%nat) eqn:EL; [|exact Sat].
  apply post_bind. apply post_and, post_and, post_and.
  change 5 with (Z.of_nat 5) at 1. apply post_tst; [lia|]. destruct (isdigit (nth 5 s 0)); [|exact F].
  change 6 with (Z.of_nat 6) at 1. apply post_tst; [lia|]. destruct (isdigit (nth 6 s 0)); [|exact F].
  change 7 with (Z.of_nat 7) at 1. apply post_tst; [lia|]. destruct (isdigit (nth 7 s 0)); [|exact F].
  change 8 with (Z.of_nat 8) at 1. apply post_tst; [lia|]. destruct (isupper (nth 8 s 0)); [|exact F].
  apply post_bind. change 0 with (Z.of_nat 0) at 1. apply (good_store r); [exact G|rewrite firstn_length; lia|apply nonul_first, N|].
  intros b' G'. apply post_ret. split; [auto|exact G'].
Qed.

Lemma slash_post r b s i len number comet : good r b -> no_nul s -> (i <= length s)%nat -> 0 < number < 10000 -> comet <> 0 ->
  post (pack_slash_comet b s i len number comet) (fine r).
Proof.
  intros G N Hi Hn Hc. unfold pack_slash_comet.
  assert (F : forall b, good r b -> post (Ret (-1, b)) (fine r)) by (intros b0 G0; apply post_ret; split; [auto|exact G0]).
  assert (K : forall n, (n = 0 \/ n = 1 /\ (i + 1 < length s)%nat /\ isupper (nth (i + 1) s 0) = true \/
      n = 2 /\ (i + 2 < length s)%nat /\ isupper (nth (i + 1) s 0) = true /\ isupper (nth (i + 2) s 0) = true) ->
    post (if (i =? len)%nat || negb (n =? 0) then
    do '(_, b) <- snprintf_err b 0 PACKED_DESIG_LEN (pad0 4 number ++ [comet] ++ zs "       ");
    do b <- (if n =? 1 then do f1 <- at_ s (Z.of_nat (i + 1)); wr b 11 (f1 + 97 - 65) else Ret b);
    do b <- (if n =? 2 then do f1 <- at_ s (Z.of_nat (i + 1)); do f2 <- at_ s (Z.of_nat (i + 2));
                  do b <- wr b 10 (f1 + 97 - 65); wr b 11 (f2 + 97 - 65) else Ret b);
    Ret (0, b) else Ret (-1, b)) (fine r)).
  { intros n Hf. destruct (_ || _); [|apply F, G].
    apply post_bind. rewrite pad0_4 by lia. apply (good_snprintf r); [exact G|reflexivity| |].
    - apply no_nul_app; [intros c I; apply isdigit_nz; apply (four_digits number); [lia|exact I]|].
      apply no_nul_cons; [exact Hc|]. intros c I. cbn in I. repeat (destruct I as [<-|I]; [discriminate|]). destruct I.
    - intros k b1 G1. destruct Hf as [->|[(-> & L1 & U1)|(-> & L2 & U1 & U2)]]; cbn [Z.eqb].
      + apply post_bind, post_ret, post_bind, post_ret, post_ret. split; [auto|exact G1].
      + apply post_bind, post_bind, post_at; [lia|]. apply (good_wr r); [exact G1|lia|unfold isupper in U1; lia|].
        intros b2 G2. apply post_bind, post_ret, post_ret. split; [auto|exact G2].
      + apply post_bind, post_ret, post_bind, post_bind, post_at; [lia|]. apply post_bind, post_at; [lia|].
        apply post_bind, (good_wr r); [exact G1|lia|unfold isupper in U1; lia|]. intros b2 G2.
        apply (good_wr r); [exact G2|lia|unfold isupper in U2; lia|]. intros b3 G3. apply post_ret. split; [auto|exact G3]. }
  apply post_bind, post_and, post_tst; [exact Hi|].
  destruct (nth i s 0 =? 45) eqn:E0; [|apply post_bind, post_ret, K; left; reflexivity].
  assert (i < length s)%nat by (apply nth_in; lia).
  apply post_tst; [lia|]. destruct (isupper (nth (i + 1) s 0)) eqn:E1; cbn [negb]; [|apply post_bind, post_ret, K; left; reflexivity].
  assert (i + 1 < length s)%nat by (apply nth_in; unfold isupper in E1; lia).
  apply post_bind. destruct (i + 2 =? len)%nat; [apply post_ret, K; right; left; repeat split; assumption|].
  apply post_bind, post_and, post_ret. destruct (i + 3 =? len)%nat; [|apply post_ret, K; left; reflexivity].
  apply post_tst; [lia|]. destruct (isupper (nth (i + 2) s 0)) eqn:E2; [|apply post_ret, K; left; reflexivity].
  apply post_ret, K. right. right. split; [reflexivity|]. split; [apply nth_in; unfold isupper in E2; lia|]. split; reflexivity.
Qed.

Lemma permanent_post r s i number : no_nul s -> (i < length s)%nat -> 0 < number < 10000 ->
  post (pack_permanent_comet (W blank r) s i number (nth i s 0)) (fine r).
Proof.
  intros N Hi Hn. unfold pack_permanent_comet. rewrite pad0_4 by lia.
  assert (V : vsnprintf (W blank r) 0 5 (four number) = Ret (4, W (four number ++ 0 :: repeat 32 7 ++ [0]) r)).
  { pose proof (W_snprintf blank r 5 (four number)) as X. unfold snprintf_err in X.
    specialize (X ltac:(cbn [length four]; lia) ltac:(cbn [length blank repeat app]; lia)).
    destruct (vsnprintf (W blank r) 0 5 (four number)) as [[x y]| | |]; cbn [obind] in X; try discriminate.
    destruct (Z.of_nat 5 <=? x); [discriminate|]. exact X. }
  rewrite V. cbn [obind]. unfold four. cbn [app repeat]. rewrite W_wr by (cbn [length]; lia). cbn [obind].
  change (Z.to_nat 4) with 4%nat. cbn [upd].
  assert (G : good r (W [48 + number / 1000; 48 + number / 100 mod 10; 48 + number / 10 mod 10; 48 + number mod 10; nth i s 0; 32; 32; 32; 32; 32; 32; 32; 0] r)).
  { exists [48 + number / 1000; 48 + number / 100 mod 10; 48 + number / 10 mod 10; 48 + number mod 10; nth i s 0; 32; 32; 32; 32; 32; 32; 32].
    split; [reflexivity|]. split; [reflexivity|]. intros c I. cbn [In] in I.
    repeat (destruct I as [<-|I]; [first [apply nonul_nth; assumption|lia]|]). destruct I. }
  set (b := W _ r) in *. clearbody b.
  assert (F : forall b, good r b -> post (Ret (0, b)) (fine r)) by (intros b0 G0; apply post_ret; split; [auto|exact G0]).
  apply post_bind, post_and, post_tst; [lia|]. destruct (nth (i + 1) s 0 =? 45) eqn:E1; [|apply F, G].
  assert (i + 1 < length s)%nat by (apply nth_in; lia).
  apply post_tst; [lia|]. destruct (isupper (nth (i + 2) s 0)) eqn:E2; [|apply F, G]. cbn [negb].
  assert (i + 2 < length s)%nat by (apply nth_in; unfold isupper in E2; lia).
  apply post_bind, post_at; [lia|]. apply post_bind, post_at; [lia|]. apply post_bind.
  assert (X2 : nth (i + 2) s 0 + 97 - 65 <> 0) by (unfold isupper in E2; lia).
  destruct (isupper (nth (i + 3) s 0)) eqn:E3.
  - apply post_bind, (good_wr r); [exact G|lia|exact X2|]. intros b1 G1.
    apply (good_wr r); [exact G1|lia|unfold isupper in E3; lia|]. intros b2 G2. apply F, G2.
  - apply (good_wr r); [exact G|lia|exact X2|]. intros b1 G1. apply F, G1.
Qed.

Lemma numbered_post r b number : good r b -> 0 < number < 15396336 -> post (pack_numbered b number) (fine r).
Proof.
  intros G H. unfold pack_numbered. destruct (Z.ltb_spec number 620000).
  - apply post_bind. rewrite pad0_4 by lia. apply (good_snprintf r); [exact G|reflexivity| |].
    + apply no_nul_cons; [apply isalnum_nz, hex_alnum; lia|].
      apply no_nul_app; [intros c I; apply isdigit_nz; apply (four_digits (number mod 10000)); [lia|exact I]|].
      intros c I. cbn in I. repeat (destruct I as [<-|I]; [discriminate|]). destruct I.
    + intros k b' G'. apply post_ret. split; [auto|exact G'].
  - apply post_bind, (good_wr r); [exact G|lia|discriminate|]. intros b1 G1. apply post_bind.
    change 1 with (Z.of_nat 1) at 1. apply (good_encode r); [exact G1|lia|lia|]. intros k b' G'. apply post_ret. split; [auto|exact G'].
Qed.

Lemma survey_post l : forall r b s i, good r b -> no_nul s -> (forall nm pk, In (nm, pk) l -> length pk = 3%nat /\ no_nul pk) ->
  post (pack_survey l b s i) (fun o => match o with Some b' => good r b' | None => True end).
Proof.
  induction l as [|(nm, pk) l IH]; intros r b s i G N H; [apply post_ret; exact I|]. cbn [pack_survey].
  destruct (streq (skipn i s) nm); [|apply IH; try assumption; intros; apply (H nm0); right; assumption].
  destruct (H nm pk (or_introl eq_refl)) as (L & Np).
  apply post_bind. change 8 with (Z.of_nat 8). apply (good_store r); [exact G|rewrite firstn_length; lia|apply nonul_first, N|].
  intros b1 G1. apply post_bind. change 5 with (Z.of_nat 5). apply (good_store r); [exact G1|lia|exact Np|].
  intros b2 G2. apply post_ret, G2.
Qed.

Lemma skipn_cons s i : (i < length s)%nat -> skipn i s = nth i s 0 :: skipn (S i) s.
Proof.
  revert i. induction s as [|c s IH]; intros i H; [cbn in H; lia|]. destruct i; [reflexivity|].
  cbn [skipn nth]. apply IH. cbn in H. lia.
Qed.

Lemma provisional_post r s i len number comet : no_nul s -> short_numbers s -> no_620 s -> (4 <= i < length s)%nat ->
  isupper (nth i s 0) = true -> 1000 <= number < 9000 ->
  post (pack_provisional (W blank r) s i len number comet) (fine r).
Proof.
  intros N SN N6 Hi Hu Hn.
  unfold pack_provisional.
  set (c5 := if number <? 6200 then int_to_mutant_hex_char (number / 100) else 32).
  assert (H5 : c5 <> 0).
  { unfold c5. destruct (Z.ltb_spec number 6200); [apply isalnum_nz, hex_alnum; lia|discriminate]. }
  apply post_bind. exists (W [32; 32; 32; 32; 32; c5; 32; 32; 32; 32; 32; 32; 0] r). split.
  { unfold c5. destruct (number <? 6200); [|reflexivity]. unfold blank. cbn [repeat app]. wrk. reflexivity. }
  clearbody c5.
  apply post_bind. change 2 with (Z.of_nat 2) at 1. apply post_at; [lia|]. 
  assert (H2 : nth 2 s 0 <> 0) by (apply nonul_nth; [exact N|lia]). assert (H3 : nth 3 s 0 <> 0) by (apply nonul_nth; [exact N|lia]).
  set (d2 := nth 2 s 0) in *. clearbody d2. wrk.
  apply post_bind. change 3 with (Z.of_nat 3) at 1. apply post_at; [lia|]. set (d3 := nth 3 s 0) in *. clearbody d3. wrk.
  apply post_bind, post_at; [lia|]. rewrite toupper_upper by exact Hu.
  assert (Hu0 : nth i s 0 <> 0) by (unfold isupper in Hu; lia). wrk.
  apply post_bind, post_at; [lia|].
  assert (A : forall c11 k, (k = S i \/ k = S (S i)) -> (k <= length s)%nat -> c11 <> 0 -> (65 <= c11 <= 90 \/ (c11 = 32 \/ c11 = 48) /\ dig_val 0 (skipn k s) <> 620 /\ dig_val 0 (skipn k s) <> 621) ->
    forall mg, post (do sub_designator <- quick_atoi (skipn k s) 0;
  if (0 <=? sub_designator) && (number <? 6200) then
    do '(b, mangled) <-
      (if sub_designator <? 620 then
         do b <- wr (W [32; 32; 32; 32; 32; c5; d2; d3; nth i s 0; 32; 32; c11; 0] r) 10 (int_to_mutant_hex_char (Z.rem sub_designator 10));
         do b <- wr b 9 (int_to_mutant_hex_char (Z.quot sub_designator 10));
         Ret (b, mg)
       else if (2000 <=? number) && (number <? 2062) then
         do p11 <- rd (W [32; 32; 32; 32; 32; c5; d2; d3; nth i s 0; 32; 32; c11; 0] r) 11;
         do n0 <- ev IMAX ((sub_designator - 620) * 25 + p11 - 65)%cx;
         let n := if 73 <? p11 then n0 - 1 else n0 in
         if 62 * 62 * 62 * 62 <=? n then Ret (W [32; 32; 32; 32; 32; c5; d2; d3; nth i s 0; 32; 32; c11; 0] r, true)
         else
           do b <- wr (W [32; 32; 32; 32; 32; c5; d2; d3; nth i s 0; 32; 32; c11; 0] r) 5 95;
           do b <- wr b 6 (int_to_mutant_hex_char (number - 2000));
           do p8 <- rd b 8;
           do b <- wr b 7 p8;
           do '(_, b) <- encode_value_in_mutant_hex b 8 4 n;
           Ret (b, mg)
       else Ret (W [32; 32; 32; 32; 32; c5; d2; d3; nth i s 0; 32; 32; c11; 0] r, mg));
    let i := (k + span isdigit (skipn k s))%nat in
    do '(b, i) <-
      (if comet =? 0 then Ret (b, i)
       else
         do b <- wr b 4 comet;
         do frag <- (tst s (Z.of_nat i) (fun c => c =? 45) &&& tst s (Z.of_nat (i + 1)) isupper);
         if frag then
           do f <- at_ s (Z.of_nat (i + 1));
           do b <- wr b 11 (f + 97 - 65);
           Ret (b, (i + 2)%nat)
         else Ret (b, i));
    Ret (if (i =? len)%nat && negb mangled then 0 else -1, b)
  else Ret (-1, W [32; 32; 32; 32; 32; c5; d2; d3; nth i s 0; 32; 32; c11; 0] r)) (fine r)).
  { intros c11 k Hk Hkl H11 H11' mg.
    assert (G : good r (W [32; 32; 32; 32; 32; c5; d2; d3; nth i s 0; 32; 32; c11; 0] r)).
    { exists [32; 32; 32; 32; 32; c5; d2; d3; nth i s 0; 32; 32; c11]. split; [reflexivity|]. split; [reflexivity|].
      repeat (apply no_nul_cons; [first [assumption|discriminate]|]). apply no_nul_nil. }
    assert (R : rd (W [32; 32; 32; 32; 32; c5; d2; d3; nth i s 0; 32; 32; c11; 0] r) 11 = Ret c11).
    { rewrite W_rd by (cbn [length]; lia). reflexivity. }
    set (b := W _ r) in *. clearbody b.
    apply post_bind, quick_atoi_post; [exact SN|]. pose proof (short_val s k SN) as V. set (sub := dig_val 0 (skipn k s)) in *. clearbody sub.
    destruct (Z.leb_spec 0 sub); [|lia]. cbn [andb].
    destruct (Z.ltb_spec number 6200); [|apply post_ret; split; [auto|exact G]].
    assert (T : forall b mangled, good r b -> post (let i := (k + span isdigit (skipn k s))%nat in
    do '(b, i) <-
      (if comet =? 0 then Ret (b, i)
       else
         do b <- wr b 4 comet;
         do frag <- (tst s (Z.of_nat i) (fun c => c =? 45) &&& tst s (Z.of_nat (i + 1)) isupper);
         if frag then
           do f <- at_ s (Z.of_nat (i + 1));
           do b <- wr b 11 (f + 97 - 65);
           Ret (b, (i + 2)%nat)
         else Ret (b, i));
    Ret (if (i =? len)%nat && negb mangled then 0 else -1, b)) (fine r)).
    { intros b1 mangled G1. cbv zeta. set (j := (k + span isdigit (skipn k s))%nat).
      assert (Hj : (j <= length s)%nat).
      { unfold j. assert (forall f t, (span f t <= length t)%nat) as SL.
        { intros f t. induction t as [|c t IH]; [cbn; lia|]. cbn [span length]. destruct (f c); lia. }
        specialize (SL isdigit (skipn k s)). rewrite skipn_length in SL. lia. }
      clearbody j.
      assert (F : forall b (j : nat), good r b -> post (Ret (if (j =? len)%nat && negb mangled then 0 else -1, b)) (fine r)).
      { intros b2 j2 G2. apply post_ret. split; [cbn [fst]; destruct (_ && _); auto|exact G2]. }
      apply post_bind. destruct (Z.eqb_spec comet 0); [apply post_ret, F, G1|].
      apply post_bind, (good_wr r); [exact G1|lia|assumption|]. intros b2 G2.
      apply post_bind, post_and, post_tst; [exact Hj|]. destruct (nth j s 0 =? 45) eqn:E1; [|apply post_ret, F, G2].
      assert (j < length s)%nat by (apply nth_in; lia).
      apply post_tst; [lia|]. destruct (isupper (nth (j + 1) s 0)) eqn:E2; [|apply post_ret, F, G2].
      apply post_bind, post_at; [lia|]. apply post_bind, (good_wr r); [exact G2|lia|unfold isupper in E2; lia|]. intros b3 G3.
      apply post_ret, F, G3. }
    apply post_bind. destruct (Z.ltb_spec sub 620).
    - rewrite rem10, quot10 by lia. apply post_bind, (good_wr r); [exact G|lia|apply isalnum_nz, hex_alnum; lia|]. intros b1 G1.
      apply post_bind, (good_wr r); [exact G1|lia|apply isalnum_nz, hex_alnum; lia|]. intros b2 G2.
      apply post_ret, T, G2.
    - destruct ((2000 <=? number) && (number <? 2062)) eqn:EY; [|apply post_ret, T, G].
      rewrite R. cbn [obind]. rewrite ev_val by (cbn [safe val]; unfold fits, IMAX; lia). cbn [val obind]. cbv zeta.
      set (n := if 73 <? c11 then _ else _).
      assert (Hpos : 0 <= n) by (unfold n; destruct (73 <? c11) eqn:?; lia). clearbody n.
      destruct (_ <=? n); [apply post_ret, T, G|].
      apply post_bind, (good_wr r); [exact G|lia|discriminate|]. intros b1 G1.
      apply post_bind, (good_wr r); [exact G1|lia|apply isalnum_nz, hex_alnum; lia|]. intros b2 G2.
      apply post_bind, (good_rd r); [exact G2|lia|]. intros p8 Hp8.
      apply post_bind, (good_wr r); [exact G2|lia|exact Hp8|]. intros b3 G3.
      apply post_bind. change 8 with (Z.of_nat 8). apply (good_encode r); [exact G3|lia|exact Hpos|]. intros k4 b4 G4. apply post_ret, T, G4. }
  destruct (isupper (nth (S i) s 0)) eqn:E1.
  - assert (S i < length s)%nat by (apply nth_in; unfold isupper in E1; lia).
    apply post_bind, post_bind. rewrite W_wr by (cbn [length]; lia). apply post_ret. change (Z.to_nat 11) with 11%nat. cbn [upd]. apply post_ret.
    apply (A _ (S (S i))); [right; reflexivity|lia|unfold isupper in E1; lia|left; unfold isupper in E1; lia].
  - assert (D : dig_val 0 (skipn (S i) s) <> 620 /\ dig_val 0 (skipn (S i) s) <> 621).
    { apply (N6 (firstn i s) (nth i s 0)); [|exact Hu]. rewrite <- skipn_cons by lia. symmetry. apply firstn_skipn. }
    destruct (Z.eqb_spec comet 0) as [E0|E0].
    + apply post_bind, post_ret. apply (A 32 (S i)); [left; reflexivity|lia|discriminate|right; split; [left; reflexivity|exact D]].
    + apply post_bind, post_ret.
      apply (A 48 (S i)); [left; reflexivity|lia|discriminate|right; split; [right; reflexivity|exact D]].
Qed.

Lemma undeciphered_post r b whole len : good r b -> no_nul whole -> post (pack_undeciphered b whole len) (fine r).
Proof.
  intros G N. unfold pack_undeciphered. apply post_bind.
  assert (F : forall b, good r b -> post (Ret (-1, b)) (fine r)) by (intros b0 G0; apply post_ret; split; [auto|exact G0]).
  destruct (Nat.leb_spec len 7).
  - change 5 with (Z.of_nat 5). apply (good_store r); [exact G|rewrite firstn_length; lia|apply nonul_first, N|exact (F)].
  - apply post_bind, (good_wr r); [exact G|lia|discriminate|]. intros b1 G1.
    change 1 with (Z.of_nat 1). apply (good_store r); [exact G1|rewrite firstn_length; lia|apply nonul_first, N|exact (F)].
Qed.

Lemma branches_post r s i len number comet inpar : no_nul s -> short_numbers s -> no_620 s -> Z.of_nat (length s) <= 2000000 ->
  (i <= length s)%nat -> (len <= length s)%nat -> (1000 <= number -> (4 <= i)%nat) -> 0 <= number ->
  post (pack_branches (W blank r) s i len number comet inpar) (fine r).
Proof.
  intros N SN N6 L Hi Hlen H4 Hn. unfold pack_branches. apply post_bind, post_at; [exact Hi|].
  pose proof (good_blank r) as G.
  destruct ((999 <? number) && (number <? 9000) && isupper (nth i s 0)) eqn:E1.
  - apply andb_prop in E1 as (E1 & E2). assert (i < length s)%nat by (apply nth_in; unfold isupper in E2; lia).
    apply post_bind. eapply post_weak; [apply (survey_post surveys r); [exact G|exact N|]|].
    + intros nm pk I. unfold surveys in I. cbn [In] in I. 
      destruct I as [I|[I|[I|[I|[]]]]]; injection I as <- <-; (split; [reflexivity|]); intros c J; cbn in J; repeat (destruct J as [<-|J]; [discriminate|]); destruct J.
    + intros [b'|] Gb; [apply post_ret; split; [auto|exact Gb]|].
      apply provisional_post; try assumption; lia.
  - clear E1. destruct (inpar && (i =? len)%nat && (number <? 620000 + 62 * 62 * 62 * 62) && (0 <? number) && (comet =? 0)) eqn:E2.
    + apply (numbered_post r); [exact G|]. lia.
    + clear E2. destruct ((number <? 10000) && (0 <? number) && negb (comet =? 0)) eqn:E3.
      * apply (slash_post r); try assumption; lia.
      * apply (satellite_post r); try assumption. lia.
Qed.

Lemma span_le f t : (span f t <= length t)%nat.
Proof. induction t as [|c t IH]; [cbn; lia|]. cbn [span length]. destruct (f c); lia. Qed.
Lemma drop_spaces_le len s : (drop_spaces len s <= len)%nat.
Proof. induction len; cbn [drop_spaces]; [lia|]. destruct (_ =? 32); lia. Qed.

Lemma name_post b whole s par comet : (13 <= length b)%nat -> no_nul whole -> no_nul s -> short_numbers s -> no_620 s ->
  Z.of_nat (length s) <= 2000000 ->
  post (pack_name b whole s par comet) (fine (skipn 13 b)).
Proof.
  intros Hb Nw N SN N6 L. unfold pack_name. rewrite W_blank by exact Hb. cbn [obind]. set (r := skipn 13 b).
  pose proof (short_val s 0 SN) as V. cbn [skipn] in V.
  assert (LN : lead_number s 0 = dig_val 0 s) by (apply lead_number_val; lia). rewrite LN.
  pose proof (span_le isdigit s) as SL. set (i := span isdigit s) in *.
  assert (Hi4 : 1000 <= dig_val 0 s -> (4 <= i)%nat).
  { intros H. rewrite dig_val_span in H. fold i in H. pose proof (dig_val_digits _ 0 ltac:(lia) (span_all isdigit s)) as X. fold i in X.
    rewrite firstn_length in X. replace (Nat.min i (length s)) with i in X by lia.
    destruct (Nat.lt_ge_cases i 4) as [C|]; [|assumption]. exfalso.
    assert (10 ^ Z.of_nat i <= 10 ^ 3) by (apply Z.pow_le_mono_r; lia). lia. }
  set (number := dig_val 0 s) in *. clearbody number. clearbody i. clear LN.
  pose proof (drop_spaces_le (length s - (if par then 1 else 0)) s) as Hd.
  set (len := drop_spaces (length s - (if par then 1 else 0)) s) in *. clearbody len.
  set (inpar := par || _). clearbody inpar.
  assert (B : forall j, (i <= j <= length s)%nat -> post (do '(rval, b0) <- pack_branches (W blank r) s j len number comet inpar;
    if rval =? -1 then pack_undeciphered b0 whole (if comet =? 0 then len else (len + 2)%nat) else Ret (rval, b0)) (fine r)).
  { intros j Hj. apply post_bind. eapply post_weak; [apply branches_post; try assumption; try lia|].
    intros (rv & b0) (H1 & G0). cbn [fst snd] in *. destruct (rv =? -1); [apply undeciphered_post; assumption|apply post_ret; split; assumption]. }
  assert (B' : post (let i0 := if (i <? len)%nat && (nth i s 0 =? 32) then S i else i in
    do '(rval, b0) <- pack_branches (W blank r) s i0 len number comet inpar;
    if rval =? -1 then pack_undeciphered b0 whole (if comet =? 0 then len else (len + 2)%nat) else Ret (rval, b0)) (fine r)).
  { cbv zeta. destruct ((i <? len)%nat && (nth i s 0 =? 32)) eqn:E; apply B; [|lia].
    assert (i < length s)%nat by (apply nth_in; lia). lia. }
  apply post_bind, post_at; [lia|]. apply post_bind, post_and, post_and, post_ret.
  destruct ((0 <? number) && (number <? 10000) && negb (nth i s 0 =? 0)) eqn:E; [|exact B'].
  assert (i < length s)%nat by (apply nth_in; lia).
  apply post_tst; [lia|]. destruct ((nth (i + 1) s 0 =? 0) || (nth (i + 1) s 0 =? 45)); [|exact B'].
  apply post_ret. destruct (strchr (zs "PDI") (nth i s 0)); [|exact B'].
  apply permanent_post; try assumption. lia.
Qed.

Theorem create_total b name : (13 <= length b)%nat -> no_nul name -> (exists c, In c name /\ c <> 32) ->
  short_numbers name -> no_620 name -> Z.of_nat (length name) <= 2000000 ->
  post (create_mpc_packed_desig b name) (fine (skipn 13 b)).
Proof.
  intros Hb N (c & Ic & Hc) SN N6 L. unfold create_mpc_packed_desig.
  set (o := skipn (span (Z.eqb 32) name) name).
  assert (Ho : o <> []).
  { unfold o. intros E. assert (Z : length (skipn (span (Z.eqb 32) name) name) = 0%nat) by (rewrite E; reflexivity).
    rewrite skipn_length in Z. pose proof (span_le (Z.eqb 32) name) as SL. pose proof (span_all (Z.eqb 32) name) as SA.
    rewrite firstn_all2 in SA by lia. rewrite forallb_forall in SA. specialize (SA c Ic). lia. }
  assert (No : no_nul o) by apply nonul_skip, N. assert (So : short_numbers o) by apply short_skip, SN.
  assert (N6o : no_620 o) by apply no620_skip, N6.
  assert (Lo : Z.of_nat (length o) <= 2000000) by (unfold o; rewrite skipn_length; lia). clearbody o. clear N SN N6 L c Ic Hc.
  assert (L1 : (1 <= length o)%nat) by (destruct o; [contradiction|cbn; lia]).
  assert (K : forall k, (k < length o)%nat -> forall par, post (
     do is_comet <- (tst (skipn k o) 1 (fun c => c =? 47) &&& tst (skipn k o) 0 (strchr (zs "PCXDA")));
     do c0 <- at_ (skipn k o) 0;
     if is_comet then pack_name b (skipn k o) (skipn 2 (skipn k o)) par c0 else pack_name b (skipn k o) (skipn k o) par 0) (fine (skipn 13 b))).
  { intros k Hk par. set (w := skipn k o).
    assert (Nw : no_nul w) by apply nonul_skip, No. assert (Sw : short_numbers w) by apply short_skip, So.
    assert (N6w : no_620 w) by apply no620_skip, N6o.
    assert (Lw : (1 <= length w)%nat /\ Z.of_nat (length w) <= 2000000) by (unfold w; rewrite skipn_length; lia). clearbody w.
    assert (F : forall ic : bool, post (do c0 <- at_ w 0; if ic then pack_name b w (skipn 2 w) par c0 else pack_name b w w par 0) (fine (skipn 13 b))).
    { intros ic. apply post_bind. change 0 with (Z.of_nat 0) at 1. apply post_at; [lia|]. destruct ic; apply name_post; try assumption; try lia.
      - apply nonul_skip, Nw. - apply short_skip, Sw. - apply no620_skip, N6w. - rewrite skipn_length. lia. }
    apply post_bind, post_and. change 1 with (Z.of_nat 1). apply post_tst; [lia|]. destruct (nth 1 w 0 =? 47); [|exact (F false)].
    change 0 with (Z.of_nat 0) at 1. apply post_tst; [lia|]. exact (F _). }
  apply post_bind, post_and. change 0 with (Z.of_nat 0) at 1. apply post_tst; [lia|].
  destruct (nth 0 o 0 =? 40); [|exact (K 0%nat ltac:(lia) false)].
  cbv zeta. pose proof (span_le isdigit (skipn 1 o)) as SL. rewrite skipn_length in SL.
  apply post_and, post_tst; [lia|]. destruct (nth (1 + span isdigit (skipn 1 o)) o 0 =? 41) eqn:E; [|exact (K 0%nat ltac:(lia) false)].
  assert (1 + span isdigit (skipn 1 o) < length o)%nat by (apply nth_in; lia).
  replace (Z.of_nat (1 + span isdigit (skipn 1 o)) + 1) with (Z.of_nat (2 + span isdigit (skipn 1 o))) by lia.
  apply post_tst; [lia|]. destruct (_ =? 0); [exact (K 1%nat ltac:(lia) true)|exact (K 0%nat ltac:(lia) false)].
Qed.

Lemma good_holds r b : good r b -> exists packed, holds b 0 packed /\ length packed = 12%nat /\ no_nul packed /\ skipn 13 b = r.
Proof.
  intros (q & -> & L & N). exists q. split; [|split; [exact L|split; [exact N|]]].
  - unfold holds, W. cbn [skipn]. rewrite map_app, <- app_assoc, firstn_app, map_length.
    rewrite firstn_all2 by (rewrite map_length; lia). replace (length q + 1 - length q)%nat with 1%nat by lia. reflexivity.
  - unfold W. rewrite skipn_app. rewrite skipn_all2 by (rewrite map_length, app_length; cbn [length]; lia).
    rewrite map_length, app_length, L. reflexivity.
Qed.
