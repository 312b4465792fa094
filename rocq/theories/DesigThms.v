(** Proofs of the theorems stated in [PropDesig]. *)
From Coq Require Import Lia ZifyBool String.
From Verif Require Import CBase CLemmas CStr StrModel StrProofs DesigModel DesigBase DesigUnpack DesigClosed DesigPack DesigSpec DesigRound DesigTotal DesigAny.
Open Scope list_scope.

Lemma C21_digit_of_value_proof :
  forall v, 0 <= v < 62 -> is_digit62 (int_to_mutant_hex_char v) v.
Proof.
  intros v H. split; [lia|]. apply hex_alpha; [lia|]. apply of_to_hex. lia.
Qed.

Lemma C21_value_of_digit_proof :
  forall c, (forall v, 0 <= v -> (mutant_hex_char_to_int c = v <-> is_digit62 c v)) /\
            ((forall v, ~ is_digit62 c v) -> mutant_hex_char_to_int c = -1).
Proof.
  intros c. split.
  - intros v H. unfold is_digit62. change base62 with alphabet. rewrite (hex_alpha v c H). tauto.
  - intros H. destruct (hex_cases c) as [(_ & R & _)|(_ & E)]; [|exact E].
    exfalso. apply (H (mutant_hex_char_to_int c)). split; [lia|]. apply hex_alpha; lia.
Qed.

Lemma C21_no_digit_of_value_proof :
  forall v, v < 0 \/ 62 <= v -> int_to_mutant_hex_char v = 0.
Proof.
  intros v H. unfold int_to_mutant_hex_char. destruct (Z.ltb_spec v 0); [reflexivity|]. destruct (Z.ltb_spec 61 v); [reflexivity|lia].
Qed.

Lemma val62_digits s : forall ds acc, Forall2 is_digit62 s ds -> val62 acc s = fold_left (fun v d => 62 * v + d) ds acc.
Proof.
  induction s as [|c s IH]; intros ds acc H; inversion H; subst; [reflexivity|]. cbn [val62 fold_left].
  match goal with D : is_digit62 c ?d |- _ => destruct D as (D1 & D2); apply (hex_alpha d c D1) in D2 end.
  rewrite D2. rewrite (IH _ _ ltac:(eassumption)). f_equal. lia.
Qed.
Lemma digits62_ex s : (forall c, In c s -> isalnum c = true) -> exists ds, Forall2 is_digit62 s ds.
Proof.
  induction s as [|c s IH]; intros H; [exists []; constructor|].
  destruct IH as (ds & D); [intros x Hx; apply H; right; exact Hx|].
  exists (mutant_hex_char_to_int c :: ds). constructor; [|exact D].
  destruct (hex_cases c) as [(_ & R & _)|(E & _)]; [|rewrite (H c (or_introl eq_refl)) in E; discriminate].
  split; [lia|]. apply hex_alpha; lia.
Qed.
Lemma digit62_alnum c d : is_digit62 c d -> isalnum c = true.
Proof.
  intros (D1 & D2). apply (hex_alpha d c D1) in D2. destruct (hex_cases c) as [(E & _)|(_ & E)]; [exact E|lia].
Qed.
Lemma digits62_alnum s ds : Forall2 is_digit62 s ds -> forall c, In c s -> isalnum c = true.
Proof. induction 1; intros z Hz; [destruct Hz|]. destruct Hz as [<-|Hz]; [eapply digit62_alnum; eassumption|auto]. Qed.

Lemma C21_encode_proof :
  forall (pre dst post : buf) v, 0 <= v ->
  let n := length dst in
  exists s ds, length s = n /\ Forall2 is_digit62 s ds /\ number62 ds = v mod 62 ^ Z.of_nat n /\
  encode_value_in_mutant_hex (pre ++ dst ++ post) (Z.of_nat (length pre)) n v
  = Ret (v / 62 ^ Z.of_nat n, pre ++ map Some s ++ post).
Proof.
  intros pre dst post v Hv n. destruct (digits62_ex (enc62 n v) ltac:(intros c; apply enc62_alnum)) as (ds & D).
  exists (enc62 n v), ds. split; [apply enc62_length|]. split; [exact D|]. split.
  - unfold number62. rewrite <- (val62_digits _ _ 0 D). apply enc62_val, Hv.
  - apply encode_ok; [exact Hv|reflexivity].
Qed.

Lemma C21_decode_proof :
  forall (before s after ds : list Z), Forall2 is_digit62 s ds -> number62 ds <= 2147483647 ->
  get_mutant_hex_value (before ++ s ++ after) (Z.of_nat (length before)) (length s) = Ret (number62 ds).
Proof.
  intros p s r ds D H. unfold get_mutant_hex_value, number62. rewrite <- (val62_digits s ds 0 D).
  apply get_hex_loop_ok; [lia|exact (digits62_alnum s ds D)|]. rewrite (val62_digits s ds 0 D). exact H.
Qed.

Lemma C21_round_trip_proof :
  forall (pre dst post : buf) v, 0 <= v < 62 ^ Z.of_nat (length dst) -> v <= 2147483647 ->
  exists s, encode_value_in_mutant_hex (pre ++ dst ++ post) (Z.of_nat (length pre)) (length dst) v
            = Ret (0, pre ++ map Some s ++ post) /\ length s = length dst /\
  forall before after,
  get_mutant_hex_value (before ++ s ++ after) (Z.of_nat (length before)) (length dst) = Ret v.
Proof.
  intros pre dst post v H Hi. exists (enc62 (length dst) v).
  rewrite encode_ok by (try reflexivity; lia). rewrite Z.div_small by exact H.
  split; [reflexivity|]. split; [apply enc62_length|]. intros p r.
  assert (E : val62 0 (enc62 (length dst) v) = v) by (rewrite enc62_val by lia; apply Z.mod_small, H).
  pose proof (get_hex_loop_ok (enc62 (length dst) v) p r 0 ltac:(lia) ltac:(intros c; apply enc62_alnum) ltac:(rewrite E; exact Hi)) as G.
  rewrite enc62_length, E in G. exact G.
Qed.

Lemma C21_decode_rejects_proof :
  forall (before s after ds : list Z) c n, Forall2 is_digit62 s ds -> number62 ds <= 2147483647 ->
  (forall v, ~ is_digit62 c v) -> (length s < n)%nat ->
  get_mutant_hex_value (before ++ s ++ c :: after) (Z.of_nat (length before)) n = Ret (-1).
Proof.
  intros p s r ds c n D H Hc Hn. unfold get_mutant_hex_value, number62 in *. rewrite <- (val62_digits s ds 0 D) in H.
  pose proof (digits62_alnum s ds D) as A. clear D ds.
  assert (G : forall s p n acc, 0 <= acc -> val62 acc s <= IMAX -> (forall x, In x s -> isalnum x = true) -> (length s < n)%nat ->
    get_mutant_hex_loop n (p ++ s ++ c :: r) (Z.of_nat (length p)) acc = Ret (-1)); [|apply G; [lia|exact H|exact A|exact Hn]].
  clear p s n H A Hn.
  induction s as [|x s IH]; intros p n acc Ha H A Hn; destruct n as [|n]; try (cbn in Hn; lia).
  - cbn [app get_mutant_hex_loop]. rewrite at_split. cbn [obind]. cbv zeta.
    destruct (C21_value_of_digit_proof c) as (_ & X). rewrite (X Hc). reflexivity.
  - cbn [app get_mutant_hex_loop val62] in *. rewrite at_split. cbn [obind]. cbv zeta.
    destruct (hex_cases x) as [(_ & R & _)|(E & _)]; [|rewrite (A x (or_introl eq_refl)) in E; discriminate].
    destruct (Z.eqb_spec (mutant_hex_char_to_int x) (-1)); [lia|].
    pose proof (val62_mono s (acc * 62 + mutant_hex_char_to_int x) ltac:(lia) ltac:(intros y Hy; apply A; right; exact Hy)).
    unfold IMAX in *. rewrite ev_val by (cbn; unfold fits; lia). cbn [obind val].
    replace (Z.of_nat (length p) + 1) with (Z.of_nat (length (p ++ [x]))) by (rewrite app_length; cbn; lia).
    replace (p ++ x :: s ++ c :: r) with ((p ++ [x]) ++ s ++ c :: r) by (rewrite <- app_assoc; reflexivity).
    apply IH; [lia|exact H|intros y Hy; apply A; right; exact Hy|cbn in Hn; lia].
Qed.

Lemma C21_decode_overflow_refuted_proof :
  get_mutant_hex_value (zs "zzzzzz") 0 6 = UB.
Proof.
  vm_compute. reflexivity.
Qed.

Lemma C22_number_proof :
  forall n, 1 <= n < 620000 + 62 ^ 4 ->
  round_trip (zs "(" ++ dec n ++ zs ")") OBJ_DESIG_ASTEROID_NUMBERED.
Proof.
  intros n H. apply rt_number. change (62 ^ 4) with 14776336 in H. lia.
Qed.

Lemma C22_number_too_large_refuted_proof :
  create_mpc_packed_desig (repeat None 13) (zs "(4294967297)") = Ret (0, map Some (zs "00001       " ++ [0])).
Proof.
  vm_compute. reflexivity.
Qed.

Lemma second_letter i : (i < 25)%nat -> capital (nth i second_letters 0) /\ nth i second_letters 0 <> 73 /\ letter_index (nth i second_letters 0) = Z.of_nat i.
Proof.
  intros H. do 25 (destruct i as [|i]; [vm_compute; repeat split; congruence|]). lia.
Qed.
Lemma cap c : capital c -> isupper c = true.
Proof. unfold capital, isupper. lia. Qed.

Lemma C23_asteroid_proof :
  forall year half second k, 1600 <= year < 2100 -> capital half -> capital second -> 0 <= k < 620 ->
  round_trip (asteroid_name year half second k) OBJ_DESIG_ASTEROID_PROVISIONAL.
Proof.
  intros y h l k Hy Hh Hl Hk. pose proof (rt_letter 0 y h l k ltac:(left; reflexivity) (cap _ Hh) (cap _ Hl) Hy Hk) as X.
  unfold asteroid_name. rewrite dec_4 by lia. exact X.
Qed.

Lemma C23_asteroid_extended_proof :
  forall year half i k, 2000 <= year < 2062 -> capital half -> (i < 25)%nat -> 620 <= k ->
  25 * (k - 620) + Z.of_nat i < 62 ^ 4 ->
  round_trip (asteroid_name year half (nth i second_letters 0) k) OBJ_DESIG_ASTEROID_PROVISIONAL.
Proof.
  intros y h i k Hy Hh Hi Hk Hn. destruct (second_letter i Hi) as (Hl & H73 & Hx). change (62 ^ 4) with 14776336 in Hn.
  pose proof (rt_extended 0 y h (nth i second_letters 0) k ltac:(left; reflexivity) (cap _ Hh) (cap _ Hl) Hy Hk H73 ltac:(rewrite Hx; lia)) as X.
  unfold asteroid_name. rewrite dec_4 by lia. exact X.
Qed.

Lemma C23_extended_year_refuted_proof :
  create_mpc_packed_desig (repeat None 13) (zs "1995 XA620") = Ret (0, map Some (zs "     J95X  A" ++ [0])) /\
  create_mpc_packed_desig (repeat None 13) (zs "1995 XA777") = Ret (0, map Some (zs "     J95X  A" ++ [0])).
Proof.
  vm_compute. split; reflexivity.
Qed.

Lemma C23_second_letter_I_refuted_proof :
  create_mpc_packed_desig (repeat None 13) (zs "2016 JI620")
  = create_mpc_packed_desig (repeat None 13) (zs "2016 JJ620").
Proof.
  vm_compute. reflexivity.
Qed.

Lemma C23_survey_proof :
  forall n survey, 1000 <= n < 9000 -> In survey [zs "P-L"; zs "T-1"; zs "T-2"; zs "T-3"] ->
  round_trip (dec n ++ [32] ++ survey) OBJ_DESIG_ASTEROID_PROVISIONAL.
Proof.
  intros n s Hn Hs. rewrite dec_4 by lia. apply rt_survey; assumption.
Qed.

Lemma C23_survey_refuted_proof :
  create_mpc_packed_desig (repeat None 13) (zs "9602 P-L") = Ret (-1, map Some (zs "$9602 P-L   " ++ [0])).
Proof.
  vm_compute. reflexivity.
Qed.

Lemma kind_ok kind : In kind (zs "PCXD") -> comet_or_none kind /\ kind <> 0 /\ ptype kind = OBJ_DESIG_COMET_PROVISIONAL.
Proof. intros [<-|[<-|[<-|[<-|[]]]]]; unfold comet_or_none; (split; [tauto|split; [discriminate|reflexivity]]). Qed.

Lemma C23_comet_proof :
  forall kind year half k, In kind (zs "PCXD") -> 1600 <= year < 2100 -> capital half -> 1 <= k < 620 ->
  forall fragment, fragment = [] \/ (exists f, capital f /\ fragment = [45; f]) ->
  round_trip (comet_name kind year half k fragment) OBJ_DESIG_COMET_PROVISIONAL.
Proof.
  intros kind y h k Hkd Hy Hh Hk fr Hf. destruct (kind_ok kind Hkd) as (K1 & K2 & <-).
  assert (E : exists f, fr = frag f /\ (f = 0 \/ isupper f = true)).
  { destruct Hf as [->|(f & Hc & ->)].
    - exists 0. split; [reflexivity|left; reflexivity].
    - exists f. split; [|right; apply cap, Hc]. unfold frag. rewrite eqb_ne by (unfold capital in Hc; lia). reflexivity. }
  destruct E as (f & -> & Hf'). unfold comet_name. rewrite dec_4 by lia.
  assert (X : round_trip (pre kind ++ four y ++ [32; h] ++ num k ++ frag f) (ptype kind)).
  { apply rt_comet; solve [assumption|lia|apply cap, Hh]. }
  unfold pre in X. rewrite (eqb_ne kind) in X by exact K2. exact X.
Qed.

Lemma C23_comet_asteroidal_proof :
  forall kind year half second k, In kind (zs "PCXD") -> 1600 <= year < 2100 -> capital half -> capital second -> 0 <= k < 620 ->
  round_trip ([kind; 47] ++ asteroid_name year half second k) OBJ_DESIG_COMET_PROVISIONAL.
Proof.
  intros kind y h l k Hkd Hy Hh Hl Hk. destruct (kind_ok kind Hkd) as (K1 & K2 & <-).
  pose proof (rt_letter kind y h l k K1 (cap _ Hh) (cap _ Hl) Hy Hk) as X.
  unfold asteroid_name. rewrite dec_4 by lia. unfold pre in X. rewrite (eqb_ne kind) in X by exact K2. exact X.
Qed.

Lemma C23_numbered_comet_proof :
  forall n kind fragment, 1 <= n < 10000 -> In kind (zs "PDI") ->
  fragment = [] \/ (exists letters, fragment = 45 :: letters /\ (1 <= length letters <= 2)%nat /\ forall c, In c letters -> capital c) ->
  round_trip (dec n ++ [kind] ++ fragment) OBJ_DESIG_COMET_NUMBERED.
Proof.
  intros n t fr Hn Ht Hf.
  assert (E : exists fs, fr = frags fs /\ (length fs <= 2)%nat /\ forall c, In c fs -> isupper c = true).
  { destruct Hf as [->|(l & -> & L & C)].
    - exists []. split; [reflexivity|]. split; [cbn; lia|intros c []].
    - exists l. split; [destruct l; [cbn in L; lia|reflexivity]|]. split; [lia|]. intros c Hc. apply cap, C, Hc. }
  destruct E as (fs & -> & L & C). apply rt_numbered_comet; try assumption.
  destruct Ht as [<-|[<-|[<-|[]]]]; tauto.
Qed.

Lemma C23_fragment_refuted_proof :
  create_mpc_packed_desig (repeat None 13) (zs "73P-ABC") = Ret (0, map Some (zs "0073P     ab" ++ [0])) /\
  create_mpc_packed_desig (repeat None 13) (zs "P/2016 JQ123-A") = Ret (0, map Some (zs "    PK16JC3a" ++ [0])).
Proof.
  vm_compute. split; reflexivity.
Qed.

Lemma holds_inj b i s t : no_nul s -> no_nul t -> holds b i s -> holds b i t -> s = t.
Proof.
  unfold holds. generalize (skipn i b). clear b i. intros b. revert b t.
  induction s as [|c s IH]; intros b t Ns Nt Hs Ht.
  - destruct t as [|d t]; [reflexivity|]. exfalso. destruct b as [|x b]; [discriminate|].
    cbn [length Nat.add firstn map app] in *. injection Hs as ->. injection Ht as H _. apply (Nt d); [left; reflexivity|congruence].
  - destruct t as [|d t].
    + exfalso. destruct b as [|x b]; [discriminate|].
      cbn [length Nat.add firstn map app] in *. injection Ht as ->. injection Hs as H _. apply (Ns c); [left; reflexivity|congruence].
    + destruct b as [|x b]; [discriminate|]. cbn [length Nat.add firstn map app] in *.
      injection Hs as -> Hs. injection Ht as -> Ht. f_equal.
      apply (IH b); [intros y Hy; apply Ns; right; exact Hy|intros y Hy; apply Nt; right; exact Hy|exact Hs|exact Ht].
Qed.

Lemma C23_injective_proof :
  forall name1 type1 name2 type2 (b : buf), no_nul name1 -> no_nul name2 ->
  round_trip name1 type1 -> round_trip name2 type2 -> (13 <= length b)%nat ->
  create_mpc_packed_desig b name1 = create_mpc_packed_desig b name2 -> name1 = name2.
Proof.
  intros n1 t1 n2 t2 b N1 N2 R1 R2 Hb E.
  destruct (R1 b (repeat None 24) Hb ltac:(cbn; lia)) as (p1 & b1 & o1 & C1 & H1 & _ & M1 & U1 & T1).
  destruct (R2 b (repeat None 24) Hb ltac:(cbn; lia)) as (p2 & b2 & o2 & C2 & H2 & _ & M2 & U2 & T2).
  assert (b1 = b2) by congruence. subst b2. assert (p1 = p2) by (eapply holds_inj; eassumption). subst p2.
  assert (o1 = o2) by congruence. subst o2. eapply holds_inj; [exact N1|exact N2|exact T1|exact T2].
Qed.

Lemma C24_satellite_partial_proof :
  forall planet n, In planet satellite_planets -> 1 <= n < 1000 ->
  (length (satellite_name planet n) < 16)%nat ->
  round_trip (satellite_name planet n) OBJ_DESIG_NATSAT_NUMBERED.
Proof.
  intros p n Hp Hn L. exact (rt_satellite p n Hp Hn L).
Qed.

Lemma C24_long_satellite_refuted_proof :
  forall planet n, In planet satellite_planets -> 1 <= n < 1000 ->
  (16 <= length (satellite_name planet n))%nat ->
  forall b o : buf, (13 <= length b)%nat -> (24 <= length o)%nat ->
  exists packed b', create_mpc_packed_desig b (satellite_name planet n) = Ret (0, b') /\ holds b' 0 packed /\
    length packed = 12%nat /\ unpack_mpc_desig (Some o) packed = Abort.
Proof.
  intros p n Hp Hn L. exact (abort_satellite p n Hp Hn L).
Qed.

Lemma C24_provisional_satellite_partial_proof :
  forall year initial n, 1901 <= year < 2100 -> In initial (zs "MVEJSUNP") -> 1 <= n < 620 -> n < 100 \/ 110 <= n ->
  round_trip (provisional_satellite_name year initial n) OBJ_DESIG_NATSAT_PROVISIONAL.
Proof.
  intros y p n Hy Hp Hn H. apply rt_prov_sat; assumption.
Qed.

Lemma C24_provisional_satellite_refuted_proof :
  forall year initial n, 1901 <= year < 2100 -> In initial (zs "MVEJSUNP") -> 100 <= n < 110 ->
  forall b o : buf, (13 <= length b)%nat -> (24 <= length o)%nat ->
  exists packed b' o', create_mpc_packed_desig b (provisional_satellite_name year initial n) = Ret (0, b') /\
    holds b' 0 packed /\ length packed = 12%nat /\
    unpack_mpc_desig (Some o) packed = Ret (OBJ_DESIG_NATSAT_PROVISIONAL, Some o') /\
    holds o' 0 (zs "S/" ++ dec year ++ [32; initial; 32; 48; 48 + n mod 10]).
Proof.
  intros y p n Hy Hp Hn b o Hb Ho. apply bad_prov_sat; try assumption. lia.
Qed.

Lemma C24_artificial_satellite_proof :
  forall year launch letters, 1957 <= year < 2100 -> 0 <= launch < 1000 ->
  (1 <= length letters <= 3)%nat -> (forall c, In c letters -> capital c) ->
  round_trip (artsat_name year launch letters) OBJ_DESIG_ARTSAT.
Proof.
  intros y m ls Hy Hm Hl Hc. apply rt_artsat; try assumption. intros c H. apply cap, Hc, H.
Qed.

Lemma C25_twelve_characters_partial_proof :
  forall (b : buf) name, (13 <= length b)%nat -> no_nul name -> (exists c, In c name /\ c <> 32) ->
  short_numbers name -> no_620 name -> Z.of_nat (length name) <= 2000000 ->
  exists r b' packed, create_mpc_packed_desig b name = Ret (r, b') /\ (r = 0 \/ r = -1) /\
    holds b' 0 packed /\ length packed = 12%nat /\ no_nul packed /\ skipn 13 b' = skipn 13 b.
Proof.
  intros b name Hb N X S6 N6 L. destruct (create_total b name Hb N X S6 N6 L) as ((r & b') & E & F1 & F2).
  cbn [fst snd] in *. destruct (good_holds _ _ F2) as (q & Q1 & Q2 & Q3 & Q4). exists r, b', q. auto 6.
Qed.

Lemma short_check name : forallb (fun i => forallb (fun j => (j <=? 7)%nat || negb (forallb isdigit (firstn j (skipn i name))) || (length (skipn i name) <? j)%nat) (seq 0 (S (length name)))) (seq 0 (S (length name))) = true -> short_numbers name.
Proof.
  intros H p d q -> Hd. rewrite forallb_forall in H.
  specialize (H (length p)). rewrite in_seq in H. rewrite !app_length in H. specialize (H ltac:(lia)).
  rewrite forallb_forall in H. specialize (H (length d)). rewrite in_seq in H. specialize (H ltac:(lia)).
  rewrite skipn_app, skipn_all, Nat.sub_diag in H. cbn [app skipn] in H.
  rewrite firstn_app, firstn_all, Nat.sub_diag in H. cbn [firstn] in H. rewrite app_nil_r, Hd in H. rewrite app_length in H.
  cbn [negb] in H. rewrite orb_false_r in H. destruct (Nat.ltb_spec (length d + length q) (length d)); [lia|].
  rewrite orb_false_r in H. apply Nat.leb_le in H. exact H.
Qed.
Lemma no620_check name : forallb (fun i => negb (isupper (nth i name 0)) || negb ((dig_val 0 (skipn (S i) name) =? 620) || (dig_val 0 (skipn (S i) name) =? 621))) (seq 0 (length name)) = true -> no_620 name.
Proof.
  intros H p h q -> Hh. rewrite forallb_forall in H. specialize (H (length p)). rewrite in_seq, app_length in H.
  cbn [length] in H. specialize (H ltac:(lia)). rewrite app_nth2, Nat.sub_diag in H by lia. cbn [nth] in H. rewrite Hh in H.
  replace (skipn (S (length p)) (p ++ h :: q)) with q in H.
  - cbn [negb orb] in H. lia.
  - replace (p ++ h :: q) with ((p ++ [h]) ++ q) by (rewrite <- app_assoc; reflexivity).
    replace (S (length p)) with (length (p ++ [h])) by (rewrite app_length; cbn; lia).
    rewrite skipn_app, skipn_all, Nat.sub_diag. reflexivity.
Qed.

Lemma C25_hypotheses_met_proof :
  short_numbers (zs "2016 JQ123") /\ no_620 (zs "2016 JQ123") /\
  short_numbers (zs "(1234567)") /\ no_620 (zs "C/1995 O1-A").
Proof.
  split; [apply short_check; vm_compute; reflexivity|]. split; [apply no620_check; vm_compute; reflexivity|].
  split; [apply short_check; vm_compute; reflexivity|apply no620_check; vm_compute; reflexivity].
Qed.

Lemma C25_blank_name_refuted_proof :
  forall (b : buf) n, (13 <= length b)%nat -> create_mpc_packed_desig b (repeat 32 n) = UB.
Proof.
  intros b n Hb. assert (E : skipn (span (Z.eqb 32) (repeat 32 n)) (repeat 32 n) = []).
  { induction n as [|n IH]; [reflexivity|]. exact IH. }
  unfold create_mpc_packed_desig. rewrite E. reflexivity.
Qed.

Lemma C25_long_number_refuted_proof :
  create_mpc_packed_desig (repeat None 13) (zs "2016 JA99999999999") = UB.
Proof.
  vm_compute. reflexivity.
Qed.

Lemma C25_620_refuted_proof :
  create_mpc_packed_desig (repeat None 13) (zs "2016 J620") = Ret (-1, map Some (zs "$2016 J6200" ++ [0; 0])).
Proof.
  vm_compute. reflexivity.
Qed.

Lemma C26_total_partial_proof :
  forall packed (o : buf), length packed = 12%nat -> no_nul packed -> (24 <= length o)%nat ->
  ~ long_satellite packed -> ~ number_and_extended packed ->
  exists ty o' text, unpack_mpc_desig (Some o) packed = Ret (ty, Some o') /\ In ty designation_types /\
    length o' = length o /\ holds o' 0 text.
Proof.
  intros q o L N Ho NL NE. exact (unpack_total q o L N Ho NL NE).
Qed.

Lemma C26_long_satellite_refuted_proof :
  forall packed (o : buf), (24 <= length o)%nat -> long_satellite packed -> unpack_mpc_desig (Some o) packed = Abort.
Proof.
  intros q o Ho H. exact (unpack_long_satellite q o Ho H).
Qed.

Lemma C26_number_and_extended_refuted_proof :
  unpack_mpc_desig (Some (repeat (Some 0) 24)) (zs "00001_!A0000") = UB /\
  unpack_mpc_desig (Some (repeat (Some 0) 24)) (zs "~zzzz_!A0000") = UB /\
  unpack_mpc_desig (Some (repeat (Some 0) 24)) (zs "a0001_GAzzzz") = Abort /\
  unpack_mpc_desig (Some (repeat (Some 0) 24)) (zs "~zzzz_GAzzzz") = Abort.
Proof.
  vm_compute. repeat split; reflexivity.
Qed.

Lemma C26_no_destination_refuted_proof :
  unpack_mpc_desig None (zs "     _GA0000") = UB.
Proof.
  vm_compute. reflexivity.
Qed.

Lemma C26_invalid_cycle_refuted_proof :
  unpack_mpc_desig (Some (repeat None 24)) (zs "00001K06S-3X")
  = Ret (OBJ_DESIG_ASTEROID_NUMBERED, Some (map Some (zs "(1) = 2006 SX-7" ++ [0]) ++ repeat None 8)).
Proof.
  vm_compute. reflexivity.
Qed.

Lemma C32_roman_numeral_proof :
  forall n, 0 <= n <= 2147483647 -> extract_roman_numeral (roman_numeral n) = Ret n.
Proof.
  intros n H. apply extract_roman_ok. exact H.
Qed.
