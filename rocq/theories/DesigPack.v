(** create_mpc_packed_desig( ) on the names of each scheme. *)
From Coq Require Import Lia ZifyBool String.
From Verif Require Import CBase CLemmas CStr StrModel StrProofs DesigModel DesigBase DesigUnpack.
Open Scope list_scope.

(* ---------- a buffer that starts with known bytes ---------- *)
Definition W (l : list Z) (r : buf) : buf := map Some l ++ r.

Lemma upd_app {A} (l r : list A) n v : (n < length l)%nat -> upd (l ++ r) n v = upd l n v ++ r.
Proof.
  revert n. induction l as [|x l IH]; intros n H; [cbn in H; lia|]. destruct n; [reflexivity|].
  cbn [app upd]. f_equal. apply IH. cbn in H. lia.
Qed.
Lemma upd_map {A B} (f : A -> B) l n v : upd (map f l) n (f v) = map f (upd l n v).
Proof. revert n. induction l as [|x l IH]; intros n; destruct n; cbn; try reflexivity. f_equal. apply IH. Qed.
Lemma upd_len {A} (l : list A) n v : length (upd l n v) = length l.
Proof. revert n. induction l as [|x l IH]; intros n; destruct n; cbn; try reflexivity. f_equal. apply IH. Qed.

Lemma W_wr l r k c : 0 <= k < Z.of_nat (length l) -> wr (W l r) k c = Ret (W (upd l (Z.to_nat k) c) r).
Proof.
  intros H. unfold wr, set_ub, W. destruct (Z.ltb_spec k 0); [lia|].
  destruct (Z.leb_spec (Z.of_nat (length (map Some l ++ r))) k); [rewrite app_length, map_length in *; lia|]. cbn [orb].
  rewrite upd_app by (rewrite map_length; lia). rewrite upd_map. reflexivity.
Qed.
Lemma W_rd l r k : 0 <= k < Z.of_nat (length l) -> rd (W l r) k = Ret (nth (Z.to_nat k) l 0).
Proof.
  intros H. rewrite <- (Z2Nat.id k) at 1 by lia. apply rd_nth. unfold W.
  rewrite nth_error_app1 by (rewrite map_length; lia). rewrite nth_error_map, (nth_error_nth' l 0) by lia. reflexivity.
Qed.
Lemma W_splice l r i s : (i + length s <= length l)%nat -> splice (W l r) i s = W (firstn i l ++ s ++ skipn (i + length s) l) r.
Proof.
  intros H. unfold splice, W. rewrite firstn_app, map_length. replace (i - length l)%nat with O by lia.
  cbn [firstn]. rewrite app_nil_r, skipn_app, map_length. replace (i + length s - length l)%nat with O by lia. cbn [skipn].
  rewrite !map_app, firstn_map, skipn_map, <- !app_assoc. reflexivity.
Qed.
Lemma W_store l r i s : (i + length s <= length l)%nat ->
  store (W l r) (Z.of_nat i) s = Ret (W (firstn i l ++ s ++ skipn (i + length s) l) r).
Proof.
  intros H. rewrite store_ok by (unfold W; rewrite app_length, map_length; lia). rewrite W_splice by exact H. reflexivity.
Qed.
Lemma W_snprintf l r max out : (length out < max)%nat -> (max <= length l)%nat ->
  snprintf_err (W l r) 0 max out = Ret (Z.of_nat (length out), W (out ++ 0 :: skipn (length out + 1) l) r).
Proof.
  intros H Hl. change 0 with (Z.of_nat 0) at 1.
  rewrite snprintf_err_splice by (unfold W; rewrite ?app_length, ?map_length; lia).
  rewrite W_splice by (rewrite app_length; cbn [length]; lia). rewrite app_length. cbn [length Nat.add firstn app].
  rewrite <- app_assoc. reflexivity.
Qed.
Lemma W_encode l r i n v : (i + n <= length l)%nat -> 0 <= v ->
  encode_value_in_mutant_hex (W l r) (Z.of_nat i) n v
  = Ret (v / 62 ^ Z.of_nat n, W (firstn i l ++ enc62 n v ++ skipn (i + n) l) r).
Proof.
  intros H Hv.
  assert (E : l = firstn i l ++ firstn n (skipn i l) ++ skipn (i + n) l).
  { rewrite <- skipn_skipn', firstn_skipn, firstn_skipn. reflexivity. }
  assert (E2 : W l r = map Some (firstn i l) ++ map Some (firstn n (skipn i l)) ++ (map Some (skipn (i + n) l) ++ r)).
  { unfold W. rewrite E at 1. rewrite !map_app, <- !app_assoc. reflexivity. }
  rewrite E2. pose proof (encode_ok n (map Some (firstn n (skipn i l))) (map Some (firstn i l)) (map Some (skipn (i + n) l) ++ r) v Hv) as X.
  rewrite !map_length, !firstn_length, !skipn_length in X. replace (Nat.min i (length l)) with i in X by lia.
  rewrite X by lia. unfold W. rewrite !map_app, <- !app_assoc. reflexivity.
Qed.

Definition blank : list Z := repeat 32 12 ++ [0].
Lemma W_blank b : (13 <= length b)%nat -> store b 0 (repeat 32 12 ++ [0]) = Ret (W blank (skipn 13 b)).
Proof. intros H. change 0 with (Z.of_nat 0) at 1. rewrite store_ok by (cbn [length app repeat]; lia). reflexivity. Qed.

(** Writes and reads with literal indices in an explicit list. *)
Ltac wrk := repeat (first
  [ rewrite W_wr by (cbn [length upd]; lia); cbn [obind];
    match goal with |- context [Z.to_nat ?k] => let n := eval vm_compute in (Z.to_nat k) in change (Z.to_nat k) with n end; cbn [upd] ]).

(* ---------- decimal numbers ---------- *)
Definition four (n : Z) : list Z := [48 + n / 1000; 48 + n / 100 mod 10; 48 + n / 10 mod 10; 48 + n mod 10].
Fixpoint leqb (s t : list Z) : bool :=
  match s, t with
  | [], [] => true
  | c :: s', d :: t' => (c =? d) && leqb s' t'
  | _, _ => false
  end.
Lemma leqb_eq s : forall t, leqb s t = true -> s = t.
Proof.
  induction s as [|c s IH]; intros [|d t] H; try discriminate; [reflexivity|].
  cbn in H. apply andb_prop in H as (H1 & H2). f_equal; [lia|apply IH, H2].
Qed.
Lemma zall_Z f N z : zall f (Z.to_nat N) z = true -> forall x, z <= x < z + N -> f x = true.
Proof. intros H x Hx. apply (zall_spec f (Z.to_nat N) z H). lia. Qed.
Lemma pad0_4 n : 0 <= n < 10000 -> pad0 4 n = four n.
Proof.
  intros H. pose (f := (fun n => leqb (pad0 4 n) (four n))).
  assert (C : zall f (Z.to_nat 10000) 0 = true) by (vm_cast_no_check (eq_refl true)).
  apply leqb_eq. apply (zall_Z f 10000 0 C). lia.
Qed.
Lemma dec_4 n : 1000 <= n < 10000 -> dec n = four n.
Proof.
  intros H. pose (f := (fun n => leqb (dec n) (four n))).
  assert (C : zall f (Z.to_nat 9000) 1000 = true) by (vm_cast_no_check (eq_refl true)).
  apply leqb_eq. apply (zall_Z f 9000 1000 C). lia.
Qed.
Lemma pad0_2 n : 0 <= n < 100 -> pad0 2 n = [48 + n / 10; 48 + n mod 10].
Proof.
  intros H. pose (f := (fun n => leqb (pad0 2 n) [48 + n / 10; 48 + n mod 10])).
  assert (C : zall f (Z.to_nat 100) 0 = true) by (vm_cast_no_check (eq_refl true)).
  apply leqb_eq. apply (zall_Z f 100 0 C). lia.
Qed.
Lemma pad0_3 n : 0 <= n < 1000 -> pad0 3 n = [48 + n / 100; 48 + n / 10 mod 10; 48 + n mod 10].
Proof.
  intros H. pose (f := (fun n => leqb (pad0 3 n) [48 + n / 100; 48 + n / 10 mod 10; 48 + n mod 10])).
  assert (C : zall f (Z.to_nat 1000) 0 = true) by (vm_cast_no_check (eq_refl true)).
  apply leqb_eq. apply (zall_Z f 1000 0 C). lia.
Qed.
Lemma four_digits n c : 0 <= n < 10000 -> In c (four n) -> isdigit c = true.
Proof. intros H [<-|[<-|[<-|[<-|[]]]]]; apply isdigit_48; lia. Qed.
Lemma four_val n : 0 <= n < 10000 -> dig_val 0 (four n) = n.
Proof.
  intros H. unfold four. cbn [dig_val].
  rewrite !isdigit_48 by lia. lia.
Qed.

(** The number after the letters: nothing if it is zero. *)
Definition num (k : Z) : list Z := if k =? 0 then [] else dec k.
Lemma num_ok k : 0 <= k < 10 ^ 20 -> (forall c, In c (num k) -> isdigit c = true) /\ dig_val 0 (num k) = k.
Proof.
  intros H. unfold num. destruct (Z.eqb_spec k 0) as [->|]; [split; [intros c []|reflexivity]|].
  destruct (dec_ok k H) as (H1 & H2 & _). split; assumption.
Qed.
Lemma num_atoi k r : 0 <= k <= IMAX -> nondigit_start r -> quick_atoi (num k ++ r) 0 = Ret k.
Proof.
  intros H Hr. unfold IMAX in H. destruct (num_ok k ltac:(lia)) as (H1 & H2).
  pose proof (dig_val_rest (num k) r H1 Hr 0) as E. rewrite quick_atoi_val; rewrite ?E, ?H2; unfold IMAX; try lia. reflexivity.
Qed.
Lemma num_span k r : 0 <= k < 10 ^ 20 -> nondigit_start r -> span isdigit (num k ++ r) = length (num k).
Proof. intros H Hr. destruct (num_ok k H) as (H1 & _). apply span_app; assumption. Qed.
Lemma num_upper k r : 0 <= k < 10 ^ 20 -> match r with [] => True | c :: _ => isupper c = false end ->
  exists c, at_ (num k ++ r) 0 = Ret c /\ isupper c = false.
Proof.
  intros H Hr. destruct (num_ok k H) as (H1 & _). destruct (num k) as [|c n].
  - cbn [app]. destruct r as [|c r]; [exists 0; split; reflexivity|exists c; split; [reflexivity|exact Hr]].
  - exists c. split; [reflexivity|]. specialize (H1 c (or_introl eq_refl)). unfold isdigit, isupper in *. lia.
Qed.

Lemma drop_spaces_last s c : c <> 32 -> drop_spaces (length (s ++ [c])) (s ++ [c]) = length (s ++ [c]).
Proof.
  intros H. rewrite app_length. cbn [length]. rewrite Nat.add_1_r. cbn [drop_spaces].
  rewrite app_nth2, Nat.sub_diag by lia. cbn [nth]. destruct (Z.eqb_spec c 32); [contradiction|reflexivity].
Qed.
Lemma last_nonblank (s : list Z) : s <> [] -> last s 32 <> 32 -> drop_spaces (length s) s = length s.
Proof.
  intros Hs Hl. destruct (exists_last Hs) as (p & c & ->). apply drop_spaces_last. rewrite last_last in Hl. exact Hl.
Qed.

(* ---------- the prefixes of create_mpc_packed_desig ---------- *)
Lemma create_plain b c0 s : c0 <> 32 -> c0 <> 40 ->
  (nth 0 s 0 =? 47) && strchr (zs "PCXDA") c0 = false ->
  create_mpc_packed_desig b (c0 :: s) = pack_name b (c0 :: s) (c0 :: s) false 0.
Proof.
  intros H1 H2 H3. unfold create_mpc_packed_desig. cbn [span].
  destruct (Z.eqb_spec 32 c0); [congruence|]. cbn [skipn]. unfold tst.
  change (at_ (c0 :: s) 0) with (@Ret Z c0). cbs. destruct (Z.eqb_spec c0 40); [contradiction|]. cbs.
  replace (at_ (c0 :: s) 1) with (Ret (nth 0 s 0)) by (destruct s; [reflexivity|rewrite at_nth by (cbn [length]; lia); reflexivity]).
  change (at_ (c0 :: s) 0) with (@Ret Z c0). cbs.
  destruct (nth 0 s 0 =? 47); cbs; [cbn [andb] in H3; rewrite H3|]; reflexivity.
Qed.
Lemma create_comet b k s : strchr (zs "PCXDA") k = true -> k <> 0 ->
  create_mpc_packed_desig b (k :: 47 :: s) = pack_name b (k :: 47 :: s) s false k.
Proof.
  intros H H0. unfold create_mpc_packed_desig. cbn [span].
  assert (D : k = 80 \/ k = 67 \/ k = 88 \/ k = 68 \/ k = 65).
  { unfold strchr in H. change (zs "PCXDA") with [80; 67; 88; 68; 65] in H. cbn [existsb] in H. lia. }
  destruct (Z.eqb_spec 32 k); [lia|]. cbn [skipn]. unfold tst.
  change (at_ (k :: 47 :: s) 0) with (@Ret Z k).
  cbs. destruct (Z.eqb_spec k 40); [lia|]. cbs.
  replace (at_ (k :: 47 :: s) 1) with (@Ret Z 47) by (rewrite at_nth by (cbn [length]; lia); reflexivity).
  change (at_ (k :: 47 :: s) 0) with (@Ret Z k). cbs. change (47 =? 47) with true. cbs. rewrite H. cbs. reflexivity.
Qed.
Lemma create_par b ds : (forall c, In c ds -> isdigit c = true) -> ds <> [] ->
  create_mpc_packed_desig b ([40] ++ ds ++ [41]) = pack_name b (ds ++ [41]) (ds ++ [41]) true 0.
Proof.
  intros H Hn. unfold create_mpc_packed_desig. cbn [app span]. change (32 =? 40) with false. cbn [skipn]. unfold tst.
  change (at_ (40 :: ds ++ [41]) 0) with (@Ret Z 40). cbs. change (40 =? 40) with true. cbs.
  rewrite span_app by (assumption || reflexivity).
  replace (at_ (40 :: ds ++ [41]) (Z.of_nat (1 + length ds))) with (@Ret Z 41).
  2: { symmetry. exact (at_split (40 :: ds) 41 []). }
  replace (at_ (40 :: ds ++ [41]) (Z.of_nat (1 + length ds) + 1)) with (@Ret Z 0).
  2: { symmetry. pose proof (at_end (40 :: ds ++ [41])) as X. cbn [length] in X. rewrite app_length in X. cbn [length] in X.
       replace (Z.of_nat (1 + length ds) + 1) with (Z.of_nat (S (length ds + 1))) by lia. exact X. }
  cbs. change (41 =? 41) with true. change (0 =? 0) with true. cbs. cbn [skipn].
  destruct ds as [|d ds]; [contradiction|].
  assert (Hd : isdigit d = true) by (apply H; left; reflexivity).
  change (at_ ((d :: ds) ++ [41]) 0) with (@Ret Z d).
  replace (at_ ((d :: ds) ++ [41]) 1) with (Ret (match ds with c1 :: _ => c1 | [] => 41 end))
    by (destruct ds; [reflexivity|rewrite at_nth by (cbn [length app]; lia); reflexivity]).
  cbs. destruct ds as [|d1 ds].
  - change (41 =? 47) with false. cbs. reflexivity.
  - assert (Hd1 : isdigit d1 = true) by (apply H; right; left; reflexivity).
    destruct (Z.eqb_spec d1 47); [unfold isdigit in Hd1; lia|]. cbs. reflexivity.
Qed.

(* ---------- '(n)' ---------- *)
Definition packed_number (n : Z) : list Z :=
  if n <? 620000 then int_to_mutant_hex_char (n / 10000) :: four (n mod 10000) ++ repeat 32 7
  else 126 :: enc62 4 (n - 620000) ++ repeat 32 7.

Lemma pack_number_ok b n : (13 <= length b)%nat -> 1 <= n < 15396336 ->
  create_mpc_packed_desig b ([40] ++ dec n ++ [41]) = Ret (0, W (packed_number n ++ [0]) (skipn 13 b)).
Proof.
  intros Hb Hn. destruct (dec_ok n ltac:(lia)) as (H1 & H2 & H3).
  rewrite create_par by assumption. unfold pack_name. rewrite W_blank by exact Hb. cbn [obind].
  rewrite span_app by (assumption || reflexivity). rewrite at_split. cbn [obind].
  assert (EL : lead_number (dec n ++ [41]) 0 = n).
  { rewrite lead_number_val; rewrite ?dig_val_rest by (assumption || reflexivity); lia. }
  rewrite EL.
  assert (ES : drop_spaces (length (dec n ++ [41]) - 1) (dec n ++ [41]) = length (dec n)).
  { rewrite app_length. cbn [length]. replace (length (dec n) + 1 - 1)%nat with (length (dec n)) by lia.
    destruct (exists_last H3) as (p & c & E). rewrite E in *.
    assert (isdigit c = true) by (apply H1; apply in_or_app; right; left; reflexivity).
    assert (c =? 32 = false) by (unfold isdigit in *; lia).
    rewrite app_length. cbn [length]. rewrite Nat.add_1_r. cbn [drop_spaces].
    rewrite <- app_assoc, app_nth2, Nat.sub_diag by lia. cbn [nth app]. rewrite H0. reflexivity. }
  rewrite ES.
  assert (EP : (Ret ((0 <? n) && (n <? 10000) && negb (41 =? 0))
     &&& tst (dec n ++ [41]) (Z.of_nat (length (dec n) + 1)) (fun c => (c =? 0) || (c =? 45)) &&& Ret (strchr (zs "PDI") 41)) = Ret false).
  { unfold tst. replace (Z.of_nat (length (dec n) + 1)) with (Z.of_nat (length (dec n ++ [41]))) by (rewrite app_length; reflexivity).
    rewrite at_end. cbs. destruct ((0 <? n) && (n <? 10000)); reflexivity. }
  rewrite EP. cbs. rewrite Nat.ltb_irrefl. cbn [andb].
  unfold pack_branches. rewrite at_split. cbs. change (isupper 41) with false. rewrite andb_false_r. cbn [andb].
  rewrite Nat.eqb_refl. destruct (Z.ltb_spec n (620000 + 62 * 62 * 62 * 62)); [|lia]. destruct (Z.ltb_spec 0 n); [|lia].
  change (0 =? 0) with true. cbn [andb]. unfold pack_numbered, packed_number.
  destruct (Z.ltb_spec n 620000).
  - rewrite pad0_4 by lia. rewrite W_snprintf by exact (le_n 13). cbs. reflexivity.
  - unfold blank. cbn [repeat app]. wrk.
    change 1 with (Z.of_nat 1). rewrite W_encode by (cbn [length]; lia). cbs. reflexivity.
Qed.

(* ---------- provisional designations ---------- *)
Lemma toupper_upper h : isupper h = true -> toupper h = h.
Proof. unfold toupper, isupper, islower. intros H. destruct ((97 <=? h) && (h <=? 122)) eqn:E; [lia|reflexivity]. Qed.
Lemma at_lit (p r : list Z) k : 0 <= k < Z.of_nat (length p) -> at_ (p ++ r) k = Ret (nth (Z.to_nat k) p 0).
Proof. intros H. rewrite at_nth by (rewrite app_length; lia). rewrite app_nth1 by lia. reflexivity. Qed.
Ltac rdl p r := repeat match goal with |- context [at_ (p ++ r) ?k] =>
  rewrite (at_lit p r k) by (cbn [length]; lia);
  let n := eval vm_compute in (Z.to_nat k) in change (Z.to_nat k) with n; cbn [nth obind] end.

Definition letter_index (l : Z) : Z := if 73 <? l then l - 66 else l - 65.

Definition packed_prov (comet y h k last : Z) : list Z :=
  [32; 32; 32; 32; if comet =? 0 then 32 else comet; int_to_mutant_hex_char (y / 100);
   48 + y / 10 mod 10; 48 + y mod 10; h; int_to_mutant_hex_char (k / 10); int_to_mutant_hex_char (k mod 10); last].
Definition packed_ext (comet y h n : Z) : list Z :=
  [32; 32; 32; 32; if comet =? 0 then 32 else comet; 95; int_to_mutant_hex_char (y - 2000); h] ++ enc62 4 n.

Lemma rem10 k : 0 <= k -> Z.rem k 10 = k mod 10.
Proof. intros. apply Z.rem_mod_nonneg; lia. Qed.
Lemma quot10 k : 0 <= k -> Z.quot k 10 = k / 10.
Proof. intros. apply Z.quot_div_nonneg; lia. Qed.

(** With a second letter, and nothing after the number. *)
Lemma prov_letter r o d3 d4 h l y k comet len : 1000 <= y < 6200 -> isupper h = true -> isupper l = true -> 0 <= k < 620 ->
  at_ o 2 = Ret d3 -> at_ o 3 = Ret d4 -> at_ o 5 = Ret h -> at_ o 6 = Ret l -> quick_atoi (skipn 7 o) 0 = Ret k ->
  len = (7 + span isdigit (skipn 7 o))%nat -> at_ o (Z.of_nat len) = Ret 0 ->
  pack_provisional (W blank r) o 5 len y comet
  = Ret (0, W [32; 32; 32; 32; if comet =? 0 then 32 else comet; int_to_mutant_hex_char (y / 100); d3; d4; h;
               int_to_mutant_hex_char (k / 10); int_to_mutant_hex_char (k mod 10); l; 0] r).
Proof.
  intros Hy Hh Hl Hk A2 A3 A5 A6 K -> AE. unfold pack_provisional.
  destruct (Z.ltb_spec y 6200); [|lia]. unfold blank. cbn [repeat app]. wrk.
  rewrite A2. cbn [obind]. wrk. rewrite A3. cbn [obind]. wrk.
  change (Z.of_nat 5) with 5. rewrite A5. cbn [obind]. rewrite (toupper_upper h Hh). wrk.
  change (Z.of_nat 6) with 6. rewrite A6. cbn [obind]. rewrite Hl. wrk. cbn [obind]. rewrite K. cbn [obind].
  destruct (Z.leb_spec 0 k); [|lia]. destruct (Z.ltb_spec k 620); [|lia]. cbn [andb]. wrk.
  rewrite rem10, quot10 by lia. wrk.
  set (e := (7 + span isdigit (skipn 7 o))%nat) in *. clearbody e. cbv zeta.
  destruct (comet =? 0); cbn [obind].
  - rewrite Nat.eqb_refl. reflexivity.
  - wrk. unfold tst. rewrite AE. cbs. change (0 =? 45) with false. cbs. rewrite Nat.eqb_refl. reflexivity.
Qed.

Lemma prov_extended r o d3 d4 h l y k comet len : 2000 <= y < 2062 -> isupper h = true -> isupper l = true -> 620 <= k ->
  at_ o 2 = Ret d3 -> at_ o 3 = Ret d4 -> at_ o 5 = Ret h -> at_ o 6 = Ret l -> quick_atoi (skipn 7 o) 0 = Ret k ->
  len = (7 + span isdigit (skipn 7 o))%nat -> at_ o (Z.of_nat len) = Ret 0 ->
  (k - 620) * 25 + letter_index l < 14776336 ->
  pack_provisional (W blank r) o 5 len y comet
  = Ret (0, W (packed_ext comet y h ((k - 620) * 25 + letter_index l) ++ [0]) r).
Proof.
  intros Hy Hh Hl Hk A2 A3 A5 A6 K -> AE Hn. unfold pack_provisional.
  destruct (Z.ltb_spec y 6200); [|lia]. unfold blank. cbn [repeat app]. wrk.
  rewrite A2. cbn [obind]. wrk. rewrite A3. cbn [obind]. wrk.
  change (Z.of_nat 5) with 5. rewrite A5. cbn [obind]. rewrite (toupper_upper h Hh). wrk.
  change (Z.of_nat 6) with 6. rewrite A6. cbn [obind]. rewrite Hl. wrk. cbn [obind]. rewrite K. cbn [obind].
  destruct (Z.leb_spec 0 k); [|lia]. destruct (Z.ltb_spec k 620); [lia|]. cbn [andb].
  destruct (Z.leb_spec 2000 y); [|lia]. destruct (Z.ltb_spec y 2062); [|lia]. cbn [andb].
  rewrite W_rd by (cbn [length]; lia). change (Z.to_nat 11) with 11%nat. cbn [nth obind].
  assert (65 <= l <= 90) by (unfold isupper in Hl; lia).
  assert (Hi : 0 <= letter_index l <= 24 /\ (l <> 73 \/ l = 73)) by (unfold letter_index; destruct (Z.ltb_spec 73 l); lia).
  unfold IMAX. rewrite ev_val by (cbn; unfold fits, letter_index in *; destruct (73 <? l); lia). cbn [obind val]. cbv zeta.
  replace (if 73 <? l then (k - 620) * 25 + l - 65 - 1 else (k - 620) * 25 + l - 65) with ((k - 620) * 25 + letter_index l)
    by (unfold letter_index; destruct (73 <? l); lia).
  set (n := (k - 620) * 25 + letter_index l) in *.
  destruct (Z.leb_spec (62 * 62 * 62 * 62) n); [lia|]. wrk.
  rewrite W_rd by (cbn [length]; lia). change (Z.to_nat 8) with 8%nat. cbn [nth obind]. wrk.
  change 8 with (Z.of_nat 8). rewrite W_encode by (cbn [length]; lia). cbn [obind].
  cbn [firstn]. change (skipn (8 + 4) _) with [0].
  set (e := (7 + span isdigit (skipn 7 o))%nat) in *. clearbody e.
  destruct (comet =? 0) eqn:Ec; cbn [obind].
  - rewrite Nat.eqb_refl. unfold packed_ext. rewrite Ec. rewrite <- app_assoc. reflexivity.
  - rewrite W_wr by (rewrite !app_length; cbn [length]; lia). cbn [obind]. change (Z.to_nat 4) with 4%nat. cbn [upd app].
    unfold tst. rewrite AE. cbs. change (0 =? 45) with false. cbs. rewrite Nat.eqb_refl. unfold packed_ext. rewrite Ec. reflexivity.
Qed.

(** A comet without a second letter, perhaps a fragment. *)
Lemma prov_comet r o d3 d4 h c y k comet fr len : 1000 <= y < 6200 -> isupper h = true -> isupper c = false -> 0 <= k < 620 ->
  comet <> 0 ->
  at_ o 2 = Ret d3 -> at_ o 3 = Ret d4 -> at_ o 5 = Ret h -> at_ o 6 = Ret c -> quick_atoi (skipn 6 o) 0 = Ret k ->
  (fr = 48 /\ len = (6 + span isdigit (skipn 6 o))%nat /\ at_ o (Z.of_nat len) = Ret 0 \/
   exists f, fr = f + 97 - 65 /\ isupper f = true /\ len = (6 + span isdigit (skipn 6 o) + 2)%nat /\
     at_ o (Z.of_nat (6 + span isdigit (skipn 6 o))) = Ret 45 /\ at_ o (Z.of_nat (6 + span isdigit (skipn 6 o) + 1)) = Ret f) ->
  pack_provisional (W blank r) o 5 len y comet
  = Ret (0, W [32; 32; 32; 32; comet; int_to_mutant_hex_char (y / 100); d3; d4; h;
               int_to_mutant_hex_char (k / 10); int_to_mutant_hex_char (k mod 10); fr; 0] r).
Proof.
  intros Hy Hh Hc Hk Hco A2 A3 A5 A6 K F. unfold pack_provisional.
  destruct (Z.ltb_spec y 6200); [|lia]. unfold blank. cbn [repeat app]. wrk.
  rewrite A2. cbn [obind]. wrk. rewrite A3. cbn [obind]. wrk.
  change (Z.of_nat 5) with 5. rewrite A5. cbn [obind]. rewrite (toupper_upper h Hh). wrk.
  change (Z.of_nat 6) with 6. rewrite A6. cbn [obind]. rewrite Hc. destruct (Z.eqb_spec comet 0); [contradiction|].
  wrk. cbn [obind]. rewrite K. cbn [obind].
  destruct (Z.leb_spec 0 k); [|lia]. destruct (Z.ltb_spec k 620); [|lia]. cbn [andb]. wrk.
  rewrite rem10, quot10 by lia. wrk.
  set (e := (6 + span isdigit (skipn 6 o))%nat) in *. clearbody e. cbv zeta. unfold tst.
  destruct F as [(-> & -> & AE)|(f & -> & Hf & -> & A1 & Af)].
  - rewrite AE. cbs. change (0 =? 45) with false. cbs. rewrite Nat.eqb_refl. reflexivity.
  - rewrite A1, Af. cbs. change (45 =? 45) with true. cbs. rewrite Hf. cbs. wrk. rewrite Nat.eqb_refl. reflexivity.
Qed.

Lemma streq_second h c s a d e : c <> d -> streq (h :: c :: s) [a; d; e] = false.
Proof. intros H. cbn [streq]. destruct (Z.eqb_spec c d); [contradiction|]. rewrite andb_false_r. reflexivity. Qed.
Lemma no_survey b o i h rest : skipn i o = h :: rest -> nth 0 rest 0 <> 45 -> pack_survey surveys b o i = Ret None.
Proof.
  intros E H. unfold surveys. cbn [pack_survey]. rewrite E.
  change (zs "P-L") with [80; 45; 76]. change (zs "T-1") with [84; 45; 49]. change (zs "T-2") with [84; 45; 50]. change (zs "T-3") with [84; 45; 51].
  destruct rest as [|c s]; [cbn [streq]; rewrite !andb_false_r; reflexivity|]. cbn [nth] in H.
  rewrite !streq_second by exact H. reflexivity.
Qed.

Lemma last_app' {A} (s t : list A) d : t <> [] -> last (s ++ t) d = last t d.
Proof.
  intros H. destruct (exists_last H) as (p & c & ->). rewrite app_assoc, !last_last. reflexivity.
Qed.
Lemma name_year b whole y h rest comet : (13 <= length b)%nat -> 1000 <= y < 9000 -> isupper h = true ->
  last (h :: rest) 32 <> 32 ->
  pack_name b whole (four y ++ 32 :: h :: rest) false comet =
  do '(rval, b') <-
    (do sv <- pack_survey surveys (W blank (skipn 13 b)) (four y ++ 32 :: h :: rest) 5;
     match sv with
     | Some b' => Ret (0, b')
     | None => pack_provisional (W blank (skipn 13 b)) (four y ++ 32 :: h :: rest) 5 (6 + length rest) y comet
     end);
  if rval =? -1 then pack_undeciphered b' whole (if comet =? 0 then (6 + length rest)%nat else (6 + length rest + 2)%nat)
  else Ret (rval, b').
Proof.
  intros Hb Hy Hh Hl. unfold pack_name. rewrite W_blank by exact Hb. cbn [obind].
  assert (D : forall c, In c (four y) -> isdigit c = true) by (intros c; apply four_digits; lia).
  rewrite span_app by (exact D || reflexivity).
  change (length (four y)) with 4%nat.
  assert (N : lead_number (four y ++ 32 :: h :: rest) 0 = y).
  { rewrite lead_number_val; rewrite ?dig_val_rest by (exact D || reflexivity); rewrite ?four_val by lia; lia. }
  rewrite N. clear N.
  rewrite Nat.sub_0_r. rewrite last_nonblank.
  2: discriminate.
  2: { change (four y ++ 32 :: h :: rest) with ((four y ++ [32]) ++ (h :: rest)). rewrite last_app' by discriminate. exact Hl. }
  assert (L : length (four y ++ 32 :: h :: rest) = (6 + length rest)%nat) by reflexivity. rewrite L. clear L.
  assert (A4 : at_ (four y ++ 32 :: h :: rest) (Z.of_nat 4) = Ret 32) by exact (at_split (four y) 32 (h :: rest)).
  assert (A5 : at_ (four y ++ 32 :: h :: rest) (Z.of_nat 5) = Ret h) by exact (at_split (four y ++ [32]) h rest).
  set (o := four y ++ 32 :: h :: rest) in *. rewrite A4. cbn [obind].
  assert (P : (Ret ((0 <? y) && (y <? 10000) && negb (32 =? 0)) &&& tst o (Z.of_nat (4 + 1)) (fun c => (c =? 0) || (c =? 45))
     &&& Ret (strchr (zs "PDI") 32)) = Ret false).
  { unfold tst. change (4 + 1)%nat with 5%nat. rewrite A5. cbs.
    destruct (Z.ltb_spec 0 y); [|lia]. destruct (Z.ltb_spec y 10000); [|lia]. cbs. change (32 =? 0) with false. cbs.
    destruct ((h =? 0) || (h =? 45)); reflexivity. }
  rewrite P. cbn [obind]. change (4 <? 6 + length rest)%nat with true. change (32 =? 32) with true. cbn [andb].
  unfold pack_branches. rewrite A5. cbn [obind]. rewrite Hh.
  destruct (Z.ltb_spec 999 y); [|lia]. destruct (Z.ltb_spec y 9000); [|lia]. cbn [andb]. reflexivity.
Qed.
