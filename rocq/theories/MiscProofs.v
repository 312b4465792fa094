(** Proofs about variable-star designations and catalogue codes ([MiscModel]). *)
From Coq Require Import Lia ZifyBool String.
From Verif Require Import CBase CLemmas CStr StrModel StrProofs DesigBase DesigUnpack DesigPack DesigTotal CgiProofs MiscModel MiscSpec.
Open Scope list_scope.
(** ** Variable stars *)
Lemma wr0 x (b : buf) c : wr (x :: b) 0 c = Ret (Some c :: b).
Proof. change 0 with (Z.of_nat 0). rewrite wr_ok by (cbn; lia). reflexivity. Qed.
Lemma wr1 x y (b : buf) c : wr (x :: y :: b) 1 c = Ret (x :: Some c :: b).
Proof. change 1 with (Z.of_nat 1). rewrite wr_ok by (cbn; lia). reflexivity. Qed.
Lemma wr2 x y z (b : buf) c : wr (x :: y :: z :: b) 2 c = Ret (x :: y :: Some c :: b).
Proof. change 2 with (Z.of_nat 2). rewrite wr_ok by (cbn; lia). reflexivity. Qed.
Lemma wr3 x y z w (b : buf) c : wr (x :: y :: z :: w :: b) 3 c = Ret (x :: y :: z :: Some c :: b).
Proof. change 3 with (Z.of_nat 3). rewrite wr_ok by (cbn; lia). reflexivity. Qed.
Lemma wr4 x y z w v (b : buf) c : wr (x :: y :: z :: w :: v :: b) 4 c = Ret (x :: y :: z :: w :: Some c :: b).
Proof. change 4 with (Z.of_nat 4). rewrite wr_ok by (cbn; lia). reflexivity. Qed.
Lemma wr5 x y z w v u (b : buf) c : wr (x :: y :: z :: w :: v :: u :: b) 5 c = Ret (x :: y :: z :: w :: v :: Some c :: b).
Proof. change 5 with (Z.of_nat 5). rewrite wr_ok by (cbn; lia). reflexivity. Qed.
Lemma rd0 x (b : buf) : rd (Some x :: b) 0 = Ret x. Proof. reflexivity. Qed.
Lemma rd1 x y (b : buf) : rd (y :: Some x :: b) 1 = Ret x. Proof. reflexivity. Qed.

(** The two letters that make_var_desig( ) writes. *)
Definition two_letters (n : Z) : outcome (Z * Z) :=
  do '(i, curr_no) <- first_letter 30 90 90 n 82 10;
  do '(i, curr_no) <- (if 90 <? i then first_letter 30 80 89 n 65 curr_no else Ret (i, curr_no));
  let b0 := to_char i in let b1 := to_char (i + n - curr_no) in
  let b0 := if (b0 <? 82) && (74 <=? b0) then to_char (b0 + 1) else b0 in
  Ret (b0, if (b0 <? 82) && (74 <=? b1) then to_char (b1 + 1) else b1).
Lemma make_two x y z (b : buf) n a c : 10 <= n <= 334 -> two_letters n = Ret (a, c) ->
  make_var_desig (x :: y :: z :: b) n = Ret (Some a :: Some c :: Some 0 :: b).
Proof.
  intros Hn H. unfold make_var_desig. destruct (Z.ltb_spec n 10); [lia|]. destruct (Z.ltb_spec 334 n); [lia|].
  rewrite wr2. cbn [obind]. unfold two_letters in H.
  destruct (first_letter 30 90 90 n 82 10) as [(i, k)| | |]; cbn [obind] in *; try discriminate.
  destruct (if 90 <? i then first_letter 30 80 89 n 65 k else Ret (i, k)) as [(j, m)| | |]; cbn [obind] in *; try discriminate.
  rewrite wr0. cbn [obind]. rewrite wr1. cbn [obind]. rewrite rd0. cbn [obind].
  set (u := to_char j) in *. set (v := to_char (j + n - m)) in *.
  assert (E : forall w, (w =? w) = true) by (intros; apply Z.eqb_refl).
  destruct ((u <? 82) && (74 <=? u)) eqn:E1; cbv zeta in H.
  - rewrite wr0. cbn [obind]. rewrite rd0. cbn [obind]. rewrite rd1. cbn [obind].
    destruct ((to_char (u + 1) <? 82) && (74 <=? v)) eqn:E2; inversion H; subst; [apply wr1|reflexivity].
  - cbn [obind]. rewrite rd0. cbn [obind]. rewrite rd1. cbn [obind].
    destruct ((u <? 82) && (74 <=? v)) eqn:E2; inversion H; subst; [apply wr1|reflexivity].
Qed.
Definition two_ok n := match two_letters n with Ret (a, c) => leqb (star_name n) [a; c] | _ => false end.
Lemma two_sweep : zall two_ok (Z.to_nat 325) 10 = true.
Proof. vm_cast_no_check (eq_refl true). Qed.
Lemma two_all n : 10 <= n <= 334 -> exists a c, two_letters n = Ret (a, c) /\ star_name n = [a; c].
Proof.
  intros H. assert (H' : 10 <= n < 10 + 325) by lia. pose proof (zall_Z two_ok 325 10 two_sweep n H') as X. unfold two_ok in X.
  destruct (two_letters n) as [(a, c)| | |]; try discriminate. exists a, c. split; [reflexivity|]. apply leqb_eq. exact X.
Qed.
Definition one_ok n := leqb (star_name n) [82 + n - 1].
Lemma one_sweep : zall one_ok (Z.to_nat 9) 1 = true.
Proof. vm_cast_no_check (eq_refl true). Qed.
Lemma one_all n : 1 <= n <= 9 -> star_name n = [82 + n - 1].
Proof.
  intros H. assert (H' : 1 <= n < 1 + 9) by lia. apply leqb_eq. exact (zall_Z one_ok 9 1 one_sweep n H').
Qed.
Lemma star_big n : 334 < n -> star_name n = 86 :: dec n.
Proof. intros H. unfold star_name. destruct (Z.leb_spec n 334); [lia|reflexivity]. Qed.
Definition three_ok n := leqb (dec n) [48 + n / 100; 48 + n / 10 mod 10; 48 + n mod 10].
Lemma three_sweep : zall three_ok (Z.to_nat 900) 100 = true.
Proof. vm_cast_no_check (eq_refl true). Qed.
Lemma dec_3 n : 100 <= n < 1000 -> dec n = [48 + n / 100; 48 + n / 10 mod 10; 48 + n mod 10].
Proof.
  intros H. assert (H' : 100 <= n < 100 + 900) by lia. apply leqb_eq. exact (zall_Z three_ok 900 100 three_sweep n H').
Qed.
Lemma digit_char n i : 0 <= n -> 0 < i -> to_char (Z.rem (Z.quot n i) 10 + 48) = 48 + n / i mod 10.
Proof.
  intros Hn Hi. rewrite Z.quot_div_nonneg by lia. rewrite Z.rem_mod_nonneg by (try lia; apply Z.div_pos; lia).
  pose proof (Z.mod_pos_bound (n / i) 10 ltac:(lia)). set (q := n / i mod 10) in *. clearbody q.
  rewrite wrap8_id; lia.
Qed.
Lemma make_big3 x0 x1 x2 x3 x4 (b : buf) n : 334 < n < 1000 ->
  make_var_desig (x0 :: x1 :: x2 :: x3 :: x4 :: b) n = Ret (map Some (86 :: dec n) ++ Some 0 :: b).
Proof.
  intros H. unfold make_var_desig. destruct (Z.ltb_spec n 10); [lia|]. destruct (Z.ltb_spec 334 n); [|lia].
  rewrite wr0. cbn [obind var_digits]. destruct (Z.leb_spec 1000 n); [lia|]. destruct (Z.leb_spec 100 n); [|lia].
  rewrite wr1. cbn [obind]. change (1 + 1) with 2. destruct (Z.leb_spec 10 n); [|lia]. rewrite wr2. cbn [obind]. change (2 + 1) with 3.
  destruct (Z.leb_spec 1 n); [|lia]. rewrite wr3. cbn [obind]. change (3 + 1) with 4. rewrite wr4.
  rewrite !digit_char, dec_3 by lia. rewrite Z.div_1_r. rewrite (Z.mod_small (n / 100)) by lia. reflexivity.
Qed.
Lemma make_big4 x0 x1 x2 x3 x4 x5 (b : buf) n : 1000 <= n ->
  make_var_desig (x0 :: x1 :: x2 :: x3 :: x4 :: x5 :: b) n
  = Ret (map Some (86 :: four (n mod 10000)) ++ Some 0 :: b).
Proof.
  intros H. unfold make_var_desig. destruct (Z.ltb_spec n 10); [lia|]. destruct (Z.ltb_spec 334 n); [|lia].
  rewrite wr0. cbn [obind var_digits]. destruct (Z.leb_spec 1000 n); [|lia]. rewrite wr1. cbn [obind]. change (1 + 1) with 2.
  destruct (Z.leb_spec 100 n); [|lia]. rewrite wr2. cbn [obind]. change (2 + 1) with 3.
  destruct (Z.leb_spec 10 n); [|lia]. rewrite wr3. cbn [obind]. change (3 + 1) with 4.
  destruct (Z.leb_spec 1 n); [|lia]. rewrite wr4. cbn [obind]. change (4 + 1) with 5. rewrite wr5.
  rewrite !digit_char by lia. unfold four. cbn [map app]. rewrite Z.div_1_r.
  replace (n mod 10000 / 1000) with (n / 1000 mod 10) by lia.
  replace (n mod 10000 / 100 mod 10) with (n / 100 mod 10) by lia.
  replace (n mod 10000 / 10 mod 10) with (n / 10 mod 10) by lia.
  replace (n mod 10000 mod 10) with (n mod 10) by lia. reflexivity.
Qed.
Lemma make_one x0 x1 (b : buf) n : -IMAX <= n < 10 ->
  make_var_desig (x0 :: x1 :: b) n = Ret (Some (to_char (81 + n)) :: Some 0 :: b).
Proof.
  intros H. unfold IMAX in H. unfold make_var_desig. destruct (Z.ltb_spec n 10); [|lia].
  rewrite ev_val by (cbn [safe val]; unfold fits, IMAX; repeat split; lia). cbn [obind val]. rewrite wr0. cbn [obind]. rewrite wr1.
  replace (82 + n - 1) with (81 + n) by lia. reflexivity.
Qed.

Lemma make_ok n (b : buf) : 1 <= n < 10000 -> (length (star_name n) < length b)%nat ->
  make_var_desig b n = Ret (map Some (star_name n) ++ [Some 0] ++ skipn (length (star_name n) + 1) b).
Proof.
  intros H Hb. destruct (Z_lt_dec n 10) as [Hn|Hn].
  - rewrite one_all in * by lia. cbn [length] in Hb. destruct b as [|x0 [|x1 b]]; cbn [length] in Hb; try lia.
    rewrite make_one by (unfold IMAX; lia). rewrite wrap8_id by lia. replace (81 + n) with (82 + n - 1) by lia. reflexivity.
  - destruct (Z_le_dec n 334) as [Hn'|Hn'].
    + destruct (two_all n ltac:(lia)) as (a & c & E1 & E2). rewrite E2 in *. cbn [length] in Hb.
      destruct b as [|x0 [|x1 [|x2 b]]]; cbn [length] in Hb; try lia. rewrite (make_two x0 x1 x2 b n a c) by (try lia; exact E1). reflexivity.
    + rewrite star_big in * by lia. destruct (Z_lt_dec n 1000).
      * rewrite dec_3 in * by lia. cbn [length] in Hb. destruct b as [|x0 [|x1 [|x2 [|x3 [|x4 b]]]]]; cbn [length] in Hb; try lia.
        rewrite make_big3, dec_3 by lia. reflexivity.
      * rewrite dec_4 in * by lia. cbn [length four] in Hb. destruct b as [|x0 [|x1 [|x2 [|x3 [|x4 [|x5 b]]]]]]; cbn [length] in Hb; try lia.
        rewrite make_big4 by lia. rewrite Z.mod_small by lia. reflexivity.
Qed.
Definition word_end (tail : list Z) : Prop := tail = [] \/ exists t, tail = 32 :: t.
Definition nb (c : Z) : bool := negb (c =? 32).
Lemma span_word s tail : (forall c, In c s -> c <> 32) -> word_end tail -> span nb (s ++ tail) = length s.
Proof.
  intros H Ht. induction s as [|c s IH].
  - destruct Ht as [->|(t & ->)]; reflexivity.
  - cbn [app span length]. unfold nb at 1. destruct (Z.eqb_spec c 32) as [E|E]; [exfalso; apply (H c); [left; reflexivity|exact E]|].
    cbn [negb]. f_equal. apply IH. intros x Hx. apply H. right. exact Hx.
Qed.

Lemma at0 c t : at_ (c :: t) 0 = Ret c. Proof. exact (at_split [] c t). Qed.
Lemma at1 c d t : at_ (c :: d :: t) 1 = Ret d. Proof. exact (at_split [c] d t). Qed.
(** The number of a one- or two-letter name. *)
Definition num1 (d0 : Z) : Z :=
  let first := toupper d0 in
  let rval := -2 in
  let rval := if (82 <=? first) && (first <=? 90) then first - 82 else rval in
  let rval := if (65 <=? d0) && (d0 <=? 81) then 9200 + d0 - 65 else rval in
  let rval := if ((97 <=? d0) && (d0 <=? 113)) || (d0 =? 117) then 9100 + d0 - 97 else rval in
  rval + 1.
Definition num2 (first second : Z) : Z :=
  (if (first <=? second) && (second <=? 90) then
     if 82 <=? first then
       let f := first - 82 in
       let s := second - 82 in
       f * 8 - Z.quot (f * (f - 1)) 2 + 9 + s
     else if negb (first =? 74) && negb (second =? 74) && (65 <=? first) then
       let f := first - 65 in
       let f := if 8 <? f then f - 1 else f in
       let s := second - 65 in
       let s := if 8 <? s then s - 1 else s in
       f * 24 - Z.quot (f * (f - 1)) 2 + 9 + 45 + s
     else -2
   else -2) + 1.
Lemma byte_up c : byte c -> -128 <= toupper c <= 127.
Proof. unfold byte, toupper, islower. intros H. destruct ((97 <=? c) && (c <=? 122)) eqn:E; lia. Qed.
Lemma decipher1 c tail : byte c -> c <> 32 -> word_end tail -> decipher_var_desig (c :: tail) = Ret (num1 c).
Proof.
  intros Hc Hn Ht. unfold decipher_var_desig. change (at_ (c :: tail) 0) with (Ret c). cbn [obind].
  assert (exists d, at_ (c :: tail) 1 = Ret d) as (d & Ed).
  { destruct Ht as [->|(t & ->)]; [exists 0; reflexivity|exists 32; apply at1]. }
  rewrite Ed. cbn [obind].
  pose proof (span_word [c] tail ltac:(intros x [<-|[]]; exact Hn) Ht) as E. unfold nb in E. cbn [app length] in E. rewrite E. cbn [obind].
  rewrite ev_val; [reflexivity|]. cbn [safe val]. pose proof (byte_up c Hc). unfold byte in Hc. unfold fits, IMAX.
  set (u := toupper c) in *. clearbody u.
  destruct ((82 <=? u) && (u <=? 90)) eqn:E1, ((65 <=? c) && (c <=? 81)) eqn:E2, (((97 <=? c) && (c <=? 113)) || (c =? 117)) eqn:E3; repeat split; lia.
Qed.
Definition num2_ok x := let a := x / 256 - 128 in let b := x mod 256 - 128 in (-1000 <=? num2 a b) && (num2 a b <=? 1000).
Lemma num2_sweep : zall num2_ok (Z.to_nat 65536) 0 = true.
Proof. vm_cast_no_check (eq_refl true). Qed.
Lemma num2_small a b : -128 <= a <= 127 -> -128 <= b <= 127 -> -1000 <= num2 a b <= 1000.
Proof.
  intros Ha Hb. assert (H : 0 <= (a + 128) * 256 + (b + 128) < 0 + 65536) by lia.
  pose proof (zall_Z num2_ok 65536 0 num2_sweep _ H) as X. unfold num2_ok in X.
  replace (((a + 128) * 256 + (b + 128)) / 256 - 128) with a in X by lia.
  replace (((a + 128) * 256 + (b + 128)) mod 256 - 128) with b in X by lia.
  set (v := num2 a b) in *. clearbody v. cbv zeta in X. lia.
Qed.
Lemma decipher2 c d tail : byte c -> byte d -> c <> 32 -> d <> 32 -> word_end tail ->
  decipher_var_desig (c :: d :: tail) = Ret (num2 (toupper c) (toupper d)).
Proof.
  intros Hc Hd Hn Hm Ht. unfold decipher_var_desig. rewrite at0. cbn [obind].
  rewrite at1. cbn [obind].
  pose proof (span_word [c; d] tail ltac:(intros x [<-|[<-|[]]]; assumption) Ht) as E. unfold nb in E. cbn [app length] in E. rewrite E.
  pose proof (num2_small _ _ (byte_up c Hc) (byte_up d Hd)) as B. unfold num2 in *.
  set (a := toupper c) in *. set (b := toupper d) in *. clearbody a b.
  destruct ((a <=? b) && (b <=? 90)); [destruct (82 <=? a); [|destruct (negb (a =? 74) && negb (b =? 74) && (65 <=? a))]|]; cbn [obind];
    rewrite ev_val; try reflexivity; cbn [safe val]; unfold fits, IMAX; cbv zeta in *; (split; [exact I|split; [exact I|lia]]) || (repeat split; lia).
Qed.
Definition name2_ok n := match star_name n with [a; c] => num2 a c =? n | _ => false end.
Lemma name2_sweep : zall name2_ok (Z.to_nat 325) 10 = true.
Proof. vm_cast_no_check (eq_refl true). Qed.
Lemma name2 n a c : 10 <= n <= 334 -> star_name n = [a; c] -> num2 a c = n.
Proof.
  intros H E. assert (H' : 10 <= n < 10 + 325) by lia. pose proof (zall_Z name2_ok 325 10 name2_sweep n H') as X. unfold name2_ok in X.
  rewrite E in X. apply Z.eqb_eq. exact X.
Qed.
Definition back2_ok x := let a := x / 256 - 128 in let b := x mod 256 - 128 in let n := num2 a b in
  (n =? -1) || ((10 <=? n) && (n <=? 334) && leqb (star_name n) [a; b]).
Lemma back2_sweep : zall back2_ok (Z.to_nat 65536) 0 = true.
Proof. vm_cast_no_check (eq_refl true). Qed.
Lemma back2 a b : -128 <= a <= 127 -> -128 <= b <= 127 -> num2 a b = -1 \/ 10 <= num2 a b <= 334 /\ star_name (num2 a b) = [a; b].
Proof.
  intros Ha Hb. assert (H : 0 <= (a + 128) * 256 + (b + 128) < 0 + 65536) by lia.
  pose proof (zall_Z back2_ok 65536 0 back2_sweep _ H) as X. unfold back2_ok in X.
  replace (((a + 128) * 256 + (b + 128)) / 256 - 128) with a in X by lia.
  replace (((a + 128) * 256 + (b + 128)) mod 256 - 128) with b in X by lia.
  cbv zeta in X. apply orb_prop in X as [X|X].
  - left. apply Z.eqb_eq. exact X.
  - apply andb_prop in X as (X1 & X2). apply andb_prop in X1 as (X0 & X1). right. split; [split; apply Z.leb_le; assumption|]. apply leqb_eq. exact X2.
Qed.
Lemma up_range c u : toupper c = u -> 65 <= u <= 90 -> byte c /\ c <> 32 /\ (c = u \/ c = u + 32).
Proof. unfold toupper, islower, byte. intros <- H. destruct ((97 <=? c) && (c <=? 122)) eqn:E; lia. Qed.
Definition letters_ok n := forallb (fun c => (65 <=? c) && (c <=? 90)) (star_name n).
Lemma letters_sweep : zall letters_ok (Z.to_nat 334) 1 = true.
Proof. vm_cast_no_check (eq_refl true). Qed.
Lemma letters n c : 1 <= n <= 334 -> In c (star_name n) -> 65 <= c <= 90.
Proof.
  intros H Hc. assert (H' : 1 <= n < 1 + 334) by lia. pose proof (zall_Z letters_ok 334 1 letters_sweep n H') as X. unfold letters_ok in X.
  rewrite forallb_forall in X. specialize (X c Hc). cbv beta in X. lia.
Qed.
Lemma decipher_v c s tail v : toupper c = 86 -> (2 <= length s)%nat -> (forall x, In x s -> x <> 32) -> word_end tail ->
  atoi (s ++ tail) = Ret v -> - IMAX <= v <= IMAX -> decipher_var_desig (c :: s ++ tail) = Ret v.
Proof.
  intros Hc Hs Hb Ht Ha Hv. destruct s as [|d [|e s]]; cbn [length] in Hs; try lia.
  destruct (up_range c 86 Hc ltac:(lia)) as (_ & Hn & _).
  unfold decipher_var_desig. cbn [app]. rewrite at0. cbn [obind]. rewrite at1. cbn [obind].
  pose proof (span_word (c :: d :: e :: s) tail ltac:(intros x [<-|Hx]; [exact Hn|apply Hb; exact Hx]) Ht) as E.
  unfold nb in E. cbn [app length] in E. rewrite E. rewrite Hc. change (86 =? 86) with true. cbv iota. cbn [skipn].
  cbn [app] in Ha. rewrite Ha. cbn [obind]. unfold IMAX in Hv.
  rewrite ev_val by (cbn [safe val]; unfold fits, IMAX; repeat split; lia). cbn [obind val].
  rewrite ev_val by (cbn [safe val]; unfold fits, IMAX; repeat split; lia). cbn [val]. f_equal. lia.
Qed.
Lemma up_digits s : forall t, map toupper s = t -> (forall c, In c t -> isdigit c = true) -> s = t.
Proof.
  induction s as [|c s IH]; intros t <- H; [reflexivity|]. cbn [map] in *.
  assert (E : toupper c = c).
  { specialize (H _ (or_introl eq_refl)). unfold toupper in *. destruct (islower c) eqn:E; [|reflexivity]. unfold islower, isdigit in *. lia. }
  rewrite E in *. f_equal. apply IH; [reflexivity|]. intros x Hx. apply H. right. exact Hx.
Qed.
Lemma dec_len3 n : 334 < n <= IMAX -> (2 <= length (dec n))%nat.
Proof.
  intros H. unfold IMAX in H. destruct (dec_ok n ltac:(change (10 ^ 20) with 100000000000000000000; lia)) as (D1 & D2 & D3).
  destruct (Nat.le_gt_cases 2 (length (dec n))) as [L|L]; [exact L|exfalso].
  pose proof (dig_val_digits (dec n) 0 ltac:(lia) ltac:(apply forallb_forall; exact D1)) as X. rewrite D2 in X.
  assert (length (dec n) = 0 \/ length (dec n) = 1)%nat as [E|E] by lia; rewrite E in X; cbn in X; lia.
Qed.
Lemma decode n s tail : 1 <= n <= IMAX -> map toupper s = star_name n -> s <> [117] -> word_end tail ->
  decipher_var_desig (s ++ tail) = Ret n.
Proof.
  intros Hn Hs Hu Ht. destruct (Z_lt_dec n 10) as [H|H].
  - rewrite one_all in Hs by lia. destruct s as [|c [|? ?]]; try discriminate. cbn [map] in Hs. assert (Hs' : toupper c = 82 + n - 1) by congruence. clear Hs. rename Hs' into Hs.
    destruct (up_range c (82 + n - 1) Hs ltac:(lia)) as (B & N & C). cbn [app]. rewrite decipher1 by assumption. f_equal. unfold num1. rewrite Hs.
    assert (c <> 117) by congruence.
    destruct ((82 <=? 82 + n - 1) && (82 + n - 1 <=? 90)) eqn:E1, ((65 <=? c) && (c <=? 81)) eqn:E2, (((97 <=? c) && (c <=? 113)) || (c =? 117)) eqn:E3; lia.
  - destruct (Z_le_dec n 334) as [H'|H'].
    + destruct (two_all n ltac:(lia)) as (a & b & _ & E). pose proof (letters n a ltac:(lia) ltac:(rewrite E; left; reflexivity)).
      pose proof (letters n b ltac:(lia) ltac:(rewrite E; right; left; reflexivity)).
      pose proof (name2 n a b ltac:(lia) E). rewrite E in Hs. destruct s as [|c [|d [|? ?]]]; try discriminate.
      cbn [map] in Hs. injection Hs as Hc Hd. destruct (up_range c a Hc ltac:(lia)) as (? & ? & _). destruct (up_range d b Hd ltac:(lia)) as (? & ? & _).
      cbn [app]. rewrite decipher2 by assumption. congruence.
    + rewrite star_big in Hs by lia. destruct s as [|c s]; [discriminate|]. cbn [map] in Hs. injection Hs as Hc Hs.
      pose proof (dec_len3 n ltac:(lia)) as L. unfold IMAX in Hn. destruct (dec_ok n ltac:(change (10 ^ 20) with 100000000000000000000; lia)) as (D1 & D2 & D3).
      apply up_digits in Hs; [|exact D1]. subst s. cbn [app]. apply decipher_v; try assumption; unfold IMAX; try lia.
      * intros x Hx. specialize (D1 x Hx). unfold isdigit in D1. lia.
      * assert (ND : nondigit_start tail) by (destruct Ht as [->|(t & ->)]; cbn; reflexivity || exact I).
        destruct (dec n) as [|e r] eqn:E; [congruence|]. cbn [app]. change (e :: r ++ tail) with ((e :: r) ++ tail).
        pose proof (dig_val_rest (e :: r) tail D1 ND 0) as V. rewrite D2 in V.
        pose proof (atoi_val e (r ++ tail) (D1 e (or_introl eq_refl))) as A. cbn [app] in *. rewrite V in A. apply A. unfold IMAX. lia.
Qed.
(** ** Catalogue names *)
Lemma sig_cons c r : significant (c :: r) =
  if (c =? 45) || (c =? 32) then significant r
  else if (c =? 46) && (hd 0 r =? 48) then significant (tl r)
  else if (c =? 68) && (hd 0 r =? 82) then significant (tl r)
  else toupper c :: significant r.
Proof.
  cbn [significant]. destruct ((c =? 45) || (c =? 32)); [reflexivity|].
  destruct (Z.eqb_spec c 46) as [->|N1].
  - change (46 =? 68) with false. cbn [andb]. destruct r as [|d r]; [reflexivity|]. cbn [hd tl]. destruct (Z.eqb_spec d 48) as [->|N]; [reflexivity|].
    destruct d as [|p|p]; try reflexivity. repeat (destruct p as [p|p|]; try reflexivity). exfalso. apply N. reflexivity.
  - cbn [andb]. destruct (Z.eqb_spec c 68) as [->|N2]; cbn [andb].
    + destruct r as [|d r]; [reflexivity|]. cbn [hd tl]. destruct (Z.eqb_spec d 82) as [->|N]; [reflexivity|].
      destruct d as [|p|p]; try reflexivity. repeat (destruct p as [p|p|]; try reflexivity). exfalso. apply N. reflexivity.
    + destruct c as [|p|p]; try reflexivity. repeat (destruct p as [p|p|]; try reflexivity); exfalso; (apply N1; reflexivity) || (apply N2; reflexivity).
Qed.
Lemma reduce_ok n : forall r pre d (b : buf), (length r <= n)%nat -> (length d <= length b)%nat -> no_nul r -> forall f, (length r < f)%nat ->
  reduce_net_name f (splice b 0 d) (Z.of_nat (length d)) (pre ++ r) (Z.of_nat (length pre))
  = if (length d + length (significant r) <? length b)%nat then Ret (splice b 0 (d ++ significant r ++ [0])) else UB.
Proof.
  induction n as [|n IH]; intros r pre d b Hn Hd Hr f Hf; (destruct f as [|f]; [lia|]); cbn [reduce_net_name]; rewrite at_hd; cbn [obind].
  - destruct r; [|cbn in Hn; lia]. cbn [hd significant app length]. change (0 =? 0) with true. cbv iota. rewrite Nat.add_0_r.
    destruct (Nat.ltb_spec (length d) (length b)); [apply put; lia|apply wr_ub; rewrite splice_length; lia].
  - destruct r as [|c r].
    { cbn [hd significant app length]. change (0 =? 0) with true. cbv iota. rewrite Nat.add_0_r.
      destruct (Nat.ltb_spec (length d) (length b)); [apply put; lia|apply wr_ub; rewrite splice_length; lia]. }
    cbn [hd length] in *. assert (c <> 0) by (apply Hr; left; reflexivity).
    assert (Hr' : no_nul r) by (intros x Hx; apply Hr; right; exact Hx).
    assert (Hr2 : no_nul (tl r)) by (destruct r; [exact Hr'|]; intros x Hx; apply Hr'; right; exact Hx).
    destruct (Z.eqb_spec c 0); [contradiction|]. rewrite sig_cons.
    assert (S1 : forall p, Z.of_nat (length pre) + 1 = Z.of_nat (length (pre ++ [p]))) by (intros p; rewrite app_length; cbn; lia).
    assert (S2 : pre ++ c :: r = (pre ++ [c]) ++ r) by (rewrite <- app_assoc; reflexivity).
    assert (T : forall g, tst (pre ++ c :: r) (Z.of_nat (length pre) + 1) g = Ret (g (hd 0 r))).
    { intros g. unfold tst. rewrite (S1 c), S2, at_hd. reflexivity. }
    destruct ((c =? 45) || (c =? 32)).
    { rewrite (S1 c), S2. apply IH; try assumption; lia. }
    assert (Two : forall x, hd 0 r = x -> x <> 0 ->
      reduce_net_name f (splice b 0 d) (Z.of_nat (length d)) (pre ++ c :: r) (Z.of_nat (length pre) + 2)
      = if (length d + length (significant (tl r)) <? length b)%nat then Ret (splice b 0 (d ++ significant (tl r) ++ [0])) else UB).
    { intros x Hx Nx. destruct r as [|e r]; [cbn in Hx; congruence|]. cbn [tl length] in *.
      replace (Z.of_nat (length pre) + 2) with (Z.of_nat (length (pre ++ [c; e]))) by (rewrite app_length; cbn; lia).
      replace (pre ++ c :: e :: r) with ((pre ++ [c; e]) ++ r) by (rewrite <- app_assoc; reflexivity). apply IH; try assumption; lia. }
    destruct (Z.eqb_spec c 46) as [->|N1].
    + cbn [oand obind]. rewrite T. cbn [obind]. destruct (Z.eqb_spec (hd 0 r) 48) as [E|E].
      * cbn [andb]. apply (Two 48 E). lia.
      * cbn [andb]. change (46 =? 68) with false. cbn [oand obind andb]. change (toupper 46) with 46.
        destruct (Nat.ltb_spec (length d) (length b)).
        -- rewrite put by lia. cbn [obind]. rewrite snoc_len with (c := 46), (S1 46), S2. rewrite IH by (try assumption; try lia; rewrite app_length; cbn; lia).
           rewrite app_length. cbn [length]. replace (length d + 1 + length (significant r))%nat with (length d + S (length (significant r)))%nat by lia.
           rewrite <- app_assoc. reflexivity.
        -- rewrite wr_ub by (rewrite splice_length; lia). cbn [obind length].
           destruct (Nat.ltb_spec (length d + S (length (significant r))) (length b)); [lia|reflexivity].
    + cbn [oand obind andb]. 
      assert (G : (do b' <- wr (splice b 0 d) (Z.of_nat (length d)) (toupper c);
                   reduce_net_name f b' (Z.of_nat (length d) + 1) (pre ++ c :: r) (Z.of_nat (length pre) + 1))
        = if (length d + length (toupper c :: significant r) <? length b)%nat then Ret (splice b 0 (d ++ (toupper c :: significant r) ++ [0])) else UB).
      { destruct (Nat.ltb_spec (length d) (length b)).
        -- rewrite put by lia. cbn [obind]. rewrite snoc_len with (c := toupper c), (S1 c), S2. rewrite IH by (try assumption; try lia; rewrite app_length; cbn; lia).
           rewrite app_length. cbn [length]. replace (length d + 1 + length (significant r))%nat with (length d + S (length (significant r)))%nat by lia.
           rewrite <- app_assoc. reflexivity.
        -- rewrite wr_ub by (rewrite splice_length; lia). cbn [obind length].
           destruct (Nat.ltb_spec (length d + S (length (significant r))) (length b)); [lia|reflexivity]. }
      destruct (Z.eqb_spec c 68) as [->|N2]; cbn [oand obind andb].
      * rewrite T. cbn [obind]. destruct (Z.eqb_spec (hd 0 r) 82) as [E|E]; [apply (Two 82 E); lia|exact G].
      * exact G.
Qed.
Lemma toupper_nz c : c <> 0 -> toupper c <> 0.
Proof. unfold toupper, islower. intros H. destruct ((97 <=? c) && (c <=? 122)) eqn:E; lia. Qed.
Lemma sig_nul n : forall r, (length r <= n)%nat -> no_nul r -> no_nul (significant r).
Proof.
  induction n as [|n IH]; intros r Hn Hr; [destruct r; [exact Hr|cbn in Hn; lia]|].
  destruct r as [|c r]; [exact Hr|]. rewrite sig_cons. cbn [length] in Hn.
  assert (Hr' : no_nul r) by (intros x Hx; apply Hr; right; exact Hx).
  assert (Hr2 : no_nul (tl r)) by (destruct r; [exact Hr'|]; intros x Hx; apply Hr'; right; exact Hx).
  assert (length (tl r) <= n)%nat by (destruct r; cbn in *; lia).
  destruct ((c =? 45) || (c =? 32)); [apply IH; [lia|exact Hr']|].
  destruct ((c =? 46) && (hd 0 r =? 48)); [apply IH; assumption|].
  destruct ((c =? 68) && (hd 0 r =? 82)); [apply IH; assumption|].
  intros x [<-|Hx]; [apply toupper_nz; apply Hr; left; reflexivity|]. exact (IH r ltac:(lia) Hr' x Hx).
Qed.
Lemma splice_all (b : buf) s : splice b 0 s = map Some s ++ skipn (length s) b.
Proof. reflexivity. Qed.
Lemma streq_spec s : forall t, streq s t = true <-> s = t.
Proof.
  induction s as [|c s IH]; intros [|d t]; cbn [streq]; try (split; (discriminate || reflexivity)). split.
  - intros H. apply andb_prop in H as (H1 & H2). f_equal; [lia|apply IH; exact H2].
  - intros H. injection H as -> ->. rewrite Z.eqb_refl. cbn. apply IH. reflexivity.
Qed.
Definition entry_ok (e : list Z) : Prop := e <> [] /\ no_nul (tl e) /\ (length (significant (tl e)) < 80)%nat.
Fixpoint last_code (codes : list (list Z)) (t : list Z) (rval : Z) : Z :=
  match codes with
  | [] => rval
  | e :: rest => last_code rest t (if streq t (significant (tl e)) then hd 0 e else rval)
  end.
Lemma name_loop codes : forall (b net2 : buf) t rval, (forall e, In e codes -> entry_ok e) ->
  no_nul t -> (length t < 80)%nat -> length b = 80%nat -> length net2 = 80%nat ->
  name_to_code codes (splice b 0 (t ++ [0])) net2 rval = Ret (last_code codes t rval).
Proof.
  induction codes as [|e codes IH]; intros b net2 t rval He Ht Hl Hb H2; [reflexivity|].
  destruct (He e (or_introl eq_refl)) as (E0 & E1 & E2). destruct e as [|c name]; [congruence|]. cbn [tl] in *.
  assert (He' : forall e, In e codes -> entry_ok e) by (intros x Hx; apply He; right; exact Hx).
  cbn [name_to_code last_code skipn hd tl].
  pose proof (reduce_ok (length name) name [] [] net2 ltac:(lia) ltac:(cbn; lia) E1 (S (length name)) ltac:(lia)) as R.
  rewrite splice_nil in R. cbn [length app] in R. change (Z.of_nat 0) with 0 in R. rewrite R. cbn [Nat.add].
  destruct (Nat.ltb_spec (length (significant name)) (length net2)); [|lia]. cbn [obind].
  assert (BS : forall s (x : buf), no_nul s -> (length s < 80)%nat -> buf_str 81 (splice x 0 (s ++ [0])) 0 = Ret s).
  { intros s x Hs Hls. apply (buf_str_ok s [] (skipn (length (s ++ [0])) x)); [exact Hs|lia|]. rewrite splice_all, map_app, <- app_assoc. reflexivity. }
  pose proof (sig_nul (length name) name ltac:(lia) E1) as E3. rewrite (BS t b Ht Hl), (BS (significant name) net2 E3 E2). cbn [obind]. rewrite at0.
  assert (L : length (splice net2 0 (significant name ++ [0])) = 80%nat) by (rewrite splice_length; rewrite ?app_length; cbn; lia).
  destruct (streq t (significant name)); cbn [obind]; apply IH; assumption.
Qed.
Definition entry_okb (e : list Z) : bool :=
  negb (match e with [] => true | _ => false end) && forallb (fun c => negb (c =? 0)) (tl e) && Nat.ltb (length (significant (tl e))) 80.
Lemma entries e : In e net_codes -> entry_ok e.
Proof.
  assert (H : forallb entry_okb net_codes = true) by (vm_compute; reflexivity). intros Hi.
  rewrite forallb_forall in H. specialize (H e Hi). unfold entry_okb in H. apply andb_prop in H as (H & H3). apply andb_prop in H as (H1 & H2).
  split; [intros ->; discriminate|]. split; [|apply Nat.ltb_lt; exact H3].
  intros c Hc. rewrite forallb_forall in H2. specialize (H2 c Hc). cbv beta in H2. lia.
Qed.
Lemma name_code name : no_nul name -> (length (significant name) < 80)%nat ->
  net_name_to_byte_code name = Ret (let r := last_code net_codes (significant name) 0 in if r =? 0 then 63 else r).
Proof.
  intros Hn Hl. unfold net_name_to_byte_code.
  pose proof (reduce_ok (length name) name [] [] (repeat None 80) ltac:(lia) ltac:(cbn; lia) Hn (S (length name)) ltac:(lia)) as R.
  rewrite splice_nil in R. cbn [length app] in R. change (Z.of_nat 0) with 0 in R. rewrite R. cbn [Nat.add]. rewrite repeat_length.
  destruct (Nat.ltb_spec (length (significant name)) 80); [|lia]. cbn [obind].
  rewrite (name_loop net_codes _ _ (significant name) 0); try (rewrite repeat_length; reflexivity); try assumption.
  - reflexivity.
  - exact entries.
  - apply (sig_nul (length name)); [lia|exact Hn].
Qed.
Lemma last_none codes t : (forall e, In e codes -> t <> significant (tl e)) -> forall r, last_code codes t r = r.
Proof.
  induction codes as [|e codes IH]; intros H r; [reflexivity|]. cbn [last_code].
  destruct (streq t (significant (tl e))) eqn:E; [exfalso; apply (H e (or_introl eq_refl)), streq_spec, E|].
  apply IH. intros x Hx. apply H. right. exact Hx.
Qed.
