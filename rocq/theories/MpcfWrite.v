(** Writing angles. *)
From Coq Require Import Lia QArith Qround Qabs Lqa.
From Coq Require Import String.
From Verif Require Import CBase CLemmas CStr StrModel StrProofs TstrModel CtimeModel CtimeSpec CtimeBuf CtimeProofs CtimeJd MpcfModel MpcfSpec.
Local Open Scope string_scope.
Local Open Scope list_scope.
Local Open Scope Z_scope.

Lemma pow_pos n : 0 < 10 ^ Z.of_nat n.
Proof. apply Z.pow_pos_nonneg; lia. Qed.
Lemma ten_ok n : forall r, 0 < r -> r * 10 ^ Z.of_nat n <= I64MAX -> ten_to_the_nth n r = Ret (r * 10 ^ Z.of_nat n).
Proof.
  induction n as [|n IH]; intros r Hr Hb; cbn [ten_to_the_nth]; [f_equal; cbn; lia|].
  rewrite Nat2Z.inj_succ, Z.pow_succ_r in * by lia. pose proof (pow_pos n).
  rewrite ev_val by (cbn [safe val]; unfold fits, I64MAX in *; nia). cbn [obind val]. rewrite IH by nia. f_equal. ring.
Qed.
Lemma ten_1 n : (n <= 16)%nat -> ten_to_the_nth n 1 = Ret (10 ^ Z.of_nat n).
Proof.
  intros H. rewrite ten_ok; [f_equal; lia|lia|].
  pose proof (Z.pow_le_mono_r 10 (Z.of_nat n) 16 ltac:(lia) ltac:(lia)). unfold I64MAX. change (10 ^ 16) with 10000000000000000 in *. lia.
Qed.
Lemma trunc_floor q : (0 <= q)%Q -> trunc q = Qfloor q.
Proof.
  destruct q as [a b]. intros H. unfold Qle in H. cbn in H. unfold trunc, Qfloor. cbn [Qnum Qden].
  apply Z.quot_div_nonneg; lia.
Qed.
Lemma to_i64 q : (0 <= q)%Q -> Qfloor q <= I64MAX -> to_integer I64MAX q = Ret (Qfloor q).
Proof.
  intros H K. unfold to_integer. rewrite trunc_floor by exact H. apply chk_ok. unfold fits, I64MAX in *.
  assert (0 <= Qfloor q) by (change 0 with (Qfloor 0); now apply Qfloor_resp_le). lia.
Qed.

(* ---------- the buffer ---------- *)
Definition holds_at (pre : buf) (n : nat) (b : buf) (s : list Z) (post : buf) : Prop :=
  no_nul s /\ exists rest, b = pre ++ map Some s ++ Some 0 :: rest ++ post /\ (List.length s + 1 + List.length rest = n)%nat.

Lemma snprintf_at pre room post n out : (List.length out < n)%nat -> (List.length out < List.length room)%nat -> no_nul out ->
  exists b, snprintf (pre ++ room ++ post) (Z.of_nat (List.length pre)) n out = Ret b /\ holds_at pre (List.length room) b out post.
Proof.
  intros H1 H2 Hn. unfold snprintf, vsnprintf. destruct n as [|n]; [lia|]. rewrite firstn_all2 by lia.
  rewrite store_ok by (rewrite !app_length; cbn [List.length]; lia). cbn [obind]. eexists. split; [reflexivity|].
  rewrite splice_at by (rewrite app_length; cbn [List.length]; lia). split; [exact Hn|].
  exists (skipn (List.length (out ++ [0])) room). split.
  - rewrite map_app, <- !app_assoc. reflexivity.
  - rewrite skipn_length, app_length. cbn [List.length]. lia.
Qed.
Lemma len_at pre n b s post f : holds_at pre n b s post -> (List.length s < f)%nat -> buf_len f b (Z.of_nat (List.length pre)) = Ret (Z.of_nat (List.length s)).
Proof. intros (Hs & rest & -> & Hl) Hf. apply (buf_len_ok s pre (rest ++ post)); [exact Hs|exact Hf|reflexivity]. Qed.
Lemma len_at' pre n b s post : holds_at pre n b s post -> buf_len (S (List.length b)) b (Z.of_nat (List.length pre)) = Ret (Z.of_nat (List.length s)).
Proof.
  intros H. apply (len_at pre n b s post _ H). destruct H as (_ & rest & -> & _).
  rewrite !app_length, map_length. cbn [List.length]. rewrite app_length. lia.
Qed.
Lemma cat_at pre n b s post c : holds_at pre n b s post -> c <> 0 -> (List.length s + 1 < n)%nat ->
  exists b', store b (Z.of_nat (List.length pre) + Z.of_nat (List.length s)) [c; 0] = Ret b' /\ holds_at pre n b' (s ++ [c]) post.
Proof.
  intros (Hs & rest & -> & Hl) Hc Hn. destruct rest as [|r0 rest]; [cbn in Hl; lia|].
  replace (Z.of_nat (List.length pre) + Z.of_nat (List.length s)) with (Z.of_nat (List.length (pre ++ map Some s))) by (rewrite app_length, map_length; lia).
  rewrite store_ok by (rewrite !app_length, map_length; cbn [List.length]; rewrite app_length; lia).
  eexists. split; [reflexivity|]. rewrite app_assoc. cbn [app].
  change (Some 0 :: r0 :: rest ++ post) with ([Some 0; r0] ++ rest ++ post).
  rewrite splice_at by (cbn; lia). split; [apply no_nul_app; [exact Hs|intros x [<-|[]]; exact Hc]|].
  exists rest. split; [rewrite map_app, <- !app_assoc; reflexivity|]. rewrite app_length. cbn [List.length] in *. lia.
Qed.
Lemma append_at pre n b s post out : holds_at pre n b s post -> no_nul out -> (List.length (s ++ out) < n)%nat ->
  exists r b', snprintf_append b (Z.of_nat (List.length pre)) n out = Ret (r, b') /\ holds_at pre n b' (s ++ out) post.
Proof.
  intros (Hs & rest & -> & Hl) Ho Hn. rewrite app_length in Hn.
  pose proof (sn_append_exact true pre s rest post out Hs) as E.
  replace (List.length s + S (List.length rest))%nat with n in E by lia.
  destruct (Nat.leb_spec (List.length out) (List.length rest)) as [H|H]; [|lia].
  rewrite <- !app_assoc in E. cbn [app] in E. unfold snprintf_append. rewrite E. eexists. eexists. split; [reflexivity|].
  split; [now apply no_nul_app|]. exists (skipn (List.length out) rest). rewrite map_app, <- !app_assoc. cbn [app].
  split; [reflexivity|]. rewrite app_length, skipn_length. lia.
Qed.
Lemma fill_at : forall m pre (d : buf) post, List.length d = m ->
  fill_blanks m (pre ++ d ++ post) (Z.of_nat (List.length pre)) = Ret (pre ++ repeat (Some 32) m ++ post).
Proof.
  induction m as [|m IH]; intros pre d post H; cbn [fill_blanks].
  - destruct d; [reflexivity|discriminate].
  - destruct d as [|x d]; [discriminate|]. cbn [app]. rewrite (wr_at _ pre x (d ++ post) 32 eq_refl). cbn [obind].
    replace (pre ++ Some 32 :: d ++ post) with ((pre ++ [Some 32]) ++ d ++ post) by (rewrite <- app_assoc; reflexivity).
    replace (Z.of_nat (List.length pre) + 1) with (Z.of_nat (List.length (pre ++ [Some 32]))) by (rewrite app_length; cbn; lia).
    rewrite IH by (cbn in H; lia). rewrite <- app_assoc. reflexivity.
Qed.
(** Decimals and blanks. *)
Lemma decimals_at pre b s post p n fr t : holds_at pre (Z.to_nat (full_len p + 1)) b s post -> 0 <= full_len p ->
  (n <= 20)%nat -> 0 <= fr < 10 ^ Z.of_nat n ->
  t = (if Nat.eqb n 0 then [] else (if (p <? 307) || (312 <? p) then [46] else []) ++ ndig n fr) ->
  (List.length (s ++ t) <= Z.to_nat (full_len p))%nat ->
  angle_decimals b (Z.of_nat (List.length pre)) p n fr =
    Ret (pre ++ map Some (s ++ t ++ repeat 32 (Z.to_nat (full_len p) - List.length (s ++ t))) ++ Some 0 :: post).
Proof.
  intros H F0 Hn Hf -> Hl. unfold angle_decimals. set (F := Z.to_nat (full_len p)) in *.
  assert (EF : Z.to_nat (full_len p + 1) = S F) by (unfold F; lia). rewrite EF in *.
  set (t := if Nat.eqb n 0 then [] else _) in *.
  assert (STEP : exists b', (if Nat.eqb n 0 then Ret b
     else
       do b <- (if (p <? 307) || (312 <? p) then
                  do len <- buf_len (S (List.length b)) b (Z.of_nat (List.length pre));
                  store b (Z.of_nat (List.length pre) + len) [46; 0]
                else Ret b);
       do '(_, b) <- snprintf_append b (Z.of_nat (List.length pre)) (S F) (pad0 n fr);
       Ret b) = Ret b' /\ holds_at pre (S F) b' (s ++ t) post).
  { unfold t in *. destruct (Nat.eqb_spec n 0) as [E|E]; [rewrite app_nil_r; now exists b|].
    assert (Nd : no_nul (ndig n fr)) by (apply digit_no_nul; intros c Hc; now apply (ndig_digit n fr)).
    rewrite pad0_is_ndig by lia.
    destruct ((p <? 307) || (312 <? p)).
    - rewrite (len_at' pre (S F) b s post H). cbn [obind].
      destruct (cat_at pre (S F) b s post 46 H ltac:(discriminate)) as (b1 & E1 & H1).
      { rewrite !app_length in Hl. cbn [List.length] in Hl. lia. }
      rewrite E1. cbn [obind]. destruct (append_at pre (S F) b1 (s ++ [46]) post (ndig n fr) H1 Nd) as (r & b2 & E2 & H2).
      { rewrite !app_length in *. cbn [List.length] in *. lia. }
      rewrite E2. cbn [obind]. exists b2. split; [reflexivity|]. rewrite <- app_assoc in H2. exact H2.
    - cbn [obind]. destruct (append_at pre (S F) b s post (ndig n fr) H Nd) as (r & b2 & E2 & H2); [cbn [app] in Hl; lia|].
      rewrite E2. cbn [obind]. exists b2. now split. }
  destruct STEP as (b' & -> & H'). cbn [obind]. rewrite (len_at' _ _ _ _ _ H'). cbn [obind].
  destruct H' as (Hs & rest & -> & Hr). set (u := s ++ t) in *.
  assert (E0 : Z.to_nat (full_len p - Z.of_nat (List.length u)) = (F - List.length u)%nat) by (unfold F; lia). rewrite E0.
  replace (Z.of_nat (List.length pre) + Z.of_nat (List.length u)) with (Z.of_nat (List.length (pre ++ map Some u))) by (rewrite app_length, map_length; lia).
  (* the bytes filled are the terminator and all but the last of rest *)
  assert (D : exists d x, Some 0 :: rest = d ++ [x] /\ List.length d = (F - List.length u)%nat).
  { destruct (exists_last (l := Some 0 :: rest)) as (d & x & E); [discriminate|]. exists d, x. split; [exact E|].
    apply (f_equal (@List.length _)) in E. rewrite app_length in E. cbn [List.length] in E. lia. }
  destruct D as (d & x & ED & Ld).
  replace (pre ++ map Some u ++ Some 0 :: rest ++ post) with ((pre ++ map Some u) ++ d ++ x :: post).
  2: { change (Some 0 :: rest ++ post) with ((Some 0 :: rest) ++ post). rewrite ED, <- !app_assoc. reflexivity. }
  rewrite fill_at by exact Ld. cbn [obind].
  replace (Z.of_nat (List.length pre) + full_len p) with (Z.of_nat (List.length ((pre ++ map Some u) ++ repeat (Some 32) (F - List.length u)))).
  2: { rewrite !app_length, map_length, repeat_length. unfold F in *. lia. }
  rewrite app_assoc. rewrite (wr_at _ _ x post 0 eq_refl). f_equal. unfold u. rewrite !map_app, <- !app_assoc. cbn [app].
  assert (ER : repeat (Some 32) (F - List.length (s ++ t)) = map Some (repeat 32 (F - List.length (s ++ t)))).
  { generalize (F - List.length (s ++ t))%nat. clear. intros k. induction k as [|k IH]; [reflexivity|]. cbn. now rewrite IH. }
  rewrite ER. reflexivity.
Qed.

(* ---------- the fields ---------- *)
Definition head_text (l : layout) (n : nat) (k : Z) : list Z :=
  let i := k / 10 ^ Z.of_nat n in
  match l with
  | Seconds => ndig 2 (i / 3600) ++ 32 :: ndig 2 (i / 60 mod 60) ++ 32 :: ndig 2 (i mod 60)
  | Minutes => ndig 2 (i / 60) ++ 32 :: ndig 2 (i mod 60)
  | Decimal => ndig 2 i
  | Decimal3 => ndig 3 i
  | Packed => ndig 2 (i / 3600) ++ ndig 2 (i / 60 mod 60) ++ ndig 2 (i mod 60)
  | Seconds3 => ndig 3 (i / 3600) ++ 32 :: ndig 2 (i / 60 mod 60) ++ 32 :: ndig 2 (i mod 60)
  end.
Definition tail_text (l : layout) (n : nat) (d : Z) : list Z :=
  match l with Packed => ndig n d | _ => decimals n d end.
Lemma head_tail l n k : angle_text l n k = head_text l n k ++ tail_text l n (k mod 10 ^ Z.of_nat n).
Proof. destruct l; unfold angle_text, head_text, tail_text; cbv zeta; rewrite <- ?app_assoc; cbn [app]; rewrite <- ?app_assoc; reflexivity. Qed.
Lemma ndig_no_nul n v : no_nul (ndig n v).
Proof. apply digit_no_nul. intros c. apply ndig_digit. Qed.
Lemma no_nul_cons c s : c <> 0 -> no_nul s -> no_nul (c :: s).
Proof. intros H K x [<-|Hx]; [exact H|now apply K]. Qed.
Lemma head_no_nul l n k : no_nul (head_text l n k).
Proof.
  destruct l; cbn [head_text]; repeat (apply no_nul_app || apply ndig_no_nul || apply no_nul_cons); try discriminate; apply ndig_no_nul.
Qed.
Lemma tail_no_nul l n k : no_nul (tail_text l n k).
Proof.
  destruct l; cbn [tail_text]; try apply ndig_no_nul; (destruct n; [intros c []|apply no_nul_cons; [discriminate|apply ndig_no_nul]]).
Qed.
Lemma head_length l n k : List.length (head_text l n k) = match l with Seconds => 8 | Minutes => 5 | Decimal => 2 | Decimal3 => 3 | Packed => 6 | Seconds3 => 9 end%nat.
Proof. destruct l; unfold head_text; cbv zeta; rewrite ?app_length; cbn [List.length]; rewrite ?app_length; cbn [List.length]; rewrite ?ndig_length; reflexivity. Qed.
Lemma tail_length l n k : List.length (tail_text l n k) = match l, n with Packed, _ => n | _, O => O | _, _ => S n end.
Proof. destruct l; cbn [tail_text]; try apply ndig_length; destruct n; cbn [decimals List.length]; try reflexivity; now rewrite ndig_length. Qed.

Definition kept_format (l : layout) (n : nat) : Z := match l with Seconds3 => Z.of_nat n | _ => format_of l n end.
Lemma u32_small z : 0 <= z < 4294967296 -> u32 z = z.
Proof. apply Z.mod_small. Qed.
Lemma to_int_small z : 0 <= z < 2147483648 -> to_int z = z.
Proof. intros H. apply wrap32_id. lia. Qed.
Lemma parts n k B : 0 <= k < 10 ^ Z.of_nat n * B -> 0 <= k / 10 ^ Z.of_nat n < B /\
  Z.quot k (10 ^ Z.of_nat n) = k / 10 ^ Z.of_nat n /\ Z.rem k (10 ^ Z.of_nat n) = k mod 10 ^ Z.of_nat n /\
  forall c, 0 < c -> Z.quot k (c * 10 ^ Z.of_nat n) = k / 10 ^ Z.of_nat n / c.
Proof.
  intros H. pose proof (pow_pos n). repeat split.
  - apply Z.div_pos; lia.
  - apply Z.div_lt_upper_bound; lia.
  - apply Z.quot_div_nonneg; lia.
  - apply Z.rem_mod_nonneg; lia.
  - intros c Hc. rewrite Z.quot_div_nonneg by nia. rewrite Z.div_div by lia. f_equal. ring.
Qed.
Lemma scaled_ok a m n k : (0 <= a)%Q -> 0 < m -> k = Qfloor (a * inject_Z (m * 10 ^ Z.of_nat n) + (1 # 2)) -> k <= I64MAX ->
  forall x, (x == a * inject_Z m)%Q -> to_integer I64MAX (x * inject_Z (10 ^ Z.of_nat n) + (1 # 2)) = Ret k.
Proof.
  intros Ha Hm -> Hk x Hx.
  assert (E : (x * inject_Z (10 ^ Z.of_nat n) + (1 # 2) == a * inject_Z (m * 10 ^ Z.of_nat n) + (1 # 2))%Q).
  { rewrite Hx, inject_Z_mult. ring. }
  rewrite <- (Qfloor_comp _ _ E). apply to_i64; [|rewrite (Qfloor_comp _ _ E); exact Hk].
  rewrite E. pose proof (pow_pos n).
  assert (0 <= a * inject_Z (m * 10 ^ Z.of_nat n))%Q by (apply Qmult_le_0_compat; [exact Ha|change 0%Q with (inject_Z 0); rewrite <- Zle_Qle; nia]).
  eapply Qle_trans; [exact H0|]. rewrite <- (Qplus_0_r (a * inject_Z (m * 10 ^ Z.of_nat n))) at 1. apply Qplus_le_r. discriminate.
Qed.
Lemma fits_i64 l n k : can_write l n -> fits_layout l n k -> k <= I64MAX.
Proof.
  intros W F. assert (n <= 16)%nat by (destruct l; cbn in W; lia).
  assert (10 ^ Z.of_nat n * (match l with Seconds | Packed => 360000 | Minutes => 6000 | Decimal => 100 | Decimal3 => 1000 | Seconds3 => 3600000 end) <= I64MAX).
  { destruct l; cbn in W;
      match goal with |- _ * ?c <= _ =>
        match c with
        | 360000 => pose proof (Z.pow_le_mono_r 10 (Z.of_nat n) 9 ltac:(lia) ltac:(lia)) as P; change (10 ^ 9) with 1000000000 in P
        | 6000 => pose proof (Z.pow_le_mono_r 10 (Z.of_nat n) 9 ltac:(lia) ltac:(lia)) as P; change (10 ^ 9) with 1000000000 in P
        | 3600000 => pose proof (Z.pow_le_mono_r 10 (Z.of_nat n) 9 ltac:(lia) ltac:(lia)) as P; change (10 ^ 9) with 1000000000 in P
        | 100 => pose proof (Z.pow_le_mono_r 10 (Z.of_nat n) 16 ltac:(lia) ltac:(lia)) as P; change (10 ^ 16) with 10000000000000000 in P
        | 1000 => pose proof (Z.pow_le_mono_r 10 (Z.of_nat n) 15 ltac:(lia) ltac:(lia)) as P; change (10 ^ 15) with 1000000000000000 in P
        end end; unfold I64MAX; lia. }
  unfold fits_layout in F. lia.
Qed.
(** Taking the blanks out. *)
Lemma digit_not_32 c : isdigit c = true -> c <> 32.
Proof. intros H ->. discriminate H. Qed.
Lemma despace_digits s : forall t f, (forall c, In c s -> isdigit c = true) -> (List.length s <= f)%nat ->
  text_search_and_replace f (s ++ t) [32] [] = do '(u, m) <- text_search_and_replace (f - List.length s) t [32] []; Ret (s ++ u, m).
Proof.
  induction s as [|c s IH]; intros t f H Hf; cbn [app List.length].
  - rewrite Nat.sub_0_r. destruct (text_search_and_replace f t [32] []) as [[u m]| | |]; reflexivity.
  - destruct f as [|f]; [cbn in Hf; lia|]. cbn [text_search_and_replace List.length Nat.leb].
    assert (E : prefix [32] (c :: s ++ t) = false).
    { cbn [prefix]. pose proof (digit_not_32 c (H c (or_introl eq_refl))). destruct (Z.eqb_spec 32 c); [lia|reflexivity]. }
    rewrite E. cbn [tl firstn]. rewrite IH; [|intros x Hx; apply H; now right|cbn in Hf; lia]. cbn [Nat.sub].
    destruct (text_search_and_replace (f - List.length s) t [32] []) as [[u m]| | |]; reflexivity.
Qed.
Lemma despace_space t f : text_search_and_replace (S f) (32 :: t) [32] [] = do '(u, m) <- text_search_and_replace f t [32] []; Ret (u, m + 1).
Proof. reflexivity. Qed.
Lemma despace a b c : text_search_and_replace 8 (ndig 2 a ++ 32 :: ndig 2 b ++ 32 :: ndig 2 c) [32] [] = Ret (ndig 2 a ++ ndig 2 b ++ ndig 2 c, 2).
Proof.
  rewrite despace_digits by (try apply ndig_digit; rewrite ndig_length; lia). rewrite ndig_length. change (8 - 2)%nat with 6%nat.
  rewrite despace_space. rewrite despace_digits by (try apply ndig_digit; rewrite ndig_length; lia). rewrite ndig_length. change (5 - 2)%nat with 3%nat.
  rewrite despace_space. rewrite <- (app_nil_r (ndig 2 c)) at 1. rewrite despace_digits by (try apply ndig_digit; rewrite ndig_length; lia).
  rewrite ndig_length. cbn [Nat.sub text_search_and_replace List.length Nat.leb obind]. rewrite app_nil_r. reflexivity.
Qed.
Lemma fields_at l n a k pre room post : can_write l n -> (0 <= a)%Q ->
  k = Qfloor (a * inject_Z (per l * 10 ^ Z.of_nat n) + (1 # 2)) -> fits_layout l n k -> (13 <= List.length room)%nat ->
  exists b, angle_fields (pre ++ room ++ post) (Z.of_nat (List.length pre)) a (format_of l n)
            = Ret (b, kept_format l n, n, k mod 10 ^ Z.of_nat n) /\
    holds_at pre (List.length room) b (head_text l n k) post.
Proof.
  intros W Ha Ek F Hr. pose proof (fits_i64 l n k W F) as K64.
  assert (N : (n <= 16)%nat) by (destruct l; cbn in W; lia).
  pose proof (head_length l n k) as HL. pose proof (head_no_nul l n k) as HN.
  unfold fits_layout in F. destruct (parts n k _ F) as (PB & PQ & PR & PC).
  assert (M60 : forall z, 0 <= z mod 60 < 100) by (intros z; pose proof (Z.mod_pos_bound z 60 ltac:(lia)); lia).
  unfold angle_fields. cbv zeta.
  destruct l; cbn [per format_of kept_format can_write] in *.
  - (* Seconds *)
    destruct (Z.leb_spec 100 (Z.of_nat n)); [lia|]. destruct (Z.leb_spec 200 (Z.of_nat n)); [lia|]. cbn [andb orb].
    destruct (Z.leb_spec (Z.of_nat n) (-1)); [lia|]. rewrite Bool.andb_false_r.
    destruct (Z.leb_spec 0 (Z.of_nat n)); [|lia]. destruct (Z.leb_spec (Z.of_nat n) 9); [|lia]. cbn [andb orb].
    destruct (Z.leb_spec 400 (Z.of_nat n)); [lia|]. rewrite Z.rem_small by lia. rewrite Nat2Z.id, ten_1 by lia. cbn [obind].
    rewrite (scaled_ok a 3600 n k Ha ltac:(lia) Ek K64) by reflexivity. cbn [obind]. rewrite !PC, PQ, PR by lia.
    assert (0 <= k / 10 ^ Z.of_nat n / 3600 < 100) by (split; [apply Z.div_pos; lia|apply Z.div_lt_upper_bound; lia]).
    assert (0 <= k / 10 ^ Z.of_nat n / 60 < 6000) by (split; [apply Z.div_pos; lia|apply Z.div_lt_upper_bound; lia]).
    rewrite !u32_small by lia. rewrite !pad0_is_ndig by (try change (10 ^ Z.of_nat 2) with 100; first [apply M60|lia]).
    destruct (snprintf_at pre room post 10 (head_text Seconds n k)) as (b & E & HB); [lia|lia|exact HN|].
    unfold head_text in E at 1. cbv zeta in E. rewrite E. cbn [obind].
    destruct (Z.ltb_spec 306 (Z.of_nat n)); [lia|]. cbn [obind]. exists b. now split.
  - (* Minutes *)
    destruct (Z.leb_spec 100 (-1 - Z.of_nat n)); [lia|]. destruct (Z.leb_spec 200 (-1 - Z.of_nat n)); [lia|]. cbn [andb orb].
    destruct (Z.leb_spec (-7) (-1 - Z.of_nat n)); [|lia]. destruct (Z.leb_spec (-1 - Z.of_nat n) (-1)); [|lia]. cbn [andb].
    replace (Z.to_nat (-1 - (-1 - Z.of_nat n))) with n by lia. rewrite ten_1 by lia. cbn [obind].
    rewrite (scaled_ok a 60 n k Ha ltac:(lia) Ek K64) by reflexivity. cbn [obind]. rewrite !PC, PQ, PR by lia.
    assert (0 <= k / 10 ^ Z.of_nat n / 60 < 100) by (split; [apply Z.div_pos; lia|apply Z.div_lt_upper_bound; lia]).
    rewrite !u32_small by lia. rewrite !pad0_is_ndig by (try change (10 ^ Z.of_nat 2) with 100; first [apply M60|lia]).
    destruct (snprintf_at pre room post 6 (head_text Minutes n k)) as (b & E & HB); [lia|lia|exact HN|].
    unfold head_text in E at 1. cbv zeta in E. rewrite E. cbn [obind]. exists b. now split.
  - (* Decimal *)
    destruct (Z.leb_spec 100 (100 + Z.of_nat n)); [|lia]. destruct (Z.leb_spec (100 + Z.of_nat n) 116); [|lia]. cbn [andb orb].
    replace (Z.rem (100 + Z.of_nat n) 100) with (Z.of_nat n) by (rewrite Z.rem_mod_nonneg by lia; rewrite <- Z.add_mod_idemp_l, Z.mod_same, Z.add_0_l by lia; now rewrite Z.mod_small by lia).
    rewrite Nat2Z.id, ten_1 by lia. cbn [obind]. destruct (Z.leb_spec (100 + Z.of_nat n) 200); [|lia].
    rewrite (scaled_ok a 1 n k Ha ltac:(lia) Ek K64) by reflexivity. cbn [obind]. rewrite PQ, PR.
    replace (to_int (k / 10 ^ Z.of_nat n)) with (k / 10 ^ Z.of_nat n) by (symmetry; apply to_int_small; lia).
    rewrite !u32_small by lia. rewrite !pad0_is_ndig by (try change (10 ^ Z.of_nat 2) with 100; lia).
    destruct (snprintf_at pre room post 4 (head_text Decimal n k)) as (b & E & HB); [lia|lia|exact HN|].
    unfold head_text in E at 1. cbv zeta in E. rewrite E. cbn [obind]. exists b. now split.
  - (* Decimal3 *)
    destruct (Z.leb_spec (200 + Z.of_nat n) 116); [lia|]. rewrite Bool.andb_false_r.
    destruct (Z.leb_spec 200 (200 + Z.of_nat n)); [|lia]. destruct (Z.leb_spec (200 + Z.of_nat n) 215); [|lia]. cbn [andb orb].
    replace (Z.rem (200 + Z.of_nat n) 100) with (Z.of_nat n) by (rewrite Z.rem_mod_nonneg by lia; rewrite <- Z.add_mod_idemp_l by lia; change (200 mod 100) with 0; rewrite Z.add_0_l; now rewrite Z.mod_small by lia).
    rewrite Nat2Z.id, ten_1 by lia. cbn [obind]. destruct (Z.leb_spec (200 + Z.of_nat n) 200); [lia|].
    rewrite (scaled_ok a 15 n k Ha ltac:(lia) Ek K64) by reflexivity. cbn [obind]. rewrite PQ, PR.
    replace (to_int (k / 10 ^ Z.of_nat n)) with (k / 10 ^ Z.of_nat n) by (symmetry; apply to_int_small; lia).
    rewrite !u32_small by lia. rewrite !pad0_is_ndig by (try change (10 ^ Z.of_nat 3) with 1000; lia).
    destruct (snprintf_at pre room post 4 (head_text Decimal3 n k)) as (b & E & HB); [lia|lia|exact HN|].
    unfold head_text in E at 1. cbv zeta in E. rewrite E. cbn [obind]. exists b. now split.
  - (* Packed *)
    destruct (Z.leb_spec (306 + Z.of_nat n) 116); [lia|]. rewrite Bool.andb_false_r.
    destruct (Z.leb_spec (306 + Z.of_nat n) 215); [lia|]. rewrite Bool.andb_false_r. cbn [orb].
    destruct (Z.leb_spec (306 + Z.of_nat n) (-1)); [lia|]. rewrite Bool.andb_false_r.
    destruct (Z.leb_spec (306 + Z.of_nat n) 9); [lia|]. rewrite Bool.andb_false_r.
    destruct (Z.leb_spec 307 (306 + Z.of_nat n)); [|lia]. destruct (Z.leb_spec (306 + Z.of_nat n) 312); [|lia]. cbn [andb orb].
    destruct (Z.leb_spec 400 (306 + Z.of_nat n)); [lia|].
    replace (Z.rem (306 + Z.of_nat n) 306) with (Z.of_nat n) by (rewrite Z.rem_mod_nonneg by lia; rewrite <- Z.add_mod_idemp_l, Z.mod_same, Z.add_0_l by lia; now rewrite Z.mod_small by lia).
    rewrite Nat2Z.id, ten_1 by lia. cbn [obind].
    rewrite (scaled_ok a 3600 n k Ha ltac:(lia) Ek K64) by reflexivity. cbn [obind]. rewrite !PC, PQ, PR by lia.
    assert (0 <= k / 10 ^ Z.of_nat n / 3600 < 100) by (split; [apply Z.div_pos; lia|apply Z.div_lt_upper_bound; lia]).
    assert (0 <= k / 10 ^ Z.of_nat n / 60 < 6000) by (split; [apply Z.div_pos; lia|apply Z.div_lt_upper_bound; lia]).
    rewrite !u32_small by lia. rewrite !pad0_is_ndig by (try change (10 ^ Z.of_nat 2) with 100; first [apply M60|lia]).
    destruct (snprintf_at pre room post 10 (head_text Seconds n k)) as (b & E & HB); [rewrite head_length; lia|rewrite head_length; lia|apply head_no_nul|].
    unfold head_text in E at 1. cbv zeta in E. rewrite E. cbn [obind].
    destruct (Z.ltb_spec 306 (306 + Z.of_nat n)); [|lia].
    destruct HB as (HS & rest & -> & Hlen). rewrite head_length in Hlen.
    rewrite (buf_str_ok (head_text Seconds n k) pre (rest ++ post) _ _ HS); [|rewrite !app_length, map_length; cbn [List.length]; rewrite app_length; lia|reflexivity].
    cbn [obind]. rewrite head_length. unfold head_text at 1. cbv zeta. rewrite despace. cbn [obind].
    change (ndig 2 (k / 10 ^ Z.of_nat n / 3600) ++ ndig 2 (k / 10 ^ Z.of_nat n / 60 mod 60) ++ ndig 2 (k / 10 ^ Z.of_nat n mod 60)) with (head_text Packed n k).
    rewrite store_ok by (rewrite !app_length, map_length, !head_length; cbn [List.length]; rewrite app_length; lia). cbn [obind].
    eexists. split; [reflexivity|].
    replace (map Some (head_text Seconds n k) ++ Some 0 :: rest ++ post) with ((map Some (head_text Seconds n k) ++ Some 0 :: rest) ++ post) by (rewrite <- app_assoc; reflexivity).
    rewrite splice_at by (rewrite !app_length, map_length, !head_length; cbn [List.length]; lia).
    split; [exact HN|]. set (R := skipn _ _). exists R. split; [rewrite map_app, <- !app_assoc; reflexivity|]. unfold R.
    rewrite skipn_length, !app_length, map_length, !head_length. cbn [List.length]. lia.
  - (* Seconds3 *)
    destruct (Z.leb_spec (400 + Z.of_nat n) 116); [lia|]. rewrite Bool.andb_false_r.
    destruct (Z.leb_spec (400 + Z.of_nat n) 215); [lia|]. rewrite Bool.andb_false_r. cbn [orb].
    destruct (Z.leb_spec (400 + Z.of_nat n) (-1)); [lia|]. rewrite Bool.andb_false_r.
    destruct (Z.leb_spec (400 + Z.of_nat n) 9); [lia|]. rewrite Bool.andb_false_r.
    destruct (Z.leb_spec (400 + Z.of_nat n) 312); [lia|]. rewrite Bool.andb_false_r.
    destruct (Z.leb_spec 400 (400 + Z.of_nat n)); [|lia]. destruct (Z.leb_spec (400 + Z.of_nat n) 402); [|lia]. cbn [andb orb].
    replace (400 + Z.of_nat n - 400) with (Z.of_nat n) by lia. rewrite Z.rem_small by lia. rewrite Nat2Z.id, ten_1 by lia. cbn [obind].
    rewrite (scaled_ok a 54000 n k Ha ltac:(lia) Ek K64) by (change (inject_Z 54000) with 54000%Q; ring). cbn [obind]. rewrite !PC, PQ, PR by lia.
    assert (0 <= k / 10 ^ Z.of_nat n / 3600 < 1000) by (split; [apply Z.div_pos; lia|apply Z.div_lt_upper_bound; lia]).
    assert (0 <= k / 10 ^ Z.of_nat n / 60 < 60000) by (split; [apply Z.div_pos; lia|apply Z.div_lt_upper_bound; lia]).
    rewrite !u32_small by lia. rewrite !pad0_is_ndig by (try change (10 ^ Z.of_nat 2) with 100; try change (10 ^ Z.of_nat 3) with 1000; first [apply M60|lia]).
    destruct (snprintf_at pre room post 10 (head_text Seconds3 n k)) as (b & E & HB); [lia|lia|exact HN|].
    unfold head_text in E at 1. cbv zeta in E. rewrite E. cbn [obind].
    destruct (Z.ltb_spec 306 (Z.of_nat n)); [lia|]. cbn [obind]. exists b. now split.
Qed.

Lemma write_ok l n a k : can_write l n -> (0 <= a)%Q ->
  k = Qfloor (a * inject_Z (per l * 10 ^ Z.of_nat n) + (1 # 2)) -> fits_layout l n k ->
  prints a (format_of l n) (columns (angle_text l n k)).
Proof.
  intros W Ha Ek F. pose proof (head_length l n k) as HL. pose proof (tail_length l n (k mod 10 ^ Z.of_nat n)) as TL.
  unfold prints, columns. rewrite head_tail. split.
  { apply no_nul_app; [apply no_nul_app; [apply head_no_nul|apply tail_no_nul]|].
    intros c Hc. apply repeat_spec in Hc. subst c. discriminate. }
  intros pre room post Hr. rewrite !app_length, repeat_length in Hr.
  assert (FL : 12 <= full_len (kept_format l n) /\ Z.of_nat (List.length room) = full_len (kept_format l n) + 1 /\
    (Z.to_nat (full_len (kept_format l n)) - (List.length (head_text l n k) + List.length (tail_text l n (k mod 10 ^ Z.of_nat n)))
     = 12 - (List.length (head_text l n k) + List.length (tail_text l n (k mod 10 ^ Z.of_nat n))))%nat /\
    (List.length (head_text l n k ++ tail_text l n (k mod 10 ^ Z.of_nat n)) <= Z.to_nat (full_len (kept_format l n)))%nat).
  { rewrite app_length. rewrite HL, TL in *. unfold full_len. destruct l; cbn [kept_format format_of can_write] in *;
      repeat match goal with |- context [?x <=? ?y] => destruct (Z.leb_spec x y) end; cbn [andb]; try lia; destruct n; lia. }
  destruct FL as (F1 & F2 & F3 & F4).
  unfold output_angle_to_buff. destruct (fields_at l n a k pre room post W Ha Ek F ltac:(lia)) as (b & -> & HB). cbn [obind].
  replace (List.length room) with (Z.to_nat (full_len (kept_format l n) + 1)) in HB by lia.
  rewrite (decimals_at pre b (head_text l n k) post (kept_format l n) n (k mod 10 ^ Z.of_nat n) (tail_text l n (k mod 10 ^ Z.of_nat n)) HB).
  - f_equal. f_equal. f_equal. rewrite !app_length, F3. now rewrite <- app_assoc.
  - lia.
  - destruct l; cbn in W; lia.
  - apply Z.mod_pos_bound, pow_pos.
  - destruct n as [|n]; [destruct l; try reflexivity; cbn in W; lia|]. cbn [Nat.eqb].
    destruct l; cbn [kept_format format_of tail_text decimals can_write] in *;
      repeat match goal with |- context [?x <? ?y] => destruct (Z.ltb_spec x y) end; cbn [orb app]; first [reflexivity|lia].
  - exact F4.
Qed.
Lemma nearest_half x : (Qabs (inject_Z (Qfloor (x + (1 # 2))) - x) <= 1 # 2)%Q.
Proof.
  destruct (floor_bounds (x + (1 # 2))) as [A B]. apply Qabs_Qle_condition. split; lra.
Qed.
Lemma per_pos l n : 0 < per l * 10 ^ Z.of_nat n.
Proof. pose proof (pow_pos n). destruct l; cbn [per]; lia. Qed.
Lemma half_unit l n a : (Qabs (angle_of l n (Qfloor (a * inject_Z (per l * 10 ^ Z.of_nat n) + (1 # 2))) - a)
  <= (1 # 2) / inject_Z (per l * 10 ^ Z.of_nat n))%Q.
Proof.
  pose proof (per_pos l n) as P. unfold angle_of. set (M := per l * 10 ^ Z.of_nat n) in *.
  assert (PQ : (0 < inject_Z M)%Q) by (change 0%Q with (inject_Z 0); now rewrite <- Zlt_Qlt).
  pose proof (nearest_half (a * inject_Z M)) as H. set (k := inject_Z (Qfloor _)) in *.
  assert (E : (k / inject_Z M - a == (k - a * inject_Z M) / inject_Z M)%Q) by (field; intros E; rewrite E in PQ; discriminate PQ).
  rewrite E. unfold Qdiv. rewrite Qabs_Qmult. rewrite (Qabs_pos (/ inject_Z M)) by (apply Qlt_le_weak, Qinv_lt_0_compat, PQ).
  apply Qmult_le_compat_r; [exact H|]. apply Qlt_le_weak, Qinv_lt_0_compat, PQ.
Qed.
