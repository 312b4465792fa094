(** Proofs of the theorems stated in [PropAng]. *)
From Coq Require Import Lia QArith Qround Qabs Lqa.
From Coq Require Import String.
From Verif Require Import CBase CLemmas CStr TstrModel TstrSpec TstrNum CtimeSpec CtimeBuf CtimeProofs CtimeRound MpcfModel MpcfWrite MpcfRead MpcdProofs AngModel AngSpec AngProofs.
Local Open Scope string_scope.
Local Open Scope list_scope.
Local Open Scope Z_scope.

Lemma place_head p k neg v r : place p k neg v r -> exists c q, p = c :: q /\ c <> 44.
Proof.
  intros [i c k0 neg0 j s v0 n full b t HS HA HF|i s v0 n full b c k0 neg0 t HS HA]; (destruct i as [|i]; [|eexists _, _; split; [reflexivity|discriminate]]);
    cbn [blanks repeat app].
  - eexists _, _. split; [reflexivity|]. apply (sign_apart _ _ _ HS).
  - destruct (angle_head _ _ _ _ HA) as (d & sr & -> & D). eexists _, _. split; [reflexivity|]. lia.
Qed.
Definition plain (t : list Z) : Prop := match t with c :: _ => c <> 44 | [] => True end.
Lemma height_plain h alt : AngSpec.height h alt -> plain h.
Proof.
  assert (A : forall i a s v w r, label a -> number s v w -> plain (blanks i ++ a ++ s ++ r)).
  { intros i a s v w r Ha Hs. destruct i as [|i]; [|discriminate]. cbn [blanks repeat app].
    destruct Ha as [->|(x & i & Hx & ->)]; [destruct (number_head _ _ _ Hs) as (c & q & -> & C); cbn; lia|].
    cbn [In] in Hx. destruct Hx as [<-|[<-|[<-|[<-|[]]]]]; discriminate. }
  intros [i|i a s v w j t Ha Hs|i a s v w j t Ha Hs]; [destruct i; [exact I|discriminate]|now apply (A i a s v w)|now apply (A i a s v w)].
Qed.
Lemma drop_comma_plain c t : comma c -> plain t -> drop_comma (c ++ t) = t.
Proof. intros [-> | ->] H; [|reflexivity]. cbn [app]. unfold drop_comma. destruct t as [|x t]; [reflexivity|]. cbn [head]. cbn in H. now destruct (Z.eqb_spec x 44). Qed.
Lemma place_plain p k neg v r t : place p k neg v r -> plain (p ++ t).
Proof. intros H. destruct (place_head _ _ _ _ _ H) as (c & q & -> & C). exact C. Qed.

Lemma start_digit d r : 48 <= d <= 57 -> place_start (d :: r) = (0, d :: r).
Proof. intros D. unfold place_start. cbn [head]. rewrite digit_compass by exact D. rewrite not_alt by (cbn [head]; now apply lower_digit). reflexivity. Qed.
Lemma start_word w y : In w [zs "alt"; zs "Alt"; zs "alt."; zs "Alt."] -> (head y =? 46) = false -> place_start (w ++ y) = (0, y) /\ (exists x z, w ++ y = x :: z /\ x <> 32).
Proof.
  intros Hw N. cbn [In] in Hw.
  assert (K : forall x, In x [97; 65] -> place_start (x :: 108 :: 116 :: y) = (0, y)).
  { intros x Hx. cbn [In] in Hx. unfold place_start. assert (S0 : strchr compass (head (x :: 108 :: 116 :: y)) = false) by (destruct Hx as [<-|[<-|[]]]; reflexivity). rewrite S0.
    assert (S1 : memieq (x :: 108 :: 116 :: y) (zs "alt") 3 && Nat.leb 3 (List.length (x :: 108 :: 116 :: y)) = true) by (destruct Hx as [<-|[<-|[]]]; now destruct y).
    rewrite S1. cbn [skipn]. now rewrite N. }
  assert (K2 : forall x, In x [97; 65] -> place_start (x :: 108 :: 116 :: 46 :: y) = (0, y)).
  { intros x Hx. cbn [In] in Hx. unfold place_start. assert (S0 : strchr compass (head (x :: 108 :: 116 :: 46 :: y)) = false) by (destruct Hx as [<-|[<-|[]]]; reflexivity). rewrite S0.
    assert (S1 : memieq (x :: 108 :: 116 :: 46 :: y) (zs "alt") 3 && Nat.leb 3 (List.length (x :: 108 :: 116 :: 46 :: y)) = true) by (destruct Hx as [<-|[<-|[]]]; reflexivity).
    rewrite S1. reflexivity. }
  destruct Hw as [<-|[<-|[<-|[<-|[]]]]]; (split; [|eexists _, _; split; [reflexivity|discriminate]]).
  - apply (K 97). now left.
  - apply (K 65). now (right; left).
  - apply (K2 97). now left.
  - apply (K2 65). now (right; left).
Qed.
Lemma start_label i a s v n full j t : label a -> angle s v n full -> follows full j t ->
  exists x y tp, skip_spaces (blanks i ++ a ++ s ++ blanks j ++ t) = x :: y /\ place_start (x :: y) = (0, tp) /\ get_angle tp = Ret (v, t, n).
Proof.
  intros Ha Hs F. destruct (angle_head _ _ _ _ Hs) as (d & sr & Es & D). rewrite skip_blanks. destruct Ha as [->|(w & b & Hw & ->)].
  - cbn [app]. pose proof (get_angle_reads 0 _ _ _ _ _ _ Hs F) as G. cbn [blanks repeat app] in G. rewrite Es in G |- *. cbn [app] in G |- *.
    rewrite skip_not by lia. eexists _, _, _. split; [reflexivity|]. split; [now apply start_digit|exact G].
  - rewrite <- app_assoc. pose proof (get_angle_reads b _ _ _ _ _ _ Hs F) as G.
    assert (N : (head (blanks b ++ s ++ blanks j ++ t) =? 46) = false).
    { destruct b as [|b]; [|reflexivity]. rewrite Es. cbn [blanks repeat app head]. apply Z.eqb_neq. lia. }
    destruct (start_word w _ Hw N) as [S1 (x & z & S2 & S3)]. rewrite S2 in S1 |- *. rewrite skip_not by exact S3.
    eexists _, _, _. split; [reflexivity|]. split; [exact S1|exact G].
Qed.
Lemma extract_start wb buff x y cb tp v t n : skip_spaces buff = x :: y -> place_start (x :: y) = (cb, tp) -> get_angle tp = Ret (v, t, n) ->
  extract_lat_lon wb buff =
    (let '(value, tptr, rval) := AngModel.height cb n t v in
     let '(tptr, is_negative, rval) := direction cb n tptr rval in
     let value := if is_negative then (- value)%Q else value in
     if wb then match tptr with
                | None => UB
                | Some t => let t := if head t =? 44 then tl t else t in
                            Ret (rval, Some value, Some (if rval =? GOT_NOTHING then buff else t))
                end
     else Ret (rval, Some value, None)).
Proof. intros H1 H2 H3. unfold extract_lat_lon. rewrite H1, H2, H3. reflexivity. Qed.
Lemma skip_end i : skip_spaces (blanks i) = [].
Proof. rewrite <- (app_nil_r (blanks i)). apply skip_blanks. Qed.
Lemma extract_height h alt : AngSpec.height h alt -> exists ty val r, extract_lat_lon true h = Ret (ty, val, r) /\
  match val with Some a => if ty =? GOT_ALT then a else 100%Q | None => 100%Q end = alt.
Proof.
  intros [i|i a s v w j t Ha Hs|i a s v w j t Ha Hs].
  - exists GOT_NOTHING, None, None. unfold extract_lat_lon. rewrite skip_end. split; reflexivity.
  - destruct (start_label i a s v 1 (negb w) j (109 :: t) Ha (angle_one _ _ _ Hs) ltac:(apply follows_letter; lia)) as (x & y & tp & S1 & S2 & S3).
    rewrite (extract_start true _ _ _ _ _ _ _ _ S1 S2 S3). exists GOT_ALT, (Some v). eexists. split; reflexivity.
  - destruct (start_label i a s v 1 (negb w) j (zs "ft" ++ t) Ha (angle_one _ _ _ Hs) ltac:(change (zs "ft" ++ t) with (102 :: 116 :: t); apply follows_letter; lia)) as (x & y & tp & S1 & S2 & S3).
    rewrite (extract_start true _ _ _ _ _ _ _ _ S1 S2 S3). exists GOT_ALT, (Some (v * (3048 # 10000))%Q). eexists. split; reflexivity.
Qed.
Lemma code_other k : (code (other k) =? GOT_LAT + GOT_LON - code k) = true.
Proof. now destruct k. Qed.
Lemma code_kind k : (code k =? GOT_LAT) || (code k =? GOT_LON) = true.
Proof. now destruct k. Qed.
Lemma place_nonneg p k neg v r : place p k neg v r -> (0 <= v)%Q.
Proof. intros [i c k0 neg0 j s v0 n full b t HS HA HF|i s v0 n full b c k0 neg0 t HS HA]; exact (angle_nonneg _ _ _ _ HA). Qed.
(** Latitude and longitude as get_lat_lon_info( ) stores them. *)
Definition wrap (v : Q) : Q := if qlt v 0 then (v + 360)%Q else v.
Lemma wrap_east neg v : (0 <= v)%Q -> (wrap (signed neg v) == east neg v)%Q.
Proof.
  intros H. unfold wrap, signed, east. destruct neg; cbn [andb].
  - destruct (Qeq_bool v 0) eqn:E; cbn [negb].
    + apply Qeq_bool_eq in E. rewrite qlt_false by lra. lra.
    + apply Qeq_bool_neq in E. rewrite qlt_true; [lra|]. assert (0 < v)%Q; [|lra]. apply Qle_lteq in H. destruct H as [H|H]; [exact H|]. elim E. now rewrite H.
  - rewrite qlt_false by exact H. reflexivity.
Qed.
Definition both (k : kind) (a b : Q) : Q * Q := match k with latitude => (a, wrap b) | longitude => (b, wrap a) end.
Lemma info_two p1 c1 p2 c2 t k neg1 v1 neg2 v2 : place p1 k neg1 v1 (c1 ++ p2 ++ c2 ++ t) -> place p2 (other k) neg2 v2 (c2 ++ t) -> comma c1 -> comma c2 -> plain t ->
  get_lat_lon_info true (p1 ++ c1 ++ p2 ++ c2 ++ t) =
    let '(lat, lon) := both k (signed neg1 v1) (signed neg2 v2) in
    if qlt 90 lat || qlt lat (-(90)) || qlt lon 0 || qlt 360 lon then Ret (-1, Some (lat, lon, None))
    else do '(alt_type, alt_value, _) <- extract_lat_lon true t;
         Ret (0, Some (lat, lon, Some match alt_value with
                                      | Some a => if alt_type =? GOT_ALT then a else 100%Q
                                      | None => 100%Q
                                      end)).
Proof.
  intros H1 H2 C1 C2 HT. unfold get_lat_lon_info. rewrite (extract_place true _ _ _ _ _ H1). cbn [obind]. rewrite code_kind.
  rewrite (drop_comma_plain _ _ C1 (place_plain _ _ _ _ _ _ H2)). rewrite (extract_place true _ _ _ _ _ H2). cbn [obind]. rewrite code_other.
  rewrite (drop_comma_plain _ _ C2 HT). destruct k; reflexivity.
Qed.
Lemma info_null p1 c1 p2 c2 t k neg1 v1 neg2 v2 : place p1 k neg1 v1 (c1 ++ p2 ++ c2 ++ t) -> place p2 (other k) neg2 v2 (c2 ++ t) -> comma c1 ->
  get_lat_lon_info false (p1 ++ c1 ++ p2 ++ c2 ++ t) = Ret (0, None).
Proof.
  intros H1 H2 C1. unfold get_lat_lon_info. rewrite (extract_place true _ _ _ _ _ H1). cbn [obind]. rewrite code_kind.
  rewrite (drop_comma_plain _ _ C1 (place_plain _ _ _ _ _ _ H2)). rewrite (extract_place true _ _ _ _ _ H2). cbn [obind]. rewrite code_other. reflexivity.
Qed.
Lemma lat_range neg v : (0 <= v)%Q -> qlt 90 (signed neg v) || qlt (signed neg v) (-(90)) = qlt 90 v.
Proof.
  intros H. destruct (Qlt_le_dec 90 v) as [L|L].
  - rewrite (qlt_true 90 v L). destruct neg; cbn [signed]; [rewrite (qlt_true (- v)) by lra; apply Bool.orb_true_r|rewrite qlt_true by exact L; reflexivity].
  - rewrite (qlt_false 90 v L). destruct neg; cbn [signed]; rewrite !qlt_false by lra; reflexivity.
Qed.
Lemma lon_range neg v : (0 <= v)%Q -> qlt (wrap (signed neg v)) 0 || qlt 360 (wrap (signed neg v)) = qlt 360 v.
Proof.
  intros H. unfold wrap. destruct neg; cbn [signed].
  - destruct (Qlt_le_dec (- v) 0) as [L|L].
    + rewrite (qlt_true (- v) 0 L). rewrite (qlt_false 360 (- v + 360)) by lra. rewrite Bool.orb_false_r.
      destruct (Qlt_le_dec 360 v) as [M|M]; [rewrite !qlt_true by lra|rewrite !qlt_false by lra]; reflexivity.
    + rewrite (qlt_false (- v) 0 L). rewrite (qlt_false (- v) 0 L). rewrite !qlt_false by lra. reflexivity.
  - rewrite (qlt_false v 0 H). rewrite (qlt_false v 0 H). reflexivity.
Qed.
Lemma both_range k neg1 v1 neg2 v2 lat lon : (0 <= v1)%Q -> (0 <= v2)%Q -> both k (signed neg1 v1) (signed neg2 v2) = (lat, lon) ->
  qlt 90 lat || qlt lat (-(90)) || qlt lon 0 || qlt 360 lon = qlt (limit k) v1 || qlt (limit (other k)) v2.
Proof.
  intros P1 P2 E. rewrite <- Bool.orb_assoc. destruct k; cbn [both] in E; injection E as <- <-; cbn [limit other].
  - now rewrite lat_range, lon_range.
  - rewrite lat_range, lon_range by assumption. apply Bool.orb_comm.
Qed.

Lemma C50_place_proof :
forall p1 c1 p2 c2 h k neg1 v1 neg2 v2 alt,
  place p1 k neg1 v1 (c1 ++ p2 ++ c2 ++ h) -> place p2 (other k) neg2 v2 (c2 ++ h) -> comma c1 -> comma c2 -> height h alt ->
  (v1 <= limit k)%Q -> (v2 <= limit (other k))%Q ->
  exists lat lon, get_lat_lon_info true (p1 ++ c1 ++ p2 ++ c2 ++ h) = Ret (0, Some (lat, lon, Some alt)) /\
    match k with
    | latitude => (lat == signed neg1 v1)%Q /\ (lon == east neg2 v2)%Q
    | longitude => (lat == signed neg2 v2)%Q /\ (lon == east neg1 v1)%Q
    end.
Proof.
  intros p1 c1 p2 c2 h k neg1 v1 neg2 v2 alt H1 H2 C1 C2 HH L1 L2. pose proof (place_nonneg _ _ _ _ _ H1) as P1. pose proof (place_nonneg _ _ _ _ _ H2) as P2.
  rewrite (info_two _ _ _ _ _ _ _ _ _ _ H1 H2 C1 C2 (height_plain _ _ HH)). destruct (both k (signed neg1 v1) (signed neg2 v2)) as [lat lon] eqn:B.
  rewrite (both_range _ _ _ _ _ _ _ P1 P2 B). rewrite !qlt_false by assumption. cbn [orb]. destruct (extract_height _ _ HH) as (ty & val & r & -> & E). cbn [obind]. rewrite E.
  exists lat, lon. split; [reflexivity|]. destruct k; cbn [both] in B; injection B as <- <-; (split; [reflexivity|now apply wrap_east]).
Qed.

Lemma C50_outside_proof :
forall p1 c1 p2 c2 t k neg1 v1 neg2 v2,
  place p1 k neg1 v1 (c1 ++ p2 ++ c2 ++ t) -> place p2 (other k) neg2 v2 (c2 ++ t) -> comma c1 -> comma c2 -> no_comma t ->
  (limit k < v1)%Q \/ (limit (other k) < v2)%Q ->
  exists r, get_lat_lon_info true (p1 ++ c1 ++ p2 ++ c2 ++ t) = Ret (-1, r).
Proof.
  intros p1 c1 p2 c2 t k neg1 v1 neg2 v2 H1 H2 C1 C2 HT L. pose proof (place_nonneg _ _ _ _ _ H1) as P1. pose proof (place_nonneg _ _ _ _ _ H2) as P2.
  rewrite (info_two _ _ _ _ _ _ _ _ _ _ H1 H2 C1 C2 HT). destruct (both k (signed neg1 v1) (signed neg2 v2)) as [lat lon] eqn:B.
  rewrite (both_range _ _ _ _ _ _ _ P1 P2 B). assert (E : qlt (limit k) v1 || qlt (limit (other k)) v2 = true).
  { destruct L as [L|L]; rewrite (qlt_true _ _ L); [reflexivity|apply Bool.orb_true_r]. }
  rewrite E. eexists. reflexivity.
Qed.

Lemma C50_same_kind_proof :
forall b p1 c1 p2 t k neg1 v1 neg2 v2,
  place p1 k neg1 v1 (c1 ++ p2 ++ t) -> place p2 k neg2 v2 t -> comma c1 -> get_lat_lon_info b (p1 ++ c1 ++ p2 ++ t) = Ret (-1, None).
Proof.
  intros b p1 c1 p2 t k neg1 v1 neg2 v2 H1 H2 C1. unfold get_lat_lon_info. rewrite (extract_place true _ _ _ _ _ H1). cbn [obind]. rewrite code_kind.
  rewrite (drop_comma_plain _ _ C1 (place_plain _ _ _ _ _ _ H2)). rewrite (extract_place true _ _ _ _ _ H2). cbn [obind].
  now destruct k.
Qed.

Lemma C50_ra_proof :
forall i s v n full j t, angle s v n full -> follows full j t ->
  exists ra bytes, get_ra_from_string (blanks i ++ s ++ blanks j ++ t) = Ret (ra, bytes) /\
    (ra == if n =? 3 then 15 * v else v)%Q /\
    bytes = if Qle_bool ra 360 then Z.of_nat (List.length (blanks i ++ s ++ blanks j)) else 0.
Proof.
  intros i s v n full j t HA F. unfold get_ra_from_string. rewrite (get_angle_reads _ _ _ _ _ _ _ HA F). cbn [obind].
  assert (L : (List.length (blanks i ++ s ++ blanks j ++ t) - List.length t = List.length (blanks i ++ s ++ blanks j))%nat) by (rewrite !app_length; lia). rewrite L.
  eexists _, _. split; [reflexivity|]. assert (N : (2 <? n) = (n =? 3) /\ (n =? 0) = false) by (destruct (angle_fields _ _ _ _ HA) as [->|[->| ->]]; split; reflexivity).
  destruct N as [-> ->]. split; [destruct (n =? 3); ring|]. cbn [orb]. unfold qlt. now destruct (Qle_bool _ 360).
Qed.

Lemma C50_dec_proof :
forall c i s v n full j t, In c (zs "+-") -> angle s v n full -> follows full j t -> (v <= 90)%Q ->
  get_dec_from_string (c :: blanks i ++ s ++ blanks j ++ t) = Ret (signed (c =? 45) v, Z.of_nat (List.length (c :: blanks i ++ s ++ blanks j))).
Proof.
  intros c i s v n full j t Hc HA F V. unfold get_dec_from_string. cbn [head tl].
  assert (S0 : negb (c =? 43) && negb (c =? 45) = false) by (destruct Hc as [<-|[<-|[]]]; reflexivity). rewrite S0.
  rewrite (get_angle_reads _ _ _ _ _ _ _ HA F). cbn [obind].
  assert (N : (n =? 0) = false) by (destruct (angle_fields _ _ _ _ HA) as [->|[->| ->]]; reflexivity). rewrite N, qlt_false by exact V. cbn [orb].
  assert (L : (List.length (blanks i ++ s ++ blanks j ++ t) - List.length t = List.length (blanks i ++ s ++ blanks j))%nat) by (rewrite !app_length; lia). rewrite L.
  cbn [List.length]. rewrite Nat2Z.inj_succ. reflexivity.
Qed.

Lemma stops_ends t : number_ends t -> stops t /\ not_point t.
Proof.
  destruct t as [|c t]; [split; exact I|]. cbn [number_ends stops not_point]. intros [H1 H2]. split; [|exact H2].
  destruct (isdigit c) eqn:E; [|reflexivity]. apply digit_iff in E. contradiction.
Qed.
Lemma get_angle_over i s t : over s -> number_ends t -> exists r, get_angle (blanks i ++ s ++ t) = Ret (0%Q, r, 0).
Proof.
  intros H E. destruct (stops_ends _ E) as [E1 E2].
  destruct H as [s v b s' m w H1 H2 H3|s v b s' m b' s'' x w H1 H2 H3 H4 H5]; unfold get_angle; rewrite <- !app_assoc.
  - destruct (blank_stops b (s' ++ t)) as [B1 B2]. rewrite (get_number _ _ _ i _ H1 B1 B2). cbn [obind].
    change (1 =? -1) with false. change (1 =? 0) with false. cbv iota. rewrite (get_number _ _ _ (S b) _ H2 E1 E2). cbn [obind].
    rewrite qlt_true by exact H3. eexists. reflexivity.
  - destruct (blank_stops b (s' ++ blanks (S b') ++ s'' ++ t)) as [B1 B2]. rewrite (get_number _ _ _ i _ H1 B1 B2). cbn [obind].
    change (1 =? -1) with false. change (1 =? 0) with false. cbv iota. destruct (blank_stops b' (s'' ++ t)) as [B3 B4].
    rewrite (get_number _ _ _ (S b) _ H2 B3 B4). cbn [obind]. rewrite qlt_false by exact H3.
    change (1 =? -1) with false. change (1 =? 0) with false. cbv iota. rewrite (get_number _ _ _ (S b') _ H4 E1 E2). cbn [obind].
    rewrite qlt_true by exact H5. eexists. reflexivity.
Qed.
Lemma over_head s : over s -> exists c r, s = c :: r /\ 48 <= c <= 57.
Proof. intros [s0 v b s' m w H1 H2 H3|s0 v b s' m b' s'' x w H1 H2 H3 H4 H5]; destruct (number_head _ _ _ H1) as (c & r & -> & C); eexists _, _; (split; [reflexivity|exact C]). Qed.
(** What precedes an angle: a compass sign, or nothing. *)
Lemma extract_over i pre s t : (pre = [] \/ exists c k neg j, sign c k neg /\ pre = c :: blanks j) -> over s -> number_ends t ->
  extract_lat_lon true (blanks i ++ pre ++ s ++ t) = Ret (GOT_NOTHING, Some 0%Q, Some (blanks i ++ pre ++ s ++ t)).
Proof.
  intros HP HO HE. destruct (over_head _ HO) as (d & r & Es & D).
  assert (A : exists x y cb tp u, skip_spaces (blanks i ++ pre ++ s ++ t) = x :: y /\ place_start (x :: y) = (cb, tp) /\ get_angle tp = Ret (0%Q, u, 0)).
  { destruct HP as [->|(c & k & neg & j & HS & ->)].
    - destruct (get_angle_over 0 s t HO HE) as (u & G). cbn [blanks repeat app] in G. rewrite skip_blanks. cbn [app]. rewrite Es in G |- *. cbn [app] in G |- *. rewrite skip_not by lia.
      eexists _, _, _, _, _. split; [reflexivity|]. split; [now apply start_digit|exact G].
    - destruct (get_angle_over j s t HO HE) as (u & G). rewrite skip_blanks. cbn [app]. rewrite skip_not by apply (sign_apart _ _ _ HS).
      eexists _, _, c, _, _. split; [reflexivity|]. split; [|exact G]. unfold place_start. cbn [head tl]. rewrite (strchr_compass _ _ _ HS).
      rewrite not_alt by (rewrite Es; cbn [app]; now apply head_blanks_digit). reflexivity. }
  destruct A as (x & y & cb & tp & u & S1 & S2 & S3). rewrite (extract_start true _ _ _ _ _ _ _ _ S1 S2 S3).
  unfold AngModel.height, direction. change (0 =? 1) with false. rewrite Bool.andb_false_r. change (0 =? 0) with true. cbn [negb andb]. reflexivity.
Qed.

Lemma C50_over_proof :
forall i s t, over s -> number_ends t ->
  (exists ra, get_ra_from_string (blanks i ++ s ++ t) = Ret (ra, 0)) /\
  (forall c, In c (zs "+-") -> exists dec, get_dec_from_string (c :: blanks i ++ s ++ t) = Ret (dec, 0)) /\
  (forall b pre, pre = [] \/ (exists c k neg j, sign c k neg /\ pre = c :: blanks j) ->
     get_lat_lon_info b (blanks i ++ pre ++ s ++ t) = Ret (-1, None) /\
     forall p1 c1 k neg v, place p1 k neg v (c1 ++ blanks i ++ pre ++ s ++ t) -> comma c1 ->
       get_lat_lon_info b (p1 ++ c1 ++ blanks i ++ pre ++ s ++ t) = Ret (-1, None)).
Proof.
  intros i s t HO HE. destruct (get_angle_over i s t HO HE) as (u & G). split; [|split].
  - unfold get_ra_from_string. rewrite G. cbn [obind]. eexists. reflexivity.
  - intros c Hc. unfold get_dec_from_string. cbn [head tl]. assert (S0 : negb (c =? 43) && negb (c =? 45) = false) by (destruct Hc as [<-|[<-|[]]]; reflexivity).
    rewrite S0, G. cbn [obind]. eexists. reflexivity.
  - intros b pre HP. pose proof (extract_over i pre s t HP HO HE) as X. split; [unfold get_lat_lon_info; rewrite X; reflexivity|].
    intros p1 c1 k neg v H1 C1. unfold get_lat_lon_info. rewrite (extract_place true _ _ _ _ _ H1). cbn [obind]. rewrite code_kind.
    rewrite drop_comma_plain; [|exact C1|].
    + rewrite X. cbn [obind]. now destruct k.
    + destruct i as [|i]; [|discriminate]. cbn [blanks repeat app]. destruct HP as [->|(c & k' & neg' & j & HS & ->)]; [|apply (sign_apart _ _ _ HS)].
      destruct (over_head _ HO) as (d & r & -> & D). cbn. lia.
Qed.

Lemma skip_suffix s : exists n, s = blanks n ++ skip_spaces s.
Proof.
  unfold skip_spaces. induction s as [|c s [n IH]]; [exists O; reflexivity|]. cbn [span]. destruct (Z.eqb_spec 32 c) as [<-|]; [|exists O; reflexivity].
  exists (S n). cbn [skipn blanks repeat app]. f_equal. exact IH.
Qed.
Definition okc (c : Z) : Prop := c = 32 \/ c = 46 \/ 48 <= c <= 57.
Lemma digit_run s : exists ds t, s = ds ++ t /\ (forall x, In x ds -> 48 <= x <= 57) /\ stops t.
Proof.
  induction s as [|c s (ds & t & E & D & T)]; [exists [], []; split; [reflexivity|split; [intros x []|exact I]]|].
  destruct (isdigit c) eqn:C.
  - exists (c :: ds), t. split; [now rewrite E|]. split; [|exact T]. intros x [<-|H]; [now apply digit_iff|now apply D].
  - exists [], (c :: s). split; [reflexivity|]. split; [intros x []|exact C].
Qed.
Lemma int_run ds : forall t acc, (forall x, In x ds -> 48 <= x <= 57) -> stops t -> 0 <= acc -> (acc + 1) * 10 ^ Z.of_nat (List.length ds) <= 1000000000 ->
  exists v, int_digits (ds ++ t) acc = Ret (v, t) /\ 0 <= v.
Proof.
  induction ds as [|c ds IH]; intros t acc D T A B.
  - exists acc. split; [now apply stops_int|exact A].
  - cbn [app int_digits]. pose proof (D c ltac:(now left)) as C. assert (E : isdigit c = true) by now apply digit_iff. rewrite E.
    cbn [List.length] in B. rewrite Nat2Z.inj_succ, Z.pow_succ_r in B by lia. pose proof (pow_pos (List.length ds)).
    rewrite ev_val by (cbn [safe val]; unfold fits, IMAX; nia). cbn [obind val]. apply IH; [intros x H'; apply D; now right|exact T|lia|nia].
Qed.
Lemma frac_run ds : forall t acc d, (forall x, In x ds -> 48 <= x <= 57) -> stops t -> 0 <= acc -> 0 < d -> (acc + 1) * 10 ^ Z.of_nat (List.length ds) <= 1000000000 ->
  d * 10 ^ Z.of_nat (List.length ds) <= 1000000000 -> exists v e, frac_digits (ds ++ t) acc d = Ret (v, e, t) /\ 0 <= v /\ 0 < e.
Proof.
  induction ds as [|c ds IH]; intros t acc d D T A P B B2.
  - exists acc, d. split; [now apply stops_frac|]. split; [exact A|exact P].
  - cbn [app frac_digits]. pose proof (D c ltac:(now left)) as C. assert (E : isdigit c = true) by now apply digit_iff. rewrite E.
    cbn [List.length] in B, B2. rewrite Nat2Z.inj_succ, Z.pow_succ_r in B, B2 by lia. pose proof (pow_pos (List.length ds)).
    rewrite ev_val by (cbn [safe val]; unfold fits, IMAX; nia). cbn [obind val]. rewrite ev_val by (cbn [safe val]; unfold fits, IMAX; nia). cbn [obind val].
    apply IH; [intros x H'; apply D; now right|exact T|lia|lia|nia|nia].
Qed.
Lemma short_suffix a s : short_runs (a ++ s) -> short_runs s.
Proof. intros H x y z E D. apply (H (a ++ x) y z); [rewrite E, <- app_assoc; reflexivity|exact D]. Qed.
Lemma sign_digit c r : 48 <= c <= 57 -> sign_of (c :: r) = (false, c :: r).
Proof.
  intros H. assert (C : c = 48 \/ c = 49 \/ c = 50 \/ c = 51 \/ c = 52 \/ c = 53 \/ c = 54 \/ c = 55 \/ c = 56 \/ c = 57) by lia.
  repeat (destruct C as [->|C]; [reflexivity|]). subst c. reflexivity.
Qed.
Lemma qs_total s : short_runs s -> isdigit (head (skip_spaces s)) = true ->
  exists v t p, quick_strtod s = Ret (v, t) /\ (0 <= v)%Q /\ s = p ++ t /\ p <> [] /\ (forall x, In x p -> okc x).
Proof.
  intros HS HD. destruct (skip_suffix s) as (n & E). set (u := skip_spaces s) in *. destruct (digit_run u) as (ds & t & Eu & D & T).
  assert (SU : short_runs u) by (apply (short_suffix (blanks n)); now rewrite <- E).
  assert (L : (List.length ds <= 9)%nat) by (apply (SU [] ds t); [exact Eu|exact D]).
  assert (NE : exists c q, ds = c :: q /\ 48 <= c <= 57).
  { destruct ds as [|c q]; [|exists c, q; split; [reflexivity|apply D; now left]]. cbn [app] in Eu. rewrite Eu in HD. destruct t as [|x t]; [discriminate|]. cbn [stops head] in T, HD. congruence. }
  destruct NE as (c & q & Ed & C). pose proof (pow9 _ L) as P9.
  assert (SG : sign_of u = (false, u)) by (rewrite Eu, Ed; cbn [app]; now apply sign_digit).
  assert (G : match u with c :: _ => isdigit c | [] => false end = true) by (rewrite Eu, Ed; cbn [app]; now apply digit_iff).
  destruct (int_run ds t 0 D T ltac:(lia) ltac:(lia)) as (v & V & V0). rewrite <- Eu in V.
  assert (BL : forall x, In x (blanks n ++ ds) -> okc x).
  { intros x H. apply in_app_or in H. destruct H as [H|H]; [apply repeat_spec in H; now left|right; right; now apply D]. }
  destruct t as [|x t].
  - exists (inject_Z v), [], (blanks n ++ ds). unfold quick_strtod. fold u. rewrite SG. cbv iota. rewrite V. cbn [obind].
    split; [reflexivity|]. split; [now apply Qz_nonneg|]. split; [rewrite E, Eu, <- app_assoc; reflexivity|]. split; [rewrite Ed; now destruct n|exact BL].
  - destruct (Z.eqb_spec x 46) as [->|NX].
    + destruct (digit_run t) as (ds2 & t2 & Et & D2 & T2).
      assert (L2 : (List.length ds2 <= 9)%nat) by (apply (SU (ds ++ [46]) ds2 t2); [rewrite Eu, Et, <- !app_assoc; reflexivity|exact D2]).
      pose proof (pow9 _ L2) as P92. destruct (frac_run ds2 t2 0 1 D2 T2 ltac:(lia) ltac:(lia) ltac:(lia) ltac:(lia)) as (f & e & FR & F0 & E0).
      exists (inject_Z v + inject_Z f / inject_Z e)%Q, t2, (blanks n ++ ds ++ 46 :: ds2). unfold quick_strtod. fold u. rewrite SG. cbv iota. rewrite G, V. cbn [obind].
      cbn [negb]. rewrite Bool.andb_false_r. rewrite Et at 1. rewrite FR. cbn [obind].
      split; [reflexivity|]. split; [|split; [rewrite E, Eu, Et, <- !app_assoc; reflexivity|split; [rewrite Ed; now destruct n|]]].
      * assert (0 <= inject_Z f / inject_Z e)%Q; [|pose proof (Qz_nonneg v V0); lra].
        apply Qle_shift_div_l; [change 0%Q with (inject_Z 0); now rewrite <- Zlt_Qlt|]. rewrite Qmult_0_l. now apply Qz_nonneg.
      * intros y H. rewrite app_assoc in H. apply in_app_or in H. destruct H as [H|[<-|H]]; [now apply BL|right; now left|right; right; now apply D2].
    + exists (inject_Z v), (x :: t), (blanks n ++ ds). unfold quick_strtod. fold u. rewrite SG. cbv iota. rewrite V. cbn [obind].
      split; [destruct x as [|x|x]; try reflexivity; do 6 (destruct x as [x|x|]; try reflexivity); now elim NX|].
      split; [now apply Qz_nonneg|]. split; [rewrite E, Eu, <- app_assoc; reflexivity|]. split; [rewrite Ed; now destruct n|exact BL].
Qed.
Lemma number_total s : short_runs s -> exists v w t p, get_number_for_angle s = Ret (v, w, t) /\ (0 <= v)%Q /\ s = p ++ t /\ (forall x, In x p -> okc x) /\
  (w = -1 /\ p = [] \/ (w = 0 \/ w = 1) /\ p <> []).
Proof.
  intros HS. unfold get_number_for_angle. destruct (isdigit (head (skip_spaces s))) eqn:HD; cbn [negb].
  - destruct (qs_total s HS HD) as (v & t & p & -> & V & E & NE & K). cbn [obind]. rewrite qlt_false by exact V.
    assert (N : (List.length s - List.length t =? 0)%nat = false) by (apply Nat.eqb_neq; rewrite E, app_length; destruct p; [congruence|cbn [List.length]; lia]).
    rewrite N. cbn [orb]. eexists _, _, _, p. split; [reflexivity|]. split; [exact V|]. split; [exact E|]. split; [exact K|]. right.
    split; [|exact NE]. destruct (_ =? 46); tauto.
  - exists 0%Q, (-1), s, []. split; [reflexivity|]. split; [lra|]. split; [reflexivity|]. split; [intros x []|now left].
Qed.
Lemma skipn_suffix {A} n (s : list A) : exists p, s = p ++ skipn n s.
Proof. exists (firstn n s). now rewrite firstn_skipn. Qed.
Lemma angle_total s : short_runs s -> exists v t n p, get_angle s = Ret (v, t, n) /\ (0 <= v)%Q /\ s = p ++ t /\ 0 <= n <= 3 /\
  (n <> 0 -> p <> [] /\ forall x, In x p -> okc x).
Proof.
  intros HS. unfold get_angle. destruct (number_total s HS) as (v & w & t1 & p1 & -> & V & E1 & K1 & W). cbn [obind].
  assert (SK : forall v t n p, (0 <= v)%Q -> s = p ++ t -> 1 <= n <= 3 -> p <> [] -> (forall x, In x p -> okc x) ->
    exists v' t' n' p', Ret (v, skip_spaces t, n) = Ret (v', t', n') /\ (0 <= v')%Q /\ s = p' ++ t' /\ 0 <= n' <= 3 /\ (n' <> 0 -> p' <> [] /\ forall x, In x p' -> okc x)).
  { intros v' t n p V' E N NE K. destruct (skip_suffix t) as (m & Et). exists v', (skip_spaces t), n, (p ++ blanks m). split; [reflexivity|]. split; [exact V'|].
    split; [rewrite <- app_assoc, <- Et; exact E|]. split; [lia|]. intros _. split; [intros Z0; apply app_eq_nil in Z0; tauto|].
    intros x H. apply in_app_or in H. destruct H as [H|H]; [now apply K|apply repeat_spec in H; now left]. }
  assert (ZR : forall k, exists v' t' n' p', Ret (0%Q, skipn k s, 0) = Ret (v', t', n') /\ (0 <= v')%Q /\ s = p' ++ t' /\ 0 <= n' <= 3 /\ (n' <> 0 -> p' <> [] /\ forall x, In x p' -> okc x)).
  { intros k. destruct (skipn_suffix k s) as (p & E). exists 0%Q, (skipn k s), 0, p. split; [reflexivity|]. split; [lra|]. split; [exact E|]. split; [lia|]. intros H; now elim H. }
  destruct W as [[-> ->]|[W NE1]].
  { change (-1 =? -1) with true. cbv iota. exists v, s, 0, []. split; [reflexivity|]. split; [exact V|]. split; [reflexivity|]. split; [lia|]. intros H; now elim H. }
  destruct W as [-> | ->].
  { change (0 =? -1) with false. change (0 =? 0) with true. cbv iota. apply (SK _ _ _ p1); try assumption; lia. }
  change (1 =? -1) with false. change (1 =? 0) with false. cbv iota.
  assert (S1 : short_runs t1) by (apply (short_suffix p1); now rewrite <- E1).
  destruct (number_total t1 S1) as (f & w & t2 & p2 & -> & F & E2 & K2 & W). cbn [obind]. destruct (qlt 60 f); [apply ZR|].
  destruct W as [[-> ->]|[W NE2]].
  { change (-1 =? -1) with true. cbv iota. apply (SK _ _ _ p1); try assumption; lia. }
  assert (V2 : (0 <= v + f / 60)%Q) by (assert (0 <= f / 60)%Q by (apply Qle_shift_div_l; [reflexivity|]; lra); lra).
  assert (K12 : forall x, In x (p1 ++ p2) -> okc x) by (intros x H; apply in_app_or in H; destruct H; auto).
  assert (NE12 : p1 ++ p2 <> []) by (intros Z0; apply app_eq_nil in Z0; tauto).
  assert (E12 : s = (p1 ++ p2) ++ t2) by (rewrite <- app_assoc, <- E2; exact E1).
  destruct W as [-> | ->].
  { change (0 =? -1) with false. change (0 =? 0) with true. cbv iota. apply (SK _ _ _ (p1 ++ p2)); try assumption; lia. }
  change (1 =? -1) with false. change (1 =? 0) with false. cbv iota.
  assert (S2 : short_runs t2) by (apply (short_suffix p2); now rewrite <- E2).
  destruct (number_total t2 S2) as (g & w & t3 & p3 & -> & G & E3 & K3 & W). cbn [obind]. destruct (qlt 60 g); [apply ZR|].
  destruct W as [[-> ->]|[W NE3]].
  { change (-1 =? -1) with true. cbv iota. apply (SK _ _ _ (p1 ++ p2)); try assumption; lia. }
  assert (WF : (w =? -1) = false) by (destruct W as [-> | ->]; reflexivity). rewrite WF.
  apply (SK _ _ _ ((p1 ++ p2) ++ p3)); [|rewrite <- app_assoc, <- E3; exact E12|lia|intros Z0; apply app_eq_nil in Z0; tauto|].
  - assert (0 <= g / 3600)%Q by (apply Qle_shift_div_l; [reflexivity|]; lra). lra.
  - intros x H. apply in_app_or in H. destruct H; auto.
Qed.
Definition ended (s : list Z) : Prop := s = [] \/ well_ended s.
Lemma ended_suffix p s : ended (p ++ s) -> ended s.
Proof.
  intros H. destruct s as [|x s]; [now left|]. right. destruct H as [H|(a & c & E & H)]; [apply app_eq_nil in H; destruct H; discriminate|].
  destruct (@exists_last Z (x :: s) ltac:(discriminate)) as (q & z & Ez). rewrite Ez in E |- *. rewrite app_assoc in E. apply app_inj_tail in E. destruct E as [_ <-].
  exists q, z. split; [reflexivity|exact H].
Qed.
Lemma ended_okc p : p <> [] -> (forall x, In x p -> okc x) -> ended p -> False.
Proof.
  intros NE K [H|(a & c & E & H)]; [contradiction|]. subst p. specialize (K c ltac:(apply in_or_app; right; now left)). unfold okc in K. tauto.
Qed.
Lemma tl_suffix (s : list Z) : exists p, s = p ++ tl s.
Proof. destruct s as [|c s]; [exists []; reflexivity|exists [c]; reflexivity]. Qed.
Lemma alt_suffix t : exists p, t = p ++ (if memieq t (zs "alt") 3 && (3 <=? List.length t)%nat then let t := skipn 3 t in if head t =? 46 then tl t else t else t).
Proof.
  destruct (_ && _); [|exists []; reflexivity]. cbv zeta. destruct (head (skipn 3 t) =? 46); [|apply skipn_suffix].
  destruct (skipn_suffix 3 t) as (p & P). destruct (tl_suffix (skipn 3 t)) as (q & Q). exists (p ++ q). rewrite <- app_assoc, <- Q. exact P.
Qed.
Lemma start_suffix s cb tp : place_start s = (cb, tp) -> exists p, s = p ++ tp.
Proof.
  unfold place_start. destruct (strchr compass (head s)); intros E; injection E as _ <-.
  - destruct (tl_suffix s) as (p & P). destruct (alt_suffix (tl s)) as (q & Q). exists (p ++ q). rewrite <- app_assoc. etransitivity; [exact P|]. f_equal. exact Q.
  - apply alt_suffix.
Qed.
Lemma height_suffix cb n t v v' t' r : AngModel.height cb n t v = (v', t', r) -> exists p, t = p ++ t'.
Proof.
  unfold AngModel.height. destruct ((cb =? 0) && (n =? 1)); [|intros E; injection E as <- <- <-; exists []; reflexivity].
  set (u := if head t =? 32 then tl t else t). assert (U : exists p, t = p ++ u) by (unfold u; destruct (head t =? 32); [apply tl_suffix|exists []; reflexivity]).
  destruct U as (p & U). destruct (head u =? 109); [intros E; injection E as <- <- <-; destruct (tl_suffix u) as (q & Q); exists (p ++ q); rewrite <- app_assoc, <- Q; exact U|].
  destruct ((head u =? 102) && (nth 1 u 0 =? 116)); intros E; injection E as <- <- <-.
  - destruct (skipn_suffix 2 u) as (q & Q). exists (p ++ q). rewrite <- app_assoc. etransitivity; [exact U|]. f_equal. exact Q.
  - exists p. exact U.
Qed.
Lemma height_nothing cb n t v v' t' r : AngModel.height cb n t v = (v', t', r) -> r = GOT_NOTHING -> t = t' \/ t <> [] /\ head t = 32.
Proof.
  unfold AngModel.height. destruct ((cb =? 0) && (n =? 1)); [|intros E _; injection E as <- <- <-; now left].
  destruct (Z.eqb_spec (head t) 32) as [H|H].
  - intros _ _. right. split; [intros ->; discriminate|exact H].
  - destruct (head t =? 109); [intros E R; injection E as <- <- <-; discriminate|]. destruct ((head t =? 102) && (nth 1 t 0 =? 116)); intros E R; injection E as <- <- <-; [discriminate|now left].
Qed.
Lemma direction_suffix cb n t r t' neg r' : direction cb n t r = (Some t', neg, r') -> exists p, t = p ++ t'.
Proof.
  unfold direction. destruct (negb (n =? 0) && (r =? GOT_NOTHING)); [|intros E; injection E as <- <- <-; exists []; reflexivity].
  destruct ((cb =? 0) && strchr compass (head t)).
  - destruct t as [|c t].
    + repeat match goal with |- context[if ?b then _ else _] => destruct b end; discriminate.
    + intros E. exists [c]. repeat match type of E with context[if ?b then _ else _] => destruct b end; injection E as <- _ _; reflexivity.
  - intros E. exists []. repeat match type of E with context[if ?b then _ else _] => destruct b end; injection E as <- _ _; reflexivity.
Qed.
Lemma direction_none cb n t r neg r' : direction cb n t r = (None, neg, r') -> t = [] /\ n <> 0 /\ r = GOT_NOTHING.
Proof.
  unfold direction. destruct (Z.eqb_spec n 0) as [|N]; [discriminate|]. cbn [negb andb]. destruct (Z.eqb_spec r GOT_NOTHING) as [R|]; [|discriminate].
  destruct ((cb =? 0) && strchr compass (head t)).
  - destruct t as [|c t]; [intros _; now split|]. repeat match goal with |- context[if ?b then _ else _] => destruct b end; discriminate.
  - repeat match goal with |- context[if ?b then _ else _] => destruct b end; discriminate.
Qed.
Lemma extract_total s : short_runs s -> ended s -> exists k v r, extract_lat_lon true s = Ret (k, v, r) /\ match r with Some t => exists p, s = p ++ t | None => True end.
Proof.
  intros HS HE. destruct (skip_suffix s) as (m & E0). unfold extract_lat_lon. destruct (skip_spaces s) as [|c u]; [eexists _, _, _; split; [reflexivity|exact I]|].
  destruct (place_start (c :: u)) as [cb tp] eqn:PS. destruct (start_suffix _ _ _ PS) as (p1 & E1). rewrite E1 in E0. rewrite app_assoc in E0. set (pre := blanks m ++ p1) in *. clearbody pre.
  assert (ST : short_runs tp) by (apply (short_suffix pre); now rewrite <- E0). assert (ET : ended tp) by (apply (ended_suffix pre); now rewrite <- E0).
  destruct (angle_total tp ST) as (v & t & n & p2 & -> & _ & E2 & _ & K). cbn [obind].
  destruct (AngModel.height cb n t v) as [[v' t'] r] eqn:HH. destruct (height_suffix _ _ _ _ _ _ _ HH) as (p3 & E3).
  destruct (direction cb n t' r) as [[t'' neg] r'] eqn:DD. destruct t'' as [t''|].
  - destruct (direction_suffix _ _ _ _ _ _ _ DD) as (p4 & E4). eexists _, _, _. split; [reflexivity|].
    destruct (r' =? GOT_NOTHING); [exists []; reflexivity|]. assert (SF : s = (pre ++ p2 ++ p3 ++ p4) ++ t'') by (rewrite <- !app_assoc, <- E4, <- E3, <- E2; exact E0).
    destruct (head t'' =? 44); [|eexists; exact SF]. destruct (tl_suffix t'') as (q & Q). exists ((pre ++ p2 ++ p3 ++ p4) ++ q). rewrite <- app_assoc, <- Q. exact SF.
  - exfalso. destruct (direction_none _ _ _ _ _ _ DD) as (T & N & R). destruct (K N) as [NE OK]. destruct (height_nothing _ _ _ _ _ _ _ HH R) as [->|[NT HT]].
    + rewrite T, app_nil_r in E2. subst tp. exact (ended_okc p2 NE OK ET).
    + subst t'. rewrite app_nil_r in E3. subst p3. (* a single blank and the end *)
      apply (ended_okc tp); [rewrite E2; intros Z0; apply app_eq_nil in Z0; tauto| |exact ET].
      intros x H. rewrite E2 in H. apply in_app_or in H. destruct H as [H|H]; [now apply OK|].
      assert (TT : t = [32]).
      { unfold AngModel.height in HH. destruct ((cb =? 0) && (n =? 1)); [|injection HH as _ HH _; subst; discriminate].
        rewrite HT in HH. change (32 =? 32) with true in HH. cbv iota in HH. destruct t as [|z t]; [congruence|]. cbn [head] in HT. subst z. cbn [tl] in HH.
        destruct (head t =? 109); [injection HH as _ _ HH; subst r; discriminate|]. destruct ((head t =? 102) && (nth 1 t 0 =? 116)); injection HH as _ HH1 HH2; [subst r; discriminate|]. now rewrite HH1. }
      rewrite TT in H. destruct H as [<-|[]]. now left.
Qed.

Lemma C50_total_proof :
forall s, short_runs s ->
  (exists r, get_ra_from_string s = Ret r) /\ (exists r, get_dec_from_string s = Ret r) /\
  (well_ended s -> forall b, exists r, get_lat_lon_info b s = Ret r).
Proof.
  intros s HS. split; [|split].
  - unfold get_ra_from_string. destruct (angle_total s HS) as (v & t & n & p & -> & _). cbn [obind]. eexists. reflexivity.
  - unfold get_dec_from_string. destruct (negb (head s =? 43) && negb (head s =? 45)); [eexists; reflexivity|].
    assert (HT : short_runs (tl s)) by (destruct (tl_suffix s) as (p & E); apply (short_suffix p); now rewrite <- E).
    destruct (angle_total _ HT) as (v & t & n & p & -> & _). cbn [obind]. eexists. reflexivity.
  - intros HW b. unfold get_lat_lon_info. destruct (extract_total s HS (or_intror HW)) as (k & v & r & -> & R). cbn [obind].
    destruct v as [v|]; [|eexists; reflexivity]. destruct r as [t|]; [|eexists; reflexivity]. destruct R as (p & E). destruct ((k =? GOT_LAT) || (k =? GOT_LON)); [|eexists; reflexivity].
    assert (ST : short_runs t) by (apply (short_suffix p); now rewrite <- E). assert (ET : ended t) by (apply (ended_suffix p); rewrite <- E; now right).
    destruct (extract_total t ST ET) as (k2 & v2 & r2 & -> & R2). cbn [obind]. destruct v2 as [v2|]; [|eexists; reflexivity]. destruct r2 as [t2|]; [|eexists; reflexivity].
    destruct R2 as (p2 & E2). destruct (k2 =? GOT_LAT + GOT_LON - k); [|eexists; reflexivity]. destruct b; [|eexists; reflexivity].
    destruct (if k =? GOT_LON then (v, v2) else (v2, v)) as [lon lat]. destruct (_ || _ || _ || _); [eexists; reflexivity|].
    assert (ST2 : short_runs t2) by (apply (short_suffix p2); now rewrite <- E2). assert (ET2 : ended t2) by (apply (ended_suffix p2); now rewrite <- E2).
    destruct (extract_total t2 ST2 ET2) as (k3 & v3 & r3 & -> & _). cbn [obind]. eexists. reflexivity.
Qed.

Lemma C50_range_proof :
forall s,
  (forall r, get_lat_lon_info true s = Ret (0, r) ->
     exists lat lon alt, r = Some (lat, lon, Some alt) /\ (-(90) <= lat <= 90)%Q /\ (0 <= lon <= 360)%Q) /\
  (short_runs s -> forall v n, get_ra_from_string s = Ret (v, n) -> 0 <= n <= Z.of_nat (List.length s) /\ (n <> 0 -> (0 <= v <= 360)%Q)) /\
  (short_runs s -> forall v n, get_dec_from_string s = Ret (v, n) -> 0 <= n <= Z.of_nat (List.length s) /\ (1 < n -> (-(90) <= v <= 90)%Q)).
Proof.
  intros s. split; [|split].
  - intros r. unfold get_lat_lon_info. destruct (extract_lat_lon true s) as [[[k v] t]| | |]; try discriminate. cbn [obind].
    destruct v as [v|]; [|discriminate]. destruct t as [t|]; [|discriminate]. destruct ((k =? GOT_LAT) || (k =? GOT_LON)); [|discriminate].
    destruct (extract_lat_lon true t) as [[[k2 v2] t2]| | |]; try discriminate. cbn [obind].
    destruct v2 as [v2|]; [|discriminate]. destruct t2 as [t2|]; [|discriminate]. destruct (k2 =? GOT_LAT + GOT_LON - k); [|discriminate].
    destruct (if k =? GOT_LON then (v, v2) else (v2, v)) as [lon lat]. set (lo := if qlt lon 0 then (lon + 360)%Q else lon). clearbody lo.
    destruct (qlt 90 lat || qlt lat (-(90)) || qlt lo 0 || qlt 360 lo) eqn:C; [discriminate|].
    apply Bool.orb_false_iff in C. destruct C as [C C4]. apply Bool.orb_false_iff in C. destruct C as [C C3]. apply Bool.orb_false_iff in C. destruct C as [C1 C2].
    destruct (extract_lat_lon true t2) as [[[k3 v3] t3]| | |]; try discriminate. cbn [obind]. intros E. injection E as <-.
    eexists _, _, _. split; [reflexivity|].
    assert (A : forall a b, qlt a b = false -> (b <= a)%Q) by (intros a b H; unfold qlt in H; apply Bool.negb_false_iff, Qle_bool_iff in H; exact H).
    apply A in C1, C2, C3, C4. split; split; assumption.
  - intros HS v n. unfold get_ra_from_string. destruct (angle_total s HS) as (a & t & f & p & -> & A0 & E & _). cbn [obind].
    assert (L : (List.length s - List.length t = List.length p)%nat) by (rewrite E, app_length; lia). rewrite L.
    assert (LP : (List.length p <= List.length s)%nat) by (rewrite E, app_length; lia).
    set (w := if 2 <? f then (a * 15)%Q else a). assert (W : (0 <= w)%Q) by (unfold w; destruct (2 <? f); lra).
    intros H. injection H as <- <-. destruct ((f =? 0) || qlt 360 w) eqn:C; [split; [lia|intros H; now elim H]|]. split; [lia|]. intros _.
    apply Bool.orb_false_iff in C. destruct C as [_ C]. unfold qlt in C. apply Bool.negb_false_iff, Qle_bool_iff in C. split; assumption.
  - intros HS v n. unfold get_dec_from_string. destruct s as [|c s]; [intros H; injection H as <- <-; split; [cbn; lia|lia]|]. cbn [head tl].
    destruct (negb (c =? 43) && negb (c =? 45)); [intros H; injection H as <- <-; split; [cbn [List.length]; lia|lia]|].
    destruct (angle_total s (short_suffix [c] s HS)) as (a & t & f & p & -> & A0 & E & _). cbn [obind].
    assert (L : (List.length s - List.length t = List.length p)%nat) by (rewrite E, app_length; lia). rewrite L.
    assert (LP : (List.length p <= List.length s)%nat) by (rewrite E, app_length; lia).
    intros H. injection H as <- <-. cbn [List.length]. destruct (Z.eqb_spec f 0) as [F|F]; cbn [orb].
    + split; [lia|]. intros H; lia.
    + destruct (qlt 90 a) eqn:C; [split; [lia|intros H; lia]|]. split; [lia|]. intros _. unfold qlt in C. apply Bool.negb_false_iff, Qle_bool_iff in C.
      destruct (c =? 45); split; lra.
Qed.

Lemma no_digit_angle s : (forall x, In x s -> ~ 48 <= x <= 57) -> get_angle s = Ret (0%Q, s, 0).
Proof.
  intros H. unfold get_angle. rewrite get_none; [reflexivity|]. destruct (skip_suffix s) as (n & E). destruct (skip_spaces s) as [|c t]; [reflexivity|].
  cbn [head]. destruct (isdigit c) eqn:D; [|reflexivity]. apply digit_iff in D. elim (H c); [rewrite E; apply in_or_app; right; now left|exact D].
Qed.
Lemma no_digit_extract wb s : (forall x, In x s -> ~ 48 <= x <= 57) -> exists v r, extract_lat_lon wb s = Ret (GOT_NOTHING, v, r).
Proof.
  intros H. destruct (skip_suffix s) as (m & E). destruct (skip_spaces s) as [|c u] eqn:SS; [unfold extract_lat_lon; rewrite SS; eexists _, _; reflexivity|].
  destruct (place_start (c :: u)) as [cb tp] eqn:PS. destruct (start_suffix _ _ _ PS) as (p & P).
  assert (G : get_angle tp = Ret (0%Q, tp, 0)) by (apply no_digit_angle; intros x Hx; apply H; rewrite E, P; apply in_or_app; right; apply in_or_app; now right).
  rewrite (extract_start wb _ _ _ _ _ _ _ _ SS PS G). unfold AngModel.height, direction. change (0 =? 1) with false. rewrite Bool.andb_false_r. change (0 =? 0) with true. cbn [negb andb].
  destruct wb; eexists _, _; reflexivity.
Qed.

Lemma C50_no_digits_proof :
forall s, (forall c, In c s -> ~ 48 <= c <= 57) ->
  (forall b, get_lat_lon_info b s = Ret (-1, None)) /\ get_ra_from_string s = Ret (0%Q, 0) /\
  (exists v, get_dec_from_string s = Ret (v, 0) /\ (v == 0)%Q) /\
  (exists r, (r = -1 \/ r = -2) /\ get_xxx_location_info s = Ret (r, None)).
Proof.
  intros s H. split; [|split; [|split]].
  - intros b. unfold get_lat_lon_info. destruct (no_digit_extract true s H) as (v & r & ->). cbn [obind]. destruct v; destruct r; reflexivity.
  - unfold get_ra_from_string. rewrite no_digit_angle by exact H. reflexivity.
  - unfold get_dec_from_string. destruct (negb (head s =? 43) && negb (head s =? 45)); [eexists; split; [reflexivity|reflexivity]|].
    rewrite no_digit_angle by (intros x Hx; apply H; destruct s; [destruct Hx|now right]). cbn [obind]. eexists. split; [reflexivity|]. destruct (head s =? 45); reflexivity.
  - unfold get_xxx_location_info. destruct (negb _); [exists (-1); split; [now left|reflexivity]|]. exists (-2). split; [now right|].
    destruct (strstr s (zs "Lat.")); [|reflexivity]. destruct (strstr s (zs "Alt.")); [|reflexivity].
    destruct (no_digit_extract false (skipn 9 s)) as (v & r & ->); [intros x Hx; apply H; destruct (skipn_suffix 9 s) as (p & P); rewrite P; apply in_or_app; now right|].
    reflexivity.
Qed.

Lemma strstr_over x p s : x <> head p -> p <> [] -> strstr (x :: s) p = option_map S (strstr s p).
Proof.
  intros H N. destruct p as [|y p]; [congruence|]. cbn [head] in H. cbn [strstr prefix]. destruct (Z.eqb_spec y x); [congruence|]. cbn [andb]. now destruct (strstr s (y :: p)).
Qed.
Lemma strstr_past q p s : (forall x, In x q -> x <> head p) -> p <> [] -> strstr (q ++ s) p = option_map (Nat.add (List.length q)) (strstr s p).
Proof.
  intros H N. induction q as [|x q IH]; [cbn [app List.length]; now destruct (strstr s p)|]. cbn [app]. rewrite strstr_over; [|apply H; now left|exact N].
  rewrite IH by (intros y Hy; apply H; now right). destruct (strstr s p); reflexivity.
Qed.
Lemma prefix_app p s : prefix p (p ++ s) = true.
Proof. induction p as [|c p IH]; [reflexivity|]. cbn [app prefix]. rewrite Z.eqb_refl. exact IH. Qed.
Lemma strstr_here p s : strstr (p ++ s) p = Some O.
Proof. destruct (p ++ s) eqn:E; cbn [strstr]; rewrite <- E, prefix_app; reflexivity. Qed.
Lemma number_quiet s v w : number s v w -> forall x, In x s -> x = 46 \/ 48 <= x <= 57.
Proof.
  assert (A : forall n v x, In x (ndig n v) -> 48 <= x <= 57).
  { induction n as [|n IH]; intros z x H; [destruct H|]. destruct H as [<-|H]; [|exact (IH _ _ H)]. pose proof (Z.mod_pos_bound (z / 10 ^ Z.of_nat n) 10 ltac:(lia)). lia. }
  intros [n i Hn Hi|n i k d Hn Hi Hk Hd] x H; [right; exact (A _ _ _ H)|]. apply in_app_or in H. destruct H as [H|[<-|H]]; [right; exact (A _ _ _ H)|now left|right; exact (A _ _ _ H)].
Qed.
Lemma angle_quiet s v n full : angle s v n full -> forall x, In x s -> okc x.
Proof.
  intros [s0 v0 w H|s0 v0 b s' m w H1 H2 H3|s0 v0 b s' m b' s'' z w H1 H2 H3 H4 H5] x Hx; unfold okc.
  - right. now apply (number_quiet _ _ _ H).
  - repeat (apply in_app_or in Hx; destruct Hx as [Hx|Hx]); [right; now apply (number_quiet _ _ _ H1)|apply repeat_spec in Hx; now left|right; now apply (number_quiet _ _ _ H2)].
  - repeat (apply in_app_or in Hx; destruct Hx as [Hx|Hx]);
      [right; now apply (number_quiet _ _ _ H1)|apply repeat_spec in Hx; now left|right; now apply (number_quiet _ _ _ H2)|apply repeat_spec in Hx; now left|right; now apply (number_quiet _ _ _ H4)].
Qed.
Lemma sign_quiet c k neg : sign c k neg -> c <> 76 /\ c <> 65.
Proof. intros H. apply sign_letter in H. change compass with [110; 78; 101; 69; 115; 83; 119; 87] in H. cbn [In] in H. repeat (destruct H as [<-|H]; [lia|]). destruct H. Qed.
Lemma place_quiet p k neg v r : place p k neg v r -> quiet p.
Proof.
  intros H x Hx. assert (O : forall y, okc y -> y <> 76 /\ y <> 65) by (unfold okc; lia).
  destruct H as [i c k neg j s v n full b t HS HA HF|i s v n full b c k neg t HS HA].
  - apply in_app_or in Hx. destruct Hx as [Hx|[<-|Hx]]; [apply repeat_spec in Hx; lia|exact (sign_quiet _ _ _ HS)|].
    repeat (apply in_app_or in Hx; destruct Hx as [Hx|Hx]); [apply repeat_spec in Hx; lia|apply O, (angle_quiet _ _ _ _ HA _ Hx)|apply repeat_spec in Hx; lia].
  - repeat (apply in_app_or in Hx; destruct Hx as [Hx|Hx]); [apply repeat_spec in Hx; lia|apply O, (angle_quiet _ _ _ _ HA _ Hx)|apply repeat_spec in Hx; lia|].
    destruct Hx as [<-|[]]. exact (sign_quiet _ _ _ HS).
Qed.
Lemma ws_blanks i t : skip_ws (blanks i ++ t) = skip_ws t.
Proof. induction i as [|i IH]; [reflexivity|]. cbn [blanks repeat app]. exact IH. Qed.
Lemma number_number_of s v w : number s v w -> exists q, number_of s q /\ (q == v)%Q.
Proof.
  intros [n i Hn Hi|n i k d Hn Hi Hk Hd].
  - exists (inject_Z i). destruct n as [|n]; [lia|]. split; [left; exists i; split; [now apply ndig_is_digits|reflexivity]|reflexivity].
  - pose proof (pow_pos k) as P. exists ((i * 10 ^ Z.of_nat k + d) # Z.to_pos (10 ^ Z.of_nat k)). split.
    + right. exists (ndig n i), (ndig k d), (i * 10 ^ Z.of_nat k + d). rewrite (ndig_join n k i d) by lia. split; [apply ndig_digit|].
      split; [intro Z0; apply (f_equal (@List.length Z)) in Z0; rewrite ndig_length in Z0; cbn in Z0; lia|]. split; [reflexivity|].
      split; [|now rewrite ndig_length]. rewrite dig_val_ndig by lia. rewrite Z.mul_0_l, Z.add_0_l. apply Z.mod_small.
      rewrite Nat2Z.inj_add, Z.pow_add_r by lia. nia.
    + rewrite Qmake_div by exact P. rewrite inject_Z_plus, inject_Z_mult. field. apply pow_ne.
Qed.
Lemma metres_reads a v : metres a v -> exists q, atof a = Ret q /\ (q == v)%Q.
Proof.
  assert (EN : forall t, number_ends t -> match t with c :: _ => ~ In c (zs "eEx") | [] => True end -> num_end t).
  { intros t H1 H2. destruct t as [|c t]; [exact I|]. destruct H1 as [H1 H3]. change (zs "eEx") with [101; 69; 120] in H2. cbn [In] in H2. cbn [num_end].
    split; [destruct (isdigit c) eqn:E; [apply digit_iff in E; contradiction|reflexivity]|]. intuition congruence. }
  intros [i s v0 w t Hs H1 H2|i s v0 w t Hs H1 H2]; destruct (number_number_of _ _ _ Hs) as (q & NQ & EQ); pose proof (EN t H1 H2) as E.
  - exists q. split; [|exact EQ]. unfold atof, strtold. rewrite ws_blanks. pose proof (strtold_num s q t NQ E) as R. unfold strtold in R.
    destruct (sign_of (skip_ws (s ++ t))) as [neg u]. destruct (unmodelled_number u); [discriminate|]. destruct (mantissa u) as [[[m k] r]|].
    + destruct (exponent r) as [[[e r']|]|]; injection R as -> _; reflexivity.
    + injection R as _ R. apply (f_equal (@List.length Z)) in R. rewrite app_length in R. destruct (number_head _ _ _ Hs) as (c & z & -> & _). cbn [List.length] in R. lia.
  - exists (- q)%Q. split; [|now rewrite EQ]. unfold atof, strtold. rewrite ws_blanks. change (skip_ws (45 :: s ++ t)) with (45 :: s ++ t). change (sign_of (45 :: s ++ t)) with (true, s ++ t). cbv iota.
    rewrite (modelled s q) by assumption. destruct (mantissa_number s q t NQ E) as (m & k & -> & _ & D). rewrite end_exponent by exact E. rewrite D. reflexivity.
Qed.

Lemma C50_xxx_proof :
forall p1 t1 p2 t2 a neg1 v1 neg2 v2 alt,
  place p1 longitude neg1 v1 (t1 ++ zs "Lat." ++ p2 ++ t2 ++ zs "Alt." ++ a) ->
  place p2 latitude neg2 v2 (t2 ++ zs "Alt." ++ a) -> quiet t1 -> quiet t2 -> metres a alt ->
  exists lon lat alt', get_xxx_location_info (zs "COM Long." ++ p1 ++ t1 ++ zs "Lat." ++ p2 ++ t2 ++ zs "Alt." ++ a) = Ret (0, Some (lon, lat, alt')) /\
    (lon == east neg1 v1)%Q /\ (lat == signed neg2 v2)%Q /\ (alt' == alt)%Q.
Proof.
  intros p1 t1 p2 t2 a neg1 v1 neg2 v2 alt H1 H2 Q1 Q2 HA. unfold get_xxx_location_info. rewrite prefix_app. cbn [negb].
  pose proof (place_quiet _ _ _ _ _ H1) as P1. pose proof (place_quiet _ _ _ _ _ H2) as P2. set (A := zs "Alt." ++ a) in *. set (B := zs "Lat." ++ p2 ++ t2 ++ A) in *.
  assert (L : strstr (zs "COM Long." ++ p1 ++ t1 ++ B) (zs "Lat.") = Some (9 + (List.length p1 + (List.length t1 + 0)))%nat).
  { change (zs "COM Long." ++ p1 ++ t1 ++ B) with (67 :: 79 :: 77 :: 32 :: 76 :: 111 :: 110 :: 103 :: 46 :: p1 ++ t1 ++ B). change (zs "Lat.") with [76; 97; 116; 46].
    do 4 (rewrite strstr_over by discriminate). cbn [strstr prefix]. change (97 =? 111) with false. change (76 =? 76) with true. change (76 =? 111) with false. change (76 =? 110) with false.
    change (76 =? 103) with false. change (76 =? 46) with false. cbn [andb].
    rewrite !strstr_past; try discriminate; try (intros x Hx; cbn [head]; first [apply (P1 x Hx)|apply (Q1 x Hx)]). unfold B. change (zs "Lat.") with [76; 97; 116; 46]. rewrite strstr_here. reflexivity. }
  assert (M : strstr (zs "COM Long." ++ p1 ++ t1 ++ B) (zs "Alt.") = Some (List.length (zs "COM Long.") + (List.length p1 + (List.length t1 + (4 + (List.length p2 + (List.length t2 + 0))))))%nat).
  { unfold B. rewrite !strstr_past; try discriminate; try (intros x Hx; change (head (zs "Alt.")) with 65; first [apply (P1 x Hx)|apply (Q1 x Hx)|apply (P2 x Hx)|apply (Q2 x Hx)|idtac]).
    - unfold A. rewrite strstr_here. reflexivity.
    - revert x Hx. vm_compute. intuition (subst; discriminate).
    - revert x Hx. vm_compute. intuition (subst; discriminate). }
  rewrite L, M. change (skipn 9 (zs "COM Long." ++ p1 ++ t1 ++ B)) with (p1 ++ t1 ++ B). rewrite (extract_place false _ _ _ _ _ H1). cbn [obind code]. change (GOT_LON =? GOT_LON) with true. cbv iota.
  assert (S1 : skipn (9 + (List.length p1 + (List.length t1 + 0)) + 4) (zs "COM Long." ++ p1 ++ t1 ++ B) = p2 ++ t2 ++ A).
  { replace (9 + (List.length p1 + (List.length t1 + 0)) + 4)%nat with (List.length (zs "COM Long." ++ p1 ++ t1 ++ zs "Lat.")) by (rewrite !app_length; change (List.length (zs "COM Long.")) with 9%nat; change (List.length (zs "Lat.")) with 4%nat; lia).
    unfold B. replace (zs "COM Long." ++ p1 ++ t1 ++ zs "Lat." ++ p2 ++ t2 ++ A) with ((zs "COM Long." ++ p1 ++ t1 ++ zs "Lat.") ++ p2 ++ t2 ++ A) by (rewrite <- !app_assoc; reflexivity).
    apply skipn_app_l. }
  assert (S2 : skipn (List.length (zs "COM Long.") + (List.length p1 + (List.length t1 + (4 + (List.length p2 + (List.length t2 + 0))))) + 4) (zs "COM Long." ++ p1 ++ t1 ++ B) = a).
  { replace (List.length (zs "COM Long.") + (List.length p1 + (List.length t1 + (4 + (List.length p2 + (List.length t2 + 0))))) + 4)%nat with (List.length (zs "COM Long." ++ p1 ++ t1 ++ zs "Lat." ++ p2 ++ t2 ++ zs "Alt."))
      by (rewrite !app_length; change (List.length (zs "COM Long.")) with 9%nat; change (List.length (zs "Lat.")) with 4%nat; change (List.length (zs "Alt.")) with 4%nat; lia).
    unfold B, A. replace (zs "COM Long." ++ p1 ++ t1 ++ zs "Lat." ++ p2 ++ t2 ++ zs "Alt." ++ a) with ((zs "COM Long." ++ p1 ++ t1 ++ zs "Lat." ++ p2 ++ t2 ++ zs "Alt.") ++ a) by (rewrite <- !app_assoc; reflexivity).
    apply skipn_app_l. }
  rewrite S1, S2. rewrite (extract_place false _ _ _ _ _ H2). cbn [obind code]. change (GOT_LAT =? GOT_LAT) with true. cbv iota.
  destruct (metres_reads _ _ HA) as (q & -> & EQ). cbn [obind]. eexists _, _, _. split; [reflexivity|]. split; [|split; [reflexivity|exact EQ]].
  apply wrap_east. exact (place_nonneg _ _ _ _ _ H1).
Qed.

Lemma C50_bare_number_refuted_proof :
forall i s v n full j, angle s v n full ->
  (forall b, get_lat_lon_info b (blanks i ++ s ++ blanks j) = UB) /\
  (forall p1 c1 p2 k neg1 v1 neg2 v2, place p1 k neg1 v1 (c1 ++ p2 ++ 44 :: blanks i ++ s ++ blanks j) -> place p2 (other k) neg2 v2 (44 :: blanks i ++ s ++ blanks j) -> comma c1 ->
     (v1 <= limit k)%Q -> (v2 <= limit (other k))%Q -> get_lat_lon_info true (p1 ++ c1 ++ p2 ++ 44 :: blanks i ++ s ++ blanks j) = UB).
Proof.
  intros i s v n full j HA.
  assert (X : extract_lat_lon true (blanks i ++ s ++ blanks j) = UB).
  { destruct (start_label i [] s v n full j [] (or_introl eq_refl) HA I) as (x & y & tp & S1 & S2 & S3). cbn [app] in S1. rewrite app_nil_r in S1.
    rewrite (extract_start true _ _ _ _ _ _ _ _ S1 S2 S3). unfold AngModel.height, direction. cbn [head nth tl]. destruct (angle_fields _ _ _ _ HA) as [->|[->| ->]]; reflexivity. }
  split; [intros b; unfold get_lat_lon_info; now rewrite X|].
  intros p1 c1 p2 k neg1 v1 neg2 v2 H1 H2 C1 L1 L2. pose proof (place_nonneg _ _ _ _ _ H1) as P1. pose proof (place_nonneg _ _ _ _ _ H2) as P2.
  change (p1 ++ c1 ++ p2 ++ 44 :: blanks i ++ s ++ blanks j) with (p1 ++ c1 ++ p2 ++ [44] ++ blanks i ++ s ++ blanks j).
  rewrite (info_two p1 c1 p2 [44] (blanks i ++ s ++ blanks j) k neg1 v1 neg2 v2 H1 H2 C1 (or_intror eq_refl)).
  - destruct (both k (signed neg1 v1) (signed neg2 v2)) as [lat lon] eqn:B. rewrite (both_range _ _ _ _ _ _ _ P1 P2 B). rewrite !qlt_false by assumption. cbn [orb]. now rewrite X.
  - destruct i as [|i]; [|discriminate]. destruct (angle_head _ _ _ _ HA) as (d & r & -> & D). cbn. lia.
Qed.

Lemma C50_hours_refuted_proof :
forall i s v full j t, angle s v 2 full -> follows full j t -> exists bytes, get_ra_from_string (blanks i ++ s ++ blanks j ++ t) = Ret (v, bytes).
Proof.
  intros i s v full j t HA F. unfold get_ra_from_string. rewrite (get_angle_reads _ _ _ _ _ _ _ HA F). cbn [obind]. eexists. reflexivity.
Qed.

Lemma C50_beyond_pole_refuted_proof :
forall c i s v n full j t, In c (zs "+-") -> angle s v n full -> follows full j t -> (90 < v)%Q ->
  get_dec_from_string (c :: blanks i ++ s ++ blanks j ++ t) = Ret (signed (c =? 45) v, 1).
Proof.
  intros c i s v n full j t Hc HA F V. unfold get_dec_from_string. cbn [head tl].
  assert (S0 : negb (c =? 43) && negb (c =? 45) = false) by (destruct Hc as [<-|[<-|[]]]; reflexivity). rewrite S0.
  rewrite (get_angle_reads _ _ _ _ _ _ _ HA F). cbn [obind].
  assert (N : (n =? 0) = false) by (destruct (angle_fields _ _ _ _ HA) as [->|[->| ->]]; reflexivity). rewrite N, qlt_true by exact V. reflexivity.
Qed.

Lemma frac_over m : forall v t a d, 0 < d -> d <= IMAX -> IMAX < d * 10 ^ Z.of_nat m -> frac_digits (ndig m v ++ t) a d = UB.
Proof.
  induction m as [|m IH]; intros v t a d P B O; [change (10 ^ Z.of_nat 0) with 1 in O; lia|].
  cbn [ndig app frac_digits]. pose proof (Z.mod_pos_bound (v / 10 ^ Z.of_nat m) 10 ltac:(lia)). rewrite is_digit_48 by lia.
  match goal with |- context[obind (ev IMAX ?e) _] => destruct (ev IMAX e) as [x| | |] eqn:E1; try reflexivity end.
  - cbn [obind]. destruct (Z.leb_spec (d * 10) IMAX) as [L|L].
    + rewrite ev_val by (cbn [safe val]; unfold fits, IMAX in *; lia). cbn [obind val]. apply IH; [lia|exact L|]. rewrite Nat2Z.inj_succ, Z.pow_succ_r in O by lia. lia.
    + cbn [ev]. rewrite (chk_ok IMAX d) by (unfold fits, IMAX in *; lia). cbn [obind]. rewrite (chk_ok IMAX 10) by (unfold fits, IMAX; lia). cbn [obind].
      rewrite chk_ub by (unfold fits; lia). reflexivity.
  - exfalso. revert E1. unfold ev. cbn [obind]. unfold chk. repeat match goal with |- context[if ?b then _ else _] => destruct b; cbn [obind]; try discriminate end.
  - exfalso. revert E1. unfold ev. cbn [obind]. unfold chk. repeat match goal with |- context[if ?b then _ else _] => destruct b; cbn [obind]; try discriminate end.
Qed.

Lemma C50_decimals_refuted_proof :
forall n i k d t, (1 <= n <= 9)%nat -> 0 <= i < 10 ^ Z.of_nat n -> (10 <= k)%nat ->
  get_ra_from_string (ndig n i ++ 46 :: ndig k d ++ t) = UB /\
  (forall c, In c (zs "+-") -> get_dec_from_string (c :: ndig n i ++ 46 :: ndig k d ++ t) = UB) /\
  (forall b, get_lat_lon_info b (ndig n i ++ 46 :: ndig k d ++ t) = UB).
Proof.
  intros n i k d t Hn Hi Hk. destruct n as [|n]; [lia|]. pose proof (pow9 (S n) ltac:(lia)) as P9. set (T := ndig (S n) i ++ 46 :: ndig k d ++ t).
  assert (HD : exists c r, T = c :: r /\ 48 <= c <= 57).
  { eexists _, _. split; [unfold T; cbn [ndig app]; reflexivity|]. pose proof (Z.mod_pos_bound (i / 10 ^ Z.of_nat n) 10 ltac:(lia)). lia. }
  assert (QS : quick_strtod T = UB).
  { unfold quick_strtod, T. rewrite skip_ndig, sign_ndig. rewrite int_ndig; [|reflexivity|lia|lia|rewrite Z.mod_small by lia; unfold IMAX; lia]. cbn [obind].
    assert (G : match ndig (S n) i ++ 46 :: ndig k d ++ t with c :: _ => isdigit c | [] => false end = true).
    { cbn [ndig app]. apply is_digit_48. apply Z.mod_pos_bound. lia. }
    rewrite G. cbn [negb]. rewrite Bool.andb_false_r. rewrite frac_over; [reflexivity|lia|unfold IMAX; lia|].
    pose proof (Z.pow_le_mono_r 10 10 (Z.of_nat k) ltac:(lia) ltac:(lia)). change (10 ^ 10) with 10000000000 in *. unfold IMAX. lia. }
  destruct HD as (c & r & ET & C).
  assert (SK : skip_spaces T = T) by (rewrite ET; apply skip_not; lia).
  assert (GA : get_angle T = UB).
  { unfold get_angle, get_number_for_angle. rewrite SK. assert (DD : isdigit (head T) = true) by (rewrite ET; now apply digit_iff). rewrite DD, QS. reflexivity. }
  split; [|split].
  - unfold get_ra_from_string. now rewrite GA.
  - intros x Hx. unfold get_dec_from_string. cbn [head tl]. assert (S0 : negb (x =? 43) && negb (x =? 45) = false) by (destruct Hx as [<-|[<-|[]]]; reflexivity). now rewrite S0, GA.
  - intros b. assert (X : extract_lat_lon true T = UB).
    { unfold extract_lat_lon. rewrite SK. rewrite ET in GA |- *. rewrite start_digit by exact C. now rewrite GA. }
    unfold get_lat_lon_info. now rewrite X.
Qed.

Lemma C50_unchecked_refuted_proof :
(forall p1 c1 p2 c2 t k neg1 v1 neg2 v2,
   place p1 k neg1 v1 (c1 ++ p2 ++ c2 ++ t) -> place p2 (other k) neg2 v2 (c2 ++ t) -> comma c1 ->
   get_lat_lon_info false (p1 ++ c1 ++ p2 ++ c2 ++ t) = Ret (0, None)) /\
  (exists lon lat alt, get_xxx_location_info (zs "COM Long. 999 W, Lat. 91 S, Alt. 0m") = Ret (0, Some (lon, lat, alt)) /\
    (lon == - (639))%Q /\ (lat == - (91))%Q).
Proof.
  split; [exact info_null|]. eexists _, _, _. split; [vm_compute; reflexivity|split; reflexivity].
Qed.

Lemma C50_xxx_codes_refuted_proof :
forall s r x, get_xxx_location_info s = Ret (r, x) -> r = 0 \/ r = -1 \/ r = -2.
Proof.
  intros s r x. unfold get_xxx_location_info. destruct (negb _); [intros E; injection E as <- <-; tauto|].
  destruct (strstr s (zs "Lat.")); [|intros E; injection E as <- <-; tauto]. destruct (strstr s (zs "Alt.")); [|intros E; injection E as <- <-; tauto].
  destruct (extract_lat_lon false (skipn 9 s)) as [[[t1 l1] u1]| | |]; try discriminate. cbn [obind]. destruct (t1 =? GOT_LON); [|intros E; injection E as <- <-; tauto].
  destruct l1; [|intros E; injection E as <- <-; tauto]. destruct (extract_lat_lon false _) as [[[t2 l2] u2]| | |]; try discriminate. cbn [obind].
  destruct (t2 =? GOT_LAT); [|intros E; injection E as <- <-; tauto]. destruct l2; [|intros E; injection E as <- <-; tauto].
  destruct (atof _); try discriminate. cbn [obind]. intros E. injection E as <- <-. tauto.
Qed.
