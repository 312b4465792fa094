(** Theorems of C64 with their proofs; PropGeo.v states them again. *)
From Coq Require Import Lqa.
From Coq Require Import QArith Qabs String Lia.
From Verif Require Import CBase CStr TstrSpec GeoModel GeoSpec TstrNum GeoProofs.
Import ListNotations.
Local Open Scope string_scope.
Local Open Scope list_scope.
Local Open Scope Z_scope.

Lemma inside_turns lat lon lon' r : same_lon lon' lon -> inside lat lon r -> inside lat lon' r.
Proof.
  intros (k & K) (L & a & b & A & B & D & BT). split; [exact L|]. exists (a + 360 * inject_Z k)%Q, (b + 360 * inject_Z k)%Q.
  assert (SA : forall x y, same_lon x y -> same_lon (x + 360 * inject_Z k) y). { intros x y (j & J). exists (j + k). rewrite J, inject_Z_plus. ring. }
  split; [now apply SA|]. split; [now apply SA|]. split.
  - assert (X : (a + 360 * inject_Z k - (b + 360 * inject_Z k) == a - b)%Q) by ring. rewrite X. exact D.
  - unfold between in *. rewrite K. destruct BT as [(P1 & P2)|(P1 & P2)]; [left|right]; split; Lqa.lra.
Qed.
Lemma answer_turns rs lat lon lon' v t : same_lon lon' lon -> answer rs lat lon v t -> answer rs lat lon' v t.
Proof.
  intros K A. assert (K' : same_lon lon lon') by now apply same_sym.
  destruct A as [(b & x & a & E & N & I & V)|(N & V)].
  - left. exists b, x, a. split; [exact E|]. split; [intros y Y X; apply (N y Y); now apply (inside_turns lat lon')|]. split; [now apply (inside_turns lat lon)|exact V].
  - right. split; [|exact V]. intros y Y X. apply (N y Y). now apply (inside_turns lat lon').
Qed.
Lemma none_of lat lon r v t : ~ inside lat lon r -> answer [r] lat lon v t -> v = -2 /\ t = [].
Proof. intros N [([|y b] & x & a & E & _ & I & _)|(_ & A)]; [injection E as <- _; contradiction|destruct b; discriminate|exact A]. Qed.
Lemma one_file r t : line_of r t -> file_of [r] t.
Proof. intro H. rewrite <- (app_nil_r t). apply file_rectangle; [exact H|constructor]. Qed.
Lemma wide_not lat lon r : (180 < lon2 r - lon1 r)%Q -> (lon2 r - lon1 r < 360)%Q -> (lon1 r < lon)%Q -> (lon < lon2 r)%Q -> ~ half r /\ ~ inside lat lon r.
Proof.
  intros H1 H2 H3 H4.
  assert (LE : forall i j : Z, i <= j -> (inject_Z i <= inject_Z j)%Q) by (intros i j X; now rewrite <- Zle_Qle).
  split.
  - intros (k & K). destruct (Z.le_gt_cases k 0) as [X|X]; [pose proof (LE k 0 X) as Y; change (inject_Z 0) with 0%Q in Y|pose proof (LE 1 k ltac:(lia)) as Y; change (inject_Z 1) with 1%Q in Y]; Lqa.lra.
  - intros (_ & a & b & (i & A) & (j & B) & D & BT). apply Qabs_Qlt_condition in D. destruct D as (D1 & D2).
    assert (J : j = i - 1).
    { destruct (Z.lt_trichotomy j (i - 1)) as [X|[X|X]]; [exfalso|exact X|exfalso].
      - pose proof (LE j (i - 2) ltac:(lia)) as Y. assert (Z1 : (inject_Z (i - 2) == inject_Z i - 2)%Q) by (replace (i - 2) with (i + -2) by lia; rewrite inject_Z_plus; change (inject_Z (-2)) with (-2)%Q; ring). Lqa.lra.
      - pose proof (LE i j ltac:(lia)) as Y. Lqa.lra. }
    assert (Z1 : (inject_Z j == inject_Z i - 1)%Q) by (rewrite J; replace (i - 1) with (i + -1) by lia; rewrite inject_Z_plus; change (inject_Z (-1)) with (-1)%Q; ring).
    assert (BA : (b < lon /\ lon < a)%Q) by (destruct BT as [(P1 & P2)|X]; [exfalso; Lqa.lra|exact X]). destruct BA as (P1 & P2).
    destruct (Z.le_gt_cases i 0) as [X|X]; [pose proof (LE i 0 X) as Y; change (inject_Z 0) with 0%Q in Y|pose proof (LE 1 i ltac:(lia)) as Y; change (inject_Z 1) with 1%Q in Y]; Lqa.lra.
Qed.
Lemma edge_not lat lon r : (lat == lat1 r)%Q \/ (lat == lat2 r)%Q \/ same_lon lon (lon1 r) \/ same_lon lon (lon2 r) -> ~ inside lat lon r.
Proof.
  assert (SM : forall i : Z, (- (180) < 360 * inject_Z i)%Q -> (360 * inject_Z i < 180)%Q -> (inject_Z i == 0)%Q).
  { intros i A B. assert (X : i = 0). { destruct (Z.lt_trichotomy i 0) as [X|[X|X]]; [exfalso|exact X|exfalso].
      - assert (Y : (inject_Z i <= inject_Z (-1))%Q) by (rewrite <- Zle_Qle; lia). change (inject_Z (-1)) with (-1)%Q in Y. Lqa.lra.
      - assert (Y : (inject_Z 1 <= inject_Z i)%Q) by (rewrite <- Zle_Qle; lia). change (inject_Z 1) with 1%Q in Y. Lqa.lra. }
    rewrite X. reflexivity. }
  intros H (L & a & b & (i & A) & (j & B) & D & BT). apply Qabs_Qlt_condition in D. destruct D as (D1 & D2).
  destruct H as [H|[H|[(k & K)|(k & K)]]].
  - destruct L as [(P1 & P2)|(P1 & P2)]; Lqa.lra.
  - destruct L as [(P1 & P2)|(P1 & P2)]; Lqa.lra.
  - assert (E : (inject_Z (k - i) == inject_Z k - inject_Z i)%Q) by (unfold Z.sub; rewrite inject_Z_plus, inject_Z_opp; ring).
    pose proof (SM (k - i)) as X. rewrite E in X. destruct BT as [(P1 & P2)|(P1 & P2)]; specialize (X ltac:(Lqa.lra) ltac:(Lqa.lra)); Lqa.lra.
  - assert (E : (inject_Z (k - j) == inject_Z k - inject_Z j)%Q) by (unfold Z.sub; rewrite inject_Z_plus, inject_Z_opp; ring).
    pose proof (SM (k - j)) as X. rewrite E in X. destruct BT as [(P1 & P2)|(P1 & P2)]; specialize (X ltac:(Lqa.lra) ltac:(Lqa.lra)); Lqa.lra.
Qed.

(** Lines for the examples *)
Definition texas : list Z := zs "-106.5    25.9      -93.5     36.5      Texas" ++ [10].
Definition texas_rectangle : rectangle := mk_rectangle (-1065 # 10) (259 # 10) (-935 # 10) (365 # 10) (zs "Texas").
Definition half_line : list Z := zs "0.        0.        180.      50.       East" ++ [10].
Definition half_rectangle : rectangle := mk_rectangle 0 0 180 50 (zs "East").
Definition blank_line : list Z := zs "10.       20.       30.       40.       Sea" ++ [10].
Definition blank_rectangle : rectangle := mk_rectangle 10 20 30 40 (zs "Sea").
Lemma col sg a b j v q t : t = sg ++ (a ++ 46 :: b) ++ repeat 32 (S j) -> List.length t = 10%nat -> forallb isdigit (a ++ b) = true -> a ++ b <> [] -> v = (dig_val 0 (a ++ b) # Z.to_pos (10 ^ Z.of_nat (List.length b)))%Q ->
  (sg = [] \/ sg = [43]) /\ (q == v)%Q \/ sg = [45] /\ (q == - v)%Q -> column t q.
Proof. intros T L D NE V SQ. exists 0%nat, sg, (a ++ 46 :: b), v, j. split; [exact T|]. split; [exact L|]. split; [|exact SQ]. right. exists a, b, (dig_val 0 (a ++ b)). rewrite forallb_forall in D. repeat split; assumption. Qed.
Ltac colp a b j := eapply (col [] (zs a) (zs b) j); [reflexivity|reflexivity|reflexivity|discriminate|reflexivity|left; split; [now left|reflexivity]].
Ltac coln a b j := eapply (col [45] (zs a) (zs b) j); [reflexivity|reflexivity|reflexivity|discriminate|reflexivity|right; split; reflexivity].
Ltac names := let c := fresh in let I := fresh in intros c I; vm_compute in I; repeat (destruct I as [<-|I]; [lia|]); destruct I.
Lemma texas_ok : line_of texas_rectangle texas.
Proof.
  exists (zs "-106.5    "), (zs "25.9      "), (zs "-93.5     "), (zs "36.5      "). split; [reflexivity|].
  split; [coln "106" "5" 3%nat|]. split; [colp "25" "9" 5%nat|]. split; [coln "93" "5" 4%nat|]. split; [colp "36" "5" 5%nat|]. split; [discriminate|]. split; [cbn; lia|names].
Qed.
Lemma half_line_ok : line_of half_rectangle half_line.
Proof.
  exists (zs "0.        "), (zs "0.        "), (zs "180.      "), (zs "50.       "). split; [reflexivity|].
  split; [colp "0" "" 7%nat|]. split; [colp "0" "" 7%nat|]. split; [colp "180" "" 5%nat|]. split; [colp "50" "" 6%nat|]. split; [discriminate|]. split; [cbn; lia|names].
Qed.
Lemma blank_line_ok : line_of blank_rectangle blank_line.
Proof.
  exists (zs "10.       "), (zs "20.       "), (zs "30.       "), (zs "40.       "). split; [reflexivity|].
  split; [colp "10" "" 6%nat|]. split; [colp "20" "" 6%nat|]. split; [colp "30" "" 6%nat|]. split; [colp "40" "" 6%nat|]. split; [discriminate|]. split; [cbn; lia|names].
Qed.
Lemma texas_not_half : ~ half texas_rectangle.
Proof. intros (k & K). cbn [lon1 lon2 texas_rectangle] in K. destruct (Z.le_gt_cases k (-1)) as [X|X]; [assert (Y : (inject_Z k <= inject_Z (-1))%Q) by (rewrite <- Zle_Qle; lia); change (inject_Z (-1)) with (-1)%Q in Y|assert (Y : (inject_Z 0 <= inject_Z k)%Q) by (rewrite <- Zle_Qle; lia); change (inject_Z 0) with 0%Q in Y]; Lqa.lra. Qed.

Lemma C64_region_proof :
forall rs file lat lon, file_of rs file -> (forall r, In r rs -> ~ half r) ->
  exists v text, answer rs lat lon v text /\
  exists N, forall n fuel tbuff, (N <= n)%nat -> (N <= fuel)%nat -> List.length tbuff = 90%nat -> extract_region_data_for_lat_lon n fuel tbuff file lat lon = Ret (v, text).
Proof.
  intros rs file lat lon F NH. destruct (regions_ok lat lon rs file F NH) as (v & text & A & N & R). exists v, text. split; [exact A|]. exists N. intros n fuel tbuff Hn Hf _. now apply R.
Qed.

Lemma C64_whole_turns_proof :
forall rs file lat lon lon', file_of rs file -> (forall r, In r rs -> ~ half r) -> same_lon lon' lon ->
  exists N result, forall n fuel tbuff, (N <= n)%nat -> (N <= fuel)%nat -> List.length tbuff = 90%nat ->
    extract_region_data_for_lat_lon n fuel tbuff file lat lon = Ret result /\ extract_region_data_for_lat_lon n fuel tbuff file lat lon' = Ret result.
Proof.
  intros rs file lat lon lon' F NH K. destruct (regions_ok lat lon rs file F NH) as (v & text & A & N & R). destruct (regions_ok lat lon' rs file F NH) as (v' & text' & A' & N' & R').
  destruct (answer_unique rs lat lon' v text v' text' (answer_turns _ _ _ _ _ _ K A) A') as (<- & <-).
  exists (N + N')%nat, (v, text). intros n fuel tbuff Hn Hf _. split; [apply R|apply R']; lia.
Qed.

Lemma C64_wide_refuted_proof :
forall r file lat lon, line_of r file -> (180 < lon2 r - lon1 r)%Q -> (lon2 r - lon1 r < 360)%Q -> (lon1 r < lon)%Q -> (lon < lon2 r)%Q -> between lat (lat1 r) (lat2 r) ->
  exists N, forall n fuel tbuff, (N <= n)%nat -> (N <= fuel)%nat -> List.length tbuff = 90%nat -> extract_region_data_for_lat_lon n fuel tbuff file lat lon = Ret (-2, []).
Proof.
  intros r file lat lon HL H1 H2 H3 H4 _. destruct (wide_not lat lon r H1 H2 H3 H4) as (NH & NI).
  destruct (regions_ok lat lon [r] file (one_file r file HL)) as (v & text & A & N & R); [intros x [<-|[]]; exact NH|]. destruct (none_of _ _ _ _ _ NI A) as (-> & ->).
  exists N. intros n fuel tbuff Hn Hf _. now apply R.
Qed.

Lemma C64_edge_refuted_proof :
forall r s l1 l2 lat lon, line_of r l1 -> line_of s l2 -> ~ half r -> ~ half s -> (lat1 s == lat2 r)%Q -> (lat == lat2 r)%Q ->
  exists N, forall n fuel tbuff, (N <= n)%nat -> (N <= fuel)%nat -> List.length tbuff = 90%nat -> extract_region_data_for_lat_lon n fuel tbuff (l1 ++ l2) lat lon = Ret (-2, []).
Proof.
  intros r s l1 l2 lat lon H1 H2 N1 N2 E L.
  destruct (regions_ok lat lon [r; s] (l1 ++ l2)) as (v & text & A & N & R); [apply file_rectangle; [exact H1|now apply one_file]|intros x [<-|[<-|[]]]; assumption|].
  assert (I1 : ~ inside lat lon r) by (apply edge_not; right; now left). assert (I2 : ~ inside lat lon s) by (apply edge_not; left; now rewrite E).
  assert (X : answer [r; s] lat lon (-2) []) by (right; split; [intros x [<-|[<-|[]]]; assumption|now split]).
  destruct (answer_unique _ _ _ _ _ _ _ A X) as (-> & ->). exists N. intros n fuel tbuff Hn Hf _. now apply R.
Qed.

Lemma C64_half_refuted_proof :
exists r file, line_of r file /\ half r /\ forall tbuff, List.length tbuff = 90%nat ->
  extract_region_data_for_lat_lon 5 5 tbuff file 10 90 = Ret (0, name r) /\ extract_region_data_for_lat_lon 5 5 tbuff file 10 (90 + 360) = Ret (-2, []).
Proof.
  exists half_rectangle, half_line. split; [exact half_line_ok|]. split; [exists 0; reflexivity|]. intros tbuff _. split; vm_compute; reflexivity.
Qed.

Lemma C64_blank_line_refuted_proof :
exists r line, line_of r line /\ ~ half r /\ ~ inside 30 5 r /\ forall tbuff, List.length tbuff = 90%nat ->
  extract_region_data_for_lat_lon 5 5 tbuff line 30 5 = Ret (-2, []) /\ extract_region_data_for_lat_lon 5 5 tbuff (line ++ [10]) 30 5 = Ret (0, name r).
Proof.
  exists blank_rectangle, blank_line. split; [exact blank_line_ok|]. split; [|split; [|intros tbuff _; split; vm_compute; reflexivity]].
  - intros (k & K). cbn [lon1 lon2 blank_rectangle] in K. destruct (Z.le_gt_cases k (-1)) as [X|X]; [assert (Y : (inject_Z k <= inject_Z (-1))%Q) by (rewrite <- Zle_Qle; lia); change (inject_Z (-1)) with (-1)%Q in Y|assert (Y : (inject_Z 0 <= inject_Z k)%Q) by (rewrite <- Zle_Qle; lia); change (inject_Z 0) with 0%Q in Y]; Lqa.lra.
  - intros (_ & a & b & (i & A) & (j & B) & D & BT). apply Qabs_Qlt_condition in D. destruct D as (D1 & D2). cbn [lon1 lon2 blank_rectangle] in A, B.
    assert (LE : forall i j : Z, i <= j -> (inject_Z i <= inject_Z j)%Q) by (intros x y X; now rewrite <- Zle_Qle).
    assert (J : j = i).
    { destruct (Z.lt_trichotomy j i) as [X|[X|X]]; [exfalso|exact X|exfalso].
      - pose proof (LE j (i - 1) ltac:(lia)) as Y. assert (Z1 : (inject_Z (i - 1) == inject_Z i - 1)%Q) by (replace (i - 1) with (i + -1) by lia; rewrite inject_Z_plus; change (inject_Z (-1)) with (-1)%Q; ring). Lqa.lra.
      - pose proof (LE (i + 1) j ltac:(lia)) as Y. rewrite inject_Z_plus in Y. change (inject_Z 1) with 1%Q in Y. Lqa.lra. }
    subst j. destruct (Z.le_gt_cases i (-1)) as [X|X]; [pose proof (LE i (-1) X) as Y; change (inject_Z (-1)) with (-1)%Q in Y|pose proof (LE 0 i ltac:(lia)) as Y; change (inject_Z 0) with 0%Q in Y]; destruct BT as [(P1 & P2)|(P1 & P2)]; Lqa.lra.
Qed.
