(** Lemmas about the model of csv2ades.c: cells. *)
From Coq Require Import QArith String Lia.
From Verif Require Import CBase CLemmas CStr TstrModel TstrNum TstrSpec CospSpec CospText CtimeSpec CsvModel CsvSpec.
From Verif Require MpcfModel SofModel AdesProofs.
Import ListNotations.
Local Open Scope string_scope.
Local Open Scope list_scope.
Local Open Scope Z_scope.

(** ---- strstr( ) ---- *)
Lemma strstr_some s p : forall n, strstr s p = Some n -> exists v, s = firstn n s ++ p ++ v.
Proof.
  induction s as [|c s IH]; intros n H; cbn [strstr] in H; destruct (prefix p _) eqn:E.
  - injection H as <-. apply AdesProofs.prefix_spec in E. destruct E as (v & E). exists v. exact E.
  - discriminate.
  - injection H as <-. apply AdesProofs.prefix_spec in E. destruct E as (v & E). exists v. exact E.
  - destruct (strstr s p) as [k|]; [|discriminate]. injection H as <-. destruct (IH k eq_refl) as (v & V). exists v. cbn [firstn app]. now rewrite <- V.
Qed.
Lemma prefix_here p v : prefix p (p ++ v) = true.
Proof. apply AdesProofs.prefix_spec. now exists v. Qed.
Lemma strstr_le p v : forall u, exists n, strstr (u ++ p ++ v) p = Some n /\ (n <= List.length u)%nat.
Proof.
  induction u as [|c u (n & E & H)]; cbn [app].
  - exists O. split; [|cbn; lia]. destruct (p ++ v) eqn:E; cbn [strstr]; rewrite <- E, prefix_here; reflexivity.
  - cbn [strstr]. destruct (prefix p (c :: u ++ p ++ v)); [exists O; split; [reflexivity|lia]|]. rewrite E. exists (S n). split; [reflexivity|cbn [List.length]; lia].
Qed.
Lemma strstr_no s p : (forall u v, s <> u ++ p ++ v) -> strstr s p = None.
Proof. intro H. destruct (strstr s p) as [n|] eqn:E; [|reflexivity]. destruct (strstr_some _ _ _ E) as (v & V). now apply H in V. Qed.

(** ---- commas ---- *)
Lemma commas_app a b : commas (a ++ b) = (commas a + commas b)%nat.
Proof. induction a as [|c a IH]; [reflexivity|]. cbn [app commas]. destruct (c =? 44); rewrite IH; reflexivity. Qed.
Lemma commas_none a : ~ In 44 a -> commas a = O.
Proof. induction a as [|c a IH]; intro H; [reflexivity|]. cbn [commas]. destruct (Z.eqb_spec c 44) as [->|_]; [exfalso; apply H; now left|]. apply IH. intro I. apply H. now right. Qed.
Lemma commas_zero a : commas a = O -> ~ In 44 a.
Proof. induction a as [|c a IH]; intros H I; [destruct I|]. cbn [commas] in H. destruct (Z.eqb_spec c 44); [discriminate|]. destruct I as [->|I]; [contradiction|]. now apply IH. Qed.
Lemma commas_firstn n : forall m s, (n <= m)%nat -> (commas (firstn n s) <= commas (firstn m s))%nat.
Proof.
  intros m s H. replace (firstn n s) with (firstn n (firstn m s)) by (rewrite firstn_firstn; f_equal; lia). generalize (firstn m s). intro t. rewrite <- (firstn_skipn n t) at 2. rewrite commas_app. lia.
Qed.
(** [a] without commas in front of a text whose first comma ends [c] *)
Lemma comma_split a : forall c x y, ~ In 44 a -> a ++ x = c ++ 44 :: y -> exists r, c = a ++ r /\ x = r ++ 44 :: y.
Proof.
  induction a as [|b a IH]; intros c x y N E; [exists c; now split|].
  destruct c as [|d c]; cbn [app] in E.
  - injection E as -> _. exfalso. apply N. now left.
  - injection E as -> E. destruct (IH c x y) as (r & -> & ->); [intro I; apply N; now right|exact E|]. exists r. now split.
Qed.
Lemma comma_first c : forall u x y, ~ In 44 c -> In 44 u -> u ++ x = c ++ 44 :: y -> exists w, u = c ++ 44 :: w /\ y = w ++ x.
Proof.
  induction c as [|d c IH]; intros u x y N I E; (destruct u as [|b u]; [destruct I|]); cbn [app] in E.
  - injection E as -> <-. exists u. now split.
  - injection E as -> E. destruct I as [-> |I]; [exfalso; apply N; now left|].
    destruct (IH u x y) as (w & -> & ->); [intro J; apply N; now right|assumption|exact E|]. exists w. now split.
Qed.

(** Cells each with a comma behind them. *)
Definition cells_of (cs : list (list Z)) : list Z := concat (map (fun c => c ++ [44]) cs).
Lemma with_commas_app : forall cs ds, ds <> [] -> with_commas (cs ++ ds) = cells_of cs ++ with_commas ds.
Proof.
  induction cs as [|c cs IH]; intros ds N; [reflexivity|]. cbn [app]. destruct (cs ++ ds) as [|e l] eqn:E.
  - destruct cs; [cbn in E; contradiction|discriminate].
  - change (with_commas (c :: e :: l)) with (c ++ [44] ++ with_commas (e :: l)). rewrite <- E, IH by exact N. unfold cells_of. cbn [map concat]. rewrite <- !app_assoc. reflexivity.
Qed.
(** A text without commas in it is in one of the cells. *)
Lemma in_cell : forall cs u t v rest, (forall c, In c cs -> ~ In 44 c) -> ~ In 44 t -> cells_of cs ++ rest = u ++ t ++ v -> (commas u < List.length cs)%nat ->
  exists c p r w, nth_error cs (commas u) = Some c /\ c = p ++ t ++ r /\ v = r ++ 44 :: w.
Proof.
  induction cs as [|c cs IH]; intros u t v rest N T E L; [cbn in L; lia|].
  unfold cells_of in E. cbn [map concat] in E. rewrite <- !app_assoc in E. cbn [app] in E. assert (Nc : ~ In 44 c) by (apply N; now left).
  destruct (commas u) as [|k] eqn:K.
  - assert (U : ~ In 44 (u ++ t)) by (intro I; apply in_app_or in I; destruct I; [now apply (commas_zero u K)|now apply T]).
    destruct (comma_split (u ++ t) c v (concat (map (fun c0 => c0 ++ [44]) cs) ++ rest) U) as (r & R & V); [rewrite <- app_assoc; now symmetry|].
    exists c, u, r, (concat (map (fun c0 => c0 ++ [44]) cs) ++ rest). split; [reflexivity|]. split; [now rewrite app_assoc|exact V].
  - assert (I : In 44 u) by (destruct (in_dec Z.eq_dec 44 u) as [I|I]; [exact I|apply commas_none in I; congruence]).
    destruct (comma_first c u (t ++ v) _ Nc I (eq_sym E)) as (w & -> & W).
    rewrite commas_app in K. cbn [commas Z.eqb Pos.eqb] in K. rewrite commas_none in K by exact Nc. cbn in K. injection K as K.
    destruct (IH w t v rest) as (c1 & p & r & x & A & B & C); [intros c0 H; apply N; now right|exact T|exact W|cbn in L; lia|].
    rewrite K in A. exists c1, p, r, x. cbn [nth_error]. now repeat split.
Qed.

Lemma skip_ok : forall cs s, (forall c, In c cs -> ~ In 44 c) -> skip_fields (List.length cs) (cells_of cs ++ s) = Some s.
Proof.
  induction cs as [|c cs IH]; intros s N; [reflexivity|]. cbn [List.length skip_fields]. unfold cells_of. cbn [map concat]. rewrite <- !app_assoc. cbn [app].
  assert (A : forall c x, ~ In 44 c -> after_comma (c ++ 44 :: x) = Some x).
  { clear. induction c as [|d c IH]; intros x N; [reflexivity|]. cbn [app after_comma]. destruct (Z.eqb_spec d 44) as [->|_]; [exfalso; apply N; now left|]. apply IH. intro I. apply N. now right. }
  rewrite A by (apply N; now left). apply IH. intros c0 H. apply N. now right.
Qed.
Lemma copy_ok : forall c w x, ~ In 44 c -> copy_field w (c ++ 44 :: x) = firstn w c.
Proof.
  induction c as [|d c IH]; intros w x N; (destruct w as [|w]; [reflexivity|]); cbn [app copy_field firstn]; [reflexivity|].
  destruct (Z.eqb_spec d 44) as [->|_]; [exfalso; apply N; now left|]. f_equal. apply IH. intro I. apply N. now right.
Qed.
Lemma line_split cells line k c : table_line cells line -> nth_error cells k = Some c -> (S k < List.length cells)%nat ->
  exists x, line = cells_of (firstn k cells) ++ c ++ 44 :: x /\ (forall d, In d (firstn k cells) -> ~ In 44 d) /\ ~ In 44 c /\ List.length (firstn k cells) = k.
Proof.
  intros (F & -> & _) E L. rewrite Forall_forall in F.
  assert (S0 : cells = firstn k cells ++ c :: skipn (S k) cells).
  { clear -E. revert k E. induction cells as [|d cells IH]; intros [|k] E; try discriminate; cbn in *; [now injection E as ->|]. f_equal. now apply IH. }
  destruct (skipn (S k) cells) as [|d ds] eqn:D; [exfalso; apply (f_equal (@List.length (list Z))) in D; rewrite skipn_length in D; cbn in D; lia|].
  exists (with_commas (d :: ds) ++ [10]). split; [|split; [|split]].
  - rewrite S0 at 1. rewrite with_commas_app by discriminate. change (with_commas (c :: d :: ds)) with (c ++ [44] ++ with_commas (d :: ds)). rewrite <- !app_assoc. reflexivity.
  - intros x I. apply F. rewrite S0. apply in_or_app. now left.
  - apply F. rewrite S0. apply in_or_app. right. now left.
  - rewrite firstn_length. lia.
Qed.

(** A cell is found under the name of its column. *)
Lemma get_gen names row header line tag comma c w k : table_line names header -> table_line row line -> List.length row = List.length names ->
  ~ In 44 tag -> (comma = [] \/ comma = [44]) ->
  first_col (if match comma with [] => true | _ => false end then has_in tag else ends_in tag) names k -> nth_error row k = Some c -> (Nat.min w (List.length c) < 90)%nat ->
  get_csv tbuff_size line header (tag ++ comma) w = Ret (firstn w c).
Proof.
  intros TH TR LE NT CM (K1 & (n & K2 & K3) & K4) RC W.
  destruct (line_split _ _ _ _ TH K2 K1) as (x & EH & NF & Nn & LF).
  assert (OC : exists p r, n ++ 44 :: x = p ++ (tag ++ comma) ++ r /\ ~ In 44 p).
  { destruct CM as [-> | ->].
    - destruct K3 as (p & r & ->). exists p, (r ++ 44 :: x). rewrite app_nil_r, <- !app_assoc. split; [reflexivity|]. intro I. apply Nn. apply in_or_app. now left.
    - destruct K3 as (p & ->). exists p, x. rewrite <- !app_assoc. split; [reflexivity|]. intro I. apply Nn. apply in_or_app. now left. }
  destruct OC as (p & r & OC & Np). rewrite OC, app_assoc in EH.
  destruct (strstr_le (tag ++ comma) r (cells_of (firstn k names) ++ p)) as (f & SF & FL). rewrite <- EH in SF.
  destruct (strstr_some _ _ _ SF) as (v & HV).
  assert (CK : forall cs, (forall d, In d cs -> ~ In 44 d) -> commas (cells_of cs) = List.length cs).
  { clear. induction cs as [|c cs IH]; intro N; [reflexivity|]. unfold cells_of. cbn [map concat List.length]. rewrite !commas_app. cbn [commas Z.eqb Pos.eqb]. rewrite commas_none by (apply N; now left). fold (cells_of cs). rewrite IH by (intros d H; apply N; now right). reflexivity. }
  assert (UP : (commas (firstn f header) <= k)%nat).
  { replace k with (commas (firstn (List.length (cells_of (firstn k names) ++ p)) header)); [apply commas_firstn; exact FL|].
    rewrite EH, firstn_app_l, commas_app, CK by exact NF. rewrite commas_none by exact Np. lia. }
  assert (CF : commas (firstn f header) = k).
  { destruct (Nat.eq_dec (commas (firstn f header)) k) as [E|NE]; [exact E|]. exfalso.
    rewrite <- app_assoc in EH. rewrite EH in HV at 1. rewrite <- !app_assoc in HV.
    destruct (in_cell (firstn k names) (firstn f header) tag (comma ++ v) _ NF NT HV ltac:(lia)) as (c0 & p0 & r0 & w0 & A & B & C).
    assert (A' : nth_error names (commas (firstn f header)) = Some c0).
    { rewrite <- (firstn_skipn k names). rewrite nth_error_app1 by lia. exact A. }
    apply (K4 (commas (firstn f header)) c0 ltac:(lia) A'). destruct CM as [-> | ->].
    - exists p0, r0. exact B.
    - exists p0. destruct r0 as [|y r0]; [now rewrite app_nil_r in B|]. cbn in C. injection C as <- _. exfalso. apply (NF c0); [now apply nth_error_In in A|]. rewrite B. apply in_or_app. right. apply in_or_app. right. now left. }
  unfold get_csv. rewrite SF, CF.
  destruct (line_split _ _ _ _ TR RC ltac:(lia)) as (x' & ER & NFR & Nc & LFR). rewrite ER. rewrite <- LFR at 1. rewrite skip_ok by exact NFR. rewrite copy_ok by exact Nc.
  rewrite firstn_length. unfold tbuff_size. rewrite (proj2 (Nat.ltb_lt _ _)) by lia. reflexivity.
Qed.
Lemma get_under names row header line name c w : table_line names header -> table_line row line -> List.length row = List.length names ->
  ~ In 44 (zs name) -> under name names row c -> (Nat.min w (List.length c) < 90)%nat -> get_csv tbuff_size line header (zs name ++ [44]) w = Ret (firstn w c).
Proof. intros TH TR LE NT (k & K & RC) W. apply (get_gen names row header line (zs name) [44] c w k); try assumption. now right. Qed.
Lemma get_part names row header line name c w : table_line names header -> table_line row line -> List.length row = List.length names ->
  ~ In 44 (zs name) -> under_part name names row c -> (Nat.min w (List.length c) < 90)%nat -> get_csv tbuff_size line header (zs name) w = Ret (firstn w c).
Proof. intros TH TR LE NT (k & K & RC) W. rewrite <- (app_nil_r (zs name)). apply (get_gen names row header line (zs name) [] c w k); try assumption. now left. Qed.

(** ---- numbers ---- *)
Lemma atof_number w t q : number_text w t q -> MpcfModel.atof t = Ret q.
Proof.
  intros (_ & s & n & r & -> & N & S0). unfold MpcfModel.atof. rewrite <- (app_nil_r (s ++ n)).
  destruct S0 as [(S0 & ->)|(-> & ->)].
  - rewrite (proj1 (strtold_text false s n r [] (or_introl (conj eq_refl S0)) N I)). reflexivity.
  - rewrite (proj1 (strtold_text true [45] n r [] (or_intror (conj eq_refl eq_refl)) N I)). reflexivity.
Qed.
Lemma number_short w t q : number_text w t q -> (List.length t <= w)%nat. Proof. now intros (H & _). Qed.
