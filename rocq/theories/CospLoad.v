(** Lemmas for C60: loading the file, the matrix, histories of calls. *)
From Coq Require Import QArith Qreals Reals String Lia Lra.
From Verif Require Import CBase CStr RBase TstrModel TstrSpec TstrNum CospModel CospSpec CospText CospTerms CospScan CospFind.
From Verif Require SofModel RotModel RotSpec AdesProofs.
Import ListNotations.
Local Open Scope string_scope.
Local Open Scope list_scope.
Local Open Scope Z_scope.

Lemma line_length_app l r : (forall c, In c l -> c <> 10) -> forall n, (List.length l < n)%nat -> line_length n (l ++ 10 :: r) = S (List.length l).
Proof.
  induction l as [|c l IH]; intros H n Hn; (destruct n as [|n]; [cbn in Hn; lia|]); [reflexivity|].
  cbn [app line_length List.length]. replace (c =? 10) with false by (symmetry; apply Z.eqb_neq; apply H; now left).
  f_equal. apply IH; [intros; apply H; now right|cbn [List.length] in Hn; lia].
Qed.
Lemma readable_byte c : readable c <-> line_byte c = true.
Proof. unfold readable, line_byte. rewrite !andb_true_iff, negb_true_iff, Z.leb_le, Z.ltb_lt, Z.eqb_neq. tauto. Qed.
Lemma span_content content tail : (forall c, In c content -> readable c) -> (match tail with [] => True | c :: _ => ~ readable c end) ->
  span line_byte (content ++ tail ++ [10]) = List.length content.
Proof.
  intros H Ht. rewrite span_all_app by (intros; now apply readable_byte, H).
  assert (E : span line_byte (tail ++ [10]) = 0%nat).
  { destruct tail as [|c t]; [reflexivity|]. cbn [app span]. destruct (line_byte c) eqn:B; [|reflexivity]. apply readable_byte in B. contradiction. }
  rewrite E. lia.
Qed.
Lemma kept_line content tail : raw_line content tail ->
  (match kept (content ++ tail ++ [10]) with Some l => [l] | None => [] end) = what_is_left content.
Proof.
  intros (H & Ht & _). unfold kept. rewrite span_content by assumption. destruct content as [|c content]; [reflexivity|].
  cbn [List.length]. change (S (List.length content)) with (List.length (c :: content)).
  rewrite firstn_app_l. unfold what_is_left. now destruct (prefix (zs "Remap:") (c :: content)).
Qed.
Lemma not_end l : firstn 3 l <> zs "END" -> prefix (zs "END") (l ++ [10]) = false.
Proof.
  intro H. destruct (prefix (zs "END") (l ++ [10])) eqn:E; [|reflexivity]. apply AdesProofs.prefix_spec in E. destruct E as (r & E).
  exfalso. apply H. change (zs "END") with [69; 78; 68] in *. cbn [app] in E.
  destruct l as [|a [|b [|c l]]]; cbn [app] in E; try discriminate E. injection E as -> -> -> _. reflexivity.
Qed.
Lemma load_more fuel f : f <> [] -> load (S fuel) f =
  if prefix (zs "END") (firstn (line_length 299 f) f) then Ret []
  else do ls <- load fuel (skipn (line_length 299 f) f); Ret (match kept (firstn (line_length 299 f) f) with Some l => l :: ls | None => ls end).
Proof. destruct f; [congruence|reflexivity]. Qed.
Lemma load_text raws fin : (forall c t, In (c, t) raws -> raw_line c t) -> (fin = [] \/ exists more, fin = zs "END" ++ more) ->
  forall fuel, (List.length (flat_map (fun r => fst r ++ snd r ++ [10%Z]) raws ++ fin) < fuel)%nat ->
  load fuel (flat_map (fun r => fst r ++ snd r ++ [10%Z]) raws ++ fin) = Ret (flat_map (fun r => what_is_left (fst r)) raws).
Proof.
  intros H Hf. induction raws as [|(c, t) raws IH]; intros fuel Hl; (destruct fuel as [|fuel]; [lia|]).
  - cbn [flat_map app]. destruct Hf as [->|(more & ->)]; [reflexivity|].
    change (zs "END" ++ more) with (69 :: 78 :: 68 :: more). reflexivity.
  - assert (R : raw_line c t) by (apply H; now left). destruct R as (R1 & R2 & R3 & R4 & R5).
    cbn [flat_map fst snd] in *. set (more := flat_map (fun r => fst r ++ snd r ++ [10%Z]) raws) in *.
    assert (E : ((c ++ t ++ [10]) ++ more) ++ fin = (c ++ t) ++ 10 :: (more ++ fin)) by (rewrite <- !app_assoc; reflexivity).
    rewrite E in *. rewrite load_more by (destruct (c ++ t); discriminate). rewrite line_length_app by (assumption || lia).
    assert (F1 : firstn (S (List.length (c ++ t))) ((c ++ t) ++ 10 :: more ++ fin) = (c ++ t) ++ [10]).
    { change ((c ++ t) ++ 10 :: more ++ fin) with ((c ++ t) ++ [10] ++ (more ++ fin)). rewrite app_assoc.
      transitivity (firstn (List.length ((c ++ t) ++ [10%Z])) (((c ++ t) ++ [10%Z]) ++ more ++ fin)); [f_equal; rewrite (app_length (c ++ t) [10%Z]); cbn [List.length]; lia|apply firstn_app_l]. }
    assert (F2 : skipn (S (List.length (c ++ t))) ((c ++ t) ++ 10 :: more ++ fin) = more ++ fin).
    { change ((c ++ t) ++ 10 :: more ++ fin) with ((c ++ t) ++ [10] ++ (more ++ fin)). rewrite app_assoc.
      transitivity (skipn (List.length ((c ++ t) ++ [10%Z])) (((c ++ t) ++ [10%Z]) ++ more ++ fin)); [f_equal; rewrite (app_length (c ++ t) [10%Z]); cbn [List.length]; lia|apply skipn_app_l]. }
    rewrite F1, F2, not_end by assumption. rewrite IH; [|intros; apply H; now right|rewrite !app_length in Hl |- *; cbn [List.length] in Hl; rewrite !app_length in Hl; lia].
    cbn [obind]. rewrite <- app_assoc. rewrite <- (kept_line c t) by exact (conj R1 (conj R2 (conj R3 (conj R4 R5)))). destruct (kept (c ++ t ++ [10])); reflexivity.
Qed.
Lemma without_shorter (l : list Z) : (List.length (without_blanks l) <= List.length l)%nat.
Proof. unfold without_blanks. induction l as [|c l IH]; [reflexivity|]. cbn [filter]. destruct (negb (c =? 32)); cbn [List.length]; lia. Qed.
Lemma lines_short raws : forall t, In t (flat_map (fun r => what_is_left (fst r)) raws) ->
  (List.length t <= List.length (flat_map (fun r : list Z * list Z => fst r ++ snd r ++ [10%Z]) raws))%nat.
Proof.
  induction raws as [|(c, t0) raws IH]; intros t I; [destruct I|]. cbn [flat_map fst snd] in *. rewrite !app_length. apply in_app_or in I. destruct I as [I|I].
  - unfold what_is_left in I. destruct c as [|x c]; [destruct I|]. destruct (prefix (zs "Remap:") (x :: c)); destruct I as [<-|[]]; [lia|].
    pose proof (without_shorter (x :: c)). lia.
  - apply IH in I. lia.
Qed.
Lemma lines_count raws : (List.length (flat_map (fun r => what_is_left (fst r)) raws) <= List.length (flat_map (fun r : list Z * list Z => fst r ++ snd r ++ [10%Z]) raws))%nat.
Proof.
  induction raws as [|(c, t0) raws IH]; [reflexivity|]. cbn [flat_map fst snd]. rewrite !app_length. cbn [List.length].
  assert (List.length (what_is_left c) <= 1)%nat by (unfold what_is_left; destruct c; [cbn; lia|]; destruct (prefix _ _); cbn; lia). lia.
Qed.
Lemma load_file file lines fuel : file_lines file lines -> (List.length file < fuel)%nat ->
  load fuel file = Ret lines /\ (forall t, In t lines -> (List.length t < fuel)%nat) /\ (List.length lines <= List.length file)%nat.
Proof.
  intros (raws & fin & H & Hf & -> & ->) Hl. split; [now apply load_text|]. rewrite app_length in Hl.
  split; [intros t I; apply lines_short in I; lia|]. pose proof (lines_count raws). rewrite app_length. lia.
Qed.

(** ---- the matrix ---- *)
Lemma list9 (a b c d e f g h i a' b' c' d' e' f' g' h' i' : R) :
  a = a' -> b = b' -> c = c' -> d = d' -> e = e' -> f = f' -> g = g' -> h = h' -> i = i' -> [a; b; c; d; e; f; g; h; i] = [a'; b'; c'; d'; e'; f'; g'; h'; i'].
Proof. congruence. Qed.
Lemma rad_quarter x : cos (rad (x + 90)) = (- sin (rad x))%R /\ sin (rad (x + 90)) = cos (rad x) /\ cos (rad (x - 90)) = sin (rad x) /\ sin (rad (x - 90)) = (- cos (rad x))%R.
Proof.
  replace (rad (x + 90)) with (rad x + PI / 2)%R by (unfold rad; lra). replace (rad (x - 90)) with (rad x - PI / 2)%R by (unfold rad; lra).
  rewrite cos_plus, sin_plus, cos_minus, sin_minus, cos_PI2, sin_PI2. repeat split; ring.
Qed.
Lemma orientation_rows rv ra de w retro q :
  orientation (Some (mk_results rv (Some ra) (Some de) (Some w) retro q)) = Ret (rows ra de w retro).
Proof.
  unfold orientation. replace (ra * (PI / 180))%R with (rad ra) by (unfold rad; lra). replace (de * (PI / 180))%R with (rad de) by (unfold rad; lra).
  change (w * PI / 180)%R with (rad w).
  unfold RotModel.polar3_to_cartesian, RotModel.set. cbn [List.length obind Nat.ltb Nat.leb].
  unfold RotModel.spin_matrix. cbn -[sin cos PI Rplus Rmult Rminus Ropp Rdiv IZR rad]. 
  replace (cos (rad ra - PI / 2)) with (sin (rad ra)) by (rewrite cos_minus, cos_PI2, sin_PI2; ring).
  replace (sin (rad ra - PI / 2)) with (- cos (rad ra))%R by (rewrite sin_minus, cos_PI2, sin_PI2; ring).
  replace (cos (rad ra - PI)) with (- cos (rad ra))%R by (rewrite cos_minus, cos_PI, sin_PI; ring).
  replace (sin (rad ra - PI)) with (- sin (rad ra))%R by (rewrite sin_minus, cos_PI, sin_PI; ring).
  rewrite cos_shift, sin_shift, cos_0, sin_0.
  replace (cos (rad w + PI)) with (- cos (rad w))%R by (rewrite neg_cos; ring).
  replace (sin (rad w + PI)) with (- sin (rad w))%R by (rewrite neg_sin; ring).
  f_equal. unfold rows, on_equator. destruct (rad_quarter w) as (E1 & E2 & E3 & E4).
  assert (C : (cos (rad ra) * cos (rad ra) = 1 - sin (rad ra) * sin (rad ra))%R) by (pose proof (sin2_cos2 (rad ra)) as X; unfold Rsqr in X; lra).
  destruct retro; unfold negate_row, combine2, cross, pole_vector, node_vector, RotSpec.comp; rewrite ?E1, ?E2, ?E3, ?E4; cbn [app firstn skipn map nth];
    apply list9; try ring; try (match goal with |- ?l = ?r => replace r with (r + 0)%R by ring end; idtac); 
    try (ring_simplify; ring [C]); nra.
Qed.
