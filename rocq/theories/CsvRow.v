(** Lemmas about the model of csv2ades.c: rows, files and the program. *)
From Coq Require Import QArith String Lia.
From Verif Require Import CBase CLemmas CStr DateModel DateVocab DateSpec TstrModel TstrNum TstrSpec CospSpec CospText CtimeModel CtimeSpec CsvModel CsvSpec CsvProofs CsvTime.
From Verif Require MpcfModel SofModel AdesProofs CospTerms EopModel EopProofs DesigTotal.
Import ListNotations.
Local Open Scope string_scope.
Local Open Scope list_scope.
Local Open Scope Z_scope.

Lemma no44 s : forallb (fun c => negb (c =? 44)) s = true -> ~ In 44 s.
Proof. intros H I. rewrite forallb_forall in H. specialize (H 44 I). discriminate. Qed.
Ltac nocomma := apply no44; reflexivity.

Section row.
Variables names row : list (list Z).
Variables header line : list Z.
Hypothesis TH : table_line names header.
Hypothesis TR : table_line row line.
Hypothesis LE : List.length row = List.length names.
Lemma get_text name c w : under name names row c -> forallb (fun c => negb (c =? 44)) (zs name) = true -> (w < 90)%nat -> get_csv tbuff_size line header (zs name ++ [44]) w = Ret (firstn w c).
Proof. intros U N W. apply (get_under names row); try assumption; [now apply no44|lia]. Qed.
Lemma get_value name c q w : under name names row c -> number_text 89 c q -> forallb (fun c => negb (c =? 44)) (zs name) = true -> (89 <= w)%nat ->
  (do t <- get_csv tbuff_size line header (zs name ++ [44]) w; MpcfModel.atof t) = Ret q.
Proof.
  intros U Q N W. pose proof (number_short _ _ _ Q) as S. rewrite (get_under names row header line name c w) by (first [assumption | now apply no44 | lia]).
  cbn [obind]. rewrite firstn_all2 by lia. now apply (atof_number 89).
Qed.
Lemma get_part_value name c q w v : under_part name names row c -> number_text v c q -> forallb (fun c => negb (c =? 44)) (zs name) = true -> (v <= w)%nat -> (v < 90)%nat ->
  (do t <- get_csv tbuff_size line header (zs name) w; MpcfModel.atof t) = Ret q.
Proof.
  intros U Q N W W2. pose proof (number_short _ _ _ Q) as S. rewrite (get_part names row header line name c w) by (first [assumption | now apply no44 | lia]).
  cbn [obind]. rewrite firstn_all2 by lia. now apply (atof_number v).
Qed.
Lemma coord_ok i name q : (if (i <? 3)%nat then [] else zs "v") ++ [120 + Z.of_nat (i mod 3)] ++ zs "_gaia_geocentric" = zs name ->
  forallb (fun c => negb (c =? 44)) (zs name) = true -> (exists c, under_part name names row c /\ number_text 29 c q) ->
  coordinate line header i = Ret (let n := [49 + Z.of_nat (i mod 3)] in if (i <? 3)%nat then zs "    <pos" ++ n ++ zs ">" ++ fixed 4 (km q) ++ zs "</pos" ++ n ++ zs ">" ++ [10]
       else zs "    <vel" ++ n ++ zs ">" ++ fixed 10 (q * au / 86400) ++ zs "</vel" ++ n ++ zs ">" ++ [10]).
Proof.
  intros E N (c & U & Q). unfold coordinate. rewrite E. pose proof (get_part_value name c q 29 29 U Q N ltac:(lia) ltac:(lia)) as G.
  destruct (get_csv tbuff_size line header (zs name) 29) as [t| | |]; try discriminate. cbn [obind] in G |- *. rewrite G. reflexivity.
Qed.
Lemma strstr_none : (forall n, In n (removelast names) -> ~ ends_in (zs "g_mag") n) -> strstr header (zs "g_mag,") = None.
Proof.
  intro H. apply strstr_no. intros u v E. change (zs "g_mag,") with (zs "g_mag" ++ [44]) in E. destruct TH as (F & EH & _). rewrite Forall_forall in F.
  destruct (List.rev names) as [|l r] eqn:R.
  { apply (f_equal (@rev _)) in R. rewrite rev_involutive in R. cbn in R. rewrite R in EH. cbn in EH. rewrite EH in E. assert (I : In 44 [10]) by (rewrite E; apply in_or_app; right; apply in_or_app; left; apply in_or_app; right; now left). destruct I as [I|[]]. discriminate. }
  assert (NM : names = rev r ++ [l]) by (rewrite <- (rev_involutive names), R; reflexivity). assert (RL : removelast names = rev r) by (rewrite NM; apply removelast_last).
  assert (FR : forall d, In d (rev r) -> ~ In 44 d) by (intros d I; apply F; rewrite NM; apply in_or_app; now left).
  assert (EL : cells_of (rev r) ++ (l ++ [10]) = u ++ zs "g_mag" ++ [44] ++ v).
  { rewrite NM, with_commas_app in EH by discriminate. cbn [with_commas] in EH. rewrite <- app_assoc in EH. rewrite <- EH, E, <- !app_assoc. reflexivity. }
  assert (CK : commas (cells_of (rev r)) = List.length (rev r)).
  { clear -FR. revert FR. generalize (rev r). induction l as [|c cs IH]; intro N; [reflexivity|]. unfold cells_of. cbn [map concat List.length]. rewrite !commas_app. cbn [commas Z.eqb Pos.eqb]. rewrite commas_none by (apply N; now left). fold (cells_of cs). rewrite IH by (intros d H; apply N; now right). reflexivity. }
  assert (CT : (commas u + S (commas v) = List.length (rev r))%nat).
  { apply (f_equal commas) in EL. rewrite !commas_app, CK in EL. rewrite (commas_none l) in EL by (apply F; rewrite NM; apply in_or_app; right; now left). change (commas (zs "g_mag")) with O in EL. change (commas [10]) with O in EL. change (commas [44]) with 1%nat in EL. lia. }
  destruct (in_cell (rev r) u (zs "g_mag") ([44] ++ v) (l ++ [10]) FR ltac:(nocomma) EL ltac:(lia)) as (c & p & q & w & A & B & C).
  apply nth_error_In in A. rewrite <- RL in A. apply (H c A). exists p. destruct q as [|y q]; [now rewrite app_nil_r in B|]. cbn in C. injection C as <- _. exfalso. apply (FR c); [rewrite <- RL; exact A|]. rewrite B. apply in_or_app. right. apply in_or_app. right. now left.
Qed.

Lemma row_num (o : gaia_obs) L fuel ic rms low high : under "number_mp" names row (number o) -> digits_of (number o) (num o) -> (List.length (number o) <= 9)%nat ->
  csv_to_ades L fuel ic rms line header low high =
  if (low <=? num o) && (num o <=? high) then csv_to_ades L fuel ic rms line header (num o) (num o) else Ret [].
Proof.
  intros U D N. unfold csv_to_ades. change (zs "number_mp,") with (zs "number_mp" ++ [44]). rewrite (get_text _ _ 9 U) by (reflexivity || lia). cbn [obind]. rewrite firstn_all2 by exact N.
  assert (B : 0 <= num o <= IMAX).
  { destruct D as (D0 & D1 & <-). split; [apply DesigBase.dig_val_mono; lia|]. pose proof (DesigTotal.dig_val_digits (number o) 0 ltac:(lia) ltac:(now apply forallb_forall)) as H.
    assert (P : 10 ^ Z.of_nat (List.length (number o)) <= 10 ^ 9) by (apply Z.pow_le_mono_r; lia). unfold IMAX. lia. }
  pose proof (CospTerms.atoi_num (number o) (num o) [] D I B) as A. rewrite app_nil_r in A. rewrite A. cbn [obind]. rewrite Z.leb_refl. cbn [andb]. reflexivity.
Qed.
Lemma row_block (o : gaia_obs) L fuel ic rms low high time : row_says names row o -> obs_time L fuel ic (days o + jd_epoch)%Q = Ret time -> asked low high o = true ->
  csv_to_ades L fuel ic rms line header low high = Ret (block o (time ++ zs "Z") rms).
Proof.
  intros S T As. unfold row_says in S. destruct (place o) as [[x y] z] eqn:EP. destruct (velocity o) as [[vx vy] vz] eqn:EV.
  destruct S as (_ & U & D & N & X & Y & Z0 & VX & VY & VZ & (c1 & U1 & Q1) & (c2 & U2 & Q2) & (c3 & U3 & Q3) & (c4 & U4 & Q4) & (c5 & U5 & Q5) & (c6 & U6 & Q6) & P).
  unfold csv_to_ades. change (zs "number_mp,") with (zs "number_mp" ++ [44]). rewrite (get_text _ _ 9 U) by (reflexivity || lia). cbn [obind]. rewrite firstn_all2 by exact N.
  assert (B : 0 <= num o <= IMAX).
  { destruct D as (D0 & D1 & <-). split; [apply DesigBase.dig_val_mono; lia|]. pose proof (DesigTotal.dig_val_digits (number o) 0 ltac:(lia) ltac:(now apply forallb_forall)) as H.
    assert (P0 : 10 ^ Z.of_nat (List.length (number o)) <= 10 ^ 9) by (apply Z.pow_le_mono_r; lia). unfold IMAX. lia. }
  pose proof (CospTerms.atoi_num (number o) (num o) [] D I B) as A. rewrite app_nil_r in A. rewrite A. cbn [obind]. unfold asked in As. rewrite As.
  unfold coordinates.
  rewrite (coord_ok 0 "x_gaia_geocentric" x eq_refl eq_refl X), (coord_ok 1 "y_gaia_geocentric" y eq_refl eq_refl Y), (coord_ok 2 "z_gaia_geocentric" z eq_refl eq_refl Z0),
    (coord_ok 3 "vx_gaia_geocentric" vx eq_refl eq_refl VX), (coord_ok 4 "vy_gaia_geocentric" vy eq_refl eq_refl VY), (coord_ok 5 "vz_gaia_geocentric" vz eq_refl eq_refl VZ).
  cbn [obind].
  change (zs "epoch_utc,") with (zs "epoch_utc" ++ [44]). rewrite (get_value _ _ _ 99 U1 Q1) by (reflexivity || lia). cbn [obind]. rewrite T. cbn [obind].
  change (zs "ra,") with (zs "ra" ++ [44]). rewrite (get_value _ _ _ 99 U2 Q2) by (reflexivity || lia). cbn [obind].
  change (zs "dec,") with (zs "dec" ++ [44]). rewrite (get_value _ _ _ 99 U3 Q3) by (reflexivity || lia). cbn [obind].
  change (zs "ra_error_random,") with (zs "ra_error_random" ++ [44]). rewrite (get_value _ _ _ 99 U4 Q4) by (reflexivity || lia). cbn [obind].
  change (zs "dec_error_random,") with (zs "dec_error_random" ++ [44]). rewrite (get_value _ _ _ 99 U5 Q5) by (reflexivity || lia). cbn [obind].
  change (zs "ra_dec_correlation_random,") with (zs "ra_dec_correlation_random" ++ [44]). rewrite (get_text _ _ 10 U6) by (reflexivity || lia). cbn [obind]. rewrite <- Q6.
  assert (PH : photometry rms line header = Ret (match phot o with Some (m, f, s) => line_of "mag" m ++ line_of "rmsMag" (rms s f) ++ line_of "band" (zs "G") ++ line_of "photCat" (zs "Gaia2") | None => [] end)).
  { unfold photometry.
    assert (SS : forall c, under "g_mag" names row c -> exists n, strstr header (zs "g_mag,") = Some n).
    { intros c Uc. assert (G := get_text "g_mag" c 9 Uc eq_refl ltac:(lia)). unfold get_csv in G. change (zs "g_mag,") with (zs "g_mag" ++ [44]). destruct (strstr header (zs "g_mag" ++ [44])) as [n|]; [now exists n|discriminate]. }
    destruct (phot o) as [[[m f] s]|].
    - destruct P as ((c & Uc & ->) & Dg & (cf & Uf & Qf) & (cs & Us & Qs)). destruct (SS c Uc) as (n & ->). change (zs "g_mag,") with (zs "g_mag" ++ [44]). rewrite (get_text _ _ 9 Uc) by (reflexivity || lia). cbn [obind].
      change ((48 <=? nth 0 (firstn 9 c) 0) && (nth 0 (firstn 9 c) 0 <=? 57)) with (isdigit (nth 0 (firstn 9 c) 0)). rewrite Dg.
      pose proof (get_part_value _ _ _ 99 89 Uf Qf eq_refl ltac:(lia) ltac:(lia)) as Gf. destruct (get_csv tbuff_size line header (zs "g_flux") 99) as [tf| | |]; try discriminate. cbn [obind] in Gf |- *. rewrite Gf. cbn [obind].
      pose proof (get_part_value _ _ _ 99 89 Us Qs eq_refl ltac:(lia) ltac:(lia)) as Gs. destruct (get_csv tbuff_size line header (zs "g_flux_error") 99) as [ts| | |]; try discriminate. cbn [obind] in Gs |- *. rewrite Gs. reflexivity.
    - destruct P as [P|(c & Uc & Nd)]; [now rewrite strstr_none|]. destruct (SS c Uc) as (n & ->). change (zs "g_mag,") with (zs "g_mag" ++ [44]). rewrite (get_text _ _ 9 Uc) by (reflexivity || lia). cbn [obind].
      replace (nth 0 (firstn 9 c) 0) with (nth 0 c 0) by (destruct c; reflexivity). change ((48 <=? nth 0 c 0) && (nth 0 c 0 <=? 57)) with (isdigit (nth 0 c 0)). now rewrite Nd. }
  rewrite PH. cbn [obind]. f_equal. unfold block. rewrite EP, EV.
  assert (K : forall a b r, zs "    <pos" ++ [49 + Z.of_nat (a mod 3)] ++ zs ">" ++ b ++ zs "</pos" ++ [49 + Z.of_nat (a mod 3)] ++ zs ">" ++ [10] ++ r = zs "    <pos" ++ [49 + Z.of_nat (a mod 3)] ++ zs ">" ++ b ++ zs "</pos" ++ [49 + Z.of_nat (a mod 3)] ++ zs ">" ++ [10] ++ r) by reflexivity. clear K.
  cbn [Nat.ltb Nat.leb]. cbv zeta. rewrite app_nil_r.
  repeat rewrite <- app_assoc. unfold line_of, element. repeat rewrite <- app_assoc. reflexivity.
Qed.
End row.
