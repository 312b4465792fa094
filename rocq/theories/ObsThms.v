(** Theorems of C59 with their proofs; PropObs.v states them again. *)
From Coq Require Import QArith Qabs String Lia.
From Verif Require Import CBase CStr DateVocab CtimeSpec DesigModel DesigSpec MpcfSpec MpcdSpec TstrModel CtimeModel AdesModel AdesSpec ObsModel ObsSpec ObsProofs ObsMore ObsLines ObsPsv ObsLong ObsSatSpec ObsSat ObsSat2.
From Verif Require Import ObsModel.
From Verif Require MpcfModel.
Import ListNotations.
Local Open Scope string_scope.
Local Open Scope list_scope.
Local Open Scope Z_scope.

Definition sample_env : env := {| e_long := 9223372036854775807; e_now := 0; e_fuel := 100; e_phase := fun _ _ => 0%Q |}.
(** An observation, for the examples. *)
Definition an_observation : list fact :=
  [Number 433; Mode (zs "CCD"); Station (zs "568"); When 2020 1 5 12 34 56 2 78; RightAscension 2 6 12345678; Declination (Some true) 2 5 1234567;
   Magnitude (zs "15.1"); Band (zs "Gb"); Reference (Mps 1234); Aside "rmsRA" (zs "0.3"); Aside "rmsDec" (zs "0.3"); Tracklet (zs "abc")].
Definition its_columns (z : zone) : list Z :=
  match z with
  | Object => zs "00433       " | Note2 => zs "C" | Date => zs "K200105:12345678 " | Ra => zs "012.345678  " | Dec => zs "-12.34567   "
  | Mag => zs "15.1 " | Filter => zs "b" | Ref => zs "a1234" | Site => zs "568" | z => blanks (width z)
  end.
Lemma observation_ok : Forall fact_ok an_observation.
Proof.
  assert (NN : forall s, forallb (fun c => negb (c =? 0)) s = true -> no_nul s).
  { intros s H c Hc ->. rewrite forallb_forall in H. now specialize (H 0 Hc). }
  unfold an_observation. repeat (apply Forall_cons; [split; [apply NN; vm_compute; reflexivity|]|]); [..|apply Forall_nil]; cbv beta iota.
  - lia.
  - cbn. auto.
  - reflexivity.
  - repeat split; try lia; cbn; lia.
  - repeat split; try lia; cbn; lia.
  - repeat split; try lia; cbn; lia.
  - cbn. lia.
  - split; [cbn; lia|vm_compute; discriminate].
  - lia.
  - split; [exists RmsRA; split; [reflexivity|cbn; lia]|vm_compute; discriminate].
  - split; [exists RmsDec; split; [reflexivity|cbn; lia]|vm_compute; discriminate].
  - split; [cbn; lia|vm_compute; discriminate].
Qed.
Lemma observation_consistent : consistent an_observation.
Proof.
  split.
  - cbn. repeat (constructor; [cbn; intros H; repeat (destruct H as [H|H]; [discriminate H|]); exact H|]). constructor.
  - intros e e' z He He' Hz Hz' NO. cbn in He, He'.
    repeat (destruct He as [<-|He]; [cbn in Hz; try discriminate Hz; injection Hz as <-; try congruence;
      repeat (destruct He' as [<-|He']; [cbn in Hz'; try discriminate Hz'; try reflexivity|]); destruct He'|]). destruct He.
Qed.
Lemma start_settled : settled init_obs /\ sized init_obs.
Proof.
  split; [|split; reflexivity]. split; [reflexivity|]. split; [cbn; lia|]. split; [|reflexivity]. intros p. cbn [init_obs text]. split; [destruct p; cbn; lia|]. split; [intros c []|now left].
Qed.
Lemma observation_position : with_position an_observation.
Proof. intros t [H|H]; cbn in H; repeat (destruct H as [H|H]; [discriminate H|]); destruct H. Qed.

Lemma C59_columns_proof :
forall E fuel w es, sized w -> Forall (fun x => fact_ok (fst x) /\ ends (snd x)) es -> consistent (map fst es) ->
  exists f w', hand_over (whole E fuel) es (h_setup (whole E fuel) w) = Ret w' /\
    shows_facts (map fst es) f /\ firstn 82 (line w') = card f ++ [10; 0] /\
    aside_kept (map fst es) (text w) (text w') /\ t2k w' = None /\ hd 0 (line2 w') = 0 /\ vel w' = vel w.
Proof.
intros E fuel w es SZ OK CO. destruct (elements E fuel w es SZ OK CO) as (f & w' & x & P & P1 & P2 & P3 & P4 & P5 & P6 & P7 & P8 & P9).
  exists f, w'. split; [exact P|]. split; [exact P1|]. split; [|auto]. rewrite P2. change [10; 0; x] with ([10; 0] ++ [x]). rewrite app_assoc.
  apply firstn_text_n. rewrite app_length, card_length; [reflexivity|]. intros z. apply P1.
Qed.

Lemma C59_lines_proof :
forall E fuel w es, sized w -> settled w -> Forall (fun x => fact_ok (fst x) /\ ends (snd x)) es -> consistent (map fst es) ->
  with_position (map fst es) ->
  exists f w', hand_over (whole E fuel) es (h_setup (whole E fuel) w) = Ret w' /\ shows_facts (map fst es) f /\
    aside_kept (map fst es) (text w) (text w') /\
    forall c, MpcfModel.atof (text w' Corr) = Ret c ->
    exists w'', puts_out (whole E fuel) w' (comments c (text w') ++ [card f ++ [10]]) w'' /\ settled w'' /\ sized w'' /\
      text w'' RmsDec = text w' RmsDec /\ text w'' Corr = text w' Corr.
Proof.
intros E fuel w es SZ ST OK CO WP. destruct (all_lines E fuel w es SZ ST OK CO WP) as (f & w' & x & P & P1 & P2 & P3 & P4).
  exists f, w'. auto.
Qed.

Lemma C59_spacecraft_proof :
forall E fuel w es1 p es2 u centre c1 c2 c3, sized w -> settled w -> Forall (fun x => fact_ok (fst x) /\ ends (snd x)) (es1 ++ es2) ->
  consistent (map fst (es1 ++ es2)) -> with_position (map fst (es1 ++ es2)) -> (forall e, In e (map fst es2) -> zone_of e <> Some Note2) ->
  coordinate_ok u c1 -> coordinate_ok u c2 -> coordinate_ok u c3 -> centre_ok centre -> map fst p = place u centre c1 c2 c3 ->
  exists f w',
    (do w1 <- hand_over (whole E fuel) es1 (h_setup (whole E fuel) w); do w2 <- hand_raw (whole E fuel) p w1; hand_over (whole E fuel) es2 w2) = Ret w' /\
    shows_facts (map fst (es1 ++ es2)) f /\ aside_kept (map fst (es1 ++ es2)) (text w) (text w') /\
    forall c, MpcfModel.atof (text w' Corr) = Ret c ->
    exists w'', puts_out (whole E fuel) w' (comments c (text w') ++ [card (with_S f) ++ [10]; second_line u centre c1 c2 c3 f ++ [10]]) w'' /\
      settled w'' /\ sized w'' /\ text w'' RmsDec = text w' RmsDec /\ text w'' Corr = text w' Corr.
Proof.
exact spacecraft.
Qed.

Lemma C59_psv_proof :
forall E fuel fuel' temp c fs ns es, in_psv c ns -> ns <> [] -> row ns fs es -> Forall field_ok fs -> ~ psv_header (join fs) ->
  Forall fact_ok es -> consistent es -> with_position es -> settled (rest c) -> sized (rest c) ->
  exists f t, shows_facts es f /\ aside_kept es (text (rest c)) t /\
  forall corr, MpcfModel.atof (t Corr) = Ret corr ->
  exists l ls c' w', xlate_ades2mpc (whole E fuel) fuel' true temp c (join fs) (join fs) = Ret (1, l, c') /\ getting_lines c' = true /\
    puts_out (whole E fuel) (rest c') ls w' /\ l :: ls = comments corr t ++ [card f ++ [10]] /\ settled w' /\ sized w' /\
    text w' RmsDec = t RmsDec /\ text w' Corr = t Corr.
Proof.
exact psv_line.
Qed.

Lemma C59_date_proof :
forall L es f y m day hh mm ss n d jd code, shows_facts es f -> Forall fact_ok es ->
  In (When y m day hh mm ss n d) es -> In (Station code) es -> (forall c, In c code -> 33 <= c <= 122) -> long_ok L -> day_number L day m y jd ->
  date_reads L (card f ++ [10]) (inject_Z jd - (1 # 2) + (inject_Z (hh * 3600 + mm * 60 + ss) + MpcdSpec.part n d) / 86400) (20 + Z.of_nat n).
Proof.
exact read_date.
Qed.

Lemma C59_place_proof :
forall es f j n k sign j' n' k', shows_facts es f -> Forall fact_ok es ->
  In (RightAscension j n k) es -> In (Declination sign j' n' k') es -> (1 <= n)%nat -> (1 <= n')%nat ->
  exists ra dec p p', MpcfModel.get_ra_dec_from_mpc_report (card f ++ [10]) = Ret (0, (200 + Z.of_nat n, ra, p), (100 + Z.of_nat n', dec, p')) /\
    (ra == inject_Z k / inject_Z (15 * 10 ^ Z.of_nat n))%Q /\
    (dec == (match sign with Some true => -1 | _ => 1 end) * inject_Z k' / inject_Z (10 ^ Z.of_nat n'))%Q.
Proof.
exact read_place.
Qed.

Lemma C59_long_ra_proof :
forall E fuel f w tail j n k after, (forall z, List.length (f z) = width z) -> line w = card f ++ tail ->
  (1 <= j <= 3)%nat -> (8 <= n)%nat -> (j + n <= 24)%nat -> 0 <= k < 10 ^ Z.of_nat (j + n) -> k <= 360 * 10 ^ Z.of_nat n -> ends after ->
  let t := text_of (RightAscension j n k) in
  exists v w' f', h_tag (whole E fuel) w (num "ra") (t ++ after) (List.length t) = Ret (false, [], w') /\
    (Qabs (inject_Z v - inject_Z k / inject_Z (10 ^ Z.of_nat (n - 8))) <= 1 # 2)%Q /\
    line w' = card f' ++ tail /\ f' Ra = on_right 12 (fixed_text 8 v) /\ (forall z, z <> Ra -> f' z = f z) /\
    text w' FullRA = t /\ (forall p, p <> FullRA -> text w' p = text w p) /\ t2k w' = t2k w /\ id_set w' = id_set w /\ line2 w' = line2 w.
Proof.
intros E fuel f w tail j n k after HW HL Hj Hn Hl Hk Ht En t. destruct (long_ra E fuel f w tail j n k after HW HL Hj Hn Hl Hk Ht En) as (v & w' & P & P1 & P2 & P3 & P4 & P5 & P6 & P7 & P8 & P9 & P10).
  exists v, w'. eexists. split; [exact P|]. split; [exact P1|]. split; [exact P2|]. split; [apply upd_same|]. split; [intros z Hz; apply upd_other; auto|auto 8].
Qed.

Lemma C59_long_dec_proof :
forall E fuel f w tail sign j n k after, (forall z, List.length (f z) = width z) -> line w = card f ++ tail ->
  (1 <= j <= 2)%nat -> (8 <= n)%nat -> (j + n <= 23)%nat -> 0 <= k < 10 ^ Z.of_nat (j + n) -> k <= 90 * 10 ^ Z.of_nat n -> ends after ->
  let t := text_of (Declination sign j n k) in
  let sg := match sign with Some true => 45 | _ => 43 end in
  exists v w' f', h_tag (whole E fuel) w (num "dec") (t ++ after) (List.length t) = Ret (false, [], w') /\
    (Qabs (inject_Z v - inject_Z k / inject_Z (10 ^ Z.of_nat (n - 8))) <= 1 # 2)%Q /\
    line w' = card f' ++ tail /\ f' Dec = sg :: on_right 11 (fixed_text 8 v) /\ f' Unused = 32 :: tl (f Unused) /\ (forall z, z <> Dec -> z <> Unused -> f' z = f z) /\
    text w' FullDec = sg :: text_of (Declination None j n k) /\ (forall p, p <> FullDec -> text w' p = text w p) /\ t2k w' = t2k w /\ id_set w' = id_set w /\ line2 w' = line2 w.
Proof.
intros E fuel f w tail sign j n k after HW HL Hj Hn Hl Hk Ht En t sg. destruct (long_dec E fuel f w tail sign j n k after HW HL Hj Hn Hl Hk Ht En) as (v & w' & P & P1 & P2 & P3 & P4 & P5 & P6 & P7 & P8 & P9 & P10).
  exists v, w'. eexists. split; [exact P|]. split; [exact P1|]. split; [exact P2|].
  split; [rewrite upd_other by discriminate; apply upd_same|]. split; [apply upd_same|]. split; [intros z H1 H2; rewrite !upd_other; auto|auto 8].
Qed.

Lemma C59_stale_sigma_refuted_proof :
forall E fuel, exists la lb, two_lines (whole E fuel) [("rmsRA", "0.3"); ("rmsDec", "0.5")] [("rmsRA", "0.4")] = Ret (la, lb) /\ hd [] lb = zs "COM Sigmas 0.4x0.5" ++ [10].
Proof.
intros E fuel. do 2 eexists. vm_compute. repeat split; reflexivity.
Qed.

Lemma C59_carried_over_refuted_proof :
forall E fuel, exists la lb, two_lines (whole E fuel) [("rmsMag", "0.7")] [("rmsRA", "0.4"); ("rmsDec", "0.4")] = Ret (la, lb) /\
    la = [repeat 32 80 ++ [10]] /\ hd [] lb = zs "COM Sigmas 0.4 m:0.7" ++ [10].
Proof.
intros E fuel. do 2 eexists. vm_compute. repeat split; reflexivity.
Qed.

Lemma C59_overflow_refuted_proof :
forall E fuel, columns_of (whole E fuel) [("ra", "123.4567890123456789012345")] = UB /\
  columns_of (whole E fuel) [("dec", "-12.4567890123456789012345")] = UB /\
  columns_of (whole E fuel) [("permID", "12345678901234567890123456789012345678")] = UB.
Proof.
intros E fuel. vm_compute. repeat split; reflexivity.
Qed.

Lemma C59_no_name_refuted_proof :
forall E fuel, columns_of (whole E fuel) [("sys", "1234567890123456789012345678901234567890")] = UB.
Proof.
intros E fuel. vm_compute. repeat split; reflexivity.
Qed.

Lemma C59_station_refuted_proof :
forall E fuel, columns_of (whole E fuel) [("stn", "58")] = Ret (repeat 32 77 ++ zs "58|") /\ columns_of (whole E fuel) [("stn", "W068")] = Ret (repeat 32 77 ++ zs "W06").
Proof.
intros E fuel. vm_compute. repeat split; reflexivity.
Qed.

Lemma C59_mode_after_system_refuted_proof :
forall E fuel, columns_of (whole E fuel) [("sys", "ICRF_KM"); ("mode", "CCD"); ("pos1", "+1.5")] = Abort /\
  columns_of (whole E fuel) [("mode", "CCD"); ("sys", "ICRF_KM"); ("pos1", "+1.5")] = Ret (repeat 32 14 ++ zs "S" ++ repeat 32 65).
Proof.
intros E fuel. vm_compute. repeat split; reflexivity.
Qed.

Lemma C59_coordinates_refuted_proof :
forall E fuel, exists la lb, two_lines (whole E fuel) [("sys", "ICRF_KM"); ("pos1", "1.23456789"); ("pos2", "2.5"); ("pos3", "3.5")] [] = Ret (la, lb) /\
    la = [repeat 32 14 ++ zs "S" ++ repeat 32 65 ++ [10]; zs "              s                 1 +    1.23456+89  2.5    +    3.5" ++ repeat 32 14 ++ [10]].
Proof.
intros E fuel. do 2 eexists. vm_compute. repeat split; reflexivity.
Qed.

Lemma C59_order_refuted_proof :
forall E fuel, columns_of (whole E fuel) [("artSat", "2020-001A"); ("trkSub", "abc")] = Ret (zs "2020-001A" ++ repeat 32 71) /\
  columns_of (whole E fuel) [("trkSub", "abc"); ("artSat", "2020-001A")] = Ret (zs "     abc" ++ repeat 32 72) /\
  columns_of (whole E fuel) [("notes", "K"); ("prog", "5")] = Ret (repeat 32 13 ++ zs "5" ++ repeat 32 66) /\
  columns_of (whole E fuel) [("prog", "5"); ("notes", "K")] = Ret (repeat 32 13 ++ zs "K" ++ repeat 32 66).
Proof.
intros E fuel. vm_compute. repeat split; reflexivity.
Qed.

Lemma C59_no_newline_refuted_proof :
forall E fuel, exists la lb, two_lines (whole E fuel) [("band", "Gb")] [] = Ret (la, lb) /\ hd [] la = zs "COM ADES tags band:Gb".
Proof.
intros E fuel. do 2 eexists. vm_compute. repeat split; reflexivity.
Qed.

Lemma C59_time_without_z_refuted_proof :
forall E fuel, (do '(_, _, w) <- process_tag E fuel (setup init_obs) (num "obsTime") (zs "2020-01-05T12:34:56|56|7Z") 19; Ret (firstn 17 (skipn 15 (line w))))
  = Ret (zs "K200105:123456567").
Proof.
intros E fuel. vm_compute. repeat split; reflexivity.
Qed.

Lemma C59_long_time_refuted_proof :
columns_of (whole sample_env 100) [("ra", "123.45"); ("obsTime", "2020-01-05T12:34:56.98765Z")] = Ret (repeat 32 15 ++ zs "K200105:123456987653.45" ++ repeat 32 42) /\
  columns_of (whole sample_env 100) [("obsTime", "2020-01-05T12:34:56.98765Z"); ("ra", "123.45")] = Ret (repeat 32 15 ++ zs "K200105:123456987123.45" ++ repeat 32 42).
Proof.
vm_compute. repeat split; reflexivity.
Qed.
