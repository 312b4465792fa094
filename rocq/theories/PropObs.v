(** Property C59 (an ADES observation becomes an 80-column line and comment lines; ades2mpc.cpp).

    [whole E fuel] are the functions of ades2mpc.cpp that work on one observation, as [hooks] for the driver of
    property C40; E is the environment for the parser of times.  Elements are [fact]s; what their texts are, which
    columns they go to and how they are shown there is in [ObsSpec]. *)
From Coq Require Import QArith Qabs String Lia.
From Verif Require Import CBase CStr DateVocab CtimeSpec DesigModel DesigSpec MpcfSpec MpcdSpec TstrModel CtimeModel AdesModel AdesSpec ObsSpec ObsSatSpec ObsModel ObsThms.
From Verif Require MpcfModel.
Import ListNotations.
Local Open Scope string_scope.
Local Open Scope list_scope.
Local Open Scope Z_scope.

(** C59: whatever elements an observation has and in whatever order they come, each is shown in its columns, and all other
    columns are blank.  Of the names of the object, the number is shown if there is one, then the designation, then the
    observer's name.  What has no columns is kept for the comment lines. *)
Theorem C59_columns :
forall E fuel w es, sized w -> Forall (fun x => fact_ok (fst x) /\ ends (snd x)) es -> consistent (map fst es) ->
  exists f w', hand_over (whole E fuel) es (h_setup (whole E fuel) w) = Ret w' /\
    shows_facts (map fst es) f /\ firstn 82 (line w') = card f ++ [10; 0] /\
    aside_kept (map fst es) (text w) (text w') /\ t2k w' = None /\ hd 0 (line2 w') = 0 /\ vel w' = vel w.
Proof. exact C59_columns_proof. Qed.
Print Assumptions C59_columns.

Example C59_columns_case : Forall (fun x => fact_ok (fst x) /\ ends (snd x)) (map (fun e => (e, zs "|")) an_observation) /\
  consistent (map fst (map (fun e => (e, zs "|")) an_observation)) /\ with_position (map fst (map (fun e => (e, zs "|")) an_observation)) /\
  settled init_obs /\ sized init_obs /\
  card its_columns = zs "00433         CK200105:12345678 012.345678  -12.34567            15.1 b a1234568".
Proof.
  split; [|split; [exact observation_consistent|split; [exact observation_position|split; [apply start_settled|split; [apply start_settled|reflexivity]]]]].
  apply Forall_forall. intros x Hx. apply in_map_iff in Hx as (e & <- & He). split; [exact (proj1 (Forall_forall _ _) observation_ok e He)|]. cbn. auto.
Qed.

(** C59: the lines put out for an observation are the comment lines for what has no columns, followed by the 80 columns;
    after them nothing is left of the observation but the uncertainty in declination, the correlation and the first
    letter of the passband. *)
Theorem C59_lines :
forall E fuel w es, sized w -> settled w -> Forall (fun x => fact_ok (fst x) /\ ends (snd x)) es -> consistent (map fst es) ->
  with_position (map fst es) ->
  exists f w', hand_over (whole E fuel) es (h_setup (whole E fuel) w) = Ret w' /\ shows_facts (map fst es) f /\
    aside_kept (map fst es) (text w) (text w') /\
    forall c, MpcfModel.atof (text w' Corr) = Ret c ->
    exists w'', puts_out (whole E fuel) w' (comments c (text w') ++ [card f ++ [10]]) w'' /\ settled w'' /\ sized w'' /\
      text w'' RmsDec = text w' RmsDec /\ text w'' Corr = text w' Corr.
Proof. exact C59_lines_proof. Qed.
Print Assumptions C59_lines.

Example C59_lines_case : Forall (fun x => fact_ok (fst x) /\ ends (snd x)) (map (fun e => (e, zs "|")) an_observation) /\
  consistent (map fst (map (fun e => (e, zs "|")) an_observation)) /\ with_position (map fst (map (fun e => (e, zs "|")) an_observation)) /\
  settled init_obs /\ sized init_obs /\
  card its_columns = zs "00433         CK200105:12345678 012.345678  -12.34567            15.1 b a1234568".
Proof.
  split; [|split; [exact observation_consistent|split; [exact observation_position|split; [apply start_settled|split; [apply start_settled|reflexivity]]]]].
  apply Forall_forall. intros x Hx. apply in_map_iff in Hx as (e & <- & He). split; [exact (proj1 (Forall_forall _ _) observation_ok e He)|]. cbn. auto.
Qed.

(** C59: the position of a spacecraft, given by its elements in their order and after the mode if there is one, puts an S
    into the columns of the observation and goes to a second line with the same object, date and observatory: an s, the
    unit, three coordinates of twelve columns each, and the centre if it is not the Earth's. *)
Theorem C59_spacecraft :
forall E fuel w es1 p es2 u centre c1 c2 c3, sized w -> settled w -> Forall (fun x => fact_ok (fst x) /\ ends (snd x)) (es1 ++ es2) ->
  consistent (map fst (es1 ++ es2)) -> with_position (map fst (es1 ++ es2)) -> (forall e, In e (map fst es2) -> zone_of e <> Some Note2) ->
  coordinate_ok u c1 -> coordinate_ok u c2 -> coordinate_ok u c3 -> centre_ok centre -> map fst p = place u centre c1 c2 c3 ->
  exists f w',
    (do w1 <- hand_over (whole E fuel) es1 (h_setup (whole E fuel) w); do w2 <- hand_raw (whole E fuel) p w1; hand_over (whole E fuel) es2 w2) = Ret w' /\
    shows_facts (map fst (es1 ++ es2)) f /\ aside_kept (map fst (es1 ++ es2)) (text w) (text w') /\
    forall c, MpcfModel.atof (text w' Corr) = Ret c ->
    exists w'', puts_out (whole E fuel) w' (comments c (text w') ++ [card (with_S f) ++ [10]; second_line u centre c1 c2 c3 f ++ [10]]) w'' /\
      settled w'' /\ sized w'' /\ text w'' RmsDec = text w' RmsDec /\ text w'' Corr = text w' Corr.
Proof. exact C59_spacecraft_proof. Qed.
Print Assumptions C59_spacecraft.

Example C59_spacecraft_case :
  let c1 := {| sign := Some true; ObsSatSpec.whole := 5; decs := 6; units := 12345678901 |} in
  let c2 := {| sign := None; ObsSatSpec.whole := 2; decs := 3; units := 45678 |} in
  coordinate_ok Km c1 /\ coordinate_text c1 = zs "-12345.678901" /\ coordinate_columns Km c1 = zs "-12345.6789 " /\
  coordinate_ok Km c2 /\ coordinate_text c2 = zs "45.678" /\ coordinate_columns Km c2 = zs "+   45.678  " /\
  place Km (Some 10) c1 c2 c1 = [("sys", zs "ICRF_KM"); ("ctr", zs "10"); ("pos1", zs "-12345.678901"); ("pos2", zs "45.678"); ("pos3", zs "-12345.678901")] /\
  second_line Km (Some 10) c1 c2 c1 (fun z => match z with Object => zs "00433       " | Date => zs "K200105:123456   " | Site => zs "C57" | _ => [] end)
  = zs "00433         sK200105:123456   1 -12345.6789 +   45.678  -12345.6789      10C57".
Proof. repeat split; try reflexivity; cbn; lia. Qed.

(** C59: a line of a table with '|' between its columns, every field of which is empty or the text of the element that
    heads its column, is turned into these lines: the first at once, the others with the calls that follow. *)
Theorem C59_psv :
forall E fuel fuel' temp c fs ns es, in_psv c ns -> ns <> [] -> row ns fs es -> Forall field_ok fs -> ~ psv_header (join fs) ->
  Forall fact_ok es -> consistent es -> with_position es -> settled (rest c) -> sized (rest c) ->
  exists f t, shows_facts es f /\ aside_kept es (text (rest c)) t /\
  forall corr, MpcfModel.atof (t Corr) = Ret corr ->
  exists l ls c' w', xlate_ades2mpc (whole E fuel) fuel' true temp c (join fs) (join fs) = Ret (1, l, c') /\ getting_lines c' = true /\
    puts_out (whole E fuel) (rest c') ls w' /\ l :: ls = comments corr t ++ [card f ++ [10]] /\ settled w' /\ sized w' /\
    text w' RmsDec = t RmsDec /\ text w' Corr = t Corr.
Proof. exact C59_psv_proof. Qed.
Print Assumptions C59_psv.

Example C59_psv_case : exists c : ctx obs, in_psv c ["permID"; "obsTime"; "mag"; "band"] /\ settled (rest c) /\ sized (rest c) /\
  row ["permID"; "obsTime"; "mag"; "band"] [zs "433 "; zs "2020-01-05T12:34:56.78Z"; []; zs " Gb"]
    [Number 433; When 2020 1 5 12 34 56 2 78; Band (zs "Gb")] /\ join [zs "433 "; zs "2020-01-05T12:34:56.78Z"; []; zs " Gb"] = zs "433 |2020-01-05T12:34:56.78Z|| Gb".
Proof.
  exists (mk 1 (repeat 0 20) false false 0 4 (Some (map num ["permID"; "obsTime"; "mag"; "band"])) init_obs).
  split; [|split; [apply start_settled|split; [apply start_settled|split; [|reflexivity]]]].
  - do 5 (split; [reflexivity|]). repeat (apply Forall_cons; [split; [cbn; tauto|discriminate]|]). apply Forall_nil.
  - apply (row_fact (Number 433)); [reflexivity|]. apply (row_fact (When 2020 1 5 12 34 56 2 78)); [reflexivity|]. apply row_empty; [reflexivity|].
    apply (row_fact (Band (zs "Gb"))); [reflexivity|]. apply row_end.
Qed.

(** C59: the time of the columns, read again by extract_date_from_mpc_report( ), is that of the observation. *)
Theorem C59_date :
forall L es f y m day hh mm ss n d jd code, shows_facts es f -> Forall fact_ok es ->
  In (When y m day hh mm ss n d) es -> In (Station code) es -> (forall c, In c code -> 33 <= c <= 122) -> long_ok L -> day_number L day m y jd ->
  date_reads L (card f ++ [10]) (inject_Z jd - (1 # 2) + (inject_Z (hh * 3600 + mm * 60 + ss) + MpcdSpec.part n d) / 86400) (20 + Z.of_nat n).
Proof. exact C59_date_proof. Qed.
Print Assumptions C59_date.

Example C59_date_case : day_number L64 5 1 2020 2458854 /\ Forall fact_ok an_observation /\ In (When 2020 1 5 12 34 56 2 78) an_observation /\
  date_reads L64 (card its_columns ++ [10]) (inject_Z 2458854 - (1 # 2) + (inject_Z 45296 + MpcdSpec.part 2 78) / 86400) 22.
Proof.
  split; [split; [lia|split; [lia|vm_compute; reflexivity]]|]. split; [exact observation_ok|]. split; [cbn; tauto|].
  eexists. split; [vm_compute; reflexivity|]. vm_compute. reflexivity.
Qed.

(** C59: the position of the columns, read again by get_ra_dec_from_mpc_report( ), is that of the observation to the last
    digit (the right ascension in hours). *)
Theorem C59_place :
forall es f j n k sign j' n' k', shows_facts es f -> Forall fact_ok es ->
  In (RightAscension j n k) es -> In (Declination sign j' n' k') es -> (1 <= n)%nat -> (1 <= n')%nat ->
  exists ra dec p p', MpcfModel.get_ra_dec_from_mpc_report (card f ++ [10]) = Ret (0, (200 + Z.of_nat n, ra, p), (100 + Z.of_nat n', dec, p')) /\
    (ra == inject_Z k / inject_Z (15 * 10 ^ Z.of_nat n))%Q /\
    (dec == (match sign with Some true => -1 | _ => 1 end) * inject_Z k' / inject_Z (10 ^ Z.of_nat n'))%Q.
Proof. exact C59_place_proof. Qed.
Print Assumptions C59_place.

Example C59_place_case : In (RightAscension 2 6 12345678) an_observation /\ In (Declination (Some true) 2 5 1234567) an_observation /\
  exists ra dec p p', MpcfModel.get_ra_dec_from_mpc_report (card its_columns ++ [10]) = Ret (0, (206, ra, p), (105, dec, p')) /\
    (ra == 12345678 # 15000000)%Q /\ (dec == -1234567 # 100000)%Q.
Proof. split; [cbn; tauto|]. split; [cbn; tauto|]. do 4 eexists. split; [vm_compute; reflexivity|]. split; reflexivity. Qed.

(** C59: a right ascension with eight decimals or more, in at most 25 characters, is shown rounded to eight decimals, and
    all its digits are kept for a comment line. *)
Theorem C59_long_ra :
forall E fuel f w tail j n k after, (forall z, List.length (f z) = width z) -> line w = card f ++ tail ->
  (1 <= j <= 3)%nat -> (8 <= n)%nat -> (j + n <= 24)%nat -> 0 <= k < 10 ^ Z.of_nat (j + n) -> k <= 360 * 10 ^ Z.of_nat n -> ends after ->
  let t := text_of (RightAscension j n k) in
  exists v w' f', h_tag (whole E fuel) w (num "ra") (t ++ after) (List.length t) = Ret (false, [], w') /\
    (Qabs (inject_Z v - inject_Z k / inject_Z (10 ^ Z.of_nat (n - 8))) <= 1 # 2)%Q /\
    line w' = card f' ++ tail /\ f' Ra = on_right 12 (fixed_text 8 v) /\ (forall z, z <> Ra -> f' z = f z) /\
    text w' FullRA = t /\ (forall p, p <> FullRA -> text w' p = text w p) /\ t2k w' = t2k w /\ id_set w' = id_set w /\ line2 w' = line2 w.
Proof. exact C59_long_ra_proof. Qed.
Print Assumptions C59_long_ra.

Example C59_long_ra_case : text_of (RightAscension 3 12 123456789012345) = zs "123.456789012345" /\
  columns_of (whole sample_env 0) [("ra", "123.456789012345")] = Ret (zs "                                123.45678901                                    ").
Proof. split; vm_compute; reflexivity. Qed.

(** C59: likewise for a declination. *)
Theorem C59_long_dec :
forall E fuel f w tail sign j n k after, (forall z, List.length (f z) = width z) -> line w = card f ++ tail ->
  (1 <= j <= 2)%nat -> (8 <= n)%nat -> (j + n <= 23)%nat -> 0 <= k < 10 ^ Z.of_nat (j + n) -> k <= 90 * 10 ^ Z.of_nat n -> ends after ->
  let t := text_of (Declination sign j n k) in
  let sg := match sign with Some true => 45 | _ => 43 end in
  exists v w' f', h_tag (whole E fuel) w (num "dec") (t ++ after) (List.length t) = Ret (false, [], w') /\
    (Qabs (inject_Z v - inject_Z k / inject_Z (10 ^ Z.of_nat (n - 8))) <= 1 # 2)%Q /\
    line w' = card f' ++ tail /\ f' Dec = sg :: on_right 11 (fixed_text 8 v) /\ f' Unused = 32 :: tl (f Unused) /\ (forall z, z <> Dec -> z <> Unused -> f' z = f z) /\
    text w' FullDec = sg :: text_of (Declination None j n k) /\ (forall p, p <> FullDec -> text w' p = text w p) /\ t2k w' = t2k w /\ id_set w' = id_set w /\ line2 w' = line2 w.
Proof. exact C59_long_dec_proof. Qed.
Print Assumptions C59_long_dec.

Example C59_long_dec_case : text_of (Declination (Some true) 2 10 123456789012) = zs "-12.3456789012" /\
  columns_of (whole sample_env 0) [("dec", "-12.3456789012")] = Ret (zs "                                            -12.34567890                        ").
Proof. split; vm_compute; reflexivity. Qed.

(** FINDING: the uncertainty in declination is never cleared: an observation that gives only one in right ascension is put out with
    the uncertainty in declination of an observation before. *)
Theorem C59_stale_sigma_refuted :
forall E fuel, exists la lb, two_lines (whole E fuel) [("rmsRA", "0.3"); ("rmsDec", "0.5")] [("rmsRA", "0.4")] = Ret (la, lb) /\ hd [] lb = zs "COM Sigmas 0.4x0.5" ++ [10].
Proof. exact C59_stale_sigma_refuted_proof. Qed.
Print Assumptions C59_stale_sigma_refuted.

(** FINDING: an uncertainty in magnitude without one in position is not put out with its observation, but with the next one that
    has an uncertainty in position. *)
Theorem C59_carried_over_refuted :
forall E fuel, exists la lb, two_lines (whole E fuel) [("rmsMag", "0.7")] [("rmsRA", "0.4"); ("rmsDec", "0.4")] = Ret (la, lb) /\
    la = [repeat 32 80 ++ [10]] /\ hd [] lb = zs "COM Sigmas 0.4 m:0.7" ++ [10].
Proof. exact C59_carried_over_refuted_proof. Qed.
Print Assumptions C59_carried_over_refuted.

(** FINDING: a right ascension of 26 characters or more with more than seven decimals, and a declination of 25 or more, overflow
    the arrays for them; a number of 38 digits for an object overflows another: undefined behaviour. *)
Theorem C59_overflow_refuted :
forall E fuel, columns_of (whole E fuel) [("ra", "123.4567890123456789012345")] = UB /\
  columns_of (whole E fuel) [("dec", "-12.4567890123456789012345")] = UB /\
  columns_of (whole E fuel) [("permID", "12345678901234567890123456789012345678")] = UB.
Proof. exact C59_overflow_refuted_proof. Qed.
Print Assumptions C59_overflow_refuted.

(** FINDING: the text of an element with 40 characters or more is not copied, and then read all the same: the reference system of
    a position gives undefined behaviour. *)
Theorem C59_no_name_refuted :
forall E fuel, columns_of (whole E fuel) [("sys", "1234567890123456789012345678901234567890")] = UB.
Proof. exact C59_no_name_refuted_proof. Qed.
Print Assumptions C59_no_name_refuted.

(** FINDING: a station code of fewer than three characters takes the separator along, and one of four is cut. *)
Theorem C59_station_refuted :
forall E fuel, columns_of (whole E fuel) [("stn", "58")] = Ret (repeat 32 77 ++ zs "58|") /\ columns_of (whole E fuel) [("stn", "W068")] = Ret (repeat 32 77 ++ zs "W06").
Proof. exact C59_station_refuted_proof. Qed.
Print Assumptions C59_station_refuted.

(** FINDING: the program gives up at the position of a spacecraft if the mode of the observation comes after the reference system,
    and not if it comes before. *)
Theorem C59_mode_after_system_refuted :
forall E fuel, columns_of (whole E fuel) [("sys", "ICRF_KM"); ("mode", "CCD"); ("pos1", "+1.5")] = Abort /\
  columns_of (whole E fuel) [("mode", "CCD"); ("sys", "ICRF_KM"); ("pos1", "+1.5")] = Ret (repeat 32 14 ++ zs "S" ++ repeat 32 65).
Proof. exact C59_mode_after_system_refuted_proof. Qed.
Print Assumptions C59_mode_after_system_refuted.

(** FINDING: a coordinate in kilometres with fewer than five digits before the point and more than four after it leaves digits in the
    columns of the next coordinate: here 2.5 appears as "89  2.5". *)
Theorem C59_coordinates_refuted :
forall E fuel, exists la lb, two_lines (whole E fuel) [("sys", "ICRF_KM"); ("pos1", "1.23456789"); ("pos2", "2.5"); ("pos3", "3.5")] [] = Ret (la, lb) /\
    la = [repeat 32 14 ++ zs "S" ++ repeat 32 65 ++ [10]; zs "              s                 1 +    1.23456+89  2.5    +    3.5" ++ repeat 32 14 ++ [10]].
Proof. exact C59_coordinates_refuted_proof. Qed.
Print Assumptions C59_coordinates_refuted.

(** FINDING: which name of a satellite is shown, and whether the note or the code of the program, depends on the order of the
    elements. *)
Theorem C59_order_refuted :
forall E fuel, columns_of (whole E fuel) [("artSat", "2020-001A"); ("trkSub", "abc")] = Ret (zs "2020-001A" ++ repeat 32 71) /\
  columns_of (whole E fuel) [("trkSub", "abc"); ("artSat", "2020-001A")] = Ret (zs "     abc" ++ repeat 32 72) /\
  columns_of (whole E fuel) [("notes", "K"); ("prog", "5")] = Ret (repeat 32 13 ++ zs "5" ++ repeat 32 66) /\
  columns_of (whole E fuel) [("prog", "5"); ("notes", "K")] = Ret (repeat 32 13 ++ zs "K" ++ repeat 32 66).
Proof. exact C59_order_refuted_proof. Qed.
Print Assumptions C59_order_refuted.

(** FINDING: the comment line for passband, notes and program does not end with a newline, unlike the others. *)
Theorem C59_no_newline_refuted :
forall E fuel, exists la lb, two_lines (whole E fuel) [("band", "Gb")] [] = Ret (la, lb) /\ hd [] la = zs "COM ADES tags band:Gb".
Proof. exact C59_no_newline_refuted_proof. Qed.
Print Assumptions C59_no_newline_refuted.

(** FINDING: a time without a Z runs on into the digits of the fields that follow it. *)
Theorem C59_time_without_z_refuted :
forall E fuel, (do '(_, _, w) <- process_tag E fuel (setup init_obs) (num "obsTime") (zs "2020-01-05T12:34:56|56|7Z") 19; Ret (firstn 17 (skipn 15 (line w))))
  = Ret (zs "K200105:123456567").
Proof. exact C59_time_without_z_refuted_proof. Qed.
Print Assumptions C59_time_without_z_refuted.

(** FINDING: a time with more than three decimals of seconds overwrites the first columns of a right ascension that came
    before it. *)
Theorem C59_long_time_refuted :
columns_of (whole sample_env 100) [("ra", "123.45"); ("obsTime", "2020-01-05T12:34:56.98765Z")] = Ret (repeat 32 15 ++ zs "K200105:123456987653.45" ++ repeat 32 42) /\
  columns_of (whole sample_env 100) [("obsTime", "2020-01-05T12:34:56.98765Z"); ("ra", "123.45")] = Ret (repeat 32 15 ++ zs "K200105:123456987123.45" ++ repeat 32 42).
Proof. exact C59_long_time_refuted_proof. Qed.
Print Assumptions C59_long_time_refuted.
