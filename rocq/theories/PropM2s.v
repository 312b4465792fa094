(** Property C63 (from 'mpcorb.dat' and 'ELEMENTS.COMET' to the Standard Orbit Format; mpc2sof.cpp).

    [comet_line_says] says what a line of ELEMENTS.COMET says of a comet, [sof_line] is the line that comet is to have in
    SOF, [is_date] that a text is the date of a day.  See [M2sSpec].  [f], the numbering of days, is that of C05. *)
From Coq Require Import QArith String Lia.
From Verif Require Import CBase CStr DateModel DateVocab DateSpec TstrModel TstrNum TstrSpec EopSpec CtimeModel CtimeSpec M2sModel M2sSpec M2sThms.
Import ListNotations.
Local Open Scope string_scope.
Local Open Scope list_scope.
Local Open Scope Z_scope.
From Verif Require MpcoThms.

(** C63: a line of ELEMENTS.COMET gives the line of that comet in SOF, of 144 bytes. *)
Theorem C63_comet_record :
  forall L now ph f line c, long_ok L -> counts_days gregorian (1, 1, 2000) 2451545 f -> comet_line_says line c -> fits_sof c ->
  exists te, is_date f (mjd c + 2400001) te /\ List.length (sof_line c te) = 144%nat /\
    exists N, forall fuel dfuel, (N <= fuel)%nat -> (N <= dfuel)%nat -> exists M, forall fuel2 ic, (M <= fuel2)%nat ->
      comet_line L fuel {| e_long := L; e_now := now; e_fuel := dfuel; e_phase := ph |} fuel2 ic line = Ret (Some (sof_line c te)).
Proof. exact C63_comet_record_proof. Qed.
Print Assumptions C63_comet_record.

(** C63: a line too short for that, or without a point where the one of the perihelion is to be, gives nothing. *)
Theorem C63_other_lines :
  forall L fuel E fuel2 ic line, (List.length line <= 116)%nat \/ nth 113 line 0 <> 46 -> comet_line L fuel E fuel2 ic line = Ret None.
Proof. exact C63_other_lines_proof. Qed.
Print Assumptions C63_other_lines.

Example C63_other_lines_case : (List.length (zs "CJ95O010  1997 03 29.4800") <= 116)%nat. Proof. cbn. lia. Qed.

(** C63: the name of an asteroid in SOF: its number at the right of 12 columns; without a number its provisional designation, which stands in the columns after those of numbers, or what stands in the columns of the number if there is none. *)
Theorem C63_asteroid_name :
  forall line, List.length line = 203%nat ->
  (forall u i ds r, line = u ++ blanks i ++ [40] ++ ds ++ [41] ++ r -> (List.length u = 166)%nat -> (i + List.length ds = 6)%nat -> (1 <= List.length ds)%nat -> (forall c, In c ds -> 48 <= c <= 57) -> extract_name line = at_right 12 ds) /\
  (forall u nine s r, line = u ++ nine ++ s ++ r -> List.length u = 166%nat -> List.length nine = 9%nat -> nth 7 nine 0 <> 41 -> List.length s = 12%nat -> s <> blanks 12 -> extract_name line = s) /\
  (forall u s r, line = u ++ s ++ r -> List.length u = 166%nat -> List.length s = 12%nat -> nth 7 s 0 <> 41 -> firstn 12 (skipn 175 line) = blanks 12 -> extract_name line = s).
Proof. exact C63_asteroid_name_proof. Qed.
Print Assumptions C63_asteroid_name.

Example C63_asteroid_name_case : let line := repeat 120 166 ++ blanks 3 ++ [40] ++ zs "433" ++ [41] ++ zs " Eros               20240101" ++ [10] in List.length line = 203%nat /\ extract_name line = zs "         433".
Proof. split; reflexivity. Qed.

(** C63: mpcorb.sof has the header, the records of the asteroids and the records of the comets, in order, if there is room: if comets and asteroids are at most the least power of two above the number of asteroids. *)
Theorem C63_program :
  forall asteroid comet ra rc la h1 h2 lc j fuel, asteroid_lines asteroid ra la -> line398 h1 -> line398 h2 -> Forall (fun t => line398 t /\ comet t = Ret (rc t)) lc ->
  (List.length la <= fuel)%nat -> (List.length lc <= fuel)%nat -> 0 <= j -> 2 ^ j <= Z.of_nat (List.length (all_of ra la)) < 2 ^ (j + 1) ->
  Z.of_nat (List.length (all_of ra la)) + Z.of_nat (List.length (all_of rc lc)) <= 2 ^ (j + 1) ->
  mpc2sof fuel asteroid comet (concat la) (Some (h1 ++ h2 ++ concat lc)) = Ret (sof_header ++ concat (all_of ra la) ++ concat (all_of rc lc), 0).
Proof. exact C63_program_proof. Qed.
Print Assumptions C63_program.

Example C63_program_case : let asteroid := fun t : list Z => Ret (Some t) in let ra := fun t : list Z => if (List.length t =? 203)%nat then Some t else None in let la := [some_line 10; some_line 202; some_line 202; some_line 202] in
  asteroid_lines asteroid ra la /\ line398 (some_line 5) /\ Forall (fun t => line398 t /\ asteroid t = Ret (Some t)) [some_line 120] /\ 2 ^ 1 <= Z.of_nat (List.length (all_of ra la)) < 2 ^ (1 + 1).
Proof.
  cbv zeta. split; [repeat (constructor; [split; [apply some_line_ok; lia|reflexivity]|]); constructor|]. split; [apply some_line_ok; lia|]. split; [|vm_compute; split; [discriminate|reflexivity]]. constructor; [|constructor]. split; [apply some_line_ok; lia|reflexivity].
Qed.

(** C63: with a file of comets, mpcorb.sof has the header, the records of the asteroids and the line of each comet, in order. *)
Theorem C63_comet_file :
  forall L now ph f asteroid ra la h1 h2 lc cs j, long_ok L -> counts_days gregorian (1, 1, 2000) 2451545 f ->
  asteroid_lines asteroid ra la -> line398 h1 -> line398 h2 -> Forall line398 lc -> Forall2 comet_line_says lc cs -> Forall fits_sof cs ->
  0 <= j -> 2 ^ j <= Z.of_nat (List.length (all_of ra la)) < 2 ^ (j + 1) -> Z.of_nat (List.length (all_of ra la)) + Z.of_nat (List.length cs) <= 2 ^ (j + 1) ->
  exists tes, Forall2 (fun c te => is_date f (mjd c + 2400001) te) cs tes /\
    exists N, forall fuel pfuel dfuel, (N <= fuel)%nat -> (N <= pfuel)%nat -> (N <= dfuel)%nat -> exists M, forall fuel2 ic, (M <= fuel2)%nat ->
      mpc2sof fuel asteroid (comet_line L pfuel {| e_long := L; e_now := now; e_fuel := dfuel; e_phase := ph |} fuel2 ic) (concat la) (Some (h1 ++ h2 ++ concat lc)) =
        Ret (sof_header ++ concat (all_of ra la) ++ concat (map (fun x => sof_line (fst x) (snd x)) (combine cs tes)), 0).
Proof. exact C63_comet_file_proof. Qed.
Print Assumptions C63_comet_file.

Example C63_comet_case : exists line c, comet_line_says line c /\ fits_sof c /\ line398 line /\ cname c = zs "0002" /\ perihelion c = zs "20200625.84696".
Proof.
  exists (zs "0002P/Encke                                   58840  0.33597730 0.84833090  11.78149 186.56290 334.55880 20200625.84696 JPL" ++ [10]), (mk_comet (zs "0002") (zs "20200625.84696") 58840 (33597730 # 100000000) (1178149 # 100000) (33455880 # 100000) (18656290 # 100000) (84833090 # 100000000)).
  split; [|split; [|split; [|split; reflexivity]]].
  - exists (zs "0002P/Encke" ++ blanks 33), (zs "  58840"), (zs " 0.33597730"), (zs "0.84833090"), (zs " 11.78149"), (zs "186.56290"), (zs "334.55880"), (zs " JPL" ++ [10]), 2020, 6, 25, 84696.
    split; [reflexivity|]. split; [apply (numbered (zs "0002") (zs "P/Encke") 33); try reflexivity; try discriminate|].
    + intros u c H. change (zs "0002" ++ zs "P/Encke") with (zs "0002P/Enck" ++ [101]) in H. apply app_inj_tail in H. destruct H as (_ & <-). discriminate.
    + intros u a b H. change (zs "0002" ++ zs "P/Encke") with ((zs "0002P/Enc" ++ [107]) ++ [101]) in H. replace (u ++ [a; b]) with ((u ++ [a]) ++ [b]) in H by now rewrite <- app_assoc. apply app_inj_tail in H. destruct H as (H & _). apply app_inj_tail in H. destruct H as (_ & <-). discriminate.
    + intros u a b c H. change (zs "0002" ++ zs "P/Encke") with (((zs "0002P/En" ++ [99]) ++ [107]) ++ [101]) in H. replace (u ++ [a; b; c]) with (((u ++ [a]) ++ [b]) ++ [c]) in H by now rewrite <- !app_assoc. apply app_inj_tail in H. destruct H as (H & _). apply app_inj_tail in H. destruct H as (H & _). apply app_inj_tail in H. destruct H as (_ & <-). discriminate.
    + split; [|split; [|split; [|split; [|split; [|split]]]]].
      * exists 2%nat, (zs "58840"). split; [reflexivity|]. split; [|reflexivity]. left. left. exists 58840. split; [split; [discriminate|split; [now apply forallb_forall|reflexivity]]|reflexivity].
      * apply (MpcoThms.point_field 11 1 (zs "0") (zs "33597730")); reflexivity || discriminate.
      * apply (MpcoThms.point_field 10 0 (zs "0") (zs "84833090")); reflexivity || discriminate.
      * apply (MpcoThms.point_field 9 1 (zs "11") (zs "78149")); reflexivity || discriminate.
      * apply (MpcoThms.point_field 9 0 (zs "186") (zs "56290")); reflexivity || discriminate.
      * apply (MpcoThms.point_field 9 0 (zs "334") (zs "55880")); reflexivity || discriminate.
      * split; [reflexivity|]. split; [vm_compute; intuition discriminate|]. cbn [mjd]. lia.
  - unfold fits_sof. cbn [qdist inclination node peri eccentricity]. unfold Qle. cbn. lia.
  - eexists. split; [reflexivity|]. split; [intro I; vm_compute in I; intuition discriminate|vm_compute; lia].
Qed.

(** C63: without comets (the second argument i) mpcorb.sof has the header and the records of all the asteroids, however many. *)
Theorem C63_asteroids_only :
  forall asteroid comet ra la fuel, asteroid_lines asteroid ra la -> (List.length la <= fuel)%nat ->
  mpc2sof fuel asteroid comet (concat la) None = Ret (sof_header ++ concat (all_of ra la), 0).
Proof. exact C63_asteroids_only_proof. Qed.
Print Assumptions C63_asteroids_only.

(** C63 (finding): the comets are stored in the room got for the asteroids.  If comets and asteroids are more than the least power of two above the number of asteroids, they are written past its end; if there is no asteroid, through a null pointer. *)
Theorem C63_overflow_refuted :
  forall asteroid comet ra rc la h1 h2 lc fuel, asteroid_lines asteroid ra la -> line398 h1 -> line398 h2 -> Forall (fun t => line398 t /\ comet t = Ret (rc t)) lc ->
  (List.length la <= fuel)%nat -> (List.length lc <= fuel)%nat -> all_of rc lc <> [] ->
  (all_of ra la = [] \/ exists j, 0 <= j /\ 2 ^ j <= Z.of_nat (List.length (all_of ra la)) < 2 ^ (j + 1) /\ 2 ^ (j + 1) < Z.of_nat (List.length (all_of ra la)) + Z.of_nat (List.length (all_of rc lc))) ->
  mpc2sof fuel asteroid comet (concat la) (Some (h1 ++ h2 ++ concat lc)) = UB.
Proof. exact C63_overflow_refuted_proof. Qed.
Print Assumptions C63_overflow_refuted.

Example C63_overflow_case : let comet := fun t : list Z => Ret (Some t) in asteroid_lines comet (fun _ => None) [] /\ Forall (fun t => line398 t /\ comet t = Ret (Some t)) [some_line 120] /\ all_of (fun t : list Z => Some t) [some_line 120] <> [].
Proof. cbv zeta. split; [constructor|]. split; [|discriminate]. constructor; [|constructor]. split; [apply some_line_ok; lia|reflexivity]. Qed.

(** C63 (finding): if the file of comets has fewer than two lines, the asteroids are lost: only the header is written, whatever is in mpcorb.dat. *)
Theorem C63_short_comets_refuted :
  forall asteroid comet ra la file fuel, asteroid_lines asteroid ra la -> (List.length la <= fuel)%nat -> file = [] \/ line398 file ->
  mpc2sof fuel asteroid comet (concat la) (Some file) = Ret (sof_header, -2).
Proof. exact C63_short_comets_refuted_proof. Qed.
Print Assumptions C63_short_comets_refuted.
