(** Property C61 (elements of minor planets from lines of 'mpcorb.dat' and 'astorb.dat'; mpcorb.cpp).

    [mpcorb_line] and [astorb_line] say what a line of either file is and what it says; [f], the numbering of
    days, is that of C05.  [says] is what the
    elements should be.  See [MpcoSpec] and [MpcoSays]. *)
From Coq Require Import QArith Qreals Reals String Lia Lra.
From Verif Require Import CBase CStr RBase TstrSpec TstrNum DtSpec DateModel DateVocab DateSpec CtimeSpec TrigBase OrbModel OrbSpec EopSpec MpcoModel MpcoSpec MpcoSays MpcoThms.
Import ListNotations.
Local Open Scope string_scope.
Local Open Scope list_scope.
Local Open Scope Z_scope.

(** A line of mpcorb.dat gives the elements that are in its columns, whatever the struct held before; the value returned is the day of the epoch. *)
Theorem C61_mpcorb :
forall f, counts_days gregorian (1, 1, 2000) 2451545 f -> forall L o t w0, long_ok L -> mpcorb_line o t -> usable o ->
  0 <= e_year o < 6200 -> valid gregorian (e_day o, e_month o, e_year o) ->
  exists a, extract_mpcorb_dat L (Some w0) t = Ret (f (e_day o, e_month o, e_year o), Some a) /\ says o (f (e_day o, e_month o, e_year o)) a.
Proof. exact C61_mpcorb_proof. Qed.
Print Assumptions C61_mpcorb.

Definition ceres : list Z := zs "00001    3.34  0.15 K24AH 188.70269   73.27343   80.25221   10.58780  0.0794013  0.21424651   2.7660512  0 E2024-V47  7330 125 1801-2024 0.80 M-v 30k MPCLINUX   4000      (1) Ceres              20241101".
Definition ceres_says : entry :=
  mk_entry (Some (334 # 100)) (Some (15 # 100)) 2024 10 17 (18870269 # 100000) (7327343 # 100000) (8025221 # 100000) (1058780 # 100000) (794013 # 10000000) (27660512 # 10000000).
Lemma ceres_line : mpcorb_line ceres_says ceres.
Proof.
  split; [apply Nat.ltb_lt; vm_compute; reflexivity|].
  exists (zs "00001   "), (zs " 3.34"), (zs " 0.15"), (zs "188.70269"), (zs " 73.27343"), (zs " 80.25221"), (zs " 10.58780"), (zs "0.0794013"), (zs " 0.21424651"), (zs "  2.7660512"). eexists.
  split; [cbn; reflexivity|]. split; [reflexivity|].
  split; [split; [exact (point_field 5 1 (zs "3") (zs "34") 334 eq_refl ltac:(discriminate) eq_refl eq_refl)|reflexivity]|].
  split; [split; [exact (point_field 5 1 (zs "0") (zs "15") 15 eq_refl ltac:(discriminate) eq_refl eq_refl)|reflexivity]|].
  split; [exact (point_field 9 0 (zs "188") (zs "70269") 18870269 eq_refl ltac:(discriminate) eq_refl eq_refl)|]. split; [reflexivity|].
  split; [exact (point_field 9 1 (zs "73") (zs "27343") 7327343 eq_refl ltac:(discriminate) eq_refl eq_refl)|].
  split; [exact (point_field 9 1 (zs "80") (zs "25221") 8025221 eq_refl ltac:(discriminate) eq_refl eq_refl)|].
  split; [exact (point_field 9 1 (zs "10") (zs "58780") 1058780 eq_refl ltac:(discriminate) eq_refl eq_refl)|].
  split; [exact (point_field 9 0 (zs "0") (zs "0794013") 794013 eq_refl ltac:(discriminate) eq_refl eq_refl)|].
  split; [reflexivity|]. split; [reflexivity|].
  exact (point_field 11 2 (zs "2") (zs "7660512") 27660512 eq_refl ltac:(discriminate) eq_refl eq_refl).
Qed.
Lemma ceres_usable : usable ceres_says.
Proof.
  assert (C : (0 < cos (rad (1058780 # 100000)))%R).
  { pose proof PI_RGT_0. apply cos_gt_0; unfold rad, Q2R; cbn; lra. }
  unfold usable, ceres_says, axis, eccentricity, inclination, anomaly. split; [unfold Q2R; cbn; lra|]. split; [unfold Q2R; cbn; lra|]. split; [lra|unfold Q2R; cbn; lra].
Qed.
Example C61_ceres f : counts_days gregorian (1, 1, 2000) 2451545 f ->
  exists a, extract_mpcorb_dat LMAX64 (Some 0%R) ceres = Ret (f (17, 10, 2024), Some a) /\ says ceres_says (f (17, 10, 2024)) a.
Proof.
  intro Hf. apply (C61_mpcorb f Hf LMAX64 ceres_says ceres 0%R); [unfold long_ok, LMAX64; lia|apply ceres_line|apply ceres_usable|cbn; lia|cbn; lia].
Qed.

(** Called with NULL, the function returns the same day for a line, whatever the orbit. *)
Theorem C61_check :
forall f, counts_days gregorian (1, 1, 2000) 2451545 f -> forall L o t, long_ok L -> mpcorb_line o t ->
  0 <= e_year o < 6200 -> valid gregorian (e_day o, e_month o, e_year o) ->
  extract_mpcorb_dat L None t = Ret (f (e_day o, e_month o, e_year o), None).
Proof. exact C61_check_proof. Qed.
Print Assumptions C61_check.

Example C61_check_case : extract_mpcorb_dat LMAX64 None ceres = Ret (2460601, None).
Proof. vm_compute. reflexivity. Qed.

(** A line of astorb.dat gives the elements that are in its columns. *)
Theorem C61_astorb :
forall f, counts_days gregorian (1, 1, 2000) 2451545 f -> forall L o t w0, long_ok L -> astorb_line o t -> usable o ->
  0 <= e_year o < 10000 -> valid gregorian (e_day o, e_month o, e_year o) ->
  extract_astorb_dat L None t = Ret (f (e_day o, e_month o, e_year o), None) /\
  exists a, extract_astorb_dat L (Some w0) t = Ret (f (e_day o, e_month o, e_year o), Some a) /\ says o (f (e_day o, e_month o, e_year o)) a.
Proof. exact C61_astorb_proof. Qed.
Print Assumptions C61_astorb.

Definition vesta_with (c : Z) : list Z :=
  zs "     4 Vesta              E. Bowell        3.25  0.32 0.80 501.0 V       0   0   0   0   0   0 69388 8957 20241017  26.810047 151.537065 103.701982  7.144060 " ++
  c :: zs ".09016696   2.36153920 20241017 3.9E-02  2.4E-05 20241101 5.1E-02 20250503 5.9E-02 20330701 5.9E-02 20330701                                             ".
Definition vesta : list Z := vesta_with 48.
Definition vesta_says : entry :=
  mk_entry (Some (325 # 100)) (Some (32 # 100)) 2024 10 17 (over 26810047 6) (over 151537065 6) (over 103701982 6) (over 7144060 6) (over 9016696 8) (236153920 # 100000000).
Lemma vesta_line c : astorb_line_from c vesta_says (vesta_with c).
Proof.
  split; [apply Nat.ltb_lt; vm_compute; reflexivity|].
  exists (zs "     4 Vesta              E. Bowell      "), (zs " 3.25"), (zs " 0.32"), (zs "0.80 501.0 V       0   0   0   0   0   0 69388 8957 "), 26810047, 151537065, 103701982, 7144060, 9016696,
    (zs " 26.810047"), (zs "151.537065"), (zs "103.701982"), (zs " 7.144060"), (zs "09016696"), (zs "  2.36153920"). eexists. exists (325 # 100)%Q, (32 # 100)%Q.
  split; [cbn; reflexivity|]. split; [reflexivity|].
  split; [exact (point_field 5 1 (zs "3") (zs "25") 325 eq_refl ltac:(discriminate) eq_refl eq_refl)|].
  split; [exact (point_field 5 1 (zs "0") (zs "32") 32 eq_refl ltac:(discriminate) eq_refl eq_refl)|].
  split; [reflexivity|]. split; [reflexivity|]. split; [reflexivity|].
  split; [split; [lia|split; vm_compute; reflexivity]|]. split; [split; [lia|split; vm_compute; reflexivity]|]. split; [split; [lia|split; vm_compute; reflexivity]|]. split; [split; [lia|split; vm_compute; reflexivity]|].
  split; [vm_compute; reflexivity|]. split; [lia|].
  split; [exact (point_field 12 2 (zs "2") (zs "36153920") 236153920 eq_refl ltac:(discriminate) eq_refl eq_refl)|].
  repeat split; reflexivity.
Qed.
Example C61_vesta : extract_astorb_dat LMAX64 None (zs "     4 Vesta") = Ret (0, None) /\ astorb_line vesta_says vesta.
Proof. split; [vm_compute; reflexivity|apply vesta_line]. Qed.

(** With those elements two-body motion (C53) puts a minor planet on the orbit of its entry, at the mean anomaly of the entry plus the daily motion for every day since the epoch, for eccentricities below 0.9 and any time (but exactly half a turn from the perihelion, as in C53). *)
Theorem C61_place :
forall f, counts_days gregorian (1, 1, 2000) 2451545 f -> forall L o line w0 a t, long_ok L -> usable o -> (Q2R (eccentricity o) < 9 / 10)%R ->
  valid gregorian (e_day o, e_month o, e_year o) ->
  (mpcorb_line o line /\ 0 <= e_year o < 6200 /\ extract_mpcorb_dat L (Some w0) line = Ret (f (e_day o, e_month o, e_year o), Some a) \/
   astorb_line o line /\ 0 <= e_year o < 10000 /\ extract_astorb_dat L (Some w0) line = Ret (f (e_day o, e_month o, e_year o), Some a)) ->
  let ax := Q2R (axis o) in let e := Q2R (eccentricity o) in let q := (ax * (1 - e))%R in
  let jd0 := (IZR (f (e_day o, e_month o, e_year o)) - 1 / 2)%R in
  let M := (rad (anomaly o) + daily_motion ax * (t - jd0))%R in
  let p := to_perihelion (rad (node o)) (rad (inclination o)) (rad (peri o)) in
  let s := to_quarter (rad (node o)) (rad (inclination o)) (rad (peri o)) in
  let w := to_pole (rad (node o)) (rad (inclination o)) (rad (peri o)) in
  (forall k, M <> (PI * (2 * IZR k + 1))%R) ->
  exists E v n k, (Rabs (E - e * sin E - (M + 2 * PI * IZR k)) <= 1 / 10 ^ 24)%R /\
    let loc := at_point p s (ellipse q e E) in
    on_orbit sun q e p w loc v /\
    forall fuel, (n <= fuel)%nat -> comet_posn_and_vel fuel (orbit a) t = Ret (loc, length_of loc, Some v).
Proof. exact C61_place_proof. Qed.
Print Assumptions C61_place.

Example C61_place_ceres f : counts_days gregorian (1, 1, 2000) 2451545 f -> exists a, extract_mpcorb_dat LMAX64 (Some 0%R) ceres = Ret (f (17, 10, 2024), Some a) /\
  (Q2R (eccentricity ceres_says) < 9 / 10)%R.
Proof. intro Hf. destruct (C61_ceres f Hf) as (a & A & _). exists a. split; [exact A|]. unfold Q2R. cbn. lra. Qed.

(** Other lines are refused, and *elem is left alone: lines too short, and lines of mpcorb.dat (its header, for one) without blanks and points in their places. *)
Theorem C61_refused :
forall L elem t,
  ((List.length t <= 200)%nat \/ nth 25 t 0 <> 32 \/ nth 29 t 0 <> 46 \/ nth 36 t 0 <> 32 \/ nth 47 t 0 <> 32 \/ nth 82 t 0 <> 46 -> extract_mpcorb_dat L elem t = Ret (0, None)) /\
  ((List.length t <= 267)%nat -> extract_astorb_dat L elem t = Ret (0, None)).
Proof. exact C61_refused_proof. Qed.
Print Assumptions C61_refused.

Example C61_refused_case : extract_mpcorb_dat LMAX64 (Some 0%R) (repeat 45 202) = Ret (0, None).
Proof. apply C61_refused. right. left. vm_compute. discriminate. Qed.

(** A claim that fails: the eccentricity of an astorb line is the number in its columns.  The digit before the point is not looked at: 1.09016696 is read as 0.09016696. *)
Theorem C61_hyperbola_refuted :
forall f, counts_days gregorian (1, 1, 2000) 2451545 f -> forall L c o t w0, long_ok L -> astorb_line_from c o t -> usable o ->
  0 <= e_year o < 10000 -> valid gregorian (e_day o, e_month o, e_year o) ->
  exists a, extract_astorb_dat L (Some w0) t = Ret (f (e_day o, e_month o, e_year o), Some a) /\ ecc_ (orbit a) = Q2R (eccentricity o) /\ (Q2R (eccentricity o) < 1)%R.
Proof. exact C61_hyperbola_refuted_proof. Qed.
Print Assumptions C61_hyperbola_refuted.

Example C61_hyperbola_case : astorb_line_from 49 vesta_says (vesta_with 49) /\ (exists u v, vesta_with 49 = u ++ zs " 1.09016696 " ++ v) /\ eccentricity vesta_says = over 9016696 8.
Proof.
  split; [apply vesta_line|]. split; [|reflexivity].
  exists (zs "     4 Vesta              E. Bowell        3.25  0.32 0.80 501.0 V       0   0   0   0   0   0 69388 8957 20241017  26.810047 151.537065 103.701982  7.144060").
  eexists. cbn. reflexivity.
Qed.

(** A claim that fails: no line makes the program read where it should not.  A month letter after E in the packed date reads past the table of the lengths of the months. *)
Theorem C61_month_refuted :
forall L elem t y m d r, long_ok L -> 0 <= y < 6200 -> 15 <= m < 62 -> 0 <= d < 62 -> (200 < List.length t)%nat ->
  nth 25 t 0 = 32 -> nth 29 t 0 = 46 -> nth 36 t 0 = 32 -> nth 47 t 0 = 32 -> nth 82 t 0 = 46 -> skipn 20 t = packed_date y m d ++ r ->
  extract_mpcorb_dat L elem t = UB.
Proof. exact C61_month_refuted_proof. Qed.
Print Assumptions C61_month_refuted.

Example C61_month_case : extract_mpcorb_dat LMAX64 None (firstn 23 ceres ++ zs "F" ++ skipn 24 ceres) = UB.
Proof. vm_compute. reflexivity. Qed.

(** A claim that fails, in the same way: numbers of an astorb line are read up to the next blank, and past the end of a line that has none. *)
Theorem C61_past_end_refuted :
forall L t n, (forall c, In c (skipn n t) -> c <> 32) -> extract_long L (skipn n t) = UB.
Proof. exact C61_past_end_refuted_proof. Qed.
Print Assumptions C61_past_end_refuted.

Example C61_past_end_case : extract_astorb_dat LMAX64 None (firstn 160 vesta ++ repeat 48 110) = UB.
Proof. vm_compute. reflexivity. Qed.
