(** Lemmas for C61: the columns of the lines. *)
From Coq Require Import QArith Qreals Reals Lra Lia String.
From Verif Require Import RBase CBase CLemmas CStr TstrModel TstrNum TstrSpec DtSpec DtProofs DateModel DateVocab DateSpec DateJG CtimeSpec CtimeBuf CtimeRound TrigBase EllModel OrbSpec OrbProofs OrbThms EopSpec EopProofs MpcoModel MpcoSpec MpcoProofs.
From Verif Require MpcfModel SofModel SofDate OrbModel CospTerms MpcdProofs DateThms DesigBase.
Import ListNotations.
Local Open Scope string_scope.
Local Open Scope list_scope.
Local Open Scope Z_scope.

Definition mag (v : option Q) : Q := match v with Some q => q | None => 0%Q end.
Lemma magnitude_length t v : magnitude t v -> List.length t = 5%nat.
Proof. destruct v as [q|]; [intros (H & _); now apply field_length in H|intros ->; reflexivity]. Qed.
Lemma magnitude_reads t v u k r : magnitude t v -> List.length u = k -> num_end r ->
  (if nth (k + 2) (u ++ t ++ r) 0 =? 46 then MpcfModel.atof (skipn k (u ++ t ++ r)) else Ret 0%Q) = Ret (mag v).
Proof.
  intros H U E. rewrite nth_off by exact U. assert (K := magnitude_length _ _ H). rewrite app_nth1 by lia.
  destruct v as [q|]; cbn [magnitude] in H.
  - destruct H as (F & ->). cbn [Z.eqb Pos.eqb]. now apply (atof_at u 5).
  - subst t. reflexivity.
Qed.
Ltac lens := rewrite ?app_length; cbn [List.length packed_date]; rewrite ?app_length; cbn [List.length packed_date]; lia.
Ltac re_assoc := rewrite <- ?app_assoc; reflexivity.

Lemma mpcorb_reads L o t f : mpcorb_line o t -> counts_days gregorian (1, 1, 2000) 2451545 f -> long_ok L -> 0 <= e_year o < 6200 ->
  valid gregorian (e_day o, e_month o, e_year o) ->
  let jd := f (e_day o, e_month o, e_year o) in let ep := (inject_Z jd - (1 # 2))%Q in
  extract_mpcorb_dat L None t = Ret (jd, None) /\
  forall w0, extract_mpcorb_dat L (Some w0) t =
    do e <- do_remaining_element_setup ep (anomaly o) (peri o) (node o) (inclination o) (eccentricity o) (axis o) w0;
    Ret (jd, Some (mk_asteroid ep (mag (H_mag o)) (mag (G_slope o)) e)).
Proof.
  intros (HL & p & h & g & M & w & W & i & e & n & a & r & E & Lp & Fh & Fg & FM & PM & Fw & FW & Fi & Fe & Ln & Pn & Fa) Hf HLo Hy Hv jd ep.
  pose proof (magnitude_length _ _ Fh) as Lh. pose proof (magnitude_length _ _ Fg) as Lg. pose proof (field_length _ _ _ FM) as LM. pose proof (field_length _ _ _ Fw) as Lw.
  pose proof (field_length _ _ _ FW) as LW. pose proof (field_length _ _ _ Fi) as Li. pose proof (field_length _ _ _ Fe) as Le. pose proof (field_length _ _ _ Fa) as La.
  set (pd := packed_date (e_year o) (e_month o) (e_day o)) in *. assert (Lpd : List.length pd = 5%nat) by reflexivity.
  set (va := [32] ++ r). set (vn := [32] ++ a ++ va). set (ve := [32] ++ n ++ vn). set (vi := zs "  " ++ e ++ ve). set (vW := zs "  " ++ i ++ vi). set (vw := zs "  " ++ W ++ vW).
  set (vM := zs "  " ++ w ++ vw). set (vd := [32] ++ M ++ vM). set (vg := [32] ++ pd ++ vd). set (vh := [32] ++ g ++ vg).
  set (ud := p ++ h ++ [32] ++ g ++ [32]). set (uM := ud ++ pd ++ [32]). set (uw := uM ++ M ++ zs "  "). set (uW := uw ++ w ++ zs "  "). set (ui := uW ++ W ++ zs "  ").
  set (ue := ui ++ i ++ [32]). set (un := ue ++ 32 :: e ++ [32]). set (ua := un ++ n ++ [32]).
  assert (Lud : List.length ud = 20%nat) by (unfold ud; lens). assert (LuM : List.length uM = 26%nat) by (unfold uM; lens). assert (Luw : List.length uw = 37%nat) by (unfold uw; change (zs "  ") with [32;32]; lens).
  assert (LuW : List.length uW = 48%nat) by (unfold uW; change (zs "  ") with [32;32]; lens). assert (Lui : List.length ui = 59%nat) by (unfold ui; change (zs "  ") with [32;32]; lens).
  assert (Lue : List.length ue = 69%nat) by (unfold ue; lens). assert (Lun : List.length un = 80%nat) by (unfold un; lens). assert (Lua : List.length ua = 92%nat) by (unfold ua; lens).
  assert (E8 : t = p ++ h ++ vh) by (rewrite E; unfold vh, vg, vd, vM, vw, vW, vi, ve, vn, va; re_assoc).
  assert (E14 : t = (p ++ h ++ [32]) ++ g ++ vg) by (rewrite E8; unfold vh; re_assoc).
  assert (E20 : t = ud ++ pd ++ vd) by (rewrite E14; unfold ud, vg; re_assoc).
  assert (E26 : t = uM ++ M ++ vM) by (rewrite E20; unfold uM, vd; re_assoc).
  assert (E37 : t = uw ++ w ++ vw) by (rewrite E26; unfold uw, vM; re_assoc).
  assert (E48 : t = uW ++ W ++ vW) by (rewrite E37; unfold uW, vw; re_assoc).
  assert (E59 : t = ui ++ i ++ vi) by (rewrite E48; unfold ui, vW; re_assoc).
  assert (E69 : t = ue ++ (32 :: e) ++ ve) by (rewrite E59; unfold ue, vi; re_assoc).
  assert (E80 : t = un ++ n ++ vn) by (rewrite E69; unfold un, ve; rewrite <- ?app_assoc; cbn [app]; re_assoc).
  assert (E92 : t = ua ++ a ++ va) by (rewrite E80; unfold ua, vn; re_assoc).
  assert (C : ((200 <? List.length t)%nat && (nth 47 t 0 =? 32) && (nth 82 t 0 =? 46) && (nth 25 t 0 =? 32) && (nth 29 t 0 =? 46) && (nth 36 t 0 =? 32) = true)%bool).
  { rewrite (proj2 (Nat.ltb_lt _ _)) by exact HL. cbn [andb].
    replace (nth 47 t 0) with 32; [|rewrite E37; change 47%nat with (37 + (9 + 1))%nat; rewrite nth_off by exact Luw; rewrite nth_off by exact Lw; reflexivity].
    replace (nth 82 t 0) with 46; [|rewrite E80; change 82%nat with (80 + 2)%nat; rewrite nth_off by exact Lun; rewrite app_nth1 by lia; symmetry; exact Pn].
    replace (nth 25 t 0) with 32; [|rewrite E20; change 25%nat with (20 + (5 + 0))%nat; rewrite nth_off by exact Lud; rewrite nth_off by exact Lpd; reflexivity].
    replace (nth 29 t 0) with 46; [|rewrite E26; change 29%nat with (26 + 3)%nat; rewrite nth_off by exact LuM; rewrite app_nth1 by lia; symmetry; exact PM].
    replace (nth 36 t 0) with 32; [|rewrite E26; change 36%nat with (26 + (9 + 1))%nat; rewrite nth_off by exact LuM; rewrite nth_off by exact LM; reflexivity]. reflexivity. }
  assert (D : extract_mpc_epoch L (skipn 20 t) = Ret jd) by (rewrite E20, skip_at by exact Lud; now apply epoch_day).
  unfold extract_mpcorb_dat. cbv zeta. rewrite C, D. cbn [obind]. split; [reflexivity|]. intro w0. fold ep.
  assert (A26 : MpcfModel.atof (skipn 26 t) = Ret (anomaly o)) by (rewrite E26; apply (atof_at uM 9); [exact LuM|exact FM|apply blank_end]).
  assert (A37 : MpcfModel.atof (skipn 37 t) = Ret (peri o)) by (rewrite E37; apply (atof_at uw 9); [exact Luw|exact Fw|apply blank_end]).
  assert (A48 : MpcfModel.atof (skipn 48 t) = Ret (node o)) by (rewrite E48; apply (atof_at uW 9); [exact LuW|exact FW|apply blank_end]).
  assert (A59 : MpcfModel.atof (skipn 59 t) = Ret (inclination o)) by (rewrite E59; apply (atof_at ui 9); [exact Lui|exact Fi|apply blank_end]).
  assert (A69 : MpcfModel.atof (skipn 69 t) = Ret (eccentricity o)) by (rewrite E69; apply (atof_at ue 10); [exact Lue|now apply field_blank|apply blank_end]).
  assert (A92 : MpcfModel.atof (skipn 92 t) = Ret (axis o)) by (rewrite E92; apply (atof_at ua 11); [exact Lua|exact Fa|apply blank_end]).
  rewrite A26, A37, A48, A59, A69, A92. cbn [obind].
  assert (A8 : (if nth 10 t 0 =? 46 then MpcfModel.atof (skipn 8 t) else Ret 0%Q) = Ret (mag (H_mag o))) by (rewrite E8; apply (magnitude_reads h (H_mag o) p 8); [exact Fh|exact Lp|apply blank_end]).
  assert (A14 : (if nth 16 t 0 =? 46 then MpcfModel.atof (skipn 14 t) else Ret 0%Q) = Ret (mag (G_slope o))) by (rewrite E14; apply (magnitude_reads g (G_slope o) _ 14); [exact Fg|lens|apply blank_end]).
  rewrite A8, A14. reflexivity.
Qed.

(** ---- astorb ---- *)
Lemma loop_digits L : long_ok L -> forall t r v, (forall c, In c t -> isdigit c = true) -> 0 <= v -> dig_val v t <= L -> extract_loop L (t ++ r) v = extract_loop L r (dig_val v t).
Proof.
  intro LO. induction t as [|c t IH]; intros r v D Hv HL; [reflexivity|]. assert (Dc := D c (or_introl eq_refl)). cbn [app extract_loop dig_val] in *. rewrite Dc in *.
  assert (Rc : 48 <= c <= 57) by (unfold isdigit in Dc; lia). destruct (Z.eqb_spec c 32); [lia|]. destruct (Z.eqb_spec c 46); [lia|].
  assert (S0 : SofModel.schar c = c) by (unfold SofModel.schar; destruct (Z.leb_spec 128 c); lia). rewrite S0.
  assert (G : forall u x, (forall c, In c u -> isdigit c = true) -> 0 <= x -> x <= dig_val x u).
  { clear. induction u as [|c u IH]; intros x D Hx; [cbn; lia|]. assert (Dc := D c (or_introl eq_refl)). cbn [dig_val]. rewrite Dc. assert (Rc : 48 <= c <= 57) by (unfold isdigit in Dc; lia).
    specialize (IH (x * 10 + (c - 48)) (fun y Hy => D y (or_intror Hy)) ltac:(lia)). lia. }
  assert (Dt : forall x, In x t -> isdigit x = true) by (intros x Hx; apply D; now right).
  pose proof (G t (v * 10 + (c - 48)) Dt ltac:(lia)). cbn [ev]. unfold long_ok in LO.
  rewrite !chk_ok by (unfold fits; lia). cbn [obind]. rewrite !chk_ok by (unfold fits; lia). cbn [obind]. rewrite !chk_ok by (unfold fits; lia). cbn [obind].
  apply IH; [exact Dt|lia|lia].
Qed.
Lemma skip_repeat i t : skip_blanks (repeat 32 i ++ t) = skip_blanks t.
Proof. induction i as [|i IH]; [reflexivity|]. cbn [repeat app skip_blanks Z.eqb Pos.eqb]. exact IH. Qed.
Lemma skip_digits t r : (forall c, In c t -> isdigit c = true) -> t <> [] -> skip_blanks (t ++ r) = t ++ r.
Proof. destruct t as [|c t]; [contradiction|]. intros D _. assert (K := D c (or_introl eq_refl)). cbn [app skip_blanks]. destruct (Z.eqb_spec c 32) as [->|_]; [discriminate|reflexivity]. Qed.
Lemma long_decimal L w t k u n r : long_ok L -> decimal w 6 t k -> List.length u = n -> extract_long L (skipn n (u ++ t ++ 32 :: r)) = Ret k.
Proof.
  intros LO (Hk & -> & _) U. rewrite skip_at by exact U. unfold extract_long. rewrite <- app_assoc, skip_repeat. unfold fixed_text. change (Z.of_nat 6) with 6.
  assert (Q0 : 0 <= k / 10 ^ 6 < 10 ^ 3) by (Z.to_euclidean_division_equations; lia). assert (M0 := Z.mod_pos_bound k (10 ^ 6) ltac:(lia)).
  destruct (CospTerms.dec_digits (k / 10 ^ 6) ltac:(lia)) as (Ne & Dd & Dv). cbn [decimals]. rewrite <- app_assoc, skip_digits by assumption. unfold long_ok in LO.
  rewrite loop_digits by (try assumption; unfold long_ok; lia). rewrite Dv. cbn [app extract_loop Z.eqb Pos.eqb].
  assert (V : dig_val (k / 10 ^ 6) (ndig 6 (k mod 10 ^ 6)) = k).
  { rewrite dig_val_ndig by lia. change (Z.of_nat 6) with 6. rewrite Z.mod_mod by lia. rewrite Z.mul_comm. symmetry. now apply Z.div_mod. }
  rewrite loop_digits; [|exact LO|apply ndig_digit|lia|rewrite V; lia]. rewrite V. reflexivity.
Qed.
Lemma long_digits L p k u n r : long_ok L -> 0 <= k < 10 ^ Z.of_nat (S p) -> 10 ^ Z.of_nat (S p) <= 10 ^ 9 -> List.length u = n -> extract_long L (skipn n (u ++ ndig (S p) k ++ 32 :: r)) = Ret k.
Proof.
  intros LO Hk Hp U. rewrite skip_at by exact U. unfold extract_long. unfold long_ok in LO.
  rewrite skip_digits; [|apply ndig_digit|discriminate].
  assert (V : dig_val 0 (ndig (S p) k) = k) by (rewrite dig_val_ndig by lia; rewrite Z.mod_small by lia; lia).
  rewrite loop_digits; [|exact LO|apply ndig_digit|lia|rewrite V; lia]. rewrite V. reflexivity.
Qed.

Lemma astorb_reads L c o t f : astorb_line_from c o t -> counts_days gregorian (1, 1, 2000) 2451545 f -> long_ok L -> 0 <= e_year o < 10000 ->
  valid gregorian (e_day o, e_month o, e_year o) ->
  let jd := f (e_day o, e_month o, e_year o) in let ep := (inject_Z jd - (1 # 2))%Q in
  forall elem, extract_astorb_dat L elem t =
    do e <- do_remaining_element_setup ep (anomaly o) (peri o) (node o) (inclination o) (eccentricity o) (axis o) (match elem with Some w0 => w0 | None => 0%R end);
    Ret (jd, match elem with Some _ => Some (mk_asteroid ep (mag (H_mag o)) (mag (G_slope o)) e) | None => None end).
Proof.
  intros (HL & p & h & g & f0 & kM & kw & kW & ki & ke & M & w & W & i & e & a & r & Hh & Gg & E & Lp & Fh & Fg & OH & OG & Lf & FM & Fw & FW & Fi & -> & Bke & Fa & EM & Ew & EW & Ei & Ee) Hf HLo Hy Hv jd ep elem.
  pose proof (field_length _ _ _ Fh) as Lh. pose proof (field_length _ _ _ Fg) as Lg. pose proof (field_length _ _ _ Fa) as La.
  assert (LM : List.length M = 10%nat) by apply FM. assert (Lw : List.length w = 10%nat) by apply Fw. assert (LW : List.length W = 10%nat) by apply FW. assert (Li : List.length i = 9%nat) by apply Fi.
  set (v := e_year o * 10000 + e_month o * 100 + e_day o) in *. set (d8 := ndig 8 v) in *. assert (L8 : List.length d8 = 8%nat) by reflexivity. set (e8 := ndig 8 ke) in *. assert (Le : List.length e8 = 8%nat) by reflexivity.
  set (va := [32] ++ r). set (ve := [32] ++ a ++ va). set (vi := [32] ++ [c; 46] ++ e8 ++ ve). set (vW := [32] ++ i ++ vi). set (vw := [32] ++ W ++ vW).
  set (vM := [32] ++ w ++ vw). set (vd := [32] ++ M ++ vM). set (vg := [32] ++ f0 ++ d8 ++ vd). set (vh := [32] ++ g ++ vg).
  set (ud := p ++ [32] ++ h ++ [32] ++ g ++ [32] ++ f0). set (uM := ud ++ d8 ++ [32]). set (uw := uM ++ M ++ [32]). set (uW := uw ++ w ++ [32]). set (ui := uW ++ W ++ [32]).
  set (ue := ui ++ i ++ [32; c; 46]). set (ua := ue ++ e8 ++ [32]).
  assert (Lud : List.length ud = 106%nat) by (unfold ud; lens). assert (LuM : List.length uM = 115%nat) by (unfold uM; lens). assert (Luw : List.length uw = 126%nat) by (unfold uw; lens).
  assert (LuW : List.length uW = 137%nat) by (unfold uW; lens). assert (Lui : List.length ui = 148%nat) by (unfold ui; lens).
  assert (Lue : List.length ue = 160%nat) by (unfold ue; lens). assert (Lua : List.length ua = 169%nat) by (unfold ua; lens).
  assert (E41 : t = p ++ (32 :: h) ++ vh) by (rewrite E; unfold vh, vg, vd, vM, vw, vW, vi, ve, va; re_assoc).
  assert (E106 : t = ud ++ d8 ++ vd) by (rewrite E41; unfold ud, vh, vg; cbn [app]; rewrite <- ?app_assoc; cbn [app]; rewrite <- ?app_assoc; cbn [app]; re_assoc).
  assert (E115 : t = uM ++ M ++ vM) by (rewrite E106; unfold uM, vd; re_assoc).
  assert (E126 : t = uw ++ w ++ vw) by (rewrite E115; unfold uw, vM; re_assoc).
  assert (E137 : t = uW ++ W ++ vW) by (rewrite E126; unfold uW, vw; re_assoc).
  assert (E148 : t = ui ++ i ++ vi) by (rewrite E137; unfold ui, vW; re_assoc).
  assert (E160 : t = ue ++ e8 ++ ve) by (rewrite E148; unfold ue, vi; re_assoc).
  assert (E169 : t = ua ++ a ++ va) by (rewrite E160; unfold ua, ve; re_assoc).
  unfold extract_astorb_dat. cbv zeta. rewrite (proj2 (Nat.ltb_lt 267 (List.length t))) by exact HL.
  assert (S1 : scan_lf (skipn 41 t) = Ret (Some (Hh, vh))).
  { rewrite E41, skip_at by exact Lp. destruct (field_blank _ _ _ Fh) as (j & n & -> & N & _). rewrite <- app_assoc, scan_blanks. apply signed_scan; [exact N|apply blank_end]. }
  assert (S2 : scan_lf vh = Ret (Some (Gg, vg))).
  { unfold vh. change ([32] ++ g ++ vg) with ((32 :: g) ++ vg). destruct (field_blank _ _ _ Fg) as (j & n & -> & N & _). rewrite <- app_assoc, scan_blanks. apply signed_scan; [exact N|apply blank_end]. }
  rewrite S1. cbn [obind]. rewrite S2. cbn [obind].
  assert (K := Hv). destruct K as (Hm & Hd). assert (G31 : gregorian (e_month o) (e_year o) <= 31).
  { unfold gregorian, roman_month. destruct (gregorian_leap (e_year o)); repeat match goal with |- context [if ?b then _ else _] => destruct b end; lia. }
  assert (A106 : SofModel.atoi (skipn 106 t) = Ret v).
  { rewrite E106, skip_at by exact Lud. apply CospTerms.atoi_num; [apply (MpcdProofs.ndig_is_digits 7); unfold v; cbn; lia|reflexivity|unfold v, IMAX; lia]. }
  rewrite A106. cbn [obind].
  assert (A115 : extract_long L (skipn 115 t) = Ret kM) by (rewrite E115; apply (long_decimal L 10); assumption).
  assert (A126 : extract_long L (skipn 126 t) = Ret kw) by (rewrite E126; apply (long_decimal L 10); assumption).
  assert (A137 : extract_long L (skipn 137 t) = Ret kW) by (rewrite E137; apply (long_decimal L 10); assumption).
  assert (A148 : extract_long L (skipn 148 t) = Ret ki) by (rewrite E148; apply (long_decimal L 9); assumption).
  assert (A160 : extract_long L (skipn 160 t) = Ret ke) by (rewrite E160; apply long_digits; [assumption|exact Bke|cbn; lia|assumption]).
  assert (A169 : MpcfModel.atof (skipn 169 t) = Ret (axis o)) by (rewrite E169; apply (atof_at ua 12); [exact Lua|exact Fa|apply blank_end]).
  rewrite A115, A126, A137, A148, A160, A169. cbn [obind].
  destruct (SofDate.date_parts (e_year o) (e_month o) (e_day o) ltac:(lia) ltac:(lia) ltac:(lia)) as (P1 & P2 & P3). fold v in P1, P2, P3. rewrite P1, P2, P3.
  rewrite (DateThms.C05_gregorian_is_day_count_proof f Hf L _ _ _ HLo) by (try exact Hv; unfold year_ok, long_ok in *; lia). cbn [obind]. fold jd. fold ep.
  rewrite EM, Ew, EW, Ei, Ee, OH, OG. reflexivity.
Qed.
