(** Lemmas about the model of mpcorb.cpp. *)
From Coq Require Import QArith Qreals Reals Lra Lia String.
From Verif Require Import RBase CBase CLemmas CStr TstrModel TstrNum TstrSpec DtSpec DtProofs DateModel DateVocab DateSpec DateJG CtimeSpec CtimeBuf CtimeRound TrigBase EllModel OrbSpec OrbProofs OrbThms EopSpec EopProofs MpcoModel MpcoSpec.
From Verif Require MpcfModel SofModel SofDate OrbModel CospTerms MpcdProofs DateThms DesigBase.
Import ListNotations.
Local Open Scope list_scope.
Local Open Scope Z_scope.

(** ---- packed dates ---- *)
Lemma hex_packed n : 0 <= n < 62 -> extended_hex_to_int (packed n) = n.
Proof.
  intro H. unfold packed, extended_hex_to_int, SofModel.schar.
  destruct (Z.ltb_spec n 10); [|destruct (Z.ltb_spec n 36)]; (destruct (Z.leb_spec 128 (48 + n)) || destruct (Z.leb_spec 128 (65 + (n - 10))) || destruct (Z.leb_spec 128 (97 + (n - 36)))); try lia;
    repeat match goal with |- context [?a <=? ?b] => destruct (Z.leb_spec a b) end; cbn [andb]; lia.
Qed.
Lemma hex_digit n : 0 <= n < 10 -> extended_hex_to_int (48 + n) = n.
Proof. intro H. rewrite <- (hex_packed n) at 2 by lia. unfold packed. now rewrite (proj2 (Z.ltb_lt n 10)) by lia. Qed.
Lemma epoch_packed L y m d r : 0 <= y < 6200 -> 0 <= m < 62 -> 0 <= d < 62 ->
  extract_mpc_epoch L (packed_date y m d ++ r) = dmy_to_day L d m y CALENDAR_GREGORIAN.
Proof.
  intros Hy Hm Hd. unfold extract_mpc_epoch, packed_date. cbn [app nth]. rewrite !hex_packed, !hex_digit by (Z.to_euclidean_division_equations; lia).
  f_equal. Z.to_euclidean_division_equations. lia.
Qed.
Lemma epoch_day f L y m d r : counts_days gregorian (1, 1, 2000) 2451545 f -> long_ok L -> 0 <= y < 6200 -> valid gregorian (d, m, y) ->
  extract_mpc_epoch L (packed_date y m d ++ r) = Ret (f (d, m, y)).
Proof.
  intros Hf HL Hy Hv. assert (K := Hv). destruct K as (Hm & Hd). assert (gregorian m y <= 31).
  { unfold gregorian, roman_month. destruct (gregorian_leap y); repeat match goal with |- context [if ?b then _ else _] => destruct b end; lia. }
  rewrite epoch_packed by lia. apply (DateThms.C05_gregorian_is_day_count_proof f Hf L d m y HL); [unfold year_ok, long_ok in *; lia|exact Hv].
Qed.

(** ---- the orbit ---- *)
Lemma sun_pos : (0 < SOLAR_GM)%R. Proof. unfold SOLAR_GM, GAUSS_K. Lra.lra. Qed.
Definition with_time (e : OrbModel.elements) (t g : R) : OrbModel.elements :=
  OrbModel.mk_elements t (OrbModel.q_ e) (OrbModel.ecc_ e) (OrbModel.incl e)
         (OrbModel.arg_per e) (OrbModel.asc_node e) (OrbModel.mean_anomaly e)
         (OrbModel.lon_per e) (OrbModel.minor_to_major e) (OrbModel.perih_vec e) (OrbModel.sideways e)
         (OrbModel.angular_momentum e) (OrbModel.major_axis e) (OrbModel.t0 e) (OrbModel.w0 e) g.
Lemma derive_time e gm d t g : OrbModel.derive_quantities e gm = Ret d -> OrbModel.derive_quantities (with_time e t g) gm = Ret (with_time d t g).
Proof.
  unfold OrbModel.derive_quantities. cbn [with_time OrbModel.q_ OrbModel.ecc_ OrbModel.incl OrbModel.arg_per OrbModel.asc_node OrbModel.w0 OrbModel.gm_ OrbModel.perih_time OrbModel.mean_anomaly].
  match goal with |- obind ?x _ = _ -> _ => destruct x as [[[a t1] w]| | |]; cbn [obind]; try discriminate end.
  match goal with |- obind ?x _ = _ -> _ => destruct x as [h| | |]; cbn [obind]; try discriminate end.
  match goal with |- obind ?x _ = _ -> _ => destruct x as [[[[l m] p] s]| | |]; cbn [obind]; try discriminate end.
  intro H. injection H as <-. reflexivity.
Qed.
Lemma derive_keeps e gm d : OrbModel.derive_quantities e gm = Ret d ->
  OrbModel.incl d = OrbModel.incl e /\ OrbModel.arg_per d = OrbModel.arg_per e /\ OrbModel.asc_node d = OrbModel.asc_node e /\ OrbModel.mean_anomaly d = OrbModel.mean_anomaly e /\
  OrbModel.gm_ d = OrbModel.gm_ e /\ (OrbModel.ecc_ e <> 1%R -> OrbModel.major_axis d = (OrbModel.q_ e / Rabs (1 - OrbModel.ecc_ e))%R).
Proof.
  unfold OrbModel.derive_quantities.
  match goal with |- obind ?x _ = _ -> _ => destruct x as [[[a t1] w]| | |] eqn:E; cbn [obind]; try discriminate end.
  match goal with |- obind ?x _ = _ -> _ => destruct x as [h| | |]; cbn [obind]; try discriminate end.
  match goal with |- obind ?x _ = _ -> _ => destruct x as [[[[l m] p] s]| | |]; cbn [obind]; try discriminate end.
  intro H. injection H as <-. cbn. repeat (split; [reflexivity|]). intro N. destruct (Reqb_spec (OrbModel.ecc_ e) 1) as [X|_]; [contradiction|]. cbn [negb] in E.
  unfold c_div in E. destruct (Reqb (Rabs (1 - OrbModel.ecc_ e)) 0); [discriminate|]. cbn [obind] in E.
  match type of E with obind ?x _ = _ => destruct x as [s1| | |]; cbn [obind] in E; try discriminate end.
  match type of E with obind ?x _ = _ => destruct x as [s2| | |]; cbn [obind] in E; try discriminate end. now injection E as <- _ _.
Qed.

Lemma setup_ok ep M w W i e a w0 : (0 < Q2R a)%R -> (0 <= Q2R e < 1)%R -> cos (rad i) <> 0%R -> (0 <= Q2R M <= 360)%R ->
  exists d, do_remaining_element_setup ep M w W i e a w0 = Ret d /\ (exists el, OrbModel.derive_quantities el SOLAR_GM = Ret d /\
      OrbModel.q_ el = OrbModel.q_ d /\ OrbModel.ecc_ el = OrbModel.ecc_ d /\ OrbModel.incl el = OrbModel.incl d /\
      OrbModel.asc_node el = OrbModel.asc_node d /\ OrbModel.arg_per el = OrbModel.arg_per d /\ OrbModel.perih_time el = OrbModel.perih_time d) /\
    OrbModel.q_ d = (Q2R a * (1 - Q2R e))%R /\ OrbModel.major_axis d = Q2R a /\ OrbModel.ecc_ d = Q2R e /\
    OrbModel.incl d = rad i /\ OrbModel.arg_per d = rad w /\ OrbModel.asc_node d = rad W /\ OrbModel.mean_anomaly d = rad M /\ OrbModel.gm_ d = SOLAR_GM /\
    same_direction (sqrt (SOLAR_GM / (Q2R a * Q2R a * Q2R a)) * (Q2R ep - OrbModel.perih_time d)) (rad M) /\
    (sqrt (SOLAR_GM / (Q2R a * Q2R a * Q2R a)) * Rabs (Q2R ep - OrbModel.perih_time d) <= PI)%R.
Proof.
  intros Ha He Hi HM. pose proof sun_pos as GP. unfold do_remaining_element_setup. cbv zeta.
  assert (RD : forall v, (Q2R v * (PI / 180))%R = rad v) by (intro v; unfold rad; Lra.lra). rewrite !RD.
  set (e0 := OrbModel.mk_elements _ _ _ _ _ _ _ _ _ _ _ _ _ _ _ _).
  assert (Q0 : (0 < Q2R a * (1 - Q2R e))%R) by (apply Rmult_lt_0_compat; Lra.lra).
  destruct (derive_ok e0 SOLAR_GM) as (d & D & _ & Dq & De & Dp & Ds & Dh & _ & Dt & _); try (cbn; assumption || Lra.lra).
  rewrite D. cbn [obind]. destruct (derive_keeps _ _ _ D) as (Ki & Kw & KW & KM & _ & Kma). cbn in Ki, Kw, KW, KM, Kma, Dq, De, Dh, Dt.
  assert (NE : Q2R e <> 1%R) by Lra.lra. specialize (Dt NE). specialize (Kma NE). destruct Dt as (_ & Dt).
  rewrite Rabs_pos_eq in Dt, Kma by Lra.lra. replace (Q2R a * (1 - Q2R e) / (1 - Q2R e))%R with (Q2R a) in Dt, Kma by (field; Lra.lra).
  rewrite c_sqrt_ok by (apply Rmult_le_pos; [apply Rmult_le_pos|]; Lra.lra). cbn [obind].
  destruct (period (Q2R a) SOLAR_GM Ha GP) as (TP & TM).
  set (t := (_ - _ * OrbModel.t0 d)%R).
  eexists. split; [reflexivity|].
  replace (sqrt (SOLAR_GM * (Q2R a * (1 - Q2R e)) * (1 + Q2R e))) with (OrbModel.angular_momentum d) by exact Dh. fold (with_time d t SOLAR_GM).
  split.
  - exists (with_time e0 t SOLAR_GM). split; [now apply derive_time|]. cbn. repeat split; congruence.
  - cbn. repeat (split; [congruence|]).
    assert (X : (Q2R ep - t = (if Rltb PI (rad M) then rad M - (PI + PI) else rad M) * (Q2R a * sqrt (Q2R a / SOLAR_GM)))%R) by (unfold t; rewrite Dt; Lra.lra).
    pose proof PI_RGT_0 as PP. assert (RM : (0 <= rad M <= 2 * PI)%R) by (unfold rad; Lra.nra).
    rewrite X. set (x := if Rltb PI (rad M) then _ else _). set (T := (Q2R a * sqrt (Q2R a / SOLAR_GM))%R) in *.
    assert (Y : (sqrt (SOLAR_GM / (Q2R a * Q2R a * Q2R a)) * (x * T) = x)%R) by (rewrite <- TM; field; Lra.lra).
    assert (Z0 : (- PI <= x <= PI)%R) by (unfold x; destruct (Rltb_spec PI (rad M)); Lra.lra).
    split.
    + rewrite Y. unfold x. destruct (Rltb PI (rad M)); [exists (-1)%Z|exists 0%Z]; cbn; Lra.lra.
    + rewrite Rabs_mult, (Rabs_pos_eq T) by Lra.lra. rewrite <- TM. replace (Rabs x * T / T)%R with (Rabs x) by (field; Lra.lra). apply Rabs_le. Lra.lra.
Qed.

(** ---- columns ---- *)
Lemma skip_at (u v : list Z) k : List.length u = k -> skipn k (u ++ v) = v.
Proof. intros <-. apply skipn_app_l. Qed.
Lemma nth_off (u v : list Z) k i : List.length u = k -> nth (k + i) (u ++ v) 0 = nth i v 0.
Proof. intros <-. apply app_nth2_plus. Qed.
Lemma atof_at u w t q r k : List.length u = k -> field w t q -> num_end r -> MpcfModel.atof (skipn k (u ++ t ++ r)) = Ret q.
Proof. intros H F E. rewrite skip_at by exact H. now apply (atof_field w). Qed.
Lemma blank_end r : num_end (32 :: r). Proof. repeat split; discriminate. Qed.
Lemma field_blank w t q : field w t q -> field (S w) (32 :: t) q.
Proof. intros (i & n & -> & H & E). exists (S i), n. split; [reflexivity|]. split; [exact H|]. cbn [List.length]. congruence. Qed.
