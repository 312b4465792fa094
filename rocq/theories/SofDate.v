(** Proofs about the dates of sof.cpp. *)
From Coq Require Import QArith Qreals String Lia.
From Verif Require Import CBase CLemmas CStr DateModel DateVocab DateSpec DateFacts DateJG TstrModel TstrSpec TstrNum CtimeModel CtimeSpec CtimeBuf MpcfModel MpcdSpec MpcdProofs SofModel.
Local Open Scope string_scope.
Local Open Scope list_scope.
Local Open Scope Z_scope.

(** Dates. *)
Lemma scan8 L v t : 0 <= v < 10 ^ 8 -> 10 ^ 8 <= L -> (match t with [] => True | c :: _ => isdigit c = false end) -> scan_d L (ndig 8 v ++ t) = Ret (Some (v, t)).
Proof. intros Hv HL Ht. apply scan_d_num; [apply (ndig_is_digits 7); exact Hv|exact Ht|lia]. Qed.
Lemma date_parts y m d : 0 <= y -> 0 <= m < 100 -> 0 <= d < 100 -> let t := y * 10000 + m * 100 + d in Z.rem t 100 = d /\ Z.rem (Z.quot t 100) 100 = m /\ Z.quot t 10000 = y.
Proof.
  intros Hy Hm Hd. cbv zeta. rewrite !Z.quot_div_nonneg by lia. rewrite !Z.rem_mod_nonneg by (try apply Z.div_pos; lia).
  replace (y * 10000 + m * 100 + d) with (d + (y * 100 + m) * 100) by ring. rewrite Z.mod_add, Z.div_add, (Z.mod_small d), (Z.div_small d) by lia.
  replace (0 + (y * 100 + m)) with (m + y * 100) by ring. rewrite Z.mod_add, Z.mod_small by lia.
  split; [reflexivity|]. split; [reflexivity|]. symmetry. apply (Z.div_unique _ _ _ (m * 100 + d)); lia.
Qed.
Lemma bytes8 v t : (List.length (ndig 8 v ++ t) - List.length t)%nat = 8%nat.
Proof. rewrite app_length, ndig_length. lia. Qed.
Lemma chr8 v t : chr (ndig 8 v ++ t) 8 = chr t 0.
Proof. unfold chr. rewrite app_nth2; rewrite ndig_length; [reflexivity|lia]. Qed.
Lemma skip8 v t : skipn 8 (ndig 8 v ++ t) = t.
Proof. rewrite <- (ndig_length 8 v) at 1. apply skipn_app_l. Qed.
Lemma read8 L y m d t : long_ok L -> 0 <= y < 10000 -> 0 <= m < 100 -> 0 <= d < 100 -> (match t with [] => True | c :: _ => isdigit c = false end) ->
  extract_yyyymmdd_to_jd L (ndig 8 (y * 10000 + m * 100 + d) ++ t) =
    do day <- dmy_to_day L d m y CALENDAR_GREGORIAN;
    if chr t 0 =? 46 then do f <- atof t; Ret (inject_Z day - (1 # 2) + f)%Q else Ret (inject_Z day - (1 # 2))%Q.
Proof.
  intros HL Hy Hm Hd Ht. unfold extract_yyyymmdd_to_jd. rewrite scan8; [|lia|unfold long_ok in HL; lia|exact Ht]. cbn [obind]. rewrite bytes8. cbn [Nat.eqb].
  destruct (date_parts y m d ltac:(lia) Hm Hd) as (-> & -> & ->). rewrite chr8, skip8.
  destruct (dmy_to_day L d m y CALENDAR_GREGORIAN); reflexivity.
Qed.
Lemma ev_cases L e : (exists x, ev L e = Ret x) \/ ev L e = UB.
Proof.
  assert (K : forall x, (exists v, chk L x = Ret v) \/ chk L x = UB) by (intros x; unfold chk; match goal with |- context [if ?b then _ else _] => destruct b end; eauto).
  assert (B : forall (o : outcome Z) k, (exists x, o = Ret x) \/ o = UB -> (forall x, (exists v, k x = Ret v) \/ k x = UB) -> (exists v : Z, obind o k = Ret v) \/ obind o k = UB).
  { intros o k [[x ->]| ->] H; cbn [obind]; auto. }
  induction e; cbn [ev]; auto; repeat (apply B; [assumption|intros]); auto; match goal with |- context [if ?b then _ else _] => destruct b end; auto.
Qed.
Lemma over_first L l : forall n jd, (List.length l < n)%nat -> add_first L jd l n = UB.
Proof.
  induction l as [|m l IH]; intros n jd H; (destruct n as [|n]; [cbn [List.length] in H; lia|]); [reflexivity|]. cbn [add_first]. match goal with |- context [ev L ?e] => destruct (ev_cases L e) as [[v E]|E]; rewrite E end; cbn [obind]; [|reflexivity].
  apply IH. cbn [List.length] in H. lia.
Qed.
Lemma dmy_over L d m y : long_ok L -> year_ok L y -> 15 <= m < 100 -> d <> -999 -> dmy_to_day L d m y CALENDAR_GREGORIAN = UB.
Proof.
  intros HL Hy Hm Hd. unfold dmy_to_day, dmy_to_day_st, dmy_calendar_to_use. rewrite (dom_not6 L CALENDAR_GREGORIAN y (gdom L y Hy)). rewrite dataA by (try assumption; apply gdom, Hy). cbn [obind].
  unfold RETURN_DAYS_IN_MONTH. destruct (Z.eqb_spec d (-999)); [lia|]. unfold IMAX. ev_step. pose proof (shapeA L CALENDAR_GREGORIAN y (gdom L y Hy)) as (Hlen & _).
  rewrite over_first by (rewrite Hlen; lia). reflexivity.
Qed.
