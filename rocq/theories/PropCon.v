(** Property C38 (constellation of a point), for the 324-entry table of conbound.c.
    The arguments are real numbers of degrees.

    [below], [in_constellation], [abbreviation] and the parts of a table entry are
    defined in [ConSpec]. *)
From Coq Require Import Lia String.
From Verif Require Import RBase CStr ConModel ConSpec ConThms.
Open Scope list_scope.
Open Scope Z_scope.

(** C38.  For every point with a right ascension from 0 to 8,944,248 degrees and a declination from
    -90 to 90 the result is the constellation south of the nearest boundary arc to the
    north, and it is from 0 to 87. *)
Theorem C38_constellation :
  forall ra dec, (0 <= ra <= 8944248)%R -> (-90 <= dec <= 90)%R ->
  exists c, constell_from_ra_dec ra dec None = Ret (c, None) /\ 0 <= c <= 87 /\ in_constellation ra dec c.
Proof. exact C38_constellation_proof. Qed.
Print Assumptions C38_constellation.

(** C38.  A point is in exactly one constellation. *)
Theorem C38_one :
  forall ra dec, (-90 <= dec <= 90)%R -> exists c, in_constellation ra dec c /\ forall c', in_constellation ra dec c' -> c' = c.
Proof. exact C38_one_proof. Qed.
Print Assumptions C38_one.

(** C38.  Whole turns of right ascension make no difference. *)
Theorem C38_turns :
  forall ra dec n, (0 <= ra <= 8944248)%R -> (0 <= ra + 360 * IZR n <= 8944248)%R -> (-90 <= dec <= 90)%R ->
  constell_from_ra_dec (ra + 360 * IZR n) dec None = constell_from_ra_dec ra dec None.
Proof. exact C38_turns_proof. Qed.
Print Assumptions C38_turns.

(** C38.  Negative right ascensions down to -3600 degrees work as well if they are whole numbers of
    seconds of time. *)
Theorem C38_negative :
  forall s dec, -864000 <= s <= 0 -> (-90 <= dec <= 90)%R ->
  exists c, constell_from_ra_dec (IZR s / 240) dec None = Ret (c, None) /\ in_constellation (IZR s / 240) dec c.
Proof. exact C38_negative_proof. Qed.
Print Assumptions C38_negative.

(** C38, a claim that fails: the same for other negative right ascensions.  They are rounded
    towards zero, onto the wrong side of a boundary. *)
Theorem C38_negative_refuted :
  ~ (forall ra dec, (-3600 <= ra <= 0)%R -> (-90 <= dec <= 90)%R ->
     exists c, constell_from_ra_dec ra dec None = Ret (c, None) /\ in_constellation ra dec c).
Proof. exact C38_negative_refuted_proof. Qed.
Print Assumptions C38_negative_refuted.

(** C38, a claim that fails: right ascensions below -3600 degrees. *)
Theorem C38_far_negative_refuted :
  exists dec, (-90 <= dec <= 90)%R /\
  exists c, constell_from_ra_dec (IZR (-921601) / 240) dec None = Ret (c, None) /\ ~ in_constellation (IZR (-921601) / 240) dec c.
Proof. exact C38_far_negative_refuted_proof. Qed.
Print Assumptions C38_far_negative_refuted.

(** C38.  Every one of the 88 constellations has points. *)
Theorem C38_all_used :
  forall c, 0 <= c <= 87 ->
  exists ra dec, (0 <= ra < 360)%R /\ (-90 <= dec <= 90)%R /\ constell_from_ra_dec ra dec None = Ret (c, None).
Proof. exact C38_all_used_proof. Qed.
Print Assumptions C38_all_used.

(** C38.  The name returned in a buffer of four or more bytes is the constellation's three-letter
    abbreviation; nothing is written after its terminator.  The number is the same with
    and without a buffer. *)
Theorem C38_name :
  forall ra dec b, (0 <= ra <= 8944248)%R -> (-90 <= dec <= 90)%R -> (4 <= List.length b)%nat ->
  exists c b', constell_from_ra_dec ra dec (Some b) = Ret (c, Some b') /\ constell_from_ra_dec ra dec None = Ret (c, None) /\
    holds b' 0 (abbreviation c) /\ List.length (abbreviation c) = 3%nat /\ forallb isalpha (abbreviation c) = true /\
    List.length b' = List.length b /\ skipn 4 b' = skipn 4 b.
Proof. exact C38_name_proof. Qed.
Print Assumptions C38_name.

Example C38_name_case : constell_names = zs "AndAntApsAqlAqrAraAriAurBooCaeCamCapCarCasCenCepCetChaCirCMaCMiCncColComCrACrBCrtCruCrvCVnCygDelDorDraEquEriForGemGruHerHorHyaHyiIndLacLeoLepLibLMiLupLynLyrMenMicMonMusNorOctOphOriPavPegPerPhePicPsAPscPupPyxRetSclScoSctSerSexSgeSgrTauTelTrATriTucUMaUMiVelVirVolVul"%string /\
  abbreviation 83 = zs "UMi"%string /\ abbreviation 59 = zs "Ori"%string.
Proof. vm_compute. auto. Qed.

(** C38.  The north pole is in Ursa Minor and the south pole in Octans, whatever the right
    ascension. *)
Theorem C38_poles :
  forall ra, (0 <= ra <= 8944248)%R ->
  constell_from_ra_dec ra 90 None = Ret (83, None) /\ constell_from_ra_dec ra (-90) None = Ret (57, None).
Proof. exact C38_poles_proof. Qed.
Print Assumptions C38_poles.
