(** Property C35 (distance and position angle on the sphere).  Doubles are modelled
    by real numbers; an arc sine or cosine of a number outside [-1, 1] is [Abort].

    [onsphere], [dot3], [distance], [north] and [east] are defined in [DistSpec]. *)
From Coq Require Import Lia.
From Verif Require Import TrigBase DistModel DistSpec DistThms.
Open Scope list_scope.

(** C35.  calc_dist_and_posn_ang gives the great-circle distance, for all points. *)
Theorem C35_distance :
  forall p q, exists d pa e, calc_dist_and_posn_ang p q = Ret (d, pa, e) /\ distance p q d.
Proof. exact C35_distance_proof. Qed.
Print Assumptions C35_distance.

(** C35.  The distance does not depend on the order of the points. *)
Theorem C35_symmetric :
  forall p q d pa e d' pa' e', calc_dist_and_posn_ang p q = Ret (d, pa, e) -> calc_dist_and_posn_ang q p = Ret (d', pa', e') ->
  d' = d.
Proof. exact C35_symmetric_proof. Qed.
Print Assumptions C35_symmetric.

(** C35.  The distance is zero exactly for two equal points of the sphere, pi exactly for
    opposite points. *)
Theorem C35_zero :
  forall p q d pa e, calc_dist_and_posn_ang p q = Ret (d, pa, e) ->
  (d = 0 <-> onsphere q = onsphere p) /\
  (d = PI <-> onsphere q = let '(x, y, z) := onsphere p in (- x, - y, - z)).
Proof. exact C35_zero_proof. Qed.
Print Assumptions C35_zero.

(** C35.  The position angle is at least 0 and less than a turn; the second point is seen from
    the first in the direction that is that angle from north, away from east. *)
Theorem C35_position_angle :
  forall p q d pa e, calc_dist_and_posn_ang p q = Ret (d, pa, e) ->
  0 <= pa < 2 * PI /\ dot3 (north p) (onsphere q) = sin d * cos pa /\ dot3 (east p) (onsphere q) = - (sin d * sin pa).
Proof. exact C35_position_angle_proof. Qed.
Print Assumptions C35_position_angle.

(** C35.  The return value is -1 exactly for points that are equal or opposite, and then the
    position angle is 0. *)
Theorem C35_undefined_angle :
  forall p q d pa e, calc_dist_and_posn_ang p q = Ret (d, pa, e) ->
  (e = (-1)%Z <-> d = 0 \/ d = PI) /\ (e = 0%Z <-> 0 < d < PI) /\ (e = (-1)%Z -> pa = 0).
Proof. exact C35_undefined_angle_proof. Qed.
Print Assumptions C35_undefined_angle.

(** C35.  From the first point, the distance and the position angle, reverse_dist_and_posn_ang
    gives the second point, for all points. *)
Theorem C35_reverse :
  forall p q d pa e, calc_dist_and_posn_ang p q = Ret (d, pa, e) ->
  exists r, reverse_dist_and_posn_ang p d pa = Ret r /\ - (PI / 2) <= snd r <= PI / 2 /\ onsphere r = onsphere q.
Proof. exact C35_reverse_proof. Qed.
Print Assumptions C35_reverse.

(** C35.  If the second point's latitude is between -90 and 90 degrees, that latitude is
    returned, and away from the poles its longitude but for whole turns. *)
Theorem C35_reverse_coordinates :
  forall p q d pa e r, calc_dist_and_posn_ang p q = Ret (d, pa, e) -> reverse_dist_and_posn_ang p d pa = Ret r ->
  - (PI / 2) <= snd q <= PI / 2 ->
  snd r = snd q /\ (- (PI / 2) < snd q < PI / 2 -> exists k : Z, fst r = fst q + 2 * PI * IZR k).
Proof. exact C35_reverse_coordinates_proof. Qed.
Print Assumptions C35_reverse_coordinates.

(** C35.  The other way round: going from p by d (at most pi) at position angle pa, the distance
    found afterwards is d and, if d is neither 0 nor pi, the angle is pa but for
    whole turns. *)
Theorem C35_there :
  forall p d pa, 0 <= d <= PI ->
  exists q d' pa' e, reverse_dist_and_posn_ang p d pa = Ret q /\ calc_dist_and_posn_ang p q = Ret (d', pa', e) /\
    d' = d /\ (0 < d < PI -> e = 0%Z /\ exists k : Z, pa' = pa + 2 * PI * IZR k).
Proof. exact C35_there_proof. Qed.
Print Assumptions C35_there.

Example C35_there_case : 0 <= 1 <= PI. Proof. pose proof PI2_1. unfold PI2 in *. lra. Qed.
