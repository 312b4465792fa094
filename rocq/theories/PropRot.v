(** Property C33 (rotations) and C43 (vectors).  Doubles are modelled by real
    numbers; a read or write outside an array is the outcome [UB].

    [turn], [mul], [tr], [ident], [app], [dot], [norm], [det], [orthonormal] and
    [rotation] are defined in [RotSpec]. *)
From Coq Require Import Lia.
From Verif Require Import TrigBase RotModel RotSpec RotThms.
Open Scope list_scope.

(** C33.  spin_matrix on rows i and j multiplies from the left by the turn in the plane of
    axes i and j. *)
Theorem C33_spin_matrix :
  forall m i j a, length m = 9%nat -> (i < 3)%nat -> (j < 3)%nat -> i <> j ->
  spin_matrix m (3 * i) (3 * j) a = Ret (mul (turn i j a) m).
Proof. exact C33_spin_matrix_proof. Qed.
Print Assumptions C33_spin_matrix.

Example C33_spin_matrix_case : length ident = 9%nat. Proof. reflexivity. Qed.

(** C33.  pre_spin_matrix on columns i and j multiplies from the right by the turn the other
    way. *)
Theorem C33_pre_spin_matrix :
  forall m i j a, length m = 9%nat -> (i < 3)%nat -> (j < 3)%nat -> i <> j ->
  pre_spin_matrix m i j a = Ret (mul m (turn j i a)).
Proof. exact C33_pre_spin_matrix_proof. Qed.
Print Assumptions C33_pre_spin_matrix.

(** C33.  A turn is a rotation: it leaves the third axis alone, takes axis i towards axis j,
    keeps lengths and orientation; turns in one plane add up. *)
Theorem C33_turn :
  forall i j a b, (i < 3)%nat -> (j < 3)%nat -> i <> j ->
  rotation (turn i j a) /\ mul (turn i j a) (turn i j b) = turn i j (a + b) /\ turn i j 0 = ident /\
  (forall v k, (k < 3)%nat -> k <> i -> k <> j -> comp (app (turn i j a) v) k = comp v k) /\
  (let e := vec (fun k => if Nat.eqb k i then 1 else 0) in
   comp (app (turn i j a) e) i = cos a /\ comp (app (turn i j a) e) j = sin a).
Proof. exact C33_turn_proof. Qed.
Print Assumptions C33_turn.

(** C33.  spin_matrix and pre_spin_matrix turn a rotation into a rotation, and an
    orthonormal matrix into an orthonormal matrix. *)
Theorem C33_matrices_stay_rotations :
  forall m i j a, (i < 3)%nat -> (j < 3)%nat -> i <> j ->
  (rotation m -> exists s p, spin_matrix m (3 * i) (3 * j) a = Ret s /\ pre_spin_matrix m i j a = Ret p /\ rotation s /\ rotation p) /\
  (orthonormal m -> exists s p, spin_matrix m (3 * i) (3 * j) a = Ret s /\ pre_spin_matrix m i j a = Ret p /\ orthonormal s /\ orthonormal p).
Proof. exact C33_matrices_stay_rotations_proof. Qed.
Print Assumptions C33_matrices_stay_rotations.

Example C33_matrices_stay_rotations_case : rotation (turn 0 1 1).
Proof. apply (C33_turn_proof 0 1 1 0); lia. Qed.

(** C33.  The opposite angle undoes spin_matrix and pre_spin_matrix. *)
Theorem C33_opposite_angle :
  forall m i j a, length m = 9%nat -> (i < 3)%nat -> (j < 3)%nat -> i <> j ->
  (do s <- spin_matrix m (3 * i) (3 * j) a; spin_matrix s (3 * i) (3 * j) (- a)) = Ret m /\
  (do s <- pre_spin_matrix m i j a; pre_spin_matrix s i j (- a)) = Ret m.
Proof. exact C33_opposite_angle_proof. Qed.
Print Assumptions C33_opposite_angle.

(** C33.  set_identity_matrix sets the identity, whatever was there. *)
Theorem C33_identity :
  forall m, length m = 9%nat -> set_identity_matrix m = Ret ident.
Proof. exact C33_identity_proof. Qed.
Print Assumptions C33_identity.

(** C33.  invert_orthonormal_matrix gives the transpose, which is the inverse of an
    orthonormal matrix; doing it twice restores the matrix. *)
Theorem C33_inverse :
  forall m, length m = 9%nat ->
  exists n, invert_orthonormal_matrix m = Ret n /\ n = tr m /\ invert_orthonormal_matrix n = Ret m /\
    (orthonormal m -> mul n m = ident /\ mul m n = ident) /\ (rotation m -> rotation n).
Proof. exact C33_inverse_proof. Qed.
Print Assumptions C33_inverse.

(** C33.  rotate_vector turns the vector about the axis axis mod 3, from the next axis towards
    the one after it. *)
Theorem C33_rotate_vector :
  forall v a axis, length v = 3%nat -> (0 <= axis <= 2147483645)%Z ->
  let k := Z.to_nat (axis mod 3) in
  rotate_vector v a axis = Ret (app (turn ((k + 1) mod 3) ((k + 2) mod 3) a) v).
Proof. exact C33_rotate_vector_proof. Qed.
Print Assumptions C33_rotate_vector.

Example C33_rotate_vector_case : rotate_vector [1; 2; 3] PI 2 = Ret (app (turn 0 1 PI) [1; 2; 3]).
Proof. exact (C33_rotate_vector_proof [1; 2; 3] PI 2 eq_refl ltac:(lia)). Qed.

(** C33.  rotate_vector keeps lengths and angles, leaves the component along the axis alone,
    and is undone by the opposite angle. *)
Theorem C33_rotate_vector_isometry :
  forall u v a axis, length u = 3%nat -> length v = 3%nat -> (0 <= axis <= 2147483645)%Z ->
  exists u' v', rotate_vector u a axis = Ret u' /\ rotate_vector v a axis = Ret v' /\
    norm v' = norm v /\ dot u' v' = dot u v /\ comp v' (Z.to_nat (axis mod 3)) = comp v (Z.to_nat (axis mod 3)) /\
    rotate_vector v' (- a) axis = Ret v.
Proof. exact C33_rotate_vector_isometry_proof. Qed.
Print Assumptions C33_rotate_vector_isometry.

(** C33, a claim that fails: the axis may be any int.  An axis below -1 reads outside the
    vector. *)
Theorem C33_rotate_vector_axis_refuted :
  forall v a axis, length v = 3%nat -> (-2147483648 <= axis < -1)%Z -> (axis mod 3 <> 2)%Z -> rotate_vector v a axis = UB.
Proof. exact C33_rotate_vector_axis_refuted_proof. Qed.
Print Assumptions C33_rotate_vector_axis_refuted.

Example C33_rotate_vector_axis_case : (-2147483648 <= -3 < -1)%Z /\ ((-3) mod 3 <> 2)%Z.
Proof. split; [lia|discriminate]. Qed.

(** C43.  normalize_vect3 returns the length; a vector other than zero becomes a unit vector
    in the same direction, zero stays zero. *)
Theorem C43_normalize :
  forall v, length v = 3%nat ->
  exists u, normalize_vect3 v = Ret (norm v, u) /\ length u = 3%nat /\
    (forall i, comp v i = norm v * comp u i) /\ (v <> [0; 0; 0] -> norm u = 1) /\ (v = [0; 0; 0] -> u = v).
Proof. exact C43_normalize_proof. Qed.
Print Assumptions C43_normalize.

Example C43_normalize_case : [3; 0; 4] <> [0; 0; 0]. Proof. intros E. inversion E. lra. Qed.

(** C43.  The cross product is orthogonal to both vectors, its length is that of the
    parallelogram, it is right-handed, and swapping the vectors reverses it. *)
Theorem C43_cross_product :
  forall x a b, length x = 3%nat -> length a = 3%nat -> length b = 3%nat ->
  exists c c', vector_cross_product x a b = Ret c /\ vector_cross_product x b a = Ret c' /\ length c = 3%nat /\
    dot c a = 0 /\ dot c b = 0 /\ dot c c = dot a a * dot b b - dot a b * dot a b /\
    det (a ++ b ++ c) = dot c c /\ forall i, comp c' i = - comp c i.
Proof. exact C43_cross_product_proof. Qed.
Print Assumptions C43_cross_product.

(** C43.  dot_product and vector3_length are the scalar product and the length. *)
Theorem C43_dot_and_length :
  forall a b, length a = 3%nat -> length b = 3%nat ->
  dot_product a b = Ret (dot a b) /\ vector3_length a = Ret (norm a).
Proof. exact C43_dot_and_length_proof. Qed.
Print Assumptions C43_dot_and_length.

(** C43.  polar3_to_cartesian gives the unit vector of a longitude and a latitude: turn the x
    axis up by the latitude, then round by the longitude. *)
Theorem C43_polar :
  forall v lon lat, length v = 3%nat ->
  exists u, polar3_to_cartesian v lon lat = Ret u /\ norm u = 1 /\
    u = app (turn 0 1 lon) (app (turn 0 2 lat) [1; 0; 0]).
Proof. exact C43_polar_proof. Qed.
Print Assumptions C43_polar.

(** C43.  acose and asine never fail; on [-1, 1] they are the arc cosine and sine, outside
    they give the value at the nearer end. *)
Theorem C43_acose_asine :
  forall x, exists c s, acose x = Ret c /\ asine x = Ret s /\
    0 <= c <= PI /\ cos c = Rmax (- 1) (Rmin 1 x) /\ - (PI / 2) <= s <= PI / 2 /\ sin s = Rmax (- 1) (Rmin 1 x).
Proof. exact C43_acose_asine_proof. Qed.
Print Assumptions C43_acose_asine.
