(** Props_LinAlg3.v - property theorems C36 (3x3 inverse), C52 (boost), C53 (rotation), C54 (spherical <-> Cartesian vectors). *)
From Verif Require Import RealBase LinAlg3Model LinAlg3Spec LinAlg3Proofs LinAlg3Final.

(** C36. The full property is: for every invertible matrix the inverse macro gives the inverse.  Proved: it does whenever the
    first entry is not zero too, the determinant macro tells invertible matrices from the others, singular matrices never give
    a finite result, and for symmetric positive definite matrices (metrics) the symmetric macro always gives the inverse.
    Missing: invertible matrices with first entry 0, for which it is false (next theorem). *)
Theorem C36_inverse_partial :
  (forall m, a00 m <> 0 -> invertible m -> exists i, MLA_COMPUTE_INVERSE_3x3_GENERAL m = Some i /\ inverse_of i m) /\
  (forall m, Matrix_Determinant_3x3 m <> 0 <-> invertible m) /\
  (forall m i, MLA_COMPUTE_INVERSE_3x3_GENERAL m = Some i -> inverse_of i m) /\
  (forall s, s00 s <> 0 -> invertible (full s) -> exists i, Matrix_Inverse_3x3_Symmetric s = Some i /\ inverse_of (full i) (full s)) /\
  (forall s, Matrix_Determinant_3x3_Symmetric s = Matrix_Determinant_3x3 (full s)) /\
  (forall s, positive_definite s -> 0 < Matrix_Determinant_3x3_Symmetric s /\
      exists i, Matrix_Inverse_3x3_Symmetric s = Some i /\ inverse_of (full i) (full s)).
Proof. exact inverse_all. Qed.
Print Assumptions C36_inverse_partial.
(** Every matrix with first entry 0 is a witness, for example the cyclic permutation. *)
Theorem C36_zero_first_entry_refuted :
  (forall m, a00 m = 0 -> MLA_COMPUTE_INVERSE_3x3_GENERAL m = None) /\
  (exists m, a00 m = 0 /\ invertible m).
Proof. exact inverse_refuted. Qed.
Print Assumptions C36_zero_first_entry_refuted.
Example C36_ex_pd : positive_definite (S3 2 1 0 2 1 2).
Proof. exact ex_pd. Qed.
Example C36_ex_inv : invertible (M3 1 2 0 0 1 0 3 0 1) /\ a00 (M3 1 2 0 0 1 0 3 0 1) <> 0.
Proof. exact ex_inv. Qed.

(** C52. Boost with velocity B (|B| < 1; zero, or |B|^2 at least the tolerance 1e-12): a finite vector with the same
    Minkowski interval; the opposite direction flag undoes it; the event moving with velocity B is brought to rest. *)
Theorem C52_boost_partial : forall Bx By Bz, let B2 := Bx*Bx+By*By+Bz*Bz in
  B2 < 1 -> (B2 = 0 \/ ROUND_OFF_ERR <= B2) ->
  (forall i v, exists w, boost_transformation Bx By Bz B2 i v = Some w /\ interval w = interval v) /\
  (forall i j v w, (i = 1 <-> j <> 1)%Z -> boost_transformation Bx By Bz B2 i v = Some w -> boost_transformation Bx By Bz B2 j w = Some v) /\
  (forall i, i <> 1%Z -> exists t, boost_transformation Bx By Bz B2 i (V4 1 Bx By Bz) = Some (V4 t 0 0 0) /\ 0 < t) /\
  (B2 = 0 -> forall i v, boost_transformation Bx By Bz B2 i v = Some v).
Proof. exact boost_all. Qed.
Print Assumptions C52_boost_partial.
(** At or above light speed nothing finite comes out. *)
Theorem C52_superluminal : forall Bx By Bz B2 i v, 1 <= B2 -> boost_transformation Bx By Bz B2 i v = None.
Proof. exact boost_superluminal. Qed.
Print Assumptions C52_superluminal.
(** Below the tolerance (0 < |B| < 1e-6) the result is not a Lorentz transformation. *)
Theorem C52_slow_refuted : forall Bx By Bz i, let B2 := Bx*Bx+By*By+Bz*Bz in
  0 < B2 < ROUND_OFF_ERR -> exists v w, boost_transformation Bx By Bz B2 i v = Some w /\ interval w <> interval v.
Proof. exact boost_slow. Qed.
Print Assumptions C52_slow_refuted.
Example C52_ex : let B2 := (3/5)*(3/5) + 0*0 + 0*0 in B2 < 1 /\ ROUND_OFF_ERR <= B2.
Proof. exact ex_boost. Qed.
Example C52_ex_slow : let B2 := (/10000000)*(/10000000) + 0*0 + 0*0 in 0 < B2 < ROUND_OFF_ERR.
Proof. exact ex_slow. Qed.

(** C53. Rotations: time untouched, all scalar products and oriented volumes kept (a proper rotation), right-handed sense about each
    axis, composition Rz Ry Rx, and a passive rotation about one axis undoes the active one. *)
Theorem C53_rotation_partial :
  (forall Rx Ry Rz a v w c, let T := rotation_transformation Rx Ry Rz a in
     u0 (T v) = u0 v /\ dot3 (T v) (T w) = dot3 v w /\ triple (T v) (T w) (T c) = triple v w c) /\
  (forall phi, rotation_transformation 0 0 phi 1 (V4 0 1 0 0) = V4 0 (cos phi) (sin phi) 0 /\
     rotation_transformation phi 0 0 1 (V4 0 0 1 0) = V4 0 0 (cos phi) (sin phi) /\
     rotation_transformation 0 phi 0 1 (V4 0 0 0 1) = V4 0 (sin phi) 0 (cos phi)) /\
  (forall x y z v, rotation_transformation x y z 1 v =
     rotation_transformation 0 0 z 1 (rotation_transformation 0 y 0 1 (rotation_transformation x 0 0 1 v))) /\
  (forall x y z v a b, (a = 1 <-> b <> 1)%Z ->
     rotation_transformation 0 0 z b (rotation_transformation 0 0 z a v) = v /\
     rotation_transformation 0 y 0 b (rotation_transformation 0 y 0 a v) = v /\
     rotation_transformation x 0 0 b (rotation_transformation x 0 0 a v) = v).
Proof. exact rotation_all. Qed.
Print Assumptions C53_rotation_partial.
(** With two angles the passive rotation does not undo the active one. *)
Theorem C53_two_angles_refuted :
  rotation_transformation (PI/2) 0 (PI/2) 0 (rotation_transformation (PI/2) 0 (PI/2) 1 (V4 0 1 0 0)) <> V4 0 1 0 0.
Proof. exact rotation_not_undo. Qed.
Print Assumptions C53_two_angles_refuted.
Example C53_ex : exists v w : Z, (v = 1 <-> w <> 1)%Z.
Proof. exact ex_flags. Qed.

(** C54. Spherical to Cartesian: the velocity of every differentiable curve given in spherical coordinates is mapped to its
    Cartesian velocity; Cartesian to spherical is the two-sided inverse where r sin(theta) is not 0 and cos(phi) is not 0; without a
    direction the program stops. *)
Theorem C54_sphe_cart_partial :
  (forall (r th ph : R -> R) t0 r' th' ph',
     derivable_pt_lim r t0 r' -> derivable_pt_lim th t0 th' -> derivable_pt_lim ph t0 ph' ->
     exists w, spheNcart_transformation (r t0) (th t0) (ph t0) false true (V3 r' th' ph') = Some (Some w) /\
      derivable_pt_lim (fun t => r t * sin (th t) * cos (ph t)) t0 (w0 w) /\
      derivable_pt_lim (fun t => r t * sin (th t) * sin (ph t)) t0 (w1 w) /\
      derivable_pt_lim (fun t => r t * cos (th t)) t0 (w2 w)) /\
  (forall r th ph v, r <> 0 -> sin th <> 0 -> cos ph <> 0 ->
     exists w, spheNcart_transformation r th ph true false v = Some (Some w) /\
               spheNcart_transformation r th ph false true w = Some (Some v) /\
     exists z, spheNcart_transformation r th ph false true v = Some (Some z) /\
               spheNcart_transformation r th ph true false z = Some (Some v)) /\
  (forall r th ph v, spheNcart_transformation r th ph false false v = None).
Proof. exact sphe_cart_all. Qed.
Print Assumptions C54_sphe_cart_partial.
(** On the whole half planes phi = pi/2 and 3pi/2, where the map is invertible, the result is not finite. *)
Theorem C54_yz_plane_refuted :
  (forall r th ph v s, cos ph = 0 -> spheNcart_transformation r th ph true s v = Some None) /\
  (forall r th ph, r <> 0 -> sin th <> 0 -> invertible (dc_ds r th ph)).
Proof. exact yz_plane. Qed.
Print Assumptions C54_yz_plane_refuted.
Example C54_ex : 1 <> 0 /\ sin (PI/2) <> 0 /\ cos 0 <> 0 /\ cos (PI/2) = 0.
Proof. exact ex_sphe. Qed.
