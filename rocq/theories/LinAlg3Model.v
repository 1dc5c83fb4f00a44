(** LinAlg3Model.v - the 3x3 inverse and determinant macros, and the vector transformations.
    Real arithmetic is exact (see RealBase.v). *)
From Verif Require Import RealBase.

(** The nine arguments a00..a22 of the macros. *)
Record mat3 := M3 { a00:R; a01:R; a02:R; a10:R; a11:R; a12:R; a20:R; a21:R; a22:R }.

(** maths_linear_algebra_lib.h:155-159 Matrix_Determinant_3x3 *)
Definition Matrix_Determinant_3x3 (m : mat3) : R :=
  a00 m * a11 m * a22 m - a00 m * a12 m * a21 m -
  a01 m * a10 m * a22 m + a01 m * a12 m * a20 m +
  a02 m * a10 m * a21 m - a02 m * a11 m * a20 m.

(** maths_linear_algebra_lib.h:57-70 MLA_COMPUTE_INVERSE_3x3_GENERAL_VAR and :27-40 its FIELD
    version (same right-hand sides, indexed by [ijk]): the nine assignments in order.
    The inverse is a different set of variables than the matrix. *)
Definition MLA_COMPUTE_INVERSE_3x3_GENERAL (m : mat3) : option mat3 :=
  let '(M3 a00 a01 a02 a10 a11 a12 a20 a21 a22) := m in
  let? i00 := fdiv (a11*a22 - a12*a21) (a00*a11*a22 - a00*a12*a21 - a01*a10*a22 + a01*a12*a20 + a02*a10*a21 - a02*a11*a20) in
  let? i01 := fdiv (-a01*a22 + a02*a21) (a00*a11*a22 - a00*a12*a21 - a01*a10*a22 + a01*a12*a20 + a02*a10*a21 - a02*a11*a20) in
  let? i02 := fdiv (a01*a12 - a02*a11) (a00*a11*a22 - a00*a12*a21 - a01*a10*a22 + a01*a12*a20 + a02*a10*a21 - a02*a11*a20) in
  let? i10 := fdiv (-a10*a22 + a12*a20) (a00*a11*a22 - a00*a12*a21 - a01*a10*a22 + a01*a12*a20 + a02*a10*a21 - a02*a11*a20) in
  let? i11 := fdiv (a00*(a00*a22 - a02*a20)) ((a00*a11 - a01*a10)*(a00*a22 - a02*a20) - (a00*a12 - a02*a10)*(a00*a21 - a01*a20)) in
  let? i12 := fdiv (-a00*(a00*a12 - a02*a10)) ((a00*a11 - a01*a10)*(a00*a22 - a02*a20) - (a00*a12 - a02*a10)*(a00*a21 - a01*a20)) in
  let? i20 := fdiv (a10*a21 - a11*a20) (a00*a11*a22 - a00*a12*a21 - a01*a10*a22 + a01*a12*a20 + a02*a10*a21 - a02*a11*a20) in
  let? i21 := fdiv (-a00*(a00*a21 - a01*a20)) ((a00*a11 - a01*a10)*(a00*a22 - a02*a20) - (a00*a12 - a02*a10)*(a00*a21 - a01*a20)) in
  let? i22 := fdiv (a00*(a00*a11 - a01*a10)) ((a00*a11 - a01*a10)*(a00*a22 - a02*a20) - (a00*a12 - a02*a10)*(a00*a21 - a01*a20)) in
  Some (M3 i00 i01 i02 i10 i11 i12 i20 i21 i22).

(** The six stored components of a symmetric matrix. *)
Record sym3 := S3 { s00:R; s01:R; s02:R; s11:R; s12:R; s22:R }.

(** maths_linear_algebra_lib.h:74-78,98-102 Matrix_Inverse_3x3_Symmetric_Field/_Var with their back-ends
    :14-22 and :42-50: the arguments a10, a20, a21 are the components 01, 02, 12. *)
Definition Matrix_Inverse_3x3_Symmetric (m : sym3) : option sym3 :=
  let '(S3 a00 a01 a02 a11 a12 a22) := m in
  let a10 := a01 in let a20 := a02 in let a21 := a12 in
  let? i00 := fdiv (a11*a22 - a12*a21) (a00*a11*a22 - a00*a12*a21 - a01*a10*a22 + a01*a12*a20 + a02*a10*a21 - a02*a11*a20) in
  let? i01 := fdiv (-a01*a22 + a02*a21) (a00*a11*a22 - a00*a12*a21 - a01*a10*a22 + a01*a12*a20 + a02*a10*a21 - a02*a11*a20) in
  let? i02 := fdiv (a01*a12 - a02*a11) (a00*a11*a22 - a00*a12*a21 - a01*a10*a22 + a01*a12*a20 + a02*a10*a21 - a02*a11*a20) in
  let? i11 := fdiv (a00*(a00*a22 - a02*a20)) ((a00*a11 - a01*a10)*(a00*a22 - a02*a20) - (a00*a12 - a02*a10)*(a00*a21 - a01*a20)) in
  let? i12 := fdiv (-a00*(a00*a12 - a02*a10)) ((a00*a11 - a01*a10)*(a00*a22 - a02*a20) - (a00*a12 - a02*a10)*(a00*a21 - a01*a20)) in
  let? i22 := fdiv (a00*(a00*a11 - a01*a10)) ((a00*a11 - a01*a10)*(a00*a22 - a02*a20) - (a00*a12 - a02*a10)*(a00*a21 - a01*a20)) in
  Some (S3 i00 i01 i02 i11 i12 i22).

(** maths_linear_algebra_lib.h:120-134 Matrix_Determinant_3x3_Symmetric_Field/_Var *)
Definition Matrix_Determinant_3x3_Symmetric (m : sym3) : R :=
  Matrix_Determinant_3x3 (M3 (s00 m) (s01 m) (s02 m) (s01 m) (s11 m) (s12 m) (s02 m) (s12 m) (s22 m)).

(** ** Transformations (Src/Main/Modules/Physics/Transformation) *)
Record vec4 := V4 { u0:R; u1:R; u2:R; u3:R }.
Record vec3 := V3 { w0:R; w1:R; w2:R }.

(** boost.c:13-58 boost_transformation; B2 is given by the caller
    (physics_transformation_lib.h:17), [inverse] is t->boost->inverse. *)
Definition boost_transformation (tBx tBy tBz B2 : R) (inverse : Z) (v : vec4) : option vec4 :=
  let s := if Z.eqb inverse 1 then -1 else 1 in
  let Bx := s * tBx in let By := s * tBy in let Bz := s * tBz in
  if ltR (1 - B2) 0 then None (* sqrt of a negative number *) else
  let? gamma := fdiv 1 (sqrt (1 - B2)) in
  let G00 := gamma in
  let G01 := - gamma * Bx in
  let G02 := - gamma * By in
  let G03 := - gamma * Bz in
  let? G11 := if EQL B2 0 then Some 1 else let? q := fdiv ((gamma-1) * Pow2 Bx) B2 in Some (1 + q) in
  let? G12 := if EQL B2 0 then Some 0 else fdiv ((gamma-1) * Bx * By) B2 in
  let? G13 := if EQL B2 0 then Some 0 else fdiv ((gamma-1) * Bx * Bz) B2 in
  let? G22 := if EQL B2 0 then Some 1 else let? q := fdiv ((gamma-1) * Pow2 By) B2 in Some (1 + q) in
  let? G23 := if EQL B2 0 then Some 0 else fdiv ((gamma-1) * By * Bz) B2 in
  let? G33 := if EQL B2 0 then Some 1 else let? q := fdiv ((gamma-1) * Pow2 Bz) B2 in Some (1 + q) in
  let '(V4 v0 v1 v2 v3) := v in
  Some (V4 (G00*v0 + G01*v1 + G02*v2 + G03*v3)
           (G01*v0 + G11*v1 + G12*v2 + G13*v3)
           (G02*v0 + G12*v1 + G22*v2 + G23*v3)
           (G03*v0 + G13*v1 + G23*v2 + G33*v3)).

(** rotation.c:13-127 rotation_transformation; the matrix entries that are the literals 0 and 1
    are multiplied out. *)
Definition rotation_transformation (tRx tRy tRz : R) (active : Z) (v : vec4) : vec4 :=
  let s := if Z.eqb active 1 then 1 else -1 in
  let phix := s * tRx in let phiy := s * tRy in let phiz := s * tRz in
  let '(V4 v0 v1 v2 v3) := v in
  (* u0 = Rx v *)
  let u00 := v0 in
  let u01 := v1 in
  let u02 := cos phix * v2 + - sin phix * v3 in
  let u03 := sin phix * v2 + cos phix * v3 in
  (* u1 = Ry u0 *)
  let u13 := - sin phiy * u01 + cos phiy * u03 in
  let u12 := u02 in
  let u11 := cos phiy * u01 + sin phiy * u03 in
  let u10 := u00 in
  (* u = Rz u1 *)
  let r3 := u13 in
  let r2 := sin phiz * u11 + cos phiz * u12 in
  let r1 := cos phiz * u11 + - sin phiz * u12 in
  let r0 := u10 in
  V4 r0 r1 r2 r3.

(** sphe_and_cart_coords.c:27-35: the matrix d(x,y,z)/d(r,th,ph) *)
Definition dc_ds (r th ph : R) : mat3 :=
  M3 (sin th * cos ph) (r * cos th * cos ph) (- r * sin th * sin ph)
     (sin th * sin ph) (r * cos th * sin ph) (r * sin th * cos ph)
     (cos th) (- r * sin th) 0.
(** The three sums of products (:52-61, :69-77) *)
Definition mvec (m : mat3) (v : vec3) : vec3 :=
  let '(V3 v0 v1 v2) := v in
  V3 (a00 m*v0 + a01 m*v1 + a02 m*v2)
     (a10 m*v0 + a11 m*v1 + a12 m*v2)
     (a20 m*v0 + a21 m*v1 + a22 m*v2).
(** Outcome of sphe_and_cart_coords.c:15-87 spheNcart_transformation: [None] = the program stops
    (NO_OPTION), [Some None] = not finite. [c2s], [s2c] are the two flags; c2s is tested first. *)
Definition spheNcart_transformation (r th ph : R) (c2s s2c : bool) (v : vec3) : option (option vec3) :=
  if c2s then
    Some (let? inv := MLA_COMPUTE_INVERSE_3x3_GENERAL (dc_ds r th ph) in Some (mvec inv v))
  else if s2c then Some (Some (mvec (dc_ds r th ph) v))
  else None.
