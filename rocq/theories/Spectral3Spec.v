(** Spectral3Spec.v - what the three-dimensional properties are stated with. *)
From Verif Require Import RealBase.

(** sum of a_{ijk} x^i y^j z^k, degrees below m0, m1, m2 *)
Definition peval3 (m0 m1 m2 : nat) (a : nat -> nat -> nat -> R) (x y z : R) : R :=
  Rsum m0 (fun i => Rsum m1 (fun j => Rsum m2 (fun k => a i j k * x^i * y^j * z^k))).
Definition peval2 (m0 m1 : nat) (a : nat -> nat -> R) (x y : R) : R :=
  Rsum m0 (fun i => Rsum m1 (fun j => a i j * x^i * y^j)).
(** I is the integral of f from a to b (a > b allowed, with the sign): the increase of an antiderivative of f *)
Definition integral_is (f : R -> R) (a b I : R) : Prop :=
  exists F : R -> R, (forall x, derivable_pt_lim F x (f x)) /\ I = F b - F a.
(** iterated integrals *)
Definition integral2_is (f : R -> R -> R) (a0 b0 a1 b1 I : R) : Prop :=
  exists G : R -> R, (forall y, integral_is (fun x => f x y) a0 b0 (G y)) /\ integral_is G a1 b1 I.
Definition integral3_is (f : R -> R -> R -> R) (a0 b0 a1 b1 a2 b2 I : R) : Prop :=
  exists G : R -> R -> R, (forall y z, integral_is (fun x => f x y z) a0 b0 (G y z)) /\ integral2_is G a1 b1 a2 b2 I.
(** determinant of a symmetric 3x3 and of a symmetric 2x2 matrix *)
Definition det3s (m00 m01 m02 m11 m12 m22 : R) : R :=
  m00 * (m11 * m22 - m12 * m12) - m01 * (m01 * m22 - m12 * m02) + m02 * (m01 * m12 - m11 * m02).
Definition det2s (m00 m01 m11 : R) : R := m00 * m11 - m01 * m01.
(** Chebyshev polynomials of the first kind *)
Fixpoint chebT (n : nat) (x : R) : R :=
  match n with
  | O => 1
  | S m => match m with O => x | S k => 2 * x * chebT m x - chebT k x end
  end.
(** n! *)
Fixpoint zfact (n : nat) : Z := match n with O => 1%Z | S m => (Z.of_nat n * zfact m)%Z end.
