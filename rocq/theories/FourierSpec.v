(** FourierSpec.v - trigonometric polynomials. *)
From Verif Require Import RealBase.

(** a_0 + sum_{1<=k<=K} a_k cos(k x) + b_k sin(k x) *)
Definition trig1 (K : nat) (a b : nat -> R) (x : R) : R := Rsum (S K) (fun k => a k * cos (INR k * x) + b k * sin (INR k * x)).
(** degree K0 in x, K1 in y *)
Definition trig2 (K0 K1 : nat) (a b c d : nat -> nat -> R) (x y : R) : R :=
  Rsum (S K0) (fun k => Rsum (S K1) (fun l =>
    a k l * (cos (INR k * x) * cos (INR l * y)) + b k l * (cos (INR k * x) * sin (INR l * y)) +
    c k l * (sin (INR k * x) * cos (INR l * y)) + d k l * (sin (INR k * x) * sin (INR l * y)))).
(** nodes of the equally spaced grid *)
Definition xnode (N i : nat) : R := INR i * (2 * PI / INR N).
(** a function of (theta,phi) that is the same along every meridian continued over a pole *)
Definition on_sphere (F : R -> R -> R) : Prop := forall th ph, F (2 * PI - th) (ph + PI) = F th ph.
(** (-1)^i *)
Definition alt (i : nat) : R := if Nat.even i then 1 else -1.
(** the largest product of a mode and an index fits in a 32-bit unsigned integer (n <= 92682) *)
Definition fits (n : nat) : Prop := (Z.of_nat (n / 2) * Z.of_nat (n - 1) < 4294967296)%Z.
