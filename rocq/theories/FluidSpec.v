(** FluidSpec.v - a perfect fluid in a 3+1 split of spacetime.  Index 0 is time, 1..3 are space. *)
From Verif Require Import RealBase TensorSpec.

Definition sum4 (f : nat -> R) : R := f 0%nat + sum3 (fun i => f (S i)).
(** spacetime metric of lapse al, shift be and spatial metric gam *)
Definition g4 (al : R) (be : nat -> R) (gam : nat -> nat -> R) (a b : nat) : R :=
  match a, b with
  | O, O => - al ^ 2 + sum3 (fun i => sum3 (fun j => gam i j * be i * be j))
  | O, S j => sum3 (fun k => gam j k * be k)
  | S i, O => sum3 (fun k => gam i k * be k)
  | S i, S j => gam i j
  end.
Definition dot4 (g : nat -> nat -> R) (u v : nat -> R) : R := sum4 (fun a => sum4 (fun b => g a b * u a * v b)).
Definition low4 (g : nat -> nat -> R) (u : nat -> R) (a : nat) : R := sum4 (fun b => g a b * u b).
(** unit normal of the slices, n^a = (1, - beta^i)/alpha *)
Definition n4 (al : R) (be : nat -> R) (a : nat) : R := match a with O => 1 / al | S i => - be i / al end.
(** stress-energy of a perfect fluid, indices down *)
Definition T4 (g : nat -> nat -> R) (rho h p : R) (u : nat -> R) (a b : nat) : R :=
  rho * h * low4 g u a * low4 g u b + p * g a b.
(** what an observer along n measures *)
Definition energy4 T al be : R := dot4 T (n4 al be) (n4 al be).
Definition momentum4 (igam : nat -> nat -> R) T al be (i : nat) : R :=
  - sum3 (fun j => igam i j * sum4 (fun a => T (S j) a * n4 al be a)).
Definition stress4 (igam : nat -> nat -> R) (T : nat -> nat -> R) : R := sum3 (fun i => sum3 (fun j => igam i j * T (S i) (S j))).
(** four-velocity with h u_i = d_i phi + W_i: u^i = (gam^ij d_j phi + W^i)/h - u^0 beta^i *)
Definition vel4 (igam : nat -> nat -> R) (dphi W be : nat -> R) (h u0 : R) (a : nat) : R :=
  match a with O => u0 | S i => (sum3 (fun j => igam i j * dphi j) + W i) / h - u0 * be i end.

Definition semipos (g : nat -> nat -> R) : Prop := forall v : nat -> R, 0 <= sum3 (fun i => sum3 (fun j => g i j * v i * v j)).
(** cross product *)
Definition cross (a b : nat -> R) (i : nat) : R :=
  a ((i + 1) mod 3)%nat * b ((i + 2) mod 3)%nat - a ((i + 2) mod 3)%nat * b ((i + 1) mod 3)%nat.
Definition det3s (g : nat -> nat -> R) : R :=
  g 0%nat 0%nat * (g 1%nat 1%nat * g 2%nat 2%nat - g 1%nat 2%nat * g 2%nat 1%nat) - g 0%nat 1%nat * (g 1%nat 0%nat * g 2%nat 2%nat - g 1%nat 2%nat * g 2%nat 0%nat)
  + g 0%nat 2%nat * (g 1%nat 0%nat * g 2%nat 1%nat - g 1%nat 1%nat * g 2%nat 0%nat).
