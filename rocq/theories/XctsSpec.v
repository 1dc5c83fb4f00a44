(** XctsSpec.v - the XCTS equations in covariant form and what it means that a matrix is the
    Jacobian of a residual.  Notation: psi conformal factor, ap = alpha psi, A2 = A_ij A^ij of the
    conformal extrinsic curvature, K mean curvature, Rs conformal Ricci scalar. *)
From Verif Require Import RealBase TensorSpec.

(** Hamiltonian constraint: C (D^2 psi - R psi/8 - K^2 psi^5/12 + A2/(8 psi^7)) + 2 pi E/psi, E = psi^6 rho *)
Definition ham (lap Rs K A2 C E psi : R) : R :=
  C * (lap - Rs * psi / 8 - K ^ 2 * psi ^ 5 / 12 + A2 / (8 * psi ^ 7)) + 2 * PI * E / psi.
(** its derivative in the direction (lap, psi) -> (dlap, dpsi) *)
Definition dham (Rs K A2 C E psi dlap dpsi : R) : R :=
  C * (dlap - dpsi * (Rs / 8 + 5 * K ^ 2 * psi ^ 4 / 12 + 7 * A2 / (8 * psi ^ 8))) - 2 * PI * E * dpsi / psi ^ 2.

(** lapse equation: C (D^2 ap - ap (7 A2/(8 psi^8) + 5 psi^4 K^2/12 + R/8) - psi^5 beta^i d_i K) - 2 pi ap (E + 2 S)/psi^2 *)
Definition lapse (lap Rs K A2 C E S psi betadK ap : R) : R :=
  C * (lap - ap * (7 * A2 / (8 * psi ^ 8) + 5 * psi ^ 4 * K ^ 2 / 12 + Rs / 8) - psi ^ 5 * betadK)
  - 2 * PI * ap * (E + 2 * S) / psi ^ 2.

(** divergence of a contravariant symmetric tensor: D_j T^ij = d_j T^ij + G^i_jl T^lj + G^j_jl T^il *)
Definition DivT (G : nat -> nat -> nat -> R) (T : nat -> nat -> R) (dT : nat -> nat -> nat -> R) (i : nat) : R :=
  sum3 (fun j => dT i j j) + sum3 (fun j => sum3 (fun l => G i j l * T l j)) + sum3 (fun j => sum3 (fun l => G j j l * T i l)).

(** momentum constraint: 2 ap (C (D_j A^ij/psi^7 - 2/3 g^ij d_j K/psi) - 8 pi J^i/psi^3), J = psi^6 j *)
Definition mom (div gradK C J psi ap : R) : R :=
  2 * ap * (C * (div / psi ^ 7 - 2 / 3 * gradK / psi) - 8 * PI * J / psi ^ 3).

(** * Jacobians *)
(** field values at the nodes 0..n-1 of a patch; [bump u l t] changes the value at node l by t *)
Definition nodal := nat -> R.
Definition bump (u : nodal) (l : nat) (t : R) : nodal := fun i => if Nat.eqb i l then u i + t else u i.
(** a linear operation on the n nodal values, with matrix M *)
Definition lin (n : nat) (M : nat -> nat -> R) (u : nodal) (i : nat) : R := Rsum n (fun l => M i l * u l).
(** [J ijk lmn] is the derivative of the residual at node ijk with respect to the value at node lmn *)
Definition jacobian (n : nat) (F : nodal -> nat -> R) (u : nodal) (ok : nat -> Prop) (J : nat -> nat -> R) : Prop :=
  forall ijk lmn, (ijk < n)%nat -> (lmn < n)%nat -> ok ijk ->
  derivable_pt_lim (fun t => F (bump u lmn t) ijk) 0 (J ijk lmn).
Definition krd (i j : nat) : R := if Nat.eqb i j then 1 else 0.
(** numbering of the second derivatives: xx, xy, xz, yy, yz, zz *)
Definition ax2 (a b : nat) : nat :=
  match a, b with
  | 0, 0 => 0 | 0, 1 | 1, 0 => 1 | 0, _ | _, 0 => 2 | 1, 1 => 3 | 1, _ | _, 1 => 4 | _, _ => 5
  end%nat.
