(** AdmSpec.v - the physical 3-geometry belonging to conformal data, and the ADM constraints.
    Physical metric psi^4 g; K^ij = A^ij/psi^10 + g^ij K/(3 psi^4). *)
From Verif Require Import RealBase TensorSpec XctsSpec ShiftSpec.

Section Phys.
  Variables (g ig : nat -> nat -> R) (dg dig : nat -> nat -> nat -> R).
  Variables (G : nat -> nat -> nat -> R) (dG : nat -> nat -> nat -> nat -> R).
  Variables (psi : R) (dpsi : nat -> R) (ddpsi : nat -> nat -> R).
  (** d_i ln psi and its derivatives *)
  Definition Lp (i : nat) : R := dpsi i / psi.
  Definition dLp (i j : nat) : R := ddpsi i j / psi - dpsi i * dpsi j / psi ^ 2.
  (** metric, inverse and derivatives (product rule) *)
  Definition Pg (i j : nat) : R := psi ^ 4 * g i j.
  Definition Pig (i j : nat) : R := ig i j / psi ^ 4.
  Definition dPg (i j k : nat) : R := psi ^ 4 * dg i j k + 4 * psi ^ 3 * dpsi k * g i j.
  (** W^k = g^km d_m ln psi *)
  Definition Wp (k : nat) : R := sum3 (fun m => ig k m * Lp m).
  Definition dWp (k l : nat) : R := sum3 (fun m => dig k m l * Lp m + ig k m * dLp m l).
  (** connection of psi^4 g: G^k_ij + 2 (delta^k_i L_j + delta^k_j L_i - g_ij W^k) *)
  Definition Cp (k i j : nat) : R := 2 * (delta k i * Lp j + delta k j * Lp i - g i j * Wp k).
  Definition dCp (k i j l : nat) : R := 2 * (delta k i * dLp j l + delta k j * dLp i l - dg i j l * Wp k - g i j * dWp k l).
  Definition PG (k i j : nat) : R := G k i j + Cp k i j.
  Definition dPG (k i j l : nat) : R := dG k i j l + dCp k i j l.
  (** extrinsic curvature *)
  Variables (A : nat -> nat -> R) (dA : nat -> nat -> nat -> R) (K : R) (dK : nat -> R).
  Definition Kup (i j : nat) : R := A i j / psi ^ 10 + ig i j * K / (3 * psi ^ 4).
  Definition dKup (i j k : nat) : R :=
    dA i j k / psi ^ 10 - 10 * A i j * dpsi k / psi ^ 11
    + (dig i j k * K + ig i j * dK k) / (3 * psi ^ 4) - 4 * ig i j * K * dpsi k / (3 * psi ^ 5).
  Definition Kdn (i j : nat) : R := sum3 (fun l => sum3 (fun m => g i l * g j m * A l m)) / psi ^ 2 + psi ^ 4 * g i j * K / 3.
End Phys.

(** D_k g_ij = 0 *)
Definition compat (g : nat -> nat -> R) (dg G : nat -> nat -> nat -> R) : Prop :=
  forall i j k, (i < 3)%nat -> (j < 3)%nat -> (k < 3)%nat ->
  dg i j k = sum3 (fun l => G l k i * g l j) + sum3 (fun l => G l k j * g i l).

(** square of a contravariant tensor *)
Definition square2 (g T : nat -> nat -> R) : R := sum3 (fun i => sum3 (fun j => sum3 (fun l => sum3 (fun m => g i l * g j m * T i j * T l m)))).

(** Hamiltonian and momentum constraints of a metric g with inverse ig and connection G, extrinsic
    curvature K^ij with trace K, energy density rho and momentum density j; C is the rescaling of
    the geometric terms the code allows (1 unless rescaled) *)
Definition HamConstraint (C : R) (g ig : nat -> nat -> R) (Ric : nat -> nat -> R) (Kij : nat -> nat -> R) (K rho : R) : R :=
  C * (trace3 ig Ric - square2 g Kij + K ^ 2) - 16 * PI * rho.
Definition MomConstraint (C : R) (ig : nat -> nat -> R) G (Kij : nat -> nat -> R) dKij (dK : nat -> R) (j : nat -> R) (i : nat) : R :=
  C * (DivT G Kij dKij i - sum3 (fun l => ig i l * dK l)) - 8 * PI * j i.
