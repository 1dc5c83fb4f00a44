(** TovSpec.v - the Tolman-Oppenheimer-Volkoff equations in the areal radius rho. *)
From Verif Require Import RealBase.

(** energy density E, pressure P, mass M and potential Phi (g_tt = - exp(2 Phi)) as functions of the radius obey the equations at rho *)
Definition tov_at (E P M Phi : R -> R) (rho : R) : Prop :=
  derivable_pt_lim M rho (4 * PI * rho ^ 2 * E rho) /\
  derivable_pt_lim P rho (- (E rho + P rho) * (M rho + 4 * PI * rho ^ 3 * P rho) / (rho * (rho - 2 * M rho))) /\
  derivable_pt_lim Phi rho ((M rho + 4 * PI * rho ^ 3 * P rho) / (rho * (rho - 2 * M rho))).
(** first law at zero temperature, h the specific enthalpy: dp = rho0 dh with rho0 h = e + p *)
Definition first_law (e p : R -> R) (h : R) : Prop := derivable_pt_lim p h ((e h + p h) / h).
(** psi^4 (d rbar^2 + rbar^2 dOmega^2) = d rho^2/(1 - 2 M/rho) + rho^2 dOmega^2 at rho, for a positive conformal factor psi *)
Definition isotropic_at (M Rb Psi : R -> R) (rho : R) : Prop :=
  0 < Psi rho /\ Psi rho ^ 2 * Rb rho = rho /\ exists d, derivable_pt_lim Rb rho d /\ 0 < d /\ Psi rho ^ 4 * d ^ 2 = / (1 - 2 * M rho / rho).
(** f has the limit L at b from below *)
Definition limit_below (f : R -> R) (b L : R) : Prop :=
  forall eps, 0 < eps -> exists d, 0 < d /\ forall h, b - d < h < b -> Rabs (f h - L) < eps.
