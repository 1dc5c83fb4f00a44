(* Generated by tools/c2coq.py from /repo/Src/Main/Modules/Physics/StressEnergy_Tensor/Tij_NS_ifluid_xcts_gConf_u0.c: do not edit.
   Pointwise: one node ijk of the loop over the nodes of a patch; doubles are reals. *)
Require Import Reals.
Local Open Scope R_scope.

(* /repo/Src/Main/Modules/Physics/StressEnergy_Tensor/Tij_NS_ifluid_xcts_gConf_u0.c:42-65: the values the loop body reads at its node: field B_U0D1 is B 0 1 *)
Record env : Type := mk {
  W : nat -> R;
  alphaPsi : R;
  dphi : nat -> R;
  enthalpy : R;
  gConf : nat -> nat -> R;
  igConf : nat -> nat -> R;
  psi : R }.

(* /repo/Src/Main/Modules/Physics/StressEnergy_Tensor/Tij_NS_ifluid_xcts_gConf_u0.c:42-43 *)
Definition alpha (E : env) : R :=
  (alphaPsi E) / (psi E).

(* /repo/Src/Main/Modules/Physics/StressEnergy_Tensor/Tij_NS_ifluid_xcts_gConf_u0.c:45-46 *)
Definition psim4 (E : env) : R :=
  / ((psi E) ^ 4).

(* /repo/Src/Main/Modules/Physics/StressEnergy_Tensor/Tij_NS_ifluid_xcts_gConf_u0.c:48-49 *)
Definition psi4 (E : env) : R :=
  (psi E) ^ 4.

(* /repo/Src/Main/Modules/Physics/StressEnergy_Tensor/Tij_NS_ifluid_xcts_gConf_u0.c:51-60 *)
Definition P2 (E : env) : R :=
  (((((2 * (W E 0)) * (dphi E 0)) + ((2 * (W E 1)) * (dphi E 1))) + ((2 * (W E 2)) * (dphi E 2)))
  + ((psi4 E) * ((((((((W E 0) ^ 2) * (gConf E 0 0)) + (((2 * (W E 0)) * (W E 1)) * (gConf E 0
  1))) + (((2 * (W E 0)) * (W E 2)) * (gConf E 0 2))) + (((W E 1) ^ 2) * (gConf E 1 1))) + (((2 *
  (W E 1)) * (W E 2)) * (gConf E 1 2))) + (((W E 2) ^ 2) * (gConf E 2 2))))) + ((psim4 E) *
  ((((((((dphi E 0) ^ 2) * (igConf E 0 0)) + (((2 * (dphi E 0)) * (dphi E 1)) * (igConf E 0 1)))
  + (((2 * (dphi E 0)) * (dphi E 2)) * (igConf E 0 2))) + (((dphi E 1) ^ 2) * (igConf E 1 1))) +
  (((2 * (dphi E 1)) * (dphi E 2)) * (igConf E 1 2))) + (((dphi E 2) ^ 2) * (igConf E 2 2)))).

(* /repo/Src/Main/Modules/Physics/StressEnergy_Tensor/Tij_NS_ifluid_xcts_gConf_u0.c:62-63 *)
Definition u_mu0 (E : env) : R :=
  (sqrt ((P2 E) + ((enthalpy E) ^ 2))) / ((alpha E) * (enthalpy E)).

(* /repo/Src/Main/Modules/Physics/StressEnergy_Tensor/Tij_NS_ifluid_xcts_gConf_u0.c:65 *)
Definition out_u0 (E : env) : R :=
  u_mu0 E.
