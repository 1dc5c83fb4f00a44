(* Generated by tools/c2coq.py from /repo/Src/Main/Modules/Physics/StressEnergy_Tensor/Tij_NS_ifluid_xcts_gConf_psi6S.c: do not edit.
   Pointwise: one node ijk of the loop over the nodes of a patch; doubles are reals. p and e0 are what the EoS returns for the enthalpy of the node. *)
Require Import Reals.
Local Open Scope R_scope.

(* /repo/Src/Main/Modules/Physics/StressEnergy_Tensor/Tij_NS_ifluid_xcts_gConf_psi6S.c:41-70: the values the loop body reads at its node: field B_U0D1 is B 0 1 *)
Record env : Type := mk {
  W : nat -> R;
  dphi : nat -> R;
  e0 : R;
  enthalpy : R;
  gConf : nat -> nat -> R;
  igConf : nat -> nat -> R;
  p : R;
  psi : R;
  rho0 : R }.

(* /repo/Src/Main/Modules/Physics/StressEnergy_Tensor/Tij_NS_ifluid_xcts_gConf_psi6S.c:41-42 *)
Definition psim4 (E : env) : R :=
  / ((psi E) ^ 4).

(* /repo/Src/Main/Modules/Physics/StressEnergy_Tensor/Tij_NS_ifluid_xcts_gConf_psi6S.c:44-45 *)
Definition psi4 (E : env) : R :=
  (psi E) ^ 4.

(* /repo/Src/Main/Modules/Physics/StressEnergy_Tensor/Tij_NS_ifluid_xcts_gConf_psi6S.c:47-48 *)
Definition psi6 (E : env) : R :=
  (psi E) ^ 6.

(* /repo/Src/Main/Modules/Physics/StressEnergy_Tensor/Tij_NS_ifluid_xcts_gConf_psi6S.c:50-59 *)
Definition P2 (E : env) : R :=
  (((((2 * (W E 0)) * (dphi E 0)) + ((2 * (W E 1)) * (dphi E 1))) + ((2 * (W E 2)) * (dphi E 2)))
  + ((psi4 E) * ((((((((W E 0) ^ 2) * (gConf E 0 0)) + (((2 * (W E 0)) * (W E 1)) * (gConf E 0
  1))) + (((2 * (W E 0)) * (W E 2)) * (gConf E 0 2))) + (((W E 1) ^ 2) * (gConf E 1 1))) + (((2 *
  (W E 1)) * (W E 2)) * (gConf E 1 2))) + (((W E 2) ^ 2) * (gConf E 2 2))))) + ((psim4 E) *
  ((((((((dphi E 0) ^ 2) * (igConf E 0 0)) + (((2 * (dphi E 0)) * (dphi E 1)) * (igConf E 0 1)))
  + (((2 * (dphi E 0)) * (dphi E 2)) * (igConf E 0 2))) + (((dphi E 1) ^ 2) * (igConf E 1 1))) +
  (((2 * (dphi E 1)) * (dphi E 2)) * (igConf E 1 2))) + (((dphi E 2) ^ 2) * (igConf E 2 2)))).

(* /repo/Src/Main/Modules/Physics/StressEnergy_Tensor/Tij_NS_ifluid_xcts_gConf_psi6S.c:61-62 *)
Definition Sbar (E : env) : R :=
  (psi6 E) * ((((P2 E) * (rho0 E)) / (enthalpy E)) + (3 * (p E))).

(* /repo/Src/Main/Modules/Physics/StressEnergy_Tensor/Tij_NS_ifluid_xcts_gConf_psi6S.c:64 *)
Definition out_SConf (E : env) : R :=
  Sbar E.

(* /repo/Src/Main/Modules/Physics/StressEnergy_Tensor/Tij_NS_ifluid_xcts_gConf_psi6S.c:65 *)
Definition p_o_rho0 (E : env) : R :=
  ((enthalpy E) - 1) - (e0 E).

(* /repo/Src/Main/Modules/Physics/StressEnergy_Tensor/Tij_NS_ifluid_xcts_gConf_psi6S.c:66-67 *)
Definition SbarP (E : env) : R :=
  ((p E) * (psi6 E)) * (((P2 E) / (enthalpy E)) + (3 * (p_o_rho0 E))).

(* /repo/Src/Main/Modules/Physics/StressEnergy_Tensor/Tij_NS_ifluid_xcts_gConf_psi6S.c:69 *)
Definition out_SConfP (E : env) : R :=
  SbarP E.

(* /repo/Src/Main/Modules/Physics/StressEnergy_Tensor/Tij_NS_ifluid_xcts_gConf_psi6S.c:70 *)
Definition out_SConfC (E : env) : R :=
  p_o_rho0 E.
