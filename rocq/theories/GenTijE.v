(* Generated by tools/c2coq.py from /repo/Src/Main/Modules/Physics/StressEnergy_Tensor/Tij_NS_ifluid_xcts_gConf_psi6E.c: do not edit.
   Pointwise: one node ijk of the loop over the nodes of a patch; doubles are reals. p and e0 are what the EoS returns for the enthalpy of the node. *)
Require Import Reals.
Local Open Scope R_scope.

(* /repo/Src/Main/Modules/Physics/StressEnergy_Tensor/Tij_NS_ifluid_xcts_gConf_psi6E.c:25-44: the values the loop body reads at its node: field B_U0D1 is B 0 1 *)
Record env : Type := mk {
  alphaPsi : R;
  e0 : R;
  enthalpy : R;
  p : R;
  psi : R;
  rho0 : R;
  u0 : R }.

(* /repo/Src/Main/Modules/Physics/StressEnergy_Tensor/Tij_NS_ifluid_xcts_gConf_psi6E.c:25-26 *)
Definition alpha (E : env) : R :=
  (alphaPsi E) / (psi E).

(* /repo/Src/Main/Modules/Physics/StressEnergy_Tensor/Tij_NS_ifluid_xcts_gConf_psi6E.c:28-29 *)
Definition psi6 (E : env) : R :=
  (psi E) ^ 6.

(* /repo/Src/Main/Modules/Physics/StressEnergy_Tensor/Tij_NS_ifluid_xcts_gConf_psi6E.c:31-33 *)
Definition Ebar (E : env) : R :=
  (psi6 E) * ((((((alpha E) ^ 2) * (enthalpy E)) * (rho0 E)) * ((u0 E) ^ 2)) - (p E)).

(* /repo/Src/Main/Modules/Physics/StressEnergy_Tensor/Tij_NS_ifluid_xcts_gConf_psi6E.c:35 *)
Definition out_EConf (E : env) : R :=
  Ebar E.

(* /repo/Src/Main/Modules/Physics/StressEnergy_Tensor/Tij_NS_ifluid_xcts_gConf_psi6E.c:36-37 *)
Definition p_o_rho0 (E : env) : R :=
  ((- (e0 E)) + (enthalpy E)) - 1.

(* /repo/Src/Main/Modules/Physics/StressEnergy_Tensor/Tij_NS_ifluid_xcts_gConf_psi6E.c:39-41 *)
Definition EbarP (E : env) : R :=
  ((p E) * (psi6 E)) * (((((alpha E) ^ 2) * (enthalpy E)) * ((u0 E) ^ 2)) - (p_o_rho0 E)).

(* /repo/Src/Main/Modules/Physics/StressEnergy_Tensor/Tij_NS_ifluid_xcts_gConf_psi6E.c:43 *)
Definition out_EConfP (E : env) : R :=
  EbarP E.

(* /repo/Src/Main/Modules/Physics/StressEnergy_Tensor/Tij_NS_ifluid_xcts_gConf_psi6E.c:44 *)
Definition out_EConfC (E : env) : R :=
  p_o_rho0 E.
