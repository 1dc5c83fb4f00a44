(* Generated by tools/c2coq.py from /repo/Src/Main/Modules/Physics/StressEnergy_Tensor/Tij_NS_ifluid_xcts_gConf_psi6J_Ui.c: do not edit.
   Pointwise: one node ijk of the loop over the nodes of a patch; doubles are reals. p and e0 are what the EoS returns for the enthalpy of the node. *)
Require Import Reals.
Local Open Scope R_scope.

(* /repo/Src/Main/Modules/Physics/StressEnergy_Tensor/Tij_NS_ifluid_xcts_gConf_psi6J_Ui.c:41-86: the values the loop body reads at its node: field B_U0D1 is B 0 1 *)
Record env : Type := mk {
  W : nat -> R;
  alphaPsi : R;
  dphi : nat -> R;
  e0 : R;
  enthalpy : R;
  igConf : nat -> nat -> R;
  p : R;
  psi : R;
  rho0 : R;
  u0 : R }.

(* /repo/Src/Main/Modules/Physics/StressEnergy_Tensor/Tij_NS_ifluid_xcts_gConf_psi6J_Ui.c:41-42 *)
Definition alpha (E : env) : R :=
  (alphaPsi E) / (psi E).

(* /repo/Src/Main/Modules/Physics/StressEnergy_Tensor/Tij_NS_ifluid_xcts_gConf_psi6J_Ui.c:44-45 *)
Definition psim4 (E : env) : R :=
  / ((psi E) ^ 4).

(* /repo/Src/Main/Modules/Physics/StressEnergy_Tensor/Tij_NS_ifluid_xcts_gConf_psi6J_Ui.c:47-48 *)
Definition psi6 (E : env) : R :=
  (psi E) ^ 6.

(* /repo/Src/Main/Modules/Physics/StressEnergy_Tensor/Tij_NS_ifluid_xcts_gConf_psi6J_Ui.c:50-53 *)
Definition j_u_U0 (E : env) : R :=
  ((((alpha E) * (psi6 E)) * (rho0 E)) * (u0 E)) * ((W E 0) + ((psim4 E) * ((((dphi E 0) *
  (igConf E 0 0)) + ((dphi E 1) * (igConf E 0 1))) + ((dphi E 2) * (igConf E 0 2))))).

(* /repo/Src/Main/Modules/Physics/StressEnergy_Tensor/Tij_NS_ifluid_xcts_gConf_psi6J_Ui.c:55-58 *)
Definition j_u_U1 (E : env) : R :=
  ((((alpha E) * (psi6 E)) * (rho0 E)) * (u0 E)) * ((W E 1) + ((psim4 E) * ((((dphi E 0) *
  (igConf E 0 1)) + ((dphi E 1) * (igConf E 1 1))) + ((dphi E 2) * (igConf E 1 2))))).

(* /repo/Src/Main/Modules/Physics/StressEnergy_Tensor/Tij_NS_ifluid_xcts_gConf_psi6J_Ui.c:60-63 *)
Definition j_u_U2 (E : env) : R :=
  ((((alpha E) * (psi6 E)) * (rho0 E)) * (u0 E)) * ((W E 2) + ((psim4 E) * ((((dphi E 0) *
  (igConf E 0 2)) + ((dphi E 1) * (igConf E 1 2))) + ((dphi E 2) * (igConf E 2 2))))).

(* /repo/Src/Main/Modules/Physics/StressEnergy_Tensor/Tij_NS_ifluid_xcts_gConf_psi6J_Ui.c:66 *)
Definition out_JConf_U0 (E : env) : R :=
  j_u_U0 E.

(* /repo/Src/Main/Modules/Physics/StressEnergy_Tensor/Tij_NS_ifluid_xcts_gConf_psi6J_Ui.c:67 *)
Definition out_JConf_U1 (E : env) : R :=
  j_u_U1 E.

(* /repo/Src/Main/Modules/Physics/StressEnergy_Tensor/Tij_NS_ifluid_xcts_gConf_psi6J_Ui.c:68 *)
Definition out_JConf_U2 (E : env) : R :=
  j_u_U2 E.

(* /repo/Src/Main/Modules/Physics/StressEnergy_Tensor/Tij_NS_ifluid_xcts_gConf_psi6J_Ui.c:69 *)
Definition p_o_rho0 (E : env) : R :=
  ((enthalpy E) - 1) - (e0 E).

(* /repo/Src/Main/Modules/Physics/StressEnergy_Tensor/Tij_NS_ifluid_xcts_gConf_psi6J_Ui.c:70-72 *)
Definition jp_u_U0 (E : env) : R :=
  ((((alpha E) * (p E)) * (psi6 E)) * (u0 E)) * ((W E 0) + ((psim4 E) * ((((dphi E 0) * (igConf E
  0 0)) + ((dphi E 1) * (igConf E 0 1))) + ((dphi E 2) * (igConf E 0 2))))).

(* /repo/Src/Main/Modules/Physics/StressEnergy_Tensor/Tij_NS_ifluid_xcts_gConf_psi6J_Ui.c:74-76 *)
Definition jp_u_U1 (E : env) : R :=
  ((((alpha E) * (p E)) * (psi6 E)) * (u0 E)) * ((W E 1) + ((psim4 E) * ((((dphi E 0) * (igConf E
  0 1)) + ((dphi E 1) * (igConf E 1 1))) + ((dphi E 2) * (igConf E 1 2))))).

(* /repo/Src/Main/Modules/Physics/StressEnergy_Tensor/Tij_NS_ifluid_xcts_gConf_psi6J_Ui.c:78-80 *)
Definition jp_u_U2 (E : env) : R :=
  ((((alpha E) * (p E)) * (psi6 E)) * (u0 E)) * ((W E 2) + ((psim4 E) * ((((dphi E 0) * (igConf E
  0 2)) + ((dphi E 1) * (igConf E 1 2))) + ((dphi E 2) * (igConf E 2 2))))).

(* /repo/Src/Main/Modules/Physics/StressEnergy_Tensor/Tij_NS_ifluid_xcts_gConf_psi6J_Ui.c:83 *)
Definition out_JConfP_U0 (E : env) : R :=
  jp_u_U0 E.

(* /repo/Src/Main/Modules/Physics/StressEnergy_Tensor/Tij_NS_ifluid_xcts_gConf_psi6J_Ui.c:84 *)
Definition out_JConfP_U1 (E : env) : R :=
  jp_u_U1 E.

(* /repo/Src/Main/Modules/Physics/StressEnergy_Tensor/Tij_NS_ifluid_xcts_gConf_psi6J_Ui.c:85 *)
Definition out_JConfP_U2 (E : env) : R :=
  jp_u_U2 E.

(* /repo/Src/Main/Modules/Physics/StressEnergy_Tensor/Tij_NS_ifluid_xcts_gConf_psi6J_Ui.c:86 *)
Definition out_JConfC (E : env) : R :=
  p_o_rho0 E.

(* /repo/Src/Main/Modules/Physics/StressEnergy_Tensor/Tij_NS_ifluid_xcts_gConf_psi6J_Ui.c:66-68: the arrays JConf_.. after the loop body; the others keep their value *)
Definition store_JConf (E : env) (old : nat -> R) : nat -> R :=
  fun i => match i with
  | 0%nat => out_JConf_U0 E
  | 1%nat => out_JConf_U1 E
  | 2%nat => out_JConf_U2 E
  | _ => old i
  end.

(* /repo/Src/Main/Modules/Physics/StressEnergy_Tensor/Tij_NS_ifluid_xcts_gConf_psi6J_Ui.c:83-85: the arrays JConfP_.. after the loop body; the others keep their value *)
Definition store_JConfP (E : env) (old : nat -> R) : nat -> R :=
  fun i => match i with
  | 0%nat => out_JConfP_U0 E
  | 1%nat => out_JConfP_U1 E
  | 2%nat => out_JConfP_U2 E
  | _ => old i
  end.
