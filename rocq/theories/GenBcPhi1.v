(* Generated by tools/c2coq.py from /repo/Src/Main/Modules/Physics/Equation/eq_XCTS_crv_T1_ddm_bc_phi.c: do not edit.
   Pointwise: one pass of the loop bodies. schur_F / schur_B / schur_Et entries are the out_ definitions; J1 a, J2 a are d2f_dxdu_Jacobian / d3f_dx2du_Jacobian on axis a at (ijk,lmn), kd is kd[ijk==lmn]. *)
Require Import Reals.
Local Open Scope R_scope.

(* /repo/Src/Main/Modules/Physics/Equation/eq_XCTS_crv_T1_ddm_bc_phi.c:43-71: the values the loop body reads at its node: field B_U0D1 is B 0 1 *)
Record env : Type := mk {
  W : nat -> R;
  beta : nat -> R;
  dphi : nat -> R;
  drho0 : nat -> R;
  enthalpy : R;
  igConf : nat -> nat -> R;
  psi : R;
  u0 : R }.

(* /repo/Src/Main/Modules/Physics/Equation/eq_XCTS_crv_T1_ddm_bc_phi.c:44-45 *)
Definition outer_psi4 (E : env) : R :=
  (psi E) ^ 4.

(* /repo/Src/Main/Modules/Physics/Equation/eq_XCTS_crv_T1_ddm_bc_phi.c:47-57 *)
Definition outer_outerB_F (E : env) : R :=
  (((((((((((dphi E 0) * (drho0 E 0)) * (igConf E 0 0)) + (((dphi E 0) * (drho0 E 1)) * (igConf E
  0 1))) + (((dphi E 0) * (drho0 E 2)) * (igConf E 0 2))) + (((dphi E 1) * (drho0 E 0)) * (igConf
  E 0 1))) + (((dphi E 1) * (drho0 E 1)) * (igConf E 1 1))) + (((dphi E 1) * (drho0 E 2)) *
  (igConf E 1 2))) + (((dphi E 2) * (drho0 E 0)) * (igConf E 0 2))) + (((dphi E 2) * (drho0 E 1))
  * (igConf E 1 2))) + (((dphi E 2) * (drho0 E 2)) * (igConf E 2 2))) + ((outer_psi4 E) *
  ((((drho0 E 0) * ((W E 0) - (((beta E 0) * (enthalpy E)) * (u0 E)))) + ((drho0 E 1) * ((W E 1)
  - (((beta E 1) * (enthalpy E)) * (u0 E))))) + ((drho0 E 2) * ((W E 2) - (((beta E 2) *
  (enthalpy E)) * (u0 E)))))).

(* /repo/Src/Main/Modules/Physics/Equation/eq_XCTS_crv_T1_ddm_bc_phi.c:59 *)
Definition outer_out_schur_F (E : env) : R :=
  outer_outerB_F E.

(* /repo/Src/Main/Modules/Physics/Equation/eq_XCTS_crv_T1_ddm_bc_phi.c:67-68 *)
Definition inner_innerB_F (E : env) : R :=
  0.

(* /repo/Src/Main/Modules/Physics/Equation/eq_XCTS_crv_T1_ddm_bc_phi.c:70 *)
Definition inner_out_schur_F (E : env) : R :=
  inner_innerB_F E.
