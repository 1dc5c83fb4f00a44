(* Generated by tools/c2coq.py from /repo/Src/Main/Modules/Physics/Equation/eq_XCTS_crv_T1_ddm_Jac_bc_phi.c: do not edit.
   Pointwise: one pass of the loop bodies. schur_F / schur_B / schur_Et entries are the out_ definitions; J1 a, J2 a are d2f_dxdu_Jacobian / d3f_dx2du_Jacobian on axis a at (ijk,lmn), kd is kd[ijk==lmn]. *)
Require Import Reals.
Local Open Scope R_scope.

(* /repo/Src/Main/Modules/Physics/Equation/eq_XCTS_crv_T1_ddm_Jac_bc_phi.c:32-82: the values the loop body reads at its node: field B_U0D1 is B 0 1 *)
Record env : Type := mk {
  J1 : nat -> R;
  drho0 : nat -> R;
  igConf : nat -> nat -> R }.

(* /repo/Src/Main/Modules/Physics/Equation/eq_XCTS_crv_T1_ddm_Jac_bc_phi.c:33 *)
Definition outer_B_Jphi_D0 (E : env) : R :=
  J1 E 0.

(* /repo/Src/Main/Modules/Physics/Equation/eq_XCTS_crv_T1_ddm_Jac_bc_phi.c:34 *)
Definition outer_B_Jphi_D1 (E : env) : R :=
  J1 E 1.

(* /repo/Src/Main/Modules/Physics/Equation/eq_XCTS_crv_T1_ddm_Jac_bc_phi.c:35 *)
Definition outer_B_Jphi_D2 (E : env) : R :=
  J1 E 2.

(* /repo/Src/Main/Modules/Physics/Equation/eq_XCTS_crv_T1_ddm_Jac_bc_phi.c:36-42 *)
Definition outer_B_outerB_Bpart (E : env) : R :=
  ((((((((((outer_B_Jphi_D0 E) * (drho0 E 0)) * (igConf E 0 0)) + (((outer_B_Jphi_D0 E) * (drho0
  E 1)) * (igConf E 0 1))) + (((outer_B_Jphi_D0 E) * (drho0 E 2)) * (igConf E 0 2))) +
  (((outer_B_Jphi_D1 E) * (drho0 E 0)) * (igConf E 0 1))) + (((outer_B_Jphi_D1 E) * (drho0 E 1))
  * (igConf E 1 1))) + (((outer_B_Jphi_D1 E) * (drho0 E 2)) * (igConf E 1 2))) +
  (((outer_B_Jphi_D2 E) * (drho0 E 0)) * (igConf E 0 2))) + (((outer_B_Jphi_D2 E) * (drho0 E 1))
  * (igConf E 1 2))) + (((outer_B_Jphi_D2 E) * (drho0 E 2)) * (igConf E 2 2)).

(* /repo/Src/Main/Modules/Physics/Equation/eq_XCTS_crv_T1_ddm_Jac_bc_phi.c:44 *)
Definition outer_B_out_schur_B (E : env) : R :=
  outer_B_outerB_Bpart E.

(* /repo/Src/Main/Modules/Physics/Equation/eq_XCTS_crv_T1_ddm_Jac_bc_phi.c:50 *)
Definition outer_E_Jphi_D0 (E : env) : R :=
  J1 E 0.

(* /repo/Src/Main/Modules/Physics/Equation/eq_XCTS_crv_T1_ddm_Jac_bc_phi.c:51 *)
Definition outer_E_Jphi_D1 (E : env) : R :=
  J1 E 1.

(* /repo/Src/Main/Modules/Physics/Equation/eq_XCTS_crv_T1_ddm_Jac_bc_phi.c:52 *)
Definition outer_E_Jphi_D2 (E : env) : R :=
  J1 E 2.

(* /repo/Src/Main/Modules/Physics/Equation/eq_XCTS_crv_T1_ddm_Jac_bc_phi.c:53-59 *)
Definition outer_E_outerB_Epart (E : env) : R :=
  ((((((((((outer_E_Jphi_D0 E) * (drho0 E 0)) * (igConf E 0 0)) + (((outer_E_Jphi_D0 E) * (drho0
  E 1)) * (igConf E 0 1))) + (((outer_E_Jphi_D0 E) * (drho0 E 2)) * (igConf E 0 2))) +
  (((outer_E_Jphi_D1 E) * (drho0 E 0)) * (igConf E 0 1))) + (((outer_E_Jphi_D1 E) * (drho0 E 1))
  * (igConf E 1 1))) + (((outer_E_Jphi_D1 E) * (drho0 E 2)) * (igConf E 1 2))) +
  (((outer_E_Jphi_D2 E) * (drho0 E 0)) * (igConf E 0 2))) + (((outer_E_Jphi_D2 E) * (drho0 E 1))
  * (igConf E 1 2))) + (((outer_E_Jphi_D2 E) * (drho0 E 2)) * (igConf E 2 2)).

(* /repo/Src/Main/Modules/Physics/Equation/eq_XCTS_crv_T1_ddm_Jac_bc_phi.c:61 *)
Definition outer_E_out_schur_Et (E : env) : R :=
  outer_E_outerB_Epart E.

(* /repo/Src/Main/Modules/Physics/Equation/eq_XCTS_crv_T1_ddm_Jac_bc_phi.c:69-70 *)
Definition inner_B_innerB_Bpart (E : env) : R :=
  0.

(* /repo/Src/Main/Modules/Physics/Equation/eq_XCTS_crv_T1_ddm_Jac_bc_phi.c:72 *)
Definition inner_B_out_schur_B (E : env) : R :=
  inner_B_innerB_Bpart E.

(* /repo/Src/Main/Modules/Physics/Equation/eq_XCTS_crv_T1_ddm_Jac_bc_phi.c:78-79 *)
Definition inner_E_innerB_Epart (E : env) : R :=
  0.

(* /repo/Src/Main/Modules/Physics/Equation/eq_XCTS_crv_T1_ddm_Jac_bc_phi.c:81 *)
Definition inner_E_out_schur_Et (E : env) : R :=
  inner_E_innerB_Epart E.
