(* Generated by tools/c2coq.py from /repo/Src/Main/Modules/Physics/Equation/eq_XCTS_crv_ex_T1_ddm_Jac_bc_B0_U2.c: do not edit.
   Pointwise: one pass of the loop bodies. schur_F / schur_B / schur_Et entries are the out_ definitions; J1 a, J2 a are d2f_dxdu_Jacobian / d3f_dx2du_Jacobian on axis a at (ijk,lmn), kd is kd[ijk==lmn]. *)
Require Import Reals.
Local Open Scope R_scope.

(* /repo/Src/Main/Modules/Physics/Equation/eq_XCTS_crv_ex_T1_ddm_Jac_bc_B0_U2.c:21-55: the values the loop body reads at its node: field B_U0D1 is B 0 1 *)
Record env : Type := mk {
  kd : R }.

(* /repo/Src/Main/Modules/Physics/Equation/eq_XCTS_crv_ex_T1_ddm_Jac_bc_B0_U2.c:22-23 *)
Definition outer_B_outerB_Bpart (E : env) : R :=
  kd E.

(* /repo/Src/Main/Modules/Physics/Equation/eq_XCTS_crv_ex_T1_ddm_Jac_bc_B0_U2.c:25 *)
Definition outer_B_out_schur_B (E : env) : R :=
  outer_B_outerB_Bpart E.

(* /repo/Src/Main/Modules/Physics/Equation/eq_XCTS_crv_ex_T1_ddm_Jac_bc_B0_U2.c:31-32 *)
Definition outer_E_outerB_Epart (E : env) : R :=
  0.

(* /repo/Src/Main/Modules/Physics/Equation/eq_XCTS_crv_ex_T1_ddm_Jac_bc_B0_U2.c:34 *)
Definition outer_E_out_schur_Et (E : env) : R :=
  outer_E_outerB_Epart E.

(* /repo/Src/Main/Modules/Physics/Equation/eq_XCTS_crv_ex_T1_ddm_Jac_bc_B0_U2.c:42-43 *)
Definition inner_B_innerB_Bpart (E : env) : R :=
  kd E.

(* /repo/Src/Main/Modules/Physics/Equation/eq_XCTS_crv_ex_T1_ddm_Jac_bc_B0_U2.c:45 *)
Definition inner_B_out_schur_B (E : env) : R :=
  inner_B_innerB_Bpart E.

(* /repo/Src/Main/Modules/Physics/Equation/eq_XCTS_crv_ex_T1_ddm_Jac_bc_B0_U2.c:51-52 *)
Definition inner_E_innerB_Epart (E : env) : R :=
  0.

(* /repo/Src/Main/Modules/Physics/Equation/eq_XCTS_crv_ex_T1_ddm_Jac_bc_B0_U2.c:54 *)
Definition inner_E_out_schur_Et (E : env) : R :=
  inner_E_innerB_Epart E.
