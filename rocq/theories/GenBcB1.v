(* Generated by tools/c2coq.py from /repo/Src/Main/Modules/Physics/Equation/eq_XCTS_crv_ex_T1_ddm_bc_B0_U1.c: do not edit.
   Pointwise: one pass of the loop bodies. schur_F / schur_B / schur_Et entries are the out_ definitions; J1 a, J2 a are d2f_dxdu_Jacobian / d3f_dx2du_Jacobian on axis a at (ijk,lmn), kd is kd[ijk==lmn]. *)
Require Import Reals.
Local Open Scope R_scope.

(* /repo/Src/Main/Modules/Physics/Equation/eq_XCTS_crv_ex_T1_ddm_bc_B0_U1.c:25-42: the values the loop body reads at its node: field B_U0D1 is B 0 1 *)
Record env : Type := mk {
  B0 : nat -> R;
  B1 : nat -> R;
  ibc_beta : nat -> R;
  v1_boost : R }.

(* /repo/Src/Main/Modules/Physics/Equation/eq_XCTS_crv_ex_T1_ddm_bc_B0_U1.c:26-27 *)
Definition outer_outerB_F (E : env) : R :=
  (B0 E 1) - (v1_boost E).

(* /repo/Src/Main/Modules/Physics/Equation/eq_XCTS_crv_ex_T1_ddm_bc_B0_U1.c:29 *)
Definition outer_out_schur_F (E : env) : R :=
  outer_outerB_F E.

(* /repo/Src/Main/Modules/Physics/Equation/eq_XCTS_crv_ex_T1_ddm_bc_B0_U1.c:38-39 *)
Definition inner_innerB_F (E : env) : R :=
  ((B0 E 1) + (B1 E 1)) - (ibc_beta E 1).

(* /repo/Src/Main/Modules/Physics/Equation/eq_XCTS_crv_ex_T1_ddm_bc_B0_U1.c:41 *)
Definition inner_out_schur_F (E : env) : R :=
  inner_innerB_F E.
