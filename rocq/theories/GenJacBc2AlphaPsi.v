(* Generated by tools/c2coq.py from /repo/Src/Main/Modules/Physics/Equation/eq_XCTS_crv_ex_T2_ddm_Jac_bc_alphaPsi.c: do not edit.
   Pointwise: one pass of the loop bodies. schur_F / schur_B / schur_Et entries are the out_ definitions; J1 a, J2 a are d2f_dxdu_Jacobian / d3f_dx2du_Jacobian on axis a at (ijk,lmn), kd is kd[ijk==lmn]. *)
Require Import Reals.
Local Open Scope R_scope.

(* /repo/Src/Main/Modules/Physics/Equation/eq_XCTS_crv_ex_T2_ddm_Jac_bc_alphaPsi.c:24-69: the values the loop body reads at its node: field B_U0D1 is B 0 1 *)
Record env : Type := mk {
  J1 : nat -> R;
  bh_sConf : nat -> R;
  kd : R }.

(* /repo/Src/Main/Modules/Physics/Equation/eq_XCTS_crv_ex_T2_ddm_Jac_bc_alphaPsi.c:25-26 *)
Definition outer_B_outerB_Bpart (E : env) : R :=
  kd E.

(* /repo/Src/Main/Modules/Physics/Equation/eq_XCTS_crv_ex_T2_ddm_Jac_bc_alphaPsi.c:28 *)
Definition outer_B_out_schur_B (E : env) : R :=
  outer_B_outerB_Bpart E.

(* /repo/Src/Main/Modules/Physics/Equation/eq_XCTS_crv_ex_T2_ddm_Jac_bc_alphaPsi.c:34-35 *)
Definition outer_E_outerB_Epart (E : env) : R :=
  0.

(* /repo/Src/Main/Modules/Physics/Equation/eq_XCTS_crv_ex_T2_ddm_Jac_bc_alphaPsi.c:37 *)
Definition outer_E_out_schur_Et (E : env) : R :=
  outer_E_outerB_Epart E.

(* /repo/Src/Main/Modules/Physics/Equation/eq_XCTS_crv_ex_T2_ddm_Jac_bc_alphaPsi.c:48 *)
Definition inner_B_JalphaPsi_D0 (E : env) : R :=
  J1 E 0.

(* /repo/Src/Main/Modules/Physics/Equation/eq_XCTS_crv_ex_T2_ddm_Jac_bc_alphaPsi.c:49 *)
Definition inner_B_JalphaPsi_D1 (E : env) : R :=
  J1 E 1.

(* /repo/Src/Main/Modules/Physics/Equation/eq_XCTS_crv_ex_T2_ddm_Jac_bc_alphaPsi.c:50 *)
Definition inner_B_JalphaPsi_D2 (E : env) : R :=
  J1 E 2.

(* /repo/Src/Main/Modules/Physics/Equation/eq_XCTS_crv_ex_T2_ddm_Jac_bc_alphaPsi.c:51-53 *)
Definition inner_B_innerB_Bpart (E : env) : R :=
  (((inner_B_JalphaPsi_D0 E) * (bh_sConf E 0)) + ((inner_B_JalphaPsi_D1 E) * (bh_sConf E 1))) +
  ((inner_B_JalphaPsi_D2 E) * (bh_sConf E 2)).

(* /repo/Src/Main/Modules/Physics/Equation/eq_XCTS_crv_ex_T2_ddm_Jac_bc_alphaPsi.c:55 *)
Definition inner_B_out_schur_B (E : env) : R :=
  inner_B_innerB_Bpart E.

(* /repo/Src/Main/Modules/Physics/Equation/eq_XCTS_crv_ex_T2_ddm_Jac_bc_alphaPsi.c:61 *)
Definition inner_E_JalphaPsi_D0 (E : env) : R :=
  J1 E 0.

(* /repo/Src/Main/Modules/Physics/Equation/eq_XCTS_crv_ex_T2_ddm_Jac_bc_alphaPsi.c:62 *)
Definition inner_E_JalphaPsi_D1 (E : env) : R :=
  J1 E 1.

(* /repo/Src/Main/Modules/Physics/Equation/eq_XCTS_crv_ex_T2_ddm_Jac_bc_alphaPsi.c:63 *)
Definition inner_E_JalphaPsi_D2 (E : env) : R :=
  J1 E 2.

(* /repo/Src/Main/Modules/Physics/Equation/eq_XCTS_crv_ex_T2_ddm_Jac_bc_alphaPsi.c:64-66 *)
Definition inner_E_innerB_Epart (E : env) : R :=
  (((inner_E_JalphaPsi_D0 E) * (bh_sConf E 0)) + ((inner_E_JalphaPsi_D1 E) * (bh_sConf E 1))) +
  ((inner_E_JalphaPsi_D2 E) * (bh_sConf E 2)).

(* /repo/Src/Main/Modules/Physics/Equation/eq_XCTS_crv_ex_T2_ddm_Jac_bc_alphaPsi.c:68 *)
Definition inner_E_out_schur_Et (E : env) : R :=
  inner_E_innerB_Epart E.
