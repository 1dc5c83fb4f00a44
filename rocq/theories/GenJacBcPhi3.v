(* Generated by tools/c2coq.py from /repo/Src/Main/Modules/Physics/Equation/eq_XCTS_crv_T3_ddm_Jac_bc_phi.c: do not edit.
   Pointwise: one pass of the loop bodies. schur_F / schur_B / schur_Et entries are the out_ definitions; J1 a, J2 a are d2f_dxdu_Jacobian / d3f_dx2du_Jacobian on axis a at (ijk,lmn), kd is kd[ijk==lmn]. *)
Require Import Reals.
Local Open Scope R_scope.

(* /repo/Src/Main/Modules/Physics/Equation/eq_XCTS_crv_T3_ddm_Jac_bc_phi.c:29-111: the values the loop body reads at its node: field B_U0D1 is B 0 1 *)
Record env : Type := mk {
  J1 : nat -> R;
  dXc : nat -> R;
  gConf : nat -> nat -> R }.

(* /repo/Src/Main/Modules/Physics/Equation/eq_XCTS_crv_T3_ddm_Jac_bc_phi.c:30 *)
Definition outer_B_Jphi_D0 (E : env) : R :=
  J1 E 0.

(* /repo/Src/Main/Modules/Physics/Equation/eq_XCTS_crv_T3_ddm_Jac_bc_phi.c:31 *)
Definition outer_B_Jphi_D1 (E : env) : R :=
  J1 E 1.

(* /repo/Src/Main/Modules/Physics/Equation/eq_XCTS_crv_T3_ddm_Jac_bc_phi.c:32 *)
Definition outer_B_Jphi_D2 (E : env) : R :=
  J1 E 2.

(* /repo/Src/Main/Modules/Physics/Equation/eq_XCTS_crv_T3_ddm_Jac_bc_phi.c:33 *)
Definition outer_B_n_U0 (E : env) : R :=
  dXc E 0.

(* /repo/Src/Main/Modules/Physics/Equation/eq_XCTS_crv_T3_ddm_Jac_bc_phi.c:34 *)
Definition outer_B_n_U1 (E : env) : R :=
  dXc E 1.

(* /repo/Src/Main/Modules/Physics/Equation/eq_XCTS_crv_T3_ddm_Jac_bc_phi.c:35 *)
Definition outer_B_n_U2 (E : env) : R :=
  dXc E 2.

(* /repo/Src/Main/Modules/Physics/Equation/eq_XCTS_crv_T3_ddm_Jac_bc_phi.c:36-39 *)
Definition outer_B_Norm_b (E : env) : R :=
  ((((((gConf E 0 0) * ((outer_B_n_U0 E) ^ 2)) + (((2 * (gConf E 0 1)) * (outer_B_n_U0 E)) *
  (outer_B_n_U1 E))) + (((2 * (gConf E 0 2)) * (outer_B_n_U0 E)) * (outer_B_n_U2 E))) + ((gConf E
  1 1) * ((outer_B_n_U1 E) ^ 2))) + (((2 * (gConf E 1 2)) * (outer_B_n_U1 E)) * (outer_B_n_U2
  E))) + ((gConf E 2 2) * ((outer_B_n_U2 E) ^ 2)).

(* /repo/Src/Main/Modules/Physics/Equation/eq_XCTS_crv_T3_ddm_Jac_bc_phi.c:41-42 *)
Definition outer_B_s_b_U0 (E : env) : R :=
  (Rpower (outer_B_Norm_b E) (- (1/2))) * (outer_B_n_U0 E).

(* /repo/Src/Main/Modules/Physics/Equation/eq_XCTS_crv_T3_ddm_Jac_bc_phi.c:44-45 *)
Definition outer_B_s_b_U1 (E : env) : R :=
  (Rpower (outer_B_Norm_b E) (- (1/2))) * (outer_B_n_U1 E).

(* /repo/Src/Main/Modules/Physics/Equation/eq_XCTS_crv_T3_ddm_Jac_bc_phi.c:47-48 *)
Definition outer_B_s_b_U2 (E : env) : R :=
  (Rpower (outer_B_Norm_b E) (- (1/2))) * (outer_B_n_U2 E).

(* /repo/Src/Main/Modules/Physics/Equation/eq_XCTS_crv_T3_ddm_Jac_bc_phi.c:50-55 *)
Definition outer_B_outerB_Bpart (E : env) : R :=
  ((((((((((outer_B_Jphi_D0 E) * (gConf E 0 0)) * (outer_B_s_b_U0 E)) + (((outer_B_Jphi_D0 E) *
  (gConf E 0 1)) * (outer_B_s_b_U1 E))) + (((outer_B_Jphi_D0 E) * (gConf E 0 2)) *
  (outer_B_s_b_U2 E))) + (((outer_B_Jphi_D1 E) * (gConf E 0 1)) * (outer_B_s_b_U0 E))) +
  (((outer_B_Jphi_D1 E) * (gConf E 1 1)) * (outer_B_s_b_U1 E))) + (((outer_B_Jphi_D1 E) * (gConf
  E 1 2)) * (outer_B_s_b_U2 E))) + (((outer_B_Jphi_D2 E) * (gConf E 0 2)) * (outer_B_s_b_U0 E)))
  + (((outer_B_Jphi_D2 E) * (gConf E 1 2)) * (outer_B_s_b_U1 E))) + (((outer_B_Jphi_D2 E) *
  (gConf E 2 2)) * (outer_B_s_b_U2 E)).

(* /repo/Src/Main/Modules/Physics/Equation/eq_XCTS_crv_T3_ddm_Jac_bc_phi.c:57 *)
Definition outer_B_out_schur_B (E : env) : R :=
  outer_B_outerB_Bpart E.

(* /repo/Src/Main/Modules/Physics/Equation/eq_XCTS_crv_T3_ddm_Jac_bc_phi.c:63 *)
Definition outer_E_Jphi_D0 (E : env) : R :=
  J1 E 0.

(* /repo/Src/Main/Modules/Physics/Equation/eq_XCTS_crv_T3_ddm_Jac_bc_phi.c:64 *)
Definition outer_E_Jphi_D1 (E : env) : R :=
  J1 E 1.

(* /repo/Src/Main/Modules/Physics/Equation/eq_XCTS_crv_T3_ddm_Jac_bc_phi.c:65 *)
Definition outer_E_Jphi_D2 (E : env) : R :=
  J1 E 2.

(* /repo/Src/Main/Modules/Physics/Equation/eq_XCTS_crv_T3_ddm_Jac_bc_phi.c:66 *)
Definition outer_E_n_U0 (E : env) : R :=
  dXc E 0.

(* /repo/Src/Main/Modules/Physics/Equation/eq_XCTS_crv_T3_ddm_Jac_bc_phi.c:67 *)
Definition outer_E_n_U1 (E : env) : R :=
  dXc E 1.

(* /repo/Src/Main/Modules/Physics/Equation/eq_XCTS_crv_T3_ddm_Jac_bc_phi.c:68 *)
Definition outer_E_n_U2 (E : env) : R :=
  dXc E 2.

(* /repo/Src/Main/Modules/Physics/Equation/eq_XCTS_crv_T3_ddm_Jac_bc_phi.c:69-72 *)
Definition outer_E_Norm_e (E : env) : R :=
  ((((((gConf E 0 0) * ((outer_E_n_U0 E) ^ 2)) + (((2 * (gConf E 0 1)) * (outer_E_n_U0 E)) *
  (outer_E_n_U1 E))) + (((2 * (gConf E 0 2)) * (outer_E_n_U0 E)) * (outer_E_n_U2 E))) + ((gConf E
  1 1) * ((outer_E_n_U1 E) ^ 2))) + (((2 * (gConf E 1 2)) * (outer_E_n_U1 E)) * (outer_E_n_U2
  E))) + ((gConf E 2 2) * ((outer_E_n_U2 E) ^ 2)).

(* /repo/Src/Main/Modules/Physics/Equation/eq_XCTS_crv_T3_ddm_Jac_bc_phi.c:74-75 *)
Definition outer_E_s_e_U0 (E : env) : R :=
  (Rpower (outer_E_Norm_e E) (- (1/2))) * (outer_E_n_U0 E).

(* /repo/Src/Main/Modules/Physics/Equation/eq_XCTS_crv_T3_ddm_Jac_bc_phi.c:77-78 *)
Definition outer_E_s_e_U1 (E : env) : R :=
  (Rpower (outer_E_Norm_e E) (- (1/2))) * (outer_E_n_U1 E).

(* /repo/Src/Main/Modules/Physics/Equation/eq_XCTS_crv_T3_ddm_Jac_bc_phi.c:80-81 *)
Definition outer_E_s_e_U2 (E : env) : R :=
  (Rpower (outer_E_Norm_e E) (- (1/2))) * (outer_E_n_U2 E).

(* /repo/Src/Main/Modules/Physics/Equation/eq_XCTS_crv_T3_ddm_Jac_bc_phi.c:83-88 *)
Definition outer_E_outerB_Epart (E : env) : R :=
  ((((((((((outer_E_Jphi_D0 E) * (gConf E 0 0)) * (outer_E_s_e_U0 E)) + (((outer_E_Jphi_D0 E) *
  (gConf E 0 1)) * (outer_E_s_e_U1 E))) + (((outer_E_Jphi_D0 E) * (gConf E 0 2)) *
  (outer_E_s_e_U2 E))) + (((outer_E_Jphi_D1 E) * (gConf E 0 1)) * (outer_E_s_e_U0 E))) +
  (((outer_E_Jphi_D1 E) * (gConf E 1 1)) * (outer_E_s_e_U1 E))) + (((outer_E_Jphi_D1 E) * (gConf
  E 1 2)) * (outer_E_s_e_U2 E))) + (((outer_E_Jphi_D2 E) * (gConf E 0 2)) * (outer_E_s_e_U0 E)))
  + (((outer_E_Jphi_D2 E) * (gConf E 1 2)) * (outer_E_s_e_U1 E))) + (((outer_E_Jphi_D2 E) *
  (gConf E 2 2)) * (outer_E_s_e_U2 E)).

(* /repo/Src/Main/Modules/Physics/Equation/eq_XCTS_crv_T3_ddm_Jac_bc_phi.c:90 *)
Definition outer_E_out_schur_Et (E : env) : R :=
  outer_E_outerB_Epart E.

(* /repo/Src/Main/Modules/Physics/Equation/eq_XCTS_crv_T3_ddm_Jac_bc_phi.c:98-99 *)
Definition inner_B_innerB_Bpart (E : env) : R :=
  0.

(* /repo/Src/Main/Modules/Physics/Equation/eq_XCTS_crv_T3_ddm_Jac_bc_phi.c:101 *)
Definition inner_B_out_schur_B (E : env) : R :=
  inner_B_innerB_Bpart E.

(* /repo/Src/Main/Modules/Physics/Equation/eq_XCTS_crv_T3_ddm_Jac_bc_phi.c:107-108 *)
Definition inner_E_innerB_Epart (E : env) : R :=
  0.

(* /repo/Src/Main/Modules/Physics/Equation/eq_XCTS_crv_T3_ddm_Jac_bc_phi.c:110 *)
Definition inner_E_out_schur_Et (E : env) : R :=
  inner_E_innerB_Epart E.
