(* Generated by tools/c2coq.py from /repo/Src/Main/Modules/Physics/Equation/eq_XCTS_crv_T3_ddm_bc_phi.c: do not edit.
   Pointwise: one pass of the loop bodies. schur_F / schur_B / schur_Et entries are the out_ definitions; J1 a, J2 a are d2f_dxdu_Jacobian / d3f_dx2du_Jacobian on axis a at (ijk,lmn), kd is kd[ijk==lmn]. *)
Require Import Reals.
Local Open Scope R_scope.

(* /repo/Src/Main/Modules/Physics/Equation/eq_XCTS_crv_T3_ddm_bc_phi.c:39-84: the values the loop body reads at its node: field B_U0D1 is B 0 1 *)
Record env : Type := mk {
  W : nat -> R;
  beta : nat -> R;
  dXc : nat -> R;
  dphi : nat -> R;
  gConf : nat -> nat -> R;
  psi : R;
  u0 : R }.

(* /repo/Src/Main/Modules/Physics/Equation/eq_XCTS_crv_T3_ddm_bc_phi.c:40 *)
Definition outer_n_U0 (E : env) : R :=
  dXc E 0.

(* /repo/Src/Main/Modules/Physics/Equation/eq_XCTS_crv_T3_ddm_bc_phi.c:41 *)
Definition outer_n_U1 (E : env) : R :=
  dXc E 1.

(* /repo/Src/Main/Modules/Physics/Equation/eq_XCTS_crv_T3_ddm_bc_phi.c:42 *)
Definition outer_n_U2 (E : env) : R :=
  dXc E 2.

(* /repo/Src/Main/Modules/Physics/Equation/eq_XCTS_crv_T3_ddm_bc_phi.c:43-46 *)
Definition outer_Norm (E : env) : R :=
  ((((((gConf E 0 0) * ((outer_n_U0 E) ^ 2)) + (((2 * (gConf E 0 1)) * (outer_n_U0 E)) *
  (outer_n_U1 E))) + (((2 * (gConf E 0 2)) * (outer_n_U0 E)) * (outer_n_U2 E))) + ((gConf E 1 1)
  * ((outer_n_U1 E) ^ 2))) + (((2 * (gConf E 1 2)) * (outer_n_U1 E)) * (outer_n_U2 E))) + ((gConf
  E 2 2) * ((outer_n_U2 E) ^ 2)).

(* /repo/Src/Main/Modules/Physics/Equation/eq_XCTS_crv_T3_ddm_bc_phi.c:48-49 *)
Definition outer_s_U1 (E : env) : R :=
  (Rpower (outer_Norm E) (- (1/2))) * (outer_n_U1 E).

(* /repo/Src/Main/Modules/Physics/Equation/eq_XCTS_crv_T3_ddm_bc_phi.c:51-52 *)
Definition outer_s_U0 (E : env) : R :=
  (Rpower (outer_Norm E) (- (1/2))) * (outer_n_U0 E).

(* /repo/Src/Main/Modules/Physics/Equation/eq_XCTS_crv_T3_ddm_bc_phi.c:54-55 *)
Definition outer_s_U2 (E : env) : R :=
  (Rpower (outer_Norm E) (- (1/2))) * (outer_n_U2 E).

(* /repo/Src/Main/Modules/Physics/Equation/eq_XCTS_crv_T3_ddm_bc_phi.c:57-58 *)
Definition outer_psi4 (E : env) : R :=
  (psi E) ^ 4.

(* /repo/Src/Main/Modules/Physics/Equation/eq_XCTS_crv_T3_ddm_bc_phi.c:60-70 *)
Definition outer_outerB_F (E : env) : R :=
  ((((dphi E 0) * (outer_s_U0 E)) + ((dphi E 1) * (outer_s_U1 E))) + ((dphi E 2) * (outer_s_U2
  E))) + ((outer_psi4 E) * (((((((((((gConf E 0 0) * (outer_s_U0 E)) * ((W E 0) - ((beta E 0) *
  (u0 E)))) + (((gConf E 0 1) * (outer_s_U0 E)) * ((W E 1) - ((beta E 1) * (u0 E))))) + (((gConf
  E 0 1) * (outer_s_U1 E)) * ((W E 0) - ((beta E 0) * (u0 E))))) + (((gConf E 0 2) * (outer_s_U0
  E)) * ((W E 2) - ((beta E 2) * (u0 E))))) + (((gConf E 0 2) * (outer_s_U2 E)) * ((W E 0) -
  ((beta E 0) * (u0 E))))) + (((gConf E 1 1) * (outer_s_U1 E)) * ((W E 1) - ((beta E 1) * (u0
  E))))) + (((gConf E 1 2) * (outer_s_U1 E)) * ((W E 2) - ((beta E 2) * (u0 E))))) + (((gConf E 1
  2) * (outer_s_U2 E)) * ((W E 1) - ((beta E 1) * (u0 E))))) + (((gConf E 2 2) * (outer_s_U2 E))
  * ((W E 2) - ((beta E 2) * (u0 E)))))).

(* /repo/Src/Main/Modules/Physics/Equation/eq_XCTS_crv_T3_ddm_bc_phi.c:72 *)
Definition outer_out_schur_F (E : env) : R :=
  outer_outerB_F E.

(* /repo/Src/Main/Modules/Physics/Equation/eq_XCTS_crv_T3_ddm_bc_phi.c:80-81 *)
Definition inner_innerB_F (E : env) : R :=
  0.

(* /repo/Src/Main/Modules/Physics/Equation/eq_XCTS_crv_T3_ddm_bc_phi.c:83 *)
Definition inner_out_schur_F (E : env) : R :=
  inner_innerB_F E.
