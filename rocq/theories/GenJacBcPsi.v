(* Generated by tools/c2coq.py from /repo/Src/Main/Modules/Physics/Equation/eq_XCTS_crv_ex_T1_ddm_Jac_bc_psi.c: do not edit.
   Pointwise: one pass of the loop bodies. schur_F / schur_B / schur_Et entries are the out_ definitions; J1 a, J2 a are d2f_dxdu_Jacobian / d3f_dx2du_Jacobian on axis a at (ijk,lmn), kd is kd[ijk==lmn]. *)
Require Import Reals.
Local Open Scope R_scope.

(* /repo/Src/Main/Modules/Physics/Equation/eq_XCTS_crv_ex_T1_ddm_Jac_bc_psi.c:59-148: the values the loop body reads at its node: field B_U0D1 is B 0 1 *)
Record env : Type := mk {
  ChrisConf : nat -> nat -> nat -> R;
  J1 : nat -> R;
  bh_sConf : nat -> R;
  dbh_sConf : nat -> nat -> R;
  dpsi : nat -> R;
  kd : R;
  psi : R;
  trK : R }.

(* /repo/Src/Main/Modules/Physics/Equation/eq_XCTS_crv_ex_T1_ddm_Jac_bc_psi.c:60-61 *)
Definition outer_B_outerB_Bpart (E : env) : R :=
  kd E.

(* /repo/Src/Main/Modules/Physics/Equation/eq_XCTS_crv_ex_T1_ddm_Jac_bc_psi.c:63 *)
Definition outer_B_out_schur_B (E : env) : R :=
  outer_B_outerB_Bpart E.

(* /repo/Src/Main/Modules/Physics/Equation/eq_XCTS_crv_ex_T1_ddm_Jac_bc_psi.c:69-70 *)
Definition outer_E_outerB_Epart (E : env) : R :=
  0.

(* /repo/Src/Main/Modules/Physics/Equation/eq_XCTS_crv_ex_T1_ddm_Jac_bc_psi.c:72 *)
Definition outer_E_out_schur_Et (E : env) : R :=
  outer_E_outerB_Epart E.

(* /repo/Src/Main/Modules/Physics/Equation/eq_XCTS_crv_ex_T1_ddm_Jac_bc_psi.c:92 *)
Definition inner_B_Jpsi_D0 (E : env) : R :=
  J1 E 0.

(* /repo/Src/Main/Modules/Physics/Equation/eq_XCTS_crv_ex_T1_ddm_Jac_bc_psi.c:93 *)
Definition inner_B_Jpsi_D1 (E : env) : R :=
  J1 E 1.

(* /repo/Src/Main/Modules/Physics/Equation/eq_XCTS_crv_ex_T1_ddm_Jac_bc_psi.c:94 *)
Definition inner_B_Jpsi_D2 (E : env) : R :=
  J1 E 2.

(* /repo/Src/Main/Modules/Physics/Equation/eq_XCTS_crv_ex_T1_ddm_Jac_bc_psi.c:95-102 *)
Definition inner_B__DiHSi_b (E : env) : R :=
  ((((((((((((ChrisConf E 0 0 0) * (bh_sConf E 0)) + ((ChrisConf E 0 0 1) * (bh_sConf E 1))) +
  ((ChrisConf E 0 0 2) * (bh_sConf E 2))) + ((ChrisConf E 1 0 1) * (bh_sConf E 0))) + ((ChrisConf
  E 1 1 1) * (bh_sConf E 1))) + ((ChrisConf E 1 1 2) * (bh_sConf E 2))) + ((ChrisConf E 2 0 2) *
  (bh_sConf E 0))) + ((ChrisConf E 2 1 2) * (bh_sConf E 1))) + ((ChrisConf E 2 2 2) * (bh_sConf E
  2))) + (dbh_sConf E 0 0)) + (dbh_sConf E 1 1)) + (dbh_sConf E 2 2).

(* /repo/Src/Main/Modules/Physics/Equation/eq_XCTS_crv_ex_T1_ddm_Jac_bc_psi.c:104-105 *)
Definition inner_B_psi2 (E : env) : R :=
  (psi E) ^ 2.

(* /repo/Src/Main/Modules/Physics/Equation/eq_XCTS_crv_ex_T1_ddm_Jac_bc_psi.c:107-108 *)
Definition inner_B_psi3 (E : env) : R :=
  (psi E) ^ 3.

(* /repo/Src/Main/Modules/Physics/Equation/eq_XCTS_crv_ex_T1_ddm_Jac_bc_psi.c:110-114 *)
Definition inner_B_innerB_Bpart (E : env) : R :=
  ((((3 * (kd E)) * (inner_B_psi2 E)) * ((((bh_sConf E 0) * (dpsi E 0)) + ((bh_sConf E 1) * (dpsi
  E 1))) + ((bh_sConf E 2) * (dpsi E 2)))) + (((kd E) * (inner_B_psi3 E)) * ((inner_B__DiHSi_b E)
  - ((inner_B_psi2 E) * (trK E))))) + ((inner_B_psi3 E) * ((((inner_B_Jpsi_D0 E) * (bh_sConf E
  0)) + ((inner_B_Jpsi_D1 E) * (bh_sConf E 1))) + ((inner_B_Jpsi_D2 E) * (bh_sConf E 2)))).

(* /repo/Src/Main/Modules/Physics/Equation/eq_XCTS_crv_ex_T1_ddm_Jac_bc_psi.c:116 *)
Definition inner_B_out_schur_B (E : env) : R :=
  inner_B_innerB_Bpart E.

(* /repo/Src/Main/Modules/Physics/Equation/eq_XCTS_crv_ex_T1_ddm_Jac_bc_psi.c:122 *)
Definition inner_E_Jpsi_D0 (E : env) : R :=
  J1 E 0.

(* /repo/Src/Main/Modules/Physics/Equation/eq_XCTS_crv_ex_T1_ddm_Jac_bc_psi.c:123 *)
Definition inner_E_Jpsi_D1 (E : env) : R :=
  J1 E 1.

(* /repo/Src/Main/Modules/Physics/Equation/eq_XCTS_crv_ex_T1_ddm_Jac_bc_psi.c:124 *)
Definition inner_E_Jpsi_D2 (E : env) : R :=
  J1 E 2.

(* /repo/Src/Main/Modules/Physics/Equation/eq_XCTS_crv_ex_T1_ddm_Jac_bc_psi.c:125-132 *)
Definition inner_E__DiHSi_e (E : env) : R :=
  ((((((((((((ChrisConf E 0 0 0) * (bh_sConf E 0)) + ((ChrisConf E 0 0 1) * (bh_sConf E 1))) +
  ((ChrisConf E 0 0 2) * (bh_sConf E 2))) + ((ChrisConf E 1 0 1) * (bh_sConf E 0))) + ((ChrisConf
  E 1 1 1) * (bh_sConf E 1))) + ((ChrisConf E 1 1 2) * (bh_sConf E 2))) + ((ChrisConf E 2 0 2) *
  (bh_sConf E 0))) + ((ChrisConf E 2 1 2) * (bh_sConf E 1))) + ((ChrisConf E 2 2 2) * (bh_sConf E
  2))) + (dbh_sConf E 0 0)) + (dbh_sConf E 1 1)) + (dbh_sConf E 2 2).

(* /repo/Src/Main/Modules/Physics/Equation/eq_XCTS_crv_ex_T1_ddm_Jac_bc_psi.c:134-135 *)
Definition inner_E_psi2_ (E : env) : R :=
  (psi E) ^ 2.

(* /repo/Src/Main/Modules/Physics/Equation/eq_XCTS_crv_ex_T1_ddm_Jac_bc_psi.c:137-138 *)
Definition inner_E_psi3_ (E : env) : R :=
  (psi E) ^ 3.

(* /repo/Src/Main/Modules/Physics/Equation/eq_XCTS_crv_ex_T1_ddm_Jac_bc_psi.c:140-145 *)
Definition inner_E_innerB_Epart (E : env) : R :=
  ((((3 * (kd E)) * (inner_E_psi2_ E)) * ((((bh_sConf E 0) * (dpsi E 0)) + ((bh_sConf E 1) *
  (dpsi E 1))) + ((bh_sConf E 2) * (dpsi E 2)))) + (((kd E) * (inner_E_psi3_ E)) *
  ((inner_E__DiHSi_e E) - ((inner_E_psi2_ E) * (trK E))))) + ((inner_E_psi3_ E) *
  ((((inner_E_Jpsi_D0 E) * (bh_sConf E 0)) + ((inner_E_Jpsi_D1 E) * (bh_sConf E 1))) +
  ((inner_E_Jpsi_D2 E) * (bh_sConf E 2)))).

(* /repo/Src/Main/Modules/Physics/Equation/eq_XCTS_crv_ex_T1_ddm_Jac_bc_psi.c:147 *)
Definition inner_E_out_schur_Et (E : env) : R :=
  inner_E_innerB_Epart E.
