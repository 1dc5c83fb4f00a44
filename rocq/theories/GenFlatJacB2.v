(* Generated by tools/c2coq.py from /repo/Src/Main/Modules/Physics/Equation/eq_XCTS_flt_ex_T1_ddm_Jac_eq_B0_U2.c: do not edit.
   Pointwise: one pass of the loop bodies. schur_F / schur_B / schur_Et entries are the out_ definitions; J1 a, J2 a are d2f_dxdu_Jacobian / d3f_dx2du_Jacobian on axis a at (ijk,lmn), kd is kd[ijk==lmn]. *)
Require Import Reals.
Local Open Scope R_scope.

(* /repo/Src/Main/Modules/Physics/Equation/eq_XCTS_flt_ex_T1_ddm_Jac_eq_B0_U2.c:42-172: the values the loop body reads at its node: field B_U0D1 is B 0 1 *)
Record env : Type := mk {
  J1 : nat -> R;
  J2 : nat -> R;
  JConfC : R;
  alphaPsi : R;
  dalphaPsi : nat -> R;
  dpsi : nat -> R;
  igConf : nat -> nat -> R;
  psi : R }.

(* /repo/Src/Main/Modules/Physics/Equation/eq_XCTS_flt_ex_T1_ddm_Jac_eq_B0_U2.c:43 *)
Definition B_JB0_D0 (E : env) : R :=
  J1 E 0.

(* /repo/Src/Main/Modules/Physics/Equation/eq_XCTS_flt_ex_T1_ddm_Jac_eq_B0_U2.c:44 *)
Definition B_JB0_D1 (E : env) : R :=
  J1 E 1.

(* /repo/Src/Main/Modules/Physics/Equation/eq_XCTS_flt_ex_T1_ddm_Jac_eq_B0_U2.c:45 *)
Definition B_JB0_D2 (E : env) : R :=
  J1 E 2.

(* /repo/Src/Main/Modules/Physics/Equation/eq_XCTS_flt_ex_T1_ddm_Jac_eq_B0_U2.c:46 *)
Definition B_JJB0_D0D0 (E : env) : R :=
  J2 E 0.

(* /repo/Src/Main/Modules/Physics/Equation/eq_XCTS_flt_ex_T1_ddm_Jac_eq_B0_U2.c:47 *)
Definition B_JJB0_D0D1 (E : env) : R :=
  J2 E 1.

(* /repo/Src/Main/Modules/Physics/Equation/eq_XCTS_flt_ex_T1_ddm_Jac_eq_B0_U2.c:48 *)
Definition B_JJB0_D0D2 (E : env) : R :=
  J2 E 2.

(* /repo/Src/Main/Modules/Physics/Equation/eq_XCTS_flt_ex_T1_ddm_Jac_eq_B0_U2.c:49 *)
Definition B_JJB0_D1D1 (E : env) : R :=
  J2 E 3.

(* /repo/Src/Main/Modules/Physics/Equation/eq_XCTS_flt_ex_T1_ddm_Jac_eq_B0_U2.c:50 *)
Definition B_JJB0_D1D2 (E : env) : R :=
  J2 E 4.

(* /repo/Src/Main/Modules/Physics/Equation/eq_XCTS_flt_ex_T1_ddm_Jac_eq_B0_U2.c:51 *)
Definition B_JJB0_D2D2 (E : env) : R :=
  J2 E 5.

(* /repo/Src/Main/Modules/Physics/Equation/eq_XCTS_flt_ex_T1_ddm_Jac_eq_B0_U2.c:52-53 *)
Definition B_dLnOf_alpha_B_U0 (E : env) : R :=
  (((- 7) * (dpsi E 0)) / (psi E)) + ((dalphaPsi E 0) / (alphaPsi E)).

(* /repo/Src/Main/Modules/Physics/Equation/eq_XCTS_flt_ex_T1_ddm_Jac_eq_B0_U2.c:55-56 *)
Definition B_dLnOf_alpha_B_U1 (E : env) : R :=
  (((- 7) * (dpsi E 1)) / (psi E)) + ((dalphaPsi E 1) / (alphaPsi E)).

(* /repo/Src/Main/Modules/Physics/Equation/eq_XCTS_flt_ex_T1_ddm_Jac_eq_B0_U2.c:58-59 *)
Definition B_dLnOf_alpha_B_U2 (E : env) : R :=
  (((- 7) * (dpsi E 2)) / (psi E)) + ((dalphaPsi E 2) / (alphaPsi E)).

(* /repo/Src/Main/Modules/Physics/Equation/eq_XCTS_flt_ex_T1_ddm_Jac_eq_B0_U2.c:63-66 *)
Definition B_t1_B_U2 (E : env) : R :=
  ((((((B_JJB0_D0D0 E) * (igConf E 0 0)) + ((2 * (B_JJB0_D0D1 E)) * (igConf E 0 1))) + ((2 *
  (B_JJB0_D0D2 E)) * (igConf E 0 2))) + ((B_JJB0_D1D1 E) * (igConf E 1 1))) + ((2 * (B_JJB0_D1D2
  E)) * (igConf E 1 2))) + ((B_JJB0_D2D2 E) * (igConf E 2 2)).

(* /repo/Src/Main/Modules/Physics/Equation/eq_XCTS_flt_ex_T1_ddm_Jac_eq_B0_U2.c:70-73 *)
Definition B_t2_B_U2 (E : env) : R :=
  ((((1/3) * (B_JJB0_D0D2 E)) * (igConf E 0 2)) + (((1/3) * (B_JJB0_D1D2 E)) * (igConf E 1 2))) +
  (((1/3) * (B_JJB0_D2D2 E)) * (igConf E 2 2)).

(* /repo/Src/Main/Modules/Physics/Equation/eq_XCTS_flt_ex_T1_ddm_Jac_eq_B0_U2.c:77-80 *)
Definition B_t3_B_U2 (E : env) : R :=
  ((2/3) * (B_JB0_D2 E)) * ((((B_dLnOf_alpha_B_U0 E) * (igConf E 0 2)) + ((B_dLnOf_alpha_B_U1 E)
  * (igConf E 1 2))) + ((B_dLnOf_alpha_B_U2 E) * (igConf E 2 2))).

(* /repo/Src/Main/Modules/Physics/Equation/eq_XCTS_flt_ex_T1_ddm_Jac_eq_B0_U2.c:84-90 *)
Definition B_t4_B_U2 (E : env) : R :=
  ((((((((((- (B_JB0_D0 E)) * (B_dLnOf_alpha_B_U0 E)) * (igConf E 0 0)) - (((B_JB0_D0 E) *
  (B_dLnOf_alpha_B_U1 E)) * (igConf E 0 1))) - (((B_JB0_D0 E) * (B_dLnOf_alpha_B_U2 E)) * (igConf
  E 0 2))) - (((B_JB0_D1 E) * (B_dLnOf_alpha_B_U0 E)) * (igConf E 0 1))) - (((B_JB0_D1 E) *
  (B_dLnOf_alpha_B_U1 E)) * (igConf E 1 1))) - (((B_JB0_D1 E) * (B_dLnOf_alpha_B_U2 E)) * (igConf
  E 1 2))) - (((B_JB0_D2 E) * (B_dLnOf_alpha_B_U0 E)) * (igConf E 0 2))) - (((B_JB0_D2 E) *
  (B_dLnOf_alpha_B_U1 E)) * (igConf E 1 2))) - (((B_JB0_D2 E) * (B_dLnOf_alpha_B_U2 E)) * (igConf
  E 2 2)).

(* /repo/Src/Main/Modules/Physics/Equation/eq_XCTS_flt_ex_T1_ddm_Jac_eq_B0_U2.c:94-96 *)
Definition B_t5_B_U2 (E : env) : R :=
  (B_dLnOf_alpha_B_U2 E) * ((((- (B_JB0_D0 E)) * (igConf E 0 2)) - ((B_JB0_D1 E) * (igConf E 1
  2))) - ((B_JB0_D2 E) * (igConf E 2 2))).

(* /repo/Src/Main/Modules/Physics/Equation/eq_XCTS_flt_ex_T1_ddm_Jac_eq_B0_U2.c:100-101 *)
Definition B_Bpart_U2 (E : env) : R :=
  ((((B_t1_B_U2 E) + (B_t2_B_U2 E)) + (B_t3_B_U2 E)) + (B_t4_B_U2 E)) + (B_t5_B_U2 E).

(* /repo/Src/Main/Modules/Physics/Equation/eq_XCTS_flt_ex_T1_ddm_Jac_eq_B0_U2.c:103 *)
Definition B_Bpart_U2_ (E : env) : R :=
  (B_Bpart_U2 E) * (JConfC E).

(* /repo/Src/Main/Modules/Physics/Equation/eq_XCTS_flt_ex_T1_ddm_Jac_eq_B0_U2.c:104 *)
Definition B_out_schur_B (E : env) : R :=
  B_Bpart_U2_ E.

(* /repo/Src/Main/Modules/Physics/Equation/eq_XCTS_flt_ex_T1_ddm_Jac_eq_B0_U2.c:110 *)
Definition E_JB0_D0 (E : env) : R :=
  J1 E 0.

(* /repo/Src/Main/Modules/Physics/Equation/eq_XCTS_flt_ex_T1_ddm_Jac_eq_B0_U2.c:111 *)
Definition E_JB0_D1 (E : env) : R :=
  J1 E 1.

(* /repo/Src/Main/Modules/Physics/Equation/eq_XCTS_flt_ex_T1_ddm_Jac_eq_B0_U2.c:112 *)
Definition E_JB0_D2 (E : env) : R :=
  J1 E 2.

(* /repo/Src/Main/Modules/Physics/Equation/eq_XCTS_flt_ex_T1_ddm_Jac_eq_B0_U2.c:113 *)
Definition E_JJB0_D0D0 (E : env) : R :=
  J2 E 0.

(* /repo/Src/Main/Modules/Physics/Equation/eq_XCTS_flt_ex_T1_ddm_Jac_eq_B0_U2.c:114 *)
Definition E_JJB0_D0D1 (E : env) : R :=
  J2 E 1.

(* /repo/Src/Main/Modules/Physics/Equation/eq_XCTS_flt_ex_T1_ddm_Jac_eq_B0_U2.c:115 *)
Definition E_JJB0_D0D2 (E : env) : R :=
  J2 E 2.

(* /repo/Src/Main/Modules/Physics/Equation/eq_XCTS_flt_ex_T1_ddm_Jac_eq_B0_U2.c:116 *)
Definition E_JJB0_D1D1 (E : env) : R :=
  J2 E 3.

(* /repo/Src/Main/Modules/Physics/Equation/eq_XCTS_flt_ex_T1_ddm_Jac_eq_B0_U2.c:117 *)
Definition E_JJB0_D1D2 (E : env) : R :=
  J2 E 4.

(* /repo/Src/Main/Modules/Physics/Equation/eq_XCTS_flt_ex_T1_ddm_Jac_eq_B0_U2.c:118 *)
Definition E_JJB0_D2D2 (E : env) : R :=
  J2 E 5.

(* /repo/Src/Main/Modules/Physics/Equation/eq_XCTS_flt_ex_T1_ddm_Jac_eq_B0_U2.c:119-120 *)
Definition E_dLnOf_alpha_E_U0 (E : env) : R :=
  (((- 7) * (dpsi E 0)) / (psi E)) + ((dalphaPsi E 0) / (alphaPsi E)).

(* /repo/Src/Main/Modules/Physics/Equation/eq_XCTS_flt_ex_T1_ddm_Jac_eq_B0_U2.c:122-123 *)
Definition E_dLnOf_alpha_E_U1 (E : env) : R :=
  (((- 7) * (dpsi E 1)) / (psi E)) + ((dalphaPsi E 1) / (alphaPsi E)).

(* /repo/Src/Main/Modules/Physics/Equation/eq_XCTS_flt_ex_T1_ddm_Jac_eq_B0_U2.c:125-126 *)
Definition E_dLnOf_alpha_E_U2 (E : env) : R :=
  (((- 7) * (dpsi E 2)) / (psi E)) + ((dalphaPsi E 2) / (alphaPsi E)).

(* /repo/Src/Main/Modules/Physics/Equation/eq_XCTS_flt_ex_T1_ddm_Jac_eq_B0_U2.c:130-133 *)
Definition E_t1_E_U2 (E : env) : R :=
  ((((((E_JJB0_D0D0 E) * (igConf E 0 0)) + ((2 * (E_JJB0_D0D1 E)) * (igConf E 0 1))) + ((2 *
  (E_JJB0_D0D2 E)) * (igConf E 0 2))) + ((E_JJB0_D1D1 E) * (igConf E 1 1))) + ((2 * (E_JJB0_D1D2
  E)) * (igConf E 1 2))) + ((E_JJB0_D2D2 E) * (igConf E 2 2)).

(* /repo/Src/Main/Modules/Physics/Equation/eq_XCTS_flt_ex_T1_ddm_Jac_eq_B0_U2.c:137-140 *)
Definition E_t2_E_U2 (E : env) : R :=
  ((((1/3) * (E_JJB0_D0D2 E)) * (igConf E 0 2)) + (((1/3) * (E_JJB0_D1D2 E)) * (igConf E 1 2))) +
  (((1/3) * (E_JJB0_D2D2 E)) * (igConf E 2 2)).

(* /repo/Src/Main/Modules/Physics/Equation/eq_XCTS_flt_ex_T1_ddm_Jac_eq_B0_U2.c:144-147 *)
Definition E_t3_E_U2 (E : env) : R :=
  ((2/3) * (E_JB0_D2 E)) * ((((E_dLnOf_alpha_E_U0 E) * (igConf E 0 2)) + ((E_dLnOf_alpha_E_U1 E)
  * (igConf E 1 2))) + ((E_dLnOf_alpha_E_U2 E) * (igConf E 2 2))).

(* /repo/Src/Main/Modules/Physics/Equation/eq_XCTS_flt_ex_T1_ddm_Jac_eq_B0_U2.c:151-157 *)
Definition E_t4_E_U2 (E : env) : R :=
  ((((((((((- (E_JB0_D0 E)) * (E_dLnOf_alpha_E_U0 E)) * (igConf E 0 0)) - (((E_JB0_D0 E) *
  (E_dLnOf_alpha_E_U1 E)) * (igConf E 0 1))) - (((E_JB0_D0 E) * (E_dLnOf_alpha_E_U2 E)) * (igConf
  E 0 2))) - (((E_JB0_D1 E) * (E_dLnOf_alpha_E_U0 E)) * (igConf E 0 1))) - (((E_JB0_D1 E) *
  (E_dLnOf_alpha_E_U1 E)) * (igConf E 1 1))) - (((E_JB0_D1 E) * (E_dLnOf_alpha_E_U2 E)) * (igConf
  E 1 2))) - (((E_JB0_D2 E) * (E_dLnOf_alpha_E_U0 E)) * (igConf E 0 2))) - (((E_JB0_D2 E) *
  (E_dLnOf_alpha_E_U1 E)) * (igConf E 1 2))) - (((E_JB0_D2 E) * (E_dLnOf_alpha_E_U2 E)) * (igConf
  E 2 2)).

(* /repo/Src/Main/Modules/Physics/Equation/eq_XCTS_flt_ex_T1_ddm_Jac_eq_B0_U2.c:161-163 *)
Definition E_t5_E_U2 (E : env) : R :=
  (E_dLnOf_alpha_E_U2 E) * ((((- (E_JB0_D0 E)) * (igConf E 0 2)) - ((E_JB0_D1 E) * (igConf E 1
  2))) - ((E_JB0_D2 E) * (igConf E 2 2))).

(* /repo/Src/Main/Modules/Physics/Equation/eq_XCTS_flt_ex_T1_ddm_Jac_eq_B0_U2.c:167-168 *)
Definition E_Epart_U2 (E : env) : R :=
  ((((E_t1_E_U2 E) + (E_t2_E_U2 E)) + (E_t3_E_U2 E)) + (E_t4_E_U2 E)) + (E_t5_E_U2 E).

(* /repo/Src/Main/Modules/Physics/Equation/eq_XCTS_flt_ex_T1_ddm_Jac_eq_B0_U2.c:170 *)
Definition E_Epart_U2_ (E : env) : R :=
  (E_Epart_U2 E) * (JConfC E).

(* /repo/Src/Main/Modules/Physics/Equation/eq_XCTS_flt_ex_T1_ddm_Jac_eq_B0_U2.c:171 *)
Definition E_out_schur_Et (E : env) : R :=
  E_Epart_U2_ E.
