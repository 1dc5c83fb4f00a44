(* Generated by tools/c2coq.py from /repo/Src/Main/Modules/Physics/Equation/eq_XCTS_crv_ex_T1_ddm_eq_psi.c: do not edit.
   Pointwise: one pass of the loop bodies. schur_F / schur_B / schur_Et entries are the out_ definitions; J1 a, J2 a are d2f_dxdu_Jacobian / d3f_dx2du_Jacobian on axis a at (ijk,lmn), kd is kd[ijk==lmn]. *)
Require Import Reals.
Local Open Scope R_scope.

(* /repo/Src/Main/Modules/Physics/Equation/eq_XCTS_crv_ex_T1_ddm_eq_psi.c:55-95: the values the loop body reads at its node: field B_U0D1 is B 0 1 *)
Record env : Type := mk {
  AConfIJ2 : R;
  ChrisConf : nat -> nat -> nat -> R;
  EConfC : R;
  EConfP : R;
  ddpsi : nat -> nat -> R;
  dpsi : nat -> R;
  igConf : nat -> nat -> R;
  psi : R;
  trK : R;
  trRicciConf : R }.

(* /repo/Src/Main/Modules/Physics/Equation/eq_XCTS_crv_ex_T1_ddm_eq_psi.c:56-57 *)
Definition psi4 (E : env) : R :=
  (psi E) ^ 4.

(* /repo/Src/Main/Modules/Physics/Equation/eq_XCTS_crv_ex_T1_ddm_eq_psi.c:59-60 *)
Definition aij2 (E : env) : R :=
  (AConfIJ2 E) / (psi4 E).

(* /repo/Src/Main/Modules/Physics/Equation/eq_XCTS_crv_ex_T1_ddm_eq_psi.c:62-86 *)
Definition ell (E : env) : R :=
  ((((((((((((((((((((((((((((- (ChrisConf E 0 0 0)) * (dpsi E 0)) * (igConf E 0 0)) - (((2 *
  (ChrisConf E 0 0 1)) * (dpsi E 0)) * (igConf E 0 1))) - (((2 * (ChrisConf E 0 0 2)) * (dpsi E
  0)) * (igConf E 0 2))) - (((ChrisConf E 0 1 1) * (dpsi E 0)) * (igConf E 1 1))) - (((2 *
  (ChrisConf E 0 1 2)) * (dpsi E 0)) * (igConf E 1 2))) - (((ChrisConf E 0 2 2) * (dpsi E 0)) *
  (igConf E 2 2))) - (((ChrisConf E 1 0 0) * (dpsi E 1)) * (igConf E 0 0))) - (((2 * (ChrisConf E
  1 0 1)) * (dpsi E 1)) * (igConf E 0 1))) - (((2 * (ChrisConf E 1 0 2)) * (dpsi E 1)) * (igConf
  E 0 2))) - (((ChrisConf E 1 1 1) * (dpsi E 1)) * (igConf E 1 1))) - (((2 * (ChrisConf E 1 1 2))
  * (dpsi E 1)) * (igConf E 1 2))) - (((ChrisConf E 1 2 2) * (dpsi E 1)) * (igConf E 2 2))) -
  (((ChrisConf E 2 0 0) * (dpsi E 2)) * (igConf E 0 0))) - (((2 * (ChrisConf E 2 0 1)) * (dpsi E
  2)) * (igConf E 0 1))) - (((2 * (ChrisConf E 2 0 2)) * (dpsi E 2)) * (igConf E 0 2))) -
  (((ChrisConf E 2 1 1) * (dpsi E 2)) * (igConf E 1 1))) - (((2 * (ChrisConf E 2 1 2)) * (dpsi E
  2)) * (igConf E 1 2))) - (((ChrisConf E 2 2 2) * (dpsi E 2)) * (igConf E 2 2))) + (((1 / 8) *
  (aij2 E)) / ((psi E) ^ 3))) + ((ddpsi E 0 0) * (igConf E 0 0))) + ((2 * (ddpsi E 0 1)) *
  (igConf E 0 1))) + ((2 * (ddpsi E 0 2)) * (igConf E 0 2))) + ((ddpsi E 1 1) * (igConf E 1 1)))
  + ((2 * (ddpsi E 1 2)) * (igConf E 1 2))) + ((ddpsi E 2 2) * (igConf E 2 2))) - ((((1 / 12) *
  (psi E)) * (psi4 E)) * ((trK E) ^ 2))) - (((1 / 8) * (psi E)) * (trRicciConf E)).

(* /repo/Src/Main/Modules/Physics/Equation/eq_XCTS_crv_ex_T1_ddm_eq_psi.c:88-89 *)
Definition src (E : env) : R :=
  ((2 * PI) * (EConfP E)) / (psi E).

(* /repo/Src/Main/Modules/Physics/Equation/eq_XCTS_crv_ex_T1_ddm_eq_psi.c:91-92 *)
Definition F_eq (E : env) : R :=
  ((EConfC E) * (ell E)) + (src E).

(* /repo/Src/Main/Modules/Physics/Equation/eq_XCTS_crv_ex_T1_ddm_eq_psi.c:94 *)
Definition out_schur_F (E : env) : R :=
  F_eq E.
