(* Generated by tools/c2coq.py from /repo/Src/Main/Modules/Physics/Equation/eq_XCTS_crv_ex_T1_ddm_eq_alphaPsi.c: do not edit.
   Pointwise: one pass of the loop bodies. schur_F / schur_B / schur_Et entries are the out_ definitions; J1 a, J2 a are d2f_dxdu_Jacobian / d3f_dx2du_Jacobian on axis a at (ijk,lmn), kd is kd[ijk==lmn]. *)
Require Import Reals.
Local Open Scope R_scope.

(* /repo/Src/Main/Modules/Physics/Equation/eq_XCTS_crv_ex_T1_ddm_eq_alphaPsi.c:63-100: the values the loop body reads at its node: field B_U0D1 is B 0 1 *)
Record env : Type := mk {
  AConfIJ2 : R;
  ChrisConf : nat -> nat -> nat -> R;
  EConfP : R;
  SConfC : R;
  SConfP : R;
  alphaPsi : R;
  beta : nat -> R;
  dalphaPsi : nat -> R;
  ddalphaPsi : nat -> nat -> R;
  dtrK : nat -> R;
  igConf : nat -> nat -> R;
  psi : R;
  trK : R;
  trRicciConf : R }.

(* /repo/Src/Main/Modules/Physics/Equation/eq_XCTS_crv_ex_T1_ddm_eq_alphaPsi.c:64-65 *)
Definition psi4 (E : env) : R :=
  (psi E) ^ 4.

(* /repo/Src/Main/Modules/Physics/Equation/eq_XCTS_crv_ex_T1_ddm_eq_alphaPsi.c:67-68 *)
Definition aij2 (E : env) : R :=
  (AConfIJ2 E) / (psi4 E).

(* /repo/Src/Main/Modules/Physics/Equation/eq_XCTS_crv_ex_T1_ddm_eq_alphaPsi.c:70-90 *)
Definition ell (E : env) : R :=
  ((1 / 8) * (((- (alphaPsi E)) * ((7 * (aij2 E)) + ((psi4 E) * ((((10/3) * (psi4 E)) * ((trK E)
  ^ 2)) + (trRicciConf E))))) + ((psi4 E) * (((((((((- 8) * (igConf E 0 0)) * (((((ChrisConf E 0
  0 0) * (dalphaPsi E 0)) + ((ChrisConf E 1 0 0) * (dalphaPsi E 1))) + ((ChrisConf E 2 0 0) *
  (dalphaPsi E 2))) - (ddalphaPsi E 0 0))) - ((16 * (igConf E 0 1)) * (((((ChrisConf E 0 0 1) *
  (dalphaPsi E 0)) + ((ChrisConf E 1 0 1) * (dalphaPsi E 1))) + ((ChrisConf E 2 0 1) * (dalphaPsi
  E 2))) - (ddalphaPsi E 0 1)))) - ((16 * (igConf E 0 2)) * (((((ChrisConf E 0 0 2) * (dalphaPsi
  E 0)) + ((ChrisConf E 1 0 2) * (dalphaPsi E 1))) + ((ChrisConf E 2 0 2) * (dalphaPsi E 2))) -
  (ddalphaPsi E 0 2)))) - ((8 * (igConf E 1 1)) * (((((ChrisConf E 0 1 1) * (dalphaPsi E 0)) +
  ((ChrisConf E 1 1 1) * (dalphaPsi E 1))) + ((ChrisConf E 2 1 1) * (dalphaPsi E 2))) -
  (ddalphaPsi E 1 1)))) - ((16 * (igConf E 1 2)) * (((((ChrisConf E 0 1 2) * (dalphaPsi E 0)) +
  ((ChrisConf E 1 1 2) * (dalphaPsi E 1))) + ((ChrisConf E 2 1 2) * (dalphaPsi E 2))) -
  (ddalphaPsi E 1 2)))) - ((8 * (igConf E 2 2)) * (((((ChrisConf E 0 2 2) * (dalphaPsi E 0)) +
  ((ChrisConf E 1 2 2) * (dalphaPsi E 1))) + ((ChrisConf E 2 2 2) * (dalphaPsi E 2))) -
  (ddalphaPsi E 2 2)))) - (((8 * (psi E)) * (psi4 E)) * ((((beta E 0) * (dtrK E 0)) + ((beta E 1)
  * (dtrK E 1))) + ((beta E 2) * (dtrK E 2)))))))) / (psi4 E).

(* /repo/Src/Main/Modules/Physics/Equation/eq_XCTS_crv_ex_T1_ddm_eq_alphaPsi.c:92-94 *)
Definition src (E : env) : R :=
  ((((- 2) * PI) * (alphaPsi E)) * ((EConfP E) + (2 * (SConfP E)))) / ((psi E) ^ 2).

(* /repo/Src/Main/Modules/Physics/Equation/eq_XCTS_crv_ex_T1_ddm_eq_alphaPsi.c:96-97 *)
Definition F_eq (E : env) : R :=
  ((SConfC E) * (ell E)) + (src E).

(* /repo/Src/Main/Modules/Physics/Equation/eq_XCTS_crv_ex_T1_ddm_eq_alphaPsi.c:99 *)
Definition out_schur_F (E : env) : R :=
  F_eq E.
