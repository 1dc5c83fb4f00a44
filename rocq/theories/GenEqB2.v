(* Generated by tools/c2coq.py from /repo/Src/Main/Modules/Physics/Equation/eq_XCTS_crv_ex_T1_ddm_eq_B0_U2.c: do not edit.
   Pointwise: one pass of the loop bodies. schur_F / schur_B / schur_Et entries are the out_ definitions; J1 a, J2 a are d2f_dxdu_Jacobian / d3f_dx2du_Jacobian on axis a at (ijk,lmn), kd is kd[ijk==lmn]. *)
Require Import Reals.
Local Open Scope R_scope.

(* /repo/Src/Main/Modules/Physics/Equation/eq_XCTS_crv_ex_T1_ddm_eq_B0_U2.c:73-115: the values the loop body reads at its node: field B_U0D1 is B 0 1 *)
Record env : Type := mk {
  AConfIJ : nat -> nat -> R;
  ChrisConf : nat -> nat -> nat -> R;
  JConfC : R;
  JConfP : nat -> R;
  alphaPsi : R;
  dAConfIJ : nat -> nat -> nat -> R;
  dtrK : nat -> R;
  igConf : nat -> nat -> R;
  psi : R }.

(* /repo/Src/Main/Modules/Physics/Equation/eq_XCTS_crv_ex_T1_ddm_eq_B0_U2.c:76-86 *)
Definition F00_U2 (E : env) : R :=
  ((((((((((((((((AConfIJ E 0 0) * (ChrisConf E 2 0 0)) + ((2 * (AConfIJ E 0 1)) * (ChrisConf E 2
  0 1))) + ((AConfIJ E 0 2) * (ChrisConf E 0 0 0))) + ((AConfIJ E 0 2) * (ChrisConf E 1 0 1))) +
  ((3 * (AConfIJ E 0 2)) * (ChrisConf E 2 0 2))) + ((AConfIJ E 1 1) * (ChrisConf E 2 1 1))) +
  ((AConfIJ E 1 2) * (ChrisConf E 0 0 1))) + ((AConfIJ E 1 2) * (ChrisConf E 1 1 1))) + ((3 *
  (AConfIJ E 1 2)) * (ChrisConf E 2 1 2))) + ((AConfIJ E 2 2) * (ChrisConf E 0 0 2))) + ((AConfIJ
  E 2 2) * (ChrisConf E 1 1 2))) + ((2 * (AConfIJ E 2 2)) * (ChrisConf E 2 2 2))) + (dAConfIJ E 0
  2 0)) + (dAConfIJ E 1 2 1)) + (dAConfIJ E 2 2 2)) / ((psi E) ^ 3).

(* /repo/Src/Main/Modules/Physics/Equation/eq_XCTS_crv_ex_T1_ddm_eq_B0_U2.c:90-91 *)
Definition F0_U2 (E : env) : R :=
  (F00_U2 E) / ((psi E) ^ 4).

(* /repo/Src/Main/Modules/Physics/Equation/eq_XCTS_crv_ex_T1_ddm_eq_B0_U2.c:95-97 *)
Definition F1_U2 (E : env) : R :=
  ((2/3) * ((((- (dtrK E 0)) * (igConf E 0 2)) - ((dtrK E 1) * (igConf E 1 2))) - ((dtrK E 2) *
  (igConf E 2 2)))) / (psi E).

(* /repo/Src/Main/Modules/Physics/Equation/eq_XCTS_crv_ex_T1_ddm_eq_B0_U2.c:101-102 *)
Definition s_U2 (E : env) : R :=
  (((- 8) * PI) * (JConfP E 2)) / ((psi E) ^ 3).

(* /repo/Src/Main/Modules/Physics/Equation/eq_XCTS_crv_ex_T1_ddm_eq_B0_U2.c:106-107 *)
Definition ell_U2 (E : env) : R :=
  (JConfC E) * ((F0_U2 E) + (F1_U2 E)).

(* /repo/Src/Main/Modules/Physics/Equation/eq_XCTS_crv_ex_T1_ddm_eq_B0_U2.c:111-112 *)
Definition F_eq_U2 (E : env) : R :=
  (2 * (alphaPsi E)) * ((ell_U2 E) + (s_U2 E)).

(* /repo/Src/Main/Modules/Physics/Equation/eq_XCTS_crv_ex_T1_ddm_eq_B0_U2.c:114 *)
Definition out_schur_F (E : env) : R :=
  F_eq_U2 E.
