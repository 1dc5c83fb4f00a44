(* Generated by tools/c2coq.py from /repo/Src/Main/Modules/Physics/Equation/eq_XCTS_crv_ex_T1_ddm_Jac_eq_alphaPsi.c: do not edit.
   Pointwise: one pass of the loop bodies. schur_F / schur_B / schur_Et entries are the out_ definitions; J1 a, J2 a are d2f_dxdu_Jacobian / d3f_dx2du_Jacobian on axis a at (ijk,lmn), kd is kd[ijk==lmn]. *)
Require Import Reals.
Local Open Scope R_scope.

(* /repo/Src/Main/Modules/Physics/Equation/eq_XCTS_crv_ex_T1_ddm_Jac_eq_alphaPsi.c:59-147: the values the loop body reads at its node: field B_U0D1 is B 0 1 *)
Record env : Type := mk {
  AConfIJ2 : R;
  ChrisConf : nat -> nat -> nat -> R;
  EConfP : R;
  J1 : nat -> R;
  J2 : nat -> R;
  SConfC : R;
  SConfP : R;
  igConf : nat -> nat -> R;
  kd : R;
  psi : R;
  trK : R;
  trRicciConf : R }.

(* /repo/Src/Main/Modules/Physics/Equation/eq_XCTS_crv_ex_T1_ddm_Jac_eq_alphaPsi.c:60 *)
Definition B_JalphaPsi_D0 (E : env) : R :=
  J1 E 0.

(* /repo/Src/Main/Modules/Physics/Equation/eq_XCTS_crv_ex_T1_ddm_Jac_eq_alphaPsi.c:61 *)
Definition B_JalphaPsi_D1 (E : env) : R :=
  J1 E 1.

(* /repo/Src/Main/Modules/Physics/Equation/eq_XCTS_crv_ex_T1_ddm_Jac_eq_alphaPsi.c:62 *)
Definition B_JalphaPsi_D2 (E : env) : R :=
  J1 E 2.

(* /repo/Src/Main/Modules/Physics/Equation/eq_XCTS_crv_ex_T1_ddm_Jac_eq_alphaPsi.c:63 *)
Definition B_JJalphaPsi_D0D0 (E : env) : R :=
  J2 E 0.

(* /repo/Src/Main/Modules/Physics/Equation/eq_XCTS_crv_ex_T1_ddm_Jac_eq_alphaPsi.c:64 *)
Definition B_JJalphaPsi_D0D1 (E : env) : R :=
  J2 E 1.

(* /repo/Src/Main/Modules/Physics/Equation/eq_XCTS_crv_ex_T1_ddm_Jac_eq_alphaPsi.c:65 *)
Definition B_JJalphaPsi_D0D2 (E : env) : R :=
  J2 E 2.

(* /repo/Src/Main/Modules/Physics/Equation/eq_XCTS_crv_ex_T1_ddm_Jac_eq_alphaPsi.c:66 *)
Definition B_JJalphaPsi_D1D1 (E : env) : R :=
  J2 E 3.

(* /repo/Src/Main/Modules/Physics/Equation/eq_XCTS_crv_ex_T1_ddm_Jac_eq_alphaPsi.c:67 *)
Definition B_JJalphaPsi_D1D2 (E : env) : R :=
  J2 E 4.

(* /repo/Src/Main/Modules/Physics/Equation/eq_XCTS_crv_ex_T1_ddm_Jac_eq_alphaPsi.c:68 *)
Definition B_JJalphaPsi_D2D2 (E : env) : R :=
  J2 E 5.

(* /repo/Src/Main/Modules/Physics/Equation/eq_XCTS_crv_ex_T1_ddm_Jac_eq_alphaPsi.c:69-70 *)
Definition B_psi4_B (E : env) : R :=
  (psi E) ^ 4.

(* /repo/Src/Main/Modules/Physics/Equation/eq_XCTS_crv_ex_T1_ddm_Jac_eq_alphaPsi.c:72-73 *)
Definition B_aij2_B (E : env) : R :=
  (AConfIJ2 E) / (B_psi4_B E).

(* /repo/Src/Main/Modules/Physics/Equation/eq_XCTS_crv_ex_T1_ddm_Jac_eq_alphaPsi.c:75-92 *)
Definition B_t1_b (E : env) : R :=
  (((((((- (igConf E 0 0)) * (((((ChrisConf E 0 0 0) * (B_JalphaPsi_D0 E)) + ((ChrisConf E 1 0 0)
  * (B_JalphaPsi_D1 E))) + ((ChrisConf E 2 0 0) * (B_JalphaPsi_D2 E))) - (B_JJalphaPsi_D0D0 E)))
  - ((2 * (igConf E 0 1)) * (((((ChrisConf E 0 0 1) * (B_JalphaPsi_D0 E)) + ((ChrisConf E 1 0 1)
  * (B_JalphaPsi_D1 E))) + ((ChrisConf E 2 0 1) * (B_JalphaPsi_D2 E))) - (B_JJalphaPsi_D0D1 E))))
  - ((2 * (igConf E 0 2)) * (((((ChrisConf E 0 0 2) * (B_JalphaPsi_D0 E)) + ((ChrisConf E 1 0 2)
  * (B_JalphaPsi_D1 E))) + ((ChrisConf E 2 0 2) * (B_JalphaPsi_D2 E))) - (B_JJalphaPsi_D0D2 E))))
  - ((igConf E 1 1) * (((((ChrisConf E 0 1 1) * (B_JalphaPsi_D0 E)) + ((ChrisConf E 1 1 1) *
  (B_JalphaPsi_D1 E))) + ((ChrisConf E 2 1 1) * (B_JalphaPsi_D2 E))) - (B_JJalphaPsi_D1D1 E)))) -
  ((2 * (igConf E 1 2)) * (((((ChrisConf E 0 1 2) * (B_JalphaPsi_D0 E)) + ((ChrisConf E 1 1 2) *
  (B_JalphaPsi_D1 E))) + ((ChrisConf E 2 1 2) * (B_JalphaPsi_D2 E))) - (B_JJalphaPsi_D1D2 E)))) -
  ((igConf E 2 2) * (((((ChrisConf E 0 2 2) * (B_JalphaPsi_D0 E)) + ((ChrisConf E 1 2 2) *
  (B_JalphaPsi_D1 E))) + ((ChrisConf E 2 2 2) * (B_JalphaPsi_D2 E))) - (B_JJalphaPsi_D2D2 E)))) -
  ((kd E) * (((((7/8) * (B_aij2_B E)) / (B_psi4_B E)) + (((5/12) * (B_psi4_B E)) * ((trK E) ^
  2))) + ((1 / 8) * (trRicciConf E)))).

(* /repo/Src/Main/Modules/Physics/Equation/eq_XCTS_crv_ex_T1_ddm_Jac_eq_alphaPsi.c:94-95 *)
Definition B_t2_b (E : env) : R :=
  ((((- 2) * PI) * (kd E)) * ((EConfP E) + (2 * (SConfP E)))) / ((psi E) ^ 2).

(* /repo/Src/Main/Modules/Physics/Equation/eq_XCTS_crv_ex_T1_ddm_Jac_eq_alphaPsi.c:97-98 *)
Definition B_Bpart (E : env) : R :=
  ((SConfC E) * (B_t1_b E)) + (B_t2_b E).

(* /repo/Src/Main/Modules/Physics/Equation/eq_XCTS_crv_ex_T1_ddm_Jac_eq_alphaPsi.c:100 *)
Definition B_out_schur_B (E : env) : R :=
  B_Bpart E.

(* /repo/Src/Main/Modules/Physics/Equation/eq_XCTS_crv_ex_T1_ddm_Jac_eq_alphaPsi.c:106 *)
Definition E_JalphaPsi_D0 (E : env) : R :=
  J1 E 0.

(* /repo/Src/Main/Modules/Physics/Equation/eq_XCTS_crv_ex_T1_ddm_Jac_eq_alphaPsi.c:107 *)
Definition E_JalphaPsi_D1 (E : env) : R :=
  J1 E 1.

(* /repo/Src/Main/Modules/Physics/Equation/eq_XCTS_crv_ex_T1_ddm_Jac_eq_alphaPsi.c:108 *)
Definition E_JalphaPsi_D2 (E : env) : R :=
  J1 E 2.

(* /repo/Src/Main/Modules/Physics/Equation/eq_XCTS_crv_ex_T1_ddm_Jac_eq_alphaPsi.c:109 *)
Definition E_JJalphaPsi_D0D0 (E : env) : R :=
  J2 E 0.

(* /repo/Src/Main/Modules/Physics/Equation/eq_XCTS_crv_ex_T1_ddm_Jac_eq_alphaPsi.c:110 *)
Definition E_JJalphaPsi_D0D1 (E : env) : R :=
  J2 E 1.

(* /repo/Src/Main/Modules/Physics/Equation/eq_XCTS_crv_ex_T1_ddm_Jac_eq_alphaPsi.c:111 *)
Definition E_JJalphaPsi_D0D2 (E : env) : R :=
  J2 E 2.

(* /repo/Src/Main/Modules/Physics/Equation/eq_XCTS_crv_ex_T1_ddm_Jac_eq_alphaPsi.c:112 *)
Definition E_JJalphaPsi_D1D1 (E : env) : R :=
  J2 E 3.

(* /repo/Src/Main/Modules/Physics/Equation/eq_XCTS_crv_ex_T1_ddm_Jac_eq_alphaPsi.c:113 *)
Definition E_JJalphaPsi_D1D2 (E : env) : R :=
  J2 E 4.

(* /repo/Src/Main/Modules/Physics/Equation/eq_XCTS_crv_ex_T1_ddm_Jac_eq_alphaPsi.c:114 *)
Definition E_JJalphaPsi_D2D2 (E : env) : R :=
  J2 E 5.

(* /repo/Src/Main/Modules/Physics/Equation/eq_XCTS_crv_ex_T1_ddm_Jac_eq_alphaPsi.c:115-116 *)
Definition E_psi4_E (E : env) : R :=
  (psi E) ^ 4.

(* /repo/Src/Main/Modules/Physics/Equation/eq_XCTS_crv_ex_T1_ddm_Jac_eq_alphaPsi.c:118-119 *)
Definition E_aij2_E (E : env) : R :=
  (AConfIJ2 E) / (E_psi4_E E).

(* /repo/Src/Main/Modules/Physics/Equation/eq_XCTS_crv_ex_T1_ddm_Jac_eq_alphaPsi.c:121-138 *)
Definition E_t1_e (E : env) : R :=
  (((((((- (igConf E 0 0)) * (((((ChrisConf E 0 0 0) * (E_JalphaPsi_D0 E)) + ((ChrisConf E 1 0 0)
  * (E_JalphaPsi_D1 E))) + ((ChrisConf E 2 0 0) * (E_JalphaPsi_D2 E))) - (E_JJalphaPsi_D0D0 E)))
  - ((2 * (igConf E 0 1)) * (((((ChrisConf E 0 0 1) * (E_JalphaPsi_D0 E)) + ((ChrisConf E 1 0 1)
  * (E_JalphaPsi_D1 E))) + ((ChrisConf E 2 0 1) * (E_JalphaPsi_D2 E))) - (E_JJalphaPsi_D0D1 E))))
  - ((2 * (igConf E 0 2)) * (((((ChrisConf E 0 0 2) * (E_JalphaPsi_D0 E)) + ((ChrisConf E 1 0 2)
  * (E_JalphaPsi_D1 E))) + ((ChrisConf E 2 0 2) * (E_JalphaPsi_D2 E))) - (E_JJalphaPsi_D0D2 E))))
  - ((igConf E 1 1) * (((((ChrisConf E 0 1 1) * (E_JalphaPsi_D0 E)) + ((ChrisConf E 1 1 1) *
  (E_JalphaPsi_D1 E))) + ((ChrisConf E 2 1 1) * (E_JalphaPsi_D2 E))) - (E_JJalphaPsi_D1D1 E)))) -
  ((2 * (igConf E 1 2)) * (((((ChrisConf E 0 1 2) * (E_JalphaPsi_D0 E)) + ((ChrisConf E 1 1 2) *
  (E_JalphaPsi_D1 E))) + ((ChrisConf E 2 1 2) * (E_JalphaPsi_D2 E))) - (E_JJalphaPsi_D1D2 E)))) -
  ((igConf E 2 2) * (((((ChrisConf E 0 2 2) * (E_JalphaPsi_D0 E)) + ((ChrisConf E 1 2 2) *
  (E_JalphaPsi_D1 E))) + ((ChrisConf E 2 2 2) * (E_JalphaPsi_D2 E))) - (E_JJalphaPsi_D2D2 E)))) -
  ((kd E) * (((((7/8) * (E_aij2_E E)) / (E_psi4_E E)) + (((5/12) * (E_psi4_E E)) * ((trK E) ^
  2))) + ((1 / 8) * (trRicciConf E)))).

(* /repo/Src/Main/Modules/Physics/Equation/eq_XCTS_crv_ex_T1_ddm_Jac_eq_alphaPsi.c:140-141 *)
Definition E_t2_e (E : env) : R :=
  ((((- 2) * PI) * (kd E)) * ((EConfP E) + (2 * (SConfP E)))) / ((psi E) ^ 2).

(* /repo/Src/Main/Modules/Physics/Equation/eq_XCTS_crv_ex_T1_ddm_Jac_eq_alphaPsi.c:143-144 *)
Definition E_Epart (E : env) : R :=
  ((SConfC E) * (E_t1_e E)) + (E_t2_e E).

(* /repo/Src/Main/Modules/Physics/Equation/eq_XCTS_crv_ex_T1_ddm_Jac_eq_alphaPsi.c:146 *)
Definition E_out_schur_Et (E : env) : R :=
  E_Epart E.
