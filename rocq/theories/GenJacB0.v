(* Generated by tools/c2coq.py from /repo/Src/Main/Modules/Physics/Equation/eq_XCTS_crv_ex_T1_ddm_Jac_eq_B0_U0.c: do not edit.
   Pointwise: one pass of the loop bodies. schur_F / schur_B / schur_Et entries are the out_ definitions; J1 a, J2 a are d2f_dxdu_Jacobian / d3f_dx2du_Jacobian on axis a at (ijk,lmn), kd is kd[ijk==lmn]. *)
Require Import Reals.
Local Open Scope R_scope.

(* /repo/Src/Main/Modules/Physics/Equation/eq_XCTS_crv_ex_T1_ddm_Jac_eq_B0_U0.c:121-627: the values the loop body reads at its node: field B_U0D1 is B 0 1 *)
Record env : Type := mk {
  ChrisConf : nat -> nat -> nat -> R;
  J1 : nat -> R;
  J2 : nat -> R;
  JConfC : R;
  RicciConf : nat -> nat -> R;
  alphaPsi : R;
  dChrisConf : nat -> nat -> nat -> nat -> R;
  dalphaPsi : nat -> R;
  dpsi : nat -> R;
  igConf : nat -> nat -> R;
  kd : R;
  psi : R }.

(* /repo/Src/Main/Modules/Physics/Equation/eq_XCTS_crv_ex_T1_ddm_Jac_eq_B0_U0.c:122 *)
Definition B_JB0_D0 (E : env) : R :=
  J1 E 0.

(* /repo/Src/Main/Modules/Physics/Equation/eq_XCTS_crv_ex_T1_ddm_Jac_eq_B0_U0.c:123 *)
Definition B_JB0_D1 (E : env) : R :=
  J1 E 1.

(* /repo/Src/Main/Modules/Physics/Equation/eq_XCTS_crv_ex_T1_ddm_Jac_eq_B0_U0.c:124 *)
Definition B_JB0_D2 (E : env) : R :=
  J1 E 2.

(* /repo/Src/Main/Modules/Physics/Equation/eq_XCTS_crv_ex_T1_ddm_Jac_eq_B0_U0.c:125 *)
Definition B_JJB0_D0D0 (E : env) : R :=
  J2 E 0.

(* /repo/Src/Main/Modules/Physics/Equation/eq_XCTS_crv_ex_T1_ddm_Jac_eq_B0_U0.c:126 *)
Definition B_JJB0_D0D1 (E : env) : R :=
  J2 E 1.

(* /repo/Src/Main/Modules/Physics/Equation/eq_XCTS_crv_ex_T1_ddm_Jac_eq_B0_U0.c:127 *)
Definition B_JJB0_D0D2 (E : env) : R :=
  J2 E 2.

(* /repo/Src/Main/Modules/Physics/Equation/eq_XCTS_crv_ex_T1_ddm_Jac_eq_B0_U0.c:128 *)
Definition B_JJB0_D1D1 (E : env) : R :=
  J2 E 3.

(* /repo/Src/Main/Modules/Physics/Equation/eq_XCTS_crv_ex_T1_ddm_Jac_eq_B0_U0.c:129 *)
Definition B_JJB0_D1D2 (E : env) : R :=
  J2 E 4.

(* /repo/Src/Main/Modules/Physics/Equation/eq_XCTS_crv_ex_T1_ddm_Jac_eq_B0_U0.c:130 *)
Definition B_JJB0_D2D2 (E : env) : R :=
  J2 E 5.

(* /repo/Src/Main/Modules/Physics/Equation/eq_XCTS_crv_ex_T1_ddm_Jac_eq_B0_U0.c:131-132 *)
Definition B_dLnOf_alpha_B_U0 (E : env) : R :=
  (((- 7) * (dpsi E 0)) / (psi E)) + ((dalphaPsi E 0) / (alphaPsi E)).

(* /repo/Src/Main/Modules/Physics/Equation/eq_XCTS_crv_ex_T1_ddm_Jac_eq_B0_U0.c:134-135 *)
Definition B_dLnOf_alpha_B_U1 (E : env) : R :=
  (((- 7) * (dpsi E 1)) / (psi E)) + ((dalphaPsi E 1) / (alphaPsi E)).

(* /repo/Src/Main/Modules/Physics/Equation/eq_XCTS_crv_ex_T1_ddm_Jac_eq_B0_U0.c:137-138 *)
Definition B_dLnOf_alpha_B_U2 (E : env) : R :=
  (((- 7) * (dpsi E 2)) / (psi E)) + ((dalphaPsi E 2) / (alphaPsi E)).

(* /repo/Src/Main/Modules/Physics/Equation/eq_XCTS_crv_ex_T1_ddm_Jac_eq_B0_U0.c:140-150 *)
Definition B_t1_B_U0 (E : env) : R :=
  (((((((((igConf E 0 0) * ((B_JJB0_D0D0 E) + ((dChrisConf E 0 0 0 0) * (kd E)))) + ((igConf E 0
  1) * ((B_JJB0_D0D1 E) + ((dChrisConf E 0 0 0 1) * (kd E))))) + ((igConf E 0 1) * ((B_JJB0_D0D1
  E) + ((dChrisConf E 0 0 1 0) * (kd E))))) + ((igConf E 0 2) * ((B_JJB0_D0D2 E) + ((dChrisConf E
  0 0 0 2) * (kd E))))) + ((igConf E 0 2) * ((B_JJB0_D0D2 E) + ((dChrisConf E 0 0 2 0) * (kd
  E))))) + ((igConf E 1 1) * ((B_JJB0_D1D1 E) + ((dChrisConf E 0 0 1 1) * (kd E))))) + ((igConf E
  1 2) * ((B_JJB0_D1D2 E) + ((dChrisConf E 0 0 1 2) * (kd E))))) + ((igConf E 1 2) *
  ((B_JJB0_D1D2 E) + ((dChrisConf E 0 0 2 1) * (kd E))))) + ((igConf E 2 2) * ((B_JJB0_D2D2 E) +
  ((dChrisConf E 0 0 2 2) * (kd E)))).

(* /repo/Src/Main/Modules/Physics/Equation/eq_XCTS_crv_ex_T1_ddm_Jac_eq_B0_U0.c:154-161 *)
Definition B_t2_B_U0 (E : env) : R :=
  (((((((2 * (ChrisConf E 0 0 0)) * (B_JB0_D0 E)) * (igConf E 0 0)) + (((2 * (ChrisConf E 0 0 1))
  * (B_JB0_D1 E)) * (igConf E 1 1))) + (((2 * (ChrisConf E 0 0 2)) * (B_JB0_D2 E)) * (igConf E 2
  2))) + ((2 * (igConf E 0 1)) * (((ChrisConf E 0 0 0) * (B_JB0_D1 E)) + ((ChrisConf E 0 0 1) *
  (B_JB0_D0 E))))) + ((2 * (igConf E 0 2)) * (((ChrisConf E 0 0 0) * (B_JB0_D2 E)) + ((ChrisConf
  E 0 0 2) * (B_JB0_D0 E))))) + ((2 * (igConf E 1 2)) * (((ChrisConf E 0 0 1) * (B_JB0_D2 E)) +
  ((ChrisConf E 0 0 2) * (B_JB0_D1 E)))).

(* /repo/Src/Main/Modules/Physics/Equation/eq_XCTS_crv_ex_T1_ddm_Jac_eq_B0_U0.c:165-189 *)
Definition B_t3_B_U0 (E : env) : R :=
  (kd E) * ((((((((((((((((((((((((((ChrisConf E 0 0 0) ^ 2) * (igConf E 0 0)) + (((2 *
  (ChrisConf E 0 0 0)) * (ChrisConf E 0 0 1)) * (igConf E 0 1))) + (((2 * (ChrisConf E 0 0 0)) *
  (ChrisConf E 0 0 2)) * (igConf E 0 2))) + (((ChrisConf E 0 0 1) ^ 2) * (igConf E 1 1))) + (((2
  * (ChrisConf E 0 0 1)) * (ChrisConf E 0 0 2)) * (igConf E 1 2))) + (((ChrisConf E 0 0 1) *
  (ChrisConf E 1 0 0)) * (igConf E 0 0))) + (((ChrisConf E 0 0 1) * (ChrisConf E 1 0 1)) *
  (igConf E 0 1))) + (((ChrisConf E 0 0 1) * (ChrisConf E 1 0 2)) * (igConf E 0 2))) +
  (((ChrisConf E 0 0 2) ^ 2) * (igConf E 2 2))) + (((ChrisConf E 0 0 2) * (ChrisConf E 2 0 0)) *
  (igConf E 0 0))) + (((ChrisConf E 0 0 2) * (ChrisConf E 2 0 1)) * (igConf E 0 1))) +
  (((ChrisConf E 0 0 2) * (ChrisConf E 2 0 2)) * (igConf E 0 2))) + (((ChrisConf E 0 1 1) *
  (ChrisConf E 1 0 0)) * (igConf E 0 1))) + (((ChrisConf E 0 1 1) * (ChrisConf E 1 0 1)) *
  (igConf E 1 1))) + (((ChrisConf E 0 1 1) * (ChrisConf E 1 0 2)) * (igConf E 1 2))) +
  (((ChrisConf E 0 1 2) * (ChrisConf E 1 0 0)) * (igConf E 0 2))) + (((ChrisConf E 0 1 2) *
  (ChrisConf E 1 0 1)) * (igConf E 1 2))) + (((ChrisConf E 0 1 2) * (ChrisConf E 1 0 2)) *
  (igConf E 2 2))) + (((ChrisConf E 0 1 2) * (ChrisConf E 2 0 0)) * (igConf E 0 1))) +
  (((ChrisConf E 0 1 2) * (ChrisConf E 2 0 1)) * (igConf E 1 1))) + (((ChrisConf E 0 1 2) *
  (ChrisConf E 2 0 2)) * (igConf E 1 2))) + (((ChrisConf E 0 2 2) * (ChrisConf E 2 0 0)) *
  (igConf E 0 2))) + (((ChrisConf E 0 2 2) * (ChrisConf E 2 0 1)) * (igConf E 1 2))) +
  (((ChrisConf E 0 2 2) * (ChrisConf E 2 0 2)) * (igConf E 2 2))).

(* /repo/Src/Main/Modules/Physics/Equation/eq_XCTS_crv_ex_T1_ddm_Jac_eq_B0_U0.c:193-218 *)
Definition B_t4_B_U0 (E : env) : R :=
  ((((((- (igConf E 0 0)) * (((((ChrisConf E 0 0 0) * (B_JB0_D0 E)) + ((ChrisConf E 1 0 0) *
  (B_JB0_D1 E))) + ((ChrisConf E 2 0 0) * (B_JB0_D2 E))) + ((kd E) * ((((ChrisConf E 0 0 0) ^ 2)
  + ((ChrisConf E 0 0 1) * (ChrisConf E 1 0 0))) + ((ChrisConf E 0 0 2) * (ChrisConf E 2 0
  0)))))) - ((2 * (igConf E 0 1)) * (((((ChrisConf E 0 0 1) * (B_JB0_D0 E)) + ((ChrisConf E 1 0
  1) * (B_JB0_D1 E))) + ((ChrisConf E 2 0 1) * (B_JB0_D2 E))) + ((kd E) * ((((ChrisConf E 0 0 0)
  * (ChrisConf E 0 0 1)) + ((ChrisConf E 0 0 1) * (ChrisConf E 1 0 1))) + ((ChrisConf E 0 0 2) *
  (ChrisConf E 2 0 1))))))) - ((2 * (igConf E 0 2)) * (((((ChrisConf E 0 0 2) * (B_JB0_D0 E)) +
  ((ChrisConf E 1 0 2) * (B_JB0_D1 E))) + ((ChrisConf E 2 0 2) * (B_JB0_D2 E))) + ((kd E) *
  ((((ChrisConf E 0 0 0) * (ChrisConf E 0 0 2)) + ((ChrisConf E 0 0 1) * (ChrisConf E 1 0 2))) +
  ((ChrisConf E 0 0 2) * (ChrisConf E 2 0 2))))))) - ((igConf E 1 1) * (((((ChrisConf E 0 1 1) *
  (B_JB0_D0 E)) + ((ChrisConf E 1 1 1) * (B_JB0_D1 E))) + ((ChrisConf E 2 1 1) * (B_JB0_D2 E))) +
  ((kd E) * ((((ChrisConf E 0 0 0) * (ChrisConf E 0 1 1)) + ((ChrisConf E 0 0 1) * (ChrisConf E 1
  1 1))) + ((ChrisConf E 0 0 2) * (ChrisConf E 2 1 1))))))) - ((2 * (igConf E 1 2)) *
  (((((ChrisConf E 0 1 2) * (B_JB0_D0 E)) + ((ChrisConf E 1 1 2) * (B_JB0_D1 E))) + ((ChrisConf E
  2 1 2) * (B_JB0_D2 E))) + ((kd E) * ((((ChrisConf E 0 0 0) * (ChrisConf E 0 1 2)) + ((ChrisConf
  E 0 0 1) * (ChrisConf E 1 1 2))) + ((ChrisConf E 0 0 2) * (ChrisConf E 2 1 2))))))) - ((igConf
  E 2 2) * (((((ChrisConf E 0 2 2) * (B_JB0_D0 E)) + ((ChrisConf E 1 2 2) * (B_JB0_D1 E))) +
  ((ChrisConf E 2 2 2) * (B_JB0_D2 E))) + ((kd E) * ((((ChrisConf E 0 0 0) * (ChrisConf E 0 2 2))
  + ((ChrisConf E 0 0 1) * (ChrisConf E 1 2 2))) + ((ChrisConf E 0 0 2) * (ChrisConf E 2 2
  2)))))).

(* /repo/Src/Main/Modules/Physics/Equation/eq_XCTS_crv_ex_T1_ddm_Jac_eq_B0_U0.c:222-230 *)
Definition B_t5_B_U0 (E : env) : R :=
  ((((1/3) * (igConf E 0 0)) * ((B_JJB0_D0D0 E) + ((kd E) * (((dChrisConf E 0 0 0 0) +
  (dChrisConf E 1 0 1 0)) + (dChrisConf E 2 0 2 0))))) + (((1/3) * (igConf E 0 1)) *
  ((B_JJB0_D0D1 E) + ((kd E) * (((dChrisConf E 0 0 0 1) + (dChrisConf E 1 0 1 1)) + (dChrisConf E
  2 0 2 1)))))) + (((1/3) * (igConf E 0 2)) * ((B_JJB0_D0D2 E) + ((kd E) * (((dChrisConf E 0 0 0
  2) + (dChrisConf E 1 0 1 2)) + (dChrisConf E 2 0 2 2))))).

(* /repo/Src/Main/Modules/Physics/Equation/eq_XCTS_crv_ex_T1_ddm_Jac_eq_B0_U0.c:234-244 *)
Definition B_t6_B_U0 (E : env) : R :=
  ((((1/3) * (igConf E 0 0)) * ((((((2 * (ChrisConf E 0 0 0)) * (B_JB0_D0 E)) + ((ChrisConf E 1 0
  0) * (B_JB0_D1 E))) + ((ChrisConf E 1 0 1) * (B_JB0_D0 E))) + ((ChrisConf E 2 0 0) * (B_JB0_D2
  E))) + ((ChrisConf E 2 0 2) * (B_JB0_D0 E)))) + (((1/3) * (igConf E 0 1)) * ((((((ChrisConf E 0
  0 0) * (B_JB0_D1 E)) + ((ChrisConf E 0 0 1) * (B_JB0_D0 E))) + ((2 * (ChrisConf E 1 0 1)) *
  (B_JB0_D1 E))) + ((ChrisConf E 2 0 1) * (B_JB0_D2 E))) + ((ChrisConf E 2 0 2) * (B_JB0_D1
  E))))) + (((1/3) * (igConf E 0 2)) * ((((((ChrisConf E 0 0 0) * (B_JB0_D2 E)) + ((ChrisConf E 0
  0 2) * (B_JB0_D0 E))) + ((ChrisConf E 1 0 1) * (B_JB0_D2 E))) + ((ChrisConf E 1 0 2) *
  (B_JB0_D1 E))) + ((2 * (ChrisConf E 2 0 2)) * (B_JB0_D2 E)))).

(* /repo/Src/Main/Modules/Physics/Equation/eq_XCTS_crv_ex_T1_ddm_Jac_eq_B0_U0.c:248-280 *)
Definition B_t7_B_U0 (E : env) : R :=
  (kd E) * ((((((((((((((((((((((((((1/3) * ((ChrisConf E 0 0 0) ^ 2)) * (igConf E 0 0)) +
  ((((1/3) * (ChrisConf E 0 0 0)) * (ChrisConf E 0 0 1)) * (igConf E 0 1))) + ((((1/3) *
  (ChrisConf E 0 0 0)) * (ChrisConf E 0 0 2)) * (igConf E 0 2))) + ((((2/3) * (ChrisConf E 0 0
  1)) * (ChrisConf E 1 0 0)) * (igConf E 0 0))) + ((((1/3) * (ChrisConf E 0 0 1)) * (ChrisConf E
  1 0 1)) * (igConf E 0 1))) + ((((1/3) * (ChrisConf E 0 0 1)) * (ChrisConf E 1 0 2)) * (igConf E
  0 2))) + ((((2/3) * (ChrisConf E 0 0 2)) * (ChrisConf E 2 0 0)) * (igConf E 0 0))) + ((((1/3) *
  (ChrisConf E 0 0 2)) * (ChrisConf E 2 0 1)) * (igConf E 0 1))) + ((((1/3) * (ChrisConf E 0 0
  2)) * (ChrisConf E 2 0 2)) * (igConf E 0 2))) + ((((1/3) * (ChrisConf E 0 1 1)) * (ChrisConf E
  1 0 0)) * (igConf E 0 1))) + ((((1/3) * (ChrisConf E 0 1 2)) * (ChrisConf E 1 0 0)) * (igConf E
  0 2))) + ((((1/3) * (ChrisConf E 0 1 2)) * (ChrisConf E 2 0 0)) * (igConf E 0 1))) + ((((1/3) *
  (ChrisConf E 0 2 2)) * (ChrisConf E 2 0 0)) * (igConf E 0 2))) + (((1/3) * ((ChrisConf E 1 0 1)
  ^ 2)) * (igConf E 0 0))) + ((((1/3) * (ChrisConf E 1 0 1)) * (ChrisConf E 1 1 1)) * (igConf E 0
  1))) + ((((1/3) * (ChrisConf E 1 0 1)) * (ChrisConf E 1 1 2)) * (igConf E 0 2))) + ((((2/3) *
  (ChrisConf E 1 0 2)) * (ChrisConf E 2 0 1)) * (igConf E 0 0))) + ((((1/3) * (ChrisConf E 1 0
  2)) * (ChrisConf E 2 1 1)) * (igConf E 0 1))) + ((((1/3) * (ChrisConf E 1 0 2)) * (ChrisConf E
  2 1 2)) * (igConf E 0 2))) + ((((1/3) * (ChrisConf E 1 1 2)) * (ChrisConf E 2 0 1)) * (igConf E
  0 1))) + ((((1/3) * (ChrisConf E 1 2 2)) * (ChrisConf E 2 0 1)) * (igConf E 0 2))) + (((1/3) *
  ((ChrisConf E 2 0 2) ^ 2)) * (igConf E 0 0))) + ((((1/3) * (ChrisConf E 2 0 2)) * (ChrisConf E
  2 1 2)) * (igConf E 0 1))) + ((((1/3) * (ChrisConf E 2 0 2)) * (ChrisConf E 2 2 2)) * (igConf E
  0 2))).

(* /repo/Src/Main/Modules/Physics/Equation/eq_XCTS_crv_ex_T1_ddm_Jac_eq_B0_U0.c:284-307 *)
Definition B_t8_B_U0 (E : env) : R :=
  ((((- (1/3)) * (igConf E 0 0)) * (((((ChrisConf E 0 0 0) * (B_JB0_D0 E)) + ((ChrisConf E 1 0 0)
  * (B_JB0_D1 E))) + ((ChrisConf E 2 0 0) * (B_JB0_D2 E))) + ((kd E) * (((((((ChrisConf E 0 0 0)
  ^ 2) + ((2 * (ChrisConf E 0 0 1)) * (ChrisConf E 1 0 0))) + ((2 * (ChrisConf E 0 0 2)) *
  (ChrisConf E 2 0 0))) + ((ChrisConf E 1 0 1) ^ 2)) + ((2 * (ChrisConf E 1 0 2)) * (ChrisConf E
  2 0 1))) + ((ChrisConf E 2 0 2) ^ 2))))) - (((1/3) * (igConf E 0 1)) * (((((ChrisConf E 0 0 1)
  * (B_JB0_D0 E)) + ((ChrisConf E 1 0 1) * (B_JB0_D1 E))) + ((ChrisConf E 2 0 1) * (B_JB0_D2 E)))
  + ((kd E) * ((((((((((ChrisConf E 0 0 0) * (ChrisConf E 0 0 1)) + ((ChrisConf E 0 0 1) *
  (ChrisConf E 1 0 1))) + ((ChrisConf E 0 0 2) * (ChrisConf E 2 0 1))) + ((ChrisConf E 0 1 1) *
  (ChrisConf E 1 0 0))) + ((ChrisConf E 0 1 2) * (ChrisConf E 2 0 0))) + ((ChrisConf E 1 0 1) *
  (ChrisConf E 1 1 1))) + ((ChrisConf E 1 0 2) * (ChrisConf E 2 1 1))) + ((ChrisConf E 1 1 2) *
  (ChrisConf E 2 0 1))) + ((ChrisConf E 2 0 2) * (ChrisConf E 2 1 2))))))) - (((1/3) * (igConf E
  0 2)) * (((((ChrisConf E 0 0 2) * (B_JB0_D0 E)) + ((ChrisConf E 1 0 2) * (B_JB0_D1 E))) +
  ((ChrisConf E 2 0 2) * (B_JB0_D2 E))) + ((kd E) * ((((((((((ChrisConf E 0 0 0) * (ChrisConf E 0
  0 2)) + ((ChrisConf E 0 0 1) * (ChrisConf E 1 0 2))) + ((ChrisConf E 0 0 2) * (ChrisConf E 2 0
  2))) + ((ChrisConf E 0 1 2) * (ChrisConf E 1 0 0))) + ((ChrisConf E 0 2 2) * (ChrisConf E 2 0
  0))) + ((ChrisConf E 1 0 1) * (ChrisConf E 1 1 2))) + ((ChrisConf E 1 0 2) * (ChrisConf E 2 1
  2))) + ((ChrisConf E 1 2 2) * (ChrisConf E 2 0 1))) + ((ChrisConf E 2 0 2) * (ChrisConf E 2 2
  2)))))).

(* /repo/Src/Main/Modules/Physics/Equation/eq_XCTS_crv_ex_T1_ddm_Jac_eq_B0_U0.c:311-314 *)
Definition B_t9_B_U0 (E : env) : R :=
  (kd E) * ((((RicciConf E 0 0) * (igConf E 0 0)) + ((RicciConf E 0 1) * (igConf E 0 1))) +
  ((RicciConf E 0 2) * (igConf E 0 2))).

(* /repo/Src/Main/Modules/Physics/Equation/eq_XCTS_crv_ex_T1_ddm_Jac_eq_B0_U0.c:318-320 *)
Definition B_contB (E : env) : R :=
  (B_JB0_D0 E) + ((kd E) * (((ChrisConf E 0 0 0) + (ChrisConf E 1 0 1)) + (ChrisConf E 2 0 2))).

(* /repo/Src/Main/Modules/Physics/Equation/eq_XCTS_crv_ex_T1_ddm_Jac_eq_B0_U0.c:322-325 *)
Definition B_t1p10_B_U0 (E : env) : R :=
  ((2/3) * (B_contB E)) * ((((B_dLnOf_alpha_B_U0 E) * (igConf E 0 0)) + ((B_dLnOf_alpha_B_U1 E) *
  (igConf E 0 1))) + ((B_dLnOf_alpha_B_U2 E) * (igConf E 0 2))).

(* /repo/Src/Main/Modules/Physics/Equation/eq_XCTS_crv_ex_T1_ddm_Jac_eq_B0_U0.c:329-341 *)
Definition B_t2p10_B_U0 (E : env) : R :=
  ((((((((((- (B_dLnOf_alpha_B_U0 E)) * (igConf E 0 0)) * (((ChrisConf E 0 0 0) * (kd E)) +
  (B_JB0_D0 E))) - (((B_dLnOf_alpha_B_U0 E) * (igConf E 0 1)) * (((ChrisConf E 0 0 1) * (kd E)) +
  (B_JB0_D1 E)))) - (((B_dLnOf_alpha_B_U0 E) * (igConf E 0 2)) * (((ChrisConf E 0 0 2) * (kd E))
  + (B_JB0_D2 E)))) - (((B_dLnOf_alpha_B_U1 E) * (igConf E 0 1)) * (((ChrisConf E 0 0 0) * (kd
  E)) + (B_JB0_D0 E)))) - (((B_dLnOf_alpha_B_U1 E) * (igConf E 1 1)) * (((ChrisConf E 0 0 1) *
  (kd E)) + (B_JB0_D1 E)))) - (((B_dLnOf_alpha_B_U1 E) * (igConf E 1 2)) * (((ChrisConf E 0 0 2)
  * (kd E)) + (B_JB0_D2 E)))) - (((B_dLnOf_alpha_B_U2 E) * (igConf E 0 2)) * (((ChrisConf E 0 0
  0) * (kd E)) + (B_JB0_D0 E)))) - (((B_dLnOf_alpha_B_U2 E) * (igConf E 1 2)) * (((ChrisConf E 0
  0 1) * (kd E)) + (B_JB0_D1 E)))) - (((B_dLnOf_alpha_B_U2 E) * (igConf E 2 2)) * (((ChrisConf E
  0 0 2) * (kd E)) + (B_JB0_D2 E))).

(* /repo/Src/Main/Modules/Physics/Equation/eq_XCTS_crv_ex_T1_ddm_Jac_eq_B0_U0.c:345-355 *)
Definition B_t3p10_B_U0 (E : env) : R :=
  (((((((((((- (ChrisConf E 1 0 0)) * (B_dLnOf_alpha_B_U1 E)) * (igConf E 0 0)) * (kd E)) -
  ((((ChrisConf E 1 0 1) * (B_dLnOf_alpha_B_U1 E)) * (igConf E 0 1)) * (kd E))) - ((((ChrisConf E
  1 0 2) * (B_dLnOf_alpha_B_U1 E)) * (igConf E 0 2)) * (kd E))) - ((((ChrisConf E 2 0 0) *
  (B_dLnOf_alpha_B_U2 E)) * (igConf E 0 0)) * (kd E))) - ((((ChrisConf E 2 0 1) *
  (B_dLnOf_alpha_B_U2 E)) * (igConf E 0 1)) * (kd E))) - ((((ChrisConf E 2 0 2) *
  (B_dLnOf_alpha_B_U2 E)) * (igConf E 0 2)) * (kd E))) - (((B_dLnOf_alpha_B_U0 E) * (igConf E 0
  0)) * (((ChrisConf E 0 0 0) * (kd E)) + (B_JB0_D0 E)))) - (((B_dLnOf_alpha_B_U0 E) * (igConf E
  0 1)) * (((ChrisConf E 0 0 1) * (kd E)) + (B_JB0_D1 E)))) - (((B_dLnOf_alpha_B_U0 E) * (igConf
  E 0 2)) * (((ChrisConf E 0 0 2) * (kd E)) + (B_JB0_D2 E))).

(* /repo/Src/Main/Modules/Physics/Equation/eq_XCTS_crv_ex_T1_ddm_Jac_eq_B0_U0.c:359-360 *)
Definition B_t10_B_U0 (E : env) : R :=
  ((B_t1p10_B_U0 E) + (B_t2p10_B_U0 E)) + (B_t3p10_B_U0 E).

(* /repo/Src/Main/Modules/Physics/Equation/eq_XCTS_crv_ex_T1_ddm_Jac_eq_B0_U0.c:364-366 *)
Definition B_Bpart_U0 (E : env) : R :=
  (((((((((B_t10_B_U0 E) + (B_t1_B_U0 E)) + (B_t2_B_U0 E)) + (B_t3_B_U0 E)) + (B_t4_B_U0 E)) +
  (B_t5_B_U0 E)) + (B_t6_B_U0 E)) + (B_t7_B_U0 E)) + (B_t8_B_U0 E)) + (B_t9_B_U0 E).

(* /repo/Src/Main/Modules/Physics/Equation/eq_XCTS_crv_ex_T1_ddm_Jac_eq_B0_U0.c:370 *)
Definition B_Bpart_U0_ (E : env) : R :=
  (B_Bpart_U0 E) * (JConfC E).

(* /repo/Src/Main/Modules/Physics/Equation/eq_XCTS_crv_ex_T1_ddm_Jac_eq_B0_U0.c:371 *)
Definition B_out_schur_B (E : env) : R :=
  B_Bpart_U0_ E.

(* /repo/Src/Main/Modules/Physics/Equation/eq_XCTS_crv_ex_T1_ddm_Jac_eq_B0_U0.c:377 *)
Definition E_JB0_D0 (E : env) : R :=
  J1 E 0.

(* /repo/Src/Main/Modules/Physics/Equation/eq_XCTS_crv_ex_T1_ddm_Jac_eq_B0_U0.c:378 *)
Definition E_JB0_D1 (E : env) : R :=
  J1 E 1.

(* /repo/Src/Main/Modules/Physics/Equation/eq_XCTS_crv_ex_T1_ddm_Jac_eq_B0_U0.c:379 *)
Definition E_JB0_D2 (E : env) : R :=
  J1 E 2.

(* /repo/Src/Main/Modules/Physics/Equation/eq_XCTS_crv_ex_T1_ddm_Jac_eq_B0_U0.c:380 *)
Definition E_JJB0_D0D0 (E : env) : R :=
  J2 E 0.

(* /repo/Src/Main/Modules/Physics/Equation/eq_XCTS_crv_ex_T1_ddm_Jac_eq_B0_U0.c:381 *)
Definition E_JJB0_D0D1 (E : env) : R :=
  J2 E 1.

(* /repo/Src/Main/Modules/Physics/Equation/eq_XCTS_crv_ex_T1_ddm_Jac_eq_B0_U0.c:382 *)
Definition E_JJB0_D0D2 (E : env) : R :=
  J2 E 2.

(* /repo/Src/Main/Modules/Physics/Equation/eq_XCTS_crv_ex_T1_ddm_Jac_eq_B0_U0.c:383 *)
Definition E_JJB0_D1D1 (E : env) : R :=
  J2 E 3.

(* /repo/Src/Main/Modules/Physics/Equation/eq_XCTS_crv_ex_T1_ddm_Jac_eq_B0_U0.c:384 *)
Definition E_JJB0_D1D2 (E : env) : R :=
  J2 E 4.

(* /repo/Src/Main/Modules/Physics/Equation/eq_XCTS_crv_ex_T1_ddm_Jac_eq_B0_U0.c:385 *)
Definition E_JJB0_D2D2 (E : env) : R :=
  J2 E 5.

(* /repo/Src/Main/Modules/Physics/Equation/eq_XCTS_crv_ex_T1_ddm_Jac_eq_B0_U0.c:386-387 *)
Definition E_dLnOf_alpha_E_U0 (E : env) : R :=
  (((- 7) * (dpsi E 0)) / (psi E)) + ((dalphaPsi E 0) / (alphaPsi E)).

(* /repo/Src/Main/Modules/Physics/Equation/eq_XCTS_crv_ex_T1_ddm_Jac_eq_B0_U0.c:389-390 *)
Definition E_dLnOf_alpha_E_U1 (E : env) : R :=
  (((- 7) * (dpsi E 1)) / (psi E)) + ((dalphaPsi E 1) / (alphaPsi E)).

(* /repo/Src/Main/Modules/Physics/Equation/eq_XCTS_crv_ex_T1_ddm_Jac_eq_B0_U0.c:392-393 *)
Definition E_dLnOf_alpha_E_U2 (E : env) : R :=
  (((- 7) * (dpsi E 2)) / (psi E)) + ((dalphaPsi E 2) / (alphaPsi E)).

(* /repo/Src/Main/Modules/Physics/Equation/eq_XCTS_crv_ex_T1_ddm_Jac_eq_B0_U0.c:395-405 *)
Definition E_t1_E_U0 (E : env) : R :=
  (((((((((igConf E 0 0) * ((E_JJB0_D0D0 E) + ((dChrisConf E 0 0 0 0) * (kd E)))) + ((igConf E 0
  1) * ((E_JJB0_D0D1 E) + ((dChrisConf E 0 0 0 1) * (kd E))))) + ((igConf E 0 1) * ((E_JJB0_D0D1
  E) + ((dChrisConf E 0 0 1 0) * (kd E))))) + ((igConf E 0 2) * ((E_JJB0_D0D2 E) + ((dChrisConf E
  0 0 0 2) * (kd E))))) + ((igConf E 0 2) * ((E_JJB0_D0D2 E) + ((dChrisConf E 0 0 2 0) * (kd
  E))))) + ((igConf E 1 1) * ((E_JJB0_D1D1 E) + ((dChrisConf E 0 0 1 1) * (kd E))))) + ((igConf E
  1 2) * ((E_JJB0_D1D2 E) + ((dChrisConf E 0 0 1 2) * (kd E))))) + ((igConf E 1 2) *
  ((E_JJB0_D1D2 E) + ((dChrisConf E 0 0 2 1) * (kd E))))) + ((igConf E 2 2) * ((E_JJB0_D2D2 E) +
  ((dChrisConf E 0 0 2 2) * (kd E)))).

(* /repo/Src/Main/Modules/Physics/Equation/eq_XCTS_crv_ex_T1_ddm_Jac_eq_B0_U0.c:409-416 *)
Definition E_t2_E_U0 (E : env) : R :=
  (((((((2 * (ChrisConf E 0 0 0)) * (E_JB0_D0 E)) * (igConf E 0 0)) + (((2 * (ChrisConf E 0 0 1))
  * (E_JB0_D1 E)) * (igConf E 1 1))) + (((2 * (ChrisConf E 0 0 2)) * (E_JB0_D2 E)) * (igConf E 2
  2))) + ((2 * (igConf E 0 1)) * (((ChrisConf E 0 0 0) * (E_JB0_D1 E)) + ((ChrisConf E 0 0 1) *
  (E_JB0_D0 E))))) + ((2 * (igConf E 0 2)) * (((ChrisConf E 0 0 0) * (E_JB0_D2 E)) + ((ChrisConf
  E 0 0 2) * (E_JB0_D0 E))))) + ((2 * (igConf E 1 2)) * (((ChrisConf E 0 0 1) * (E_JB0_D2 E)) +
  ((ChrisConf E 0 0 2) * (E_JB0_D1 E)))).

(* /repo/Src/Main/Modules/Physics/Equation/eq_XCTS_crv_ex_T1_ddm_Jac_eq_B0_U0.c:420-444 *)
Definition E_t3_E_U0 (E : env) : R :=
  (kd E) * ((((((((((((((((((((((((((ChrisConf E 0 0 0) ^ 2) * (igConf E 0 0)) + (((2 *
  (ChrisConf E 0 0 0)) * (ChrisConf E 0 0 1)) * (igConf E 0 1))) + (((2 * (ChrisConf E 0 0 0)) *
  (ChrisConf E 0 0 2)) * (igConf E 0 2))) + (((ChrisConf E 0 0 1) ^ 2) * (igConf E 1 1))) + (((2
  * (ChrisConf E 0 0 1)) * (ChrisConf E 0 0 2)) * (igConf E 1 2))) + (((ChrisConf E 0 0 1) *
  (ChrisConf E 1 0 0)) * (igConf E 0 0))) + (((ChrisConf E 0 0 1) * (ChrisConf E 1 0 1)) *
  (igConf E 0 1))) + (((ChrisConf E 0 0 1) * (ChrisConf E 1 0 2)) * (igConf E 0 2))) +
  (((ChrisConf E 0 0 2) ^ 2) * (igConf E 2 2))) + (((ChrisConf E 0 0 2) * (ChrisConf E 2 0 0)) *
  (igConf E 0 0))) + (((ChrisConf E 0 0 2) * (ChrisConf E 2 0 1)) * (igConf E 0 1))) +
  (((ChrisConf E 0 0 2) * (ChrisConf E 2 0 2)) * (igConf E 0 2))) + (((ChrisConf E 0 1 1) *
  (ChrisConf E 1 0 0)) * (igConf E 0 1))) + (((ChrisConf E 0 1 1) * (ChrisConf E 1 0 1)) *
  (igConf E 1 1))) + (((ChrisConf E 0 1 1) * (ChrisConf E 1 0 2)) * (igConf E 1 2))) +
  (((ChrisConf E 0 1 2) * (ChrisConf E 1 0 0)) * (igConf E 0 2))) + (((ChrisConf E 0 1 2) *
  (ChrisConf E 1 0 1)) * (igConf E 1 2))) + (((ChrisConf E 0 1 2) * (ChrisConf E 1 0 2)) *
  (igConf E 2 2))) + (((ChrisConf E 0 1 2) * (ChrisConf E 2 0 0)) * (igConf E 0 1))) +
  (((ChrisConf E 0 1 2) * (ChrisConf E 2 0 1)) * (igConf E 1 1))) + (((ChrisConf E 0 1 2) *
  (ChrisConf E 2 0 2)) * (igConf E 1 2))) + (((ChrisConf E 0 2 2) * (ChrisConf E 2 0 0)) *
  (igConf E 0 2))) + (((ChrisConf E 0 2 2) * (ChrisConf E 2 0 1)) * (igConf E 1 2))) +
  (((ChrisConf E 0 2 2) * (ChrisConf E 2 0 2)) * (igConf E 2 2))).

(* /repo/Src/Main/Modules/Physics/Equation/eq_XCTS_crv_ex_T1_ddm_Jac_eq_B0_U0.c:448-473 *)
Definition E_t4_E_U0 (E : env) : R :=
  ((((((- (igConf E 0 0)) * (((((ChrisConf E 0 0 0) * (E_JB0_D0 E)) + ((ChrisConf E 1 0 0) *
  (E_JB0_D1 E))) + ((ChrisConf E 2 0 0) * (E_JB0_D2 E))) + ((kd E) * ((((ChrisConf E 0 0 0) ^ 2)
  + ((ChrisConf E 0 0 1) * (ChrisConf E 1 0 0))) + ((ChrisConf E 0 0 2) * (ChrisConf E 2 0
  0)))))) - ((2 * (igConf E 0 1)) * (((((ChrisConf E 0 0 1) * (E_JB0_D0 E)) + ((ChrisConf E 1 0
  1) * (E_JB0_D1 E))) + ((ChrisConf E 2 0 1) * (E_JB0_D2 E))) + ((kd E) * ((((ChrisConf E 0 0 0)
  * (ChrisConf E 0 0 1)) + ((ChrisConf E 0 0 1) * (ChrisConf E 1 0 1))) + ((ChrisConf E 0 0 2) *
  (ChrisConf E 2 0 1))))))) - ((2 * (igConf E 0 2)) * (((((ChrisConf E 0 0 2) * (E_JB0_D0 E)) +
  ((ChrisConf E 1 0 2) * (E_JB0_D1 E))) + ((ChrisConf E 2 0 2) * (E_JB0_D2 E))) + ((kd E) *
  ((((ChrisConf E 0 0 0) * (ChrisConf E 0 0 2)) + ((ChrisConf E 0 0 1) * (ChrisConf E 1 0 2))) +
  ((ChrisConf E 0 0 2) * (ChrisConf E 2 0 2))))))) - ((igConf E 1 1) * (((((ChrisConf E 0 1 1) *
  (E_JB0_D0 E)) + ((ChrisConf E 1 1 1) * (E_JB0_D1 E))) + ((ChrisConf E 2 1 1) * (E_JB0_D2 E))) +
  ((kd E) * ((((ChrisConf E 0 0 0) * (ChrisConf E 0 1 1)) + ((ChrisConf E 0 0 1) * (ChrisConf E 1
  1 1))) + ((ChrisConf E 0 0 2) * (ChrisConf E 2 1 1))))))) - ((2 * (igConf E 1 2)) *
  (((((ChrisConf E 0 1 2) * (E_JB0_D0 E)) + ((ChrisConf E 1 1 2) * (E_JB0_D1 E))) + ((ChrisConf E
  2 1 2) * (E_JB0_D2 E))) + ((kd E) * ((((ChrisConf E 0 0 0) * (ChrisConf E 0 1 2)) + ((ChrisConf
  E 0 0 1) * (ChrisConf E 1 1 2))) + ((ChrisConf E 0 0 2) * (ChrisConf E 2 1 2))))))) - ((igConf
  E 2 2) * (((((ChrisConf E 0 2 2) * (E_JB0_D0 E)) + ((ChrisConf E 1 2 2) * (E_JB0_D1 E))) +
  ((ChrisConf E 2 2 2) * (E_JB0_D2 E))) + ((kd E) * ((((ChrisConf E 0 0 0) * (ChrisConf E 0 2 2))
  + ((ChrisConf E 0 0 1) * (ChrisConf E 1 2 2))) + ((ChrisConf E 0 0 2) * (ChrisConf E 2 2
  2)))))).

(* /repo/Src/Main/Modules/Physics/Equation/eq_XCTS_crv_ex_T1_ddm_Jac_eq_B0_U0.c:477-485 *)
Definition E_t5_E_U0 (E : env) : R :=
  ((((1/3) * (igConf E 0 0)) * ((E_JJB0_D0D0 E) + ((kd E) * (((dChrisConf E 0 0 0 0) +
  (dChrisConf E 1 0 1 0)) + (dChrisConf E 2 0 2 0))))) + (((1/3) * (igConf E 0 1)) *
  ((E_JJB0_D0D1 E) + ((kd E) * (((dChrisConf E 0 0 0 1) + (dChrisConf E 1 0 1 1)) + (dChrisConf E
  2 0 2 1)))))) + (((1/3) * (igConf E 0 2)) * ((E_JJB0_D0D2 E) + ((kd E) * (((dChrisConf E 0 0 0
  2) + (dChrisConf E 1 0 1 2)) + (dChrisConf E 2 0 2 2))))).

(* /repo/Src/Main/Modules/Physics/Equation/eq_XCTS_crv_ex_T1_ddm_Jac_eq_B0_U0.c:489-499 *)
Definition E_t6_E_U0 (E : env) : R :=
  ((((1/3) * (igConf E 0 0)) * ((((((2 * (ChrisConf E 0 0 0)) * (E_JB0_D0 E)) + ((ChrisConf E 1 0
  0) * (E_JB0_D1 E))) + ((ChrisConf E 1 0 1) * (E_JB0_D0 E))) + ((ChrisConf E 2 0 0) * (E_JB0_D2
  E))) + ((ChrisConf E 2 0 2) * (E_JB0_D0 E)))) + (((1/3) * (igConf E 0 1)) * ((((((ChrisConf E 0
  0 0) * (E_JB0_D1 E)) + ((ChrisConf E 0 0 1) * (E_JB0_D0 E))) + ((2 * (ChrisConf E 1 0 1)) *
  (E_JB0_D1 E))) + ((ChrisConf E 2 0 1) * (E_JB0_D2 E))) + ((ChrisConf E 2 0 2) * (E_JB0_D1
  E))))) + (((1/3) * (igConf E 0 2)) * ((((((ChrisConf E 0 0 0) * (E_JB0_D2 E)) + ((ChrisConf E 0
  0 2) * (E_JB0_D0 E))) + ((ChrisConf E 1 0 1) * (E_JB0_D2 E))) + ((ChrisConf E 1 0 2) *
  (E_JB0_D1 E))) + ((2 * (ChrisConf E 2 0 2)) * (E_JB0_D2 E)))).

(* /repo/Src/Main/Modules/Physics/Equation/eq_XCTS_crv_ex_T1_ddm_Jac_eq_B0_U0.c:503-535 *)
Definition E_t7_E_U0 (E : env) : R :=
  (kd E) * ((((((((((((((((((((((((((1/3) * ((ChrisConf E 0 0 0) ^ 2)) * (igConf E 0 0)) +
  ((((1/3) * (ChrisConf E 0 0 0)) * (ChrisConf E 0 0 1)) * (igConf E 0 1))) + ((((1/3) *
  (ChrisConf E 0 0 0)) * (ChrisConf E 0 0 2)) * (igConf E 0 2))) + ((((2/3) * (ChrisConf E 0 0
  1)) * (ChrisConf E 1 0 0)) * (igConf E 0 0))) + ((((1/3) * (ChrisConf E 0 0 1)) * (ChrisConf E
  1 0 1)) * (igConf E 0 1))) + ((((1/3) * (ChrisConf E 0 0 1)) * (ChrisConf E 1 0 2)) * (igConf E
  0 2))) + ((((2/3) * (ChrisConf E 0 0 2)) * (ChrisConf E 2 0 0)) * (igConf E 0 0))) + ((((1/3) *
  (ChrisConf E 0 0 2)) * (ChrisConf E 2 0 1)) * (igConf E 0 1))) + ((((1/3) * (ChrisConf E 0 0
  2)) * (ChrisConf E 2 0 2)) * (igConf E 0 2))) + ((((1/3) * (ChrisConf E 0 1 1)) * (ChrisConf E
  1 0 0)) * (igConf E 0 1))) + ((((1/3) * (ChrisConf E 0 1 2)) * (ChrisConf E 1 0 0)) * (igConf E
  0 2))) + ((((1/3) * (ChrisConf E 0 1 2)) * (ChrisConf E 2 0 0)) * (igConf E 0 1))) + ((((1/3) *
  (ChrisConf E 0 2 2)) * (ChrisConf E 2 0 0)) * (igConf E 0 2))) + (((1/3) * ((ChrisConf E 1 0 1)
  ^ 2)) * (igConf E 0 0))) + ((((1/3) * (ChrisConf E 1 0 1)) * (ChrisConf E 1 1 1)) * (igConf E 0
  1))) + ((((1/3) * (ChrisConf E 1 0 1)) * (ChrisConf E 1 1 2)) * (igConf E 0 2))) + ((((2/3) *
  (ChrisConf E 1 0 2)) * (ChrisConf E 2 0 1)) * (igConf E 0 0))) + ((((1/3) * (ChrisConf E 1 0
  2)) * (ChrisConf E 2 1 1)) * (igConf E 0 1))) + ((((1/3) * (ChrisConf E 1 0 2)) * (ChrisConf E
  2 1 2)) * (igConf E 0 2))) + ((((1/3) * (ChrisConf E 1 1 2)) * (ChrisConf E 2 0 1)) * (igConf E
  0 1))) + ((((1/3) * (ChrisConf E 1 2 2)) * (ChrisConf E 2 0 1)) * (igConf E 0 2))) + (((1/3) *
  ((ChrisConf E 2 0 2) ^ 2)) * (igConf E 0 0))) + ((((1/3) * (ChrisConf E 2 0 2)) * (ChrisConf E
  2 1 2)) * (igConf E 0 1))) + ((((1/3) * (ChrisConf E 2 0 2)) * (ChrisConf E 2 2 2)) * (igConf E
  0 2))).

(* /repo/Src/Main/Modules/Physics/Equation/eq_XCTS_crv_ex_T1_ddm_Jac_eq_B0_U0.c:539-562 *)
Definition E_t8_E_U0 (E : env) : R :=
  ((((- (1/3)) * (igConf E 0 0)) * (((((ChrisConf E 0 0 0) * (E_JB0_D0 E)) + ((ChrisConf E 1 0 0)
  * (E_JB0_D1 E))) + ((ChrisConf E 2 0 0) * (E_JB0_D2 E))) + ((kd E) * (((((((ChrisConf E 0 0 0)
  ^ 2) + ((2 * (ChrisConf E 0 0 1)) * (ChrisConf E 1 0 0))) + ((2 * (ChrisConf E 0 0 2)) *
  (ChrisConf E 2 0 0))) + ((ChrisConf E 1 0 1) ^ 2)) + ((2 * (ChrisConf E 1 0 2)) * (ChrisConf E
  2 0 1))) + ((ChrisConf E 2 0 2) ^ 2))))) - (((1/3) * (igConf E 0 1)) * (((((ChrisConf E 0 0 1)
  * (E_JB0_D0 E)) + ((ChrisConf E 1 0 1) * (E_JB0_D1 E))) + ((ChrisConf E 2 0 1) * (E_JB0_D2 E)))
  + ((kd E) * ((((((((((ChrisConf E 0 0 0) * (ChrisConf E 0 0 1)) + ((ChrisConf E 0 0 1) *
  (ChrisConf E 1 0 1))) + ((ChrisConf E 0 0 2) * (ChrisConf E 2 0 1))) + ((ChrisConf E 0 1 1) *
  (ChrisConf E 1 0 0))) + ((ChrisConf E 0 1 2) * (ChrisConf E 2 0 0))) + ((ChrisConf E 1 0 1) *
  (ChrisConf E 1 1 1))) + ((ChrisConf E 1 0 2) * (ChrisConf E 2 1 1))) + ((ChrisConf E 1 1 2) *
  (ChrisConf E 2 0 1))) + ((ChrisConf E 2 0 2) * (ChrisConf E 2 1 2))))))) - (((1/3) * (igConf E
  0 2)) * (((((ChrisConf E 0 0 2) * (E_JB0_D0 E)) + ((ChrisConf E 1 0 2) * (E_JB0_D1 E))) +
  ((ChrisConf E 2 0 2) * (E_JB0_D2 E))) + ((kd E) * ((((((((((ChrisConf E 0 0 0) * (ChrisConf E 0
  0 2)) + ((ChrisConf E 0 0 1) * (ChrisConf E 1 0 2))) + ((ChrisConf E 0 0 2) * (ChrisConf E 2 0
  2))) + ((ChrisConf E 0 1 2) * (ChrisConf E 1 0 0))) + ((ChrisConf E 0 2 2) * (ChrisConf E 2 0
  0))) + ((ChrisConf E 1 0 1) * (ChrisConf E 1 1 2))) + ((ChrisConf E 1 0 2) * (ChrisConf E 2 1
  2))) + ((ChrisConf E 1 2 2) * (ChrisConf E 2 0 1))) + ((ChrisConf E 2 0 2) * (ChrisConf E 2 2
  2)))))).

(* /repo/Src/Main/Modules/Physics/Equation/eq_XCTS_crv_ex_T1_ddm_Jac_eq_B0_U0.c:566-569 *)
Definition E_t9_E_U0 (E : env) : R :=
  (kd E) * ((((RicciConf E 0 0) * (igConf E 0 0)) + ((RicciConf E 0 1) * (igConf E 0 1))) +
  ((RicciConf E 0 2) * (igConf E 0 2))).

(* /repo/Src/Main/Modules/Physics/Equation/eq_XCTS_crv_ex_T1_ddm_Jac_eq_B0_U0.c:573-575 *)
Definition E_contE (E : env) : R :=
  (E_JB0_D0 E) + ((kd E) * (((ChrisConf E 0 0 0) + (ChrisConf E 1 0 1)) + (ChrisConf E 2 0 2))).

(* /repo/Src/Main/Modules/Physics/Equation/eq_XCTS_crv_ex_T1_ddm_Jac_eq_B0_U0.c:577-580 *)
Definition E_t1p10_E_U0 (E : env) : R :=
  ((2/3) * (E_contE E)) * ((((E_dLnOf_alpha_E_U0 E) * (igConf E 0 0)) + ((E_dLnOf_alpha_E_U1 E) *
  (igConf E 0 1))) + ((E_dLnOf_alpha_E_U2 E) * (igConf E 0 2))).

(* /repo/Src/Main/Modules/Physics/Equation/eq_XCTS_crv_ex_T1_ddm_Jac_eq_B0_U0.c:584-596 *)
Definition E_t2p10_E_U0 (E : env) : R :=
  ((((((((((- (E_dLnOf_alpha_E_U0 E)) * (igConf E 0 0)) * (((ChrisConf E 0 0 0) * (kd E)) +
  (E_JB0_D0 E))) - (((E_dLnOf_alpha_E_U0 E) * (igConf E 0 1)) * (((ChrisConf E 0 0 1) * (kd E)) +
  (E_JB0_D1 E)))) - (((E_dLnOf_alpha_E_U0 E) * (igConf E 0 2)) * (((ChrisConf E 0 0 2) * (kd E))
  + (E_JB0_D2 E)))) - (((E_dLnOf_alpha_E_U1 E) * (igConf E 0 1)) * (((ChrisConf E 0 0 0) * (kd
  E)) + (E_JB0_D0 E)))) - (((E_dLnOf_alpha_E_U1 E) * (igConf E 1 1)) * (((ChrisConf E 0 0 1) *
  (kd E)) + (E_JB0_D1 E)))) - (((E_dLnOf_alpha_E_U1 E) * (igConf E 1 2)) * (((ChrisConf E 0 0 2)
  * (kd E)) + (E_JB0_D2 E)))) - (((E_dLnOf_alpha_E_U2 E) * (igConf E 0 2)) * (((ChrisConf E 0 0
  0) * (kd E)) + (E_JB0_D0 E)))) - (((E_dLnOf_alpha_E_U2 E) * (igConf E 1 2)) * (((ChrisConf E 0
  0 1) * (kd E)) + (E_JB0_D1 E)))) - (((E_dLnOf_alpha_E_U2 E) * (igConf E 2 2)) * (((ChrisConf E
  0 0 2) * (kd E)) + (E_JB0_D2 E))).

(* /repo/Src/Main/Modules/Physics/Equation/eq_XCTS_crv_ex_T1_ddm_Jac_eq_B0_U0.c:600-610 *)
Definition E_t3p10_E_U0 (E : env) : R :=
  (((((((((((- (ChrisConf E 1 0 0)) * (E_dLnOf_alpha_E_U1 E)) * (igConf E 0 0)) * (kd E)) -
  ((((ChrisConf E 1 0 1) * (E_dLnOf_alpha_E_U1 E)) * (igConf E 0 1)) * (kd E))) - ((((ChrisConf E
  1 0 2) * (E_dLnOf_alpha_E_U1 E)) * (igConf E 0 2)) * (kd E))) - ((((ChrisConf E 2 0 0) *
  (E_dLnOf_alpha_E_U2 E)) * (igConf E 0 0)) * (kd E))) - ((((ChrisConf E 2 0 1) *
  (E_dLnOf_alpha_E_U2 E)) * (igConf E 0 1)) * (kd E))) - ((((ChrisConf E 2 0 2) *
  (E_dLnOf_alpha_E_U2 E)) * (igConf E 0 2)) * (kd E))) - (((E_dLnOf_alpha_E_U0 E) * (igConf E 0
  0)) * (((ChrisConf E 0 0 0) * (kd E)) + (E_JB0_D0 E)))) - (((E_dLnOf_alpha_E_U0 E) * (igConf E
  0 1)) * (((ChrisConf E 0 0 1) * (kd E)) + (E_JB0_D1 E)))) - (((E_dLnOf_alpha_E_U0 E) * (igConf
  E 0 2)) * (((ChrisConf E 0 0 2) * (kd E)) + (E_JB0_D2 E))).

(* /repo/Src/Main/Modules/Physics/Equation/eq_XCTS_crv_ex_T1_ddm_Jac_eq_B0_U0.c:614-615 *)
Definition E_t10_E_U0 (E : env) : R :=
  ((E_t1p10_E_U0 E) + (E_t2p10_E_U0 E)) + (E_t3p10_E_U0 E).

(* /repo/Src/Main/Modules/Physics/Equation/eq_XCTS_crv_ex_T1_ddm_Jac_eq_B0_U0.c:619-621 *)
Definition E_Epart_U0 (E : env) : R :=
  (((((((((E_t10_E_U0 E) + (E_t1_E_U0 E)) + (E_t2_E_U0 E)) + (E_t3_E_U0 E)) + (E_t4_E_U0 E)) +
  (E_t5_E_U0 E)) + (E_t6_E_U0 E)) + (E_t7_E_U0 E)) + (E_t8_E_U0 E)) + (E_t9_E_U0 E).

(* /repo/Src/Main/Modules/Physics/Equation/eq_XCTS_crv_ex_T1_ddm_Jac_eq_B0_U0.c:625 *)
Definition E_Epart_U0_ (E : env) : R :=
  (E_Epart_U0 E) * (JConfC E).

(* /repo/Src/Main/Modules/Physics/Equation/eq_XCTS_crv_ex_T1_ddm_Jac_eq_B0_U0.c:626 *)
Definition E_out_schur_Et (E : env) : R :=
  E_Epart_U0_ E.
