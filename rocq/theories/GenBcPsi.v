(* Generated by tools/c2coq.py from /repo/Src/Main/Modules/Physics/Equation/eq_XCTS_crv_ex_T1_ddm_bc_psi.c: do not edit.
   Pointwise: one pass of the loop bodies. schur_F / schur_B / schur_Et entries are the out_ definitions; J1 a, J2 a are d2f_dxdu_Jacobian / d3f_dx2du_Jacobian on axis a at (ijk,lmn), kd is kd[ijk==lmn]. *)
Require Import Reals.
Local Open Scope R_scope.

(* /repo/Src/Main/Modules/Physics/Equation/eq_XCTS_crv_ex_T1_ddm_bc_psi.c:53-159: the values the loop body reads at its node: field B_U0D1 is B 0 1 *)
Record env : Type := mk {
  AConfIJ : nat -> nat -> R;
  ChrisConf : nat -> nat -> nat -> R;
  bh_sConf : nat -> R;
  dbh_sConf : nat -> nat -> R;
  dpsi : nat -> R;
  gConf : nat -> nat -> R;
  psi : R;
  trK : R }.

(* /repo/Src/Main/Modules/Physics/Equation/eq_XCTS_crv_ex_T1_ddm_bc_psi.c:54-55 *)
Definition outer_outerB_F (E : env) : R :=
  (psi E) - 1.

(* /repo/Src/Main/Modules/Physics/Equation/eq_XCTS_crv_ex_T1_ddm_bc_psi.c:57 *)
Definition outer_out_schur_F (E : env) : R :=
  outer_outerB_F E.

(* /repo/Src/Main/Modules/Physics/Equation/eq_XCTS_crv_ex_T1_ddm_bc_psi.c:78-79 *)
Definition inner_psi3 (E : env) : R :=
  (psi E) ^ 3.

(* /repo/Src/Main/Modules/Physics/Equation/eq_XCTS_crv_ex_T1_ddm_bc_psi.c:81-88 *)
Definition inner__DiHSi (E : env) : R :=
  ((((((((((((ChrisConf E 0 0 0) * (bh_sConf E 0)) + ((ChrisConf E 0 0 1) * (bh_sConf E 1))) +
  ((ChrisConf E 0 0 2) * (bh_sConf E 2))) + ((ChrisConf E 1 0 1) * (bh_sConf E 0))) + ((ChrisConf
  E 1 1 1) * (bh_sConf E 1))) + ((ChrisConf E 1 1 2) * (bh_sConf E 2))) + ((ChrisConf E 2 0 2) *
  (bh_sConf E 0))) + ((ChrisConf E 2 1 2) * (bh_sConf E 1))) + ((ChrisConf E 2 2 2) * (bh_sConf E
  2))) + (dbh_sConf E 0 0)) + (dbh_sConf E 1 1)) + (dbh_sConf E 2 2).

(* /repo/Src/Main/Modules/Physics/Equation/eq_XCTS_crv_ex_T1_ddm_bc_psi.c:90-151 *)
Definition inner__AIJsisj (E : env) : R :=
  ((((((((((((((((((((((((((((((((((((((((((((((AConfIJ E 0 0) * ((bh_sConf E 0) ^ 2)) * ((gConf
  E 0 0) ^ 2)) + (((((2 * (AConfIJ E 0 0)) * (bh_sConf E 0)) * (bh_sConf E 1)) * (gConf E 0 0)) *
  (gConf E 0 1))) + (((((2 * (AConfIJ E 0 0)) * (bh_sConf E 0)) * (bh_sConf E 2)) * (gConf E 0
  0)) * (gConf E 0 2))) + (((AConfIJ E 0 0) * ((bh_sConf E 1) ^ 2)) * ((gConf E 0 1) ^ 2))) +
  (((((2 * (AConfIJ E 0 0)) * (bh_sConf E 1)) * (bh_sConf E 2)) * (gConf E 0 1)) * (gConf E 0
  2))) + (((AConfIJ E 0 0) * ((bh_sConf E 2) ^ 2)) * ((gConf E 0 2) ^ 2))) + ((((2 * (AConfIJ E 0
  1)) * ((bh_sConf E 0) ^ 2)) * (gConf E 0 0)) * (gConf E 0 1))) + (((((2 * (AConfIJ E 0 1)) *
  (bh_sConf E 0)) * (bh_sConf E 1)) * (gConf E 0 0)) * (gConf E 1 1))) + ((((2 * (AConfIJ E 0 1))
  * (bh_sConf E 0)) * (bh_sConf E 1)) * ((gConf E 0 1) ^ 2))) + (((((2 * (AConfIJ E 0 1)) *
  (bh_sConf E 0)) * (bh_sConf E 2)) * (gConf E 0 0)) * (gConf E 1 2))) + (((((2 * (AConfIJ E 0
  1)) * (bh_sConf E 0)) * (bh_sConf E 2)) * (gConf E 0 1)) * (gConf E 0 2))) + ((((2 * (AConfIJ E
  0 1)) * ((bh_sConf E 1) ^ 2)) * (gConf E 0 1)) * (gConf E 1 1))) + (((((2 * (AConfIJ E 0 1)) *
  (bh_sConf E 1)) * (bh_sConf E 2)) * (gConf E 0 1)) * (gConf E 1 2))) + (((((2 * (AConfIJ E 0
  1)) * (bh_sConf E 1)) * (bh_sConf E 2)) * (gConf E 0 2)) * (gConf E 1 1))) + ((((2 * (AConfIJ E
  0 1)) * ((bh_sConf E 2) ^ 2)) * (gConf E 0 2)) * (gConf E 1 2))) + ((((2 * (AConfIJ E 0 2)) *
  ((bh_sConf E 0) ^ 2)) * (gConf E 0 0)) * (gConf E 0 2))) + (((((2 * (AConfIJ E 0 2)) *
  (bh_sConf E 0)) * (bh_sConf E 1)) * (gConf E 0 0)) * (gConf E 1 2))) + (((((2 * (AConfIJ E 0
  2)) * (bh_sConf E 0)) * (bh_sConf E 1)) * (gConf E 0 1)) * (gConf E 0 2))) + (((((2 * (AConfIJ
  E 0 2)) * (bh_sConf E 0)) * (bh_sConf E 2)) * (gConf E 0 0)) * (gConf E 2 2))) + ((((2 *
  (AConfIJ E 0 2)) * (bh_sConf E 0)) * (bh_sConf E 2)) * ((gConf E 0 2) ^ 2))) + ((((2 * (AConfIJ
  E 0 2)) * ((bh_sConf E 1) ^ 2)) * (gConf E 0 1)) * (gConf E 1 2))) + (((((2 * (AConfIJ E 0 2))
  * (bh_sConf E 1)) * (bh_sConf E 2)) * (gConf E 0 1)) * (gConf E 2 2))) + (((((2 * (AConfIJ E 0
  2)) * (bh_sConf E 1)) * (bh_sConf E 2)) * (gConf E 0 2)) * (gConf E 1 2))) + ((((2 * (AConfIJ E
  0 2)) * ((bh_sConf E 2) ^ 2)) * (gConf E 0 2)) * (gConf E 2 2))) + (((AConfIJ E 1 1) *
  ((bh_sConf E 0) ^ 2)) * ((gConf E 0 1) ^ 2))) + (((((2 * (AConfIJ E 1 1)) * (bh_sConf E 0)) *
  (bh_sConf E 1)) * (gConf E 0 1)) * (gConf E 1 1))) + (((((2 * (AConfIJ E 1 1)) * (bh_sConf E
  0)) * (bh_sConf E 2)) * (gConf E 0 1)) * (gConf E 1 2))) + (((AConfIJ E 1 1) * ((bh_sConf E 1)
  ^ 2)) * ((gConf E 1 1) ^ 2))) + (((((2 * (AConfIJ E 1 1)) * (bh_sConf E 1)) * (bh_sConf E 2)) *
  (gConf E 1 1)) * (gConf E 1 2))) + (((AConfIJ E 1 1) * ((bh_sConf E 2) ^ 2)) * ((gConf E 1 2) ^
  2))) + ((((2 * (AConfIJ E 1 2)) * ((bh_sConf E 0) ^ 2)) * (gConf E 0 1)) * (gConf E 0 2))) +
  (((((2 * (AConfIJ E 1 2)) * (bh_sConf E 0)) * (bh_sConf E 1)) * (gConf E 0 1)) * (gConf E 1
  2))) + (((((2 * (AConfIJ E 1 2)) * (bh_sConf E 0)) * (bh_sConf E 1)) * (gConf E 0 2)) * (gConf
  E 1 1))) + (((((2 * (AConfIJ E 1 2)) * (bh_sConf E 0)) * (bh_sConf E 2)) * (gConf E 0 1)) *
  (gConf E 2 2))) + (((((2 * (AConfIJ E 1 2)) * (bh_sConf E 0)) * (bh_sConf E 2)) * (gConf E 0
  2)) * (gConf E 1 2))) + ((((2 * (AConfIJ E 1 2)) * ((bh_sConf E 1) ^ 2)) * (gConf E 1 1)) *
  (gConf E 1 2))) + (((((2 * (AConfIJ E 1 2)) * (bh_sConf E 1)) * (bh_sConf E 2)) * (gConf E 1
  1)) * (gConf E 2 2))) + ((((2 * (AConfIJ E 1 2)) * (bh_sConf E 1)) * (bh_sConf E 2)) * ((gConf
  E 1 2) ^ 2))) + ((((2 * (AConfIJ E 1 2)) * ((bh_sConf E 2) ^ 2)) * (gConf E 1 2)) * (gConf E 2
  2))) + (((AConfIJ E 2 2) * ((bh_sConf E 0) ^ 2)) * ((gConf E 0 2) ^ 2))) + (((((2 * (AConfIJ E
  2 2)) * (bh_sConf E 0)) * (bh_sConf E 1)) * (gConf E 0 2)) * (gConf E 1 2))) + (((((2 *
  (AConfIJ E 2 2)) * (bh_sConf E 0)) * (bh_sConf E 2)) * (gConf E 0 2)) * (gConf E 2 2))) +
  (((AConfIJ E 2 2) * ((bh_sConf E 1) ^ 2)) * ((gConf E 1 2) ^ 2))) + (((((2 * (AConfIJ E 2 2)) *
  (bh_sConf E 1)) * (bh_sConf E 2)) * (gConf E 1 2)) * (gConf E 2 2))) + (((AConfIJ E 2 2) *
  ((bh_sConf E 2) ^ 2)) * ((gConf E 2 2) ^ 2)).

(* /repo/Src/Main/Modules/Physics/Equation/eq_XCTS_crv_ex_T1_ddm_bc_psi.c:153-156 *)
Definition inner_innerB_F (E : env) : R :=
  (((((((1 / 4) * (inner__AIJsisj E)) / (inner_psi3 E)) + (((1 / 4) * (inner__DiHSi E)) * (psi
  E))) + ((bh_sConf E 0) * (dpsi E 0))) + ((bh_sConf E 1) * (dpsi E 1))) + ((bh_sConf E 2) *
  (dpsi E 2))) - (((1 / 6) * ((psi E) ^ 3)) * (trK E)).

(* /repo/Src/Main/Modules/Physics/Equation/eq_XCTS_crv_ex_T1_ddm_bc_psi.c:158 *)
Definition inner_out_schur_F (E : env) : R :=
  (inner_psi3 E) * (inner_innerB_F E).
