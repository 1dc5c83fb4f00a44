(* Generated by tools/c2coq.py from /repo/Src/Main/Modules/Physics/Equation/eq_XCTS_crv_T2_ddm_eq_phi.c: do not edit.
   Pointwise: one pass of the loop bodies. schur_F / schur_B / schur_Et entries are the out_ definitions; J1 a, J2 a are d2f_dxdu_Jacobian / d3f_dx2du_Jacobian on axis a at (ijk,lmn), kd is kd[ijk==lmn]. *)
Require Import Reals.
Local Open Scope R_scope.

(* /repo/Src/Main/Modules/Physics/Equation/eq_XCTS_crv_T2_ddm_eq_phi.c:94-258: the values the loop body reads at its node: field B_U0D1 is B 0 1 *)
Record env : Type := mk {
  Att_Con_Num : R;
  ChrisConf : nat -> nat -> nat -> R;
  W : nat -> R;
  alphaPsi : R;
  beta : nat -> R;
  dalphaPsi : nat -> R;
  dbeta : nat -> nat -> R;
  ddphi : nat -> nat -> R;
  denthalpy : nat -> R;
  dphi : nat -> R;
  dpsi : nat -> R;
  drho0 : nat -> R;
  du0 : nat -> R;
  e : R;
  enthalpy : R;
  igConf : nat -> nat -> R;
  interp : R;
  psi : R;
  rho0 : R;
  rhoc : R;
  u0 : R }.

(* /repo/Src/Main/Modules/Physics/Equation/eq_XCTS_crv_T2_ddm_eq_phi.c:94 *)
Definition att (E : env) : R :=
  (e E) * (rhoc E).

(* /repo/Src/Main/Modules/Physics/Equation/eq_XCTS_crv_T2_ddm_eq_phi.c:97-98 *)
Definition dLn_of_psi_U0 (E : env) : R :=
  (dpsi E 0) / (psi E).

(* /repo/Src/Main/Modules/Physics/Equation/eq_XCTS_crv_T2_ddm_eq_phi.c:100-101 *)
Definition dLn_of_psi_U1 (E : env) : R :=
  (dpsi E 1) / (psi E).

(* /repo/Src/Main/Modules/Physics/Equation/eq_XCTS_crv_T2_ddm_eq_phi.c:103-104 *)
Definition dLn_of_psi_U2 (E : env) : R :=
  (dpsi E 2) / (psi E).

(* /repo/Src/Main/Modules/Physics/Equation/eq_XCTS_crv_T2_ddm_eq_phi.c:106-107 *)
Definition dLn_of_alpha_U0 (E : env) : R :=
  (- (dLn_of_psi_U0 E)) + ((dalphaPsi E 0) / (alphaPsi E)).

(* /repo/Src/Main/Modules/Physics/Equation/eq_XCTS_crv_T2_ddm_eq_phi.c:109-110 *)
Definition dLn_of_alpha_U1 (E : env) : R :=
  (- (dLn_of_psi_U1 E)) + ((dalphaPsi E 1) / (alphaPsi E)).

(* /repo/Src/Main/Modules/Physics/Equation/eq_XCTS_crv_T2_ddm_eq_phi.c:112-113 *)
Definition dLn_of_alpha_U2 (E : env) : R :=
  (- (dLn_of_psi_U2 E)) + ((dalphaPsi E 2) / (alphaPsi E)).

(* /repo/Src/Main/Modules/Physics/Equation/eq_XCTS_crv_T2_ddm_eq_phi.c:115-116 *)
Definition dLn_of_enthalpy_U0 (E : env) : R :=
  (denthalpy E 0) / (enthalpy E).

(* /repo/Src/Main/Modules/Physics/Equation/eq_XCTS_crv_T2_ddm_eq_phi.c:118-119 *)
Definition dLn_of_enthalpy_U1 (E : env) : R :=
  (denthalpy E 1) / (enthalpy E).

(* /repo/Src/Main/Modules/Physics/Equation/eq_XCTS_crv_T2_ddm_eq_phi.c:121-122 *)
Definition dLn_of_enthalpy_U2 (E : env) : R :=
  (denthalpy E 2) / (enthalpy E).

(* /repo/Src/Main/Modules/Physics/Equation/eq_XCTS_crv_T2_ddm_eq_phi.c:124-125 *)
Definition dLn_of_u0_U0 (E : env) : R :=
  (du0 E 0) / (u0 E).

(* /repo/Src/Main/Modules/Physics/Equation/eq_XCTS_crv_T2_ddm_eq_phi.c:127-128 *)
Definition dLn_of_u0_U1 (E : env) : R :=
  (du0 E 1) / (u0 E).

(* /repo/Src/Main/Modules/Physics/Equation/eq_XCTS_crv_T2_ddm_eq_phi.c:130-131 *)
Definition dLn_of_u0_U2 (E : env) : R :=
  (du0 E 2) / (u0 E).

(* /repo/Src/Main/Modules/Physics/Equation/eq_XCTS_crv_T2_ddm_eq_phi.c:133-134 *)
Definition psi4 (E : env) : R :=
  (psi E) ^ 4.

(* /repo/Src/Main/Modules/Physics/Equation/eq_XCTS_crv_T2_ddm_eq_phi.c:136-137 *)
Definition polish (E : env) : R :=
  (att E) * ((((rho0 E) / (rhoc E)) - 1) ^ 4).

(* /repo/Src/Main/Modules/Physics/Equation/eq_XCTS_crv_T2_ddm_eq_phi.c:139-140 *)
Definition hxu0xpsi4 (E : env) : R :=
  ((enthalpy E) * (psi4 E)) * (u0 E).

(* /repo/Src/Main/Modules/Physics/Equation/eq_XCTS_crv_T2_ddm_eq_phi.c:142-149 *)
Definition DiBi (E : env) : R :=
  (((((((((((((((ChrisConf E 0 0 0) * (beta E 0)) + ((ChrisConf E 0 0 1) * (beta E 1))) +
  ((ChrisConf E 0 0 2) * (beta E 2))) + ((ChrisConf E 1 0 1) * (beta E 0))) + ((ChrisConf E 1 1
  1) * (beta E 1))) + ((ChrisConf E 1 1 2) * (beta E 2))) + ((ChrisConf E 2 0 2) * (beta E 0))) +
  ((ChrisConf E 2 1 2) * (beta E 1))) + ((ChrisConf E 2 2 2) * (beta E 2))) + ((6 * (beta E 0)) *
  (dLn_of_psi_U0 E))) + ((6 * (beta E 1)) * (dLn_of_psi_U1 E))) + ((6 * (beta E 2)) *
  (dLn_of_psi_U2 E))) + (dbeta E 0 0)) + (dbeta E 1 1)) + (dbeta E 2 2).

(* /repo/Src/Main/Modules/Physics/Equation/eq_XCTS_crv_T2_ddm_eq_phi.c:151-155 *)
Definition t0 (E : env) : R :=
  ((((((ddphi E 0 0) * (igConf E 0 0)) + ((2 * (ddphi E 0 1)) * (igConf E 0 1))) + ((2 * (ddphi E
  0 2)) * (igConf E 0 2))) + ((ddphi E 1 1) * (igConf E 1 1))) + ((2 * (ddphi E 1 2)) * (igConf E
  1 2))) + ((ddphi E 2 2) * (igConf E 2 2)).

(* /repo/Src/Main/Modules/Physics/Equation/eq_XCTS_crv_T2_ddm_eq_phi.c:157-175 *)
Definition t1 (E : env) : R :=
  (((((((((((((((((((- (ChrisConf E 0 0 0)) * (dphi E 0)) * (igConf E 0 0)) - (((2 * (ChrisConf E
  0 0 1)) * (dphi E 0)) * (igConf E 0 1))) - (((2 * (ChrisConf E 0 0 2)) * (dphi E 0)) * (igConf
  E 0 2))) - (((ChrisConf E 0 1 1) * (dphi E 0)) * (igConf E 1 1))) - (((2 * (ChrisConf E 0 1 2))
  * (dphi E 0)) * (igConf E 1 2))) - (((ChrisConf E 0 2 2) * (dphi E 0)) * (igConf E 2 2))) -
  (((ChrisConf E 1 0 0) * (dphi E 1)) * (igConf E 0 0))) - (((2 * (ChrisConf E 1 0 1)) * (dphi E
  1)) * (igConf E 0 1))) - (((2 * (ChrisConf E 1 0 2)) * (dphi E 1)) * (igConf E 0 2))) -
  (((ChrisConf E 1 1 1) * (dphi E 1)) * (igConf E 1 1))) - (((2 * (ChrisConf E 1 1 2)) * (dphi E
  1)) * (igConf E 1 2))) - (((ChrisConf E 1 2 2) * (dphi E 1)) * (igConf E 2 2))) - (((ChrisConf
  E 2 0 0) * (dphi E 2)) * (igConf E 0 0))) - (((2 * (ChrisConf E 2 0 1)) * (dphi E 2)) * (igConf
  E 0 1))) - (((2 * (ChrisConf E 2 0 2)) * (dphi E 2)) * (igConf E 0 2))) - (((ChrisConf E 2 1 1)
  * (dphi E 2)) * (igConf E 1 1))) - (((2 * (ChrisConf E 2 1 2)) * (dphi E 2)) * (igConf E 1 2)))
  - (((ChrisConf E 2 2 2) * (dphi E 2)) * (igConf E 2 2)).

(* /repo/Src/Main/Modules/Physics/Equation/eq_XCTS_crv_T2_ddm_eq_phi.c:177-189 *)
Definition t2 (E : env) : R :=
  ((((((((((dphi E 0) * (igConf E 0 0)) * (((dLn_of_alpha_U0 E) - (dLn_of_enthalpy_U0 E)) + (2 *
  (dLn_of_psi_U0 E)))) + (((dphi E 0) * (igConf E 0 1)) * (((dLn_of_alpha_U1 E) -
  (dLn_of_enthalpy_U1 E)) + (2 * (dLn_of_psi_U1 E))))) + (((dphi E 0) * (igConf E 0 2)) *
  (((dLn_of_alpha_U2 E) - (dLn_of_enthalpy_U2 E)) + (2 * (dLn_of_psi_U2 E))))) + (((dphi E 1) *
  (igConf E 0 1)) * (((dLn_of_alpha_U0 E) - (dLn_of_enthalpy_U0 E)) + (2 * (dLn_of_psi_U0 E)))))
  + (((dphi E 1) * (igConf E 1 1)) * (((dLn_of_alpha_U1 E) - (dLn_of_enthalpy_U1 E)) + (2 *
  (dLn_of_psi_U1 E))))) + (((dphi E 1) * (igConf E 1 2)) * (((dLn_of_alpha_U2 E) -
  (dLn_of_enthalpy_U2 E)) + (2 * (dLn_of_psi_U2 E))))) + (((dphi E 2) * (igConf E 0 2)) *
  (((dLn_of_alpha_U0 E) - (dLn_of_enthalpy_U0 E)) + (2 * (dLn_of_psi_U0 E))))) + (((dphi E 2) *
  (igConf E 1 2)) * (((dLn_of_alpha_U1 E) - (dLn_of_enthalpy_U1 E)) + (2 * (dLn_of_psi_U1 E)))))
  + (((dphi E 2) * (igConf E 2 2)) * (((dLn_of_alpha_U2 E) - (dLn_of_enthalpy_U2 E)) + (2 *
  (dLn_of_psi_U2 E)))).

(* /repo/Src/Main/Modules/Physics/Equation/eq_XCTS_crv_T2_ddm_eq_phi.c:191-198 *)
Definition t3 (E : env) : R :=
  (psi4 E) * ((((W E 0) * ((((((ChrisConf E 0 0 0) + (ChrisConf E 1 0 1)) + (ChrisConf E 2 0 2))
  + (dLn_of_alpha_U0 E)) - (dLn_of_enthalpy_U0 E)) + (6 * (dLn_of_psi_U0 E)))) + ((W E 1) *
  ((((((ChrisConf E 0 0 1) + (ChrisConf E 1 1 1)) + (ChrisConf E 2 1 2)) + (dLn_of_alpha_U1 E)) -
  (dLn_of_enthalpy_U1 E)) + (6 * (dLn_of_psi_U1 E))))) + ((W E 2) * ((((((ChrisConf E 0 0 2) +
  (ChrisConf E 1 1 2)) + (ChrisConf E 2 2 2)) + (dLn_of_alpha_U2 E)) - (dLn_of_enthalpy_U2 E)) +
  (6 * (dLn_of_psi_U2 E))))).

(* /repo/Src/Main/Modules/Physics/Equation/eq_XCTS_crv_T2_ddm_eq_phi.c:200-203 *)
Definition t4 (E : env) : R :=
  (- (hxu0xpsi4 E)) * ((((beta E 0) * ((dLn_of_alpha_U0 E) + (dLn_of_u0_U0 E))) + ((beta E 1) *
  ((dLn_of_alpha_U1 E) + (dLn_of_u0_U1 E)))) + ((beta E 2) * ((dLn_of_alpha_U2 E) + (dLn_of_u0_U2
  E)))).

(* /repo/Src/Main/Modules/Physics/Equation/eq_XCTS_crv_T2_ddm_eq_phi.c:205-206 *)
Definition t5 (E : env) : R :=
  (- (DiBi E)) * (hxu0xpsi4 E).

(* /repo/Src/Main/Modules/Physics/Equation/eq_XCTS_crv_T2_ddm_eq_phi.c:208-211 *)
Definition t6_U0 (E : env) : R :=
  (((((W E 0) * (psi4 E)) - ((beta E 0) * (hxu0xpsi4 E))) + ((dphi E 0) * (igConf E 0 0))) +
  ((dphi E 1) * (igConf E 0 1))) + ((dphi E 2) * (igConf E 0 2)).

(* /repo/Src/Main/Modules/Physics/Equation/eq_XCTS_crv_T2_ddm_eq_phi.c:213-216 *)
Definition t6_U1 (E : env) : R :=
  (((((W E 1) * (psi4 E)) - ((beta E 1) * (hxu0xpsi4 E))) + ((dphi E 0) * (igConf E 0 1))) +
  ((dphi E 1) * (igConf E 1 1))) + ((dphi E 2) * (igConf E 1 2)).

(* /repo/Src/Main/Modules/Physics/Equation/eq_XCTS_crv_T2_ddm_eq_phi.c:218-221 *)
Definition t6_U2 (E : env) : R :=
  (((((W E 2) * (psi4 E)) - ((beta E 2) * (hxu0xpsi4 E))) + ((dphi E 0) * (igConf E 0 2))) +
  ((dphi E 1) * (igConf E 1 2))) + ((dphi E 2) * (igConf E 2 2)).

(* /repo/Src/Main/Modules/Physics/Equation/eq_XCTS_crv_T2_ddm_eq_phi.c:223-225 *)
Definition F_eq (E : env) : R :=
  (((((drho0 E 0) * (t6_U0 E)) + ((drho0 E 1) * (t6_U1 E))) + ((drho0 E 2) * (t6_U2 E))) +
  ((polish E) * (t0 E))) + ((rho0 E) * ((((((t0 E) + (t1 E)) + (t2 E)) + (t3 E)) + (t4 E)) + (t5
  E))).

(* /repo/Src/Main/Modules/Physics/Equation/eq_XCTS_crv_T2_ddm_eq_phi.c:227 *)
Definition out_schur_F (E : env) : R :=
  F_eq E.

(* /repo/Src/Main/Modules/Physics/Equation/eq_XCTS_crv_T2_ddm_eq_phi.c:258 *)
Definition add_out_schur_F (E : env) : R :=
  (out_schur_F E) + ((Att_Con_Num E) * (interp E)).
