(* Generated by tools/c2coq.py from /repo/Src/Main/Modules/Physics/Equation/eq_XCTS_crv_T1_ddm_eq_phi.c: do not edit.
   Pointwise: one pass of the loop bodies. schur_F / schur_B / schur_Et entries are the out_ definitions; J1 a, J2 a are d2f_dxdu_Jacobian / d3f_dx2du_Jacobian on axis a at (ijk,lmn), kd is kd[ijk==lmn]. *)
Require Import Reals.
Local Open Scope R_scope.

(* /repo/Src/Main/Modules/Physics/Equation/eq_XCTS_crv_T1_ddm_eq_phi.c:81-242: the values the loop body reads at its node: field B_U0D1 is B 0 1 *)
Record env : Type := mk {
  Att_Con_Num : R;
  ChrisConf : nat -> nat -> nat -> R;
  W : nat -> R;
  alphaPsi : R;
  beta : nat -> R;
  dalphaPsi : nat -> R;
  ddphi : nat -> nat -> R;
  denthalpy : nat -> R;
  dphi : nat -> R;
  dpsi : nat -> R;
  drho0 : nat -> R;
  du0 : nat -> R;
  e : R;
  enthalpy : R;
  igConf : nat -> nat -> R;
  interp : R;
  psi : R;
  rho0 : R;
  rhoc : R;
  trK : R;
  u0 : R }.

(* /repo/Src/Main/Modules/Physics/Equation/eq_XCTS_crv_T1_ddm_eq_phi.c:81 *)
Definition att (E : env) : R :=
  (e E) * (rhoc E).

(* /repo/Src/Main/Modules/Physics/Equation/eq_XCTS_crv_T1_ddm_eq_phi.c:84-85 *)
Definition dLn_of_psi_U0 (E : env) : R :=
  (dpsi E 0) / (psi E).

(* /repo/Src/Main/Modules/Physics/Equation/eq_XCTS_crv_T1_ddm_eq_phi.c:87-88 *)
Definition dLn_of_psi_U1 (E : env) : R :=
  (dpsi E 1) / (psi E).

(* /repo/Src/Main/Modules/Physics/Equation/eq_XCTS_crv_T1_ddm_eq_phi.c:90-91 *)
Definition dLn_of_psi_U2 (E : env) : R :=
  (dpsi E 2) / (psi E).

(* /repo/Src/Main/Modules/Physics/Equation/eq_XCTS_crv_T1_ddm_eq_phi.c:93-94 *)
Definition dLn_of_alpha_U0 (E : env) : R :=
  (- (dLn_of_psi_U0 E)) + ((dalphaPsi E 0) / (alphaPsi E)).

(* /repo/Src/Main/Modules/Physics/Equation/eq_XCTS_crv_T1_ddm_eq_phi.c:96-97 *)
Definition dLn_of_alpha_U1 (E : env) : R :=
  (- (dLn_of_psi_U1 E)) + ((dalphaPsi E 1) / (alphaPsi E)).

(* /repo/Src/Main/Modules/Physics/Equation/eq_XCTS_crv_T1_ddm_eq_phi.c:99-100 *)
Definition dLn_of_alpha_U2 (E : env) : R :=
  (- (dLn_of_psi_U2 E)) + ((dalphaPsi E 2) / (alphaPsi E)).

(* /repo/Src/Main/Modules/Physics/Equation/eq_XCTS_crv_T1_ddm_eq_phi.c:102-103 *)
Definition dLn_of_enthalpy_U0 (E : env) : R :=
  (denthalpy E 0) / (enthalpy E).

(* /repo/Src/Main/Modules/Physics/Equation/eq_XCTS_crv_T1_ddm_eq_phi.c:105-106 *)
Definition dLn_of_enthalpy_U1 (E : env) : R :=
  (denthalpy E 1) / (enthalpy E).

(* /repo/Src/Main/Modules/Physics/Equation/eq_XCTS_crv_T1_ddm_eq_phi.c:108-109 *)
Definition dLn_of_enthalpy_U2 (E : env) : R :=
  (denthalpy E 2) / (enthalpy E).

(* /repo/Src/Main/Modules/Physics/Equation/eq_XCTS_crv_T1_ddm_eq_phi.c:111-112 *)
Definition dLn_of_u0_U0 (E : env) : R :=
  (du0 E 0) / (u0 E).

(* /repo/Src/Main/Modules/Physics/Equation/eq_XCTS_crv_T1_ddm_eq_phi.c:114-115 *)
Definition dLn_of_u0_U1 (E : env) : R :=
  (du0 E 1) / (u0 E).

(* /repo/Src/Main/Modules/Physics/Equation/eq_XCTS_crv_T1_ddm_eq_phi.c:117-118 *)
Definition dLn_of_u0_U2 (E : env) : R :=
  (du0 E 2) / (u0 E).

(* /repo/Src/Main/Modules/Physics/Equation/eq_XCTS_crv_T1_ddm_eq_phi.c:120-121 *)
Definition psi4 (E : env) : R :=
  (psi E) ^ 4.

(* /repo/Src/Main/Modules/Physics/Equation/eq_XCTS_crv_T1_ddm_eq_phi.c:123-124 *)
Definition alpha (E : env) : R :=
  (alphaPsi E) / (psi E).

(* /repo/Src/Main/Modules/Physics/Equation/eq_XCTS_crv_T1_ddm_eq_phi.c:126-127 *)
Definition polish (E : env) : R :=
  (att E) * ((((rho0 E) / (rhoc E)) - 1) ^ 4).

(* /repo/Src/Main/Modules/Physics/Equation/eq_XCTS_crv_T1_ddm_eq_phi.c:129-130 *)
Definition hxu0xpsi4 (E : env) : R :=
  ((enthalpy E) * (psi4 E)) * (u0 E).

(* /repo/Src/Main/Modules/Physics/Equation/eq_XCTS_crv_T1_ddm_eq_phi.c:132-133 *)
Definition DiBi (E : env) : R :=
  (alpha E) * (trK E).

(* /repo/Src/Main/Modules/Physics/Equation/eq_XCTS_crv_T1_ddm_eq_phi.c:135-139 *)
Definition t0 (E : env) : R :=
  ((((((ddphi E 0 0) * (igConf E 0 0)) + ((2 * (ddphi E 0 1)) * (igConf E 0 1))) + ((2 * (ddphi E
  0 2)) * (igConf E 0 2))) + ((ddphi E 1 1) * (igConf E 1 1))) + ((2 * (ddphi E 1 2)) * (igConf E
  1 2))) + ((ddphi E 2 2) * (igConf E 2 2)).

(* /repo/Src/Main/Modules/Physics/Equation/eq_XCTS_crv_T1_ddm_eq_phi.c:141-159 *)
Definition t1 (E : env) : R :=
  (((((((((((((((((((- (ChrisConf E 0 0 0)) * (dphi E 0)) * (igConf E 0 0)) - (((2 * (ChrisConf E
  0 0 1)) * (dphi E 0)) * (igConf E 0 1))) - (((2 * (ChrisConf E 0 0 2)) * (dphi E 0)) * (igConf
  E 0 2))) - (((ChrisConf E 0 1 1) * (dphi E 0)) * (igConf E 1 1))) - (((2 * (ChrisConf E 0 1 2))
  * (dphi E 0)) * (igConf E 1 2))) - (((ChrisConf E 0 2 2) * (dphi E 0)) * (igConf E 2 2))) -
  (((ChrisConf E 1 0 0) * (dphi E 1)) * (igConf E 0 0))) - (((2 * (ChrisConf E 1 0 1)) * (dphi E
  1)) * (igConf E 0 1))) - (((2 * (ChrisConf E 1 0 2)) * (dphi E 1)) * (igConf E 0 2))) -
  (((ChrisConf E 1 1 1) * (dphi E 1)) * (igConf E 1 1))) - (((2 * (ChrisConf E 1 1 2)) * (dphi E
  1)) * (igConf E 1 2))) - (((ChrisConf E 1 2 2) * (dphi E 1)) * (igConf E 2 2))) - (((ChrisConf
  E 2 0 0) * (dphi E 2)) * (igConf E 0 0))) - (((2 * (ChrisConf E 2 0 1)) * (dphi E 2)) * (igConf
  E 0 1))) - (((2 * (ChrisConf E 2 0 2)) * (dphi E 2)) * (igConf E 0 2))) - (((ChrisConf E 2 1 1)
  * (dphi E 2)) * (igConf E 1 1))) - (((2 * (ChrisConf E 2 1 2)) * (dphi E 2)) * (igConf E 1 2)))
  - (((ChrisConf E 2 2 2) * (dphi E 2)) * (igConf E 2 2)).

(* /repo/Src/Main/Modules/Physics/Equation/eq_XCTS_crv_T1_ddm_eq_phi.c:161-173 *)
Definition t2 (E : env) : R :=
  ((((((((((dphi E 0) * (igConf E 0 0)) * (((dLn_of_alpha_U0 E) - (dLn_of_enthalpy_U0 E)) + (2 *
  (dLn_of_psi_U0 E)))) + (((dphi E 0) * (igConf E 0 1)) * (((dLn_of_alpha_U1 E) -
  (dLn_of_enthalpy_U1 E)) + (2 * (dLn_of_psi_U1 E))))) + (((dphi E 0) * (igConf E 0 2)) *
  (((dLn_of_alpha_U2 E) - (dLn_of_enthalpy_U2 E)) + (2 * (dLn_of_psi_U2 E))))) + (((dphi E 1) *
  (igConf E 0 1)) * (((dLn_of_alpha_U0 E) - (dLn_of_enthalpy_U0 E)) + (2 * (dLn_of_psi_U0 E)))))
  + (((dphi E 1) * (igConf E 1 1)) * (((dLn_of_alpha_U1 E) - (dLn_of_enthalpy_U1 E)) + (2 *
  (dLn_of_psi_U1 E))))) + (((dphi E 1) * (igConf E 1 2)) * (((dLn_of_alpha_U2 E) -
  (dLn_of_enthalpy_U2 E)) + (2 * (dLn_of_psi_U2 E))))) + (((dphi E 2) * (igConf E 0 2)) *
  (((dLn_of_alpha_U0 E) - (dLn_of_enthalpy_U0 E)) + (2 * (dLn_of_psi_U0 E))))) + (((dphi E 2) *
  (igConf E 1 2)) * (((dLn_of_alpha_U1 E) - (dLn_of_enthalpy_U1 E)) + (2 * (dLn_of_psi_U1 E)))))
  + (((dphi E 2) * (igConf E 2 2)) * (((dLn_of_alpha_U2 E) - (dLn_of_enthalpy_U2 E)) + (2 *
  (dLn_of_psi_U2 E)))).

(* /repo/Src/Main/Modules/Physics/Equation/eq_XCTS_crv_T1_ddm_eq_phi.c:175-182 *)
Definition t3 (E : env) : R :=
  (psi4 E) * ((((W E 0) * ((((((ChrisConf E 0 0 0) + (ChrisConf E 1 0 1)) + (ChrisConf E 2 0 2))
  + (dLn_of_alpha_U0 E)) - (dLn_of_enthalpy_U0 E)) + (6 * (dLn_of_psi_U0 E)))) + ((W E 1) *
  ((((((ChrisConf E 0 0 1) + (ChrisConf E 1 1 1)) + (ChrisConf E 2 1 2)) + (dLn_of_alpha_U1 E)) -
  (dLn_of_enthalpy_U1 E)) + (6 * (dLn_of_psi_U1 E))))) + ((W E 2) * ((((((ChrisConf E 0 0 2) +
  (ChrisConf E 1 1 2)) + (ChrisConf E 2 2 2)) + (dLn_of_alpha_U2 E)) - (dLn_of_enthalpy_U2 E)) +
  (6 * (dLn_of_psi_U2 E))))).

(* /repo/Src/Main/Modules/Physics/Equation/eq_XCTS_crv_T1_ddm_eq_phi.c:184-187 *)
Definition t4 (E : env) : R :=
  (- (hxu0xpsi4 E)) * ((((beta E 0) * ((dLn_of_alpha_U0 E) + (dLn_of_u0_U0 E))) + ((beta E 1) *
  ((dLn_of_alpha_U1 E) + (dLn_of_u0_U1 E)))) + ((beta E 2) * ((dLn_of_alpha_U2 E) + (dLn_of_u0_U2
  E)))).

(* /repo/Src/Main/Modules/Physics/Equation/eq_XCTS_crv_T1_ddm_eq_phi.c:189-190 *)
Definition t5 (E : env) : R :=
  (- (DiBi E)) * (hxu0xpsi4 E).

(* /repo/Src/Main/Modules/Physics/Equation/eq_XCTS_crv_T1_ddm_eq_phi.c:192-195 *)
Definition t6_U0 (E : env) : R :=
  (((((W E 0) * (psi4 E)) - ((beta E 0) * (hxu0xpsi4 E))) + ((dphi E 0) * (igConf E 0 0))) +
  ((dphi E 1) * (igConf E 0 1))) + ((dphi E 2) * (igConf E 0 2)).

(* /repo/Src/Main/Modules/Physics/Equation/eq_XCTS_crv_T1_ddm_eq_phi.c:197-200 *)
Definition t6_U1 (E : env) : R :=
  (((((W E 1) * (psi4 E)) - ((beta E 1) * (hxu0xpsi4 E))) + ((dphi E 0) * (igConf E 0 1))) +
  ((dphi E 1) * (igConf E 1 1))) + ((dphi E 2) * (igConf E 1 2)).

(* /repo/Src/Main/Modules/Physics/Equation/eq_XCTS_crv_T1_ddm_eq_phi.c:202-205 *)
Definition t6_U2 (E : env) : R :=
  (((((W E 2) * (psi4 E)) - ((beta E 2) * (hxu0xpsi4 E))) + ((dphi E 0) * (igConf E 0 2))) +
  ((dphi E 1) * (igConf E 1 2))) + ((dphi E 2) * (igConf E 2 2)).

(* /repo/Src/Main/Modules/Physics/Equation/eq_XCTS_crv_T1_ddm_eq_phi.c:207-209 *)
Definition F_eq (E : env) : R :=
  (((((drho0 E 0) * (t6_U0 E)) + ((drho0 E 1) * (t6_U1 E))) + ((drho0 E 2) * (t6_U2 E))) +
  ((polish E) * (t0 E))) + ((rho0 E) * ((((((t0 E) + (t1 E)) + (t2 E)) + (t3 E)) + (t4 E)) + (t5
  E))).

(* /repo/Src/Main/Modules/Physics/Equation/eq_XCTS_crv_T1_ddm_eq_phi.c:211 *)
Definition out_schur_F (E : env) : R :=
  F_eq E.

(* /repo/Src/Main/Modules/Physics/Equation/eq_XCTS_crv_T1_ddm_eq_phi.c:242 *)
Definition add_out_schur_F (E : env) : R :=
  (out_schur_F E) + ((Att_Con_Num E) * (interp E)).
