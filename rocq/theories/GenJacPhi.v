(* Generated by tools/c2coq.py from /repo/Src/Main/Modules/Physics/Equation/eq_XCTS_crv_T1_ddm_Jac_eq_phi.c: do not edit.
   Pointwise: one pass of the loop bodies. schur_F / schur_B / schur_Et entries are the out_ definitions; J1 a, J2 a are d2f_dxdu_Jacobian / d3f_dx2du_Jacobian on axis a at (ijk,lmn), kd is kd[ijk==lmn]. *)
Require Import Reals.
Local Open Scope R_scope.

(* /repo/Src/Main/Modules/Physics/Equation/eq_XCTS_crv_T1_ddm_Jac_eq_phi.c:72-278: the values the loop body reads at its node: field B_U0D1 is B 0 1 *)
Record env : Type := mk {
  Att_Con_Num : R;
  ChrisConf : nat -> nat -> nat -> R;
  J1 : nat -> R;
  J2 : nat -> R;
  alphaPsi : R;
  d_df : R;
  dalphaPsi : nat -> R;
  denthalpy : nat -> R;
  dpsi : nat -> R;
  drho0 : nat -> R;
  e : R;
  enthalpy : R;
  igConf : nat -> nat -> R;
  psi : R;
  rho0 : R;
  rhoc : R }.

(* /repo/Src/Main/Modules/Physics/Equation/eq_XCTS_crv_T1_ddm_Jac_eq_phi.c:72 *)
Definition att (E : env) : R :=
  (e E) * (rhoc E).

(* /repo/Src/Main/Modules/Physics/Equation/eq_XCTS_crv_T1_ddm_Jac_eq_phi.c:75 *)
Definition B_Jphi_D0 (E : env) : R :=
  J1 E 0.

(* /repo/Src/Main/Modules/Physics/Equation/eq_XCTS_crv_T1_ddm_Jac_eq_phi.c:76 *)
Definition B_Jphi_D1 (E : env) : R :=
  J1 E 1.

(* /repo/Src/Main/Modules/Physics/Equation/eq_XCTS_crv_T1_ddm_Jac_eq_phi.c:77 *)
Definition B_Jphi_D2 (E : env) : R :=
  J1 E 2.

(* /repo/Src/Main/Modules/Physics/Equation/eq_XCTS_crv_T1_ddm_Jac_eq_phi.c:78 *)
Definition B_JJphi_D0D0 (E : env) : R :=
  J2 E 0.

(* /repo/Src/Main/Modules/Physics/Equation/eq_XCTS_crv_T1_ddm_Jac_eq_phi.c:79 *)
Definition B_JJphi_D0D1 (E : env) : R :=
  J2 E 1.

(* /repo/Src/Main/Modules/Physics/Equation/eq_XCTS_crv_T1_ddm_Jac_eq_phi.c:80 *)
Definition B_JJphi_D0D2 (E : env) : R :=
  J2 E 2.

(* /repo/Src/Main/Modules/Physics/Equation/eq_XCTS_crv_T1_ddm_Jac_eq_phi.c:81 *)
Definition B_JJphi_D1D1 (E : env) : R :=
  J2 E 3.

(* /repo/Src/Main/Modules/Physics/Equation/eq_XCTS_crv_T1_ddm_Jac_eq_phi.c:82 *)
Definition B_JJphi_D1D2 (E : env) : R :=
  J2 E 4.

(* /repo/Src/Main/Modules/Physics/Equation/eq_XCTS_crv_T1_ddm_Jac_eq_phi.c:83 *)
Definition B_JJphi_D2D2 (E : env) : R :=
  J2 E 5.

(* /repo/Src/Main/Modules/Physics/Equation/eq_XCTS_crv_T1_ddm_Jac_eq_phi.c:84-85 *)
Definition B_dLn_of_psi_b_U0 (E : env) : R :=
  (dpsi E 0) / (psi E).

(* /repo/Src/Main/Modules/Physics/Equation/eq_XCTS_crv_T1_ddm_Jac_eq_phi.c:87-88 *)
Definition B_dLn_of_psi_b_U1 (E : env) : R :=
  (dpsi E 1) / (psi E).

(* /repo/Src/Main/Modules/Physics/Equation/eq_XCTS_crv_T1_ddm_Jac_eq_phi.c:90-91 *)
Definition B_dLn_of_psi_b_U2 (E : env) : R :=
  (dpsi E 2) / (psi E).

(* /repo/Src/Main/Modules/Physics/Equation/eq_XCTS_crv_T1_ddm_Jac_eq_phi.c:93-94 *)
Definition B_dLn_of_alpha_b_U0 (E : env) : R :=
  (- (B_dLn_of_psi_b_U0 E)) + ((dalphaPsi E 0) / (alphaPsi E)).

(* /repo/Src/Main/Modules/Physics/Equation/eq_XCTS_crv_T1_ddm_Jac_eq_phi.c:96-97 *)
Definition B_dLn_of_alpha_b_U1 (E : env) : R :=
  (- (B_dLn_of_psi_b_U1 E)) + ((dalphaPsi E 1) / (alphaPsi E)).

(* /repo/Src/Main/Modules/Physics/Equation/eq_XCTS_crv_T1_ddm_Jac_eq_phi.c:99-100 *)
Definition B_dLn_of_alpha_b_U2 (E : env) : R :=
  (- (B_dLn_of_psi_b_U2 E)) + ((dalphaPsi E 2) / (alphaPsi E)).

(* /repo/Src/Main/Modules/Physics/Equation/eq_XCTS_crv_T1_ddm_Jac_eq_phi.c:102-103 *)
Definition B_dLn_of_enthalpy_b_U0 (E : env) : R :=
  (denthalpy E 0) / (enthalpy E).

(* /repo/Src/Main/Modules/Physics/Equation/eq_XCTS_crv_T1_ddm_Jac_eq_phi.c:105-106 *)
Definition B_dLn_of_enthalpy_b_U1 (E : env) : R :=
  (denthalpy E 1) / (enthalpy E).

(* /repo/Src/Main/Modules/Physics/Equation/eq_XCTS_crv_T1_ddm_Jac_eq_phi.c:108-109 *)
Definition B_dLn_of_enthalpy_b_U2 (E : env) : R :=
  (denthalpy E 2) / (enthalpy E).

(* /repo/Src/Main/Modules/Physics/Equation/eq_XCTS_crv_T1_ddm_Jac_eq_phi.c:111-112 *)
Definition B_polish_b (E : env) : R :=
  (att E) * ((((rho0 E) / (rhoc E)) - 1) ^ 4).

(* /repo/Src/Main/Modules/Physics/Equation/eq_XCTS_crv_T1_ddm_Jac_eq_phi.c:114-118 *)
Definition B_t0_b (E : env) : R :=
  ((B_polish_b E) + (rho0 E)) * (((((((B_JJphi_D0D0 E) * (igConf E 0 0)) + ((2 * (B_JJphi_D0D1
  E)) * (igConf E 0 1))) + ((2 * (B_JJphi_D0D2 E)) * (igConf E 0 2))) + ((B_JJphi_D1D1 E) *
  (igConf E 1 1))) + ((2 * (B_JJphi_D1D2 E)) * (igConf E 1 2))) + ((B_JJphi_D2D2 E) * (igConf E 2
  2))).

(* /repo/Src/Main/Modules/Physics/Equation/eq_XCTS_crv_T1_ddm_Jac_eq_phi.c:120-135 *)
Definition B_t1_b (E : env) : R :=
  (- (rho0 E)) * ((((((((((((((((((((ChrisConf E 0 0 0) * (B_Jphi_D0 E)) * (igConf E 0 0)) + (((2
  * (ChrisConf E 0 0 1)) * (B_Jphi_D0 E)) * (igConf E 0 1))) + (((2 * (ChrisConf E 0 0 2)) *
  (B_Jphi_D0 E)) * (igConf E 0 2))) + (((ChrisConf E 0 1 1) * (B_Jphi_D0 E)) * (igConf E 1 1))) +
  (((2 * (ChrisConf E 0 1 2)) * (B_Jphi_D0 E)) * (igConf E 1 2))) + (((ChrisConf E 0 2 2) *
  (B_Jphi_D0 E)) * (igConf E 2 2))) + (((ChrisConf E 1 0 0) * (B_Jphi_D1 E)) * (igConf E 0 0))) +
  (((2 * (ChrisConf E 1 0 1)) * (B_Jphi_D1 E)) * (igConf E 0 1))) + (((2 * (ChrisConf E 1 0 2)) *
  (B_Jphi_D1 E)) * (igConf E 0 2))) + (((ChrisConf E 1 1 1) * (B_Jphi_D1 E)) * (igConf E 1 1))) +
  (((2 * (ChrisConf E 1 1 2)) * (B_Jphi_D1 E)) * (igConf E 1 2))) + (((ChrisConf E 1 2 2) *
  (B_Jphi_D1 E)) * (igConf E 2 2))) + (((ChrisConf E 2 0 0) * (B_Jphi_D2 E)) * (igConf E 0 0))) +
  (((2 * (ChrisConf E 2 0 1)) * (B_Jphi_D2 E)) * (igConf E 0 1))) + (((2 * (ChrisConf E 2 0 2)) *
  (B_Jphi_D2 E)) * (igConf E 0 2))) + (((ChrisConf E 2 1 1) * (B_Jphi_D2 E)) * (igConf E 1 1))) +
  (((2 * (ChrisConf E 2 1 2)) * (B_Jphi_D2 E)) * (igConf E 1 2))) + (((ChrisConf E 2 2 2) *
  (B_Jphi_D2 E)) * (igConf E 2 2))).

(* /repo/Src/Main/Modules/Physics/Equation/eq_XCTS_crv_T1_ddm_Jac_eq_phi.c:137-153 *)
Definition B_t2_b (E : env) : R :=
  ((((((((((B_Jphi_D0 E) * (igConf E 0 0)) * ((drho0 E 0) + ((rho0 E) * (((B_dLn_of_alpha_b_U0 E)
  - (B_dLn_of_enthalpy_b_U0 E)) + (2 * (B_dLn_of_psi_b_U0 E)))))) + (((B_Jphi_D0 E) * (igConf E 0
  1)) * ((drho0 E 1) + ((rho0 E) * (((B_dLn_of_alpha_b_U1 E) - (B_dLn_of_enthalpy_b_U1 E)) + (2 *
  (B_dLn_of_psi_b_U1 E))))))) + (((B_Jphi_D0 E) * (igConf E 0 2)) * ((drho0 E 2) + ((rho0 E) *
  (((B_dLn_of_alpha_b_U2 E) - (B_dLn_of_enthalpy_b_U2 E)) + (2 * (B_dLn_of_psi_b_U2 E))))))) +
  (((B_Jphi_D1 E) * (igConf E 0 1)) * ((drho0 E 0) + ((rho0 E) * (((B_dLn_of_alpha_b_U0 E) -
  (B_dLn_of_enthalpy_b_U0 E)) + (2 * (B_dLn_of_psi_b_U0 E))))))) + (((B_Jphi_D1 E) * (igConf E 1
  1)) * ((drho0 E 1) + ((rho0 E) * (((B_dLn_of_alpha_b_U1 E) - (B_dLn_of_enthalpy_b_U1 E)) + (2 *
  (B_dLn_of_psi_b_U1 E))))))) + (((B_Jphi_D1 E) * (igConf E 1 2)) * ((drho0 E 2) + ((rho0 E) *
  (((B_dLn_of_alpha_b_U2 E) - (B_dLn_of_enthalpy_b_U2 E)) + (2 * (B_dLn_of_psi_b_U2 E))))))) +
  (((B_Jphi_D2 E) * (igConf E 0 2)) * ((drho0 E 0) + ((rho0 E) * (((B_dLn_of_alpha_b_U0 E) -
  (B_dLn_of_enthalpy_b_U0 E)) + (2 * (B_dLn_of_psi_b_U0 E))))))) + (((B_Jphi_D2 E) * (igConf E 1
  2)) * ((drho0 E 1) + ((rho0 E) * (((B_dLn_of_alpha_b_U1 E) - (B_dLn_of_enthalpy_b_U1 E)) + (2 *
  (B_dLn_of_psi_b_U1 E))))))) + (((B_Jphi_D2 E) * (igConf E 2 2)) * ((drho0 E 2) + ((rho0 E) *
  (((B_dLn_of_alpha_b_U2 E) - (B_dLn_of_enthalpy_b_U2 E)) + (2 * (B_dLn_of_psi_b_U2 E)))))).

(* /repo/Src/Main/Modules/Physics/Equation/eq_XCTS_crv_T1_ddm_Jac_eq_phi.c:155-156 *)
Definition B_Bpart_ (E : env) : R :=
  ((B_t0_b E) + (B_t1_b E)) + (B_t2_b E).

(* /repo/Src/Main/Modules/Physics/Equation/eq_XCTS_crv_T1_ddm_Jac_eq_phi.c:158 *)
Definition B_out_schur_B (E : env) : R :=
  B_Bpart_ E.

(* /repo/Src/Main/Modules/Physics/Equation/eq_XCTS_crv_T1_ddm_Jac_eq_phi.c:164 *)
Definition E_Jphi_D0 (E : env) : R :=
  J1 E 0.

(* /repo/Src/Main/Modules/Physics/Equation/eq_XCTS_crv_T1_ddm_Jac_eq_phi.c:165 *)
Definition E_Jphi_D1 (E : env) : R :=
  J1 E 1.

(* /repo/Src/Main/Modules/Physics/Equation/eq_XCTS_crv_T1_ddm_Jac_eq_phi.c:166 *)
Definition E_Jphi_D2 (E : env) : R :=
  J1 E 2.

(* /repo/Src/Main/Modules/Physics/Equation/eq_XCTS_crv_T1_ddm_Jac_eq_phi.c:167 *)
Definition E_JJphi_D0D0 (E : env) : R :=
  J2 E 0.

(* /repo/Src/Main/Modules/Physics/Equation/eq_XCTS_crv_T1_ddm_Jac_eq_phi.c:168 *)
Definition E_JJphi_D0D1 (E : env) : R :=
  J2 E 1.

(* /repo/Src/Main/Modules/Physics/Equation/eq_XCTS_crv_T1_ddm_Jac_eq_phi.c:169 *)
Definition E_JJphi_D0D2 (E : env) : R :=
  J2 E 2.

(* /repo/Src/Main/Modules/Physics/Equation/eq_XCTS_crv_T1_ddm_Jac_eq_phi.c:170 *)
Definition E_JJphi_D1D1 (E : env) : R :=
  J2 E 3.

(* /repo/Src/Main/Modules/Physics/Equation/eq_XCTS_crv_T1_ddm_Jac_eq_phi.c:171 *)
Definition E_JJphi_D1D2 (E : env) : R :=
  J2 E 4.

(* /repo/Src/Main/Modules/Physics/Equation/eq_XCTS_crv_T1_ddm_Jac_eq_phi.c:172 *)
Definition E_JJphi_D2D2 (E : env) : R :=
  J2 E 5.

(* /repo/Src/Main/Modules/Physics/Equation/eq_XCTS_crv_T1_ddm_Jac_eq_phi.c:173-174 *)
Definition E_dLn_of_psi_e_U0 (E : env) : R :=
  (dpsi E 0) / (psi E).

(* /repo/Src/Main/Modules/Physics/Equation/eq_XCTS_crv_T1_ddm_Jac_eq_phi.c:176-177 *)
Definition E_dLn_of_psi_e_U1 (E : env) : R :=
  (dpsi E 1) / (psi E).

(* /repo/Src/Main/Modules/Physics/Equation/eq_XCTS_crv_T1_ddm_Jac_eq_phi.c:179-180 *)
Definition E_dLn_of_psi_e_U2 (E : env) : R :=
  (dpsi E 2) / (psi E).

(* /repo/Src/Main/Modules/Physics/Equation/eq_XCTS_crv_T1_ddm_Jac_eq_phi.c:182-183 *)
Definition E_dLn_of_alpha_e_U0 (E : env) : R :=
  (- (E_dLn_of_psi_e_U0 E)) + ((dalphaPsi E 0) / (alphaPsi E)).

(* /repo/Src/Main/Modules/Physics/Equation/eq_XCTS_crv_T1_ddm_Jac_eq_phi.c:185-186 *)
Definition E_dLn_of_alpha_e_U1 (E : env) : R :=
  (- (E_dLn_of_psi_e_U1 E)) + ((dalphaPsi E 1) / (alphaPsi E)).

(* /repo/Src/Main/Modules/Physics/Equation/eq_XCTS_crv_T1_ddm_Jac_eq_phi.c:188-189 *)
Definition E_dLn_of_alpha_e_U2 (E : env) : R :=
  (- (E_dLn_of_psi_e_U2 E)) + ((dalphaPsi E 2) / (alphaPsi E)).

(* /repo/Src/Main/Modules/Physics/Equation/eq_XCTS_crv_T1_ddm_Jac_eq_phi.c:191-192 *)
Definition E_dLn_of_enthalpy_e_U0 (E : env) : R :=
  (denthalpy E 0) / (enthalpy E).

(* /repo/Src/Main/Modules/Physics/Equation/eq_XCTS_crv_T1_ddm_Jac_eq_phi.c:194-195 *)
Definition E_dLn_of_enthalpy_e_U1 (E : env) : R :=
  (denthalpy E 1) / (enthalpy E).

(* /repo/Src/Main/Modules/Physics/Equation/eq_XCTS_crv_T1_ddm_Jac_eq_phi.c:197-198 *)
Definition E_dLn_of_enthalpy_e_U2 (E : env) : R :=
  (denthalpy E 2) / (enthalpy E).

(* /repo/Src/Main/Modules/Physics/Equation/eq_XCTS_crv_T1_ddm_Jac_eq_phi.c:200-201 *)
Definition E_polish_e (E : env) : R :=
  (att E) * ((((rho0 E) / (rhoc E)) - 1) ^ 4).

(* /repo/Src/Main/Modules/Physics/Equation/eq_XCTS_crv_T1_ddm_Jac_eq_phi.c:203-207 *)
Definition E_t0_e (E : env) : R :=
  ((E_polish_e E) + (rho0 E)) * (((((((E_JJphi_D0D0 E) * (igConf E 0 0)) + ((2 * (E_JJphi_D0D1
  E)) * (igConf E 0 1))) + ((2 * (E_JJphi_D0D2 E)) * (igConf E 0 2))) + ((E_JJphi_D1D1 E) *
  (igConf E 1 1))) + ((2 * (E_JJphi_D1D2 E)) * (igConf E 1 2))) + ((E_JJphi_D2D2 E) * (igConf E 2
  2))).

(* /repo/Src/Main/Modules/Physics/Equation/eq_XCTS_crv_T1_ddm_Jac_eq_phi.c:209-224 *)
Definition E_t1_e (E : env) : R :=
  (- (rho0 E)) * ((((((((((((((((((((ChrisConf E 0 0 0) * (E_Jphi_D0 E)) * (igConf E 0 0)) + (((2
  * (ChrisConf E 0 0 1)) * (E_Jphi_D0 E)) * (igConf E 0 1))) + (((2 * (ChrisConf E 0 0 2)) *
  (E_Jphi_D0 E)) * (igConf E 0 2))) + (((ChrisConf E 0 1 1) * (E_Jphi_D0 E)) * (igConf E 1 1))) +
  (((2 * (ChrisConf E 0 1 2)) * (E_Jphi_D0 E)) * (igConf E 1 2))) + (((ChrisConf E 0 2 2) *
  (E_Jphi_D0 E)) * (igConf E 2 2))) + (((ChrisConf E 1 0 0) * (E_Jphi_D1 E)) * (igConf E 0 0))) +
  (((2 * (ChrisConf E 1 0 1)) * (E_Jphi_D1 E)) * (igConf E 0 1))) + (((2 * (ChrisConf E 1 0 2)) *
  (E_Jphi_D1 E)) * (igConf E 0 2))) + (((ChrisConf E 1 1 1) * (E_Jphi_D1 E)) * (igConf E 1 1))) +
  (((2 * (ChrisConf E 1 1 2)) * (E_Jphi_D1 E)) * (igConf E 1 2))) + (((ChrisConf E 1 2 2) *
  (E_Jphi_D1 E)) * (igConf E 2 2))) + (((ChrisConf E 2 0 0) * (E_Jphi_D2 E)) * (igConf E 0 0))) +
  (((2 * (ChrisConf E 2 0 1)) * (E_Jphi_D2 E)) * (igConf E 0 1))) + (((2 * (ChrisConf E 2 0 2)) *
  (E_Jphi_D2 E)) * (igConf E 0 2))) + (((ChrisConf E 2 1 1) * (E_Jphi_D2 E)) * (igConf E 1 1))) +
  (((2 * (ChrisConf E 2 1 2)) * (E_Jphi_D2 E)) * (igConf E 1 2))) + (((ChrisConf E 2 2 2) *
  (E_Jphi_D2 E)) * (igConf E 2 2))).

(* /repo/Src/Main/Modules/Physics/Equation/eq_XCTS_crv_T1_ddm_Jac_eq_phi.c:226-242 *)
Definition E_t2_e (E : env) : R :=
  ((((((((((E_Jphi_D0 E) * (igConf E 0 0)) * ((drho0 E 0) + ((rho0 E) * (((E_dLn_of_alpha_e_U0 E)
  - (E_dLn_of_enthalpy_e_U0 E)) + (2 * (E_dLn_of_psi_e_U0 E)))))) + (((E_Jphi_D0 E) * (igConf E 0
  1)) * ((drho0 E 1) + ((rho0 E) * (((E_dLn_of_alpha_e_U1 E) - (E_dLn_of_enthalpy_e_U1 E)) + (2 *
  (E_dLn_of_psi_e_U1 E))))))) + (((E_Jphi_D0 E) * (igConf E 0 2)) * ((drho0 E 2) + ((rho0 E) *
  (((E_dLn_of_alpha_e_U2 E) - (E_dLn_of_enthalpy_e_U2 E)) + (2 * (E_dLn_of_psi_e_U2 E))))))) +
  (((E_Jphi_D1 E) * (igConf E 0 1)) * ((drho0 E 0) + ((rho0 E) * (((E_dLn_of_alpha_e_U0 E) -
  (E_dLn_of_enthalpy_e_U0 E)) + (2 * (E_dLn_of_psi_e_U0 E))))))) + (((E_Jphi_D1 E) * (igConf E 1
  1)) * ((drho0 E 1) + ((rho0 E) * (((E_dLn_of_alpha_e_U1 E) - (E_dLn_of_enthalpy_e_U1 E)) + (2 *
  (E_dLn_of_psi_e_U1 E))))))) + (((E_Jphi_D1 E) * (igConf E 1 2)) * ((drho0 E 2) + ((rho0 E) *
  (((E_dLn_of_alpha_e_U2 E) - (E_dLn_of_enthalpy_e_U2 E)) + (2 * (E_dLn_of_psi_e_U2 E))))))) +
  (((E_Jphi_D2 E) * (igConf E 0 2)) * ((drho0 E 0) + ((rho0 E) * (((E_dLn_of_alpha_e_U0 E) -
  (E_dLn_of_enthalpy_e_U0 E)) + (2 * (E_dLn_of_psi_e_U0 E))))))) + (((E_Jphi_D2 E) * (igConf E 1
  2)) * ((drho0 E 1) + ((rho0 E) * (((E_dLn_of_alpha_e_U1 E) - (E_dLn_of_enthalpy_e_U1 E)) + (2 *
  (E_dLn_of_psi_e_U1 E))))))) + (((E_Jphi_D2 E) * (igConf E 2 2)) * ((drho0 E 2) + ((rho0 E) *
  (((E_dLn_of_alpha_e_U2 E) - (E_dLn_of_enthalpy_e_U2 E)) + (2 * (E_dLn_of_psi_e_U2 E)))))).

(* /repo/Src/Main/Modules/Physics/Equation/eq_XCTS_crv_T1_ddm_Jac_eq_phi.c:244-245 *)
Definition E_Epart_ (E : env) : R :=
  ((E_t0_e E) + (E_t1_e E)) + (E_t2_e E).

(* /repo/Src/Main/Modules/Physics/Equation/eq_XCTS_crv_T1_ddm_Jac_eq_phi.c:247 *)
Definition E_out_schur_Et (E : env) : R :=
  E_Epart_ E.

(* /repo/Src/Main/Modules/Physics/Equation/eq_XCTS_crv_T1_ddm_Jac_eq_phi.c:274 *)
Definition add_B_out_schur_B (E : env) : R :=
  (B_out_schur_B E) + ((Att_Con_Num E) * (d_df E)).

(* /repo/Src/Main/Modules/Physics/Equation/eq_XCTS_crv_T1_ddm_Jac_eq_phi.c:278 *)
Definition add_E_out_schur_Et (E : env) : R :=
  (E_out_schur_Et E) + ((Att_Con_Num E) * (d_df E)).
