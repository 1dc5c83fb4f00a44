(* Generated by tools/c2coq.py from /repo/Src/Main/Modules/Physics/Observe/obs_Komar_mass.c: do not edit.
   Pointwise: one node ijk of the loop over the nodes of a patch; doubles are reals. n: the stored normal of the item; xi: position relative to the centre. v_: the loop of the volume items. *)
Require Import Reals.
Local Open Scope R_scope.

(* /repo/Src/Main/Modules/Physics/Observe/obs_Komar_mass.c:73-213: the values the loop body reads at its node: field B_U0D1 is B 0 1 *)
Record env : Type := mk {
  AConfIJ : nat -> nat -> R;
  EConf : R;
  JConf : nat -> R;
  SConf : R;
  alphaPsi : R;
  beta : nat -> R;
  dalphaPsi : nat -> R;
  dpsi : nat -> R;
  gConf : nat -> nat -> R;
  n : nat -> R;
  psi : R;
  trK : R }.

(* /repo/Src/Main/Modules/Physics/Observe/obs_Komar_mass.c:73-74 *)
Definition psim2 (E : env) : R :=
  / ((psi E) ^ 2).

(* /repo/Src/Main/Modules/Physics/Observe/obs_Komar_mass.c:76-77 *)
Definition psi2 (E : env) : R :=
  (psi E) ^ 2.

(* /repo/Src/Main/Modules/Physics/Observe/obs_Komar_mass.c:79-80 *)
Definition psi4 (E : env) : R :=
  (psi E) ^ 4.

(* /repo/Src/Main/Modules/Physics/Observe/obs_Komar_mass.c:82-84 *)
Definition dalpha_U1 (E : env) : R :=
  (((- (alphaPsi E)) * (dpsi E 1)) / (psi2 E)) + ((dalphaPsi E 1) / (psi E)).

(* /repo/Src/Main/Modules/Physics/Observe/obs_Komar_mass.c:86-88 *)
Definition dalpha_U0 (E : env) : R :=
  (((- (alphaPsi E)) * (dpsi E 0)) / (psi2 E)) + ((dalphaPsi E 0) / (psi E)).

(* /repo/Src/Main/Modules/Physics/Observe/obs_Komar_mass.c:90-92 *)
Definition dalpha_U2 (E : env) : R :=
  (((- (alphaPsi E)) * (dpsi E 2)) / (psi2 E)) + ((dalphaPsi E 2) / (psi E)).

(* /repo/Src/Main/Modules/Physics/Observe/obs_Komar_mass.c:94-100 *)
Definition K_DD_D1D1 (E : env) : R :=
  ((((1/3) * (gConf E 1 1)) * (psi4 E)) * (trK E)) + ((psim2 E) * (((((((AConfIJ E 0 0) * ((gConf
  E 0 1) ^ 2)) + (((2 * (AConfIJ E 0 1)) * (gConf E 0 1)) * (gConf E 1 1))) + (((2 * (AConfIJ E 0
  2)) * (gConf E 0 1)) * (gConf E 1 2))) + ((AConfIJ E 1 1) * ((gConf E 1 1) ^ 2))) + (((2 *
  (AConfIJ E 1 2)) * (gConf E 1 1)) * (gConf E 1 2))) + ((AConfIJ E 2 2) * ((gConf E 1 2) ^ 2)))).

(* /repo/Src/Main/Modules/Physics/Observe/obs_Komar_mass.c:102-110 *)
Definition K_DD_D1D2 (E : env) : R :=
  ((((1/3) * (gConf E 1 2)) * (psi4 E)) * (trK E)) + ((psim2 E) * (((((((((((AConfIJ E 0 0) *
  (gConf E 0 1)) * (gConf E 0 2)) + (((AConfIJ E 0 1) * (gConf E 0 1)) * (gConf E 1 2))) +
  (((AConfIJ E 0 1) * (gConf E 0 2)) * (gConf E 1 1))) + (((AConfIJ E 0 2) * (gConf E 0 1)) *
  (gConf E 2 2))) + (((AConfIJ E 0 2) * (gConf E 0 2)) * (gConf E 1 2))) + (((AConfIJ E 1 1) *
  (gConf E 1 1)) * (gConf E 1 2))) + (((AConfIJ E 1 2) * (gConf E 1 1)) * (gConf E 2 2))) +
  ((AConfIJ E 1 2) * ((gConf E 1 2) ^ 2))) + (((AConfIJ E 2 2) * (gConf E 1 2)) * (gConf E 2
  2)))).

(* /repo/Src/Main/Modules/Physics/Observe/obs_Komar_mass.c:112-118 *)
Definition K_DD_D2D2 (E : env) : R :=
  ((((1/3) * (gConf E 2 2)) * (psi4 E)) * (trK E)) + ((psim2 E) * (((((((AConfIJ E 0 0) * ((gConf
  E 0 2) ^ 2)) + (((2 * (AConfIJ E 0 1)) * (gConf E 0 2)) * (gConf E 1 2))) + (((2 * (AConfIJ E 0
  2)) * (gConf E 0 2)) * (gConf E 2 2))) + ((AConfIJ E 1 1) * ((gConf E 1 2) ^ 2))) + (((2 *
  (AConfIJ E 1 2)) * (gConf E 1 2)) * (gConf E 2 2))) + ((AConfIJ E 2 2) * ((gConf E 2 2) ^ 2)))).

(* /repo/Src/Main/Modules/Physics/Observe/obs_Komar_mass.c:120-126 *)
Definition K_DD_D0D0 (E : env) : R :=
  ((((1/3) * (gConf E 0 0)) * (psi4 E)) * (trK E)) + ((psim2 E) * (((((((AConfIJ E 0 0) * ((gConf
  E 0 0) ^ 2)) + (((2 * (AConfIJ E 0 1)) * (gConf E 0 0)) * (gConf E 0 1))) + (((2 * (AConfIJ E 0
  2)) * (gConf E 0 0)) * (gConf E 0 2))) + ((AConfIJ E 1 1) * ((gConf E 0 1) ^ 2))) + (((2 *
  (AConfIJ E 1 2)) * (gConf E 0 1)) * (gConf E 0 2))) + ((AConfIJ E 2 2) * ((gConf E 0 2) ^ 2)))).

(* /repo/Src/Main/Modules/Physics/Observe/obs_Komar_mass.c:128-137 *)
Definition K_DD_D0D1 (E : env) : R :=
  ((((1/3) * (gConf E 0 1)) * (psi4 E)) * (trK E)) + ((psim2 E) * (((((((((((AConfIJ E 0 0) *
  (gConf E 0 0)) * (gConf E 0 1)) + (((AConfIJ E 0 1) * (gConf E 0 0)) * (gConf E 1 1))) +
  ((AConfIJ E 0 1) * ((gConf E 0 1) ^ 2))) + (((AConfIJ E 0 2) * (gConf E 0 0)) * (gConf E 1 2)))
  + (((AConfIJ E 0 2) * (gConf E 0 1)) * (gConf E 0 2))) + (((AConfIJ E 1 1) * (gConf E 0 1)) *
  (gConf E 1 1))) + (((AConfIJ E 1 2) * (gConf E 0 1)) * (gConf E 1 2))) + (((AConfIJ E 1 2) *
  (gConf E 0 2)) * (gConf E 1 1))) + (((AConfIJ E 2 2) * (gConf E 0 2)) * (gConf E 1 2)))).

(* /repo/Src/Main/Modules/Physics/Observe/obs_Komar_mass.c:139-147 *)
Definition K_DD_D0D2 (E : env) : R :=
  ((((1/3) * (gConf E 0 2)) * (psi4 E)) * (trK E)) + ((psim2 E) * (((((((((((AConfIJ E 0 0) *
  (gConf E 0 0)) * (gConf E 0 2)) + (((AConfIJ E 0 1) * (gConf E 0 0)) * (gConf E 1 2))) +
  (((AConfIJ E 0 1) * (gConf E 0 1)) * (gConf E 0 2))) + (((AConfIJ E 0 2) * (gConf E 0 0)) *
  (gConf E 2 2))) + ((AConfIJ E 0 2) * ((gConf E 0 2) ^ 2))) + (((AConfIJ E 1 1) * (gConf E 0 1))
  * (gConf E 1 2))) + (((AConfIJ E 1 2) * (gConf E 0 1)) * (gConf E 2 2))) + (((AConfIJ E 1 2) *
  (gConf E 0 2)) * (gConf E 1 2))) + (((AConfIJ E 2 2) * (gConf E 0 2)) * (gConf E 2 2)))).

(* /repo/Src/Main/Modules/Physics/Observe/obs_Komar_mass.c:149-154 *)
Definition integrand_s (E : env) : R :=
  (((- (n E 0)) * (((((K_DD_D0D0 E) * (beta E 0)) + ((K_DD_D0D1 E) * (beta E 1))) + ((K_DD_D0D2
  E) * (beta E 2))) - (dalpha_U0 E))) - ((n E 1) * (((((K_DD_D0D1 E) * (beta E 0)) + ((K_DD_D1D1
  E) * (beta E 1))) + ((K_DD_D1D2 E) * (beta E 2))) - (dalpha_U1 E)))) - ((n E 2) *
  (((((K_DD_D0D2 E) * (beta E 0)) + ((K_DD_D1D2 E) * (beta E 1))) + ((K_DD_D2D2 E) * (beta E 2)))
  - (dalpha_U2 E))).

(* /repo/Src/Main/Modules/Physics/Observe/obs_Komar_mass.c:157 *)
Definition out_obs_komar_mass__s (E : env) : R :=
  integrand_s E.

(* /repo/Src/Main/Modules/Physics/Observe/obs_Komar_mass.c:182-183 *)
Definition v_psim6 (E : env) : R :=
  / ((psi E) ^ 6).

(* /repo/Src/Main/Modules/Physics/Observe/obs_Komar_mass.c:185-186 *)
Definition v_psi4_ (E : env) : R :=
  (psi E) ^ 4.

(* /repo/Src/Main/Modules/Physics/Observe/obs_Komar_mass.c:188-189 *)
Definition v_alpha (E : env) : R :=
  (alphaPsi E) / (psi E).

(* /repo/Src/Main/Modules/Physics/Observe/obs_Komar_mass.c:191-192 *)
Definition v_E (E : env) : R :=
  (EConf E) * (v_psim6 E).

(* /repo/Src/Main/Modules/Physics/Observe/obs_Komar_mass.c:194-195 *)
Definition v_S (E : env) : R :=
  (SConf E) * (v_psim6 E).

(* /repo/Src/Main/Modules/Physics/Observe/obs_Komar_mass.c:197-198 *)
Definition v_J_U2 (E : env) : R :=
  (JConf E 2) * (v_psim6 E).

(* /repo/Src/Main/Modules/Physics/Observe/obs_Komar_mass.c:200-201 *)
Definition v_J_U0 (E : env) : R :=
  (JConf E 0) * (v_psim6 E).

(* /repo/Src/Main/Modules/Physics/Observe/obs_Komar_mass.c:203-204 *)
Definition v_J_U1 (E : env) : R :=
  (JConf E 1) * (v_psim6 E).

(* /repo/Src/Main/Modules/Physics/Observe/obs_Komar_mass.c:206-211 *)
Definition v_integrand_v (E : env) : R :=
  ((v_alpha E) * ((v_E E) + (v_S E))) - ((2 * (v_psi4_ E)) * (((((((((((v_J_U0 E) * (beta E 0)) *
  (gConf E 0 0)) + (((v_J_U0 E) * (beta E 1)) * (gConf E 0 1))) + (((v_J_U0 E) * (beta E 2)) *
  (gConf E 0 2))) + (((v_J_U1 E) * (beta E 0)) * (gConf E 0 1))) + (((v_J_U1 E) * (beta E 1)) *
  (gConf E 1 1))) + (((v_J_U1 E) * (beta E 2)) * (gConf E 1 2))) + (((v_J_U2 E) * (beta E 0)) *
  (gConf E 0 2))) + (((v_J_U2 E) * (beta E 1)) * (gConf E 1 2))) + (((v_J_U2 E) * (beta E 2)) *
  (gConf E 2 2)))).

(* /repo/Src/Main/Modules/Physics/Observe/obs_Komar_mass.c:213 *)
Definition v_out_obs_komar_mass__v (E : env) : R :=
  v_integrand_v E.
