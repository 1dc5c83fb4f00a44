(* Generated by tools/c2coq.py from /repo/Src/Main/Modules/Physics/Observe/obs_ADM_P_Stokes_constraint.c: do not edit.
   Pointwise: one node ijk of the loop over the nodes of a patch; doubles are reals. n: the stored normal of the item; xi: position relative to the centre. v_: the loop of the volume items. *)
Require Import Reals.
Local Open Scope R_scope.

(* /repo/Src/Main/Modules/Physics/Observe/obs_ADM_P_Stokes_constraint.c:88-446: the values the loop body reads at its node: field B_U0D1 is B 0 1 *)
Record env : Type := mk {
  AConfIJ : nat -> nat -> R;
  ChrisConf : nat -> nat -> nat -> R;
  dpsi : nat -> R;
  gConf : nat -> nat -> R;
  igConf : nat -> nat -> R;
  n : nat -> R;
  psi : R;
  trK : R }.

(* /repo/Src/Main/Modules/Physics/Observe/obs_ADM_P_Stokes_constraint.c:88-89 *)
Definition psi4 (E : env) : R :=
  (psi E) ^ 4.

(* /repo/Src/Main/Modules/Physics/Observe/obs_ADM_P_Stokes_constraint.c:91-92 *)
Definition psim2 (E : env) : R :=
  / ((psi E) ^ 2).

(* /repo/Src/Main/Modules/Physics/Observe/obs_ADM_P_Stokes_constraint.c:94-116 *)
Definition Ps_D2 (E : env) : R :=
  (((- (n E 0)) * (((((2/3) * (gConf E 0 2)) * (psi4 E)) * (trK E)) - ((psim2 E) *
  (((((((((((AConfIJ E 0 0) * (gConf E 0 0)) * (gConf E 0 2)) + (((AConfIJ E 0 1) * (gConf E 0
  0)) * (gConf E 1 2))) + (((AConfIJ E 0 1) * (gConf E 0 1)) * (gConf E 0 2))) + (((AConfIJ E 0
  2) * (gConf E 0 0)) * (gConf E 2 2))) + ((AConfIJ E 0 2) * ((gConf E 0 2) ^ 2))) + (((AConfIJ E
  1 1) * (gConf E 0 1)) * (gConf E 1 2))) + (((AConfIJ E 1 2) * (gConf E 0 1)) * (gConf E 2 2)))
  + (((AConfIJ E 1 2) * (gConf E 0 2)) * (gConf E 1 2))) + (((AConfIJ E 2 2) * (gConf E 0 2)) *
  (gConf E 2 2)))))) - ((n E 1) * (((((2/3) * (gConf E 1 2)) * (psi4 E)) * (trK E)) - ((psim2 E)
  * (((((((((((AConfIJ E 0 0) * (gConf E 0 1)) * (gConf E 0 2)) + (((AConfIJ E 0 1) * (gConf E 0
  1)) * (gConf E 1 2))) + (((AConfIJ E 0 1) * (gConf E 0 2)) * (gConf E 1 1))) + (((AConfIJ E 0
  2) * (gConf E 0 1)) * (gConf E 2 2))) + (((AConfIJ E 0 2) * (gConf E 0 2)) * (gConf E 1 2))) +
  (((AConfIJ E 1 1) * (gConf E 1 1)) * (gConf E 1 2))) + (((AConfIJ E 1 2) * (gConf E 1 1)) *
  (gConf E 2 2))) + ((AConfIJ E 1 2) * ((gConf E 1 2) ^ 2))) + (((AConfIJ E 2 2) * (gConf E 1 2))
  * (gConf E 2 2))))))) - ((n E 2) * (((((2/3) * (gConf E 2 2)) * (psi4 E)) * (trK E)) - ((psim2
  E) * (((((((AConfIJ E 0 0) * ((gConf E 0 2) ^ 2)) + (((2 * (AConfIJ E 0 1)) * (gConf E 0 2)) *
  (gConf E 1 2))) + (((2 * (AConfIJ E 0 2)) * (gConf E 0 2)) * (gConf E 2 2))) + ((AConfIJ E 1 1)
  * ((gConf E 1 2) ^ 2))) + (((2 * (AConfIJ E 1 2)) * (gConf E 1 2)) * (gConf E 2 2))) +
  ((AConfIJ E 2 2) * ((gConf E 2 2) ^ 2)))))).

(* /repo/Src/Main/Modules/Physics/Observe/obs_ADM_P_Stokes_constraint.c:118-140 *)
Definition Ps_D1 (E : env) : R :=
  (((- (n E 0)) * (((((2/3) * (gConf E 0 1)) * (psi4 E)) * (trK E)) - ((psim2 E) *
  (((((((((((AConfIJ E 0 0) * (gConf E 0 0)) * (gConf E 0 1)) + (((AConfIJ E 0 1) * (gConf E 0
  0)) * (gConf E 1 1))) + ((AConfIJ E 0 1) * ((gConf E 0 1) ^ 2))) + (((AConfIJ E 0 2) * (gConf E
  0 0)) * (gConf E 1 2))) + (((AConfIJ E 0 2) * (gConf E 0 1)) * (gConf E 0 2))) + (((AConfIJ E 1
  1) * (gConf E 0 1)) * (gConf E 1 1))) + (((AConfIJ E 1 2) * (gConf E 0 1)) * (gConf E 1 2))) +
  (((AConfIJ E 1 2) * (gConf E 0 2)) * (gConf E 1 1))) + (((AConfIJ E 2 2) * (gConf E 0 2)) *
  (gConf E 1 2)))))) - ((n E 1) * (((((2/3) * (gConf E 1 1)) * (psi4 E)) * (trK E)) - ((psim2 E)
  * (((((((AConfIJ E 0 0) * ((gConf E 0 1) ^ 2)) + (((2 * (AConfIJ E 0 1)) * (gConf E 0 1)) *
  (gConf E 1 1))) + (((2 * (AConfIJ E 0 2)) * (gConf E 0 1)) * (gConf E 1 2))) + ((AConfIJ E 1 1)
  * ((gConf E 1 1) ^ 2))) + (((2 * (AConfIJ E 1 2)) * (gConf E 1 1)) * (gConf E 1 2))) +
  ((AConfIJ E 2 2) * ((gConf E 1 2) ^ 2))))))) - ((n E 2) * (((((2/3) * (gConf E 1 2)) * (psi4
  E)) * (trK E)) - ((psim2 E) * (((((((((((AConfIJ E 0 0) * (gConf E 0 1)) * (gConf E 0 2)) +
  (((AConfIJ E 0 1) * (gConf E 0 1)) * (gConf E 1 2))) + (((AConfIJ E 0 1) * (gConf E 0 2)) *
  (gConf E 1 1))) + (((AConfIJ E 0 2) * (gConf E 0 1)) * (gConf E 2 2))) + (((AConfIJ E 0 2) *
  (gConf E 0 2)) * (gConf E 1 2))) + (((AConfIJ E 1 1) * (gConf E 1 1)) * (gConf E 1 2))) +
  (((AConfIJ E 1 2) * (gConf E 1 1)) * (gConf E 2 2))) + ((AConfIJ E 1 2) * ((gConf E 1 2) ^ 2)))
  + (((AConfIJ E 2 2) * (gConf E 1 2)) * (gConf E 2 2)))))).

(* /repo/Src/Main/Modules/Physics/Observe/obs_ADM_P_Stokes_constraint.c:142-164 *)
Definition Ps_D0 (E : env) : R :=
  (((- (n E 0)) * (((((2/3) * (gConf E 0 0)) * (psi4 E)) * (trK E)) - ((psim2 E) * (((((((AConfIJ
  E 0 0) * ((gConf E 0 0) ^ 2)) + (((2 * (AConfIJ E 0 1)) * (gConf E 0 0)) * (gConf E 0 1))) +
  (((2 * (AConfIJ E 0 2)) * (gConf E 0 0)) * (gConf E 0 2))) + ((AConfIJ E 1 1) * ((gConf E 0 1)
  ^ 2))) + (((2 * (AConfIJ E 1 2)) * (gConf E 0 1)) * (gConf E 0 2))) + ((AConfIJ E 2 2) *
  ((gConf E 0 2) ^ 2)))))) - ((n E 1) * (((((2/3) * (gConf E 0 1)) * (psi4 E)) * (trK E)) -
  ((psim2 E) * (((((((((((AConfIJ E 0 0) * (gConf E 0 0)) * (gConf E 0 1)) + (((AConfIJ E 0 1) *
  (gConf E 0 0)) * (gConf E 1 1))) + ((AConfIJ E 0 1) * ((gConf E 0 1) ^ 2))) + (((AConfIJ E 0 2)
  * (gConf E 0 0)) * (gConf E 1 2))) + (((AConfIJ E 0 2) * (gConf E 0 1)) * (gConf E 0 2))) +
  (((AConfIJ E 1 1) * (gConf E 0 1)) * (gConf E 1 1))) + (((AConfIJ E 1 2) * (gConf E 0 1)) *
  (gConf E 1 2))) + (((AConfIJ E 1 2) * (gConf E 0 2)) * (gConf E 1 1))) + (((AConfIJ E 2 2) *
  (gConf E 0 2)) * (gConf E 1 2))))))) - ((n E 2) * (((((2/3) * (gConf E 0 2)) * (psi4 E)) * (trK
  E)) - ((psim2 E) * (((((((((((AConfIJ E 0 0) * (gConf E 0 0)) * (gConf E 0 2)) + (((AConfIJ E 0
  1) * (gConf E 0 0)) * (gConf E 1 2))) + (((AConfIJ E 0 1) * (gConf E 0 1)) * (gConf E 0 2))) +
  (((AConfIJ E 0 2) * (gConf E 0 0)) * (gConf E 2 2))) + ((AConfIJ E 0 2) * ((gConf E 0 2) ^ 2)))
  + (((AConfIJ E 1 1) * (gConf E 0 1)) * (gConf E 1 2))) + (((AConfIJ E 1 2) * (gConf E 0 1)) *
  (gConf E 2 2))) + (((AConfIJ E 1 2) * (gConf E 0 2)) * (gConf E 1 2))) + (((AConfIJ E 2 2) *
  (gConf E 0 2)) * (gConf E 2 2)))))).

(* /repo/Src/Main/Modules/Physics/Observe/obs_ADM_P_Stokes_constraint.c:168 *)
Definition out_obs__Ps_D0 (E : env) : R :=
  Ps_D0 E.

(* /repo/Src/Main/Modules/Physics/Observe/obs_ADM_P_Stokes_constraint.c:169 *)
Definition out_obs__Ps_D1 (E : env) : R :=
  Ps_D1 E.

(* /repo/Src/Main/Modules/Physics/Observe/obs_ADM_P_Stokes_constraint.c:170 *)
Definition out_obs__Ps_D2 (E : env) : R :=
  Ps_D2 E.

(* /repo/Src/Main/Modules/Physics/Observe/obs_ADM_P_Stokes_constraint.c:177-178 *)
Definition v_psim2_ (E : env) : R :=
  / ((psi E) ^ 2).

(* /repo/Src/Main/Modules/Physics/Observe/obs_ADM_P_Stokes_constraint.c:180-181 *)
Definition v_psi4_ (E : env) : R :=
  (psi E) ^ 4.

(* /repo/Src/Main/Modules/Physics/Observe/obs_ADM_P_Stokes_constraint.c:183-184 *)
Definition v_psim4_ (E : env) : R :=
  1 / (v_psi4_ E).

(* /repo/Src/Main/Modules/Physics/Observe/obs_ADM_P_Stokes_constraint.c:186-187 *)
Definition v_dLnpsi_D0 (E : env) : R :=
  (dpsi E 0) / (psi E).

(* /repo/Src/Main/Modules/Physics/Observe/obs_ADM_P_Stokes_constraint.c:189-190 *)
Definition v_dLnpsi_D1 (E : env) : R :=
  (dpsi E 1) / (psi E).

(* /repo/Src/Main/Modules/Physics/Observe/obs_ADM_P_Stokes_constraint.c:192-193 *)
Definition v_dLnpsi_D2 (E : env) : R :=
  (dpsi E 2) / (psi E).

(* /repo/Src/Main/Modules/Physics/Observe/obs_ADM_P_Stokes_constraint.c:195-197 *)
Definition v_c_U0D2D2 (E : env) : R :=
  ((- 2) * (gConf E 2 2)) * ((((v_dLnpsi_D0 E) * (igConf E 0 0)) + ((v_dLnpsi_D1 E) * (igConf E 0
  1))) + ((v_dLnpsi_D2 E) * (igConf E 0 2))).

(* /repo/Src/Main/Modules/Physics/Observe/obs_ADM_P_Stokes_constraint.c:199-201 *)
Definition v_c_U1D2D2 (E : env) : R :=
  ((- 2) * (gConf E 2 2)) * ((((v_dLnpsi_D0 E) * (igConf E 0 1)) + ((v_dLnpsi_D1 E) * (igConf E 1
  1))) + ((v_dLnpsi_D2 E) * (igConf E 1 2))).

(* /repo/Src/Main/Modules/Physics/Observe/obs_ADM_P_Stokes_constraint.c:203-206 *)
Definition v_c_U0D0D1 (E : env) : R :=
  ((((((- 2) * (v_dLnpsi_D0 E)) * (gConf E 0 1)) * (igConf E 0 0)) - (((2 * (v_dLnpsi_D1 E)) *
  (gConf E 0 1)) * (igConf E 0 1))) + (2 * (v_dLnpsi_D1 E))) - (((2 * (v_dLnpsi_D2 E)) * (gConf E
  0 1)) * (igConf E 0 2)).

(* /repo/Src/Main/Modules/Physics/Observe/obs_ADM_P_Stokes_constraint.c:208-211 *)
Definition v_c_U2D1D2 (E : env) : R :=
  ((((((- 2) * (v_dLnpsi_D0 E)) * (gConf E 1 2)) * (igConf E 0 2)) - (((2 * (v_dLnpsi_D1 E)) *
  (gConf E 1 2)) * (igConf E 1 2))) + (2 * (v_dLnpsi_D1 E))) - (((2 * (v_dLnpsi_D2 E)) * (gConf E
  1 2)) * (igConf E 2 2)).

(* /repo/Src/Main/Modules/Physics/Observe/obs_ADM_P_Stokes_constraint.c:213-216 *)
Definition v_c_U0D0D0 (E : env) : R :=
  ((((((- 2) * (v_dLnpsi_D0 E)) * (gConf E 0 0)) * (igConf E 0 0)) + (4 * (v_dLnpsi_D0 E))) -
  (((2 * (v_dLnpsi_D1 E)) * (gConf E 0 0)) * (igConf E 0 1))) - (((2 * (v_dLnpsi_D2 E)) * (gConf
  E 0 0)) * (igConf E 0 2)).

(* /repo/Src/Main/Modules/Physics/Observe/obs_ADM_P_Stokes_constraint.c:218-220 *)
Definition v_c_U2D0D1 (E : env) : R :=
  ((- 2) * (gConf E 0 1)) * ((((v_dLnpsi_D0 E) * (igConf E 0 2)) + ((v_dLnpsi_D1 E) * (igConf E 1
  2))) + ((v_dLnpsi_D2 E) * (igConf E 2 2))).

(* /repo/Src/Main/Modules/Physics/Observe/obs_ADM_P_Stokes_constraint.c:222-224 *)
Definition v_c_U2D1D1 (E : env) : R :=
  ((- 2) * (gConf E 1 1)) * ((((v_dLnpsi_D0 E) * (igConf E 0 2)) + ((v_dLnpsi_D1 E) * (igConf E 1
  2))) + ((v_dLnpsi_D2 E) * (igConf E 2 2))).

(* /repo/Src/Main/Modules/Physics/Observe/obs_ADM_P_Stokes_constraint.c:226-229 *)
Definition v_c_U1D1D1 (E : env) : R :=
  ((((((- 2) * (v_dLnpsi_D0 E)) * (gConf E 1 1)) * (igConf E 0 1)) - (((2 * (v_dLnpsi_D1 E)) *
  (gConf E 1 1)) * (igConf E 1 1))) + (4 * (v_dLnpsi_D1 E))) - (((2 * (v_dLnpsi_D2 E)) * (gConf E
  1 1)) * (igConf E 1 2)).

(* /repo/Src/Main/Modules/Physics/Observe/obs_ADM_P_Stokes_constraint.c:231-233 *)
Definition v_c_U0D1D1 (E : env) : R :=
  ((- 2) * (gConf E 1 1)) * ((((v_dLnpsi_D0 E) * (igConf E 0 0)) + ((v_dLnpsi_D1 E) * (igConf E 0
  1))) + ((v_dLnpsi_D2 E) * (igConf E 0 2))).

(* /repo/Src/Main/Modules/Physics/Observe/obs_ADM_P_Stokes_constraint.c:235-237 *)
Definition v_c_U0D1D2 (E : env) : R :=
  ((- 2) * (gConf E 1 2)) * ((((v_dLnpsi_D0 E) * (igConf E 0 0)) + ((v_dLnpsi_D1 E) * (igConf E 0
  1))) + ((v_dLnpsi_D2 E) * (igConf E 0 2))).

(* /repo/Src/Main/Modules/Physics/Observe/obs_ADM_P_Stokes_constraint.c:239-242 *)
Definition v_c_U1D1D2 (E : env) : R :=
  ((((((- 2) * (v_dLnpsi_D0 E)) * (gConf E 1 2)) * (igConf E 0 1)) - (((2 * (v_dLnpsi_D1 E)) *
  (gConf E 1 2)) * (igConf E 1 1))) - (((2 * (v_dLnpsi_D2 E)) * (gConf E 1 2)) * (igConf E 1 2)))
  + (2 * (v_dLnpsi_D2 E)).

(* /repo/Src/Main/Modules/Physics/Observe/obs_ADM_P_Stokes_constraint.c:244-247 *)
Definition v_c_U2D0D2 (E : env) : R :=
  ((((((- 2) * (v_dLnpsi_D0 E)) * (gConf E 0 2)) * (igConf E 0 2)) + (2 * (v_dLnpsi_D0 E))) -
  (((2 * (v_dLnpsi_D1 E)) * (gConf E 0 2)) * (igConf E 1 2))) - (((2 * (v_dLnpsi_D2 E)) * (gConf
  E 0 2)) * (igConf E 2 2)).

(* /repo/Src/Main/Modules/Physics/Observe/obs_ADM_P_Stokes_constraint.c:249-251 *)
Definition v_c_U2D0D0 (E : env) : R :=
  ((- 2) * (gConf E 0 0)) * ((((v_dLnpsi_D0 E) * (igConf E 0 2)) + ((v_dLnpsi_D1 E) * (igConf E 1
  2))) + ((v_dLnpsi_D2 E) * (igConf E 2 2))).

(* /repo/Src/Main/Modules/Physics/Observe/obs_ADM_P_Stokes_constraint.c:253-256 *)
Definition v_c_U0D0D2 (E : env) : R :=
  ((((((- 2) * (v_dLnpsi_D0 E)) * (gConf E 0 2)) * (igConf E 0 0)) - (((2 * (v_dLnpsi_D1 E)) *
  (gConf E 0 2)) * (igConf E 0 1))) - (((2 * (v_dLnpsi_D2 E)) * (gConf E 0 2)) * (igConf E 0 2)))
  + (2 * (v_dLnpsi_D2 E)).

(* /repo/Src/Main/Modules/Physics/Observe/obs_ADM_P_Stokes_constraint.c:258-260 *)
Definition v_c_U1D0D0 (E : env) : R :=
  ((- 2) * (gConf E 0 0)) * ((((v_dLnpsi_D0 E) * (igConf E 0 1)) + ((v_dLnpsi_D1 E) * (igConf E 1
  1))) + ((v_dLnpsi_D2 E) * (igConf E 1 2))).

(* /repo/Src/Main/Modules/Physics/Observe/obs_ADM_P_Stokes_constraint.c:262-265 *)
Definition v_c_U1D0D1 (E : env) : R :=
  ((((((- 2) * (v_dLnpsi_D0 E)) * (gConf E 0 1)) * (igConf E 0 1)) + (2 * (v_dLnpsi_D0 E))) -
  (((2 * (v_dLnpsi_D1 E)) * (gConf E 0 1)) * (igConf E 1 1))) - (((2 * (v_dLnpsi_D2 E)) * (gConf
  E 0 1)) * (igConf E 1 2)).

(* /repo/Src/Main/Modules/Physics/Observe/obs_ADM_P_Stokes_constraint.c:267-269 *)
Definition v_c_U1D0D2 (E : env) : R :=
  ((- 2) * (gConf E 0 2)) * ((((v_dLnpsi_D0 E) * (igConf E 0 1)) + ((v_dLnpsi_D1 E) * (igConf E 1
  1))) + ((v_dLnpsi_D2 E) * (igConf E 1 2))).

(* /repo/Src/Main/Modules/Physics/Observe/obs_ADM_P_Stokes_constraint.c:271-274 *)
Definition v_c_U2D2D2 (E : env) : R :=
  ((((((- 2) * (v_dLnpsi_D0 E)) * (gConf E 2 2)) * (igConf E 0 2)) - (((2 * (v_dLnpsi_D1 E)) *
  (gConf E 2 2)) * (igConf E 1 2))) - (((2 * (v_dLnpsi_D2 E)) * (gConf E 2 2)) * (igConf E 2 2)))
  + (4 * (v_dLnpsi_D2 E)).

(* /repo/Src/Main/Modules/Physics/Observe/obs_ADM_P_Stokes_constraint.c:276-277 *)
Definition v_Gamma_U1D0D0 (E : env) : R :=
  (ChrisConf E 1 0 0) + (v_c_U1D0D0 E).

(* /repo/Src/Main/Modules/Physics/Observe/obs_ADM_P_Stokes_constraint.c:279-280 *)
Definition v_Gamma_U0D2D2 (E : env) : R :=
  (ChrisConf E 0 2 2) + (v_c_U0D2D2 E).

(* /repo/Src/Main/Modules/Physics/Observe/obs_ADM_P_Stokes_constraint.c:282-283 *)
Definition v_Gamma_U1D0D2 (E : env) : R :=
  (ChrisConf E 1 0 2) + (v_c_U1D0D2 E).

(* /repo/Src/Main/Modules/Physics/Observe/obs_ADM_P_Stokes_constraint.c:285-286 *)
Definition v_Gamma_U2D2D2 (E : env) : R :=
  (ChrisConf E 2 2 2) + (v_c_U2D2D2 E).

(* /repo/Src/Main/Modules/Physics/Observe/obs_ADM_P_Stokes_constraint.c:288-289 *)
Definition v_Gamma_U1D0D1 (E : env) : R :=
  (ChrisConf E 1 0 1) + (v_c_U1D0D1 E).

(* /repo/Src/Main/Modules/Physics/Observe/obs_ADM_P_Stokes_constraint.c:291-292 *)
Definition v_Gamma_U1D2D2 (E : env) : R :=
  (ChrisConf E 1 2 2) + (v_c_U1D2D2 E).

(* /repo/Src/Main/Modules/Physics/Observe/obs_ADM_P_Stokes_constraint.c:294-295 *)
Definition v_Gamma_U0D0D2 (E : env) : R :=
  (ChrisConf E 0 0 2) + (v_c_U0D0D2 E).

(* /repo/Src/Main/Modules/Physics/Observe/obs_ADM_P_Stokes_constraint.c:297-298 *)
Definition v_Gamma_U2D0D1 (E : env) : R :=
  (ChrisConf E 2 0 1) + (v_c_U2D0D1 E).

(* /repo/Src/Main/Modules/Physics/Observe/obs_ADM_P_Stokes_constraint.c:300-301 *)
Definition v_Gamma_U2D1D2 (E : env) : R :=
  (ChrisConf E 2 1 2) + (v_c_U2D1D2 E).

(* /repo/Src/Main/Modules/Physics/Observe/obs_ADM_P_Stokes_constraint.c:303-304 *)
Definition v_Gamma_U2D0D2 (E : env) : R :=
  (ChrisConf E 2 0 2) + (v_c_U2D0D2 E).

(* /repo/Src/Main/Modules/Physics/Observe/obs_ADM_P_Stokes_constraint.c:306-307 *)
Definition v_Gamma_U0D0D1 (E : env) : R :=
  (ChrisConf E 0 0 1) + (v_c_U0D0D1 E).

(* /repo/Src/Main/Modules/Physics/Observe/obs_ADM_P_Stokes_constraint.c:309-310 *)
Definition v_Gamma_U2D0D0 (E : env) : R :=
  (ChrisConf E 2 0 0) + (v_c_U2D0D0 E).

(* /repo/Src/Main/Modules/Physics/Observe/obs_ADM_P_Stokes_constraint.c:312-313 *)
Definition v_Gamma_U0D0D0 (E : env) : R :=
  (ChrisConf E 0 0 0) + (v_c_U0D0D0 E).

(* /repo/Src/Main/Modules/Physics/Observe/obs_ADM_P_Stokes_constraint.c:315-316 *)
Definition v_Gamma_U1D1D1 (E : env) : R :=
  (ChrisConf E 1 1 1) + (v_c_U1D1D1 E).

(* /repo/Src/Main/Modules/Physics/Observe/obs_ADM_P_Stokes_constraint.c:318-319 *)
Definition v_Gamma_U0D1D1 (E : env) : R :=
  (ChrisConf E 0 1 1) + (v_c_U0D1D1 E).

(* /repo/Src/Main/Modules/Physics/Observe/obs_ADM_P_Stokes_constraint.c:321-322 *)
Definition v_Gamma_U0D1D2 (E : env) : R :=
  (ChrisConf E 0 1 2) + (v_c_U0D1D2 E).

(* /repo/Src/Main/Modules/Physics/Observe/obs_ADM_P_Stokes_constraint.c:324-325 *)
Definition v_Gamma_U1D1D2 (E : env) : R :=
  (ChrisConf E 1 1 2) + (v_c_U1D1D2 E).

(* /repo/Src/Main/Modules/Physics/Observe/obs_ADM_P_Stokes_constraint.c:327-328 *)
Definition v_Gamma_U2D1D1 (E : env) : R :=
  (ChrisConf E 2 1 1) + (v_c_U2D1D1 E).

(* /repo/Src/Main/Modules/Physics/Observe/obs_ADM_P_Stokes_constraint.c:330-336 *)
Definition v_mom_D2D2 (E : env) : R :=
  ((((- (2/3)) * (gConf E 2 2)) * (v_psi4_ E)) * (trK E)) + ((v_psim2_ E) * (((((((AConfIJ E 0 0)
  * ((gConf E 0 2) ^ 2)) + (((2 * (AConfIJ E 0 1)) * (gConf E 0 2)) * (gConf E 1 2))) + (((2 *
  (AConfIJ E 0 2)) * (gConf E 0 2)) * (gConf E 2 2))) + ((AConfIJ E 1 1) * ((gConf E 1 2) ^ 2)))
  + (((2 * (AConfIJ E 1 2)) * (gConf E 1 2)) * (gConf E 2 2))) + ((AConfIJ E 2 2) * ((gConf E 2
  2) ^ 2)))).

(* /repo/Src/Main/Modules/Physics/Observe/obs_ADM_P_Stokes_constraint.c:338-344 *)
Definition v_mom_D1D1 (E : env) : R :=
  ((((- (2/3)) * (gConf E 1 1)) * (v_psi4_ E)) * (trK E)) + ((v_psim2_ E) * (((((((AConfIJ E 0 0)
  * ((gConf E 0 1) ^ 2)) + (((2 * (AConfIJ E 0 1)) * (gConf E 0 1)) * (gConf E 1 1))) + (((2 *
  (AConfIJ E 0 2)) * (gConf E 0 1)) * (gConf E 1 2))) + ((AConfIJ E 1 1) * ((gConf E 1 1) ^ 2)))
  + (((2 * (AConfIJ E 1 2)) * (gConf E 1 1)) * (gConf E 1 2))) + ((AConfIJ E 2 2) * ((gConf E 1
  2) ^ 2)))).

(* /repo/Src/Main/Modules/Physics/Observe/obs_ADM_P_Stokes_constraint.c:346-354 *)
Definition v_mom_D1D2 (E : env) : R :=
  ((((- (2/3)) * (gConf E 1 2)) * (v_psi4_ E)) * (trK E)) + ((v_psim2_ E) * (((((((((((AConfIJ E
  0 0) * (gConf E 0 1)) * (gConf E 0 2)) + (((AConfIJ E 0 1) * (gConf E 0 1)) * (gConf E 1 2))) +
  (((AConfIJ E 0 1) * (gConf E 0 2)) * (gConf E 1 1))) + (((AConfIJ E 0 2) * (gConf E 0 1)) *
  (gConf E 2 2))) + (((AConfIJ E 0 2) * (gConf E 0 2)) * (gConf E 1 2))) + (((AConfIJ E 1 1) *
  (gConf E 1 1)) * (gConf E 1 2))) + (((AConfIJ E 1 2) * (gConf E 1 1)) * (gConf E 2 2))) +
  ((AConfIJ E 1 2) * ((gConf E 1 2) ^ 2))) + (((AConfIJ E 2 2) * (gConf E 1 2)) * (gConf E 2
  2)))).

(* /repo/Src/Main/Modules/Physics/Observe/obs_ADM_P_Stokes_constraint.c:356-362 *)
Definition v_mom_D0D0 (E : env) : R :=
  ((((- (2/3)) * (gConf E 0 0)) * (v_psi4_ E)) * (trK E)) + ((v_psim2_ E) * (((((((AConfIJ E 0 0)
  * ((gConf E 0 0) ^ 2)) + (((2 * (AConfIJ E 0 1)) * (gConf E 0 0)) * (gConf E 0 1))) + (((2 *
  (AConfIJ E 0 2)) * (gConf E 0 0)) * (gConf E 0 2))) + ((AConfIJ E 1 1) * ((gConf E 0 1) ^ 2)))
  + (((2 * (AConfIJ E 1 2)) * (gConf E 0 1)) * (gConf E 0 2))) + ((AConfIJ E 2 2) * ((gConf E 0
  2) ^ 2)))).

(* /repo/Src/Main/Modules/Physics/Observe/obs_ADM_P_Stokes_constraint.c:364-373 *)
Definition v_mom_D0D1 (E : env) : R :=
  ((((- (2/3)) * (gConf E 0 1)) * (v_psi4_ E)) * (trK E)) + ((v_psim2_ E) * (((((((((((AConfIJ E
  0 0) * (gConf E 0 0)) * (gConf E 0 1)) + (((AConfIJ E 0 1) * (gConf E 0 0)) * (gConf E 1 1))) +
  ((AConfIJ E 0 1) * ((gConf E 0 1) ^ 2))) + (((AConfIJ E 0 2) * (gConf E 0 0)) * (gConf E 1 2)))
  + (((AConfIJ E 0 2) * (gConf E 0 1)) * (gConf E 0 2))) + (((AConfIJ E 1 1) * (gConf E 0 1)) *
  (gConf E 1 1))) + (((AConfIJ E 1 2) * (gConf E 0 1)) * (gConf E 1 2))) + (((AConfIJ E 1 2) *
  (gConf E 0 2)) * (gConf E 1 1))) + (((AConfIJ E 2 2) * (gConf E 0 2)) * (gConf E 1 2)))).

(* /repo/Src/Main/Modules/Physics/Observe/obs_ADM_P_Stokes_constraint.c:375-383 *)
Definition v_mom_D0D2 (E : env) : R :=
  ((((- (2/3)) * (gConf E 0 2)) * (v_psi4_ E)) * (trK E)) + ((v_psim2_ E) * (((((((((((AConfIJ E
  0 0) * (gConf E 0 0)) * (gConf E 0 2)) + (((AConfIJ E 0 1) * (gConf E 0 0)) * (gConf E 1 2))) +
  (((AConfIJ E 0 1) * (gConf E 0 1)) * (gConf E 0 2))) + (((AConfIJ E 0 2) * (gConf E 0 0)) *
  (gConf E 2 2))) + ((AConfIJ E 0 2) * ((gConf E 0 2) ^ 2))) + (((AConfIJ E 1 1) * (gConf E 0 1))
  * (gConf E 1 2))) + (((AConfIJ E 1 2) * (gConf E 0 1)) * (gConf E 2 2))) + (((AConfIJ E 1 2) *
  (gConf E 0 2)) * (gConf E 1 2))) + (((AConfIJ E 2 2) * (gConf E 0 2)) * (gConf E 2 2)))).

(* /repo/Src/Main/Modules/Physics/Observe/obs_ADM_P_Stokes_constraint.c:385-402 *)
Definition v_Pv_D0 (E : env) : R :=
  (v_psim4_ E) * (((((((((((((((((((((((((((((v_Gamma_U0D0D0 E) * (igConf E 0 0)) * (v_mom_D0D0
  E)) + (((v_Gamma_U0D0D0 E) * (igConf E 0 1)) * (v_mom_D0D1 E))) + (((v_Gamma_U0D0D0 E) *
  (igConf E 0 2)) * (v_mom_D0D2 E))) + (((v_Gamma_U0D0D1 E) * (igConf E 0 1)) * (v_mom_D0D0 E)))
  + (((v_Gamma_U0D0D1 E) * (igConf E 1 1)) * (v_mom_D0D1 E))) + (((v_Gamma_U0D0D1 E) * (igConf E
  1 2)) * (v_mom_D0D2 E))) + (((v_Gamma_U0D0D2 E) * (igConf E 0 2)) * (v_mom_D0D0 E))) +
  (((v_Gamma_U0D0D2 E) * (igConf E 1 2)) * (v_mom_D0D1 E))) + (((v_Gamma_U0D0D2 E) * (igConf E 2
  2)) * (v_mom_D0D2 E))) + (((v_Gamma_U1D0D0 E) * (igConf E 0 0)) * (v_mom_D0D1 E))) +
  (((v_Gamma_U1D0D0 E) * (igConf E 0 1)) * (v_mom_D1D1 E))) + (((v_Gamma_U1D0D0 E) * (igConf E 0
  2)) * (v_mom_D1D2 E))) + (((v_Gamma_U1D0D1 E) * (igConf E 0 1)) * (v_mom_D0D1 E))) +
  (((v_Gamma_U1D0D1 E) * (igConf E 1 1)) * (v_mom_D1D1 E))) + (((v_Gamma_U1D0D1 E) * (igConf E 1
  2)) * (v_mom_D1D2 E))) + (((v_Gamma_U1D0D2 E) * (igConf E 0 2)) * (v_mom_D0D1 E))) +
  (((v_Gamma_U1D0D2 E) * (igConf E 1 2)) * (v_mom_D1D1 E))) + (((v_Gamma_U1D0D2 E) * (igConf E 2
  2)) * (v_mom_D1D2 E))) + (((v_Gamma_U2D0D0 E) * (igConf E 0 0)) * (v_mom_D0D2 E))) +
  (((v_Gamma_U2D0D0 E) * (igConf E 0 1)) * (v_mom_D1D2 E))) + (((v_Gamma_U2D0D0 E) * (igConf E 0
  2)) * (v_mom_D2D2 E))) + (((v_Gamma_U2D0D1 E) * (igConf E 0 1)) * (v_mom_D0D2 E))) +
  (((v_Gamma_U2D0D1 E) * (igConf E 1 1)) * (v_mom_D1D2 E))) + (((v_Gamma_U2D0D1 E) * (igConf E 1
  2)) * (v_mom_D2D2 E))) + (((v_Gamma_U2D0D2 E) * (igConf E 0 2)) * (v_mom_D0D2 E))) +
  (((v_Gamma_U2D0D2 E) * (igConf E 1 2)) * (v_mom_D1D2 E))) + (((v_Gamma_U2D0D2 E) * (igConf E 2
  2)) * (v_mom_D2D2 E))).

(* /repo/Src/Main/Modules/Physics/Observe/obs_ADM_P_Stokes_constraint.c:404-421 *)
Definition v_Pv_D1 (E : env) : R :=
  (v_psim4_ E) * (((((((((((((((((((((((((((((v_Gamma_U0D0D1 E) * (igConf E 0 0)) * (v_mom_D0D0
  E)) + (((v_Gamma_U0D0D1 E) * (igConf E 0 1)) * (v_mom_D0D1 E))) + (((v_Gamma_U0D0D1 E) *
  (igConf E 0 2)) * (v_mom_D0D2 E))) + (((v_Gamma_U0D1D1 E) * (igConf E 0 1)) * (v_mom_D0D0 E)))
  + (((v_Gamma_U0D1D1 E) * (igConf E 1 1)) * (v_mom_D0D1 E))) + (((v_Gamma_U0D1D1 E) * (igConf E
  1 2)) * (v_mom_D0D2 E))) + (((v_Gamma_U0D1D2 E) * (igConf E 0 2)) * (v_mom_D0D0 E))) +
  (((v_Gamma_U0D1D2 E) * (igConf E 1 2)) * (v_mom_D0D1 E))) + (((v_Gamma_U0D1D2 E) * (igConf E 2
  2)) * (v_mom_D0D2 E))) + (((v_Gamma_U1D0D1 E) * (igConf E 0 0)) * (v_mom_D0D1 E))) +
  (((v_Gamma_U1D0D1 E) * (igConf E 0 1)) * (v_mom_D1D1 E))) + (((v_Gamma_U1D0D1 E) * (igConf E 0
  2)) * (v_mom_D1D2 E))) + (((v_Gamma_U1D1D1 E) * (igConf E 0 1)) * (v_mom_D0D1 E))) +
  (((v_Gamma_U1D1D1 E) * (igConf E 1 1)) * (v_mom_D1D1 E))) + (((v_Gamma_U1D1D1 E) * (igConf E 1
  2)) * (v_mom_D1D2 E))) + (((v_Gamma_U1D1D2 E) * (igConf E 0 2)) * (v_mom_D0D1 E))) +
  (((v_Gamma_U1D1D2 E) * (igConf E 1 2)) * (v_mom_D1D1 E))) + (((v_Gamma_U1D1D2 E) * (igConf E 2
  2)) * (v_mom_D1D2 E))) + (((v_Gamma_U2D0D1 E) * (igConf E 0 0)) * (v_mom_D0D2 E))) +
  (((v_Gamma_U2D0D1 E) * (igConf E 0 1)) * (v_mom_D1D2 E))) + (((v_Gamma_U2D0D1 E) * (igConf E 0
  2)) * (v_mom_D2D2 E))) + (((v_Gamma_U2D1D1 E) * (igConf E 0 1)) * (v_mom_D0D2 E))) +
  (((v_Gamma_U2D1D1 E) * (igConf E 1 1)) * (v_mom_D1D2 E))) + (((v_Gamma_U2D1D1 E) * (igConf E 1
  2)) * (v_mom_D2D2 E))) + (((v_Gamma_U2D1D2 E) * (igConf E 0 2)) * (v_mom_D0D2 E))) +
  (((v_Gamma_U2D1D2 E) * (igConf E 1 2)) * (v_mom_D1D2 E))) + (((v_Gamma_U2D1D2 E) * (igConf E 2
  2)) * (v_mom_D2D2 E))).

(* /repo/Src/Main/Modules/Physics/Observe/obs_ADM_P_Stokes_constraint.c:423-440 *)
Definition v_Pv_D2 (E : env) : R :=
  (v_psim4_ E) * (((((((((((((((((((((((((((((v_Gamma_U0D0D2 E) * (igConf E 0 0)) * (v_mom_D0D0
  E)) + (((v_Gamma_U0D0D2 E) * (igConf E 0 1)) * (v_mom_D0D1 E))) + (((v_Gamma_U0D0D2 E) *
  (igConf E 0 2)) * (v_mom_D0D2 E))) + (((v_Gamma_U0D1D2 E) * (igConf E 0 1)) * (v_mom_D0D0 E)))
  + (((v_Gamma_U0D1D2 E) * (igConf E 1 1)) * (v_mom_D0D1 E))) + (((v_Gamma_U0D1D2 E) * (igConf E
  1 2)) * (v_mom_D0D2 E))) + (((v_Gamma_U0D2D2 E) * (igConf E 0 2)) * (v_mom_D0D0 E))) +
  (((v_Gamma_U0D2D2 E) * (igConf E 1 2)) * (v_mom_D0D1 E))) + (((v_Gamma_U0D2D2 E) * (igConf E 2
  2)) * (v_mom_D0D2 E))) + (((v_Gamma_U1D0D2 E) * (igConf E 0 0)) * (v_mom_D0D1 E))) +
  (((v_Gamma_U1D0D2 E) * (igConf E 0 1)) * (v_mom_D1D1 E))) + (((v_Gamma_U1D0D2 E) * (igConf E 0
  2)) * (v_mom_D1D2 E))) + (((v_Gamma_U1D1D2 E) * (igConf E 0 1)) * (v_mom_D0D1 E))) +
  (((v_Gamma_U1D1D2 E) * (igConf E 1 1)) * (v_mom_D1D1 E))) + (((v_Gamma_U1D1D2 E) * (igConf E 1
  2)) * (v_mom_D1D2 E))) + (((v_Gamma_U1D2D2 E) * (igConf E 0 2)) * (v_mom_D0D1 E))) +
  (((v_Gamma_U1D2D2 E) * (igConf E 1 2)) * (v_mom_D1D1 E))) + (((v_Gamma_U1D2D2 E) * (igConf E 2
  2)) * (v_mom_D1D2 E))) + (((v_Gamma_U2D0D2 E) * (igConf E 0 0)) * (v_mom_D0D2 E))) +
  (((v_Gamma_U2D0D2 E) * (igConf E 0 1)) * (v_mom_D1D2 E))) + (((v_Gamma_U2D0D2 E) * (igConf E 0
  2)) * (v_mom_D2D2 E))) + (((v_Gamma_U2D1D2 E) * (igConf E 0 1)) * (v_mom_D0D2 E))) +
  (((v_Gamma_U2D1D2 E) * (igConf E 1 1)) * (v_mom_D1D2 E))) + (((v_Gamma_U2D1D2 E) * (igConf E 1
  2)) * (v_mom_D2D2 E))) + (((v_Gamma_U2D2D2 E) * (igConf E 0 2)) * (v_mom_D0D2 E))) +
  (((v_Gamma_U2D2D2 E) * (igConf E 1 2)) * (v_mom_D1D2 E))) + (((v_Gamma_U2D2D2 E) * (igConf E 2
  2)) * (v_mom_D2D2 E))).

(* /repo/Src/Main/Modules/Physics/Observe/obs_ADM_P_Stokes_constraint.c:444 *)
Definition v_out_obs__Pv_D2 (E : env) : R :=
  v_Pv_D2 E.

(* /repo/Src/Main/Modules/Physics/Observe/obs_ADM_P_Stokes_constraint.c:445 *)
Definition v_out_obs__Pv_D1 (E : env) : R :=
  v_Pv_D1 E.

(* /repo/Src/Main/Modules/Physics/Observe/obs_ADM_P_Stokes_constraint.c:446 *)
Definition v_out_obs__Pv_D0 (E : env) : R :=
  v_Pv_D0 E.

(* /repo/Src/Main/Modules/Physics/Observe/obs_ADM_P_Stokes_constraint.c:168-170: the arrays obs__Ps_.. after the loop body; the others keep their value *)
Definition store_obs__Ps (E : env) (old : nat -> R) : nat -> R :=
  fun i => match i with
  | 0%nat => out_obs__Ps_D0 E
  | 1%nat => out_obs__Ps_D1 E
  | 2%nat => out_obs__Ps_D2 E
  | _ => old i
  end.

(* /repo/Src/Main/Modules/Physics/Observe/obs_ADM_P_Stokes_constraint.c:444-446: the arrays obs__Pv_.. after the loop body; the others keep their value *)
Definition store_obs__Pv (E : env) (old : nat -> R) : nat -> R :=
  fun i => match i with
  | 2%nat => v_out_obs__Pv_D2 E
  | 1%nat => v_out_obs__Pv_D1 E
  | 0%nat => v_out_obs__Pv_D0 E
  | _ => old i
  end.
