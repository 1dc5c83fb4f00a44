(* Generated by tools/c2coq.py from /repo/Src/Main/Modules/Physics/Observe/obs_ADM_mass_SV_isotropic.c: do not edit.
   Pointwise: one node ijk of the loop over the nodes of a patch; doubles are reals. n: the stored normal of the item; xi: position relative to the centre. v_: the loop of the volume items; att: 0 beyond the cut-off radius, else 1. *)
Require Import Reals.
Local Open Scope R_scope.

(* /repo/Src/Main/Modules/Physics/Observe/obs_ADM_mass_SV_isotropic.c:78-142: the values the loop body reads at its node: field B_U0D1 is B 0 1 *)
Record env : Type := mk {
  ChrisConf : nat -> nat -> nat -> R;
  att : R;
  ddpsi : nat -> nat -> R;
  dpsi : nat -> R;
  igConf : nat -> nat -> R;
  n : nat -> R }.

(* /repo/Src/Main/Modules/Physics/Observe/obs_ADM_mass_SV_isotropic.c:78-80 *)
Definition M_s (E : env) : R :=
  (((dpsi E 0) * (n E 0)) + ((dpsi E 1) * (n E 1))) + ((dpsi E 2) * (n E 2)).

(* /repo/Src/Main/Modules/Physics/Observe/obs_ADM_mass_SV_isotropic.c:82 *)
Definition out_ADM_mass_integrand_S (E : env) : R :=
  M_s E.

(* /repo/Src/Main/Modules/Physics/Observe/obs_ADM_mass_SV_isotropic.c:118-140 *)
Definition v_M_v (E : env) : R :=
  (((((((((((((((((((((((((- (ChrisConf E 0 0 0)) * (dpsi E 0)) * (igConf E 0 0)) - (((2 *
  (ChrisConf E 0 0 1)) * (dpsi E 0)) * (igConf E 0 1))) - (((2 * (ChrisConf E 0 0 2)) * (dpsi E
  0)) * (igConf E 0 2))) - (((ChrisConf E 0 1 1) * (dpsi E 0)) * (igConf E 1 1))) - (((2 *
  (ChrisConf E 0 1 2)) * (dpsi E 0)) * (igConf E 1 2))) - (((ChrisConf E 0 2 2) * (dpsi E 0)) *
  (igConf E 2 2))) - (((ChrisConf E 1 0 0) * (dpsi E 1)) * (igConf E 0 0))) - (((2 * (ChrisConf E
  1 0 1)) * (dpsi E 1)) * (igConf E 0 1))) - (((2 * (ChrisConf E 1 0 2)) * (dpsi E 1)) * (igConf
  E 0 2))) - (((ChrisConf E 1 1 1) * (dpsi E 1)) * (igConf E 1 1))) - (((2 * (ChrisConf E 1 1 2))
  * (dpsi E 1)) * (igConf E 1 2))) - (((ChrisConf E 1 2 2) * (dpsi E 1)) * (igConf E 2 2))) -
  (((ChrisConf E 2 0 0) * (dpsi E 2)) * (igConf E 0 0))) - (((2 * (ChrisConf E 2 0 1)) * (dpsi E
  2)) * (igConf E 0 1))) - (((2 * (ChrisConf E 2 0 2)) * (dpsi E 2)) * (igConf E 0 2))) -
  (((ChrisConf E 2 1 1) * (dpsi E 2)) * (igConf E 1 1))) - (((2 * (ChrisConf E 2 1 2)) * (dpsi E
  2)) * (igConf E 1 2))) - (((ChrisConf E 2 2 2) * (dpsi E 2)) * (igConf E 2 2))) + ((ddpsi E 0
  0) * (igConf E 0 0))) + ((2 * (ddpsi E 0 1)) * (igConf E 0 1))) + ((2 * (ddpsi E 0 2)) *
  (igConf E 0 2))) + ((ddpsi E 1 1) * (igConf E 1 1))) + ((2 * (ddpsi E 1 2)) * (igConf E 1 2)))
  + ((ddpsi E 2 2) * (igConf E 2 2)).

(* /repo/Src/Main/Modules/Physics/Observe/obs_ADM_mass_SV_isotropic.c:142 *)
Definition v_out_ADM_mass_integrand_V (E : env) : R :=
  (v_M_v E) * (att E).
