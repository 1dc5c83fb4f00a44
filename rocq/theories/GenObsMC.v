(* Generated by tools/c2coq.py from /repo/Src/Main/Modules/Physics/Observe/obs_ADM_mass_SV_conformal.c: do not edit.
   Pointwise: one node ijk of the loop over the nodes of a patch; doubles are reals. n: the stored normal of the item; xi: position relative to the centre. v_: the loop of the volume items. *)
Require Import Reals.
Local Open Scope R_scope.

(* /repo/Src/Main/Modules/Physics/Observe/obs_ADM_mass_SV_conformal.c:62-121: the values the loop body reads at its node: field B_U0D1 is B 0 1 *)
Record env : Type := mk {
  AConfIJ : nat -> nat -> R;
  EConf : R;
  dpsi : nat -> R;
  gConf : nat -> nat -> R;
  n : nat -> R;
  psi : R;
  trK : R;
  trRicciConf : R }.

(* /repo/Src/Main/Modules/Physics/Observe/obs_ADM_mass_SV_conformal.c:62-64 *)
Definition Ms (E : env) : R :=
  (((dpsi E 0) * (n E 0)) + ((dpsi E 1) * (n E 1))) + ((dpsi E 2) * (n E 2)).

(* /repo/Src/Main/Modules/Physics/Observe/obs_ADM_mass_SV_conformal.c:66 *)
Definition out_obs__Ms (E : env) : R :=
  (- (Ms E)) / (2 * PI).

(* /repo/Src/Main/Modules/Physics/Observe/obs_ADM_mass_SV_conformal.c:73-74 *)
Definition v_psi5 (E : env) : R :=
  (psi E) ^ 5.

(* /repo/Src/Main/Modules/Physics/Observe/obs_ADM_mass_SV_conformal.c:76-77 *)
Definition v_psim6 (E : env) : R :=
  / ((psi E) ^ 6).

(* /repo/Src/Main/Modules/Physics/Observe/obs_ADM_mass_SV_conformal.c:79-80 *)
Definition v_psim7 (E : env) : R :=
  (v_psim6 E) / (psi E).

(* /repo/Src/Main/Modules/Physics/Observe/obs_ADM_mass_SV_conformal.c:82-83 *)
Definition v_E (E : env) : R :=
  (EConf E) * (v_psim6 E).

(* /repo/Src/Main/Modules/Physics/Observe/obs_ADM_mass_SV_conformal.c:85-115 *)
Definition v_A2 (E : env) : R :=
  ((((((((((((((((((((((((((((AConfIJ E 0 0) ^ 2) * ((gConf E 0 0) ^ 2)) + ((((4 * (AConfIJ E 0
  0)) * (AConfIJ E 0 1)) * (gConf E 0 0)) * (gConf E 0 1))) + ((((4 * (AConfIJ E 0 0)) * (AConfIJ
  E 0 2)) * (gConf E 0 0)) * (gConf E 0 2))) + (((2 * (AConfIJ E 0 0)) * (AConfIJ E 1 1)) *
  ((gConf E 0 1) ^ 2))) + ((((4 * (AConfIJ E 0 0)) * (AConfIJ E 1 2)) * (gConf E 0 1)) * (gConf E
  0 2))) + (((2 * (AConfIJ E 0 0)) * (AConfIJ E 2 2)) * ((gConf E 0 2) ^ 2))) + (((2 * ((AConfIJ
  E 0 1) ^ 2)) * (gConf E 0 0)) * (gConf E 1 1))) + ((2 * ((AConfIJ E 0 1) ^ 2)) * ((gConf E 0 1)
  ^ 2))) + ((((4 * (AConfIJ E 0 1)) * (AConfIJ E 0 2)) * (gConf E 0 0)) * (gConf E 1 2))) + ((((4
  * (AConfIJ E 0 1)) * (AConfIJ E 0 2)) * (gConf E 0 1)) * (gConf E 0 2))) + ((((4 * (AConfIJ E 0
  1)) * (AConfIJ E 1 1)) * (gConf E 0 1)) * (gConf E 1 1))) + ((((4 * (AConfIJ E 0 1)) * (AConfIJ
  E 1 2)) * (gConf E 0 1)) * (gConf E 1 2))) + ((((4 * (AConfIJ E 0 1)) * (AConfIJ E 1 2)) *
  (gConf E 0 2)) * (gConf E 1 1))) + ((((4 * (AConfIJ E 0 1)) * (AConfIJ E 2 2)) * (gConf E 0 2))
  * (gConf E 1 2))) + (((2 * ((AConfIJ E 0 2) ^ 2)) * (gConf E 0 0)) * (gConf E 2 2))) + ((2 *
  ((AConfIJ E 0 2) ^ 2)) * ((gConf E 0 2) ^ 2))) + ((((4 * (AConfIJ E 0 2)) * (AConfIJ E 1 1)) *
  (gConf E 0 1)) * (gConf E 1 2))) + ((((4 * (AConfIJ E 0 2)) * (AConfIJ E 1 2)) * (gConf E 0 1))
  * (gConf E 2 2))) + ((((4 * (AConfIJ E 0 2)) * (AConfIJ E 1 2)) * (gConf E 0 2)) * (gConf E 1
  2))) + ((((4 * (AConfIJ E 0 2)) * (AConfIJ E 2 2)) * (gConf E 0 2)) * (gConf E 2 2))) +
  (((AConfIJ E 1 1) ^ 2) * ((gConf E 1 1) ^ 2))) + ((((4 * (AConfIJ E 1 1)) * (AConfIJ E 1 2)) *
  (gConf E 1 1)) * (gConf E 1 2))) + (((2 * (AConfIJ E 1 1)) * (AConfIJ E 2 2)) * ((gConf E 1 2)
  ^ 2))) + (((2 * ((AConfIJ E 1 2) ^ 2)) * (gConf E 1 1)) * (gConf E 2 2))) + ((2 * ((AConfIJ E 1
  2) ^ 2)) * ((gConf E 1 2) ^ 2))) + ((((4 * (AConfIJ E 1 2)) * (AConfIJ E 2 2)) * (gConf E 1 2))
  * (gConf E 2 2))) + (((AConfIJ E 2 2) ^ 2) * ((gConf E 2 2) ^ 2)).

(* /repo/Src/Main/Modules/Physics/Observe/obs_ADM_mass_SV_conformal.c:117-119 *)
Definition v_Mv (E : env) : R :=
  ((v_E E) * (v_psi5 E)) - (((1 / 16) * ((((- (v_A2 E)) * (v_psim7 E)) + ((psi E) * (trRicciConf
  E))) + (((2 / 3) * (v_psi5 E)) * ((trK E) ^ 2)))) / PI).

(* /repo/Src/Main/Modules/Physics/Observe/obs_ADM_mass_SV_conformal.c:121 *)
Definition v_out_obs__Mv (E : env) : R :=
  v_Mv E.
