(* Generated by tools/c2coq.py from /repo/Src/Main/Modules/Physics/Observe/obs_ADM_mass_S2.c: do not edit.
   Pointwise: one node ijk of the loop over the nodes of a patch; doubles are reals. n: the stored normal of the item; xi: position relative to the centre. *)
Require Import Reals.
Local Open Scope R_scope.

(* /repo/Src/Main/Modules/Physics/Observe/obs_ADM_mass_S2.c:67-97: the values the loop body reads at its node: field B_U0D1 is B 0 1 *)
Record env : Type := mk {
  dgConf : nat -> nat -> nat -> R;
  dpsi : nat -> R;
  igConf : nat -> nat -> R;
  n : nat -> R;
  psi : R }.

(* /repo/Src/Main/Modules/Physics/Observe/obs_ADM_mass_S2.c:67-68 *)
Definition dlnpsi_U2 (E : env) : R :=
  (dpsi E 2) / (psi E).

(* /repo/Src/Main/Modules/Physics/Observe/obs_ADM_mass_S2.c:70-71 *)
Definition dlnpsi_U1 (E : env) : R :=
  (dpsi E 1) / (psi E).

(* /repo/Src/Main/Modules/Physics/Observe/obs_ADM_mass_S2.c:73-74 *)
Definition dlnpsi_U0 (E : env) : R :=
  (dpsi E 0) / (psi E).

(* /repo/Src/Main/Modules/Physics/Observe/obs_ADM_mass_S2.c:76-95 *)
Definition M_s (E : env) : R :=
  (((n E 0) * ((((((((- 8) * (dlnpsi_U0 E)) + ((igConf E 0 1) * ((dgConf E 0 0 1) - (dgConf E 0 1
  0)))) + ((igConf E 0 2) * ((dgConf E 0 0 2) - (dgConf E 0 2 0)))) + ((igConf E 1 1) * ((dgConf
  E 0 1 1) - (dgConf E 1 1 0)))) + ((igConf E 1 2) * ((dgConf E 0 1 2) - (dgConf E 1 2 0)))) +
  ((igConf E 1 2) * ((dgConf E 0 2 1) - (dgConf E 1 2 0)))) + ((igConf E 2 2) * ((dgConf E 0 2 2)
  - (dgConf E 2 2 0))))) - ((n E 1) * (((((((8 * (dlnpsi_U1 E)) + ((igConf E 0 0) * ((dgConf E 0
  0 1) - (dgConf E 0 1 0)))) + ((igConf E 0 1) * ((dgConf E 0 1 1) - (dgConf E 1 1 0)))) -
  ((igConf E 0 2) * ((dgConf E 0 1 2) - (dgConf E 0 2 1)))) + ((igConf E 0 2) * ((dgConf E 0 2 1)
  - (dgConf E 1 2 0)))) - ((igConf E 1 2) * ((dgConf E 1 1 2) - (dgConf E 1 2 1)))) - ((igConf E
  2 2) * ((dgConf E 1 2 2) - (dgConf E 2 2 1)))))) - ((n E 2) * (((((((8 * (dlnpsi_U2 E)) +
  ((igConf E 0 0) * ((dgConf E 0 0 2) - (dgConf E 0 2 0)))) + ((igConf E 0 1) * ((dgConf E 0 1 2)
  - (dgConf E 0 2 1)))) + ((igConf E 0 1) * ((dgConf E 0 1 2) - (dgConf E 1 2 0)))) + ((igConf E
  0 2) * ((dgConf E 0 2 2) - (dgConf E 2 2 0)))) + ((igConf E 1 1) * ((dgConf E 1 1 2) - (dgConf
  E 1 2 1)))) + ((igConf E 1 2) * ((dgConf E 1 2 2) - (dgConf E 2 2 1))))).

(* /repo/Src/Main/Modules/Physics/Observe/obs_ADM_mass_S2.c:97 *)
Definition out_ADM_mass_integrand_S (E : env) : R :=
  M_s E.
