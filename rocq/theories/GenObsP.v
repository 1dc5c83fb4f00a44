(* Generated by tools/c2coq.py from /repo/Src/Main/Modules/Physics/Observe/obs_ADM_P_S_default.c: do not edit.
   Pointwise: one node ijk of the loop over the nodes of a patch; doubles are reals. n: the stored normal of the item; xi: position relative to the centre. *)
Require Import Reals.
Local Open Scope R_scope.

(* /repo/Src/Main/Modules/Physics/Observe/obs_ADM_P_S_default.c:56-138: the values the loop body reads at its node: field B_U0D1 is B 0 1 *)
Record env : Type := mk {
  AConfIJ : nat -> nat -> R;
  gConf : nat -> nat -> R;
  n : nat -> R;
  psi : R;
  trK : R }.

(* /repo/Src/Main/Modules/Physics/Observe/obs_ADM_P_S_default.c:56-57 *)
Definition psi4 (E : env) : R :=
  (psi E) ^ 4.

(* /repo/Src/Main/Modules/Physics/Observe/obs_ADM_P_S_default.c:59-60 *)
Definition psim2 (E : env) : R :=
  / ((psi E) ^ 2).

(* /repo/Src/Main/Modules/Physics/Observe/obs_ADM_P_S_default.c:62-84 *)
Definition Pn_D0 (E : env) : R :=
  (((- (n E 0)) * (((((2/3) * (gConf E 0 0)) * (psi4 E)) * (trK E)) - ((psim2 E) * (((((((AConfIJ
  E 0 0) * ((gConf E 0 0) ^ 2)) + (((2 * (AConfIJ E 0 1)) * (gConf E 0 0)) * (gConf E 0 1))) +
  (((2 * (AConfIJ E 0 2)) * (gConf E 0 0)) * (gConf E 0 2))) + ((AConfIJ E 1 1) * ((gConf E 0 1)
  ^ 2))) + (((2 * (AConfIJ E 1 2)) * (gConf E 0 1)) * (gConf E 0 2))) + ((AConfIJ E 2 2) *
  ((gConf E 0 2) ^ 2)))))) - ((n E 1) * (((((2/3) * (gConf E 0 1)) * (psi4 E)) * (trK E)) -
  ((psim2 E) * (((((((((((AConfIJ E 0 0) * (gConf E 0 0)) * (gConf E 0 1)) + (((AConfIJ E 0 1) *
  (gConf E 0 0)) * (gConf E 1 1))) + ((AConfIJ E 0 1) * ((gConf E 0 1) ^ 2))) + (((AConfIJ E 0 2)
  * (gConf E 0 0)) * (gConf E 1 2))) + (((AConfIJ E 0 2) * (gConf E 0 1)) * (gConf E 0 2))) +
  (((AConfIJ E 1 1) * (gConf E 0 1)) * (gConf E 1 1))) + (((AConfIJ E 1 2) * (gConf E 0 1)) *
  (gConf E 1 2))) + (((AConfIJ E 1 2) * (gConf E 0 2)) * (gConf E 1 1))) + (((AConfIJ E 2 2) *
  (gConf E 0 2)) * (gConf E 1 2))))))) - ((n E 2) * (((((2/3) * (gConf E 0 2)) * (psi4 E)) * (trK
  E)) - ((psim2 E) * (((((((((((AConfIJ E 0 0) * (gConf E 0 0)) * (gConf E 0 2)) + (((AConfIJ E 0
  1) * (gConf E 0 0)) * (gConf E 1 2))) + (((AConfIJ E 0 1) * (gConf E 0 1)) * (gConf E 0 2))) +
  (((AConfIJ E 0 2) * (gConf E 0 0)) * (gConf E 2 2))) + ((AConfIJ E 0 2) * ((gConf E 0 2) ^ 2)))
  + (((AConfIJ E 1 1) * (gConf E 0 1)) * (gConf E 1 2))) + (((AConfIJ E 1 2) * (gConf E 0 1)) *
  (gConf E 2 2))) + (((AConfIJ E 1 2) * (gConf E 0 2)) * (gConf E 1 2))) + (((AConfIJ E 2 2) *
  (gConf E 0 2)) * (gConf E 2 2)))))).

(* /repo/Src/Main/Modules/Physics/Observe/obs_ADM_P_S_default.c:86-108 *)
Definition Pn_D1 (E : env) : R :=
  (((- (n E 0)) * (((((2/3) * (gConf E 0 1)) * (psi4 E)) * (trK E)) - ((psim2 E) *
  (((((((((((AConfIJ E 0 0) * (gConf E 0 0)) * (gConf E 0 1)) + (((AConfIJ E 0 1) * (gConf E 0
  0)) * (gConf E 1 1))) + ((AConfIJ E 0 1) * ((gConf E 0 1) ^ 2))) + (((AConfIJ E 0 2) * (gConf E
  0 0)) * (gConf E 1 2))) + (((AConfIJ E 0 2) * (gConf E 0 1)) * (gConf E 0 2))) + (((AConfIJ E 1
  1) * (gConf E 0 1)) * (gConf E 1 1))) + (((AConfIJ E 1 2) * (gConf E 0 1)) * (gConf E 1 2))) +
  (((AConfIJ E 1 2) * (gConf E 0 2)) * (gConf E 1 1))) + (((AConfIJ E 2 2) * (gConf E 0 2)) *
  (gConf E 1 2)))))) - ((n E 1) * (((((2/3) * (gConf E 1 1)) * (psi4 E)) * (trK E)) - ((psim2 E)
  * (((((((AConfIJ E 0 0) * ((gConf E 0 1) ^ 2)) + (((2 * (AConfIJ E 0 1)) * (gConf E 0 1)) *
  (gConf E 1 1))) + (((2 * (AConfIJ E 0 2)) * (gConf E 0 1)) * (gConf E 1 2))) + ((AConfIJ E 1 1)
  * ((gConf E 1 1) ^ 2))) + (((2 * (AConfIJ E 1 2)) * (gConf E 1 1)) * (gConf E 1 2))) +
  ((AConfIJ E 2 2) * ((gConf E 1 2) ^ 2))))))) - ((n E 2) * (((((2/3) * (gConf E 1 2)) * (psi4
  E)) * (trK E)) - ((psim2 E) * (((((((((((AConfIJ E 0 0) * (gConf E 0 1)) * (gConf E 0 2)) +
  (((AConfIJ E 0 1) * (gConf E 0 1)) * (gConf E 1 2))) + (((AConfIJ E 0 1) * (gConf E 0 2)) *
  (gConf E 1 1))) + (((AConfIJ E 0 2) * (gConf E 0 1)) * (gConf E 2 2))) + (((AConfIJ E 0 2) *
  (gConf E 0 2)) * (gConf E 1 2))) + (((AConfIJ E 1 1) * (gConf E 1 1)) * (gConf E 1 2))) +
  (((AConfIJ E 1 2) * (gConf E 1 1)) * (gConf E 2 2))) + ((AConfIJ E 1 2) * ((gConf E 1 2) ^ 2)))
  + (((AConfIJ E 2 2) * (gConf E 1 2)) * (gConf E 2 2)))))).

(* /repo/Src/Main/Modules/Physics/Observe/obs_ADM_P_S_default.c:110-132 *)
Definition Pn_D2 (E : env) : R :=
  (((- (n E 0)) * (((((2/3) * (gConf E 0 2)) * (psi4 E)) * (trK E)) - ((psim2 E) *
  (((((((((((AConfIJ E 0 0) * (gConf E 0 0)) * (gConf E 0 2)) + (((AConfIJ E 0 1) * (gConf E 0
  0)) * (gConf E 1 2))) + (((AConfIJ E 0 1) * (gConf E 0 1)) * (gConf E 0 2))) + (((AConfIJ E 0
  2) * (gConf E 0 0)) * (gConf E 2 2))) + ((AConfIJ E 0 2) * ((gConf E 0 2) ^ 2))) + (((AConfIJ E
  1 1) * (gConf E 0 1)) * (gConf E 1 2))) + (((AConfIJ E 1 2) * (gConf E 0 1)) * (gConf E 2 2)))
  + (((AConfIJ E 1 2) * (gConf E 0 2)) * (gConf E 1 2))) + (((AConfIJ E 2 2) * (gConf E 0 2)) *
  (gConf E 2 2)))))) - ((n E 1) * (((((2/3) * (gConf E 1 2)) * (psi4 E)) * (trK E)) - ((psim2 E)
  * (((((((((((AConfIJ E 0 0) * (gConf E 0 1)) * (gConf E 0 2)) + (((AConfIJ E 0 1) * (gConf E 0
  1)) * (gConf E 1 2))) + (((AConfIJ E 0 1) * (gConf E 0 2)) * (gConf E 1 1))) + (((AConfIJ E 0
  2) * (gConf E 0 1)) * (gConf E 2 2))) + (((AConfIJ E 0 2) * (gConf E 0 2)) * (gConf E 1 2))) +
  (((AConfIJ E 1 1) * (gConf E 1 1)) * (gConf E 1 2))) + (((AConfIJ E 1 2) * (gConf E 1 1)) *
  (gConf E 2 2))) + ((AConfIJ E 1 2) * ((gConf E 1 2) ^ 2))) + (((AConfIJ E 2 2) * (gConf E 1 2))
  * (gConf E 2 2))))))) - ((n E 2) * (((((2/3) * (gConf E 2 2)) * (psi4 E)) * (trK E)) - ((psim2
  E) * (((((((AConfIJ E 0 0) * ((gConf E 0 2) ^ 2)) + (((2 * (AConfIJ E 0 1)) * (gConf E 0 2)) *
  (gConf E 1 2))) + (((2 * (AConfIJ E 0 2)) * (gConf E 0 2)) * (gConf E 2 2))) + ((AConfIJ E 1 1)
  * ((gConf E 1 2) ^ 2))) + (((2 * (AConfIJ E 1 2)) * (gConf E 1 2)) * (gConf E 2 2))) +
  ((AConfIJ E 2 2) * ((gConf E 2 2) ^ 2)))))).

(* /repo/Src/Main/Modules/Physics/Observe/obs_ADM_P_S_default.c:136 *)
Definition out_obs__Pn_D2 (E : env) : R :=
  Pn_D2 E.

(* /repo/Src/Main/Modules/Physics/Observe/obs_ADM_P_S_default.c:137 *)
Definition out_obs__Pn_D1 (E : env) : R :=
  Pn_D1 E.

(* /repo/Src/Main/Modules/Physics/Observe/obs_ADM_P_S_default.c:138 *)
Definition out_obs__Pn_D0 (E : env) : R :=
  Pn_D0 E.

(* /repo/Src/Main/Modules/Physics/Observe/obs_ADM_P_S_default.c:136-138: the arrays obs__Pn_.. after the loop body; the others keep their value *)
Definition store_obs__Pn (E : env) (old : nat -> R) : nat -> R :=
  fun i => match i with
  | 2%nat => out_obs__Pn_D2 E
  | 1%nat => out_obs__Pn_D1 E
  | 0%nat => out_obs__Pn_D0 E
  | _ => old i
  end.
