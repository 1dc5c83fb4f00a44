(* Generated by tools/c2coq.py from /repo/Src/Main/Modules/Physics/Observe/obs_ADM_J_S_default.c: do not edit.
   Pointwise: one node ijk of the loop over the nodes of a patch; doubles are reals. n: the stored normal of the item; xi: position relative to the centre. *)
Require Import Reals.
Local Open Scope R_scope.

(* /repo/Src/Main/Modules/Physics/Observe/obs_ADM_J_S_default.c:75-166: the values the loop body reads at its node: field B_U0D1 is B 0 1 *)
Record env : Type := mk {
  AConfIJ : nat -> nat -> R;
  gConf : nat -> nat -> R;
  n : nat -> R;
  psi : R;
  trK : R;
  xi : nat -> R }.

(* /repo/Src/Main/Modules/Physics/Observe/obs_ADM_J_S_default.c:75-76 *)
Definition psi4 (E : env) : R :=
  (psi E) ^ 4.

(* /repo/Src/Main/Modules/Physics/Observe/obs_ADM_J_S_default.c:78-79 *)
Definition psim2 (E : env) : R :=
  / ((psi E) ^ 2).

(* /repo/Src/Main/Modules/Physics/Observe/obs_ADM_J_S_default.c:81-103 *)
Definition Pn_D0 (E : env) : R :=
  (((- (n E 0)) * (((((2/3) * (gConf E 0 0)) * (psi4 E)) * (trK E)) - ((psim2 E) * (((((((AConfIJ
  E 0 0) * ((gConf E 0 0) ^ 2)) + (((2 * (AConfIJ E 0 1)) * (gConf E 0 0)) * (gConf E 0 1))) +
  (((2 * (AConfIJ E 0 2)) * (gConf E 0 0)) * (gConf E 0 2))) + ((AConfIJ E 1 1) * ((gConf E 0 1)
  ^ 2))) + (((2 * (AConfIJ E 1 2)) * (gConf E 0 1)) * (gConf E 0 2))) + ((AConfIJ E 2 2) *
  ((gConf E 0 2) ^ 2)))))) - ((n E 1) * (((((2/3) * (gConf E 0 1)) * (psi4 E)) * (trK E)) -
  ((psim2 E) * (((((((((((AConfIJ E 0 0) * (gConf E 0 0)) * (gConf E 0 1)) + (((AConfIJ E 0 1) *
  (gConf E 0 0)) * (gConf E 1 1))) + ((AConfIJ E 0 1) * ((gConf E 0 1) ^ 2))) + (((AConfIJ E 0 2)
  * (gConf E 0 0)) * (gConf E 1 2))) + (((AConfIJ E 0 2) * (gConf E 0 1)) * (gConf E 0 2))) +
  (((AConfIJ E 1 1) * (gConf E 0 1)) * (gConf E 1 1))) + (((AConfIJ E 1 2) * (gConf E 0 1)) *
  (gConf E 1 2))) + (((AConfIJ E 1 2) * (gConf E 0 2)) * (gConf E 1 1))) + (((AConfIJ E 2 2) *
  (gConf E 0 2)) * (gConf E 1 2))))))) - ((n E 2) * (((((2/3) * (gConf E 0 2)) * (psi4 E)) * (trK
  E)) - ((psim2 E) * (((((((((((AConfIJ E 0 0) * (gConf E 0 0)) * (gConf E 0 2)) + (((AConfIJ E 0
  1) * (gConf E 0 0)) * (gConf E 1 2))) + (((AConfIJ E 0 1) * (gConf E 0 1)) * (gConf E 0 2))) +
  (((AConfIJ E 0 2) * (gConf E 0 0)) * (gConf E 2 2))) + ((AConfIJ E 0 2) * ((gConf E 0 2) ^ 2)))
  + (((AConfIJ E 1 1) * (gConf E 0 1)) * (gConf E 1 2))) + (((AConfIJ E 1 2) * (gConf E 0 1)) *
  (gConf E 2 2))) + (((AConfIJ E 1 2) * (gConf E 0 2)) * (gConf E 1 2))) + (((AConfIJ E 2 2) *
  (gConf E 0 2)) * (gConf E 2 2)))))).

(* /repo/Src/Main/Modules/Physics/Observe/obs_ADM_J_S_default.c:105-127 *)
Definition Pn_D1 (E : env) : R :=
  (((- (n E 0)) * (((((2/3) * (gConf E 0 1)) * (psi4 E)) * (trK E)) - ((psim2 E) *
  (((((((((((AConfIJ E 0 0) * (gConf E 0 0)) * (gConf E 0 1)) + (((AConfIJ E 0 1) * (gConf E 0
  0)) * (gConf E 1 1))) + ((AConfIJ E 0 1) * ((gConf E 0 1) ^ 2))) + (((AConfIJ E 0 2) * (gConf E
  0 0)) * (gConf E 1 2))) + (((AConfIJ E 0 2) * (gConf E 0 1)) * (gConf E 0 2))) + (((AConfIJ E 1
  1) * (gConf E 0 1)) * (gConf E 1 1))) + (((AConfIJ E 1 2) * (gConf E 0 1)) * (gConf E 1 2))) +
  (((AConfIJ E 1 2) * (gConf E 0 2)) * (gConf E 1 1))) + (((AConfIJ E 2 2) * (gConf E 0 2)) *
  (gConf E 1 2)))))) - ((n E 1) * (((((2/3) * (gConf E 1 1)) * (psi4 E)) * (trK E)) - ((psim2 E)
  * (((((((AConfIJ E 0 0) * ((gConf E 0 1) ^ 2)) + (((2 * (AConfIJ E 0 1)) * (gConf E 0 1)) *
  (gConf E 1 1))) + (((2 * (AConfIJ E 0 2)) * (gConf E 0 1)) * (gConf E 1 2))) + ((AConfIJ E 1 1)
  * ((gConf E 1 1) ^ 2))) + (((2 * (AConfIJ E 1 2)) * (gConf E 1 1)) * (gConf E 1 2))) +
  ((AConfIJ E 2 2) * ((gConf E 1 2) ^ 2))))))) - ((n E 2) * (((((2/3) * (gConf E 1 2)) * (psi4
  E)) * (trK E)) - ((psim2 E) * (((((((((((AConfIJ E 0 0) * (gConf E 0 1)) * (gConf E 0 2)) +
  (((AConfIJ E 0 1) * (gConf E 0 1)) * (gConf E 1 2))) + (((AConfIJ E 0 1) * (gConf E 0 2)) *
  (gConf E 1 1))) + (((AConfIJ E 0 2) * (gConf E 0 1)) * (gConf E 2 2))) + (((AConfIJ E 0 2) *
  (gConf E 0 2)) * (gConf E 1 2))) + (((AConfIJ E 1 1) * (gConf E 1 1)) * (gConf E 1 2))) +
  (((AConfIJ E 1 2) * (gConf E 1 1)) * (gConf E 2 2))) + ((AConfIJ E 1 2) * ((gConf E 1 2) ^ 2)))
  + (((AConfIJ E 2 2) * (gConf E 1 2)) * (gConf E 2 2)))))).

(* /repo/Src/Main/Modules/Physics/Observe/obs_ADM_J_S_default.c:129-151 *)
Definition Pn_D2 (E : env) : R :=
  (((- (n E 0)) * (((((2/3) * (gConf E 0 2)) * (psi4 E)) * (trK E)) - ((psim2 E) *
  (((((((((((AConfIJ E 0 0) * (gConf E 0 0)) * (gConf E 0 2)) + (((AConfIJ E 0 1) * (gConf E 0
  0)) * (gConf E 1 2))) + (((AConfIJ E 0 1) * (gConf E 0 1)) * (gConf E 0 2))) + (((AConfIJ E 0
  2) * (gConf E 0 0)) * (gConf E 2 2))) + ((AConfIJ E 0 2) * ((gConf E 0 2) ^ 2))) + (((AConfIJ E
  1 1) * (gConf E 0 1)) * (gConf E 1 2))) + (((AConfIJ E 1 2) * (gConf E 0 1)) * (gConf E 2 2)))
  + (((AConfIJ E 1 2) * (gConf E 0 2)) * (gConf E 1 2))) + (((AConfIJ E 2 2) * (gConf E 0 2)) *
  (gConf E 2 2)))))) - ((n E 1) * (((((2/3) * (gConf E 1 2)) * (psi4 E)) * (trK E)) - ((psim2 E)
  * (((((((((((AConfIJ E 0 0) * (gConf E 0 1)) * (gConf E 0 2)) + (((AConfIJ E 0 1) * (gConf E 0
  1)) * (gConf E 1 2))) + (((AConfIJ E 0 1) * (gConf E 0 2)) * (gConf E 1 1))) + (((AConfIJ E 0
  2) * (gConf E 0 1)) * (gConf E 2 2))) + (((AConfIJ E 0 2) * (gConf E 0 2)) * (gConf E 1 2))) +
  (((AConfIJ E 1 1) * (gConf E 1 1)) * (gConf E 1 2))) + (((AConfIJ E 1 2) * (gConf E 1 1)) *
  (gConf E 2 2))) + ((AConfIJ E 1 2) * ((gConf E 1 2) ^ 2))) + (((AConfIJ E 2 2) * (gConf E 1 2))
  * (gConf E 2 2))))))) - ((n E 2) * (((((2/3) * (gConf E 2 2)) * (psi4 E)) * (trK E)) - ((psim2
  E) * (((((((AConfIJ E 0 0) * ((gConf E 0 2) ^ 2)) + (((2 * (AConfIJ E 0 1)) * (gConf E 0 2)) *
  (gConf E 1 2))) + (((2 * (AConfIJ E 0 2)) * (gConf E 0 2)) * (gConf E 2 2))) + ((AConfIJ E 1 1)
  * ((gConf E 1 2) ^ 2))) + (((2 * (AConfIJ E 1 2)) * (gConf E 1 2)) * (gConf E 2 2))) +
  ((AConfIJ E 2 2) * ((gConf E 2 2) ^ 2)))))).

(* /repo/Src/Main/Modules/Physics/Observe/obs_ADM_J_S_default.c:153-154 *)
Definition Jn_D2 (E : env) : R :=
  ((- (Pn_D0 E)) * (xi E 1)) + ((Pn_D1 E) * (xi E 0)).

(* /repo/Src/Main/Modules/Physics/Observe/obs_ADM_J_S_default.c:156-157 *)
Definition Jn_D0 (E : env) : R :=
  ((- (Pn_D1 E)) * (xi E 2)) + ((Pn_D2 E) * (xi E 1)).

(* /repo/Src/Main/Modules/Physics/Observe/obs_ADM_J_S_default.c:159-160 *)
Definition Jn_D1 (E : env) : R :=
  ((Pn_D0 E) * (xi E 2)) - ((Pn_D2 E) * (xi E 0)).

(* /repo/Src/Main/Modules/Physics/Observe/obs_ADM_J_S_default.c:164 *)
Definition out_obs__Jn_D1 (E : env) : R :=
  Jn_D1 E.

(* /repo/Src/Main/Modules/Physics/Observe/obs_ADM_J_S_default.c:165 *)
Definition out_obs__Jn_D0 (E : env) : R :=
  Jn_D0 E.

(* /repo/Src/Main/Modules/Physics/Observe/obs_ADM_J_S_default.c:166 *)
Definition out_obs__Jn_D2 (E : env) : R :=
  Jn_D2 E.

(* /repo/Src/Main/Modules/Physics/Observe/obs_ADM_J_S_default.c:164-166: the arrays obs__Jn_.. after the loop body; the others keep their value *)
Definition store_obs__Jn (E : env) (old : nat -> R) : nat -> R :=
  fun i => match i with
  | 1%nat => out_obs__Jn_D1 E
  | 0%nat => out_obs__Jn_D0 E
  | 2%nat => out_obs__Jn_D2 E
  | _ => old i
  end.
