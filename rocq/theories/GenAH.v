(* Generated by tools/c2coq.py from /repo/Src/Main/Modules/Physics/BlackHole/bh_expansion_of_AH.c: do not edit.
   Pointwise: one node ijk of the loop over the nodes of a patch; doubles are reals. Theta is the value before fabs. *)
Require Import Reals.
Local Open Scope R_scope.

(* /repo/Src/Main/Modules/Physics/BlackHole/bh_expansion_of_AH.c:78-153: the values the loop body reads at its node: field B_U0D1 is B 0 1 *)
Record env : Type := mk {
  AConfIJ : nat -> nat -> R;
  ChrisConf : nat -> nat -> nat -> R;
  bh_sConf : nat -> R;
  dbh_sConf : nat -> nat -> R;
  dpsi : nat -> R;
  gConf : nat -> nat -> R;
  psi : R;
  trK : R }.

(* /repo/Src/Main/Modules/Physics/BlackHole/bh_expansion_of_AH.c:78-85 *)
Definition DisConfI (E : env) : R :=
  ((((((((((((ChrisConf E 0 0 0) * (bh_sConf E 0)) + ((ChrisConf E 0 0 1) * (bh_sConf E 1))) +
  ((ChrisConf E 0 0 2) * (bh_sConf E 2))) + ((ChrisConf E 1 0 1) * (bh_sConf E 0))) + ((ChrisConf
  E 1 1 1) * (bh_sConf E 1))) + ((ChrisConf E 1 1 2) * (bh_sConf E 2))) + ((ChrisConf E 2 0 2) *
  (bh_sConf E 0))) + ((ChrisConf E 2 1 2) * (bh_sConf E 1))) + ((ChrisConf E 2 2 2) * (bh_sConf E
  2))) + (dbh_sConf E 0 0)) + (dbh_sConf E 1 1)) + (dbh_sConf E 2 2).

(* /repo/Src/Main/Modules/Physics/BlackHole/bh_expansion_of_AH.c:87-151 *)
Definition Theta (E : env) : R :=
  (((((((1 / 4) * (DisConfI E)) * (psi E)) + ((bh_sConf E 0) * (dpsi E 0))) + ((bh_sConf E 1) *
  (dpsi E 1))) + ((bh_sConf E 2) * (dpsi E 2))) - (((1 / 6) * ((psi E) ^ 3)) * (trK E))) + (((1 /
  4) * (((((((((((((((((((((((((((((((((((((((((((((((AConfIJ E 0 0) * ((bh_sConf E 0) ^ 2)) *
  ((gConf E 0 0) ^ 2)) + (((((2 * (AConfIJ E 0 0)) * (bh_sConf E 0)) * (bh_sConf E 1)) * (gConf E
  0 0)) * (gConf E 0 1))) + (((((2 * (AConfIJ E 0 0)) * (bh_sConf E 0)) * (bh_sConf E 2)) *
  (gConf E 0 0)) * (gConf E 0 2))) + (((AConfIJ E 0 0) * ((bh_sConf E 1) ^ 2)) * ((gConf E 0 1) ^
  2))) + (((((2 * (AConfIJ E 0 0)) * (bh_sConf E 1)) * (bh_sConf E 2)) * (gConf E 0 1)) * (gConf
  E 0 2))) + (((AConfIJ E 0 0) * ((bh_sConf E 2) ^ 2)) * ((gConf E 0 2) ^ 2))) + ((((2 * (AConfIJ
  E 0 1)) * ((bh_sConf E 0) ^ 2)) * (gConf E 0 0)) * (gConf E 0 1))) + (((((2 * (AConfIJ E 0 1))
  * (bh_sConf E 0)) * (bh_sConf E 1)) * (gConf E 0 0)) * (gConf E 1 1))) + ((((2 * (AConfIJ E 0
  1)) * (bh_sConf E 0)) * (bh_sConf E 1)) * ((gConf E 0 1) ^ 2))) + (((((2 * (AConfIJ E 0 1)) *
  (bh_sConf E 0)) * (bh_sConf E 2)) * (gConf E 0 0)) * (gConf E 1 2))) + (((((2 * (AConfIJ E 0
  1)) * (bh_sConf E 0)) * (bh_sConf E 2)) * (gConf E 0 1)) * (gConf E 0 2))) + ((((2 * (AConfIJ E
  0 1)) * ((bh_sConf E 1) ^ 2)) * (gConf E 0 1)) * (gConf E 1 1))) + (((((2 * (AConfIJ E 0 1)) *
  (bh_sConf E 1)) * (bh_sConf E 2)) * (gConf E 0 1)) * (gConf E 1 2))) + (((((2 * (AConfIJ E 0
  1)) * (bh_sConf E 1)) * (bh_sConf E 2)) * (gConf E 0 2)) * (gConf E 1 1))) + ((((2 * (AConfIJ E
  0 1)) * ((bh_sConf E 2) ^ 2)) * (gConf E 0 2)) * (gConf E 1 2))) + ((((2 * (AConfIJ E 0 2)) *
  ((bh_sConf E 0) ^ 2)) * (gConf E 0 0)) * (gConf E 0 2))) + (((((2 * (AConfIJ E 0 2)) *
  (bh_sConf E 0)) * (bh_sConf E 1)) * (gConf E 0 0)) * (gConf E 1 2))) + (((((2 * (AConfIJ E 0
  2)) * (bh_sConf E 0)) * (bh_sConf E 1)) * (gConf E 0 1)) * (gConf E 0 2))) + (((((2 * (AConfIJ
  E 0 2)) * (bh_sConf E 0)) * (bh_sConf E 2)) * (gConf E 0 0)) * (gConf E 2 2))) + ((((2 *
  (AConfIJ E 0 2)) * (bh_sConf E 0)) * (bh_sConf E 2)) * ((gConf E 0 2) ^ 2))) + ((((2 * (AConfIJ
  E 0 2)) * ((bh_sConf E 1) ^ 2)) * (gConf E 0 1)) * (gConf E 1 2))) + (((((2 * (AConfIJ E 0 2))
  * (bh_sConf E 1)) * (bh_sConf E 2)) * (gConf E 0 1)) * (gConf E 2 2))) + (((((2 * (AConfIJ E 0
  2)) * (bh_sConf E 1)) * (bh_sConf E 2)) * (gConf E 0 2)) * (gConf E 1 2))) + ((((2 * (AConfIJ E
  0 2)) * ((bh_sConf E 2) ^ 2)) * (gConf E 0 2)) * (gConf E 2 2))) + (((AConfIJ E 1 1) *
  ((bh_sConf E 0) ^ 2)) * ((gConf E 0 1) ^ 2))) + (((((2 * (AConfIJ E 1 1)) * (bh_sConf E 0)) *
  (bh_sConf E 1)) * (gConf E 0 1)) * (gConf E 1 1))) + (((((2 * (AConfIJ E 1 1)) * (bh_sConf E
  0)) * (bh_sConf E 2)) * (gConf E 0 1)) * (gConf E 1 2))) + (((AConfIJ E 1 1) * ((bh_sConf E 1)
  ^ 2)) * ((gConf E 1 1) ^ 2))) + (((((2 * (AConfIJ E 1 1)) * (bh_sConf E 1)) * (bh_sConf E 2)) *
  (gConf E 1 1)) * (gConf E 1 2))) + (((AConfIJ E 1 1) * ((bh_sConf E 2) ^ 2)) * ((gConf E 1 2) ^
  2))) + ((((2 * (AConfIJ E 1 2)) * ((bh_sConf E 0) ^ 2)) * (gConf E 0 1)) * (gConf E 0 2))) +
  (((((2 * (AConfIJ E 1 2)) * (bh_sConf E 0)) * (bh_sConf E 1)) * (gConf E 0 1)) * (gConf E 1
  2))) + (((((2 * (AConfIJ E 1 2)) * (bh_sConf E 0)) * (bh_sConf E 1)) * (gConf E 0 2)) * (gConf
  E 1 1))) + (((((2 * (AConfIJ E 1 2)) * (bh_sConf E 0)) * (bh_sConf E 2)) * (gConf E 0 1)) *
  (gConf E 2 2))) + (((((2 * (AConfIJ E 1 2)) * (bh_sConf E 0)) * (bh_sConf E 2)) * (gConf E 0
  2)) * (gConf E 1 2))) + ((((2 * (AConfIJ E 1 2)) * ((bh_sConf E 1) ^ 2)) * (gConf E 1 1)) *
  (gConf E 1 2))) + (((((2 * (AConfIJ E 1 2)) * (bh_sConf E 1)) * (bh_sConf E 2)) * (gConf E 1
  1)) * (gConf E 2 2))) + ((((2 * (AConfIJ E 1 2)) * (bh_sConf E 1)) * (bh_sConf E 2)) * ((gConf
  E 1 2) ^ 2))) + ((((2 * (AConfIJ E 1 2)) * ((bh_sConf E 2) ^ 2)) * (gConf E 1 2)) * (gConf E 2
  2))) + (((AConfIJ E 2 2) * ((bh_sConf E 0) ^ 2)) * ((gConf E 0 2) ^ 2))) + (((((2 * (AConfIJ E
  2 2)) * (bh_sConf E 0)) * (bh_sConf E 1)) * (gConf E 0 2)) * (gConf E 1 2))) + (((((2 *
  (AConfIJ E 2 2)) * (bh_sConf E 0)) * (bh_sConf E 2)) * (gConf E 0 2)) * (gConf E 2 2))) +
  (((AConfIJ E 2 2) * ((bh_sConf E 1) ^ 2)) * ((gConf E 1 2) ^ 2))) + (((((2 * (AConfIJ E 2 2)) *
  (bh_sConf E 1)) * (bh_sConf E 2)) * (gConf E 1 2)) * (gConf E 2 2))) + (((AConfIJ E 2 2) *
  ((bh_sConf E 2) ^ 2)) * ((gConf E 2 2) ^ 2)))) / ((psi E) ^ 3)).
