(* Generated by tools/c2coq.py from /repo/Src/Main/Modules/Physics/ADM/adm_adm_KDD_by_AUU.c: do not edit.
   Pointwise: one node ijk of the loop over the nodes of a patch; doubles are reals. *)
Require Import Reals.
Local Open Scope R_scope.

(* /repo/Src/Main/Modules/Physics/ADM/adm_adm_KDD_by_AUU.c:37-107: the values the loop body reads at its node: field B_U0D1 is B 0 1 *)
Record env : Type := mk {
  AConfIJ : nat -> nat -> R;
  gConf : nat -> nat -> R;
  psi : R;
  trK : R }.

(* /repo/Src/Main/Modules/Physics/ADM/adm_adm_KDD_by_AUU.c:37-38 *)
Definition psi2 (E : env) : R :=
  (psi E) ^ 2.

(* /repo/Src/Main/Modules/Physics/ADM/adm_adm_KDD_by_AUU.c:40-41 *)
Definition psim2 (E : env) : R :=
  1 / (psi2 E).

(* /repo/Src/Main/Modules/Physics/ADM/adm_adm_KDD_by_AUU.c:43-44 *)
Definition psi4 (E : env) : R :=
  (psi2 E) ^ 2.

(* /repo/Src/Main/Modules/Physics/ADM/adm_adm_KDD_by_AUU.c:46-52 *)
Definition Kij_D2D2 (E : env) : R :=
  ((((1 / 3) * (gConf E 2 2)) * (psi4 E)) * (trK E)) + ((psim2 E) * (((((((AConfIJ E 0 0) *
  ((gConf E 0 2) ^ 2)) + (((2 * (AConfIJ E 0 1)) * (gConf E 0 2)) * (gConf E 1 2))) + (((2 *
  (AConfIJ E 0 2)) * (gConf E 0 2)) * (gConf E 2 2))) + ((AConfIJ E 1 1) * ((gConf E 1 2) ^ 2)))
  + (((2 * (AConfIJ E 1 2)) * (gConf E 1 2)) * (gConf E 2 2))) + ((AConfIJ E 2 2) * ((gConf E 2
  2) ^ 2)))).

(* /repo/Src/Main/Modules/Physics/ADM/adm_adm_KDD_by_AUU.c:54-62 *)
Definition Kij_D0D1 (E : env) : R :=
  ((((1 / 3) * (gConf E 0 1)) * (psi4 E)) * (trK E)) + ((psim2 E) * (((((((((((AConfIJ E 0 0) *
  (gConf E 0 0)) * (gConf E 0 1)) + (((AConfIJ E 0 1) * (gConf E 0 0)) * (gConf E 1 1))) +
  ((AConfIJ E 0 1) * ((gConf E 0 1) ^ 2))) + (((AConfIJ E 0 2) * (gConf E 0 0)) * (gConf E 1 2)))
  + (((AConfIJ E 0 2) * (gConf E 0 1)) * (gConf E 0 2))) + (((AConfIJ E 1 1) * (gConf E 0 1)) *
  (gConf E 1 1))) + (((AConfIJ E 1 2) * (gConf E 0 1)) * (gConf E 1 2))) + (((AConfIJ E 1 2) *
  (gConf E 0 2)) * (gConf E 1 1))) + (((AConfIJ E 2 2) * (gConf E 0 2)) * (gConf E 1 2)))).

(* /repo/Src/Main/Modules/Physics/ADM/adm_adm_KDD_by_AUU.c:64-70 *)
Definition Kij_D0D0 (E : env) : R :=
  ((((1 / 3) * (gConf E 0 0)) * (psi4 E)) * (trK E)) + ((psim2 E) * (((((((AConfIJ E 0 0) *
  ((gConf E 0 0) ^ 2)) + (((2 * (AConfIJ E 0 1)) * (gConf E 0 0)) * (gConf E 0 1))) + (((2 *
  (AConfIJ E 0 2)) * (gConf E 0 0)) * (gConf E 0 2))) + ((AConfIJ E 1 1) * ((gConf E 0 1) ^ 2)))
  + (((2 * (AConfIJ E 1 2)) * (gConf E 0 1)) * (gConf E 0 2))) + ((AConfIJ E 2 2) * ((gConf E 0
  2) ^ 2)))).

(* /repo/Src/Main/Modules/Physics/ADM/adm_adm_KDD_by_AUU.c:72-80 *)
Definition Kij_D0D2 (E : env) : R :=
  ((((1 / 3) * (gConf E 0 2)) * (psi4 E)) * (trK E)) + ((psim2 E) * (((((((((((AConfIJ E 0 0) *
  (gConf E 0 0)) * (gConf E 0 2)) + (((AConfIJ E 0 1) * (gConf E 0 0)) * (gConf E 1 2))) +
  (((AConfIJ E 0 1) * (gConf E 0 1)) * (gConf E 0 2))) + (((AConfIJ E 0 2) * (gConf E 0 0)) *
  (gConf E 2 2))) + ((AConfIJ E 0 2) * ((gConf E 0 2) ^ 2))) + (((AConfIJ E 1 1) * (gConf E 0 1))
  * (gConf E 1 2))) + (((AConfIJ E 1 2) * (gConf E 0 1)) * (gConf E 2 2))) + (((AConfIJ E 1 2) *
  (gConf E 0 2)) * (gConf E 1 2))) + (((AConfIJ E 2 2) * (gConf E 0 2)) * (gConf E 2 2)))).

(* /repo/Src/Main/Modules/Physics/ADM/adm_adm_KDD_by_AUU.c:82-88 *)
Definition Kij_D1D1 (E : env) : R :=
  ((((1 / 3) * (gConf E 1 1)) * (psi4 E)) * (trK E)) + ((psim2 E) * (((((((AConfIJ E 0 0) *
  ((gConf E 0 1) ^ 2)) + (((2 * (AConfIJ E 0 1)) * (gConf E 0 1)) * (gConf E 1 1))) + (((2 *
  (AConfIJ E 0 2)) * (gConf E 0 1)) * (gConf E 1 2))) + ((AConfIJ E 1 1) * ((gConf E 1 1) ^ 2)))
  + (((2 * (AConfIJ E 1 2)) * (gConf E 1 1)) * (gConf E 1 2))) + ((AConfIJ E 2 2) * ((gConf E 1
  2) ^ 2)))).

(* /repo/Src/Main/Modules/Physics/ADM/adm_adm_KDD_by_AUU.c:90-98 *)
Definition Kij_D1D2 (E : env) : R :=
  ((((1 / 3) * (gConf E 1 2)) * (psi4 E)) * (trK E)) + ((psim2 E) * (((((((((((AConfIJ E 0 0) *
  (gConf E 0 1)) * (gConf E 0 2)) + (((AConfIJ E 0 1) * (gConf E 0 1)) * (gConf E 1 2))) +
  (((AConfIJ E 0 1) * (gConf E 0 2)) * (gConf E 1 1))) + (((AConfIJ E 0 2) * (gConf E 0 1)) *
  (gConf E 2 2))) + (((AConfIJ E 0 2) * (gConf E 0 2)) * (gConf E 1 2))) + (((AConfIJ E 1 1) *
  (gConf E 1 1)) * (gConf E 1 2))) + (((AConfIJ E 1 2) * (gConf E 1 1)) * (gConf E 2 2))) +
  ((AConfIJ E 1 2) * ((gConf E 1 2) ^ 2))) + (((AConfIJ E 2 2) * (gConf E 1 2)) * (gConf E 2
  2)))).

(* /repo/Src/Main/Modules/Physics/ADM/adm_adm_KDD_by_AUU.c:102 *)
Definition out_adm_Kij_D2D2 (E : env) : R :=
  Kij_D2D2 E.

(* /repo/Src/Main/Modules/Physics/ADM/adm_adm_KDD_by_AUU.c:103 *)
Definition out_adm_Kij_D0D2 (E : env) : R :=
  Kij_D0D2 E.

(* /repo/Src/Main/Modules/Physics/ADM/adm_adm_KDD_by_AUU.c:104 *)
Definition out_adm_Kij_D1D2 (E : env) : R :=
  Kij_D1D2 E.

(* /repo/Src/Main/Modules/Physics/ADM/adm_adm_KDD_by_AUU.c:105 *)
Definition out_adm_Kij_D0D0 (E : env) : R :=
  Kij_D0D0 E.

(* /repo/Src/Main/Modules/Physics/ADM/adm_adm_KDD_by_AUU.c:106 *)
Definition out_adm_Kij_D0D1 (E : env) : R :=
  Kij_D0D1 E.

(* /repo/Src/Main/Modules/Physics/ADM/adm_adm_KDD_by_AUU.c:107 *)
Definition out_adm_Kij_D1D1 (E : env) : R :=
  Kij_D1D1 E.

(* /repo/Src/Main/Modules/Physics/ADM/adm_adm_KDD_by_AUU.c:102-107: the arrays adm_Kij_.. after the loop body; the others keep their value *)
Definition store_adm_Kij (E : env) (old : nat -> nat -> R) : nat -> nat -> R :=
  fun i j => match i, j with
  | 2%nat, 2%nat => out_adm_Kij_D2D2 E
  | 0%nat, 2%nat => out_adm_Kij_D0D2 E
  | 1%nat, 2%nat => out_adm_Kij_D1D2 E
  | 0%nat, 0%nat => out_adm_Kij_D0D0 E
  | 0%nat, 1%nat => out_adm_Kij_D0D1 E
  | 1%nat, 1%nat => out_adm_Kij_D1D1 E
  | _, _ => old i j
  end.
