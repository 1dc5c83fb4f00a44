(* Generated by tools/c2coq.py from /repo/Src/Main/Modules/Physics/ADM/adm_adm_KUU_by_KDD.c: do not edit.
   Pointwise: one node ijk of the loop over the nodes of a patch; doubles are reals. *)
Require Import Reals.
Local Open Scope R_scope.

(* /repo/Src/Main/Modules/Physics/ADM/adm_adm_KUU_by_KDD.c:37-98: the values the loop body reads at its node: field B_U0D1 is B 0 1 *)
Record env : Type := mk {
  adm_Kij : nat -> nat -> R;
  igConf : nat -> nat -> R;
  psi : R }.

(* /repo/Src/Main/Modules/Physics/ADM/adm_adm_KUU_by_KDD.c:37-38 *)
Definition psim4 (E : env) : R :=
  / ((psi E) ^ 4).

(* /repo/Src/Main/Modules/Physics/ADM/adm_adm_KUU_by_KDD.c:40-48 *)
Definition KIJ_U0U1 (E : env) : R :=
  ((psim4 E) ^ 2) * (((((((((((adm_Kij E 0 0) * (igConf E 0 0)) * (igConf E 0 1)) + (((adm_Kij E
  0 1) * (igConf E 0 0)) * (igConf E 1 1))) + ((adm_Kij E 0 1) * ((igConf E 0 1) ^ 2))) +
  (((adm_Kij E 0 2) * (igConf E 0 0)) * (igConf E 1 2))) + (((adm_Kij E 0 2) * (igConf E 0 1)) *
  (igConf E 0 2))) + (((adm_Kij E 1 1) * (igConf E 0 1)) * (igConf E 1 1))) + (((adm_Kij E 1 2) *
  (igConf E 0 1)) * (igConf E 1 2))) + (((adm_Kij E 1 2) * (igConf E 0 2)) * (igConf E 1 1))) +
  (((adm_Kij E 2 2) * (igConf E 0 2)) * (igConf E 1 2))).

(* /repo/Src/Main/Modules/Physics/ADM/adm_adm_KUU_by_KDD.c:50-55 *)
Definition KIJ_U0U0 (E : env) : R :=
  ((psim4 E) ^ 2) * (((((((adm_Kij E 0 0) * ((igConf E 0 0) ^ 2)) + (((2 * (adm_Kij E 0 1)) *
  (igConf E 0 0)) * (igConf E 0 1))) + (((2 * (adm_Kij E 0 2)) * (igConf E 0 0)) * (igConf E 0
  2))) + ((adm_Kij E 1 1) * ((igConf E 0 1) ^ 2))) + (((2 * (adm_Kij E 1 2)) * (igConf E 0 1)) *
  (igConf E 0 2))) + ((adm_Kij E 2 2) * ((igConf E 0 2) ^ 2))).

(* /repo/Src/Main/Modules/Physics/ADM/adm_adm_KUU_by_KDD.c:57-65 *)
Definition KIJ_U0U2 (E : env) : R :=
  ((psim4 E) ^ 2) * (((((((((((adm_Kij E 0 0) * (igConf E 0 0)) * (igConf E 0 2)) + (((adm_Kij E
  0 1) * (igConf E 0 0)) * (igConf E 1 2))) + (((adm_Kij E 0 1) * (igConf E 0 1)) * (igConf E 0
  2))) + (((adm_Kij E 0 2) * (igConf E 0 0)) * (igConf E 2 2))) + ((adm_Kij E 0 2) * ((igConf E 0
  2) ^ 2))) + (((adm_Kij E 1 1) * (igConf E 0 1)) * (igConf E 1 2))) + (((adm_Kij E 1 2) *
  (igConf E 0 1)) * (igConf E 2 2))) + (((adm_Kij E 1 2) * (igConf E 0 2)) * (igConf E 1 2))) +
  (((adm_Kij E 2 2) * (igConf E 0 2)) * (igConf E 2 2))).

(* /repo/Src/Main/Modules/Physics/ADM/adm_adm_KUU_by_KDD.c:67-72 *)
Definition KIJ_U2U2 (E : env) : R :=
  ((psim4 E) ^ 2) * (((((((adm_Kij E 0 0) * ((igConf E 0 2) ^ 2)) + (((2 * (adm_Kij E 0 1)) *
  (igConf E 0 2)) * (igConf E 1 2))) + (((2 * (adm_Kij E 0 2)) * (igConf E 0 2)) * (igConf E 2
  2))) + ((adm_Kij E 1 1) * ((igConf E 1 2) ^ 2))) + (((2 * (adm_Kij E 1 2)) * (igConf E 1 2)) *
  (igConf E 2 2))) + ((adm_Kij E 2 2) * ((igConf E 2 2) ^ 2))).

(* /repo/Src/Main/Modules/Physics/ADM/adm_adm_KUU_by_KDD.c:74-79 *)
Definition KIJ_U1U1 (E : env) : R :=
  ((psim4 E) ^ 2) * (((((((adm_Kij E 0 0) * ((igConf E 0 1) ^ 2)) + (((2 * (adm_Kij E 0 1)) *
  (igConf E 0 1)) * (igConf E 1 1))) + (((2 * (adm_Kij E 0 2)) * (igConf E 0 1)) * (igConf E 1
  2))) + ((adm_Kij E 1 1) * ((igConf E 1 1) ^ 2))) + (((2 * (adm_Kij E 1 2)) * (igConf E 1 1)) *
  (igConf E 1 2))) + ((adm_Kij E 2 2) * ((igConf E 1 2) ^ 2))).

(* /repo/Src/Main/Modules/Physics/ADM/adm_adm_KUU_by_KDD.c:81-89 *)
Definition KIJ_U1U2 (E : env) : R :=
  ((psim4 E) ^ 2) * (((((((((((adm_Kij E 0 0) * (igConf E 0 1)) * (igConf E 0 2)) + (((adm_Kij E
  0 1) * (igConf E 0 1)) * (igConf E 1 2))) + (((adm_Kij E 0 1) * (igConf E 0 2)) * (igConf E 1
  1))) + (((adm_Kij E 0 2) * (igConf E 0 1)) * (igConf E 2 2))) + (((adm_Kij E 0 2) * (igConf E 0
  2)) * (igConf E 1 2))) + (((adm_Kij E 1 1) * (igConf E 1 1)) * (igConf E 1 2))) + (((adm_Kij E
  1 2) * (igConf E 1 1)) * (igConf E 2 2))) + ((adm_Kij E 1 2) * ((igConf E 1 2) ^ 2))) +
  (((adm_Kij E 2 2) * (igConf E 1 2)) * (igConf E 2 2))).

(* /repo/Src/Main/Modules/Physics/ADM/adm_adm_KUU_by_KDD.c:93 *)
Definition out_adm_KIJ_U0U2 (E : env) : R :=
  KIJ_U0U2 E.

(* /repo/Src/Main/Modules/Physics/ADM/adm_adm_KUU_by_KDD.c:94 *)
Definition out_adm_KIJ_U0U0 (E : env) : R :=
  KIJ_U0U0 E.

(* /repo/Src/Main/Modules/Physics/ADM/adm_adm_KUU_by_KDD.c:95 *)
Definition out_adm_KIJ_U0U1 (E : env) : R :=
  KIJ_U0U1 E.

(* /repo/Src/Main/Modules/Physics/ADM/adm_adm_KUU_by_KDD.c:96 *)
Definition out_adm_KIJ_U1U2 (E : env) : R :=
  KIJ_U1U2 E.

(* /repo/Src/Main/Modules/Physics/ADM/adm_adm_KUU_by_KDD.c:97 *)
Definition out_adm_KIJ_U1U1 (E : env) : R :=
  KIJ_U1U1 E.

(* /repo/Src/Main/Modules/Physics/ADM/adm_adm_KUU_by_KDD.c:98 *)
Definition out_adm_KIJ_U2U2 (E : env) : R :=
  KIJ_U2U2 E.

(* /repo/Src/Main/Modules/Physics/ADM/adm_adm_KUU_by_KDD.c:93-98: the arrays adm_KIJ_.. after the loop body; the others keep their value *)
Definition store_adm_KIJ (E : env) (old : nat -> nat -> R) : nat -> nat -> R :=
  fun i j => match i, j with
  | 0%nat, 2%nat => out_adm_KIJ_U0U2 E
  | 0%nat, 0%nat => out_adm_KIJ_U0U0 E
  | 0%nat, 1%nat => out_adm_KIJ_U0U1 E
  | 1%nat, 2%nat => out_adm_KIJ_U1U2 E
  | 1%nat, 1%nat => out_adm_KIJ_U1U1 E
  | 2%nat, 2%nat => out_adm_KIJ_U2U2 E
  | _, _ => old i j
  end.
