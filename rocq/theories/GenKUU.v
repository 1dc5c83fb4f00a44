(* Generated by tools/c2coq.py from /repo/Src/Main/Modules/Physics/ADM/adm_adm_KUU_by_AUU.c: do not edit.
   Pointwise: one node ijk of the loop over the nodes of a patch; doubles are reals. *)
Require Import Reals.
Local Open Scope R_scope.

(* /repo/Src/Main/Modules/Physics/ADM/adm_adm_KUU_by_AUU.c:37-74: the values the loop body reads at its node: field B_U0D1 is B 0 1 *)
Record env : Type := mk {
  AConfIJ : nat -> nat -> R;
  igConf : nat -> nat -> R;
  psi : R;
  trK : R }.

(* /repo/Src/Main/Modules/Physics/ADM/adm_adm_KUU_by_AUU.c:37-38 *)
Definition psim10 (E : env) : R :=
  / ((psi E) ^ 10).

(* /repo/Src/Main/Modules/Physics/ADM/adm_adm_KUU_by_AUU.c:40-41 *)
Definition psim4 (E : env) : R :=
  / ((psi E) ^ 4).

(* /repo/Src/Main/Modules/Physics/ADM/adm_adm_KUU_by_AUU.c:43-45 *)
Definition KIJ_U0U1 (E : env) : R :=
  ((AConfIJ E 0 1) * (psim10 E)) + ((((1 / 3) * (igConf E 0 1)) * (psim4 E)) * (trK E)).

(* /repo/Src/Main/Modules/Physics/ADM/adm_adm_KUU_by_AUU.c:47-49 *)
Definition KIJ_U0U0 (E : env) : R :=
  ((AConfIJ E 0 0) * (psim10 E)) + ((((1 / 3) * (igConf E 0 0)) * (psim4 E)) * (trK E)).

(* /repo/Src/Main/Modules/Physics/ADM/adm_adm_KUU_by_AUU.c:51-53 *)
Definition KIJ_U0U2 (E : env) : R :=
  ((AConfIJ E 0 2) * (psim10 E)) + ((((1 / 3) * (igConf E 0 2)) * (psim4 E)) * (trK E)).

(* /repo/Src/Main/Modules/Physics/ADM/adm_adm_KUU_by_AUU.c:55-57 *)
Definition KIJ_U2U2 (E : env) : R :=
  ((AConfIJ E 2 2) * (psim10 E)) + ((((1 / 3) * (igConf E 2 2)) * (psim4 E)) * (trK E)).

(* /repo/Src/Main/Modules/Physics/ADM/adm_adm_KUU_by_AUU.c:59-61 *)
Definition KIJ_U1U1 (E : env) : R :=
  ((AConfIJ E 1 1) * (psim10 E)) + ((((1 / 3) * (igConf E 1 1)) * (psim4 E)) * (trK E)).

(* /repo/Src/Main/Modules/Physics/ADM/adm_adm_KUU_by_AUU.c:63-65 *)
Definition KIJ_U1U2 (E : env) : R :=
  ((AConfIJ E 1 2) * (psim10 E)) + ((((1 / 3) * (igConf E 1 2)) * (psim4 E)) * (trK E)).

(* /repo/Src/Main/Modules/Physics/ADM/adm_adm_KUU_by_AUU.c:69 *)
Definition out_adm_KIJ_U0U2 (E : env) : R :=
  KIJ_U0U2 E.

(* /repo/Src/Main/Modules/Physics/ADM/adm_adm_KUU_by_AUU.c:70 *)
Definition out_adm_KIJ_U0U0 (E : env) : R :=
  KIJ_U0U0 E.

(* /repo/Src/Main/Modules/Physics/ADM/adm_adm_KUU_by_AUU.c:71 *)
Definition out_adm_KIJ_U0U1 (E : env) : R :=
  KIJ_U0U1 E.

(* /repo/Src/Main/Modules/Physics/ADM/adm_adm_KUU_by_AUU.c:72 *)
Definition out_adm_KIJ_U1U2 (E : env) : R :=
  KIJ_U1U2 E.

(* /repo/Src/Main/Modules/Physics/ADM/adm_adm_KUU_by_AUU.c:73 *)
Definition out_adm_KIJ_U1U1 (E : env) : R :=
  KIJ_U1U1 E.

(* /repo/Src/Main/Modules/Physics/ADM/adm_adm_KUU_by_AUU.c:74 *)
Definition out_adm_KIJ_U2U2 (E : env) : R :=
  KIJ_U2U2 E.

(* /repo/Src/Main/Modules/Physics/ADM/adm_adm_KUU_by_AUU.c:69-74: the arrays adm_KIJ_.. after the loop body; the others keep their value *)
Definition store_adm_KIJ (E : env) (old : nat -> nat -> R) : nat -> nat -> R :=
  fun i j => match i, j with
  | 0%nat, 2%nat => out_adm_KIJ_U0U2 E
  | 0%nat, 0%nat => out_adm_KIJ_U0U0 E
  | 0%nat, 1%nat => out_adm_KIJ_U0U1 E
  | 1%nat, 2%nat => out_adm_KIJ_U1U2 E
  | 1%nat, 1%nat => out_adm_KIJ_U1U1 E
  | 2%nat, 2%nat => out_adm_KIJ_U2U2 E
  | _, _ => old i j
  end.
