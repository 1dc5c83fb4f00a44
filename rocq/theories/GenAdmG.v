(* Generated by tools/c2coq.py from /repo/Src/Main/Modules/Physics/ADM/adm_adm_g.c: do not edit.
   Pointwise: one node ijk of the loop over the nodes of a patch; doubles are reals. *)
Require Import Reals.
Local Open Scope R_scope.

(* /repo/Src/Main/Modules/Physics/ADM/adm_adm_g.c:31-59: the values the loop body reads at its node: field B_U0D1 is B 0 1 *)
Record env : Type := mk {
  gConf : nat -> nat -> R;
  psi : R }.

(* /repo/Src/Main/Modules/Physics/ADM/adm_adm_g.c:31-32 *)
Definition psi4 (E : env) : R :=
  (psi E) ^ 4.

(* /repo/Src/Main/Modules/Physics/ADM/adm_adm_g.c:34-35 *)
Definition g_D2D2 (E : env) : R :=
  (gConf E 2 2) * (psi4 E).

(* /repo/Src/Main/Modules/Physics/ADM/adm_adm_g.c:37-38 *)
Definition g_D0D0 (E : env) : R :=
  (gConf E 0 0) * (psi4 E).

(* /repo/Src/Main/Modules/Physics/ADM/adm_adm_g.c:40-41 *)
Definition g_D0D1 (E : env) : R :=
  (gConf E 0 1) * (psi4 E).

(* /repo/Src/Main/Modules/Physics/ADM/adm_adm_g.c:43-44 *)
Definition g_D0D2 (E : env) : R :=
  (gConf E 0 2) * (psi4 E).

(* /repo/Src/Main/Modules/Physics/ADM/adm_adm_g.c:46-47 *)
Definition g_D1D1 (E : env) : R :=
  (gConf E 1 1) * (psi4 E).

(* /repo/Src/Main/Modules/Physics/ADM/adm_adm_g.c:49-50 *)
Definition g_D1D2 (E : env) : R :=
  (gConf E 1 2) * (psi4 E).

(* /repo/Src/Main/Modules/Physics/ADM/adm_adm_g.c:54 *)
Definition out_adm_g_D0D2 (E : env) : R :=
  g_D0D2 E.

(* /repo/Src/Main/Modules/Physics/ADM/adm_adm_g.c:55 *)
Definition out_adm_g_D0D1 (E : env) : R :=
  g_D0D1 E.

(* /repo/Src/Main/Modules/Physics/ADM/adm_adm_g.c:56 *)
Definition out_adm_g_D0D0 (E : env) : R :=
  g_D0D0 E.

(* /repo/Src/Main/Modules/Physics/ADM/adm_adm_g.c:57 *)
Definition out_adm_g_D1D2 (E : env) : R :=
  g_D1D2 E.

(* /repo/Src/Main/Modules/Physics/ADM/adm_adm_g.c:58 *)
Definition out_adm_g_D1D1 (E : env) : R :=
  g_D1D1 E.

(* /repo/Src/Main/Modules/Physics/ADM/adm_adm_g.c:59 *)
Definition out_adm_g_D2D2 (E : env) : R :=
  g_D2D2 E.

(* /repo/Src/Main/Modules/Physics/ADM/adm_adm_g.c:54-59: the arrays adm_g_.. after the loop body; the others keep their value *)
Definition store_adm_g (E : env) (old : nat -> nat -> R) : nat -> nat -> R :=
  fun i j => match i, j with
  | 0%nat, 2%nat => out_adm_g_D0D2 E
  | 0%nat, 1%nat => out_adm_g_D0D1 E
  | 0%nat, 0%nat => out_adm_g_D0D0 E
  | 1%nat, 2%nat => out_adm_g_D1D2 E
  | 1%nat, 1%nat => out_adm_g_D1D1 E
  | 2%nat, 2%nat => out_adm_g_D2D2 E
  | _, _ => old i j
  end.
