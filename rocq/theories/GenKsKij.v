(* Generated by tools/c2coq.py from /repo/Src/Main/Modules/Physics/Free_Data/fd_KerrSchild_Kij_trK.c: do not edit.
   Pointwise: one node ijk of the loop over the nodes of a patch; doubles are reals. KS__alpha, KS__beta: KsModel.v; dKS__beta_DiDj is the patch derivative of KS__beta_Di. *)
Require Import Reals.
Local Open Scope R_scope.

(* /repo/Src/Main/Modules/Physics/Free_Data/fd_KerrSchild_Kij_trK.c:131-207: the values the loop body reads at its node: field B_U0D1 is B 0 1 *)
Record env : Type := mk {
  Chris : nat -> nat -> nat -> R;
  KS__alpha : R;
  KS__beta : nat -> R;
  dKS__beta : nat -> nat -> R;
  ig : nat -> nat -> R }.

(* /repo/Src/Main/Modules/Physics/Free_Data/fd_KerrSchild_Kij_trK.c:131-134 *)
Definition DB_D0D2 (E : env) : R :=
  ((((- (Chris E 0 0 2)) * (KS__beta E 0)) - ((Chris E 1 0 2) * (KS__beta E 1))) - ((Chris E 2 0
  2) * (KS__beta E 2))) + (dKS__beta E 0 2).

(* /repo/Src/Main/Modules/Physics/Free_Data/fd_KerrSchild_Kij_trK.c:136-139 *)
Definition DB_D0D0 (E : env) : R :=
  ((((- (Chris E 0 0 0)) * (KS__beta E 0)) - ((Chris E 1 0 0) * (KS__beta E 1))) - ((Chris E 2 0
  0) * (KS__beta E 2))) + (dKS__beta E 0 0).

(* /repo/Src/Main/Modules/Physics/Free_Data/fd_KerrSchild_Kij_trK.c:141-144 *)
Definition DB_D0D1 (E : env) : R :=
  ((((- (Chris E 0 0 1)) * (KS__beta E 0)) - ((Chris E 1 0 1) * (KS__beta E 1))) - ((Chris E 2 0
  1) * (KS__beta E 2))) + (dKS__beta E 0 1).

(* /repo/Src/Main/Modules/Physics/Free_Data/fd_KerrSchild_Kij_trK.c:146-149 *)
Definition DB_D2D0 (E : env) : R :=
  ((((- (Chris E 0 0 2)) * (KS__beta E 0)) - ((Chris E 1 0 2) * (KS__beta E 1))) - ((Chris E 2 0
  2) * (KS__beta E 2))) + (dKS__beta E 2 0).

(* /repo/Src/Main/Modules/Physics/Free_Data/fd_KerrSchild_Kij_trK.c:151-154 *)
Definition DB_D2D1 (E : env) : R :=
  ((((- (Chris E 0 1 2)) * (KS__beta E 0)) - ((Chris E 1 1 2) * (KS__beta E 1))) - ((Chris E 2 1
  2) * (KS__beta E 2))) + (dKS__beta E 2 1).

(* /repo/Src/Main/Modules/Physics/Free_Data/fd_KerrSchild_Kij_trK.c:156-159 *)
Definition DB_D2D2 (E : env) : R :=
  ((((- (Chris E 0 2 2)) * (KS__beta E 0)) - ((Chris E 1 2 2) * (KS__beta E 1))) - ((Chris E 2 2
  2) * (KS__beta E 2))) + (dKS__beta E 2 2).

(* /repo/Src/Main/Modules/Physics/Free_Data/fd_KerrSchild_Kij_trK.c:161-164 *)
Definition DB_D1D2 (E : env) : R :=
  ((((- (Chris E 0 1 2)) * (KS__beta E 0)) - ((Chris E 1 1 2) * (KS__beta E 1))) - ((Chris E 2 1
  2) * (KS__beta E 2))) + (dKS__beta E 1 2).

(* /repo/Src/Main/Modules/Physics/Free_Data/fd_KerrSchild_Kij_trK.c:166-169 *)
Definition DB_D1D1 (E : env) : R :=
  ((((- (Chris E 0 1 1)) * (KS__beta E 0)) - ((Chris E 1 1 1) * (KS__beta E 1))) - ((Chris E 2 1
  1) * (KS__beta E 2))) + (dKS__beta E 1 1).

(* /repo/Src/Main/Modules/Physics/Free_Data/fd_KerrSchild_Kij_trK.c:171-174 *)
Definition DB_D1D0 (E : env) : R :=
  ((((- (Chris E 0 0 1)) * (KS__beta E 0)) - ((Chris E 1 0 1) * (KS__beta E 1))) - ((Chris E 2 0
  1) * (KS__beta E 2))) + (dKS__beta E 1 0).

(* /repo/Src/Main/Modules/Physics/Free_Data/fd_KerrSchild_Kij_trK.c:176-177 *)
Definition ksKij_D2D2 (E : env) : R :=
  (DB_D2D2 E) / (KS__alpha E).

(* /repo/Src/Main/Modules/Physics/Free_Data/fd_KerrSchild_Kij_trK.c:179-180 *)
Definition ksKij_D0D1 (E : env) : R :=
  ((1 / 2) * ((DB_D0D1 E) + (DB_D1D0 E))) / (KS__alpha E).

(* /repo/Src/Main/Modules/Physics/Free_Data/fd_KerrSchild_Kij_trK.c:182-183 *)
Definition ksKij_D0D0 (E : env) : R :=
  (DB_D0D0 E) / (KS__alpha E).

(* /repo/Src/Main/Modules/Physics/Free_Data/fd_KerrSchild_Kij_trK.c:185-186 *)
Definition ksKij_D1D2 (E : env) : R :=
  ((1 / 2) * ((DB_D1D2 E) + (DB_D2D1 E))) / (KS__alpha E).

(* /repo/Src/Main/Modules/Physics/Free_Data/fd_KerrSchild_Kij_trK.c:188-189 *)
Definition ksKij_D0D2 (E : env) : R :=
  ((1 / 2) * ((DB_D0D2 E) + (DB_D2D0 E))) / (KS__alpha E).

(* /repo/Src/Main/Modules/Physics/Free_Data/fd_KerrSchild_Kij_trK.c:191-192 *)
Definition ksKij_D1D1 (E : env) : R :=
  (DB_D1D1 E) / (KS__alpha E).

(* /repo/Src/Main/Modules/Physics/Free_Data/fd_KerrSchild_Kij_trK.c:194-197 *)
Definition trk (E : env) : R :=
  ((((((ig E 0 0) * (ksKij_D0D0 E)) + ((2 * (ig E 0 1)) * (ksKij_D0D1 E))) + ((2 * (ig E 0 2)) *
  (ksKij_D0D2 E))) + ((ig E 1 1) * (ksKij_D1D1 E))) + ((2 * (ig E 1 2)) * (ksKij_D1D2 E))) + ((ig
  E 2 2) * (ksKij_D2D2 E)).

(* /repo/Src/Main/Modules/Physics/Free_Data/fd_KerrSchild_Kij_trK.c:201 *)
Definition out_Kij_D2D2 (E : env) : R :=
  ksKij_D2D2 E.

(* /repo/Src/Main/Modules/Physics/Free_Data/fd_KerrSchild_Kij_trK.c:202 *)
Definition out_Kij_D0D1 (E : env) : R :=
  ksKij_D0D1 E.

(* /repo/Src/Main/Modules/Physics/Free_Data/fd_KerrSchild_Kij_trK.c:203 *)
Definition out_Kij_D0D0 (E : env) : R :=
  ksKij_D0D0 E.

(* /repo/Src/Main/Modules/Physics/Free_Data/fd_KerrSchild_Kij_trK.c:204 *)
Definition out_Kij_D0D2 (E : env) : R :=
  ksKij_D0D2 E.

(* /repo/Src/Main/Modules/Physics/Free_Data/fd_KerrSchild_Kij_trK.c:205 *)
Definition out_Kij_D1D1 (E : env) : R :=
  ksKij_D1D1 E.

(* /repo/Src/Main/Modules/Physics/Free_Data/fd_KerrSchild_Kij_trK.c:206 *)
Definition out_Kij_D1D2 (E : env) : R :=
  ksKij_D1D2 E.

(* /repo/Src/Main/Modules/Physics/Free_Data/fd_KerrSchild_Kij_trK.c:207 *)
Definition out_trKij (E : env) : R :=
  trk E.

(* /repo/Src/Main/Modules/Physics/Free_Data/fd_KerrSchild_Kij_trK.c:201-206: the arrays Kij_.. after the loop body; the others keep their value *)
Definition store_Kij (E : env) (old : nat -> nat -> R) : nat -> nat -> R :=
  fun i j => match i, j with
  | 2%nat, 2%nat => out_Kij_D2D2 E
  | 0%nat, 1%nat => out_Kij_D0D1 E
  | 0%nat, 0%nat => out_Kij_D0D0 E
  | 0%nat, 2%nat => out_Kij_D0D2 E
  | 1%nat, 1%nat => out_Kij_D1D1 E
  | 1%nat, 2%nat => out_Kij_D1D2 E
  | _, _ => old i j
  end.
