(* Generated by tools/c2coq.py from /repo/Src/Main/Modules/Physics/Free_Data/fd_PGSchild_Kij_trK.c: do not edit.
   Pointwise: one node ijk of the loop over the nodes of a patch; doubles are reals. alpha is the constant 1. of line 18. *)
Require Import Reals.
Local Open Scope R_scope.

(* /repo/Src/Main/Modules/Physics/Free_Data/fd_PGSchild_Kij_trK.c:42-71: the values the loop body reads at its node: field B_U0D1 is B 0 1 *)
Record env : Type := mk {
  alpha : R;
  dBeta : nat -> nat -> R }.

(* /repo/Src/Main/Modules/Physics/Free_Data/fd_PGSchild_Kij_trK.c:42-43 *)
Definition pgKij_D0D0 (E : env) : R :=
  (dBeta E 0 0) / (alpha E).

(* /repo/Src/Main/Modules/Physics/Free_Data/fd_PGSchild_Kij_trK.c:45-46 *)
Definition pgKij_D2D2 (E : env) : R :=
  (dBeta E 2 2) / (alpha E).

(* /repo/Src/Main/Modules/Physics/Free_Data/fd_PGSchild_Kij_trK.c:48-49 *)
Definition pgKij_D1D1 (E : env) : R :=
  (dBeta E 1 1) / (alpha E).

(* /repo/Src/Main/Modules/Physics/Free_Data/fd_PGSchild_Kij_trK.c:51-52 *)
Definition pgKij_D0D1 (E : env) : R :=
  ((1 / 2) * ((dBeta E 0 1) + (dBeta E 1 0))) / (alpha E).

(* /repo/Src/Main/Modules/Physics/Free_Data/fd_PGSchild_Kij_trK.c:54-55 *)
Definition pgKij_D0D2 (E : env) : R :=
  ((1 / 2) * ((dBeta E 0 2) + (dBeta E 2 0))) / (alpha E).

(* /repo/Src/Main/Modules/Physics/Free_Data/fd_PGSchild_Kij_trK.c:57-58 *)
Definition pgKij_D1D2 (E : env) : R :=
  ((1 / 2) * ((dBeta E 1 2) + (dBeta E 2 1))) / (alpha E).

(* /repo/Src/Main/Modules/Physics/Free_Data/fd_PGSchild_Kij_trK.c:60-61 *)
Definition trk (E : env) : R :=
  ((pgKij_D0D0 E) + (pgKij_D1D1 E)) + (pgKij_D2D2 E).

(* /repo/Src/Main/Modules/Physics/Free_Data/fd_PGSchild_Kij_trK.c:65 *)
Definition out_Kij_D2D2 (E : env) : R :=
  pgKij_D2D2 E.

(* /repo/Src/Main/Modules/Physics/Free_Data/fd_PGSchild_Kij_trK.c:66 *)
Definition out_Kij_D0D1 (E : env) : R :=
  pgKij_D0D1 E.

(* /repo/Src/Main/Modules/Physics/Free_Data/fd_PGSchild_Kij_trK.c:67 *)
Definition out_Kij_D0D0 (E : env) : R :=
  pgKij_D0D0 E.

(* /repo/Src/Main/Modules/Physics/Free_Data/fd_PGSchild_Kij_trK.c:68 *)
Definition out_Kij_D0D2 (E : env) : R :=
  pgKij_D0D2 E.

(* /repo/Src/Main/Modules/Physics/Free_Data/fd_PGSchild_Kij_trK.c:69 *)
Definition out_Kij_D1D1 (E : env) : R :=
  pgKij_D1D1 E.

(* /repo/Src/Main/Modules/Physics/Free_Data/fd_PGSchild_Kij_trK.c:70 *)
Definition out_Kij_D1D2 (E : env) : R :=
  pgKij_D1D2 E.

(* /repo/Src/Main/Modules/Physics/Free_Data/fd_PGSchild_Kij_trK.c:71 *)
Definition out_trKij (E : env) : R :=
  trk E.

(* /repo/Src/Main/Modules/Physics/Free_Data/fd_PGSchild_Kij_trK.c:65-70: the arrays Kij_.. after the loop body; the others keep their value *)
Definition store_Kij (E : env) (old : nat -> nat -> R) : nat -> nat -> R :=
  fun i j => match i, j with
  | 2%nat, 2%nat => out_Kij_D2D2 E
  | 0%nat, 1%nat => out_Kij_D0D1 E
  | 0%nat, 0%nat => out_Kij_D0D0 E
  | 0%nat, 2%nat => out_Kij_D0D2 E
  | 1%nat, 1%nat => out_Kij_D1D1 E
  | 1%nat, 2%nat => out_Kij_D1D2 E
  | _, _ => old i j
  end.
