(* Generated by tools/c2coq.py from /repo/Src/Main/Modules/Maths/Diff_Geom/dg_Christoffel_symbol_3d.c: do not edit.
   Pointwise: one node ijk of the loop over the nodes of a patch; doubles are reals. *)
Require Import Reals.
Local Open Scope R_scope.

(* /repo/Src/Main/Modules/Maths/Diff_Geom/dg_Christoffel_symbol_3d.c:75-175: the values the loop body reads at its node: field B_U0D1 is B 0 1 *)
Record env : Type := mk {
  dg : nat -> nat -> nat -> R;
  ig : nat -> nat -> R }.

(* /repo/Src/Main/Modules/Maths/Diff_Geom/dg_Christoffel_symbol_3d.c:75-78 *)
Definition GAMMA_U1D0D0 (E : env) : R :=
  ((((1/2) * (dg E 0 0 0)) * (ig E 0 1)) - (((1/2) * (ig E 1 1)) * ((dg E 0 0 1) - (2 * (dg E 0 1
  0))))) - (((1/2) * (ig E 1 2)) * ((dg E 0 0 2) - (2 * (dg E 0 2 0)))).

(* /repo/Src/Main/Modules/Maths/Diff_Geom/dg_Christoffel_symbol_3d.c:80-83 *)
Definition GAMMA_U0D2D2 (E : env) : R :=
  ((((1/2) * (dg E 2 2 2)) * (ig E 0 2)) + (((1/2) * (ig E 0 0)) * ((2 * (dg E 0 2 2)) - (dg E 2
  2 0)))) + (((1/2) * (ig E 0 1)) * ((2 * (dg E 1 2 2)) - (dg E 2 2 1))).

(* /repo/Src/Main/Modules/Maths/Diff_Geom/dg_Christoffel_symbol_3d.c:85-87 *)
Definition GAMMA_U1D0D2 (E : env) : R :=
  ((((1/2) * (dg E 0 0 2)) * (ig E 0 1)) + (((1/2) * (dg E 2 2 0)) * (ig E 1 2))) + (((1/2) * (ig
  E 1 1)) * (((dg E 0 1 2) - (dg E 0 2 1)) + (dg E 1 2 0))).

(* /repo/Src/Main/Modules/Maths/Diff_Geom/dg_Christoffel_symbol_3d.c:89-92 *)
Definition GAMMA_U2D2D2 (E : env) : R :=
  ((((1/2) * (dg E 2 2 2)) * (ig E 2 2)) + (((1/2) * (ig E 0 2)) * ((2 * (dg E 0 2 2)) - (dg E 2
  2 0)))) + (((1/2) * (ig E 1 2)) * ((2 * (dg E 1 2 2)) - (dg E 2 2 1))).

(* /repo/Src/Main/Modules/Maths/Diff_Geom/dg_Christoffel_symbol_3d.c:94-97 *)
Definition GAMMA_U2D1D1 (E : env) : R :=
  ((((1/2) * (dg E 1 1 1)) * (ig E 1 2)) + (((1/2) * (ig E 0 2)) * ((2 * (dg E 0 1 1)) - (dg E 1
  1 0)))) - (((1/2) * (ig E 2 2)) * ((dg E 1 1 2) - (2 * (dg E 1 2 1)))).

(* /repo/Src/Main/Modules/Maths/Diff_Geom/dg_Christoffel_symbol_3d.c:99-101 *)
Definition GAMMA_U1D0D1 (E : env) : R :=
  ((((1/2) * (dg E 0 0 1)) * (ig E 0 1)) + (((1/2) * (dg E 1 1 0)) * (ig E 1 1))) + (((1/2) * (ig
  E 1 2)) * (((- (dg E 0 1 2)) + (dg E 0 2 1)) + (dg E 1 2 0))).

(* /repo/Src/Main/Modules/Maths/Diff_Geom/dg_Christoffel_symbol_3d.c:103-106 *)
Definition GAMMA_U1D2D2 (E : env) : R :=
  ((((1/2) * (dg E 2 2 2)) * (ig E 1 2)) + (((1/2) * (ig E 0 1)) * ((2 * (dg E 0 2 2)) - (dg E 2
  2 0)))) + (((1/2) * (ig E 1 1)) * ((2 * (dg E 1 2 2)) - (dg E 2 2 1))).

(* /repo/Src/Main/Modules/Maths/Diff_Geom/dg_Christoffel_symbol_3d.c:108-110 *)
Definition GAMMA_U2D1D2 (E : env) : R :=
  ((((1/2) * (dg E 1 1 2)) * (ig E 1 2)) + (((1/2) * (dg E 2 2 1)) * (ig E 2 2))) + (((1/2) * (ig
  E 0 2)) * (((dg E 0 1 2) + (dg E 0 2 1)) - (dg E 1 2 0))).

(* /repo/Src/Main/Modules/Maths/Diff_Geom/dg_Christoffel_symbol_3d.c:112-114 *)
Definition GAMMA_U2D0D2 (E : env) : R :=
  ((((1/2) * (dg E 0 0 2)) * (ig E 0 2)) + (((1/2) * (dg E 2 2 0)) * (ig E 2 2))) + (((1/2) * (ig
  E 1 2)) * (((dg E 0 1 2) - (dg E 0 2 1)) + (dg E 1 2 0))).

(* /repo/Src/Main/Modules/Maths/Diff_Geom/dg_Christoffel_symbol_3d.c:116-118 *)
Definition GAMMA_U2D0D1 (E : env) : R :=
  ((((1/2) * (dg E 0 0 1)) * (ig E 0 2)) + (((1/2) * (dg E 1 1 0)) * (ig E 1 2))) + (((1/2) * (ig
  E 2 2)) * (((- (dg E 0 1 2)) + (dg E 0 2 1)) + (dg E 1 2 0))).

(* /repo/Src/Main/Modules/Maths/Diff_Geom/dg_Christoffel_symbol_3d.c:120-123 *)
Definition GAMMA_U2D0D0 (E : env) : R :=
  ((((1/2) * (dg E 0 0 0)) * (ig E 0 2)) - (((1/2) * (ig E 1 2)) * ((dg E 0 0 1) - (2 * (dg E 0 1
  0))))) - (((1/2) * (ig E 2 2)) * ((dg E 0 0 2) - (2 * (dg E 0 2 0)))).

(* /repo/Src/Main/Modules/Maths/Diff_Geom/dg_Christoffel_symbol_3d.c:125-127 *)
Definition GAMMA_U0D0D2 (E : env) : R :=
  ((((1/2) * (dg E 0 0 2)) * (ig E 0 0)) + (((1/2) * (dg E 2 2 0)) * (ig E 0 2))) + (((1/2) * (ig
  E 0 1)) * (((dg E 0 1 2) - (dg E 0 2 1)) + (dg E 1 2 0))).

(* /repo/Src/Main/Modules/Maths/Diff_Geom/dg_Christoffel_symbol_3d.c:129-132 *)
Definition GAMMA_U1D1D1 (E : env) : R :=
  ((((1/2) * (dg E 1 1 1)) * (ig E 1 1)) + (((1/2) * (ig E 0 1)) * ((2 * (dg E 0 1 1)) - (dg E 1
  1 0)))) - (((1/2) * (ig E 1 2)) * ((dg E 1 1 2) - (2 * (dg E 1 2 1)))).

(* /repo/Src/Main/Modules/Maths/Diff_Geom/dg_Christoffel_symbol_3d.c:134-137 *)
Definition GAMMA_U0D1D1 (E : env) : R :=
  ((((1/2) * (dg E 1 1 1)) * (ig E 0 1)) + (((1/2) * (ig E 0 0)) * ((2 * (dg E 0 1 1)) - (dg E 1
  1 0)))) - (((1/2) * (ig E 0 2)) * ((dg E 1 1 2) - (2 * (dg E 1 2 1)))).

(* /repo/Src/Main/Modules/Maths/Diff_Geom/dg_Christoffel_symbol_3d.c:139-142 *)
Definition GAMMA_U0D0D0 (E : env) : R :=
  ((((1/2) * (dg E 0 0 0)) * (ig E 0 0)) - (((1/2) * (ig E 0 1)) * ((dg E 0 0 1) - (2 * (dg E 0 1
  0))))) - (((1/2) * (ig E 0 2)) * ((dg E 0 0 2) - (2 * (dg E 0 2 0)))).

(* /repo/Src/Main/Modules/Maths/Diff_Geom/dg_Christoffel_symbol_3d.c:144-146 *)
Definition GAMMA_U1D1D2 (E : env) : R :=
  ((((1/2) * (dg E 1 1 2)) * (ig E 1 1)) + (((1/2) * (dg E 2 2 1)) * (ig E 1 2))) + (((1/2) * (ig
  E 0 1)) * (((dg E 0 1 2) + (dg E 0 2 1)) - (dg E 1 2 0))).

(* /repo/Src/Main/Modules/Maths/Diff_Geom/dg_Christoffel_symbol_3d.c:148-150 *)
Definition GAMMA_U0D0D1 (E : env) : R :=
  ((((1/2) * (dg E 0 0 1)) * (ig E 0 0)) + (((1/2) * (dg E 1 1 0)) * (ig E 0 1))) + (((1/2) * (ig
  E 0 2)) * (((- (dg E 0 1 2)) + (dg E 0 2 1)) + (dg E 1 2 0))).

(* /repo/Src/Main/Modules/Maths/Diff_Geom/dg_Christoffel_symbol_3d.c:152-154 *)
Definition GAMMA_U0D1D2 (E : env) : R :=
  ((((1/2) * (dg E 1 1 2)) * (ig E 0 1)) + (((1/2) * (dg E 2 2 1)) * (ig E 0 2))) + (((1/2) * (ig
  E 0 0)) * (((dg E 0 1 2) + (dg E 0 2 1)) - (dg E 1 2 0))).

(* /repo/Src/Main/Modules/Maths/Diff_Geom/dg_Christoffel_symbol_3d.c:158 *)
Definition out_Chris_U2D2D2 (E : env) : R :=
  GAMMA_U2D2D2 E.

(* /repo/Src/Main/Modules/Maths/Diff_Geom/dg_Christoffel_symbol_3d.c:159 *)
Definition out_Chris_U0D1D1 (E : env) : R :=
  GAMMA_U0D1D1 E.

(* /repo/Src/Main/Modules/Maths/Diff_Geom/dg_Christoffel_symbol_3d.c:160 *)
Definition out_Chris_U2D1D1 (E : env) : R :=
  GAMMA_U2D1D1 E.

(* /repo/Src/Main/Modules/Maths/Diff_Geom/dg_Christoffel_symbol_3d.c:161 *)
Definition out_Chris_U0D1D2 (E : env) : R :=
  GAMMA_U0D1D2 E.

(* /repo/Src/Main/Modules/Maths/Diff_Geom/dg_Christoffel_symbol_3d.c:162 *)
Definition out_Chris_U0D0D2 (E : env) : R :=
  GAMMA_U0D0D2 E.

(* /repo/Src/Main/Modules/Maths/Diff_Geom/dg_Christoffel_symbol_3d.c:163 *)
Definition out_Chris_U0D0D1 (E : env) : R :=
  GAMMA_U0D0D1 E.

(* /repo/Src/Main/Modules/Maths/Diff_Geom/dg_Christoffel_symbol_3d.c:164 *)
Definition out_Chris_U0D0D0 (E : env) : R :=
  GAMMA_U0D0D0 E.

(* /repo/Src/Main/Modules/Maths/Diff_Geom/dg_Christoffel_symbol_3d.c:165 *)
Definition out_Chris_U2D1D2 (E : env) : R :=
  GAMMA_U2D1D2 E.

(* /repo/Src/Main/Modules/Maths/Diff_Geom/dg_Christoffel_symbol_3d.c:166 *)
Definition out_Chris_U2D0D1 (E : env) : R :=
  GAMMA_U2D0D1 E.

(* /repo/Src/Main/Modules/Maths/Diff_Geom/dg_Christoffel_symbol_3d.c:167 *)
Definition out_Chris_U1D2D2 (E : env) : R :=
  GAMMA_U1D2D2 E.

(* /repo/Src/Main/Modules/Maths/Diff_Geom/dg_Christoffel_symbol_3d.c:168 *)
Definition out_Chris_U2D0D0 (E : env) : R :=
  GAMMA_U2D0D0 E.

(* /repo/Src/Main/Modules/Maths/Diff_Geom/dg_Christoffel_symbol_3d.c:169 *)
Definition out_Chris_U2D0D2 (E : env) : R :=
  GAMMA_U2D0D2 E.

(* /repo/Src/Main/Modules/Maths/Diff_Geom/dg_Christoffel_symbol_3d.c:170 *)
Definition out_Chris_U1D1D2 (E : env) : R :=
  GAMMA_U1D1D2 E.

(* /repo/Src/Main/Modules/Maths/Diff_Geom/dg_Christoffel_symbol_3d.c:171 *)
Definition out_Chris_U1D0D2 (E : env) : R :=
  GAMMA_U1D0D2 E.

(* /repo/Src/Main/Modules/Maths/Diff_Geom/dg_Christoffel_symbol_3d.c:172 *)
Definition out_Chris_U1D0D1 (E : env) : R :=
  GAMMA_U1D0D1 E.

(* /repo/Src/Main/Modules/Maths/Diff_Geom/dg_Christoffel_symbol_3d.c:173 *)
Definition out_Chris_U1D0D0 (E : env) : R :=
  GAMMA_U1D0D0 E.

(* /repo/Src/Main/Modules/Maths/Diff_Geom/dg_Christoffel_symbol_3d.c:174 *)
Definition out_Chris_U0D2D2 (E : env) : R :=
  GAMMA_U0D2D2 E.

(* /repo/Src/Main/Modules/Maths/Diff_Geom/dg_Christoffel_symbol_3d.c:175 *)
Definition out_Chris_U1D1D1 (E : env) : R :=
  GAMMA_U1D1D1 E.

(* /repo/Src/Main/Modules/Maths/Diff_Geom/dg_Christoffel_symbol_3d.c:158-175: the arrays Chris_.. after the loop body; the others keep their value *)
Definition store_Chris (E : env) (old : nat -> nat -> nat -> R) : nat -> nat -> nat -> R :=
  fun i j k => match i, j, k with
  | 2%nat, 2%nat, 2%nat => out_Chris_U2D2D2 E
  | 0%nat, 1%nat, 1%nat => out_Chris_U0D1D1 E
  | 2%nat, 1%nat, 1%nat => out_Chris_U2D1D1 E
  | 0%nat, 1%nat, 2%nat => out_Chris_U0D1D2 E
  | 0%nat, 0%nat, 2%nat => out_Chris_U0D0D2 E
  | 0%nat, 0%nat, 1%nat => out_Chris_U0D0D1 E
  | 0%nat, 0%nat, 0%nat => out_Chris_U0D0D0 E
  | 2%nat, 1%nat, 2%nat => out_Chris_U2D1D2 E
  | 2%nat, 0%nat, 1%nat => out_Chris_U2D0D1 E
  | 1%nat, 2%nat, 2%nat => out_Chris_U1D2D2 E
  | 2%nat, 0%nat, 0%nat => out_Chris_U2D0D0 E
  | 2%nat, 0%nat, 2%nat => out_Chris_U2D0D2 E
  | 1%nat, 1%nat, 2%nat => out_Chris_U1D1D2 E
  | 1%nat, 0%nat, 2%nat => out_Chris_U1D0D2 E
  | 1%nat, 0%nat, 1%nat => out_Chris_U1D0D1 E
  | 1%nat, 0%nat, 0%nat => out_Chris_U1D0D0 E
  | 0%nat, 2%nat, 2%nat => out_Chris_U0D2D2 E
  | 1%nat, 1%nat, 1%nat => out_Chris_U1D1D1 E
  | _, _, _ => old i j k
  end.
