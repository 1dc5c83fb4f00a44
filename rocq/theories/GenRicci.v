(* Generated by tools/c2coq.py from /repo/Src/Main/Modules/Maths/Diff_Geom/dg_Ricci_3d.c: do not edit.
   Pointwise: one node ijk of the loop over the nodes of a patch; doubles are reals. *)
Require Import Reals.
Local Open Scope R_scope.

(* /repo/Src/Main/Modules/Maths/Diff_Geom/dg_Ricci_3d.c:126-280: the values the loop body reads at its node: field B_U0D1 is B 0 1 *)
Record env : Type := mk {
  Chris : nat -> nat -> nat -> R;
  dChris : nat -> nat -> nat -> nat -> R;
  ig : nat -> nat -> R }.

(* /repo/Src/Main/Modules/Maths/Diff_Geom/dg_Ricci_3d.c:126-127 *)
Definition Ric1_D0D0 (E : env) : R :=
  ((dChris E 0 0 0 0) + (dChris E 1 0 0 1)) + (dChris E 2 0 0 2).

(* /repo/Src/Main/Modules/Maths/Diff_Geom/dg_Ricci_3d.c:129-130 *)
Definition Ric1_D2D2 (E : env) : R :=
  ((dChris E 0 2 2 0) + (dChris E 1 2 2 1)) + (dChris E 2 2 2 2).

(* /repo/Src/Main/Modules/Maths/Diff_Geom/dg_Ricci_3d.c:132-133 *)
Definition Ric1_D1D2 (E : env) : R :=
  ((dChris E 0 1 2 0) + (dChris E 1 1 2 1)) + (dChris E 2 1 2 2).

(* /repo/Src/Main/Modules/Maths/Diff_Geom/dg_Ricci_3d.c:135-136 *)
Definition Ric1_D0D2 (E : env) : R :=
  ((dChris E 0 0 2 0) + (dChris E 1 0 2 1)) + (dChris E 2 0 2 2).

(* /repo/Src/Main/Modules/Maths/Diff_Geom/dg_Ricci_3d.c:138-139 *)
Definition Ric1_D0D1 (E : env) : R :=
  ((dChris E 0 0 1 0) + (dChris E 1 0 1 1)) + (dChris E 2 0 1 2).

(* /repo/Src/Main/Modules/Maths/Diff_Geom/dg_Ricci_3d.c:141-142 *)
Definition Ric1_D1D1 (E : env) : R :=
  ((dChris E 0 1 1 0) + (dChris E 1 1 1 1)) + (dChris E 2 1 1 2).

(* /repo/Src/Main/Modules/Maths/Diff_Geom/dg_Ricci_3d.c:144-145 *)
Definition Ric2_D2D2 (E : env) : R :=
  ((- (dChris E 0 0 2 2)) - (dChris E 1 1 2 2)) - (dChris E 2 2 2 2).

(* /repo/Src/Main/Modules/Maths/Diff_Geom/dg_Ricci_3d.c:147-148 *)
Definition Ric2_D0D0 (E : env) : R :=
  ((- (dChris E 0 0 0 0)) - (dChris E 1 0 1 0)) - (dChris E 2 0 2 0).

(* /repo/Src/Main/Modules/Maths/Diff_Geom/dg_Ricci_3d.c:150-151 *)
Definition Ric2_D0D2 (E : env) : R :=
  ((- (dChris E 0 0 0 2)) - (dChris E 1 0 1 2)) - (dChris E 2 0 2 2).

(* /repo/Src/Main/Modules/Maths/Diff_Geom/dg_Ricci_3d.c:153-154 *)
Definition Ric2_D1D2 (E : env) : R :=
  ((- (dChris E 0 0 1 2)) - (dChris E 1 1 1 2)) - (dChris E 2 1 2 2).

(* /repo/Src/Main/Modules/Maths/Diff_Geom/dg_Ricci_3d.c:156-157 *)
Definition Ric2_D1D1 (E : env) : R :=
  ((- (dChris E 0 0 1 1)) - (dChris E 1 1 1 1)) - (dChris E 2 1 2 1).

(* /repo/Src/Main/Modules/Maths/Diff_Geom/dg_Ricci_3d.c:159-160 *)
Definition Ric2_D0D1 (E : env) : R :=
  ((- (dChris E 0 0 0 1)) - (dChris E 1 0 1 1)) - (dChris E 2 0 2 1).

(* /repo/Src/Main/Modules/Maths/Diff_Geom/dg_Ricci_3d.c:162-168 *)
Definition Ric3_D1D1 (E : env) : R :=
  (((((((((Chris E 0 0 0) * (Chris E 0 1 1)) + ((Chris E 0 0 1) * (Chris E 1 1 1))) + ((Chris E 0
  0 2) * (Chris E 2 1 1))) + ((Chris E 0 1 1) * (Chris E 1 0 1))) + ((Chris E 0 1 1) * (Chris E 2
  0 2))) + ((Chris E 1 1 1) ^ 2)) + ((Chris E 1 1 1) * (Chris E 2 1 2))) + ((Chris E 1 1 2) *
  (Chris E 2 1 1))) + ((Chris E 2 1 1) * (Chris E 2 2 2)).

(* /repo/Src/Main/Modules/Maths/Diff_Geom/dg_Ricci_3d.c:170-176 *)
Definition Ric3_D1D2 (E : env) : R :=
  ((((((((Chris E 0 0 0) * (Chris E 0 1 2)) + ((Chris E 0 0 1) * (Chris E 1 1 2))) + ((Chris E 0
  0 2) * (Chris E 2 1 2))) + ((Chris E 0 1 2) * (Chris E 1 0 1))) + ((Chris E 0 1 2) * (Chris E 2
  0 2))) + ((Chris E 1 1 1) * (Chris E 1 1 2))) + ((2 * (Chris E 1 1 2)) * (Chris E 2 1 2))) +
  ((Chris E 2 1 2) * (Chris E 2 2 2)).

(* /repo/Src/Main/Modules/Maths/Diff_Geom/dg_Ricci_3d.c:178-184 *)
Definition Ric3_D0D1 (E : env) : R :=
  ((((((((Chris E 0 0 0) * (Chris E 0 0 1)) + ((2 * (Chris E 0 0 1)) * (Chris E 1 0 1))) +
  ((Chris E 0 0 1) * (Chris E 2 0 2))) + ((Chris E 0 0 2) * (Chris E 2 0 1))) + ((Chris E 1 0 1)
  * (Chris E 1 1 1))) + ((Chris E 1 0 1) * (Chris E 2 1 2))) + ((Chris E 1 1 2) * (Chris E 2 0
  1))) + ((Chris E 2 0 1) * (Chris E 2 2 2)).

(* /repo/Src/Main/Modules/Maths/Diff_Geom/dg_Ricci_3d.c:186-192 *)
Definition Ric3_D0D0 (E : env) : R :=
  (((((((((Chris E 0 0 0) ^ 2) + ((Chris E 0 0 0) * (Chris E 1 0 1))) + ((Chris E 0 0 0) * (Chris
  E 2 0 2))) + ((Chris E 0 0 1) * (Chris E 1 0 0))) + ((Chris E 0 0 2) * (Chris E 2 0 0))) +
  ((Chris E 1 0 0) * (Chris E 1 1 1))) + ((Chris E 1 0 0) * (Chris E 2 1 2))) + ((Chris E 1 1 2)
  * (Chris E 2 0 0))) + ((Chris E 2 0 0) * (Chris E 2 2 2)).

(* /repo/Src/Main/Modules/Maths/Diff_Geom/dg_Ricci_3d.c:194-200 *)
Definition Ric3_D0D2 (E : env) : R :=
  ((((((((Chris E 0 0 0) * (Chris E 0 0 2)) + ((Chris E 0 0 1) * (Chris E 1 0 2))) + ((Chris E 0
  0 2) * (Chris E 1 0 1))) + ((2 * (Chris E 0 0 2)) * (Chris E 2 0 2))) + ((Chris E 1 0 2) *
  (Chris E 1 1 1))) + ((Chris E 1 0 2) * (Chris E 2 1 2))) + ((Chris E 1 1 2) * (Chris E 2 0 2)))
  + ((Chris E 2 0 2) * (Chris E 2 2 2)).

(* /repo/Src/Main/Modules/Maths/Diff_Geom/dg_Ricci_3d.c:202-208 *)
Definition Ric3_D2D2 (E : env) : R :=
  (((((((((Chris E 0 0 0) * (Chris E 0 2 2)) + ((Chris E 0 0 1) * (Chris E 1 2 2))) + ((Chris E 0
  0 2) * (Chris E 2 2 2))) + ((Chris E 0 2 2) * (Chris E 1 0 1))) + ((Chris E 0 2 2) * (Chris E 2
  0 2))) + ((Chris E 1 1 1) * (Chris E 1 2 2))) + ((Chris E 1 1 2) * (Chris E 2 2 2))) + ((Chris
  E 1 2 2) * (Chris E 2 1 2))) + ((Chris E 2 2 2) ^ 2).

(* /repo/Src/Main/Modules/Maths/Diff_Geom/dg_Ricci_3d.c:210-213 *)
Definition Ric4_D0D0 (E : env) : R :=
  (((((- ((Chris E 0 0 0) ^ 2)) - ((2 * (Chris E 0 0 1)) * (Chris E 1 0 0))) - ((2 * (Chris E 0 0
  2)) * (Chris E 2 0 0))) - ((Chris E 1 0 1) ^ 2)) - ((2 * (Chris E 1 0 2)) * (Chris E 2 0 1))) -
  ((Chris E 2 0 2) ^ 2).

(* /repo/Src/Main/Modules/Maths/Diff_Geom/dg_Ricci_3d.c:215-221 *)
Definition Ric4_D0D1 (E : env) : R :=
  (((((((((- (Chris E 0 0 0)) * (Chris E 0 0 1)) - ((Chris E 0 0 1) * (Chris E 1 0 1))) - ((Chris
  E 0 0 2) * (Chris E 2 0 1))) - ((Chris E 0 1 1) * (Chris E 1 0 0))) - ((Chris E 0 1 2) * (Chris
  E 2 0 0))) - ((Chris E 1 0 1) * (Chris E 1 1 1))) - ((Chris E 1 0 2) * (Chris E 2 1 1))) -
  ((Chris E 1 1 2) * (Chris E 2 0 1))) - ((Chris E 2 0 2) * (Chris E 2 1 2)).

(* /repo/Src/Main/Modules/Maths/Diff_Geom/dg_Ricci_3d.c:223-229 *)
Definition Ric4_D0D2 (E : env) : R :=
  (((((((((- (Chris E 0 0 0)) * (Chris E 0 0 2)) - ((Chris E 0 0 1) * (Chris E 1 0 2))) - ((Chris
  E 0 0 2) * (Chris E 2 0 2))) - ((Chris E 0 1 2) * (Chris E 1 0 0))) - ((Chris E 0 2 2) * (Chris
  E 2 0 0))) - ((Chris E 1 0 1) * (Chris E 1 1 2))) - ((Chris E 1 0 2) * (Chris E 2 1 2))) -
  ((Chris E 1 2 2) * (Chris E 2 0 1))) - ((Chris E 2 0 2) * (Chris E 2 2 2)).

(* /repo/Src/Main/Modules/Maths/Diff_Geom/dg_Ricci_3d.c:231-234 *)
Definition Ric4_D1D1 (E : env) : R :=
  (((((- ((Chris E 0 0 1) ^ 2)) - ((2 * (Chris E 0 1 1)) * (Chris E 1 0 1))) - ((2 * (Chris E 0 1
  2)) * (Chris E 2 0 1))) - ((Chris E 1 1 1) ^ 2)) - ((2 * (Chris E 1 1 2)) * (Chris E 2 1 1))) -
  ((Chris E 2 1 2) ^ 2).

(* /repo/Src/Main/Modules/Maths/Diff_Geom/dg_Ricci_3d.c:236-242 *)
Definition Ric4_D1D2 (E : env) : R :=
  (((((((((- (Chris E 0 0 1)) * (Chris E 0 0 2)) - ((Chris E 0 1 1) * (Chris E 1 0 2))) - ((Chris
  E 0 1 2) * (Chris E 1 0 1))) - ((Chris E 0 1 2) * (Chris E 2 0 2))) - ((Chris E 0 2 2) * (Chris
  E 2 0 1))) - ((Chris E 1 1 1) * (Chris E 1 1 2))) - ((Chris E 1 1 2) * (Chris E 2 1 2))) -
  ((Chris E 1 2 2) * (Chris E 2 1 1))) - ((Chris E 2 1 2) * (Chris E 2 2 2)).

(* /repo/Src/Main/Modules/Maths/Diff_Geom/dg_Ricci_3d.c:244-247 *)
Definition Ric4_D2D2 (E : env) : R :=
  (((((- ((Chris E 0 0 2) ^ 2)) - ((2 * (Chris E 0 1 2)) * (Chris E 1 0 2))) - ((2 * (Chris E 0 2
  2)) * (Chris E 2 0 2))) - ((Chris E 1 1 2) ^ 2)) - ((2 * (Chris E 1 2 2)) * (Chris E 2 1 2))) -
  ((Chris E 2 2 2) ^ 2).

(* /repo/Src/Main/Modules/Maths/Diff_Geom/dg_Ricci_3d.c:249-250 *)
Definition Ric_D1D1 (E : env) : R :=
  (((Ric1_D1D1 E) + (Ric2_D1D1 E)) + (Ric3_D1D1 E)) + (Ric4_D1D1 E).

(* /repo/Src/Main/Modules/Maths/Diff_Geom/dg_Ricci_3d.c:252-253 *)
Definition Ric_D1D2 (E : env) : R :=
  (((Ric1_D1D2 E) + (Ric2_D1D2 E)) + (Ric3_D1D2 E)) + (Ric4_D1D2 E).

(* /repo/Src/Main/Modules/Maths/Diff_Geom/dg_Ricci_3d.c:255-256 *)
Definition Ric_D2D2 (E : env) : R :=
  (((Ric1_D2D2 E) + (Ric2_D2D2 E)) + (Ric3_D2D2 E)) + (Ric4_D2D2 E).

(* /repo/Src/Main/Modules/Maths/Diff_Geom/dg_Ricci_3d.c:258-259 *)
Definition Ric_D0D1 (E : env) : R :=
  (((Ric1_D0D1 E) + (Ric2_D0D1 E)) + (Ric3_D0D1 E)) + (Ric4_D0D1 E).

(* /repo/Src/Main/Modules/Maths/Diff_Geom/dg_Ricci_3d.c:261-262 *)
Definition Ric_D0D0 (E : env) : R :=
  (((Ric1_D0D0 E) + (Ric2_D0D0 E)) + (Ric3_D0D0 E)) + (Ric4_D0D0 E).

(* /repo/Src/Main/Modules/Maths/Diff_Geom/dg_Ricci_3d.c:264-265 *)
Definition Ric_D0D2 (E : env) : R :=
  (((Ric1_D0D2 E) + (Ric2_D0D2 E)) + (Ric3_D0D2 E)) + (Ric4_D0D2 E).

(* /repo/Src/Main/Modules/Maths/Diff_Geom/dg_Ricci_3d.c:267-270 *)
Definition R_ (E : env) : R :=
  ((((((Ric_D0D0 E) * (ig E 0 0)) + ((2 * (Ric_D0D1 E)) * (ig E 0 1))) + ((2 * (Ric_D0D2 E)) *
  (ig E 0 2))) + ((Ric_D1D1 E) * (ig E 1 1))) + ((2 * (Ric_D1D2 E)) * (ig E 1 2))) + ((Ric_D2D2
  E) * (ig E 2 2)).

(* /repo/Src/Main/Modules/Maths/Diff_Geom/dg_Ricci_3d.c:272 *)
Definition out_trR (E : env) : R :=
  R_ E.

(* /repo/Src/Main/Modules/Maths/Diff_Geom/dg_Ricci_3d.c:275 *)
Definition out_Ricci_D0D2 (E : env) : R :=
  Ric_D0D2 E.

(* /repo/Src/Main/Modules/Maths/Diff_Geom/dg_Ricci_3d.c:276 *)
Definition out_Ricci_D0D1 (E : env) : R :=
  Ric_D0D1 E.

(* /repo/Src/Main/Modules/Maths/Diff_Geom/dg_Ricci_3d.c:277 *)
Definition out_Ricci_D0D0 (E : env) : R :=
  Ric_D0D0 E.

(* /repo/Src/Main/Modules/Maths/Diff_Geom/dg_Ricci_3d.c:278 *)
Definition out_Ricci_D1D2 (E : env) : R :=
  Ric_D1D2 E.

(* /repo/Src/Main/Modules/Maths/Diff_Geom/dg_Ricci_3d.c:279 *)
Definition out_Ricci_D1D1 (E : env) : R :=
  Ric_D1D1 E.

(* /repo/Src/Main/Modules/Maths/Diff_Geom/dg_Ricci_3d.c:280 *)
Definition out_Ricci_D2D2 (E : env) : R :=
  Ric_D2D2 E.

(* /repo/Src/Main/Modules/Maths/Diff_Geom/dg_Ricci_3d.c:275-280: the arrays Ricci_.. after the loop body; the others keep their value *)
Definition store_Ricci (E : env) (old : nat -> nat -> R) : nat -> nat -> R :=
  fun i j => match i, j with
  | 0%nat, 2%nat => out_Ricci_D0D2 E
  | 0%nat, 1%nat => out_Ricci_D0D1 E
  | 0%nat, 0%nat => out_Ricci_D0D0 E
  | 1%nat, 2%nat => out_Ricci_D1D2 E
  | 1%nat, 1%nat => out_Ricci_D1D1 E
  | 2%nat, 2%nat => out_Ricci_D2D2 E
  | _, _ => old i j
  end.
