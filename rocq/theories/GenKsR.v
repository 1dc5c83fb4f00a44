(* Generated by tools/ks2coq.py from fd_KerrSchild_R_X_Y_Z.c: do not edit. *)
From Coq Require Import Reals.
Require Import Verif.GenKsX.
Local Open Scope R_scope.

(* /repo/Src/Main/Modules/Physics/Free_Data/fd_KerrSchild_R_X_Y_Z.c:770-780 *)
Definition ks_R (P : kspar) (f : ksarg) : R :=
  (phs P) * (sqrt (((((- ((pa P) ^ 2)) + ((fX f) ^ 2)) + ((fY f) ^ 2)) + ((fZ f) ^ 2)) + (sqrt (((4 *
  ((pa P) ^ 2)) * ((fZ f) ^ 2)) + (((((- ((pa P) ^ 2)) + ((fX f) ^ 2)) + ((fY f) ^ 2)) + ((fZ f) ^
  2)) ^ 2))))).

(* /repo/Src/Main/Modules/Physics/Free_Data/fd_KerrSchild_R_X_Y_Z.c:781-799 *)
Definition ks_dR_D0 (P : kspar) (f : ksarg) : R :=
  ((phs P) * (((((1 * (fdX0 f)) * (fX f)) + ((1 * (fdY0 f)) * (fY f))) + ((1 * (fdZ0 f)) * (fZ f))) +
  (((1/2) * ((((4 * (fdZ0 f)) * ((pa P) ^ 2)) * (fZ f)) + ((2 * ((((fdX0 f) * (fX f)) + ((fdY0 f) *
  (fY f))) + ((fdZ0 f) * (fZ f)))) * (((((- 1) * ((pa P) ^ 2)) + ((fX f) ^ 2)) + ((fY f) ^ 2)) + ((fZ
  f) ^ 2))))) / (sqrt (((4 * ((pa P) ^ 2)) * ((fZ f) ^ 2)) + (((((- ((pa P) ^ 2)) + ((fX f) ^ 2)) +
  ((fY f) ^ 2)) + ((fZ f) ^ 2)) ^ 2)))))) / (sqrt (((((- ((pa P) ^ 2)) + ((fX f) ^ 2)) + ((fY f) ^
  2)) + ((fZ f) ^ 2)) + (sqrt (((4 * ((pa P) ^ 2)) * ((fZ f) ^ 2)) + (((((- ((pa P) ^ 2)) + ((fX f) ^
  2)) + ((fY f) ^ 2)) + ((fZ f) ^ 2)) ^ 2))))).

(* /repo/Src/Main/Modules/Physics/Free_Data/fd_KerrSchild_R_X_Y_Z.c:800-818 *)
Definition ks_dR_D1 (P : kspar) (f : ksarg) : R :=
  ((phs P) * (((((1 * (fdX1 f)) * (fX f)) + ((1 * (fdY1 f)) * (fY f))) + ((1 * (fdZ1 f)) * (fZ f))) +
  (((1/2) * ((((4 * (fdZ1 f)) * ((pa P) ^ 2)) * (fZ f)) + ((2 * ((((fdX1 f) * (fX f)) + ((fdY1 f) *
  (fY f))) + ((fdZ1 f) * (fZ f)))) * (((((- 1) * ((pa P) ^ 2)) + ((fX f) ^ 2)) + ((fY f) ^ 2)) + ((fZ
  f) ^ 2))))) / (sqrt (((4 * ((pa P) ^ 2)) * ((fZ f) ^ 2)) + (((((- ((pa P) ^ 2)) + ((fX f) ^ 2)) +
  ((fY f) ^ 2)) + ((fZ f) ^ 2)) ^ 2)))))) / (sqrt (((((- ((pa P) ^ 2)) + ((fX f) ^ 2)) + ((fY f) ^
  2)) + ((fZ f) ^ 2)) + (sqrt (((4 * ((pa P) ^ 2)) * ((fZ f) ^ 2)) + (((((- ((pa P) ^ 2)) + ((fX f) ^
  2)) + ((fY f) ^ 2)) + ((fZ f) ^ 2)) ^ 2))))).

(* /repo/Src/Main/Modules/Physics/Free_Data/fd_KerrSchild_R_X_Y_Z.c:819-837 *)
Definition ks_dR_D2 (P : kspar) (f : ksarg) : R :=
  ((phs P) * (((((1 * (fdX2 f)) * (fX f)) + ((1 * (fdY2 f)) * (fY f))) + ((1 * (fdZ2 f)) * (fZ f))) +
  (((1/2) * ((((4 * (fdZ2 f)) * ((pa P) ^ 2)) * (fZ f)) + ((2 * ((((fdX2 f) * (fX f)) + ((fdY2 f) *
  (fY f))) + ((fdZ2 f) * (fZ f)))) * (((((- 1) * ((pa P) ^ 2)) + ((fX f) ^ 2)) + ((fY f) ^ 2)) + ((fZ
  f) ^ 2))))) / (sqrt (((4 * ((pa P) ^ 2)) * ((fZ f) ^ 2)) + (((((- ((pa P) ^ 2)) + ((fX f) ^ 2)) +
  ((fY f) ^ 2)) + ((fZ f) ^ 2)) ^ 2)))))) / (sqrt (((((- ((pa P) ^ 2)) + ((fX f) ^ 2)) + ((fY f) ^
  2)) + ((fZ f) ^ 2)) + (sqrt (((4 * ((pa P) ^ 2)) * ((fZ f) ^ 2)) + (((((- ((pa P) ^ 2)) + ((fX f) ^
  2)) + ((fY f) ^ 2)) + ((fZ f) ^ 2)) ^ 2))))).

(* /repo/Src/Main/Modules/Physics/Free_Data/fd_KerrSchild_R_X_Y_Z.c:838-895 *)
Definition ks_ddR_D1D1 (P : kspar) (f : ksarg) : R :=
  (((phs P) * ((((((((1 * ((fdX1 f) ^ 2)) + (1 * ((fdY1 f) ^ 2))) + (1 * ((fdZ1 f) ^ 2))) + ((1 *
  (ks_ddX_D1D1 P f)) * (fX f))) + ((1 * (ks_ddY_D1D1 P f)) * (fY f))) + ((1 * (ks_ddZ_D1D1 P f)) *
  (fZ f))) - ((2 * ((((((fdZ1 f) * (fZ f)) * (((((- 1) * ((pa P) ^ 2)) - (1 * ((fX f) ^ 2))) - (1 *
  ((fY f) ^ 2))) - (1 * ((fZ f) ^ 2)))) + (((fdX1 f) * (fX f)) * ((((1 * ((pa P) ^ 2)) - (1 * ((fX f)
  ^ 2))) - (1 * ((fY f) ^ 2))) - (1 * ((fZ f) ^ 2))))) + (((fdY1 f) * (fY f)) * ((((1 * ((pa P) ^ 2))
  - (1 * ((fX f) ^ 2))) - (1 * ((fY f) ^ 2))) - (1 * ((fZ f) ^ 2))))) ^ 2)) / ((sqrt (((4 * ((pa P) ^
  2)) * ((fZ f) ^ 2)) + (((((- ((pa P) ^ 2)) + ((fX f) ^ 2)) + ((fY f) ^ 2)) + ((fZ f) ^ 2)) ^ 2))) ^
  3))) + (((1/2) * (((((4 * ((fdZ1 f) ^ 2)) * ((pa P) ^ 2)) + (((4 * (ks_ddZ_D1D1 P f)) * ((pa P) ^
  2)) * (fZ f))) + (4 * (((((1 * (fdX1 f)) * (fX f)) + ((1 * (fdY1 f)) * (fY f))) + ((1 * (fdZ1 f)) *
  (fZ f))) ^ 2))) + (((((((2 * ((fdX1 f) ^ 2)) + (2 * ((fdY1 f) ^ 2))) + (2 * ((fdZ1 f) ^ 2))) + ((2
  * (ks_ddX_D1D1 P f)) * (fX f))) + ((2 * (ks_ddY_D1D1 P f)) * (fY f))) + ((2 * (ks_ddZ_D1D1 P f)) *
  (fZ f))) * ((((- ((pa P) ^ 2)) + ((fX f) ^ 2)) + ((fY f) ^ 2)) + ((fZ f) ^ 2))))) / (sqrt (((4 *
  ((pa P) ^ 2)) * ((fZ f) ^ 2)) + (((((- ((pa P) ^ 2)) + ((fX f) ^ 2)) + ((fY f) ^ 2)) + ((fZ f) ^
  2)) ^ 2)))))) / (sqrt (((((- ((pa P) ^ 2)) + ((fX f) ^ 2)) + ((fY f) ^ 2)) + ((fZ f) ^ 2)) + (sqrt
  (((4 * ((pa P) ^ 2)) * ((fZ f) ^ 2)) + (((((- ((pa P) ^ 2)) + ((fX f) ^ 2)) + ((fY f) ^ 2)) + ((fZ
  f) ^ 2)) ^ 2)))))) + ((((phs P) * ((((((- 1) * (fdX1 f)) * (fX f)) - ((1 * (fdY1 f)) * (fY f))) -
  ((1 * (fdZ1 f)) * (fZ f))) - (((1/2) * ((((4 * (fdZ1 f)) * ((pa P) ^ 2)) * (fZ f)) + ((2 * ((((fdX1
  f) * (fX f)) + ((fdY1 f) * (fY f))) + ((fdZ1 f) * (fZ f)))) * (((((- 1) * ((pa P) ^ 2)) + ((fX f) ^
  2)) + ((fY f) ^ 2)) + ((fZ f) ^ 2))))) / (sqrt (((4 * ((pa P) ^ 2)) * ((fZ f) ^ 2)) + (((((- ((pa
  P) ^ 2)) + ((fX f) ^ 2)) + ((fY f) ^ 2)) + ((fZ f) ^ 2)) ^ 2)))))) * (((((1 * (fdX1 f)) * (fX f)) +
  ((1 * (fdY1 f)) * (fY f))) + ((1 * (fdZ1 f)) * (fZ f))) + (((1/2) * ((((4 * (fdZ1 f)) * ((pa P) ^
  2)) * (fZ f)) + ((2 * ((((fdX1 f) * (fX f)) + ((fdY1 f) * (fY f))) + ((fdZ1 f) * (fZ f)))) * (((((-
  1) * ((pa P) ^ 2)) + ((fX f) ^ 2)) + ((fY f) ^ 2)) + ((fZ f) ^ 2))))) / (sqrt (((4 * ((pa P) ^ 2))
  * ((fZ f) ^ 2)) + (((((- ((pa P) ^ 2)) + ((fX f) ^ 2)) + ((fY f) ^ 2)) + ((fZ f) ^ 2)) ^ 2)))))) /
  ((sqrt (((((- ((pa P) ^ 2)) + ((fX f) ^ 2)) + ((fY f) ^ 2)) + ((fZ f) ^ 2)) + (sqrt (((4 * ((pa P)
  ^ 2)) * ((fZ f) ^ 2)) + (((((- ((pa P) ^ 2)) + ((fX f) ^ 2)) + ((fY f) ^ 2)) + ((fZ f) ^ 2)) ^
  2))))) ^ 3)).

(* /repo/Src/Main/Modules/Physics/Free_Data/fd_KerrSchild_R_X_Y_Z.c:896-957 *)
Definition ks_ddR_D1D2 (P : kspar) (f : ksarg) : R :=
  (((phs P) * (((((((((1 * (fdX1 f)) * (fdX2 f)) + ((1 * (fdY1 f)) * (fdY2 f))) + ((1 * (fdZ1 f)) *
  (fdZ2 f))) + ((1 * (ks_ddX_D1D2 P f)) * (fX f))) + ((1 * (ks_ddY_D1D2 P f)) * (fY f))) + ((1 *
  (ks_ddZ_D1D2 P f)) * (fZ f))) + (((1/2) * ((((((4 * (fdZ1 f)) * (fdZ2 f)) * ((pa P) ^ 2)) + (((4 *
  (ks_ddZ_D1D2 P f)) * ((pa P) ^ 2)) * (fZ f))) + ((4 * ((((1 * (fdX1 f)) * (fX f)) + ((1 * (fdY1 f))
  * (fY f))) + ((1 * (fdZ1 f)) * (fZ f)))) * ((((fdX2 f) * (fX f)) + ((fdY2 f) * (fY f))) + ((fdZ2 f)
  * (fZ f))))) + ((((((((2 * (fdX1 f)) * (fdX2 f)) + ((2 * (fdY1 f)) * (fdY2 f))) + ((2 * (fdZ1 f)) *
  (fdZ2 f))) + ((2 * (ks_ddX_D1D2 P f)) * (fX f))) + ((2 * (ks_ddY_D1D2 P f)) * (fY f))) + ((2 *
  (ks_ddZ_D1D2 P f)) * (fZ f))) * ((((- ((pa P) ^ 2)) + ((fX f) ^ 2)) + ((fY f) ^ 2)) + ((fZ f) ^
  2))))) / (sqrt (((4 * ((pa P) ^ 2)) * ((fZ f) ^ 2)) + (((((- ((pa P) ^ 2)) + ((fX f) ^ 2)) + ((fY
  f) ^ 2)) + ((fZ f) ^ 2)) ^ 2))))) + ((((1/2) * ((((4 * (fdZ1 f)) * ((pa P) ^ 2)) * (fZ f)) + ((2 *
  ((((fdX1 f) * (fX f)) + ((fdY1 f) * (fY f))) + ((fdZ1 f) * (fZ f)))) * (((((- 1) * ((pa P) ^ 2)) +
  ((fX f) ^ 2)) + ((fY f) ^ 2)) + ((fZ f) ^ 2))))) * (((((- 4) * (fdZ2 f)) * ((pa P) ^ 2)) * (fZ f))
  - ((2 * ((((fdX2 f) * (fX f)) + ((fdY2 f) * (fY f))) + ((fdZ2 f) * (fZ f)))) * (((((- 1) * ((pa P)
  ^ 2)) + ((fX f) ^ 2)) + ((fY f) ^ 2)) + ((fZ f) ^ 2))))) / ((sqrt (((4 * ((pa P) ^ 2)) * ((fZ f) ^
  2)) + (((((- ((pa P) ^ 2)) + ((fX f) ^ 2)) + ((fY f) ^ 2)) + ((fZ f) ^ 2)) ^ 2))) ^ 3)))) / (sqrt
  (((((- ((pa P) ^ 2)) + ((fX f) ^ 2)) + ((fY f) ^ 2)) + ((fZ f) ^ 2)) + (sqrt (((4 * ((pa P) ^ 2)) *
  ((fZ f) ^ 2)) + (((((- ((pa P) ^ 2)) + ((fX f) ^ 2)) + ((fY f) ^ 2)) + ((fZ f) ^ 2)) ^ 2)))))) +
  ((((phs P) * (((((1 * (fdX1 f)) * (fX f)) + ((1 * (fdY1 f)) * (fY f))) + ((1 * (fdZ1 f)) * (fZ f)))
  + (((1/2) * ((((4 * (fdZ1 f)) * ((pa P) ^ 2)) * (fZ f)) + ((2 * ((((fdX1 f) * (fX f)) + ((fdY1 f) *
  (fY f))) + ((fdZ1 f) * (fZ f)))) * (((((- 1) * ((pa P) ^ 2)) + ((fX f) ^ 2)) + ((fY f) ^ 2)) + ((fZ
  f) ^ 2))))) / (sqrt (((4 * ((pa P) ^ 2)) * ((fZ f) ^ 2)) + (((((- ((pa P) ^ 2)) + ((fX f) ^ 2)) +
  ((fY f) ^ 2)) + ((fZ f) ^ 2)) ^ 2)))))) * ((((((- 1) * (fdX2 f)) * (fX f)) - ((1 * (fdY2 f)) * (fY
  f))) - ((1 * (fdZ2 f)) * (fZ f))) - (((1/2) * ((((4 * (fdZ2 f)) * ((pa P) ^ 2)) * (fZ f)) + ((2 *
  ((((fdX2 f) * (fX f)) + ((fdY2 f) * (fY f))) + ((fdZ2 f) * (fZ f)))) * (((((- 1) * ((pa P) ^ 2)) +
  ((fX f) ^ 2)) + ((fY f) ^ 2)) + ((fZ f) ^ 2))))) / (sqrt (((4 * ((pa P) ^ 2)) * ((fZ f) ^ 2)) +
  (((((- ((pa P) ^ 2)) + ((fX f) ^ 2)) + ((fY f) ^ 2)) + ((fZ f) ^ 2)) ^ 2)))))) / ((sqrt (((((- ((pa
  P) ^ 2)) + ((fX f) ^ 2)) + ((fY f) ^ 2)) + ((fZ f) ^ 2)) + (sqrt (((4 * ((pa P) ^ 2)) * ((fZ f) ^
  2)) + (((((- ((pa P) ^ 2)) + ((fX f) ^ 2)) + ((fY f) ^ 2)) + ((fZ f) ^ 2)) ^ 2))))) ^ 3)).

(* /repo/Src/Main/Modules/Physics/Free_Data/fd_KerrSchild_R_X_Y_Z.c:958-1015 *)
Definition ks_ddR_D2D2 (P : kspar) (f : ksarg) : R :=
  (((phs P) * ((((((((1 * ((fdX2 f) ^ 2)) + (1 * ((fdY2 f) ^ 2))) + (1 * ((fdZ2 f) ^ 2))) + ((1 *
  (ks_ddX_D2D2 P f)) * (fX f))) + ((1 * (ks_ddY_D2D2 P f)) * (fY f))) + ((1 * (ks_ddZ_D2D2 P f)) *
  (fZ f))) - ((2 * ((((((fdZ2 f) * (fZ f)) * (((((- 1) * ((pa P) ^ 2)) - (1 * ((fX f) ^ 2))) - (1 *
  ((fY f) ^ 2))) - (1 * ((fZ f) ^ 2)))) + (((fdX2 f) * (fX f)) * ((((1 * ((pa P) ^ 2)) - (1 * ((fX f)
  ^ 2))) - (1 * ((fY f) ^ 2))) - (1 * ((fZ f) ^ 2))))) + (((fdY2 f) * (fY f)) * ((((1 * ((pa P) ^ 2))
  - (1 * ((fX f) ^ 2))) - (1 * ((fY f) ^ 2))) - (1 * ((fZ f) ^ 2))))) ^ 2)) / ((sqrt (((4 * ((pa P) ^
  2)) * ((fZ f) ^ 2)) + (((((- ((pa P) ^ 2)) + ((fX f) ^ 2)) + ((fY f) ^ 2)) + ((fZ f) ^ 2)) ^ 2))) ^
  3))) + (((1/2) * (((((4 * ((fdZ2 f) ^ 2)) * ((pa P) ^ 2)) + (((4 * (ks_ddZ_D2D2 P f)) * ((pa P) ^
  2)) * (fZ f))) + (4 * (((((1 * (fdX2 f)) * (fX f)) + ((1 * (fdY2 f)) * (fY f))) + ((1 * (fdZ2 f)) *
  (fZ f))) ^ 2))) + (((((((2 * ((fdX2 f) ^ 2)) + (2 * ((fdY2 f) ^ 2))) + (2 * ((fdZ2 f) ^ 2))) + ((2
  * (ks_ddX_D2D2 P f)) * (fX f))) + ((2 * (ks_ddY_D2D2 P f)) * (fY f))) + ((2 * (ks_ddZ_D2D2 P f)) *
  (fZ f))) * ((((- ((pa P) ^ 2)) + ((fX f) ^ 2)) + ((fY f) ^ 2)) + ((fZ f) ^ 2))))) / (sqrt (((4 *
  ((pa P) ^ 2)) * ((fZ f) ^ 2)) + (((((- ((pa P) ^ 2)) + ((fX f) ^ 2)) + ((fY f) ^ 2)) + ((fZ f) ^
  2)) ^ 2)))))) / (sqrt (((((- ((pa P) ^ 2)) + ((fX f) ^ 2)) + ((fY f) ^ 2)) + ((fZ f) ^ 2)) + (sqrt
  (((4 * ((pa P) ^ 2)) * ((fZ f) ^ 2)) + (((((- ((pa P) ^ 2)) + ((fX f) ^ 2)) + ((fY f) ^ 2)) + ((fZ
  f) ^ 2)) ^ 2)))))) + ((((phs P) * ((((((- 1) * (fdX2 f)) * (fX f)) - ((1 * (fdY2 f)) * (fY f))) -
  ((1 * (fdZ2 f)) * (fZ f))) - (((1/2) * ((((4 * (fdZ2 f)) * ((pa P) ^ 2)) * (fZ f)) + ((2 * ((((fdX2
  f) * (fX f)) + ((fdY2 f) * (fY f))) + ((fdZ2 f) * (fZ f)))) * (((((- 1) * ((pa P) ^ 2)) + ((fX f) ^
  2)) + ((fY f) ^ 2)) + ((fZ f) ^ 2))))) / (sqrt (((4 * ((pa P) ^ 2)) * ((fZ f) ^ 2)) + (((((- ((pa
  P) ^ 2)) + ((fX f) ^ 2)) + ((fY f) ^ 2)) + ((fZ f) ^ 2)) ^ 2)))))) * (((((1 * (fdX2 f)) * (fX f)) +
  ((1 * (fdY2 f)) * (fY f))) + ((1 * (fdZ2 f)) * (fZ f))) + (((1/2) * ((((4 * (fdZ2 f)) * ((pa P) ^
  2)) * (fZ f)) + ((2 * ((((fdX2 f) * (fX f)) + ((fdY2 f) * (fY f))) + ((fdZ2 f) * (fZ f)))) * (((((-
  1) * ((pa P) ^ 2)) + ((fX f) ^ 2)) + ((fY f) ^ 2)) + ((fZ f) ^ 2))))) / (sqrt (((4 * ((pa P) ^ 2))
  * ((fZ f) ^ 2)) + (((((- ((pa P) ^ 2)) + ((fX f) ^ 2)) + ((fY f) ^ 2)) + ((fZ f) ^ 2)) ^ 2)))))) /
  ((sqrt (((((- ((pa P) ^ 2)) + ((fX f) ^ 2)) + ((fY f) ^ 2)) + ((fZ f) ^ 2)) + (sqrt (((4 * ((pa P)
  ^ 2)) * ((fZ f) ^ 2)) + (((((- ((pa P) ^ 2)) + ((fX f) ^ 2)) + ((fY f) ^ 2)) + ((fZ f) ^ 2)) ^
  2))))) ^ 3)).

(* /repo/Src/Main/Modules/Physics/Free_Data/fd_KerrSchild_R_X_Y_Z.c:1016-1077 *)
Definition ks_ddR_D0D1 (P : kspar) (f : ksarg) : R :=
  (((phs P) * (((((((((1 * (fdX0 f)) * (fdX1 f)) + ((1 * (fdY0 f)) * (fdY1 f))) + ((1 * (fdZ0 f)) *
  (fdZ1 f))) + ((1 * (ks_ddX_D0D1 P f)) * (fX f))) + ((1 * (ks_ddY_D0D1 P f)) * (fY f))) + ((1 *
  (ks_ddZ_D0D1 P f)) * (fZ f))) + (((1/2) * ((((((4 * (fdZ0 f)) * (fdZ1 f)) * ((pa P) ^ 2)) + (((4 *
  (ks_ddZ_D0D1 P f)) * ((pa P) ^ 2)) * (fZ f))) + ((4 * ((((1 * (fdX0 f)) * (fX f)) + ((1 * (fdY0 f))
  * (fY f))) + ((1 * (fdZ0 f)) * (fZ f)))) * ((((fdX1 f) * (fX f)) + ((fdY1 f) * (fY f))) + ((fdZ1 f)
  * (fZ f))))) + ((((((((2 * (fdX0 f)) * (fdX1 f)) + ((2 * (fdY0 f)) * (fdY1 f))) + ((2 * (fdZ0 f)) *
  (fdZ1 f))) + ((2 * (ks_ddX_D0D1 P f)) * (fX f))) + ((2 * (ks_ddY_D0D1 P f)) * (fY f))) + ((2 *
  (ks_ddZ_D0D1 P f)) * (fZ f))) * ((((- ((pa P) ^ 2)) + ((fX f) ^ 2)) + ((fY f) ^ 2)) + ((fZ f) ^
  2))))) / (sqrt (((4 * ((pa P) ^ 2)) * ((fZ f) ^ 2)) + (((((- ((pa P) ^ 2)) + ((fX f) ^ 2)) + ((fY
  f) ^ 2)) + ((fZ f) ^ 2)) ^ 2))))) + ((((1/2) * ((((4 * (fdZ0 f)) * ((pa P) ^ 2)) * (fZ f)) + ((2 *
  ((((fdX0 f) * (fX f)) + ((fdY0 f) * (fY f))) + ((fdZ0 f) * (fZ f)))) * (((((- 1) * ((pa P) ^ 2)) +
  ((fX f) ^ 2)) + ((fY f) ^ 2)) + ((fZ f) ^ 2))))) * (((((- 4) * (fdZ1 f)) * ((pa P) ^ 2)) * (fZ f))
  - ((2 * ((((fdX1 f) * (fX f)) + ((fdY1 f) * (fY f))) + ((fdZ1 f) * (fZ f)))) * (((((- 1) * ((pa P)
  ^ 2)) + ((fX f) ^ 2)) + ((fY f) ^ 2)) + ((fZ f) ^ 2))))) / ((sqrt (((4 * ((pa P) ^ 2)) * ((fZ f) ^
  2)) + (((((- ((pa P) ^ 2)) + ((fX f) ^ 2)) + ((fY f) ^ 2)) + ((fZ f) ^ 2)) ^ 2))) ^ 3)))) / (sqrt
  (((((- ((pa P) ^ 2)) + ((fX f) ^ 2)) + ((fY f) ^ 2)) + ((fZ f) ^ 2)) + (sqrt (((4 * ((pa P) ^ 2)) *
  ((fZ f) ^ 2)) + (((((- ((pa P) ^ 2)) + ((fX f) ^ 2)) + ((fY f) ^ 2)) + ((fZ f) ^ 2)) ^ 2)))))) +
  ((((phs P) * (((((1 * (fdX0 f)) * (fX f)) + ((1 * (fdY0 f)) * (fY f))) + ((1 * (fdZ0 f)) * (fZ f)))
  + (((1/2) * ((((4 * (fdZ0 f)) * ((pa P) ^ 2)) * (fZ f)) + ((2 * ((((fdX0 f) * (fX f)) + ((fdY0 f) *
  (fY f))) + ((fdZ0 f) * (fZ f)))) * (((((- 1) * ((pa P) ^ 2)) + ((fX f) ^ 2)) + ((fY f) ^ 2)) + ((fZ
  f) ^ 2))))) / (sqrt (((4 * ((pa P) ^ 2)) * ((fZ f) ^ 2)) + (((((- ((pa P) ^ 2)) + ((fX f) ^ 2)) +
  ((fY f) ^ 2)) + ((fZ f) ^ 2)) ^ 2)))))) * ((((((- 1) * (fdX1 f)) * (fX f)) - ((1 * (fdY1 f)) * (fY
  f))) - ((1 * (fdZ1 f)) * (fZ f))) - (((1/2) * ((((4 * (fdZ1 f)) * ((pa P) ^ 2)) * (fZ f)) + ((2 *
  ((((fdX1 f) * (fX f)) + ((fdY1 f) * (fY f))) + ((fdZ1 f) * (fZ f)))) * (((((- 1) * ((pa P) ^ 2)) +
  ((fX f) ^ 2)) + ((fY f) ^ 2)) + ((fZ f) ^ 2))))) / (sqrt (((4 * ((pa P) ^ 2)) * ((fZ f) ^ 2)) +
  (((((- ((pa P) ^ 2)) + ((fX f) ^ 2)) + ((fY f) ^ 2)) + ((fZ f) ^ 2)) ^ 2)))))) / ((sqrt (((((- ((pa
  P) ^ 2)) + ((fX f) ^ 2)) + ((fY f) ^ 2)) + ((fZ f) ^ 2)) + (sqrt (((4 * ((pa P) ^ 2)) * ((fZ f) ^
  2)) + (((((- ((pa P) ^ 2)) + ((fX f) ^ 2)) + ((fY f) ^ 2)) + ((fZ f) ^ 2)) ^ 2))))) ^ 3)).

(* /repo/Src/Main/Modules/Physics/Free_Data/fd_KerrSchild_R_X_Y_Z.c:1078-1135 *)
Definition ks_ddR_D0D0 (P : kspar) (f : ksarg) : R :=
  (((phs P) * ((((((((1 * ((fdX0 f) ^ 2)) + (1 * ((fdY0 f) ^ 2))) + (1 * ((fdZ0 f) ^ 2))) + ((1 *
  (ks_ddX_D0D0 P f)) * (fX f))) + ((1 * (ks_ddY_D0D0 P f)) * (fY f))) + ((1 * (ks_ddZ_D0D0 P f)) *
  (fZ f))) - ((2 * ((((((fdZ0 f) * (fZ f)) * (((((- 1) * ((pa P) ^ 2)) - (1 * ((fX f) ^ 2))) - (1 *
  ((fY f) ^ 2))) - (1 * ((fZ f) ^ 2)))) + (((fdX0 f) * (fX f)) * ((((1 * ((pa P) ^ 2)) - (1 * ((fX f)
  ^ 2))) - (1 * ((fY f) ^ 2))) - (1 * ((fZ f) ^ 2))))) + (((fdY0 f) * (fY f)) * ((((1 * ((pa P) ^ 2))
  - (1 * ((fX f) ^ 2))) - (1 * ((fY f) ^ 2))) - (1 * ((fZ f) ^ 2))))) ^ 2)) / ((sqrt (((4 * ((pa P) ^
  2)) * ((fZ f) ^ 2)) + (((((- ((pa P) ^ 2)) + ((fX f) ^ 2)) + ((fY f) ^ 2)) + ((fZ f) ^ 2)) ^ 2))) ^
  3))) + (((1/2) * (((((4 * ((fdZ0 f) ^ 2)) * ((pa P) ^ 2)) + (((4 * (ks_ddZ_D0D0 P f)) * ((pa P) ^
  2)) * (fZ f))) + (4 * (((((1 * (fdX0 f)) * (fX f)) + ((1 * (fdY0 f)) * (fY f))) + ((1 * (fdZ0 f)) *
  (fZ f))) ^ 2))) + (((((((2 * ((fdX0 f) ^ 2)) + (2 * ((fdY0 f) ^ 2))) + (2 * ((fdZ0 f) ^ 2))) + ((2
  * (ks_ddX_D0D0 P f)) * (fX f))) + ((2 * (ks_ddY_D0D0 P f)) * (fY f))) + ((2 * (ks_ddZ_D0D0 P f)) *
  (fZ f))) * ((((- ((pa P) ^ 2)) + ((fX f) ^ 2)) + ((fY f) ^ 2)) + ((fZ f) ^ 2))))) / (sqrt (((4 *
  ((pa P) ^ 2)) * ((fZ f) ^ 2)) + (((((- ((pa P) ^ 2)) + ((fX f) ^ 2)) + ((fY f) ^ 2)) + ((fZ f) ^
  2)) ^ 2)))))) / (sqrt (((((- ((pa P) ^ 2)) + ((fX f) ^ 2)) + ((fY f) ^ 2)) + ((fZ f) ^ 2)) + (sqrt
  (((4 * ((pa P) ^ 2)) * ((fZ f) ^ 2)) + (((((- ((pa P) ^ 2)) + ((fX f) ^ 2)) + ((fY f) ^ 2)) + ((fZ
  f) ^ 2)) ^ 2)))))) + ((((phs P) * ((((((- 1) * (fdX0 f)) * (fX f)) - ((1 * (fdY0 f)) * (fY f))) -
  ((1 * (fdZ0 f)) * (fZ f))) - (((1/2) * ((((4 * (fdZ0 f)) * ((pa P) ^ 2)) * (fZ f)) + ((2 * ((((fdX0
  f) * (fX f)) + ((fdY0 f) * (fY f))) + ((fdZ0 f) * (fZ f)))) * (((((- 1) * ((pa P) ^ 2)) + ((fX f) ^
  2)) + ((fY f) ^ 2)) + ((fZ f) ^ 2))))) / (sqrt (((4 * ((pa P) ^ 2)) * ((fZ f) ^ 2)) + (((((- ((pa
  P) ^ 2)) + ((fX f) ^ 2)) + ((fY f) ^ 2)) + ((fZ f) ^ 2)) ^ 2)))))) * (((((1 * (fdX0 f)) * (fX f)) +
  ((1 * (fdY0 f)) * (fY f))) + ((1 * (fdZ0 f)) * (fZ f))) + (((1/2) * ((((4 * (fdZ0 f)) * ((pa P) ^
  2)) * (fZ f)) + ((2 * ((((fdX0 f) * (fX f)) + ((fdY0 f) * (fY f))) + ((fdZ0 f) * (fZ f)))) * (((((-
  1) * ((pa P) ^ 2)) + ((fX f) ^ 2)) + ((fY f) ^ 2)) + ((fZ f) ^ 2))))) / (sqrt (((4 * ((pa P) ^ 2))
  * ((fZ f) ^ 2)) + (((((- ((pa P) ^ 2)) + ((fX f) ^ 2)) + ((fY f) ^ 2)) + ((fZ f) ^ 2)) ^ 2)))))) /
  ((sqrt (((((- ((pa P) ^ 2)) + ((fX f) ^ 2)) + ((fY f) ^ 2)) + ((fZ f) ^ 2)) + (sqrt (((4 * ((pa P)
  ^ 2)) * ((fZ f) ^ 2)) + (((((- ((pa P) ^ 2)) + ((fX f) ^ 2)) + ((fY f) ^ 2)) + ((fZ f) ^ 2)) ^
  2))))) ^ 3)).

(* /repo/Src/Main/Modules/Physics/Free_Data/fd_KerrSchild_R_X_Y_Z.c:1136-1197 *)
Definition ks_ddR_D0D2 (P : kspar) (f : ksarg) : R :=
  (((phs P) * (((((((((1 * (fdX0 f)) * (fdX2 f)) + ((1 * (fdY0 f)) * (fdY2 f))) + ((1 * (fdZ0 f)) *
  (fdZ2 f))) + ((1 * (ks_ddX_D0D2 P f)) * (fX f))) + ((1 * (ks_ddY_D0D2 P f)) * (fY f))) + ((1 *
  (ks_ddZ_D0D2 P f)) * (fZ f))) + (((1/2) * ((((((4 * (fdZ0 f)) * (fdZ2 f)) * ((pa P) ^ 2)) + (((4 *
  (ks_ddZ_D0D2 P f)) * ((pa P) ^ 2)) * (fZ f))) + ((4 * ((((1 * (fdX0 f)) * (fX f)) + ((1 * (fdY0 f))
  * (fY f))) + ((1 * (fdZ0 f)) * (fZ f)))) * ((((fdX2 f) * (fX f)) + ((fdY2 f) * (fY f))) + ((fdZ2 f)
  * (fZ f))))) + ((((((((2 * (fdX0 f)) * (fdX2 f)) + ((2 * (fdY0 f)) * (fdY2 f))) + ((2 * (fdZ0 f)) *
  (fdZ2 f))) + ((2 * (ks_ddX_D0D2 P f)) * (fX f))) + ((2 * (ks_ddY_D0D2 P f)) * (fY f))) + ((2 *
  (ks_ddZ_D0D2 P f)) * (fZ f))) * ((((- ((pa P) ^ 2)) + ((fX f) ^ 2)) + ((fY f) ^ 2)) + ((fZ f) ^
  2))))) / (sqrt (((4 * ((pa P) ^ 2)) * ((fZ f) ^ 2)) + (((((- ((pa P) ^ 2)) + ((fX f) ^ 2)) + ((fY
  f) ^ 2)) + ((fZ f) ^ 2)) ^ 2))))) + ((((1/2) * ((((4 * (fdZ0 f)) * ((pa P) ^ 2)) * (fZ f)) + ((2 *
  ((((fdX0 f) * (fX f)) + ((fdY0 f) * (fY f))) + ((fdZ0 f) * (fZ f)))) * (((((- 1) * ((pa P) ^ 2)) +
  ((fX f) ^ 2)) + ((fY f) ^ 2)) + ((fZ f) ^ 2))))) * (((((- 4) * (fdZ2 f)) * ((pa P) ^ 2)) * (fZ f))
  - ((2 * ((((fdX2 f) * (fX f)) + ((fdY2 f) * (fY f))) + ((fdZ2 f) * (fZ f)))) * (((((- 1) * ((pa P)
  ^ 2)) + ((fX f) ^ 2)) + ((fY f) ^ 2)) + ((fZ f) ^ 2))))) / ((sqrt (((4 * ((pa P) ^ 2)) * ((fZ f) ^
  2)) + (((((- ((pa P) ^ 2)) + ((fX f) ^ 2)) + ((fY f) ^ 2)) + ((fZ f) ^ 2)) ^ 2))) ^ 3)))) / (sqrt
  (((((- ((pa P) ^ 2)) + ((fX f) ^ 2)) + ((fY f) ^ 2)) + ((fZ f) ^ 2)) + (sqrt (((4 * ((pa P) ^ 2)) *
  ((fZ f) ^ 2)) + (((((- ((pa P) ^ 2)) + ((fX f) ^ 2)) + ((fY f) ^ 2)) + ((fZ f) ^ 2)) ^ 2)))))) +
  ((((phs P) * (((((1 * (fdX0 f)) * (fX f)) + ((1 * (fdY0 f)) * (fY f))) + ((1 * (fdZ0 f)) * (fZ f)))
  + (((1/2) * ((((4 * (fdZ0 f)) * ((pa P) ^ 2)) * (fZ f)) + ((2 * ((((fdX0 f) * (fX f)) + ((fdY0 f) *
  (fY f))) + ((fdZ0 f) * (fZ f)))) * (((((- 1) * ((pa P) ^ 2)) + ((fX f) ^ 2)) + ((fY f) ^ 2)) + ((fZ
  f) ^ 2))))) / (sqrt (((4 * ((pa P) ^ 2)) * ((fZ f) ^ 2)) + (((((- ((pa P) ^ 2)) + ((fX f) ^ 2)) +
  ((fY f) ^ 2)) + ((fZ f) ^ 2)) ^ 2)))))) * ((((((- 1) * (fdX2 f)) * (fX f)) - ((1 * (fdY2 f)) * (fY
  f))) - ((1 * (fdZ2 f)) * (fZ f))) - (((1/2) * ((((4 * (fdZ2 f)) * ((pa P) ^ 2)) * (fZ f)) + ((2 *
  ((((fdX2 f) * (fX f)) + ((fdY2 f) * (fY f))) + ((fdZ2 f) * (fZ f)))) * (((((- 1) * ((pa P) ^ 2)) +
  ((fX f) ^ 2)) + ((fY f) ^ 2)) + ((fZ f) ^ 2))))) / (sqrt (((4 * ((pa P) ^ 2)) * ((fZ f) ^ 2)) +
  (((((- ((pa P) ^ 2)) + ((fX f) ^ 2)) + ((fY f) ^ 2)) + ((fZ f) ^ 2)) ^ 2)))))) / ((sqrt (((((- ((pa
  P) ^ 2)) + ((fX f) ^ 2)) + ((fY f) ^ 2)) + ((fZ f) ^ 2)) + (sqrt (((4 * ((pa P) ^ 2)) * ((fZ f) ^
  2)) + (((((- ((pa P) ^ 2)) + ((fX f) ^ 2)) + ((fY f) ^ 2)) + ((fZ f) ^ 2)) ^ 2))))) ^ 3)).

(* /repo/Src/Main/Modules/Physics/Free_Data/fd_KerrSchild_R_X_Y_Z.c:1198-1466 *)
Definition ks_dddR_D0D0D2 (P : kspar) (f : ksarg) : R :=
  ((((((phs P) * (((((((((((((((1 * (fdX2 f)) * (ks_ddX_D0D0 P f)) + ((1 * (fdY2 f)) * (ks_ddY_D0D0 P
  f))) + ((1 * (fdZ2 f)) * (ks_ddZ_D0D0 P f))) + ((2 * (fdX0 f)) * (ks_ddX_D0D2 P f))) + ((2 * (fdY0
  f)) * (ks_ddY_D0D2 P f))) + ((2 * (fdZ0 f)) * (ks_ddZ_D0D2 P f))) + ((1 * (ks_dddX_D0D0D2 P f)) *
  (fX f))) + ((1 * (ks_dddY_D0D0D2 P f)) * (fY f))) + ((1 * (ks_dddZ_D0D0D2 P f)) * (fZ f))) +
  (((1/2) * (((((((((4 * (fdZ2 f)) * (ks_ddZ_D0D0 P f)) * ((pa P) ^ 2)) + (((8 * (fdZ0 f)) *
  (ks_ddZ_D0D2 P f)) * ((pa P) ^ 2))) + (((4 * (ks_dddZ_D0D0D2 P f)) * ((pa P) ^ 2)) * (fZ f))) + ((4
  * ((((fdX2 f) * (fX f)) + ((fdY2 f) * (fY f))) + ((fdZ2 f) * (fZ f)))) * ((((((1 * ((fdX0 f) ^ 2))
  + (1 * ((fdY0 f) ^ 2))) + (1 * ((fdZ0 f) ^ 2))) + ((1 * (ks_ddX_D0D0 P f)) * (fX f))) + ((1 *
  (ks_ddY_D0D0 P f)) * (fY f))) + ((1 * (ks_ddZ_D0D0 P f)) * (fZ f))))) + ((4 * ((((1 * (fdX0 f)) *
  (fX f)) + ((1 * (fdY0 f)) * (fY f))) + ((1 * (fdZ0 f)) * (fZ f)))) * (((((((fdX0 f) * (fdX2 f)) +
  ((fdY0 f) * (fdY2 f))) + ((fdZ0 f) * (fdZ2 f))) + ((ks_ddX_D0D2 P f) * (fX f))) + ((ks_ddY_D0D2 P
  f) * (fY f))) + ((ks_ddZ_D0D2 P f) * (fZ f))))) + ((4 * ((((fdX0 f) * (fX f)) + ((fdY0 f) * (fY
  f))) + ((fdZ0 f) * (fZ f)))) * (((((((1 * (fdX0 f)) * (fdX2 f)) + ((1 * (fdY0 f)) * (fdY2 f))) +
  ((1 * (fdZ0 f)) * (fdZ2 f))) + ((1 * (ks_ddX_D0D2 P f)) * (fX f))) + ((1 * (ks_ddY_D0D2 P f)) * (fY
  f))) + ((1 * (ks_ddZ_D0D2 P f)) * (fZ f))))) + (((((((((((2 * (fdX2 f)) * (ks_ddX_D0D0 P f)) + ((2
  * (fdY2 f)) * (ks_ddY_D0D0 P f))) + ((2 * (fdZ2 f)) * (ks_ddZ_D0D0 P f))) + ((4 * (fdX0 f)) *
  (ks_ddX_D0D2 P f))) + ((4 * (fdY0 f)) * (ks_ddY_D0D2 P f))) + ((4 * (fdZ0 f)) * (ks_ddZ_D0D2 P f)))
  + ((2 * (ks_dddX_D0D0D2 P f)) * (fX f))) + ((2 * (ks_dddY_D0D0D2 P f)) * (fY f))) + ((2 *
  (ks_dddZ_D0D0D2 P f)) * (fZ f))) * ((((- ((pa P) ^ 2)) + ((fX f) ^ 2)) + ((fY f) ^ 2)) + ((fZ f) ^
  2))))) / (sqrt (((4 * ((pa P) ^ 2)) * ((fZ f) ^ 2)) + (((((- ((pa P) ^ 2)) + ((fX f) ^ 2)) + ((fY
  f) ^ 2)) + ((fZ f) ^ 2)) ^ 2))))) + ((((1/2) * ((((((4 * (fdZ0 f)) * (fdZ2 f)) * ((pa P) ^ 2)) +
  (((4 * (ks_ddZ_D0D2 P f)) * ((pa P) ^ 2)) * (fZ f))) + ((4 * ((((1 * (fdX0 f)) * (fX f)) + ((1 *
  (fdY0 f)) * (fY f))) + ((1 * (fdZ0 f)) * (fZ f)))) * ((((fdX2 f) * (fX f)) + ((fdY2 f) * (fY f))) +
  ((fdZ2 f) * (fZ f))))) + ((((((((2 * (fdX0 f)) * (fdX2 f)) + ((2 * (fdY0 f)) * (fdY2 f))) + ((2 *
  (fdZ0 f)) * (fdZ2 f))) + ((2 * (ks_ddX_D0D2 P f)) * (fX f))) + ((2 * (ks_ddY_D0D2 P f)) * (fY f)))
  + ((2 * (ks_ddZ_D0D2 P f)) * (fZ f))) * ((((- ((pa P) ^ 2)) + ((fX f) ^ 2)) + ((fY f) ^ 2)) + ((fZ
  f) ^ 2))))) * (((((- 4) * (fdZ0 f)) * ((pa P) ^ 2)) * (fZ f)) - ((2 * ((((fdX0 f) * (fX f)) +
  ((fdY0 f) * (fY f))) + ((fdZ0 f) * (fZ f)))) * (((((- 1) * ((pa P) ^ 2)) + ((fX f) ^ 2)) + ((fY f)
  ^ 2)) + ((fZ f) ^ 2))))) / ((sqrt (((4 * ((pa P) ^ 2)) * ((fZ f) ^ 2)) + (((((- ((pa P) ^ 2)) +
  ((fX f) ^ 2)) + ((fY f) ^ 2)) + ((fZ f) ^ 2)) ^ 2))) ^ 3))) + ((((1/2) * (((((((- 4) * (fdZ0 f)) *
  (fdZ2 f)) * ((pa P) ^ 2)) - (((4 * (ks_ddZ_D0D2 P f)) * ((pa P) ^ 2)) * (fZ f))) - ((4 * ((((1 *
  (fdX0 f)) * (fX f)) + ((1 * (fdY0 f)) * (fY f))) + ((1 * (fdZ0 f)) * (fZ f)))) * ((((fdX2 f) * (fX
  f)) + ((fdY2 f) * (fY f))) + ((fdZ2 f) * (fZ f))))) + (((((((((- 2) * (fdX0 f)) * (fdX2 f)) - ((2 *
  (fdY0 f)) * (fdY2 f))) - ((2 * (fdZ0 f)) * (fdZ2 f))) - ((2 * (ks_ddX_D0D2 P f)) * (fX f))) - ((2 *
  (ks_ddY_D0D2 P f)) * (fY f))) - ((2 * (ks_ddZ_D0D2 P f)) * (fZ f))) * ((((- ((pa P) ^ 2)) + ((fX f)
  ^ 2)) + ((fY f) ^ 2)) + ((fZ f) ^ 2))))) * ((((4 * (fdZ0 f)) * ((pa P) ^ 2)) * (fZ f)) + ((2 *
  ((((fdX0 f) * (fX f)) + ((fdY0 f) * (fY f))) + ((fdZ0 f) * (fZ f)))) * (((((- 1) * ((pa P) ^ 2)) +
  ((fX f) ^ 2)) + ((fY f) ^ 2)) + ((fZ f) ^ 2))))) / ((sqrt (((4 * ((pa P) ^ 2)) * ((fZ f) ^ 2)) +
  (((((- ((pa P) ^ 2)) + ((fX f) ^ 2)) + ((fY f) ^ 2)) + ((fZ f) ^ 2)) ^ 2))) ^ 3))) + (((((1/2) *
  (((((- 4) * (fdZ0 f)) * ((pa P) ^ 2)) * (fZ f)) - ((2 * ((((fdX0 f) * (fX f)) + ((fdY0 f) * (fY
  f))) + ((fdZ0 f) * (fZ f)))) * (((((- 1) * ((pa P) ^ 2)) + ((fX f) ^ 2)) + ((fY f) ^ 2)) + ((fZ f)
  ^ 2))))) * ((((4 * (fdZ0 f)) * ((pa P) ^ 2)) * (fZ f)) + ((2 * ((((fdX0 f) * (fX f)) + ((fdY0 f) *
  (fY f))) + ((fdZ0 f) * (fZ f)))) * (((((- 1) * ((pa P) ^ 2)) + ((fX f) ^ 2)) + ((fY f) ^ 2)) + ((fZ
  f) ^ 2))))) * (((((- 12) * (fdZ2 f)) * ((pa P) ^ 2)) * (fZ f)) - ((6 * ((((fdX2 f) * (fX f)) +
  ((fdY2 f) * (fY f))) + ((fdZ2 f) * (fZ f)))) * (((((- 1) * ((pa P) ^ 2)) + ((fX f) ^ 2)) + ((fY f)
  ^ 2)) + ((fZ f) ^ 2))))) / ((sqrt (((4 * ((pa P) ^ 2)) * ((fZ f) ^ 2)) + (((((- ((pa P) ^ 2)) +
  ((fX f) ^ 2)) + ((fY f) ^ 2)) + ((fZ f) ^ 2)) ^ 2))) ^ 5))) + ((((1/2) * (((((4 * ((fdZ0 f) ^ 2)) *
  ((pa P) ^ 2)) + (((4 * (ks_ddZ_D0D0 P f)) * ((pa P) ^ 2)) * (fZ f))) + (4 * (((((1 * (fdX0 f)) *
  (fX f)) + ((1 * (fdY0 f)) * (fY f))) + ((1 * (fdZ0 f)) * (fZ f))) ^ 2))) + (((((((2 * ((fdX0 f) ^
  2)) + (2 * ((fdY0 f) ^ 2))) + (2 * ((fdZ0 f) ^ 2))) + ((2 * (ks_ddX_D0D0 P f)) * (fX f))) + ((2 *
  (ks_ddY_D0D0 P f)) * (fY f))) + ((2 * (ks_ddZ_D0D0 P f)) * (fZ f))) * ((((- ((pa P) ^ 2)) + ((fX f)
  ^ 2)) + ((fY f) ^ 2)) + ((fZ f) ^ 2))))) * (((((- 4) * (fdZ2 f)) * ((pa P) ^ 2)) * (fZ f)) - ((2 *
  ((((fdX2 f) * (fX f)) + ((fdY2 f) * (fY f))) + ((fdZ2 f) * (fZ f)))) * (((((- 1) * ((pa P) ^ 2)) +
  ((fX f) ^ 2)) + ((fY f) ^ 2)) + ((fZ f) ^ 2))))) / ((sqrt (((4 * ((pa P) ^ 2)) * ((fZ f) ^ 2)) +
  (((((- ((pa P) ^ 2)) + ((fX f) ^ 2)) + ((fY f) ^ 2)) + ((fZ f) ^ 2)) ^ 2))) ^ 3)))) / (sqrt (((((-
  ((pa P) ^ 2)) + ((fX f) ^ 2)) + ((fY f) ^ 2)) + ((fZ f) ^ 2)) + (sqrt (((4 * ((pa P) ^ 2)) * ((fZ
  f) ^ 2)) + (((((- ((pa P) ^ 2)) + ((fX f) ^ 2)) + ((fY f) ^ 2)) + ((fZ f) ^ 2)) ^ 2)))))) + ((((phs
  P) * (((((1 * (fdX0 f)) * (fX f)) + ((1 * (fdY0 f)) * (fY f))) + ((1 * (fdZ0 f)) * (fZ f))) +
  (((1/2) * ((((4 * (fdZ0 f)) * ((pa P) ^ 2)) * (fZ f)) + ((2 * ((((fdX0 f) * (fX f)) + ((fdY0 f) *
  (fY f))) + ((fdZ0 f) * (fZ f)))) * (((((- 1) * ((pa P) ^ 2)) + ((fX f) ^ 2)) + ((fY f) ^ 2)) + ((fZ
  f) ^ 2))))) / (sqrt (((4 * ((pa P) ^ 2)) * ((fZ f) ^ 2)) + (((((- ((pa P) ^ 2)) + ((fX f) ^ 2)) +
  ((fY f) ^ 2)) + ((fZ f) ^ 2)) ^ 2)))))) * ((((((((((- 1) * (fdX0 f)) * (fdX2 f)) - ((1 * (fdY0 f))
  * (fdY2 f))) - ((1 * (fdZ0 f)) * (fdZ2 f))) - ((1 * (ks_ddX_D0D2 P f)) * (fX f))) - ((1 *
  (ks_ddY_D0D2 P f)) * (fY f))) - ((1 * (ks_ddZ_D0D2 P f)) * (fZ f))) - (((1/2) * ((((((4 * (fdZ0 f))
  * (fdZ2 f)) * ((pa P) ^ 2)) + (((4 * (ks_ddZ_D0D2 P f)) * ((pa P) ^ 2)) * (fZ f))) + ((4 * ((((1 *
  (fdX0 f)) * (fX f)) + ((1 * (fdY0 f)) * (fY f))) + ((1 * (fdZ0 f)) * (fZ f)))) * ((((fdX2 f) * (fX
  f)) + ((fdY2 f) * (fY f))) + ((fdZ2 f) * (fZ f))))) + ((((((((2 * (fdX0 f)) * (fdX2 f)) + ((2 *
  (fdY0 f)) * (fdY2 f))) + ((2 * (fdZ0 f)) * (fdZ2 f))) + ((2 * (ks_ddX_D0D2 P f)) * (fX f))) + ((2 *
  (ks_ddY_D0D2 P f)) * (fY f))) + ((2 * (ks_ddZ_D0D2 P f)) * (fZ f))) * ((((- ((pa P) ^ 2)) + ((fX f)
  ^ 2)) + ((fY f) ^ 2)) + ((fZ f) ^ 2))))) / (sqrt (((4 * ((pa P) ^ 2)) * ((fZ f) ^ 2)) + (((((- ((pa
  P) ^ 2)) + ((fX f) ^ 2)) + ((fY f) ^ 2)) + ((fZ f) ^ 2)) ^ 2))))) - ((((1/2) * ((((4 * (fdZ0 f)) *
  ((pa P) ^ 2)) * (fZ f)) + ((2 * ((((fdX0 f) * (fX f)) + ((fdY0 f) * (fY f))) + ((fdZ0 f) * (fZ
  f)))) * (((((- 1) * ((pa P) ^ 2)) + ((fX f) ^ 2)) + ((fY f) ^ 2)) + ((fZ f) ^ 2))))) * (((((- 4) *
  (fdZ2 f)) * ((pa P) ^ 2)) * (fZ f)) - ((2 * ((((fdX2 f) * (fX f)) + ((fdY2 f) * (fY f))) + ((fdZ2
  f) * (fZ f)))) * (((((- 1) * ((pa P) ^ 2)) + ((fX f) ^ 2)) + ((fY f) ^ 2)) + ((fZ f) ^ 2))))) /
  ((sqrt (((4 * ((pa P) ^ 2)) * ((fZ f) ^ 2)) + (((((- ((pa P) ^ 2)) + ((fX f) ^ 2)) + ((fY f) ^ 2))
  + ((fZ f) ^ 2)) ^ 2))) ^ 3)))) / ((sqrt (((((- ((pa P) ^ 2)) + ((fX f) ^ 2)) + ((fY f) ^ 2)) + ((fZ
  f) ^ 2)) + (sqrt (((4 * ((pa P) ^ 2)) * ((fZ f) ^ 2)) + (((((- ((pa P) ^ 2)) + ((fX f) ^ 2)) + ((fY
  f) ^ 2)) + ((fZ f) ^ 2)) ^ 2))))) ^ 3))) + ((((phs P) * ((((((- 1) * (fdX0 f)) * (fX f)) - ((1 *
  (fdY0 f)) * (fY f))) - ((1 * (fdZ0 f)) * (fZ f))) - (((1/2) * ((((4 * (fdZ0 f)) * ((pa P) ^ 2)) *
  (fZ f)) + ((2 * ((((fdX0 f) * (fX f)) + ((fdY0 f) * (fY f))) + ((fdZ0 f) * (fZ f)))) * (((((- 1) *
  ((pa P) ^ 2)) + ((fX f) ^ 2)) + ((fY f) ^ 2)) + ((fZ f) ^ 2))))) / (sqrt (((4 * ((pa P) ^ 2)) *
  ((fZ f) ^ 2)) + (((((- ((pa P) ^ 2)) + ((fX f) ^ 2)) + ((fY f) ^ 2)) + ((fZ f) ^ 2)) ^ 2)))))) *
  (((((((((1 * (fdX0 f)) * (fdX2 f)) + ((1 * (fdY0 f)) * (fdY2 f))) + ((1 * (fdZ0 f)) * (fdZ2 f))) +
  ((1 * (ks_ddX_D0D2 P f)) * (fX f))) + ((1 * (ks_ddY_D0D2 P f)) * (fY f))) + ((1 * (ks_ddZ_D0D2 P
  f)) * (fZ f))) + (((1/2) * ((((((4 * (fdZ0 f)) * (fdZ2 f)) * ((pa P) ^ 2)) + (((4 * (ks_ddZ_D0D2 P
  f)) * ((pa P) ^ 2)) * (fZ f))) + ((4 * ((((1 * (fdX0 f)) * (fX f)) + ((1 * (fdY0 f)) * (fY f))) +
  ((1 * (fdZ0 f)) * (fZ f)))) * ((((fdX2 f) * (fX f)) + ((fdY2 f) * (fY f))) + ((fdZ2 f) * (fZ f)))))
  + ((((((((2 * (fdX0 f)) * (fdX2 f)) + ((2 * (fdY0 f)) * (fdY2 f))) + ((2 * (fdZ0 f)) * (fdZ2 f))) +
  ((2 * (ks_ddX_D0D2 P f)) * (fX f))) + ((2 * (ks_ddY_D0D2 P f)) * (fY f))) + ((2 * (ks_ddZ_D0D2 P
  f)) * (fZ f))) * ((((- ((pa P) ^ 2)) + ((fX f) ^ 2)) + ((fY f) ^ 2)) + ((fZ f) ^ 2))))) / (sqrt
  (((4 * ((pa P) ^ 2)) * ((fZ f) ^ 2)) + (((((- ((pa P) ^ 2)) + ((fX f) ^ 2)) + ((fY f) ^ 2)) + ((fZ
  f) ^ 2)) ^ 2))))) + ((((1/2) * ((((4 * (fdZ0 f)) * ((pa P) ^ 2)) * (fZ f)) + ((2 * ((((fdX0 f) *
  (fX f)) + ((fdY0 f) * (fY f))) + ((fdZ0 f) * (fZ f)))) * (((((- 1) * ((pa P) ^ 2)) + ((fX f) ^ 2))
  + ((fY f) ^ 2)) + ((fZ f) ^ 2))))) * (((((- 4) * (fdZ2 f)) * ((pa P) ^ 2)) * (fZ f)) - ((2 *
  ((((fdX2 f) * (fX f)) + ((fdY2 f) * (fY f))) + ((fdZ2 f) * (fZ f)))) * (((((- 1) * ((pa P) ^ 2)) +
  ((fX f) ^ 2)) + ((fY f) ^ 2)) + ((fZ f) ^ 2))))) / ((sqrt (((4 * ((pa P) ^ 2)) * ((fZ f) ^ 2)) +
  (((((- ((pa P) ^ 2)) + ((fX f) ^ 2)) + ((fY f) ^ 2)) + ((fZ f) ^ 2)) ^ 2))) ^ 3)))) / ((sqrt (((((-
  ((pa P) ^ 2)) + ((fX f) ^ 2)) + ((fY f) ^ 2)) + ((fZ f) ^ 2)) + (sqrt (((4 * ((pa P) ^ 2)) * ((fZ
  f) ^ 2)) + (((((- ((pa P) ^ 2)) + ((fX f) ^ 2)) + ((fY f) ^ 2)) + ((fZ f) ^ 2)) ^ 2))))) ^ 3))) +
  (((((phs P) * ((((((- 1) * (fdX0 f)) * (fX f)) - ((1 * (fdY0 f)) * (fY f))) - ((1 * (fdZ0 f)) * (fZ
  f))) - (((1/2) * ((((4 * (fdZ0 f)) * ((pa P) ^ 2)) * (fZ f)) + ((2 * ((((fdX0 f) * (fX f)) + ((fdY0
  f) * (fY f))) + ((fdZ0 f) * (fZ f)))) * (((((- 1) * ((pa P) ^ 2)) + ((fX f) ^ 2)) + ((fY f) ^ 2)) +
  ((fZ f) ^ 2))))) / (sqrt (((4 * ((pa P) ^ 2)) * ((fZ f) ^ 2)) + (((((- ((pa P) ^ 2)) + ((fX f) ^
  2)) + ((fY f) ^ 2)) + ((fZ f) ^ 2)) ^ 2)))))) * (((((1 * (fdX0 f)) * (fX f)) + ((1 * (fdY0 f)) *
  (fY f))) + ((1 * (fdZ0 f)) * (fZ f))) + (((1/2) * ((((4 * (fdZ0 f)) * ((pa P) ^ 2)) * (fZ f)) + ((2
  * ((((fdX0 f) * (fX f)) + ((fdY0 f) * (fY f))) + ((fdZ0 f) * (fZ f)))) * (((((- 1) * ((pa P) ^ 2))
  + ((fX f) ^ 2)) + ((fY f) ^ 2)) + ((fZ f) ^ 2))))) / (sqrt (((4 * ((pa P) ^ 2)) * ((fZ f) ^ 2)) +
  (((((- ((pa P) ^ 2)) + ((fX f) ^ 2)) + ((fY f) ^ 2)) + ((fZ f) ^ 2)) ^ 2)))))) * ((((((- 3) * (fdX2
  f)) * (fX f)) - ((3 * (fdY2 f)) * (fY f))) - ((3 * (fdZ2 f)) * (fZ f))) - (((3/2) * ((((4 * (fdZ2
  f)) * ((pa P) ^ 2)) * (fZ f)) + ((2 * ((((fdX2 f) * (fX f)) + ((fdY2 f) * (fY f))) + ((fdZ2 f) *
  (fZ f)))) * (((((- 1) * ((pa P) ^ 2)) + ((fX f) ^ 2)) + ((fY f) ^ 2)) + ((fZ f) ^ 2))))) / (sqrt
  (((4 * ((pa P) ^ 2)) * ((fZ f) ^ 2)) + (((((- ((pa P) ^ 2)) + ((fX f) ^ 2)) + ((fY f) ^ 2)) + ((fZ
  f) ^ 2)) ^ 2)))))) / ((sqrt (((((- ((pa P) ^ 2)) + ((fX f) ^ 2)) + ((fY f) ^ 2)) + ((fZ f) ^ 2)) +
  (sqrt (((4 * ((pa P) ^ 2)) * ((fZ f) ^ 2)) + (((((- ((pa P) ^ 2)) + ((fX f) ^ 2)) + ((fY f) ^ 2)) +
  ((fZ f) ^ 2)) ^ 2))))) ^ 5))) + ((((phs P) * ((((((((1 * ((fdX0 f) ^ 2)) + (1 * ((fdY0 f) ^ 2))) +
  (1 * ((fdZ0 f) ^ 2))) + ((1 * (ks_ddX_D0D0 P f)) * (fX f))) + ((1 * (ks_ddY_D0D0 P f)) * (fY f))) +
  ((1 * (ks_ddZ_D0D0 P f)) * (fZ f))) - ((2 * ((((((fdZ0 f) * (fZ f)) * (((((- 1) * ((pa P) ^ 2)) -
  (1 * ((fX f) ^ 2))) - (1 * ((fY f) ^ 2))) - (1 * ((fZ f) ^ 2)))) + (((fdX0 f) * (fX f)) * ((((1 *
  ((pa P) ^ 2)) - (1 * ((fX f) ^ 2))) - (1 * ((fY f) ^ 2))) - (1 * ((fZ f) ^ 2))))) + (((fdY0 f) *
  (fY f)) * ((((1 * ((pa P) ^ 2)) - (1 * ((fX f) ^ 2))) - (1 * ((fY f) ^ 2))) - (1 * ((fZ f) ^ 2)))))
  ^ 2)) / ((sqrt (((4 * ((pa P) ^ 2)) * ((fZ f) ^ 2)) + (((((- ((pa P) ^ 2)) + ((fX f) ^ 2)) + ((fY
  f) ^ 2)) + ((fZ f) ^ 2)) ^ 2))) ^ 3))) + (((1/2) * (((((4 * ((fdZ0 f) ^ 2)) * ((pa P) ^ 2)) + (((4
  * (ks_ddZ_D0D0 P f)) * ((pa P) ^ 2)) * (fZ f))) + (4 * (((((1 * (fdX0 f)) * (fX f)) + ((1 * (fdY0
  f)) * (fY f))) + ((1 * (fdZ0 f)) * (fZ f))) ^ 2))) + (((((((2 * ((fdX0 f) ^ 2)) + (2 * ((fdY0 f) ^
  2))) + (2 * ((fdZ0 f) ^ 2))) + ((2 * (ks_ddX_D0D0 P f)) * (fX f))) + ((2 * (ks_ddY_D0D0 P f)) * (fY
  f))) + ((2 * (ks_ddZ_D0D0 P f)) * (fZ f))) * ((((- ((pa P) ^ 2)) + ((fX f) ^ 2)) + ((fY f) ^ 2)) +
  ((fZ f) ^ 2))))) / (sqrt (((4 * ((pa P) ^ 2)) * ((fZ f) ^ 2)) + (((((- ((pa P) ^ 2)) + ((fX f) ^
  2)) + ((fY f) ^ 2)) + ((fZ f) ^ 2)) ^ 2)))))) * ((((((- 1) * (fdX2 f)) * (fX f)) - ((1 * (fdY2 f))
  * (fY f))) - ((1 * (fdZ2 f)) * (fZ f))) - (((1/2) * ((((4 * (fdZ2 f)) * ((pa P) ^ 2)) * (fZ f)) +
  ((2 * ((((fdX2 f) * (fX f)) + ((fdY2 f) * (fY f))) + ((fdZ2 f) * (fZ f)))) * (((((- 1) * ((pa P) ^
  2)) + ((fX f) ^ 2)) + ((fY f) ^ 2)) + ((fZ f) ^ 2))))) / (sqrt (((4 * ((pa P) ^ 2)) * ((fZ f) ^ 2))
  + (((((- ((pa P) ^ 2)) + ((fX f) ^ 2)) + ((fY f) ^ 2)) + ((fZ f) ^ 2)) ^ 2)))))) / ((sqrt (((((-
  ((pa P) ^ 2)) + ((fX f) ^ 2)) + ((fY f) ^ 2)) + ((fZ f) ^ 2)) + (sqrt (((4 * ((pa P) ^ 2)) * ((fZ
  f) ^ 2)) + (((((- ((pa P) ^ 2)) + ((fX f) ^ 2)) + ((fY f) ^ 2)) + ((fZ f) ^ 2)) ^ 2))))) ^ 3)).

(* /repo/Src/Main/Modules/Physics/Free_Data/fd_KerrSchild_R_X_Y_Z.c:1467-1650 *)
Definition ks_dddR_D2D2D2 (P : kspar) (f : ksarg) : R :=
  (((((3 * phs P) * (((((((((((((((((((- 1) * (fdX2 f)) * ((pa P) ^ 2)) * (fX f)) + ((1 * (fdX2 f)) *
  ((fX f) ^ 3))) - (((1 * (fdY2 f)) * ((pa P) ^ 2)) * (fY f))) + (((1 * (fdY2 f)) * ((fX f) ^ 2)) *
  (fY f))) + (((1 * (fdX2 f)) * (fX f)) * ((fY f) ^ 2))) + ((1 * (fdY2 f)) * ((fY f) ^ 3))) + (((1 *
  (fdZ2 f)) * ((pa P) ^ 2)) * (fZ f))) + (((1 * (fdZ2 f)) * ((fX f) ^ 2)) * (fZ f))) + (((1 * (fdZ2
  f)) * ((fY f) ^ 2)) * (fZ f))) + (((1 * (fdX2 f)) * (fX f)) * ((fZ f) ^ 2))) + (((1 * (fdY2 f)) *
  (fY f)) * ((fZ f) ^ 2))) + ((1 * (fdZ2 f)) * ((fZ f) ^ 3))) + (((1 * (fdX2 f)) * (fX f)) * (sqrt
  (((4 * ((pa P) ^ 2)) * ((fZ f) ^ 2)) + (((((- ((pa P) ^ 2)) + ((fX f) ^ 2)) + ((fY f) ^ 2)) + ((fZ
  f) ^ 2)) ^ 2))))) + (((1 * (fdY2 f)) * (fY f)) * (sqrt (((4 * ((pa P) ^ 2)) * ((fZ f) ^ 2)) +
  (((((- ((pa P) ^ 2)) + ((fX f) ^ 2)) + ((fY f) ^ 2)) + ((fZ f) ^ 2)) ^ 2))))) + (((1 * (fdZ2 f)) *
  (fZ f)) * (sqrt (((4 * ((pa P) ^ 2)) * ((fZ f) ^ 2)) + (((((- ((pa P) ^ 2)) + ((fX f) ^ 2)) + ((fY
  f) ^ 2)) + ((fZ f) ^ 2)) ^ 2))))) ^ 3)) / (((sqrt (((4 * ((pa P) ^ 2)) * ((fZ f) ^ 2)) + (((((-
  ((pa P) ^ 2)) + ((fX f) ^ 2)) + ((fY f) ^ 2)) + ((fZ f) ^ 2)) ^ 2))) ^ 3) * ((sqrt (((((- ((pa P) ^
  2)) + ((fX f) ^ 2)) + ((fY f) ^ 2)) + ((fZ f) ^ 2)) + (sqrt (((4 * ((pa P) ^ 2)) * ((fZ f) ^ 2)) +
  (((((- ((pa P) ^ 2)) + ((fX f) ^ 2)) + ((fY f) ^ 2)) + ((fZ f) ^ 2)) ^ 2))))) ^ 5))) + (((phs P) *
  (((((((((((3 * (fdX2 f)) * (ks_ddX_D2D2 P f)) + ((3 * (fdY2 f)) * (ks_ddY_D2D2 P f))) + ((3 * (fdZ2
  f)) * (ks_ddZ_D2D2 P f))) + ((1 * (ks_dddX_D2D2D2 P f)) * (fX f))) + ((1 * (ks_dddY_D2D2D2 P f)) *
  (fY f))) + ((1 * (ks_dddZ_D2D2D2 P f)) * (fZ f))) - ((12 * ((((((fdZ2 f) * (fZ f)) * (((((- 1) *
  ((pa P) ^ 2)) - (1 * ((fX f) ^ 2))) - (1 * ((fY f) ^ 2))) - (1 * ((fZ f) ^ 2)))) + (((fdX2 f) * (fX
  f)) * ((((1 * ((pa P) ^ 2)) - (1 * ((fX f) ^ 2))) - (1 * ((fY f) ^ 2))) - (1 * ((fZ f) ^ 2))))) +
  (((fdY2 f) * (fY f)) * ((((1 * ((pa P) ^ 2)) - (1 * ((fX f) ^ 2))) - (1 * ((fY f) ^ 2))) - (1 *
  ((fZ f) ^ 2))))) ^ 3)) / ((sqrt (((4 * ((pa P) ^ 2)) * ((fZ f) ^ 2)) + (((((- ((pa P) ^ 2)) + ((fX
  f) ^ 2)) + ((fY f) ^ 2)) + ((fZ f) ^ 2)) ^ 2))) ^ 5))) + (((1/2) * (((((((12 * (fdZ2 f)) *
  (ks_ddZ_D2D2 P f)) * ((pa P) ^ 2)) + (((4 * (ks_dddZ_D2D2D2 P f)) * ((pa P) ^ 2)) * (fZ f))) + ((4
  * ((((1 * (fdX2 f)) * (fX f)) + ((1 * (fdY2 f)) * (fY f))) + ((1 * (fdZ2 f)) * (fZ f)))) *
  (((((((fdX2 f) ^ 2) + ((fdY2 f) ^ 2)) + ((fdZ2 f) ^ 2)) + ((ks_ddX_D2D2 P f) * (fX f))) +
  ((ks_ddY_D2D2 P f) * (fY f))) + ((ks_ddZ_D2D2 P f) * (fZ f))))) + ((8 * ((((fdX2 f) * (fX f)) +
  ((fdY2 f) * (fY f))) + ((fdZ2 f) * (fZ f)))) * ((((((1 * ((fdX2 f) ^ 2)) + (1 * ((fdY2 f) ^ 2))) +
  (1 * ((fdZ2 f) ^ 2))) + ((1 * (ks_ddX_D2D2 P f)) * (fX f))) + ((1 * (ks_ddY_D2D2 P f)) * (fY f))) +
  ((1 * (ks_ddZ_D2D2 P f)) * (fZ f))))) + ((((((((6 * (fdX2 f)) * (ks_ddX_D2D2 P f)) + ((6 * (fdY2
  f)) * (ks_ddY_D2D2 P f))) + ((6 * (fdZ2 f)) * (ks_ddZ_D2D2 P f))) + ((2 * (ks_dddX_D2D2D2 P f)) *
  (fX f))) + ((2 * (ks_dddY_D2D2D2 P f)) * (fY f))) + ((2 * (ks_dddZ_D2D2D2 P f)) * (fZ f))) * ((((-
  ((pa P) ^ 2)) + ((fX f) ^ 2)) + ((fY f) ^ 2)) + ((fZ f) ^ 2))))) / (sqrt (((4 * ((pa P) ^ 2)) *
  ((fZ f) ^ 2)) + (((((- ((pa P) ^ 2)) + ((fX f) ^ 2)) + ((fY f) ^ 2)) + ((fZ f) ^ 2)) ^ 2))))) +
  (((1 * (((((4 * ((fdZ2 f) ^ 2)) * ((pa P) ^ 2)) + (((4 * (ks_ddZ_D2D2 P f)) * ((pa P) ^ 2)) * (fZ
  f))) + (4 * (((((1 * (fdX2 f)) * (fX f)) + ((1 * (fdY2 f)) * (fY f))) + ((1 * (fdZ2 f)) * (fZ f)))
  ^ 2))) + (((((((2 * ((fdX2 f) ^ 2)) + (2 * ((fdY2 f) ^ 2))) + (2 * ((fdZ2 f) ^ 2))) + ((2 *
  (ks_ddX_D2D2 P f)) * (fX f))) + ((2 * (ks_ddY_D2D2 P f)) * (fY f))) + ((2 * (ks_ddZ_D2D2 P f)) *
  (fZ f))) * ((((- ((pa P) ^ 2)) + ((fX f) ^ 2)) + ((fY f) ^ 2)) + ((fZ f) ^ 2))))) * (((((- 4) *
  (fdZ2 f)) * ((pa P) ^ 2)) * (fZ f)) - ((2 * ((((fdX2 f) * (fX f)) + ((fdY2 f) * (fY f))) + ((fdZ2
  f) * (fZ f)))) * (((((- 1) * ((pa P) ^ 2)) + ((fX f) ^ 2)) + ((fY f) ^ 2)) + ((fZ f) ^ 2))))) /
  ((sqrt (((4 * ((pa P) ^ 2)) * ((fZ f) ^ 2)) + (((((- ((pa P) ^ 2)) + ((fX f) ^ 2)) + ((fY f) ^ 2))
  + ((fZ f) ^ 2)) ^ 2))) ^ 3))) + ((((1/2) * ((((((- 4) * ((fdZ2 f) ^ 2)) * ((pa P) ^ 2)) - (((4 *
  (ks_ddZ_D2D2 P f)) * ((pa P) ^ 2)) * (fZ f))) - (4 * (((((fdX2 f) * (fX f)) + ((fdY2 f) * (fY f)))
  + ((fdZ2 f) * (fZ f))) ^ 2))) + ((((((((- 2) * ((fdX2 f) ^ 2)) - (2 * ((fdY2 f) ^ 2))) - (2 *
  ((fdZ2 f) ^ 2))) - ((2 * (ks_ddX_D2D2 P f)) * (fX f))) - ((2 * (ks_ddY_D2D2 P f)) * (fY f))) - ((2
  * (ks_ddZ_D2D2 P f)) * (fZ f))) * ((((- ((pa P) ^ 2)) + ((fX f) ^ 2)) + ((fY f) ^ 2)) + ((fZ f) ^
  2))))) * ((((4 * (fdZ2 f)) * ((pa P) ^ 2)) * (fZ f)) + ((2 * ((((fdX2 f) * (fX f)) + ((fdY2 f) *
  (fY f))) + ((fdZ2 f) * (fZ f)))) * (((((- 1) * ((pa P) ^ 2)) + ((fX f) ^ 2)) + ((fY f) ^ 2)) + ((fZ
  f) ^ 2))))) / ((sqrt (((4 * ((pa P) ^ 2)) * ((fZ f) ^ 2)) + (((((- ((pa P) ^ 2)) + ((fX f) ^ 2)) +
  ((fY f) ^ 2)) + ((fZ f) ^ 2)) ^ 2))) ^ 3)))) / (sqrt (((((- ((pa P) ^ 2)) + ((fX f) ^ 2)) + ((fY f)
  ^ 2)) + ((fZ f) ^ 2)) + (sqrt (((4 * ((pa P) ^ 2)) * ((fZ f) ^ 2)) + (((((- ((pa P) ^ 2)) + ((fX f)
  ^ 2)) + ((fY f) ^ 2)) + ((fZ f) ^ 2)) ^ 2))))))) + ((((2 * phs P) * ((((((((1 * ((fdX2 f) ^ 2)) +
  (1 * ((fdY2 f) ^ 2))) + (1 * ((fdZ2 f) ^ 2))) + ((1 * (ks_ddX_D2D2 P f)) * (fX f))) + ((1 *
  (ks_ddY_D2D2 P f)) * (fY f))) + ((1 * (ks_ddZ_D2D2 P f)) * (fZ f))) - ((2 * ((((((fdZ2 f) * (fZ f))
  * (((((- 1) * ((pa P) ^ 2)) - (1 * ((fX f) ^ 2))) - (1 * ((fY f) ^ 2))) - (1 * ((fZ f) ^ 2)))) +
  (((fdX2 f) * (fX f)) * ((((1 * ((pa P) ^ 2)) - (1 * ((fX f) ^ 2))) - (1 * ((fY f) ^ 2))) - (1 *
  ((fZ f) ^ 2))))) + (((fdY2 f) * (fY f)) * ((((1 * ((pa P) ^ 2)) - (1 * ((fX f) ^ 2))) - (1 * ((fY
  f) ^ 2))) - (1 * ((fZ f) ^ 2))))) ^ 2)) / ((sqrt (((4 * ((pa P) ^ 2)) * ((fZ f) ^ 2)) + (((((- ((pa
  P) ^ 2)) + ((fX f) ^ 2)) + ((fY f) ^ 2)) + ((fZ f) ^ 2)) ^ 2))) ^ 3))) + (((1/2) * (((((4 * ((fdZ2
  f) ^ 2)) * ((pa P) ^ 2)) + (((4 * (ks_ddZ_D2D2 P f)) * ((pa P) ^ 2)) * (fZ f))) + (4 * (((((1 *
  (fdX2 f)) * (fX f)) + ((1 * (fdY2 f)) * (fY f))) + ((1 * (fdZ2 f)) * (fZ f))) ^ 2))) + (((((((2 *
  ((fdX2 f) ^ 2)) + (2 * ((fdY2 f) ^ 2))) + (2 * ((fdZ2 f) ^ 2))) + ((2 * (ks_ddX_D2D2 P f)) * (fX
  f))) + ((2 * (ks_ddY_D2D2 P f)) * (fY f))) + ((2 * (ks_ddZ_D2D2 P f)) * (fZ f))) * ((((- ((pa P) ^
  2)) + ((fX f) ^ 2)) + ((fY f) ^ 2)) + ((fZ f) ^ 2))))) / (sqrt (((4 * ((pa P) ^ 2)) * ((fZ f) ^ 2))
  + (((((- ((pa P) ^ 2)) + ((fX f) ^ 2)) + ((fY f) ^ 2)) + ((fZ f) ^ 2)) ^ 2)))))) * ((((((- 1) *
  (fdX2 f)) * (fX f)) - ((1 * (fdY2 f)) * (fY f))) - ((1 * (fdZ2 f)) * (fZ f))) - (((1/2) * ((((4 *
  (fdZ2 f)) * ((pa P) ^ 2)) * (fZ f)) + ((2 * ((((fdX2 f) * (fX f)) + ((fdY2 f) * (fY f))) + ((fdZ2
  f) * (fZ f)))) * (((((- 1) * ((pa P) ^ 2)) + ((fX f) ^ 2)) + ((fY f) ^ 2)) + ((fZ f) ^ 2))))) /
  (sqrt (((4 * ((pa P) ^ 2)) * ((fZ f) ^ 2)) + (((((- ((pa P) ^ 2)) + ((fX f) ^ 2)) + ((fY f) ^ 2)) +
  ((fZ f) ^ 2)) ^ 2)))))) / ((sqrt (((((- ((pa P) ^ 2)) + ((fX f) ^ 2)) + ((fY f) ^ 2)) + ((fZ f) ^
  2)) + (sqrt (((4 * ((pa P) ^ 2)) * ((fZ f) ^ 2)) + (((((- ((pa P) ^ 2)) + ((fX f) ^ 2)) + ((fY f) ^
  2)) + ((fZ f) ^ 2)) ^ 2))))) ^ 3))) + ((((phs P) * (((((((((- 1) * ((fdX2 f) ^ 2)) - (1 * ((fdY2 f)
  ^ 2))) - (1 * ((fdZ2 f) ^ 2))) - ((1 * (ks_ddX_D2D2 P f)) * (fX f))) - ((1 * (ks_ddY_D2D2 P f)) *
  (fY f))) - ((1 * (ks_ddZ_D2D2 P f)) * (fZ f))) + ((2 * ((((((fdZ2 f) * (fZ f)) * (((((- 1) * ((pa
  P) ^ 2)) - (1 * ((fX f) ^ 2))) - (1 * ((fY f) ^ 2))) - (1 * ((fZ f) ^ 2)))) + (((fdX2 f) * (fX f))
  * ((((1 * ((pa P) ^ 2)) - (1 * ((fX f) ^ 2))) - (1 * ((fY f) ^ 2))) - (1 * ((fZ f) ^ 2))))) +
  (((fdY2 f) * (fY f)) * ((((1 * ((pa P) ^ 2)) - (1 * ((fX f) ^ 2))) - (1 * ((fY f) ^ 2))) - (1 *
  ((fZ f) ^ 2))))) ^ 2)) / ((sqrt (((4 * ((pa P) ^ 2)) * ((fZ f) ^ 2)) + (((((- ((pa P) ^ 2)) + ((fX
  f) ^ 2)) + ((fY f) ^ 2)) + ((fZ f) ^ 2)) ^ 2))) ^ 3))) - (((1/2) * (((((4 * ((fdZ2 f) ^ 2)) * ((pa
  P) ^ 2)) + (((4 * (ks_ddZ_D2D2 P f)) * ((pa P) ^ 2)) * (fZ f))) + (4 * (((((1 * (fdX2 f)) * (fX f))
  + ((1 * (fdY2 f)) * (fY f))) + ((1 * (fdZ2 f)) * (fZ f))) ^ 2))) + (((((((2 * ((fdX2 f) ^ 2)) + (2
  * ((fdY2 f) ^ 2))) + (2 * ((fdZ2 f) ^ 2))) + ((2 * (ks_ddX_D2D2 P f)) * (fX f))) + ((2 *
  (ks_ddY_D2D2 P f)) * (fY f))) + ((2 * (ks_ddZ_D2D2 P f)) * (fZ f))) * ((((- ((pa P) ^ 2)) + ((fX f)
  ^ 2)) + ((fY f) ^ 2)) + ((fZ f) ^ 2))))) / (sqrt (((4 * ((pa P) ^ 2)) * ((fZ f) ^ 2)) + (((((- ((pa
  P) ^ 2)) + ((fX f) ^ 2)) + ((fY f) ^ 2)) + ((fZ f) ^ 2)) ^ 2)))))) * (((((1 * (fdX2 f)) * (fX f)) +
  ((1 * (fdY2 f)) * (fY f))) + ((1 * (fdZ2 f)) * (fZ f))) + (((1/2) * ((((4 * (fdZ2 f)) * ((pa P) ^
  2)) * (fZ f)) + ((2 * ((((fdX2 f) * (fX f)) + ((fdY2 f) * (fY f))) + ((fdZ2 f) * (fZ f)))) * (((((-
  1) * ((pa P) ^ 2)) + ((fX f) ^ 2)) + ((fY f) ^ 2)) + ((fZ f) ^ 2))))) / (sqrt (((4 * ((pa P) ^ 2))
  * ((fZ f) ^ 2)) + (((((- ((pa P) ^ 2)) + ((fX f) ^ 2)) + ((fY f) ^ 2)) + ((fZ f) ^ 2)) ^ 2)))))) /
  ((sqrt (((((- ((pa P) ^ 2)) + ((fX f) ^ 2)) + ((fY f) ^ 2)) + ((fZ f) ^ 2)) + (sqrt (((4 * ((pa P)
  ^ 2)) * ((fZ f) ^ 2)) + (((((- ((pa P) ^ 2)) + ((fX f) ^ 2)) + ((fY f) ^ 2)) + ((fZ f) ^ 2)) ^
  2))))) ^ 3)).

(* /repo/Src/Main/Modules/Physics/Free_Data/fd_KerrSchild_R_X_Y_Z.c:1651-1834 *)
Definition ks_dddR_D0D0D0 (P : kspar) (f : ksarg) : R :=
  (((((3 * phs P) * (((((((((((((((((((- 1) * (fdX0 f)) * ((pa P) ^ 2)) * (fX f)) + ((1 * (fdX0 f)) *
  ((fX f) ^ 3))) - (((1 * (fdY0 f)) * ((pa P) ^ 2)) * (fY f))) + (((1 * (fdY0 f)) * ((fX f) ^ 2)) *
  (fY f))) + (((1 * (fdX0 f)) * (fX f)) * ((fY f) ^ 2))) + ((1 * (fdY0 f)) * ((fY f) ^ 3))) + (((1 *
  (fdZ0 f)) * ((pa P) ^ 2)) * (fZ f))) + (((1 * (fdZ0 f)) * ((fX f) ^ 2)) * (fZ f))) + (((1 * (fdZ0
  f)) * ((fY f) ^ 2)) * (fZ f))) + (((1 * (fdX0 f)) * (fX f)) * ((fZ f) ^ 2))) + (((1 * (fdY0 f)) *
  (fY f)) * ((fZ f) ^ 2))) + ((1 * (fdZ0 f)) * ((fZ f) ^ 3))) + (((1 * (fdX0 f)) * (fX f)) * (sqrt
  (((4 * ((pa P) ^ 2)) * ((fZ f) ^ 2)) + (((((- ((pa P) ^ 2)) + ((fX f) ^ 2)) + ((fY f) ^ 2)) + ((fZ
  f) ^ 2)) ^ 2))))) + (((1 * (fdY0 f)) * (fY f)) * (sqrt (((4 * ((pa P) ^ 2)) * ((fZ f) ^ 2)) +
  (((((- ((pa P) ^ 2)) + ((fX f) ^ 2)) + ((fY f) ^ 2)) + ((fZ f) ^ 2)) ^ 2))))) + (((1 * (fdZ0 f)) *
  (fZ f)) * (sqrt (((4 * ((pa P) ^ 2)) * ((fZ f) ^ 2)) + (((((- ((pa P) ^ 2)) + ((fX f) ^ 2)) + ((fY
  f) ^ 2)) + ((fZ f) ^ 2)) ^ 2))))) ^ 3)) / (((sqrt (((4 * ((pa P) ^ 2)) * ((fZ f) ^ 2)) + (((((-
  ((pa P) ^ 2)) + ((fX f) ^ 2)) + ((fY f) ^ 2)) + ((fZ f) ^ 2)) ^ 2))) ^ 3) * ((sqrt (((((- ((pa P) ^
  2)) + ((fX f) ^ 2)) + ((fY f) ^ 2)) + ((fZ f) ^ 2)) + (sqrt (((4 * ((pa P) ^ 2)) * ((fZ f) ^ 2)) +
  (((((- ((pa P) ^ 2)) + ((fX f) ^ 2)) + ((fY f) ^ 2)) + ((fZ f) ^ 2)) ^ 2))))) ^ 5))) + (((phs P) *
  (((((((((((3 * (fdX0 f)) * (ks_ddX_D0D0 P f)) + ((3 * (fdY0 f)) * (ks_ddY_D0D0 P f))) + ((3 * (fdZ0
  f)) * (ks_ddZ_D0D0 P f))) + ((1 * (ks_dddX_D0D0D0 P f)) * (fX f))) + ((1 * (ks_dddY_D0D0D0 P f)) *
  (fY f))) + ((1 * (ks_dddZ_D0D0D0 P f)) * (fZ f))) - ((12 * ((((((fdZ0 f) * (fZ f)) * (((((- 1) *
  ((pa P) ^ 2)) - (1 * ((fX f) ^ 2))) - (1 * ((fY f) ^ 2))) - (1 * ((fZ f) ^ 2)))) + (((fdX0 f) * (fX
  f)) * ((((1 * ((pa P) ^ 2)) - (1 * ((fX f) ^ 2))) - (1 * ((fY f) ^ 2))) - (1 * ((fZ f) ^ 2))))) +
  (((fdY0 f) * (fY f)) * ((((1 * ((pa P) ^ 2)) - (1 * ((fX f) ^ 2))) - (1 * ((fY f) ^ 2))) - (1 *
  ((fZ f) ^ 2))))) ^ 3)) / ((sqrt (((4 * ((pa P) ^ 2)) * ((fZ f) ^ 2)) + (((((- ((pa P) ^ 2)) + ((fX
  f) ^ 2)) + ((fY f) ^ 2)) + ((fZ f) ^ 2)) ^ 2))) ^ 5))) + (((1/2) * (((((((12 * (fdZ0 f)) *
  (ks_ddZ_D0D0 P f)) * ((pa P) ^ 2)) + (((4 * (ks_dddZ_D0D0D0 P f)) * ((pa P) ^ 2)) * (fZ f))) + ((4
  * ((((1 * (fdX0 f)) * (fX f)) + ((1 * (fdY0 f)) * (fY f))) + ((1 * (fdZ0 f)) * (fZ f)))) *
  (((((((fdX0 f) ^ 2) + ((fdY0 f) ^ 2)) + ((fdZ0 f) ^ 2)) + ((ks_ddX_D0D0 P f) * (fX f))) +
  ((ks_ddY_D0D0 P f) * (fY f))) + ((ks_ddZ_D0D0 P f) * (fZ f))))) + ((8 * ((((fdX0 f) * (fX f)) +
  ((fdY0 f) * (fY f))) + ((fdZ0 f) * (fZ f)))) * ((((((1 * ((fdX0 f) ^ 2)) + (1 * ((fdY0 f) ^ 2))) +
  (1 * ((fdZ0 f) ^ 2))) + ((1 * (ks_ddX_D0D0 P f)) * (fX f))) + ((1 * (ks_ddY_D0D0 P f)) * (fY f))) +
  ((1 * (ks_ddZ_D0D0 P f)) * (fZ f))))) + ((((((((6 * (fdX0 f)) * (ks_ddX_D0D0 P f)) + ((6 * (fdY0
  f)) * (ks_ddY_D0D0 P f))) + ((6 * (fdZ0 f)) * (ks_ddZ_D0D0 P f))) + ((2 * (ks_dddX_D0D0D0 P f)) *
  (fX f))) + ((2 * (ks_dddY_D0D0D0 P f)) * (fY f))) + ((2 * (ks_dddZ_D0D0D0 P f)) * (fZ f))) * ((((-
  ((pa P) ^ 2)) + ((fX f) ^ 2)) + ((fY f) ^ 2)) + ((fZ f) ^ 2))))) / (sqrt (((4 * ((pa P) ^ 2)) *
  ((fZ f) ^ 2)) + (((((- ((pa P) ^ 2)) + ((fX f) ^ 2)) + ((fY f) ^ 2)) + ((fZ f) ^ 2)) ^ 2))))) +
  (((1 * (((((4 * ((fdZ0 f) ^ 2)) * ((pa P) ^ 2)) + (((4 * (ks_ddZ_D0D0 P f)) * ((pa P) ^ 2)) * (fZ
  f))) + (4 * (((((1 * (fdX0 f)) * (fX f)) + ((1 * (fdY0 f)) * (fY f))) + ((1 * (fdZ0 f)) * (fZ f)))
  ^ 2))) + (((((((2 * ((fdX0 f) ^ 2)) + (2 * ((fdY0 f) ^ 2))) + (2 * ((fdZ0 f) ^ 2))) + ((2 *
  (ks_ddX_D0D0 P f)) * (fX f))) + ((2 * (ks_ddY_D0D0 P f)) * (fY f))) + ((2 * (ks_ddZ_D0D0 P f)) *
  (fZ f))) * ((((- ((pa P) ^ 2)) + ((fX f) ^ 2)) + ((fY f) ^ 2)) + ((fZ f) ^ 2))))) * (((((- 4) *
  (fdZ0 f)) * ((pa P) ^ 2)) * (fZ f)) - ((2 * ((((fdX0 f) * (fX f)) + ((fdY0 f) * (fY f))) + ((fdZ0
  f) * (fZ f)))) * (((((- 1) * ((pa P) ^ 2)) + ((fX f) ^ 2)) + ((fY f) ^ 2)) + ((fZ f) ^ 2))))) /
  ((sqrt (((4 * ((pa P) ^ 2)) * ((fZ f) ^ 2)) + (((((- ((pa P) ^ 2)) + ((fX f) ^ 2)) + ((fY f) ^ 2))
  + ((fZ f) ^ 2)) ^ 2))) ^ 3))) + ((((1/2) * ((((((- 4) * ((fdZ0 f) ^ 2)) * ((pa P) ^ 2)) - (((4 *
  (ks_ddZ_D0D0 P f)) * ((pa P) ^ 2)) * (fZ f))) - (4 * (((((fdX0 f) * (fX f)) + ((fdY0 f) * (fY f)))
  + ((fdZ0 f) * (fZ f))) ^ 2))) + ((((((((- 2) * ((fdX0 f) ^ 2)) - (2 * ((fdY0 f) ^ 2))) - (2 *
  ((fdZ0 f) ^ 2))) - ((2 * (ks_ddX_D0D0 P f)) * (fX f))) - ((2 * (ks_ddY_D0D0 P f)) * (fY f))) - ((2
  * (ks_ddZ_D0D0 P f)) * (fZ f))) * ((((- ((pa P) ^ 2)) + ((fX f) ^ 2)) + ((fY f) ^ 2)) + ((fZ f) ^
  2))))) * ((((4 * (fdZ0 f)) * ((pa P) ^ 2)) * (fZ f)) + ((2 * ((((fdX0 f) * (fX f)) + ((fdY0 f) *
  (fY f))) + ((fdZ0 f) * (fZ f)))) * (((((- 1) * ((pa P) ^ 2)) + ((fX f) ^ 2)) + ((fY f) ^ 2)) + ((fZ
  f) ^ 2))))) / ((sqrt (((4 * ((pa P) ^ 2)) * ((fZ f) ^ 2)) + (((((- ((pa P) ^ 2)) + ((fX f) ^ 2)) +
  ((fY f) ^ 2)) + ((fZ f) ^ 2)) ^ 2))) ^ 3)))) / (sqrt (((((- ((pa P) ^ 2)) + ((fX f) ^ 2)) + ((fY f)
  ^ 2)) + ((fZ f) ^ 2)) + (sqrt (((4 * ((pa P) ^ 2)) * ((fZ f) ^ 2)) + (((((- ((pa P) ^ 2)) + ((fX f)
  ^ 2)) + ((fY f) ^ 2)) + ((fZ f) ^ 2)) ^ 2))))))) + ((((2 * phs P) * ((((((((1 * ((fdX0 f) ^ 2)) +
  (1 * ((fdY0 f) ^ 2))) + (1 * ((fdZ0 f) ^ 2))) + ((1 * (ks_ddX_D0D0 P f)) * (fX f))) + ((1 *
  (ks_ddY_D0D0 P f)) * (fY f))) + ((1 * (ks_ddZ_D0D0 P f)) * (fZ f))) - ((2 * ((((((fdZ0 f) * (fZ f))
  * (((((- 1) * ((pa P) ^ 2)) - (1 * ((fX f) ^ 2))) - (1 * ((fY f) ^ 2))) - (1 * ((fZ f) ^ 2)))) +
  (((fdX0 f) * (fX f)) * ((((1 * ((pa P) ^ 2)) - (1 * ((fX f) ^ 2))) - (1 * ((fY f) ^ 2))) - (1 *
  ((fZ f) ^ 2))))) + (((fdY0 f) * (fY f)) * ((((1 * ((pa P) ^ 2)) - (1 * ((fX f) ^ 2))) - (1 * ((fY
  f) ^ 2))) - (1 * ((fZ f) ^ 2))))) ^ 2)) / ((sqrt (((4 * ((pa P) ^ 2)) * ((fZ f) ^ 2)) + (((((- ((pa
  P) ^ 2)) + ((fX f) ^ 2)) + ((fY f) ^ 2)) + ((fZ f) ^ 2)) ^ 2))) ^ 3))) + (((1/2) * (((((4 * ((fdZ0
  f) ^ 2)) * ((pa P) ^ 2)) + (((4 * (ks_ddZ_D0D0 P f)) * ((pa P) ^ 2)) * (fZ f))) + (4 * (((((1 *
  (fdX0 f)) * (fX f)) + ((1 * (fdY0 f)) * (fY f))) + ((1 * (fdZ0 f)) * (fZ f))) ^ 2))) + (((((((2 *
  ((fdX0 f) ^ 2)) + (2 * ((fdY0 f) ^ 2))) + (2 * ((fdZ0 f) ^ 2))) + ((2 * (ks_ddX_D0D0 P f)) * (fX
  f))) + ((2 * (ks_ddY_D0D0 P f)) * (fY f))) + ((2 * (ks_ddZ_D0D0 P f)) * (fZ f))) * ((((- ((pa P) ^
  2)) + ((fX f) ^ 2)) + ((fY f) ^ 2)) + ((fZ f) ^ 2))))) / (sqrt (((4 * ((pa P) ^ 2)) * ((fZ f) ^ 2))
  + (((((- ((pa P) ^ 2)) + ((fX f) ^ 2)) + ((fY f) ^ 2)) + ((fZ f) ^ 2)) ^ 2)))))) * ((((((- 1) *
  (fdX0 f)) * (fX f)) - ((1 * (fdY0 f)) * (fY f))) - ((1 * (fdZ0 f)) * (fZ f))) - (((1/2) * ((((4 *
  (fdZ0 f)) * ((pa P) ^ 2)) * (fZ f)) + ((2 * ((((fdX0 f) * (fX f)) + ((fdY0 f) * (fY f))) + ((fdZ0
  f) * (fZ f)))) * (((((- 1) * ((pa P) ^ 2)) + ((fX f) ^ 2)) + ((fY f) ^ 2)) + ((fZ f) ^ 2))))) /
  (sqrt (((4 * ((pa P) ^ 2)) * ((fZ f) ^ 2)) + (((((- ((pa P) ^ 2)) + ((fX f) ^ 2)) + ((fY f) ^ 2)) +
  ((fZ f) ^ 2)) ^ 2)))))) / ((sqrt (((((- ((pa P) ^ 2)) + ((fX f) ^ 2)) + ((fY f) ^ 2)) + ((fZ f) ^
  2)) + (sqrt (((4 * ((pa P) ^ 2)) * ((fZ f) ^ 2)) + (((((- ((pa P) ^ 2)) + ((fX f) ^ 2)) + ((fY f) ^
  2)) + ((fZ f) ^ 2)) ^ 2))))) ^ 3))) + ((((phs P) * (((((((((- 1) * ((fdX0 f) ^ 2)) - (1 * ((fdY0 f)
  ^ 2))) - (1 * ((fdZ0 f) ^ 2))) - ((1 * (ks_ddX_D0D0 P f)) * (fX f))) - ((1 * (ks_ddY_D0D0 P f)) *
  (fY f))) - ((1 * (ks_ddZ_D0D0 P f)) * (fZ f))) + ((2 * ((((((fdZ0 f) * (fZ f)) * (((((- 1) * ((pa
  P) ^ 2)) - (1 * ((fX f) ^ 2))) - (1 * ((fY f) ^ 2))) - (1 * ((fZ f) ^ 2)))) + (((fdX0 f) * (fX f))
  * ((((1 * ((pa P) ^ 2)) - (1 * ((fX f) ^ 2))) - (1 * ((fY f) ^ 2))) - (1 * ((fZ f) ^ 2))))) +
  (((fdY0 f) * (fY f)) * ((((1 * ((pa P) ^ 2)) - (1 * ((fX f) ^ 2))) - (1 * ((fY f) ^ 2))) - (1 *
  ((fZ f) ^ 2))))) ^ 2)) / ((sqrt (((4 * ((pa P) ^ 2)) * ((fZ f) ^ 2)) + (((((- ((pa P) ^ 2)) + ((fX
  f) ^ 2)) + ((fY f) ^ 2)) + ((fZ f) ^ 2)) ^ 2))) ^ 3))) - (((1/2) * (((((4 * ((fdZ0 f) ^ 2)) * ((pa
  P) ^ 2)) + (((4 * (ks_ddZ_D0D0 P f)) * ((pa P) ^ 2)) * (fZ f))) + (4 * (((((1 * (fdX0 f)) * (fX f))
  + ((1 * (fdY0 f)) * (fY f))) + ((1 * (fdZ0 f)) * (fZ f))) ^ 2))) + (((((((2 * ((fdX0 f) ^ 2)) + (2
  * ((fdY0 f) ^ 2))) + (2 * ((fdZ0 f) ^ 2))) + ((2 * (ks_ddX_D0D0 P f)) * (fX f))) + ((2 *
  (ks_ddY_D0D0 P f)) * (fY f))) + ((2 * (ks_ddZ_D0D0 P f)) * (fZ f))) * ((((- ((pa P) ^ 2)) + ((fX f)
  ^ 2)) + ((fY f) ^ 2)) + ((fZ f) ^ 2))))) / (sqrt (((4 * ((pa P) ^ 2)) * ((fZ f) ^ 2)) + (((((- ((pa
  P) ^ 2)) + ((fX f) ^ 2)) + ((fY f) ^ 2)) + ((fZ f) ^ 2)) ^ 2)))))) * (((((1 * (fdX0 f)) * (fX f)) +
  ((1 * (fdY0 f)) * (fY f))) + ((1 * (fdZ0 f)) * (fZ f))) + (((1/2) * ((((4 * (fdZ0 f)) * ((pa P) ^
  2)) * (fZ f)) + ((2 * ((((fdX0 f) * (fX f)) + ((fdY0 f) * (fY f))) + ((fdZ0 f) * (fZ f)))) * (((((-
  1) * ((pa P) ^ 2)) + ((fX f) ^ 2)) + ((fY f) ^ 2)) + ((fZ f) ^ 2))))) / (sqrt (((4 * ((pa P) ^ 2))
  * ((fZ f) ^ 2)) + (((((- ((pa P) ^ 2)) + ((fX f) ^ 2)) + ((fY f) ^ 2)) + ((fZ f) ^ 2)) ^ 2)))))) /
  ((sqrt (((((- ((pa P) ^ 2)) + ((fX f) ^ 2)) + ((fY f) ^ 2)) + ((fZ f) ^ 2)) + (sqrt (((4 * ((pa P)
  ^ 2)) * ((fZ f) ^ 2)) + (((((- ((pa P) ^ 2)) + ((fX f) ^ 2)) + ((fY f) ^ 2)) + ((fZ f) ^ 2)) ^
  2))))) ^ 3)).

(* /repo/Src/Main/Modules/Physics/Free_Data/fd_KerrSchild_R_X_Y_Z.c:1835-2103 *)
Definition ks_dddR_D0D0D1 (P : kspar) (f : ksarg) : R :=
  ((((((phs P) * (((((((((((((((1 * (fdX1 f)) * (ks_ddX_D0D0 P f)) + ((1 * (fdY1 f)) * (ks_ddY_D0D0 P
  f))) + ((1 * (fdZ1 f)) * (ks_ddZ_D0D0 P f))) + ((2 * (fdX0 f)) * (ks_ddX_D0D1 P f))) + ((2 * (fdY0
  f)) * (ks_ddY_D0D1 P f))) + ((2 * (fdZ0 f)) * (ks_ddZ_D0D1 P f))) + ((1 * (ks_dddX_D0D0D1 P f)) *
  (fX f))) + ((1 * (ks_dddY_D0D0D1 P f)) * (fY f))) + ((1 * (ks_dddZ_D0D0D1 P f)) * (fZ f))) +
  (((1/2) * (((((((((4 * (fdZ1 f)) * (ks_ddZ_D0D0 P f)) * ((pa P) ^ 2)) + (((8 * (fdZ0 f)) *
  (ks_ddZ_D0D1 P f)) * ((pa P) ^ 2))) + (((4 * (ks_dddZ_D0D0D1 P f)) * ((pa P) ^ 2)) * (fZ f))) + ((4
  * ((((fdX1 f) * (fX f)) + ((fdY1 f) * (fY f))) + ((fdZ1 f) * (fZ f)))) * ((((((1 * ((fdX0 f) ^ 2))
  + (1 * ((fdY0 f) ^ 2))) + (1 * ((fdZ0 f) ^ 2))) + ((1 * (ks_ddX_D0D0 P f)) * (fX f))) + ((1 *
  (ks_ddY_D0D0 P f)) * (fY f))) + ((1 * (ks_ddZ_D0D0 P f)) * (fZ f))))) + ((4 * ((((1 * (fdX0 f)) *
  (fX f)) + ((1 * (fdY0 f)) * (fY f))) + ((1 * (fdZ0 f)) * (fZ f)))) * (((((((fdX0 f) * (fdX1 f)) +
  ((fdY0 f) * (fdY1 f))) + ((fdZ0 f) * (fdZ1 f))) + ((ks_ddX_D0D1 P f) * (fX f))) + ((ks_ddY_D0D1 P
  f) * (fY f))) + ((ks_ddZ_D0D1 P f) * (fZ f))))) + ((4 * ((((fdX0 f) * (fX f)) + ((fdY0 f) * (fY
  f))) + ((fdZ0 f) * (fZ f)))) * (((((((1 * (fdX0 f)) * (fdX1 f)) + ((1 * (fdY0 f)) * (fdY1 f))) +
  ((1 * (fdZ0 f)) * (fdZ1 f))) + ((1 * (ks_ddX_D0D1 P f)) * (fX f))) + ((1 * (ks_ddY_D0D1 P f)) * (fY
  f))) + ((1 * (ks_ddZ_D0D1 P f)) * (fZ f))))) + (((((((((((2 * (fdX1 f)) * (ks_ddX_D0D0 P f)) + ((2
  * (fdY1 f)) * (ks_ddY_D0D0 P f))) + ((2 * (fdZ1 f)) * (ks_ddZ_D0D0 P f))) + ((4 * (fdX0 f)) *
  (ks_ddX_D0D1 P f))) + ((4 * (fdY0 f)) * (ks_ddY_D0D1 P f))) + ((4 * (fdZ0 f)) * (ks_ddZ_D0D1 P f)))
  + ((2 * (ks_dddX_D0D0D1 P f)) * (fX f))) + ((2 * (ks_dddY_D0D0D1 P f)) * (fY f))) + ((2 *
  (ks_dddZ_D0D0D1 P f)) * (fZ f))) * ((((- ((pa P) ^ 2)) + ((fX f) ^ 2)) + ((fY f) ^ 2)) + ((fZ f) ^
  2))))) / (sqrt (((4 * ((pa P) ^ 2)) * ((fZ f) ^ 2)) + (((((- ((pa P) ^ 2)) + ((fX f) ^ 2)) + ((fY
  f) ^ 2)) + ((fZ f) ^ 2)) ^ 2))))) + ((((1/2) * ((((((4 * (fdZ0 f)) * (fdZ1 f)) * ((pa P) ^ 2)) +
  (((4 * (ks_ddZ_D0D1 P f)) * ((pa P) ^ 2)) * (fZ f))) + ((4 * ((((1 * (fdX0 f)) * (fX f)) + ((1 *
  (fdY0 f)) * (fY f))) + ((1 * (fdZ0 f)) * (fZ f)))) * ((((fdX1 f) * (fX f)) + ((fdY1 f) * (fY f))) +
  ((fdZ1 f) * (fZ f))))) + ((((((((2 * (fdX0 f)) * (fdX1 f)) + ((2 * (fdY0 f)) * (fdY1 f))) + ((2 *
  (fdZ0 f)) * (fdZ1 f))) + ((2 * (ks_ddX_D0D1 P f)) * (fX f))) + ((2 * (ks_ddY_D0D1 P f)) * (fY f)))
  + ((2 * (ks_ddZ_D0D1 P f)) * (fZ f))) * ((((- ((pa P) ^ 2)) + ((fX f) ^ 2)) + ((fY f) ^ 2)) + ((fZ
  f) ^ 2))))) * (((((- 4) * (fdZ0 f)) * ((pa P) ^ 2)) * (fZ f)) - ((2 * ((((fdX0 f) * (fX f)) +
  ((fdY0 f) * (fY f))) + ((fdZ0 f) * (fZ f)))) * (((((- 1) * ((pa P) ^ 2)) + ((fX f) ^ 2)) + ((fY f)
  ^ 2)) + ((fZ f) ^ 2))))) / ((sqrt (((4 * ((pa P) ^ 2)) * ((fZ f) ^ 2)) + (((((- ((pa P) ^ 2)) +
  ((fX f) ^ 2)) + ((fY f) ^ 2)) + ((fZ f) ^ 2)) ^ 2))) ^ 3))) + ((((1/2) * (((((((- 4) * (fdZ0 f)) *
  (fdZ1 f)) * ((pa P) ^ 2)) - (((4 * (ks_ddZ_D0D1 P f)) * ((pa P) ^ 2)) * (fZ f))) - ((4 * ((((1 *
  (fdX0 f)) * (fX f)) + ((1 * (fdY0 f)) * (fY f))) + ((1 * (fdZ0 f)) * (fZ f)))) * ((((fdX1 f) * (fX
  f)) + ((fdY1 f) * (fY f))) + ((fdZ1 f) * (fZ f))))) + (((((((((- 2) * (fdX0 f)) * (fdX1 f)) - ((2 *
  (fdY0 f)) * (fdY1 f))) - ((2 * (fdZ0 f)) * (fdZ1 f))) - ((2 * (ks_ddX_D0D1 P f)) * (fX f))) - ((2 *
  (ks_ddY_D0D1 P f)) * (fY f))) - ((2 * (ks_ddZ_D0D1 P f)) * (fZ f))) * ((((- ((pa P) ^ 2)) + ((fX f)
  ^ 2)) + ((fY f) ^ 2)) + ((fZ f) ^ 2))))) * ((((4 * (fdZ0 f)) * ((pa P) ^ 2)) * (fZ f)) + ((2 *
  ((((fdX0 f) * (fX f)) + ((fdY0 f) * (fY f))) + ((fdZ0 f) * (fZ f)))) * (((((- 1) * ((pa P) ^ 2)) +
  ((fX f) ^ 2)) + ((fY f) ^ 2)) + ((fZ f) ^ 2))))) / ((sqrt (((4 * ((pa P) ^ 2)) * ((fZ f) ^ 2)) +
  (((((- ((pa P) ^ 2)) + ((fX f) ^ 2)) + ((fY f) ^ 2)) + ((fZ f) ^ 2)) ^ 2))) ^ 3))) + (((((1/2) *
  (((((- 4) * (fdZ0 f)) * ((pa P) ^ 2)) * (fZ f)) - ((2 * ((((fdX0 f) * (fX f)) + ((fdY0 f) * (fY
  f))) + ((fdZ0 f) * (fZ f)))) * (((((- 1) * ((pa P) ^ 2)) + ((fX f) ^ 2)) + ((fY f) ^ 2)) + ((fZ f)
  ^ 2))))) * ((((4 * (fdZ0 f)) * ((pa P) ^ 2)) * (fZ f)) + ((2 * ((((fdX0 f) * (fX f)) + ((fdY0 f) *
  (fY f))) + ((fdZ0 f) * (fZ f)))) * (((((- 1) * ((pa P) ^ 2)) + ((fX f) ^ 2)) + ((fY f) ^ 2)) + ((fZ
  f) ^ 2))))) * (((((- 12) * (fdZ1 f)) * ((pa P) ^ 2)) * (fZ f)) - ((6 * ((((fdX1 f) * (fX f)) +
  ((fdY1 f) * (fY f))) + ((fdZ1 f) * (fZ f)))) * (((((- 1) * ((pa P) ^ 2)) + ((fX f) ^ 2)) + ((fY f)
  ^ 2)) + ((fZ f) ^ 2))))) / ((sqrt (((4 * ((pa P) ^ 2)) * ((fZ f) ^ 2)) + (((((- ((pa P) ^ 2)) +
  ((fX f) ^ 2)) + ((fY f) ^ 2)) + ((fZ f) ^ 2)) ^ 2))) ^ 5))) + ((((1/2) * (((((4 * ((fdZ0 f) ^ 2)) *
  ((pa P) ^ 2)) + (((4 * (ks_ddZ_D0D0 P f)) * ((pa P) ^ 2)) * (fZ f))) + (4 * (((((1 * (fdX0 f)) *
  (fX f)) + ((1 * (fdY0 f)) * (fY f))) + ((1 * (fdZ0 f)) * (fZ f))) ^ 2))) + (((((((2 * ((fdX0 f) ^
  2)) + (2 * ((fdY0 f) ^ 2))) + (2 * ((fdZ0 f) ^ 2))) + ((2 * (ks_ddX_D0D0 P f)) * (fX f))) + ((2 *
  (ks_ddY_D0D0 P f)) * (fY f))) + ((2 * (ks_ddZ_D0D0 P f)) * (fZ f))) * ((((- ((pa P) ^ 2)) + ((fX f)
  ^ 2)) + ((fY f) ^ 2)) + ((fZ f) ^ 2))))) * (((((- 4) * (fdZ1 f)) * ((pa P) ^ 2)) * (fZ f)) - ((2 *
  ((((fdX1 f) * (fX f)) + ((fdY1 f) * (fY f))) + ((fdZ1 f) * (fZ f)))) * (((((- 1) * ((pa P) ^ 2)) +
  ((fX f) ^ 2)) + ((fY f) ^ 2)) + ((fZ f) ^ 2))))) / ((sqrt (((4 * ((pa P) ^ 2)) * ((fZ f) ^ 2)) +
  (((((- ((pa P) ^ 2)) + ((fX f) ^ 2)) + ((fY f) ^ 2)) + ((fZ f) ^ 2)) ^ 2))) ^ 3)))) / (sqrt (((((-
  ((pa P) ^ 2)) + ((fX f) ^ 2)) + ((fY f) ^ 2)) + ((fZ f) ^ 2)) + (sqrt (((4 * ((pa P) ^ 2)) * ((fZ
  f) ^ 2)) + (((((- ((pa P) ^ 2)) + ((fX f) ^ 2)) + ((fY f) ^ 2)) + ((fZ f) ^ 2)) ^ 2)))))) + ((((phs
  P) * (((((1 * (fdX0 f)) * (fX f)) + ((1 * (fdY0 f)) * (fY f))) + ((1 * (fdZ0 f)) * (fZ f))) +
  (((1/2) * ((((4 * (fdZ0 f)) * ((pa P) ^ 2)) * (fZ f)) + ((2 * ((((fdX0 f) * (fX f)) + ((fdY0 f) *
  (fY f))) + ((fdZ0 f) * (fZ f)))) * (((((- 1) * ((pa P) ^ 2)) + ((fX f) ^ 2)) + ((fY f) ^ 2)) + ((fZ
  f) ^ 2))))) / (sqrt (((4 * ((pa P) ^ 2)) * ((fZ f) ^ 2)) + (((((- ((pa P) ^ 2)) + ((fX f) ^ 2)) +
  ((fY f) ^ 2)) + ((fZ f) ^ 2)) ^ 2)))))) * ((((((((((- 1) * (fdX0 f)) * (fdX1 f)) - ((1 * (fdY0 f))
  * (fdY1 f))) - ((1 * (fdZ0 f)) * (fdZ1 f))) - ((1 * (ks_ddX_D0D1 P f)) * (fX f))) - ((1 *
  (ks_ddY_D0D1 P f)) * (fY f))) - ((1 * (ks_ddZ_D0D1 P f)) * (fZ f))) - (((1/2) * ((((((4 * (fdZ0 f))
  * (fdZ1 f)) * ((pa P) ^ 2)) + (((4 * (ks_ddZ_D0D1 P f)) * ((pa P) ^ 2)) * (fZ f))) + ((4 * ((((1 *
  (fdX0 f)) * (fX f)) + ((1 * (fdY0 f)) * (fY f))) + ((1 * (fdZ0 f)) * (fZ f)))) * ((((fdX1 f) * (fX
  f)) + ((fdY1 f) * (fY f))) + ((fdZ1 f) * (fZ f))))) + ((((((((2 * (fdX0 f)) * (fdX1 f)) + ((2 *
  (fdY0 f)) * (fdY1 f))) + ((2 * (fdZ0 f)) * (fdZ1 f))) + ((2 * (ks_ddX_D0D1 P f)) * (fX f))) + ((2 *
  (ks_ddY_D0D1 P f)) * (fY f))) + ((2 * (ks_ddZ_D0D1 P f)) * (fZ f))) * ((((- ((pa P) ^ 2)) + ((fX f)
  ^ 2)) + ((fY f) ^ 2)) + ((fZ f) ^ 2))))) / (sqrt (((4 * ((pa P) ^ 2)) * ((fZ f) ^ 2)) + (((((- ((pa
  P) ^ 2)) + ((fX f) ^ 2)) + ((fY f) ^ 2)) + ((fZ f) ^ 2)) ^ 2))))) - ((((1/2) * ((((4 * (fdZ0 f)) *
  ((pa P) ^ 2)) * (fZ f)) + ((2 * ((((fdX0 f) * (fX f)) + ((fdY0 f) * (fY f))) + ((fdZ0 f) * (fZ
  f)))) * (((((- 1) * ((pa P) ^ 2)) + ((fX f) ^ 2)) + ((fY f) ^ 2)) + ((fZ f) ^ 2))))) * (((((- 4) *
  (fdZ1 f)) * ((pa P) ^ 2)) * (fZ f)) - ((2 * ((((fdX1 f) * (fX f)) + ((fdY1 f) * (fY f))) + ((fdZ1
  f) * (fZ f)))) * (((((- 1) * ((pa P) ^ 2)) + ((fX f) ^ 2)) + ((fY f) ^ 2)) + ((fZ f) ^ 2))))) /
  ((sqrt (((4 * ((pa P) ^ 2)) * ((fZ f) ^ 2)) + (((((- ((pa P) ^ 2)) + ((fX f) ^ 2)) + ((fY f) ^ 2))
  + ((fZ f) ^ 2)) ^ 2))) ^ 3)))) / ((sqrt (((((- ((pa P) ^ 2)) + ((fX f) ^ 2)) + ((fY f) ^ 2)) + ((fZ
  f) ^ 2)) + (sqrt (((4 * ((pa P) ^ 2)) * ((fZ f) ^ 2)) + (((((- ((pa P) ^ 2)) + ((fX f) ^ 2)) + ((fY
  f) ^ 2)) + ((fZ f) ^ 2)) ^ 2))))) ^ 3))) + ((((phs P) * ((((((- 1) * (fdX0 f)) * (fX f)) - ((1 *
  (fdY0 f)) * (fY f))) - ((1 * (fdZ0 f)) * (fZ f))) - (((1/2) * ((((4 * (fdZ0 f)) * ((pa P) ^ 2)) *
  (fZ f)) + ((2 * ((((fdX0 f) * (fX f)) + ((fdY0 f) * (fY f))) + ((fdZ0 f) * (fZ f)))) * (((((- 1) *
  ((pa P) ^ 2)) + ((fX f) ^ 2)) + ((fY f) ^ 2)) + ((fZ f) ^ 2))))) / (sqrt (((4 * ((pa P) ^ 2)) *
  ((fZ f) ^ 2)) + (((((- ((pa P) ^ 2)) + ((fX f) ^ 2)) + ((fY f) ^ 2)) + ((fZ f) ^ 2)) ^ 2)))))) *
  (((((((((1 * (fdX0 f)) * (fdX1 f)) + ((1 * (fdY0 f)) * (fdY1 f))) + ((1 * (fdZ0 f)) * (fdZ1 f))) +
  ((1 * (ks_ddX_D0D1 P f)) * (fX f))) + ((1 * (ks_ddY_D0D1 P f)) * (fY f))) + ((1 * (ks_ddZ_D0D1 P
  f)) * (fZ f))) + (((1/2) * ((((((4 * (fdZ0 f)) * (fdZ1 f)) * ((pa P) ^ 2)) + (((4 * (ks_ddZ_D0D1 P
  f)) * ((pa P) ^ 2)) * (fZ f))) + ((4 * ((((1 * (fdX0 f)) * (fX f)) + ((1 * (fdY0 f)) * (fY f))) +
  ((1 * (fdZ0 f)) * (fZ f)))) * ((((fdX1 f) * (fX f)) + ((fdY1 f) * (fY f))) + ((fdZ1 f) * (fZ f)))))
  + ((((((((2 * (fdX0 f)) * (fdX1 f)) + ((2 * (fdY0 f)) * (fdY1 f))) + ((2 * (fdZ0 f)) * (fdZ1 f))) +
  ((2 * (ks_ddX_D0D1 P f)) * (fX f))) + ((2 * (ks_ddY_D0D1 P f)) * (fY f))) + ((2 * (ks_ddZ_D0D1 P
  f)) * (fZ f))) * ((((- ((pa P) ^ 2)) + ((fX f) ^ 2)) + ((fY f) ^ 2)) + ((fZ f) ^ 2))))) / (sqrt
  (((4 * ((pa P) ^ 2)) * ((fZ f) ^ 2)) + (((((- ((pa P) ^ 2)) + ((fX f) ^ 2)) + ((fY f) ^ 2)) + ((fZ
  f) ^ 2)) ^ 2))))) + ((((1/2) * ((((4 * (fdZ0 f)) * ((pa P) ^ 2)) * (fZ f)) + ((2 * ((((fdX0 f) *
  (fX f)) + ((fdY0 f) * (fY f))) + ((fdZ0 f) * (fZ f)))) * (((((- 1) * ((pa P) ^ 2)) + ((fX f) ^ 2))
  + ((fY f) ^ 2)) + ((fZ f) ^ 2))))) * (((((- 4) * (fdZ1 f)) * ((pa P) ^ 2)) * (fZ f)) - ((2 *
  ((((fdX1 f) * (fX f)) + ((fdY1 f) * (fY f))) + ((fdZ1 f) * (fZ f)))) * (((((- 1) * ((pa P) ^ 2)) +
  ((fX f) ^ 2)) + ((fY f) ^ 2)) + ((fZ f) ^ 2))))) / ((sqrt (((4 * ((pa P) ^ 2)) * ((fZ f) ^ 2)) +
  (((((- ((pa P) ^ 2)) + ((fX f) ^ 2)) + ((fY f) ^ 2)) + ((fZ f) ^ 2)) ^ 2))) ^ 3)))) / ((sqrt (((((-
  ((pa P) ^ 2)) + ((fX f) ^ 2)) + ((fY f) ^ 2)) + ((fZ f) ^ 2)) + (sqrt (((4 * ((pa P) ^ 2)) * ((fZ
  f) ^ 2)) + (((((- ((pa P) ^ 2)) + ((fX f) ^ 2)) + ((fY f) ^ 2)) + ((fZ f) ^ 2)) ^ 2))))) ^ 3))) +
  (((((phs P) * ((((((- 1) * (fdX0 f)) * (fX f)) - ((1 * (fdY0 f)) * (fY f))) - ((1 * (fdZ0 f)) * (fZ
  f))) - (((1/2) * ((((4 * (fdZ0 f)) * ((pa P) ^ 2)) * (fZ f)) + ((2 * ((((fdX0 f) * (fX f)) + ((fdY0
  f) * (fY f))) + ((fdZ0 f) * (fZ f)))) * (((((- 1) * ((pa P) ^ 2)) + ((fX f) ^ 2)) + ((fY f) ^ 2)) +
  ((fZ f) ^ 2))))) / (sqrt (((4 * ((pa P) ^ 2)) * ((fZ f) ^ 2)) + (((((- ((pa P) ^ 2)) + ((fX f) ^
  2)) + ((fY f) ^ 2)) + ((fZ f) ^ 2)) ^ 2)))))) * (((((1 * (fdX0 f)) * (fX f)) + ((1 * (fdY0 f)) *
  (fY f))) + ((1 * (fdZ0 f)) * (fZ f))) + (((1/2) * ((((4 * (fdZ0 f)) * ((pa P) ^ 2)) * (fZ f)) + ((2
  * ((((fdX0 f) * (fX f)) + ((fdY0 f) * (fY f))) + ((fdZ0 f) * (fZ f)))) * (((((- 1) * ((pa P) ^ 2))
  + ((fX f) ^ 2)) + ((fY f) ^ 2)) + ((fZ f) ^ 2))))) / (sqrt (((4 * ((pa P) ^ 2)) * ((fZ f) ^ 2)) +
  (((((- ((pa P) ^ 2)) + ((fX f) ^ 2)) + ((fY f) ^ 2)) + ((fZ f) ^ 2)) ^ 2)))))) * ((((((- 3) * (fdX1
  f)) * (fX f)) - ((3 * (fdY1 f)) * (fY f))) - ((3 * (fdZ1 f)) * (fZ f))) - (((3/2) * ((((4 * (fdZ1
  f)) * ((pa P) ^ 2)) * (fZ f)) + ((2 * ((((fdX1 f) * (fX f)) + ((fdY1 f) * (fY f))) + ((fdZ1 f) *
  (fZ f)))) * (((((- 1) * ((pa P) ^ 2)) + ((fX f) ^ 2)) + ((fY f) ^ 2)) + ((fZ f) ^ 2))))) / (sqrt
  (((4 * ((pa P) ^ 2)) * ((fZ f) ^ 2)) + (((((- ((pa P) ^ 2)) + ((fX f) ^ 2)) + ((fY f) ^ 2)) + ((fZ
  f) ^ 2)) ^ 2)))))) / ((sqrt (((((- ((pa P) ^ 2)) + ((fX f) ^ 2)) + ((fY f) ^ 2)) + ((fZ f) ^ 2)) +
  (sqrt (((4 * ((pa P) ^ 2)) * ((fZ f) ^ 2)) + (((((- ((pa P) ^ 2)) + ((fX f) ^ 2)) + ((fY f) ^ 2)) +
  ((fZ f) ^ 2)) ^ 2))))) ^ 5))) + ((((phs P) * ((((((((1 * ((fdX0 f) ^ 2)) + (1 * ((fdY0 f) ^ 2))) +
  (1 * ((fdZ0 f) ^ 2))) + ((1 * (ks_ddX_D0D0 P f)) * (fX f))) + ((1 * (ks_ddY_D0D0 P f)) * (fY f))) +
  ((1 * (ks_ddZ_D0D0 P f)) * (fZ f))) - ((2 * ((((((fdZ0 f) * (fZ f)) * (((((- 1) * ((pa P) ^ 2)) -
  (1 * ((fX f) ^ 2))) - (1 * ((fY f) ^ 2))) - (1 * ((fZ f) ^ 2)))) + (((fdX0 f) * (fX f)) * ((((1 *
  ((pa P) ^ 2)) - (1 * ((fX f) ^ 2))) - (1 * ((fY f) ^ 2))) - (1 * ((fZ f) ^ 2))))) + (((fdY0 f) *
  (fY f)) * ((((1 * ((pa P) ^ 2)) - (1 * ((fX f) ^ 2))) - (1 * ((fY f) ^ 2))) - (1 * ((fZ f) ^ 2)))))
  ^ 2)) / ((sqrt (((4 * ((pa P) ^ 2)) * ((fZ f) ^ 2)) + (((((- ((pa P) ^ 2)) + ((fX f) ^ 2)) + ((fY
  f) ^ 2)) + ((fZ f) ^ 2)) ^ 2))) ^ 3))) + (((1/2) * (((((4 * ((fdZ0 f) ^ 2)) * ((pa P) ^ 2)) + (((4
  * (ks_ddZ_D0D0 P f)) * ((pa P) ^ 2)) * (fZ f))) + (4 * (((((1 * (fdX0 f)) * (fX f)) + ((1 * (fdY0
  f)) * (fY f))) + ((1 * (fdZ0 f)) * (fZ f))) ^ 2))) + (((((((2 * ((fdX0 f) ^ 2)) + (2 * ((fdY0 f) ^
  2))) + (2 * ((fdZ0 f) ^ 2))) + ((2 * (ks_ddX_D0D0 P f)) * (fX f))) + ((2 * (ks_ddY_D0D0 P f)) * (fY
  f))) + ((2 * (ks_ddZ_D0D0 P f)) * (fZ f))) * ((((- ((pa P) ^ 2)) + ((fX f) ^ 2)) + ((fY f) ^ 2)) +
  ((fZ f) ^ 2))))) / (sqrt (((4 * ((pa P) ^ 2)) * ((fZ f) ^ 2)) + (((((- ((pa P) ^ 2)) + ((fX f) ^
  2)) + ((fY f) ^ 2)) + ((fZ f) ^ 2)) ^ 2)))))) * ((((((- 1) * (fdX1 f)) * (fX f)) - ((1 * (fdY1 f))
  * (fY f))) - ((1 * (fdZ1 f)) * (fZ f))) - (((1/2) * ((((4 * (fdZ1 f)) * ((pa P) ^ 2)) * (fZ f)) +
  ((2 * ((((fdX1 f) * (fX f)) + ((fdY1 f) * (fY f))) + ((fdZ1 f) * (fZ f)))) * (((((- 1) * ((pa P) ^
  2)) + ((fX f) ^ 2)) + ((fY f) ^ 2)) + ((fZ f) ^ 2))))) / (sqrt (((4 * ((pa P) ^ 2)) * ((fZ f) ^ 2))
  + (((((- ((pa P) ^ 2)) + ((fX f) ^ 2)) + ((fY f) ^ 2)) + ((fZ f) ^ 2)) ^ 2)))))) / ((sqrt (((((-
  ((pa P) ^ 2)) + ((fX f) ^ 2)) + ((fY f) ^ 2)) + ((fZ f) ^ 2)) + (sqrt (((4 * ((pa P) ^ 2)) * ((fZ
  f) ^ 2)) + (((((- ((pa P) ^ 2)) + ((fX f) ^ 2)) + ((fY f) ^ 2)) + ((fZ f) ^ 2)) ^ 2))))) ^ 3)).

(* /repo/Src/Main/Modules/Physics/Free_Data/fd_KerrSchild_R_X_Y_Z.c:2104-2308 *)
Definition ks_dddR_D1D2D2 (P : kspar) (f : ksarg) : R :=
  ((((((phs P) * (((((((((- 1) * ((fdX2 f) ^ 2)) - (1 * ((fdY2 f) ^ 2))) - (1 * ((fdZ2 f) ^ 2))) -
  ((1 * (ks_ddX_D2D2 P f)) * (fX f))) - ((1 * (ks_ddY_D2D2 P f)) * (fY f))) - ((1 * (ks_ddZ_D2D2 P
  f)) * (fZ f))) + ((2 * ((((((fdZ2 f) * (fZ f)) * (((((- 1) * ((pa P) ^ 2)) - (1 * ((fX f) ^ 2))) -
  (1 * ((fY f) ^ 2))) - (1 * ((fZ f) ^ 2)))) + (((fdX2 f) * (fX f)) * ((((1 * ((pa P) ^ 2)) - (1 *
  ((fX f) ^ 2))) - (1 * ((fY f) ^ 2))) - (1 * ((fZ f) ^ 2))))) + (((fdY2 f) * (fY f)) * ((((1 * ((pa
  P) ^ 2)) - (1 * ((fX f) ^ 2))) - (1 * ((fY f) ^ 2))) - (1 * ((fZ f) ^ 2))))) ^ 2)) / ((sqrt (((4 *
  ((pa P) ^ 2)) * ((fZ f) ^ 2)) + (((((- ((pa P) ^ 2)) + ((fX f) ^ 2)) + ((fY f) ^ 2)) + ((fZ f) ^
  2)) ^ 2))) ^ 3))) - (((1/2) * (((((4 * ((fdZ2 f) ^ 2)) * ((pa P) ^ 2)) + (((4 * (ks_ddZ_D2D2 P f))
  * ((pa P) ^ 2)) * (fZ f))) + (4 * (((((1 * (fdX2 f)) * (fX f)) + ((1 * (fdY2 f)) * (fY f))) + ((1 *
  (fdZ2 f)) * (fZ f))) ^ 2))) + (((((((2 * ((fdX2 f) ^ 2)) + (2 * ((fdY2 f) ^ 2))) + (2 * ((fdZ2 f) ^
  2))) + ((2 * (ks_ddX_D2D2 P f)) * (fX f))) + ((2 * (ks_ddY_D2D2 P f)) * (fY f))) + ((2 *
  (ks_ddZ_D2D2 P f)) * (fZ f))) * ((((- ((pa P) ^ 2)) + ((fX f) ^ 2)) + ((fY f) ^ 2)) + ((fZ f) ^
  2))))) / (sqrt (((4 * ((pa P) ^ 2)) * ((fZ f) ^ 2)) + (((((- ((pa P) ^ 2)) + ((fX f) ^ 2)) + ((fY
  f) ^ 2)) + ((fZ f) ^ 2)) ^ 2)))))) * (((((1 * (fdX1 f)) * (fX f)) + ((1 * (fdY1 f)) * (fY f))) +
  ((1 * (fdZ1 f)) * (fZ f))) + (((1/2) * ((((4 * (fdZ1 f)) * ((pa P) ^ 2)) * (fZ f)) + ((2 * ((((fdX1
  f) * (fX f)) + ((fdY1 f) * (fY f))) + ((fdZ1 f) * (fZ f)))) * (((((- 1) * ((pa P) ^ 2)) + ((fX f) ^
  2)) + ((fY f) ^ 2)) + ((fZ f) ^ 2))))) / (sqrt (((4 * ((pa P) ^ 2)) * ((fZ f) ^ 2)) + (((((- ((pa
  P) ^ 2)) + ((fX f) ^ 2)) + ((fY f) ^ 2)) + ((fZ f) ^ 2)) ^ 2)))))) / ((sqrt (((((- ((pa P) ^ 2)) +
  ((fX f) ^ 2)) + ((fY f) ^ 2)) + ((fZ f) ^ 2)) + (sqrt (((4 * ((pa P) ^ 2)) * ((fZ f) ^ 2)) + (((((-
  ((pa P) ^ 2)) + ((fX f) ^ 2)) + ((fY f) ^ 2)) + ((fZ f) ^ 2)) ^ 2))))) ^ 3)) + (((phs P) *
  ((((((((((((((1 * (fdX1 f)) * (ks_ddX_D2D2 P f)) + ((1 * (fdY1 f)) * (ks_ddY_D2D2 P f))) + ((1 *
  (fdZ1 f)) * (ks_ddZ_D2D2 P f))) + ((2 * (fdX2 f)) * (ks_ddX_D1D2 P f))) + ((2 * (fdY2 f)) *
  (ks_ddY_D1D2 P f))) + ((2 * (fdZ2 f)) * (ks_ddZ_D1D2 P f))) + ((1 * (ks_dddX_D1D2D2 P f)) * (fX
  f))) + ((1 * (ks_dddY_D1D2D2 P f)) * (fY f))) + ((1 * (ks_dddZ_D1D2D2 P f)) * (fZ f))) + (((1/2) *
  ((((((((4 * (fdZ1 f)) * (ks_ddZ_D2D2 P f)) * ((pa P) ^ 2)) + (((8 * (fdZ2 f)) * (ks_ddZ_D1D2 P f))
  * ((pa P) ^ 2))) + (((4 * (ks_dddZ_D1D2D2 P f)) * ((pa P) ^ 2)) * (fZ f))) + ((4 * ((((1 * (fdX1
  f)) * (fX f)) + ((1 * (fdY1 f)) * (fY f))) + ((1 * (fdZ1 f)) * (fZ f)))) * (((((((fdX2 f) ^ 2) +
  ((fdY2 f) ^ 2)) + ((fdZ2 f) ^ 2)) + ((ks_ddX_D2D2 P f) * (fX f))) + ((ks_ddY_D2D2 P f) * (fY f))) +
  ((ks_ddZ_D2D2 P f) * (fZ f))))) + ((8 * ((((fdX2 f) * (fX f)) + ((fdY2 f) * (fY f))) + ((fdZ2 f) *
  (fZ f)))) * (((((((1 * (fdX1 f)) * (fdX2 f)) + ((1 * (fdY1 f)) * (fdY2 f))) + ((1 * (fdZ1 f)) *
  (fdZ2 f))) + ((1 * (ks_ddX_D1D2 P f)) * (fX f))) + ((1 * (ks_ddY_D1D2 P f)) * (fY f))) + ((1 *
  (ks_ddZ_D1D2 P f)) * (fZ f))))) + (((((((((((2 * (fdX1 f)) * (ks_ddX_D2D2 P f)) + ((2 * (fdY1 f)) *
  (ks_ddY_D2D2 P f))) + ((2 * (fdZ1 f)) * (ks_ddZ_D2D2 P f))) + ((4 * (fdX2 f)) * (ks_ddX_D1D2 P f)))
  + ((4 * (fdY2 f)) * (ks_ddY_D1D2 P f))) + ((4 * (fdZ2 f)) * (ks_ddZ_D1D2 P f))) + ((2 *
  (ks_dddX_D1D2D2 P f)) * (fX f))) + ((2 * (ks_dddY_D1D2D2 P f)) * (fY f))) + ((2 * (ks_dddZ_D1D2D2 P
  f)) * (fZ f))) * ((((- ((pa P) ^ 2)) + ((fX f) ^ 2)) + ((fY f) ^ 2)) + ((fZ f) ^ 2))))) / (sqrt
  (((4 * ((pa P) ^ 2)) * ((fZ f) ^ 2)) + (((((- ((pa P) ^ 2)) + ((fX f) ^ 2)) + ((fY f) ^ 2)) + ((fZ
  f) ^ 2)) ^ 2))))) + ((((1/2) * ((((((- 4) * ((fdZ2 f) ^ 2)) * ((pa P) ^ 2)) - (((4 * (ks_ddZ_D2D2 P
  f)) * ((pa P) ^ 2)) * (fZ f))) - (4 * (((((fdX2 f) * (fX f)) + ((fdY2 f) * (fY f))) + ((fdZ2 f) *
  (fZ f))) ^ 2))) + ((((((((- 2) * ((fdX2 f) ^ 2)) - (2 * ((fdY2 f) ^ 2))) - (2 * ((fdZ2 f) ^ 2))) -
  ((2 * (ks_ddX_D2D2 P f)) * (fX f))) - ((2 * (ks_ddY_D2D2 P f)) * (fY f))) - ((2 * (ks_ddZ_D2D2 P
  f)) * (fZ f))) * ((((- ((pa P) ^ 2)) + ((fX f) ^ 2)) + ((fY f) ^ 2)) + ((fZ f) ^ 2))))) * ((((4 *
  (fdZ1 f)) * ((pa P) ^ 2)) * (fZ f)) + ((2 * ((((fdX1 f) * (fX f)) + ((fdY1 f) * (fY f))) + ((fdZ1
  f) * (fZ f)))) * (((((- 1) * ((pa P) ^ 2)) + ((fX f) ^ 2)) + ((fY f) ^ 2)) + ((fZ f) ^ 2))))) /
  ((sqrt (((4 * ((pa P) ^ 2)) * ((fZ f) ^ 2)) + (((((- ((pa P) ^ 2)) + ((fX f) ^ 2)) + ((fY f) ^ 2))
  + ((fZ f) ^ 2)) ^ 2))) ^ 3))) + (((1 * ((((((4 * (fdZ1 f)) * (fdZ2 f)) * ((pa P) ^ 2)) + (((4 *
  (ks_ddZ_D1D2 P f)) * ((pa P) ^ 2)) * (fZ f))) + ((4 * ((((1 * (fdX1 f)) * (fX f)) + ((1 * (fdY1 f))
  * (fY f))) + ((1 * (fdZ1 f)) * (fZ f)))) * ((((fdX2 f) * (fX f)) + ((fdY2 f) * (fY f))) + ((fdZ2 f)
  * (fZ f))))) + ((((((((2 * (fdX1 f)) * (fdX2 f)) + ((2 * (fdY1 f)) * (fdY2 f))) + ((2 * (fdZ1 f)) *
  (fdZ2 f))) + ((2 * (ks_ddX_D1D2 P f)) * (fX f))) + ((2 * (ks_ddY_D1D2 P f)) * (fY f))) + ((2 *
  (ks_ddZ_D1D2 P f)) * (fZ f))) * ((((- ((pa P) ^ 2)) + ((fX f) ^ 2)) + ((fY f) ^ 2)) + ((fZ f) ^
  2))))) * (((((- 4) * (fdZ2 f)) * ((pa P) ^ 2)) * (fZ f)) - ((2 * ((((fdX2 f) * (fX f)) + ((fdY2 f)
  * (fY f))) + ((fdZ2 f) * (fZ f)))) * (((((- 1) * ((pa P) ^ 2)) + ((fX f) ^ 2)) + ((fY f) ^ 2)) +
  ((fZ f) ^ 2))))) / ((sqrt (((4 * ((pa P) ^ 2)) * ((fZ f) ^ 2)) + (((((- ((pa P) ^ 2)) + ((fX f) ^
  2)) + ((fY f) ^ 2)) + ((fZ f) ^ 2)) ^ 2))) ^ 3))) + (((((1/2) * ((((4 * (fdZ1 f)) * ((pa P) ^ 2)) *
  (fZ f)) + ((2 * ((((fdX1 f) * (fX f)) + ((fdY1 f) * (fY f))) + ((fdZ1 f) * (fZ f)))) * (((((- 1) *
  ((pa P) ^ 2)) + ((fX f) ^ 2)) + ((fY f) ^ 2)) + ((fZ f) ^ 2))))) * (((((- 12) * (fdZ2 f)) * ((pa P)
  ^ 2)) * (fZ f)) - ((6 * ((((fdX2 f) * (fX f)) + ((fdY2 f) * (fY f))) + ((fdZ2 f) * (fZ f)))) *
  (((((- 1) * ((pa P) ^ 2)) + ((fX f) ^ 2)) + ((fY f) ^ 2)) + ((fZ f) ^ 2))))) * (((((- 4) * (fdZ2
  f)) * ((pa P) ^ 2)) * (fZ f)) - ((2 * ((((fdX2 f) * (fX f)) + ((fdY2 f) * (fY f))) + ((fdZ2 f) *
  (fZ f)))) * (((((- 1) * ((pa P) ^ 2)) + ((fX f) ^ 2)) + ((fY f) ^ 2)) + ((fZ f) ^ 2))))) / ((sqrt
  (((4 * ((pa P) ^ 2)) * ((fZ f) ^ 2)) + (((((- ((pa P) ^ 2)) + ((fX f) ^ 2)) + ((fY f) ^ 2)) + ((fZ
  f) ^ 2)) ^ 2))) ^ 5)))) / (sqrt (((((- ((pa P) ^ 2)) + ((fX f) ^ 2)) + ((fY f) ^ 2)) + ((fZ f) ^
  2)) + (sqrt (((4 * ((pa P) ^ 2)) * ((fZ f) ^ 2)) + (((((- ((pa P) ^ 2)) + ((fX f) ^ 2)) + ((fY f) ^
  2)) + ((fZ f) ^ 2)) ^ 2))))))) + ((((2 * phs P) * (((((((((1 * (fdX1 f)) * (fdX2 f)) + ((1 * (fdY1
  f)) * (fdY2 f))) + ((1 * (fdZ1 f)) * (fdZ2 f))) + ((1 * (ks_ddX_D1D2 P f)) * (fX f))) + ((1 *
  (ks_ddY_D1D2 P f)) * (fY f))) + ((1 * (ks_ddZ_D1D2 P f)) * (fZ f))) + (((1/2) * ((((((4 * (fdZ1 f))
  * (fdZ2 f)) * ((pa P) ^ 2)) + (((4 * (ks_ddZ_D1D2 P f)) * ((pa P) ^ 2)) * (fZ f))) + ((4 * ((((1 *
  (fdX1 f)) * (fX f)) + ((1 * (fdY1 f)) * (fY f))) + ((1 * (fdZ1 f)) * (fZ f)))) * ((((fdX2 f) * (fX
  f)) + ((fdY2 f) * (fY f))) + ((fdZ2 f) * (fZ f))))) + ((((((((2 * (fdX1 f)) * (fdX2 f)) + ((2 *
  (fdY1 f)) * (fdY2 f))) + ((2 * (fdZ1 f)) * (fdZ2 f))) + ((2 * (ks_ddX_D1D2 P f)) * (fX f))) + ((2 *
  (ks_ddY_D1D2 P f)) * (fY f))) + ((2 * (ks_ddZ_D1D2 P f)) * (fZ f))) * ((((- ((pa P) ^ 2)) + ((fX f)
  ^ 2)) + ((fY f) ^ 2)) + ((fZ f) ^ 2))))) / (sqrt (((4 * ((pa P) ^ 2)) * ((fZ f) ^ 2)) + (((((- ((pa
  P) ^ 2)) + ((fX f) ^ 2)) + ((fY f) ^ 2)) + ((fZ f) ^ 2)) ^ 2))))) + ((((1/2) * ((((4 * (fdZ1 f)) *
  ((pa P) ^ 2)) * (fZ f)) + ((2 * ((((fdX1 f) * (fX f)) + ((fdY1 f) * (fY f))) + ((fdZ1 f) * (fZ
  f)))) * (((((- 1) * ((pa P) ^ 2)) + ((fX f) ^ 2)) + ((fY f) ^ 2)) + ((fZ f) ^ 2))))) * (((((- 4) *
  (fdZ2 f)) * ((pa P) ^ 2)) * (fZ f)) - ((2 * ((((fdX2 f) * (fX f)) + ((fdY2 f) * (fY f))) + ((fdZ2
  f) * (fZ f)))) * (((((- 1) * ((pa P) ^ 2)) + ((fX f) ^ 2)) + ((fY f) ^ 2)) + ((fZ f) ^ 2))))) /
  ((sqrt (((4 * ((pa P) ^ 2)) * ((fZ f) ^ 2)) + (((((- ((pa P) ^ 2)) + ((fX f) ^ 2)) + ((fY f) ^ 2))
  + ((fZ f) ^ 2)) ^ 2))) ^ 3)))) * ((((((- 1) * (fdX2 f)) * (fX f)) - ((1 * (fdY2 f)) * (fY f))) -
  ((1 * (fdZ2 f)) * (fZ f))) - (((1/2) * ((((4 * (fdZ2 f)) * ((pa P) ^ 2)) * (fZ f)) + ((2 * ((((fdX2
  f) * (fX f)) + ((fdY2 f) * (fY f))) + ((fdZ2 f) * (fZ f)))) * (((((- 1) * ((pa P) ^ 2)) + ((fX f) ^
  2)) + ((fY f) ^ 2)) + ((fZ f) ^ 2))))) / (sqrt (((4 * ((pa P) ^ 2)) * ((fZ f) ^ 2)) + (((((- ((pa
  P) ^ 2)) + ((fX f) ^ 2)) + ((fY f) ^ 2)) + ((fZ f) ^ 2)) ^ 2)))))) / ((sqrt (((((- ((pa P) ^ 2)) +
  ((fX f) ^ 2)) + ((fY f) ^ 2)) + ((fZ f) ^ 2)) + (sqrt (((4 * ((pa P) ^ 2)) * ((fZ f) ^ 2)) + (((((-
  ((pa P) ^ 2)) + ((fX f) ^ 2)) + ((fY f) ^ 2)) + ((fZ f) ^ 2)) ^ 2))))) ^ 3))) + (((((phs P) *
  (((((1 * (fdX1 f)) * (fX f)) + ((1 * (fdY1 f)) * (fY f))) + ((1 * (fdZ1 f)) * (fZ f))) + (((1/2) *
  ((((4 * (fdZ1 f)) * ((pa P) ^ 2)) * (fZ f)) + ((2 * ((((fdX1 f) * (fX f)) + ((fdY1 f) * (fY f))) +
  ((fdZ1 f) * (fZ f)))) * (((((- 1) * ((pa P) ^ 2)) + ((fX f) ^ 2)) + ((fY f) ^ 2)) + ((fZ f) ^
  2))))) / (sqrt (((4 * ((pa P) ^ 2)) * ((fZ f) ^ 2)) + (((((- ((pa P) ^ 2)) + ((fX f) ^ 2)) + ((fY
  f) ^ 2)) + ((fZ f) ^ 2)) ^ 2)))))) * ((((((- 3) * (fdX2 f)) * (fX f)) - ((3 * (fdY2 f)) * (fY f)))
  - ((3 * (fdZ2 f)) * (fZ f))) - (((3/2) * ((((4 * (fdZ2 f)) * ((pa P) ^ 2)) * (fZ f)) + ((2 *
  ((((fdX2 f) * (fX f)) + ((fdY2 f) * (fY f))) + ((fdZ2 f) * (fZ f)))) * (((((- 1) * ((pa P) ^ 2)) +
  ((fX f) ^ 2)) + ((fY f) ^ 2)) + ((fZ f) ^ 2))))) / (sqrt (((4 * ((pa P) ^ 2)) * ((fZ f) ^ 2)) +
  (((((- ((pa P) ^ 2)) + ((fX f) ^ 2)) + ((fY f) ^ 2)) + ((fZ f) ^ 2)) ^ 2)))))) * ((((((- 1) * (fdX2
  f)) * (fX f)) - ((1 * (fdY2 f)) * (fY f))) - ((1 * (fdZ2 f)) * (fZ f))) - (((1/2) * ((((4 * (fdZ2
  f)) * ((pa P) ^ 2)) * (fZ f)) + ((2 * ((((fdX2 f) * (fX f)) + ((fdY2 f) * (fY f))) + ((fdZ2 f) *
  (fZ f)))) * (((((- 1) * ((pa P) ^ 2)) + ((fX f) ^ 2)) + ((fY f) ^ 2)) + ((fZ f) ^ 2))))) / (sqrt
  (((4 * ((pa P) ^ 2)) * ((fZ f) ^ 2)) + (((((- ((pa P) ^ 2)) + ((fX f) ^ 2)) + ((fY f) ^ 2)) + ((fZ
  f) ^ 2)) ^ 2)))))) / ((sqrt (((((- ((pa P) ^ 2)) + ((fX f) ^ 2)) + ((fY f) ^ 2)) + ((fZ f) ^ 2)) +
  (sqrt (((4 * ((pa P) ^ 2)) * ((fZ f) ^ 2)) + (((((- ((pa P) ^ 2)) + ((fX f) ^ 2)) + ((fY f) ^ 2)) +
  ((fZ f) ^ 2)) ^ 2))))) ^ 5)).

(* /repo/Src/Main/Modules/Physics/Free_Data/fd_KerrSchild_R_X_Y_Z.c:2309-2577 *)
Definition ks_dddR_D1D1D2 (P : kspar) (f : ksarg) : R :=
  ((((((phs P) * (((((((((((((((1 * (fdX2 f)) * (ks_ddX_D1D1 P f)) + ((1 * (fdY2 f)) * (ks_ddY_D1D1 P
  f))) + ((1 * (fdZ2 f)) * (ks_ddZ_D1D1 P f))) + ((2 * (fdX1 f)) * (ks_ddX_D1D2 P f))) + ((2 * (fdY1
  f)) * (ks_ddY_D1D2 P f))) + ((2 * (fdZ1 f)) * (ks_ddZ_D1D2 P f))) + ((1 * (ks_dddX_D1D1D2 P f)) *
  (fX f))) + ((1 * (ks_dddY_D1D1D2 P f)) * (fY f))) + ((1 * (ks_dddZ_D1D1D2 P f)) * (fZ f))) +
  (((1/2) * (((((((((4 * (fdZ2 f)) * (ks_ddZ_D1D1 P f)) * ((pa P) ^ 2)) + (((8 * (fdZ1 f)) *
  (ks_ddZ_D1D2 P f)) * ((pa P) ^ 2))) + (((4 * (ks_dddZ_D1D1D2 P f)) * ((pa P) ^ 2)) * (fZ f))) + ((4
  * ((((fdX2 f) * (fX f)) + ((fdY2 f) * (fY f))) + ((fdZ2 f) * (fZ f)))) * ((((((1 * ((fdX1 f) ^ 2))
  + (1 * ((fdY1 f) ^ 2))) + (1 * ((fdZ1 f) ^ 2))) + ((1 * (ks_ddX_D1D1 P f)) * (fX f))) + ((1 *
  (ks_ddY_D1D1 P f)) * (fY f))) + ((1 * (ks_ddZ_D1D1 P f)) * (fZ f))))) + ((4 * ((((1 * (fdX1 f)) *
  (fX f)) + ((1 * (fdY1 f)) * (fY f))) + ((1 * (fdZ1 f)) * (fZ f)))) * (((((((fdX1 f) * (fdX2 f)) +
  ((fdY1 f) * (fdY2 f))) + ((fdZ1 f) * (fdZ2 f))) + ((ks_ddX_D1D2 P f) * (fX f))) + ((ks_ddY_D1D2 P
  f) * (fY f))) + ((ks_ddZ_D1D2 P f) * (fZ f))))) + ((4 * ((((fdX1 f) * (fX f)) + ((fdY1 f) * (fY
  f))) + ((fdZ1 f) * (fZ f)))) * (((((((1 * (fdX1 f)) * (fdX2 f)) + ((1 * (fdY1 f)) * (fdY2 f))) +
  ((1 * (fdZ1 f)) * (fdZ2 f))) + ((1 * (ks_ddX_D1D2 P f)) * (fX f))) + ((1 * (ks_ddY_D1D2 P f)) * (fY
  f))) + ((1 * (ks_ddZ_D1D2 P f)) * (fZ f))))) + (((((((((((2 * (fdX2 f)) * (ks_ddX_D1D1 P f)) + ((2
  * (fdY2 f)) * (ks_ddY_D1D1 P f))) + ((2 * (fdZ2 f)) * (ks_ddZ_D1D1 P f))) + ((4 * (fdX1 f)) *
  (ks_ddX_D1D2 P f))) + ((4 * (fdY1 f)) * (ks_ddY_D1D2 P f))) + ((4 * (fdZ1 f)) * (ks_ddZ_D1D2 P f)))
  + ((2 * (ks_dddX_D1D1D2 P f)) * (fX f))) + ((2 * (ks_dddY_D1D1D2 P f)) * (fY f))) + ((2 *
  (ks_dddZ_D1D1D2 P f)) * (fZ f))) * ((((- ((pa P) ^ 2)) + ((fX f) ^ 2)) + ((fY f) ^ 2)) + ((fZ f) ^
  2))))) / (sqrt (((4 * ((pa P) ^ 2)) * ((fZ f) ^ 2)) + (((((- ((pa P) ^ 2)) + ((fX f) ^ 2)) + ((fY
  f) ^ 2)) + ((fZ f) ^ 2)) ^ 2))))) + ((((1/2) * ((((((4 * (fdZ1 f)) * (fdZ2 f)) * ((pa P) ^ 2)) +
  (((4 * (ks_ddZ_D1D2 P f)) * ((pa P) ^ 2)) * (fZ f))) + ((4 * ((((1 * (fdX1 f)) * (fX f)) + ((1 *
  (fdY1 f)) * (fY f))) + ((1 * (fdZ1 f)) * (fZ f)))) * ((((fdX2 f) * (fX f)) + ((fdY2 f) * (fY f))) +
  ((fdZ2 f) * (fZ f))))) + ((((((((2 * (fdX1 f)) * (fdX2 f)) + ((2 * (fdY1 f)) * (fdY2 f))) + ((2 *
  (fdZ1 f)) * (fdZ2 f))) + ((2 * (ks_ddX_D1D2 P f)) * (fX f))) + ((2 * (ks_ddY_D1D2 P f)) * (fY f)))
  + ((2 * (ks_ddZ_D1D2 P f)) * (fZ f))) * ((((- ((pa P) ^ 2)) + ((fX f) ^ 2)) + ((fY f) ^ 2)) + ((fZ
  f) ^ 2))))) * (((((- 4) * (fdZ1 f)) * ((pa P) ^ 2)) * (fZ f)) - ((2 * ((((fdX1 f) * (fX f)) +
  ((fdY1 f) * (fY f))) + ((fdZ1 f) * (fZ f)))) * (((((- 1) * ((pa P) ^ 2)) + ((fX f) ^ 2)) + ((fY f)
  ^ 2)) + ((fZ f) ^ 2))))) / ((sqrt (((4 * ((pa P) ^ 2)) * ((fZ f) ^ 2)) + (((((- ((pa P) ^ 2)) +
  ((fX f) ^ 2)) + ((fY f) ^ 2)) + ((fZ f) ^ 2)) ^ 2))) ^ 3))) + ((((1/2) * (((((((- 4) * (fdZ1 f)) *
  (fdZ2 f)) * ((pa P) ^ 2)) - (((4 * (ks_ddZ_D1D2 P f)) * ((pa P) ^ 2)) * (fZ f))) - ((4 * ((((1 *
  (fdX1 f)) * (fX f)) + ((1 * (fdY1 f)) * (fY f))) + ((1 * (fdZ1 f)) * (fZ f)))) * ((((fdX2 f) * (fX
  f)) + ((fdY2 f) * (fY f))) + ((fdZ2 f) * (fZ f))))) + (((((((((- 2) * (fdX1 f)) * (fdX2 f)) - ((2 *
  (fdY1 f)) * (fdY2 f))) - ((2 * (fdZ1 f)) * (fdZ2 f))) - ((2 * (ks_ddX_D1D2 P f)) * (fX f))) - ((2 *
  (ks_ddY_D1D2 P f)) * (fY f))) - ((2 * (ks_ddZ_D1D2 P f)) * (fZ f))) * ((((- ((pa P) ^ 2)) + ((fX f)
  ^ 2)) + ((fY f) ^ 2)) + ((fZ f) ^ 2))))) * ((((4 * (fdZ1 f)) * ((pa P) ^ 2)) * (fZ f)) + ((2 *
  ((((fdX1 f) * (fX f)) + ((fdY1 f) * (fY f))) + ((fdZ1 f) * (fZ f)))) * (((((- 1) * ((pa P) ^ 2)) +
  ((fX f) ^ 2)) + ((fY f) ^ 2)) + ((fZ f) ^ 2))))) / ((sqrt (((4 * ((pa P) ^ 2)) * ((fZ f) ^ 2)) +
  (((((- ((pa P) ^ 2)) + ((fX f) ^ 2)) + ((fY f) ^ 2)) + ((fZ f) ^ 2)) ^ 2))) ^ 3))) + (((((1/2) *
  (((((- 4) * (fdZ1 f)) * ((pa P) ^ 2)) * (fZ f)) - ((2 * ((((fdX1 f) * (fX f)) + ((fdY1 f) * (fY
  f))) + ((fdZ1 f) * (fZ f)))) * (((((- 1) * ((pa P) ^ 2)) + ((fX f) ^ 2)) + ((fY f) ^ 2)) + ((fZ f)
  ^ 2))))) * ((((4 * (fdZ1 f)) * ((pa P) ^ 2)) * (fZ f)) + ((2 * ((((fdX1 f) * (fX f)) + ((fdY1 f) *
  (fY f))) + ((fdZ1 f) * (fZ f)))) * (((((- 1) * ((pa P) ^ 2)) + ((fX f) ^ 2)) + ((fY f) ^ 2)) + ((fZ
  f) ^ 2))))) * (((((- 12) * (fdZ2 f)) * ((pa P) ^ 2)) * (fZ f)) - ((6 * ((((fdX2 f) * (fX f)) +
  ((fdY2 f) * (fY f))) + ((fdZ2 f) * (fZ f)))) * (((((- 1) * ((pa P) ^ 2)) + ((fX f) ^ 2)) + ((fY f)
  ^ 2)) + ((fZ f) ^ 2))))) / ((sqrt (((4 * ((pa P) ^ 2)) * ((fZ f) ^ 2)) + (((((- ((pa P) ^ 2)) +
  ((fX f) ^ 2)) + ((fY f) ^ 2)) + ((fZ f) ^ 2)) ^ 2))) ^ 5))) + ((((1/2) * (((((4 * ((fdZ1 f) ^ 2)) *
  ((pa P) ^ 2)) + (((4 * (ks_ddZ_D1D1 P f)) * ((pa P) ^ 2)) * (fZ f))) + (4 * (((((1 * (fdX1 f)) *
  (fX f)) + ((1 * (fdY1 f)) * (fY f))) + ((1 * (fdZ1 f)) * (fZ f))) ^ 2))) + (((((((2 * ((fdX1 f) ^
  2)) + (2 * ((fdY1 f) ^ 2))) + (2 * ((fdZ1 f) ^ 2))) + ((2 * (ks_ddX_D1D1 P f)) * (fX f))) + ((2 *
  (ks_ddY_D1D1 P f)) * (fY f))) + ((2 * (ks_ddZ_D1D1 P f)) * (fZ f))) * ((((- ((pa P) ^ 2)) + ((fX f)
  ^ 2)) + ((fY f) ^ 2)) + ((fZ f) ^ 2))))) * (((((- 4) * (fdZ2 f)) * ((pa P) ^ 2)) * (fZ f)) - ((2 *
  ((((fdX2 f) * (fX f)) + ((fdY2 f) * (fY f))) + ((fdZ2 f) * (fZ f)))) * (((((- 1) * ((pa P) ^ 2)) +
  ((fX f) ^ 2)) + ((fY f) ^ 2)) + ((fZ f) ^ 2))))) / ((sqrt (((4 * ((pa P) ^ 2)) * ((fZ f) ^ 2)) +
  (((((- ((pa P) ^ 2)) + ((fX f) ^ 2)) + ((fY f) ^ 2)) + ((fZ f) ^ 2)) ^ 2))) ^ 3)))) / (sqrt (((((-
  ((pa P) ^ 2)) + ((fX f) ^ 2)) + ((fY f) ^ 2)) + ((fZ f) ^ 2)) + (sqrt (((4 * ((pa P) ^ 2)) * ((fZ
  f) ^ 2)) + (((((- ((pa P) ^ 2)) + ((fX f) ^ 2)) + ((fY f) ^ 2)) + ((fZ f) ^ 2)) ^ 2)))))) + ((((phs
  P) * (((((1 * (fdX1 f)) * (fX f)) + ((1 * (fdY1 f)) * (fY f))) + ((1 * (fdZ1 f)) * (fZ f))) +
  (((1/2) * ((((4 * (fdZ1 f)) * ((pa P) ^ 2)) * (fZ f)) + ((2 * ((((fdX1 f) * (fX f)) + ((fdY1 f) *
  (fY f))) + ((fdZ1 f) * (fZ f)))) * (((((- 1) * ((pa P) ^ 2)) + ((fX f) ^ 2)) + ((fY f) ^ 2)) + ((fZ
  f) ^ 2))))) / (sqrt (((4 * ((pa P) ^ 2)) * ((fZ f) ^ 2)) + (((((- ((pa P) ^ 2)) + ((fX f) ^ 2)) +
  ((fY f) ^ 2)) + ((fZ f) ^ 2)) ^ 2)))))) * ((((((((((- 1) * (fdX1 f)) * (fdX2 f)) - ((1 * (fdY1 f))
  * (fdY2 f))) - ((1 * (fdZ1 f)) * (fdZ2 f))) - ((1 * (ks_ddX_D1D2 P f)) * (fX f))) - ((1 *
  (ks_ddY_D1D2 P f)) * (fY f))) - ((1 * (ks_ddZ_D1D2 P f)) * (fZ f))) - (((1/2) * ((((((4 * (fdZ1 f))
  * (fdZ2 f)) * ((pa P) ^ 2)) + (((4 * (ks_ddZ_D1D2 P f)) * ((pa P) ^ 2)) * (fZ f))) + ((4 * ((((1 *
  (fdX1 f)) * (fX f)) + ((1 * (fdY1 f)) * (fY f))) + ((1 * (fdZ1 f)) * (fZ f)))) * ((((fdX2 f) * (fX
  f)) + ((fdY2 f) * (fY f))) + ((fdZ2 f) * (fZ f))))) + ((((((((2 * (fdX1 f)) * (fdX2 f)) + ((2 *
  (fdY1 f)) * (fdY2 f))) + ((2 * (fdZ1 f)) * (fdZ2 f))) + ((2 * (ks_ddX_D1D2 P f)) * (fX f))) + ((2 *
  (ks_ddY_D1D2 P f)) * (fY f))) + ((2 * (ks_ddZ_D1D2 P f)) * (fZ f))) * ((((- ((pa P) ^ 2)) + ((fX f)
  ^ 2)) + ((fY f) ^ 2)) + ((fZ f) ^ 2))))) / (sqrt (((4 * ((pa P) ^ 2)) * ((fZ f) ^ 2)) + (((((- ((pa
  P) ^ 2)) + ((fX f) ^ 2)) + ((fY f) ^ 2)) + ((fZ f) ^ 2)) ^ 2))))) - ((((1/2) * ((((4 * (fdZ1 f)) *
  ((pa P) ^ 2)) * (fZ f)) + ((2 * ((((fdX1 f) * (fX f)) + ((fdY1 f) * (fY f))) + ((fdZ1 f) * (fZ
  f)))) * (((((- 1) * ((pa P) ^ 2)) + ((fX f) ^ 2)) + ((fY f) ^ 2)) + ((fZ f) ^ 2))))) * (((((- 4) *
  (fdZ2 f)) * ((pa P) ^ 2)) * (fZ f)) - ((2 * ((((fdX2 f) * (fX f)) + ((fdY2 f) * (fY f))) + ((fdZ2
  f) * (fZ f)))) * (((((- 1) * ((pa P) ^ 2)) + ((fX f) ^ 2)) + ((fY f) ^ 2)) + ((fZ f) ^ 2))))) /
  ((sqrt (((4 * ((pa P) ^ 2)) * ((fZ f) ^ 2)) + (((((- ((pa P) ^ 2)) + ((fX f) ^ 2)) + ((fY f) ^ 2))
  + ((fZ f) ^ 2)) ^ 2))) ^ 3)))) / ((sqrt (((((- ((pa P) ^ 2)) + ((fX f) ^ 2)) + ((fY f) ^ 2)) + ((fZ
  f) ^ 2)) + (sqrt (((4 * ((pa P) ^ 2)) * ((fZ f) ^ 2)) + (((((- ((pa P) ^ 2)) + ((fX f) ^ 2)) + ((fY
  f) ^ 2)) + ((fZ f) ^ 2)) ^ 2))))) ^ 3))) + ((((phs P) * ((((((- 1) * (fdX1 f)) * (fX f)) - ((1 *
  (fdY1 f)) * (fY f))) - ((1 * (fdZ1 f)) * (fZ f))) - (((1/2) * ((((4 * (fdZ1 f)) * ((pa P) ^ 2)) *
  (fZ f)) + ((2 * ((((fdX1 f) * (fX f)) + ((fdY1 f) * (fY f))) + ((fdZ1 f) * (fZ f)))) * (((((- 1) *
  ((pa P) ^ 2)) + ((fX f) ^ 2)) + ((fY f) ^ 2)) + ((fZ f) ^ 2))))) / (sqrt (((4 * ((pa P) ^ 2)) *
  ((fZ f) ^ 2)) + (((((- ((pa P) ^ 2)) + ((fX f) ^ 2)) + ((fY f) ^ 2)) + ((fZ f) ^ 2)) ^ 2)))))) *
  (((((((((1 * (fdX1 f)) * (fdX2 f)) + ((1 * (fdY1 f)) * (fdY2 f))) + ((1 * (fdZ1 f)) * (fdZ2 f))) +
  ((1 * (ks_ddX_D1D2 P f)) * (fX f))) + ((1 * (ks_ddY_D1D2 P f)) * (fY f))) + ((1 * (ks_ddZ_D1D2 P
  f)) * (fZ f))) + (((1/2) * ((((((4 * (fdZ1 f)) * (fdZ2 f)) * ((pa P) ^ 2)) + (((4 * (ks_ddZ_D1D2 P
  f)) * ((pa P) ^ 2)) * (fZ f))) + ((4 * ((((1 * (fdX1 f)) * (fX f)) + ((1 * (fdY1 f)) * (fY f))) +
  ((1 * (fdZ1 f)) * (fZ f)))) * ((((fdX2 f) * (fX f)) + ((fdY2 f) * (fY f))) + ((fdZ2 f) * (fZ f)))))
  + ((((((((2 * (fdX1 f)) * (fdX2 f)) + ((2 * (fdY1 f)) * (fdY2 f))) + ((2 * (fdZ1 f)) * (fdZ2 f))) +
  ((2 * (ks_ddX_D1D2 P f)) * (fX f))) + ((2 * (ks_ddY_D1D2 P f)) * (fY f))) + ((2 * (ks_ddZ_D1D2 P
  f)) * (fZ f))) * ((((- ((pa P) ^ 2)) + ((fX f) ^ 2)) + ((fY f) ^ 2)) + ((fZ f) ^ 2))))) / (sqrt
  (((4 * ((pa P) ^ 2)) * ((fZ f) ^ 2)) + (((((- ((pa P) ^ 2)) + ((fX f) ^ 2)) + ((fY f) ^ 2)) + ((fZ
  f) ^ 2)) ^ 2))))) + ((((1/2) * ((((4 * (fdZ1 f)) * ((pa P) ^ 2)) * (fZ f)) + ((2 * ((((fdX1 f) *
  (fX f)) + ((fdY1 f) * (fY f))) + ((fdZ1 f) * (fZ f)))) * (((((- 1) * ((pa P) ^ 2)) + ((fX f) ^ 2))
  + ((fY f) ^ 2)) + ((fZ f) ^ 2))))) * (((((- 4) * (fdZ2 f)) * ((pa P) ^ 2)) * (fZ f)) - ((2 *
  ((((fdX2 f) * (fX f)) + ((fdY2 f) * (fY f))) + ((fdZ2 f) * (fZ f)))) * (((((- 1) * ((pa P) ^ 2)) +
  ((fX f) ^ 2)) + ((fY f) ^ 2)) + ((fZ f) ^ 2))))) / ((sqrt (((4 * ((pa P) ^ 2)) * ((fZ f) ^ 2)) +
  (((((- ((pa P) ^ 2)) + ((fX f) ^ 2)) + ((fY f) ^ 2)) + ((fZ f) ^ 2)) ^ 2))) ^ 3)))) / ((sqrt (((((-
  ((pa P) ^ 2)) + ((fX f) ^ 2)) + ((fY f) ^ 2)) + ((fZ f) ^ 2)) + (sqrt (((4 * ((pa P) ^ 2)) * ((fZ
  f) ^ 2)) + (((((- ((pa P) ^ 2)) + ((fX f) ^ 2)) + ((fY f) ^ 2)) + ((fZ f) ^ 2)) ^ 2))))) ^ 3))) +
  (((((phs P) * ((((((- 1) * (fdX1 f)) * (fX f)) - ((1 * (fdY1 f)) * (fY f))) - ((1 * (fdZ1 f)) * (fZ
  f))) - (((1/2) * ((((4 * (fdZ1 f)) * ((pa P) ^ 2)) * (fZ f)) + ((2 * ((((fdX1 f) * (fX f)) + ((fdY1
  f) * (fY f))) + ((fdZ1 f) * (fZ f)))) * (((((- 1) * ((pa P) ^ 2)) + ((fX f) ^ 2)) + ((fY f) ^ 2)) +
  ((fZ f) ^ 2))))) / (sqrt (((4 * ((pa P) ^ 2)) * ((fZ f) ^ 2)) + (((((- ((pa P) ^ 2)) + ((fX f) ^
  2)) + ((fY f) ^ 2)) + ((fZ f) ^ 2)) ^ 2)))))) * (((((1 * (fdX1 f)) * (fX f)) + ((1 * (fdY1 f)) *
  (fY f))) + ((1 * (fdZ1 f)) * (fZ f))) + (((1/2) * ((((4 * (fdZ1 f)) * ((pa P) ^ 2)) * (fZ f)) + ((2
  * ((((fdX1 f) * (fX f)) + ((fdY1 f) * (fY f))) + ((fdZ1 f) * (fZ f)))) * (((((- 1) * ((pa P) ^ 2))
  + ((fX f) ^ 2)) + ((fY f) ^ 2)) + ((fZ f) ^ 2))))) / (sqrt (((4 * ((pa P) ^ 2)) * ((fZ f) ^ 2)) +
  (((((- ((pa P) ^ 2)) + ((fX f) ^ 2)) + ((fY f) ^ 2)) + ((fZ f) ^ 2)) ^ 2)))))) * ((((((- 3) * (fdX2
  f)) * (fX f)) - ((3 * (fdY2 f)) * (fY f))) - ((3 * (fdZ2 f)) * (fZ f))) - (((3/2) * ((((4 * (fdZ2
  f)) * ((pa P) ^ 2)) * (fZ f)) + ((2 * ((((fdX2 f) * (fX f)) + ((fdY2 f) * (fY f))) + ((fdZ2 f) *
  (fZ f)))) * (((((- 1) * ((pa P) ^ 2)) + ((fX f) ^ 2)) + ((fY f) ^ 2)) + ((fZ f) ^ 2))))) / (sqrt
  (((4 * ((pa P) ^ 2)) * ((fZ f) ^ 2)) + (((((- ((pa P) ^ 2)) + ((fX f) ^ 2)) + ((fY f) ^ 2)) + ((fZ
  f) ^ 2)) ^ 2)))))) / ((sqrt (((((- ((pa P) ^ 2)) + ((fX f) ^ 2)) + ((fY f) ^ 2)) + ((fZ f) ^ 2)) +
  (sqrt (((4 * ((pa P) ^ 2)) * ((fZ f) ^ 2)) + (((((- ((pa P) ^ 2)) + ((fX f) ^ 2)) + ((fY f) ^ 2)) +
  ((fZ f) ^ 2)) ^ 2))))) ^ 5))) + ((((phs P) * ((((((((1 * ((fdX1 f) ^ 2)) + (1 * ((fdY1 f) ^ 2))) +
  (1 * ((fdZ1 f) ^ 2))) + ((1 * (ks_ddX_D1D1 P f)) * (fX f))) + ((1 * (ks_ddY_D1D1 P f)) * (fY f))) +
  ((1 * (ks_ddZ_D1D1 P f)) * (fZ f))) - ((2 * ((((((fdZ1 f) * (fZ f)) * (((((- 1) * ((pa P) ^ 2)) -
  (1 * ((fX f) ^ 2))) - (1 * ((fY f) ^ 2))) - (1 * ((fZ f) ^ 2)))) + (((fdX1 f) * (fX f)) * ((((1 *
  ((pa P) ^ 2)) - (1 * ((fX f) ^ 2))) - (1 * ((fY f) ^ 2))) - (1 * ((fZ f) ^ 2))))) + (((fdY1 f) *
  (fY f)) * ((((1 * ((pa P) ^ 2)) - (1 * ((fX f) ^ 2))) - (1 * ((fY f) ^ 2))) - (1 * ((fZ f) ^ 2)))))
  ^ 2)) / ((sqrt (((4 * ((pa P) ^ 2)) * ((fZ f) ^ 2)) + (((((- ((pa P) ^ 2)) + ((fX f) ^ 2)) + ((fY
  f) ^ 2)) + ((fZ f) ^ 2)) ^ 2))) ^ 3))) + (((1/2) * (((((4 * ((fdZ1 f) ^ 2)) * ((pa P) ^ 2)) + (((4
  * (ks_ddZ_D1D1 P f)) * ((pa P) ^ 2)) * (fZ f))) + (4 * (((((1 * (fdX1 f)) * (fX f)) + ((1 * (fdY1
  f)) * (fY f))) + ((1 * (fdZ1 f)) * (fZ f))) ^ 2))) + (((((((2 * ((fdX1 f) ^ 2)) + (2 * ((fdY1 f) ^
  2))) + (2 * ((fdZ1 f) ^ 2))) + ((2 * (ks_ddX_D1D1 P f)) * (fX f))) + ((2 * (ks_ddY_D1D1 P f)) * (fY
  f))) + ((2 * (ks_ddZ_D1D1 P f)) * (fZ f))) * ((((- ((pa P) ^ 2)) + ((fX f) ^ 2)) + ((fY f) ^ 2)) +
  ((fZ f) ^ 2))))) / (sqrt (((4 * ((pa P) ^ 2)) * ((fZ f) ^ 2)) + (((((- ((pa P) ^ 2)) + ((fX f) ^
  2)) + ((fY f) ^ 2)) + ((fZ f) ^ 2)) ^ 2)))))) * ((((((- 1) * (fdX2 f)) * (fX f)) - ((1 * (fdY2 f))
  * (fY f))) - ((1 * (fdZ2 f)) * (fZ f))) - (((1/2) * ((((4 * (fdZ2 f)) * ((pa P) ^ 2)) * (fZ f)) +
  ((2 * ((((fdX2 f) * (fX f)) + ((fdY2 f) * (fY f))) + ((fdZ2 f) * (fZ f)))) * (((((- 1) * ((pa P) ^
  2)) + ((fX f) ^ 2)) + ((fY f) ^ 2)) + ((fZ f) ^ 2))))) / (sqrt (((4 * ((pa P) ^ 2)) * ((fZ f) ^ 2))
  + (((((- ((pa P) ^ 2)) + ((fX f) ^ 2)) + ((fY f) ^ 2)) + ((fZ f) ^ 2)) ^ 2)))))) / ((sqrt (((((-
  ((pa P) ^ 2)) + ((fX f) ^ 2)) + ((fY f) ^ 2)) + ((fZ f) ^ 2)) + (sqrt (((4 * ((pa P) ^ 2)) * ((fZ
  f) ^ 2)) + (((((- ((pa P) ^ 2)) + ((fX f) ^ 2)) + ((fY f) ^ 2)) + ((fZ f) ^ 2)) ^ 2))))) ^ 3)).

(* /repo/Src/Main/Modules/Physics/Free_Data/fd_KerrSchild_R_X_Y_Z.c:2578-2857 *)
Definition ks_dddR_D0D1D2 (P : kspar) (f : ksarg) : R :=
  ((((((phs P) * ((((((((((((((((((1 * (fdX2 f)) * (ks_ddX_D0D1 P f)) + ((1 * (fdX1 f)) *
  (ks_ddX_D0D2 P f))) + ((1 * (fdX0 f)) * (ks_ddX_D1D2 P f))) + ((1 * (fdY2 f)) * (ks_ddY_D0D1 P f)))
  + ((1 * (fdY1 f)) * (ks_ddY_D0D2 P f))) + ((1 * (fdY0 f)) * (ks_ddY_D1D2 P f))) + ((1 * (fdZ2 f)) *
  (ks_ddZ_D0D1 P f))) + ((1 * (fdZ1 f)) * (ks_ddZ_D0D2 P f))) + ((1 * (fdZ0 f)) * (ks_ddZ_D1D2 P f)))
  + ((1 * (ks_dddX_D0D1D2 P f)) * (fX f))) + ((1 * (ks_dddY_D0D1D2 P f)) * (fY f))) + ((1 *
  (ks_dddZ_D0D1D2 P f)) * (fZ f))) + (((1/2) * ((((((((((4 * (fdZ2 f)) * (ks_ddZ_D0D1 P f)) * ((pa P)
  ^ 2)) + (((4 * (fdZ1 f)) * (ks_ddZ_D0D2 P f)) * ((pa P) ^ 2))) + (((4 * (fdZ0 f)) * (ks_ddZ_D1D2 P
  f)) * ((pa P) ^ 2))) + (((4 * (ks_dddZ_D0D1D2 P f)) * ((pa P) ^ 2)) * (fZ f))) + ((4 * ((((fdX2 f)
  * (fX f)) + ((fdY2 f) * (fY f))) + ((fdZ2 f) * (fZ f)))) * (((((((1 * (fdX0 f)) * (fdX1 f)) + ((1 *
  (fdY0 f)) * (fdY1 f))) + ((1 * (fdZ0 f)) * (fdZ1 f))) + ((1 * (ks_ddX_D0D1 P f)) * (fX f))) + ((1 *
  (ks_ddY_D0D1 P f)) * (fY f))) + ((1 * (ks_ddZ_D0D1 P f)) * (fZ f))))) + ((4 * ((((fdX1 f) * (fX f))
  + ((fdY1 f) * (fY f))) + ((fdZ1 f) * (fZ f)))) * (((((((1 * (fdX0 f)) * (fdX2 f)) + ((1 * (fdY0 f))
  * (fdY2 f))) + ((1 * (fdZ0 f)) * (fdZ2 f))) + ((1 * (ks_ddX_D0D2 P f)) * (fX f))) + ((1 *
  (ks_ddY_D0D2 P f)) * (fY f))) + ((1 * (ks_ddZ_D0D2 P f)) * (fZ f))))) + ((4 * ((((1 * (fdX0 f)) *
  (fX f)) + ((1 * (fdY0 f)) * (fY f))) + ((1 * (fdZ0 f)) * (fZ f)))) * (((((((fdX1 f) * (fdX2 f)) +
  ((fdY1 f) * (fdY2 f))) + ((fdZ1 f) * (fdZ2 f))) + ((ks_ddX_D1D2 P f) * (fX f))) + ((ks_ddY_D1D2 P
  f) * (fY f))) + ((ks_ddZ_D1D2 P f) * (fZ f))))) + ((((((((((((((2 * (fdX2 f)) * (ks_ddX_D0D1 P f))
  + ((2 * (fdX1 f)) * (ks_ddX_D0D2 P f))) + ((2 * (fdX0 f)) * (ks_ddX_D1D2 P f))) + ((2 * (fdY2 f)) *
  (ks_ddY_D0D1 P f))) + ((2 * (fdY1 f)) * (ks_ddY_D0D2 P f))) + ((2 * (fdY0 f)) * (ks_ddY_D1D2 P f)))
  + ((2 * (fdZ2 f)) * (ks_ddZ_D0D1 P f))) + ((2 * (fdZ1 f)) * (ks_ddZ_D0D2 P f))) + ((2 * (fdZ0 f)) *
  (ks_ddZ_D1D2 P f))) + ((2 * (ks_dddX_D0D1D2 P f)) * (fX f))) + ((2 * (ks_dddY_D0D1D2 P f)) * (fY
  f))) + ((2 * (ks_dddZ_D0D1D2 P f)) * (fZ f))) * ((((- ((pa P) ^ 2)) + ((fX f) ^ 2)) + ((fY f) ^ 2))
  + ((fZ f) ^ 2))))) / (sqrt (((4 * ((pa P) ^ 2)) * ((fZ f) ^ 2)) + (((((- ((pa P) ^ 2)) + ((fX f) ^
  2)) + ((fY f) ^ 2)) + ((fZ f) ^ 2)) ^ 2))))) + ((((1/2) * (((((((- 4) * (fdZ1 f)) * (fdZ2 f)) *
  ((pa P) ^ 2)) - (((4 * (ks_ddZ_D1D2 P f)) * ((pa P) ^ 2)) * (fZ f))) - ((4 * ((((1 * (fdX1 f)) *
  (fX f)) + ((1 * (fdY1 f)) * (fY f))) + ((1 * (fdZ1 f)) * (fZ f)))) * ((((fdX2 f) * (fX f)) + ((fdY2
  f) * (fY f))) + ((fdZ2 f) * (fZ f))))) + (((((((((- 2) * (fdX1 f)) * (fdX2 f)) - ((2 * (fdY1 f)) *
  (fdY2 f))) - ((2 * (fdZ1 f)) * (fdZ2 f))) - ((2 * (ks_ddX_D1D2 P f)) * (fX f))) - ((2 *
  (ks_ddY_D1D2 P f)) * (fY f))) - ((2 * (ks_ddZ_D1D2 P f)) * (fZ f))) * ((((- ((pa P) ^ 2)) + ((fX f)
  ^ 2)) + ((fY f) ^ 2)) + ((fZ f) ^ 2))))) * ((((4 * (fdZ0 f)) * ((pa P) ^ 2)) * (fZ f)) + ((2 *
  ((((fdX0 f) * (fX f)) + ((fdY0 f) * (fY f))) + ((fdZ0 f) * (fZ f)))) * (((((- 1) * ((pa P) ^ 2)) +
  ((fX f) ^ 2)) + ((fY f) ^ 2)) + ((fZ f) ^ 2))))) / ((sqrt (((4 * ((pa P) ^ 2)) * ((fZ f) ^ 2)) +
  (((((- ((pa P) ^ 2)) + ((fX f) ^ 2)) + ((fY f) ^ 2)) + ((fZ f) ^ 2)) ^ 2))) ^ 3))) + ((((1/2) *
  ((((((4 * (fdZ0 f)) * (fdZ2 f)) * ((pa P) ^ 2)) + (((4 * (ks_ddZ_D0D2 P f)) * ((pa P) ^ 2)) * (fZ
  f))) + ((4 * ((((1 * (fdX0 f)) * (fX f)) + ((1 * (fdY0 f)) * (fY f))) + ((1 * (fdZ0 f)) * (fZ f))))
  * ((((fdX2 f) * (fX f)) + ((fdY2 f) * (fY f))) + ((fdZ2 f) * (fZ f))))) + ((((((((2 * (fdX0 f)) *
  (fdX2 f)) + ((2 * (fdY0 f)) * (fdY2 f))) + ((2 * (fdZ0 f)) * (fdZ2 f))) + ((2 * (ks_ddX_D0D2 P f))
  * (fX f))) + ((2 * (ks_ddY_D0D2 P f)) * (fY f))) + ((2 * (ks_ddZ_D0D2 P f)) * (fZ f))) * ((((- ((pa
  P) ^ 2)) + ((fX f) ^ 2)) + ((fY f) ^ 2)) + ((fZ f) ^ 2))))) * (((((- 4) * (fdZ1 f)) * ((pa P) ^ 2))
  * (fZ f)) - ((2 * ((((fdX1 f) * (fX f)) + ((fdY1 f) * (fY f))) + ((fdZ1 f) * (fZ f)))) * (((((- 1)
  * ((pa P) ^ 2)) + ((fX f) ^ 2)) + ((fY f) ^ 2)) + ((fZ f) ^ 2))))) / ((sqrt (((4 * ((pa P) ^ 2)) *
  ((fZ f) ^ 2)) + (((((- ((pa P) ^ 2)) + ((fX f) ^ 2)) + ((fY f) ^ 2)) + ((fZ f) ^ 2)) ^ 2))) ^ 3)))
  + (((((1/2) * ((((4 * (fdZ0 f)) * ((pa P) ^ 2)) * (fZ f)) + ((2 * ((((fdX0 f) * (fX f)) + ((fdY0 f)
  * (fY f))) + ((fdZ0 f) * (fZ f)))) * (((((- 1) * ((pa P) ^ 2)) + ((fX f) ^ 2)) + ((fY f) ^ 2)) +
  ((fZ f) ^ 2))))) * (((((- 4) * (fdZ1 f)) * ((pa P) ^ 2)) * (fZ f)) - ((2 * ((((fdX1 f) * (fX f)) +
  ((fdY1 f) * (fY f))) + ((fdZ1 f) * (fZ f)))) * (((((- 1) * ((pa P) ^ 2)) + ((fX f) ^ 2)) + ((fY f)
  ^ 2)) + ((fZ f) ^ 2))))) * (((((- 12) * (fdZ2 f)) * ((pa P) ^ 2)) * (fZ f)) - ((6 * ((((fdX2 f) *
  (fX f)) + ((fdY2 f) * (fY f))) + ((fdZ2 f) * (fZ f)))) * (((((- 1) * ((pa P) ^ 2)) + ((fX f) ^ 2))
  + ((fY f) ^ 2)) + ((fZ f) ^ 2))))) / ((sqrt (((4 * ((pa P) ^ 2)) * ((fZ f) ^ 2)) + (((((- ((pa P) ^
  2)) + ((fX f) ^ 2)) + ((fY f) ^ 2)) + ((fZ f) ^ 2)) ^ 2))) ^ 5))) + ((((1/2) * ((((((4 * (fdZ0 f))
  * (fdZ1 f)) * ((pa P) ^ 2)) + (((4 * (ks_ddZ_D0D1 P f)) * ((pa P) ^ 2)) * (fZ f))) + ((4 * ((((1 *
  (fdX0 f)) * (fX f)) + ((1 * (fdY0 f)) * (fY f))) + ((1 * (fdZ0 f)) * (fZ f)))) * ((((fdX1 f) * (fX
  f)) + ((fdY1 f) * (fY f))) + ((fdZ1 f) * (fZ f))))) + ((((((((2 * (fdX0 f)) * (fdX1 f)) + ((2 *
  (fdY0 f)) * (fdY1 f))) + ((2 * (fdZ0 f)) * (fdZ1 f))) + ((2 * (ks_ddX_D0D1 P f)) * (fX f))) + ((2 *
  (ks_ddY_D0D1 P f)) * (fY f))) + ((2 * (ks_ddZ_D0D1 P f)) * (fZ f))) * ((((- ((pa P) ^ 2)) + ((fX f)
  ^ 2)) + ((fY f) ^ 2)) + ((fZ f) ^ 2))))) * (((((- 4) * (fdZ2 f)) * ((pa P) ^ 2)) * (fZ f)) - ((2 *
  ((((fdX2 f) * (fX f)) + ((fdY2 f) * (fY f))) + ((fdZ2 f) * (fZ f)))) * (((((- 1) * ((pa P) ^ 2)) +
  ((fX f) ^ 2)) + ((fY f) ^ 2)) + ((fZ f) ^ 2))))) / ((sqrt (((4 * ((pa P) ^ 2)) * ((fZ f) ^ 2)) +
  (((((- ((pa P) ^ 2)) + ((fX f) ^ 2)) + ((fY f) ^ 2)) + ((fZ f) ^ 2)) ^ 2))) ^ 3)))) / (sqrt (((((-
  ((pa P) ^ 2)) + ((fX f) ^ 2)) + ((fY f) ^ 2)) + ((fZ f) ^ 2)) + (sqrt (((4 * ((pa P) ^ 2)) * ((fZ
  f) ^ 2)) + (((((- ((pa P) ^ 2)) + ((fX f) ^ 2)) + ((fY f) ^ 2)) + ((fZ f) ^ 2)) ^ 2)))))) + ((((phs
  P) * ((((((- 1) * (fdX1 f)) * (fX f)) - ((1 * (fdY1 f)) * (fY f))) - ((1 * (fdZ1 f)) * (fZ f))) -
  (((1/2) * ((((4 * (fdZ1 f)) * ((pa P) ^ 2)) * (fZ f)) + ((2 * ((((fdX1 f) * (fX f)) + ((fdY1 f) *
  (fY f))) + ((fdZ1 f) * (fZ f)))) * (((((- 1) * ((pa P) ^ 2)) + ((fX f) ^ 2)) + ((fY f) ^ 2)) + ((fZ
  f) ^ 2))))) / (sqrt (((4 * ((pa P) ^ 2)) * ((fZ f) ^ 2)) + (((((- ((pa P) ^ 2)) + ((fX f) ^ 2)) +
  ((fY f) ^ 2)) + ((fZ f) ^ 2)) ^ 2)))))) * (((((((((1 * (fdX0 f)) * (fdX2 f)) + ((1 * (fdY0 f)) *
  (fdY2 f))) + ((1 * (fdZ0 f)) * (fdZ2 f))) + ((1 * (ks_ddX_D0D2 P f)) * (fX f))) + ((1 *
  (ks_ddY_D0D2 P f)) * (fY f))) + ((1 * (ks_ddZ_D0D2 P f)) * (fZ f))) + (((1/2) * ((((((4 * (fdZ0 f))
  * (fdZ2 f)) * ((pa P) ^ 2)) + (((4 * (ks_ddZ_D0D2 P f)) * ((pa P) ^ 2)) * (fZ f))) + ((4 * ((((1 *
  (fdX0 f)) * (fX f)) + ((1 * (fdY0 f)) * (fY f))) + ((1 * (fdZ0 f)) * (fZ f)))) * ((((fdX2 f) * (fX
  f)) + ((fdY2 f) * (fY f))) + ((fdZ2 f) * (fZ f))))) + ((((((((2 * (fdX0 f)) * (fdX2 f)) + ((2 *
  (fdY0 f)) * (fdY2 f))) + ((2 * (fdZ0 f)) * (fdZ2 f))) + ((2 * (ks_ddX_D0D2 P f)) * (fX f))) + ((2 *
  (ks_ddY_D0D2 P f)) * (fY f))) + ((2 * (ks_ddZ_D0D2 P f)) * (fZ f))) * ((((- ((pa P) ^ 2)) + ((fX f)
  ^ 2)) + ((fY f) ^ 2)) + ((fZ f) ^ 2))))) / (sqrt (((4 * ((pa P) ^ 2)) * ((fZ f) ^ 2)) + (((((- ((pa
  P) ^ 2)) + ((fX f) ^ 2)) + ((fY f) ^ 2)) + ((fZ f) ^ 2)) ^ 2))))) + ((((1/2) * ((((4 * (fdZ0 f)) *
  ((pa P) ^ 2)) * (fZ f)) + ((2 * ((((fdX0 f) * (fX f)) + ((fdY0 f) * (fY f))) + ((fdZ0 f) * (fZ
  f)))) * (((((- 1) * ((pa P) ^ 2)) + ((fX f) ^ 2)) + ((fY f) ^ 2)) + ((fZ f) ^ 2))))) * (((((- 4) *
  (fdZ2 f)) * ((pa P) ^ 2)) * (fZ f)) - ((2 * ((((fdX2 f) * (fX f)) + ((fdY2 f) * (fY f))) + ((fdZ2
  f) * (fZ f)))) * (((((- 1) * ((pa P) ^ 2)) + ((fX f) ^ 2)) + ((fY f) ^ 2)) + ((fZ f) ^ 2))))) /
  ((sqrt (((4 * ((pa P) ^ 2)) * ((fZ f) ^ 2)) + (((((- ((pa P) ^ 2)) + ((fX f) ^ 2)) + ((fY f) ^ 2))
  + ((fZ f) ^ 2)) ^ 2))) ^ 3)))) / ((sqrt (((((- ((pa P) ^ 2)) + ((fX f) ^ 2)) + ((fY f) ^ 2)) + ((fZ
  f) ^ 2)) + (sqrt (((4 * ((pa P) ^ 2)) * ((fZ f) ^ 2)) + (((((- ((pa P) ^ 2)) + ((fX f) ^ 2)) + ((fY
  f) ^ 2)) + ((fZ f) ^ 2)) ^ 2))))) ^ 3))) + ((((phs P) * (((((1 * (fdX0 f)) * (fX f)) + ((1 * (fdY0
  f)) * (fY f))) + ((1 * (fdZ0 f)) * (fZ f))) + (((1/2) * ((((4 * (fdZ0 f)) * ((pa P) ^ 2)) * (fZ f))
  + ((2 * ((((fdX0 f) * (fX f)) + ((fdY0 f) * (fY f))) + ((fdZ0 f) * (fZ f)))) * (((((- 1) * ((pa P)
  ^ 2)) + ((fX f) ^ 2)) + ((fY f) ^ 2)) + ((fZ f) ^ 2))))) / (sqrt (((4 * ((pa P) ^ 2)) * ((fZ f) ^
  2)) + (((((- ((pa P) ^ 2)) + ((fX f) ^ 2)) + ((fY f) ^ 2)) + ((fZ f) ^ 2)) ^ 2)))))) * ((((((((((-
  1) * (fdX1 f)) * (fdX2 f)) - ((1 * (fdY1 f)) * (fdY2 f))) - ((1 * (fdZ1 f)) * (fdZ2 f))) - ((1 *
  (ks_ddX_D1D2 P f)) * (fX f))) - ((1 * (ks_ddY_D1D2 P f)) * (fY f))) - ((1 * (ks_ddZ_D1D2 P f)) *
  (fZ f))) - (((1/2) * ((((((4 * (fdZ1 f)) * (fdZ2 f)) * ((pa P) ^ 2)) + (((4 * (ks_ddZ_D1D2 P f)) *
  ((pa P) ^ 2)) * (fZ f))) + ((4 * ((((1 * (fdX1 f)) * (fX f)) + ((1 * (fdY1 f)) * (fY f))) + ((1 *
  (fdZ1 f)) * (fZ f)))) * ((((fdX2 f) * (fX f)) + ((fdY2 f) * (fY f))) + ((fdZ2 f) * (fZ f))))) +
  ((((((((2 * (fdX1 f)) * (fdX2 f)) + ((2 * (fdY1 f)) * (fdY2 f))) + ((2 * (fdZ1 f)) * (fdZ2 f))) +
  ((2 * (ks_ddX_D1D2 P f)) * (fX f))) + ((2 * (ks_ddY_D1D2 P f)) * (fY f))) + ((2 * (ks_ddZ_D1D2 P
  f)) * (fZ f))) * ((((- ((pa P) ^ 2)) + ((fX f) ^ 2)) + ((fY f) ^ 2)) + ((fZ f) ^ 2))))) / (sqrt
  (((4 * ((pa P) ^ 2)) * ((fZ f) ^ 2)) + (((((- ((pa P) ^ 2)) + ((fX f) ^ 2)) + ((fY f) ^ 2)) + ((fZ
  f) ^ 2)) ^ 2))))) - ((((1/2) * ((((4 * (fdZ1 f)) * ((pa P) ^ 2)) * (fZ f)) + ((2 * ((((fdX1 f) *
  (fX f)) + ((fdY1 f) * (fY f))) + ((fdZ1 f) * (fZ f)))) * (((((- 1) * ((pa P) ^ 2)) + ((fX f) ^ 2))
  + ((fY f) ^ 2)) + ((fZ f) ^ 2))))) * (((((- 4) * (fdZ2 f)) * ((pa P) ^ 2)) * (fZ f)) - ((2 *
  ((((fdX2 f) * (fX f)) + ((fdY2 f) * (fY f))) + ((fdZ2 f) * (fZ f)))) * (((((- 1) * ((pa P) ^ 2)) +
  ((fX f) ^ 2)) + ((fY f) ^ 2)) + ((fZ f) ^ 2))))) / ((sqrt (((4 * ((pa P) ^ 2)) * ((fZ f) ^ 2)) +
  (((((- ((pa P) ^ 2)) + ((fX f) ^ 2)) + ((fY f) ^ 2)) + ((fZ f) ^ 2)) ^ 2))) ^ 3)))) / ((sqrt (((((-
  ((pa P) ^ 2)) + ((fX f) ^ 2)) + ((fY f) ^ 2)) + ((fZ f) ^ 2)) + (sqrt (((4 * ((pa P) ^ 2)) * ((fZ
  f) ^ 2)) + (((((- ((pa P) ^ 2)) + ((fX f) ^ 2)) + ((fY f) ^ 2)) + ((fZ f) ^ 2)) ^ 2))))) ^ 3))) +
  (((((phs P) * (((((1 * (fdX0 f)) * (fX f)) + ((1 * (fdY0 f)) * (fY f))) + ((1 * (fdZ0 f)) * (fZ
  f))) + (((1/2) * ((((4 * (fdZ0 f)) * ((pa P) ^ 2)) * (fZ f)) + ((2 * ((((fdX0 f) * (fX f)) + ((fdY0
  f) * (fY f))) + ((fdZ0 f) * (fZ f)))) * (((((- 1) * ((pa P) ^ 2)) + ((fX f) ^ 2)) + ((fY f) ^ 2)) +
  ((fZ f) ^ 2))))) / (sqrt (((4 * ((pa P) ^ 2)) * ((fZ f) ^ 2)) + (((((- ((pa P) ^ 2)) + ((fX f) ^
  2)) + ((fY f) ^ 2)) + ((fZ f) ^ 2)) ^ 2)))))) * ((((((- 1) * (fdX1 f)) * (fX f)) - ((1 * (fdY1 f))
  * (fY f))) - ((1 * (fdZ1 f)) * (fZ f))) - (((1/2) * ((((4 * (fdZ1 f)) * ((pa P) ^ 2)) * (fZ f)) +
  ((2 * ((((fdX1 f) * (fX f)) + ((fdY1 f) * (fY f))) + ((fdZ1 f) * (fZ f)))) * (((((- 1) * ((pa P) ^
  2)) + ((fX f) ^ 2)) + ((fY f) ^ 2)) + ((fZ f) ^ 2))))) / (sqrt (((4 * ((pa P) ^ 2)) * ((fZ f) ^ 2))
  + (((((- ((pa P) ^ 2)) + ((fX f) ^ 2)) + ((fY f) ^ 2)) + ((fZ f) ^ 2)) ^ 2)))))) * ((((((- 3) *
  (fdX2 f)) * (fX f)) - ((3 * (fdY2 f)) * (fY f))) - ((3 * (fdZ2 f)) * (fZ f))) - (((3/2) * ((((4 *
  (fdZ2 f)) * ((pa P) ^ 2)) * (fZ f)) + ((2 * ((((fdX2 f) * (fX f)) + ((fdY2 f) * (fY f))) + ((fdZ2
  f) * (fZ f)))) * (((((- 1) * ((pa P) ^ 2)) + ((fX f) ^ 2)) + ((fY f) ^ 2)) + ((fZ f) ^ 2))))) /
  (sqrt (((4 * ((pa P) ^ 2)) * ((fZ f) ^ 2)) + (((((- ((pa P) ^ 2)) + ((fX f) ^ 2)) + ((fY f) ^ 2)) +
  ((fZ f) ^ 2)) ^ 2)))))) / ((sqrt (((((- ((pa P) ^ 2)) + ((fX f) ^ 2)) + ((fY f) ^ 2)) + ((fZ f) ^
  2)) + (sqrt (((4 * ((pa P) ^ 2)) * ((fZ f) ^ 2)) + (((((- ((pa P) ^ 2)) + ((fX f) ^ 2)) + ((fY f) ^
  2)) + ((fZ f) ^ 2)) ^ 2))))) ^ 5))) + ((((phs P) * (((((((((1 * (fdX0 f)) * (fdX1 f)) + ((1 * (fdY0
  f)) * (fdY1 f))) + ((1 * (fdZ0 f)) * (fdZ1 f))) + ((1 * (ks_ddX_D0D1 P f)) * (fX f))) + ((1 *
  (ks_ddY_D0D1 P f)) * (fY f))) + ((1 * (ks_ddZ_D0D1 P f)) * (fZ f))) + (((1/2) * ((((((4 * (fdZ0 f))
  * (fdZ1 f)) * ((pa P) ^ 2)) + (((4 * (ks_ddZ_D0D1 P f)) * ((pa P) ^ 2)) * (fZ f))) + ((4 * ((((1 *
  (fdX0 f)) * (fX f)) + ((1 * (fdY0 f)) * (fY f))) + ((1 * (fdZ0 f)) * (fZ f)))) * ((((fdX1 f) * (fX
  f)) + ((fdY1 f) * (fY f))) + ((fdZ1 f) * (fZ f))))) + ((((((((2 * (fdX0 f)) * (fdX1 f)) + ((2 *
  (fdY0 f)) * (fdY1 f))) + ((2 * (fdZ0 f)) * (fdZ1 f))) + ((2 * (ks_ddX_D0D1 P f)) * (fX f))) + ((2 *
  (ks_ddY_D0D1 P f)) * (fY f))) + ((2 * (ks_ddZ_D0D1 P f)) * (fZ f))) * ((((- ((pa P) ^ 2)) + ((fX f)
  ^ 2)) + ((fY f) ^ 2)) + ((fZ f) ^ 2))))) / (sqrt (((4 * ((pa P) ^ 2)) * ((fZ f) ^ 2)) + (((((- ((pa
  P) ^ 2)) + ((fX f) ^ 2)) + ((fY f) ^ 2)) + ((fZ f) ^ 2)) ^ 2))))) + ((((1/2) * ((((4 * (fdZ0 f)) *
  ((pa P) ^ 2)) * (fZ f)) + ((2 * ((((fdX0 f) * (fX f)) + ((fdY0 f) * (fY f))) + ((fdZ0 f) * (fZ
  f)))) * (((((- 1) * ((pa P) ^ 2)) + ((fX f) ^ 2)) + ((fY f) ^ 2)) + ((fZ f) ^ 2))))) * (((((- 4) *
  (fdZ1 f)) * ((pa P) ^ 2)) * (fZ f)) - ((2 * ((((fdX1 f) * (fX f)) + ((fdY1 f) * (fY f))) + ((fdZ1
  f) * (fZ f)))) * (((((- 1) * ((pa P) ^ 2)) + ((fX f) ^ 2)) + ((fY f) ^ 2)) + ((fZ f) ^ 2))))) /
  ((sqrt (((4 * ((pa P) ^ 2)) * ((fZ f) ^ 2)) + (((((- ((pa P) ^ 2)) + ((fX f) ^ 2)) + ((fY f) ^ 2))
  + ((fZ f) ^ 2)) ^ 2))) ^ 3)))) * ((((((- 1) * (fdX2 f)) * (fX f)) - ((1 * (fdY2 f)) * (fY f))) -
  ((1 * (fdZ2 f)) * (fZ f))) - (((1/2) * ((((4 * (fdZ2 f)) * ((pa P) ^ 2)) * (fZ f)) + ((2 * ((((fdX2
  f) * (fX f)) + ((fdY2 f) * (fY f))) + ((fdZ2 f) * (fZ f)))) * (((((- 1) * ((pa P) ^ 2)) + ((fX f) ^
  2)) + ((fY f) ^ 2)) + ((fZ f) ^ 2))))) / (sqrt (((4 * ((pa P) ^ 2)) * ((fZ f) ^ 2)) + (((((- ((pa
  P) ^ 2)) + ((fX f) ^ 2)) + ((fY f) ^ 2)) + ((fZ f) ^ 2)) ^ 2)))))) / ((sqrt (((((- ((pa P) ^ 2)) +
  ((fX f) ^ 2)) + ((fY f) ^ 2)) + ((fZ f) ^ 2)) + (sqrt (((4 * ((pa P) ^ 2)) * ((fZ f) ^ 2)) + (((((-
  ((pa P) ^ 2)) + ((fX f) ^ 2)) + ((fY f) ^ 2)) + ((fZ f) ^ 2)) ^ 2))))) ^ 3)).

(* /repo/Src/Main/Modules/Physics/Free_Data/fd_KerrSchild_R_X_Y_Z.c:2858-3062 *)
Definition ks_dddR_D0D1D1 (P : kspar) (f : ksarg) : R :=
  ((((((phs P) * (((((((((- 1) * ((fdX1 f) ^ 2)) - (1 * ((fdY1 f) ^ 2))) - (1 * ((fdZ1 f) ^ 2))) -
  ((1 * (ks_ddX_D1D1 P f)) * (fX f))) - ((1 * (ks_ddY_D1D1 P f)) * (fY f))) - ((1 * (ks_ddZ_D1D1 P
  f)) * (fZ f))) + ((2 * ((((((fdZ1 f) * (fZ f)) * (((((- 1) * ((pa P) ^ 2)) - (1 * ((fX f) ^ 2))) -
  (1 * ((fY f) ^ 2))) - (1 * ((fZ f) ^ 2)))) + (((fdX1 f) * (fX f)) * ((((1 * ((pa P) ^ 2)) - (1 *
  ((fX f) ^ 2))) - (1 * ((fY f) ^ 2))) - (1 * ((fZ f) ^ 2))))) + (((fdY1 f) * (fY f)) * ((((1 * ((pa
  P) ^ 2)) - (1 * ((fX f) ^ 2))) - (1 * ((fY f) ^ 2))) - (1 * ((fZ f) ^ 2))))) ^ 2)) / ((sqrt (((4 *
  ((pa P) ^ 2)) * ((fZ f) ^ 2)) + (((((- ((pa P) ^ 2)) + ((fX f) ^ 2)) + ((fY f) ^ 2)) + ((fZ f) ^
  2)) ^ 2))) ^ 3))) - (((1/2) * (((((4 * ((fdZ1 f) ^ 2)) * ((pa P) ^ 2)) + (((4 * (ks_ddZ_D1D1 P f))
  * ((pa P) ^ 2)) * (fZ f))) + (4 * (((((1 * (fdX1 f)) * (fX f)) + ((1 * (fdY1 f)) * (fY f))) + ((1 *
  (fdZ1 f)) * (fZ f))) ^ 2))) + (((((((2 * ((fdX1 f) ^ 2)) + (2 * ((fdY1 f) ^ 2))) + (2 * ((fdZ1 f) ^
  2))) + ((2 * (ks_ddX_D1D1 P f)) * (fX f))) + ((2 * (ks_ddY_D1D1 P f)) * (fY f))) + ((2 *
  (ks_ddZ_D1D1 P f)) * (fZ f))) * ((((- ((pa P) ^ 2)) + ((fX f) ^ 2)) + ((fY f) ^ 2)) + ((fZ f) ^
  2))))) / (sqrt (((4 * ((pa P) ^ 2)) * ((fZ f) ^ 2)) + (((((- ((pa P) ^ 2)) + ((fX f) ^ 2)) + ((fY
  f) ^ 2)) + ((fZ f) ^ 2)) ^ 2)))))) * (((((1 * (fdX0 f)) * (fX f)) + ((1 * (fdY0 f)) * (fY f))) +
  ((1 * (fdZ0 f)) * (fZ f))) + (((1/2) * ((((4 * (fdZ0 f)) * ((pa P) ^ 2)) * (fZ f)) + ((2 * ((((fdX0
  f) * (fX f)) + ((fdY0 f) * (fY f))) + ((fdZ0 f) * (fZ f)))) * (((((- 1) * ((pa P) ^ 2)) + ((fX f) ^
  2)) + ((fY f) ^ 2)) + ((fZ f) ^ 2))))) / (sqrt (((4 * ((pa P) ^ 2)) * ((fZ f) ^ 2)) + (((((- ((pa
  P) ^ 2)) + ((fX f) ^ 2)) + ((fY f) ^ 2)) + ((fZ f) ^ 2)) ^ 2)))))) / ((sqrt (((((- ((pa P) ^ 2)) +
  ((fX f) ^ 2)) + ((fY f) ^ 2)) + ((fZ f) ^ 2)) + (sqrt (((4 * ((pa P) ^ 2)) * ((fZ f) ^ 2)) + (((((-
  ((pa P) ^ 2)) + ((fX f) ^ 2)) + ((fY f) ^ 2)) + ((fZ f) ^ 2)) ^ 2))))) ^ 3)) + (((phs P) *
  ((((((((((((((1 * (fdX0 f)) * (ks_ddX_D1D1 P f)) + ((1 * (fdY0 f)) * (ks_ddY_D1D1 P f))) + ((1 *
  (fdZ0 f)) * (ks_ddZ_D1D1 P f))) + ((2 * (fdX1 f)) * (ks_ddX_D0D1 P f))) + ((2 * (fdY1 f)) *
  (ks_ddY_D0D1 P f))) + ((2 * (fdZ1 f)) * (ks_ddZ_D0D1 P f))) + ((1 * (ks_dddX_D0D1D1 P f)) * (fX
  f))) + ((1 * (ks_dddY_D0D1D1 P f)) * (fY f))) + ((1 * (ks_dddZ_D0D1D1 P f)) * (fZ f))) + (((1/2) *
  ((((((((4 * (fdZ0 f)) * (ks_ddZ_D1D1 P f)) * ((pa P) ^ 2)) + (((8 * (fdZ1 f)) * (ks_ddZ_D0D1 P f))
  * ((pa P) ^ 2))) + (((4 * (ks_dddZ_D0D1D1 P f)) * ((pa P) ^ 2)) * (fZ f))) + ((4 * ((((1 * (fdX0
  f)) * (fX f)) + ((1 * (fdY0 f)) * (fY f))) + ((1 * (fdZ0 f)) * (fZ f)))) * (((((((fdX1 f) ^ 2) +
  ((fdY1 f) ^ 2)) + ((fdZ1 f) ^ 2)) + ((ks_ddX_D1D1 P f) * (fX f))) + ((ks_ddY_D1D1 P f) * (fY f))) +
  ((ks_ddZ_D1D1 P f) * (fZ f))))) + ((8 * ((((fdX1 f) * (fX f)) + ((fdY1 f) * (fY f))) + ((fdZ1 f) *
  (fZ f)))) * (((((((1 * (fdX0 f)) * (fdX1 f)) + ((1 * (fdY0 f)) * (fdY1 f))) + ((1 * (fdZ0 f)) *
  (fdZ1 f))) + ((1 * (ks_ddX_D0D1 P f)) * (fX f))) + ((1 * (ks_ddY_D0D1 P f)) * (fY f))) + ((1 *
  (ks_ddZ_D0D1 P f)) * (fZ f))))) + (((((((((((2 * (fdX0 f)) * (ks_ddX_D1D1 P f)) + ((2 * (fdY0 f)) *
  (ks_ddY_D1D1 P f))) + ((2 * (fdZ0 f)) * (ks_ddZ_D1D1 P f))) + ((4 * (fdX1 f)) * (ks_ddX_D0D1 P f)))
  + ((4 * (fdY1 f)) * (ks_ddY_D0D1 P f))) + ((4 * (fdZ1 f)) * (ks_ddZ_D0D1 P f))) + ((2 *
  (ks_dddX_D0D1D1 P f)) * (fX f))) + ((2 * (ks_dddY_D0D1D1 P f)) * (fY f))) + ((2 * (ks_dddZ_D0D1D1 P
  f)) * (fZ f))) * ((((- ((pa P) ^ 2)) + ((fX f) ^ 2)) + ((fY f) ^ 2)) + ((fZ f) ^ 2))))) / (sqrt
  (((4 * ((pa P) ^ 2)) * ((fZ f) ^ 2)) + (((((- ((pa P) ^ 2)) + ((fX f) ^ 2)) + ((fY f) ^ 2)) + ((fZ
  f) ^ 2)) ^ 2))))) + ((((1/2) * ((((((- 4) * ((fdZ1 f) ^ 2)) * ((pa P) ^ 2)) - (((4 * (ks_ddZ_D1D1 P
  f)) * ((pa P) ^ 2)) * (fZ f))) - (4 * (((((fdX1 f) * (fX f)) + ((fdY1 f) * (fY f))) + ((fdZ1 f) *
  (fZ f))) ^ 2))) + ((((((((- 2) * ((fdX1 f) ^ 2)) - (2 * ((fdY1 f) ^ 2))) - (2 * ((fdZ1 f) ^ 2))) -
  ((2 * (ks_ddX_D1D1 P f)) * (fX f))) - ((2 * (ks_ddY_D1D1 P f)) * (fY f))) - ((2 * (ks_ddZ_D1D1 P
  f)) * (fZ f))) * ((((- ((pa P) ^ 2)) + ((fX f) ^ 2)) + ((fY f) ^ 2)) + ((fZ f) ^ 2))))) * ((((4 *
  (fdZ0 f)) * ((pa P) ^ 2)) * (fZ f)) + ((2 * ((((fdX0 f) * (fX f)) + ((fdY0 f) * (fY f))) + ((fdZ0
  f) * (fZ f)))) * (((((- 1) * ((pa P) ^ 2)) + ((fX f) ^ 2)) + ((fY f) ^ 2)) + ((fZ f) ^ 2))))) /
  ((sqrt (((4 * ((pa P) ^ 2)) * ((fZ f) ^ 2)) + (((((- ((pa P) ^ 2)) + ((fX f) ^ 2)) + ((fY f) ^ 2))
  + ((fZ f) ^ 2)) ^ 2))) ^ 3))) + (((1 * ((((((4 * (fdZ0 f)) * (fdZ1 f)) * ((pa P) ^ 2)) + (((4 *
  (ks_ddZ_D0D1 P f)) * ((pa P) ^ 2)) * (fZ f))) + ((4 * ((((1 * (fdX0 f)) * (fX f)) + ((1 * (fdY0 f))
  * (fY f))) + ((1 * (fdZ0 f)) * (fZ f)))) * ((((fdX1 f) * (fX f)) + ((fdY1 f) * (fY f))) + ((fdZ1 f)
  * (fZ f))))) + ((((((((2 * (fdX0 f)) * (fdX1 f)) + ((2 * (fdY0 f)) * (fdY1 f))) + ((2 * (fdZ0 f)) *
  (fdZ1 f))) + ((2 * (ks_ddX_D0D1 P f)) * (fX f))) + ((2 * (ks_ddY_D0D1 P f)) * (fY f))) + ((2 *
  (ks_ddZ_D0D1 P f)) * (fZ f))) * ((((- ((pa P) ^ 2)) + ((fX f) ^ 2)) + ((fY f) ^ 2)) + ((fZ f) ^
  2))))) * (((((- 4) * (fdZ1 f)) * ((pa P) ^ 2)) * (fZ f)) - ((2 * ((((fdX1 f) * (fX f)) + ((fdY1 f)
  * (fY f))) + ((fdZ1 f) * (fZ f)))) * (((((- 1) * ((pa P) ^ 2)) + ((fX f) ^ 2)) + ((fY f) ^ 2)) +
  ((fZ f) ^ 2))))) / ((sqrt (((4 * ((pa P) ^ 2)) * ((fZ f) ^ 2)) + (((((- ((pa P) ^ 2)) + ((fX f) ^
  2)) + ((fY f) ^ 2)) + ((fZ f) ^ 2)) ^ 2))) ^ 3))) + (((((1/2) * ((((4 * (fdZ0 f)) * ((pa P) ^ 2)) *
  (fZ f)) + ((2 * ((((fdX0 f) * (fX f)) + ((fdY0 f) * (fY f))) + ((fdZ0 f) * (fZ f)))) * (((((- 1) *
  ((pa P) ^ 2)) + ((fX f) ^ 2)) + ((fY f) ^ 2)) + ((fZ f) ^ 2))))) * (((((- 12) * (fdZ1 f)) * ((pa P)
  ^ 2)) * (fZ f)) - ((6 * ((((fdX1 f) * (fX f)) + ((fdY1 f) * (fY f))) + ((fdZ1 f) * (fZ f)))) *
  (((((- 1) * ((pa P) ^ 2)) + ((fX f) ^ 2)) + ((fY f) ^ 2)) + ((fZ f) ^ 2))))) * (((((- 4) * (fdZ1
  f)) * ((pa P) ^ 2)) * (fZ f)) - ((2 * ((((fdX1 f) * (fX f)) + ((fdY1 f) * (fY f))) + ((fdZ1 f) *
  (fZ f)))) * (((((- 1) * ((pa P) ^ 2)) + ((fX f) ^ 2)) + ((fY f) ^ 2)) + ((fZ f) ^ 2))))) / ((sqrt
  (((4 * ((pa P) ^ 2)) * ((fZ f) ^ 2)) + (((((- ((pa P) ^ 2)) + ((fX f) ^ 2)) + ((fY f) ^ 2)) + ((fZ
  f) ^ 2)) ^ 2))) ^ 5)))) / (sqrt (((((- ((pa P) ^ 2)) + ((fX f) ^ 2)) + ((fY f) ^ 2)) + ((fZ f) ^
  2)) + (sqrt (((4 * ((pa P) ^ 2)) * ((fZ f) ^ 2)) + (((((- ((pa P) ^ 2)) + ((fX f) ^ 2)) + ((fY f) ^
  2)) + ((fZ f) ^ 2)) ^ 2))))))) + ((((2 * phs P) * (((((((((1 * (fdX0 f)) * (fdX1 f)) + ((1 * (fdY0
  f)) * (fdY1 f))) + ((1 * (fdZ0 f)) * (fdZ1 f))) + ((1 * (ks_ddX_D0D1 P f)) * (fX f))) + ((1 *
  (ks_ddY_D0D1 P f)) * (fY f))) + ((1 * (ks_ddZ_D0D1 P f)) * (fZ f))) + (((1/2) * ((((((4 * (fdZ0 f))
  * (fdZ1 f)) * ((pa P) ^ 2)) + (((4 * (ks_ddZ_D0D1 P f)) * ((pa P) ^ 2)) * (fZ f))) + ((4 * ((((1 *
  (fdX0 f)) * (fX f)) + ((1 * (fdY0 f)) * (fY f))) + ((1 * (fdZ0 f)) * (fZ f)))) * ((((fdX1 f) * (fX
  f)) + ((fdY1 f) * (fY f))) + ((fdZ1 f) * (fZ f))))) + ((((((((2 * (fdX0 f)) * (fdX1 f)) + ((2 *
  (fdY0 f)) * (fdY1 f))) + ((2 * (fdZ0 f)) * (fdZ1 f))) + ((2 * (ks_ddX_D0D1 P f)) * (fX f))) + ((2 *
  (ks_ddY_D0D1 P f)) * (fY f))) + ((2 * (ks_ddZ_D0D1 P f)) * (fZ f))) * ((((- ((pa P) ^ 2)) + ((fX f)
  ^ 2)) + ((fY f) ^ 2)) + ((fZ f) ^ 2))))) / (sqrt (((4 * ((pa P) ^ 2)) * ((fZ f) ^ 2)) + (((((- ((pa
  P) ^ 2)) + ((fX f) ^ 2)) + ((fY f) ^ 2)) + ((fZ f) ^ 2)) ^ 2))))) + ((((1/2) * ((((4 * (fdZ0 f)) *
  ((pa P) ^ 2)) * (fZ f)) + ((2 * ((((fdX0 f) * (fX f)) + ((fdY0 f) * (fY f))) + ((fdZ0 f) * (fZ
  f)))) * (((((- 1) * ((pa P) ^ 2)) + ((fX f) ^ 2)) + ((fY f) ^ 2)) + ((fZ f) ^ 2))))) * (((((- 4) *
  (fdZ1 f)) * ((pa P) ^ 2)) * (fZ f)) - ((2 * ((((fdX1 f) * (fX f)) + ((fdY1 f) * (fY f))) + ((fdZ1
  f) * (fZ f)))) * (((((- 1) * ((pa P) ^ 2)) + ((fX f) ^ 2)) + ((fY f) ^ 2)) + ((fZ f) ^ 2))))) /
  ((sqrt (((4 * ((pa P) ^ 2)) * ((fZ f) ^ 2)) + (((((- ((pa P) ^ 2)) + ((fX f) ^ 2)) + ((fY f) ^ 2))
  + ((fZ f) ^ 2)) ^ 2))) ^ 3)))) * ((((((- 1) * (fdX1 f)) * (fX f)) - ((1 * (fdY1 f)) * (fY f))) -
  ((1 * (fdZ1 f)) * (fZ f))) - (((1/2) * ((((4 * (fdZ1 f)) * ((pa P) ^ 2)) * (fZ f)) + ((2 * ((((fdX1
  f) * (fX f)) + ((fdY1 f) * (fY f))) + ((fdZ1 f) * (fZ f)))) * (((((- 1) * ((pa P) ^ 2)) + ((fX f) ^
  2)) + ((fY f) ^ 2)) + ((fZ f) ^ 2))))) / (sqrt (((4 * ((pa P) ^ 2)) * ((fZ f) ^ 2)) + (((((- ((pa
  P) ^ 2)) + ((fX f) ^ 2)) + ((fY f) ^ 2)) + ((fZ f) ^ 2)) ^ 2)))))) / ((sqrt (((((- ((pa P) ^ 2)) +
  ((fX f) ^ 2)) + ((fY f) ^ 2)) + ((fZ f) ^ 2)) + (sqrt (((4 * ((pa P) ^ 2)) * ((fZ f) ^ 2)) + (((((-
  ((pa P) ^ 2)) + ((fX f) ^ 2)) + ((fY f) ^ 2)) + ((fZ f) ^ 2)) ^ 2))))) ^ 3))) + (((((phs P) *
  (((((1 * (fdX0 f)) * (fX f)) + ((1 * (fdY0 f)) * (fY f))) + ((1 * (fdZ0 f)) * (fZ f))) + (((1/2) *
  ((((4 * (fdZ0 f)) * ((pa P) ^ 2)) * (fZ f)) + ((2 * ((((fdX0 f) * (fX f)) + ((fdY0 f) * (fY f))) +
  ((fdZ0 f) * (fZ f)))) * (((((- 1) * ((pa P) ^ 2)) + ((fX f) ^ 2)) + ((fY f) ^ 2)) + ((fZ f) ^
  2))))) / (sqrt (((4 * ((pa P) ^ 2)) * ((fZ f) ^ 2)) + (((((- ((pa P) ^ 2)) + ((fX f) ^ 2)) + ((fY
  f) ^ 2)) + ((fZ f) ^ 2)) ^ 2)))))) * ((((((- 3) * (fdX1 f)) * (fX f)) - ((3 * (fdY1 f)) * (fY f)))
  - ((3 * (fdZ1 f)) * (fZ f))) - (((3/2) * ((((4 * (fdZ1 f)) * ((pa P) ^ 2)) * (fZ f)) + ((2 *
  ((((fdX1 f) * (fX f)) + ((fdY1 f) * (fY f))) + ((fdZ1 f) * (fZ f)))) * (((((- 1) * ((pa P) ^ 2)) +
  ((fX f) ^ 2)) + ((fY f) ^ 2)) + ((fZ f) ^ 2))))) / (sqrt (((4 * ((pa P) ^ 2)) * ((fZ f) ^ 2)) +
  (((((- ((pa P) ^ 2)) + ((fX f) ^ 2)) + ((fY f) ^ 2)) + ((fZ f) ^ 2)) ^ 2)))))) * ((((((- 1) * (fdX1
  f)) * (fX f)) - ((1 * (fdY1 f)) * (fY f))) - ((1 * (fdZ1 f)) * (fZ f))) - (((1/2) * ((((4 * (fdZ1
  f)) * ((pa P) ^ 2)) * (fZ f)) + ((2 * ((((fdX1 f) * (fX f)) + ((fdY1 f) * (fY f))) + ((fdZ1 f) *
  (fZ f)))) * (((((- 1) * ((pa P) ^ 2)) + ((fX f) ^ 2)) + ((fY f) ^ 2)) + ((fZ f) ^ 2))))) / (sqrt
  (((4 * ((pa P) ^ 2)) * ((fZ f) ^ 2)) + (((((- ((pa P) ^ 2)) + ((fX f) ^ 2)) + ((fY f) ^ 2)) + ((fZ
  f) ^ 2)) ^ 2)))))) / ((sqrt (((((- ((pa P) ^ 2)) + ((fX f) ^ 2)) + ((fY f) ^ 2)) + ((fZ f) ^ 2)) +
  (sqrt (((4 * ((pa P) ^ 2)) * ((fZ f) ^ 2)) + (((((- ((pa P) ^ 2)) + ((fX f) ^ 2)) + ((fY f) ^ 2)) +
  ((fZ f) ^ 2)) ^ 2))))) ^ 5)).

(* /repo/Src/Main/Modules/Physics/Free_Data/fd_KerrSchild_R_X_Y_Z.c:3063-3331 *)
Definition ks_dddR_D0D1D0 (P : kspar) (f : ksarg) : R :=
  (((((((phs P) * ((((((- 1) * (fdX0 f)) * (fX f)) - ((1 * (fdY0 f)) * (fY f))) - ((1 * (fdZ0 f)) *
  (fZ f))) - (((1/2) * ((((4 * (fdZ0 f)) * ((pa P) ^ 2)) * (fZ f)) + ((2 * ((((fdX0 f) * (fX f)) +
  ((fdY0 f) * (fY f))) + ((fdZ0 f) * (fZ f)))) * (((((- 1) * ((pa P) ^ 2)) + ((fX f) ^ 2)) + ((fY f)
  ^ 2)) + ((fZ f) ^ 2))))) / (sqrt (((4 * ((pa P) ^ 2)) * ((fZ f) ^ 2)) + (((((- ((pa P) ^ 2)) + ((fX
  f) ^ 2)) + ((fY f) ^ 2)) + ((fZ f) ^ 2)) ^ 2)))))) * (((((((((1 * (fdX0 f)) * (fdX1 f)) + ((1 *
  (fdY0 f)) * (fdY1 f))) + ((1 * (fdZ0 f)) * (fdZ1 f))) + ((1 * (ks_ddX_D0D1 P f)) * (fX f))) + ((1 *
  (ks_ddY_D0D1 P f)) * (fY f))) + ((1 * (ks_ddZ_D0D1 P f)) * (fZ f))) + (((1/2) * ((((((4 * (fdZ0 f))
  * (fdZ1 f)) * ((pa P) ^ 2)) + (((4 * (ks_ddZ_D0D1 P f)) * ((pa P) ^ 2)) * (fZ f))) + ((4 * ((((1 *
  (fdX0 f)) * (fX f)) + ((1 * (fdY0 f)) * (fY f))) + ((1 * (fdZ0 f)) * (fZ f)))) * ((((fdX1 f) * (fX
  f)) + ((fdY1 f) * (fY f))) + ((fdZ1 f) * (fZ f))))) + ((((((((2 * (fdX0 f)) * (fdX1 f)) + ((2 *
  (fdY0 f)) * (fdY1 f))) + ((2 * (fdZ0 f)) * (fdZ1 f))) + ((2 * (ks_ddX_D0D1 P f)) * (fX f))) + ((2 *
  (ks_ddY_D0D1 P f)) * (fY f))) + ((2 * (ks_ddZ_D0D1 P f)) * (fZ f))) * ((((- ((pa P) ^ 2)) + ((fX f)
  ^ 2)) + ((fY f) ^ 2)) + ((fZ f) ^ 2))))) / (sqrt (((4 * ((pa P) ^ 2)) * ((fZ f) ^ 2)) + (((((- ((pa
  P) ^ 2)) + ((fX f) ^ 2)) + ((fY f) ^ 2)) + ((fZ f) ^ 2)) ^ 2))))) + ((((1/2) * ((((4 * (fdZ0 f)) *
  ((pa P) ^ 2)) * (fZ f)) + ((2 * ((((fdX0 f) * (fX f)) + ((fdY0 f) * (fY f))) + ((fdZ0 f) * (fZ
  f)))) * (((((- 1) * ((pa P) ^ 2)) + ((fX f) ^ 2)) + ((fY f) ^ 2)) + ((fZ f) ^ 2))))) * (((((- 4) *
  (fdZ1 f)) * ((pa P) ^ 2)) * (fZ f)) - ((2 * ((((fdX1 f) * (fX f)) + ((fdY1 f) * (fY f))) + ((fdZ1
  f) * (fZ f)))) * (((((- 1) * ((pa P) ^ 2)) + ((fX f) ^ 2)) + ((fY f) ^ 2)) + ((fZ f) ^ 2))))) /
  ((sqrt (((4 * ((pa P) ^ 2)) * ((fZ f) ^ 2)) + (((((- ((pa P) ^ 2)) + ((fX f) ^ 2)) + ((fY f) ^ 2))
  + ((fZ f) ^ 2)) ^ 2))) ^ 3)))) / ((sqrt (((((- ((pa P) ^ 2)) + ((fX f) ^ 2)) + ((fY f) ^ 2)) + ((fZ
  f) ^ 2)) + (sqrt (((4 * ((pa P) ^ 2)) * ((fZ f) ^ 2)) + (((((- ((pa P) ^ 2)) + ((fX f) ^ 2)) + ((fY
  f) ^ 2)) + ((fZ f) ^ 2)) ^ 2))))) ^ 3)) + (((phs P) * (((((((((((((((1 * (fdX1 f)) * (ks_ddX_D0D0 P
  f)) + ((1 * (fdY1 f)) * (ks_ddY_D0D0 P f))) + ((1 * (fdZ1 f)) * (ks_ddZ_D0D0 P f))) + ((2 * (fdX0
  f)) * (ks_ddX_D0D1 P f))) + ((2 * (fdY0 f)) * (ks_ddY_D0D1 P f))) + ((2 * (fdZ0 f)) * (ks_ddZ_D0D1
  P f))) + ((1 * (ks_dddX_D0D0D1 P f)) * (fX f))) + ((1 * (ks_dddY_D0D0D1 P f)) * (fY f))) + ((1 *
  (ks_dddZ_D0D0D1 P f)) * (fZ f))) + (((1/2) * (((((((((4 * (fdZ1 f)) * (ks_ddZ_D0D0 P f)) * ((pa P)
  ^ 2)) + (((8 * (fdZ0 f)) * (ks_ddZ_D0D1 P f)) * ((pa P) ^ 2))) + (((4 * (ks_dddZ_D0D0D1 P f)) *
  ((pa P) ^ 2)) * (fZ f))) + ((4 * ((((fdX1 f) * (fX f)) + ((fdY1 f) * (fY f))) + ((fdZ1 f) * (fZ
  f)))) * ((((((1 * ((fdX0 f) ^ 2)) + (1 * ((fdY0 f) ^ 2))) + (1 * ((fdZ0 f) ^ 2))) + ((1 *
  (ks_ddX_D0D0 P f)) * (fX f))) + ((1 * (ks_ddY_D0D0 P f)) * (fY f))) + ((1 * (ks_ddZ_D0D0 P f)) *
  (fZ f))))) + ((4 * ((((1 * (fdX0 f)) * (fX f)) + ((1 * (fdY0 f)) * (fY f))) + ((1 * (fdZ0 f)) * (fZ
  f)))) * (((((((fdX0 f) * (fdX1 f)) + ((fdY0 f) * (fdY1 f))) + ((fdZ0 f) * (fdZ1 f))) +
  ((ks_ddX_D0D1 P f) * (fX f))) + ((ks_ddY_D0D1 P f) * (fY f))) + ((ks_ddZ_D0D1 P f) * (fZ f))))) +
  ((4 * ((((fdX0 f) * (fX f)) + ((fdY0 f) * (fY f))) + ((fdZ0 f) * (fZ f)))) * (((((((1 * (fdX0 f)) *
  (fdX1 f)) + ((1 * (fdY0 f)) * (fdY1 f))) + ((1 * (fdZ0 f)) * (fdZ1 f))) + ((1 * (ks_ddX_D0D1 P f))
  * (fX f))) + ((1 * (ks_ddY_D0D1 P f)) * (fY f))) + ((1 * (ks_ddZ_D0D1 P f)) * (fZ f))))) +
  (((((((((((2 * (fdX1 f)) * (ks_ddX_D0D0 P f)) + ((2 * (fdY1 f)) * (ks_ddY_D0D0 P f))) + ((2 * (fdZ1
  f)) * (ks_ddZ_D0D0 P f))) + ((4 * (fdX0 f)) * (ks_ddX_D0D1 P f))) + ((4 * (fdY0 f)) * (ks_ddY_D0D1
  P f))) + ((4 * (fdZ0 f)) * (ks_ddZ_D0D1 P f))) + ((2 * (ks_dddX_D0D0D1 P f)) * (fX f))) + ((2 *
  (ks_dddY_D0D0D1 P f)) * (fY f))) + ((2 * (ks_dddZ_D0D0D1 P f)) * (fZ f))) * ((((- ((pa P) ^ 2)) +
  ((fX f) ^ 2)) + ((fY f) ^ 2)) + ((fZ f) ^ 2))))) / (sqrt (((4 * ((pa P) ^ 2)) * ((fZ f) ^ 2)) +
  (((((- ((pa P) ^ 2)) + ((fX f) ^ 2)) + ((fY f) ^ 2)) + ((fZ f) ^ 2)) ^ 2))))) + ((((1/2) * ((((((4
  * (fdZ0 f)) * (fdZ1 f)) * ((pa P) ^ 2)) + (((4 * (ks_ddZ_D0D1 P f)) * ((pa P) ^ 2)) * (fZ f))) +
  ((4 * ((((1 * (fdX0 f)) * (fX f)) + ((1 * (fdY0 f)) * (fY f))) + ((1 * (fdZ0 f)) * (fZ f)))) *
  ((((fdX1 f) * (fX f)) + ((fdY1 f) * (fY f))) + ((fdZ1 f) * (fZ f))))) + ((((((((2 * (fdX0 f)) *
  (fdX1 f)) + ((2 * (fdY0 f)) * (fdY1 f))) + ((2 * (fdZ0 f)) * (fdZ1 f))) + ((2 * (ks_ddX_D0D1 P f))
  * (fX f))) + ((2 * (ks_ddY_D0D1 P f)) * (fY f))) + ((2 * (ks_ddZ_D0D1 P f)) * (fZ f))) * ((((- ((pa
  P) ^ 2)) + ((fX f) ^ 2)) + ((fY f) ^ 2)) + ((fZ f) ^ 2))))) * (((((- 4) * (fdZ0 f)) * ((pa P) ^ 2))
  * (fZ f)) - ((2 * ((((fdX0 f) * (fX f)) + ((fdY0 f) * (fY f))) + ((fdZ0 f) * (fZ f)))) * (((((- 1)
  * ((pa P) ^ 2)) + ((fX f) ^ 2)) + ((fY f) ^ 2)) + ((fZ f) ^ 2))))) / ((sqrt (((4 * ((pa P) ^ 2)) *
  ((fZ f) ^ 2)) + (((((- ((pa P) ^ 2)) + ((fX f) ^ 2)) + ((fY f) ^ 2)) + ((fZ f) ^ 2)) ^ 2))) ^ 3)))
  + ((((1/2) * (((((((- 4) * (fdZ0 f)) * (fdZ1 f)) * ((pa P) ^ 2)) - (((4 * (ks_ddZ_D0D1 P f)) * ((pa
  P) ^ 2)) * (fZ f))) - ((4 * ((((fdX0 f) * (fX f)) + ((fdY0 f) * (fY f))) + ((fdZ0 f) * (fZ f)))) *
  ((((1 * (fdX1 f)) * (fX f)) + ((1 * (fdY1 f)) * (fY f))) + ((1 * (fdZ1 f)) * (fZ f))))) +
  (((((((((- 2) * (fdX0 f)) * (fdX1 f)) - ((2 * (fdY0 f)) * (fdY1 f))) - ((2 * (fdZ0 f)) * (fdZ1 f)))
  - ((2 * (ks_ddX_D0D1 P f)) * (fX f))) - ((2 * (ks_ddY_D0D1 P f)) * (fY f))) - ((2 * (ks_ddZ_D0D1 P
  f)) * (fZ f))) * ((((- ((pa P) ^ 2)) + ((fX f) ^ 2)) + ((fY f) ^ 2)) + ((fZ f) ^ 2))))) * ((((4 *
  (fdZ0 f)) * ((pa P) ^ 2)) * (fZ f)) + ((2 * ((((fdX0 f) * (fX f)) + ((fdY0 f) * (fY f))) + ((fdZ0
  f) * (fZ f)))) * (((((- 1) * ((pa P) ^ 2)) + ((fX f) ^ 2)) + ((fY f) ^ 2)) + ((fZ f) ^ 2))))) /
  ((sqrt (((4 * ((pa P) ^ 2)) * ((fZ f) ^ 2)) + (((((- ((pa P) ^ 2)) + ((fX f) ^ 2)) + ((fY f) ^ 2))
  + ((fZ f) ^ 2)) ^ 2))) ^ 3))) + ((((1/2) * (((((4 * ((fdZ0 f) ^ 2)) * ((pa P) ^ 2)) + (((4 *
  (ks_ddZ_D0D0 P f)) * ((pa P) ^ 2)) * (fZ f))) + (4 * (((((1 * (fdX0 f)) * (fX f)) + ((1 * (fdY0 f))
  * (fY f))) + ((1 * (fdZ0 f)) * (fZ f))) ^ 2))) + (((((((2 * ((fdX0 f) ^ 2)) + (2 * ((fdY0 f) ^ 2)))
  + (2 * ((fdZ0 f) ^ 2))) + ((2 * (ks_ddX_D0D0 P f)) * (fX f))) + ((2 * (ks_ddY_D0D0 P f)) * (fY f)))
  + ((2 * (ks_ddZ_D0D0 P f)) * (fZ f))) * ((((- ((pa P) ^ 2)) + ((fX f) ^ 2)) + ((fY f) ^ 2)) + ((fZ
  f) ^ 2))))) * (((((- 4) * (fdZ1 f)) * ((pa P) ^ 2)) * (fZ f)) - ((2 * ((((fdX1 f) * (fX f)) +
  ((fdY1 f) * (fY f))) + ((fdZ1 f) * (fZ f)))) * (((((- 1) * ((pa P) ^ 2)) + ((fX f) ^ 2)) + ((fY f)
  ^ 2)) + ((fZ f) ^ 2))))) / ((sqrt (((4 * ((pa P) ^ 2)) * ((fZ f) ^ 2)) + (((((- ((pa P) ^ 2)) +
  ((fX f) ^ 2)) + ((fY f) ^ 2)) + ((fZ f) ^ 2)) ^ 2))) ^ 3))) + (((((1/2) * (((((- 12) * (fdZ0 f)) *
  ((pa P) ^ 2)) * (fZ f)) - ((6 * ((((fdX0 f) * (fX f)) + ((fdY0 f) * (fY f))) + ((fdZ0 f) * (fZ
  f)))) * (((((- 1) * ((pa P) ^ 2)) + ((fX f) ^ 2)) + ((fY f) ^ 2)) + ((fZ f) ^ 2))))) * ((((4 *
  (fdZ0 f)) * ((pa P) ^ 2)) * (fZ f)) + ((2 * ((((fdX0 f) * (fX f)) + ((fdY0 f) * (fY f))) + ((fdZ0
  f) * (fZ f)))) * (((((- 1) * ((pa P) ^ 2)) + ((fX f) ^ 2)) + ((fY f) ^ 2)) + ((fZ f) ^ 2))))) *
  (((((- 4) * (fdZ1 f)) * ((pa P) ^ 2)) * (fZ f)) - ((2 * ((((fdX1 f) * (fX f)) + ((fdY1 f) * (fY
  f))) + ((fdZ1 f) * (fZ f)))) * (((((- 1) * ((pa P) ^ 2)) + ((fX f) ^ 2)) + ((fY f) ^ 2)) + ((fZ f)
  ^ 2))))) / ((sqrt (((4 * ((pa P) ^ 2)) * ((fZ f) ^ 2)) + (((((- ((pa P) ^ 2)) + ((fX f) ^ 2)) +
  ((fY f) ^ 2)) + ((fZ f) ^ 2)) ^ 2))) ^ 5)))) / (sqrt (((((- ((pa P) ^ 2)) + ((fX f) ^ 2)) + ((fY f)
  ^ 2)) + ((fZ f) ^ 2)) + (sqrt (((4 * ((pa P) ^ 2)) * ((fZ f) ^ 2)) + (((((- ((pa P) ^ 2)) + ((fX f)
  ^ 2)) + ((fY f) ^ 2)) + ((fZ f) ^ 2)) ^ 2))))))) + ((((phs P) * ((((((((1 * ((fdX0 f) ^ 2)) + (1 *
  ((fdY0 f) ^ 2))) + (1 * ((fdZ0 f) ^ 2))) + ((1 * (ks_ddX_D0D0 P f)) * (fX f))) + ((1 * (ks_ddY_D0D0
  P f)) * (fY f))) + ((1 * (ks_ddZ_D0D0 P f)) * (fZ f))) - ((2 * ((((((fdZ0 f) * (fZ f)) * (((((- 1)
  * ((pa P) ^ 2)) - (1 * ((fX f) ^ 2))) - (1 * ((fY f) ^ 2))) - (1 * ((fZ f) ^ 2)))) + (((fdX0 f) *
  (fX f)) * ((((1 * ((pa P) ^ 2)) - (1 * ((fX f) ^ 2))) - (1 * ((fY f) ^ 2))) - (1 * ((fZ f) ^ 2)))))
  + (((fdY0 f) * (fY f)) * ((((1 * ((pa P) ^ 2)) - (1 * ((fX f) ^ 2))) - (1 * ((fY f) ^ 2))) - (1 *
  ((fZ f) ^ 2))))) ^ 2)) / ((sqrt (((4 * ((pa P) ^ 2)) * ((fZ f) ^ 2)) + (((((- ((pa P) ^ 2)) + ((fX
  f) ^ 2)) + ((fY f) ^ 2)) + ((fZ f) ^ 2)) ^ 2))) ^ 3))) + (((1/2) * (((((4 * ((fdZ0 f) ^ 2)) * ((pa
  P) ^ 2)) + (((4 * (ks_ddZ_D0D0 P f)) * ((pa P) ^ 2)) * (fZ f))) + (4 * (((((1 * (fdX0 f)) * (fX f))
  + ((1 * (fdY0 f)) * (fY f))) + ((1 * (fdZ0 f)) * (fZ f))) ^ 2))) + (((((((2 * ((fdX0 f) ^ 2)) + (2
  * ((fdY0 f) ^ 2))) + (2 * ((fdZ0 f) ^ 2))) + ((2 * (ks_ddX_D0D0 P f)) * (fX f))) + ((2 *
  (ks_ddY_D0D0 P f)) * (fY f))) + ((2 * (ks_ddZ_D0D0 P f)) * (fZ f))) * ((((- ((pa P) ^ 2)) + ((fX f)
  ^ 2)) + ((fY f) ^ 2)) + ((fZ f) ^ 2))))) / (sqrt (((4 * ((pa P) ^ 2)) * ((fZ f) ^ 2)) + (((((- ((pa
  P) ^ 2)) + ((fX f) ^ 2)) + ((fY f) ^ 2)) + ((fZ f) ^ 2)) ^ 2)))))) * ((((((- 1) * (fdX1 f)) * (fX
  f)) - ((1 * (fdY1 f)) * (fY f))) - ((1 * (fdZ1 f)) * (fZ f))) - (((1/2) * ((((4 * (fdZ1 f)) * ((pa
  P) ^ 2)) * (fZ f)) + ((2 * ((((fdX1 f) * (fX f)) + ((fdY1 f) * (fY f))) + ((fdZ1 f) * (fZ f)))) *
  (((((- 1) * ((pa P) ^ 2)) + ((fX f) ^ 2)) + ((fY f) ^ 2)) + ((fZ f) ^ 2))))) / (sqrt (((4 * ((pa P)
  ^ 2)) * ((fZ f) ^ 2)) + (((((- ((pa P) ^ 2)) + ((fX f) ^ 2)) + ((fY f) ^ 2)) + ((fZ f) ^ 2)) ^
  2)))))) / ((sqrt (((((- ((pa P) ^ 2)) + ((fX f) ^ 2)) + ((fY f) ^ 2)) + ((fZ f) ^ 2)) + (sqrt (((4
  * ((pa P) ^ 2)) * ((fZ f) ^ 2)) + (((((- ((pa P) ^ 2)) + ((fX f) ^ 2)) + ((fY f) ^ 2)) + ((fZ f) ^
  2)) ^ 2))))) ^ 3))) + (((((phs P) * ((((((- 3) * (fdX0 f)) * (fX f)) - ((3 * (fdY0 f)) * (fY f))) -
  ((3 * (fdZ0 f)) * (fZ f))) - (((3/2) * ((((4 * (fdZ0 f)) * ((pa P) ^ 2)) * (fZ f)) + ((2 * ((((fdX0
  f) * (fX f)) + ((fdY0 f) * (fY f))) + ((fdZ0 f) * (fZ f)))) * (((((- 1) * ((pa P) ^ 2)) + ((fX f) ^
  2)) + ((fY f) ^ 2)) + ((fZ f) ^ 2))))) / (sqrt (((4 * ((pa P) ^ 2)) * ((fZ f) ^ 2)) + (((((- ((pa
  P) ^ 2)) + ((fX f) ^ 2)) + ((fY f) ^ 2)) + ((fZ f) ^ 2)) ^ 2)))))) * (((((1 * (fdX0 f)) * (fX f)) +
  ((1 * (fdY0 f)) * (fY f))) + ((1 * (fdZ0 f)) * (fZ f))) + (((1/2) * ((((4 * (fdZ0 f)) * ((pa P) ^
  2)) * (fZ f)) + ((2 * ((((fdX0 f) * (fX f)) + ((fdY0 f) * (fY f))) + ((fdZ0 f) * (fZ f)))) * (((((-
  1) * ((pa P) ^ 2)) + ((fX f) ^ 2)) + ((fY f) ^ 2)) + ((fZ f) ^ 2))))) / (sqrt (((4 * ((pa P) ^ 2))
  * ((fZ f) ^ 2)) + (((((- ((pa P) ^ 2)) + ((fX f) ^ 2)) + ((fY f) ^ 2)) + ((fZ f) ^ 2)) ^ 2)))))) *
  ((((((- 1) * (fdX1 f)) * (fX f)) - ((1 * (fdY1 f)) * (fY f))) - ((1 * (fdZ1 f)) * (fZ f))) -
  (((1/2) * ((((4 * (fdZ1 f)) * ((pa P) ^ 2)) * (fZ f)) + ((2 * ((((fdX1 f) * (fX f)) + ((fdY1 f) *
  (fY f))) + ((fdZ1 f) * (fZ f)))) * (((((- 1) * ((pa P) ^ 2)) + ((fX f) ^ 2)) + ((fY f) ^ 2)) + ((fZ
  f) ^ 2))))) / (sqrt (((4 * ((pa P) ^ 2)) * ((fZ f) ^ 2)) + (((((- ((pa P) ^ 2)) + ((fX f) ^ 2)) +
  ((fY f) ^ 2)) + ((fZ f) ^ 2)) ^ 2)))))) / ((sqrt (((((- ((pa P) ^ 2)) + ((fX f) ^ 2)) + ((fY f) ^
  2)) + ((fZ f) ^ 2)) + (sqrt (((4 * ((pa P) ^ 2)) * ((fZ f) ^ 2)) + (((((- ((pa P) ^ 2)) + ((fX f) ^
  2)) + ((fY f) ^ 2)) + ((fZ f) ^ 2)) ^ 2))))) ^ 5))) + ((((phs P) * (((((1 * (fdX0 f)) * (fX f)) +
  ((1 * (fdY0 f)) * (fY f))) + ((1 * (fdZ0 f)) * (fZ f))) + (((1/2) * ((((4 * (fdZ0 f)) * ((pa P) ^
  2)) * (fZ f)) + ((2 * ((((fdX0 f) * (fX f)) + ((fdY0 f) * (fY f))) + ((fdZ0 f) * (fZ f)))) * (((((-
  1) * ((pa P) ^ 2)) + ((fX f) ^ 2)) + ((fY f) ^ 2)) + ((fZ f) ^ 2))))) / (sqrt (((4 * ((pa P) ^ 2))
  * ((fZ f) ^ 2)) + (((((- ((pa P) ^ 2)) + ((fX f) ^ 2)) + ((fY f) ^ 2)) + ((fZ f) ^ 2)) ^ 2)))))) *
  ((((((((((- 1) * (fdX0 f)) * (fdX1 f)) - ((1 * (fdY0 f)) * (fdY1 f))) - ((1 * (fdZ0 f)) * (fdZ1
  f))) - ((1 * (ks_ddX_D0D1 P f)) * (fX f))) - ((1 * (ks_ddY_D0D1 P f)) * (fY f))) - ((1 *
  (ks_ddZ_D0D1 P f)) * (fZ f))) - (((1/2) * ((((((4 * (fdZ0 f)) * (fdZ1 f)) * ((pa P) ^ 2)) + (((4 *
  (ks_ddZ_D0D1 P f)) * ((pa P) ^ 2)) * (fZ f))) + ((4 * ((((fdX0 f) * (fX f)) + ((fdY0 f) * (fY f)))
  + ((fdZ0 f) * (fZ f)))) * ((((1 * (fdX1 f)) * (fX f)) + ((1 * (fdY1 f)) * (fY f))) + ((1 * (fdZ1
  f)) * (fZ f))))) + ((((((((2 * (fdX0 f)) * (fdX1 f)) + ((2 * (fdY0 f)) * (fdY1 f))) + ((2 * (fdZ0
  f)) * (fdZ1 f))) + ((2 * (ks_ddX_D0D1 P f)) * (fX f))) + ((2 * (ks_ddY_D0D1 P f)) * (fY f))) + ((2
  * (ks_ddZ_D0D1 P f)) * (fZ f))) * ((((- ((pa P) ^ 2)) + ((fX f) ^ 2)) + ((fY f) ^ 2)) + ((fZ f) ^
  2))))) / (sqrt (((4 * ((pa P) ^ 2)) * ((fZ f) ^ 2)) + (((((- ((pa P) ^ 2)) + ((fX f) ^ 2)) + ((fY
  f) ^ 2)) + ((fZ f) ^ 2)) ^ 2))))) - ((((1/2) * (((((- 4) * (fdZ0 f)) * ((pa P) ^ 2)) * (fZ f)) -
  ((2 * ((((fdX0 f) * (fX f)) + ((fdY0 f) * (fY f))) + ((fdZ0 f) * (fZ f)))) * (((((- 1) * ((pa P) ^
  2)) + ((fX f) ^ 2)) + ((fY f) ^ 2)) + ((fZ f) ^ 2))))) * ((((4 * (fdZ1 f)) * ((pa P) ^ 2)) * (fZ
  f)) + ((2 * ((((fdX1 f) * (fX f)) + ((fdY1 f) * (fY f))) + ((fdZ1 f) * (fZ f)))) * (((((- 1) * ((pa
  P) ^ 2)) + ((fX f) ^ 2)) + ((fY f) ^ 2)) + ((fZ f) ^ 2))))) / ((sqrt (((4 * ((pa P) ^ 2)) * ((fZ f)
  ^ 2)) + (((((- ((pa P) ^ 2)) + ((fX f) ^ 2)) + ((fY f) ^ 2)) + ((fZ f) ^ 2)) ^ 2))) ^ 3)))) /
  ((sqrt (((((- ((pa P) ^ 2)) + ((fX f) ^ 2)) + ((fY f) ^ 2)) + ((fZ f) ^ 2)) + (sqrt (((4 * ((pa P)
  ^ 2)) * ((fZ f) ^ 2)) + (((((- ((pa P) ^ 2)) + ((fX f) ^ 2)) + ((fY f) ^ 2)) + ((fZ f) ^ 2)) ^
  2))))) ^ 3)).

(* /repo/Src/Main/Modules/Physics/Free_Data/fd_KerrSchild_R_X_Y_Z.c:3332-3600 *)
Definition ks_dddR_D2D2D0 (P : kspar) (f : ksarg) : R :=
  (((((((phs P) * ((((((((1 * ((fdX2 f) ^ 2)) + (1 * ((fdY2 f) ^ 2))) + (1 * ((fdZ2 f) ^ 2))) + ((1 *
  (ks_ddX_D2D2 P f)) * (fX f))) + ((1 * (ks_ddY_D2D2 P f)) * (fY f))) + ((1 * (ks_ddZ_D2D2 P f)) *
  (fZ f))) - ((2 * ((((((fdZ2 f) * (fZ f)) * (((((- 1) * ((pa P) ^ 2)) - (1 * ((fX f) ^ 2))) - (1 *
  ((fY f) ^ 2))) - (1 * ((fZ f) ^ 2)))) + (((fdX2 f) * (fX f)) * ((((1 * ((pa P) ^ 2)) - (1 * ((fX f)
  ^ 2))) - (1 * ((fY f) ^ 2))) - (1 * ((fZ f) ^ 2))))) + (((fdY2 f) * (fY f)) * ((((1 * ((pa P) ^ 2))
  - (1 * ((fX f) ^ 2))) - (1 * ((fY f) ^ 2))) - (1 * ((fZ f) ^ 2))))) ^ 2)) / ((sqrt (((4 * ((pa P) ^
  2)) * ((fZ f) ^ 2)) + (((((- ((pa P) ^ 2)) + ((fX f) ^ 2)) + ((fY f) ^ 2)) + ((fZ f) ^ 2)) ^ 2))) ^
  3))) + (((1/2) * (((((4 * ((fdZ2 f) ^ 2)) * ((pa P) ^ 2)) + (((4 * (ks_ddZ_D2D2 P f)) * ((pa P) ^
  2)) * (fZ f))) + (4 * (((((1 * (fdX2 f)) * (fX f)) + ((1 * (fdY2 f)) * (fY f))) + ((1 * (fdZ2 f)) *
  (fZ f))) ^ 2))) + (((((((2 * ((fdX2 f) ^ 2)) + (2 * ((fdY2 f) ^ 2))) + (2 * ((fdZ2 f) ^ 2))) + ((2
  * (ks_ddX_D2D2 P f)) * (fX f))) + ((2 * (ks_ddY_D2D2 P f)) * (fY f))) + ((2 * (ks_ddZ_D2D2 P f)) *
  (fZ f))) * ((((- ((pa P) ^ 2)) + ((fX f) ^ 2)) + ((fY f) ^ 2)) + ((fZ f) ^ 2))))) / (sqrt (((4 *
  ((pa P) ^ 2)) * ((fZ f) ^ 2)) + (((((- ((pa P) ^ 2)) + ((fX f) ^ 2)) + ((fY f) ^ 2)) + ((fZ f) ^
  2)) ^ 2)))))) * ((((((- 1) * (fdX0 f)) * (fX f)) - ((1 * (fdY0 f)) * (fY f))) - ((1 * (fdZ0 f)) *
  (fZ f))) - (((1/2) * ((((4 * (fdZ0 f)) * ((pa P) ^ 2)) * (fZ f)) + ((2 * ((((fdX0 f) * (fX f)) +
  ((fdY0 f) * (fY f))) + ((fdZ0 f) * (fZ f)))) * (((((- 1) * ((pa P) ^ 2)) + ((fX f) ^ 2)) + ((fY f)
  ^ 2)) + ((fZ f) ^ 2))))) / (sqrt (((4 * ((pa P) ^ 2)) * ((fZ f) ^ 2)) + (((((- ((pa P) ^ 2)) + ((fX
  f) ^ 2)) + ((fY f) ^ 2)) + ((fZ f) ^ 2)) ^ 2)))))) / ((sqrt (((((- ((pa P) ^ 2)) + ((fX f) ^ 2)) +
  ((fY f) ^ 2)) + ((fZ f) ^ 2)) + (sqrt (((4 * ((pa P) ^ 2)) * ((fZ f) ^ 2)) + (((((- ((pa P) ^ 2)) +
  ((fX f) ^ 2)) + ((fY f) ^ 2)) + ((fZ f) ^ 2)) ^ 2))))) ^ 3)) + (((((phs P) * ((((((- 3) * (fdX0 f))
  * (fX f)) - ((3 * (fdY0 f)) * (fY f))) - ((3 * (fdZ0 f)) * (fZ f))) - (((3/2) * ((((4 * (fdZ0 f)) *
  ((pa P) ^ 2)) * (fZ f)) + ((2 * ((((fdX0 f) * (fX f)) + ((fdY0 f) * (fY f))) + ((fdZ0 f) * (fZ
  f)))) * (((((- 1) * ((pa P) ^ 2)) + ((fX f) ^ 2)) + ((fY f) ^ 2)) + ((fZ f) ^ 2))))) / (sqrt (((4 *
  ((pa P) ^ 2)) * ((fZ f) ^ 2)) + (((((- ((pa P) ^ 2)) + ((fX f) ^ 2)) + ((fY f) ^ 2)) + ((fZ f) ^
  2)) ^ 2)))))) * ((((((- 1) * (fdX2 f)) * (fX f)) - ((1 * (fdY2 f)) * (fY f))) - ((1 * (fdZ2 f)) *
  (fZ f))) - (((1/2) * ((((4 * (fdZ2 f)) * ((pa P) ^ 2)) * (fZ f)) + ((2 * ((((fdX2 f) * (fX f)) +
  ((fdY2 f) * (fY f))) + ((fdZ2 f) * (fZ f)))) * (((((- 1) * ((pa P) ^ 2)) + ((fX f) ^ 2)) + ((fY f)
  ^ 2)) + ((fZ f) ^ 2))))) / (sqrt (((4 * ((pa P) ^ 2)) * ((fZ f) ^ 2)) + (((((- ((pa P) ^ 2)) + ((fX
  f) ^ 2)) + ((fY f) ^ 2)) + ((fZ f) ^ 2)) ^ 2)))))) * (((((1 * (fdX2 f)) * (fX f)) + ((1 * (fdY2 f))
  * (fY f))) + ((1 * (fdZ2 f)) * (fZ f))) + (((1/2) * ((((4 * (fdZ2 f)) * ((pa P) ^ 2)) * (fZ f)) +
  ((2 * ((((fdX2 f) * (fX f)) + ((fdY2 f) * (fY f))) + ((fdZ2 f) * (fZ f)))) * (((((- 1) * ((pa P) ^
  2)) + ((fX f) ^ 2)) + ((fY f) ^ 2)) + ((fZ f) ^ 2))))) / (sqrt (((4 * ((pa P) ^ 2)) * ((fZ f) ^ 2))
  + (((((- ((pa P) ^ 2)) + ((fX f) ^ 2)) + ((fY f) ^ 2)) + ((fZ f) ^ 2)) ^ 2)))))) / ((sqrt (((((-
  ((pa P) ^ 2)) + ((fX f) ^ 2)) + ((fY f) ^ 2)) + ((fZ f) ^ 2)) + (sqrt (((4 * ((pa P) ^ 2)) * ((fZ
  f) ^ 2)) + (((((- ((pa P) ^ 2)) + ((fX f) ^ 2)) + ((fY f) ^ 2)) + ((fZ f) ^ 2)) ^ 2))))) ^ 5))) +
  ((((phs P) * (((((1 * (fdX2 f)) * (fX f)) + ((1 * (fdY2 f)) * (fY f))) + ((1 * (fdZ2 f)) * (fZ f)))
  + (((1/2) * ((((4 * (fdZ2 f)) * ((pa P) ^ 2)) * (fZ f)) + ((2 * ((((fdX2 f) * (fX f)) + ((fdY2 f) *
  (fY f))) + ((fdZ2 f) * (fZ f)))) * (((((- 1) * ((pa P) ^ 2)) + ((fX f) ^ 2)) + ((fY f) ^ 2)) + ((fZ
  f) ^ 2))))) / (sqrt (((4 * ((pa P) ^ 2)) * ((fZ f) ^ 2)) + (((((- ((pa P) ^ 2)) + ((fX f) ^ 2)) +
  ((fY f) ^ 2)) + ((fZ f) ^ 2)) ^ 2)))))) * ((((((((((- 1) * (fdX0 f)) * (fdX2 f)) - ((1 * (fdY0 f))
  * (fdY2 f))) - ((1 * (fdZ0 f)) * (fdZ2 f))) - ((1 * (ks_ddX_D0D2 P f)) * (fX f))) - ((1 *
  (ks_ddY_D0D2 P f)) * (fY f))) - ((1 * (ks_ddZ_D0D2 P f)) * (fZ f))) - (((1/2) * ((((((4 * (fdZ0 f))
  * (fdZ2 f)) * ((pa P) ^ 2)) + (((4 * (ks_ddZ_D0D2 P f)) * ((pa P) ^ 2)) * (fZ f))) + ((4 * ((((fdX0
  f) * (fX f)) + ((fdY0 f) * (fY f))) + ((fdZ0 f) * (fZ f)))) * ((((1 * (fdX2 f)) * (fX f)) + ((1 *
  (fdY2 f)) * (fY f))) + ((1 * (fdZ2 f)) * (fZ f))))) + ((((((((2 * (fdX0 f)) * (fdX2 f)) + ((2 *
  (fdY0 f)) * (fdY2 f))) + ((2 * (fdZ0 f)) * (fdZ2 f))) + ((2 * (ks_ddX_D0D2 P f)) * (fX f))) + ((2 *
  (ks_ddY_D0D2 P f)) * (fY f))) + ((2 * (ks_ddZ_D0D2 P f)) * (fZ f))) * ((((- ((pa P) ^ 2)) + ((fX f)
  ^ 2)) + ((fY f) ^ 2)) + ((fZ f) ^ 2))))) / (sqrt (((4 * ((pa P) ^ 2)) * ((fZ f) ^ 2)) + (((((- ((pa
  P) ^ 2)) + ((fX f) ^ 2)) + ((fY f) ^ 2)) + ((fZ f) ^ 2)) ^ 2))))) - ((((1/2) * (((((- 4) * (fdZ0
  f)) * ((pa P) ^ 2)) * (fZ f)) - ((2 * ((((fdX0 f) * (fX f)) + ((fdY0 f) * (fY f))) + ((fdZ0 f) *
  (fZ f)))) * (((((- 1) * ((pa P) ^ 2)) + ((fX f) ^ 2)) + ((fY f) ^ 2)) + ((fZ f) ^ 2))))) * ((((4 *
  (fdZ2 f)) * ((pa P) ^ 2)) * (fZ f)) + ((2 * ((((fdX2 f) * (fX f)) + ((fdY2 f) * (fY f))) + ((fdZ2
  f) * (fZ f)))) * (((((- 1) * ((pa P) ^ 2)) + ((fX f) ^ 2)) + ((fY f) ^ 2)) + ((fZ f) ^ 2))))) /
  ((sqrt (((4 * ((pa P) ^ 2)) * ((fZ f) ^ 2)) + (((((- ((pa P) ^ 2)) + ((fX f) ^ 2)) + ((fY f) ^ 2))
  + ((fZ f) ^ 2)) ^ 2))) ^ 3)))) / ((sqrt (((((- ((pa P) ^ 2)) + ((fX f) ^ 2)) + ((fY f) ^ 2)) + ((fZ
  f) ^ 2)) + (sqrt (((4 * ((pa P) ^ 2)) * ((fZ f) ^ 2)) + (((((- ((pa P) ^ 2)) + ((fX f) ^ 2)) + ((fY
  f) ^ 2)) + ((fZ f) ^ 2)) ^ 2))))) ^ 3))) + ((((phs P) * ((((((- 1) * (fdX2 f)) * (fX f)) - ((1 *
  (fdY2 f)) * (fY f))) - ((1 * (fdZ2 f)) * (fZ f))) - (((1/2) * ((((4 * (fdZ2 f)) * ((pa P) ^ 2)) *
  (fZ f)) + ((2 * ((((fdX2 f) * (fX f)) + ((fdY2 f) * (fY f))) + ((fdZ2 f) * (fZ f)))) * (((((- 1) *
  ((pa P) ^ 2)) + ((fX f) ^ 2)) + ((fY f) ^ 2)) + ((fZ f) ^ 2))))) / (sqrt (((4 * ((pa P) ^ 2)) *
  ((fZ f) ^ 2)) + (((((- ((pa P) ^ 2)) + ((fX f) ^ 2)) + ((fY f) ^ 2)) + ((fZ f) ^ 2)) ^ 2)))))) *
  (((((((((1 * (fdX0 f)) * (fdX2 f)) + ((1 * (fdY0 f)) * (fdY2 f))) + ((1 * (fdZ0 f)) * (fdZ2 f))) +
  ((1 * (ks_ddX_D0D2 P f)) * (fX f))) + ((1 * (ks_ddY_D0D2 P f)) * (fY f))) + ((1 * (ks_ddZ_D0D2 P
  f)) * (fZ f))) + (((1/2) * ((((((4 * (fdZ0 f)) * (fdZ2 f)) * ((pa P) ^ 2)) + (((4 * (ks_ddZ_D0D2 P
  f)) * ((pa P) ^ 2)) * (fZ f))) + ((4 * ((((fdX0 f) * (fX f)) + ((fdY0 f) * (fY f))) + ((fdZ0 f) *
  (fZ f)))) * ((((1 * (fdX2 f)) * (fX f)) + ((1 * (fdY2 f)) * (fY f))) + ((1 * (fdZ2 f)) * (fZ f)))))
  + ((((((((2 * (fdX0 f)) * (fdX2 f)) + ((2 * (fdY0 f)) * (fdY2 f))) + ((2 * (fdZ0 f)) * (fdZ2 f))) +
  ((2 * (ks_ddX_D0D2 P f)) * (fX f))) + ((2 * (ks_ddY_D0D2 P f)) * (fY f))) + ((2 * (ks_ddZ_D0D2 P
  f)) * (fZ f))) * ((((- ((pa P) ^ 2)) + ((fX f) ^ 2)) + ((fY f) ^ 2)) + ((fZ f) ^ 2))))) / (sqrt
  (((4 * ((pa P) ^ 2)) * ((fZ f) ^ 2)) + (((((- ((pa P) ^ 2)) + ((fX f) ^ 2)) + ((fY f) ^ 2)) + ((fZ
  f) ^ 2)) ^ 2))))) + ((((1/2) * (((((- 4) * (fdZ0 f)) * ((pa P) ^ 2)) * (fZ f)) - ((2 * ((((fdX0 f)
  * (fX f)) + ((fdY0 f) * (fY f))) + ((fdZ0 f) * (fZ f)))) * (((((- 1) * ((pa P) ^ 2)) + ((fX f) ^
  2)) + ((fY f) ^ 2)) + ((fZ f) ^ 2))))) * ((((4 * (fdZ2 f)) * ((pa P) ^ 2)) * (fZ f)) + ((2 *
  ((((fdX2 f) * (fX f)) + ((fdY2 f) * (fY f))) + ((fdZ2 f) * (fZ f)))) * (((((- 1) * ((pa P) ^ 2)) +
  ((fX f) ^ 2)) + ((fY f) ^ 2)) + ((fZ f) ^ 2))))) / ((sqrt (((4 * ((pa P) ^ 2)) * ((fZ f) ^ 2)) +
  (((((- ((pa P) ^ 2)) + ((fX f) ^ 2)) + ((fY f) ^ 2)) + ((fZ f) ^ 2)) ^ 2))) ^ 3)))) / ((sqrt (((((-
  ((pa P) ^ 2)) + ((fX f) ^ 2)) + ((fY f) ^ 2)) + ((fZ f) ^ 2)) + (sqrt (((4 * ((pa P) ^ 2)) * ((fZ
  f) ^ 2)) + (((((- ((pa P) ^ 2)) + ((fX f) ^ 2)) + ((fY f) ^ 2)) + ((fZ f) ^ 2)) ^ 2))))) ^ 3))) +
  (((phs P) * (((((((((((((((1 * (fdX0 f)) * (ks_ddX_D2D2 P f)) + ((1 * (fdY0 f)) * (ks_ddY_D2D2 P
  f))) + ((1 * (fdZ0 f)) * (ks_ddZ_D2D2 P f))) + ((2 * (fdX2 f)) * (ks_ddX_D0D2 P f))) + ((2 * (fdY2
  f)) * (ks_ddY_D0D2 P f))) + ((2 * (fdZ2 f)) * (ks_ddZ_D0D2 P f))) + ((1 * (ks_dddX_D0D2D2 P f)) *
  (fX f))) + ((1 * (ks_dddY_D0D2D2 P f)) * (fY f))) + ((1 * (ks_dddZ_D0D2D2 P f)) * (fZ f))) +
  (((1/2) * (((((((((4 * (fdZ0 f)) * (ks_ddZ_D2D2 P f)) * ((pa P) ^ 2)) + (((8 * (fdZ2 f)) *
  (ks_ddZ_D0D2 P f)) * ((pa P) ^ 2))) + (((4 * (ks_dddZ_D0D2D2 P f)) * ((pa P) ^ 2)) * (fZ f))) + ((4
  * ((((fdX0 f) * (fX f)) + ((fdY0 f) * (fY f))) + ((fdZ0 f) * (fZ f)))) * ((((((1 * ((fdX2 f) ^ 2))
  + (1 * ((fdY2 f) ^ 2))) + (1 * ((fdZ2 f) ^ 2))) + ((1 * (ks_ddX_D2D2 P f)) * (fX f))) + ((1 *
  (ks_ddY_D2D2 P f)) * (fY f))) + ((1 * (ks_ddZ_D2D2 P f)) * (fZ f))))) + ((4 * ((((1 * (fdX2 f)) *
  (fX f)) + ((1 * (fdY2 f)) * (fY f))) + ((1 * (fdZ2 f)) * (fZ f)))) * (((((((fdX0 f) * (fdX2 f)) +
  ((fdY0 f) * (fdY2 f))) + ((fdZ0 f) * (fdZ2 f))) + ((ks_ddX_D0D2 P f) * (fX f))) + ((ks_ddY_D0D2 P
  f) * (fY f))) + ((ks_ddZ_D0D2 P f) * (fZ f))))) + ((4 * ((((fdX2 f) * (fX f)) + ((fdY2 f) * (fY
  f))) + ((fdZ2 f) * (fZ f)))) * (((((((1 * (fdX0 f)) * (fdX2 f)) + ((1 * (fdY0 f)) * (fdY2 f))) +
  ((1 * (fdZ0 f)) * (fdZ2 f))) + ((1 * (ks_ddX_D0D2 P f)) * (fX f))) + ((1 * (ks_ddY_D0D2 P f)) * (fY
  f))) + ((1 * (ks_ddZ_D0D2 P f)) * (fZ f))))) + (((((((((((2 * (fdX0 f)) * (ks_ddX_D2D2 P f)) + ((2
  * (fdY0 f)) * (ks_ddY_D2D2 P f))) + ((2 * (fdZ0 f)) * (ks_ddZ_D2D2 P f))) + ((4 * (fdX2 f)) *
  (ks_ddX_D0D2 P f))) + ((4 * (fdY2 f)) * (ks_ddY_D0D2 P f))) + ((4 * (fdZ2 f)) * (ks_ddZ_D0D2 P f)))
  + ((2 * (ks_dddX_D0D2D2 P f)) * (fX f))) + ((2 * (ks_dddY_D0D2D2 P f)) * (fY f))) + ((2 *
  (ks_dddZ_D0D2D2 P f)) * (fZ f))) * ((((- ((pa P) ^ 2)) + ((fX f) ^ 2)) + ((fY f) ^ 2)) + ((fZ f) ^
  2))))) / (sqrt (((4 * ((pa P) ^ 2)) * ((fZ f) ^ 2)) + (((((- ((pa P) ^ 2)) + ((fX f) ^ 2)) + ((fY
  f) ^ 2)) + ((fZ f) ^ 2)) ^ 2))))) + ((((1/2) * (((((4 * ((fdZ2 f) ^ 2)) * ((pa P) ^ 2)) + (((4 *
  (ks_ddZ_D2D2 P f)) * ((pa P) ^ 2)) * (fZ f))) + (4 * (((((1 * (fdX2 f)) * (fX f)) + ((1 * (fdY2 f))
  * (fY f))) + ((1 * (fdZ2 f)) * (fZ f))) ^ 2))) + (((((((2 * ((fdX2 f) ^ 2)) + (2 * ((fdY2 f) ^ 2)))
  + (2 * ((fdZ2 f) ^ 2))) + ((2 * (ks_ddX_D2D2 P f)) * (fX f))) + ((2 * (ks_ddY_D2D2 P f)) * (fY f)))
  + ((2 * (ks_ddZ_D2D2 P f)) * (fZ f))) * ((((- ((pa P) ^ 2)) + ((fX f) ^ 2)) + ((fY f) ^ 2)) + ((fZ
  f) ^ 2))))) * (((((- 4) * (fdZ0 f)) * ((pa P) ^ 2)) * (fZ f)) - ((2 * ((((fdX0 f) * (fX f)) +
  ((fdY0 f) * (fY f))) + ((fdZ0 f) * (fZ f)))) * (((((- 1) * ((pa P) ^ 2)) + ((fX f) ^ 2)) + ((fY f)
  ^ 2)) + ((fZ f) ^ 2))))) / ((sqrt (((4 * ((pa P) ^ 2)) * ((fZ f) ^ 2)) + (((((- ((pa P) ^ 2)) +
  ((fX f) ^ 2)) + ((fY f) ^ 2)) + ((fZ f) ^ 2)) ^ 2))) ^ 3))) + ((((1/2) * ((((((4 * (fdZ0 f)) *
  (fdZ2 f)) * ((pa P) ^ 2)) + (((4 * (ks_ddZ_D0D2 P f)) * ((pa P) ^ 2)) * (fZ f))) + ((4 * ((((fdX0
  f) * (fX f)) + ((fdY0 f) * (fY f))) + ((fdZ0 f) * (fZ f)))) * ((((1 * (fdX2 f)) * (fX f)) + ((1 *
  (fdY2 f)) * (fY f))) + ((1 * (fdZ2 f)) * (fZ f))))) + ((((((((2 * (fdX0 f)) * (fdX2 f)) + ((2 *
  (fdY0 f)) * (fdY2 f))) + ((2 * (fdZ0 f)) * (fdZ2 f))) + ((2 * (ks_ddX_D0D2 P f)) * (fX f))) + ((2 *
  (ks_ddY_D0D2 P f)) * (fY f))) + ((2 * (ks_ddZ_D0D2 P f)) * (fZ f))) * ((((- ((pa P) ^ 2)) + ((fX f)
  ^ 2)) + ((fY f) ^ 2)) + ((fZ f) ^ 2))))) * (((((- 4) * (fdZ2 f)) * ((pa P) ^ 2)) * (fZ f)) - ((2 *
  ((((fdX2 f) * (fX f)) + ((fdY2 f) * (fY f))) + ((fdZ2 f) * (fZ f)))) * (((((- 1) * ((pa P) ^ 2)) +
  ((fX f) ^ 2)) + ((fY f) ^ 2)) + ((fZ f) ^ 2))))) / ((sqrt (((4 * ((pa P) ^ 2)) * ((fZ f) ^ 2)) +
  (((((- ((pa P) ^ 2)) + ((fX f) ^ 2)) + ((fY f) ^ 2)) + ((fZ f) ^ 2)) ^ 2))) ^ 3))) + ((((1/2) *
  (((((((- 4) * (fdZ0 f)) * (fdZ2 f)) * ((pa P) ^ 2)) - (((4 * (ks_ddZ_D0D2 P f)) * ((pa P) ^ 2)) *
  (fZ f))) - ((4 * ((((fdX0 f) * (fX f)) + ((fdY0 f) * (fY f))) + ((fdZ0 f) * (fZ f)))) * ((((1 *
  (fdX2 f)) * (fX f)) + ((1 * (fdY2 f)) * (fY f))) + ((1 * (fdZ2 f)) * (fZ f))))) + (((((((((- 2) *
  (fdX0 f)) * (fdX2 f)) - ((2 * (fdY0 f)) * (fdY2 f))) - ((2 * (fdZ0 f)) * (fdZ2 f))) - ((2 *
  (ks_ddX_D0D2 P f)) * (fX f))) - ((2 * (ks_ddY_D0D2 P f)) * (fY f))) - ((2 * (ks_ddZ_D0D2 P f)) *
  (fZ f))) * ((((- ((pa P) ^ 2)) + ((fX f) ^ 2)) + ((fY f) ^ 2)) + ((fZ f) ^ 2))))) * ((((4 * (fdZ2
  f)) * ((pa P) ^ 2)) * (fZ f)) + ((2 * ((((fdX2 f) * (fX f)) + ((fdY2 f) * (fY f))) + ((fdZ2 f) *
  (fZ f)))) * (((((- 1) * ((pa P) ^ 2)) + ((fX f) ^ 2)) + ((fY f) ^ 2)) + ((fZ f) ^ 2))))) / ((sqrt
  (((4 * ((pa P) ^ 2)) * ((fZ f) ^ 2)) + (((((- ((pa P) ^ 2)) + ((fX f) ^ 2)) + ((fY f) ^ 2)) + ((fZ
  f) ^ 2)) ^ 2))) ^ 3))) + (((((1/2) * (((((- 12) * (fdZ0 f)) * ((pa P) ^ 2)) * (fZ f)) - ((6 *
  ((((fdX0 f) * (fX f)) + ((fdY0 f) * (fY f))) + ((fdZ0 f) * (fZ f)))) * (((((- 1) * ((pa P) ^ 2)) +
  ((fX f) ^ 2)) + ((fY f) ^ 2)) + ((fZ f) ^ 2))))) * (((((- 4) * (fdZ2 f)) * ((pa P) ^ 2)) * (fZ f))
  - ((2 * ((((fdX2 f) * (fX f)) + ((fdY2 f) * (fY f))) + ((fdZ2 f) * (fZ f)))) * (((((- 1) * ((pa P)
  ^ 2)) + ((fX f) ^ 2)) + ((fY f) ^ 2)) + ((fZ f) ^ 2))))) * ((((4 * (fdZ2 f)) * ((pa P) ^ 2)) * (fZ
  f)) + ((2 * ((((fdX2 f) * (fX f)) + ((fdY2 f) * (fY f))) + ((fdZ2 f) * (fZ f)))) * (((((- 1) * ((pa
  P) ^ 2)) + ((fX f) ^ 2)) + ((fY f) ^ 2)) + ((fZ f) ^ 2))))) / ((sqrt (((4 * ((pa P) ^ 2)) * ((fZ f)
  ^ 2)) + (((((- ((pa P) ^ 2)) + ((fX f) ^ 2)) + ((fY f) ^ 2)) + ((fZ f) ^ 2)) ^ 2))) ^ 5)))) / (sqrt
  (((((- ((pa P) ^ 2)) + ((fX f) ^ 2)) + ((fY f) ^ 2)) + ((fZ f) ^ 2)) + (sqrt (((4 * ((pa P) ^ 2)) *
  ((fZ f) ^ 2)) + (((((- ((pa P) ^ 2)) + ((fX f) ^ 2)) + ((fY f) ^ 2)) + ((fZ f) ^ 2)) ^ 2)))))).

(* /repo/Src/Main/Modules/Physics/Free_Data/fd_KerrSchild_R_X_Y_Z.c:3601-3869 *)
Definition ks_dddR_D0D2D0 (P : kspar) (f : ksarg) : R :=
  (((((((phs P) * ((((((- 1) * (fdX0 f)) * (fX f)) - ((1 * (fdY0 f)) * (fY f))) - ((1 * (fdZ0 f)) *
  (fZ f))) - (((1/2) * ((((4 * (fdZ0 f)) * ((pa P) ^ 2)) * (fZ f)) + ((2 * ((((fdX0 f) * (fX f)) +
  ((fdY0 f) * (fY f))) + ((fdZ0 f) * (fZ f)))) * (((((- 1) * ((pa P) ^ 2)) + ((fX f) ^ 2)) + ((fY f)
  ^ 2)) + ((fZ f) ^ 2))))) / (sqrt (((4 * ((pa P) ^ 2)) * ((fZ f) ^ 2)) + (((((- ((pa P) ^ 2)) + ((fX
  f) ^ 2)) + ((fY f) ^ 2)) + ((fZ f) ^ 2)) ^ 2)))))) * (((((((((1 * (fdX0 f)) * (fdX2 f)) + ((1 *
  (fdY0 f)) * (fdY2 f))) + ((1 * (fdZ0 f)) * (fdZ2 f))) + ((1 * (ks_ddX_D0D2 P f)) * (fX f))) + ((1 *
  (ks_ddY_D0D2 P f)) * (fY f))) + ((1 * (ks_ddZ_D0D2 P f)) * (fZ f))) + (((1/2) * ((((((4 * (fdZ0 f))
  * (fdZ2 f)) * ((pa P) ^ 2)) + (((4 * (ks_ddZ_D0D2 P f)) * ((pa P) ^ 2)) * (fZ f))) + ((4 * ((((1 *
  (fdX0 f)) * (fX f)) + ((1 * (fdY0 f)) * (fY f))) + ((1 * (fdZ0 f)) * (fZ f)))) * ((((fdX2 f) * (fX
  f)) + ((fdY2 f) * (fY f))) + ((fdZ2 f) * (fZ f))))) + ((((((((2 * (fdX0 f)) * (fdX2 f)) + ((2 *
  (fdY0 f)) * (fdY2 f))) + ((2 * (fdZ0 f)) * (fdZ2 f))) + ((2 * (ks_ddX_D0D2 P f)) * (fX f))) + ((2 *
  (ks_ddY_D0D2 P f)) * (fY f))) + ((2 * (ks_ddZ_D0D2 P f)) * (fZ f))) * ((((- ((pa P) ^ 2)) + ((fX f)
  ^ 2)) + ((fY f) ^ 2)) + ((fZ f) ^ 2))))) / (sqrt (((4 * ((pa P) ^ 2)) * ((fZ f) ^ 2)) + (((((- ((pa
  P) ^ 2)) + ((fX f) ^ 2)) + ((fY f) ^ 2)) + ((fZ f) ^ 2)) ^ 2))))) + ((((1/2) * ((((4 * (fdZ0 f)) *
  ((pa P) ^ 2)) * (fZ f)) + ((2 * ((((fdX0 f) * (fX f)) + ((fdY0 f) * (fY f))) + ((fdZ0 f) * (fZ
  f)))) * (((((- 1) * ((pa P) ^ 2)) + ((fX f) ^ 2)) + ((fY f) ^ 2)) + ((fZ f) ^ 2))))) * (((((- 4) *
  (fdZ2 f)) * ((pa P) ^ 2)) * (fZ f)) - ((2 * ((((fdX2 f) * (fX f)) + ((fdY2 f) * (fY f))) + ((fdZ2
  f) * (fZ f)))) * (((((- 1) * ((pa P) ^ 2)) + ((fX f) ^ 2)) + ((fY f) ^ 2)) + ((fZ f) ^ 2))))) /
  ((sqrt (((4 * ((pa P) ^ 2)) * ((fZ f) ^ 2)) + (((((- ((pa P) ^ 2)) + ((fX f) ^ 2)) + ((fY f) ^ 2))
  + ((fZ f) ^ 2)) ^ 2))) ^ 3)))) / ((sqrt (((((- ((pa P) ^ 2)) + ((fX f) ^ 2)) + ((fY f) ^ 2)) + ((fZ
  f) ^ 2)) + (sqrt (((4 * ((pa P) ^ 2)) * ((fZ f) ^ 2)) + (((((- ((pa P) ^ 2)) + ((fX f) ^ 2)) + ((fY
  f) ^ 2)) + ((fZ f) ^ 2)) ^ 2))))) ^ 3)) + (((phs P) * (((((((((((((((1 * (fdX2 f)) * (ks_ddX_D0D0 P
  f)) + ((1 * (fdY2 f)) * (ks_ddY_D0D0 P f))) + ((1 * (fdZ2 f)) * (ks_ddZ_D0D0 P f))) + ((2 * (fdX0
  f)) * (ks_ddX_D0D2 P f))) + ((2 * (fdY0 f)) * (ks_ddY_D0D2 P f))) + ((2 * (fdZ0 f)) * (ks_ddZ_D0D2
  P f))) + ((1 * (ks_dddX_D0D0D2 P f)) * (fX f))) + ((1 * (ks_dddY_D0D0D2 P f)) * (fY f))) + ((1 *
  (ks_dddZ_D0D0D2 P f)) * (fZ f))) + (((1/2) * (((((((((4 * (fdZ2 f)) * (ks_ddZ_D0D0 P f)) * ((pa P)
  ^ 2)) + (((8 * (fdZ0 f)) * (ks_ddZ_D0D2 P f)) * ((pa P) ^ 2))) + (((4 * (ks_dddZ_D0D0D2 P f)) *
  ((pa P) ^ 2)) * (fZ f))) + ((4 * ((((fdX2 f) * (fX f)) + ((fdY2 f) * (fY f))) + ((fdZ2 f) * (fZ
  f)))) * ((((((1 * ((fdX0 f) ^ 2)) + (1 * ((fdY0 f) ^ 2))) + (1 * ((fdZ0 f) ^ 2))) + ((1 *
  (ks_ddX_D0D0 P f)) * (fX f))) + ((1 * (ks_ddY_D0D0 P f)) * (fY f))) + ((1 * (ks_ddZ_D0D0 P f)) *
  (fZ f))))) + ((4 * ((((1 * (fdX0 f)) * (fX f)) + ((1 * (fdY0 f)) * (fY f))) + ((1 * (fdZ0 f)) * (fZ
  f)))) * (((((((fdX0 f) * (fdX2 f)) + ((fdY0 f) * (fdY2 f))) + ((fdZ0 f) * (fdZ2 f))) +
  ((ks_ddX_D0D2 P f) * (fX f))) + ((ks_ddY_D0D2 P f) * (fY f))) + ((ks_ddZ_D0D2 P f) * (fZ f))))) +
  ((4 * ((((fdX0 f) * (fX f)) + ((fdY0 f) * (fY f))) + ((fdZ0 f) * (fZ f)))) * (((((((1 * (fdX0 f)) *
  (fdX2 f)) + ((1 * (fdY0 f)) * (fdY2 f))) + ((1 * (fdZ0 f)) * (fdZ2 f))) + ((1 * (ks_ddX_D0D2 P f))
  * (fX f))) + ((1 * (ks_ddY_D0D2 P f)) * (fY f))) + ((1 * (ks_ddZ_D0D2 P f)) * (fZ f))))) +
  (((((((((((2 * (fdX2 f)) * (ks_ddX_D0D0 P f)) + ((2 * (fdY2 f)) * (ks_ddY_D0D0 P f))) + ((2 * (fdZ2
  f)) * (ks_ddZ_D0D0 P f))) + ((4 * (fdX0 f)) * (ks_ddX_D0D2 P f))) + ((4 * (fdY0 f)) * (ks_ddY_D0D2
  P f))) + ((4 * (fdZ0 f)) * (ks_ddZ_D0D2 P f))) + ((2 * (ks_dddX_D0D0D2 P f)) * (fX f))) + ((2 *
  (ks_dddY_D0D0D2 P f)) * (fY f))) + ((2 * (ks_dddZ_D0D0D2 P f)) * (fZ f))) * ((((- ((pa P) ^ 2)) +
  ((fX f) ^ 2)) + ((fY f) ^ 2)) + ((fZ f) ^ 2))))) / (sqrt (((4 * ((pa P) ^ 2)) * ((fZ f) ^ 2)) +
  (((((- ((pa P) ^ 2)) + ((fX f) ^ 2)) + ((fY f) ^ 2)) + ((fZ f) ^ 2)) ^ 2))))) + ((((1/2) * ((((((4
  * (fdZ0 f)) * (fdZ2 f)) * ((pa P) ^ 2)) + (((4 * (ks_ddZ_D0D2 P f)) * ((pa P) ^ 2)) * (fZ f))) +
  ((4 * ((((1 * (fdX0 f)) * (fX f)) + ((1 * (fdY0 f)) * (fY f))) + ((1 * (fdZ0 f)) * (fZ f)))) *
  ((((fdX2 f) * (fX f)) + ((fdY2 f) * (fY f))) + ((fdZ2 f) * (fZ f))))) + ((((((((2 * (fdX0 f)) *
  (fdX2 f)) + ((2 * (fdY0 f)) * (fdY2 f))) + ((2 * (fdZ0 f)) * (fdZ2 f))) + ((2 * (ks_ddX_D0D2 P f))
  * (fX f))) + ((2 * (ks_ddY_D0D2 P f)) * (fY f))) + ((2 * (ks_ddZ_D0D2 P f)) * (fZ f))) * ((((- ((pa
  P) ^ 2)) + ((fX f) ^ 2)) + ((fY f) ^ 2)) + ((fZ f) ^ 2))))) * (((((- 4) * (fdZ0 f)) * ((pa P) ^ 2))
  * (fZ f)) - ((2 * ((((fdX0 f) * (fX f)) + ((fdY0 f) * (fY f))) + ((fdZ0 f) * (fZ f)))) * (((((- 1)
  * ((pa P) ^ 2)) + ((fX f) ^ 2)) + ((fY f) ^ 2)) + ((fZ f) ^ 2))))) / ((sqrt (((4 * ((pa P) ^ 2)) *
  ((fZ f) ^ 2)) + (((((- ((pa P) ^ 2)) + ((fX f) ^ 2)) + ((fY f) ^ 2)) + ((fZ f) ^ 2)) ^ 2))) ^ 3)))
  + ((((1/2) * (((((((- 4) * (fdZ0 f)) * (fdZ2 f)) * ((pa P) ^ 2)) - (((4 * (ks_ddZ_D0D2 P f)) * ((pa
  P) ^ 2)) * (fZ f))) - ((4 * ((((fdX0 f) * (fX f)) + ((fdY0 f) * (fY f))) + ((fdZ0 f) * (fZ f)))) *
  ((((1 * (fdX2 f)) * (fX f)) + ((1 * (fdY2 f)) * (fY f))) + ((1 * (fdZ2 f)) * (fZ f))))) +
  (((((((((- 2) * (fdX0 f)) * (fdX2 f)) - ((2 * (fdY0 f)) * (fdY2 f))) - ((2 * (fdZ0 f)) * (fdZ2 f)))
  - ((2 * (ks_ddX_D0D2 P f)) * (fX f))) - ((2 * (ks_ddY_D0D2 P f)) * (fY f))) - ((2 * (ks_ddZ_D0D2 P
  f)) * (fZ f))) * ((((- ((pa P) ^ 2)) + ((fX f) ^ 2)) + ((fY f) ^ 2)) + ((fZ f) ^ 2))))) * ((((4 *
  (fdZ0 f)) * ((pa P) ^ 2)) * (fZ f)) + ((2 * ((((fdX0 f) * (fX f)) + ((fdY0 f) * (fY f))) + ((fdZ0
  f) * (fZ f)))) * (((((- 1) * ((pa P) ^ 2)) + ((fX f) ^ 2)) + ((fY f) ^ 2)) + ((fZ f) ^ 2))))) /
  ((sqrt (((4 * ((pa P) ^ 2)) * ((fZ f) ^ 2)) + (((((- ((pa P) ^ 2)) + ((fX f) ^ 2)) + ((fY f) ^ 2))
  + ((fZ f) ^ 2)) ^ 2))) ^ 3))) + ((((1/2) * (((((4 * ((fdZ0 f) ^ 2)) * ((pa P) ^ 2)) + (((4 *
  (ks_ddZ_D0D0 P f)) * ((pa P) ^ 2)) * (fZ f))) + (4 * (((((1 * (fdX0 f)) * (fX f)) + ((1 * (fdY0 f))
  * (fY f))) + ((1 * (fdZ0 f)) * (fZ f))) ^ 2))) + (((((((2 * ((fdX0 f) ^ 2)) + (2 * ((fdY0 f) ^ 2)))
  + (2 * ((fdZ0 f) ^ 2))) + ((2 * (ks_ddX_D0D0 P f)) * (fX f))) + ((2 * (ks_ddY_D0D0 P f)) * (fY f)))
  + ((2 * (ks_ddZ_D0D0 P f)) * (fZ f))) * ((((- ((pa P) ^ 2)) + ((fX f) ^ 2)) + ((fY f) ^ 2)) + ((fZ
  f) ^ 2))))) * (((((- 4) * (fdZ2 f)) * ((pa P) ^ 2)) * (fZ f)) - ((2 * ((((fdX2 f) * (fX f)) +
  ((fdY2 f) * (fY f))) + ((fdZ2 f) * (fZ f)))) * (((((- 1) * ((pa P) ^ 2)) + ((fX f) ^ 2)) + ((fY f)
  ^ 2)) + ((fZ f) ^ 2))))) / ((sqrt (((4 * ((pa P) ^ 2)) * ((fZ f) ^ 2)) + (((((- ((pa P) ^ 2)) +
  ((fX f) ^ 2)) + ((fY f) ^ 2)) + ((fZ f) ^ 2)) ^ 2))) ^ 3))) + (((((1/2) * (((((- 12) * (fdZ0 f)) *
  ((pa P) ^ 2)) * (fZ f)) - ((6 * ((((fdX0 f) * (fX f)) + ((fdY0 f) * (fY f))) + ((fdZ0 f) * (fZ
  f)))) * (((((- 1) * ((pa P) ^ 2)) + ((fX f) ^ 2)) + ((fY f) ^ 2)) + ((fZ f) ^ 2))))) * ((((4 *
  (fdZ0 f)) * ((pa P) ^ 2)) * (fZ f)) + ((2 * ((((fdX0 f) * (fX f)) + ((fdY0 f) * (fY f))) + ((fdZ0
  f) * (fZ f)))) * (((((- 1) * ((pa P) ^ 2)) + ((fX f) ^ 2)) + ((fY f) ^ 2)) + ((fZ f) ^ 2))))) *
  (((((- 4) * (fdZ2 f)) * ((pa P) ^ 2)) * (fZ f)) - ((2 * ((((fdX2 f) * (fX f)) + ((fdY2 f) * (fY
  f))) + ((fdZ2 f) * (fZ f)))) * (((((- 1) * ((pa P) ^ 2)) + ((fX f) ^ 2)) + ((fY f) ^ 2)) + ((fZ f)
  ^ 2))))) / ((sqrt (((4 * ((pa P) ^ 2)) * ((fZ f) ^ 2)) + (((((- ((pa P) ^ 2)) + ((fX f) ^ 2)) +
  ((fY f) ^ 2)) + ((fZ f) ^ 2)) ^ 2))) ^ 5)))) / (sqrt (((((- ((pa P) ^ 2)) + ((fX f) ^ 2)) + ((fY f)
  ^ 2)) + ((fZ f) ^ 2)) + (sqrt (((4 * ((pa P) ^ 2)) * ((fZ f) ^ 2)) + (((((- ((pa P) ^ 2)) + ((fX f)
  ^ 2)) + ((fY f) ^ 2)) + ((fZ f) ^ 2)) ^ 2))))))) + ((((phs P) * ((((((((1 * ((fdX0 f) ^ 2)) + (1 *
  ((fdY0 f) ^ 2))) + (1 * ((fdZ0 f) ^ 2))) + ((1 * (ks_ddX_D0D0 P f)) * (fX f))) + ((1 * (ks_ddY_D0D0
  P f)) * (fY f))) + ((1 * (ks_ddZ_D0D0 P f)) * (fZ f))) - ((2 * ((((((fdZ0 f) * (fZ f)) * (((((- 1)
  * ((pa P) ^ 2)) - (1 * ((fX f) ^ 2))) - (1 * ((fY f) ^ 2))) - (1 * ((fZ f) ^ 2)))) + (((fdX0 f) *
  (fX f)) * ((((1 * ((pa P) ^ 2)) - (1 * ((fX f) ^ 2))) - (1 * ((fY f) ^ 2))) - (1 * ((fZ f) ^ 2)))))
  + (((fdY0 f) * (fY f)) * ((((1 * ((pa P) ^ 2)) - (1 * ((fX f) ^ 2))) - (1 * ((fY f) ^ 2))) - (1 *
  ((fZ f) ^ 2))))) ^ 2)) / ((sqrt (((4 * ((pa P) ^ 2)) * ((fZ f) ^ 2)) + (((((- ((pa P) ^ 2)) + ((fX
  f) ^ 2)) + ((fY f) ^ 2)) + ((fZ f) ^ 2)) ^ 2))) ^ 3))) + (((1/2) * (((((4 * ((fdZ0 f) ^ 2)) * ((pa
  P) ^ 2)) + (((4 * (ks_ddZ_D0D0 P f)) * ((pa P) ^ 2)) * (fZ f))) + (4 * (((((1 * (fdX0 f)) * (fX f))
  + ((1 * (fdY0 f)) * (fY f))) + ((1 * (fdZ0 f)) * (fZ f))) ^ 2))) + (((((((2 * ((fdX0 f) ^ 2)) + (2
  * ((fdY0 f) ^ 2))) + (2 * ((fdZ0 f) ^ 2))) + ((2 * (ks_ddX_D0D0 P f)) * (fX f))) + ((2 *
  (ks_ddY_D0D0 P f)) * (fY f))) + ((2 * (ks_ddZ_D0D0 P f)) * (fZ f))) * ((((- ((pa P) ^ 2)) + ((fX f)
  ^ 2)) + ((fY f) ^ 2)) + ((fZ f) ^ 2))))) / (sqrt (((4 * ((pa P) ^ 2)) * ((fZ f) ^ 2)) + (((((- ((pa
  P) ^ 2)) + ((fX f) ^ 2)) + ((fY f) ^ 2)) + ((fZ f) ^ 2)) ^ 2)))))) * ((((((- 1) * (fdX2 f)) * (fX
  f)) - ((1 * (fdY2 f)) * (fY f))) - ((1 * (fdZ2 f)) * (fZ f))) - (((1/2) * ((((4 * (fdZ2 f)) * ((pa
  P) ^ 2)) * (fZ f)) + ((2 * ((((fdX2 f) * (fX f)) + ((fdY2 f) * (fY f))) + ((fdZ2 f) * (fZ f)))) *
  (((((- 1) * ((pa P) ^ 2)) + ((fX f) ^ 2)) + ((fY f) ^ 2)) + ((fZ f) ^ 2))))) / (sqrt (((4 * ((pa P)
  ^ 2)) * ((fZ f) ^ 2)) + (((((- ((pa P) ^ 2)) + ((fX f) ^ 2)) + ((fY f) ^ 2)) + ((fZ f) ^ 2)) ^
  2)))))) / ((sqrt (((((- ((pa P) ^ 2)) + ((fX f) ^ 2)) + ((fY f) ^ 2)) + ((fZ f) ^ 2)) + (sqrt (((4
  * ((pa P) ^ 2)) * ((fZ f) ^ 2)) + (((((- ((pa P) ^ 2)) + ((fX f) ^ 2)) + ((fY f) ^ 2)) + ((fZ f) ^
  2)) ^ 2))))) ^ 3))) + (((((phs P) * ((((((- 3) * (fdX0 f)) * (fX f)) - ((3 * (fdY0 f)) * (fY f))) -
  ((3 * (fdZ0 f)) * (fZ f))) - (((3/2) * ((((4 * (fdZ0 f)) * ((pa P) ^ 2)) * (fZ f)) + ((2 * ((((fdX0
  f) * (fX f)) + ((fdY0 f) * (fY f))) + ((fdZ0 f) * (fZ f)))) * (((((- 1) * ((pa P) ^ 2)) + ((fX f) ^
  2)) + ((fY f) ^ 2)) + ((fZ f) ^ 2))))) / (sqrt (((4 * ((pa P) ^ 2)) * ((fZ f) ^ 2)) + (((((- ((pa
  P) ^ 2)) + ((fX f) ^ 2)) + ((fY f) ^ 2)) + ((fZ f) ^ 2)) ^ 2)))))) * (((((1 * (fdX0 f)) * (fX f)) +
  ((1 * (fdY0 f)) * (fY f))) + ((1 * (fdZ0 f)) * (fZ f))) + (((1/2) * ((((4 * (fdZ0 f)) * ((pa P) ^
  2)) * (fZ f)) + ((2 * ((((fdX0 f) * (fX f)) + ((fdY0 f) * (fY f))) + ((fdZ0 f) * (fZ f)))) * (((((-
  1) * ((pa P) ^ 2)) + ((fX f) ^ 2)) + ((fY f) ^ 2)) + ((fZ f) ^ 2))))) / (sqrt (((4 * ((pa P) ^ 2))
  * ((fZ f) ^ 2)) + (((((- ((pa P) ^ 2)) + ((fX f) ^ 2)) + ((fY f) ^ 2)) + ((fZ f) ^ 2)) ^ 2)))))) *
  ((((((- 1) * (fdX2 f)) * (fX f)) - ((1 * (fdY2 f)) * (fY f))) - ((1 * (fdZ2 f)) * (fZ f))) -
  (((1/2) * ((((4 * (fdZ2 f)) * ((pa P) ^ 2)) * (fZ f)) + ((2 * ((((fdX2 f) * (fX f)) + ((fdY2 f) *
  (fY f))) + ((fdZ2 f) * (fZ f)))) * (((((- 1) * ((pa P) ^ 2)) + ((fX f) ^ 2)) + ((fY f) ^ 2)) + ((fZ
  f) ^ 2))))) / (sqrt (((4 * ((pa P) ^ 2)) * ((fZ f) ^ 2)) + (((((- ((pa P) ^ 2)) + ((fX f) ^ 2)) +
  ((fY f) ^ 2)) + ((fZ f) ^ 2)) ^ 2)))))) / ((sqrt (((((- ((pa P) ^ 2)) + ((fX f) ^ 2)) + ((fY f) ^
  2)) + ((fZ f) ^ 2)) + (sqrt (((4 * ((pa P) ^ 2)) * ((fZ f) ^ 2)) + (((((- ((pa P) ^ 2)) + ((fX f) ^
  2)) + ((fY f) ^ 2)) + ((fZ f) ^ 2)) ^ 2))))) ^ 5))) + ((((phs P) * (((((1 * (fdX0 f)) * (fX f)) +
  ((1 * (fdY0 f)) * (fY f))) + ((1 * (fdZ0 f)) * (fZ f))) + (((1/2) * ((((4 * (fdZ0 f)) * ((pa P) ^
  2)) * (fZ f)) + ((2 * ((((fdX0 f) * (fX f)) + ((fdY0 f) * (fY f))) + ((fdZ0 f) * (fZ f)))) * (((((-
  1) * ((pa P) ^ 2)) + ((fX f) ^ 2)) + ((fY f) ^ 2)) + ((fZ f) ^ 2))))) / (sqrt (((4 * ((pa P) ^ 2))
  * ((fZ f) ^ 2)) + (((((- ((pa P) ^ 2)) + ((fX f) ^ 2)) + ((fY f) ^ 2)) + ((fZ f) ^ 2)) ^ 2)))))) *
  ((((((((((- 1) * (fdX0 f)) * (fdX2 f)) - ((1 * (fdY0 f)) * (fdY2 f))) - ((1 * (fdZ0 f)) * (fdZ2
  f))) - ((1 * (ks_ddX_D0D2 P f)) * (fX f))) - ((1 * (ks_ddY_D0D2 P f)) * (fY f))) - ((1 *
  (ks_ddZ_D0D2 P f)) * (fZ f))) - (((1/2) * ((((((4 * (fdZ0 f)) * (fdZ2 f)) * ((pa P) ^ 2)) + (((4 *
  (ks_ddZ_D0D2 P f)) * ((pa P) ^ 2)) * (fZ f))) + ((4 * ((((fdX0 f) * (fX f)) + ((fdY0 f) * (fY f)))
  + ((fdZ0 f) * (fZ f)))) * ((((1 * (fdX2 f)) * (fX f)) + ((1 * (fdY2 f)) * (fY f))) + ((1 * (fdZ2
  f)) * (fZ f))))) + ((((((((2 * (fdX0 f)) * (fdX2 f)) + ((2 * (fdY0 f)) * (fdY2 f))) + ((2 * (fdZ0
  f)) * (fdZ2 f))) + ((2 * (ks_ddX_D0D2 P f)) * (fX f))) + ((2 * (ks_ddY_D0D2 P f)) * (fY f))) + ((2
  * (ks_ddZ_D0D2 P f)) * (fZ f))) * ((((- ((pa P) ^ 2)) + ((fX f) ^ 2)) + ((fY f) ^ 2)) + ((fZ f) ^
  2))))) / (sqrt (((4 * ((pa P) ^ 2)) * ((fZ f) ^ 2)) + (((((- ((pa P) ^ 2)) + ((fX f) ^ 2)) + ((fY
  f) ^ 2)) + ((fZ f) ^ 2)) ^ 2))))) - ((((1/2) * (((((- 4) * (fdZ0 f)) * ((pa P) ^ 2)) * (fZ f)) -
  ((2 * ((((fdX0 f) * (fX f)) + ((fdY0 f) * (fY f))) + ((fdZ0 f) * (fZ f)))) * (((((- 1) * ((pa P) ^
  2)) + ((fX f) ^ 2)) + ((fY f) ^ 2)) + ((fZ f) ^ 2))))) * ((((4 * (fdZ2 f)) * ((pa P) ^ 2)) * (fZ
  f)) + ((2 * ((((fdX2 f) * (fX f)) + ((fdY2 f) * (fY f))) + ((fdZ2 f) * (fZ f)))) * (((((- 1) * ((pa
  P) ^ 2)) + ((fX f) ^ 2)) + ((fY f) ^ 2)) + ((fZ f) ^ 2))))) / ((sqrt (((4 * ((pa P) ^ 2)) * ((fZ f)
  ^ 2)) + (((((- ((pa P) ^ 2)) + ((fX f) ^ 2)) + ((fY f) ^ 2)) + ((fZ f) ^ 2)) ^ 2))) ^ 3)))) /
  ((sqrt (((((- ((pa P) ^ 2)) + ((fX f) ^ 2)) + ((fY f) ^ 2)) + ((fZ f) ^ 2)) + (sqrt (((4 * ((pa P)
  ^ 2)) * ((fZ f) ^ 2)) + (((((- ((pa P) ^ 2)) + ((fX f) ^ 2)) + ((fY f) ^ 2)) + ((fZ f) ^ 2)) ^
  2))))) ^ 3)).

(* /repo/Src/Main/Modules/Physics/Free_Data/fd_KerrSchild_R_X_Y_Z.c:3870-4149 *)
Definition ks_dddR_D0D2D1 (P : kspar) (f : ksarg) : R :=
  (((((((phs P) * ((((((- 1) * (fdX1 f)) * (fX f)) - ((1 * (fdY1 f)) * (fY f))) - ((1 * (fdZ1 f)) *
  (fZ f))) - (((1/2) * ((((4 * (fdZ1 f)) * ((pa P) ^ 2)) * (fZ f)) + ((2 * ((((fdX1 f) * (fX f)) +
  ((fdY1 f) * (fY f))) + ((fdZ1 f) * (fZ f)))) * (((((- 1) * ((pa P) ^ 2)) + ((fX f) ^ 2)) + ((fY f)
  ^ 2)) + ((fZ f) ^ 2))))) / (sqrt (((4 * ((pa P) ^ 2)) * ((fZ f) ^ 2)) + (((((- ((pa P) ^ 2)) + ((fX
  f) ^ 2)) + ((fY f) ^ 2)) + ((fZ f) ^ 2)) ^ 2)))))) * (((((((((1 * (fdX0 f)) * (fdX2 f)) + ((1 *
  (fdY0 f)) * (fdY2 f))) + ((1 * (fdZ0 f)) * (fdZ2 f))) + ((1 * (ks_ddX_D0D2 P f)) * (fX f))) + ((1 *
  (ks_ddY_D0D2 P f)) * (fY f))) + ((1 * (ks_ddZ_D0D2 P f)) * (fZ f))) + (((1/2) * ((((((4 * (fdZ0 f))
  * (fdZ2 f)) * ((pa P) ^ 2)) + (((4 * (ks_ddZ_D0D2 P f)) * ((pa P) ^ 2)) * (fZ f))) + ((4 * ((((1 *
  (fdX0 f)) * (fX f)) + ((1 * (fdY0 f)) * (fY f))) + ((1 * (fdZ0 f)) * (fZ f)))) * ((((fdX2 f) * (fX
  f)) + ((fdY2 f) * (fY f))) + ((fdZ2 f) * (fZ f))))) + ((((((((2 * (fdX0 f)) * (fdX2 f)) + ((2 *
  (fdY0 f)) * (fdY2 f))) + ((2 * (fdZ0 f)) * (fdZ2 f))) + ((2 * (ks_ddX_D0D2 P f)) * (fX f))) + ((2 *
  (ks_ddY_D0D2 P f)) * (fY f))) + ((2 * (ks_ddZ_D0D2 P f)) * (fZ f))) * ((((- ((pa P) ^ 2)) + ((fX f)
  ^ 2)) + ((fY f) ^ 2)) + ((fZ f) ^ 2))))) / (sqrt (((4 * ((pa P) ^ 2)) * ((fZ f) ^ 2)) + (((((- ((pa
  P) ^ 2)) + ((fX f) ^ 2)) + ((fY f) ^ 2)) + ((fZ f) ^ 2)) ^ 2))))) + ((((1/2) * ((((4 * (fdZ0 f)) *
  ((pa P) ^ 2)) * (fZ f)) + ((2 * ((((fdX0 f) * (fX f)) + ((fdY0 f) * (fY f))) + ((fdZ0 f) * (fZ
  f)))) * (((((- 1) * ((pa P) ^ 2)) + ((fX f) ^ 2)) + ((fY f) ^ 2)) + ((fZ f) ^ 2))))) * (((((- 4) *
  (fdZ2 f)) * ((pa P) ^ 2)) * (fZ f)) - ((2 * ((((fdX2 f) * (fX f)) + ((fdY2 f) * (fY f))) + ((fdZ2
  f) * (fZ f)))) * (((((- 1) * ((pa P) ^ 2)) + ((fX f) ^ 2)) + ((fY f) ^ 2)) + ((fZ f) ^ 2))))) /
  ((sqrt (((4 * ((pa P) ^ 2)) * ((fZ f) ^ 2)) + (((((- ((pa P) ^ 2)) + ((fX f) ^ 2)) + ((fY f) ^ 2))
  + ((fZ f) ^ 2)) ^ 2))) ^ 3)))) / ((sqrt (((((- ((pa P) ^ 2)) + ((fX f) ^ 2)) + ((fY f) ^ 2)) + ((fZ
  f) ^ 2)) + (sqrt (((4 * ((pa P) ^ 2)) * ((fZ f) ^ 2)) + (((((- ((pa P) ^ 2)) + ((fX f) ^ 2)) + ((fY
  f) ^ 2)) + ((fZ f) ^ 2)) ^ 2))))) ^ 3)) + (((phs P) * ((((((((((((((((((1 * (fdX2 f)) *
  (ks_ddX_D0D1 P f)) + ((1 * (fdX1 f)) * (ks_ddX_D0D2 P f))) + ((1 * (fdX0 f)) * (ks_ddX_D1D2 P f)))
  + ((1 * (fdY2 f)) * (ks_ddY_D0D1 P f))) + ((1 * (fdY1 f)) * (ks_ddY_D0D2 P f))) + ((1 * (fdY0 f)) *
  (ks_ddY_D1D2 P f))) + ((1 * (fdZ2 f)) * (ks_ddZ_D0D1 P f))) + ((1 * (fdZ1 f)) * (ks_ddZ_D0D2 P f)))
  + ((1 * (fdZ0 f)) * (ks_ddZ_D1D2 P f))) + ((1 * (ks_dddX_D0D1D2 P f)) * (fX f))) + ((1 *
  (ks_dddY_D0D1D2 P f)) * (fY f))) + ((1 * (ks_dddZ_D0D1D2 P f)) * (fZ f))) + (((1/2) * ((((((((((4 *
  (fdZ2 f)) * (ks_ddZ_D0D1 P f)) * ((pa P) ^ 2)) + (((4 * (fdZ1 f)) * (ks_ddZ_D0D2 P f)) * ((pa P) ^
  2))) + (((4 * (fdZ0 f)) * (ks_ddZ_D1D2 P f)) * ((pa P) ^ 2))) + (((4 * (ks_dddZ_D0D1D2 P f)) * ((pa
  P) ^ 2)) * (fZ f))) + ((4 * ((((fdX2 f) * (fX f)) + ((fdY2 f) * (fY f))) + ((fdZ2 f) * (fZ f)))) *
  (((((((1 * (fdX0 f)) * (fdX1 f)) + ((1 * (fdY0 f)) * (fdY1 f))) + ((1 * (fdZ0 f)) * (fdZ1 f))) +
  ((1 * (ks_ddX_D0D1 P f)) * (fX f))) + ((1 * (ks_ddY_D0D1 P f)) * (fY f))) + ((1 * (ks_ddZ_D0D1 P
  f)) * (fZ f))))) + ((4 * ((((fdX1 f) * (fX f)) + ((fdY1 f) * (fY f))) + ((fdZ1 f) * (fZ f)))) *
  (((((((1 * (fdX0 f)) * (fdX2 f)) + ((1 * (fdY0 f)) * (fdY2 f))) + ((1 * (fdZ0 f)) * (fdZ2 f))) +
  ((1 * (ks_ddX_D0D2 P f)) * (fX f))) + ((1 * (ks_ddY_D0D2 P f)) * (fY f))) + ((1 * (ks_ddZ_D0D2 P
  f)) * (fZ f))))) + ((4 * ((((1 * (fdX0 f)) * (fX f)) + ((1 * (fdY0 f)) * (fY f))) + ((1 * (fdZ0 f))
  * (fZ f)))) * (((((((fdX1 f) * (fdX2 f)) + ((fdY1 f) * (fdY2 f))) + ((fdZ1 f) * (fdZ2 f))) +
  ((ks_ddX_D1D2 P f) * (fX f))) + ((ks_ddY_D1D2 P f) * (fY f))) + ((ks_ddZ_D1D2 P f) * (fZ f))))) +
  ((((((((((((((2 * (fdX2 f)) * (ks_ddX_D0D1 P f)) + ((2 * (fdX1 f)) * (ks_ddX_D0D2 P f))) + ((2 *
  (fdX0 f)) * (ks_ddX_D1D2 P f))) + ((2 * (fdY2 f)) * (ks_ddY_D0D1 P f))) + ((2 * (fdY1 f)) *
  (ks_ddY_D0D2 P f))) + ((2 * (fdY0 f)) * (ks_ddY_D1D2 P f))) + ((2 * (fdZ2 f)) * (ks_ddZ_D0D1 P f)))
  + ((2 * (fdZ1 f)) * (ks_ddZ_D0D2 P f))) + ((2 * (fdZ0 f)) * (ks_ddZ_D1D2 P f))) + ((2 *
  (ks_dddX_D0D1D2 P f)) * (fX f))) + ((2 * (ks_dddY_D0D1D2 P f)) * (fY f))) + ((2 * (ks_dddZ_D0D1D2 P
  f)) * (fZ f))) * ((((- ((pa P) ^ 2)) + ((fX f) ^ 2)) + ((fY f) ^ 2)) + ((fZ f) ^ 2))))) / (sqrt
  (((4 * ((pa P) ^ 2)) * ((fZ f) ^ 2)) + (((((- ((pa P) ^ 2)) + ((fX f) ^ 2)) + ((fY f) ^ 2)) + ((fZ
  f) ^ 2)) ^ 2))))) + ((((1/2) * (((((((- 4) * (fdZ1 f)) * (fdZ2 f)) * ((pa P) ^ 2)) - (((4 *
  (ks_ddZ_D1D2 P f)) * ((pa P) ^ 2)) * (fZ f))) - ((4 * ((((fdX1 f) * (fX f)) + ((fdY1 f) * (fY f)))
  + ((fdZ1 f) * (fZ f)))) * ((((1 * (fdX2 f)) * (fX f)) + ((1 * (fdY2 f)) * (fY f))) + ((1 * (fdZ2
  f)) * (fZ f))))) + (((((((((- 2) * (fdX1 f)) * (fdX2 f)) - ((2 * (fdY1 f)) * (fdY2 f))) - ((2 *
  (fdZ1 f)) * (fdZ2 f))) - ((2 * (ks_ddX_D1D2 P f)) * (fX f))) - ((2 * (ks_ddY_D1D2 P f)) * (fY f)))
  - ((2 * (ks_ddZ_D1D2 P f)) * (fZ f))) * ((((- ((pa P) ^ 2)) + ((fX f) ^ 2)) + ((fY f) ^ 2)) + ((fZ
  f) ^ 2))))) * ((((4 * (fdZ0 f)) * ((pa P) ^ 2)) * (fZ f)) + ((2 * ((((fdX0 f) * (fX f)) + ((fdY0 f)
  * (fY f))) + ((fdZ0 f) * (fZ f)))) * (((((- 1) * ((pa P) ^ 2)) + ((fX f) ^ 2)) + ((fY f) ^ 2)) +
  ((fZ f) ^ 2))))) / ((sqrt (((4 * ((pa P) ^ 2)) * ((fZ f) ^ 2)) + (((((- ((pa P) ^ 2)) + ((fX f) ^
  2)) + ((fY f) ^ 2)) + ((fZ f) ^ 2)) ^ 2))) ^ 3))) + ((((1/2) * ((((((4 * (fdZ0 f)) * (fdZ2 f)) *
  ((pa P) ^ 2)) + (((4 * (ks_ddZ_D0D2 P f)) * ((pa P) ^ 2)) * (fZ f))) + ((4 * ((((1 * (fdX0 f)) *
  (fX f)) + ((1 * (fdY0 f)) * (fY f))) + ((1 * (fdZ0 f)) * (fZ f)))) * ((((fdX2 f) * (fX f)) + ((fdY2
  f) * (fY f))) + ((fdZ2 f) * (fZ f))))) + ((((((((2 * (fdX0 f)) * (fdX2 f)) + ((2 * (fdY0 f)) *
  (fdY2 f))) + ((2 * (fdZ0 f)) * (fdZ2 f))) + ((2 * (ks_ddX_D0D2 P f)) * (fX f))) + ((2 *
  (ks_ddY_D0D2 P f)) * (fY f))) + ((2 * (ks_ddZ_D0D2 P f)) * (fZ f))) * ((((- ((pa P) ^ 2)) + ((fX f)
  ^ 2)) + ((fY f) ^ 2)) + ((fZ f) ^ 2))))) * (((((- 4) * (fdZ1 f)) * ((pa P) ^ 2)) * (fZ f)) - ((2 *
  ((((fdX1 f) * (fX f)) + ((fdY1 f) * (fY f))) + ((fdZ1 f) * (fZ f)))) * (((((- 1) * ((pa P) ^ 2)) +
  ((fX f) ^ 2)) + ((fY f) ^ 2)) + ((fZ f) ^ 2))))) / ((sqrt (((4 * ((pa P) ^ 2)) * ((fZ f) ^ 2)) +
  (((((- ((pa P) ^ 2)) + ((fX f) ^ 2)) + ((fY f) ^ 2)) + ((fZ f) ^ 2)) ^ 2))) ^ 3))) + ((((1/2) *
  ((((((4 * (fdZ0 f)) * (fdZ1 f)) * ((pa P) ^ 2)) + (((4 * (ks_ddZ_D0D1 P f)) * ((pa P) ^ 2)) * (fZ
  f))) + ((4 * ((((1 * (fdX0 f)) * (fX f)) + ((1 * (fdY0 f)) * (fY f))) + ((1 * (fdZ0 f)) * (fZ f))))
  * ((((fdX1 f) * (fX f)) + ((fdY1 f) * (fY f))) + ((fdZ1 f) * (fZ f))))) + ((((((((2 * (fdX0 f)) *
  (fdX1 f)) + ((2 * (fdY0 f)) * (fdY1 f))) + ((2 * (fdZ0 f)) * (fdZ1 f))) + ((2 * (ks_ddX_D0D1 P f))
  * (fX f))) + ((2 * (ks_ddY_D0D1 P f)) * (fY f))) + ((2 * (ks_ddZ_D0D1 P f)) * (fZ f))) * ((((- ((pa
  P) ^ 2)) + ((fX f) ^ 2)) + ((fY f) ^ 2)) + ((fZ f) ^ 2))))) * (((((- 4) * (fdZ2 f)) * ((pa P) ^ 2))
  * (fZ f)) - ((2 * ((((fdX2 f) * (fX f)) + ((fdY2 f) * (fY f))) + ((fdZ2 f) * (fZ f)))) * (((((- 1)
  * ((pa P) ^ 2)) + ((fX f) ^ 2)) + ((fY f) ^ 2)) + ((fZ f) ^ 2))))) / ((sqrt (((4 * ((pa P) ^ 2)) *
  ((fZ f) ^ 2)) + (((((- ((pa P) ^ 2)) + ((fX f) ^ 2)) + ((fY f) ^ 2)) + ((fZ f) ^ 2)) ^ 2))) ^ 3)))
  + (((((1/2) * ((((4 * (fdZ0 f)) * ((pa P) ^ 2)) * (fZ f)) + ((2 * ((((fdX0 f) * (fX f)) + ((fdY0 f)
  * (fY f))) + ((fdZ0 f) * (fZ f)))) * (((((- 1) * ((pa P) ^ 2)) + ((fX f) ^ 2)) + ((fY f) ^ 2)) +
  ((fZ f) ^ 2))))) * (((((- 12) * (fdZ1 f)) * ((pa P) ^ 2)) * (fZ f)) - ((6 * ((((fdX1 f) * (fX f)) +
  ((fdY1 f) * (fY f))) + ((fdZ1 f) * (fZ f)))) * (((((- 1) * ((pa P) ^ 2)) + ((fX f) ^ 2)) + ((fY f)
  ^ 2)) + ((fZ f) ^ 2))))) * (((((- 4) * (fdZ2 f)) * ((pa P) ^ 2)) * (fZ f)) - ((2 * ((((fdX2 f) *
  (fX f)) + ((fdY2 f) * (fY f))) + ((fdZ2 f) * (fZ f)))) * (((((- 1) * ((pa P) ^ 2)) + ((fX f) ^ 2))
  + ((fY f) ^ 2)) + ((fZ f) ^ 2))))) / ((sqrt (((4 * ((pa P) ^ 2)) * ((fZ f) ^ 2)) + (((((- ((pa P) ^
  2)) + ((fX f) ^ 2)) + ((fY f) ^ 2)) + ((fZ f) ^ 2)) ^ 2))) ^ 5)))) / (sqrt (((((- ((pa P) ^ 2)) +
  ((fX f) ^ 2)) + ((fY f) ^ 2)) + ((fZ f) ^ 2)) + (sqrt (((4 * ((pa P) ^ 2)) * ((fZ f) ^ 2)) + (((((-
  ((pa P) ^ 2)) + ((fX f) ^ 2)) + ((fY f) ^ 2)) + ((fZ f) ^ 2)) ^ 2))))))) + ((((phs P) * (((((((((1
  * (fdX0 f)) * (fdX1 f)) + ((1 * (fdY0 f)) * (fdY1 f))) + ((1 * (fdZ0 f)) * (fdZ1 f))) + ((1 *
  (ks_ddX_D0D1 P f)) * (fX f))) + ((1 * (ks_ddY_D0D1 P f)) * (fY f))) + ((1 * (ks_ddZ_D0D1 P f)) *
  (fZ f))) + (((1/2) * ((((((4 * (fdZ0 f)) * (fdZ1 f)) * ((pa P) ^ 2)) + (((4 * (ks_ddZ_D0D1 P f)) *
  ((pa P) ^ 2)) * (fZ f))) + ((4 * ((((1 * (fdX0 f)) * (fX f)) + ((1 * (fdY0 f)) * (fY f))) + ((1 *
  (fdZ0 f)) * (fZ f)))) * ((((fdX1 f) * (fX f)) + ((fdY1 f) * (fY f))) + ((fdZ1 f) * (fZ f))))) +
  ((((((((2 * (fdX0 f)) * (fdX1 f)) + ((2 * (fdY0 f)) * (fdY1 f))) + ((2 * (fdZ0 f)) * (fdZ1 f))) +
  ((2 * (ks_ddX_D0D1 P f)) * (fX f))) + ((2 * (ks_ddY_D0D1 P f)) * (fY f))) + ((2 * (ks_ddZ_D0D1 P
  f)) * (fZ f))) * ((((- ((pa P) ^ 2)) + ((fX f) ^ 2)) + ((fY f) ^ 2)) + ((fZ f) ^ 2))))) / (sqrt
  (((4 * ((pa P) ^ 2)) * ((fZ f) ^ 2)) + (((((- ((pa P) ^ 2)) + ((fX f) ^ 2)) + ((fY f) ^ 2)) + ((fZ
  f) ^ 2)) ^ 2))))) + ((((1/2) * ((((4 * (fdZ0 f)) * ((pa P) ^ 2)) * (fZ f)) + ((2 * ((((fdX0 f) *
  (fX f)) + ((fdY0 f) * (fY f))) + ((fdZ0 f) * (fZ f)))) * (((((- 1) * ((pa P) ^ 2)) + ((fX f) ^ 2))
  + ((fY f) ^ 2)) + ((fZ f) ^ 2))))) * (((((- 4) * (fdZ1 f)) * ((pa P) ^ 2)) * (fZ f)) - ((2 *
  ((((fdX1 f) * (fX f)) + ((fdY1 f) * (fY f))) + ((fdZ1 f) * (fZ f)))) * (((((- 1) * ((pa P) ^ 2)) +
  ((fX f) ^ 2)) + ((fY f) ^ 2)) + ((fZ f) ^ 2))))) / ((sqrt (((4 * ((pa P) ^ 2)) * ((fZ f) ^ 2)) +
  (((((- ((pa P) ^ 2)) + ((fX f) ^ 2)) + ((fY f) ^ 2)) + ((fZ f) ^ 2)) ^ 2))) ^ 3)))) * ((((((- 1) *
  (fdX2 f)) * (fX f)) - ((1 * (fdY2 f)) * (fY f))) - ((1 * (fdZ2 f)) * (fZ f))) - (((1/2) * ((((4 *
  (fdZ2 f)) * ((pa P) ^ 2)) * (fZ f)) + ((2 * ((((fdX2 f) * (fX f)) + ((fdY2 f) * (fY f))) + ((fdZ2
  f) * (fZ f)))) * (((((- 1) * ((pa P) ^ 2)) + ((fX f) ^ 2)) + ((fY f) ^ 2)) + ((fZ f) ^ 2))))) /
  (sqrt (((4 * ((pa P) ^ 2)) * ((fZ f) ^ 2)) + (((((- ((pa P) ^ 2)) + ((fX f) ^ 2)) + ((fY f) ^ 2)) +
  ((fZ f) ^ 2)) ^ 2)))))) / ((sqrt (((((- ((pa P) ^ 2)) + ((fX f) ^ 2)) + ((fY f) ^ 2)) + ((fZ f) ^
  2)) + (sqrt (((4 * ((pa P) ^ 2)) * ((fZ f) ^ 2)) + (((((- ((pa P) ^ 2)) + ((fX f) ^ 2)) + ((fY f) ^
  2)) + ((fZ f) ^ 2)) ^ 2))))) ^ 3))) + (((((phs P) * (((((1 * (fdX0 f)) * (fX f)) + ((1 * (fdY0 f))
  * (fY f))) + ((1 * (fdZ0 f)) * (fZ f))) + (((1/2) * ((((4 * (fdZ0 f)) * ((pa P) ^ 2)) * (fZ f)) +
  ((2 * ((((fdX0 f) * (fX f)) + ((fdY0 f) * (fY f))) + ((fdZ0 f) * (fZ f)))) * (((((- 1) * ((pa P) ^
  2)) + ((fX f) ^ 2)) + ((fY f) ^ 2)) + ((fZ f) ^ 2))))) / (sqrt (((4 * ((pa P) ^ 2)) * ((fZ f) ^ 2))
  + (((((- ((pa P) ^ 2)) + ((fX f) ^ 2)) + ((fY f) ^ 2)) + ((fZ f) ^ 2)) ^ 2)))))) * ((((((- 3) *
  (fdX1 f)) * (fX f)) - ((3 * (fdY1 f)) * (fY f))) - ((3 * (fdZ1 f)) * (fZ f))) - (((3/2) * ((((4 *
  (fdZ1 f)) * ((pa P) ^ 2)) * (fZ f)) + ((2 * ((((fdX1 f) * (fX f)) + ((fdY1 f) * (fY f))) + ((fdZ1
  f) * (fZ f)))) * (((((- 1) * ((pa P) ^ 2)) + ((fX f) ^ 2)) + ((fY f) ^ 2)) + ((fZ f) ^ 2))))) /
  (sqrt (((4 * ((pa P) ^ 2)) * ((fZ f) ^ 2)) + (((((- ((pa P) ^ 2)) + ((fX f) ^ 2)) + ((fY f) ^ 2)) +
  ((fZ f) ^ 2)) ^ 2)))))) * ((((((- 1) * (fdX2 f)) * (fX f)) - ((1 * (fdY2 f)) * (fY f))) - ((1 *
  (fdZ2 f)) * (fZ f))) - (((1/2) * ((((4 * (fdZ2 f)) * ((pa P) ^ 2)) * (fZ f)) + ((2 * ((((fdX2 f) *
  (fX f)) + ((fdY2 f) * (fY f))) + ((fdZ2 f) * (fZ f)))) * (((((- 1) * ((pa P) ^ 2)) + ((fX f) ^ 2))
  + ((fY f) ^ 2)) + ((fZ f) ^ 2))))) / (sqrt (((4 * ((pa P) ^ 2)) * ((fZ f) ^ 2)) + (((((- ((pa P) ^
  2)) + ((fX f) ^ 2)) + ((fY f) ^ 2)) + ((fZ f) ^ 2)) ^ 2)))))) / ((sqrt (((((- ((pa P) ^ 2)) + ((fX
  f) ^ 2)) + ((fY f) ^ 2)) + ((fZ f) ^ 2)) + (sqrt (((4 * ((pa P) ^ 2)) * ((fZ f) ^ 2)) + (((((- ((pa
  P) ^ 2)) + ((fX f) ^ 2)) + ((fY f) ^ 2)) + ((fZ f) ^ 2)) ^ 2))))) ^ 5))) + ((((phs P) * (((((1 *
  (fdX0 f)) * (fX f)) + ((1 * (fdY0 f)) * (fY f))) + ((1 * (fdZ0 f)) * (fZ f))) + (((1/2) * ((((4 *
  (fdZ0 f)) * ((pa P) ^ 2)) * (fZ f)) + ((2 * ((((fdX0 f) * (fX f)) + ((fdY0 f) * (fY f))) + ((fdZ0
  f) * (fZ f)))) * (((((- 1) * ((pa P) ^ 2)) + ((fX f) ^ 2)) + ((fY f) ^ 2)) + ((fZ f) ^ 2))))) /
  (sqrt (((4 * ((pa P) ^ 2)) * ((fZ f) ^ 2)) + (((((- ((pa P) ^ 2)) + ((fX f) ^ 2)) + ((fY f) ^ 2)) +
  ((fZ f) ^ 2)) ^ 2)))))) * ((((((((((- 1) * (fdX1 f)) * (fdX2 f)) - ((1 * (fdY1 f)) * (fdY2 f))) -
  ((1 * (fdZ1 f)) * (fdZ2 f))) - ((1 * (ks_ddX_D1D2 P f)) * (fX f))) - ((1 * (ks_ddY_D1D2 P f)) * (fY
  f))) - ((1 * (ks_ddZ_D1D2 P f)) * (fZ f))) - (((1/2) * ((((((4 * (fdZ1 f)) * (fdZ2 f)) * ((pa P) ^
  2)) + (((4 * (ks_ddZ_D1D2 P f)) * ((pa P) ^ 2)) * (fZ f))) + ((4 * ((((fdX1 f) * (fX f)) + ((fdY1
  f) * (fY f))) + ((fdZ1 f) * (fZ f)))) * ((((1 * (fdX2 f)) * (fX f)) + ((1 * (fdY2 f)) * (fY f))) +
  ((1 * (fdZ2 f)) * (fZ f))))) + ((((((((2 * (fdX1 f)) * (fdX2 f)) + ((2 * (fdY1 f)) * (fdY2 f))) +
  ((2 * (fdZ1 f)) * (fdZ2 f))) + ((2 * (ks_ddX_D1D2 P f)) * (fX f))) + ((2 * (ks_ddY_D1D2 P f)) * (fY
  f))) + ((2 * (ks_ddZ_D1D2 P f)) * (fZ f))) * ((((- ((pa P) ^ 2)) + ((fX f) ^ 2)) + ((fY f) ^ 2)) +
  ((fZ f) ^ 2))))) / (sqrt (((4 * ((pa P) ^ 2)) * ((fZ f) ^ 2)) + (((((- ((pa P) ^ 2)) + ((fX f) ^
  2)) + ((fY f) ^ 2)) + ((fZ f) ^ 2)) ^ 2))))) - ((((1/2) * (((((- 4) * (fdZ1 f)) * ((pa P) ^ 2)) *
  (fZ f)) - ((2 * ((((fdX1 f) * (fX f)) + ((fdY1 f) * (fY f))) + ((fdZ1 f) * (fZ f)))) * (((((- 1) *
  ((pa P) ^ 2)) + ((fX f) ^ 2)) + ((fY f) ^ 2)) + ((fZ f) ^ 2))))) * ((((4 * (fdZ2 f)) * ((pa P) ^
  2)) * (fZ f)) + ((2 * ((((fdX2 f) * (fX f)) + ((fdY2 f) * (fY f))) + ((fdZ2 f) * (fZ f)))) * (((((-
  1) * ((pa P) ^ 2)) + ((fX f) ^ 2)) + ((fY f) ^ 2)) + ((fZ f) ^ 2))))) / ((sqrt (((4 * ((pa P) ^ 2))
  * ((fZ f) ^ 2)) + (((((- ((pa P) ^ 2)) + ((fX f) ^ 2)) + ((fY f) ^ 2)) + ((fZ f) ^ 2)) ^ 2))) ^
  3)))) / ((sqrt (((((- ((pa P) ^ 2)) + ((fX f) ^ 2)) + ((fY f) ^ 2)) + ((fZ f) ^ 2)) + (sqrt (((4 *
  ((pa P) ^ 2)) * ((fZ f) ^ 2)) + (((((- ((pa P) ^ 2)) + ((fX f) ^ 2)) + ((fY f) ^ 2)) + ((fZ f) ^
  2)) ^ 2))))) ^ 3)).

(* /repo/Src/Main/Modules/Physics/Free_Data/fd_KerrSchild_R_X_Y_Z.c:4150-4354 *)
Definition ks_dddR_D0D2D2 (P : kspar) (f : ksarg) : R :=
  ((((((phs P) * (((((((((- 1) * ((fdX2 f) ^ 2)) - (1 * ((fdY2 f) ^ 2))) - (1 * ((fdZ2 f) ^ 2))) -
  ((1 * (ks_ddX_D2D2 P f)) * (fX f))) - ((1 * (ks_ddY_D2D2 P f)) * (fY f))) - ((1 * (ks_ddZ_D2D2 P
  f)) * (fZ f))) + ((2 * ((((((fdZ2 f) * (fZ f)) * (((((- 1) * ((pa P) ^ 2)) - (1 * ((fX f) ^ 2))) -
  (1 * ((fY f) ^ 2))) - (1 * ((fZ f) ^ 2)))) + (((fdX2 f) * (fX f)) * ((((1 * ((pa P) ^ 2)) - (1 *
  ((fX f) ^ 2))) - (1 * ((fY f) ^ 2))) - (1 * ((fZ f) ^ 2))))) + (((fdY2 f) * (fY f)) * ((((1 * ((pa
  P) ^ 2)) - (1 * ((fX f) ^ 2))) - (1 * ((fY f) ^ 2))) - (1 * ((fZ f) ^ 2))))) ^ 2)) / ((sqrt (((4 *
  ((pa P) ^ 2)) * ((fZ f) ^ 2)) + (((((- ((pa P) ^ 2)) + ((fX f) ^ 2)) + ((fY f) ^ 2)) + ((fZ f) ^
  2)) ^ 2))) ^ 3))) - (((1/2) * (((((4 * ((fdZ2 f) ^ 2)) * ((pa P) ^ 2)) + (((4 * (ks_ddZ_D2D2 P f))
  * ((pa P) ^ 2)) * (fZ f))) + (4 * (((((1 * (fdX2 f)) * (fX f)) + ((1 * (fdY2 f)) * (fY f))) + ((1 *
  (fdZ2 f)) * (fZ f))) ^ 2))) + (((((((2 * ((fdX2 f) ^ 2)) + (2 * ((fdY2 f) ^ 2))) + (2 * ((fdZ2 f) ^
  2))) + ((2 * (ks_ddX_D2D2 P f)) * (fX f))) + ((2 * (ks_ddY_D2D2 P f)) * (fY f))) + ((2 *
  (ks_ddZ_D2D2 P f)) * (fZ f))) * ((((- ((pa P) ^ 2)) + ((fX f) ^ 2)) + ((fY f) ^ 2)) + ((fZ f) ^
  2))))) / (sqrt (((4 * ((pa P) ^ 2)) * ((fZ f) ^ 2)) + (((((- ((pa P) ^ 2)) + ((fX f) ^ 2)) + ((fY
  f) ^ 2)) + ((fZ f) ^ 2)) ^ 2)))))) * (((((1 * (fdX0 f)) * (fX f)) + ((1 * (fdY0 f)) * (fY f))) +
  ((1 * (fdZ0 f)) * (fZ f))) + (((1/2) * ((((4 * (fdZ0 f)) * ((pa P) ^ 2)) * (fZ f)) + ((2 * ((((fdX0
  f) * (fX f)) + ((fdY0 f) * (fY f))) + ((fdZ0 f) * (fZ f)))) * (((((- 1) * ((pa P) ^ 2)) + ((fX f) ^
  2)) + ((fY f) ^ 2)) + ((fZ f) ^ 2))))) / (sqrt (((4 * ((pa P) ^ 2)) * ((fZ f) ^ 2)) + (((((- ((pa
  P) ^ 2)) + ((fX f) ^ 2)) + ((fY f) ^ 2)) + ((fZ f) ^ 2)) ^ 2)))))) / ((sqrt (((((- ((pa P) ^ 2)) +
  ((fX f) ^ 2)) + ((fY f) ^ 2)) + ((fZ f) ^ 2)) + (sqrt (((4 * ((pa P) ^ 2)) * ((fZ f) ^ 2)) + (((((-
  ((pa P) ^ 2)) + ((fX f) ^ 2)) + ((fY f) ^ 2)) + ((fZ f) ^ 2)) ^ 2))))) ^ 3)) + (((phs P) *
  ((((((((((((((1 * (fdX0 f)) * (ks_ddX_D2D2 P f)) + ((1 * (fdY0 f)) * (ks_ddY_D2D2 P f))) + ((1 *
  (fdZ0 f)) * (ks_ddZ_D2D2 P f))) + ((2 * (fdX2 f)) * (ks_ddX_D0D2 P f))) + ((2 * (fdY2 f)) *
  (ks_ddY_D0D2 P f))) + ((2 * (fdZ2 f)) * (ks_ddZ_D0D2 P f))) + ((1 * (ks_dddX_D0D2D2 P f)) * (fX
  f))) + ((1 * (ks_dddY_D0D2D2 P f)) * (fY f))) + ((1 * (ks_dddZ_D0D2D2 P f)) * (fZ f))) + (((1/2) *
  ((((((((4 * (fdZ0 f)) * (ks_ddZ_D2D2 P f)) * ((pa P) ^ 2)) + (((8 * (fdZ2 f)) * (ks_ddZ_D0D2 P f))
  * ((pa P) ^ 2))) + (((4 * (ks_dddZ_D0D2D2 P f)) * ((pa P) ^ 2)) * (fZ f))) + ((4 * ((((1 * (fdX0
  f)) * (fX f)) + ((1 * (fdY0 f)) * (fY f))) + ((1 * (fdZ0 f)) * (fZ f)))) * (((((((fdX2 f) ^ 2) +
  ((fdY2 f) ^ 2)) + ((fdZ2 f) ^ 2)) + ((ks_ddX_D2D2 P f) * (fX f))) + ((ks_ddY_D2D2 P f) * (fY f))) +
  ((ks_ddZ_D2D2 P f) * (fZ f))))) + ((8 * ((((fdX2 f) * (fX f)) + ((fdY2 f) * (fY f))) + ((fdZ2 f) *
  (fZ f)))) * (((((((1 * (fdX0 f)) * (fdX2 f)) + ((1 * (fdY0 f)) * (fdY2 f))) + ((1 * (fdZ0 f)) *
  (fdZ2 f))) + ((1 * (ks_ddX_D0D2 P f)) * (fX f))) + ((1 * (ks_ddY_D0D2 P f)) * (fY f))) + ((1 *
  (ks_ddZ_D0D2 P f)) * (fZ f))))) + (((((((((((2 * (fdX0 f)) * (ks_ddX_D2D2 P f)) + ((2 * (fdY0 f)) *
  (ks_ddY_D2D2 P f))) + ((2 * (fdZ0 f)) * (ks_ddZ_D2D2 P f))) + ((4 * (fdX2 f)) * (ks_ddX_D0D2 P f)))
  + ((4 * (fdY2 f)) * (ks_ddY_D0D2 P f))) + ((4 * (fdZ2 f)) * (ks_ddZ_D0D2 P f))) + ((2 *
  (ks_dddX_D0D2D2 P f)) * (fX f))) + ((2 * (ks_dddY_D0D2D2 P f)) * (fY f))) + ((2 * (ks_dddZ_D0D2D2 P
  f)) * (fZ f))) * ((((- ((pa P) ^ 2)) + ((fX f) ^ 2)) + ((fY f) ^ 2)) + ((fZ f) ^ 2))))) / (sqrt
  (((4 * ((pa P) ^ 2)) * ((fZ f) ^ 2)) + (((((- ((pa P) ^ 2)) + ((fX f) ^ 2)) + ((fY f) ^ 2)) + ((fZ
  f) ^ 2)) ^ 2))))) + ((((1/2) * ((((((- 4) * ((fdZ2 f) ^ 2)) * ((pa P) ^ 2)) - (((4 * (ks_ddZ_D2D2 P
  f)) * ((pa P) ^ 2)) * (fZ f))) - (4 * (((((fdX2 f) * (fX f)) + ((fdY2 f) * (fY f))) + ((fdZ2 f) *
  (fZ f))) ^ 2))) + ((((((((- 2) * ((fdX2 f) ^ 2)) - (2 * ((fdY2 f) ^ 2))) - (2 * ((fdZ2 f) ^ 2))) -
  ((2 * (ks_ddX_D2D2 P f)) * (fX f))) - ((2 * (ks_ddY_D2D2 P f)) * (fY f))) - ((2 * (ks_ddZ_D2D2 P
  f)) * (fZ f))) * ((((- ((pa P) ^ 2)) + ((fX f) ^ 2)) + ((fY f) ^ 2)) + ((fZ f) ^ 2))))) * ((((4 *
  (fdZ0 f)) * ((pa P) ^ 2)) * (fZ f)) + ((2 * ((((fdX0 f) * (fX f)) + ((fdY0 f) * (fY f))) + ((fdZ0
  f) * (fZ f)))) * (((((- 1) * ((pa P) ^ 2)) + ((fX f) ^ 2)) + ((fY f) ^ 2)) + ((fZ f) ^ 2))))) /
  ((sqrt (((4 * ((pa P) ^ 2)) * ((fZ f) ^ 2)) + (((((- ((pa P) ^ 2)) + ((fX f) ^ 2)) + ((fY f) ^ 2))
  + ((fZ f) ^ 2)) ^ 2))) ^ 3))) + (((1 * ((((((4 * (fdZ0 f)) * (fdZ2 f)) * ((pa P) ^ 2)) + (((4 *
  (ks_ddZ_D0D2 P f)) * ((pa P) ^ 2)) * (fZ f))) + ((4 * ((((1 * (fdX0 f)) * (fX f)) + ((1 * (fdY0 f))
  * (fY f))) + ((1 * (fdZ0 f)) * (fZ f)))) * ((((fdX2 f) * (fX f)) + ((fdY2 f) * (fY f))) + ((fdZ2 f)
  * (fZ f))))) + ((((((((2 * (fdX0 f)) * (fdX2 f)) + ((2 * (fdY0 f)) * (fdY2 f))) + ((2 * (fdZ0 f)) *
  (fdZ2 f))) + ((2 * (ks_ddX_D0D2 P f)) * (fX f))) + ((2 * (ks_ddY_D0D2 P f)) * (fY f))) + ((2 *
  (ks_ddZ_D0D2 P f)) * (fZ f))) * ((((- ((pa P) ^ 2)) + ((fX f) ^ 2)) + ((fY f) ^ 2)) + ((fZ f) ^
  2))))) * (((((- 4) * (fdZ2 f)) * ((pa P) ^ 2)) * (fZ f)) - ((2 * ((((fdX2 f) * (fX f)) + ((fdY2 f)
  * (fY f))) + ((fdZ2 f) * (fZ f)))) * (((((- 1) * ((pa P) ^ 2)) + ((fX f) ^ 2)) + ((fY f) ^ 2)) +
  ((fZ f) ^ 2))))) / ((sqrt (((4 * ((pa P) ^ 2)) * ((fZ f) ^ 2)) + (((((- ((pa P) ^ 2)) + ((fX f) ^
  2)) + ((fY f) ^ 2)) + ((fZ f) ^ 2)) ^ 2))) ^ 3))) + (((((1/2) * ((((4 * (fdZ0 f)) * ((pa P) ^ 2)) *
  (fZ f)) + ((2 * ((((fdX0 f) * (fX f)) + ((fdY0 f) * (fY f))) + ((fdZ0 f) * (fZ f)))) * (((((- 1) *
  ((pa P) ^ 2)) + ((fX f) ^ 2)) + ((fY f) ^ 2)) + ((fZ f) ^ 2))))) * (((((- 12) * (fdZ2 f)) * ((pa P)
  ^ 2)) * (fZ f)) - ((6 * ((((fdX2 f) * (fX f)) + ((fdY2 f) * (fY f))) + ((fdZ2 f) * (fZ f)))) *
  (((((- 1) * ((pa P) ^ 2)) + ((fX f) ^ 2)) + ((fY f) ^ 2)) + ((fZ f) ^ 2))))) * (((((- 4) * (fdZ2
  f)) * ((pa P) ^ 2)) * (fZ f)) - ((2 * ((((fdX2 f) * (fX f)) + ((fdY2 f) * (fY f))) + ((fdZ2 f) *
  (fZ f)))) * (((((- 1) * ((pa P) ^ 2)) + ((fX f) ^ 2)) + ((fY f) ^ 2)) + ((fZ f) ^ 2))))) / ((sqrt
  (((4 * ((pa P) ^ 2)) * ((fZ f) ^ 2)) + (((((- ((pa P) ^ 2)) + ((fX f) ^ 2)) + ((fY f) ^ 2)) + ((fZ
  f) ^ 2)) ^ 2))) ^ 5)))) / (sqrt (((((- ((pa P) ^ 2)) + ((fX f) ^ 2)) + ((fY f) ^ 2)) + ((fZ f) ^
  2)) + (sqrt (((4 * ((pa P) ^ 2)) * ((fZ f) ^ 2)) + (((((- ((pa P) ^ 2)) + ((fX f) ^ 2)) + ((fY f) ^
  2)) + ((fZ f) ^ 2)) ^ 2))))))) + ((((2 * phs P) * (((((((((1 * (fdX0 f)) * (fdX2 f)) + ((1 * (fdY0
  f)) * (fdY2 f))) + ((1 * (fdZ0 f)) * (fdZ2 f))) + ((1 * (ks_ddX_D0D2 P f)) * (fX f))) + ((1 *
  (ks_ddY_D0D2 P f)) * (fY f))) + ((1 * (ks_ddZ_D0D2 P f)) * (fZ f))) + (((1/2) * ((((((4 * (fdZ0 f))
  * (fdZ2 f)) * ((pa P) ^ 2)) + (((4 * (ks_ddZ_D0D2 P f)) * ((pa P) ^ 2)) * (fZ f))) + ((4 * ((((1 *
  (fdX0 f)) * (fX f)) + ((1 * (fdY0 f)) * (fY f))) + ((1 * (fdZ0 f)) * (fZ f)))) * ((((fdX2 f) * (fX
  f)) + ((fdY2 f) * (fY f))) + ((fdZ2 f) * (fZ f))))) + ((((((((2 * (fdX0 f)) * (fdX2 f)) + ((2 *
  (fdY0 f)) * (fdY2 f))) + ((2 * (fdZ0 f)) * (fdZ2 f))) + ((2 * (ks_ddX_D0D2 P f)) * (fX f))) + ((2 *
  (ks_ddY_D0D2 P f)) * (fY f))) + ((2 * (ks_ddZ_D0D2 P f)) * (fZ f))) * ((((- ((pa P) ^ 2)) + ((fX f)
  ^ 2)) + ((fY f) ^ 2)) + ((fZ f) ^ 2))))) / (sqrt (((4 * ((pa P) ^ 2)) * ((fZ f) ^ 2)) + (((((- ((pa
  P) ^ 2)) + ((fX f) ^ 2)) + ((fY f) ^ 2)) + ((fZ f) ^ 2)) ^ 2))))) + ((((1/2) * ((((4 * (fdZ0 f)) *
  ((pa P) ^ 2)) * (fZ f)) + ((2 * ((((fdX0 f) * (fX f)) + ((fdY0 f) * (fY f))) + ((fdZ0 f) * (fZ
  f)))) * (((((- 1) * ((pa P) ^ 2)) + ((fX f) ^ 2)) + ((fY f) ^ 2)) + ((fZ f) ^ 2))))) * (((((- 4) *
  (fdZ2 f)) * ((pa P) ^ 2)) * (fZ f)) - ((2 * ((((fdX2 f) * (fX f)) + ((fdY2 f) * (fY f))) + ((fdZ2
  f) * (fZ f)))) * (((((- 1) * ((pa P) ^ 2)) + ((fX f) ^ 2)) + ((fY f) ^ 2)) + ((fZ f) ^ 2))))) /
  ((sqrt (((4 * ((pa P) ^ 2)) * ((fZ f) ^ 2)) + (((((- ((pa P) ^ 2)) + ((fX f) ^ 2)) + ((fY f) ^ 2))
  + ((fZ f) ^ 2)) ^ 2))) ^ 3)))) * ((((((- 1) * (fdX2 f)) * (fX f)) - ((1 * (fdY2 f)) * (fY f))) -
  ((1 * (fdZ2 f)) * (fZ f))) - (((1/2) * ((((4 * (fdZ2 f)) * ((pa P) ^ 2)) * (fZ f)) + ((2 * ((((fdX2
  f) * (fX f)) + ((fdY2 f) * (fY f))) + ((fdZ2 f) * (fZ f)))) * (((((- 1) * ((pa P) ^ 2)) + ((fX f) ^
  2)) + ((fY f) ^ 2)) + ((fZ f) ^ 2))))) / (sqrt (((4 * ((pa P) ^ 2)) * ((fZ f) ^ 2)) + (((((- ((pa
  P) ^ 2)) + ((fX f) ^ 2)) + ((fY f) ^ 2)) + ((fZ f) ^ 2)) ^ 2)))))) / ((sqrt (((((- ((pa P) ^ 2)) +
  ((fX f) ^ 2)) + ((fY f) ^ 2)) + ((fZ f) ^ 2)) + (sqrt (((4 * ((pa P) ^ 2)) * ((fZ f) ^ 2)) + (((((-
  ((pa P) ^ 2)) + ((fX f) ^ 2)) + ((fY f) ^ 2)) + ((fZ f) ^ 2)) ^ 2))))) ^ 3))) + (((((phs P) *
  (((((1 * (fdX0 f)) * (fX f)) + ((1 * (fdY0 f)) * (fY f))) + ((1 * (fdZ0 f)) * (fZ f))) + (((1/2) *
  ((((4 * (fdZ0 f)) * ((pa P) ^ 2)) * (fZ f)) + ((2 * ((((fdX0 f) * (fX f)) + ((fdY0 f) * (fY f))) +
  ((fdZ0 f) * (fZ f)))) * (((((- 1) * ((pa P) ^ 2)) + ((fX f) ^ 2)) + ((fY f) ^ 2)) + ((fZ f) ^
  2))))) / (sqrt (((4 * ((pa P) ^ 2)) * ((fZ f) ^ 2)) + (((((- ((pa P) ^ 2)) + ((fX f) ^ 2)) + ((fY
  f) ^ 2)) + ((fZ f) ^ 2)) ^ 2)))))) * ((((((- 3) * (fdX2 f)) * (fX f)) - ((3 * (fdY2 f)) * (fY f)))
  - ((3 * (fdZ2 f)) * (fZ f))) - (((3/2) * ((((4 * (fdZ2 f)) * ((pa P) ^ 2)) * (fZ f)) + ((2 *
  ((((fdX2 f) * (fX f)) + ((fdY2 f) * (fY f))) + ((fdZ2 f) * (fZ f)))) * (((((- 1) * ((pa P) ^ 2)) +
  ((fX f) ^ 2)) + ((fY f) ^ 2)) + ((fZ f) ^ 2))))) / (sqrt (((4 * ((pa P) ^ 2)) * ((fZ f) ^ 2)) +
  (((((- ((pa P) ^ 2)) + ((fX f) ^ 2)) + ((fY f) ^ 2)) + ((fZ f) ^ 2)) ^ 2)))))) * ((((((- 1) * (fdX2
  f)) * (fX f)) - ((1 * (fdY2 f)) * (fY f))) - ((1 * (fdZ2 f)) * (fZ f))) - (((1/2) * ((((4 * (fdZ2
  f)) * ((pa P) ^ 2)) * (fZ f)) + ((2 * ((((fdX2 f) * (fX f)) + ((fdY2 f) * (fY f))) + ((fdZ2 f) *
  (fZ f)))) * (((((- 1) * ((pa P) ^ 2)) + ((fX f) ^ 2)) + ((fY f) ^ 2)) + ((fZ f) ^ 2))))) / (sqrt
  (((4 * ((pa P) ^ 2)) * ((fZ f) ^ 2)) + (((((- ((pa P) ^ 2)) + ((fX f) ^ 2)) + ((fY f) ^ 2)) + ((fZ
  f) ^ 2)) ^ 2)))))) / ((sqrt (((((- ((pa P) ^ 2)) + ((fX f) ^ 2)) + ((fY f) ^ 2)) + ((fZ f) ^ 2)) +
  (sqrt (((4 * ((pa P) ^ 2)) * ((fZ f) ^ 2)) + (((((- ((pa P) ^ 2)) + ((fX f) ^ 2)) + ((fY f) ^ 2)) +
  ((fZ f) ^ 2)) ^ 2))))) ^ 5)).

(* /repo/Src/Main/Modules/Physics/Free_Data/fd_KerrSchild_R_X_Y_Z.c:4355-4623 *)
Definition ks_dddR_D2D2D1 (P : kspar) (f : ksarg) : R :=
  (((((((phs P) * ((((((((1 * ((fdX2 f) ^ 2)) + (1 * ((fdY2 f) ^ 2))) + (1 * ((fdZ2 f) ^ 2))) + ((1 *
  (ks_ddX_D2D2 P f)) * (fX f))) + ((1 * (ks_ddY_D2D2 P f)) * (fY f))) + ((1 * (ks_ddZ_D2D2 P f)) *
  (fZ f))) - ((2 * ((((((fdZ2 f) * (fZ f)) * (((((- 1) * ((pa P) ^ 2)) - (1 * ((fX f) ^ 2))) - (1 *
  ((fY f) ^ 2))) - (1 * ((fZ f) ^ 2)))) + (((fdX2 f) * (fX f)) * ((((1 * ((pa P) ^ 2)) - (1 * ((fX f)
  ^ 2))) - (1 * ((fY f) ^ 2))) - (1 * ((fZ f) ^ 2))))) + (((fdY2 f) * (fY f)) * ((((1 * ((pa P) ^ 2))
  - (1 * ((fX f) ^ 2))) - (1 * ((fY f) ^ 2))) - (1 * ((fZ f) ^ 2))))) ^ 2)) / ((sqrt (((4 * ((pa P) ^
  2)) * ((fZ f) ^ 2)) + (((((- ((pa P) ^ 2)) + ((fX f) ^ 2)) + ((fY f) ^ 2)) + ((fZ f) ^ 2)) ^ 2))) ^
  3))) + (((1/2) * (((((4 * ((fdZ2 f) ^ 2)) * ((pa P) ^ 2)) + (((4 * (ks_ddZ_D2D2 P f)) * ((pa P) ^
  2)) * (fZ f))) + (4 * (((((1 * (fdX2 f)) * (fX f)) + ((1 * (fdY2 f)) * (fY f))) + ((1 * (fdZ2 f)) *
  (fZ f))) ^ 2))) + (((((((2 * ((fdX2 f) ^ 2)) + (2 * ((fdY2 f) ^ 2))) + (2 * ((fdZ2 f) ^ 2))) + ((2
  * (ks_ddX_D2D2 P f)) * (fX f))) + ((2 * (ks_ddY_D2D2 P f)) * (fY f))) + ((2 * (ks_ddZ_D2D2 P f)) *
  (fZ f))) * ((((- ((pa P) ^ 2)) + ((fX f) ^ 2)) + ((fY f) ^ 2)) + ((fZ f) ^ 2))))) / (sqrt (((4 *
  ((pa P) ^ 2)) * ((fZ f) ^ 2)) + (((((- ((pa P) ^ 2)) + ((fX f) ^ 2)) + ((fY f) ^ 2)) + ((fZ f) ^
  2)) ^ 2)))))) * ((((((- 1) * (fdX1 f)) * (fX f)) - ((1 * (fdY1 f)) * (fY f))) - ((1 * (fdZ1 f)) *
  (fZ f))) - (((1/2) * ((((4 * (fdZ1 f)) * ((pa P) ^ 2)) * (fZ f)) + ((2 * ((((fdX1 f) * (fX f)) +
  ((fdY1 f) * (fY f))) + ((fdZ1 f) * (fZ f)))) * (((((- 1) * ((pa P) ^ 2)) + ((fX f) ^ 2)) + ((fY f)
  ^ 2)) + ((fZ f) ^ 2))))) / (sqrt (((4 * ((pa P) ^ 2)) * ((fZ f) ^ 2)) + (((((- ((pa P) ^ 2)) + ((fX
  f) ^ 2)) + ((fY f) ^ 2)) + ((fZ f) ^ 2)) ^ 2)))))) / ((sqrt (((((- ((pa P) ^ 2)) + ((fX f) ^ 2)) +
  ((fY f) ^ 2)) + ((fZ f) ^ 2)) + (sqrt (((4 * ((pa P) ^ 2)) * ((fZ f) ^ 2)) + (((((- ((pa P) ^ 2)) +
  ((fX f) ^ 2)) + ((fY f) ^ 2)) + ((fZ f) ^ 2)) ^ 2))))) ^ 3)) + (((((phs P) * ((((((- 3) * (fdX1 f))
  * (fX f)) - ((3 * (fdY1 f)) * (fY f))) - ((3 * (fdZ1 f)) * (fZ f))) - (((3/2) * ((((4 * (fdZ1 f)) *
  ((pa P) ^ 2)) * (fZ f)) + ((2 * ((((fdX1 f) * (fX f)) + ((fdY1 f) * (fY f))) + ((fdZ1 f) * (fZ
  f)))) * (((((- 1) * ((pa P) ^ 2)) + ((fX f) ^ 2)) + ((fY f) ^ 2)) + ((fZ f) ^ 2))))) / (sqrt (((4 *
  ((pa P) ^ 2)) * ((fZ f) ^ 2)) + (((((- ((pa P) ^ 2)) + ((fX f) ^ 2)) + ((fY f) ^ 2)) + ((fZ f) ^
  2)) ^ 2)))))) * ((((((- 1) * (fdX2 f)) * (fX f)) - ((1 * (fdY2 f)) * (fY f))) - ((1 * (fdZ2 f)) *
  (fZ f))) - (((1/2) * ((((4 * (fdZ2 f)) * ((pa P) ^ 2)) * (fZ f)) + ((2 * ((((fdX2 f) * (fX f)) +
  ((fdY2 f) * (fY f))) + ((fdZ2 f) * (fZ f)))) * (((((- 1) * ((pa P) ^ 2)) + ((fX f) ^ 2)) + ((fY f)
  ^ 2)) + ((fZ f) ^ 2))))) / (sqrt (((4 * ((pa P) ^ 2)) * ((fZ f) ^ 2)) + (((((- ((pa P) ^ 2)) + ((fX
  f) ^ 2)) + ((fY f) ^ 2)) + ((fZ f) ^ 2)) ^ 2)))))) * (((((1 * (fdX2 f)) * (fX f)) + ((1 * (fdY2 f))
  * (fY f))) + ((1 * (fdZ2 f)) * (fZ f))) + (((1/2) * ((((4 * (fdZ2 f)) * ((pa P) ^ 2)) * (fZ f)) +
  ((2 * ((((fdX2 f) * (fX f)) + ((fdY2 f) * (fY f))) + ((fdZ2 f) * (fZ f)))) * (((((- 1) * ((pa P) ^
  2)) + ((fX f) ^ 2)) + ((fY f) ^ 2)) + ((fZ f) ^ 2))))) / (sqrt (((4 * ((pa P) ^ 2)) * ((fZ f) ^ 2))
  + (((((- ((pa P) ^ 2)) + ((fX f) ^ 2)) + ((fY f) ^ 2)) + ((fZ f) ^ 2)) ^ 2)))))) / ((sqrt (((((-
  ((pa P) ^ 2)) + ((fX f) ^ 2)) + ((fY f) ^ 2)) + ((fZ f) ^ 2)) + (sqrt (((4 * ((pa P) ^ 2)) * ((fZ
  f) ^ 2)) + (((((- ((pa P) ^ 2)) + ((fX f) ^ 2)) + ((fY f) ^ 2)) + ((fZ f) ^ 2)) ^ 2))))) ^ 5))) +
  ((((phs P) * (((((1 * (fdX2 f)) * (fX f)) + ((1 * (fdY2 f)) * (fY f))) + ((1 * (fdZ2 f)) * (fZ f)))
  + (((1/2) * ((((4 * (fdZ2 f)) * ((pa P) ^ 2)) * (fZ f)) + ((2 * ((((fdX2 f) * (fX f)) + ((fdY2 f) *
  (fY f))) + ((fdZ2 f) * (fZ f)))) * (((((- 1) * ((pa P) ^ 2)) + ((fX f) ^ 2)) + ((fY f) ^ 2)) + ((fZ
  f) ^ 2))))) / (sqrt (((4 * ((pa P) ^ 2)) * ((fZ f) ^ 2)) + (((((- ((pa P) ^ 2)) + ((fX f) ^ 2)) +
  ((fY f) ^ 2)) + ((fZ f) ^ 2)) ^ 2)))))) * ((((((((((- 1) * (fdX1 f)) * (fdX2 f)) - ((1 * (fdY1 f))
  * (fdY2 f))) - ((1 * (fdZ1 f)) * (fdZ2 f))) - ((1 * (ks_ddX_D1D2 P f)) * (fX f))) - ((1 *
  (ks_ddY_D1D2 P f)) * (fY f))) - ((1 * (ks_ddZ_D1D2 P f)) * (fZ f))) - (((1/2) * ((((((4 * (fdZ1 f))
  * (fdZ2 f)) * ((pa P) ^ 2)) + (((4 * (ks_ddZ_D1D2 P f)) * ((pa P) ^ 2)) * (fZ f))) + ((4 * ((((fdX1
  f) * (fX f)) + ((fdY1 f) * (fY f))) + ((fdZ1 f) * (fZ f)))) * ((((1 * (fdX2 f)) * (fX f)) + ((1 *
  (fdY2 f)) * (fY f))) + ((1 * (fdZ2 f)) * (fZ f))))) + ((((((((2 * (fdX1 f)) * (fdX2 f)) + ((2 *
  (fdY1 f)) * (fdY2 f))) + ((2 * (fdZ1 f)) * (fdZ2 f))) + ((2 * (ks_ddX_D1D2 P f)) * (fX f))) + ((2 *
  (ks_ddY_D1D2 P f)) * (fY f))) + ((2 * (ks_ddZ_D1D2 P f)) * (fZ f))) * ((((- ((pa P) ^ 2)) + ((fX f)
  ^ 2)) + ((fY f) ^ 2)) + ((fZ f) ^ 2))))) / (sqrt (((4 * ((pa P) ^ 2)) * ((fZ f) ^ 2)) + (((((- ((pa
  P) ^ 2)) + ((fX f) ^ 2)) + ((fY f) ^ 2)) + ((fZ f) ^ 2)) ^ 2))))) - ((((1/2) * (((((- 4) * (fdZ1
  f)) * ((pa P) ^ 2)) * (fZ f)) - ((2 * ((((fdX1 f) * (fX f)) + ((fdY1 f) * (fY f))) + ((fdZ1 f) *
  (fZ f)))) * (((((- 1) * ((pa P) ^ 2)) + ((fX f) ^ 2)) + ((fY f) ^ 2)) + ((fZ f) ^ 2))))) * ((((4 *
  (fdZ2 f)) * ((pa P) ^ 2)) * (fZ f)) + ((2 * ((((fdX2 f) * (fX f)) + ((fdY2 f) * (fY f))) + ((fdZ2
  f) * (fZ f)))) * (((((- 1) * ((pa P) ^ 2)) + ((fX f) ^ 2)) + ((fY f) ^ 2)) + ((fZ f) ^ 2))))) /
  ((sqrt (((4 * ((pa P) ^ 2)) * ((fZ f) ^ 2)) + (((((- ((pa P) ^ 2)) + ((fX f) ^ 2)) + ((fY f) ^ 2))
  + ((fZ f) ^ 2)) ^ 2))) ^ 3)))) / ((sqrt (((((- ((pa P) ^ 2)) + ((fX f) ^ 2)) + ((fY f) ^ 2)) + ((fZ
  f) ^ 2)) + (sqrt (((4 * ((pa P) ^ 2)) * ((fZ f) ^ 2)) + (((((- ((pa P) ^ 2)) + ((fX f) ^ 2)) + ((fY
  f) ^ 2)) + ((fZ f) ^ 2)) ^ 2))))) ^ 3))) + ((((phs P) * ((((((- 1) * (fdX2 f)) * (fX f)) - ((1 *
  (fdY2 f)) * (fY f))) - ((1 * (fdZ2 f)) * (fZ f))) - (((1/2) * ((((4 * (fdZ2 f)) * ((pa P) ^ 2)) *
  (fZ f)) + ((2 * ((((fdX2 f) * (fX f)) + ((fdY2 f) * (fY f))) + ((fdZ2 f) * (fZ f)))) * (((((- 1) *
  ((pa P) ^ 2)) + ((fX f) ^ 2)) + ((fY f) ^ 2)) + ((fZ f) ^ 2))))) / (sqrt (((4 * ((pa P) ^ 2)) *
  ((fZ f) ^ 2)) + (((((- ((pa P) ^ 2)) + ((fX f) ^ 2)) + ((fY f) ^ 2)) + ((fZ f) ^ 2)) ^ 2)))))) *
  (((((((((1 * (fdX1 f)) * (fdX2 f)) + ((1 * (fdY1 f)) * (fdY2 f))) + ((1 * (fdZ1 f)) * (fdZ2 f))) +
  ((1 * (ks_ddX_D1D2 P f)) * (fX f))) + ((1 * (ks_ddY_D1D2 P f)) * (fY f))) + ((1 * (ks_ddZ_D1D2 P
  f)) * (fZ f))) + (((1/2) * ((((((4 * (fdZ1 f)) * (fdZ2 f)) * ((pa P) ^ 2)) + (((4 * (ks_ddZ_D1D2 P
  f)) * ((pa P) ^ 2)) * (fZ f))) + ((4 * ((((fdX1 f) * (fX f)) + ((fdY1 f) * (fY f))) + ((fdZ1 f) *
  (fZ f)))) * ((((1 * (fdX2 f)) * (fX f)) + ((1 * (fdY2 f)) * (fY f))) + ((1 * (fdZ2 f)) * (fZ f)))))
  + ((((((((2 * (fdX1 f)) * (fdX2 f)) + ((2 * (fdY1 f)) * (fdY2 f))) + ((2 * (fdZ1 f)) * (fdZ2 f))) +
  ((2 * (ks_ddX_D1D2 P f)) * (fX f))) + ((2 * (ks_ddY_D1D2 P f)) * (fY f))) + ((2 * (ks_ddZ_D1D2 P
  f)) * (fZ f))) * ((((- ((pa P) ^ 2)) + ((fX f) ^ 2)) + ((fY f) ^ 2)) + ((fZ f) ^ 2))))) / (sqrt
  (((4 * ((pa P) ^ 2)) * ((fZ f) ^ 2)) + (((((- ((pa P) ^ 2)) + ((fX f) ^ 2)) + ((fY f) ^ 2)) + ((fZ
  f) ^ 2)) ^ 2))))) + ((((1/2) * (((((- 4) * (fdZ1 f)) * ((pa P) ^ 2)) * (fZ f)) - ((2 * ((((fdX1 f)
  * (fX f)) + ((fdY1 f) * (fY f))) + ((fdZ1 f) * (fZ f)))) * (((((- 1) * ((pa P) ^ 2)) + ((fX f) ^
  2)) + ((fY f) ^ 2)) + ((fZ f) ^ 2))))) * ((((4 * (fdZ2 f)) * ((pa P) ^ 2)) * (fZ f)) + ((2 *
  ((((fdX2 f) * (fX f)) + ((fdY2 f) * (fY f))) + ((fdZ2 f) * (fZ f)))) * (((((- 1) * ((pa P) ^ 2)) +
  ((fX f) ^ 2)) + ((fY f) ^ 2)) + ((fZ f) ^ 2))))) / ((sqrt (((4 * ((pa P) ^ 2)) * ((fZ f) ^ 2)) +
  (((((- ((pa P) ^ 2)) + ((fX f) ^ 2)) + ((fY f) ^ 2)) + ((fZ f) ^ 2)) ^ 2))) ^ 3)))) / ((sqrt (((((-
  ((pa P) ^ 2)) + ((fX f) ^ 2)) + ((fY f) ^ 2)) + ((fZ f) ^ 2)) + (sqrt (((4 * ((pa P) ^ 2)) * ((fZ
  f) ^ 2)) + (((((- ((pa P) ^ 2)) + ((fX f) ^ 2)) + ((fY f) ^ 2)) + ((fZ f) ^ 2)) ^ 2))))) ^ 3))) +
  (((phs P) * (((((((((((((((1 * (fdX1 f)) * (ks_ddX_D2D2 P f)) + ((1 * (fdY1 f)) * (ks_ddY_D2D2 P
  f))) + ((1 * (fdZ1 f)) * (ks_ddZ_D2D2 P f))) + ((2 * (fdX2 f)) * (ks_ddX_D1D2 P f))) + ((2 * (fdY2
  f)) * (ks_ddY_D1D2 P f))) + ((2 * (fdZ2 f)) * (ks_ddZ_D1D2 P f))) + ((1 * (ks_dddX_D1D2D2 P f)) *
  (fX f))) + ((1 * (ks_dddY_D1D2D2 P f)) * (fY f))) + ((1 * (ks_dddZ_D1D2D2 P f)) * (fZ f))) +
  (((1/2) * (((((((((4 * (fdZ1 f)) * (ks_ddZ_D2D2 P f)) * ((pa P) ^ 2)) + (((8 * (fdZ2 f)) *
  (ks_ddZ_D1D2 P f)) * ((pa P) ^ 2))) + (((4 * (ks_dddZ_D1D2D2 P f)) * ((pa P) ^ 2)) * (fZ f))) + ((4
  * ((((fdX1 f) * (fX f)) + ((fdY1 f) * (fY f))) + ((fdZ1 f) * (fZ f)))) * ((((((1 * ((fdX2 f) ^ 2))
  + (1 * ((fdY2 f) ^ 2))) + (1 * ((fdZ2 f) ^ 2))) + ((1 * (ks_ddX_D2D2 P f)) * (fX f))) + ((1 *
  (ks_ddY_D2D2 P f)) * (fY f))) + ((1 * (ks_ddZ_D2D2 P f)) * (fZ f))))) + ((4 * ((((1 * (fdX2 f)) *
  (fX f)) + ((1 * (fdY2 f)) * (fY f))) + ((1 * (fdZ2 f)) * (fZ f)))) * (((((((fdX1 f) * (fdX2 f)) +
  ((fdY1 f) * (fdY2 f))) + ((fdZ1 f) * (fdZ2 f))) + ((ks_ddX_D1D2 P f) * (fX f))) + ((ks_ddY_D1D2 P
  f) * (fY f))) + ((ks_ddZ_D1D2 P f) * (fZ f))))) + ((4 * ((((fdX2 f) * (fX f)) + ((fdY2 f) * (fY
  f))) + ((fdZ2 f) * (fZ f)))) * (((((((1 * (fdX1 f)) * (fdX2 f)) + ((1 * (fdY1 f)) * (fdY2 f))) +
  ((1 * (fdZ1 f)) * (fdZ2 f))) + ((1 * (ks_ddX_D1D2 P f)) * (fX f))) + ((1 * (ks_ddY_D1D2 P f)) * (fY
  f))) + ((1 * (ks_ddZ_D1D2 P f)) * (fZ f))))) + (((((((((((2 * (fdX1 f)) * (ks_ddX_D2D2 P f)) + ((2
  * (fdY1 f)) * (ks_ddY_D2D2 P f))) + ((2 * (fdZ1 f)) * (ks_ddZ_D2D2 P f))) + ((4 * (fdX2 f)) *
  (ks_ddX_D1D2 P f))) + ((4 * (fdY2 f)) * (ks_ddY_D1D2 P f))) + ((4 * (fdZ2 f)) * (ks_ddZ_D1D2 P f)))
  + ((2 * (ks_dddX_D1D2D2 P f)) * (fX f))) + ((2 * (ks_dddY_D1D2D2 P f)) * (fY f))) + ((2 *
  (ks_dddZ_D1D2D2 P f)) * (fZ f))) * ((((- ((pa P) ^ 2)) + ((fX f) ^ 2)) + ((fY f) ^ 2)) + ((fZ f) ^
  2))))) / (sqrt (((4 * ((pa P) ^ 2)) * ((fZ f) ^ 2)) + (((((- ((pa P) ^ 2)) + ((fX f) ^ 2)) + ((fY
  f) ^ 2)) + ((fZ f) ^ 2)) ^ 2))))) + ((((1/2) * (((((4 * ((fdZ2 f) ^ 2)) * ((pa P) ^ 2)) + (((4 *
  (ks_ddZ_D2D2 P f)) * ((pa P) ^ 2)) * (fZ f))) + (4 * (((((1 * (fdX2 f)) * (fX f)) + ((1 * (fdY2 f))
  * (fY f))) + ((1 * (fdZ2 f)) * (fZ f))) ^ 2))) + (((((((2 * ((fdX2 f) ^ 2)) + (2 * ((fdY2 f) ^ 2)))
  + (2 * ((fdZ2 f) ^ 2))) + ((2 * (ks_ddX_D2D2 P f)) * (fX f))) + ((2 * (ks_ddY_D2D2 P f)) * (fY f)))
  + ((2 * (ks_ddZ_D2D2 P f)) * (fZ f))) * ((((- ((pa P) ^ 2)) + ((fX f) ^ 2)) + ((fY f) ^ 2)) + ((fZ
  f) ^ 2))))) * (((((- 4) * (fdZ1 f)) * ((pa P) ^ 2)) * (fZ f)) - ((2 * ((((fdX1 f) * (fX f)) +
  ((fdY1 f) * (fY f))) + ((fdZ1 f) * (fZ f)))) * (((((- 1) * ((pa P) ^ 2)) + ((fX f) ^ 2)) + ((fY f)
  ^ 2)) + ((fZ f) ^ 2))))) / ((sqrt (((4 * ((pa P) ^ 2)) * ((fZ f) ^ 2)) + (((((- ((pa P) ^ 2)) +
  ((fX f) ^ 2)) + ((fY f) ^ 2)) + ((fZ f) ^ 2)) ^ 2))) ^ 3))) + ((((1/2) * ((((((4 * (fdZ1 f)) *
  (fdZ2 f)) * ((pa P) ^ 2)) + (((4 * (ks_ddZ_D1D2 P f)) * ((pa P) ^ 2)) * (fZ f))) + ((4 * ((((fdX1
  f) * (fX f)) + ((fdY1 f) * (fY f))) + ((fdZ1 f) * (fZ f)))) * ((((1 * (fdX2 f)) * (fX f)) + ((1 *
  (fdY2 f)) * (fY f))) + ((1 * (fdZ2 f)) * (fZ f))))) + ((((((((2 * (fdX1 f)) * (fdX2 f)) + ((2 *
  (fdY1 f)) * (fdY2 f))) + ((2 * (fdZ1 f)) * (fdZ2 f))) + ((2 * (ks_ddX_D1D2 P f)) * (fX f))) + ((2 *
  (ks_ddY_D1D2 P f)) * (fY f))) + ((2 * (ks_ddZ_D1D2 P f)) * (fZ f))) * ((((- ((pa P) ^ 2)) + ((fX f)
  ^ 2)) + ((fY f) ^ 2)) + ((fZ f) ^ 2))))) * (((((- 4) * (fdZ2 f)) * ((pa P) ^ 2)) * (fZ f)) - ((2 *
  ((((fdX2 f) * (fX f)) + ((fdY2 f) * (fY f))) + ((fdZ2 f) * (fZ f)))) * (((((- 1) * ((pa P) ^ 2)) +
  ((fX f) ^ 2)) + ((fY f) ^ 2)) + ((fZ f) ^ 2))))) / ((sqrt (((4 * ((pa P) ^ 2)) * ((fZ f) ^ 2)) +
  (((((- ((pa P) ^ 2)) + ((fX f) ^ 2)) + ((fY f) ^ 2)) + ((fZ f) ^ 2)) ^ 2))) ^ 3))) + ((((1/2) *
  (((((((- 4) * (fdZ1 f)) * (fdZ2 f)) * ((pa P) ^ 2)) - (((4 * (ks_ddZ_D1D2 P f)) * ((pa P) ^ 2)) *
  (fZ f))) - ((4 * ((((fdX1 f) * (fX f)) + ((fdY1 f) * (fY f))) + ((fdZ1 f) * (fZ f)))) * ((((1 *
  (fdX2 f)) * (fX f)) + ((1 * (fdY2 f)) * (fY f))) + ((1 * (fdZ2 f)) * (fZ f))))) + (((((((((- 2) *
  (fdX1 f)) * (fdX2 f)) - ((2 * (fdY1 f)) * (fdY2 f))) - ((2 * (fdZ1 f)) * (fdZ2 f))) - ((2 *
  (ks_ddX_D1D2 P f)) * (fX f))) - ((2 * (ks_ddY_D1D2 P f)) * (fY f))) - ((2 * (ks_ddZ_D1D2 P f)) *
  (fZ f))) * ((((- ((pa P) ^ 2)) + ((fX f) ^ 2)) + ((fY f) ^ 2)) + ((fZ f) ^ 2))))) * ((((4 * (fdZ2
  f)) * ((pa P) ^ 2)) * (fZ f)) + ((2 * ((((fdX2 f) * (fX f)) + ((fdY2 f) * (fY f))) + ((fdZ2 f) *
  (fZ f)))) * (((((- 1) * ((pa P) ^ 2)) + ((fX f) ^ 2)) + ((fY f) ^ 2)) + ((fZ f) ^ 2))))) / ((sqrt
  (((4 * ((pa P) ^ 2)) * ((fZ f) ^ 2)) + (((((- ((pa P) ^ 2)) + ((fX f) ^ 2)) + ((fY f) ^ 2)) + ((fZ
  f) ^ 2)) ^ 2))) ^ 3))) + (((((1/2) * (((((- 12) * (fdZ1 f)) * ((pa P) ^ 2)) * (fZ f)) - ((6 *
  ((((fdX1 f) * (fX f)) + ((fdY1 f) * (fY f))) + ((fdZ1 f) * (fZ f)))) * (((((- 1) * ((pa P) ^ 2)) +
  ((fX f) ^ 2)) + ((fY f) ^ 2)) + ((fZ f) ^ 2))))) * (((((- 4) * (fdZ2 f)) * ((pa P) ^ 2)) * (fZ f))
  - ((2 * ((((fdX2 f) * (fX f)) + ((fdY2 f) * (fY f))) + ((fdZ2 f) * (fZ f)))) * (((((- 1) * ((pa P)
  ^ 2)) + ((fX f) ^ 2)) + ((fY f) ^ 2)) + ((fZ f) ^ 2))))) * ((((4 * (fdZ2 f)) * ((pa P) ^ 2)) * (fZ
  f)) + ((2 * ((((fdX2 f) * (fX f)) + ((fdY2 f) * (fY f))) + ((fdZ2 f) * (fZ f)))) * (((((- 1) * ((pa
  P) ^ 2)) + ((fX f) ^ 2)) + ((fY f) ^ 2)) + ((fZ f) ^ 2))))) / ((sqrt (((4 * ((pa P) ^ 2)) * ((fZ f)
  ^ 2)) + (((((- ((pa P) ^ 2)) + ((fX f) ^ 2)) + ((fY f) ^ 2)) + ((fZ f) ^ 2)) ^ 2))) ^ 5)))) / (sqrt
  (((((- ((pa P) ^ 2)) + ((fX f) ^ 2)) + ((fY f) ^ 2)) + ((fZ f) ^ 2)) + (sqrt (((4 * ((pa P) ^ 2)) *
  ((fZ f) ^ 2)) + (((((- ((pa P) ^ 2)) + ((fX f) ^ 2)) + ((fY f) ^ 2)) + ((fZ f) ^ 2)) ^ 2)))))).

(* /repo/Src/Main/Modules/Physics/Free_Data/fd_KerrSchild_R_X_Y_Z.c:4624-4903 *)
Definition ks_dddR_D1D2D0 (P : kspar) (f : ksarg) : R :=
  (((((((phs P) * ((((((- 1) * (fdX0 f)) * (fX f)) - ((1 * (fdY0 f)) * (fY f))) - ((1 * (fdZ0 f)) *
  (fZ f))) - (((1/2) * ((((4 * (fdZ0 f)) * ((pa P) ^ 2)) * (fZ f)) + ((2 * ((((fdX0 f) * (fX f)) +
  ((fdY0 f) * (fY f))) + ((fdZ0 f) * (fZ f)))) * (((((- 1) * ((pa P) ^ 2)) + ((fX f) ^ 2)) + ((fY f)
  ^ 2)) + ((fZ f) ^ 2))))) / (sqrt (((4 * ((pa P) ^ 2)) * ((fZ f) ^ 2)) + (((((- ((pa P) ^ 2)) + ((fX
  f) ^ 2)) + ((fY f) ^ 2)) + ((fZ f) ^ 2)) ^ 2)))))) * (((((((((1 * (fdX1 f)) * (fdX2 f)) + ((1 *
  (fdY1 f)) * (fdY2 f))) + ((1 * (fdZ1 f)) * (fdZ2 f))) + ((1 * (ks_ddX_D1D2 P f)) * (fX f))) + ((1 *
  (ks_ddY_D1D2 P f)) * (fY f))) + ((1 * (ks_ddZ_D1D2 P f)) * (fZ f))) + (((1/2) * ((((((4 * (fdZ1 f))
  * (fdZ2 f)) * ((pa P) ^ 2)) + (((4 * (ks_ddZ_D1D2 P f)) * ((pa P) ^ 2)) * (fZ f))) + ((4 * ((((1 *
  (fdX1 f)) * (fX f)) + ((1 * (fdY1 f)) * (fY f))) + ((1 * (fdZ1 f)) * (fZ f)))) * ((((fdX2 f) * (fX
  f)) + ((fdY2 f) * (fY f))) + ((fdZ2 f) * (fZ f))))) + ((((((((2 * (fdX1 f)) * (fdX2 f)) + ((2 *
  (fdY1 f)) * (fdY2 f))) + ((2 * (fdZ1 f)) * (fdZ2 f))) + ((2 * (ks_ddX_D1D2 P f)) * (fX f))) + ((2 *
  (ks_ddY_D1D2 P f)) * (fY f))) + ((2 * (ks_ddZ_D1D2 P f)) * (fZ f))) * ((((- ((pa P) ^ 2)) + ((fX f)
  ^ 2)) + ((fY f) ^ 2)) + ((fZ f) ^ 2))))) / (sqrt (((4 * ((pa P) ^ 2)) * ((fZ f) ^ 2)) + (((((- ((pa
  P) ^ 2)) + ((fX f) ^ 2)) + ((fY f) ^ 2)) + ((fZ f) ^ 2)) ^ 2))))) + ((((1/2) * ((((4 * (fdZ1 f)) *
  ((pa P) ^ 2)) * (fZ f)) + ((2 * ((((fdX1 f) * (fX f)) + ((fdY1 f) * (fY f))) + ((fdZ1 f) * (fZ
  f)))) * (((((- 1) * ((pa P) ^ 2)) + ((fX f) ^ 2)) + ((fY f) ^ 2)) + ((fZ f) ^ 2))))) * (((((- 4) *
  (fdZ2 f)) * ((pa P) ^ 2)) * (fZ f)) - ((2 * ((((fdX2 f) * (fX f)) + ((fdY2 f) * (fY f))) + ((fdZ2
  f) * (fZ f)))) * (((((- 1) * ((pa P) ^ 2)) + ((fX f) ^ 2)) + ((fY f) ^ 2)) + ((fZ f) ^ 2))))) /
  ((sqrt (((4 * ((pa P) ^ 2)) * ((fZ f) ^ 2)) + (((((- ((pa P) ^ 2)) + ((fX f) ^ 2)) + ((fY f) ^ 2))
  + ((fZ f) ^ 2)) ^ 2))) ^ 3)))) / ((sqrt (((((- ((pa P) ^ 2)) + ((fX f) ^ 2)) + ((fY f) ^ 2)) + ((fZ
  f) ^ 2)) + (sqrt (((4 * ((pa P) ^ 2)) * ((fZ f) ^ 2)) + (((((- ((pa P) ^ 2)) + ((fX f) ^ 2)) + ((fY
  f) ^ 2)) + ((fZ f) ^ 2)) ^ 2))))) ^ 3)) + (((phs P) * ((((((((((((((((((1 * (fdX2 f)) *
  (ks_ddX_D0D1 P f)) + ((1 * (fdX1 f)) * (ks_ddX_D0D2 P f))) + ((1 * (fdX0 f)) * (ks_ddX_D1D2 P f)))
  + ((1 * (fdY2 f)) * (ks_ddY_D0D1 P f))) + ((1 * (fdY1 f)) * (ks_ddY_D0D2 P f))) + ((1 * (fdY0 f)) *
  (ks_ddY_D1D2 P f))) + ((1 * (fdZ2 f)) * (ks_ddZ_D0D1 P f))) + ((1 * (fdZ1 f)) * (ks_ddZ_D0D2 P f)))
  + ((1 * (fdZ0 f)) * (ks_ddZ_D1D2 P f))) + ((1 * (ks_dddX_D0D1D2 P f)) * (fX f))) + ((1 *
  (ks_dddY_D0D1D2 P f)) * (fY f))) + ((1 * (ks_dddZ_D0D1D2 P f)) * (fZ f))) + (((1/2) * ((((((((((4 *
  (fdZ2 f)) * (ks_ddZ_D0D1 P f)) * ((pa P) ^ 2)) + (((4 * (fdZ1 f)) * (ks_ddZ_D0D2 P f)) * ((pa P) ^
  2))) + (((4 * (fdZ0 f)) * (ks_ddZ_D1D2 P f)) * ((pa P) ^ 2))) + (((4 * (ks_dddZ_D0D1D2 P f)) * ((pa
  P) ^ 2)) * (fZ f))) + ((4 * ((((fdX2 f) * (fX f)) + ((fdY2 f) * (fY f))) + ((fdZ2 f) * (fZ f)))) *
  (((((((1 * (fdX0 f)) * (fdX1 f)) + ((1 * (fdY0 f)) * (fdY1 f))) + ((1 * (fdZ0 f)) * (fdZ1 f))) +
  ((1 * (ks_ddX_D0D1 P f)) * (fX f))) + ((1 * (ks_ddY_D0D1 P f)) * (fY f))) + ((1 * (ks_ddZ_D0D1 P
  f)) * (fZ f))))) + ((4 * ((((1 * (fdX1 f)) * (fX f)) + ((1 * (fdY1 f)) * (fY f))) + ((1 * (fdZ1 f))
  * (fZ f)))) * (((((((fdX0 f) * (fdX2 f)) + ((fdY0 f) * (fdY2 f))) + ((fdZ0 f) * (fdZ2 f))) +
  ((ks_ddX_D0D2 P f) * (fX f))) + ((ks_ddY_D0D2 P f) * (fY f))) + ((ks_ddZ_D0D2 P f) * (fZ f))))) +
  ((4 * ((((fdX0 f) * (fX f)) + ((fdY0 f) * (fY f))) + ((fdZ0 f) * (fZ f)))) * (((((((1 * (fdX1 f)) *
  (fdX2 f)) + ((1 * (fdY1 f)) * (fdY2 f))) + ((1 * (fdZ1 f)) * (fdZ2 f))) + ((1 * (ks_ddX_D1D2 P f))
  * (fX f))) + ((1 * (ks_ddY_D1D2 P f)) * (fY f))) + ((1 * (ks_ddZ_D1D2 P f)) * (fZ f))))) +
  ((((((((((((((2 * (fdX2 f)) * (ks_ddX_D0D1 P f)) + ((2 * (fdX1 f)) * (ks_ddX_D0D2 P f))) + ((2 *
  (fdX0 f)) * (ks_ddX_D1D2 P f))) + ((2 * (fdY2 f)) * (ks_ddY_D0D1 P f))) + ((2 * (fdY1 f)) *
  (ks_ddY_D0D2 P f))) + ((2 * (fdY0 f)) * (ks_ddY_D1D2 P f))) + ((2 * (fdZ2 f)) * (ks_ddZ_D0D1 P f)))
  + ((2 * (fdZ1 f)) * (ks_ddZ_D0D2 P f))) + ((2 * (fdZ0 f)) * (ks_ddZ_D1D2 P f))) + ((2 *
  (ks_dddX_D0D1D2 P f)) * (fX f))) + ((2 * (ks_dddY_D0D1D2 P f)) * (fY f))) + ((2 * (ks_dddZ_D0D1D2 P
  f)) * (fZ f))) * ((((- ((pa P) ^ 2)) + ((fX f) ^ 2)) + ((fY f) ^ 2)) + ((fZ f) ^ 2))))) / (sqrt
  (((4 * ((pa P) ^ 2)) * ((fZ f) ^ 2)) + (((((- ((pa P) ^ 2)) + ((fX f) ^ 2)) + ((fY f) ^ 2)) + ((fZ
  f) ^ 2)) ^ 2))))) + ((((1/2) * ((((((4 * (fdZ1 f)) * (fdZ2 f)) * ((pa P) ^ 2)) + (((4 *
  (ks_ddZ_D1D2 P f)) * ((pa P) ^ 2)) * (fZ f))) + ((4 * ((((1 * (fdX1 f)) * (fX f)) + ((1 * (fdY1 f))
  * (fY f))) + ((1 * (fdZ1 f)) * (fZ f)))) * ((((fdX2 f) * (fX f)) + ((fdY2 f) * (fY f))) + ((fdZ2 f)
  * (fZ f))))) + ((((((((2 * (fdX1 f)) * (fdX2 f)) + ((2 * (fdY1 f)) * (fdY2 f))) + ((2 * (fdZ1 f)) *
  (fdZ2 f))) + ((2 * (ks_ddX_D1D2 P f)) * (fX f))) + ((2 * (ks_ddY_D1D2 P f)) * (fY f))) + ((2 *
  (ks_ddZ_D1D2 P f)) * (fZ f))) * ((((- ((pa P) ^ 2)) + ((fX f) ^ 2)) + ((fY f) ^ 2)) + ((fZ f) ^
  2))))) * (((((- 4) * (fdZ0 f)) * ((pa P) ^ 2)) * (fZ f)) - ((2 * ((((fdX0 f) * (fX f)) + ((fdY0 f)
  * (fY f))) + ((fdZ0 f) * (fZ f)))) * (((((- 1) * ((pa P) ^ 2)) + ((fX f) ^ 2)) + ((fY f) ^ 2)) +
  ((fZ f) ^ 2))))) / ((sqrt (((4 * ((pa P) ^ 2)) * ((fZ f) ^ 2)) + (((((- ((pa P) ^ 2)) + ((fX f) ^
  2)) + ((fY f) ^ 2)) + ((fZ f) ^ 2)) ^ 2))) ^ 3))) + ((((1/2) * (((((((- 4) * (fdZ0 f)) * (fdZ2 f))
  * ((pa P) ^ 2)) - (((4 * (ks_ddZ_D0D2 P f)) * ((pa P) ^ 2)) * (fZ f))) - ((4 * ((((fdX0 f) * (fX
  f)) + ((fdY0 f) * (fY f))) + ((fdZ0 f) * (fZ f)))) * ((((1 * (fdX2 f)) * (fX f)) + ((1 * (fdY2 f))
  * (fY f))) + ((1 * (fdZ2 f)) * (fZ f))))) + (((((((((- 2) * (fdX0 f)) * (fdX2 f)) - ((2 * (fdY0 f))
  * (fdY2 f))) - ((2 * (fdZ0 f)) * (fdZ2 f))) - ((2 * (ks_ddX_D0D2 P f)) * (fX f))) - ((2 *
  (ks_ddY_D0D2 P f)) * (fY f))) - ((2 * (ks_ddZ_D0D2 P f)) * (fZ f))) * ((((- ((pa P) ^ 2)) + ((fX f)
  ^ 2)) + ((fY f) ^ 2)) + ((fZ f) ^ 2))))) * ((((4 * (fdZ1 f)) * ((pa P) ^ 2)) * (fZ f)) + ((2 *
  ((((fdX1 f) * (fX f)) + ((fdY1 f) * (fY f))) + ((fdZ1 f) * (fZ f)))) * (((((- 1) * ((pa P) ^ 2)) +
  ((fX f) ^ 2)) + ((fY f) ^ 2)) + ((fZ f) ^ 2))))) / ((sqrt (((4 * ((pa P) ^ 2)) * ((fZ f) ^ 2)) +
  (((((- ((pa P) ^ 2)) + ((fX f) ^ 2)) + ((fY f) ^ 2)) + ((fZ f) ^ 2)) ^ 2))) ^ 3))) + ((((1/2) *
  ((((((4 * (fdZ0 f)) * (fdZ1 f)) * ((pa P) ^ 2)) + (((4 * (ks_ddZ_D0D1 P f)) * ((pa P) ^ 2)) * (fZ
  f))) + ((4 * ((((fdX0 f) * (fX f)) + ((fdY0 f) * (fY f))) + ((fdZ0 f) * (fZ f)))) * ((((1 * (fdX1
  f)) * (fX f)) + ((1 * (fdY1 f)) * (fY f))) + ((1 * (fdZ1 f)) * (fZ f))))) + ((((((((2 * (fdX0 f)) *
  (fdX1 f)) + ((2 * (fdY0 f)) * (fdY1 f))) + ((2 * (fdZ0 f)) * (fdZ1 f))) + ((2 * (ks_ddX_D0D1 P f))
  * (fX f))) + ((2 * (ks_ddY_D0D1 P f)) * (fY f))) + ((2 * (ks_ddZ_D0D1 P f)) * (fZ f))) * ((((- ((pa
  P) ^ 2)) + ((fX f) ^ 2)) + ((fY f) ^ 2)) + ((fZ f) ^ 2))))) * (((((- 4) * (fdZ2 f)) * ((pa P) ^ 2))
  * (fZ f)) - ((2 * ((((fdX2 f) * (fX f)) + ((fdY2 f) * (fY f))) + ((fdZ2 f) * (fZ f)))) * (((((- 1)
  * ((pa P) ^ 2)) + ((fX f) ^ 2)) + ((fY f) ^ 2)) + ((fZ f) ^ 2))))) / ((sqrt (((4 * ((pa P) ^ 2)) *
  ((fZ f) ^ 2)) + (((((- ((pa P) ^ 2)) + ((fX f) ^ 2)) + ((fY f) ^ 2)) + ((fZ f) ^ 2)) ^ 2))) ^ 3)))
  + (((((1/2) * (((((- 12) * (fdZ0 f)) * ((pa P) ^ 2)) * (fZ f)) - ((6 * ((((fdX0 f) * (fX f)) +
  ((fdY0 f) * (fY f))) + ((fdZ0 f) * (fZ f)))) * (((((- 1) * ((pa P) ^ 2)) + ((fX f) ^ 2)) + ((fY f)
  ^ 2)) + ((fZ f) ^ 2))))) * ((((4 * (fdZ1 f)) * ((pa P) ^ 2)) * (fZ f)) + ((2 * ((((fdX1 f) * (fX
  f)) + ((fdY1 f) * (fY f))) + ((fdZ1 f) * (fZ f)))) * (((((- 1) * ((pa P) ^ 2)) + ((fX f) ^ 2)) +
  ((fY f) ^ 2)) + ((fZ f) ^ 2))))) * (((((- 4) * (fdZ2 f)) * ((pa P) ^ 2)) * (fZ f)) - ((2 * ((((fdX2
  f) * (fX f)) + ((fdY2 f) * (fY f))) + ((fdZ2 f) * (fZ f)))) * (((((- 1) * ((pa P) ^ 2)) + ((fX f) ^
  2)) + ((fY f) ^ 2)) + ((fZ f) ^ 2))))) / ((sqrt (((4 * ((pa P) ^ 2)) * ((fZ f) ^ 2)) + (((((- ((pa
  P) ^ 2)) + ((fX f) ^ 2)) + ((fY f) ^ 2)) + ((fZ f) ^ 2)) ^ 2))) ^ 5)))) / (sqrt (((((- ((pa P) ^
  2)) + ((fX f) ^ 2)) + ((fY f) ^ 2)) + ((fZ f) ^ 2)) + (sqrt (((4 * ((pa P) ^ 2)) * ((fZ f) ^ 2)) +
  (((((- ((pa P) ^ 2)) + ((fX f) ^ 2)) + ((fY f) ^ 2)) + ((fZ f) ^ 2)) ^ 2))))))) + (((((phs P) *
  ((((((- 3) * (fdX0 f)) * (fX f)) - ((3 * (fdY0 f)) * (fY f))) - ((3 * (fdZ0 f)) * (fZ f))) -
  (((3/2) * ((((4 * (fdZ0 f)) * ((pa P) ^ 2)) * (fZ f)) + ((2 * ((((fdX0 f) * (fX f)) + ((fdY0 f) *
  (fY f))) + ((fdZ0 f) * (fZ f)))) * (((((- 1) * ((pa P) ^ 2)) + ((fX f) ^ 2)) + ((fY f) ^ 2)) + ((fZ
  f) ^ 2))))) / (sqrt (((4 * ((pa P) ^ 2)) * ((fZ f) ^ 2)) + (((((- ((pa P) ^ 2)) + ((fX f) ^ 2)) +
  ((fY f) ^ 2)) + ((fZ f) ^ 2)) ^ 2)))))) * (((((1 * (fdX1 f)) * (fX f)) + ((1 * (fdY1 f)) * (fY f)))
  + ((1 * (fdZ1 f)) * (fZ f))) + (((1/2) * ((((4 * (fdZ1 f)) * ((pa P) ^ 2)) * (fZ f)) + ((2 *
  ((((fdX1 f) * (fX f)) + ((fdY1 f) * (fY f))) + ((fdZ1 f) * (fZ f)))) * (((((- 1) * ((pa P) ^ 2)) +
  ((fX f) ^ 2)) + ((fY f) ^ 2)) + ((fZ f) ^ 2))))) / (sqrt (((4 * ((pa P) ^ 2)) * ((fZ f) ^ 2)) +
  (((((- ((pa P) ^ 2)) + ((fX f) ^ 2)) + ((fY f) ^ 2)) + ((fZ f) ^ 2)) ^ 2)))))) * ((((((- 1) * (fdX2
  f)) * (fX f)) - ((1 * (fdY2 f)) * (fY f))) - ((1 * (fdZ2 f)) * (fZ f))) - (((1/2) * ((((4 * (fdZ2
  f)) * ((pa P) ^ 2)) * (fZ f)) + ((2 * ((((fdX2 f) * (fX f)) + ((fdY2 f) * (fY f))) + ((fdZ2 f) *
  (fZ f)))) * (((((- 1) * ((pa P) ^ 2)) + ((fX f) ^ 2)) + ((fY f) ^ 2)) + ((fZ f) ^ 2))))) / (sqrt
  (((4 * ((pa P) ^ 2)) * ((fZ f) ^ 2)) + (((((- ((pa P) ^ 2)) + ((fX f) ^ 2)) + ((fY f) ^ 2)) + ((fZ
  f) ^ 2)) ^ 2)))))) / ((sqrt (((((- ((pa P) ^ 2)) + ((fX f) ^ 2)) + ((fY f) ^ 2)) + ((fZ f) ^ 2)) +
  (sqrt (((4 * ((pa P) ^ 2)) * ((fZ f) ^ 2)) + (((((- ((pa P) ^ 2)) + ((fX f) ^ 2)) + ((fY f) ^ 2)) +
  ((fZ f) ^ 2)) ^ 2))))) ^ 5))) + ((((phs P) * (((((((((1 * (fdX0 f)) * (fdX1 f)) + ((1 * (fdY0 f)) *
  (fdY1 f))) + ((1 * (fdZ0 f)) * (fdZ1 f))) + ((1 * (ks_ddX_D0D1 P f)) * (fX f))) + ((1 *
  (ks_ddY_D0D1 P f)) * (fY f))) + ((1 * (ks_ddZ_D0D1 P f)) * (fZ f))) + (((1/2) * ((((((4 * (fdZ0 f))
  * (fdZ1 f)) * ((pa P) ^ 2)) + (((4 * (ks_ddZ_D0D1 P f)) * ((pa P) ^ 2)) * (fZ f))) + ((4 * ((((fdX0
  f) * (fX f)) + ((fdY0 f) * (fY f))) + ((fdZ0 f) * (fZ f)))) * ((((1 * (fdX1 f)) * (fX f)) + ((1 *
  (fdY1 f)) * (fY f))) + ((1 * (fdZ1 f)) * (fZ f))))) + ((((((((2 * (fdX0 f)) * (fdX1 f)) + ((2 *
  (fdY0 f)) * (fdY1 f))) + ((2 * (fdZ0 f)) * (fdZ1 f))) + ((2 * (ks_ddX_D0D1 P f)) * (fX f))) + ((2 *
  (ks_ddY_D0D1 P f)) * (fY f))) + ((2 * (ks_ddZ_D0D1 P f)) * (fZ f))) * ((((- ((pa P) ^ 2)) + ((fX f)
  ^ 2)) + ((fY f) ^ 2)) + ((fZ f) ^ 2))))) / (sqrt (((4 * ((pa P) ^ 2)) * ((fZ f) ^ 2)) + (((((- ((pa
  P) ^ 2)) + ((fX f) ^ 2)) + ((fY f) ^ 2)) + ((fZ f) ^ 2)) ^ 2))))) + ((((1/2) * (((((- 4) * (fdZ0
  f)) * ((pa P) ^ 2)) * (fZ f)) - ((2 * ((((fdX0 f) * (fX f)) + ((fdY0 f) * (fY f))) + ((fdZ0 f) *
  (fZ f)))) * (((((- 1) * ((pa P) ^ 2)) + ((fX f) ^ 2)) + ((fY f) ^ 2)) + ((fZ f) ^ 2))))) * ((((4 *
  (fdZ1 f)) * ((pa P) ^ 2)) * (fZ f)) + ((2 * ((((fdX1 f) * (fX f)) + ((fdY1 f) * (fY f))) + ((fdZ1
  f) * (fZ f)))) * (((((- 1) * ((pa P) ^ 2)) + ((fX f) ^ 2)) + ((fY f) ^ 2)) + ((fZ f) ^ 2))))) /
  ((sqrt (((4 * ((pa P) ^ 2)) * ((fZ f) ^ 2)) + (((((- ((pa P) ^ 2)) + ((fX f) ^ 2)) + ((fY f) ^ 2))
  + ((fZ f) ^ 2)) ^ 2))) ^ 3)))) * ((((((- 1) * (fdX2 f)) * (fX f)) - ((1 * (fdY2 f)) * (fY f))) -
  ((1 * (fdZ2 f)) * (fZ f))) - (((1/2) * ((((4 * (fdZ2 f)) * ((pa P) ^ 2)) * (fZ f)) + ((2 * ((((fdX2
  f) * (fX f)) + ((fdY2 f) * (fY f))) + ((fdZ2 f) * (fZ f)))) * (((((- 1) * ((pa P) ^ 2)) + ((fX f) ^
  2)) + ((fY f) ^ 2)) + ((fZ f) ^ 2))))) / (sqrt (((4 * ((pa P) ^ 2)) * ((fZ f) ^ 2)) + (((((- ((pa
  P) ^ 2)) + ((fX f) ^ 2)) + ((fY f) ^ 2)) + ((fZ f) ^ 2)) ^ 2)))))) / ((sqrt (((((- ((pa P) ^ 2)) +
  ((fX f) ^ 2)) + ((fY f) ^ 2)) + ((fZ f) ^ 2)) + (sqrt (((4 * ((pa P) ^ 2)) * ((fZ f) ^ 2)) + (((((-
  ((pa P) ^ 2)) + ((fX f) ^ 2)) + ((fY f) ^ 2)) + ((fZ f) ^ 2)) ^ 2))))) ^ 3))) + ((((phs P) * (((((1
  * (fdX1 f)) * (fX f)) + ((1 * (fdY1 f)) * (fY f))) + ((1 * (fdZ1 f)) * (fZ f))) + (((1/2) * ((((4 *
  (fdZ1 f)) * ((pa P) ^ 2)) * (fZ f)) + ((2 * ((((fdX1 f) * (fX f)) + ((fdY1 f) * (fY f))) + ((fdZ1
  f) * (fZ f)))) * (((((- 1) * ((pa P) ^ 2)) + ((fX f) ^ 2)) + ((fY f) ^ 2)) + ((fZ f) ^ 2))))) /
  (sqrt (((4 * ((pa P) ^ 2)) * ((fZ f) ^ 2)) + (((((- ((pa P) ^ 2)) + ((fX f) ^ 2)) + ((fY f) ^ 2)) +
  ((fZ f) ^ 2)) ^ 2)))))) * ((((((((((- 1) * (fdX0 f)) * (fdX2 f)) - ((1 * (fdY0 f)) * (fdY2 f))) -
  ((1 * (fdZ0 f)) * (fdZ2 f))) - ((1 * (ks_ddX_D0D2 P f)) * (fX f))) - ((1 * (ks_ddY_D0D2 P f)) * (fY
  f))) - ((1 * (ks_ddZ_D0D2 P f)) * (fZ f))) - (((1/2) * ((((((4 * (fdZ0 f)) * (fdZ2 f)) * ((pa P) ^
  2)) + (((4 * (ks_ddZ_D0D2 P f)) * ((pa P) ^ 2)) * (fZ f))) + ((4 * ((((fdX0 f) * (fX f)) + ((fdY0
  f) * (fY f))) + ((fdZ0 f) * (fZ f)))) * ((((1 * (fdX2 f)) * (fX f)) + ((1 * (fdY2 f)) * (fY f))) +
  ((1 * (fdZ2 f)) * (fZ f))))) + ((((((((2 * (fdX0 f)) * (fdX2 f)) + ((2 * (fdY0 f)) * (fdY2 f))) +
  ((2 * (fdZ0 f)) * (fdZ2 f))) + ((2 * (ks_ddX_D0D2 P f)) * (fX f))) + ((2 * (ks_ddY_D0D2 P f)) * (fY
  f))) + ((2 * (ks_ddZ_D0D2 P f)) * (fZ f))) * ((((- ((pa P) ^ 2)) + ((fX f) ^ 2)) + ((fY f) ^ 2)) +
  ((fZ f) ^ 2))))) / (sqrt (((4 * ((pa P) ^ 2)) * ((fZ f) ^ 2)) + (((((- ((pa P) ^ 2)) + ((fX f) ^
  2)) + ((fY f) ^ 2)) + ((fZ f) ^ 2)) ^ 2))))) - ((((1/2) * (((((- 4) * (fdZ0 f)) * ((pa P) ^ 2)) *
  (fZ f)) - ((2 * ((((fdX0 f) * (fX f)) + ((fdY0 f) * (fY f))) + ((fdZ0 f) * (fZ f)))) * (((((- 1) *
  ((pa P) ^ 2)) + ((fX f) ^ 2)) + ((fY f) ^ 2)) + ((fZ f) ^ 2))))) * ((((4 * (fdZ2 f)) * ((pa P) ^
  2)) * (fZ f)) + ((2 * ((((fdX2 f) * (fX f)) + ((fdY2 f) * (fY f))) + ((fdZ2 f) * (fZ f)))) * (((((-
  1) * ((pa P) ^ 2)) + ((fX f) ^ 2)) + ((fY f) ^ 2)) + ((fZ f) ^ 2))))) / ((sqrt (((4 * ((pa P) ^ 2))
  * ((fZ f) ^ 2)) + (((((- ((pa P) ^ 2)) + ((fX f) ^ 2)) + ((fY f) ^ 2)) + ((fZ f) ^ 2)) ^ 2))) ^
  3)))) / ((sqrt (((((- ((pa P) ^ 2)) + ((fX f) ^ 2)) + ((fY f) ^ 2)) + ((fZ f) ^ 2)) + (sqrt (((4 *
  ((pa P) ^ 2)) * ((fZ f) ^ 2)) + (((((- ((pa P) ^ 2)) + ((fX f) ^ 2)) + ((fY f) ^ 2)) + ((fZ f) ^
  2)) ^ 2))))) ^ 3)).

(* /repo/Src/Main/Modules/Physics/Free_Data/fd_KerrSchild_R_X_Y_Z.c:4904-5172 *)
Definition ks_dddR_D1D2D1 (P : kspar) (f : ksarg) : R :=
  (((((((phs P) * ((((((- 1) * (fdX1 f)) * (fX f)) - ((1 * (fdY1 f)) * (fY f))) - ((1 * (fdZ1 f)) *
  (fZ f))) - (((1/2) * ((((4 * (fdZ1 f)) * ((pa P) ^ 2)) * (fZ f)) + ((2 * ((((fdX1 f) * (fX f)) +
  ((fdY1 f) * (fY f))) + ((fdZ1 f) * (fZ f)))) * (((((- 1) * ((pa P) ^ 2)) + ((fX f) ^ 2)) + ((fY f)
  ^ 2)) + ((fZ f) ^ 2))))) / (sqrt (((4 * ((pa P) ^ 2)) * ((fZ f) ^ 2)) + (((((- ((pa P) ^ 2)) + ((fX
  f) ^ 2)) + ((fY f) ^ 2)) + ((fZ f) ^ 2)) ^ 2)))))) * (((((((((1 * (fdX1 f)) * (fdX2 f)) + ((1 *
  (fdY1 f)) * (fdY2 f))) + ((1 * (fdZ1 f)) * (fdZ2 f))) + ((1 * (ks_ddX_D1D2 P f)) * (fX f))) + ((1 *
  (ks_ddY_D1D2 P f)) * (fY f))) + ((1 * (ks_ddZ_D1D2 P f)) * (fZ f))) + (((1/2) * ((((((4 * (fdZ1 f))
  * (fdZ2 f)) * ((pa P) ^ 2)) + (((4 * (ks_ddZ_D1D2 P f)) * ((pa P) ^ 2)) * (fZ f))) + ((4 * ((((1 *
  (fdX1 f)) * (fX f)) + ((1 * (fdY1 f)) * (fY f))) + ((1 * (fdZ1 f)) * (fZ f)))) * ((((fdX2 f) * (fX
  f)) + ((fdY2 f) * (fY f))) + ((fdZ2 f) * (fZ f))))) + ((((((((2 * (fdX1 f)) * (fdX2 f)) + ((2 *
  (fdY1 f)) * (fdY2 f))) + ((2 * (fdZ1 f)) * (fdZ2 f))) + ((2 * (ks_ddX_D1D2 P f)) * (fX f))) + ((2 *
  (ks_ddY_D1D2 P f)) * (fY f))) + ((2 * (ks_ddZ_D1D2 P f)) * (fZ f))) * ((((- ((pa P) ^ 2)) + ((fX f)
  ^ 2)) + ((fY f) ^ 2)) + ((fZ f) ^ 2))))) / (sqrt (((4 * ((pa P) ^ 2)) * ((fZ f) ^ 2)) + (((((- ((pa
  P) ^ 2)) + ((fX f) ^ 2)) + ((fY f) ^ 2)) + ((fZ f) ^ 2)) ^ 2))))) + ((((1/2) * ((((4 * (fdZ1 f)) *
  ((pa P) ^ 2)) * (fZ f)) + ((2 * ((((fdX1 f) * (fX f)) + ((fdY1 f) * (fY f))) + ((fdZ1 f) * (fZ
  f)))) * (((((- 1) * ((pa P) ^ 2)) + ((fX f) ^ 2)) + ((fY f) ^ 2)) + ((fZ f) ^ 2))))) * (((((- 4) *
  (fdZ2 f)) * ((pa P) ^ 2)) * (fZ f)) - ((2 * ((((fdX2 f) * (fX f)) + ((fdY2 f) * (fY f))) + ((fdZ2
  f) * (fZ f)))) * (((((- 1) * ((pa P) ^ 2)) + ((fX f) ^ 2)) + ((fY f) ^ 2)) + ((fZ f) ^ 2))))) /
  ((sqrt (((4 * ((pa P) ^ 2)) * ((fZ f) ^ 2)) + (((((- ((pa P) ^ 2)) + ((fX f) ^ 2)) + ((fY f) ^ 2))
  + ((fZ f) ^ 2)) ^ 2))) ^ 3)))) / ((sqrt (((((- ((pa P) ^ 2)) + ((fX f) ^ 2)) + ((fY f) ^ 2)) + ((fZ
  f) ^ 2)) + (sqrt (((4 * ((pa P) ^ 2)) * ((fZ f) ^ 2)) + (((((- ((pa P) ^ 2)) + ((fX f) ^ 2)) + ((fY
  f) ^ 2)) + ((fZ f) ^ 2)) ^ 2))))) ^ 3)) + (((phs P) * (((((((((((((((1 * (fdX2 f)) * (ks_ddX_D1D1 P
  f)) + ((1 * (fdY2 f)) * (ks_ddY_D1D1 P f))) + ((1 * (fdZ2 f)) * (ks_ddZ_D1D1 P f))) + ((2 * (fdX1
  f)) * (ks_ddX_D1D2 P f))) + ((2 * (fdY1 f)) * (ks_ddY_D1D2 P f))) + ((2 * (fdZ1 f)) * (ks_ddZ_D1D2
  P f))) + ((1 * (ks_dddX_D1D1D2 P f)) * (fX f))) + ((1 * (ks_dddY_D1D1D2 P f)) * (fY f))) + ((1 *
  (ks_dddZ_D1D1D2 P f)) * (fZ f))) + (((1/2) * (((((((((4 * (fdZ2 f)) * (ks_ddZ_D1D1 P f)) * ((pa P)
  ^ 2)) + (((8 * (fdZ1 f)) * (ks_ddZ_D1D2 P f)) * ((pa P) ^ 2))) + (((4 * (ks_dddZ_D1D1D2 P f)) *
  ((pa P) ^ 2)) * (fZ f))) + ((4 * ((((fdX2 f) * (fX f)) + ((fdY2 f) * (fY f))) + ((fdZ2 f) * (fZ
  f)))) * ((((((1 * ((fdX1 f) ^ 2)) + (1 * ((fdY1 f) ^ 2))) + (1 * ((fdZ1 f) ^ 2))) + ((1 *
  (ks_ddX_D1D1 P f)) * (fX f))) + ((1 * (ks_ddY_D1D1 P f)) * (fY f))) + ((1 * (ks_ddZ_D1D1 P f)) *
  (fZ f))))) + ((4 * ((((1 * (fdX1 f)) * (fX f)) + ((1 * (fdY1 f)) * (fY f))) + ((1 * (fdZ1 f)) * (fZ
  f)))) * (((((((fdX1 f) * (fdX2 f)) + ((fdY1 f) * (fdY2 f))) + ((fdZ1 f) * (fdZ2 f))) +
  ((ks_ddX_D1D2 P f) * (fX f))) + ((ks_ddY_D1D2 P f) * (fY f))) + ((ks_ddZ_D1D2 P f) * (fZ f))))) +
  ((4 * ((((fdX1 f) * (fX f)) + ((fdY1 f) * (fY f))) + ((fdZ1 f) * (fZ f)))) * (((((((1 * (fdX1 f)) *
  (fdX2 f)) + ((1 * (fdY1 f)) * (fdY2 f))) + ((1 * (fdZ1 f)) * (fdZ2 f))) + ((1 * (ks_ddX_D1D2 P f))
  * (fX f))) + ((1 * (ks_ddY_D1D2 P f)) * (fY f))) + ((1 * (ks_ddZ_D1D2 P f)) * (fZ f))))) +
  (((((((((((2 * (fdX2 f)) * (ks_ddX_D1D1 P f)) + ((2 * (fdY2 f)) * (ks_ddY_D1D1 P f))) + ((2 * (fdZ2
  f)) * (ks_ddZ_D1D1 P f))) + ((4 * (fdX1 f)) * (ks_ddX_D1D2 P f))) + ((4 * (fdY1 f)) * (ks_ddY_D1D2
  P f))) + ((4 * (fdZ1 f)) * (ks_ddZ_D1D2 P f))) + ((2 * (ks_dddX_D1D1D2 P f)) * (fX f))) + ((2 *
  (ks_dddY_D1D1D2 P f)) * (fY f))) + ((2 * (ks_dddZ_D1D1D2 P f)) * (fZ f))) * ((((- ((pa P) ^ 2)) +
  ((fX f) ^ 2)) + ((fY f) ^ 2)) + ((fZ f) ^ 2))))) / (sqrt (((4 * ((pa P) ^ 2)) * ((fZ f) ^ 2)) +
  (((((- ((pa P) ^ 2)) + ((fX f) ^ 2)) + ((fY f) ^ 2)) + ((fZ f) ^ 2)) ^ 2))))) + ((((1/2) * ((((((4
  * (fdZ1 f)) * (fdZ2 f)) * ((pa P) ^ 2)) + (((4 * (ks_ddZ_D1D2 P f)) * ((pa P) ^ 2)) * (fZ f))) +
  ((4 * ((((1 * (fdX1 f)) * (fX f)) + ((1 * (fdY1 f)) * (fY f))) + ((1 * (fdZ1 f)) * (fZ f)))) *
  ((((fdX2 f) * (fX f)) + ((fdY2 f) * (fY f))) + ((fdZ2 f) * (fZ f))))) + ((((((((2 * (fdX1 f)) *
  (fdX2 f)) + ((2 * (fdY1 f)) * (fdY2 f))) + ((2 * (fdZ1 f)) * (fdZ2 f))) + ((2 * (ks_ddX_D1D2 P f))
  * (fX f))) + ((2 * (ks_ddY_D1D2 P f)) * (fY f))) + ((2 * (ks_ddZ_D1D2 P f)) * (fZ f))) * ((((- ((pa
  P) ^ 2)) + ((fX f) ^ 2)) + ((fY f) ^ 2)) + ((fZ f) ^ 2))))) * (((((- 4) * (fdZ1 f)) * ((pa P) ^ 2))
  * (fZ f)) - ((2 * ((((fdX1 f) * (fX f)) + ((fdY1 f) * (fY f))) + ((fdZ1 f) * (fZ f)))) * (((((- 1)
  * ((pa P) ^ 2)) + ((fX f) ^ 2)) + ((fY f) ^ 2)) + ((fZ f) ^ 2))))) / ((sqrt (((4 * ((pa P) ^ 2)) *
  ((fZ f) ^ 2)) + (((((- ((pa P) ^ 2)) + ((fX f) ^ 2)) + ((fY f) ^ 2)) + ((fZ f) ^ 2)) ^ 2))) ^ 3)))
  + ((((1/2) * (((((((- 4) * (fdZ1 f)) * (fdZ2 f)) * ((pa P) ^ 2)) - (((4 * (ks_ddZ_D1D2 P f)) * ((pa
  P) ^ 2)) * (fZ f))) - ((4 * ((((fdX1 f) * (fX f)) + ((fdY1 f) * (fY f))) + ((fdZ1 f) * (fZ f)))) *
  ((((1 * (fdX2 f)) * (fX f)) + ((1 * (fdY2 f)) * (fY f))) + ((1 * (fdZ2 f)) * (fZ f))))) +
  (((((((((- 2) * (fdX1 f)) * (fdX2 f)) - ((2 * (fdY1 f)) * (fdY2 f))) - ((2 * (fdZ1 f)) * (fdZ2 f)))
  - ((2 * (ks_ddX_D1D2 P f)) * (fX f))) - ((2 * (ks_ddY_D1D2 P f)) * (fY f))) - ((2 * (ks_ddZ_D1D2 P
  f)) * (fZ f))) * ((((- ((pa P) ^ 2)) + ((fX f) ^ 2)) + ((fY f) ^ 2)) + ((fZ f) ^ 2))))) * ((((4 *
  (fdZ1 f)) * ((pa P) ^ 2)) * (fZ f)) + ((2 * ((((fdX1 f) * (fX f)) + ((fdY1 f) * (fY f))) + ((fdZ1
  f) * (fZ f)))) * (((((- 1) * ((pa P) ^ 2)) + ((fX f) ^ 2)) + ((fY f) ^ 2)) + ((fZ f) ^ 2))))) /
  ((sqrt (((4 * ((pa P) ^ 2)) * ((fZ f) ^ 2)) + (((((- ((pa P) ^ 2)) + ((fX f) ^ 2)) + ((fY f) ^ 2))
  + ((fZ f) ^ 2)) ^ 2))) ^ 3))) + ((((1/2) * (((((4 * ((fdZ1 f) ^ 2)) * ((pa P) ^ 2)) + (((4 *
  (ks_ddZ_D1D1 P f)) * ((pa P) ^ 2)) * (fZ f))) + (4 * (((((1 * (fdX1 f)) * (fX f)) + ((1 * (fdY1 f))
  * (fY f))) + ((1 * (fdZ1 f)) * (fZ f))) ^ 2))) + (((((((2 * ((fdX1 f) ^ 2)) + (2 * ((fdY1 f) ^ 2)))
  + (2 * ((fdZ1 f) ^ 2))) + ((2 * (ks_ddX_D1D1 P f)) * (fX f))) + ((2 * (ks_ddY_D1D1 P f)) * (fY f)))
  + ((2 * (ks_ddZ_D1D1 P f)) * (fZ f))) * ((((- ((pa P) ^ 2)) + ((fX f) ^ 2)) + ((fY f) ^ 2)) + ((fZ
  f) ^ 2))))) * (((((- 4) * (fdZ2 f)) * ((pa P) ^ 2)) * (fZ f)) - ((2 * ((((fdX2 f) * (fX f)) +
  ((fdY2 f) * (fY f))) + ((fdZ2 f) * (fZ f)))) * (((((- 1) * ((pa P) ^ 2)) + ((fX f) ^ 2)) + ((fY f)
  ^ 2)) + ((fZ f) ^ 2))))) / ((sqrt (((4 * ((pa P) ^ 2)) * ((fZ f) ^ 2)) + (((((- ((pa P) ^ 2)) +
  ((fX f) ^ 2)) + ((fY f) ^ 2)) + ((fZ f) ^ 2)) ^ 2))) ^ 3))) + (((((1/2) * (((((- 12) * (fdZ1 f)) *
  ((pa P) ^ 2)) * (fZ f)) - ((6 * ((((fdX1 f) * (fX f)) + ((fdY1 f) * (fY f))) + ((fdZ1 f) * (fZ
  f)))) * (((((- 1) * ((pa P) ^ 2)) + ((fX f) ^ 2)) + ((fY f) ^ 2)) + ((fZ f) ^ 2))))) * ((((4 *
  (fdZ1 f)) * ((pa P) ^ 2)) * (fZ f)) + ((2 * ((((fdX1 f) * (fX f)) + ((fdY1 f) * (fY f))) + ((fdZ1
  f) * (fZ f)))) * (((((- 1) * ((pa P) ^ 2)) + ((fX f) ^ 2)) + ((fY f) ^ 2)) + ((fZ f) ^ 2))))) *
  (((((- 4) * (fdZ2 f)) * ((pa P) ^ 2)) * (fZ f)) - ((2 * ((((fdX2 f) * (fX f)) + ((fdY2 f) * (fY
  f))) + ((fdZ2 f) * (fZ f)))) * (((((- 1) * ((pa P) ^ 2)) + ((fX f) ^ 2)) + ((fY f) ^ 2)) + ((fZ f)
  ^ 2))))) / ((sqrt (((4 * ((pa P) ^ 2)) * ((fZ f) ^ 2)) + (((((- ((pa P) ^ 2)) + ((fX f) ^ 2)) +
  ((fY f) ^ 2)) + ((fZ f) ^ 2)) ^ 2))) ^ 5)))) / (sqrt (((((- ((pa P) ^ 2)) + ((fX f) ^ 2)) + ((fY f)
  ^ 2)) + ((fZ f) ^ 2)) + (sqrt (((4 * ((pa P) ^ 2)) * ((fZ f) ^ 2)) + (((((- ((pa P) ^ 2)) + ((fX f)
  ^ 2)) + ((fY f) ^ 2)) + ((fZ f) ^ 2)) ^ 2))))))) + ((((phs P) * ((((((((1 * ((fdX1 f) ^ 2)) + (1 *
  ((fdY1 f) ^ 2))) + (1 * ((fdZ1 f) ^ 2))) + ((1 * (ks_ddX_D1D1 P f)) * (fX f))) + ((1 * (ks_ddY_D1D1
  P f)) * (fY f))) + ((1 * (ks_ddZ_D1D1 P f)) * (fZ f))) - ((2 * ((((((fdZ1 f) * (fZ f)) * (((((- 1)
  * ((pa P) ^ 2)) - (1 * ((fX f) ^ 2))) - (1 * ((fY f) ^ 2))) - (1 * ((fZ f) ^ 2)))) + (((fdX1 f) *
  (fX f)) * ((((1 * ((pa P) ^ 2)) - (1 * ((fX f) ^ 2))) - (1 * ((fY f) ^ 2))) - (1 * ((fZ f) ^ 2)))))
  + (((fdY1 f) * (fY f)) * ((((1 * ((pa P) ^ 2)) - (1 * ((fX f) ^ 2))) - (1 * ((fY f) ^ 2))) - (1 *
  ((fZ f) ^ 2))))) ^ 2)) / ((sqrt (((4 * ((pa P) ^ 2)) * ((fZ f) ^ 2)) + (((((- ((pa P) ^ 2)) + ((fX
  f) ^ 2)) + ((fY f) ^ 2)) + ((fZ f) ^ 2)) ^ 2))) ^ 3))) + (((1/2) * (((((4 * ((fdZ1 f) ^ 2)) * ((pa
  P) ^ 2)) + (((4 * (ks_ddZ_D1D1 P f)) * ((pa P) ^ 2)) * (fZ f))) + (4 * (((((1 * (fdX1 f)) * (fX f))
  + ((1 * (fdY1 f)) * (fY f))) + ((1 * (fdZ1 f)) * (fZ f))) ^ 2))) + (((((((2 * ((fdX1 f) ^ 2)) + (2
  * ((fdY1 f) ^ 2))) + (2 * ((fdZ1 f) ^ 2))) + ((2 * (ks_ddX_D1D1 P f)) * (fX f))) + ((2 *
  (ks_ddY_D1D1 P f)) * (fY f))) + ((2 * (ks_ddZ_D1D1 P f)) * (fZ f))) * ((((- ((pa P) ^ 2)) + ((fX f)
  ^ 2)) + ((fY f) ^ 2)) + ((fZ f) ^ 2))))) / (sqrt (((4 * ((pa P) ^ 2)) * ((fZ f) ^ 2)) + (((((- ((pa
  P) ^ 2)) + ((fX f) ^ 2)) + ((fY f) ^ 2)) + ((fZ f) ^ 2)) ^ 2)))))) * ((((((- 1) * (fdX2 f)) * (fX
  f)) - ((1 * (fdY2 f)) * (fY f))) - ((1 * (fdZ2 f)) * (fZ f))) - (((1/2) * ((((4 * (fdZ2 f)) * ((pa
  P) ^ 2)) * (fZ f)) + ((2 * ((((fdX2 f) * (fX f)) + ((fdY2 f) * (fY f))) + ((fdZ2 f) * (fZ f)))) *
  (((((- 1) * ((pa P) ^ 2)) + ((fX f) ^ 2)) + ((fY f) ^ 2)) + ((fZ f) ^ 2))))) / (sqrt (((4 * ((pa P)
  ^ 2)) * ((fZ f) ^ 2)) + (((((- ((pa P) ^ 2)) + ((fX f) ^ 2)) + ((fY f) ^ 2)) + ((fZ f) ^ 2)) ^
  2)))))) / ((sqrt (((((- ((pa P) ^ 2)) + ((fX f) ^ 2)) + ((fY f) ^ 2)) + ((fZ f) ^ 2)) + (sqrt (((4
  * ((pa P) ^ 2)) * ((fZ f) ^ 2)) + (((((- ((pa P) ^ 2)) + ((fX f) ^ 2)) + ((fY f) ^ 2)) + ((fZ f) ^
  2)) ^ 2))))) ^ 3))) + (((((phs P) * ((((((- 3) * (fdX1 f)) * (fX f)) - ((3 * (fdY1 f)) * (fY f))) -
  ((3 * (fdZ1 f)) * (fZ f))) - (((3/2) * ((((4 * (fdZ1 f)) * ((pa P) ^ 2)) * (fZ f)) + ((2 * ((((fdX1
  f) * (fX f)) + ((fdY1 f) * (fY f))) + ((fdZ1 f) * (fZ f)))) * (((((- 1) * ((pa P) ^ 2)) + ((fX f) ^
  2)) + ((fY f) ^ 2)) + ((fZ f) ^ 2))))) / (sqrt (((4 * ((pa P) ^ 2)) * ((fZ f) ^ 2)) + (((((- ((pa
  P) ^ 2)) + ((fX f) ^ 2)) + ((fY f) ^ 2)) + ((fZ f) ^ 2)) ^ 2)))))) * (((((1 * (fdX1 f)) * (fX f)) +
  ((1 * (fdY1 f)) * (fY f))) + ((1 * (fdZ1 f)) * (fZ f))) + (((1/2) * ((((4 * (fdZ1 f)) * ((pa P) ^
  2)) * (fZ f)) + ((2 * ((((fdX1 f) * (fX f)) + ((fdY1 f) * (fY f))) + ((fdZ1 f) * (fZ f)))) * (((((-
  1) * ((pa P) ^ 2)) + ((fX f) ^ 2)) + ((fY f) ^ 2)) + ((fZ f) ^ 2))))) / (sqrt (((4 * ((pa P) ^ 2))
  * ((fZ f) ^ 2)) + (((((- ((pa P) ^ 2)) + ((fX f) ^ 2)) + ((fY f) ^ 2)) + ((fZ f) ^ 2)) ^ 2)))))) *
  ((((((- 1) * (fdX2 f)) * (fX f)) - ((1 * (fdY2 f)) * (fY f))) - ((1 * (fdZ2 f)) * (fZ f))) -
  (((1/2) * ((((4 * (fdZ2 f)) * ((pa P) ^ 2)) * (fZ f)) + ((2 * ((((fdX2 f) * (fX f)) + ((fdY2 f) *
  (fY f))) + ((fdZ2 f) * (fZ f)))) * (((((- 1) * ((pa P) ^ 2)) + ((fX f) ^ 2)) + ((fY f) ^ 2)) + ((fZ
  f) ^ 2))))) / (sqrt (((4 * ((pa P) ^ 2)) * ((fZ f) ^ 2)) + (((((- ((pa P) ^ 2)) + ((fX f) ^ 2)) +
  ((fY f) ^ 2)) + ((fZ f) ^ 2)) ^ 2)))))) / ((sqrt (((((- ((pa P) ^ 2)) + ((fX f) ^ 2)) + ((fY f) ^
  2)) + ((fZ f) ^ 2)) + (sqrt (((4 * ((pa P) ^ 2)) * ((fZ f) ^ 2)) + (((((- ((pa P) ^ 2)) + ((fX f) ^
  2)) + ((fY f) ^ 2)) + ((fZ f) ^ 2)) ^ 2))))) ^ 5))) + ((((phs P) * (((((1 * (fdX1 f)) * (fX f)) +
  ((1 * (fdY1 f)) * (fY f))) + ((1 * (fdZ1 f)) * (fZ f))) + (((1/2) * ((((4 * (fdZ1 f)) * ((pa P) ^
  2)) * (fZ f)) + ((2 * ((((fdX1 f) * (fX f)) + ((fdY1 f) * (fY f))) + ((fdZ1 f) * (fZ f)))) * (((((-
  1) * ((pa P) ^ 2)) + ((fX f) ^ 2)) + ((fY f) ^ 2)) + ((fZ f) ^ 2))))) / (sqrt (((4 * ((pa P) ^ 2))
  * ((fZ f) ^ 2)) + (((((- ((pa P) ^ 2)) + ((fX f) ^ 2)) + ((fY f) ^ 2)) + ((fZ f) ^ 2)) ^ 2)))))) *
  ((((((((((- 1) * (fdX1 f)) * (fdX2 f)) - ((1 * (fdY1 f)) * (fdY2 f))) - ((1 * (fdZ1 f)) * (fdZ2
  f))) - ((1 * (ks_ddX_D1D2 P f)) * (fX f))) - ((1 * (ks_ddY_D1D2 P f)) * (fY f))) - ((1 *
  (ks_ddZ_D1D2 P f)) * (fZ f))) - (((1/2) * ((((((4 * (fdZ1 f)) * (fdZ2 f)) * ((pa P) ^ 2)) + (((4 *
  (ks_ddZ_D1D2 P f)) * ((pa P) ^ 2)) * (fZ f))) + ((4 * ((((fdX1 f) * (fX f)) + ((fdY1 f) * (fY f)))
  + ((fdZ1 f) * (fZ f)))) * ((((1 * (fdX2 f)) * (fX f)) + ((1 * (fdY2 f)) * (fY f))) + ((1 * (fdZ2
  f)) * (fZ f))))) + ((((((((2 * (fdX1 f)) * (fdX2 f)) + ((2 * (fdY1 f)) * (fdY2 f))) + ((2 * (fdZ1
  f)) * (fdZ2 f))) + ((2 * (ks_ddX_D1D2 P f)) * (fX f))) + ((2 * (ks_ddY_D1D2 P f)) * (fY f))) + ((2
  * (ks_ddZ_D1D2 P f)) * (fZ f))) * ((((- ((pa P) ^ 2)) + ((fX f) ^ 2)) + ((fY f) ^ 2)) + ((fZ f) ^
  2))))) / (sqrt (((4 * ((pa P) ^ 2)) * ((fZ f) ^ 2)) + (((((- ((pa P) ^ 2)) + ((fX f) ^ 2)) + ((fY
  f) ^ 2)) + ((fZ f) ^ 2)) ^ 2))))) - ((((1/2) * (((((- 4) * (fdZ1 f)) * ((pa P) ^ 2)) * (fZ f)) -
  ((2 * ((((fdX1 f) * (fX f)) + ((fdY1 f) * (fY f))) + ((fdZ1 f) * (fZ f)))) * (((((- 1) * ((pa P) ^
  2)) + ((fX f) ^ 2)) + ((fY f) ^ 2)) + ((fZ f) ^ 2))))) * ((((4 * (fdZ2 f)) * ((pa P) ^ 2)) * (fZ
  f)) + ((2 * ((((fdX2 f) * (fX f)) + ((fdY2 f) * (fY f))) + ((fdZ2 f) * (fZ f)))) * (((((- 1) * ((pa
  P) ^ 2)) + ((fX f) ^ 2)) + ((fY f) ^ 2)) + ((fZ f) ^ 2))))) / ((sqrt (((4 * ((pa P) ^ 2)) * ((fZ f)
  ^ 2)) + (((((- ((pa P) ^ 2)) + ((fX f) ^ 2)) + ((fY f) ^ 2)) + ((fZ f) ^ 2)) ^ 2))) ^ 3)))) /
  ((sqrt (((((- ((pa P) ^ 2)) + ((fX f) ^ 2)) + ((fY f) ^ 2)) + ((fZ f) ^ 2)) + (sqrt (((4 * ((pa P)
  ^ 2)) * ((fZ f) ^ 2)) + (((((- ((pa P) ^ 2)) + ((fX f) ^ 2)) + ((fY f) ^ 2)) + ((fZ f) ^ 2)) ^
  2))))) ^ 3)).

(* /repo/Src/Main/Modules/Physics/Free_Data/fd_KerrSchild_R_X_Y_Z.c:5173-5356 *)
Definition ks_dddR_D1D1D1 (P : kspar) (f : ksarg) : R :=
  (((((3 * phs P) * (((((((((((((((((((- 1) * (fdX1 f)) * ((pa P) ^ 2)) * (fX f)) + ((1 * (fdX1 f)) *
  ((fX f) ^ 3))) - (((1 * (fdY1 f)) * ((pa P) ^ 2)) * (fY f))) + (((1 * (fdY1 f)) * ((fX f) ^ 2)) *
  (fY f))) + (((1 * (fdX1 f)) * (fX f)) * ((fY f) ^ 2))) + ((1 * (fdY1 f)) * ((fY f) ^ 3))) + (((1 *
  (fdZ1 f)) * ((pa P) ^ 2)) * (fZ f))) + (((1 * (fdZ1 f)) * ((fX f) ^ 2)) * (fZ f))) + (((1 * (fdZ1
  f)) * ((fY f) ^ 2)) * (fZ f))) + (((1 * (fdX1 f)) * (fX f)) * ((fZ f) ^ 2))) + (((1 * (fdY1 f)) *
  (fY f)) * ((fZ f) ^ 2))) + ((1 * (fdZ1 f)) * ((fZ f) ^ 3))) + (((1 * (fdX1 f)) * (fX f)) * (sqrt
  (((4 * ((pa P) ^ 2)) * ((fZ f) ^ 2)) + (((((- ((pa P) ^ 2)) + ((fX f) ^ 2)) + ((fY f) ^ 2)) + ((fZ
  f) ^ 2)) ^ 2))))) + (((1 * (fdY1 f)) * (fY f)) * (sqrt (((4 * ((pa P) ^ 2)) * ((fZ f) ^ 2)) +
  (((((- ((pa P) ^ 2)) + ((fX f) ^ 2)) + ((fY f) ^ 2)) + ((fZ f) ^ 2)) ^ 2))))) + (((1 * (fdZ1 f)) *
  (fZ f)) * (sqrt (((4 * ((pa P) ^ 2)) * ((fZ f) ^ 2)) + (((((- ((pa P) ^ 2)) + ((fX f) ^ 2)) + ((fY
  f) ^ 2)) + ((fZ f) ^ 2)) ^ 2))))) ^ 3)) / (((sqrt (((4 * ((pa P) ^ 2)) * ((fZ f) ^ 2)) + (((((-
  ((pa P) ^ 2)) + ((fX f) ^ 2)) + ((fY f) ^ 2)) + ((fZ f) ^ 2)) ^ 2))) ^ 3) * ((sqrt (((((- ((pa P) ^
  2)) + ((fX f) ^ 2)) + ((fY f) ^ 2)) + ((fZ f) ^ 2)) + (sqrt (((4 * ((pa P) ^ 2)) * ((fZ f) ^ 2)) +
  (((((- ((pa P) ^ 2)) + ((fX f) ^ 2)) + ((fY f) ^ 2)) + ((fZ f) ^ 2)) ^ 2))))) ^ 5))) + (((phs P) *
  (((((((((((3 * (fdX1 f)) * (ks_ddX_D1D1 P f)) + ((3 * (fdY1 f)) * (ks_ddY_D1D1 P f))) + ((3 * (fdZ1
  f)) * (ks_ddZ_D1D1 P f))) + ((1 * (ks_dddX_D1D1D1 P f)) * (fX f))) + ((1 * (ks_dddY_D1D1D1 P f)) *
  (fY f))) + ((1 * (ks_dddZ_D1D1D1 P f)) * (fZ f))) - ((12 * ((((((fdZ1 f) * (fZ f)) * (((((- 1) *
  ((pa P) ^ 2)) - (1 * ((fX f) ^ 2))) - (1 * ((fY f) ^ 2))) - (1 * ((fZ f) ^ 2)))) + (((fdX1 f) * (fX
  f)) * ((((1 * ((pa P) ^ 2)) - (1 * ((fX f) ^ 2))) - (1 * ((fY f) ^ 2))) - (1 * ((fZ f) ^ 2))))) +
  (((fdY1 f) * (fY f)) * ((((1 * ((pa P) ^ 2)) - (1 * ((fX f) ^ 2))) - (1 * ((fY f) ^ 2))) - (1 *
  ((fZ f) ^ 2))))) ^ 3)) / ((sqrt (((4 * ((pa P) ^ 2)) * ((fZ f) ^ 2)) + (((((- ((pa P) ^ 2)) + ((fX
  f) ^ 2)) + ((fY f) ^ 2)) + ((fZ f) ^ 2)) ^ 2))) ^ 5))) + (((1/2) * (((((((12 * (fdZ1 f)) *
  (ks_ddZ_D1D1 P f)) * ((pa P) ^ 2)) + (((4 * (ks_dddZ_D1D1D1 P f)) * ((pa P) ^ 2)) * (fZ f))) + ((4
  * ((((1 * (fdX1 f)) * (fX f)) + ((1 * (fdY1 f)) * (fY f))) + ((1 * (fdZ1 f)) * (fZ f)))) *
  (((((((fdX1 f) ^ 2) + ((fdY1 f) ^ 2)) + ((fdZ1 f) ^ 2)) + ((ks_ddX_D1D1 P f) * (fX f))) +
  ((ks_ddY_D1D1 P f) * (fY f))) + ((ks_ddZ_D1D1 P f) * (fZ f))))) + ((8 * ((((fdX1 f) * (fX f)) +
  ((fdY1 f) * (fY f))) + ((fdZ1 f) * (fZ f)))) * ((((((1 * ((fdX1 f) ^ 2)) + (1 * ((fdY1 f) ^ 2))) +
  (1 * ((fdZ1 f) ^ 2))) + ((1 * (ks_ddX_D1D1 P f)) * (fX f))) + ((1 * (ks_ddY_D1D1 P f)) * (fY f))) +
  ((1 * (ks_ddZ_D1D1 P f)) * (fZ f))))) + ((((((((6 * (fdX1 f)) * (ks_ddX_D1D1 P f)) + ((6 * (fdY1
  f)) * (ks_ddY_D1D1 P f))) + ((6 * (fdZ1 f)) * (ks_ddZ_D1D1 P f))) + ((2 * (ks_dddX_D1D1D1 P f)) *
  (fX f))) + ((2 * (ks_dddY_D1D1D1 P f)) * (fY f))) + ((2 * (ks_dddZ_D1D1D1 P f)) * (fZ f))) * ((((-
  ((pa P) ^ 2)) + ((fX f) ^ 2)) + ((fY f) ^ 2)) + ((fZ f) ^ 2))))) / (sqrt (((4 * ((pa P) ^ 2)) *
  ((fZ f) ^ 2)) + (((((- ((pa P) ^ 2)) + ((fX f) ^ 2)) + ((fY f) ^ 2)) + ((fZ f) ^ 2)) ^ 2))))) +
  (((1 * (((((4 * ((fdZ1 f) ^ 2)) * ((pa P) ^ 2)) + (((4 * (ks_ddZ_D1D1 P f)) * ((pa P) ^ 2)) * (fZ
  f))) + (4 * (((((1 * (fdX1 f)) * (fX f)) + ((1 * (fdY1 f)) * (fY f))) + ((1 * (fdZ1 f)) * (fZ f)))
  ^ 2))) + (((((((2 * ((fdX1 f) ^ 2)) + (2 * ((fdY1 f) ^ 2))) + (2 * ((fdZ1 f) ^ 2))) + ((2 *
  (ks_ddX_D1D1 P f)) * (fX f))) + ((2 * (ks_ddY_D1D1 P f)) * (fY f))) + ((2 * (ks_ddZ_D1D1 P f)) *
  (fZ f))) * ((((- ((pa P) ^ 2)) + ((fX f) ^ 2)) + ((fY f) ^ 2)) + ((fZ f) ^ 2))))) * (((((- 4) *
  (fdZ1 f)) * ((pa P) ^ 2)) * (fZ f)) - ((2 * ((((fdX1 f) * (fX f)) + ((fdY1 f) * (fY f))) + ((fdZ1
  f) * (fZ f)))) * (((((- 1) * ((pa P) ^ 2)) + ((fX f) ^ 2)) + ((fY f) ^ 2)) + ((fZ f) ^ 2))))) /
  ((sqrt (((4 * ((pa P) ^ 2)) * ((fZ f) ^ 2)) + (((((- ((pa P) ^ 2)) + ((fX f) ^ 2)) + ((fY f) ^ 2))
  + ((fZ f) ^ 2)) ^ 2))) ^ 3))) + ((((1/2) * ((((((- 4) * ((fdZ1 f) ^ 2)) * ((pa P) ^ 2)) - (((4 *
  (ks_ddZ_D1D1 P f)) * ((pa P) ^ 2)) * (fZ f))) - (4 * (((((fdX1 f) * (fX f)) + ((fdY1 f) * (fY f)))
  + ((fdZ1 f) * (fZ f))) ^ 2))) + ((((((((- 2) * ((fdX1 f) ^ 2)) - (2 * ((fdY1 f) ^ 2))) - (2 *
  ((fdZ1 f) ^ 2))) - ((2 * (ks_ddX_D1D1 P f)) * (fX f))) - ((2 * (ks_ddY_D1D1 P f)) * (fY f))) - ((2
  * (ks_ddZ_D1D1 P f)) * (fZ f))) * ((((- ((pa P) ^ 2)) + ((fX f) ^ 2)) + ((fY f) ^ 2)) + ((fZ f) ^
  2))))) * ((((4 * (fdZ1 f)) * ((pa P) ^ 2)) * (fZ f)) + ((2 * ((((fdX1 f) * (fX f)) + ((fdY1 f) *
  (fY f))) + ((fdZ1 f) * (fZ f)))) * (((((- 1) * ((pa P) ^ 2)) + ((fX f) ^ 2)) + ((fY f) ^ 2)) + ((fZ
  f) ^ 2))))) / ((sqrt (((4 * ((pa P) ^ 2)) * ((fZ f) ^ 2)) + (((((- ((pa P) ^ 2)) + ((fX f) ^ 2)) +
  ((fY f) ^ 2)) + ((fZ f) ^ 2)) ^ 2))) ^ 3)))) / (sqrt (((((- ((pa P) ^ 2)) + ((fX f) ^ 2)) + ((fY f)
  ^ 2)) + ((fZ f) ^ 2)) + (sqrt (((4 * ((pa P) ^ 2)) * ((fZ f) ^ 2)) + (((((- ((pa P) ^ 2)) + ((fX f)
  ^ 2)) + ((fY f) ^ 2)) + ((fZ f) ^ 2)) ^ 2))))))) + ((((2 * phs P) * ((((((((1 * ((fdX1 f) ^ 2)) +
  (1 * ((fdY1 f) ^ 2))) + (1 * ((fdZ1 f) ^ 2))) + ((1 * (ks_ddX_D1D1 P f)) * (fX f))) + ((1 *
  (ks_ddY_D1D1 P f)) * (fY f))) + ((1 * (ks_ddZ_D1D1 P f)) * (fZ f))) - ((2 * ((((((fdZ1 f) * (fZ f))
  * (((((- 1) * ((pa P) ^ 2)) - (1 * ((fX f) ^ 2))) - (1 * ((fY f) ^ 2))) - (1 * ((fZ f) ^ 2)))) +
  (((fdX1 f) * (fX f)) * ((((1 * ((pa P) ^ 2)) - (1 * ((fX f) ^ 2))) - (1 * ((fY f) ^ 2))) - (1 *
  ((fZ f) ^ 2))))) + (((fdY1 f) * (fY f)) * ((((1 * ((pa P) ^ 2)) - (1 * ((fX f) ^ 2))) - (1 * ((fY
  f) ^ 2))) - (1 * ((fZ f) ^ 2))))) ^ 2)) / ((sqrt (((4 * ((pa P) ^ 2)) * ((fZ f) ^ 2)) + (((((- ((pa
  P) ^ 2)) + ((fX f) ^ 2)) + ((fY f) ^ 2)) + ((fZ f) ^ 2)) ^ 2))) ^ 3))) + (((1/2) * (((((4 * ((fdZ1
  f) ^ 2)) * ((pa P) ^ 2)) + (((4 * (ks_ddZ_D1D1 P f)) * ((pa P) ^ 2)) * (fZ f))) + (4 * (((((1 *
  (fdX1 f)) * (fX f)) + ((1 * (fdY1 f)) * (fY f))) + ((1 * (fdZ1 f)) * (fZ f))) ^ 2))) + (((((((2 *
  ((fdX1 f) ^ 2)) + (2 * ((fdY1 f) ^ 2))) + (2 * ((fdZ1 f) ^ 2))) + ((2 * (ks_ddX_D1D1 P f)) * (fX
  f))) + ((2 * (ks_ddY_D1D1 P f)) * (fY f))) + ((2 * (ks_ddZ_D1D1 P f)) * (fZ f))) * ((((- ((pa P) ^
  2)) + ((fX f) ^ 2)) + ((fY f) ^ 2)) + ((fZ f) ^ 2))))) / (sqrt (((4 * ((pa P) ^ 2)) * ((fZ f) ^ 2))
  + (((((- ((pa P) ^ 2)) + ((fX f) ^ 2)) + ((fY f) ^ 2)) + ((fZ f) ^ 2)) ^ 2)))))) * ((((((- 1) *
  (fdX1 f)) * (fX f)) - ((1 * (fdY1 f)) * (fY f))) - ((1 * (fdZ1 f)) * (fZ f))) - (((1/2) * ((((4 *
  (fdZ1 f)) * ((pa P) ^ 2)) * (fZ f)) + ((2 * ((((fdX1 f) * (fX f)) + ((fdY1 f) * (fY f))) + ((fdZ1
  f) * (fZ f)))) * (((((- 1) * ((pa P) ^ 2)) + ((fX f) ^ 2)) + ((fY f) ^ 2)) + ((fZ f) ^ 2))))) /
  (sqrt (((4 * ((pa P) ^ 2)) * ((fZ f) ^ 2)) + (((((- ((pa P) ^ 2)) + ((fX f) ^ 2)) + ((fY f) ^ 2)) +
  ((fZ f) ^ 2)) ^ 2)))))) / ((sqrt (((((- ((pa P) ^ 2)) + ((fX f) ^ 2)) + ((fY f) ^ 2)) + ((fZ f) ^
  2)) + (sqrt (((4 * ((pa P) ^ 2)) * ((fZ f) ^ 2)) + (((((- ((pa P) ^ 2)) + ((fX f) ^ 2)) + ((fY f) ^
  2)) + ((fZ f) ^ 2)) ^ 2))))) ^ 3))) + ((((phs P) * (((((((((- 1) * ((fdX1 f) ^ 2)) - (1 * ((fdY1 f)
  ^ 2))) - (1 * ((fdZ1 f) ^ 2))) - ((1 * (ks_ddX_D1D1 P f)) * (fX f))) - ((1 * (ks_ddY_D1D1 P f)) *
  (fY f))) - ((1 * (ks_ddZ_D1D1 P f)) * (fZ f))) + ((2 * ((((((fdZ1 f) * (fZ f)) * (((((- 1) * ((pa
  P) ^ 2)) - (1 * ((fX f) ^ 2))) - (1 * ((fY f) ^ 2))) - (1 * ((fZ f) ^ 2)))) + (((fdX1 f) * (fX f))
  * ((((1 * ((pa P) ^ 2)) - (1 * ((fX f) ^ 2))) - (1 * ((fY f) ^ 2))) - (1 * ((fZ f) ^ 2))))) +
  (((fdY1 f) * (fY f)) * ((((1 * ((pa P) ^ 2)) - (1 * ((fX f) ^ 2))) - (1 * ((fY f) ^ 2))) - (1 *
  ((fZ f) ^ 2))))) ^ 2)) / ((sqrt (((4 * ((pa P) ^ 2)) * ((fZ f) ^ 2)) + (((((- ((pa P) ^ 2)) + ((fX
  f) ^ 2)) + ((fY f) ^ 2)) + ((fZ f) ^ 2)) ^ 2))) ^ 3))) - (((1/2) * (((((4 * ((fdZ1 f) ^ 2)) * ((pa
  P) ^ 2)) + (((4 * (ks_ddZ_D1D1 P f)) * ((pa P) ^ 2)) * (fZ f))) + (4 * (((((1 * (fdX1 f)) * (fX f))
  + ((1 * (fdY1 f)) * (fY f))) + ((1 * (fdZ1 f)) * (fZ f))) ^ 2))) + (((((((2 * ((fdX1 f) ^ 2)) + (2
  * ((fdY1 f) ^ 2))) + (2 * ((fdZ1 f) ^ 2))) + ((2 * (ks_ddX_D1D1 P f)) * (fX f))) + ((2 *
  (ks_ddY_D1D1 P f)) * (fY f))) + ((2 * (ks_ddZ_D1D1 P f)) * (fZ f))) * ((((- ((pa P) ^ 2)) + ((fX f)
  ^ 2)) + ((fY f) ^ 2)) + ((fZ f) ^ 2))))) / (sqrt (((4 * ((pa P) ^ 2)) * ((fZ f) ^ 2)) + (((((- ((pa
  P) ^ 2)) + ((fX f) ^ 2)) + ((fY f) ^ 2)) + ((fZ f) ^ 2)) ^ 2)))))) * (((((1 * (fdX1 f)) * (fX f)) +
  ((1 * (fdY1 f)) * (fY f))) + ((1 * (fdZ1 f)) * (fZ f))) + (((1/2) * ((((4 * (fdZ1 f)) * ((pa P) ^
  2)) * (fZ f)) + ((2 * ((((fdX1 f) * (fX f)) + ((fdY1 f) * (fY f))) + ((fdZ1 f) * (fZ f)))) * (((((-
  1) * ((pa P) ^ 2)) + ((fX f) ^ 2)) + ((fY f) ^ 2)) + ((fZ f) ^ 2))))) / (sqrt (((4 * ((pa P) ^ 2))
  * ((fZ f) ^ 2)) + (((((- ((pa P) ^ 2)) + ((fX f) ^ 2)) + ((fY f) ^ 2)) + ((fZ f) ^ 2)) ^ 2)))))) /
  ((sqrt (((((- ((pa P) ^ 2)) + ((fX f) ^ 2)) + ((fY f) ^ 2)) + ((fZ f) ^ 2)) + (sqrt (((4 * ((pa P)
  ^ 2)) * ((fZ f) ^ 2)) + (((((- ((pa P) ^ 2)) + ((fX f) ^ 2)) + ((fY f) ^ 2)) + ((fZ f) ^ 2)) ^
  2))))) ^ 3)).

(* /repo/Src/Main/Modules/Physics/Free_Data/fd_KerrSchild_R_X_Y_Z.c:5357-5625 *)
Definition ks_dddR_D1D1D0 (P : kspar) (f : ksarg) : R :=
  (((((((phs P) * ((((((((1 * ((fdX1 f) ^ 2)) + (1 * ((fdY1 f) ^ 2))) + (1 * ((fdZ1 f) ^ 2))) + ((1 *
  (ks_ddX_D1D1 P f)) * (fX f))) + ((1 * (ks_ddY_D1D1 P f)) * (fY f))) + ((1 * (ks_ddZ_D1D1 P f)) *
  (fZ f))) - ((2 * ((((((fdZ1 f) * (fZ f)) * (((((- 1) * ((pa P) ^ 2)) - (1 * ((fX f) ^ 2))) - (1 *
  ((fY f) ^ 2))) - (1 * ((fZ f) ^ 2)))) + (((fdX1 f) * (fX f)) * ((((1 * ((pa P) ^ 2)) - (1 * ((fX f)
  ^ 2))) - (1 * ((fY f) ^ 2))) - (1 * ((fZ f) ^ 2))))) + (((fdY1 f) * (fY f)) * ((((1 * ((pa P) ^ 2))
  - (1 * ((fX f) ^ 2))) - (1 * ((fY f) ^ 2))) - (1 * ((fZ f) ^ 2))))) ^ 2)) / ((sqrt (((4 * ((pa P) ^
  2)) * ((fZ f) ^ 2)) + (((((- ((pa P) ^ 2)) + ((fX f) ^ 2)) + ((fY f) ^ 2)) + ((fZ f) ^ 2)) ^ 2))) ^
  3))) + (((1/2) * (((((4 * ((fdZ1 f) ^ 2)) * ((pa P) ^ 2)) + (((4 * (ks_ddZ_D1D1 P f)) * ((pa P) ^
  2)) * (fZ f))) + (4 * (((((1 * (fdX1 f)) * (fX f)) + ((1 * (fdY1 f)) * (fY f))) + ((1 * (fdZ1 f)) *
  (fZ f))) ^ 2))) + (((((((2 * ((fdX1 f) ^ 2)) + (2 * ((fdY1 f) ^ 2))) + (2 * ((fdZ1 f) ^ 2))) + ((2
  * (ks_ddX_D1D1 P f)) * (fX f))) + ((2 * (ks_ddY_D1D1 P f)) * (fY f))) + ((2 * (ks_ddZ_D1D1 P f)) *
  (fZ f))) * ((((- ((pa P) ^ 2)) + ((fX f) ^ 2)) + ((fY f) ^ 2)) + ((fZ f) ^ 2))))) / (sqrt (((4 *
  ((pa P) ^ 2)) * ((fZ f) ^ 2)) + (((((- ((pa P) ^ 2)) + ((fX f) ^ 2)) + ((fY f) ^ 2)) + ((fZ f) ^
  2)) ^ 2)))))) * ((((((- 1) * (fdX0 f)) * (fX f)) - ((1 * (fdY0 f)) * (fY f))) - ((1 * (fdZ0 f)) *
  (fZ f))) - (((1/2) * ((((4 * (fdZ0 f)) * ((pa P) ^ 2)) * (fZ f)) + ((2 * ((((fdX0 f) * (fX f)) +
  ((fdY0 f) * (fY f))) + ((fdZ0 f) * (fZ f)))) * (((((- 1) * ((pa P) ^ 2)) + ((fX f) ^ 2)) + ((fY f)
  ^ 2)) + ((fZ f) ^ 2))))) / (sqrt (((4 * ((pa P) ^ 2)) * ((fZ f) ^ 2)) + (((((- ((pa P) ^ 2)) + ((fX
  f) ^ 2)) + ((fY f) ^ 2)) + ((fZ f) ^ 2)) ^ 2)))))) / ((sqrt (((((- ((pa P) ^ 2)) + ((fX f) ^ 2)) +
  ((fY f) ^ 2)) + ((fZ f) ^ 2)) + (sqrt (((4 * ((pa P) ^ 2)) * ((fZ f) ^ 2)) + (((((- ((pa P) ^ 2)) +
  ((fX f) ^ 2)) + ((fY f) ^ 2)) + ((fZ f) ^ 2)) ^ 2))))) ^ 3)) + (((((phs P) * ((((((- 3) * (fdX0 f))
  * (fX f)) - ((3 * (fdY0 f)) * (fY f))) - ((3 * (fdZ0 f)) * (fZ f))) - (((3/2) * ((((4 * (fdZ0 f)) *
  ((pa P) ^ 2)) * (fZ f)) + ((2 * ((((fdX0 f) * (fX f)) + ((fdY0 f) * (fY f))) + ((fdZ0 f) * (fZ
  f)))) * (((((- 1) * ((pa P) ^ 2)) + ((fX f) ^ 2)) + ((fY f) ^ 2)) + ((fZ f) ^ 2))))) / (sqrt (((4 *
  ((pa P) ^ 2)) * ((fZ f) ^ 2)) + (((((- ((pa P) ^ 2)) + ((fX f) ^ 2)) + ((fY f) ^ 2)) + ((fZ f) ^
  2)) ^ 2)))))) * ((((((- 1) * (fdX1 f)) * (fX f)) - ((1 * (fdY1 f)) * (fY f))) - ((1 * (fdZ1 f)) *
  (fZ f))) - (((1/2) * ((((4 * (fdZ1 f)) * ((pa P) ^ 2)) * (fZ f)) + ((2 * ((((fdX1 f) * (fX f)) +
  ((fdY1 f) * (fY f))) + ((fdZ1 f) * (fZ f)))) * (((((- 1) * ((pa P) ^ 2)) + ((fX f) ^ 2)) + ((fY f)
  ^ 2)) + ((fZ f) ^ 2))))) / (sqrt (((4 * ((pa P) ^ 2)) * ((fZ f) ^ 2)) + (((((- ((pa P) ^ 2)) + ((fX
  f) ^ 2)) + ((fY f) ^ 2)) + ((fZ f) ^ 2)) ^ 2)))))) * (((((1 * (fdX1 f)) * (fX f)) + ((1 * (fdY1 f))
  * (fY f))) + ((1 * (fdZ1 f)) * (fZ f))) + (((1/2) * ((((4 * (fdZ1 f)) * ((pa P) ^ 2)) * (fZ f)) +
  ((2 * ((((fdX1 f) * (fX f)) + ((fdY1 f) * (fY f))) + ((fdZ1 f) * (fZ f)))) * (((((- 1) * ((pa P) ^
  2)) + ((fX f) ^ 2)) + ((fY f) ^ 2)) + ((fZ f) ^ 2))))) / (sqrt (((4 * ((pa P) ^ 2)) * ((fZ f) ^ 2))
  + (((((- ((pa P) ^ 2)) + ((fX f) ^ 2)) + ((fY f) ^ 2)) + ((fZ f) ^ 2)) ^ 2)))))) / ((sqrt (((((-
  ((pa P) ^ 2)) + ((fX f) ^ 2)) + ((fY f) ^ 2)) + ((fZ f) ^ 2)) + (sqrt (((4 * ((pa P) ^ 2)) * ((fZ
  f) ^ 2)) + (((((- ((pa P) ^ 2)) + ((fX f) ^ 2)) + ((fY f) ^ 2)) + ((fZ f) ^ 2)) ^ 2))))) ^ 5))) +
  ((((phs P) * (((((1 * (fdX1 f)) * (fX f)) + ((1 * (fdY1 f)) * (fY f))) + ((1 * (fdZ1 f)) * (fZ f)))
  + (((1/2) * ((((4 * (fdZ1 f)) * ((pa P) ^ 2)) * (fZ f)) + ((2 * ((((fdX1 f) * (fX f)) + ((fdY1 f) *
  (fY f))) + ((fdZ1 f) * (fZ f)))) * (((((- 1) * ((pa P) ^ 2)) + ((fX f) ^ 2)) + ((fY f) ^ 2)) + ((fZ
  f) ^ 2))))) / (sqrt (((4 * ((pa P) ^ 2)) * ((fZ f) ^ 2)) + (((((- ((pa P) ^ 2)) + ((fX f) ^ 2)) +
  ((fY f) ^ 2)) + ((fZ f) ^ 2)) ^ 2)))))) * ((((((((((- 1) * (fdX0 f)) * (fdX1 f)) - ((1 * (fdY0 f))
  * (fdY1 f))) - ((1 * (fdZ0 f)) * (fdZ1 f))) - ((1 * (ks_ddX_D0D1 P f)) * (fX f))) - ((1 *
  (ks_ddY_D0D1 P f)) * (fY f))) - ((1 * (ks_ddZ_D0D1 P f)) * (fZ f))) - (((1/2) * ((((((4 * (fdZ0 f))
  * (fdZ1 f)) * ((pa P) ^ 2)) + (((4 * (ks_ddZ_D0D1 P f)) * ((pa P) ^ 2)) * (fZ f))) + ((4 * ((((fdX0
  f) * (fX f)) + ((fdY0 f) * (fY f))) + ((fdZ0 f) * (fZ f)))) * ((((1 * (fdX1 f)) * (fX f)) + ((1 *
  (fdY1 f)) * (fY f))) + ((1 * (fdZ1 f)) * (fZ f))))) + ((((((((2 * (fdX0 f)) * (fdX1 f)) + ((2 *
  (fdY0 f)) * (fdY1 f))) + ((2 * (fdZ0 f)) * (fdZ1 f))) + ((2 * (ks_ddX_D0D1 P f)) * (fX f))) + ((2 *
  (ks_ddY_D0D1 P f)) * (fY f))) + ((2 * (ks_ddZ_D0D1 P f)) * (fZ f))) * ((((- ((pa P) ^ 2)) + ((fX f)
  ^ 2)) + ((fY f) ^ 2)) + ((fZ f) ^ 2))))) / (sqrt (((4 * ((pa P) ^ 2)) * ((fZ f) ^ 2)) + (((((- ((pa
  P) ^ 2)) + ((fX f) ^ 2)) + ((fY f) ^ 2)) + ((fZ f) ^ 2)) ^ 2))))) - ((((1/2) * (((((- 4) * (fdZ0
  f)) * ((pa P) ^ 2)) * (fZ f)) - ((2 * ((((fdX0 f) * (fX f)) + ((fdY0 f) * (fY f))) + ((fdZ0 f) *
  (fZ f)))) * (((((- 1) * ((pa P) ^ 2)) + ((fX f) ^ 2)) + ((fY f) ^ 2)) + ((fZ f) ^ 2))))) * ((((4 *
  (fdZ1 f)) * ((pa P) ^ 2)) * (fZ f)) + ((2 * ((((fdX1 f) * (fX f)) + ((fdY1 f) * (fY f))) + ((fdZ1
  f) * (fZ f)))) * (((((- 1) * ((pa P) ^ 2)) + ((fX f) ^ 2)) + ((fY f) ^ 2)) + ((fZ f) ^ 2))))) /
  ((sqrt (((4 * ((pa P) ^ 2)) * ((fZ f) ^ 2)) + (((((- ((pa P) ^ 2)) + ((fX f) ^ 2)) + ((fY f) ^ 2))
  + ((fZ f) ^ 2)) ^ 2))) ^ 3)))) / ((sqrt (((((- ((pa P) ^ 2)) + ((fX f) ^ 2)) + ((fY f) ^ 2)) + ((fZ
  f) ^ 2)) + (sqrt (((4 * ((pa P) ^ 2)) * ((fZ f) ^ 2)) + (((((- ((pa P) ^ 2)) + ((fX f) ^ 2)) + ((fY
  f) ^ 2)) + ((fZ f) ^ 2)) ^ 2))))) ^ 3))) + ((((phs P) * ((((((- 1) * (fdX1 f)) * (fX f)) - ((1 *
  (fdY1 f)) * (fY f))) - ((1 * (fdZ1 f)) * (fZ f))) - (((1/2) * ((((4 * (fdZ1 f)) * ((pa P) ^ 2)) *
  (fZ f)) + ((2 * ((((fdX1 f) * (fX f)) + ((fdY1 f) * (fY f))) + ((fdZ1 f) * (fZ f)))) * (((((- 1) *
  ((pa P) ^ 2)) + ((fX f) ^ 2)) + ((fY f) ^ 2)) + ((fZ f) ^ 2))))) / (sqrt (((4 * ((pa P) ^ 2)) *
  ((fZ f) ^ 2)) + (((((- ((pa P) ^ 2)) + ((fX f) ^ 2)) + ((fY f) ^ 2)) + ((fZ f) ^ 2)) ^ 2)))))) *
  (((((((((1 * (fdX0 f)) * (fdX1 f)) + ((1 * (fdY0 f)) * (fdY1 f))) + ((1 * (fdZ0 f)) * (fdZ1 f))) +
  ((1 * (ks_ddX_D0D1 P f)) * (fX f))) + ((1 * (ks_ddY_D0D1 P f)) * (fY f))) + ((1 * (ks_ddZ_D0D1 P
  f)) * (fZ f))) + (((1/2) * ((((((4 * (fdZ0 f)) * (fdZ1 f)) * ((pa P) ^ 2)) + (((4 * (ks_ddZ_D0D1 P
  f)) * ((pa P) ^ 2)) * (fZ f))) + ((4 * ((((fdX0 f) * (fX f)) + ((fdY0 f) * (fY f))) + ((fdZ0 f) *
  (fZ f)))) * ((((1 * (fdX1 f)) * (fX f)) + ((1 * (fdY1 f)) * (fY f))) + ((1 * (fdZ1 f)) * (fZ f)))))
  + ((((((((2 * (fdX0 f)) * (fdX1 f)) + ((2 * (fdY0 f)) * (fdY1 f))) + ((2 * (fdZ0 f)) * (fdZ1 f))) +
  ((2 * (ks_ddX_D0D1 P f)) * (fX f))) + ((2 * (ks_ddY_D0D1 P f)) * (fY f))) + ((2 * (ks_ddZ_D0D1 P
  f)) * (fZ f))) * ((((- ((pa P) ^ 2)) + ((fX f) ^ 2)) + ((fY f) ^ 2)) + ((fZ f) ^ 2))))) / (sqrt
  (((4 * ((pa P) ^ 2)) * ((fZ f) ^ 2)) + (((((- ((pa P) ^ 2)) + ((fX f) ^ 2)) + ((fY f) ^ 2)) + ((fZ
  f) ^ 2)) ^ 2))))) + ((((1/2) * (((((- 4) * (fdZ0 f)) * ((pa P) ^ 2)) * (fZ f)) - ((2 * ((((fdX0 f)
  * (fX f)) + ((fdY0 f) * (fY f))) + ((fdZ0 f) * (fZ f)))) * (((((- 1) * ((pa P) ^ 2)) + ((fX f) ^
  2)) + ((fY f) ^ 2)) + ((fZ f) ^ 2))))) * ((((4 * (fdZ1 f)) * ((pa P) ^ 2)) * (fZ f)) + ((2 *
  ((((fdX1 f) * (fX f)) + ((fdY1 f) * (fY f))) + ((fdZ1 f) * (fZ f)))) * (((((- 1) * ((pa P) ^ 2)) +
  ((fX f) ^ 2)) + ((fY f) ^ 2)) + ((fZ f) ^ 2))))) / ((sqrt (((4 * ((pa P) ^ 2)) * ((fZ f) ^ 2)) +
  (((((- ((pa P) ^ 2)) + ((fX f) ^ 2)) + ((fY f) ^ 2)) + ((fZ f) ^ 2)) ^ 2))) ^ 3)))) / ((sqrt (((((-
  ((pa P) ^ 2)) + ((fX f) ^ 2)) + ((fY f) ^ 2)) + ((fZ f) ^ 2)) + (sqrt (((4 * ((pa P) ^ 2)) * ((fZ
  f) ^ 2)) + (((((- ((pa P) ^ 2)) + ((fX f) ^ 2)) + ((fY f) ^ 2)) + ((fZ f) ^ 2)) ^ 2))))) ^ 3))) +
  (((phs P) * (((((((((((((((1 * (fdX0 f)) * (ks_ddX_D1D1 P f)) + ((1 * (fdY0 f)) * (ks_ddY_D1D1 P
  f))) + ((1 * (fdZ0 f)) * (ks_ddZ_D1D1 P f))) + ((2 * (fdX1 f)) * (ks_ddX_D0D1 P f))) + ((2 * (fdY1
  f)) * (ks_ddY_D0D1 P f))) + ((2 * (fdZ1 f)) * (ks_ddZ_D0D1 P f))) + ((1 * (ks_dddX_D0D1D1 P f)) *
  (fX f))) + ((1 * (ks_dddY_D0D1D1 P f)) * (fY f))) + ((1 * (ks_dddZ_D0D1D1 P f)) * (fZ f))) +
  (((1/2) * (((((((((4 * (fdZ0 f)) * (ks_ddZ_D1D1 P f)) * ((pa P) ^ 2)) + (((8 * (fdZ1 f)) *
  (ks_ddZ_D0D1 P f)) * ((pa P) ^ 2))) + (((4 * (ks_dddZ_D0D1D1 P f)) * ((pa P) ^ 2)) * (fZ f))) + ((4
  * ((((fdX0 f) * (fX f)) + ((fdY0 f) * (fY f))) + ((fdZ0 f) * (fZ f)))) * ((((((1 * ((fdX1 f) ^ 2))
  + (1 * ((fdY1 f) ^ 2))) + (1 * ((fdZ1 f) ^ 2))) + ((1 * (ks_ddX_D1D1 P f)) * (fX f))) + ((1 *
  (ks_ddY_D1D1 P f)) * (fY f))) + ((1 * (ks_ddZ_D1D1 P f)) * (fZ f))))) + ((4 * ((((1 * (fdX1 f)) *
  (fX f)) + ((1 * (fdY1 f)) * (fY f))) + ((1 * (fdZ1 f)) * (fZ f)))) * (((((((fdX0 f) * (fdX1 f)) +
  ((fdY0 f) * (fdY1 f))) + ((fdZ0 f) * (fdZ1 f))) + ((ks_ddX_D0D1 P f) * (fX f))) + ((ks_ddY_D0D1 P
  f) * (fY f))) + ((ks_ddZ_D0D1 P f) * (fZ f))))) + ((4 * ((((fdX1 f) * (fX f)) + ((fdY1 f) * (fY
  f))) + ((fdZ1 f) * (fZ f)))) * (((((((1 * (fdX0 f)) * (fdX1 f)) + ((1 * (fdY0 f)) * (fdY1 f))) +
  ((1 * (fdZ0 f)) * (fdZ1 f))) + ((1 * (ks_ddX_D0D1 P f)) * (fX f))) + ((1 * (ks_ddY_D0D1 P f)) * (fY
  f))) + ((1 * (ks_ddZ_D0D1 P f)) * (fZ f))))) + (((((((((((2 * (fdX0 f)) * (ks_ddX_D1D1 P f)) + ((2
  * (fdY0 f)) * (ks_ddY_D1D1 P f))) + ((2 * (fdZ0 f)) * (ks_ddZ_D1D1 P f))) + ((4 * (fdX1 f)) *
  (ks_ddX_D0D1 P f))) + ((4 * (fdY1 f)) * (ks_ddY_D0D1 P f))) + ((4 * (fdZ1 f)) * (ks_ddZ_D0D1 P f)))
  + ((2 * (ks_dddX_D0D1D1 P f)) * (fX f))) + ((2 * (ks_dddY_D0D1D1 P f)) * (fY f))) + ((2 *
  (ks_dddZ_D0D1D1 P f)) * (fZ f))) * ((((- ((pa P) ^ 2)) + ((fX f) ^ 2)) + ((fY f) ^ 2)) + ((fZ f) ^
  2))))) / (sqrt (((4 * ((pa P) ^ 2)) * ((fZ f) ^ 2)) + (((((- ((pa P) ^ 2)) + ((fX f) ^ 2)) + ((fY
  f) ^ 2)) + ((fZ f) ^ 2)) ^ 2))))) + ((((1/2) * (((((4 * ((fdZ1 f) ^ 2)) * ((pa P) ^ 2)) + (((4 *
  (ks_ddZ_D1D1 P f)) * ((pa P) ^ 2)) * (fZ f))) + (4 * (((((1 * (fdX1 f)) * (fX f)) + ((1 * (fdY1 f))
  * (fY f))) + ((1 * (fdZ1 f)) * (fZ f))) ^ 2))) + (((((((2 * ((fdX1 f) ^ 2)) + (2 * ((fdY1 f) ^ 2)))
  + (2 * ((fdZ1 f) ^ 2))) + ((2 * (ks_ddX_D1D1 P f)) * (fX f))) + ((2 * (ks_ddY_D1D1 P f)) * (fY f)))
  + ((2 * (ks_ddZ_D1D1 P f)) * (fZ f))) * ((((- ((pa P) ^ 2)) + ((fX f) ^ 2)) + ((fY f) ^ 2)) + ((fZ
  f) ^ 2))))) * (((((- 4) * (fdZ0 f)) * ((pa P) ^ 2)) * (fZ f)) - ((2 * ((((fdX0 f) * (fX f)) +
  ((fdY0 f) * (fY f))) + ((fdZ0 f) * (fZ f)))) * (((((- 1) * ((pa P) ^ 2)) + ((fX f) ^ 2)) + ((fY f)
  ^ 2)) + ((fZ f) ^ 2))))) / ((sqrt (((4 * ((pa P) ^ 2)) * ((fZ f) ^ 2)) + (((((- ((pa P) ^ 2)) +
  ((fX f) ^ 2)) + ((fY f) ^ 2)) + ((fZ f) ^ 2)) ^ 2))) ^ 3))) + ((((1/2) * ((((((4 * (fdZ0 f)) *
  (fdZ1 f)) * ((pa P) ^ 2)) + (((4 * (ks_ddZ_D0D1 P f)) * ((pa P) ^ 2)) * (fZ f))) + ((4 * ((((fdX0
  f) * (fX f)) + ((fdY0 f) * (fY f))) + ((fdZ0 f) * (fZ f)))) * ((((1 * (fdX1 f)) * (fX f)) + ((1 *
  (fdY1 f)) * (fY f))) + ((1 * (fdZ1 f)) * (fZ f))))) + ((((((((2 * (fdX0 f)) * (fdX1 f)) + ((2 *
  (fdY0 f)) * (fdY1 f))) + ((2 * (fdZ0 f)) * (fdZ1 f))) + ((2 * (ks_ddX_D0D1 P f)) * (fX f))) + ((2 *
  (ks_ddY_D0D1 P f)) * (fY f))) + ((2 * (ks_ddZ_D0D1 P f)) * (fZ f))) * ((((- ((pa P) ^ 2)) + ((fX f)
  ^ 2)) + ((fY f) ^ 2)) + ((fZ f) ^ 2))))) * (((((- 4) * (fdZ1 f)) * ((pa P) ^ 2)) * (fZ f)) - ((2 *
  ((((fdX1 f) * (fX f)) + ((fdY1 f) * (fY f))) + ((fdZ1 f) * (fZ f)))) * (((((- 1) * ((pa P) ^ 2)) +
  ((fX f) ^ 2)) + ((fY f) ^ 2)) + ((fZ f) ^ 2))))) / ((sqrt (((4 * ((pa P) ^ 2)) * ((fZ f) ^ 2)) +
  (((((- ((pa P) ^ 2)) + ((fX f) ^ 2)) + ((fY f) ^ 2)) + ((fZ f) ^ 2)) ^ 2))) ^ 3))) + ((((1/2) *
  (((((((- 4) * (fdZ0 f)) * (fdZ1 f)) * ((pa P) ^ 2)) - (((4 * (ks_ddZ_D0D1 P f)) * ((pa P) ^ 2)) *
  (fZ f))) - ((4 * ((((fdX0 f) * (fX f)) + ((fdY0 f) * (fY f))) + ((fdZ0 f) * (fZ f)))) * ((((1 *
  (fdX1 f)) * (fX f)) + ((1 * (fdY1 f)) * (fY f))) + ((1 * (fdZ1 f)) * (fZ f))))) + (((((((((- 2) *
  (fdX0 f)) * (fdX1 f)) - ((2 * (fdY0 f)) * (fdY1 f))) - ((2 * (fdZ0 f)) * (fdZ1 f))) - ((2 *
  (ks_ddX_D0D1 P f)) * (fX f))) - ((2 * (ks_ddY_D0D1 P f)) * (fY f))) - ((2 * (ks_ddZ_D0D1 P f)) *
  (fZ f))) * ((((- ((pa P) ^ 2)) + ((fX f) ^ 2)) + ((fY f) ^ 2)) + ((fZ f) ^ 2))))) * ((((4 * (fdZ1
  f)) * ((pa P) ^ 2)) * (fZ f)) + ((2 * ((((fdX1 f) * (fX f)) + ((fdY1 f) * (fY f))) + ((fdZ1 f) *
  (fZ f)))) * (((((- 1) * ((pa P) ^ 2)) + ((fX f) ^ 2)) + ((fY f) ^ 2)) + ((fZ f) ^ 2))))) / ((sqrt
  (((4 * ((pa P) ^ 2)) * ((fZ f) ^ 2)) + (((((- ((pa P) ^ 2)) + ((fX f) ^ 2)) + ((fY f) ^ 2)) + ((fZ
  f) ^ 2)) ^ 2))) ^ 3))) + (((((1/2) * (((((- 12) * (fdZ0 f)) * ((pa P) ^ 2)) * (fZ f)) - ((6 *
  ((((fdX0 f) * (fX f)) + ((fdY0 f) * (fY f))) + ((fdZ0 f) * (fZ f)))) * (((((- 1) * ((pa P) ^ 2)) +
  ((fX f) ^ 2)) + ((fY f) ^ 2)) + ((fZ f) ^ 2))))) * (((((- 4) * (fdZ1 f)) * ((pa P) ^ 2)) * (fZ f))
  - ((2 * ((((fdX1 f) * (fX f)) + ((fdY1 f) * (fY f))) + ((fdZ1 f) * (fZ f)))) * (((((- 1) * ((pa P)
  ^ 2)) + ((fX f) ^ 2)) + ((fY f) ^ 2)) + ((fZ f) ^ 2))))) * ((((4 * (fdZ1 f)) * ((pa P) ^ 2)) * (fZ
  f)) + ((2 * ((((fdX1 f) * (fX f)) + ((fdY1 f) * (fY f))) + ((fdZ1 f) * (fZ f)))) * (((((- 1) * ((pa
  P) ^ 2)) + ((fX f) ^ 2)) + ((fY f) ^ 2)) + ((fZ f) ^ 2))))) / ((sqrt (((4 * ((pa P) ^ 2)) * ((fZ f)
  ^ 2)) + (((((- ((pa P) ^ 2)) + ((fX f) ^ 2)) + ((fY f) ^ 2)) + ((fZ f) ^ 2)) ^ 2))) ^ 5)))) / (sqrt
  (((((- ((pa P) ^ 2)) + ((fX f) ^ 2)) + ((fY f) ^ 2)) + ((fZ f) ^ 2)) + (sqrt (((4 * ((pa P) ^ 2)) *
  ((fZ f) ^ 2)) + (((((- ((pa P) ^ 2)) + ((fX f) ^ 2)) + ((fY f) ^ 2)) + ((fZ f) ^ 2)) ^ 2)))))).

(* the functions dR_D.. by their indices *)
Definition kst_dR (P : kspar) (f : ksarg) (i : nat) : R :=
  match i with
  | 0%nat => ks_dR_D0 P f
  | 1%nat => ks_dR_D1 P f
  | 2%nat => ks_dR_D2 P f
  | _ => 0
  end.
(* the functions ddR_D.. by their indices *)
Definition kst_ddR (P : kspar) (f : ksarg) (i j : nat) : R :=
  match i, j with
  | 0%nat, 0%nat => ks_ddR_D0D0 P f
  | 0%nat, 1%nat => ks_ddR_D0D1 P f
  | 0%nat, 2%nat => ks_ddR_D0D2 P f
  | 1%nat, 1%nat => ks_ddR_D1D1 P f
  | 1%nat, 2%nat => ks_ddR_D1D2 P f
  | 2%nat, 2%nat => ks_ddR_D2D2 P f
  | _, _ => 0
  end.
(* the functions dddR_D.. by their indices *)
Definition kst_dddR (P : kspar) (f : ksarg) (i j k : nat) : R :=
  match i, j, k with
  | 0%nat, 0%nat, 0%nat => ks_dddR_D0D0D0 P f
  | 0%nat, 0%nat, 1%nat => ks_dddR_D0D0D1 P f
  | 0%nat, 0%nat, 2%nat => ks_dddR_D0D0D2 P f
  | 0%nat, 1%nat, 0%nat => ks_dddR_D0D1D0 P f
  | 0%nat, 1%nat, 1%nat => ks_dddR_D0D1D1 P f
  | 0%nat, 1%nat, 2%nat => ks_dddR_D0D1D2 P f
  | 0%nat, 2%nat, 0%nat => ks_dddR_D0D2D0 P f
  | 0%nat, 2%nat, 1%nat => ks_dddR_D0D2D1 P f
  | 0%nat, 2%nat, 2%nat => ks_dddR_D0D2D2 P f
  | 1%nat, 1%nat, 0%nat => ks_dddR_D1D1D0 P f
  | 1%nat, 1%nat, 1%nat => ks_dddR_D1D1D1 P f
  | 1%nat, 1%nat, 2%nat => ks_dddR_D1D1D2 P f
  | 1%nat, 2%nat, 0%nat => ks_dddR_D1D2D0 P f
  | 1%nat, 2%nat, 1%nat => ks_dddR_D1D2D1 P f
  | 1%nat, 2%nat, 2%nat => ks_dddR_D1D2D2 P f
  | 2%nat, 2%nat, 0%nat => ks_dddR_D2D2D0 P f
  | 2%nat, 2%nat, 1%nat => ks_dddR_D2D2D1 P f
  | 2%nat, 2%nat, 2%nat => ks_dddR_D2D2D2 P f
  | _, _, _ => 0
  end.
