(* Generated by tools/ks2coq.py from fd_KerrSchild_H_K0_K1_K2.c: do not edit. *)
From Coq Require Import Reals.
Require Import Verif.GenKsX.
Require Import Verif.GenKsR.
Local Open Scope R_scope.

(* /repo/Src/Main/Modules/Physics/Free_Data/fd_KerrSchild_H_K0_K1_K2.c:117-127 *)
Definition ks_K0 (P : kspar) (f : ksarg) : R :=
  (((pa P) * (fY f)) + ((fR f) * (fX f))) / (((pa P) ^ 2) + ((fR f) ^ 2)).

(* /repo/Src/Main/Modules/Physics/Free_Data/fd_KerrSchild_H_K0_K1_K2.c:1523-1533 *)
Definition ks_K1 (P : kspar) (f : ksarg) : R :=
  (((- (pa P)) * (fX f)) + ((fR f) * (fY f))) / (((pa P) ^ 2) + ((fR f) ^ 2)).

(* /repo/Src/Main/Modules/Physics/Free_Data/fd_KerrSchild_H_K0_K1_K2.c:2941-2949 *)
Definition ks_K2 (P : kspar) (f : ksarg) : R :=
  (fZ f) / (fR f).

(* /repo/Src/Main/Modules/Physics/Free_Data/fd_KerrSchild_H_K0_K1_K2.c:3634-3643 *)
Definition ks_H (P : kspar) (f : ksarg) : R :=
  (((pL P) * (pM P)) * ((fR f) ^ 3)) / ((((pa P) ^ 2) * ((fZ f) ^ 2)) + ((fR f) ^ 4)).

(* /repo/Src/Main/Modules/Physics/Free_Data/fd_KerrSchild_H_K0_K1_K2.c:128-143 *)
Definition ks_dK0_D2 (P : kspar) (f : ksarg) : R :=
  (((((pa P) ^ 2) + ((fR f) ^ 2)) * ((((pa P) * (fdY2 f)) + ((fR f) * (fdX2 f))) + ((fX f) *
  (ks_dR_D2 P f)))) - (((2 * (((pa P) * (fY f)) + ((fR f) * (fX f)))) * (fR f)) * (ks_dR_D2 P f))) /
  ((((pa P) ^ 2) + ((fR f) ^ 2)) ^ 2).

(* /repo/Src/Main/Modules/Physics/Free_Data/fd_KerrSchild_H_K0_K1_K2.c:144-159 *)
Definition ks_dK0_D0 (P : kspar) (f : ksarg) : R :=
  (((((pa P) ^ 2) + ((fR f) ^ 2)) * ((((pa P) * (fdY0 f)) + ((fR f) * (fdX0 f))) + ((fX f) *
  (ks_dR_D0 P f)))) - (((2 * (((pa P) * (fY f)) + ((fR f) * (fX f)))) * (fR f)) * (ks_dR_D0 P f))) /
  ((((pa P) ^ 2) + ((fR f) ^ 2)) ^ 2).

(* /repo/Src/Main/Modules/Physics/Free_Data/fd_KerrSchild_H_K0_K1_K2.c:160-175 *)
Definition ks_dK0_D1 (P : kspar) (f : ksarg) : R :=
  (((((pa P) ^ 2) + ((fR f) ^ 2)) * ((((pa P) * (fdY1 f)) + ((fR f) * (fdX1 f))) + ((fX f) *
  (ks_dR_D1 P f)))) - (((2 * (((pa P) * (fY f)) + ((fR f) * (fX f)))) * (fR f)) * (ks_dR_D1 P f))) /
  ((((pa P) ^ 2) + ((fR f) ^ 2)) ^ 2).

(* /repo/Src/Main/Modules/Physics/Free_Data/fd_KerrSchild_H_K0_K1_K2.c:1534-1549 *)
Definition ks_dK1_D1 (P : kspar) (f : ksarg) : R :=
  (((((pa P) ^ 2) + ((fR f) ^ 2)) * ((((- (pa P)) * (fdX1 f)) + ((fR f) * (fdY1 f))) + ((fY f) *
  (ks_dR_D1 P f)))) + (((2 * (((pa P) * (fX f)) - ((fR f) * (fY f)))) * (fR f)) * (ks_dR_D1 P f))) /
  ((((pa P) ^ 2) + ((fR f) ^ 2)) ^ 2).

(* /repo/Src/Main/Modules/Physics/Free_Data/fd_KerrSchild_H_K0_K1_K2.c:1550-1565 *)
Definition ks_dK1_D0 (P : kspar) (f : ksarg) : R :=
  (((((pa P) ^ 2) + ((fR f) ^ 2)) * ((((- (pa P)) * (fdX0 f)) + ((fR f) * (fdY0 f))) + ((fY f) *
  (ks_dR_D0 P f)))) + (((2 * (((pa P) * (fX f)) - ((fR f) * (fY f)))) * (fR f)) * (ks_dR_D0 P f))) /
  ((((pa P) ^ 2) + ((fR f) ^ 2)) ^ 2).

(* /repo/Src/Main/Modules/Physics/Free_Data/fd_KerrSchild_H_K0_K1_K2.c:1566-1581 *)
Definition ks_dK1_D2 (P : kspar) (f : ksarg) : R :=
  (((((pa P) ^ 2) + ((fR f) ^ 2)) * ((((- (pa P)) * (fdX2 f)) + ((fR f) * (fdY2 f))) + ((fY f) *
  (ks_dR_D2 P f)))) + (((2 * (((pa P) * (fX f)) - ((fR f) * (fY f)))) * (fR f)) * (ks_dR_D2 P f))) /
  ((((pa P) ^ 2) + ((fR f) ^ 2)) ^ 2).

(* /repo/Src/Main/Modules/Physics/Free_Data/fd_KerrSchild_H_K0_K1_K2.c:2950-2961 *)
Definition ks_dK2_D0 (P : kspar) (f : ksarg) : R :=
  (((fR f) * (fdZ0 f)) - ((fZ f) * (ks_dR_D0 P f))) / ((fR f) ^ 2).

(* /repo/Src/Main/Modules/Physics/Free_Data/fd_KerrSchild_H_K0_K1_K2.c:2962-2973 *)
Definition ks_dK2_D1 (P : kspar) (f : ksarg) : R :=
  (((fR f) * (fdZ1 f)) - ((fZ f) * (ks_dR_D1 P f))) / ((fR f) ^ 2).

(* /repo/Src/Main/Modules/Physics/Free_Data/fd_KerrSchild_H_K0_K1_K2.c:2974-2985 *)
Definition ks_dK2_D2 (P : kspar) (f : ksarg) : R :=
  (((fR f) * (fdZ2 f)) - ((fZ f) * (ks_dR_D2 P f))) / ((fR f) ^ 2).

(* /repo/Src/Main/Modules/Physics/Free_Data/fd_KerrSchild_H_K0_K1_K2.c:3644-3658 *)
Definition ks_dH_D2 (P : kspar) (f : ksarg) : R :=
  ((((- (pL P)) * (pM P)) * ((((((2 * ((pa P) ^ 2)) * (fR f)) * (fZ f)) * (fdZ2 f)) - (((3 * ((pa P)
  ^ 2)) * ((fZ f) ^ 2)) * (ks_dR_D2 P f))) + (((fR f) ^ 4) * (ks_dR_D2 P f)))) * ((fR f) ^ 2)) /
  (((((pa P) ^ 4) * ((fZ f) ^ 4)) + (((2 * ((pa P) ^ 2)) * ((fR f) ^ 4)) * ((fZ f) ^ 2))) + ((fR f) ^
  8)).

(* /repo/Src/Main/Modules/Physics/Free_Data/fd_KerrSchild_H_K0_K1_K2.c:3659-3673 *)
Definition ks_dH_D0 (P : kspar) (f : ksarg) : R :=
  ((((- (pL P)) * (pM P)) * ((((((2 * ((pa P) ^ 2)) * (fR f)) * (fZ f)) * (fdZ0 f)) - (((3 * ((pa P)
  ^ 2)) * ((fZ f) ^ 2)) * (ks_dR_D0 P f))) + (((fR f) ^ 4) * (ks_dR_D0 P f)))) * ((fR f) ^ 2)) /
  (((((pa P) ^ 4) * ((fZ f) ^ 4)) + (((2 * ((pa P) ^ 2)) * ((fR f) ^ 4)) * ((fZ f) ^ 2))) + ((fR f) ^
  8)).

(* /repo/Src/Main/Modules/Physics/Free_Data/fd_KerrSchild_H_K0_K1_K2.c:3674-3688 *)
Definition ks_dH_D1 (P : kspar) (f : ksarg) : R :=
  ((((- (pL P)) * (pM P)) * ((((((2 * ((pa P) ^ 2)) * (fR f)) * (fZ f)) * (fdZ1 f)) - (((3 * ((pa P)
  ^ 2)) * ((fZ f) ^ 2)) * (ks_dR_D1 P f))) + (((fR f) ^ 4) * (ks_dR_D1 P f)))) * ((fR f) ^ 2)) /
  (((((pa P) ^ 4) * ((fZ f) ^ 4)) + (((2 * ((pa P) ^ 2)) * ((fR f) ^ 4)) * ((fZ f) ^ 2))) + ((fR f) ^
  8)).

(* /repo/Src/Main/Modules/Physics/Free_Data/fd_KerrSchild_H_K0_K1_K2.c:176-202 *)
Definition ks_ddK0_D1D1 (P : kspar) (f : ksarg) : R :=
  (((((((pa P) ^ 2) + ((fR f) ^ 2)) ^ 2) * (((((pa P) * (ks_ddY_D1D1 P f)) + ((fR f) * (ks_ddX_D1D1 P
  f))) + ((fX f) * (ks_ddR_D1D1 P f))) + ((2 * (ks_dR_D1 P f)) * (fdX1 f)))) - ((2 * (((pa P) ^ 2) +
  ((fR f) ^ 2))) * (((((((pa P) * (fY f)) + ((fR f) * (fX f))) * (fR f)) * (ks_ddR_D1D1 P f)) +
  ((((pa P) * (fY f)) + ((fR f) * (fX f))) * ((ks_dR_D1 P f) ^ 2))) + (((2 * ((((pa P) * (fdY1 f)) +
  ((fR f) * (fdX1 f))) + ((fX f) * (ks_dR_D1 P f)))) * (fR f)) * (ks_dR_D1 P f))))) + (((8 * (((pa P)
  * (fY f)) + ((fR f) * (fX f)))) * ((fR f) ^ 2)) * ((ks_dR_D1 P f) ^ 2))) / ((((pa P) ^ 2) + ((fR f)
  ^ 2)) ^ 3).

(* /repo/Src/Main/Modules/Physics/Free_Data/fd_KerrSchild_H_K0_K1_K2.c:203-235 *)
Definition ks_ddK0_D1D2 (P : kspar) (f : ksarg) : R :=
  (((((((pa P) ^ 2) + ((fR f) ^ 2)) ^ 2) * ((((((pa P) * (ks_ddY_D1D2 P f)) + ((fR f) * (ks_ddX_D1D2
  P f))) + ((fX f) * (ks_ddR_D1D2 P f))) + ((ks_dR_D1 P f) * (fdX2 f))) + ((ks_dR_D2 P f) * (fdX1
  f)))) - ((2 * (((pa P) ^ 2) + ((fR f) ^ 2))) * ((((((((pa P) * (fY f)) + ((fR f) * (fX f))) * (fR
  f)) * (ks_ddR_D1D2 P f)) + (((((pa P) * (fY f)) + ((fR f) * (fX f))) * (ks_dR_D1 P f)) * (ks_dR_D2
  P f))) + ((((((pa P) * (fdY1 f)) + ((fR f) * (fdX1 f))) + ((fX f) * (ks_dR_D1 P f))) * (fR f)) *
  (ks_dR_D2 P f))) + ((((((pa P) * (fdY2 f)) + ((fR f) * (fdX2 f))) + ((fX f) * (ks_dR_D2 P f))) *
  (fR f)) * (ks_dR_D1 P f))))) + ((((8 * (((pa P) * (fY f)) + ((fR f) * (fX f)))) * ((fR f) ^ 2)) *
  (ks_dR_D1 P f)) * (ks_dR_D2 P f))) / ((((pa P) ^ 2) + ((fR f) ^ 2)) ^ 3).

(* /repo/Src/Main/Modules/Physics/Free_Data/fd_KerrSchild_H_K0_K1_K2.c:236-268 *)
Definition ks_ddK0_D0D1 (P : kspar) (f : ksarg) : R :=
  (((((((pa P) ^ 2) + ((fR f) ^ 2)) ^ 2) * ((((((pa P) * (ks_ddY_D0D1 P f)) + ((fR f) * (ks_ddX_D0D1
  P f))) + ((fX f) * (ks_ddR_D0D1 P f))) + ((ks_dR_D0 P f) * (fdX1 f))) + ((ks_dR_D1 P f) * (fdX0
  f)))) - ((2 * (((pa P) ^ 2) + ((fR f) ^ 2))) * ((((((((pa P) * (fY f)) + ((fR f) * (fX f))) * (fR
  f)) * (ks_ddR_D0D1 P f)) + (((((pa P) * (fY f)) + ((fR f) * (fX f))) * (ks_dR_D0 P f)) * (ks_dR_D1
  P f))) + ((((((pa P) * (fdY0 f)) + ((fR f) * (fdX0 f))) + ((fX f) * (ks_dR_D0 P f))) * (fR f)) *
  (ks_dR_D1 P f))) + ((((((pa P) * (fdY1 f)) + ((fR f) * (fdX1 f))) + ((fX f) * (ks_dR_D1 P f))) *
  (fR f)) * (ks_dR_D0 P f))))) + ((((8 * (((pa P) * (fY f)) + ((fR f) * (fX f)))) * ((fR f) ^ 2)) *
  (ks_dR_D0 P f)) * (ks_dR_D1 P f))) / ((((pa P) ^ 2) + ((fR f) ^ 2)) ^ 3).

(* /repo/Src/Main/Modules/Physics/Free_Data/fd_KerrSchild_H_K0_K1_K2.c:269-295 *)
Definition ks_ddK0_D0D0 (P : kspar) (f : ksarg) : R :=
  (((((((pa P) ^ 2) + ((fR f) ^ 2)) ^ 2) * (((((pa P) * (ks_ddY_D0D0 P f)) + ((fR f) * (ks_ddX_D0D0 P
  f))) + ((fX f) * (ks_ddR_D0D0 P f))) + ((2 * (ks_dR_D0 P f)) * (fdX0 f)))) - ((2 * (((pa P) ^ 2) +
  ((fR f) ^ 2))) * (((((((pa P) * (fY f)) + ((fR f) * (fX f))) * (fR f)) * (ks_ddR_D0D0 P f)) +
  ((((pa P) * (fY f)) + ((fR f) * (fX f))) * ((ks_dR_D0 P f) ^ 2))) + (((2 * ((((pa P) * (fdY0 f)) +
  ((fR f) * (fdX0 f))) + ((fX f) * (ks_dR_D0 P f)))) * (fR f)) * (ks_dR_D0 P f))))) + (((8 * (((pa P)
  * (fY f)) + ((fR f) * (fX f)))) * ((fR f) ^ 2)) * ((ks_dR_D0 P f) ^ 2))) / ((((pa P) ^ 2) + ((fR f)
  ^ 2)) ^ 3).

(* /repo/Src/Main/Modules/Physics/Free_Data/fd_KerrSchild_H_K0_K1_K2.c:296-328 *)
Definition ks_ddK0_D0D2 (P : kspar) (f : ksarg) : R :=
  (((((((pa P) ^ 2) + ((fR f) ^ 2)) ^ 2) * ((((((pa P) * (ks_ddY_D0D2 P f)) + ((fR f) * (ks_ddX_D0D2
  P f))) + ((fX f) * (ks_ddR_D0D2 P f))) + ((ks_dR_D0 P f) * (fdX2 f))) + ((ks_dR_D2 P f) * (fdX0
  f)))) - ((2 * (((pa P) ^ 2) + ((fR f) ^ 2))) * ((((((((pa P) * (fY f)) + ((fR f) * (fX f))) * (fR
  f)) * (ks_ddR_D0D2 P f)) + (((((pa P) * (fY f)) + ((fR f) * (fX f))) * (ks_dR_D0 P f)) * (ks_dR_D2
  P f))) + ((((((pa P) * (fdY0 f)) + ((fR f) * (fdX0 f))) + ((fX f) * (ks_dR_D0 P f))) * (fR f)) *
  (ks_dR_D2 P f))) + ((((((pa P) * (fdY2 f)) + ((fR f) * (fdX2 f))) + ((fX f) * (ks_dR_D2 P f))) *
  (fR f)) * (ks_dR_D0 P f))))) + ((((8 * (((pa P) * (fY f)) + ((fR f) * (fX f)))) * ((fR f) ^ 2)) *
  (ks_dR_D0 P f)) * (ks_dR_D2 P f))) / ((((pa P) ^ 2) + ((fR f) ^ 2)) ^ 3).

(* /repo/Src/Main/Modules/Physics/Free_Data/fd_KerrSchild_H_K0_K1_K2.c:329-355 *)
Definition ks_ddK0_D2D2 (P : kspar) (f : ksarg) : R :=
  (((((((pa P) ^ 2) + ((fR f) ^ 2)) ^ 2) * (((((pa P) * (ks_ddY_D2D2 P f)) + ((fR f) * (ks_ddX_D2D2 P
  f))) + ((fX f) * (ks_ddR_D2D2 P f))) + ((2 * (ks_dR_D2 P f)) * (fdX2 f)))) - ((2 * (((pa P) ^ 2) +
  ((fR f) ^ 2))) * (((((((pa P) * (fY f)) + ((fR f) * (fX f))) * (fR f)) * (ks_ddR_D2D2 P f)) +
  ((((pa P) * (fY f)) + ((fR f) * (fX f))) * ((ks_dR_D2 P f) ^ 2))) + (((2 * ((((pa P) * (fdY2 f)) +
  ((fR f) * (fdX2 f))) + ((fX f) * (ks_dR_D2 P f)))) * (fR f)) * (ks_dR_D2 P f))))) + (((8 * (((pa P)
  * (fY f)) + ((fR f) * (fX f)))) * ((fR f) ^ 2)) * ((ks_dR_D2 P f) ^ 2))) / ((((pa P) ^ 2) + ((fR f)
  ^ 2)) ^ 3).

(* /repo/Src/Main/Modules/Physics/Free_Data/fd_KerrSchild_H_K0_K1_K2.c:1582-1608 *)
Definition ks_ddK1_D2D2 (P : kspar) (f : ksarg) : R :=
  (((((((pa P) ^ 2) + ((fR f) ^ 2)) ^ 2) * (((((- (pa P)) * (ks_ddX_D2D2 P f)) + ((fR f) *
  (ks_ddY_D2D2 P f))) + ((fY f) * (ks_ddR_D2D2 P f))) + ((2 * (ks_dR_D2 P f)) * (fdY2 f)))) + ((2 *
  (((pa P) ^ 2) + ((fR f) ^ 2))) * (((((((pa P) * (fX f)) - ((fR f) * (fY f))) * (fR f)) *
  (ks_ddR_D2D2 P f)) + ((((pa P) * (fX f)) - ((fR f) * (fY f))) * ((ks_dR_D2 P f) ^ 2))) - (((2 *
  ((((- (pa P)) * (fdX2 f)) + ((fR f) * (fdY2 f))) + ((fY f) * (ks_dR_D2 P f)))) * (fR f)) *
  (ks_dR_D2 P f))))) + (((8 * (((- (pa P)) * (fX f)) + ((fR f) * (fY f)))) * ((fR f) ^ 2)) *
  ((ks_dR_D2 P f) ^ 2))) / ((((pa P) ^ 2) + ((fR f) ^ 2)) ^ 3).

(* /repo/Src/Main/Modules/Physics/Free_Data/fd_KerrSchild_H_K0_K1_K2.c:1609-1635 *)
Definition ks_ddK1_D0D0 (P : kspar) (f : ksarg) : R :=
  (((((((pa P) ^ 2) + ((fR f) ^ 2)) ^ 2) * (((((- (pa P)) * (ks_ddX_D0D0 P f)) + ((fR f) *
  (ks_ddY_D0D0 P f))) + ((fY f) * (ks_ddR_D0D0 P f))) + ((2 * (ks_dR_D0 P f)) * (fdY0 f)))) + ((2 *
  (((pa P) ^ 2) + ((fR f) ^ 2))) * (((((((pa P) * (fX f)) - ((fR f) * (fY f))) * (fR f)) *
  (ks_ddR_D0D0 P f)) + ((((pa P) * (fX f)) - ((fR f) * (fY f))) * ((ks_dR_D0 P f) ^ 2))) - (((2 *
  ((((- (pa P)) * (fdX0 f)) + ((fR f) * (fdY0 f))) + ((fY f) * (ks_dR_D0 P f)))) * (fR f)) *
  (ks_dR_D0 P f))))) + (((8 * (((- (pa P)) * (fX f)) + ((fR f) * (fY f)))) * ((fR f) ^ 2)) *
  ((ks_dR_D0 P f) ^ 2))) / ((((pa P) ^ 2) + ((fR f) ^ 2)) ^ 3).

(* /repo/Src/Main/Modules/Physics/Free_Data/fd_KerrSchild_H_K0_K1_K2.c:1636-1668 *)
Definition ks_ddK1_D0D2 (P : kspar) (f : ksarg) : R :=
  (((((((pa P) ^ 2) + ((fR f) ^ 2)) ^ 2) * ((((((- (pa P)) * (ks_ddX_D0D2 P f)) + ((fR f) *
  (ks_ddY_D0D2 P f))) + ((fY f) * (ks_ddR_D0D2 P f))) + ((ks_dR_D0 P f) * (fdY2 f))) + ((ks_dR_D2 P
  f) * (fdY0 f)))) + ((2 * (((pa P) ^ 2) + ((fR f) ^ 2))) * ((((((((pa P) * (fX f)) - ((fR f) * (fY
  f))) * (fR f)) * (ks_ddR_D0D2 P f)) + (((((pa P) * (fX f)) - ((fR f) * (fY f))) * (ks_dR_D0 P f)) *
  (ks_dR_D2 P f))) - ((((((- (pa P)) * (fdX0 f)) + ((fR f) * (fdY0 f))) + ((fY f) * (ks_dR_D0 P f)))
  * (fR f)) * (ks_dR_D2 P f))) - ((((((- (pa P)) * (fdX2 f)) + ((fR f) * (fdY2 f))) + ((fY f) *
  (ks_dR_D2 P f))) * (fR f)) * (ks_dR_D0 P f))))) - ((((8 * (((pa P) * (fX f)) - ((fR f) * (fY f))))
  * ((fR f) ^ 2)) * (ks_dR_D0 P f)) * (ks_dR_D2 P f))) / ((((pa P) ^ 2) + ((fR f) ^ 2)) ^ 3).

(* /repo/Src/Main/Modules/Physics/Free_Data/fd_KerrSchild_H_K0_K1_K2.c:1669-1701 *)
Definition ks_ddK1_D1D2 (P : kspar) (f : ksarg) : R :=
  (((((((pa P) ^ 2) + ((fR f) ^ 2)) ^ 2) * ((((((- (pa P)) * (ks_ddX_D1D2 P f)) + ((fR f) *
  (ks_ddY_D1D2 P f))) + ((fY f) * (ks_ddR_D1D2 P f))) + ((ks_dR_D1 P f) * (fdY2 f))) + ((ks_dR_D2 P
  f) * (fdY1 f)))) + ((2 * (((pa P) ^ 2) + ((fR f) ^ 2))) * ((((((((pa P) * (fX f)) - ((fR f) * (fY
  f))) * (fR f)) * (ks_ddR_D1D2 P f)) + (((((pa P) * (fX f)) - ((fR f) * (fY f))) * (ks_dR_D1 P f)) *
  (ks_dR_D2 P f))) - ((((((- (pa P)) * (fdX1 f)) + ((fR f) * (fdY1 f))) + ((fY f) * (ks_dR_D1 P f)))
  * (fR f)) * (ks_dR_D2 P f))) - ((((((- (pa P)) * (fdX2 f)) + ((fR f) * (fdY2 f))) + ((fY f) *
  (ks_dR_D2 P f))) * (fR f)) * (ks_dR_D1 P f))))) - ((((8 * (((pa P) * (fX f)) - ((fR f) * (fY f))))
  * ((fR f) ^ 2)) * (ks_dR_D1 P f)) * (ks_dR_D2 P f))) / ((((pa P) ^ 2) + ((fR f) ^ 2)) ^ 3).

(* /repo/Src/Main/Modules/Physics/Free_Data/fd_KerrSchild_H_K0_K1_K2.c:1702-1728 *)
Definition ks_ddK1_D1D1 (P : kspar) (f : ksarg) : R :=
  (((((((pa P) ^ 2) + ((fR f) ^ 2)) ^ 2) * (((((- (pa P)) * (ks_ddX_D1D1 P f)) + ((fR f) *
  (ks_ddY_D1D1 P f))) + ((fY f) * (ks_ddR_D1D1 P f))) + ((2 * (ks_dR_D1 P f)) * (fdY1 f)))) + ((2 *
  (((pa P) ^ 2) + ((fR f) ^ 2))) * (((((((pa P) * (fX f)) - ((fR f) * (fY f))) * (fR f)) *
  (ks_ddR_D1D1 P f)) + ((((pa P) * (fX f)) - ((fR f) * (fY f))) * ((ks_dR_D1 P f) ^ 2))) - (((2 *
  ((((- (pa P)) * (fdX1 f)) + ((fR f) * (fdY1 f))) + ((fY f) * (ks_dR_D1 P f)))) * (fR f)) *
  (ks_dR_D1 P f))))) + (((8 * (((- (pa P)) * (fX f)) + ((fR f) * (fY f)))) * ((fR f) ^ 2)) *
  ((ks_dR_D1 P f) ^ 2))) / ((((pa P) ^ 2) + ((fR f) ^ 2)) ^ 3).

(* /repo/Src/Main/Modules/Physics/Free_Data/fd_KerrSchild_H_K0_K1_K2.c:1729-1761 *)
Definition ks_ddK1_D0D1 (P : kspar) (f : ksarg) : R :=
  (((((((pa P) ^ 2) + ((fR f) ^ 2)) ^ 2) * ((((((- (pa P)) * (ks_ddX_D0D1 P f)) + ((fR f) *
  (ks_ddY_D0D1 P f))) + ((fY f) * (ks_ddR_D0D1 P f))) + ((ks_dR_D0 P f) * (fdY1 f))) + ((ks_dR_D1 P
  f) * (fdY0 f)))) + ((2 * (((pa P) ^ 2) + ((fR f) ^ 2))) * ((((((((pa P) * (fX f)) - ((fR f) * (fY
  f))) * (fR f)) * (ks_ddR_D0D1 P f)) + (((((pa P) * (fX f)) - ((fR f) * (fY f))) * (ks_dR_D0 P f)) *
  (ks_dR_D1 P f))) - ((((((- (pa P)) * (fdX0 f)) + ((fR f) * (fdY0 f))) + ((fY f) * (ks_dR_D0 P f)))
  * (fR f)) * (ks_dR_D1 P f))) - ((((((- (pa P)) * (fdX1 f)) + ((fR f) * (fdY1 f))) + ((fY f) *
  (ks_dR_D1 P f))) * (fR f)) * (ks_dR_D0 P f))))) - ((((8 * (((pa P) * (fX f)) - ((fR f) * (fY f))))
  * ((fR f) ^ 2)) * (ks_dR_D0 P f)) * (ks_dR_D1 P f))) / ((((pa P) ^ 2) + ((fR f) ^ 2)) ^ 3).

(* /repo/Src/Main/Modules/Physics/Free_Data/fd_KerrSchild_H_K0_K1_K2.c:2986-3001 *)
Definition ks_ddK2_D0D0 (P : kspar) (f : ksarg) : R :=
  ((((- (((fZ f) * (ks_ddR_D0D0 P f)) + ((2 * (ks_dR_D0 P f)) * (fdZ0 f)))) * (fR f)) + (((fR f) ^ 2)
  * (ks_ddZ_D0D0 P f))) + ((2 * (fZ f)) * ((ks_dR_D0 P f) ^ 2))) / ((fR f) ^ 3).

(* /repo/Src/Main/Modules/Physics/Free_Data/fd_KerrSchild_H_K0_K1_K2.c:3002-3017 *)
Definition ks_ddK2_D2D2 (P : kspar) (f : ksarg) : R :=
  ((((- (((fZ f) * (ks_ddR_D2D2 P f)) + ((2 * (ks_dR_D2 P f)) * (fdZ2 f)))) * (fR f)) + (((fR f) ^ 2)
  * (ks_ddZ_D2D2 P f))) + ((2 * (fZ f)) * ((ks_dR_D2 P f) ^ 2))) / ((fR f) ^ 3).

(* /repo/Src/Main/Modules/Physics/Free_Data/fd_KerrSchild_H_K0_K1_K2.c:3018-3036 *)
Definition ks_ddK2_D1D2 (P : kspar) (f : ksarg) : R :=
  ((((- ((((fZ f) * (ks_ddR_D1D2 P f)) + ((ks_dR_D1 P f) * (fdZ2 f))) + ((ks_dR_D2 P f) * (fdZ1 f))))
  * (fR f)) + (((fR f) ^ 2) * (ks_ddZ_D1D2 P f))) + (((2 * (fZ f)) * (ks_dR_D1 P f)) * (ks_dR_D2 P
  f))) / ((fR f) ^ 3).

(* /repo/Src/Main/Modules/Physics/Free_Data/fd_KerrSchild_H_K0_K1_K2.c:3037-3055 *)
Definition ks_ddK2_D0D2 (P : kspar) (f : ksarg) : R :=
  ((((- ((((fZ f) * (ks_ddR_D0D2 P f)) + ((ks_dR_D0 P f) * (fdZ2 f))) + ((ks_dR_D2 P f) * (fdZ0 f))))
  * (fR f)) + (((fR f) ^ 2) * (ks_ddZ_D0D2 P f))) + (((2 * (fZ f)) * (ks_dR_D0 P f)) * (ks_dR_D2 P
  f))) / ((fR f) ^ 3).

(* /repo/Src/Main/Modules/Physics/Free_Data/fd_KerrSchild_H_K0_K1_K2.c:3056-3074 *)
Definition ks_ddK2_D0D1 (P : kspar) (f : ksarg) : R :=
  ((((- ((((fZ f) * (ks_ddR_D0D1 P f)) + ((ks_dR_D0 P f) * (fdZ1 f))) + ((ks_dR_D1 P f) * (fdZ0 f))))
  * (fR f)) + (((fR f) ^ 2) * (ks_ddZ_D0D1 P f))) + (((2 * (fZ f)) * (ks_dR_D0 P f)) * (ks_dR_D1 P
  f))) / ((fR f) ^ 3).

(* /repo/Src/Main/Modules/Physics/Free_Data/fd_KerrSchild_H_K0_K1_K2.c:3075-3090 *)
Definition ks_ddK2_D1D1 (P : kspar) (f : ksarg) : R :=
  ((((- (((fZ f) * (ks_ddR_D1D1 P f)) + ((2 * (ks_dR_D1 P f)) * (fdZ1 f)))) * (fR f)) + (((fR f) ^ 2)
  * (ks_ddZ_D1D1 P f))) + ((2 * (fZ f)) * ((ks_dR_D1 P f) ^ 2))) / ((fR f) ^ 3).

(* /repo/Src/Main/Modules/Physics/Free_Data/fd_KerrSchild_H_K0_K1_K2.c:3689-3716 *)
Definition ks_ddH_D2D2 (P : kspar) (f : ksarg) : R :=
  ((((pL P) * (pM P)) * ((((((((((pa P) ^ 2) * ((fZ f) ^ 2)) + ((fR f) ^ 4)) ^ 2) * (fR f)) *
  (ks_ddR_D2D2 P f)) - (((4 * ((((pa P) ^ 2) * ((fZ f) ^ 2)) + ((fR f) ^ 4))) * (((((((pa P) ^ 2) *
  (fR f)) * (fZ f)) * (fdZ2 f)) - ((((pa P) ^ 2) * ((fZ f) ^ 2)) * (ks_dR_D2 P f))) + (((fR f) ^ 4) *
  (ks_dR_D2 P f)))) * (ks_dR_D2 P f))) - ((2 * ((((pa P) ^ 2) * ((fZ f) ^ 2)) + ((fR f) ^ 4))) *
  (((((((- ((pa P) ^ 2)) * (((fZ f) * (ks_ddR_D2D2 P f)) + ((4 * (ks_dR_D2 P f)) * (fdZ2 f)))) * (fR
  f)) * (fZ f)) + ((((pa P) ^ 2) * (((fZ f) * (ks_ddZ_D2D2 P f)) + ((fdZ2 f) ^ 2))) * ((fR f) ^ 2)))
  + (((3 * ((pa P) ^ 2)) * ((fZ f) ^ 2)) * ((ks_dR_D2 P f) ^ 2))) + ((((fR f) * (ks_ddR_D2D2 P f)) +
  ((ks_dR_D2 P f) ^ 2)) * ((fR f) ^ 4))))) + (8 * ((((((((pa P) ^ 2) * (fR f)) * (fZ f)) * (fdZ2 f))
  - ((((pa P) ^ 2) * ((fZ f) ^ 2)) * (ks_dR_D2 P f))) + (((fR f) ^ 4) * (ks_dR_D2 P f))) ^ 2)))) *
  (fR f)) / (((((pa P) ^ 2) * ((fZ f) ^ 2)) + ((fR f) ^ 4)) ^ 3).

(* /repo/Src/Main/Modules/Physics/Free_Data/fd_KerrSchild_H_K0_K1_K2.c:3717-3744 *)
Definition ks_ddH_D0D0 (P : kspar) (f : ksarg) : R :=
  ((((pL P) * (pM P)) * ((((((((((pa P) ^ 2) * ((fZ f) ^ 2)) + ((fR f) ^ 4)) ^ 2) * (fR f)) *
  (ks_ddR_D0D0 P f)) - (((4 * ((((pa P) ^ 2) * ((fZ f) ^ 2)) + ((fR f) ^ 4))) * (((((((pa P) ^ 2) *
  (fR f)) * (fZ f)) * (fdZ0 f)) - ((((pa P) ^ 2) * ((fZ f) ^ 2)) * (ks_dR_D0 P f))) + (((fR f) ^ 4) *
  (ks_dR_D0 P f)))) * (ks_dR_D0 P f))) - ((2 * ((((pa P) ^ 2) * ((fZ f) ^ 2)) + ((fR f) ^ 4))) *
  (((((((- ((pa P) ^ 2)) * (((fZ f) * (ks_ddR_D0D0 P f)) + ((4 * (ks_dR_D0 P f)) * (fdZ0 f)))) * (fR
  f)) * (fZ f)) + ((((pa P) ^ 2) * (((fZ f) * (ks_ddZ_D0D0 P f)) + ((fdZ0 f) ^ 2))) * ((fR f) ^ 2)))
  + (((3 * ((pa P) ^ 2)) * ((fZ f) ^ 2)) * ((ks_dR_D0 P f) ^ 2))) + ((((fR f) * (ks_ddR_D0D0 P f)) +
  ((ks_dR_D0 P f) ^ 2)) * ((fR f) ^ 4))))) + (8 * ((((((((pa P) ^ 2) * (fR f)) * (fZ f)) * (fdZ0 f))
  - ((((pa P) ^ 2) * ((fZ f) ^ 2)) * (ks_dR_D0 P f))) + (((fR f) ^ 4) * (ks_dR_D0 P f))) ^ 2)))) *
  (fR f)) / (((((pa P) ^ 2) * ((fZ f) ^ 2)) + ((fR f) ^ 4)) ^ 3).

(* /repo/Src/Main/Modules/Physics/Free_Data/fd_KerrSchild_H_K0_K1_K2.c:3745-3780 *)
Definition ks_ddH_D1D2 (P : kspar) (f : ksarg) : R :=
  ((((pL P) * (pM P)) * ((((((((((((((((((- 2) * ((pa P) ^ 4)) * ((fR f) ^ 2)) * ((fZ f) ^ 3)) *
  (ks_ddZ_D1D2 P f)) + (((((6 * ((pa P) ^ 4)) * ((fR f) ^ 2)) * ((fZ f) ^ 2)) * (fdZ1 f)) * (fdZ2
  f))) + ((((3 * ((pa P) ^ 4)) * (fR f)) * ((fZ f) ^ 4)) * (ks_ddR_D1D2 P f))) - (((((6 * ((pa P) ^
  4)) * (fR f)) * ((fZ f) ^ 3)) * (ks_dR_D1 P f)) * (fdZ2 f))) - (((((6 * ((pa P) ^ 4)) * (fR f)) *
  ((fZ f) ^ 3)) * (ks_dR_D2 P f)) * (fdZ1 f))) + ((((6 * ((pa P) ^ 4)) * ((fZ f) ^ 4)) * (ks_dR_D1 P
  f)) * (ks_dR_D2 P f))) - ((((2 * ((pa P) ^ 2)) * ((fR f) ^ 6)) * (fZ f)) * (ks_ddZ_D1D2 P f))) -
  ((((2 * ((pa P) ^ 2)) * ((fR f) ^ 6)) * (fdZ1 f)) * (fdZ2 f))) + ((((2 * ((pa P) ^ 2)) * ((fR f) ^
  5)) * ((fZ f) ^ 2)) * (ks_ddR_D1D2 P f))) + (((((10 * ((pa P) ^ 2)) * ((fR f) ^ 5)) * (fZ f)) *
  (ks_dR_D1 P f)) * (fdZ2 f))) + (((((10 * ((pa P) ^ 2)) * ((fR f) ^ 5)) * (fZ f)) * (ks_dR_D2 P f))
  * (fdZ1 f))) - (((((24 * ((pa P) ^ 2)) * ((fR f) ^ 4)) * ((fZ f) ^ 2)) * (ks_dR_D1 P f)) *
  (ks_dR_D2 P f))) - (((fR f) ^ 9) * (ks_ddR_D1D2 P f))) + (((2 * ((fR f) ^ 8)) * (ks_dR_D1 P f)) *
  (ks_dR_D2 P f)))) * (fR f)) / ((((((pa P) ^ 6) * ((fZ f) ^ 6)) + (((3 * ((pa P) ^ 4)) * ((fR f) ^
  4)) * ((fZ f) ^ 4))) + (((3 * ((pa P) ^ 2)) * ((fR f) ^ 8)) * ((fZ f) ^ 2))) + ((fR f) ^ 12)).

(* /repo/Src/Main/Modules/Physics/Free_Data/fd_KerrSchild_H_K0_K1_K2.c:3781-3816 *)
Definition ks_ddH_D0D2 (P : kspar) (f : ksarg) : R :=
  ((((pL P) * (pM P)) * ((((((((((((((((((- 2) * ((pa P) ^ 4)) * ((fR f) ^ 2)) * ((fZ f) ^ 3)) *
  (ks_ddZ_D0D2 P f)) + (((((6 * ((pa P) ^ 4)) * ((fR f) ^ 2)) * ((fZ f) ^ 2)) * (fdZ0 f)) * (fdZ2
  f))) + ((((3 * ((pa P) ^ 4)) * (fR f)) * ((fZ f) ^ 4)) * (ks_ddR_D0D2 P f))) - (((((6 * ((pa P) ^
  4)) * (fR f)) * ((fZ f) ^ 3)) * (ks_dR_D0 P f)) * (fdZ2 f))) - (((((6 * ((pa P) ^ 4)) * (fR f)) *
  ((fZ f) ^ 3)) * (ks_dR_D2 P f)) * (fdZ0 f))) + ((((6 * ((pa P) ^ 4)) * ((fZ f) ^ 4)) * (ks_dR_D0 P
  f)) * (ks_dR_D2 P f))) - ((((2 * ((pa P) ^ 2)) * ((fR f) ^ 6)) * (fZ f)) * (ks_ddZ_D0D2 P f))) -
  ((((2 * ((pa P) ^ 2)) * ((fR f) ^ 6)) * (fdZ0 f)) * (fdZ2 f))) + ((((2 * ((pa P) ^ 2)) * ((fR f) ^
  5)) * ((fZ f) ^ 2)) * (ks_ddR_D0D2 P f))) + (((((10 * ((pa P) ^ 2)) * ((fR f) ^ 5)) * (fZ f)) *
  (ks_dR_D0 P f)) * (fdZ2 f))) + (((((10 * ((pa P) ^ 2)) * ((fR f) ^ 5)) * (fZ f)) * (ks_dR_D2 P f))
  * (fdZ0 f))) - (((((24 * ((pa P) ^ 2)) * ((fR f) ^ 4)) * ((fZ f) ^ 2)) * (ks_dR_D0 P f)) *
  (ks_dR_D2 P f))) - (((fR f) ^ 9) * (ks_ddR_D0D2 P f))) + (((2 * ((fR f) ^ 8)) * (ks_dR_D0 P f)) *
  (ks_dR_D2 P f)))) * (fR f)) / ((((((pa P) ^ 6) * ((fZ f) ^ 6)) + (((3 * ((pa P) ^ 4)) * ((fR f) ^
  4)) * ((fZ f) ^ 4))) + (((3 * ((pa P) ^ 2)) * ((fR f) ^ 8)) * ((fZ f) ^ 2))) + ((fR f) ^ 12)).

(* /repo/Src/Main/Modules/Physics/Free_Data/fd_KerrSchild_H_K0_K1_K2.c:3817-3852 *)
Definition ks_ddH_D0D1 (P : kspar) (f : ksarg) : R :=
  ((((pL P) * (pM P)) * ((((((((((((((((((- 2) * ((pa P) ^ 4)) * ((fR f) ^ 2)) * ((fZ f) ^ 3)) *
  (ks_ddZ_D0D1 P f)) + (((((6 * ((pa P) ^ 4)) * ((fR f) ^ 2)) * ((fZ f) ^ 2)) * (fdZ0 f)) * (fdZ1
  f))) + ((((3 * ((pa P) ^ 4)) * (fR f)) * ((fZ f) ^ 4)) * (ks_ddR_D0D1 P f))) - (((((6 * ((pa P) ^
  4)) * (fR f)) * ((fZ f) ^ 3)) * (ks_dR_D0 P f)) * (fdZ1 f))) - (((((6 * ((pa P) ^ 4)) * (fR f)) *
  ((fZ f) ^ 3)) * (ks_dR_D1 P f)) * (fdZ0 f))) + ((((6 * ((pa P) ^ 4)) * ((fZ f) ^ 4)) * (ks_dR_D0 P
  f)) * (ks_dR_D1 P f))) - ((((2 * ((pa P) ^ 2)) * ((fR f) ^ 6)) * (fZ f)) * (ks_ddZ_D0D1 P f))) -
  ((((2 * ((pa P) ^ 2)) * ((fR f) ^ 6)) * (fdZ0 f)) * (fdZ1 f))) + ((((2 * ((pa P) ^ 2)) * ((fR f) ^
  5)) * ((fZ f) ^ 2)) * (ks_ddR_D0D1 P f))) + (((((10 * ((pa P) ^ 2)) * ((fR f) ^ 5)) * (fZ f)) *
  (ks_dR_D0 P f)) * (fdZ1 f))) + (((((10 * ((pa P) ^ 2)) * ((fR f) ^ 5)) * (fZ f)) * (ks_dR_D1 P f))
  * (fdZ0 f))) - (((((24 * ((pa P) ^ 2)) * ((fR f) ^ 4)) * ((fZ f) ^ 2)) * (ks_dR_D0 P f)) *
  (ks_dR_D1 P f))) - (((fR f) ^ 9) * (ks_ddR_D0D1 P f))) + (((2 * ((fR f) ^ 8)) * (ks_dR_D0 P f)) *
  (ks_dR_D1 P f)))) * (fR f)) / ((((((pa P) ^ 6) * ((fZ f) ^ 6)) + (((3 * ((pa P) ^ 4)) * ((fR f) ^
  4)) * ((fZ f) ^ 4))) + (((3 * ((pa P) ^ 2)) * ((fR f) ^ 8)) * ((fZ f) ^ 2))) + ((fR f) ^ 12)).

(* /repo/Src/Main/Modules/Physics/Free_Data/fd_KerrSchild_H_K0_K1_K2.c:3853-3880 *)
Definition ks_ddH_D1D1 (P : kspar) (f : ksarg) : R :=
  ((((pL P) * (pM P)) * ((((((((((pa P) ^ 2) * ((fZ f) ^ 2)) + ((fR f) ^ 4)) ^ 2) * (fR f)) *
  (ks_ddR_D1D1 P f)) - (((4 * ((((pa P) ^ 2) * ((fZ f) ^ 2)) + ((fR f) ^ 4))) * (((((((pa P) ^ 2) *
  (fR f)) * (fZ f)) * (fdZ1 f)) - ((((pa P) ^ 2) * ((fZ f) ^ 2)) * (ks_dR_D1 P f))) + (((fR f) ^ 4) *
  (ks_dR_D1 P f)))) * (ks_dR_D1 P f))) - ((2 * ((((pa P) ^ 2) * ((fZ f) ^ 2)) + ((fR f) ^ 4))) *
  (((((((- ((pa P) ^ 2)) * (((fZ f) * (ks_ddR_D1D1 P f)) + ((4 * (ks_dR_D1 P f)) * (fdZ1 f)))) * (fR
  f)) * (fZ f)) + ((((pa P) ^ 2) * (((fZ f) * (ks_ddZ_D1D1 P f)) + ((fdZ1 f) ^ 2))) * ((fR f) ^ 2)))
  + (((3 * ((pa P) ^ 2)) * ((fZ f) ^ 2)) * ((ks_dR_D1 P f) ^ 2))) + ((((fR f) * (ks_ddR_D1D1 P f)) +
  ((ks_dR_D1 P f) ^ 2)) * ((fR f) ^ 4))))) + (8 * ((((((((pa P) ^ 2) * (fR f)) * (fZ f)) * (fdZ1 f))
  - ((((pa P) ^ 2) * ((fZ f) ^ 2)) * (ks_dR_D1 P f))) + (((fR f) ^ 4) * (ks_dR_D1 P f))) ^ 2)))) *
  (fR f)) / (((((pa P) ^ 2) * ((fZ f) ^ 2)) + ((fR f) ^ 4)) ^ 3).

(* /repo/Src/Main/Modules/Physics/Free_Data/fd_KerrSchild_H_K0_K1_K2.c:356-420 *)
Definition ks_dddK0_D0D2D2 (P : kspar) (f : ksarg) : R :=
  ((((((((pa P) ^ 2) + ((fR f) ^ 2)) ^ 3) * ((((((((pa P) * (ks_dddY_D0D2D2 P f)) + ((fR f) *
  (ks_dddX_D0D2D2 P f))) + ((fX f) * (ks_dddR_D0D2D2 P f))) + ((ks_dR_D0 P f) * (ks_ddX_D2D2 P f))) +
  ((2 * (ks_dR_D2 P f)) * (ks_ddX_D0D2 P f))) + ((ks_ddR_D2D2 P f) * (fdX0 f))) + ((2 * (fdX2 f)) *
  (ks_ddR_D0D2 P f)))) - ((2 * ((((pa P) ^ 2) + ((fR f) ^ 2)) ^ 2)) * (((((((((((((pa P) * (fY f)) +
  ((fR f) * (fX f))) * (fR f)) * (ks_dddR_D0D2D2 P f)) + (((((pa P) * (fY f)) + ((fR f) * (fX f))) *
  (ks_dR_D0 P f)) * (ks_ddR_D2D2 P f))) + (((2 * (((pa P) * (fY f)) + ((fR f) * (fX f)))) * (ks_dR_D2
  P f)) * (ks_ddR_D0D2 P f))) + ((((((pa P) * (fdY0 f)) + ((fR f) * (fdX0 f))) + ((fX f) * (ks_dR_D0
  P f))) * (fR f)) * (ks_ddR_D2D2 P f))) + (((((pa P) * (fdY0 f)) + ((fR f) * (fdX0 f))) + ((fX f) *
  (ks_dR_D0 P f))) * ((ks_dR_D2 P f) ^ 2))) + (((2 * ((((pa P) * (fdY2 f)) + ((fR f) * (fdX2 f))) +
  ((fX f) * (ks_dR_D2 P f)))) * (fR f)) * (ks_ddR_D0D2 P f))) + (((2 * ((((pa P) * (fdY2 f)) + ((fR
  f) * (fdX2 f))) + ((fX f) * (ks_dR_D2 P f)))) * (ks_dR_D0 P f)) * (ks_dR_D2 P f))) + (((((((pa P) *
  (ks_ddY_D2D2 P f)) + ((fR f) * (ks_ddX_D2D2 P f))) + ((fX f) * (ks_ddR_D2D2 P f))) + ((2 *
  (ks_dR_D2 P f)) * (fdX2 f))) * (fR f)) * (ks_dR_D0 P f))) + (((2 * ((((((pa P) * (ks_ddY_D0D2 P f))
  + ((fR f) * (ks_ddX_D0D2 P f))) + ((fX f) * (ks_ddR_D0D2 P f))) + ((ks_dR_D0 P f) * (fdX2 f))) +
  ((ks_dR_D2 P f) * (fdX0 f)))) * (fR f)) * (ks_dR_D2 P f))))) + (((8 * (((pa P) ^ 2) + ((fR f) ^
  2))) * ((((((((((pa P) * (fY f)) + ((fR f) * (fX f))) * (fR f)) * (ks_dR_D0 P f)) * (ks_ddR_D2D2 P
  f)) + ((((2 * (((pa P) * (fY f)) + ((fR f) * (fX f)))) * (fR f)) * (ks_dR_D2 P f)) * (ks_ddR_D0D2 P
  f))) + (((3 * (((pa P) * (fY f)) + ((fR f) * (fX f)))) * (ks_dR_D0 P f)) * ((ks_dR_D2 P f) ^ 2))) +
  ((((((pa P) * (fdY0 f)) + ((fR f) * (fdX0 f))) + ((fX f) * (ks_dR_D0 P f))) * (fR f)) * ((ks_dR_D2
  P f) ^ 2))) + ((((2 * ((((pa P) * (fdY2 f)) + ((fR f) * (fdX2 f))) + ((fX f) * (ks_dR_D2 P f)))) *
  (fR f)) * (ks_dR_D0 P f)) * (ks_dR_D2 P f)))) * (fR f))) - ((((48 * (((pa P) * (fY f)) + ((fR f) *
  (fX f)))) * ((fR f) ^ 3)) * (ks_dR_D0 P f)) * ((ks_dR_D2 P f) ^ 2))) / ((((pa P) ^ 2) + ((fR f) ^
  2)) ^ 4).

(* /repo/Src/Main/Modules/Physics/Free_Data/fd_KerrSchild_H_K0_K1_K2.c:421-485 *)
Definition ks_dddK0_D1D1D0 (P : kspar) (f : ksarg) : R :=
  ((((((((pa P) ^ 2) + ((fR f) ^ 2)) ^ 3) * ((((((((pa P) * (ks_dddY_D0D1D1 P f)) + ((fR f) *
  (ks_dddX_D0D1D1 P f))) + ((fX f) * (ks_dddR_D0D1D1 P f))) + ((ks_dR_D0 P f) * (ks_ddX_D1D1 P f))) +
  ((2 * (ks_dR_D1 P f)) * (ks_ddX_D0D1 P f))) + ((ks_ddR_D1D1 P f) * (fdX0 f))) + ((2 * (fdX1 f)) *
  (ks_ddR_D0D1 P f)))) - ((2 * ((((pa P) ^ 2) + ((fR f) ^ 2)) ^ 2)) * (((((((((((((pa P) * (fY f)) +
  ((fR f) * (fX f))) * (fR f)) * (ks_dddR_D0D1D1 P f)) + (((((pa P) * (fY f)) + ((fR f) * (fX f))) *
  (ks_dR_D0 P f)) * (ks_ddR_D1D1 P f))) + (((2 * (((pa P) * (fY f)) + ((fR f) * (fX f)))) * (ks_dR_D1
  P f)) * (ks_ddR_D0D1 P f))) + ((((((pa P) * (fdY0 f)) + ((fR f) * (fdX0 f))) + ((fX f) * (ks_dR_D0
  P f))) * (fR f)) * (ks_ddR_D1D1 P f))) + (((((pa P) * (fdY0 f)) + ((fR f) * (fdX0 f))) + ((fX f) *
  (ks_dR_D0 P f))) * ((ks_dR_D1 P f) ^ 2))) + (((2 * ((((pa P) * (fdY1 f)) + ((fR f) * (fdX1 f))) +
  ((fX f) * (ks_dR_D1 P f)))) * (fR f)) * (ks_ddR_D0D1 P f))) + (((2 * ((((pa P) * (fdY1 f)) + ((fR
  f) * (fdX1 f))) + ((fX f) * (ks_dR_D1 P f)))) * (ks_dR_D0 P f)) * (ks_dR_D1 P f))) + (((((((pa P) *
  (ks_ddY_D1D1 P f)) + ((fR f) * (ks_ddX_D1D1 P f))) + ((fX f) * (ks_ddR_D1D1 P f))) + ((2 *
  (ks_dR_D1 P f)) * (fdX1 f))) * (fR f)) * (ks_dR_D0 P f))) + (((2 * ((((((pa P) * (ks_ddY_D0D1 P f))
  + ((fR f) * (ks_ddX_D0D1 P f))) + ((fX f) * (ks_ddR_D0D1 P f))) + ((ks_dR_D0 P f) * (fdX1 f))) +
  ((ks_dR_D1 P f) * (fdX0 f)))) * (fR f)) * (ks_dR_D1 P f))))) + (((8 * (((pa P) ^ 2) + ((fR f) ^
  2))) * ((((((((((pa P) * (fY f)) + ((fR f) * (fX f))) * (fR f)) * (ks_dR_D0 P f)) * (ks_ddR_D1D1 P
  f)) + ((((2 * (((pa P) * (fY f)) + ((fR f) * (fX f)))) * (fR f)) * (ks_dR_D1 P f)) * (ks_ddR_D0D1 P
  f))) + (((3 * (((pa P) * (fY f)) + ((fR f) * (fX f)))) * (ks_dR_D0 P f)) * ((ks_dR_D1 P f) ^ 2))) +
  ((((((pa P) * (fdY0 f)) + ((fR f) * (fdX0 f))) + ((fX f) * (ks_dR_D0 P f))) * (fR f)) * ((ks_dR_D1
  P f) ^ 2))) + ((((2 * ((((pa P) * (fdY1 f)) + ((fR f) * (fdX1 f))) + ((fX f) * (ks_dR_D1 P f)))) *
  (fR f)) * (ks_dR_D0 P f)) * (ks_dR_D1 P f)))) * (fR f))) - ((((48 * (((pa P) * (fY f)) + ((fR f) *
  (fX f)))) * ((fR f) ^ 3)) * (ks_dR_D0 P f)) * ((ks_dR_D1 P f) ^ 2))) / ((((pa P) ^ 2) + ((fR f) ^
  2)) ^ 4).

(* /repo/Src/Main/Modules/Physics/Free_Data/fd_KerrSchild_H_K0_K1_K2.c:486-549 *)
Definition ks_dddK0_D0D2D0 (P : kspar) (f : ksarg) : R :=
  ((((((((pa P) ^ 2) + ((fR f) ^ 2)) ^ 3) * ((((((((pa P) * (ks_dddY_D0D0D2 P f)) + ((fR f) *
  (ks_dddX_D0D0D2 P f))) + ((fX f) * (ks_dddR_D0D0D2 P f))) + ((2 * (ks_dR_D0 P f)) * (ks_ddX_D0D2 P
  f))) + ((ks_ddR_D0D0 P f) * (fdX2 f))) + ((ks_dR_D2 P f) * (ks_ddX_D0D0 P f))) + ((2 * (fdX0 f)) *
  (ks_ddR_D0D2 P f)))) - ((2 * ((((pa P) ^ 2) + ((fR f) ^ 2)) ^ 2)) * (((((((((((((pa P) * (fY f)) +
  ((fR f) * (fX f))) * (fR f)) * (ks_dddR_D0D0D2 P f)) + (((2 * (((pa P) * (fY f)) + ((fR f) * (fX
  f)))) * (ks_dR_D0 P f)) * (ks_ddR_D0D2 P f))) + (((((pa P) * (fY f)) + ((fR f) * (fX f))) *
  (ks_ddR_D0D0 P f)) * (ks_dR_D2 P f))) + (((2 * ((((pa P) * (fdY0 f)) + ((fR f) * (fdX0 f))) + ((fX
  f) * (ks_dR_D0 P f)))) * (fR f)) * (ks_ddR_D0D2 P f))) + (((2 * ((((pa P) * (fdY0 f)) + ((fR f) *
  (fdX0 f))) + ((fX f) * (ks_dR_D0 P f)))) * (ks_dR_D0 P f)) * (ks_dR_D2 P f))) + ((((((pa P) * (fdY2
  f)) + ((fR f) * (fdX2 f))) + ((fX f) * (ks_dR_D2 P f))) * (fR f)) * (ks_ddR_D0D0 P f))) + (((((pa
  P) * (fdY2 f)) + ((fR f) * (fdX2 f))) + ((fX f) * (ks_dR_D2 P f))) * ((ks_dR_D0 P f) ^ 2))) +
  (((((((pa P) * (ks_ddY_D0D0 P f)) + ((fR f) * (ks_ddX_D0D0 P f))) + ((fX f) * (ks_ddR_D0D0 P f))) +
  ((2 * (ks_dR_D0 P f)) * (fdX0 f))) * (fR f)) * (ks_dR_D2 P f))) + (((2 * ((((((pa P) * (ks_ddY_D0D2
  P f)) + ((fR f) * (ks_ddX_D0D2 P f))) + ((fX f) * (ks_ddR_D0D2 P f))) + ((ks_dR_D0 P f) * (fdX2
  f))) + ((ks_dR_D2 P f) * (fdX0 f)))) * (fR f)) * (ks_dR_D0 P f))))) + (((8 * (((pa P) ^ 2) + ((fR
  f) ^ 2))) * ((((((((2 * (((pa P) * (fY f)) + ((fR f) * (fX f)))) * (fR f)) * (ks_dR_D0 P f)) *
  (ks_ddR_D0D2 P f)) + ((((((pa P) * (fY f)) + ((fR f) * (fX f))) * (fR f)) * (ks_ddR_D0D0 P f)) *
  (ks_dR_D2 P f))) + (((3 * (((pa P) * (fY f)) + ((fR f) * (fX f)))) * ((ks_dR_D0 P f) ^ 2)) *
  (ks_dR_D2 P f))) + ((((2 * ((((pa P) * (fdY0 f)) + ((fR f) * (fdX0 f))) + ((fX f) * (ks_dR_D0 P
  f)))) * (fR f)) * (ks_dR_D0 P f)) * (ks_dR_D2 P f))) + ((((((pa P) * (fdY2 f)) + ((fR f) * (fdX2
  f))) + ((fX f) * (ks_dR_D2 P f))) * (fR f)) * ((ks_dR_D0 P f) ^ 2)))) * (fR f))) - ((((48 * (((pa
  P) * (fY f)) + ((fR f) * (fX f)))) * ((fR f) ^ 3)) * ((ks_dR_D0 P f) ^ 2)) * (ks_dR_D2 P f))) /
  ((((pa P) ^ 2) + ((fR f) ^ 2)) ^ 4).

(* /repo/Src/Main/Modules/Physics/Free_Data/fd_KerrSchild_H_K0_K1_K2.c:550-638 *)
Definition ks_dddK0_D0D2D1 (P : kspar) (f : ksarg) : R :=
  ((((((((pa P) ^ 2) + ((fR f) ^ 2)) ^ 3) * ((((((((((pa P) * (ks_dddY_D0D1D2 P f)) + ((fR f) *
  (ks_dddX_D0D1D2 P f))) + ((fX f) * (ks_dddR_D0D1D2 P f))) + ((ks_dR_D0 P f) * (ks_ddX_D1D2 P f))) +
  ((ks_dR_D1 P f) * (ks_ddX_D0D2 P f))) + ((ks_dR_D2 P f) * (ks_ddX_D0D1 P f))) + ((fdX0 f) *
  (ks_ddR_D1D2 P f))) + ((fdX1 f) * (ks_ddR_D0D2 P f))) + ((fdX2 f) * (ks_ddR_D0D1 P f)))) - ((2 *
  ((((pa P) ^ 2) + ((fR f) ^ 2)) ^ 2)) * (((((((((((((((((pa P) * (fY f)) + ((fR f) * (fX f))) * (fR
  f)) * (ks_dddR_D0D1D2 P f)) + (((((pa P) * (fY f)) + ((fR f) * (fX f))) * (ks_dR_D0 P f)) *
  (ks_ddR_D1D2 P f))) + (((((pa P) * (fY f)) + ((fR f) * (fX f))) * (ks_dR_D1 P f)) * (ks_ddR_D0D2 P
  f))) + (((((pa P) * (fY f)) + ((fR f) * (fX f))) * (ks_dR_D2 P f)) * (ks_ddR_D0D1 P f))) + ((((((pa
  P) * (fdY0 f)) + ((fR f) * (fdX0 f))) + ((fX f) * (ks_dR_D0 P f))) * (fR f)) * (ks_ddR_D1D2 P f)))
  + ((((((pa P) * (fdY0 f)) + ((fR f) * (fdX0 f))) + ((fX f) * (ks_dR_D0 P f))) * (ks_dR_D1 P f)) *
  (ks_dR_D2 P f))) + ((((((pa P) * (fdY1 f)) + ((fR f) * (fdX1 f))) + ((fX f) * (ks_dR_D1 P f))) *
  (fR f)) * (ks_ddR_D0D2 P f))) + ((((((pa P) * (fdY1 f)) + ((fR f) * (fdX1 f))) + ((fX f) *
  (ks_dR_D1 P f))) * (ks_dR_D0 P f)) * (ks_dR_D2 P f))) + ((((((pa P) * (fdY2 f)) + ((fR f) * (fdX2
  f))) + ((fX f) * (ks_dR_D2 P f))) * (fR f)) * (ks_ddR_D0D1 P f))) + ((((((pa P) * (fdY2 f)) + ((fR
  f) * (fdX2 f))) + ((fX f) * (ks_dR_D2 P f))) * (ks_dR_D0 P f)) * (ks_dR_D1 P f))) + ((((((((pa P) *
  (ks_ddY_D0D1 P f)) + ((fR f) * (ks_ddX_D0D1 P f))) + ((fX f) * (ks_ddR_D0D1 P f))) + ((ks_dR_D0 P
  f) * (fdX1 f))) + ((ks_dR_D1 P f) * (fdX0 f))) * (fR f)) * (ks_dR_D2 P f))) + ((((((((pa P) *
  (ks_ddY_D0D2 P f)) + ((fR f) * (ks_ddX_D0D2 P f))) + ((fX f) * (ks_ddR_D0D2 P f))) + ((ks_dR_D0 P
  f) * (fdX2 f))) + ((ks_dR_D2 P f) * (fdX0 f))) * (fR f)) * (ks_dR_D1 P f))) + ((((((((pa P) *
  (ks_ddY_D1D2 P f)) + ((fR f) * (ks_ddX_D1D2 P f))) + ((fX f) * (ks_ddR_D1D2 P f))) + ((ks_dR_D1 P
  f) * (fdX2 f))) + ((ks_dR_D2 P f) * (fdX1 f))) * (fR f)) * (ks_dR_D0 P f))))) + (((8 * (((pa P) ^
  2) + ((fR f) ^ 2))) * ((((((((((((pa P) * (fY f)) + ((fR f) * (fX f))) * (fR f)) * (ks_dR_D0 P f))
  * (ks_ddR_D1D2 P f)) + ((((((pa P) * (fY f)) + ((fR f) * (fX f))) * (fR f)) * (ks_dR_D1 P f)) *
  (ks_ddR_D0D2 P f))) + ((((((pa P) * (fY f)) + ((fR f) * (fX f))) * (fR f)) * (ks_dR_D2 P f)) *
  (ks_ddR_D0D1 P f))) + ((((3 * (((pa P) * (fY f)) + ((fR f) * (fX f)))) * (ks_dR_D0 P f)) *
  (ks_dR_D1 P f)) * (ks_dR_D2 P f))) + (((((((pa P) * (fdY0 f)) + ((fR f) * (fdX0 f))) + ((fX f) *
  (ks_dR_D0 P f))) * (fR f)) * (ks_dR_D1 P f)) * (ks_dR_D2 P f))) + (((((((pa P) * (fdY1 f)) + ((fR
  f) * (fdX1 f))) + ((fX f) * (ks_dR_D1 P f))) * (fR f)) * (ks_dR_D0 P f)) * (ks_dR_D2 P f))) +
  (((((((pa P) * (fdY2 f)) + ((fR f) * (fdX2 f))) + ((fX f) * (ks_dR_D2 P f))) * (fR f)) * (ks_dR_D0
  P f)) * (ks_dR_D1 P f)))) * (fR f))) - (((((48 * (((pa P) * (fY f)) + ((fR f) * (fX f)))) * ((fR f)
  ^ 3)) * (ks_dR_D0 P f)) * (ks_dR_D1 P f)) * (ks_dR_D2 P f))) / ((((pa P) ^ 2) + ((fR f) ^ 2)) ^ 4).

(* /repo/Src/Main/Modules/Physics/Free_Data/fd_KerrSchild_H_K0_K1_K2.c:639-703 *)
Definition ks_dddK0_D2D2D1 (P : kspar) (f : ksarg) : R :=
  ((((((((pa P) ^ 2) + ((fR f) ^ 2)) ^ 3) * ((((((((pa P) * (ks_dddY_D1D2D2 P f)) + ((fR f) *
  (ks_dddX_D1D2D2 P f))) + ((fX f) * (ks_dddR_D1D2D2 P f))) + ((ks_dR_D1 P f) * (ks_ddX_D2D2 P f))) +
  ((2 * (ks_dR_D2 P f)) * (ks_ddX_D1D2 P f))) + ((ks_ddR_D2D2 P f) * (fdX1 f))) + ((2 * (fdX2 f)) *
  (ks_ddR_D1D2 P f)))) - ((2 * ((((pa P) ^ 2) + ((fR f) ^ 2)) ^ 2)) * (((((((((((((pa P) * (fY f)) +
  ((fR f) * (fX f))) * (fR f)) * (ks_dddR_D1D2D2 P f)) + (((((pa P) * (fY f)) + ((fR f) * (fX f))) *
  (ks_dR_D1 P f)) * (ks_ddR_D2D2 P f))) + (((2 * (((pa P) * (fY f)) + ((fR f) * (fX f)))) * (ks_dR_D2
  P f)) * (ks_ddR_D1D2 P f))) + ((((((pa P) * (fdY1 f)) + ((fR f) * (fdX1 f))) + ((fX f) * (ks_dR_D1
  P f))) * (fR f)) * (ks_ddR_D2D2 P f))) + (((((pa P) * (fdY1 f)) + ((fR f) * (fdX1 f))) + ((fX f) *
  (ks_dR_D1 P f))) * ((ks_dR_D2 P f) ^ 2))) + (((2 * ((((pa P) * (fdY2 f)) + ((fR f) * (fdX2 f))) +
  ((fX f) * (ks_dR_D2 P f)))) * (fR f)) * (ks_ddR_D1D2 P f))) + (((2 * ((((pa P) * (fdY2 f)) + ((fR
  f) * (fdX2 f))) + ((fX f) * (ks_dR_D2 P f)))) * (ks_dR_D1 P f)) * (ks_dR_D2 P f))) + (((((((pa P) *
  (ks_ddY_D2D2 P f)) + ((fR f) * (ks_ddX_D2D2 P f))) + ((fX f) * (ks_ddR_D2D2 P f))) + ((2 *
  (ks_dR_D2 P f)) * (fdX2 f))) * (fR f)) * (ks_dR_D1 P f))) + (((2 * ((((((pa P) * (ks_ddY_D1D2 P f))
  + ((fR f) * (ks_ddX_D1D2 P f))) + ((fX f) * (ks_ddR_D1D2 P f))) + ((ks_dR_D1 P f) * (fdX2 f))) +
  ((ks_dR_D2 P f) * (fdX1 f)))) * (fR f)) * (ks_dR_D2 P f))))) + (((8 * (((pa P) ^ 2) + ((fR f) ^
  2))) * ((((((((((pa P) * (fY f)) + ((fR f) * (fX f))) * (fR f)) * (ks_dR_D1 P f)) * (ks_ddR_D2D2 P
  f)) + ((((2 * (((pa P) * (fY f)) + ((fR f) * (fX f)))) * (fR f)) * (ks_dR_D2 P f)) * (ks_ddR_D1D2 P
  f))) + (((3 * (((pa P) * (fY f)) + ((fR f) * (fX f)))) * (ks_dR_D1 P f)) * ((ks_dR_D2 P f) ^ 2))) +
  ((((((pa P) * (fdY1 f)) + ((fR f) * (fdX1 f))) + ((fX f) * (ks_dR_D1 P f))) * (fR f)) * ((ks_dR_D2
  P f) ^ 2))) + ((((2 * ((((pa P) * (fdY2 f)) + ((fR f) * (fdX2 f))) + ((fX f) * (ks_dR_D2 P f)))) *
  (fR f)) * (ks_dR_D1 P f)) * (ks_dR_D2 P f)))) * (fR f))) - ((((48 * (((pa P) * (fY f)) + ((fR f) *
  (fX f)))) * ((fR f) ^ 3)) * (ks_dR_D1 P f)) * ((ks_dR_D2 P f) ^ 2))) / ((((pa P) ^ 2) + ((fR f) ^
  2)) ^ 4).

(* /repo/Src/Main/Modules/Physics/Free_Data/fd_KerrSchild_H_K0_K1_K2.c:704-745 *)
Definition ks_dddK0_D1D1D1 (P : kspar) (f : ksarg) : R :=
  ((((((((pa P) ^ 2) + ((fR f) ^ 2)) ^ 3) * ((((((pa P) * (ks_dddY_D1D1D1 P f)) + ((fR f) *
  (ks_dddX_D1D1D1 P f))) + ((fX f) * (ks_dddR_D1D1D1 P f))) + ((3 * (ks_dR_D1 P f)) * (ks_ddX_D1D1 P
  f))) + ((3 * (ks_ddR_D1D1 P f)) * (fdX1 f)))) - ((2 * ((((pa P) ^ 2) + ((fR f) ^ 2)) ^ 2)) *
  (((((((((pa P) * (fY f)) + ((fR f) * (fX f))) * (fR f)) * (ks_dddR_D1D1D1 P f)) + (((3 * (((pa P) *
  (fY f)) + ((fR f) * (fX f)))) * (ks_dR_D1 P f)) * (ks_ddR_D1D1 P f))) + (((3 * ((((pa P) * (fdY1
  f)) + ((fR f) * (fdX1 f))) + ((fX f) * (ks_dR_D1 P f)))) * (fR f)) * (ks_ddR_D1D1 P f))) + ((3 *
  ((((pa P) * (fdY1 f)) + ((fR f) * (fdX1 f))) + ((fX f) * (ks_dR_D1 P f)))) * ((ks_dR_D1 P f) ^ 2)))
  + (((3 * (((((pa P) * (ks_ddY_D1D1 P f)) + ((fR f) * (ks_ddX_D1D1 P f))) + ((fX f) * (ks_ddR_D1D1 P
  f))) + ((2 * (ks_dR_D1 P f)) * (fdX1 f)))) * (fR f)) * (ks_dR_D1 P f))))) + ((((24 * (((pa P) ^ 2)
  + ((fR f) ^ 2))) * (((((((pa P) * (fY f)) + ((fR f) * (fX f))) * (fR f)) * (ks_ddR_D1D1 P f)) +
  ((((pa P) * (fY f)) + ((fR f) * (fX f))) * ((ks_dR_D1 P f) ^ 2))) + ((((((pa P) * (fdY1 f)) + ((fR
  f) * (fdX1 f))) + ((fX f) * (ks_dR_D1 P f))) * (fR f)) * (ks_dR_D1 P f)))) * (fR f)) * (ks_dR_D1 P
  f))) - (((48 * (((pa P) * (fY f)) + ((fR f) * (fX f)))) * ((fR f) ^ 3)) * ((ks_dR_D1 P f) ^ 3))) /
  ((((pa P) ^ 2) + ((fR f) ^ 2)) ^ 4).

(* /repo/Src/Main/Modules/Physics/Free_Data/fd_KerrSchild_H_K0_K1_K2.c:746-787 *)
Definition ks_dddK0_D2D2D2 (P : kspar) (f : ksarg) : R :=
  ((((((((pa P) ^ 2) + ((fR f) ^ 2)) ^ 3) * ((((((pa P) * (ks_dddY_D2D2D2 P f)) + ((fR f) *
  (ks_dddX_D2D2D2 P f))) + ((fX f) * (ks_dddR_D2D2D2 P f))) + ((3 * (ks_dR_D2 P f)) * (ks_ddX_D2D2 P
  f))) + ((3 * (ks_ddR_D2D2 P f)) * (fdX2 f)))) - ((2 * ((((pa P) ^ 2) + ((fR f) ^ 2)) ^ 2)) *
  (((((((((pa P) * (fY f)) + ((fR f) * (fX f))) * (fR f)) * (ks_dddR_D2D2D2 P f)) + (((3 * (((pa P) *
  (fY f)) + ((fR f) * (fX f)))) * (ks_dR_D2 P f)) * (ks_ddR_D2D2 P f))) + (((3 * ((((pa P) * (fdY2
  f)) + ((fR f) * (fdX2 f))) + ((fX f) * (ks_dR_D2 P f)))) * (fR f)) * (ks_ddR_D2D2 P f))) + ((3 *
  ((((pa P) * (fdY2 f)) + ((fR f) * (fdX2 f))) + ((fX f) * (ks_dR_D2 P f)))) * ((ks_dR_D2 P f) ^ 2)))
  + (((3 * (((((pa P) * (ks_ddY_D2D2 P f)) + ((fR f) * (ks_ddX_D2D2 P f))) + ((fX f) * (ks_ddR_D2D2 P
  f))) + ((2 * (ks_dR_D2 P f)) * (fdX2 f)))) * (fR f)) * (ks_dR_D2 P f))))) + ((((24 * (((pa P) ^ 2)
  + ((fR f) ^ 2))) * (((((((pa P) * (fY f)) + ((fR f) * (fX f))) * (fR f)) * (ks_ddR_D2D2 P f)) +
  ((((pa P) * (fY f)) + ((fR f) * (fX f))) * ((ks_dR_D2 P f) ^ 2))) + ((((((pa P) * (fdY2 f)) + ((fR
  f) * (fdX2 f))) + ((fX f) * (ks_dR_D2 P f))) * (fR f)) * (ks_dR_D2 P f)))) * (fR f)) * (ks_dR_D2 P
  f))) - (((48 * (((pa P) * (fY f)) + ((fR f) * (fX f)))) * ((fR f) ^ 3)) * ((ks_dR_D2 P f) ^ 3))) /
  ((((pa P) ^ 2) + ((fR f) ^ 2)) ^ 4).

(* /repo/Src/Main/Modules/Physics/Free_Data/fd_KerrSchild_H_K0_K1_K2.c:788-852 *)
Definition ks_dddK0_D2D2D0 (P : kspar) (f : ksarg) : R :=
  ((((((((pa P) ^ 2) + ((fR f) ^ 2)) ^ 3) * ((((((((pa P) * (ks_dddY_D0D2D2 P f)) + ((fR f) *
  (ks_dddX_D0D2D2 P f))) + ((fX f) * (ks_dddR_D0D2D2 P f))) + ((ks_dR_D0 P f) * (ks_ddX_D2D2 P f))) +
  ((2 * (ks_dR_D2 P f)) * (ks_ddX_D0D2 P f))) + ((ks_ddR_D2D2 P f) * (fdX0 f))) + ((2 * (fdX2 f)) *
  (ks_ddR_D0D2 P f)))) - ((2 * ((((pa P) ^ 2) + ((fR f) ^ 2)) ^ 2)) * (((((((((((((pa P) * (fY f)) +
  ((fR f) * (fX f))) * (fR f)) * (ks_dddR_D0D2D2 P f)) + (((((pa P) * (fY f)) + ((fR f) * (fX f))) *
  (ks_dR_D0 P f)) * (ks_ddR_D2D2 P f))) + (((2 * (((pa P) * (fY f)) + ((fR f) * (fX f)))) * (ks_dR_D2
  P f)) * (ks_ddR_D0D2 P f))) + ((((((pa P) * (fdY0 f)) + ((fR f) * (fdX0 f))) + ((fX f) * (ks_dR_D0
  P f))) * (fR f)) * (ks_ddR_D2D2 P f))) + (((((pa P) * (fdY0 f)) + ((fR f) * (fdX0 f))) + ((fX f) *
  (ks_dR_D0 P f))) * ((ks_dR_D2 P f) ^ 2))) + (((2 * ((((pa P) * (fdY2 f)) + ((fR f) * (fdX2 f))) +
  ((fX f) * (ks_dR_D2 P f)))) * (fR f)) * (ks_ddR_D0D2 P f))) + (((2 * ((((pa P) * (fdY2 f)) + ((fR
  f) * (fdX2 f))) + ((fX f) * (ks_dR_D2 P f)))) * (ks_dR_D0 P f)) * (ks_dR_D2 P f))) + (((((((pa P) *
  (ks_ddY_D2D2 P f)) + ((fR f) * (ks_ddX_D2D2 P f))) + ((fX f) * (ks_ddR_D2D2 P f))) + ((2 *
  (ks_dR_D2 P f)) * (fdX2 f))) * (fR f)) * (ks_dR_D0 P f))) + (((2 * ((((((pa P) * (ks_ddY_D0D2 P f))
  + ((fR f) * (ks_ddX_D0D2 P f))) + ((fX f) * (ks_ddR_D0D2 P f))) + ((ks_dR_D0 P f) * (fdX2 f))) +
  ((ks_dR_D2 P f) * (fdX0 f)))) * (fR f)) * (ks_dR_D2 P f))))) + (((8 * (((pa P) ^ 2) + ((fR f) ^
  2))) * ((((((((((pa P) * (fY f)) + ((fR f) * (fX f))) * (fR f)) * (ks_dR_D0 P f)) * (ks_ddR_D2D2 P
  f)) + ((((2 * (((pa P) * (fY f)) + ((fR f) * (fX f)))) * (fR f)) * (ks_dR_D2 P f)) * (ks_ddR_D0D2 P
  f))) + (((3 * (((pa P) * (fY f)) + ((fR f) * (fX f)))) * (ks_dR_D0 P f)) * ((ks_dR_D2 P f) ^ 2))) +
  ((((((pa P) * (fdY0 f)) + ((fR f) * (fdX0 f))) + ((fX f) * (ks_dR_D0 P f))) * (fR f)) * ((ks_dR_D2
  P f) ^ 2))) + ((((2 * ((((pa P) * (fdY2 f)) + ((fR f) * (fdX2 f))) + ((fX f) * (ks_dR_D2 P f)))) *
  (fR f)) * (ks_dR_D0 P f)) * (ks_dR_D2 P f)))) * (fR f))) - ((((48 * (((pa P) * (fY f)) + ((fR f) *
  (fX f)))) * ((fR f) ^ 3)) * (ks_dR_D0 P f)) * ((ks_dR_D2 P f) ^ 2))) / ((((pa P) ^ 2) + ((fR f) ^
  2)) ^ 4).

(* /repo/Src/Main/Modules/Physics/Free_Data/fd_KerrSchild_H_K0_K1_K2.c:853-917 *)
Definition ks_dddK0_D0D1D1 (P : kspar) (f : ksarg) : R :=
  ((((((((pa P) ^ 2) + ((fR f) ^ 2)) ^ 3) * ((((((((pa P) * (ks_dddY_D0D1D1 P f)) + ((fR f) *
  (ks_dddX_D0D1D1 P f))) + ((fX f) * (ks_dddR_D0D1D1 P f))) + ((ks_dR_D0 P f) * (ks_ddX_D1D1 P f))) +
  ((2 * (ks_dR_D1 P f)) * (ks_ddX_D0D1 P f))) + ((ks_ddR_D1D1 P f) * (fdX0 f))) + ((2 * (fdX1 f)) *
  (ks_ddR_D0D1 P f)))) - ((2 * ((((pa P) ^ 2) + ((fR f) ^ 2)) ^ 2)) * (((((((((((((pa P) * (fY f)) +
  ((fR f) * (fX f))) * (fR f)) * (ks_dddR_D0D1D1 P f)) + (((((pa P) * (fY f)) + ((fR f) * (fX f))) *
  (ks_dR_D0 P f)) * (ks_ddR_D1D1 P f))) + (((2 * (((pa P) * (fY f)) + ((fR f) * (fX f)))) * (ks_dR_D1
  P f)) * (ks_ddR_D0D1 P f))) + ((((((pa P) * (fdY0 f)) + ((fR f) * (fdX0 f))) + ((fX f) * (ks_dR_D0
  P f))) * (fR f)) * (ks_ddR_D1D1 P f))) + (((((pa P) * (fdY0 f)) + ((fR f) * (fdX0 f))) + ((fX f) *
  (ks_dR_D0 P f))) * ((ks_dR_D1 P f) ^ 2))) + (((2 * ((((pa P) * (fdY1 f)) + ((fR f) * (fdX1 f))) +
  ((fX f) * (ks_dR_D1 P f)))) * (fR f)) * (ks_ddR_D0D1 P f))) + (((2 * ((((pa P) * (fdY1 f)) + ((fR
  f) * (fdX1 f))) + ((fX f) * (ks_dR_D1 P f)))) * (ks_dR_D0 P f)) * (ks_dR_D1 P f))) + (((((((pa P) *
  (ks_ddY_D1D1 P f)) + ((fR f) * (ks_ddX_D1D1 P f))) + ((fX f) * (ks_ddR_D1D1 P f))) + ((2 *
  (ks_dR_D1 P f)) * (fdX1 f))) * (fR f)) * (ks_dR_D0 P f))) + (((2 * ((((((pa P) * (ks_ddY_D0D1 P f))
  + ((fR f) * (ks_ddX_D0D1 P f))) + ((fX f) * (ks_ddR_D0D1 P f))) + ((ks_dR_D0 P f) * (fdX1 f))) +
  ((ks_dR_D1 P f) * (fdX0 f)))) * (fR f)) * (ks_dR_D1 P f))))) + (((8 * (((pa P) ^ 2) + ((fR f) ^
  2))) * ((((((((((pa P) * (fY f)) + ((fR f) * (fX f))) * (fR f)) * (ks_dR_D0 P f)) * (ks_ddR_D1D1 P
  f)) + ((((2 * (((pa P) * (fY f)) + ((fR f) * (fX f)))) * (fR f)) * (ks_dR_D1 P f)) * (ks_ddR_D0D1 P
  f))) + (((3 * (((pa P) * (fY f)) + ((fR f) * (fX f)))) * (ks_dR_D0 P f)) * ((ks_dR_D1 P f) ^ 2))) +
  ((((((pa P) * (fdY0 f)) + ((fR f) * (fdX0 f))) + ((fX f) * (ks_dR_D0 P f))) * (fR f)) * ((ks_dR_D1
  P f) ^ 2))) + ((((2 * ((((pa P) * (fdY1 f)) + ((fR f) * (fdX1 f))) + ((fX f) * (ks_dR_D1 P f)))) *
  (fR f)) * (ks_dR_D0 P f)) * (ks_dR_D1 P f)))) * (fR f))) - ((((48 * (((pa P) * (fY f)) + ((fR f) *
  (fX f)))) * ((fR f) ^ 3)) * (ks_dR_D0 P f)) * ((ks_dR_D1 P f) ^ 2))) / ((((pa P) ^ 2) + ((fR f) ^
  2)) ^ 4).

(* /repo/Src/Main/Modules/Physics/Free_Data/fd_KerrSchild_H_K0_K1_K2.c:918-981 *)
Definition ks_dddK0_D0D1D0 (P : kspar) (f : ksarg) : R :=
  ((((((((pa P) ^ 2) + ((fR f) ^ 2)) ^ 3) * ((((((((pa P) * (ks_dddY_D0D0D1 P f)) + ((fR f) *
  (ks_dddX_D0D0D1 P f))) + ((fX f) * (ks_dddR_D0D0D1 P f))) + ((2 * (ks_dR_D0 P f)) * (ks_ddX_D0D1 P
  f))) + ((ks_ddR_D0D0 P f) * (fdX1 f))) + ((ks_dR_D1 P f) * (ks_ddX_D0D0 P f))) + ((2 * (fdX0 f)) *
  (ks_ddR_D0D1 P f)))) - ((2 * ((((pa P) ^ 2) + ((fR f) ^ 2)) ^ 2)) * (((((((((((((pa P) * (fY f)) +
  ((fR f) * (fX f))) * (fR f)) * (ks_dddR_D0D0D1 P f)) + (((2 * (((pa P) * (fY f)) + ((fR f) * (fX
  f)))) * (ks_dR_D0 P f)) * (ks_ddR_D0D1 P f))) + (((((pa P) * (fY f)) + ((fR f) * (fX f))) *
  (ks_ddR_D0D0 P f)) * (ks_dR_D1 P f))) + (((2 * ((((pa P) * (fdY0 f)) + ((fR f) * (fdX0 f))) + ((fX
  f) * (ks_dR_D0 P f)))) * (fR f)) * (ks_ddR_D0D1 P f))) + (((2 * ((((pa P) * (fdY0 f)) + ((fR f) *
  (fdX0 f))) + ((fX f) * (ks_dR_D0 P f)))) * (ks_dR_D0 P f)) * (ks_dR_D1 P f))) + ((((((pa P) * (fdY1
  f)) + ((fR f) * (fdX1 f))) + ((fX f) * (ks_dR_D1 P f))) * (fR f)) * (ks_ddR_D0D0 P f))) + (((((pa
  P) * (fdY1 f)) + ((fR f) * (fdX1 f))) + ((fX f) * (ks_dR_D1 P f))) * ((ks_dR_D0 P f) ^ 2))) +
  (((((((pa P) * (ks_ddY_D0D0 P f)) + ((fR f) * (ks_ddX_D0D0 P f))) + ((fX f) * (ks_ddR_D0D0 P f))) +
  ((2 * (ks_dR_D0 P f)) * (fdX0 f))) * (fR f)) * (ks_dR_D1 P f))) + (((2 * ((((((pa P) * (ks_ddY_D0D1
  P f)) + ((fR f) * (ks_ddX_D0D1 P f))) + ((fX f) * (ks_ddR_D0D1 P f))) + ((ks_dR_D0 P f) * (fdX1
  f))) + ((ks_dR_D1 P f) * (fdX0 f)))) * (fR f)) * (ks_dR_D0 P f))))) + (((8 * (((pa P) ^ 2) + ((fR
  f) ^ 2))) * ((((((((2 * (((pa P) * (fY f)) + ((fR f) * (fX f)))) * (fR f)) * (ks_dR_D0 P f)) *
  (ks_ddR_D0D1 P f)) + ((((((pa P) * (fY f)) + ((fR f) * (fX f))) * (fR f)) * (ks_ddR_D0D0 P f)) *
  (ks_dR_D1 P f))) + (((3 * (((pa P) * (fY f)) + ((fR f) * (fX f)))) * ((ks_dR_D0 P f) ^ 2)) *
  (ks_dR_D1 P f))) + ((((2 * ((((pa P) * (fdY0 f)) + ((fR f) * (fdX0 f))) + ((fX f) * (ks_dR_D0 P
  f)))) * (fR f)) * (ks_dR_D0 P f)) * (ks_dR_D1 P f))) + ((((((pa P) * (fdY1 f)) + ((fR f) * (fdX1
  f))) + ((fX f) * (ks_dR_D1 P f))) * (fR f)) * ((ks_dR_D0 P f) ^ 2)))) * (fR f))) - ((((48 * (((pa
  P) * (fY f)) + ((fR f) * (fX f)))) * ((fR f) ^ 3)) * ((ks_dR_D0 P f) ^ 2)) * (ks_dR_D1 P f))) /
  ((((pa P) ^ 2) + ((fR f) ^ 2)) ^ 4).

(* /repo/Src/Main/Modules/Physics/Free_Data/fd_KerrSchild_H_K0_K1_K2.c:982-1045 *)
Definition ks_dddK0_D1D1D2 (P : kspar) (f : ksarg) : R :=
  ((((((((pa P) ^ 2) + ((fR f) ^ 2)) ^ 3) * ((((((((pa P) * (ks_dddY_D1D1D2 P f)) + ((fR f) *
  (ks_dddX_D1D1D2 P f))) + ((fX f) * (ks_dddR_D1D1D2 P f))) + ((2 * (ks_dR_D1 P f)) * (ks_ddX_D1D2 P
  f))) + ((ks_ddR_D1D1 P f) * (fdX2 f))) + ((ks_dR_D2 P f) * (ks_ddX_D1D1 P f))) + ((2 * (fdX1 f)) *
  (ks_ddR_D1D2 P f)))) - ((2 * ((((pa P) ^ 2) + ((fR f) ^ 2)) ^ 2)) * (((((((((((((pa P) * (fY f)) +
  ((fR f) * (fX f))) * (fR f)) * (ks_dddR_D1D1D2 P f)) + (((2 * (((pa P) * (fY f)) + ((fR f) * (fX
  f)))) * (ks_dR_D1 P f)) * (ks_ddR_D1D2 P f))) + (((((pa P) * (fY f)) + ((fR f) * (fX f))) *
  (ks_ddR_D1D1 P f)) * (ks_dR_D2 P f))) + (((2 * ((((pa P) * (fdY1 f)) + ((fR f) * (fdX1 f))) + ((fX
  f) * (ks_dR_D1 P f)))) * (fR f)) * (ks_ddR_D1D2 P f))) + (((2 * ((((pa P) * (fdY1 f)) + ((fR f) *
  (fdX1 f))) + ((fX f) * (ks_dR_D1 P f)))) * (ks_dR_D1 P f)) * (ks_dR_D2 P f))) + ((((((pa P) * (fdY2
  f)) + ((fR f) * (fdX2 f))) + ((fX f) * (ks_dR_D2 P f))) * (fR f)) * (ks_ddR_D1D1 P f))) + (((((pa
  P) * (fdY2 f)) + ((fR f) * (fdX2 f))) + ((fX f) * (ks_dR_D2 P f))) * ((ks_dR_D1 P f) ^ 2))) +
  (((((((pa P) * (ks_ddY_D1D1 P f)) + ((fR f) * (ks_ddX_D1D1 P f))) + ((fX f) * (ks_ddR_D1D1 P f))) +
  ((2 * (ks_dR_D1 P f)) * (fdX1 f))) * (fR f)) * (ks_dR_D2 P f))) + (((2 * ((((((pa P) * (ks_ddY_D1D2
  P f)) + ((fR f) * (ks_ddX_D1D2 P f))) + ((fX f) * (ks_ddR_D1D2 P f))) + ((ks_dR_D1 P f) * (fdX2
  f))) + ((ks_dR_D2 P f) * (fdX1 f)))) * (fR f)) * (ks_dR_D1 P f))))) + (((8 * (((pa P) ^ 2) + ((fR
  f) ^ 2))) * ((((((((2 * (((pa P) * (fY f)) + ((fR f) * (fX f)))) * (fR f)) * (ks_dR_D1 P f)) *
  (ks_ddR_D1D2 P f)) + ((((((pa P) * (fY f)) + ((fR f) * (fX f))) * (fR f)) * (ks_ddR_D1D1 P f)) *
  (ks_dR_D2 P f))) + (((3 * (((pa P) * (fY f)) + ((fR f) * (fX f)))) * ((ks_dR_D1 P f) ^ 2)) *
  (ks_dR_D2 P f))) + ((((2 * ((((pa P) * (fdY1 f)) + ((fR f) * (fdX1 f))) + ((fX f) * (ks_dR_D1 P
  f)))) * (fR f)) * (ks_dR_D1 P f)) * (ks_dR_D2 P f))) + ((((((pa P) * (fdY2 f)) + ((fR f) * (fdX2
  f))) + ((fX f) * (ks_dR_D2 P f))) * (fR f)) * ((ks_dR_D1 P f) ^ 2)))) * (fR f))) - ((((48 * (((pa
  P) * (fY f)) + ((fR f) * (fX f)))) * ((fR f) ^ 3)) * ((ks_dR_D1 P f) ^ 2)) * (ks_dR_D2 P f))) /
  ((((pa P) ^ 2) + ((fR f) ^ 2)) ^ 4).

(* /repo/Src/Main/Modules/Physics/Free_Data/fd_KerrSchild_H_K0_K1_K2.c:1046-1134 *)
Definition ks_dddK0_D0D1D2 (P : kspar) (f : ksarg) : R :=
  ((((((((pa P) ^ 2) + ((fR f) ^ 2)) ^ 3) * ((((((((((pa P) * (ks_dddY_D0D1D2 P f)) + ((fR f) *
  (ks_dddX_D0D1D2 P f))) + ((fX f) * (ks_dddR_D0D1D2 P f))) + ((ks_dR_D0 P f) * (ks_ddX_D1D2 P f))) +
  ((ks_dR_D1 P f) * (ks_ddX_D0D2 P f))) + ((ks_dR_D2 P f) * (ks_ddX_D0D1 P f))) + ((fdX0 f) *
  (ks_ddR_D1D2 P f))) + ((fdX1 f) * (ks_ddR_D0D2 P f))) + ((fdX2 f) * (ks_ddR_D0D1 P f)))) - ((2 *
  ((((pa P) ^ 2) + ((fR f) ^ 2)) ^ 2)) * (((((((((((((((((pa P) * (fY f)) + ((fR f) * (fX f))) * (fR
  f)) * (ks_dddR_D0D1D2 P f)) + (((((pa P) * (fY f)) + ((fR f) * (fX f))) * (ks_dR_D0 P f)) *
  (ks_ddR_D1D2 P f))) + (((((pa P) * (fY f)) + ((fR f) * (fX f))) * (ks_dR_D1 P f)) * (ks_ddR_D0D2 P
  f))) + (((((pa P) * (fY f)) + ((fR f) * (fX f))) * (ks_dR_D2 P f)) * (ks_ddR_D0D1 P f))) + ((((((pa
  P) * (fdY0 f)) + ((fR f) * (fdX0 f))) + ((fX f) * (ks_dR_D0 P f))) * (fR f)) * (ks_ddR_D1D2 P f)))
  + ((((((pa P) * (fdY0 f)) + ((fR f) * (fdX0 f))) + ((fX f) * (ks_dR_D0 P f))) * (ks_dR_D1 P f)) *
  (ks_dR_D2 P f))) + ((((((pa P) * (fdY1 f)) + ((fR f) * (fdX1 f))) + ((fX f) * (ks_dR_D1 P f))) *
  (fR f)) * (ks_ddR_D0D2 P f))) + ((((((pa P) * (fdY1 f)) + ((fR f) * (fdX1 f))) + ((fX f) *
  (ks_dR_D1 P f))) * (ks_dR_D0 P f)) * (ks_dR_D2 P f))) + ((((((pa P) * (fdY2 f)) + ((fR f) * (fdX2
  f))) + ((fX f) * (ks_dR_D2 P f))) * (fR f)) * (ks_ddR_D0D1 P f))) + ((((((pa P) * (fdY2 f)) + ((fR
  f) * (fdX2 f))) + ((fX f) * (ks_dR_D2 P f))) * (ks_dR_D0 P f)) * (ks_dR_D1 P f))) + ((((((((pa P) *
  (ks_ddY_D0D1 P f)) + ((fR f) * (ks_ddX_D0D1 P f))) + ((fX f) * (ks_ddR_D0D1 P f))) + ((ks_dR_D0 P
  f) * (fdX1 f))) + ((ks_dR_D1 P f) * (fdX0 f))) * (fR f)) * (ks_dR_D2 P f))) + ((((((((pa P) *
  (ks_ddY_D0D2 P f)) + ((fR f) * (ks_ddX_D0D2 P f))) + ((fX f) * (ks_ddR_D0D2 P f))) + ((ks_dR_D0 P
  f) * (fdX2 f))) + ((ks_dR_D2 P f) * (fdX0 f))) * (fR f)) * (ks_dR_D1 P f))) + ((((((((pa P) *
  (ks_ddY_D1D2 P f)) + ((fR f) * (ks_ddX_D1D2 P f))) + ((fX f) * (ks_ddR_D1D2 P f))) + ((ks_dR_D1 P
  f) * (fdX2 f))) + ((ks_dR_D2 P f) * (fdX1 f))) * (fR f)) * (ks_dR_D0 P f))))) + (((8 * (((pa P) ^
  2) + ((fR f) ^ 2))) * ((((((((((((pa P) * (fY f)) + ((fR f) * (fX f))) * (fR f)) * (ks_dR_D0 P f))
  * (ks_ddR_D1D2 P f)) + ((((((pa P) * (fY f)) + ((fR f) * (fX f))) * (fR f)) * (ks_dR_D1 P f)) *
  (ks_ddR_D0D2 P f))) + ((((((pa P) * (fY f)) + ((fR f) * (fX f))) * (fR f)) * (ks_dR_D2 P f)) *
  (ks_ddR_D0D1 P f))) + ((((3 * (((pa P) * (fY f)) + ((fR f) * (fX f)))) * (ks_dR_D0 P f)) *
  (ks_dR_D1 P f)) * (ks_dR_D2 P f))) + (((((((pa P) * (fdY0 f)) + ((fR f) * (fdX0 f))) + ((fX f) *
  (ks_dR_D0 P f))) * (fR f)) * (ks_dR_D1 P f)) * (ks_dR_D2 P f))) + (((((((pa P) * (fdY1 f)) + ((fR
  f) * (fdX1 f))) + ((fX f) * (ks_dR_D1 P f))) * (fR f)) * (ks_dR_D0 P f)) * (ks_dR_D2 P f))) +
  (((((((pa P) * (fdY2 f)) + ((fR f) * (fdX2 f))) + ((fX f) * (ks_dR_D2 P f))) * (fR f)) * (ks_dR_D0
  P f)) * (ks_dR_D1 P f)))) * (fR f))) - (((((48 * (((pa P) * (fY f)) + ((fR f) * (fX f)))) * ((fR f)
  ^ 3)) * (ks_dR_D0 P f)) * (ks_dR_D1 P f)) * (ks_dR_D2 P f))) / ((((pa P) ^ 2) + ((fR f) ^ 2)) ^ 4).

(* /repo/Src/Main/Modules/Physics/Free_Data/fd_KerrSchild_H_K0_K1_K2.c:1135-1199 *)
Definition ks_dddK0_D1D2D2 (P : kspar) (f : ksarg) : R :=
  ((((((((pa P) ^ 2) + ((fR f) ^ 2)) ^ 3) * ((((((((pa P) * (ks_dddY_D1D2D2 P f)) + ((fR f) *
  (ks_dddX_D1D2D2 P f))) + ((fX f) * (ks_dddR_D1D2D2 P f))) + ((ks_dR_D1 P f) * (ks_ddX_D2D2 P f))) +
  ((2 * (ks_dR_D2 P f)) * (ks_ddX_D1D2 P f))) + ((ks_ddR_D2D2 P f) * (fdX1 f))) + ((2 * (fdX2 f)) *
  (ks_ddR_D1D2 P f)))) - ((2 * ((((pa P) ^ 2) + ((fR f) ^ 2)) ^ 2)) * (((((((((((((pa P) * (fY f)) +
  ((fR f) * (fX f))) * (fR f)) * (ks_dddR_D1D2D2 P f)) + (((((pa P) * (fY f)) + ((fR f) * (fX f))) *
  (ks_dR_D1 P f)) * (ks_ddR_D2D2 P f))) + (((2 * (((pa P) * (fY f)) + ((fR f) * (fX f)))) * (ks_dR_D2
  P f)) * (ks_ddR_D1D2 P f))) + ((((((pa P) * (fdY1 f)) + ((fR f) * (fdX1 f))) + ((fX f) * (ks_dR_D1
  P f))) * (fR f)) * (ks_ddR_D2D2 P f))) + (((((pa P) * (fdY1 f)) + ((fR f) * (fdX1 f))) + ((fX f) *
  (ks_dR_D1 P f))) * ((ks_dR_D2 P f) ^ 2))) + (((2 * ((((pa P) * (fdY2 f)) + ((fR f) * (fdX2 f))) +
  ((fX f) * (ks_dR_D2 P f)))) * (fR f)) * (ks_ddR_D1D2 P f))) + (((2 * ((((pa P) * (fdY2 f)) + ((fR
  f) * (fdX2 f))) + ((fX f) * (ks_dR_D2 P f)))) * (ks_dR_D1 P f)) * (ks_dR_D2 P f))) + (((((((pa P) *
  (ks_ddY_D2D2 P f)) + ((fR f) * (ks_ddX_D2D2 P f))) + ((fX f) * (ks_ddR_D2D2 P f))) + ((2 *
  (ks_dR_D2 P f)) * (fdX2 f))) * (fR f)) * (ks_dR_D1 P f))) + (((2 * ((((((pa P) * (ks_ddY_D1D2 P f))
  + ((fR f) * (ks_ddX_D1D2 P f))) + ((fX f) * (ks_ddR_D1D2 P f))) + ((ks_dR_D1 P f) * (fdX2 f))) +
  ((ks_dR_D2 P f) * (fdX1 f)))) * (fR f)) * (ks_dR_D2 P f))))) + (((8 * (((pa P) ^ 2) + ((fR f) ^
  2))) * ((((((((((pa P) * (fY f)) + ((fR f) * (fX f))) * (fR f)) * (ks_dR_D1 P f)) * (ks_ddR_D2D2 P
  f)) + ((((2 * (((pa P) * (fY f)) + ((fR f) * (fX f)))) * (fR f)) * (ks_dR_D2 P f)) * (ks_ddR_D1D2 P
  f))) + (((3 * (((pa P) * (fY f)) + ((fR f) * (fX f)))) * (ks_dR_D1 P f)) * ((ks_dR_D2 P f) ^ 2))) +
  ((((((pa P) * (fdY1 f)) + ((fR f) * (fdX1 f))) + ((fX f) * (ks_dR_D1 P f))) * (fR f)) * ((ks_dR_D2
  P f) ^ 2))) + ((((2 * ((((pa P) * (fdY2 f)) + ((fR f) * (fdX2 f))) + ((fX f) * (ks_dR_D2 P f)))) *
  (fR f)) * (ks_dR_D1 P f)) * (ks_dR_D2 P f)))) * (fR f))) - ((((48 * (((pa P) * (fY f)) + ((fR f) *
  (fX f)))) * ((fR f) ^ 3)) * (ks_dR_D1 P f)) * ((ks_dR_D2 P f) ^ 2))) / ((((pa P) ^ 2) + ((fR f) ^
  2)) ^ 4).

(* /repo/Src/Main/Modules/Physics/Free_Data/fd_KerrSchild_H_K0_K1_K2.c:1200-1241 *)
Definition ks_dddK0_D0D0D0 (P : kspar) (f : ksarg) : R :=
  ((((((((pa P) ^ 2) + ((fR f) ^ 2)) ^ 3) * ((((((pa P) * (ks_dddY_D0D0D0 P f)) + ((fR f) *
  (ks_dddX_D0D0D0 P f))) + ((fX f) * (ks_dddR_D0D0D0 P f))) + ((3 * (ks_dR_D0 P f)) * (ks_ddX_D0D0 P
  f))) + ((3 * (ks_ddR_D0D0 P f)) * (fdX0 f)))) - ((2 * ((((pa P) ^ 2) + ((fR f) ^ 2)) ^ 2)) *
  (((((((((pa P) * (fY f)) + ((fR f) * (fX f))) * (fR f)) * (ks_dddR_D0D0D0 P f)) + (((3 * (((pa P) *
  (fY f)) + ((fR f) * (fX f)))) * (ks_dR_D0 P f)) * (ks_ddR_D0D0 P f))) + (((3 * ((((pa P) * (fdY0
  f)) + ((fR f) * (fdX0 f))) + ((fX f) * (ks_dR_D0 P f)))) * (fR f)) * (ks_ddR_D0D0 P f))) + ((3 *
  ((((pa P) * (fdY0 f)) + ((fR f) * (fdX0 f))) + ((fX f) * (ks_dR_D0 P f)))) * ((ks_dR_D0 P f) ^ 2)))
  + (((3 * (((((pa P) * (ks_ddY_D0D0 P f)) + ((fR f) * (ks_ddX_D0D0 P f))) + ((fX f) * (ks_ddR_D0D0 P
  f))) + ((2 * (ks_dR_D0 P f)) * (fdX0 f)))) * (fR f)) * (ks_dR_D0 P f))))) + ((((24 * (((pa P) ^ 2)
  + ((fR f) ^ 2))) * (((((((pa P) * (fY f)) + ((fR f) * (fX f))) * (fR f)) * (ks_ddR_D0D0 P f)) +
  ((((pa P) * (fY f)) + ((fR f) * (fX f))) * ((ks_dR_D0 P f) ^ 2))) + ((((((pa P) * (fdY0 f)) + ((fR
  f) * (fdX0 f))) + ((fX f) * (ks_dR_D0 P f))) * (fR f)) * (ks_dR_D0 P f)))) * (fR f)) * (ks_dR_D0 P
  f))) - (((48 * (((pa P) * (fY f)) + ((fR f) * (fX f)))) * ((fR f) ^ 3)) * ((ks_dR_D0 P f) ^ 3))) /
  ((((pa P) ^ 2) + ((fR f) ^ 2)) ^ 4).

(* /repo/Src/Main/Modules/Physics/Free_Data/fd_KerrSchild_H_K0_K1_K2.c:1242-1305 *)
Definition ks_dddK0_D0D0D1 (P : kspar) (f : ksarg) : R :=
  ((((((((pa P) ^ 2) + ((fR f) ^ 2)) ^ 3) * ((((((((pa P) * (ks_dddY_D0D0D1 P f)) + ((fR f) *
  (ks_dddX_D0D0D1 P f))) + ((fX f) * (ks_dddR_D0D0D1 P f))) + ((2 * (ks_dR_D0 P f)) * (ks_ddX_D0D1 P
  f))) + ((ks_ddR_D0D0 P f) * (fdX1 f))) + ((ks_dR_D1 P f) * (ks_ddX_D0D0 P f))) + ((2 * (fdX0 f)) *
  (ks_ddR_D0D1 P f)))) - ((2 * ((((pa P) ^ 2) + ((fR f) ^ 2)) ^ 2)) * (((((((((((((pa P) * (fY f)) +
  ((fR f) * (fX f))) * (fR f)) * (ks_dddR_D0D0D1 P f)) + (((2 * (((pa P) * (fY f)) + ((fR f) * (fX
  f)))) * (ks_dR_D0 P f)) * (ks_ddR_D0D1 P f))) + (((((pa P) * (fY f)) + ((fR f) * (fX f))) *
  (ks_ddR_D0D0 P f)) * (ks_dR_D1 P f))) + (((2 * ((((pa P) * (fdY0 f)) + ((fR f) * (fdX0 f))) + ((fX
  f) * (ks_dR_D0 P f)))) * (fR f)) * (ks_ddR_D0D1 P f))) + (((2 * ((((pa P) * (fdY0 f)) + ((fR f) *
  (fdX0 f))) + ((fX f) * (ks_dR_D0 P f)))) * (ks_dR_D0 P f)) * (ks_dR_D1 P f))) + ((((((pa P) * (fdY1
  f)) + ((fR f) * (fdX1 f))) + ((fX f) * (ks_dR_D1 P f))) * (fR f)) * (ks_ddR_D0D0 P f))) + (((((pa
  P) * (fdY1 f)) + ((fR f) * (fdX1 f))) + ((fX f) * (ks_dR_D1 P f))) * ((ks_dR_D0 P f) ^ 2))) +
  (((((((pa P) * (ks_ddY_D0D0 P f)) + ((fR f) * (ks_ddX_D0D0 P f))) + ((fX f) * (ks_ddR_D0D0 P f))) +
  ((2 * (ks_dR_D0 P f)) * (fdX0 f))) * (fR f)) * (ks_dR_D1 P f))) + (((2 * ((((((pa P) * (ks_ddY_D0D1
  P f)) + ((fR f) * (ks_ddX_D0D1 P f))) + ((fX f) * (ks_ddR_D0D1 P f))) + ((ks_dR_D0 P f) * (fdX1
  f))) + ((ks_dR_D1 P f) * (fdX0 f)))) * (fR f)) * (ks_dR_D0 P f))))) + (((8 * (((pa P) ^ 2) + ((fR
  f) ^ 2))) * ((((((((2 * (((pa P) * (fY f)) + ((fR f) * (fX f)))) * (fR f)) * (ks_dR_D0 P f)) *
  (ks_ddR_D0D1 P f)) + ((((((pa P) * (fY f)) + ((fR f) * (fX f))) * (fR f)) * (ks_ddR_D0D0 P f)) *
  (ks_dR_D1 P f))) + (((3 * (((pa P) * (fY f)) + ((fR f) * (fX f)))) * ((ks_dR_D0 P f) ^ 2)) *
  (ks_dR_D1 P f))) + ((((2 * ((((pa P) * (fdY0 f)) + ((fR f) * (fdX0 f))) + ((fX f) * (ks_dR_D0 P
  f)))) * (fR f)) * (ks_dR_D0 P f)) * (ks_dR_D1 P f))) + ((((((pa P) * (fdY1 f)) + ((fR f) * (fdX1
  f))) + ((fX f) * (ks_dR_D1 P f))) * (fR f)) * ((ks_dR_D0 P f) ^ 2)))) * (fR f))) - ((((48 * (((pa
  P) * (fY f)) + ((fR f) * (fX f)))) * ((fR f) ^ 3)) * ((ks_dR_D0 P f) ^ 2)) * (ks_dR_D1 P f))) /
  ((((pa P) ^ 2) + ((fR f) ^ 2)) ^ 4).

(* /repo/Src/Main/Modules/Physics/Free_Data/fd_KerrSchild_H_K0_K1_K2.c:1306-1369 *)
Definition ks_dddK0_D0D0D2 (P : kspar) (f : ksarg) : R :=
  ((((((((pa P) ^ 2) + ((fR f) ^ 2)) ^ 3) * ((((((((pa P) * (ks_dddY_D0D0D2 P f)) + ((fR f) *
  (ks_dddX_D0D0D2 P f))) + ((fX f) * (ks_dddR_D0D0D2 P f))) + ((2 * (ks_dR_D0 P f)) * (ks_ddX_D0D2 P
  f))) + ((ks_ddR_D0D0 P f) * (fdX2 f))) + ((ks_dR_D2 P f) * (ks_ddX_D0D0 P f))) + ((2 * (fdX0 f)) *
  (ks_ddR_D0D2 P f)))) - ((2 * ((((pa P) ^ 2) + ((fR f) ^ 2)) ^ 2)) * (((((((((((((pa P) * (fY f)) +
  ((fR f) * (fX f))) * (fR f)) * (ks_dddR_D0D0D2 P f)) + (((2 * (((pa P) * (fY f)) + ((fR f) * (fX
  f)))) * (ks_dR_D0 P f)) * (ks_ddR_D0D2 P f))) + (((((pa P) * (fY f)) + ((fR f) * (fX f))) *
  (ks_ddR_D0D0 P f)) * (ks_dR_D2 P f))) + (((2 * ((((pa P) * (fdY0 f)) + ((fR f) * (fdX0 f))) + ((fX
  f) * (ks_dR_D0 P f)))) * (fR f)) * (ks_ddR_D0D2 P f))) + (((2 * ((((pa P) * (fdY0 f)) + ((fR f) *
  (fdX0 f))) + ((fX f) * (ks_dR_D0 P f)))) * (ks_dR_D0 P f)) * (ks_dR_D2 P f))) + ((((((pa P) * (fdY2
  f)) + ((fR f) * (fdX2 f))) + ((fX f) * (ks_dR_D2 P f))) * (fR f)) * (ks_ddR_D0D0 P f))) + (((((pa
  P) * (fdY2 f)) + ((fR f) * (fdX2 f))) + ((fX f) * (ks_dR_D2 P f))) * ((ks_dR_D0 P f) ^ 2))) +
  (((((((pa P) * (ks_ddY_D0D0 P f)) + ((fR f) * (ks_ddX_D0D0 P f))) + ((fX f) * (ks_ddR_D0D0 P f))) +
  ((2 * (ks_dR_D0 P f)) * (fdX0 f))) * (fR f)) * (ks_dR_D2 P f))) + (((2 * ((((((pa P) * (ks_ddY_D0D2
  P f)) + ((fR f) * (ks_ddX_D0D2 P f))) + ((fX f) * (ks_ddR_D0D2 P f))) + ((ks_dR_D0 P f) * (fdX2
  f))) + ((ks_dR_D2 P f) * (fdX0 f)))) * (fR f)) * (ks_dR_D0 P f))))) + (((8 * (((pa P) ^ 2) + ((fR
  f) ^ 2))) * ((((((((2 * (((pa P) * (fY f)) + ((fR f) * (fX f)))) * (fR f)) * (ks_dR_D0 P f)) *
  (ks_ddR_D0D2 P f)) + ((((((pa P) * (fY f)) + ((fR f) * (fX f))) * (fR f)) * (ks_ddR_D0D0 P f)) *
  (ks_dR_D2 P f))) + (((3 * (((pa P) * (fY f)) + ((fR f) * (fX f)))) * ((ks_dR_D0 P f) ^ 2)) *
  (ks_dR_D2 P f))) + ((((2 * ((((pa P) * (fdY0 f)) + ((fR f) * (fdX0 f))) + ((fX f) * (ks_dR_D0 P
  f)))) * (fR f)) * (ks_dR_D0 P f)) * (ks_dR_D2 P f))) + ((((((pa P) * (fdY2 f)) + ((fR f) * (fdX2
  f))) + ((fX f) * (ks_dR_D2 P f))) * (fR f)) * ((ks_dR_D0 P f) ^ 2)))) * (fR f))) - ((((48 * (((pa
  P) * (fY f)) + ((fR f) * (fX f)))) * ((fR f) ^ 3)) * ((ks_dR_D0 P f) ^ 2)) * (ks_dR_D2 P f))) /
  ((((pa P) ^ 2) + ((fR f) ^ 2)) ^ 4).

(* /repo/Src/Main/Modules/Physics/Free_Data/fd_KerrSchild_H_K0_K1_K2.c:1370-1458 *)
Definition ks_dddK0_D1D2D0 (P : kspar) (f : ksarg) : R :=
  ((((((((pa P) ^ 2) + ((fR f) ^ 2)) ^ 3) * ((((((((((pa P) * (ks_dddY_D0D1D2 P f)) + ((fR f) *
  (ks_dddX_D0D1D2 P f))) + ((fX f) * (ks_dddR_D0D1D2 P f))) + ((ks_dR_D0 P f) * (ks_ddX_D1D2 P f))) +
  ((ks_dR_D1 P f) * (ks_ddX_D0D2 P f))) + ((ks_dR_D2 P f) * (ks_ddX_D0D1 P f))) + ((fdX0 f) *
  (ks_ddR_D1D2 P f))) + ((fdX1 f) * (ks_ddR_D0D2 P f))) + ((fdX2 f) * (ks_ddR_D0D1 P f)))) - ((2 *
  ((((pa P) ^ 2) + ((fR f) ^ 2)) ^ 2)) * (((((((((((((((((pa P) * (fY f)) + ((fR f) * (fX f))) * (fR
  f)) * (ks_dddR_D0D1D2 P f)) + (((((pa P) * (fY f)) + ((fR f) * (fX f))) * (ks_dR_D0 P f)) *
  (ks_ddR_D1D2 P f))) + (((((pa P) * (fY f)) + ((fR f) * (fX f))) * (ks_dR_D1 P f)) * (ks_ddR_D0D2 P
  f))) + (((((pa P) * (fY f)) + ((fR f) * (fX f))) * (ks_dR_D2 P f)) * (ks_ddR_D0D1 P f))) + ((((((pa
  P) * (fdY0 f)) + ((fR f) * (fdX0 f))) + ((fX f) * (ks_dR_D0 P f))) * (fR f)) * (ks_ddR_D1D2 P f)))
  + ((((((pa P) * (fdY0 f)) + ((fR f) * (fdX0 f))) + ((fX f) * (ks_dR_D0 P f))) * (ks_dR_D1 P f)) *
  (ks_dR_D2 P f))) + ((((((pa P) * (fdY1 f)) + ((fR f) * (fdX1 f))) + ((fX f) * (ks_dR_D1 P f))) *
  (fR f)) * (ks_ddR_D0D2 P f))) + ((((((pa P) * (fdY1 f)) + ((fR f) * (fdX1 f))) + ((fX f) *
  (ks_dR_D1 P f))) * (ks_dR_D0 P f)) * (ks_dR_D2 P f))) + ((((((pa P) * (fdY2 f)) + ((fR f) * (fdX2
  f))) + ((fX f) * (ks_dR_D2 P f))) * (fR f)) * (ks_ddR_D0D1 P f))) + ((((((pa P) * (fdY2 f)) + ((fR
  f) * (fdX2 f))) + ((fX f) * (ks_dR_D2 P f))) * (ks_dR_D0 P f)) * (ks_dR_D1 P f))) + ((((((((pa P) *
  (ks_ddY_D0D1 P f)) + ((fR f) * (ks_ddX_D0D1 P f))) + ((fX f) * (ks_ddR_D0D1 P f))) + ((ks_dR_D0 P
  f) * (fdX1 f))) + ((ks_dR_D1 P f) * (fdX0 f))) * (fR f)) * (ks_dR_D2 P f))) + ((((((((pa P) *
  (ks_ddY_D0D2 P f)) + ((fR f) * (ks_ddX_D0D2 P f))) + ((fX f) * (ks_ddR_D0D2 P f))) + ((ks_dR_D0 P
  f) * (fdX2 f))) + ((ks_dR_D2 P f) * (fdX0 f))) * (fR f)) * (ks_dR_D1 P f))) + ((((((((pa P) *
  (ks_ddY_D1D2 P f)) + ((fR f) * (ks_ddX_D1D2 P f))) + ((fX f) * (ks_ddR_D1D2 P f))) + ((ks_dR_D1 P
  f) * (fdX2 f))) + ((ks_dR_D2 P f) * (fdX1 f))) * (fR f)) * (ks_dR_D0 P f))))) + (((8 * (((pa P) ^
  2) + ((fR f) ^ 2))) * ((((((((((((pa P) * (fY f)) + ((fR f) * (fX f))) * (fR f)) * (ks_dR_D0 P f))
  * (ks_ddR_D1D2 P f)) + ((((((pa P) * (fY f)) + ((fR f) * (fX f))) * (fR f)) * (ks_dR_D1 P f)) *
  (ks_ddR_D0D2 P f))) + ((((((pa P) * (fY f)) + ((fR f) * (fX f))) * (fR f)) * (ks_dR_D2 P f)) *
  (ks_ddR_D0D1 P f))) + ((((3 * (((pa P) * (fY f)) + ((fR f) * (fX f)))) * (ks_dR_D0 P f)) *
  (ks_dR_D1 P f)) * (ks_dR_D2 P f))) + (((((((pa P) * (fdY0 f)) + ((fR f) * (fdX0 f))) + ((fX f) *
  (ks_dR_D0 P f))) * (fR f)) * (ks_dR_D1 P f)) * (ks_dR_D2 P f))) + (((((((pa P) * (fdY1 f)) + ((fR
  f) * (fdX1 f))) + ((fX f) * (ks_dR_D1 P f))) * (fR f)) * (ks_dR_D0 P f)) * (ks_dR_D2 P f))) +
  (((((((pa P) * (fdY2 f)) + ((fR f) * (fdX2 f))) + ((fX f) * (ks_dR_D2 P f))) * (fR f)) * (ks_dR_D0
  P f)) * (ks_dR_D1 P f)))) * (fR f))) - (((((48 * (((pa P) * (fY f)) + ((fR f) * (fX f)))) * ((fR f)
  ^ 3)) * (ks_dR_D0 P f)) * (ks_dR_D1 P f)) * (ks_dR_D2 P f))) / ((((pa P) ^ 2) + ((fR f) ^ 2)) ^ 4).

(* /repo/Src/Main/Modules/Physics/Free_Data/fd_KerrSchild_H_K0_K1_K2.c:1459-1522 *)
Definition ks_dddK0_D1D2D1 (P : kspar) (f : ksarg) : R :=
  ((((((((pa P) ^ 2) + ((fR f) ^ 2)) ^ 3) * ((((((((pa P) * (ks_dddY_D1D1D2 P f)) + ((fR f) *
  (ks_dddX_D1D1D2 P f))) + ((fX f) * (ks_dddR_D1D1D2 P f))) + ((2 * (ks_dR_D1 P f)) * (ks_ddX_D1D2 P
  f))) + ((ks_ddR_D1D1 P f) * (fdX2 f))) + ((ks_dR_D2 P f) * (ks_ddX_D1D1 P f))) + ((2 * (fdX1 f)) *
  (ks_ddR_D1D2 P f)))) - ((2 * ((((pa P) ^ 2) + ((fR f) ^ 2)) ^ 2)) * (((((((((((((pa P) * (fY f)) +
  ((fR f) * (fX f))) * (fR f)) * (ks_dddR_D1D1D2 P f)) + (((2 * (((pa P) * (fY f)) + ((fR f) * (fX
  f)))) * (ks_dR_D1 P f)) * (ks_ddR_D1D2 P f))) + (((((pa P) * (fY f)) + ((fR f) * (fX f))) *
  (ks_ddR_D1D1 P f)) * (ks_dR_D2 P f))) + (((2 * ((((pa P) * (fdY1 f)) + ((fR f) * (fdX1 f))) + ((fX
  f) * (ks_dR_D1 P f)))) * (fR f)) * (ks_ddR_D1D2 P f))) + (((2 * ((((pa P) * (fdY1 f)) + ((fR f) *
  (fdX1 f))) + ((fX f) * (ks_dR_D1 P f)))) * (ks_dR_D1 P f)) * (ks_dR_D2 P f))) + ((((((pa P) * (fdY2
  f)) + ((fR f) * (fdX2 f))) + ((fX f) * (ks_dR_D2 P f))) * (fR f)) * (ks_ddR_D1D1 P f))) + (((((pa
  P) * (fdY2 f)) + ((fR f) * (fdX2 f))) + ((fX f) * (ks_dR_D2 P f))) * ((ks_dR_D1 P f) ^ 2))) +
  (((((((pa P) * (ks_ddY_D1D1 P f)) + ((fR f) * (ks_ddX_D1D1 P f))) + ((fX f) * (ks_ddR_D1D1 P f))) +
  ((2 * (ks_dR_D1 P f)) * (fdX1 f))) * (fR f)) * (ks_dR_D2 P f))) + (((2 * ((((((pa P) * (ks_ddY_D1D2
  P f)) + ((fR f) * (ks_ddX_D1D2 P f))) + ((fX f) * (ks_ddR_D1D2 P f))) + ((ks_dR_D1 P f) * (fdX2
  f))) + ((ks_dR_D2 P f) * (fdX1 f)))) * (fR f)) * (ks_dR_D1 P f))))) + (((8 * (((pa P) ^ 2) + ((fR
  f) ^ 2))) * ((((((((2 * (((pa P) * (fY f)) + ((fR f) * (fX f)))) * (fR f)) * (ks_dR_D1 P f)) *
  (ks_ddR_D1D2 P f)) + ((((((pa P) * (fY f)) + ((fR f) * (fX f))) * (fR f)) * (ks_ddR_D1D1 P f)) *
  (ks_dR_D2 P f))) + (((3 * (((pa P) * (fY f)) + ((fR f) * (fX f)))) * ((ks_dR_D1 P f) ^ 2)) *
  (ks_dR_D2 P f))) + ((((2 * ((((pa P) * (fdY1 f)) + ((fR f) * (fdX1 f))) + ((fX f) * (ks_dR_D1 P
  f)))) * (fR f)) * (ks_dR_D1 P f)) * (ks_dR_D2 P f))) + ((((((pa P) * (fdY2 f)) + ((fR f) * (fdX2
  f))) + ((fX f) * (ks_dR_D2 P f))) * (fR f)) * ((ks_dR_D1 P f) ^ 2)))) * (fR f))) - ((((48 * (((pa
  P) * (fY f)) + ((fR f) * (fX f)))) * ((fR f) ^ 3)) * ((ks_dR_D1 P f) ^ 2)) * (ks_dR_D2 P f))) /
  ((((pa P) ^ 2) + ((fR f) ^ 2)) ^ 4).

(* /repo/Src/Main/Modules/Physics/Free_Data/fd_KerrSchild_H_K0_K1_K2.c:1762-1850 *)
Definition ks_dddK1_D0D2D1 (P : kspar) (f : ksarg) : R :=
  ((((((((pa P) ^ 2) + ((fR f) ^ 2)) ^ 3) * ((((((((((- (pa P)) * (ks_dddX_D0D1D2 P f)) + ((fR f) *
  (ks_dddY_D0D1D2 P f))) + ((fY f) * (ks_dddR_D0D1D2 P f))) + ((ks_dR_D0 P f) * (ks_ddY_D1D2 P f))) +
  ((ks_dR_D1 P f) * (ks_ddY_D0D2 P f))) + ((ks_dR_D2 P f) * (ks_ddY_D0D1 P f))) + ((fdY0 f) *
  (ks_ddR_D1D2 P f))) + ((fdY1 f) * (ks_ddR_D0D2 P f))) + ((fdY2 f) * (ks_ddR_D0D1 P f)))) + ((2 *
  ((((pa P) ^ 2) + ((fR f) ^ 2)) ^ 2)) * (((((((((((((((((pa P) * (fX f)) - ((fR f) * (fY f))) * (fR
  f)) * (ks_dddR_D0D1D2 P f)) + (((((pa P) * (fX f)) - ((fR f) * (fY f))) * (ks_dR_D0 P f)) *
  (ks_ddR_D1D2 P f))) + (((((pa P) * (fX f)) - ((fR f) * (fY f))) * (ks_dR_D1 P f)) * (ks_ddR_D0D2 P
  f))) + (((((pa P) * (fX f)) - ((fR f) * (fY f))) * (ks_dR_D2 P f)) * (ks_ddR_D0D1 P f))) - ((((((-
  (pa P)) * (fdX0 f)) + ((fR f) * (fdY0 f))) + ((fY f) * (ks_dR_D0 P f))) * (fR f)) * (ks_ddR_D1D2 P
  f))) - ((((((- (pa P)) * (fdX0 f)) + ((fR f) * (fdY0 f))) + ((fY f) * (ks_dR_D0 P f))) * (ks_dR_D1
  P f)) * (ks_dR_D2 P f))) - ((((((- (pa P)) * (fdX1 f)) + ((fR f) * (fdY1 f))) + ((fY f) * (ks_dR_D1
  P f))) * (fR f)) * (ks_ddR_D0D2 P f))) - ((((((- (pa P)) * (fdX1 f)) + ((fR f) * (fdY1 f))) + ((fY
  f) * (ks_dR_D1 P f))) * (ks_dR_D0 P f)) * (ks_dR_D2 P f))) - ((((((- (pa P)) * (fdX2 f)) + ((fR f)
  * (fdY2 f))) + ((fY f) * (ks_dR_D2 P f))) * (fR f)) * (ks_ddR_D0D1 P f))) - ((((((- (pa P)) * (fdX2
  f)) + ((fR f) * (fdY2 f))) + ((fY f) * (ks_dR_D2 P f))) * (ks_dR_D0 P f)) * (ks_dR_D1 P f))) -
  ((((((((- (pa P)) * (ks_ddX_D0D1 P f)) + ((fR f) * (ks_ddY_D0D1 P f))) + ((fY f) * (ks_ddR_D0D1 P
  f))) + ((ks_dR_D0 P f) * (fdY1 f))) + ((ks_dR_D1 P f) * (fdY0 f))) * (fR f)) * (ks_dR_D2 P f))) -
  ((((((((- (pa P)) * (ks_ddX_D0D2 P f)) + ((fR f) * (ks_ddY_D0D2 P f))) + ((fY f) * (ks_ddR_D0D2 P
  f))) + ((ks_dR_D0 P f) * (fdY2 f))) + ((ks_dR_D2 P f) * (fdY0 f))) * (fR f)) * (ks_dR_D1 P f))) -
  ((((((((- (pa P)) * (ks_ddX_D1D2 P f)) + ((fR f) * (ks_ddY_D1D2 P f))) + ((fY f) * (ks_ddR_D1D2 P
  f))) + ((ks_dR_D1 P f) * (fdY2 f))) + ((ks_dR_D2 P f) * (fdY1 f))) * (fR f)) * (ks_dR_D0 P f))))) +
  (((8 * (((pa P) ^ 2) + ((fR f) ^ 2))) * ((((((((((- (((pa P) * (fX f)) - ((fR f) * (fY f)))) * (fR
  f)) * (ks_dR_D0 P f)) * (ks_ddR_D1D2 P f)) - ((((((pa P) * (fX f)) - ((fR f) * (fY f))) * (fR f)) *
  (ks_dR_D1 P f)) * (ks_ddR_D0D2 P f))) - ((((((pa P) * (fX f)) - ((fR f) * (fY f))) * (fR f)) *
  (ks_dR_D2 P f)) * (ks_ddR_D0D1 P f))) - ((((3 * (((pa P) * (fX f)) - ((fR f) * (fY f)))) *
  (ks_dR_D0 P f)) * (ks_dR_D1 P f)) * (ks_dR_D2 P f))) + (((((((- (pa P)) * (fdX0 f)) + ((fR f) *
  (fdY0 f))) + ((fY f) * (ks_dR_D0 P f))) * (fR f)) * (ks_dR_D1 P f)) * (ks_dR_D2 P f))) + (((((((-
  (pa P)) * (fdX1 f)) + ((fR f) * (fdY1 f))) + ((fY f) * (ks_dR_D1 P f))) * (fR f)) * (ks_dR_D0 P f))
  * (ks_dR_D2 P f))) + (((((((- (pa P)) * (fdX2 f)) + ((fR f) * (fdY2 f))) + ((fY f) * (ks_dR_D2 P
  f))) * (fR f)) * (ks_dR_D0 P f)) * (ks_dR_D1 P f)))) * (fR f))) + (((((48 * (((pa P) * (fX f)) -
  ((fR f) * (fY f)))) * ((fR f) ^ 3)) * (ks_dR_D0 P f)) * (ks_dR_D1 P f)) * (ks_dR_D2 P f))) / ((((pa
  P) ^ 2) + ((fR f) ^ 2)) ^ 4).

(* /repo/Src/Main/Modules/Physics/Free_Data/fd_KerrSchild_H_K0_K1_K2.c:1851-1915 *)
Definition ks_dddK1_D0D2D0 (P : kspar) (f : ksarg) : R :=
  ((((((((pa P) ^ 2) + ((fR f) ^ 2)) ^ 3) * ((((((((- (pa P)) * (ks_dddX_D0D0D2 P f)) + ((fR f) *
  (ks_dddY_D0D0D2 P f))) + ((fY f) * (ks_dddR_D0D0D2 P f))) + ((2 * (ks_dR_D0 P f)) * (ks_ddY_D0D2 P
  f))) + ((ks_ddR_D0D0 P f) * (fdY2 f))) + ((ks_dR_D2 P f) * (ks_ddY_D0D0 P f))) + ((2 * (fdY0 f)) *
  (ks_ddR_D0D2 P f)))) + ((2 * ((((pa P) ^ 2) + ((fR f) ^ 2)) ^ 2)) * (((((((((((((pa P) * (fX f)) -
  ((fR f) * (fY f))) * (fR f)) * (ks_dddR_D0D0D2 P f)) + (((2 * (((pa P) * (fX f)) - ((fR f) * (fY
  f)))) * (ks_dR_D0 P f)) * (ks_ddR_D0D2 P f))) + (((((pa P) * (fX f)) - ((fR f) * (fY f))) *
  (ks_ddR_D0D0 P f)) * (ks_dR_D2 P f))) - (((2 * ((((- (pa P)) * (fdX0 f)) + ((fR f) * (fdY0 f))) +
  ((fY f) * (ks_dR_D0 P f)))) * (fR f)) * (ks_ddR_D0D2 P f))) - (((2 * ((((- (pa P)) * (fdX0 f)) +
  ((fR f) * (fdY0 f))) + ((fY f) * (ks_dR_D0 P f)))) * (ks_dR_D0 P f)) * (ks_dR_D2 P f))) - ((((((-
  (pa P)) * (fdX2 f)) + ((fR f) * (fdY2 f))) + ((fY f) * (ks_dR_D2 P f))) * (fR f)) * (ks_ddR_D0D0 P
  f))) + (((((pa P) * (fdX2 f)) - ((fR f) * (fdY2 f))) - ((fY f) * (ks_dR_D2 P f))) * ((ks_dR_D0 P f)
  ^ 2))) - (((((((- (pa P)) * (ks_ddX_D0D0 P f)) + ((fR f) * (ks_ddY_D0D0 P f))) + ((fY f) *
  (ks_ddR_D0D0 P f))) + ((2 * (ks_dR_D0 P f)) * (fdY0 f))) * (fR f)) * (ks_dR_D2 P f))) - (((2 *
  ((((((- (pa P)) * (ks_ddX_D0D2 P f)) + ((fR f) * (ks_ddY_D0D2 P f))) + ((fY f) * (ks_ddR_D0D2 P
  f))) + ((ks_dR_D0 P f) * (fdY2 f))) + ((ks_dR_D2 P f) * (fdY0 f)))) * (fR f)) * (ks_dR_D0 P f)))))
  + (((8 * (((pa P) ^ 2) + ((fR f) ^ 2))) * (((((((((- 2) * (((pa P) * (fX f)) - ((fR f) * (fY f))))
  * (fR f)) * (ks_dR_D0 P f)) * (ks_ddR_D0D2 P f)) - ((((((pa P) * (fX f)) - ((fR f) * (fY f))) * (fR
  f)) * (ks_ddR_D0D0 P f)) * (ks_dR_D2 P f))) - (((3 * (((pa P) * (fX f)) - ((fR f) * (fY f)))) *
  ((ks_dR_D0 P f) ^ 2)) * (ks_dR_D2 P f))) + ((((2 * ((((- (pa P)) * (fdX0 f)) + ((fR f) * (fdY0 f)))
  + ((fY f) * (ks_dR_D0 P f)))) * (fR f)) * (ks_dR_D0 P f)) * (ks_dR_D2 P f))) + ((((((- (pa P)) *
  (fdX2 f)) + ((fR f) * (fdY2 f))) + ((fY f) * (ks_dR_D2 P f))) * (fR f)) * ((ks_dR_D0 P f) ^ 2)))) *
  (fR f))) + ((((48 * (((pa P) * (fX f)) - ((fR f) * (fY f)))) * ((fR f) ^ 3)) * ((ks_dR_D0 P f) ^
  2)) * (ks_dR_D2 P f))) / ((((pa P) ^ 2) + ((fR f) ^ 2)) ^ 4).

(* /repo/Src/Main/Modules/Physics/Free_Data/fd_KerrSchild_H_K0_K1_K2.c:1916-1957 *)
Definition ks_dddK1_D1D1D1 (P : kspar) (f : ksarg) : R :=
  ((((((((pa P) ^ 2) + ((fR f) ^ 2)) ^ 3) * ((((((- (pa P)) * (ks_dddX_D1D1D1 P f)) + ((fR f) *
  (ks_dddY_D1D1D1 P f))) + ((fY f) * (ks_dddR_D1D1D1 P f))) + ((3 * (ks_dR_D1 P f)) * (ks_ddY_D1D1 P
  f))) + ((3 * (ks_ddR_D1D1 P f)) * (fdY1 f)))) + ((2 * ((((pa P) ^ 2) + ((fR f) ^ 2)) ^ 2)) *
  (((((((((pa P) * (fX f)) - ((fR f) * (fY f))) * (fR f)) * (ks_dddR_D1D1D1 P f)) + (((3 * (((pa P) *
  (fX f)) - ((fR f) * (fY f)))) * (ks_dR_D1 P f)) * (ks_ddR_D1D1 P f))) - (((3 * ((((- (pa P)) *
  (fdX1 f)) + ((fR f) * (fdY1 f))) + ((fY f) * (ks_dR_D1 P f)))) * (fR f)) * (ks_ddR_D1D1 P f))) +
  ((3 * ((((pa P) * (fdX1 f)) - ((fR f) * (fdY1 f))) - ((fY f) * (ks_dR_D1 P f)))) * ((ks_dR_D1 P f)
  ^ 2))) - (((3 * (((((- (pa P)) * (ks_ddX_D1D1 P f)) + ((fR f) * (ks_ddY_D1D1 P f))) + ((fY f) *
  (ks_ddR_D1D1 P f))) + ((2 * (ks_dR_D1 P f)) * (fdY1 f)))) * (fR f)) * (ks_dR_D1 P f))))) + ((((24 *
  (((pa P) ^ 2) + ((fR f) ^ 2))) * (((((- (((pa P) * (fX f)) - ((fR f) * (fY f)))) * (fR f)) *
  (ks_ddR_D1D1 P f)) - ((((pa P) * (fX f)) - ((fR f) * (fY f))) * ((ks_dR_D1 P f) ^ 2))) + ((((((-
  (pa P)) * (fdX1 f)) + ((fR f) * (fdY1 f))) + ((fY f) * (ks_dR_D1 P f))) * (fR f)) * (ks_dR_D1 P
  f)))) * (fR f)) * (ks_dR_D1 P f))) + (((48 * (((pa P) * (fX f)) - ((fR f) * (fY f)))) * ((fR f) ^
  3)) * ((ks_dR_D1 P f) ^ 3))) / ((((pa P) ^ 2) + ((fR f) ^ 2)) ^ 4).

(* /repo/Src/Main/Modules/Physics/Free_Data/fd_KerrSchild_H_K0_K1_K2.c:1958-2023 *)
Definition ks_dddK1_D0D2D2 (P : kspar) (f : ksarg) : R :=
  ((((((((pa P) ^ 2) + ((fR f) ^ 2)) ^ 3) * ((((((((- (pa P)) * (ks_dddX_D0D2D2 P f)) + ((fR f) *
  (ks_dddY_D0D2D2 P f))) + ((fY f) * (ks_dddR_D0D2D2 P f))) + ((ks_dR_D0 P f) * (ks_ddY_D2D2 P f))) +
  ((2 * (ks_dR_D2 P f)) * (ks_ddY_D0D2 P f))) + ((ks_ddR_D2D2 P f) * (fdY0 f))) + ((2 * (fdY2 f)) *
  (ks_ddR_D0D2 P f)))) + ((2 * ((((pa P) ^ 2) + ((fR f) ^ 2)) ^ 2)) * (((((((((((((pa P) * (fX f)) -
  ((fR f) * (fY f))) * (fR f)) * (ks_dddR_D0D2D2 P f)) + (((((pa P) * (fX f)) - ((fR f) * (fY f))) *
  (ks_dR_D0 P f)) * (ks_ddR_D2D2 P f))) + (((2 * (((pa P) * (fX f)) - ((fR f) * (fY f)))) * (ks_dR_D2
  P f)) * (ks_ddR_D0D2 P f))) - ((((((- (pa P)) * (fdX0 f)) + ((fR f) * (fdY0 f))) + ((fY f) *
  (ks_dR_D0 P f))) * (fR f)) * (ks_ddR_D2D2 P f))) + (((((pa P) * (fdX0 f)) - ((fR f) * (fdY0 f))) -
  ((fY f) * (ks_dR_D0 P f))) * ((ks_dR_D2 P f) ^ 2))) - (((2 * ((((- (pa P)) * (fdX2 f)) + ((fR f) *
  (fdY2 f))) + ((fY f) * (ks_dR_D2 P f)))) * (fR f)) * (ks_ddR_D0D2 P f))) - (((2 * ((((- (pa P)) *
  (fdX2 f)) + ((fR f) * (fdY2 f))) + ((fY f) * (ks_dR_D2 P f)))) * (ks_dR_D0 P f)) * (ks_dR_D2 P f)))
  - (((((((- (pa P)) * (ks_ddX_D2D2 P f)) + ((fR f) * (ks_ddY_D2D2 P f))) + ((fY f) * (ks_ddR_D2D2 P
  f))) + ((2 * (ks_dR_D2 P f)) * (fdY2 f))) * (fR f)) * (ks_dR_D0 P f))) - (((2 * ((((((- (pa P)) *
  (ks_ddX_D0D2 P f)) + ((fR f) * (ks_ddY_D0D2 P f))) + ((fY f) * (ks_ddR_D0D2 P f))) + ((ks_dR_D0 P
  f) * (fdY2 f))) + ((ks_dR_D2 P f) * (fdY0 f)))) * (fR f)) * (ks_dR_D2 P f))))) + (((8 * (((pa P) ^
  2) + ((fR f) ^ 2))) * ((((((((- (((pa P) * (fX f)) - ((fR f) * (fY f)))) * (fR f)) * (ks_dR_D0 P
  f)) * (ks_ddR_D2D2 P f)) - ((((2 * (((pa P) * (fX f)) - ((fR f) * (fY f)))) * (fR f)) * (ks_dR_D2 P
  f)) * (ks_ddR_D0D2 P f))) - (((3 * (((pa P) * (fX f)) - ((fR f) * (fY f)))) * (ks_dR_D0 P f)) *
  ((ks_dR_D2 P f) ^ 2))) + ((((((- (pa P)) * (fdX0 f)) + ((fR f) * (fdY0 f))) + ((fY f) * (ks_dR_D0 P
  f))) * (fR f)) * ((ks_dR_D2 P f) ^ 2))) + ((((2 * ((((- (pa P)) * (fdX2 f)) + ((fR f) * (fdY2 f)))
  + ((fY f) * (ks_dR_D2 P f)))) * (fR f)) * (ks_dR_D0 P f)) * (ks_dR_D2 P f)))) * (fR f))) + ((((48 *
  (((pa P) * (fX f)) - ((fR f) * (fY f)))) * ((fR f) ^ 3)) * (ks_dR_D0 P f)) * ((ks_dR_D2 P f) ^ 2)))
  / ((((pa P) ^ 2) + ((fR f) ^ 2)) ^ 4).

(* /repo/Src/Main/Modules/Physics/Free_Data/fd_KerrSchild_H_K0_K1_K2.c:2024-2088 *)
Definition ks_dddK1_D1D1D2 (P : kspar) (f : ksarg) : R :=
  ((((((((pa P) ^ 2) + ((fR f) ^ 2)) ^ 3) * ((((((((- (pa P)) * (ks_dddX_D1D1D2 P f)) + ((fR f) *
  (ks_dddY_D1D1D2 P f))) + ((fY f) * (ks_dddR_D1D1D2 P f))) + ((2 * (ks_dR_D1 P f)) * (ks_ddY_D1D2 P
  f))) + ((ks_ddR_D1D1 P f) * (fdY2 f))) + ((ks_dR_D2 P f) * (ks_ddY_D1D1 P f))) + ((2 * (fdY1 f)) *
  (ks_ddR_D1D2 P f)))) + ((2 * ((((pa P) ^ 2) + ((fR f) ^ 2)) ^ 2)) * (((((((((((((pa P) * (fX f)) -
  ((fR f) * (fY f))) * (fR f)) * (ks_dddR_D1D1D2 P f)) + (((2 * (((pa P) * (fX f)) - ((fR f) * (fY
  f)))) * (ks_dR_D1 P f)) * (ks_ddR_D1D2 P f))) + (((((pa P) * (fX f)) - ((fR f) * (fY f))) *
  (ks_ddR_D1D1 P f)) * (ks_dR_D2 P f))) - (((2 * ((((- (pa P)) * (fdX1 f)) + ((fR f) * (fdY1 f))) +
  ((fY f) * (ks_dR_D1 P f)))) * (fR f)) * (ks_ddR_D1D2 P f))) - (((2 * ((((- (pa P)) * (fdX1 f)) +
  ((fR f) * (fdY1 f))) + ((fY f) * (ks_dR_D1 P f)))) * (ks_dR_D1 P f)) * (ks_dR_D2 P f))) - ((((((-
  (pa P)) * (fdX2 f)) + ((fR f) * (fdY2 f))) + ((fY f) * (ks_dR_D2 P f))) * (fR f)) * (ks_ddR_D1D1 P
  f))) + (((((pa P) * (fdX2 f)) - ((fR f) * (fdY2 f))) - ((fY f) * (ks_dR_D2 P f))) * ((ks_dR_D1 P f)
  ^ 2))) - (((((((- (pa P)) * (ks_ddX_D1D1 P f)) + ((fR f) * (ks_ddY_D1D1 P f))) + ((fY f) *
  (ks_ddR_D1D1 P f))) + ((2 * (ks_dR_D1 P f)) * (fdY1 f))) * (fR f)) * (ks_dR_D2 P f))) - (((2 *
  ((((((- (pa P)) * (ks_ddX_D1D2 P f)) + ((fR f) * (ks_ddY_D1D2 P f))) + ((fY f) * (ks_ddR_D1D2 P
  f))) + ((ks_dR_D1 P f) * (fdY2 f))) + ((ks_dR_D2 P f) * (fdY1 f)))) * (fR f)) * (ks_dR_D1 P f)))))
  + (((8 * (((pa P) ^ 2) + ((fR f) ^ 2))) * (((((((((- 2) * (((pa P) * (fX f)) - ((fR f) * (fY f))))
  * (fR f)) * (ks_dR_D1 P f)) * (ks_ddR_D1D2 P f)) - ((((((pa P) * (fX f)) - ((fR f) * (fY f))) * (fR
  f)) * (ks_ddR_D1D1 P f)) * (ks_dR_D2 P f))) - (((3 * (((pa P) * (fX f)) - ((fR f) * (fY f)))) *
  ((ks_dR_D1 P f) ^ 2)) * (ks_dR_D2 P f))) + ((((2 * ((((- (pa P)) * (fdX1 f)) + ((fR f) * (fdY1 f)))
  + ((fY f) * (ks_dR_D1 P f)))) * (fR f)) * (ks_dR_D1 P f)) * (ks_dR_D2 P f))) + ((((((- (pa P)) *
  (fdX2 f)) + ((fR f) * (fdY2 f))) + ((fY f) * (ks_dR_D2 P f))) * (fR f)) * ((ks_dR_D1 P f) ^ 2)))) *
  (fR f))) + ((((48 * (((pa P) * (fX f)) - ((fR f) * (fY f)))) * ((fR f) ^ 3)) * ((ks_dR_D1 P f) ^
  2)) * (ks_dR_D2 P f))) / ((((pa P) ^ 2) + ((fR f) ^ 2)) ^ 4).

(* /repo/Src/Main/Modules/Physics/Free_Data/fd_KerrSchild_H_K0_K1_K2.c:2089-2154 *)
Definition ks_dddK1_D1D1D0 (P : kspar) (f : ksarg) : R :=
  ((((((((pa P) ^ 2) + ((fR f) ^ 2)) ^ 3) * ((((((((- (pa P)) * (ks_dddX_D0D1D1 P f)) + ((fR f) *
  (ks_dddY_D0D1D1 P f))) + ((fY f) * (ks_dddR_D0D1D1 P f))) + ((ks_dR_D0 P f) * (ks_ddY_D1D1 P f))) +
  ((2 * (ks_dR_D1 P f)) * (ks_ddY_D0D1 P f))) + ((ks_ddR_D1D1 P f) * (fdY0 f))) + ((2 * (fdY1 f)) *
  (ks_ddR_D0D1 P f)))) + ((2 * ((((pa P) ^ 2) + ((fR f) ^ 2)) ^ 2)) * (((((((((((((pa P) * (fX f)) -
  ((fR f) * (fY f))) * (fR f)) * (ks_dddR_D0D1D1 P f)) + (((((pa P) * (fX f)) - ((fR f) * (fY f))) *
  (ks_dR_D0 P f)) * (ks_ddR_D1D1 P f))) + (((2 * (((pa P) * (fX f)) - ((fR f) * (fY f)))) * (ks_dR_D1
  P f)) * (ks_ddR_D0D1 P f))) - ((((((- (pa P)) * (fdX0 f)) + ((fR f) * (fdY0 f))) + ((fY f) *
  (ks_dR_D0 P f))) * (fR f)) * (ks_ddR_D1D1 P f))) + (((((pa P) * (fdX0 f)) - ((fR f) * (fdY0 f))) -
  ((fY f) * (ks_dR_D0 P f))) * ((ks_dR_D1 P f) ^ 2))) - (((2 * ((((- (pa P)) * (fdX1 f)) + ((fR f) *
  (fdY1 f))) + ((fY f) * (ks_dR_D1 P f)))) * (fR f)) * (ks_ddR_D0D1 P f))) - (((2 * ((((- (pa P)) *
  (fdX1 f)) + ((fR f) * (fdY1 f))) + ((fY f) * (ks_dR_D1 P f)))) * (ks_dR_D0 P f)) * (ks_dR_D1 P f)))
  - (((((((- (pa P)) * (ks_ddX_D1D1 P f)) + ((fR f) * (ks_ddY_D1D1 P f))) + ((fY f) * (ks_ddR_D1D1 P
  f))) + ((2 * (ks_dR_D1 P f)) * (fdY1 f))) * (fR f)) * (ks_dR_D0 P f))) - (((2 * ((((((- (pa P)) *
  (ks_ddX_D0D1 P f)) + ((fR f) * (ks_ddY_D0D1 P f))) + ((fY f) * (ks_ddR_D0D1 P f))) + ((ks_dR_D0 P
  f) * (fdY1 f))) + ((ks_dR_D1 P f) * (fdY0 f)))) * (fR f)) * (ks_dR_D1 P f))))) + (((8 * (((pa P) ^
  2) + ((fR f) ^ 2))) * ((((((((- (((pa P) * (fX f)) - ((fR f) * (fY f)))) * (fR f)) * (ks_dR_D0 P
  f)) * (ks_ddR_D1D1 P f)) - ((((2 * (((pa P) * (fX f)) - ((fR f) * (fY f)))) * (fR f)) * (ks_dR_D1 P
  f)) * (ks_ddR_D0D1 P f))) - (((3 * (((pa P) * (fX f)) - ((fR f) * (fY f)))) * (ks_dR_D0 P f)) *
  ((ks_dR_D1 P f) ^ 2))) + ((((((- (pa P)) * (fdX0 f)) + ((fR f) * (fdY0 f))) + ((fY f) * (ks_dR_D0 P
  f))) * (fR f)) * ((ks_dR_D1 P f) ^ 2))) + ((((2 * ((((- (pa P)) * (fdX1 f)) + ((fR f) * (fdY1 f)))
  + ((fY f) * (ks_dR_D1 P f)))) * (fR f)) * (ks_dR_D0 P f)) * (ks_dR_D1 P f)))) * (fR f))) + ((((48 *
  (((pa P) * (fX f)) - ((fR f) * (fY f)))) * ((fR f) ^ 3)) * (ks_dR_D0 P f)) * ((ks_dR_D1 P f) ^ 2)))
  / ((((pa P) ^ 2) + ((fR f) ^ 2)) ^ 4).

(* /repo/Src/Main/Modules/Physics/Free_Data/fd_KerrSchild_H_K0_K1_K2.c:2155-2219 *)
Definition ks_dddK1_D0D1D0 (P : kspar) (f : ksarg) : R :=
  ((((((((pa P) ^ 2) + ((fR f) ^ 2)) ^ 3) * ((((((((- (pa P)) * (ks_dddX_D0D0D1 P f)) + ((fR f) *
  (ks_dddY_D0D0D1 P f))) + ((fY f) * (ks_dddR_D0D0D1 P f))) + ((2 * (ks_dR_D0 P f)) * (ks_ddY_D0D1 P
  f))) + ((ks_ddR_D0D0 P f) * (fdY1 f))) + ((ks_dR_D1 P f) * (ks_ddY_D0D0 P f))) + ((2 * (fdY0 f)) *
  (ks_ddR_D0D1 P f)))) + ((2 * ((((pa P) ^ 2) + ((fR f) ^ 2)) ^ 2)) * (((((((((((((pa P) * (fX f)) -
  ((fR f) * (fY f))) * (fR f)) * (ks_dddR_D0D0D1 P f)) + (((2 * (((pa P) * (fX f)) - ((fR f) * (fY
  f)))) * (ks_dR_D0 P f)) * (ks_ddR_D0D1 P f))) + (((((pa P) * (fX f)) - ((fR f) * (fY f))) *
  (ks_ddR_D0D0 P f)) * (ks_dR_D1 P f))) - (((2 * ((((- (pa P)) * (fdX0 f)) + ((fR f) * (fdY0 f))) +
  ((fY f) * (ks_dR_D0 P f)))) * (fR f)) * (ks_ddR_D0D1 P f))) - (((2 * ((((- (pa P)) * (fdX0 f)) +
  ((fR f) * (fdY0 f))) + ((fY f) * (ks_dR_D0 P f)))) * (ks_dR_D0 P f)) * (ks_dR_D1 P f))) - ((((((-
  (pa P)) * (fdX1 f)) + ((fR f) * (fdY1 f))) + ((fY f) * (ks_dR_D1 P f))) * (fR f)) * (ks_ddR_D0D0 P
  f))) + (((((pa P) * (fdX1 f)) - ((fR f) * (fdY1 f))) - ((fY f) * (ks_dR_D1 P f))) * ((ks_dR_D0 P f)
  ^ 2))) - (((((((- (pa P)) * (ks_ddX_D0D0 P f)) + ((fR f) * (ks_ddY_D0D0 P f))) + ((fY f) *
  (ks_ddR_D0D0 P f))) + ((2 * (ks_dR_D0 P f)) * (fdY0 f))) * (fR f)) * (ks_dR_D1 P f))) - (((2 *
  ((((((- (pa P)) * (ks_ddX_D0D1 P f)) + ((fR f) * (ks_ddY_D0D1 P f))) + ((fY f) * (ks_ddR_D0D1 P
  f))) + ((ks_dR_D0 P f) * (fdY1 f))) + ((ks_dR_D1 P f) * (fdY0 f)))) * (fR f)) * (ks_dR_D0 P f)))))
  + (((8 * (((pa P) ^ 2) + ((fR f) ^ 2))) * (((((((((- 2) * (((pa P) * (fX f)) - ((fR f) * (fY f))))
  * (fR f)) * (ks_dR_D0 P f)) * (ks_ddR_D0D1 P f)) - ((((((pa P) * (fX f)) - ((fR f) * (fY f))) * (fR
  f)) * (ks_ddR_D0D0 P f)) * (ks_dR_D1 P f))) - (((3 * (((pa P) * (fX f)) - ((fR f) * (fY f)))) *
  ((ks_dR_D0 P f) ^ 2)) * (ks_dR_D1 P f))) + ((((2 * ((((- (pa P)) * (fdX0 f)) + ((fR f) * (fdY0 f)))
  + ((fY f) * (ks_dR_D0 P f)))) * (fR f)) * (ks_dR_D0 P f)) * (ks_dR_D1 P f))) + ((((((- (pa P)) *
  (fdX1 f)) + ((fR f) * (fdY1 f))) + ((fY f) * (ks_dR_D1 P f))) * (fR f)) * ((ks_dR_D0 P f) ^ 2)))) *
  (fR f))) + ((((48 * (((pa P) * (fX f)) - ((fR f) * (fY f)))) * ((fR f) ^ 3)) * ((ks_dR_D0 P f) ^
  2)) * (ks_dR_D1 P f))) / ((((pa P) ^ 2) + ((fR f) ^ 2)) ^ 4).

(* /repo/Src/Main/Modules/Physics/Free_Data/fd_KerrSchild_H_K0_K1_K2.c:2220-2285 *)
Definition ks_dddK1_D0D1D1 (P : kspar) (f : ksarg) : R :=
  ((((((((pa P) ^ 2) + ((fR f) ^ 2)) ^ 3) * ((((((((- (pa P)) * (ks_dddX_D0D1D1 P f)) + ((fR f) *
  (ks_dddY_D0D1D1 P f))) + ((fY f) * (ks_dddR_D0D1D1 P f))) + ((ks_dR_D0 P f) * (ks_ddY_D1D1 P f))) +
  ((2 * (ks_dR_D1 P f)) * (ks_ddY_D0D1 P f))) + ((ks_ddR_D1D1 P f) * (fdY0 f))) + ((2 * (fdY1 f)) *
  (ks_ddR_D0D1 P f)))) + ((2 * ((((pa P) ^ 2) + ((fR f) ^ 2)) ^ 2)) * (((((((((((((pa P) * (fX f)) -
  ((fR f) * (fY f))) * (fR f)) * (ks_dddR_D0D1D1 P f)) + (((((pa P) * (fX f)) - ((fR f) * (fY f))) *
  (ks_dR_D0 P f)) * (ks_ddR_D1D1 P f))) + (((2 * (((pa P) * (fX f)) - ((fR f) * (fY f)))) * (ks_dR_D1
  P f)) * (ks_ddR_D0D1 P f))) - ((((((- (pa P)) * (fdX0 f)) + ((fR f) * (fdY0 f))) + ((fY f) *
  (ks_dR_D0 P f))) * (fR f)) * (ks_ddR_D1D1 P f))) + (((((pa P) * (fdX0 f)) - ((fR f) * (fdY0 f))) -
  ((fY f) * (ks_dR_D0 P f))) * ((ks_dR_D1 P f) ^ 2))) - (((2 * ((((- (pa P)) * (fdX1 f)) + ((fR f) *
  (fdY1 f))) + ((fY f) * (ks_dR_D1 P f)))) * (fR f)) * (ks_ddR_D0D1 P f))) - (((2 * ((((- (pa P)) *
  (fdX1 f)) + ((fR f) * (fdY1 f))) + ((fY f) * (ks_dR_D1 P f)))) * (ks_dR_D0 P f)) * (ks_dR_D1 P f)))
  - (((((((- (pa P)) * (ks_ddX_D1D1 P f)) + ((fR f) * (ks_ddY_D1D1 P f))) + ((fY f) * (ks_ddR_D1D1 P
  f))) + ((2 * (ks_dR_D1 P f)) * (fdY1 f))) * (fR f)) * (ks_dR_D0 P f))) - (((2 * ((((((- (pa P)) *
  (ks_ddX_D0D1 P f)) + ((fR f) * (ks_ddY_D0D1 P f))) + ((fY f) * (ks_ddR_D0D1 P f))) + ((ks_dR_D0 P
  f) * (fdY1 f))) + ((ks_dR_D1 P f) * (fdY0 f)))) * (fR f)) * (ks_dR_D1 P f))))) + (((8 * (((pa P) ^
  2) + ((fR f) ^ 2))) * ((((((((- (((pa P) * (fX f)) - ((fR f) * (fY f)))) * (fR f)) * (ks_dR_D0 P
  f)) * (ks_ddR_D1D1 P f)) - ((((2 * (((pa P) * (fX f)) - ((fR f) * (fY f)))) * (fR f)) * (ks_dR_D1 P
  f)) * (ks_ddR_D0D1 P f))) - (((3 * (((pa P) * (fX f)) - ((fR f) * (fY f)))) * (ks_dR_D0 P f)) *
  ((ks_dR_D1 P f) ^ 2))) + ((((((- (pa P)) * (fdX0 f)) + ((fR f) * (fdY0 f))) + ((fY f) * (ks_dR_D0 P
  f))) * (fR f)) * ((ks_dR_D1 P f) ^ 2))) + ((((2 * ((((- (pa P)) * (fdX1 f)) + ((fR f) * (fdY1 f)))
  + ((fY f) * (ks_dR_D1 P f)))) * (fR f)) * (ks_dR_D0 P f)) * (ks_dR_D1 P f)))) * (fR f))) + ((((48 *
  (((pa P) * (fX f)) - ((fR f) * (fY f)))) * ((fR f) ^ 3)) * (ks_dR_D0 P f)) * ((ks_dR_D1 P f) ^ 2)))
  / ((((pa P) ^ 2) + ((fR f) ^ 2)) ^ 4).

(* /repo/Src/Main/Modules/Physics/Free_Data/fd_KerrSchild_H_K0_K1_K2.c:2286-2374 *)
Definition ks_dddK1_D0D1D2 (P : kspar) (f : ksarg) : R :=
  ((((((((pa P) ^ 2) + ((fR f) ^ 2)) ^ 3) * ((((((((((- (pa P)) * (ks_dddX_D0D1D2 P f)) + ((fR f) *
  (ks_dddY_D0D1D2 P f))) + ((fY f) * (ks_dddR_D0D1D2 P f))) + ((ks_dR_D0 P f) * (ks_ddY_D1D2 P f))) +
  ((ks_dR_D1 P f) * (ks_ddY_D0D2 P f))) + ((ks_dR_D2 P f) * (ks_ddY_D0D1 P f))) + ((fdY0 f) *
  (ks_ddR_D1D2 P f))) + ((fdY1 f) * (ks_ddR_D0D2 P f))) + ((fdY2 f) * (ks_ddR_D0D1 P f)))) + ((2 *
  ((((pa P) ^ 2) + ((fR f) ^ 2)) ^ 2)) * (((((((((((((((((pa P) * (fX f)) - ((fR f) * (fY f))) * (fR
  f)) * (ks_dddR_D0D1D2 P f)) + (((((pa P) * (fX f)) - ((fR f) * (fY f))) * (ks_dR_D0 P f)) *
  (ks_ddR_D1D2 P f))) + (((((pa P) * (fX f)) - ((fR f) * (fY f))) * (ks_dR_D1 P f)) * (ks_ddR_D0D2 P
  f))) + (((((pa P) * (fX f)) - ((fR f) * (fY f))) * (ks_dR_D2 P f)) * (ks_ddR_D0D1 P f))) - ((((((-
  (pa P)) * (fdX0 f)) + ((fR f) * (fdY0 f))) + ((fY f) * (ks_dR_D0 P f))) * (fR f)) * (ks_ddR_D1D2 P
  f))) - ((((((- (pa P)) * (fdX0 f)) + ((fR f) * (fdY0 f))) + ((fY f) * (ks_dR_D0 P f))) * (ks_dR_D1
  P f)) * (ks_dR_D2 P f))) - ((((((- (pa P)) * (fdX1 f)) + ((fR f) * (fdY1 f))) + ((fY f) * (ks_dR_D1
  P f))) * (fR f)) * (ks_ddR_D0D2 P f))) - ((((((- (pa P)) * (fdX1 f)) + ((fR f) * (fdY1 f))) + ((fY
  f) * (ks_dR_D1 P f))) * (ks_dR_D0 P f)) * (ks_dR_D2 P f))) - ((((((- (pa P)) * (fdX2 f)) + ((fR f)
  * (fdY2 f))) + ((fY f) * (ks_dR_D2 P f))) * (fR f)) * (ks_ddR_D0D1 P f))) - ((((((- (pa P)) * (fdX2
  f)) + ((fR f) * (fdY2 f))) + ((fY f) * (ks_dR_D2 P f))) * (ks_dR_D0 P f)) * (ks_dR_D1 P f))) -
  ((((((((- (pa P)) * (ks_ddX_D0D1 P f)) + ((fR f) * (ks_ddY_D0D1 P f))) + ((fY f) * (ks_ddR_D0D1 P
  f))) + ((ks_dR_D0 P f) * (fdY1 f))) + ((ks_dR_D1 P f) * (fdY0 f))) * (fR f)) * (ks_dR_D2 P f))) -
  ((((((((- (pa P)) * (ks_ddX_D0D2 P f)) + ((fR f) * (ks_ddY_D0D2 P f))) + ((fY f) * (ks_ddR_D0D2 P
  f))) + ((ks_dR_D0 P f) * (fdY2 f))) + ((ks_dR_D2 P f) * (fdY0 f))) * (fR f)) * (ks_dR_D1 P f))) -
  ((((((((- (pa P)) * (ks_ddX_D1D2 P f)) + ((fR f) * (ks_ddY_D1D2 P f))) + ((fY f) * (ks_ddR_D1D2 P
  f))) + ((ks_dR_D1 P f) * (fdY2 f))) + ((ks_dR_D2 P f) * (fdY1 f))) * (fR f)) * (ks_dR_D0 P f))))) +
  (((8 * (((pa P) ^ 2) + ((fR f) ^ 2))) * ((((((((((- (((pa P) * (fX f)) - ((fR f) * (fY f)))) * (fR
  f)) * (ks_dR_D0 P f)) * (ks_ddR_D1D2 P f)) - ((((((pa P) * (fX f)) - ((fR f) * (fY f))) * (fR f)) *
  (ks_dR_D1 P f)) * (ks_ddR_D0D2 P f))) - ((((((pa P) * (fX f)) - ((fR f) * (fY f))) * (fR f)) *
  (ks_dR_D2 P f)) * (ks_ddR_D0D1 P f))) - ((((3 * (((pa P) * (fX f)) - ((fR f) * (fY f)))) *
  (ks_dR_D0 P f)) * (ks_dR_D1 P f)) * (ks_dR_D2 P f))) + (((((((- (pa P)) * (fdX0 f)) + ((fR f) *
  (fdY0 f))) + ((fY f) * (ks_dR_D0 P f))) * (fR f)) * (ks_dR_D1 P f)) * (ks_dR_D2 P f))) + (((((((-
  (pa P)) * (fdX1 f)) + ((fR f) * (fdY1 f))) + ((fY f) * (ks_dR_D1 P f))) * (fR f)) * (ks_dR_D0 P f))
  * (ks_dR_D2 P f))) + (((((((- (pa P)) * (fdX2 f)) + ((fR f) * (fdY2 f))) + ((fY f) * (ks_dR_D2 P
  f))) * (fR f)) * (ks_dR_D0 P f)) * (ks_dR_D1 P f)))) * (fR f))) + (((((48 * (((pa P) * (fX f)) -
  ((fR f) * (fY f)))) * ((fR f) ^ 3)) * (ks_dR_D0 P f)) * (ks_dR_D1 P f)) * (ks_dR_D2 P f))) / ((((pa
  P) ^ 2) + ((fR f) ^ 2)) ^ 4).

(* /repo/Src/Main/Modules/Physics/Free_Data/fd_KerrSchild_H_K0_K1_K2.c:2375-2439 *)
Definition ks_dddK1_D0D0D2 (P : kspar) (f : ksarg) : R :=
  ((((((((pa P) ^ 2) + ((fR f) ^ 2)) ^ 3) * ((((((((- (pa P)) * (ks_dddX_D0D0D2 P f)) + ((fR f) *
  (ks_dddY_D0D0D2 P f))) + ((fY f) * (ks_dddR_D0D0D2 P f))) + ((2 * (ks_dR_D0 P f)) * (ks_ddY_D0D2 P
  f))) + ((ks_ddR_D0D0 P f) * (fdY2 f))) + ((ks_dR_D2 P f) * (ks_ddY_D0D0 P f))) + ((2 * (fdY0 f)) *
  (ks_ddR_D0D2 P f)))) + ((2 * ((((pa P) ^ 2) + ((fR f) ^ 2)) ^ 2)) * (((((((((((((pa P) * (fX f)) -
  ((fR f) * (fY f))) * (fR f)) * (ks_dddR_D0D0D2 P f)) + (((2 * (((pa P) * (fX f)) - ((fR f) * (fY
  f)))) * (ks_dR_D0 P f)) * (ks_ddR_D0D2 P f))) + (((((pa P) * (fX f)) - ((fR f) * (fY f))) *
  (ks_ddR_D0D0 P f)) * (ks_dR_D2 P f))) - (((2 * ((((- (pa P)) * (fdX0 f)) + ((fR f) * (fdY0 f))) +
  ((fY f) * (ks_dR_D0 P f)))) * (fR f)) * (ks_ddR_D0D2 P f))) - (((2 * ((((- (pa P)) * (fdX0 f)) +
  ((fR f) * (fdY0 f))) + ((fY f) * (ks_dR_D0 P f)))) * (ks_dR_D0 P f)) * (ks_dR_D2 P f))) - ((((((-
  (pa P)) * (fdX2 f)) + ((fR f) * (fdY2 f))) + ((fY f) * (ks_dR_D2 P f))) * (fR f)) * (ks_ddR_D0D0 P
  f))) + (((((pa P) * (fdX2 f)) - ((fR f) * (fdY2 f))) - ((fY f) * (ks_dR_D2 P f))) * ((ks_dR_D0 P f)
  ^ 2))) - (((((((- (pa P)) * (ks_ddX_D0D0 P f)) + ((fR f) * (ks_ddY_D0D0 P f))) + ((fY f) *
  (ks_ddR_D0D0 P f))) + ((2 * (ks_dR_D0 P f)) * (fdY0 f))) * (fR f)) * (ks_dR_D2 P f))) - (((2 *
  ((((((- (pa P)) * (ks_ddX_D0D2 P f)) + ((fR f) * (ks_ddY_D0D2 P f))) + ((fY f) * (ks_ddR_D0D2 P
  f))) + ((ks_dR_D0 P f) * (fdY2 f))) + ((ks_dR_D2 P f) * (fdY0 f)))) * (fR f)) * (ks_dR_D0 P f)))))
  + (((8 * (((pa P) ^ 2) + ((fR f) ^ 2))) * (((((((((- 2) * (((pa P) * (fX f)) - ((fR f) * (fY f))))
  * (fR f)) * (ks_dR_D0 P f)) * (ks_ddR_D0D2 P f)) - ((((((pa P) * (fX f)) - ((fR f) * (fY f))) * (fR
  f)) * (ks_ddR_D0D0 P f)) * (ks_dR_D2 P f))) - (((3 * (((pa P) * (fX f)) - ((fR f) * (fY f)))) *
  ((ks_dR_D0 P f) ^ 2)) * (ks_dR_D2 P f))) + ((((2 * ((((- (pa P)) * (fdX0 f)) + ((fR f) * (fdY0 f)))
  + ((fY f) * (ks_dR_D0 P f)))) * (fR f)) * (ks_dR_D0 P f)) * (ks_dR_D2 P f))) + ((((((- (pa P)) *
  (fdX2 f)) + ((fR f) * (fdY2 f))) + ((fY f) * (ks_dR_D2 P f))) * (fR f)) * ((ks_dR_D0 P f) ^ 2)))) *
  (fR f))) + ((((48 * (((pa P) * (fX f)) - ((fR f) * (fY f)))) * ((fR f) ^ 3)) * ((ks_dR_D0 P f) ^
  2)) * (ks_dR_D2 P f))) / ((((pa P) ^ 2) + ((fR f) ^ 2)) ^ 4).

(* /repo/Src/Main/Modules/Physics/Free_Data/fd_KerrSchild_H_K0_K1_K2.c:2440-2504 *)
Definition ks_dddK1_D0D0D1 (P : kspar) (f : ksarg) : R :=
  ((((((((pa P) ^ 2) + ((fR f) ^ 2)) ^ 3) * ((((((((- (pa P)) * (ks_dddX_D0D0D1 P f)) + ((fR f) *
  (ks_dddY_D0D0D1 P f))) + ((fY f) * (ks_dddR_D0D0D1 P f))) + ((2 * (ks_dR_D0 P f)) * (ks_ddY_D0D1 P
  f))) + ((ks_ddR_D0D0 P f) * (fdY1 f))) + ((ks_dR_D1 P f) * (ks_ddY_D0D0 P f))) + ((2 * (fdY0 f)) *
  (ks_ddR_D0D1 P f)))) + ((2 * ((((pa P) ^ 2) + ((fR f) ^ 2)) ^ 2)) * (((((((((((((pa P) * (fX f)) -
  ((fR f) * (fY f))) * (fR f)) * (ks_dddR_D0D0D1 P f)) + (((2 * (((pa P) * (fX f)) - ((fR f) * (fY
  f)))) * (ks_dR_D0 P f)) * (ks_ddR_D0D1 P f))) + (((((pa P) * (fX f)) - ((fR f) * (fY f))) *
  (ks_ddR_D0D0 P f)) * (ks_dR_D1 P f))) - (((2 * ((((- (pa P)) * (fdX0 f)) + ((fR f) * (fdY0 f))) +
  ((fY f) * (ks_dR_D0 P f)))) * (fR f)) * (ks_ddR_D0D1 P f))) - (((2 * ((((- (pa P)) * (fdX0 f)) +
  ((fR f) * (fdY0 f))) + ((fY f) * (ks_dR_D0 P f)))) * (ks_dR_D0 P f)) * (ks_dR_D1 P f))) - ((((((-
  (pa P)) * (fdX1 f)) + ((fR f) * (fdY1 f))) + ((fY f) * (ks_dR_D1 P f))) * (fR f)) * (ks_ddR_D0D0 P
  f))) + (((((pa P) * (fdX1 f)) - ((fR f) * (fdY1 f))) - ((fY f) * (ks_dR_D1 P f))) * ((ks_dR_D0 P f)
  ^ 2))) - (((((((- (pa P)) * (ks_ddX_D0D0 P f)) + ((fR f) * (ks_ddY_D0D0 P f))) + ((fY f) *
  (ks_ddR_D0D0 P f))) + ((2 * (ks_dR_D0 P f)) * (fdY0 f))) * (fR f)) * (ks_dR_D1 P f))) - (((2 *
  ((((((- (pa P)) * (ks_ddX_D0D1 P f)) + ((fR f) * (ks_ddY_D0D1 P f))) + ((fY f) * (ks_ddR_D0D1 P
  f))) + ((ks_dR_D0 P f) * (fdY1 f))) + ((ks_dR_D1 P f) * (fdY0 f)))) * (fR f)) * (ks_dR_D0 P f)))))
  + (((8 * (((pa P) ^ 2) + ((fR f) ^ 2))) * (((((((((- 2) * (((pa P) * (fX f)) - ((fR f) * (fY f))))
  * (fR f)) * (ks_dR_D0 P f)) * (ks_ddR_D0D1 P f)) - ((((((pa P) * (fX f)) - ((fR f) * (fY f))) * (fR
  f)) * (ks_ddR_D0D0 P f)) * (ks_dR_D1 P f))) - (((3 * (((pa P) * (fX f)) - ((fR f) * (fY f)))) *
  ((ks_dR_D0 P f) ^ 2)) * (ks_dR_D1 P f))) + ((((2 * ((((- (pa P)) * (fdX0 f)) + ((fR f) * (fdY0 f)))
  + ((fY f) * (ks_dR_D0 P f)))) * (fR f)) * (ks_dR_D0 P f)) * (ks_dR_D1 P f))) + ((((((- (pa P)) *
  (fdX1 f)) + ((fR f) * (fdY1 f))) + ((fY f) * (ks_dR_D1 P f))) * (fR f)) * ((ks_dR_D0 P f) ^ 2)))) *
  (fR f))) + ((((48 * (((pa P) * (fX f)) - ((fR f) * (fY f)))) * ((fR f) ^ 3)) * ((ks_dR_D0 P f) ^
  2)) * (ks_dR_D1 P f))) / ((((pa P) ^ 2) + ((fR f) ^ 2)) ^ 4).

(* /repo/Src/Main/Modules/Physics/Free_Data/fd_KerrSchild_H_K0_K1_K2.c:2505-2546 *)
Definition ks_dddK1_D0D0D0 (P : kspar) (f : ksarg) : R :=
  ((((((((pa P) ^ 2) + ((fR f) ^ 2)) ^ 3) * ((((((- (pa P)) * (ks_dddX_D0D0D0 P f)) + ((fR f) *
  (ks_dddY_D0D0D0 P f))) + ((fY f) * (ks_dddR_D0D0D0 P f))) + ((3 * (ks_dR_D0 P f)) * (ks_ddY_D0D0 P
  f))) + ((3 * (ks_ddR_D0D0 P f)) * (fdY0 f)))) + ((2 * ((((pa P) ^ 2) + ((fR f) ^ 2)) ^ 2)) *
  (((((((((pa P) * (fX f)) - ((fR f) * (fY f))) * (fR f)) * (ks_dddR_D0D0D0 P f)) + (((3 * (((pa P) *
  (fX f)) - ((fR f) * (fY f)))) * (ks_dR_D0 P f)) * (ks_ddR_D0D0 P f))) - (((3 * ((((- (pa P)) *
  (fdX0 f)) + ((fR f) * (fdY0 f))) + ((fY f) * (ks_dR_D0 P f)))) * (fR f)) * (ks_ddR_D0D0 P f))) +
  ((3 * ((((pa P) * (fdX0 f)) - ((fR f) * (fdY0 f))) - ((fY f) * (ks_dR_D0 P f)))) * ((ks_dR_D0 P f)
  ^ 2))) - (((3 * (((((- (pa P)) * (ks_ddX_D0D0 P f)) + ((fR f) * (ks_ddY_D0D0 P f))) + ((fY f) *
  (ks_ddR_D0D0 P f))) + ((2 * (ks_dR_D0 P f)) * (fdY0 f)))) * (fR f)) * (ks_dR_D0 P f))))) + ((((24 *
  (((pa P) ^ 2) + ((fR f) ^ 2))) * (((((- (((pa P) * (fX f)) - ((fR f) * (fY f)))) * (fR f)) *
  (ks_ddR_D0D0 P f)) - ((((pa P) * (fX f)) - ((fR f) * (fY f))) * ((ks_dR_D0 P f) ^ 2))) + ((((((-
  (pa P)) * (fdX0 f)) + ((fR f) * (fdY0 f))) + ((fY f) * (ks_dR_D0 P f))) * (fR f)) * (ks_dR_D0 P
  f)))) * (fR f)) * (ks_dR_D0 P f))) + (((48 * (((pa P) * (fX f)) - ((fR f) * (fY f)))) * ((fR f) ^
  3)) * ((ks_dR_D0 P f) ^ 3))) / ((((pa P) ^ 2) + ((fR f) ^ 2)) ^ 4).

(* /repo/Src/Main/Modules/Physics/Free_Data/fd_KerrSchild_H_K0_K1_K2.c:2547-2612 *)
Definition ks_dddK1_D2D2D0 (P : kspar) (f : ksarg) : R :=
  ((((((((pa P) ^ 2) + ((fR f) ^ 2)) ^ 3) * ((((((((- (pa P)) * (ks_dddX_D0D2D2 P f)) + ((fR f) *
  (ks_dddY_D0D2D2 P f))) + ((fY f) * (ks_dddR_D0D2D2 P f))) + ((ks_dR_D0 P f) * (ks_ddY_D2D2 P f))) +
  ((2 * (ks_dR_D2 P f)) * (ks_ddY_D0D2 P f))) + ((ks_ddR_D2D2 P f) * (fdY0 f))) + ((2 * (fdY2 f)) *
  (ks_ddR_D0D2 P f)))) + ((2 * ((((pa P) ^ 2) + ((fR f) ^ 2)) ^ 2)) * (((((((((((((pa P) * (fX f)) -
  ((fR f) * (fY f))) * (fR f)) * (ks_dddR_D0D2D2 P f)) + (((((pa P) * (fX f)) - ((fR f) * (fY f))) *
  (ks_dR_D0 P f)) * (ks_ddR_D2D2 P f))) + (((2 * (((pa P) * (fX f)) - ((fR f) * (fY f)))) * (ks_dR_D2
  P f)) * (ks_ddR_D0D2 P f))) - ((((((- (pa P)) * (fdX0 f)) + ((fR f) * (fdY0 f))) + ((fY f) *
  (ks_dR_D0 P f))) * (fR f)) * (ks_ddR_D2D2 P f))) + (((((pa P) * (fdX0 f)) - ((fR f) * (fdY0 f))) -
  ((fY f) * (ks_dR_D0 P f))) * ((ks_dR_D2 P f) ^ 2))) - (((2 * ((((- (pa P)) * (fdX2 f)) + ((fR f) *
  (fdY2 f))) + ((fY f) * (ks_dR_D2 P f)))) * (fR f)) * (ks_ddR_D0D2 P f))) - (((2 * ((((- (pa P)) *
  (fdX2 f)) + ((fR f) * (fdY2 f))) + ((fY f) * (ks_dR_D2 P f)))) * (ks_dR_D0 P f)) * (ks_dR_D2 P f)))
  - (((((((- (pa P)) * (ks_ddX_D2D2 P f)) + ((fR f) * (ks_ddY_D2D2 P f))) + ((fY f) * (ks_ddR_D2D2 P
  f))) + ((2 * (ks_dR_D2 P f)) * (fdY2 f))) * (fR f)) * (ks_dR_D0 P f))) - (((2 * ((((((- (pa P)) *
  (ks_ddX_D0D2 P f)) + ((fR f) * (ks_ddY_D0D2 P f))) + ((fY f) * (ks_ddR_D0D2 P f))) + ((ks_dR_D0 P
  f) * (fdY2 f))) + ((ks_dR_D2 P f) * (fdY0 f)))) * (fR f)) * (ks_dR_D2 P f))))) + (((8 * (((pa P) ^
  2) + ((fR f) ^ 2))) * ((((((((- (((pa P) * (fX f)) - ((fR f) * (fY f)))) * (fR f)) * (ks_dR_D0 P
  f)) * (ks_ddR_D2D2 P f)) - ((((2 * (((pa P) * (fX f)) - ((fR f) * (fY f)))) * (fR f)) * (ks_dR_D2 P
  f)) * (ks_ddR_D0D2 P f))) - (((3 * (((pa P) * (fX f)) - ((fR f) * (fY f)))) * (ks_dR_D0 P f)) *
  ((ks_dR_D2 P f) ^ 2))) + ((((((- (pa P)) * (fdX0 f)) + ((fR f) * (fdY0 f))) + ((fY f) * (ks_dR_D0 P
  f))) * (fR f)) * ((ks_dR_D2 P f) ^ 2))) + ((((2 * ((((- (pa P)) * (fdX2 f)) + ((fR f) * (fdY2 f)))
  + ((fY f) * (ks_dR_D2 P f)))) * (fR f)) * (ks_dR_D0 P f)) * (ks_dR_D2 P f)))) * (fR f))) + ((((48 *
  (((pa P) * (fX f)) - ((fR f) * (fY f)))) * ((fR f) ^ 3)) * (ks_dR_D0 P f)) * ((ks_dR_D2 P f) ^ 2)))
  / ((((pa P) ^ 2) + ((fR f) ^ 2)) ^ 4).

(* /repo/Src/Main/Modules/Physics/Free_Data/fd_KerrSchild_H_K0_K1_K2.c:2613-2701 *)
Definition ks_dddK1_D1D2D0 (P : kspar) (f : ksarg) : R :=
  ((((((((pa P) ^ 2) + ((fR f) ^ 2)) ^ 3) * ((((((((((- (pa P)) * (ks_dddX_D0D1D2 P f)) + ((fR f) *
  (ks_dddY_D0D1D2 P f))) + ((fY f) * (ks_dddR_D0D1D2 P f))) + ((ks_dR_D0 P f) * (ks_ddY_D1D2 P f))) +
  ((ks_dR_D1 P f) * (ks_ddY_D0D2 P f))) + ((ks_dR_D2 P f) * (ks_ddY_D0D1 P f))) + ((fdY0 f) *
  (ks_ddR_D1D2 P f))) + ((fdY1 f) * (ks_ddR_D0D2 P f))) + ((fdY2 f) * (ks_ddR_D0D1 P f)))) + ((2 *
  ((((pa P) ^ 2) + ((fR f) ^ 2)) ^ 2)) * (((((((((((((((((pa P) * (fX f)) - ((fR f) * (fY f))) * (fR
  f)) * (ks_dddR_D0D1D2 P f)) + (((((pa P) * (fX f)) - ((fR f) * (fY f))) * (ks_dR_D0 P f)) *
  (ks_ddR_D1D2 P f))) + (((((pa P) * (fX f)) - ((fR f) * (fY f))) * (ks_dR_D1 P f)) * (ks_ddR_D0D2 P
  f))) + (((((pa P) * (fX f)) - ((fR f) * (fY f))) * (ks_dR_D2 P f)) * (ks_ddR_D0D1 P f))) - ((((((-
  (pa P)) * (fdX0 f)) + ((fR f) * (fdY0 f))) + ((fY f) * (ks_dR_D0 P f))) * (fR f)) * (ks_ddR_D1D2 P
  f))) - ((((((- (pa P)) * (fdX0 f)) + ((fR f) * (fdY0 f))) + ((fY f) * (ks_dR_D0 P f))) * (ks_dR_D1
  P f)) * (ks_dR_D2 P f))) - ((((((- (pa P)) * (fdX1 f)) + ((fR f) * (fdY1 f))) + ((fY f) * (ks_dR_D1
  P f))) * (fR f)) * (ks_ddR_D0D2 P f))) - ((((((- (pa P)) * (fdX1 f)) + ((fR f) * (fdY1 f))) + ((fY
  f) * (ks_dR_D1 P f))) * (ks_dR_D0 P f)) * (ks_dR_D2 P f))) - ((((((- (pa P)) * (fdX2 f)) + ((fR f)
  * (fdY2 f))) + ((fY f) * (ks_dR_D2 P f))) * (fR f)) * (ks_ddR_D0D1 P f))) - ((((((- (pa P)) * (fdX2
  f)) + ((fR f) * (fdY2 f))) + ((fY f) * (ks_dR_D2 P f))) * (ks_dR_D0 P f)) * (ks_dR_D1 P f))) -
  ((((((((- (pa P)) * (ks_ddX_D0D1 P f)) + ((fR f) * (ks_ddY_D0D1 P f))) + ((fY f) * (ks_ddR_D0D1 P
  f))) + ((ks_dR_D0 P f) * (fdY1 f))) + ((ks_dR_D1 P f) * (fdY0 f))) * (fR f)) * (ks_dR_D2 P f))) -
  ((((((((- (pa P)) * (ks_ddX_D0D2 P f)) + ((fR f) * (ks_ddY_D0D2 P f))) + ((fY f) * (ks_ddR_D0D2 P
  f))) + ((ks_dR_D0 P f) * (fdY2 f))) + ((ks_dR_D2 P f) * (fdY0 f))) * (fR f)) * (ks_dR_D1 P f))) -
  ((((((((- (pa P)) * (ks_ddX_D1D2 P f)) + ((fR f) * (ks_ddY_D1D2 P f))) + ((fY f) * (ks_ddR_D1D2 P
  f))) + ((ks_dR_D1 P f) * (fdY2 f))) + ((ks_dR_D2 P f) * (fdY1 f))) * (fR f)) * (ks_dR_D0 P f))))) +
  (((8 * (((pa P) ^ 2) + ((fR f) ^ 2))) * ((((((((((- (((pa P) * (fX f)) - ((fR f) * (fY f)))) * (fR
  f)) * (ks_dR_D0 P f)) * (ks_ddR_D1D2 P f)) - ((((((pa P) * (fX f)) - ((fR f) * (fY f))) * (fR f)) *
  (ks_dR_D1 P f)) * (ks_ddR_D0D2 P f))) - ((((((pa P) * (fX f)) - ((fR f) * (fY f))) * (fR f)) *
  (ks_dR_D2 P f)) * (ks_ddR_D0D1 P f))) - ((((3 * (((pa P) * (fX f)) - ((fR f) * (fY f)))) *
  (ks_dR_D0 P f)) * (ks_dR_D1 P f)) * (ks_dR_D2 P f))) + (((((((- (pa P)) * (fdX0 f)) + ((fR f) *
  (fdY0 f))) + ((fY f) * (ks_dR_D0 P f))) * (fR f)) * (ks_dR_D1 P f)) * (ks_dR_D2 P f))) + (((((((-
  (pa P)) * (fdX1 f)) + ((fR f) * (fdY1 f))) + ((fY f) * (ks_dR_D1 P f))) * (fR f)) * (ks_dR_D0 P f))
  * (ks_dR_D2 P f))) + (((((((- (pa P)) * (fdX2 f)) + ((fR f) * (fdY2 f))) + ((fY f) * (ks_dR_D2 P
  f))) * (fR f)) * (ks_dR_D0 P f)) * (ks_dR_D1 P f)))) * (fR f))) + (((((48 * (((pa P) * (fX f)) -
  ((fR f) * (fY f)))) * ((fR f) ^ 3)) * (ks_dR_D0 P f)) * (ks_dR_D1 P f)) * (ks_dR_D2 P f))) / ((((pa
  P) ^ 2) + ((fR f) ^ 2)) ^ 4).

(* /repo/Src/Main/Modules/Physics/Free_Data/fd_KerrSchild_H_K0_K1_K2.c:2702-2766 *)
Definition ks_dddK1_D1D2D1 (P : kspar) (f : ksarg) : R :=
  ((((((((pa P) ^ 2) + ((fR f) ^ 2)) ^ 3) * ((((((((- (pa P)) * (ks_dddX_D1D1D2 P f)) + ((fR f) *
  (ks_dddY_D1D1D2 P f))) + ((fY f) * (ks_dddR_D1D1D2 P f))) + ((2 * (ks_dR_D1 P f)) * (ks_ddY_D1D2 P
  f))) + ((ks_ddR_D1D1 P f) * (fdY2 f))) + ((ks_dR_D2 P f) * (ks_ddY_D1D1 P f))) + ((2 * (fdY1 f)) *
  (ks_ddR_D1D2 P f)))) + ((2 * ((((pa P) ^ 2) + ((fR f) ^ 2)) ^ 2)) * (((((((((((((pa P) * (fX f)) -
  ((fR f) * (fY f))) * (fR f)) * (ks_dddR_D1D1D2 P f)) + (((2 * (((pa P) * (fX f)) - ((fR f) * (fY
  f)))) * (ks_dR_D1 P f)) * (ks_ddR_D1D2 P f))) + (((((pa P) * (fX f)) - ((fR f) * (fY f))) *
  (ks_ddR_D1D1 P f)) * (ks_dR_D2 P f))) - (((2 * ((((- (pa P)) * (fdX1 f)) + ((fR f) * (fdY1 f))) +
  ((fY f) * (ks_dR_D1 P f)))) * (fR f)) * (ks_ddR_D1D2 P f))) - (((2 * ((((- (pa P)) * (fdX1 f)) +
  ((fR f) * (fdY1 f))) + ((fY f) * (ks_dR_D1 P f)))) * (ks_dR_D1 P f)) * (ks_dR_D2 P f))) - ((((((-
  (pa P)) * (fdX2 f)) + ((fR f) * (fdY2 f))) + ((fY f) * (ks_dR_D2 P f))) * (fR f)) * (ks_ddR_D1D1 P
  f))) + (((((pa P) * (fdX2 f)) - ((fR f) * (fdY2 f))) - ((fY f) * (ks_dR_D2 P f))) * ((ks_dR_D1 P f)
  ^ 2))) - (((((((- (pa P)) * (ks_ddX_D1D1 P f)) + ((fR f) * (ks_ddY_D1D1 P f))) + ((fY f) *
  (ks_ddR_D1D1 P f))) + ((2 * (ks_dR_D1 P f)) * (fdY1 f))) * (fR f)) * (ks_dR_D2 P f))) - (((2 *
  ((((((- (pa P)) * (ks_ddX_D1D2 P f)) + ((fR f) * (ks_ddY_D1D2 P f))) + ((fY f) * (ks_ddR_D1D2 P
  f))) + ((ks_dR_D1 P f) * (fdY2 f))) + ((ks_dR_D2 P f) * (fdY1 f)))) * (fR f)) * (ks_dR_D1 P f)))))
  + (((8 * (((pa P) ^ 2) + ((fR f) ^ 2))) * (((((((((- 2) * (((pa P) * (fX f)) - ((fR f) * (fY f))))
  * (fR f)) * (ks_dR_D1 P f)) * (ks_ddR_D1D2 P f)) - ((((((pa P) * (fX f)) - ((fR f) * (fY f))) * (fR
  f)) * (ks_ddR_D1D1 P f)) * (ks_dR_D2 P f))) - (((3 * (((pa P) * (fX f)) - ((fR f) * (fY f)))) *
  ((ks_dR_D1 P f) ^ 2)) * (ks_dR_D2 P f))) + ((((2 * ((((- (pa P)) * (fdX1 f)) + ((fR f) * (fdY1 f)))
  + ((fY f) * (ks_dR_D1 P f)))) * (fR f)) * (ks_dR_D1 P f)) * (ks_dR_D2 P f))) + ((((((- (pa P)) *
  (fdX2 f)) + ((fR f) * (fdY2 f))) + ((fY f) * (ks_dR_D2 P f))) * (fR f)) * ((ks_dR_D1 P f) ^ 2)))) *
  (fR f))) + ((((48 * (((pa P) * (fX f)) - ((fR f) * (fY f)))) * ((fR f) ^ 3)) * ((ks_dR_D1 P f) ^
  2)) * (ks_dR_D2 P f))) / ((((pa P) ^ 2) + ((fR f) ^ 2)) ^ 4).

(* /repo/Src/Main/Modules/Physics/Free_Data/fd_KerrSchild_H_K0_K1_K2.c:2767-2832 *)
Definition ks_dddK1_D1D2D2 (P : kspar) (f : ksarg) : R :=
  ((((((((pa P) ^ 2) + ((fR f) ^ 2)) ^ 3) * ((((((((- (pa P)) * (ks_dddX_D1D2D2 P f)) + ((fR f) *
  (ks_dddY_D1D2D2 P f))) + ((fY f) * (ks_dddR_D1D2D2 P f))) + ((ks_dR_D1 P f) * (ks_ddY_D2D2 P f))) +
  ((2 * (ks_dR_D2 P f)) * (ks_ddY_D1D2 P f))) + ((ks_ddR_D2D2 P f) * (fdY1 f))) + ((2 * (fdY2 f)) *
  (ks_ddR_D1D2 P f)))) + ((2 * ((((pa P) ^ 2) + ((fR f) ^ 2)) ^ 2)) * (((((((((((((pa P) * (fX f)) -
  ((fR f) * (fY f))) * (fR f)) * (ks_dddR_D1D2D2 P f)) + (((((pa P) * (fX f)) - ((fR f) * (fY f))) *
  (ks_dR_D1 P f)) * (ks_ddR_D2D2 P f))) + (((2 * (((pa P) * (fX f)) - ((fR f) * (fY f)))) * (ks_dR_D2
  P f)) * (ks_ddR_D1D2 P f))) - ((((((- (pa P)) * (fdX1 f)) + ((fR f) * (fdY1 f))) + ((fY f) *
  (ks_dR_D1 P f))) * (fR f)) * (ks_ddR_D2D2 P f))) + (((((pa P) * (fdX1 f)) - ((fR f) * (fdY1 f))) -
  ((fY f) * (ks_dR_D1 P f))) * ((ks_dR_D2 P f) ^ 2))) - (((2 * ((((- (pa P)) * (fdX2 f)) + ((fR f) *
  (fdY2 f))) + ((fY f) * (ks_dR_D2 P f)))) * (fR f)) * (ks_ddR_D1D2 P f))) - (((2 * ((((- (pa P)) *
  (fdX2 f)) + ((fR f) * (fdY2 f))) + ((fY f) * (ks_dR_D2 P f)))) * (ks_dR_D1 P f)) * (ks_dR_D2 P f)))
  - (((((((- (pa P)) * (ks_ddX_D2D2 P f)) + ((fR f) * (ks_ddY_D2D2 P f))) + ((fY f) * (ks_ddR_D2D2 P
  f))) + ((2 * (ks_dR_D2 P f)) * (fdY2 f))) * (fR f)) * (ks_dR_D1 P f))) - (((2 * ((((((- (pa P)) *
  (ks_ddX_D1D2 P f)) + ((fR f) * (ks_ddY_D1D2 P f))) + ((fY f) * (ks_ddR_D1D2 P f))) + ((ks_dR_D1 P
  f) * (fdY2 f))) + ((ks_dR_D2 P f) * (fdY1 f)))) * (fR f)) * (ks_dR_D2 P f))))) + (((8 * (((pa P) ^
  2) + ((fR f) ^ 2))) * ((((((((- (((pa P) * (fX f)) - ((fR f) * (fY f)))) * (fR f)) * (ks_dR_D1 P
  f)) * (ks_ddR_D2D2 P f)) - ((((2 * (((pa P) * (fX f)) - ((fR f) * (fY f)))) * (fR f)) * (ks_dR_D2 P
  f)) * (ks_ddR_D1D2 P f))) - (((3 * (((pa P) * (fX f)) - ((fR f) * (fY f)))) * (ks_dR_D1 P f)) *
  ((ks_dR_D2 P f) ^ 2))) + ((((((- (pa P)) * (fdX1 f)) + ((fR f) * (fdY1 f))) + ((fY f) * (ks_dR_D1 P
  f))) * (fR f)) * ((ks_dR_D2 P f) ^ 2))) + ((((2 * ((((- (pa P)) * (fdX2 f)) + ((fR f) * (fdY2 f)))
  + ((fY f) * (ks_dR_D2 P f)))) * (fR f)) * (ks_dR_D1 P f)) * (ks_dR_D2 P f)))) * (fR f))) + ((((48 *
  (((pa P) * (fX f)) - ((fR f) * (fY f)))) * ((fR f) ^ 3)) * (ks_dR_D1 P f)) * ((ks_dR_D2 P f) ^ 2)))
  / ((((pa P) ^ 2) + ((fR f) ^ 2)) ^ 4).

(* /repo/Src/Main/Modules/Physics/Free_Data/fd_KerrSchild_H_K0_K1_K2.c:2833-2898 *)
Definition ks_dddK1_D2D2D1 (P : kspar) (f : ksarg) : R :=
  ((((((((pa P) ^ 2) + ((fR f) ^ 2)) ^ 3) * ((((((((- (pa P)) * (ks_dddX_D1D2D2 P f)) + ((fR f) *
  (ks_dddY_D1D2D2 P f))) + ((fY f) * (ks_dddR_D1D2D2 P f))) + ((ks_dR_D1 P f) * (ks_ddY_D2D2 P f))) +
  ((2 * (ks_dR_D2 P f)) * (ks_ddY_D1D2 P f))) + ((ks_ddR_D2D2 P f) * (fdY1 f))) + ((2 * (fdY2 f)) *
  (ks_ddR_D1D2 P f)))) + ((2 * ((((pa P) ^ 2) + ((fR f) ^ 2)) ^ 2)) * (((((((((((((pa P) * (fX f)) -
  ((fR f) * (fY f))) * (fR f)) * (ks_dddR_D1D2D2 P f)) + (((((pa P) * (fX f)) - ((fR f) * (fY f))) *
  (ks_dR_D1 P f)) * (ks_ddR_D2D2 P f))) + (((2 * (((pa P) * (fX f)) - ((fR f) * (fY f)))) * (ks_dR_D2
  P f)) * (ks_ddR_D1D2 P f))) - ((((((- (pa P)) * (fdX1 f)) + ((fR f) * (fdY1 f))) + ((fY f) *
  (ks_dR_D1 P f))) * (fR f)) * (ks_ddR_D2D2 P f))) + (((((pa P) * (fdX1 f)) - ((fR f) * (fdY1 f))) -
  ((fY f) * (ks_dR_D1 P f))) * ((ks_dR_D2 P f) ^ 2))) - (((2 * ((((- (pa P)) * (fdX2 f)) + ((fR f) *
  (fdY2 f))) + ((fY f) * (ks_dR_D2 P f)))) * (fR f)) * (ks_ddR_D1D2 P f))) - (((2 * ((((- (pa P)) *
  (fdX2 f)) + ((fR f) * (fdY2 f))) + ((fY f) * (ks_dR_D2 P f)))) * (ks_dR_D1 P f)) * (ks_dR_D2 P f)))
  - (((((((- (pa P)) * (ks_ddX_D2D2 P f)) + ((fR f) * (ks_ddY_D2D2 P f))) + ((fY f) * (ks_ddR_D2D2 P
  f))) + ((2 * (ks_dR_D2 P f)) * (fdY2 f))) * (fR f)) * (ks_dR_D1 P f))) - (((2 * ((((((- (pa P)) *
  (ks_ddX_D1D2 P f)) + ((fR f) * (ks_ddY_D1D2 P f))) + ((fY f) * (ks_ddR_D1D2 P f))) + ((ks_dR_D1 P
  f) * (fdY2 f))) + ((ks_dR_D2 P f) * (fdY1 f)))) * (fR f)) * (ks_dR_D2 P f))))) + (((8 * (((pa P) ^
  2) + ((fR f) ^ 2))) * ((((((((- (((pa P) * (fX f)) - ((fR f) * (fY f)))) * (fR f)) * (ks_dR_D1 P
  f)) * (ks_ddR_D2D2 P f)) - ((((2 * (((pa P) * (fX f)) - ((fR f) * (fY f)))) * (fR f)) * (ks_dR_D2 P
  f)) * (ks_ddR_D1D2 P f))) - (((3 * (((pa P) * (fX f)) - ((fR f) * (fY f)))) * (ks_dR_D1 P f)) *
  ((ks_dR_D2 P f) ^ 2))) + ((((((- (pa P)) * (fdX1 f)) + ((fR f) * (fdY1 f))) + ((fY f) * (ks_dR_D1 P
  f))) * (fR f)) * ((ks_dR_D2 P f) ^ 2))) + ((((2 * ((((- (pa P)) * (fdX2 f)) + ((fR f) * (fdY2 f)))
  + ((fY f) * (ks_dR_D2 P f)))) * (fR f)) * (ks_dR_D1 P f)) * (ks_dR_D2 P f)))) * (fR f))) + ((((48 *
  (((pa P) * (fX f)) - ((fR f) * (fY f)))) * ((fR f) ^ 3)) * (ks_dR_D1 P f)) * ((ks_dR_D2 P f) ^ 2)))
  / ((((pa P) ^ 2) + ((fR f) ^ 2)) ^ 4).

(* /repo/Src/Main/Modules/Physics/Free_Data/fd_KerrSchild_H_K0_K1_K2.c:2899-2940 *)
Definition ks_dddK1_D2D2D2 (P : kspar) (f : ksarg) : R :=
  ((((((((pa P) ^ 2) + ((fR f) ^ 2)) ^ 3) * ((((((- (pa P)) * (ks_dddX_D2D2D2 P f)) + ((fR f) *
  (ks_dddY_D2D2D2 P f))) + ((fY f) * (ks_dddR_D2D2D2 P f))) + ((3 * (ks_dR_D2 P f)) * (ks_ddY_D2D2 P
  f))) + ((3 * (ks_ddR_D2D2 P f)) * (fdY2 f)))) + ((2 * ((((pa P) ^ 2) + ((fR f) ^ 2)) ^ 2)) *
  (((((((((pa P) * (fX f)) - ((fR f) * (fY f))) * (fR f)) * (ks_dddR_D2D2D2 P f)) + (((3 * (((pa P) *
  (fX f)) - ((fR f) * (fY f)))) * (ks_dR_D2 P f)) * (ks_ddR_D2D2 P f))) - (((3 * ((((- (pa P)) *
  (fdX2 f)) + ((fR f) * (fdY2 f))) + ((fY f) * (ks_dR_D2 P f)))) * (fR f)) * (ks_ddR_D2D2 P f))) +
  ((3 * ((((pa P) * (fdX2 f)) - ((fR f) * (fdY2 f))) - ((fY f) * (ks_dR_D2 P f)))) * ((ks_dR_D2 P f)
  ^ 2))) - (((3 * (((((- (pa P)) * (ks_ddX_D2D2 P f)) + ((fR f) * (ks_ddY_D2D2 P f))) + ((fY f) *
  (ks_ddR_D2D2 P f))) + ((2 * (ks_dR_D2 P f)) * (fdY2 f)))) * (fR f)) * (ks_dR_D2 P f))))) + ((((24 *
  (((pa P) ^ 2) + ((fR f) ^ 2))) * (((((- (((pa P) * (fX f)) - ((fR f) * (fY f)))) * (fR f)) *
  (ks_ddR_D2D2 P f)) - ((((pa P) * (fX f)) - ((fR f) * (fY f))) * ((ks_dR_D2 P f) ^ 2))) + ((((((-
  (pa P)) * (fdX2 f)) + ((fR f) * (fdY2 f))) + ((fY f) * (ks_dR_D2 P f))) * (fR f)) * (ks_dR_D2 P
  f)))) * (fR f)) * (ks_dR_D2 P f))) + (((48 * (((pa P) * (fX f)) - ((fR f) * (fY f)))) * ((fR f) ^
  3)) * ((ks_dR_D2 P f) ^ 3))) / ((((pa P) ^ 2) + ((fR f) ^ 2)) ^ 4).

(* /repo/Src/Main/Modules/Physics/Free_Data/fd_KerrSchild_H_K0_K1_K2.c:3091-3120 *)
Definition ks_dddK2_D0D2D0 (P : kspar) (f : ksarg) : R :=
  (((((2 * ((((((2 * (fZ f)) * (ks_dR_D0 P f)) * (ks_ddR_D0D2 P f)) + (((fZ f) * (ks_ddR_D0D0 P f)) *
  (ks_dR_D2 P f))) + (((ks_dR_D0 P f) ^ 2) * (fdZ2 f))) + (((2 * (ks_dR_D0 P f)) * (ks_dR_D2 P f)) *
  (fdZ0 f)))) * (fR f)) - (((((((fZ f) * (ks_dddR_D0D0D2 P f)) + ((2 * (ks_dR_D0 P f)) * (ks_ddZ_D0D2
  P f))) + ((ks_ddR_D0D0 P f) * (fdZ2 f))) + ((ks_dR_D2 P f) * (ks_ddZ_D0D0 P f))) + ((2 * (fdZ0 f))
  * (ks_ddR_D0D2 P f))) * ((fR f) ^ 2))) + (((fR f) ^ 3) * (ks_dddZ_D0D0D2 P f))) - (((6 * (fZ f)) *
  ((ks_dR_D0 P f) ^ 2)) * (ks_dR_D2 P f))) / ((fR f) ^ 4).

(* /repo/Src/Main/Modules/Physics/Free_Data/fd_KerrSchild_H_K0_K1_K2.c:3121-3160 *)
Definition ks_dddK2_D0D2D1 (P : kspar) (f : ksarg) : R :=
  (((((2 * ((((((((fZ f) * (ks_dR_D0 P f)) * (ks_ddR_D1D2 P f)) + (((fZ f) * (ks_dR_D1 P f)) *
  (ks_ddR_D0D2 P f))) + (((fZ f) * (ks_dR_D2 P f)) * (ks_ddR_D0D1 P f))) + (((ks_dR_D0 P f) *
  (ks_dR_D1 P f)) * (fdZ2 f))) + (((ks_dR_D0 P f) * (ks_dR_D2 P f)) * (fdZ1 f))) + (((ks_dR_D1 P f) *
  (ks_dR_D2 P f)) * (fdZ0 f)))) * (fR f)) - (((((((((fZ f) * (ks_dddR_D0D1D2 P f)) + ((ks_dR_D0 P f)
  * (ks_ddZ_D1D2 P f))) + ((ks_dR_D1 P f) * (ks_ddZ_D0D2 P f))) + ((ks_dR_D2 P f) * (ks_ddZ_D0D1 P
  f))) + ((fdZ0 f) * (ks_ddR_D1D2 P f))) + ((fdZ1 f) * (ks_ddR_D0D2 P f))) + ((fdZ2 f) * (ks_ddR_D0D1
  P f))) * ((fR f) ^ 2))) + (((fR f) ^ 3) * (ks_dddZ_D0D1D2 P f))) - ((((6 * (fZ f)) * (ks_dR_D0 P
  f)) * (ks_dR_D1 P f)) * (ks_dR_D2 P f))) / ((fR f) ^ 4).

(* /repo/Src/Main/Modules/Physics/Free_Data/fd_KerrSchild_H_K0_K1_K2.c:3161-3190 *)
Definition ks_dddK2_D0D2D2 (P : kspar) (f : ksarg) : R :=
  (((((2 * ((((((fZ f) * (ks_dR_D0 P f)) * (ks_ddR_D2D2 P f)) + (((2 * (fZ f)) * (ks_dR_D2 P f)) *
  (ks_ddR_D0D2 P f))) + (((2 * (ks_dR_D0 P f)) * (ks_dR_D2 P f)) * (fdZ2 f))) + (((ks_dR_D2 P f) ^ 2)
  * (fdZ0 f)))) * (fR f)) - (((((((fZ f) * (ks_dddR_D0D2D2 P f)) + ((ks_dR_D0 P f) * (ks_ddZ_D2D2 P
  f))) + ((2 * (ks_dR_D2 P f)) * (ks_ddZ_D0D2 P f))) + ((ks_ddR_D2D2 P f) * (fdZ0 f))) + ((2 * (fdZ2
  f)) * (ks_ddR_D0D2 P f))) * ((fR f) ^ 2))) + (((fR f) ^ 3) * (ks_dddZ_D0D2D2 P f))) - (((6 * (fZ
  f)) * (ks_dR_D0 P f)) * ((ks_dR_D2 P f) ^ 2))) / ((fR f) ^ 4).

(* /repo/Src/Main/Modules/Physics/Free_Data/fd_KerrSchild_H_K0_K1_K2.c:3191-3220 *)
Definition ks_dddK2_D0D1D0 (P : kspar) (f : ksarg) : R :=
  (((((2 * ((((((2 * (fZ f)) * (ks_dR_D0 P f)) * (ks_ddR_D0D1 P f)) + (((fZ f) * (ks_ddR_D0D0 P f)) *
  (ks_dR_D1 P f))) + (((ks_dR_D0 P f) ^ 2) * (fdZ1 f))) + (((2 * (ks_dR_D0 P f)) * (ks_dR_D1 P f)) *
  (fdZ0 f)))) * (fR f)) - (((((((fZ f) * (ks_dddR_D0D0D1 P f)) + ((2 * (ks_dR_D0 P f)) * (ks_ddZ_D0D1
  P f))) + ((ks_ddR_D0D0 P f) * (fdZ1 f))) + ((ks_dR_D1 P f) * (ks_ddZ_D0D0 P f))) + ((2 * (fdZ0 f))
  * (ks_ddR_D0D1 P f))) * ((fR f) ^ 2))) + (((fR f) ^ 3) * (ks_dddZ_D0D0D1 P f))) - (((6 * (fZ f)) *
  ((ks_dR_D0 P f) ^ 2)) * (ks_dR_D1 P f))) / ((fR f) ^ 4).

(* /repo/Src/Main/Modules/Physics/Free_Data/fd_KerrSchild_H_K0_K1_K2.c:3221-3250 *)
Definition ks_dddK2_D0D0D2 (P : kspar) (f : ksarg) : R :=
  (((((2 * ((((((2 * (fZ f)) * (ks_dR_D0 P f)) * (ks_ddR_D0D2 P f)) + (((fZ f) * (ks_ddR_D0D0 P f)) *
  (ks_dR_D2 P f))) + (((ks_dR_D0 P f) ^ 2) * (fdZ2 f))) + (((2 * (ks_dR_D0 P f)) * (ks_dR_D2 P f)) *
  (fdZ0 f)))) * (fR f)) - (((((((fZ f) * (ks_dddR_D0D0D2 P f)) + ((2 * (ks_dR_D0 P f)) * (ks_ddZ_D0D2
  P f))) + ((ks_ddR_D0D0 P f) * (fdZ2 f))) + ((ks_dR_D2 P f) * (ks_ddZ_D0D0 P f))) + ((2 * (fdZ0 f))
  * (ks_ddR_D0D2 P f))) * ((fR f) ^ 2))) + (((fR f) ^ 3) * (ks_dddZ_D0D0D2 P f))) - (((6 * (fZ f)) *
  ((ks_dR_D0 P f) ^ 2)) * (ks_dR_D2 P f))) / ((fR f) ^ 4).

(* /repo/Src/Main/Modules/Physics/Free_Data/fd_KerrSchild_H_K0_K1_K2.c:3251-3290 *)
Definition ks_dddK2_D0D1D2 (P : kspar) (f : ksarg) : R :=
  (((((2 * ((((((((fZ f) * (ks_dR_D0 P f)) * (ks_ddR_D1D2 P f)) + (((fZ f) * (ks_dR_D1 P f)) *
  (ks_ddR_D0D2 P f))) + (((fZ f) * (ks_dR_D2 P f)) * (ks_ddR_D0D1 P f))) + (((ks_dR_D0 P f) *
  (ks_dR_D1 P f)) * (fdZ2 f))) + (((ks_dR_D0 P f) * (ks_dR_D2 P f)) * (fdZ1 f))) + (((ks_dR_D1 P f) *
  (ks_dR_D2 P f)) * (fdZ0 f)))) * (fR f)) - (((((((((fZ f) * (ks_dddR_D0D1D2 P f)) + ((ks_dR_D0 P f)
  * (ks_ddZ_D1D2 P f))) + ((ks_dR_D1 P f) * (ks_ddZ_D0D2 P f))) + ((ks_dR_D2 P f) * (ks_ddZ_D0D1 P
  f))) + ((fdZ0 f) * (ks_ddR_D1D2 P f))) + ((fdZ1 f) * (ks_ddR_D0D2 P f))) + ((fdZ2 f) * (ks_ddR_D0D1
  P f))) * ((fR f) ^ 2))) + (((fR f) ^ 3) * (ks_dddZ_D0D1D2 P f))) - ((((6 * (fZ f)) * (ks_dR_D0 P
  f)) * (ks_dR_D1 P f)) * (ks_dR_D2 P f))) / ((fR f) ^ 4).

(* /repo/Src/Main/Modules/Physics/Free_Data/fd_KerrSchild_H_K0_K1_K2.c:3291-3311 *)
Definition ks_dddK2_D0D0D0 (P : kspar) (f : ksarg) : R :=
  ((((((6 * (((fZ f) * (ks_ddR_D0D0 P f)) + ((ks_dR_D0 P f) * (fdZ0 f)))) * (fR f)) * (ks_dR_D0 P f))
  - (((((fZ f) * (ks_dddR_D0D0D0 P f)) + ((3 * (ks_dR_D0 P f)) * (ks_ddZ_D0D0 P f))) + ((3 *
  (ks_ddR_D0D0 P f)) * (fdZ0 f))) * ((fR f) ^ 2))) + (((fR f) ^ 3) * (ks_dddZ_D0D0D0 P f))) - ((6 *
  (fZ f)) * ((ks_dR_D0 P f) ^ 3))) / ((fR f) ^ 4).

(* /repo/Src/Main/Modules/Physics/Free_Data/fd_KerrSchild_H_K0_K1_K2.c:3312-3341 *)
Definition ks_dddK2_D0D0D1 (P : kspar) (f : ksarg) : R :=
  (((((2 * ((((((2 * (fZ f)) * (ks_dR_D0 P f)) * (ks_ddR_D0D1 P f)) + (((fZ f) * (ks_ddR_D0D0 P f)) *
  (ks_dR_D1 P f))) + (((ks_dR_D0 P f) ^ 2) * (fdZ1 f))) + (((2 * (ks_dR_D0 P f)) * (ks_dR_D1 P f)) *
  (fdZ0 f)))) * (fR f)) - (((((((fZ f) * (ks_dddR_D0D0D1 P f)) + ((2 * (ks_dR_D0 P f)) * (ks_ddZ_D0D1
  P f))) + ((ks_ddR_D0D0 P f) * (fdZ1 f))) + ((ks_dR_D1 P f) * (ks_ddZ_D0D0 P f))) + ((2 * (fdZ0 f))
  * (ks_ddR_D0D1 P f))) * ((fR f) ^ 2))) + (((fR f) ^ 3) * (ks_dddZ_D0D0D1 P f))) - (((6 * (fZ f)) *
  ((ks_dR_D0 P f) ^ 2)) * (ks_dR_D1 P f))) / ((fR f) ^ 4).

(* /repo/Src/Main/Modules/Physics/Free_Data/fd_KerrSchild_H_K0_K1_K2.c:3342-3371 *)
Definition ks_dddK2_D1D2D2 (P : kspar) (f : ksarg) : R :=
  (((((2 * ((((((fZ f) * (ks_dR_D1 P f)) * (ks_ddR_D2D2 P f)) + (((2 * (fZ f)) * (ks_dR_D2 P f)) *
  (ks_ddR_D1D2 P f))) + (((2 * (ks_dR_D1 P f)) * (ks_dR_D2 P f)) * (fdZ2 f))) + (((ks_dR_D2 P f) ^ 2)
  * (fdZ1 f)))) * (fR f)) - (((((((fZ f) * (ks_dddR_D1D2D2 P f)) + ((ks_dR_D1 P f) * (ks_ddZ_D2D2 P
  f))) + ((2 * (ks_dR_D2 P f)) * (ks_ddZ_D1D2 P f))) + ((ks_ddR_D2D2 P f) * (fdZ1 f))) + ((2 * (fdZ2
  f)) * (ks_ddR_D1D2 P f))) * ((fR f) ^ 2))) + (((fR f) ^ 3) * (ks_dddZ_D1D2D2 P f))) - (((6 * (fZ
  f)) * (ks_dR_D1 P f)) * ((ks_dR_D2 P f) ^ 2))) / ((fR f) ^ 4).

(* /repo/Src/Main/Modules/Physics/Free_Data/fd_KerrSchild_H_K0_K1_K2.c:3372-3392 *)
Definition ks_dddK2_D2D2D2 (P : kspar) (f : ksarg) : R :=
  ((((((6 * (((fZ f) * (ks_ddR_D2D2 P f)) + ((ks_dR_D2 P f) * (fdZ2 f)))) * (fR f)) * (ks_dR_D2 P f))
  - (((((fZ f) * (ks_dddR_D2D2D2 P f)) + ((3 * (ks_dR_D2 P f)) * (ks_ddZ_D2D2 P f))) + ((3 *
  (ks_ddR_D2D2 P f)) * (fdZ2 f))) * ((fR f) ^ 2))) + (((fR f) ^ 3) * (ks_dddZ_D2D2D2 P f))) - ((6 *
  (fZ f)) * ((ks_dR_D2 P f) ^ 3))) / ((fR f) ^ 4).

(* /repo/Src/Main/Modules/Physics/Free_Data/fd_KerrSchild_H_K0_K1_K2.c:3393-3422 *)
Definition ks_dddK2_D1D2D1 (P : kspar) (f : ksarg) : R :=
  (((((2 * ((((((2 * (fZ f)) * (ks_dR_D1 P f)) * (ks_ddR_D1D2 P f)) + (((fZ f) * (ks_ddR_D1D1 P f)) *
  (ks_dR_D2 P f))) + (((ks_dR_D1 P f) ^ 2) * (fdZ2 f))) + (((2 * (ks_dR_D1 P f)) * (ks_dR_D2 P f)) *
  (fdZ1 f)))) * (fR f)) - (((((((fZ f) * (ks_dddR_D1D1D2 P f)) + ((2 * (ks_dR_D1 P f)) * (ks_ddZ_D1D2
  P f))) + ((ks_ddR_D1D1 P f) * (fdZ2 f))) + ((ks_dR_D2 P f) * (ks_ddZ_D1D1 P f))) + ((2 * (fdZ1 f))
  * (ks_ddR_D1D2 P f))) * ((fR f) ^ 2))) + (((fR f) ^ 3) * (ks_dddZ_D1D1D2 P f))) - (((6 * (fZ f)) *
  ((ks_dR_D1 P f) ^ 2)) * (ks_dR_D2 P f))) / ((fR f) ^ 4).

(* /repo/Src/Main/Modules/Physics/Free_Data/fd_KerrSchild_H_K0_K1_K2.c:3423-3452 *)
Definition ks_dddK2_D2D2D0 (P : kspar) (f : ksarg) : R :=
  (((((2 * ((((((fZ f) * (ks_dR_D0 P f)) * (ks_ddR_D2D2 P f)) + (((2 * (fZ f)) * (ks_dR_D2 P f)) *
  (ks_ddR_D0D2 P f))) + (((2 * (ks_dR_D0 P f)) * (ks_dR_D2 P f)) * (fdZ2 f))) + (((ks_dR_D2 P f) ^ 2)
  * (fdZ0 f)))) * (fR f)) - (((((((fZ f) * (ks_dddR_D0D2D2 P f)) + ((ks_dR_D0 P f) * (ks_ddZ_D2D2 P
  f))) + ((2 * (ks_dR_D2 P f)) * (ks_ddZ_D0D2 P f))) + ((ks_ddR_D2D2 P f) * (fdZ0 f))) + ((2 * (fdZ2
  f)) * (ks_ddR_D0D2 P f))) * ((fR f) ^ 2))) + (((fR f) ^ 3) * (ks_dddZ_D0D2D2 P f))) - (((6 * (fZ
  f)) * (ks_dR_D0 P f)) * ((ks_dR_D2 P f) ^ 2))) / ((fR f) ^ 4).

(* /repo/Src/Main/Modules/Physics/Free_Data/fd_KerrSchild_H_K0_K1_K2.c:3453-3482 *)
Definition ks_dddK2_D2D2D1 (P : kspar) (f : ksarg) : R :=
  (((((2 * ((((((fZ f) * (ks_dR_D1 P f)) * (ks_ddR_D2D2 P f)) + (((2 * (fZ f)) * (ks_dR_D2 P f)) *
  (ks_ddR_D1D2 P f))) + (((2 * (ks_dR_D1 P f)) * (ks_dR_D2 P f)) * (fdZ2 f))) + (((ks_dR_D2 P f) ^ 2)
  * (fdZ1 f)))) * (fR f)) - (((((((fZ f) * (ks_dddR_D1D2D2 P f)) + ((ks_dR_D1 P f) * (ks_ddZ_D2D2 P
  f))) + ((2 * (ks_dR_D2 P f)) * (ks_ddZ_D1D2 P f))) + ((ks_ddR_D2D2 P f) * (fdZ1 f))) + ((2 * (fdZ2
  f)) * (ks_ddR_D1D2 P f))) * ((fR f) ^ 2))) + (((fR f) ^ 3) * (ks_dddZ_D1D2D2 P f))) - (((6 * (fZ
  f)) * (ks_dR_D1 P f)) * ((ks_dR_D2 P f) ^ 2))) / ((fR f) ^ 4).

(* /repo/Src/Main/Modules/Physics/Free_Data/fd_KerrSchild_H_K0_K1_K2.c:3483-3522 *)
Definition ks_dddK2_D1D2D0 (P : kspar) (f : ksarg) : R :=
  (((((2 * ((((((((fZ f) * (ks_dR_D0 P f)) * (ks_ddR_D1D2 P f)) + (((fZ f) * (ks_dR_D1 P f)) *
  (ks_ddR_D0D2 P f))) + (((fZ f) * (ks_dR_D2 P f)) * (ks_ddR_D0D1 P f))) + (((ks_dR_D0 P f) *
  (ks_dR_D1 P f)) * (fdZ2 f))) + (((ks_dR_D0 P f) * (ks_dR_D2 P f)) * (fdZ1 f))) + (((ks_dR_D1 P f) *
  (ks_dR_D2 P f)) * (fdZ0 f)))) * (fR f)) - (((((((((fZ f) * (ks_dddR_D0D1D2 P f)) + ((ks_dR_D0 P f)
  * (ks_ddZ_D1D2 P f))) + ((ks_dR_D1 P f) * (ks_ddZ_D0D2 P f))) + ((ks_dR_D2 P f) * (ks_ddZ_D0D1 P
  f))) + ((fdZ0 f) * (ks_ddR_D1D2 P f))) + ((fdZ1 f) * (ks_ddR_D0D2 P f))) + ((fdZ2 f) * (ks_ddR_D0D1
  P f))) * ((fR f) ^ 2))) + (((fR f) ^ 3) * (ks_dddZ_D0D1D2 P f))) - ((((6 * (fZ f)) * (ks_dR_D0 P
  f)) * (ks_dR_D1 P f)) * (ks_dR_D2 P f))) / ((fR f) ^ 4).

(* /repo/Src/Main/Modules/Physics/Free_Data/fd_KerrSchild_H_K0_K1_K2.c:3523-3552 *)
Definition ks_dddK2_D1D1D2 (P : kspar) (f : ksarg) : R :=
  (((((2 * ((((((2 * (fZ f)) * (ks_dR_D1 P f)) * (ks_ddR_D1D2 P f)) + (((fZ f) * (ks_ddR_D1D1 P f)) *
  (ks_dR_D2 P f))) + (((ks_dR_D1 P f) ^ 2) * (fdZ2 f))) + (((2 * (ks_dR_D1 P f)) * (ks_dR_D2 P f)) *
  (fdZ1 f)))) * (fR f)) - (((((((fZ f) * (ks_dddR_D1D1D2 P f)) + ((2 * (ks_dR_D1 P f)) * (ks_ddZ_D1D2
  P f))) + ((ks_ddR_D1D1 P f) * (fdZ2 f))) + ((ks_dR_D2 P f) * (ks_ddZ_D1D1 P f))) + ((2 * (fdZ1 f))
  * (ks_ddR_D1D2 P f))) * ((fR f) ^ 2))) + (((fR f) ^ 3) * (ks_dddZ_D1D1D2 P f))) - (((6 * (fZ f)) *
  ((ks_dR_D1 P f) ^ 2)) * (ks_dR_D2 P f))) / ((fR f) ^ 4).

(* /repo/Src/Main/Modules/Physics/Free_Data/fd_KerrSchild_H_K0_K1_K2.c:3553-3582 *)
Definition ks_dddK2_D1D1D0 (P : kspar) (f : ksarg) : R :=
  (((((2 * ((((((fZ f) * (ks_dR_D0 P f)) * (ks_ddR_D1D1 P f)) + (((2 * (fZ f)) * (ks_dR_D1 P f)) *
  (ks_ddR_D0D1 P f))) + (((2 * (ks_dR_D0 P f)) * (ks_dR_D1 P f)) * (fdZ1 f))) + (((ks_dR_D1 P f) ^ 2)
  * (fdZ0 f)))) * (fR f)) - (((((((fZ f) * (ks_dddR_D0D1D1 P f)) + ((ks_dR_D0 P f) * (ks_ddZ_D1D1 P
  f))) + ((2 * (ks_dR_D1 P f)) * (ks_ddZ_D0D1 P f))) + ((ks_ddR_D1D1 P f) * (fdZ0 f))) + ((2 * (fdZ1
  f)) * (ks_ddR_D0D1 P f))) * ((fR f) ^ 2))) + (((fR f) ^ 3) * (ks_dddZ_D0D1D1 P f))) - (((6 * (fZ
  f)) * (ks_dR_D0 P f)) * ((ks_dR_D1 P f) ^ 2))) / ((fR f) ^ 4).

(* /repo/Src/Main/Modules/Physics/Free_Data/fd_KerrSchild_H_K0_K1_K2.c:3583-3603 *)
Definition ks_dddK2_D1D1D1 (P : kspar) (f : ksarg) : R :=
  ((((((6 * (((fZ f) * (ks_ddR_D1D1 P f)) + ((ks_dR_D1 P f) * (fdZ1 f)))) * (fR f)) * (ks_dR_D1 P f))
  - (((((fZ f) * (ks_dddR_D1D1D1 P f)) + ((3 * (ks_dR_D1 P f)) * (ks_ddZ_D1D1 P f))) + ((3 *
  (ks_ddR_D1D1 P f)) * (fdZ1 f))) * ((fR f) ^ 2))) + (((fR f) ^ 3) * (ks_dddZ_D1D1D1 P f))) - ((6 *
  (fZ f)) * ((ks_dR_D1 P f) ^ 3))) / ((fR f) ^ 4).

(* /repo/Src/Main/Modules/Physics/Free_Data/fd_KerrSchild_H_K0_K1_K2.c:3604-3633 *)
Definition ks_dddK2_D0D1D1 (P : kspar) (f : ksarg) : R :=
  (((((2 * ((((((fZ f) * (ks_dR_D0 P f)) * (ks_ddR_D1D1 P f)) + (((2 * (fZ f)) * (ks_dR_D1 P f)) *
  (ks_ddR_D0D1 P f))) + (((2 * (ks_dR_D0 P f)) * (ks_dR_D1 P f)) * (fdZ1 f))) + (((ks_dR_D1 P f) ^ 2)
  * (fdZ0 f)))) * (fR f)) - (((((((fZ f) * (ks_dddR_D0D1D1 P f)) + ((ks_dR_D0 P f) * (ks_ddZ_D1D1 P
  f))) + ((2 * (ks_dR_D1 P f)) * (ks_ddZ_D0D1 P f))) + ((ks_ddR_D1D1 P f) * (fdZ0 f))) + ((2 * (fdZ1
  f)) * (ks_ddR_D0D1 P f))) * ((fR f) ^ 2))) + (((fR f) ^ 3) * (ks_dddZ_D0D1D1 P f))) - (((6 * (fZ
  f)) * (ks_dR_D0 P f)) * ((ks_dR_D1 P f) ^ 2))) / ((fR f) ^ 4).

(* /repo/Src/Main/Modules/Physics/Free_Data/fd_KerrSchild_H_K0_K1_K2.c:3881-3938 *)
Definition ks_dddH_D2D2D2 (P : kspar) (f : ksarg) : R :=
  (((pL P) * (pM P)) * (((((((((((((pa P) ^ 2) * ((fZ f) ^ 2)) + ((fR f) ^ 4)) ^ 3) * ((fR f) ^ 2)) *
  (ks_dddR_D2D2D2 P f)) - ((((6 * (((((pa P) ^ 2) * ((fZ f) ^ 2)) + ((fR f) ^ 4)) ^ 2)) * (((((((pa
  P) ^ 2) * (fR f)) * (fZ f)) * (fdZ2 f)) - ((((pa P) ^ 2) * ((fZ f) ^ 2)) * (ks_dR_D2 P f))) + (((fR
  f) ^ 4) * (ks_dR_D2 P f)))) * (fR f)) * (ks_ddR_D2D2 P f))) - (((6 * (((((pa P) ^ 2) * ((fZ f) ^
  2)) + ((fR f) ^ 4)) ^ 2)) * (((((((- ((pa P) ^ 2)) * (((fZ f) * (ks_ddR_D2D2 P f)) + ((4 *
  (ks_dR_D2 P f)) * (fdZ2 f)))) * (fR f)) * (fZ f)) + ((((pa P) ^ 2) * (((fZ f) * (ks_ddZ_D2D2 P f))
  + ((fdZ2 f) ^ 2))) * ((fR f) ^ 2))) + (((3 * ((pa P) ^ 2)) * ((fZ f) ^ 2)) * ((ks_dR_D2 P f) ^ 2)))
  + ((((fR f) * (ks_ddR_D2D2 P f)) + ((ks_dR_D2 P f) ^ 2)) * ((fR f) ^ 4)))) * (ks_dR_D2 P f))) - ((2
  * (((((pa P) ^ 2) * ((fZ f) ^ 2)) + ((fR f) ^ 4)) ^ 2)) * (((((((((9 * ((pa P) ^ 2)) * (((fZ f) *
  (ks_ddR_D2D2 P f)) + ((2 * (ks_dR_D2 P f)) * (fdZ2 f)))) * (fR f)) * (fZ f)) * (ks_dR_D2 P f)) +
  ((((pa P) ^ 2) * (((fZ f) * (ks_dddZ_D2D2D2 P f)) + ((3 * (fdZ2 f)) * (ks_ddZ_D2D2 P f)))) * ((fR
  f) ^ 3))) - ((((pa P) ^ 2) * ((((((fZ f) ^ 2) * (ks_dddR_D2D2D2 P f)) + (((6 * (fZ f)) * (ks_dR_D2
  P f)) * (ks_ddZ_D2D2 P f))) + (((6 * (fZ f)) * (ks_ddR_D2D2 P f)) * (fdZ2 f))) + ((6 * (ks_dR_D2 P
  f)) * ((fdZ2 f) ^ 2)))) * ((fR f) ^ 2))) - (((12 * ((pa P) ^ 2)) * ((fZ f) ^ 2)) * ((ks_dR_D2 P f)
  ^ 3))) + ((((fR f) * (ks_dddR_D2D2D2 P f)) + ((3 * (ks_dR_D2 P f)) * (ks_ddR_D2D2 P f))) * ((fR f)
  ^ 5))))) + (((24 * ((((pa P) ^ 2) * ((fZ f) ^ 2)) + ((fR f) ^ 4))) * ((((((((pa P) ^ 2) * (fR f)) *
  (fZ f)) * (fdZ2 f)) - ((((pa P) ^ 2) * ((fZ f) ^ 2)) * (ks_dR_D2 P f))) + (((fR f) ^ 4) * (ks_dR_D2
  P f))) ^ 2)) * (ks_dR_D2 P f))) + (((24 * ((((pa P) ^ 2) * ((fZ f) ^ 2)) + ((fR f) ^ 4))) *
  (((((((pa P) ^ 2) * (fR f)) * (fZ f)) * (fdZ2 f)) - ((((pa P) ^ 2) * ((fZ f) ^ 2)) * (ks_dR_D2 P
  f))) + (((fR f) ^ 4) * (ks_dR_D2 P f)))) * (((((((- ((pa P) ^ 2)) * (((fZ f) * (ks_ddR_D2D2 P f)) +
  ((4 * (ks_dR_D2 P f)) * (fdZ2 f)))) * (fR f)) * (fZ f)) + ((((pa P) ^ 2) * (((fZ f) * (ks_ddZ_D2D2
  P f)) + ((fdZ2 f) ^ 2))) * ((fR f) ^ 2))) + (((3 * ((pa P) ^ 2)) * ((fZ f) ^ 2)) * ((ks_dR_D2 P f)
  ^ 2))) + ((((fR f) * (ks_ddR_D2D2 P f)) + ((ks_dR_D2 P f) ^ 2)) * ((fR f) ^ 4))))) - (48 *
  ((((((((pa P) ^ 2) * (fR f)) * (fZ f)) * (fdZ2 f)) - ((((pa P) ^ 2) * ((fZ f) ^ 2)) * (ks_dR_D2 P
  f))) + (((fR f) ^ 4) * (ks_dR_D2 P f))) ^ 3)))) / (((((pa P) ^ 2) * ((fZ f) ^ 2)) + ((fR f) ^ 4)) ^
  4).

(* /repo/Src/Main/Modules/Physics/Free_Data/fd_KerrSchild_H_K0_K1_K2.c:3939-4040 *)
Definition ks_dddH_D2D2D0 (P : kspar) (f : ksarg) : R :=
  (((pL P) * (pM P)) * (((((((((((((pa P) ^ 2) * ((fZ f) ^ 2)) + ((fR f) ^ 4)) ^ 3) * ((fR f) ^ 2)) *
  (ks_dddR_D0D2D2 P f)) - (((2 * (((((pa P) ^ 2) * ((fZ f) ^ 2)) + ((fR f) ^ 4)) ^ 2)) * (((((((((pa
  P) ^ 2) * (fR f)) * (fZ f)) * (fdZ0 f)) - ((((pa P) ^ 2) * ((fZ f) ^ 2)) * (ks_dR_D0 P f))) + (((fR
  f) ^ 4) * (ks_dR_D0 P f))) * (ks_ddR_D2D2 P f)) + ((2 * (((((((pa P) ^ 2) * (fR f)) * (fZ f)) *
  (fdZ2 f)) - ((((pa P) ^ 2) * ((fZ f) ^ 2)) * (ks_dR_D2 P f))) + (((fR f) ^ 4) * (ks_dR_D2 P f)))) *
  (ks_ddR_D0D2 P f)))) * (fR f))) - ((2 * (((((pa P) ^ 2) * ((fZ f) ^ 2)) + ((fR f) ^ 4)) ^ 2)) *
  (((2 * (((((((pa P) ^ 2) * (((fZ f) * (ks_ddZ_D0D2 P f)) + ((fdZ0 f) * (fdZ2 f)))) * ((fR f) ^ 2))
  - (((((pa P) ^ 2) * ((((fZ f) * (ks_ddR_D0D2 P f)) + ((2 * (ks_dR_D0 P f)) * (fdZ2 f))) + ((2 *
  (ks_dR_D2 P f)) * (fdZ0 f)))) * (fR f)) * (fZ f))) + ((((3 * ((pa P) ^ 2)) * ((fZ f) ^ 2)) *
  (ks_dR_D0 P f)) * (ks_dR_D2 P f))) + ((((fR f) * (ks_ddR_D0D2 P f)) + ((ks_dR_D0 P f) * (ks_dR_D2 P
  f))) * ((fR f) ^ 4)))) * (ks_dR_D2 P f)) + ((((((((- ((pa P) ^ 2)) * (((fZ f) * (ks_ddR_D2D2 P f))
  + ((4 * (ks_dR_D2 P f)) * (fdZ2 f)))) * (fR f)) * (fZ f)) + ((((pa P) ^ 2) * (((fZ f) *
  (ks_ddZ_D2D2 P f)) + ((fdZ2 f) ^ 2))) * ((fR f) ^ 2))) + (((3 * ((pa P) ^ 2)) * ((fZ f) ^ 2)) *
  ((ks_dR_D2 P f) ^ 2))) + ((((fR f) * (ks_ddR_D2D2 P f)) + ((ks_dR_D2 P f) ^ 2)) * ((fR f) ^ 4))) *
  (ks_dR_D0 P f))))) - ((2 * (((((pa P) ^ 2) * ((fZ f) ^ 2)) + ((fR f) ^ 4)) ^ 2)) * ((((((((pa P) ^
  2) * ((((fZ f) * (ks_dddZ_D0D2D2 P f)) + ((fdZ0 f) * (ks_ddZ_D2D2 P f))) + ((2 * (fdZ2 f)) *
  (ks_ddZ_D0D2 P f)))) * ((fR f) ^ 3)) + ((((3 * ((pa P) ^ 2)) * ((((((fZ f) * (ks_dR_D0 P f)) *
  (ks_ddR_D2D2 P f)) + (((2 * (fZ f)) * (ks_dR_D2 P f)) * (ks_ddR_D0D2 P f))) + (((4 * (ks_dR_D0 P
  f)) * (ks_dR_D2 P f)) * (fdZ2 f))) + ((2 * ((ks_dR_D2 P f) ^ 2)) * (fdZ0 f)))) * (fR f)) * (fZ f)))
  - ((((pa P) ^ 2) * (((((((((fZ f) ^ 2) * (ks_dddR_D0D2D2 P f)) + (((2 * (fZ f)) * (ks_dR_D0 P f)) *
  (ks_ddZ_D2D2 P f))) + (((4 * (fZ f)) * (ks_dR_D2 P f)) * (ks_ddZ_D0D2 P f))) + (((2 * (fZ f)) *
  (ks_ddR_D2D2 P f)) * (fdZ0 f))) + (((4 * (fZ f)) * (fdZ2 f)) * (ks_ddR_D0D2 P f))) + ((2 *
  (ks_dR_D0 P f)) * ((fdZ2 f) ^ 2))) + (((4 * (ks_dR_D2 P f)) * (fdZ0 f)) * (fdZ2 f)))) * ((fR f) ^
  2))) - ((((12 * ((pa P) ^ 2)) * ((fZ f) ^ 2)) * (ks_dR_D0 P f)) * ((ks_dR_D2 P f) ^ 2))) + (((((fR
  f) * (ks_dddR_D0D2D2 P f)) + ((ks_dR_D0 P f) * (ks_ddR_D2D2 P f))) + ((2 * (ks_dR_D2 P f)) *
  (ks_ddR_D0D2 P f))) * ((fR f) ^ 5))))) + ((8 * ((((pa P) ^ 2) * ((fZ f) ^ 2)) + ((fR f) ^ 4))) *
  (((((((((pa P) ^ 2) * (fR f)) * (fZ f)) * (fdZ0 f)) - ((((pa P) ^ 2) * ((fZ f) ^ 2)) * (ks_dR_D0 P
  f))) + (((fR f) ^ 4) * (ks_dR_D0 P f))) * (((((((- ((pa P) ^ 2)) * (((fZ f) * (ks_ddR_D2D2 P f)) +
  ((4 * (ks_dR_D2 P f)) * (fdZ2 f)))) * (fR f)) * (fZ f)) + ((((pa P) ^ 2) * (((fZ f) * (ks_ddZ_D2D2
  P f)) + ((fdZ2 f) ^ 2))) * ((fR f) ^ 2))) + (((3 * ((pa P) ^ 2)) * ((fZ f) ^ 2)) * ((ks_dR_D2 P f)
  ^ 2))) + ((((fR f) * (ks_ddR_D2D2 P f)) + ((ks_dR_D2 P f) ^ 2)) * ((fR f) ^ 4)))) + ((2 * (((((((pa
  P) ^ 2) * (fR f)) * (fZ f)) * (fdZ2 f)) - ((((pa P) ^ 2) * ((fZ f) ^ 2)) * (ks_dR_D2 P f))) + (((fR
  f) ^ 4) * (ks_dR_D2 P f)))) * (((((((pa P) ^ 2) * (((fZ f) * (ks_ddZ_D0D2 P f)) + ((fdZ0 f) * (fdZ2
  f)))) * ((fR f) ^ 2)) - (((((pa P) ^ 2) * ((((fZ f) * (ks_ddR_D0D2 P f)) + ((2 * (ks_dR_D0 P f)) *
  (fdZ2 f))) + ((2 * (ks_dR_D2 P f)) * (fdZ0 f)))) * (fR f)) * (fZ f))) + ((((3 * ((pa P) ^ 2)) *
  ((fZ f) ^ 2)) * (ks_dR_D0 P f)) * (ks_dR_D2 P f))) + ((((fR f) * (ks_ddR_D0D2 P f)) + ((ks_dR_D0 P
  f) * (ks_dR_D2 P f))) * ((fR f) ^ 4))))))) + (((8 * ((((pa P) ^ 2) * ((fZ f) ^ 2)) + ((fR f) ^ 4)))
  * (((2 * (((((((pa P) ^ 2) * (fR f)) * (fZ f)) * (fdZ0 f)) - ((((pa P) ^ 2) * ((fZ f) ^ 2)) *
  (ks_dR_D0 P f))) + (((fR f) ^ 4) * (ks_dR_D0 P f)))) * (ks_dR_D2 P f)) + ((((((((pa P) ^ 2) * (fR
  f)) * (fZ f)) * (fdZ2 f)) - ((((pa P) ^ 2) * ((fZ f) ^ 2)) * (ks_dR_D2 P f))) + (((fR f) ^ 4) *
  (ks_dR_D2 P f))) * (ks_dR_D0 P f)))) * (((((((pa P) ^ 2) * (fR f)) * (fZ f)) * (fdZ2 f)) - ((((pa
  P) ^ 2) * ((fZ f) ^ 2)) * (ks_dR_D2 P f))) + (((fR f) ^ 4) * (ks_dR_D2 P f))))) - ((48 * (((((((pa
  P) ^ 2) * (fR f)) * (fZ f)) * (fdZ0 f)) - ((((pa P) ^ 2) * ((fZ f) ^ 2)) * (ks_dR_D0 P f))) + (((fR
  f) ^ 4) * (ks_dR_D0 P f)))) * ((((((((pa P) ^ 2) * (fR f)) * (fZ f)) * (fdZ2 f)) - ((((pa P) ^ 2) *
  ((fZ f) ^ 2)) * (ks_dR_D2 P f))) + (((fR f) ^ 4) * (ks_dR_D2 P f))) ^ 2)))) / (((((pa P) ^ 2) *
  ((fZ f) ^ 2)) + ((fR f) ^ 4)) ^ 4).

(* /repo/Src/Main/Modules/Physics/Free_Data/fd_KerrSchild_H_K0_K1_K2.c:4041-4142 *)
Definition ks_dddH_D0D1D1 (P : kspar) (f : ksarg) : R :=
  (((pL P) * (pM P)) * (((((((((((((pa P) ^ 2) * ((fZ f) ^ 2)) + ((fR f) ^ 4)) ^ 3) * ((fR f) ^ 2)) *
  (ks_dddR_D0D1D1 P f)) - (((2 * (((((pa P) ^ 2) * ((fZ f) ^ 2)) + ((fR f) ^ 4)) ^ 2)) * (((((((((pa
  P) ^ 2) * (fR f)) * (fZ f)) * (fdZ0 f)) - ((((pa P) ^ 2) * ((fZ f) ^ 2)) * (ks_dR_D0 P f))) + (((fR
  f) ^ 4) * (ks_dR_D0 P f))) * (ks_ddR_D1D1 P f)) + ((2 * (((((((pa P) ^ 2) * (fR f)) * (fZ f)) *
  (fdZ1 f)) - ((((pa P) ^ 2) * ((fZ f) ^ 2)) * (ks_dR_D1 P f))) + (((fR f) ^ 4) * (ks_dR_D1 P f)))) *
  (ks_ddR_D0D1 P f)))) * (fR f))) - ((2 * (((((pa P) ^ 2) * ((fZ f) ^ 2)) + ((fR f) ^ 4)) ^ 2)) *
  (((2 * (((((((pa P) ^ 2) * (((fZ f) * (ks_ddZ_D0D1 P f)) + ((fdZ0 f) * (fdZ1 f)))) * ((fR f) ^ 2))
  - (((((pa P) ^ 2) * ((((fZ f) * (ks_ddR_D0D1 P f)) + ((2 * (ks_dR_D0 P f)) * (fdZ1 f))) + ((2 *
  (ks_dR_D1 P f)) * (fdZ0 f)))) * (fR f)) * (fZ f))) + ((((3 * ((pa P) ^ 2)) * ((fZ f) ^ 2)) *
  (ks_dR_D0 P f)) * (ks_dR_D1 P f))) + ((((fR f) * (ks_ddR_D0D1 P f)) + ((ks_dR_D0 P f) * (ks_dR_D1 P
  f))) * ((fR f) ^ 4)))) * (ks_dR_D1 P f)) + ((((((((- ((pa P) ^ 2)) * (((fZ f) * (ks_ddR_D1D1 P f))
  + ((4 * (ks_dR_D1 P f)) * (fdZ1 f)))) * (fR f)) * (fZ f)) + ((((pa P) ^ 2) * (((fZ f) *
  (ks_ddZ_D1D1 P f)) + ((fdZ1 f) ^ 2))) * ((fR f) ^ 2))) + (((3 * ((pa P) ^ 2)) * ((fZ f) ^ 2)) *
  ((ks_dR_D1 P f) ^ 2))) + ((((fR f) * (ks_ddR_D1D1 P f)) + ((ks_dR_D1 P f) ^ 2)) * ((fR f) ^ 4))) *
  (ks_dR_D0 P f))))) - ((2 * (((((pa P) ^ 2) * ((fZ f) ^ 2)) + ((fR f) ^ 4)) ^ 2)) * ((((((((pa P) ^
  2) * ((((fZ f) * (ks_dddZ_D0D1D1 P f)) + ((fdZ0 f) * (ks_ddZ_D1D1 P f))) + ((2 * (fdZ1 f)) *
  (ks_ddZ_D0D1 P f)))) * ((fR f) ^ 3)) + ((((3 * ((pa P) ^ 2)) * ((((((fZ f) * (ks_dR_D0 P f)) *
  (ks_ddR_D1D1 P f)) + (((2 * (fZ f)) * (ks_dR_D1 P f)) * (ks_ddR_D0D1 P f))) + (((4 * (ks_dR_D0 P
  f)) * (ks_dR_D1 P f)) * (fdZ1 f))) + ((2 * ((ks_dR_D1 P f) ^ 2)) * (fdZ0 f)))) * (fR f)) * (fZ f)))
  - ((((pa P) ^ 2) * (((((((((fZ f) ^ 2) * (ks_dddR_D0D1D1 P f)) + (((2 * (fZ f)) * (ks_dR_D0 P f)) *
  (ks_ddZ_D1D1 P f))) + (((4 * (fZ f)) * (ks_dR_D1 P f)) * (ks_ddZ_D0D1 P f))) + (((2 * (fZ f)) *
  (ks_ddR_D1D1 P f)) * (fdZ0 f))) + (((4 * (fZ f)) * (fdZ1 f)) * (ks_ddR_D0D1 P f))) + ((2 *
  (ks_dR_D0 P f)) * ((fdZ1 f) ^ 2))) + (((4 * (ks_dR_D1 P f)) * (fdZ0 f)) * (fdZ1 f)))) * ((fR f) ^
  2))) - ((((12 * ((pa P) ^ 2)) * ((fZ f) ^ 2)) * (ks_dR_D0 P f)) * ((ks_dR_D1 P f) ^ 2))) + (((((fR
  f) * (ks_dddR_D0D1D1 P f)) + ((ks_dR_D0 P f) * (ks_ddR_D1D1 P f))) + ((2 * (ks_dR_D1 P f)) *
  (ks_ddR_D0D1 P f))) * ((fR f) ^ 5))))) + ((8 * ((((pa P) ^ 2) * ((fZ f) ^ 2)) + ((fR f) ^ 4))) *
  (((((((((pa P) ^ 2) * (fR f)) * (fZ f)) * (fdZ0 f)) - ((((pa P) ^ 2) * ((fZ f) ^ 2)) * (ks_dR_D0 P
  f))) + (((fR f) ^ 4) * (ks_dR_D0 P f))) * (((((((- ((pa P) ^ 2)) * (((fZ f) * (ks_ddR_D1D1 P f)) +
  ((4 * (ks_dR_D1 P f)) * (fdZ1 f)))) * (fR f)) * (fZ f)) + ((((pa P) ^ 2) * (((fZ f) * (ks_ddZ_D1D1
  P f)) + ((fdZ1 f) ^ 2))) * ((fR f) ^ 2))) + (((3 * ((pa P) ^ 2)) * ((fZ f) ^ 2)) * ((ks_dR_D1 P f)
  ^ 2))) + ((((fR f) * (ks_ddR_D1D1 P f)) + ((ks_dR_D1 P f) ^ 2)) * ((fR f) ^ 4)))) + ((2 * (((((((pa
  P) ^ 2) * (fR f)) * (fZ f)) * (fdZ1 f)) - ((((pa P) ^ 2) * ((fZ f) ^ 2)) * (ks_dR_D1 P f))) + (((fR
  f) ^ 4) * (ks_dR_D1 P f)))) * (((((((pa P) ^ 2) * (((fZ f) * (ks_ddZ_D0D1 P f)) + ((fdZ0 f) * (fdZ1
  f)))) * ((fR f) ^ 2)) - (((((pa P) ^ 2) * ((((fZ f) * (ks_ddR_D0D1 P f)) + ((2 * (ks_dR_D0 P f)) *
  (fdZ1 f))) + ((2 * (ks_dR_D1 P f)) * (fdZ0 f)))) * (fR f)) * (fZ f))) + ((((3 * ((pa P) ^ 2)) *
  ((fZ f) ^ 2)) * (ks_dR_D0 P f)) * (ks_dR_D1 P f))) + ((((fR f) * (ks_ddR_D0D1 P f)) + ((ks_dR_D0 P
  f) * (ks_dR_D1 P f))) * ((fR f) ^ 4))))))) + (((8 * ((((pa P) ^ 2) * ((fZ f) ^ 2)) + ((fR f) ^ 4)))
  * (((2 * (((((((pa P) ^ 2) * (fR f)) * (fZ f)) * (fdZ0 f)) - ((((pa P) ^ 2) * ((fZ f) ^ 2)) *
  (ks_dR_D0 P f))) + (((fR f) ^ 4) * (ks_dR_D0 P f)))) * (ks_dR_D1 P f)) + ((((((((pa P) ^ 2) * (fR
  f)) * (fZ f)) * (fdZ1 f)) - ((((pa P) ^ 2) * ((fZ f) ^ 2)) * (ks_dR_D1 P f))) + (((fR f) ^ 4) *
  (ks_dR_D1 P f))) * (ks_dR_D0 P f)))) * (((((((pa P) ^ 2) * (fR f)) * (fZ f)) * (fdZ1 f)) - ((((pa
  P) ^ 2) * ((fZ f) ^ 2)) * (ks_dR_D1 P f))) + (((fR f) ^ 4) * (ks_dR_D1 P f))))) - ((48 * (((((((pa
  P) ^ 2) * (fR f)) * (fZ f)) * (fdZ0 f)) - ((((pa P) ^ 2) * ((fZ f) ^ 2)) * (ks_dR_D0 P f))) + (((fR
  f) ^ 4) * (ks_dR_D0 P f)))) * ((((((((pa P) ^ 2) * (fR f)) * (fZ f)) * (fdZ1 f)) - ((((pa P) ^ 2) *
  ((fZ f) ^ 2)) * (ks_dR_D1 P f))) + (((fR f) ^ 4) * (ks_dR_D1 P f))) ^ 2)))) / (((((pa P) ^ 2) *
  ((fZ f) ^ 2)) + ((fR f) ^ 4)) ^ 4).

(* /repo/Src/Main/Modules/Physics/Free_Data/fd_KerrSchild_H_K0_K1_K2.c:4143-4245 *)
Definition ks_dddH_D0D0D1 (P : kspar) (f : ksarg) : R :=
  (((pL P) * (pM P)) * (((((((((((((pa P) ^ 2) * ((fZ f) ^ 2)) + ((fR f) ^ 4)) ^ 3) * ((fR f) ^ 2)) *
  (ks_dddR_D0D0D1 P f)) - (((2 * (((((pa P) ^ 2) * ((fZ f) ^ 2)) + ((fR f) ^ 4)) ^ 2)) * (((2 *
  (((((((pa P) ^ 2) * (fR f)) * (fZ f)) * (fdZ0 f)) - ((((pa P) ^ 2) * ((fZ f) ^ 2)) * (ks_dR_D0 P
  f))) + (((fR f) ^ 4) * (ks_dR_D0 P f)))) * (ks_ddR_D0D1 P f)) + ((((((((pa P) ^ 2) * (fR f)) * (fZ
  f)) * (fdZ1 f)) - ((((pa P) ^ 2) * ((fZ f) ^ 2)) * (ks_dR_D1 P f))) + (((fR f) ^ 4) * (ks_dR_D1 P
  f))) * (ks_ddR_D0D0 P f)))) * (fR f))) - ((2 * (((((pa P) ^ 2) * ((fZ f) ^ 2)) + ((fR f) ^ 4)) ^
  2)) * (((2 * (((((((pa P) ^ 2) * (((fZ f) * (ks_ddZ_D0D1 P f)) + ((fdZ0 f) * (fdZ1 f)))) * ((fR f)
  ^ 2)) - (((((pa P) ^ 2) * ((((fZ f) * (ks_ddR_D0D1 P f)) + ((2 * (ks_dR_D0 P f)) * (fdZ1 f))) + ((2
  * (ks_dR_D1 P f)) * (fdZ0 f)))) * (fR f)) * (fZ f))) + ((((3 * ((pa P) ^ 2)) * ((fZ f) ^ 2)) *
  (ks_dR_D0 P f)) * (ks_dR_D1 P f))) + ((((fR f) * (ks_ddR_D0D1 P f)) + ((ks_dR_D0 P f) * (ks_dR_D1 P
  f))) * ((fR f) ^ 4)))) * (ks_dR_D0 P f)) + ((((((((- ((pa P) ^ 2)) * (((fZ f) * (ks_ddR_D0D0 P f))
  + ((4 * (ks_dR_D0 P f)) * (fdZ0 f)))) * (fR f)) * (fZ f)) + ((((pa P) ^ 2) * (((fZ f) *
  (ks_ddZ_D0D0 P f)) + ((fdZ0 f) ^ 2))) * ((fR f) ^ 2))) + (((3 * ((pa P) ^ 2)) * ((fZ f) ^ 2)) *
  ((ks_dR_D0 P f) ^ 2))) + ((((fR f) * (ks_ddR_D0D0 P f)) + ((ks_dR_D0 P f) ^ 2)) * ((fR f) ^ 4))) *
  (ks_dR_D1 P f))))) - ((2 * (((((pa P) ^ 2) * ((fZ f) ^ 2)) + ((fR f) ^ 4)) ^ 2)) * ((((((((pa P) ^
  2) * ((((fZ f) * (ks_dddZ_D0D0D1 P f)) + ((2 * (fdZ0 f)) * (ks_ddZ_D0D1 P f))) + ((ks_ddZ_D0D0 P f)
  * (fdZ1 f)))) * ((fR f) ^ 3)) + ((((3 * ((pa P) ^ 2)) * ((((((2 * (fZ f)) * (ks_dR_D0 P f)) *
  (ks_ddR_D0D1 P f)) + (((fZ f) * (ks_ddR_D0D0 P f)) * (ks_dR_D1 P f))) + ((2 * ((ks_dR_D0 P f) ^ 2))
  * (fdZ1 f))) + (((4 * (ks_dR_D0 P f)) * (ks_dR_D1 P f)) * (fdZ0 f)))) * (fR f)) * (fZ f))) - ((((pa
  P) ^ 2) * (((((((((fZ f) ^ 2) * (ks_dddR_D0D0D1 P f)) + (((4 * (fZ f)) * (ks_dR_D0 P f)) *
  (ks_ddZ_D0D1 P f))) + (((2 * (fZ f)) * (ks_ddR_D0D0 P f)) * (fdZ1 f))) + (((2 * (fZ f)) * (ks_dR_D1
  P f)) * (ks_ddZ_D0D0 P f))) + (((4 * (fZ f)) * (fdZ0 f)) * (ks_ddR_D0D1 P f))) + (((4 * (ks_dR_D0 P
  f)) * (fdZ0 f)) * (fdZ1 f))) + ((2 * (ks_dR_D1 P f)) * ((fdZ0 f) ^ 2)))) * ((fR f) ^ 2))) - ((((12
  * ((pa P) ^ 2)) * ((fZ f) ^ 2)) * ((ks_dR_D0 P f) ^ 2)) * (ks_dR_D1 P f))) + (((((fR f) *
  (ks_dddR_D0D0D1 P f)) + ((2 * (ks_dR_D0 P f)) * (ks_ddR_D0D1 P f))) + ((ks_ddR_D0D0 P f) *
  (ks_dR_D1 P f))) * ((fR f) ^ 5))))) + ((8 * ((((pa P) ^ 2) * ((fZ f) ^ 2)) + ((fR f) ^ 4))) * (((2
  * (((((((pa P) ^ 2) * (fR f)) * (fZ f)) * (fdZ0 f)) - ((((pa P) ^ 2) * ((fZ f) ^ 2)) * (ks_dR_D0 P
  f))) + (((fR f) ^ 4) * (ks_dR_D0 P f)))) * (((((((pa P) ^ 2) * (((fZ f) * (ks_ddZ_D0D1 P f)) +
  ((fdZ0 f) * (fdZ1 f)))) * ((fR f) ^ 2)) - (((((pa P) ^ 2) * ((((fZ f) * (ks_ddR_D0D1 P f)) + ((2 *
  (ks_dR_D0 P f)) * (fdZ1 f))) + ((2 * (ks_dR_D1 P f)) * (fdZ0 f)))) * (fR f)) * (fZ f))) + ((((3 *
  ((pa P) ^ 2)) * ((fZ f) ^ 2)) * (ks_dR_D0 P f)) * (ks_dR_D1 P f))) + ((((fR f) * (ks_ddR_D0D1 P f))
  + ((ks_dR_D0 P f) * (ks_dR_D1 P f))) * ((fR f) ^ 4)))) + ((((((((pa P) ^ 2) * (fR f)) * (fZ f)) *
  (fdZ1 f)) - ((((pa P) ^ 2) * ((fZ f) ^ 2)) * (ks_dR_D1 P f))) + (((fR f) ^ 4) * (ks_dR_D1 P f))) *
  (((((((- ((pa P) ^ 2)) * (((fZ f) * (ks_ddR_D0D0 P f)) + ((4 * (ks_dR_D0 P f)) * (fdZ0 f)))) * (fR
  f)) * (fZ f)) + ((((pa P) ^ 2) * (((fZ f) * (ks_ddZ_D0D0 P f)) + ((fdZ0 f) ^ 2))) * ((fR f) ^ 2)))
  + (((3 * ((pa P) ^ 2)) * ((fZ f) ^ 2)) * ((ks_dR_D0 P f) ^ 2))) + ((((fR f) * (ks_ddR_D0D0 P f)) +
  ((ks_dR_D0 P f) ^ 2)) * ((fR f) ^ 4))))))) + (((8 * ((((pa P) ^ 2) * ((fZ f) ^ 2)) + ((fR f) ^ 4)))
  * (((((((((pa P) ^ 2) * (fR f)) * (fZ f)) * (fdZ0 f)) - ((((pa P) ^ 2) * ((fZ f) ^ 2)) * (ks_dR_D0
  P f))) + (((fR f) ^ 4) * (ks_dR_D0 P f))) * (ks_dR_D1 P f)) + ((2 * (((((((pa P) ^ 2) * (fR f)) *
  (fZ f)) * (fdZ1 f)) - ((((pa P) ^ 2) * ((fZ f) ^ 2)) * (ks_dR_D1 P f))) + (((fR f) ^ 4) * (ks_dR_D1
  P f)))) * (ks_dR_D0 P f)))) * (((((((pa P) ^ 2) * (fR f)) * (fZ f)) * (fdZ0 f)) - ((((pa P) ^ 2) *
  ((fZ f) ^ 2)) * (ks_dR_D0 P f))) + (((fR f) ^ 4) * (ks_dR_D0 P f))))) - ((48 * ((((((((pa P) ^ 2) *
  (fR f)) * (fZ f)) * (fdZ0 f)) - ((((pa P) ^ 2) * ((fZ f) ^ 2)) * (ks_dR_D0 P f))) + (((fR f) ^ 4) *
  (ks_dR_D0 P f))) ^ 2)) * (((((((pa P) ^ 2) * (fR f)) * (fZ f)) * (fdZ1 f)) - ((((pa P) ^ 2) * ((fZ
  f) ^ 2)) * (ks_dR_D1 P f))) + (((fR f) ^ 4) * (ks_dR_D1 P f)))))) / (((((pa P) ^ 2) * ((fZ f) ^ 2))
  + ((fR f) ^ 4)) ^ 4).

(* /repo/Src/Main/Modules/Physics/Free_Data/fd_KerrSchild_H_K0_K1_K2.c:4246-4348 *)
Definition ks_dddH_D0D0D2 (P : kspar) (f : ksarg) : R :=
  (((pL P) * (pM P)) * (((((((((((((pa P) ^ 2) * ((fZ f) ^ 2)) + ((fR f) ^ 4)) ^ 3) * ((fR f) ^ 2)) *
  (ks_dddR_D0D0D2 P f)) - (((2 * (((((pa P) ^ 2) * ((fZ f) ^ 2)) + ((fR f) ^ 4)) ^ 2)) * (((2 *
  (((((((pa P) ^ 2) * (fR f)) * (fZ f)) * (fdZ0 f)) - ((((pa P) ^ 2) * ((fZ f) ^ 2)) * (ks_dR_D0 P
  f))) + (((fR f) ^ 4) * (ks_dR_D0 P f)))) * (ks_ddR_D0D2 P f)) + ((((((((pa P) ^ 2) * (fR f)) * (fZ
  f)) * (fdZ2 f)) - ((((pa P) ^ 2) * ((fZ f) ^ 2)) * (ks_dR_D2 P f))) + (((fR f) ^ 4) * (ks_dR_D2 P
  f))) * (ks_ddR_D0D0 P f)))) * (fR f))) - ((2 * (((((pa P) ^ 2) * ((fZ f) ^ 2)) + ((fR f) ^ 4)) ^
  2)) * (((2 * (((((((pa P) ^ 2) * (((fZ f) * (ks_ddZ_D0D2 P f)) + ((fdZ0 f) * (fdZ2 f)))) * ((fR f)
  ^ 2)) - (((((pa P) ^ 2) * ((((fZ f) * (ks_ddR_D0D2 P f)) + ((2 * (ks_dR_D0 P f)) * (fdZ2 f))) + ((2
  * (ks_dR_D2 P f)) * (fdZ0 f)))) * (fR f)) * (fZ f))) + ((((3 * ((pa P) ^ 2)) * ((fZ f) ^ 2)) *
  (ks_dR_D0 P f)) * (ks_dR_D2 P f))) + ((((fR f) * (ks_ddR_D0D2 P f)) + ((ks_dR_D0 P f) * (ks_dR_D2 P
  f))) * ((fR f) ^ 4)))) * (ks_dR_D0 P f)) + ((((((((- ((pa P) ^ 2)) * (((fZ f) * (ks_ddR_D0D0 P f))
  + ((4 * (ks_dR_D0 P f)) * (fdZ0 f)))) * (fR f)) * (fZ f)) + ((((pa P) ^ 2) * (((fZ f) *
  (ks_ddZ_D0D0 P f)) + ((fdZ0 f) ^ 2))) * ((fR f) ^ 2))) + (((3 * ((pa P) ^ 2)) * ((fZ f) ^ 2)) *
  ((ks_dR_D0 P f) ^ 2))) + ((((fR f) * (ks_ddR_D0D0 P f)) + ((ks_dR_D0 P f) ^ 2)) * ((fR f) ^ 4))) *
  (ks_dR_D2 P f))))) - ((2 * (((((pa P) ^ 2) * ((fZ f) ^ 2)) + ((fR f) ^ 4)) ^ 2)) * ((((((((pa P) ^
  2) * ((((fZ f) * (ks_dddZ_D0D0D2 P f)) + ((2 * (fdZ0 f)) * (ks_ddZ_D0D2 P f))) + ((ks_ddZ_D0D0 P f)
  * (fdZ2 f)))) * ((fR f) ^ 3)) + ((((3 * ((pa P) ^ 2)) * ((((((2 * (fZ f)) * (ks_dR_D0 P f)) *
  (ks_ddR_D0D2 P f)) + (((fZ f) * (ks_ddR_D0D0 P f)) * (ks_dR_D2 P f))) + ((2 * ((ks_dR_D0 P f) ^ 2))
  * (fdZ2 f))) + (((4 * (ks_dR_D0 P f)) * (ks_dR_D2 P f)) * (fdZ0 f)))) * (fR f)) * (fZ f))) - ((((pa
  P) ^ 2) * (((((((((fZ f) ^ 2) * (ks_dddR_D0D0D2 P f)) + (((4 * (fZ f)) * (ks_dR_D0 P f)) *
  (ks_ddZ_D0D2 P f))) + (((2 * (fZ f)) * (ks_ddR_D0D0 P f)) * (fdZ2 f))) + (((2 * (fZ f)) * (ks_dR_D2
  P f)) * (ks_ddZ_D0D0 P f))) + (((4 * (fZ f)) * (fdZ0 f)) * (ks_ddR_D0D2 P f))) + (((4 * (ks_dR_D0 P
  f)) * (fdZ0 f)) * (fdZ2 f))) + ((2 * (ks_dR_D2 P f)) * ((fdZ0 f) ^ 2)))) * ((fR f) ^ 2))) - ((((12
  * ((pa P) ^ 2)) * ((fZ f) ^ 2)) * ((ks_dR_D0 P f) ^ 2)) * (ks_dR_D2 P f))) + (((((fR f) *
  (ks_dddR_D0D0D2 P f)) + ((2 * (ks_dR_D0 P f)) * (ks_ddR_D0D2 P f))) + ((ks_ddR_D0D0 P f) *
  (ks_dR_D2 P f))) * ((fR f) ^ 5))))) + ((8 * ((((pa P) ^ 2) * ((fZ f) ^ 2)) + ((fR f) ^ 4))) * (((2
  * (((((((pa P) ^ 2) * (fR f)) * (fZ f)) * (fdZ0 f)) - ((((pa P) ^ 2) * ((fZ f) ^ 2)) * (ks_dR_D0 P
  f))) + (((fR f) ^ 4) * (ks_dR_D0 P f)))) * (((((((pa P) ^ 2) * (((fZ f) * (ks_ddZ_D0D2 P f)) +
  ((fdZ0 f) * (fdZ2 f)))) * ((fR f) ^ 2)) - (((((pa P) ^ 2) * ((((fZ f) * (ks_ddR_D0D2 P f)) + ((2 *
  (ks_dR_D0 P f)) * (fdZ2 f))) + ((2 * (ks_dR_D2 P f)) * (fdZ0 f)))) * (fR f)) * (fZ f))) + ((((3 *
  ((pa P) ^ 2)) * ((fZ f) ^ 2)) * (ks_dR_D0 P f)) * (ks_dR_D2 P f))) + ((((fR f) * (ks_ddR_D0D2 P f))
  + ((ks_dR_D0 P f) * (ks_dR_D2 P f))) * ((fR f) ^ 4)))) + ((((((((pa P) ^ 2) * (fR f)) * (fZ f)) *
  (fdZ2 f)) - ((((pa P) ^ 2) * ((fZ f) ^ 2)) * (ks_dR_D2 P f))) + (((fR f) ^ 4) * (ks_dR_D2 P f))) *
  (((((((- ((pa P) ^ 2)) * (((fZ f) * (ks_ddR_D0D0 P f)) + ((4 * (ks_dR_D0 P f)) * (fdZ0 f)))) * (fR
  f)) * (fZ f)) + ((((pa P) ^ 2) * (((fZ f) * (ks_ddZ_D0D0 P f)) + ((fdZ0 f) ^ 2))) * ((fR f) ^ 2)))
  + (((3 * ((pa P) ^ 2)) * ((fZ f) ^ 2)) * ((ks_dR_D0 P f) ^ 2))) + ((((fR f) * (ks_ddR_D0D0 P f)) +
  ((ks_dR_D0 P f) ^ 2)) * ((fR f) ^ 4))))))) + (((8 * ((((pa P) ^ 2) * ((fZ f) ^ 2)) + ((fR f) ^ 4)))
  * (((((((((pa P) ^ 2) * (fR f)) * (fZ f)) * (fdZ0 f)) - ((((pa P) ^ 2) * ((fZ f) ^ 2)) * (ks_dR_D0
  P f))) + (((fR f) ^ 4) * (ks_dR_D0 P f))) * (ks_dR_D2 P f)) + ((2 * (((((((pa P) ^ 2) * (fR f)) *
  (fZ f)) * (fdZ2 f)) - ((((pa P) ^ 2) * ((fZ f) ^ 2)) * (ks_dR_D2 P f))) + (((fR f) ^ 4) * (ks_dR_D2
  P f)))) * (ks_dR_D0 P f)))) * (((((((pa P) ^ 2) * (fR f)) * (fZ f)) * (fdZ0 f)) - ((((pa P) ^ 2) *
  ((fZ f) ^ 2)) * (ks_dR_D0 P f))) + (((fR f) ^ 4) * (ks_dR_D0 P f))))) - ((48 * ((((((((pa P) ^ 2) *
  (fR f)) * (fZ f)) * (fdZ0 f)) - ((((pa P) ^ 2) * ((fZ f) ^ 2)) * (ks_dR_D0 P f))) + (((fR f) ^ 4) *
  (ks_dR_D0 P f))) ^ 2)) * (((((((pa P) ^ 2) * (fR f)) * (fZ f)) * (fdZ2 f)) - ((((pa P) ^ 2) * ((fZ
  f) ^ 2)) * (ks_dR_D2 P f))) + (((fR f) ^ 4) * (ks_dR_D2 P f)))))) / (((((pa P) ^ 2) * ((fZ f) ^ 2))
  + ((fR f) ^ 4)) ^ 4).

(* /repo/Src/Main/Modules/Physics/Free_Data/fd_KerrSchild_H_K0_K1_K2.c:4349-4496 *)
Definition ks_dddH_D0D1D2 (P : kspar) (f : ksarg) : R :=
  (((pL P) * (pM P)) * ((((((((((((((((((((((((((((((((((((((((((((((((((((((((((((((((((((((((((- 2)
  * ((pa P) ^ 6)) * ((fR f) ^ 3)) * ((fZ f) ^ 5)) * (ks_dddZ_D0D1D2 P f)) + (((((6 * ((pa P) ^ 6)) *
  ((fR f) ^ 3)) * ((fZ f) ^ 4)) * (fdZ0 f)) * (ks_ddZ_D1D2 P f))) + (((((6 * ((pa P) ^ 6)) * ((fR f)
  ^ 3)) * ((fZ f) ^ 4)) * (fdZ1 f)) * (ks_ddZ_D0D2 P f))) + (((((6 * ((pa P) ^ 6)) * ((fR f) ^ 3)) *
  ((fZ f) ^ 4)) * (fdZ2 f)) * (ks_ddZ_D0D1 P f))) - ((((((24 * ((pa P) ^ 6)) * ((fR f) ^ 3)) * ((fZ
  f) ^ 3)) * (fdZ0 f)) * (fdZ1 f)) * (fdZ2 f))) + ((((3 * ((pa P) ^ 6)) * ((fR f) ^ 2)) * ((fZ f) ^
  6)) * (ks_dddR_D0D1D2 P f))) - (((((6 * ((pa P) ^ 6)) * ((fR f) ^ 2)) * ((fZ f) ^ 5)) * (ks_dR_D0 P
  f)) * (ks_ddZ_D1D2 P f))) - (((((6 * ((pa P) ^ 6)) * ((fR f) ^ 2)) * ((fZ f) ^ 5)) * (ks_dR_D1 P
  f)) * (ks_ddZ_D0D2 P f))) - (((((6 * ((pa P) ^ 6)) * ((fR f) ^ 2)) * ((fZ f) ^ 5)) * (ks_dR_D2 P
  f)) * (ks_ddZ_D0D1 P f))) - (((((6 * ((pa P) ^ 6)) * ((fR f) ^ 2)) * ((fZ f) ^ 5)) * (fdZ0 f)) *
  (ks_ddR_D1D2 P f))) - (((((6 * ((pa P) ^ 6)) * ((fR f) ^ 2)) * ((fZ f) ^ 5)) * (fdZ1 f)) *
  (ks_ddR_D0D2 P f))) - (((((6 * ((pa P) ^ 6)) * ((fR f) ^ 2)) * ((fZ f) ^ 5)) * (fdZ2 f)) *
  (ks_ddR_D0D1 P f))) + ((((((18 * ((pa P) ^ 6)) * ((fR f) ^ 2)) * ((fZ f) ^ 4)) * (ks_dR_D0 P f)) *
  (fdZ1 f)) * (fdZ2 f))) + ((((((18 * ((pa P) ^ 6)) * ((fR f) ^ 2)) * ((fZ f) ^ 4)) * (ks_dR_D1 P f))
  * (fdZ0 f)) * (fdZ2 f))) + ((((((18 * ((pa P) ^ 6)) * ((fR f) ^ 2)) * ((fZ f) ^ 4)) * (ks_dR_D2 P
  f)) * (fdZ0 f)) * (fdZ1 f))) + (((((6 * ((pa P) ^ 6)) * (fR f)) * ((fZ f) ^ 6)) * (ks_dR_D0 P f)) *
  (ks_ddR_D1D2 P f))) + (((((6 * ((pa P) ^ 6)) * (fR f)) * ((fZ f) ^ 6)) * (ks_dR_D1 P f)) *
  (ks_ddR_D0D2 P f))) + (((((6 * ((pa P) ^ 6)) * (fR f)) * ((fZ f) ^ 6)) * (ks_dR_D2 P f)) *
  (ks_ddR_D0D1 P f))) - ((((((12 * ((pa P) ^ 6)) * (fR f)) * ((fZ f) ^ 5)) * (ks_dR_D0 P f)) *
  (ks_dR_D1 P f)) * (fdZ2 f))) - ((((((12 * ((pa P) ^ 6)) * (fR f)) * ((fZ f) ^ 5)) * (ks_dR_D0 P f))
  * (ks_dR_D2 P f)) * (fdZ1 f))) - ((((((12 * ((pa P) ^ 6)) * (fR f)) * ((fZ f) ^ 5)) * (ks_dR_D1 P
  f)) * (ks_dR_D2 P f)) * (fdZ0 f))) + (((((6 * ((pa P) ^ 6)) * ((fZ f) ^ 6)) * (ks_dR_D0 P f)) *
  (ks_dR_D1 P f)) * (ks_dR_D2 P f))) - ((((4 * ((pa P) ^ 4)) * ((fR f) ^ 7)) * ((fZ f) ^ 3)) *
  (ks_dddZ_D0D1D2 P f))) + (((((4 * ((pa P) ^ 4)) * ((fR f) ^ 7)) * ((fZ f) ^ 2)) * (fdZ0 f)) *
  (ks_ddZ_D1D2 P f))) + (((((4 * ((pa P) ^ 4)) * ((fR f) ^ 7)) * ((fZ f) ^ 2)) * (fdZ1 f)) *
  (ks_ddZ_D0D2 P f))) + (((((4 * ((pa P) ^ 4)) * ((fR f) ^ 7)) * ((fZ f) ^ 2)) * (fdZ2 f)) *
  (ks_ddZ_D0D1 P f))) + ((((((24 * ((pa P) ^ 4)) * ((fR f) ^ 7)) * (fZ f)) * (fdZ0 f)) * (fdZ1 f)) *
  (fdZ2 f))) + ((((5 * ((pa P) ^ 4)) * ((fR f) ^ 6)) * ((fZ f) ^ 4)) * (ks_dddR_D0D1D2 P f))) +
  (((((4 * ((pa P) ^ 4)) * ((fR f) ^ 6)) * ((fZ f) ^ 3)) * (ks_dR_D0 P f)) * (ks_ddZ_D1D2 P f))) +
  (((((4 * ((pa P) ^ 4)) * ((fR f) ^ 6)) * ((fZ f) ^ 3)) * (ks_dR_D1 P f)) * (ks_ddZ_D0D2 P f))) +
  (((((4 * ((pa P) ^ 4)) * ((fR f) ^ 6)) * ((fZ f) ^ 3)) * (ks_dR_D2 P f)) * (ks_ddZ_D0D1 P f))) +
  (((((4 * ((pa P) ^ 4)) * ((fR f) ^ 6)) * ((fZ f) ^ 3)) * (fdZ0 f)) * (ks_ddR_D1D2 P f))) + (((((4 *
  ((pa P) ^ 4)) * ((fR f) ^ 6)) * ((fZ f) ^ 3)) * (fdZ1 f)) * (ks_ddR_D0D2 P f))) + (((((4 * ((pa P)
  ^ 4)) * ((fR f) ^ 6)) * ((fZ f) ^ 3)) * (fdZ2 f)) * (ks_ddR_D0D1 P f))) - ((((((68 * ((pa P) ^ 4))
  * ((fR f) ^ 6)) * ((fZ f) ^ 2)) * (ks_dR_D0 P f)) * (fdZ1 f)) * (fdZ2 f))) - ((((((68 * ((pa P) ^
  4)) * ((fR f) ^ 6)) * ((fZ f) ^ 2)) * (ks_dR_D1 P f)) * (fdZ0 f)) * (fdZ2 f))) - ((((((68 * ((pa P)
  ^ 4)) * ((fR f) ^ 6)) * ((fZ f) ^ 2)) * (ks_dR_D2 P f)) * (fdZ0 f)) * (fdZ1 f))) - (((((18 * ((pa
  P) ^ 4)) * ((fR f) ^ 5)) * ((fZ f) ^ 4)) * (ks_dR_D0 P f)) * (ks_ddR_D1D2 P f))) - (((((18 * ((pa
  P) ^ 4)) * ((fR f) ^ 5)) * ((fZ f) ^ 4)) * (ks_dR_D1 P f)) * (ks_ddR_D0D2 P f))) - (((((18 * ((pa
  P) ^ 4)) * ((fR f) ^ 5)) * ((fZ f) ^ 4)) * (ks_dR_D2 P f)) * (ks_ddR_D0D1 P f))) + (((((((pa P) ^
  4) * ((fR f) ^ 5)) * ((fZ f) ^ 3)) * (ks_dR_D0 P f)) * (ks_dR_D1 P f)) * (fdZ2 f))) + (((((((pa P)
  ^ 4) * ((fR f) ^ 5)) * ((fZ f) ^ 3)) * (ks_dR_D0 P f)) * (ks_dR_D2 P f)) * (fdZ1 f))) + (((((((pa
  P) ^ 4) * ((fR f) ^ 5)) * ((fZ f) ^ 3)) * (ks_dR_D1 P f)) * (ks_dR_D2 P f)) * (fdZ0 f))) -
  ((((((186 * ((pa P) ^ 4)) * ((fR f) ^ 4)) * ((fZ f) ^ 4)) * (ks_dR_D0 P f)) * (ks_dR_D1 P f)) *
  (ks_dR_D2 P f))) - ((((2 * ((pa P) ^ 2)) * ((fR f) ^ 11)) * (fZ f)) * (ks_dddZ_D0D1D2 P f))) -
  ((((2 * ((pa P) ^ 2)) * ((fR f) ^ 11)) * (fdZ0 f)) * (ks_ddZ_D1D2 P f))) - ((((2 * ((pa P) ^ 2)) *
  ((fR f) ^ 11)) * (fdZ1 f)) * (ks_ddZ_D0D2 P f))) - ((((2 * ((pa P) ^ 2)) * ((fR f) ^ 11)) * (fdZ2
  f)) * (ks_ddZ_D0D1 P f))) + (((((pa P) ^ 2) * ((fR f) ^ 10)) * ((fZ f) ^ 2)) * (ks_dddR_D0D1D2 P
  f))) + (((((10 * ((pa P) ^ 2)) * ((fR f) ^ 10)) * (fZ f)) * (ks_dR_D0 P f)) * (ks_ddZ_D1D2 P f))) +
  (((((10 * ((pa P) ^ 2)) * ((fR f) ^ 10)) * (fZ f)) * (ks_dR_D1 P f)) * (ks_ddZ_D0D2 P f))) +
  (((((10 * ((pa P) ^ 2)) * ((fR f) ^ 10)) * (fZ f)) * (ks_dR_D2 P f)) * (ks_ddZ_D0D1 P f))) +
  (((((10 * ((pa P) ^ 2)) * ((fR f) ^ 10)) * (fZ f)) * (fdZ0 f)) * (ks_ddR_D1D2 P f))) + (((((10 *
  ((pa P) ^ 2)) * ((fR f) ^ 10)) * (fZ f)) * (fdZ1 f)) * (ks_ddR_D0D2 P f))) + (((((10 * ((pa P) ^
  2)) * ((fR f) ^ 10)) * (fZ f)) * (fdZ2 f)) * (ks_ddR_D0D1 P f))) + (((((10 * ((pa P) ^ 2)) * ((fR
  f) ^ 10)) * (ks_dR_D0 P f)) * (fdZ1 f)) * (fdZ2 f))) + (((((10 * ((pa P) ^ 2)) * ((fR f) ^ 10)) *
  (ks_dR_D1 P f)) * (fdZ0 f)) * (fdZ2 f))) + (((((10 * ((pa P) ^ 2)) * ((fR f) ^ 10)) * (ks_dR_D2 P
  f)) * (fdZ0 f)) * (fdZ1 f))) - (((((22 * ((pa P) ^ 2)) * ((fR f) ^ 9)) * ((fZ f) ^ 2)) * (ks_dR_D0
  P f)) * (ks_ddR_D1D2 P f))) - (((((22 * ((pa P) ^ 2)) * ((fR f) ^ 9)) * ((fZ f) ^ 2)) * (ks_dR_D1 P
  f)) * (ks_ddR_D0D2 P f))) - (((((22 * ((pa P) ^ 2)) * ((fR f) ^ 9)) * ((fZ f) ^ 2)) * (ks_dR_D2 P
  f)) * (ks_ddR_D0D1 P f))) - ((((((60 * ((pa P) ^ 2)) * ((fR f) ^ 9)) * (fZ f)) * (ks_dR_D0 P f)) *
  (ks_dR_D1 P f)) * (fdZ2 f))) - ((((((60 * ((pa P) ^ 2)) * ((fR f) ^ 9)) * (fZ f)) * (ks_dR_D0 P f))
  * (ks_dR_D2 P f)) * (fdZ1 f))) - ((((((60 * ((pa P) ^ 2)) * ((fR f) ^ 9)) * (fZ f)) * (ks_dR_D1 P
  f)) * (ks_dR_D2 P f)) * (fdZ0 f))) + ((((((186 * ((pa P) ^ 2)) * ((fR f) ^ 8)) * ((fZ f) ^ 2)) *
  (ks_dR_D0 P f)) * (ks_dR_D1 P f)) * (ks_dR_D2 P f))) - (((fR f) ^ 14) * (ks_dddR_D0D1D2 P f))) +
  (((2 * ((fR f) ^ 13)) * (ks_dR_D0 P f)) * (ks_ddR_D1D2 P f))) + (((2 * ((fR f) ^ 13)) * (ks_dR_D1 P
  f)) * (ks_ddR_D0D2 P f))) + (((2 * ((fR f) ^ 13)) * (ks_dR_D2 P f)) * (ks_ddR_D0D1 P f))) - ((((6 *
  ((fR f) ^ 12)) * (ks_dR_D0 P f)) * (ks_dR_D1 P f)) * (ks_dR_D2 P f)))) / (((((((pa P) ^ 8) * ((fZ
  f) ^ 8)) + (((4 * ((pa P) ^ 6)) * ((fR f) ^ 4)) * ((fZ f) ^ 6))) + (((6 * ((pa P) ^ 4)) * ((fR f) ^
  8)) * ((fZ f) ^ 4))) + (((4 * ((pa P) ^ 2)) * ((fR f) ^ 12)) * ((fZ f) ^ 2))) + ((fR f) ^ 16)).

(* /repo/Src/Main/Modules/Physics/Free_Data/fd_KerrSchild_H_K0_K1_K2.c:4497-4598 *)
Definition ks_dddH_D1D1D0 (P : kspar) (f : ksarg) : R :=
  (((pL P) * (pM P)) * (((((((((((((pa P) ^ 2) * ((fZ f) ^ 2)) + ((fR f) ^ 4)) ^ 3) * ((fR f) ^ 2)) *
  (ks_dddR_D0D1D1 P f)) - (((2 * (((((pa P) ^ 2) * ((fZ f) ^ 2)) + ((fR f) ^ 4)) ^ 2)) * (((((((((pa
  P) ^ 2) * (fR f)) * (fZ f)) * (fdZ0 f)) - ((((pa P) ^ 2) * ((fZ f) ^ 2)) * (ks_dR_D0 P f))) + (((fR
  f) ^ 4) * (ks_dR_D0 P f))) * (ks_ddR_D1D1 P f)) + ((2 * (((((((pa P) ^ 2) * (fR f)) * (fZ f)) *
  (fdZ1 f)) - ((((pa P) ^ 2) * ((fZ f) ^ 2)) * (ks_dR_D1 P f))) + (((fR f) ^ 4) * (ks_dR_D1 P f)))) *
  (ks_ddR_D0D1 P f)))) * (fR f))) - ((2 * (((((pa P) ^ 2) * ((fZ f) ^ 2)) + ((fR f) ^ 4)) ^ 2)) *
  (((2 * (((((((pa P) ^ 2) * (((fZ f) * (ks_ddZ_D0D1 P f)) + ((fdZ0 f) * (fdZ1 f)))) * ((fR f) ^ 2))
  - (((((pa P) ^ 2) * ((((fZ f) * (ks_ddR_D0D1 P f)) + ((2 * (ks_dR_D0 P f)) * (fdZ1 f))) + ((2 *
  (ks_dR_D1 P f)) * (fdZ0 f)))) * (fR f)) * (fZ f))) + ((((3 * ((pa P) ^ 2)) * ((fZ f) ^ 2)) *
  (ks_dR_D0 P f)) * (ks_dR_D1 P f))) + ((((fR f) * (ks_ddR_D0D1 P f)) + ((ks_dR_D0 P f) * (ks_dR_D1 P
  f))) * ((fR f) ^ 4)))) * (ks_dR_D1 P f)) + ((((((((- ((pa P) ^ 2)) * (((fZ f) * (ks_ddR_D1D1 P f))
  + ((4 * (ks_dR_D1 P f)) * (fdZ1 f)))) * (fR f)) * (fZ f)) + ((((pa P) ^ 2) * (((fZ f) *
  (ks_ddZ_D1D1 P f)) + ((fdZ1 f) ^ 2))) * ((fR f) ^ 2))) + (((3 * ((pa P) ^ 2)) * ((fZ f) ^ 2)) *
  ((ks_dR_D1 P f) ^ 2))) + ((((fR f) * (ks_ddR_D1D1 P f)) + ((ks_dR_D1 P f) ^ 2)) * ((fR f) ^ 4))) *
  (ks_dR_D0 P f))))) - ((2 * (((((pa P) ^ 2) * ((fZ f) ^ 2)) + ((fR f) ^ 4)) ^ 2)) * ((((((((pa P) ^
  2) * ((((fZ f) * (ks_dddZ_D0D1D1 P f)) + ((fdZ0 f) * (ks_ddZ_D1D1 P f))) + ((2 * (fdZ1 f)) *
  (ks_ddZ_D0D1 P f)))) * ((fR f) ^ 3)) + ((((3 * ((pa P) ^ 2)) * ((((((fZ f) * (ks_dR_D0 P f)) *
  (ks_ddR_D1D1 P f)) + (((2 * (fZ f)) * (ks_dR_D1 P f)) * (ks_ddR_D0D1 P f))) + (((4 * (ks_dR_D0 P
  f)) * (ks_dR_D1 P f)) * (fdZ1 f))) + ((2 * ((ks_dR_D1 P f) ^ 2)) * (fdZ0 f)))) * (fR f)) * (fZ f)))
  - ((((pa P) ^ 2) * (((((((((fZ f) ^ 2) * (ks_dddR_D0D1D1 P f)) + (((2 * (fZ f)) * (ks_dR_D0 P f)) *
  (ks_ddZ_D1D1 P f))) + (((4 * (fZ f)) * (ks_dR_D1 P f)) * (ks_ddZ_D0D1 P f))) + (((2 * (fZ f)) *
  (ks_ddR_D1D1 P f)) * (fdZ0 f))) + (((4 * (fZ f)) * (fdZ1 f)) * (ks_ddR_D0D1 P f))) + ((2 *
  (ks_dR_D0 P f)) * ((fdZ1 f) ^ 2))) + (((4 * (ks_dR_D1 P f)) * (fdZ0 f)) * (fdZ1 f)))) * ((fR f) ^
  2))) - ((((12 * ((pa P) ^ 2)) * ((fZ f) ^ 2)) * (ks_dR_D0 P f)) * ((ks_dR_D1 P f) ^ 2))) + (((((fR
  f) * (ks_dddR_D0D1D1 P f)) + ((ks_dR_D0 P f) * (ks_ddR_D1D1 P f))) + ((2 * (ks_dR_D1 P f)) *
  (ks_ddR_D0D1 P f))) * ((fR f) ^ 5))))) + ((8 * ((((pa P) ^ 2) * ((fZ f) ^ 2)) + ((fR f) ^ 4))) *
  (((((((((pa P) ^ 2) * (fR f)) * (fZ f)) * (fdZ0 f)) - ((((pa P) ^ 2) * ((fZ f) ^ 2)) * (ks_dR_D0 P
  f))) + (((fR f) ^ 4) * (ks_dR_D0 P f))) * (((((((- ((pa P) ^ 2)) * (((fZ f) * (ks_ddR_D1D1 P f)) +
  ((4 * (ks_dR_D1 P f)) * (fdZ1 f)))) * (fR f)) * (fZ f)) + ((((pa P) ^ 2) * (((fZ f) * (ks_ddZ_D1D1
  P f)) + ((fdZ1 f) ^ 2))) * ((fR f) ^ 2))) + (((3 * ((pa P) ^ 2)) * ((fZ f) ^ 2)) * ((ks_dR_D1 P f)
  ^ 2))) + ((((fR f) * (ks_ddR_D1D1 P f)) + ((ks_dR_D1 P f) ^ 2)) * ((fR f) ^ 4)))) + ((2 * (((((((pa
  P) ^ 2) * (fR f)) * (fZ f)) * (fdZ1 f)) - ((((pa P) ^ 2) * ((fZ f) ^ 2)) * (ks_dR_D1 P f))) + (((fR
  f) ^ 4) * (ks_dR_D1 P f)))) * (((((((pa P) ^ 2) * (((fZ f) * (ks_ddZ_D0D1 P f)) + ((fdZ0 f) * (fdZ1
  f)))) * ((fR f) ^ 2)) - (((((pa P) ^ 2) * ((((fZ f) * (ks_ddR_D0D1 P f)) + ((2 * (ks_dR_D0 P f)) *
  (fdZ1 f))) + ((2 * (ks_dR_D1 P f)) * (fdZ0 f)))) * (fR f)) * (fZ f))) + ((((3 * ((pa P) ^ 2)) *
  ((fZ f) ^ 2)) * (ks_dR_D0 P f)) * (ks_dR_D1 P f))) + ((((fR f) * (ks_ddR_D0D1 P f)) + ((ks_dR_D0 P
  f) * (ks_dR_D1 P f))) * ((fR f) ^ 4))))))) + (((8 * ((((pa P) ^ 2) * ((fZ f) ^ 2)) + ((fR f) ^ 4)))
  * (((2 * (((((((pa P) ^ 2) * (fR f)) * (fZ f)) * (fdZ0 f)) - ((((pa P) ^ 2) * ((fZ f) ^ 2)) *
  (ks_dR_D0 P f))) + (((fR f) ^ 4) * (ks_dR_D0 P f)))) * (ks_dR_D1 P f)) + ((((((((pa P) ^ 2) * (fR
  f)) * (fZ f)) * (fdZ1 f)) - ((((pa P) ^ 2) * ((fZ f) ^ 2)) * (ks_dR_D1 P f))) + (((fR f) ^ 4) *
  (ks_dR_D1 P f))) * (ks_dR_D0 P f)))) * (((((((pa P) ^ 2) * (fR f)) * (fZ f)) * (fdZ1 f)) - ((((pa
  P) ^ 2) * ((fZ f) ^ 2)) * (ks_dR_D1 P f))) + (((fR f) ^ 4) * (ks_dR_D1 P f))))) - ((48 * (((((((pa
  P) ^ 2) * (fR f)) * (fZ f)) * (fdZ0 f)) - ((((pa P) ^ 2) * ((fZ f) ^ 2)) * (ks_dR_D0 P f))) + (((fR
  f) ^ 4) * (ks_dR_D0 P f)))) * ((((((((pa P) ^ 2) * (fR f)) * (fZ f)) * (fdZ1 f)) - ((((pa P) ^ 2) *
  ((fZ f) ^ 2)) * (ks_dR_D1 P f))) + (((fR f) ^ 4) * (ks_dR_D1 P f))) ^ 2)))) / (((((pa P) ^ 2) *
  ((fZ f) ^ 2)) + ((fR f) ^ 4)) ^ 4).

(* /repo/Src/Main/Modules/Physics/Free_Data/fd_KerrSchild_H_K0_K1_K2.c:4599-4700 *)
Definition ks_dddH_D1D2D2 (P : kspar) (f : ksarg) : R :=
  (((pL P) * (pM P)) * (((((((((((((pa P) ^ 2) * ((fZ f) ^ 2)) + ((fR f) ^ 4)) ^ 3) * ((fR f) ^ 2)) *
  (ks_dddR_D1D2D2 P f)) - (((2 * (((((pa P) ^ 2) * ((fZ f) ^ 2)) + ((fR f) ^ 4)) ^ 2)) * (((((((((pa
  P) ^ 2) * (fR f)) * (fZ f)) * (fdZ1 f)) - ((((pa P) ^ 2) * ((fZ f) ^ 2)) * (ks_dR_D1 P f))) + (((fR
  f) ^ 4) * (ks_dR_D1 P f))) * (ks_ddR_D2D2 P f)) + ((2 * (((((((pa P) ^ 2) * (fR f)) * (fZ f)) *
  (fdZ2 f)) - ((((pa P) ^ 2) * ((fZ f) ^ 2)) * (ks_dR_D2 P f))) + (((fR f) ^ 4) * (ks_dR_D2 P f)))) *
  (ks_ddR_D1D2 P f)))) * (fR f))) - ((2 * (((((pa P) ^ 2) * ((fZ f) ^ 2)) + ((fR f) ^ 4)) ^ 2)) *
  (((2 * (((((((pa P) ^ 2) * (((fZ f) * (ks_ddZ_D1D2 P f)) + ((fdZ1 f) * (fdZ2 f)))) * ((fR f) ^ 2))
  - (((((pa P) ^ 2) * ((((fZ f) * (ks_ddR_D1D2 P f)) + ((2 * (ks_dR_D1 P f)) * (fdZ2 f))) + ((2 *
  (ks_dR_D2 P f)) * (fdZ1 f)))) * (fR f)) * (fZ f))) + ((((3 * ((pa P) ^ 2)) * ((fZ f) ^ 2)) *
  (ks_dR_D1 P f)) * (ks_dR_D2 P f))) + ((((fR f) * (ks_ddR_D1D2 P f)) + ((ks_dR_D1 P f) * (ks_dR_D2 P
  f))) * ((fR f) ^ 4)))) * (ks_dR_D2 P f)) + ((((((((- ((pa P) ^ 2)) * (((fZ f) * (ks_ddR_D2D2 P f))
  + ((4 * (ks_dR_D2 P f)) * (fdZ2 f)))) * (fR f)) * (fZ f)) + ((((pa P) ^ 2) * (((fZ f) *
  (ks_ddZ_D2D2 P f)) + ((fdZ2 f) ^ 2))) * ((fR f) ^ 2))) + (((3 * ((pa P) ^ 2)) * ((fZ f) ^ 2)) *
  ((ks_dR_D2 P f) ^ 2))) + ((((fR f) * (ks_ddR_D2D2 P f)) + ((ks_dR_D2 P f) ^ 2)) * ((fR f) ^ 4))) *
  (ks_dR_D1 P f))))) - ((2 * (((((pa P) ^ 2) * ((fZ f) ^ 2)) + ((fR f) ^ 4)) ^ 2)) * ((((((((pa P) ^
  2) * ((((fZ f) * (ks_dddZ_D1D2D2 P f)) + ((fdZ1 f) * (ks_ddZ_D2D2 P f))) + ((2 * (fdZ2 f)) *
  (ks_ddZ_D1D2 P f)))) * ((fR f) ^ 3)) + ((((3 * ((pa P) ^ 2)) * ((((((fZ f) * (ks_dR_D1 P f)) *
  (ks_ddR_D2D2 P f)) + (((2 * (fZ f)) * (ks_dR_D2 P f)) * (ks_ddR_D1D2 P f))) + (((4 * (ks_dR_D1 P
  f)) * (ks_dR_D2 P f)) * (fdZ2 f))) + ((2 * ((ks_dR_D2 P f) ^ 2)) * (fdZ1 f)))) * (fR f)) * (fZ f)))
  - ((((pa P) ^ 2) * (((((((((fZ f) ^ 2) * (ks_dddR_D1D2D2 P f)) + (((2 * (fZ f)) * (ks_dR_D1 P f)) *
  (ks_ddZ_D2D2 P f))) + (((4 * (fZ f)) * (ks_dR_D2 P f)) * (ks_ddZ_D1D2 P f))) + (((2 * (fZ f)) *
  (ks_ddR_D2D2 P f)) * (fdZ1 f))) + (((4 * (fZ f)) * (fdZ2 f)) * (ks_ddR_D1D2 P f))) + ((2 *
  (ks_dR_D1 P f)) * ((fdZ2 f) ^ 2))) + (((4 * (ks_dR_D2 P f)) * (fdZ1 f)) * (fdZ2 f)))) * ((fR f) ^
  2))) - ((((12 * ((pa P) ^ 2)) * ((fZ f) ^ 2)) * (ks_dR_D1 P f)) * ((ks_dR_D2 P f) ^ 2))) + (((((fR
  f) * (ks_dddR_D1D2D2 P f)) + ((ks_dR_D1 P f) * (ks_ddR_D2D2 P f))) + ((2 * (ks_dR_D2 P f)) *
  (ks_ddR_D1D2 P f))) * ((fR f) ^ 5))))) + ((8 * ((((pa P) ^ 2) * ((fZ f) ^ 2)) + ((fR f) ^ 4))) *
  (((((((((pa P) ^ 2) * (fR f)) * (fZ f)) * (fdZ1 f)) - ((((pa P) ^ 2) * ((fZ f) ^ 2)) * (ks_dR_D1 P
  f))) + (((fR f) ^ 4) * (ks_dR_D1 P f))) * (((((((- ((pa P) ^ 2)) * (((fZ f) * (ks_ddR_D2D2 P f)) +
  ((4 * (ks_dR_D2 P f)) * (fdZ2 f)))) * (fR f)) * (fZ f)) + ((((pa P) ^ 2) * (((fZ f) * (ks_ddZ_D2D2
  P f)) + ((fdZ2 f) ^ 2))) * ((fR f) ^ 2))) + (((3 * ((pa P) ^ 2)) * ((fZ f) ^ 2)) * ((ks_dR_D2 P f)
  ^ 2))) + ((((fR f) * (ks_ddR_D2D2 P f)) + ((ks_dR_D2 P f) ^ 2)) * ((fR f) ^ 4)))) + ((2 * (((((((pa
  P) ^ 2) * (fR f)) * (fZ f)) * (fdZ2 f)) - ((((pa P) ^ 2) * ((fZ f) ^ 2)) * (ks_dR_D2 P f))) + (((fR
  f) ^ 4) * (ks_dR_D2 P f)))) * (((((((pa P) ^ 2) * (((fZ f) * (ks_ddZ_D1D2 P f)) + ((fdZ1 f) * (fdZ2
  f)))) * ((fR f) ^ 2)) - (((((pa P) ^ 2) * ((((fZ f) * (ks_ddR_D1D2 P f)) + ((2 * (ks_dR_D1 P f)) *
  (fdZ2 f))) + ((2 * (ks_dR_D2 P f)) * (fdZ1 f)))) * (fR f)) * (fZ f))) + ((((3 * ((pa P) ^ 2)) *
  ((fZ f) ^ 2)) * (ks_dR_D1 P f)) * (ks_dR_D2 P f))) + ((((fR f) * (ks_ddR_D1D2 P f)) + ((ks_dR_D1 P
  f) * (ks_dR_D2 P f))) * ((fR f) ^ 4))))))) + (((8 * ((((pa P) ^ 2) * ((fZ f) ^ 2)) + ((fR f) ^ 4)))
  * (((2 * (((((((pa P) ^ 2) * (fR f)) * (fZ f)) * (fdZ1 f)) - ((((pa P) ^ 2) * ((fZ f) ^ 2)) *
  (ks_dR_D1 P f))) + (((fR f) ^ 4) * (ks_dR_D1 P f)))) * (ks_dR_D2 P f)) + ((((((((pa P) ^ 2) * (fR
  f)) * (fZ f)) * (fdZ2 f)) - ((((pa P) ^ 2) * ((fZ f) ^ 2)) * (ks_dR_D2 P f))) + (((fR f) ^ 4) *
  (ks_dR_D2 P f))) * (ks_dR_D1 P f)))) * (((((((pa P) ^ 2) * (fR f)) * (fZ f)) * (fdZ2 f)) - ((((pa
  P) ^ 2) * ((fZ f) ^ 2)) * (ks_dR_D2 P f))) + (((fR f) ^ 4) * (ks_dR_D2 P f))))) - ((48 * (((((((pa
  P) ^ 2) * (fR f)) * (fZ f)) * (fdZ1 f)) - ((((pa P) ^ 2) * ((fZ f) ^ 2)) * (ks_dR_D1 P f))) + (((fR
  f) ^ 4) * (ks_dR_D1 P f)))) * ((((((((pa P) ^ 2) * (fR f)) * (fZ f)) * (fdZ2 f)) - ((((pa P) ^ 2) *
  ((fZ f) ^ 2)) * (ks_dR_D2 P f))) + (((fR f) ^ 4) * (ks_dR_D2 P f))) ^ 2)))) / (((((pa P) ^ 2) *
  ((fZ f) ^ 2)) + ((fR f) ^ 4)) ^ 4).

(* /repo/Src/Main/Modules/Physics/Free_Data/fd_KerrSchild_H_K0_K1_K2.c:4701-4803 *)
Definition ks_dddH_D1D2D1 (P : kspar) (f : ksarg) : R :=
  (((pL P) * (pM P)) * (((((((((((((pa P) ^ 2) * ((fZ f) ^ 2)) + ((fR f) ^ 4)) ^ 3) * ((fR f) ^ 2)) *
  (ks_dddR_D1D1D2 P f)) - (((2 * (((((pa P) ^ 2) * ((fZ f) ^ 2)) + ((fR f) ^ 4)) ^ 2)) * (((2 *
  (((((((pa P) ^ 2) * (fR f)) * (fZ f)) * (fdZ1 f)) - ((((pa P) ^ 2) * ((fZ f) ^ 2)) * (ks_dR_D1 P
  f))) + (((fR f) ^ 4) * (ks_dR_D1 P f)))) * (ks_ddR_D1D2 P f)) + ((((((((pa P) ^ 2) * (fR f)) * (fZ
  f)) * (fdZ2 f)) - ((((pa P) ^ 2) * ((fZ f) ^ 2)) * (ks_dR_D2 P f))) + (((fR f) ^ 4) * (ks_dR_D2 P
  f))) * (ks_ddR_D1D1 P f)))) * (fR f))) - ((2 * (((((pa P) ^ 2) * ((fZ f) ^ 2)) + ((fR f) ^ 4)) ^
  2)) * (((2 * (((((((pa P) ^ 2) * (((fZ f) * (ks_ddZ_D1D2 P f)) + ((fdZ1 f) * (fdZ2 f)))) * ((fR f)
  ^ 2)) - (((((pa P) ^ 2) * ((((fZ f) * (ks_ddR_D1D2 P f)) + ((2 * (ks_dR_D1 P f)) * (fdZ2 f))) + ((2
  * (ks_dR_D2 P f)) * (fdZ1 f)))) * (fR f)) * (fZ f))) + ((((3 * ((pa P) ^ 2)) * ((fZ f) ^ 2)) *
  (ks_dR_D1 P f)) * (ks_dR_D2 P f))) + ((((fR f) * (ks_ddR_D1D2 P f)) + ((ks_dR_D1 P f) * (ks_dR_D2 P
  f))) * ((fR f) ^ 4)))) * (ks_dR_D1 P f)) + ((((((((- ((pa P) ^ 2)) * (((fZ f) * (ks_ddR_D1D1 P f))
  + ((4 * (ks_dR_D1 P f)) * (fdZ1 f)))) * (fR f)) * (fZ f)) + ((((pa P) ^ 2) * (((fZ f) *
  (ks_ddZ_D1D1 P f)) + ((fdZ1 f) ^ 2))) * ((fR f) ^ 2))) + (((3 * ((pa P) ^ 2)) * ((fZ f) ^ 2)) *
  ((ks_dR_D1 P f) ^ 2))) + ((((fR f) * (ks_ddR_D1D1 P f)) + ((ks_dR_D1 P f) ^ 2)) * ((fR f) ^ 4))) *
  (ks_dR_D2 P f))))) - ((2 * (((((pa P) ^ 2) * ((fZ f) ^ 2)) + ((fR f) ^ 4)) ^ 2)) * ((((((((pa P) ^
  2) * ((((fZ f) * (ks_dddZ_D1D1D2 P f)) + ((2 * (fdZ1 f)) * (ks_ddZ_D1D2 P f))) + ((ks_ddZ_D1D1 P f)
  * (fdZ2 f)))) * ((fR f) ^ 3)) + ((((3 * ((pa P) ^ 2)) * ((((((2 * (fZ f)) * (ks_dR_D1 P f)) *
  (ks_ddR_D1D2 P f)) + (((fZ f) * (ks_ddR_D1D1 P f)) * (ks_dR_D2 P f))) + ((2 * ((ks_dR_D1 P f) ^ 2))
  * (fdZ2 f))) + (((4 * (ks_dR_D1 P f)) * (ks_dR_D2 P f)) * (fdZ1 f)))) * (fR f)) * (fZ f))) - ((((pa
  P) ^ 2) * (((((((((fZ f) ^ 2) * (ks_dddR_D1D1D2 P f)) + (((4 * (fZ f)) * (ks_dR_D1 P f)) *
  (ks_ddZ_D1D2 P f))) + (((2 * (fZ f)) * (ks_ddR_D1D1 P f)) * (fdZ2 f))) + (((2 * (fZ f)) * (ks_dR_D2
  P f)) * (ks_ddZ_D1D1 P f))) + (((4 * (fZ f)) * (fdZ1 f)) * (ks_ddR_D1D2 P f))) + (((4 * (ks_dR_D1 P
  f)) * (fdZ1 f)) * (fdZ2 f))) + ((2 * (ks_dR_D2 P f)) * ((fdZ1 f) ^ 2)))) * ((fR f) ^ 2))) - ((((12
  * ((pa P) ^ 2)) * ((fZ f) ^ 2)) * ((ks_dR_D1 P f) ^ 2)) * (ks_dR_D2 P f))) + (((((fR f) *
  (ks_dddR_D1D1D2 P f)) + ((2 * (ks_dR_D1 P f)) * (ks_ddR_D1D2 P f))) + ((ks_ddR_D1D1 P f) *
  (ks_dR_D2 P f))) * ((fR f) ^ 5))))) + ((8 * ((((pa P) ^ 2) * ((fZ f) ^ 2)) + ((fR f) ^ 4))) * (((2
  * (((((((pa P) ^ 2) * (fR f)) * (fZ f)) * (fdZ1 f)) - ((((pa P) ^ 2) * ((fZ f) ^ 2)) * (ks_dR_D1 P
  f))) + (((fR f) ^ 4) * (ks_dR_D1 P f)))) * (((((((pa P) ^ 2) * (((fZ f) * (ks_ddZ_D1D2 P f)) +
  ((fdZ1 f) * (fdZ2 f)))) * ((fR f) ^ 2)) - (((((pa P) ^ 2) * ((((fZ f) * (ks_ddR_D1D2 P f)) + ((2 *
  (ks_dR_D1 P f)) * (fdZ2 f))) + ((2 * (ks_dR_D2 P f)) * (fdZ1 f)))) * (fR f)) * (fZ f))) + ((((3 *
  ((pa P) ^ 2)) * ((fZ f) ^ 2)) * (ks_dR_D1 P f)) * (ks_dR_D2 P f))) + ((((fR f) * (ks_ddR_D1D2 P f))
  + ((ks_dR_D1 P f) * (ks_dR_D2 P f))) * ((fR f) ^ 4)))) + ((((((((pa P) ^ 2) * (fR f)) * (fZ f)) *
  (fdZ2 f)) - ((((pa P) ^ 2) * ((fZ f) ^ 2)) * (ks_dR_D2 P f))) + (((fR f) ^ 4) * (ks_dR_D2 P f))) *
  (((((((- ((pa P) ^ 2)) * (((fZ f) * (ks_ddR_D1D1 P f)) + ((4 * (ks_dR_D1 P f)) * (fdZ1 f)))) * (fR
  f)) * (fZ f)) + ((((pa P) ^ 2) * (((fZ f) * (ks_ddZ_D1D1 P f)) + ((fdZ1 f) ^ 2))) * ((fR f) ^ 2)))
  + (((3 * ((pa P) ^ 2)) * ((fZ f) ^ 2)) * ((ks_dR_D1 P f) ^ 2))) + ((((fR f) * (ks_ddR_D1D1 P f)) +
  ((ks_dR_D1 P f) ^ 2)) * ((fR f) ^ 4))))))) + (((8 * ((((pa P) ^ 2) * ((fZ f) ^ 2)) + ((fR f) ^ 4)))
  * (((((((((pa P) ^ 2) * (fR f)) * (fZ f)) * (fdZ1 f)) - ((((pa P) ^ 2) * ((fZ f) ^ 2)) * (ks_dR_D1
  P f))) + (((fR f) ^ 4) * (ks_dR_D1 P f))) * (ks_dR_D2 P f)) + ((2 * (((((((pa P) ^ 2) * (fR f)) *
  (fZ f)) * (fdZ2 f)) - ((((pa P) ^ 2) * ((fZ f) ^ 2)) * (ks_dR_D2 P f))) + (((fR f) ^ 4) * (ks_dR_D2
  P f)))) * (ks_dR_D1 P f)))) * (((((((pa P) ^ 2) * (fR f)) * (fZ f)) * (fdZ1 f)) - ((((pa P) ^ 2) *
  ((fZ f) ^ 2)) * (ks_dR_D1 P f))) + (((fR f) ^ 4) * (ks_dR_D1 P f))))) - ((48 * ((((((((pa P) ^ 2) *
  (fR f)) * (fZ f)) * (fdZ1 f)) - ((((pa P) ^ 2) * ((fZ f) ^ 2)) * (ks_dR_D1 P f))) + (((fR f) ^ 4) *
  (ks_dR_D1 P f))) ^ 2)) * (((((((pa P) ^ 2) * (fR f)) * (fZ f)) * (fdZ2 f)) - ((((pa P) ^ 2) * ((fZ
  f) ^ 2)) * (ks_dR_D2 P f))) + (((fR f) ^ 4) * (ks_dR_D2 P f)))))) / (((((pa P) ^ 2) * ((fZ f) ^ 2))
  + ((fR f) ^ 4)) ^ 4).

(* /repo/Src/Main/Modules/Physics/Free_Data/fd_KerrSchild_H_K0_K1_K2.c:4804-4951 *)
Definition ks_dddH_D1D2D0 (P : kspar) (f : ksarg) : R :=
  (((pL P) * (pM P)) * ((((((((((((((((((((((((((((((((((((((((((((((((((((((((((((((((((((((((((- 2)
  * ((pa P) ^ 6)) * ((fR f) ^ 3)) * ((fZ f) ^ 5)) * (ks_dddZ_D0D1D2 P f)) + (((((6 * ((pa P) ^ 6)) *
  ((fR f) ^ 3)) * ((fZ f) ^ 4)) * (fdZ0 f)) * (ks_ddZ_D1D2 P f))) + (((((6 * ((pa P) ^ 6)) * ((fR f)
  ^ 3)) * ((fZ f) ^ 4)) * (fdZ1 f)) * (ks_ddZ_D0D2 P f))) + (((((6 * ((pa P) ^ 6)) * ((fR f) ^ 3)) *
  ((fZ f) ^ 4)) * (fdZ2 f)) * (ks_ddZ_D0D1 P f))) - ((((((24 * ((pa P) ^ 6)) * ((fR f) ^ 3)) * ((fZ
  f) ^ 3)) * (fdZ0 f)) * (fdZ1 f)) * (fdZ2 f))) + ((((3 * ((pa P) ^ 6)) * ((fR f) ^ 2)) * ((fZ f) ^
  6)) * (ks_dddR_D0D1D2 P f))) - (((((6 * ((pa P) ^ 6)) * ((fR f) ^ 2)) * ((fZ f) ^ 5)) * (ks_dR_D0 P
  f)) * (ks_ddZ_D1D2 P f))) - (((((6 * ((pa P) ^ 6)) * ((fR f) ^ 2)) * ((fZ f) ^ 5)) * (ks_dR_D1 P
  f)) * (ks_ddZ_D0D2 P f))) - (((((6 * ((pa P) ^ 6)) * ((fR f) ^ 2)) * ((fZ f) ^ 5)) * (ks_dR_D2 P
  f)) * (ks_ddZ_D0D1 P f))) - (((((6 * ((pa P) ^ 6)) * ((fR f) ^ 2)) * ((fZ f) ^ 5)) * (fdZ0 f)) *
  (ks_ddR_D1D2 P f))) - (((((6 * ((pa P) ^ 6)) * ((fR f) ^ 2)) * ((fZ f) ^ 5)) * (fdZ1 f)) *
  (ks_ddR_D0D2 P f))) - (((((6 * ((pa P) ^ 6)) * ((fR f) ^ 2)) * ((fZ f) ^ 5)) * (fdZ2 f)) *
  (ks_ddR_D0D1 P f))) + ((((((18 * ((pa P) ^ 6)) * ((fR f) ^ 2)) * ((fZ f) ^ 4)) * (ks_dR_D0 P f)) *
  (fdZ1 f)) * (fdZ2 f))) + ((((((18 * ((pa P) ^ 6)) * ((fR f) ^ 2)) * ((fZ f) ^ 4)) * (ks_dR_D1 P f))
  * (fdZ0 f)) * (fdZ2 f))) + ((((((18 * ((pa P) ^ 6)) * ((fR f) ^ 2)) * ((fZ f) ^ 4)) * (ks_dR_D2 P
  f)) * (fdZ0 f)) * (fdZ1 f))) + (((((6 * ((pa P) ^ 6)) * (fR f)) * ((fZ f) ^ 6)) * (ks_dR_D0 P f)) *
  (ks_ddR_D1D2 P f))) + (((((6 * ((pa P) ^ 6)) * (fR f)) * ((fZ f) ^ 6)) * (ks_dR_D1 P f)) *
  (ks_ddR_D0D2 P f))) + (((((6 * ((pa P) ^ 6)) * (fR f)) * ((fZ f) ^ 6)) * (ks_dR_D2 P f)) *
  (ks_ddR_D0D1 P f))) - ((((((12 * ((pa P) ^ 6)) * (fR f)) * ((fZ f) ^ 5)) * (ks_dR_D0 P f)) *
  (ks_dR_D1 P f)) * (fdZ2 f))) - ((((((12 * ((pa P) ^ 6)) * (fR f)) * ((fZ f) ^ 5)) * (ks_dR_D0 P f))
  * (ks_dR_D2 P f)) * (fdZ1 f))) - ((((((12 * ((pa P) ^ 6)) * (fR f)) * ((fZ f) ^ 5)) * (ks_dR_D1 P
  f)) * (ks_dR_D2 P f)) * (fdZ0 f))) + (((((6 * ((pa P) ^ 6)) * ((fZ f) ^ 6)) * (ks_dR_D0 P f)) *
  (ks_dR_D1 P f)) * (ks_dR_D2 P f))) - ((((4 * ((pa P) ^ 4)) * ((fR f) ^ 7)) * ((fZ f) ^ 3)) *
  (ks_dddZ_D0D1D2 P f))) + (((((4 * ((pa P) ^ 4)) * ((fR f) ^ 7)) * ((fZ f) ^ 2)) * (fdZ0 f)) *
  (ks_ddZ_D1D2 P f))) + (((((4 * ((pa P) ^ 4)) * ((fR f) ^ 7)) * ((fZ f) ^ 2)) * (fdZ1 f)) *
  (ks_ddZ_D0D2 P f))) + (((((4 * ((pa P) ^ 4)) * ((fR f) ^ 7)) * ((fZ f) ^ 2)) * (fdZ2 f)) *
  (ks_ddZ_D0D1 P f))) + ((((((24 * ((pa P) ^ 4)) * ((fR f) ^ 7)) * (fZ f)) * (fdZ0 f)) * (fdZ1 f)) *
  (fdZ2 f))) + ((((5 * ((pa P) ^ 4)) * ((fR f) ^ 6)) * ((fZ f) ^ 4)) * (ks_dddR_D0D1D2 P f))) +
  (((((4 * ((pa P) ^ 4)) * ((fR f) ^ 6)) * ((fZ f) ^ 3)) * (ks_dR_D0 P f)) * (ks_ddZ_D1D2 P f))) +
  (((((4 * ((pa P) ^ 4)) * ((fR f) ^ 6)) * ((fZ f) ^ 3)) * (ks_dR_D1 P f)) * (ks_ddZ_D0D2 P f))) +
  (((((4 * ((pa P) ^ 4)) * ((fR f) ^ 6)) * ((fZ f) ^ 3)) * (ks_dR_D2 P f)) * (ks_ddZ_D0D1 P f))) +
  (((((4 * ((pa P) ^ 4)) * ((fR f) ^ 6)) * ((fZ f) ^ 3)) * (fdZ0 f)) * (ks_ddR_D1D2 P f))) + (((((4 *
  ((pa P) ^ 4)) * ((fR f) ^ 6)) * ((fZ f) ^ 3)) * (fdZ1 f)) * (ks_ddR_D0D2 P f))) + (((((4 * ((pa P)
  ^ 4)) * ((fR f) ^ 6)) * ((fZ f) ^ 3)) * (fdZ2 f)) * (ks_ddR_D0D1 P f))) - ((((((68 * ((pa P) ^ 4))
  * ((fR f) ^ 6)) * ((fZ f) ^ 2)) * (ks_dR_D0 P f)) * (fdZ1 f)) * (fdZ2 f))) - ((((((68 * ((pa P) ^
  4)) * ((fR f) ^ 6)) * ((fZ f) ^ 2)) * (ks_dR_D1 P f)) * (fdZ0 f)) * (fdZ2 f))) - ((((((68 * ((pa P)
  ^ 4)) * ((fR f) ^ 6)) * ((fZ f) ^ 2)) * (ks_dR_D2 P f)) * (fdZ0 f)) * (fdZ1 f))) - (((((18 * ((pa
  P) ^ 4)) * ((fR f) ^ 5)) * ((fZ f) ^ 4)) * (ks_dR_D0 P f)) * (ks_ddR_D1D2 P f))) - (((((18 * ((pa
  P) ^ 4)) * ((fR f) ^ 5)) * ((fZ f) ^ 4)) * (ks_dR_D1 P f)) * (ks_ddR_D0D2 P f))) - (((((18 * ((pa
  P) ^ 4)) * ((fR f) ^ 5)) * ((fZ f) ^ 4)) * (ks_dR_D2 P f)) * (ks_ddR_D0D1 P f))) + (((((((pa P) ^
  4) * ((fR f) ^ 5)) * ((fZ f) ^ 3)) * (ks_dR_D0 P f)) * (ks_dR_D1 P f)) * (fdZ2 f))) + (((((((pa P)
  ^ 4) * ((fR f) ^ 5)) * ((fZ f) ^ 3)) * (ks_dR_D0 P f)) * (ks_dR_D2 P f)) * (fdZ1 f))) + (((((((pa
  P) ^ 4) * ((fR f) ^ 5)) * ((fZ f) ^ 3)) * (ks_dR_D1 P f)) * (ks_dR_D2 P f)) * (fdZ0 f))) -
  ((((((186 * ((pa P) ^ 4)) * ((fR f) ^ 4)) * ((fZ f) ^ 4)) * (ks_dR_D0 P f)) * (ks_dR_D1 P f)) *
  (ks_dR_D2 P f))) - ((((2 * ((pa P) ^ 2)) * ((fR f) ^ 11)) * (fZ f)) * (ks_dddZ_D0D1D2 P f))) -
  ((((2 * ((pa P) ^ 2)) * ((fR f) ^ 11)) * (fdZ0 f)) * (ks_ddZ_D1D2 P f))) - ((((2 * ((pa P) ^ 2)) *
  ((fR f) ^ 11)) * (fdZ1 f)) * (ks_ddZ_D0D2 P f))) - ((((2 * ((pa P) ^ 2)) * ((fR f) ^ 11)) * (fdZ2
  f)) * (ks_ddZ_D0D1 P f))) + (((((pa P) ^ 2) * ((fR f) ^ 10)) * ((fZ f) ^ 2)) * (ks_dddR_D0D1D2 P
  f))) + (((((10 * ((pa P) ^ 2)) * ((fR f) ^ 10)) * (fZ f)) * (ks_dR_D0 P f)) * (ks_ddZ_D1D2 P f))) +
  (((((10 * ((pa P) ^ 2)) * ((fR f) ^ 10)) * (fZ f)) * (ks_dR_D1 P f)) * (ks_ddZ_D0D2 P f))) +
  (((((10 * ((pa P) ^ 2)) * ((fR f) ^ 10)) * (fZ f)) * (ks_dR_D2 P f)) * (ks_ddZ_D0D1 P f))) +
  (((((10 * ((pa P) ^ 2)) * ((fR f) ^ 10)) * (fZ f)) * (fdZ0 f)) * (ks_ddR_D1D2 P f))) + (((((10 *
  ((pa P) ^ 2)) * ((fR f) ^ 10)) * (fZ f)) * (fdZ1 f)) * (ks_ddR_D0D2 P f))) + (((((10 * ((pa P) ^
  2)) * ((fR f) ^ 10)) * (fZ f)) * (fdZ2 f)) * (ks_ddR_D0D1 P f))) + (((((10 * ((pa P) ^ 2)) * ((fR
  f) ^ 10)) * (ks_dR_D0 P f)) * (fdZ1 f)) * (fdZ2 f))) + (((((10 * ((pa P) ^ 2)) * ((fR f) ^ 10)) *
  (ks_dR_D1 P f)) * (fdZ0 f)) * (fdZ2 f))) + (((((10 * ((pa P) ^ 2)) * ((fR f) ^ 10)) * (ks_dR_D2 P
  f)) * (fdZ0 f)) * (fdZ1 f))) - (((((22 * ((pa P) ^ 2)) * ((fR f) ^ 9)) * ((fZ f) ^ 2)) * (ks_dR_D0
  P f)) * (ks_ddR_D1D2 P f))) - (((((22 * ((pa P) ^ 2)) * ((fR f) ^ 9)) * ((fZ f) ^ 2)) * (ks_dR_D1 P
  f)) * (ks_ddR_D0D2 P f))) - (((((22 * ((pa P) ^ 2)) * ((fR f) ^ 9)) * ((fZ f) ^ 2)) * (ks_dR_D2 P
  f)) * (ks_ddR_D0D1 P f))) - ((((((60 * ((pa P) ^ 2)) * ((fR f) ^ 9)) * (fZ f)) * (ks_dR_D0 P f)) *
  (ks_dR_D1 P f)) * (fdZ2 f))) - ((((((60 * ((pa P) ^ 2)) * ((fR f) ^ 9)) * (fZ f)) * (ks_dR_D0 P f))
  * (ks_dR_D2 P f)) * (fdZ1 f))) - ((((((60 * ((pa P) ^ 2)) * ((fR f) ^ 9)) * (fZ f)) * (ks_dR_D1 P
  f)) * (ks_dR_D2 P f)) * (fdZ0 f))) + ((((((186 * ((pa P) ^ 2)) * ((fR f) ^ 8)) * ((fZ f) ^ 2)) *
  (ks_dR_D0 P f)) * (ks_dR_D1 P f)) * (ks_dR_D2 P f))) - (((fR f) ^ 14) * (ks_dddR_D0D1D2 P f))) +
  (((2 * ((fR f) ^ 13)) * (ks_dR_D0 P f)) * (ks_ddR_D1D2 P f))) + (((2 * ((fR f) ^ 13)) * (ks_dR_D1 P
  f)) * (ks_ddR_D0D2 P f))) + (((2 * ((fR f) ^ 13)) * (ks_dR_D2 P f)) * (ks_ddR_D0D1 P f))) - ((((6 *
  ((fR f) ^ 12)) * (ks_dR_D0 P f)) * (ks_dR_D1 P f)) * (ks_dR_D2 P f)))) / (((((((pa P) ^ 8) * ((fZ
  f) ^ 8)) + (((4 * ((pa P) ^ 6)) * ((fR f) ^ 4)) * ((fZ f) ^ 6))) + (((6 * ((pa P) ^ 4)) * ((fR f) ^
  8)) * ((fZ f) ^ 4))) + (((4 * ((pa P) ^ 2)) * ((fR f) ^ 12)) * ((fZ f) ^ 2))) + ((fR f) ^ 16)).

(* /repo/Src/Main/Modules/Physics/Free_Data/fd_KerrSchild_H_K0_K1_K2.c:4952-5053 *)
Definition ks_dddH_D0D2D2 (P : kspar) (f : ksarg) : R :=
  (((pL P) * (pM P)) * (((((((((((((pa P) ^ 2) * ((fZ f) ^ 2)) + ((fR f) ^ 4)) ^ 3) * ((fR f) ^ 2)) *
  (ks_dddR_D0D2D2 P f)) - (((2 * (((((pa P) ^ 2) * ((fZ f) ^ 2)) + ((fR f) ^ 4)) ^ 2)) * (((((((((pa
  P) ^ 2) * (fR f)) * (fZ f)) * (fdZ0 f)) - ((((pa P) ^ 2) * ((fZ f) ^ 2)) * (ks_dR_D0 P f))) + (((fR
  f) ^ 4) * (ks_dR_D0 P f))) * (ks_ddR_D2D2 P f)) + ((2 * (((((((pa P) ^ 2) * (fR f)) * (fZ f)) *
  (fdZ2 f)) - ((((pa P) ^ 2) * ((fZ f) ^ 2)) * (ks_dR_D2 P f))) + (((fR f) ^ 4) * (ks_dR_D2 P f)))) *
  (ks_ddR_D0D2 P f)))) * (fR f))) - ((2 * (((((pa P) ^ 2) * ((fZ f) ^ 2)) + ((fR f) ^ 4)) ^ 2)) *
  (((2 * (((((((pa P) ^ 2) * (((fZ f) * (ks_ddZ_D0D2 P f)) + ((fdZ0 f) * (fdZ2 f)))) * ((fR f) ^ 2))
  - (((((pa P) ^ 2) * ((((fZ f) * (ks_ddR_D0D2 P f)) + ((2 * (ks_dR_D0 P f)) * (fdZ2 f))) + ((2 *
  (ks_dR_D2 P f)) * (fdZ0 f)))) * (fR f)) * (fZ f))) + ((((3 * ((pa P) ^ 2)) * ((fZ f) ^ 2)) *
  (ks_dR_D0 P f)) * (ks_dR_D2 P f))) + ((((fR f) * (ks_ddR_D0D2 P f)) + ((ks_dR_D0 P f) * (ks_dR_D2 P
  f))) * ((fR f) ^ 4)))) * (ks_dR_D2 P f)) + ((((((((- ((pa P) ^ 2)) * (((fZ f) * (ks_ddR_D2D2 P f))
  + ((4 * (ks_dR_D2 P f)) * (fdZ2 f)))) * (fR f)) * (fZ f)) + ((((pa P) ^ 2) * (((fZ f) *
  (ks_ddZ_D2D2 P f)) + ((fdZ2 f) ^ 2))) * ((fR f) ^ 2))) + (((3 * ((pa P) ^ 2)) * ((fZ f) ^ 2)) *
  ((ks_dR_D2 P f) ^ 2))) + ((((fR f) * (ks_ddR_D2D2 P f)) + ((ks_dR_D2 P f) ^ 2)) * ((fR f) ^ 4))) *
  (ks_dR_D0 P f))))) - ((2 * (((((pa P) ^ 2) * ((fZ f) ^ 2)) + ((fR f) ^ 4)) ^ 2)) * ((((((((pa P) ^
  2) * ((((fZ f) * (ks_dddZ_D0D2D2 P f)) + ((fdZ0 f) * (ks_ddZ_D2D2 P f))) + ((2 * (fdZ2 f)) *
  (ks_ddZ_D0D2 P f)))) * ((fR f) ^ 3)) + ((((3 * ((pa P) ^ 2)) * ((((((fZ f) * (ks_dR_D0 P f)) *
  (ks_ddR_D2D2 P f)) + (((2 * (fZ f)) * (ks_dR_D2 P f)) * (ks_ddR_D0D2 P f))) + (((4 * (ks_dR_D0 P
  f)) * (ks_dR_D2 P f)) * (fdZ2 f))) + ((2 * ((ks_dR_D2 P f) ^ 2)) * (fdZ0 f)))) * (fR f)) * (fZ f)))
  - ((((pa P) ^ 2) * (((((((((fZ f) ^ 2) * (ks_dddR_D0D2D2 P f)) + (((2 * (fZ f)) * (ks_dR_D0 P f)) *
  (ks_ddZ_D2D2 P f))) + (((4 * (fZ f)) * (ks_dR_D2 P f)) * (ks_ddZ_D0D2 P f))) + (((2 * (fZ f)) *
  (ks_ddR_D2D2 P f)) * (fdZ0 f))) + (((4 * (fZ f)) * (fdZ2 f)) * (ks_ddR_D0D2 P f))) + ((2 *
  (ks_dR_D0 P f)) * ((fdZ2 f) ^ 2))) + (((4 * (ks_dR_D2 P f)) * (fdZ0 f)) * (fdZ2 f)))) * ((fR f) ^
  2))) - ((((12 * ((pa P) ^ 2)) * ((fZ f) ^ 2)) * (ks_dR_D0 P f)) * ((ks_dR_D2 P f) ^ 2))) + (((((fR
  f) * (ks_dddR_D0D2D2 P f)) + ((ks_dR_D0 P f) * (ks_ddR_D2D2 P f))) + ((2 * (ks_dR_D2 P f)) *
  (ks_ddR_D0D2 P f))) * ((fR f) ^ 5))))) + ((8 * ((((pa P) ^ 2) * ((fZ f) ^ 2)) + ((fR f) ^ 4))) *
  (((((((((pa P) ^ 2) * (fR f)) * (fZ f)) * (fdZ0 f)) - ((((pa P) ^ 2) * ((fZ f) ^ 2)) * (ks_dR_D0 P
  f))) + (((fR f) ^ 4) * (ks_dR_D0 P f))) * (((((((- ((pa P) ^ 2)) * (((fZ f) * (ks_ddR_D2D2 P f)) +
  ((4 * (ks_dR_D2 P f)) * (fdZ2 f)))) * (fR f)) * (fZ f)) + ((((pa P) ^ 2) * (((fZ f) * (ks_ddZ_D2D2
  P f)) + ((fdZ2 f) ^ 2))) * ((fR f) ^ 2))) + (((3 * ((pa P) ^ 2)) * ((fZ f) ^ 2)) * ((ks_dR_D2 P f)
  ^ 2))) + ((((fR f) * (ks_ddR_D2D2 P f)) + ((ks_dR_D2 P f) ^ 2)) * ((fR f) ^ 4)))) + ((2 * (((((((pa
  P) ^ 2) * (fR f)) * (fZ f)) * (fdZ2 f)) - ((((pa P) ^ 2) * ((fZ f) ^ 2)) * (ks_dR_D2 P f))) + (((fR
  f) ^ 4) * (ks_dR_D2 P f)))) * (((((((pa P) ^ 2) * (((fZ f) * (ks_ddZ_D0D2 P f)) + ((fdZ0 f) * (fdZ2
  f)))) * ((fR f) ^ 2)) - (((((pa P) ^ 2) * ((((fZ f) * (ks_ddR_D0D2 P f)) + ((2 * (ks_dR_D0 P f)) *
  (fdZ2 f))) + ((2 * (ks_dR_D2 P f)) * (fdZ0 f)))) * (fR f)) * (fZ f))) + ((((3 * ((pa P) ^ 2)) *
  ((fZ f) ^ 2)) * (ks_dR_D0 P f)) * (ks_dR_D2 P f))) + ((((fR f) * (ks_ddR_D0D2 P f)) + ((ks_dR_D0 P
  f) * (ks_dR_D2 P f))) * ((fR f) ^ 4))))))) + (((8 * ((((pa P) ^ 2) * ((fZ f) ^ 2)) + ((fR f) ^ 4)))
  * (((2 * (((((((pa P) ^ 2) * (fR f)) * (fZ f)) * (fdZ0 f)) - ((((pa P) ^ 2) * ((fZ f) ^ 2)) *
  (ks_dR_D0 P f))) + (((fR f) ^ 4) * (ks_dR_D0 P f)))) * (ks_dR_D2 P f)) + ((((((((pa P) ^ 2) * (fR
  f)) * (fZ f)) * (fdZ2 f)) - ((((pa P) ^ 2) * ((fZ f) ^ 2)) * (ks_dR_D2 P f))) + (((fR f) ^ 4) *
  (ks_dR_D2 P f))) * (ks_dR_D0 P f)))) * (((((((pa P) ^ 2) * (fR f)) * (fZ f)) * (fdZ2 f)) - ((((pa
  P) ^ 2) * ((fZ f) ^ 2)) * (ks_dR_D2 P f))) + (((fR f) ^ 4) * (ks_dR_D2 P f))))) - ((48 * (((((((pa
  P) ^ 2) * (fR f)) * (fZ f)) * (fdZ0 f)) - ((((pa P) ^ 2) * ((fZ f) ^ 2)) * (ks_dR_D0 P f))) + (((fR
  f) ^ 4) * (ks_dR_D0 P f)))) * ((((((((pa P) ^ 2) * (fR f)) * (fZ f)) * (fdZ2 f)) - ((((pa P) ^ 2) *
  ((fZ f) ^ 2)) * (ks_dR_D2 P f))) + (((fR f) ^ 4) * (ks_dR_D2 P f))) ^ 2)))) / (((((pa P) ^ 2) *
  ((fZ f) ^ 2)) + ((fR f) ^ 4)) ^ 4).

(* /repo/Src/Main/Modules/Physics/Free_Data/fd_KerrSchild_H_K0_K1_K2.c:5054-5111 *)
Definition ks_dddH_D1D1D1 (P : kspar) (f : ksarg) : R :=
  (((pL P) * (pM P)) * (((((((((((((pa P) ^ 2) * ((fZ f) ^ 2)) + ((fR f) ^ 4)) ^ 3) * ((fR f) ^ 2)) *
  (ks_dddR_D1D1D1 P f)) - ((((6 * (((((pa P) ^ 2) * ((fZ f) ^ 2)) + ((fR f) ^ 4)) ^ 2)) * (((((((pa
  P) ^ 2) * (fR f)) * (fZ f)) * (fdZ1 f)) - ((((pa P) ^ 2) * ((fZ f) ^ 2)) * (ks_dR_D1 P f))) + (((fR
  f) ^ 4) * (ks_dR_D1 P f)))) * (fR f)) * (ks_ddR_D1D1 P f))) - (((6 * (((((pa P) ^ 2) * ((fZ f) ^
  2)) + ((fR f) ^ 4)) ^ 2)) * (((((((- ((pa P) ^ 2)) * (((fZ f) * (ks_ddR_D1D1 P f)) + ((4 *
  (ks_dR_D1 P f)) * (fdZ1 f)))) * (fR f)) * (fZ f)) + ((((pa P) ^ 2) * (((fZ f) * (ks_ddZ_D1D1 P f))
  + ((fdZ1 f) ^ 2))) * ((fR f) ^ 2))) + (((3 * ((pa P) ^ 2)) * ((fZ f) ^ 2)) * ((ks_dR_D1 P f) ^ 2)))
  + ((((fR f) * (ks_ddR_D1D1 P f)) + ((ks_dR_D1 P f) ^ 2)) * ((fR f) ^ 4)))) * (ks_dR_D1 P f))) - ((2
  * (((((pa P) ^ 2) * ((fZ f) ^ 2)) + ((fR f) ^ 4)) ^ 2)) * (((((((((9 * ((pa P) ^ 2)) * (((fZ f) *
  (ks_ddR_D1D1 P f)) + ((2 * (ks_dR_D1 P f)) * (fdZ1 f)))) * (fR f)) * (fZ f)) * (ks_dR_D1 P f)) +
  ((((pa P) ^ 2) * (((fZ f) * (ks_dddZ_D1D1D1 P f)) + ((3 * (fdZ1 f)) * (ks_ddZ_D1D1 P f)))) * ((fR
  f) ^ 3))) - ((((pa P) ^ 2) * ((((((fZ f) ^ 2) * (ks_dddR_D1D1D1 P f)) + (((6 * (fZ f)) * (ks_dR_D1
  P f)) * (ks_ddZ_D1D1 P f))) + (((6 * (fZ f)) * (ks_ddR_D1D1 P f)) * (fdZ1 f))) + ((6 * (ks_dR_D1 P
  f)) * ((fdZ1 f) ^ 2)))) * ((fR f) ^ 2))) - (((12 * ((pa P) ^ 2)) * ((fZ f) ^ 2)) * ((ks_dR_D1 P f)
  ^ 3))) + ((((fR f) * (ks_dddR_D1D1D1 P f)) + ((3 * (ks_dR_D1 P f)) * (ks_ddR_D1D1 P f))) * ((fR f)
  ^ 5))))) + (((24 * ((((pa P) ^ 2) * ((fZ f) ^ 2)) + ((fR f) ^ 4))) * ((((((((pa P) ^ 2) * (fR f)) *
  (fZ f)) * (fdZ1 f)) - ((((pa P) ^ 2) * ((fZ f) ^ 2)) * (ks_dR_D1 P f))) + (((fR f) ^ 4) * (ks_dR_D1
  P f))) ^ 2)) * (ks_dR_D1 P f))) + (((24 * ((((pa P) ^ 2) * ((fZ f) ^ 2)) + ((fR f) ^ 4))) *
  (((((((pa P) ^ 2) * (fR f)) * (fZ f)) * (fdZ1 f)) - ((((pa P) ^ 2) * ((fZ f) ^ 2)) * (ks_dR_D1 P
  f))) + (((fR f) ^ 4) * (ks_dR_D1 P f)))) * (((((((- ((pa P) ^ 2)) * (((fZ f) * (ks_ddR_D1D1 P f)) +
  ((4 * (ks_dR_D1 P f)) * (fdZ1 f)))) * (fR f)) * (fZ f)) + ((((pa P) ^ 2) * (((fZ f) * (ks_ddZ_D1D1
  P f)) + ((fdZ1 f) ^ 2))) * ((fR f) ^ 2))) + (((3 * ((pa P) ^ 2)) * ((fZ f) ^ 2)) * ((ks_dR_D1 P f)
  ^ 2))) + ((((fR f) * (ks_ddR_D1D1 P f)) + ((ks_dR_D1 P f) ^ 2)) * ((fR f) ^ 4))))) - (48 *
  ((((((((pa P) ^ 2) * (fR f)) * (fZ f)) * (fdZ1 f)) - ((((pa P) ^ 2) * ((fZ f) ^ 2)) * (ks_dR_D1 P
  f))) + (((fR f) ^ 4) * (ks_dR_D1 P f))) ^ 3)))) / (((((pa P) ^ 2) * ((fZ f) ^ 2)) + ((fR f) ^ 4)) ^
  4).

(* /repo/Src/Main/Modules/Physics/Free_Data/fd_KerrSchild_H_K0_K1_K2.c:5112-5214 *)
Definition ks_dddH_D0D2D0 (P : kspar) (f : ksarg) : R :=
  (((pL P) * (pM P)) * (((((((((((((pa P) ^ 2) * ((fZ f) ^ 2)) + ((fR f) ^ 4)) ^ 3) * ((fR f) ^ 2)) *
  (ks_dddR_D0D0D2 P f)) - (((2 * (((((pa P) ^ 2) * ((fZ f) ^ 2)) + ((fR f) ^ 4)) ^ 2)) * (((2 *
  (((((((pa P) ^ 2) * (fR f)) * (fZ f)) * (fdZ0 f)) - ((((pa P) ^ 2) * ((fZ f) ^ 2)) * (ks_dR_D0 P
  f))) + (((fR f) ^ 4) * (ks_dR_D0 P f)))) * (ks_ddR_D0D2 P f)) + ((((((((pa P) ^ 2) * (fR f)) * (fZ
  f)) * (fdZ2 f)) - ((((pa P) ^ 2) * ((fZ f) ^ 2)) * (ks_dR_D2 P f))) + (((fR f) ^ 4) * (ks_dR_D2 P
  f))) * (ks_ddR_D0D0 P f)))) * (fR f))) - ((2 * (((((pa P) ^ 2) * ((fZ f) ^ 2)) + ((fR f) ^ 4)) ^
  2)) * (((2 * (((((((pa P) ^ 2) * (((fZ f) * (ks_ddZ_D0D2 P f)) + ((fdZ0 f) * (fdZ2 f)))) * ((fR f)
  ^ 2)) - (((((pa P) ^ 2) * ((((fZ f) * (ks_ddR_D0D2 P f)) + ((2 * (ks_dR_D0 P f)) * (fdZ2 f))) + ((2
  * (ks_dR_D2 P f)) * (fdZ0 f)))) * (fR f)) * (fZ f))) + ((((3 * ((pa P) ^ 2)) * ((fZ f) ^ 2)) *
  (ks_dR_D0 P f)) * (ks_dR_D2 P f))) + ((((fR f) * (ks_ddR_D0D2 P f)) + ((ks_dR_D0 P f) * (ks_dR_D2 P
  f))) * ((fR f) ^ 4)))) * (ks_dR_D0 P f)) + ((((((((- ((pa P) ^ 2)) * (((fZ f) * (ks_ddR_D0D0 P f))
  + ((4 * (ks_dR_D0 P f)) * (fdZ0 f)))) * (fR f)) * (fZ f)) + ((((pa P) ^ 2) * (((fZ f) *
  (ks_ddZ_D0D0 P f)) + ((fdZ0 f) ^ 2))) * ((fR f) ^ 2))) + (((3 * ((pa P) ^ 2)) * ((fZ f) ^ 2)) *
  ((ks_dR_D0 P f) ^ 2))) + ((((fR f) * (ks_ddR_D0D0 P f)) + ((ks_dR_D0 P f) ^ 2)) * ((fR f) ^ 4))) *
  (ks_dR_D2 P f))))) - ((2 * (((((pa P) ^ 2) * ((fZ f) ^ 2)) + ((fR f) ^ 4)) ^ 2)) * ((((((((pa P) ^
  2) * ((((fZ f) * (ks_dddZ_D0D0D2 P f)) + ((2 * (fdZ0 f)) * (ks_ddZ_D0D2 P f))) + ((ks_ddZ_D0D0 P f)
  * (fdZ2 f)))) * ((fR f) ^ 3)) + ((((3 * ((pa P) ^ 2)) * ((((((2 * (fZ f)) * (ks_dR_D0 P f)) *
  (ks_ddR_D0D2 P f)) + (((fZ f) * (ks_ddR_D0D0 P f)) * (ks_dR_D2 P f))) + ((2 * ((ks_dR_D0 P f) ^ 2))
  * (fdZ2 f))) + (((4 * (ks_dR_D0 P f)) * (ks_dR_D2 P f)) * (fdZ0 f)))) * (fR f)) * (fZ f))) - ((((pa
  P) ^ 2) * (((((((((fZ f) ^ 2) * (ks_dddR_D0D0D2 P f)) + (((4 * (fZ f)) * (ks_dR_D0 P f)) *
  (ks_ddZ_D0D2 P f))) + (((2 * (fZ f)) * (ks_ddR_D0D0 P f)) * (fdZ2 f))) + (((2 * (fZ f)) * (ks_dR_D2
  P f)) * (ks_ddZ_D0D0 P f))) + (((4 * (fZ f)) * (fdZ0 f)) * (ks_ddR_D0D2 P f))) + (((4 * (ks_dR_D0 P
  f)) * (fdZ0 f)) * (fdZ2 f))) + ((2 * (ks_dR_D2 P f)) * ((fdZ0 f) ^ 2)))) * ((fR f) ^ 2))) - ((((12
  * ((pa P) ^ 2)) * ((fZ f) ^ 2)) * ((ks_dR_D0 P f) ^ 2)) * (ks_dR_D2 P f))) + (((((fR f) *
  (ks_dddR_D0D0D2 P f)) + ((2 * (ks_dR_D0 P f)) * (ks_ddR_D0D2 P f))) + ((ks_ddR_D0D0 P f) *
  (ks_dR_D2 P f))) * ((fR f) ^ 5))))) + ((8 * ((((pa P) ^ 2) * ((fZ f) ^ 2)) + ((fR f) ^ 4))) * (((2
  * (((((((pa P) ^ 2) * (fR f)) * (fZ f)) * (fdZ0 f)) - ((((pa P) ^ 2) * ((fZ f) ^ 2)) * (ks_dR_D0 P
  f))) + (((fR f) ^ 4) * (ks_dR_D0 P f)))) * (((((((pa P) ^ 2) * (((fZ f) * (ks_ddZ_D0D2 P f)) +
  ((fdZ0 f) * (fdZ2 f)))) * ((fR f) ^ 2)) - (((((pa P) ^ 2) * ((((fZ f) * (ks_ddR_D0D2 P f)) + ((2 *
  (ks_dR_D0 P f)) * (fdZ2 f))) + ((2 * (ks_dR_D2 P f)) * (fdZ0 f)))) * (fR f)) * (fZ f))) + ((((3 *
  ((pa P) ^ 2)) * ((fZ f) ^ 2)) * (ks_dR_D0 P f)) * (ks_dR_D2 P f))) + ((((fR f) * (ks_ddR_D0D2 P f))
  + ((ks_dR_D0 P f) * (ks_dR_D2 P f))) * ((fR f) ^ 4)))) + ((((((((pa P) ^ 2) * (fR f)) * (fZ f)) *
  (fdZ2 f)) - ((((pa P) ^ 2) * ((fZ f) ^ 2)) * (ks_dR_D2 P f))) + (((fR f) ^ 4) * (ks_dR_D2 P f))) *
  (((((((- ((pa P) ^ 2)) * (((fZ f) * (ks_ddR_D0D0 P f)) + ((4 * (ks_dR_D0 P f)) * (fdZ0 f)))) * (fR
  f)) * (fZ f)) + ((((pa P) ^ 2) * (((fZ f) * (ks_ddZ_D0D0 P f)) + ((fdZ0 f) ^ 2))) * ((fR f) ^ 2)))
  + (((3 * ((pa P) ^ 2)) * ((fZ f) ^ 2)) * ((ks_dR_D0 P f) ^ 2))) + ((((fR f) * (ks_ddR_D0D0 P f)) +
  ((ks_dR_D0 P f) ^ 2)) * ((fR f) ^ 4))))))) + (((8 * ((((pa P) ^ 2) * ((fZ f) ^ 2)) + ((fR f) ^ 4)))
  * (((((((((pa P) ^ 2) * (fR f)) * (fZ f)) * (fdZ0 f)) - ((((pa P) ^ 2) * ((fZ f) ^ 2)) * (ks_dR_D0
  P f))) + (((fR f) ^ 4) * (ks_dR_D0 P f))) * (ks_dR_D2 P f)) + ((2 * (((((((pa P) ^ 2) * (fR f)) *
  (fZ f)) * (fdZ2 f)) - ((((pa P) ^ 2) * ((fZ f) ^ 2)) * (ks_dR_D2 P f))) + (((fR f) ^ 4) * (ks_dR_D2
  P f)))) * (ks_dR_D0 P f)))) * (((((((pa P) ^ 2) * (fR f)) * (fZ f)) * (fdZ0 f)) - ((((pa P) ^ 2) *
  ((fZ f) ^ 2)) * (ks_dR_D0 P f))) + (((fR f) ^ 4) * (ks_dR_D0 P f))))) - ((48 * ((((((((pa P) ^ 2) *
  (fR f)) * (fZ f)) * (fdZ0 f)) - ((((pa P) ^ 2) * ((fZ f) ^ 2)) * (ks_dR_D0 P f))) + (((fR f) ^ 4) *
  (ks_dR_D0 P f))) ^ 2)) * (((((((pa P) ^ 2) * (fR f)) * (fZ f)) * (fdZ2 f)) - ((((pa P) ^ 2) * ((fZ
  f) ^ 2)) * (ks_dR_D2 P f))) + (((fR f) ^ 4) * (ks_dR_D2 P f)))))) / (((((pa P) ^ 2) * ((fZ f) ^ 2))
  + ((fR f) ^ 4)) ^ 4).

(* /repo/Src/Main/Modules/Physics/Free_Data/fd_KerrSchild_H_K0_K1_K2.c:5215-5362 *)
Definition ks_dddH_D0D2D1 (P : kspar) (f : ksarg) : R :=
  (((pL P) * (pM P)) * ((((((((((((((((((((((((((((((((((((((((((((((((((((((((((((((((((((((((((- 2)
  * ((pa P) ^ 6)) * ((fR f) ^ 3)) * ((fZ f) ^ 5)) * (ks_dddZ_D0D1D2 P f)) + (((((6 * ((pa P) ^ 6)) *
  ((fR f) ^ 3)) * ((fZ f) ^ 4)) * (fdZ0 f)) * (ks_ddZ_D1D2 P f))) + (((((6 * ((pa P) ^ 6)) * ((fR f)
  ^ 3)) * ((fZ f) ^ 4)) * (fdZ1 f)) * (ks_ddZ_D0D2 P f))) + (((((6 * ((pa P) ^ 6)) * ((fR f) ^ 3)) *
  ((fZ f) ^ 4)) * (fdZ2 f)) * (ks_ddZ_D0D1 P f))) - ((((((24 * ((pa P) ^ 6)) * ((fR f) ^ 3)) * ((fZ
  f) ^ 3)) * (fdZ0 f)) * (fdZ1 f)) * (fdZ2 f))) + ((((3 * ((pa P) ^ 6)) * ((fR f) ^ 2)) * ((fZ f) ^
  6)) * (ks_dddR_D0D1D2 P f))) - (((((6 * ((pa P) ^ 6)) * ((fR f) ^ 2)) * ((fZ f) ^ 5)) * (ks_dR_D0 P
  f)) * (ks_ddZ_D1D2 P f))) - (((((6 * ((pa P) ^ 6)) * ((fR f) ^ 2)) * ((fZ f) ^ 5)) * (ks_dR_D1 P
  f)) * (ks_ddZ_D0D2 P f))) - (((((6 * ((pa P) ^ 6)) * ((fR f) ^ 2)) * ((fZ f) ^ 5)) * (ks_dR_D2 P
  f)) * (ks_ddZ_D0D1 P f))) - (((((6 * ((pa P) ^ 6)) * ((fR f) ^ 2)) * ((fZ f) ^ 5)) * (fdZ0 f)) *
  (ks_ddR_D1D2 P f))) - (((((6 * ((pa P) ^ 6)) * ((fR f) ^ 2)) * ((fZ f) ^ 5)) * (fdZ1 f)) *
  (ks_ddR_D0D2 P f))) - (((((6 * ((pa P) ^ 6)) * ((fR f) ^ 2)) * ((fZ f) ^ 5)) * (fdZ2 f)) *
  (ks_ddR_D0D1 P f))) + ((((((18 * ((pa P) ^ 6)) * ((fR f) ^ 2)) * ((fZ f) ^ 4)) * (ks_dR_D0 P f)) *
  (fdZ1 f)) * (fdZ2 f))) + ((((((18 * ((pa P) ^ 6)) * ((fR f) ^ 2)) * ((fZ f) ^ 4)) * (ks_dR_D1 P f))
  * (fdZ0 f)) * (fdZ2 f))) + ((((((18 * ((pa P) ^ 6)) * ((fR f) ^ 2)) * ((fZ f) ^ 4)) * (ks_dR_D2 P
  f)) * (fdZ0 f)) * (fdZ1 f))) + (((((6 * ((pa P) ^ 6)) * (fR f)) * ((fZ f) ^ 6)) * (ks_dR_D0 P f)) *
  (ks_ddR_D1D2 P f))) + (((((6 * ((pa P) ^ 6)) * (fR f)) * ((fZ f) ^ 6)) * (ks_dR_D1 P f)) *
  (ks_ddR_D0D2 P f))) + (((((6 * ((pa P) ^ 6)) * (fR f)) * ((fZ f) ^ 6)) * (ks_dR_D2 P f)) *
  (ks_ddR_D0D1 P f))) - ((((((12 * ((pa P) ^ 6)) * (fR f)) * ((fZ f) ^ 5)) * (ks_dR_D0 P f)) *
  (ks_dR_D1 P f)) * (fdZ2 f))) - ((((((12 * ((pa P) ^ 6)) * (fR f)) * ((fZ f) ^ 5)) * (ks_dR_D0 P f))
  * (ks_dR_D2 P f)) * (fdZ1 f))) - ((((((12 * ((pa P) ^ 6)) * (fR f)) * ((fZ f) ^ 5)) * (ks_dR_D1 P
  f)) * (ks_dR_D2 P f)) * (fdZ0 f))) + (((((6 * ((pa P) ^ 6)) * ((fZ f) ^ 6)) * (ks_dR_D0 P f)) *
  (ks_dR_D1 P f)) * (ks_dR_D2 P f))) - ((((4 * ((pa P) ^ 4)) * ((fR f) ^ 7)) * ((fZ f) ^ 3)) *
  (ks_dddZ_D0D1D2 P f))) + (((((4 * ((pa P) ^ 4)) * ((fR f) ^ 7)) * ((fZ f) ^ 2)) * (fdZ0 f)) *
  (ks_ddZ_D1D2 P f))) + (((((4 * ((pa P) ^ 4)) * ((fR f) ^ 7)) * ((fZ f) ^ 2)) * (fdZ1 f)) *
  (ks_ddZ_D0D2 P f))) + (((((4 * ((pa P) ^ 4)) * ((fR f) ^ 7)) * ((fZ f) ^ 2)) * (fdZ2 f)) *
  (ks_ddZ_D0D1 P f))) + ((((((24 * ((pa P) ^ 4)) * ((fR f) ^ 7)) * (fZ f)) * (fdZ0 f)) * (fdZ1 f)) *
  (fdZ2 f))) + ((((5 * ((pa P) ^ 4)) * ((fR f) ^ 6)) * ((fZ f) ^ 4)) * (ks_dddR_D0D1D2 P f))) +
  (((((4 * ((pa P) ^ 4)) * ((fR f) ^ 6)) * ((fZ f) ^ 3)) * (ks_dR_D0 P f)) * (ks_ddZ_D1D2 P f))) +
  (((((4 * ((pa P) ^ 4)) * ((fR f) ^ 6)) * ((fZ f) ^ 3)) * (ks_dR_D1 P f)) * (ks_ddZ_D0D2 P f))) +
  (((((4 * ((pa P) ^ 4)) * ((fR f) ^ 6)) * ((fZ f) ^ 3)) * (ks_dR_D2 P f)) * (ks_ddZ_D0D1 P f))) +
  (((((4 * ((pa P) ^ 4)) * ((fR f) ^ 6)) * ((fZ f) ^ 3)) * (fdZ0 f)) * (ks_ddR_D1D2 P f))) + (((((4 *
  ((pa P) ^ 4)) * ((fR f) ^ 6)) * ((fZ f) ^ 3)) * (fdZ1 f)) * (ks_ddR_D0D2 P f))) + (((((4 * ((pa P)
  ^ 4)) * ((fR f) ^ 6)) * ((fZ f) ^ 3)) * (fdZ2 f)) * (ks_ddR_D0D1 P f))) - ((((((68 * ((pa P) ^ 4))
  * ((fR f) ^ 6)) * ((fZ f) ^ 2)) * (ks_dR_D0 P f)) * (fdZ1 f)) * (fdZ2 f))) - ((((((68 * ((pa P) ^
  4)) * ((fR f) ^ 6)) * ((fZ f) ^ 2)) * (ks_dR_D1 P f)) * (fdZ0 f)) * (fdZ2 f))) - ((((((68 * ((pa P)
  ^ 4)) * ((fR f) ^ 6)) * ((fZ f) ^ 2)) * (ks_dR_D2 P f)) * (fdZ0 f)) * (fdZ1 f))) - (((((18 * ((pa
  P) ^ 4)) * ((fR f) ^ 5)) * ((fZ f) ^ 4)) * (ks_dR_D0 P f)) * (ks_ddR_D1D2 P f))) - (((((18 * ((pa
  P) ^ 4)) * ((fR f) ^ 5)) * ((fZ f) ^ 4)) * (ks_dR_D1 P f)) * (ks_ddR_D0D2 P f))) - (((((18 * ((pa
  P) ^ 4)) * ((fR f) ^ 5)) * ((fZ f) ^ 4)) * (ks_dR_D2 P f)) * (ks_ddR_D0D1 P f))) + (((((((pa P) ^
  4) * ((fR f) ^ 5)) * ((fZ f) ^ 3)) * (ks_dR_D0 P f)) * (ks_dR_D1 P f)) * (fdZ2 f))) + (((((((pa P)
  ^ 4) * ((fR f) ^ 5)) * ((fZ f) ^ 3)) * (ks_dR_D0 P f)) * (ks_dR_D2 P f)) * (fdZ1 f))) + (((((((pa
  P) ^ 4) * ((fR f) ^ 5)) * ((fZ f) ^ 3)) * (ks_dR_D1 P f)) * (ks_dR_D2 P f)) * (fdZ0 f))) -
  ((((((186 * ((pa P) ^ 4)) * ((fR f) ^ 4)) * ((fZ f) ^ 4)) * (ks_dR_D0 P f)) * (ks_dR_D1 P f)) *
  (ks_dR_D2 P f))) - ((((2 * ((pa P) ^ 2)) * ((fR f) ^ 11)) * (fZ f)) * (ks_dddZ_D0D1D2 P f))) -
  ((((2 * ((pa P) ^ 2)) * ((fR f) ^ 11)) * (fdZ0 f)) * (ks_ddZ_D1D2 P f))) - ((((2 * ((pa P) ^ 2)) *
  ((fR f) ^ 11)) * (fdZ1 f)) * (ks_ddZ_D0D2 P f))) - ((((2 * ((pa P) ^ 2)) * ((fR f) ^ 11)) * (fdZ2
  f)) * (ks_ddZ_D0D1 P f))) + (((((pa P) ^ 2) * ((fR f) ^ 10)) * ((fZ f) ^ 2)) * (ks_dddR_D0D1D2 P
  f))) + (((((10 * ((pa P) ^ 2)) * ((fR f) ^ 10)) * (fZ f)) * (ks_dR_D0 P f)) * (ks_ddZ_D1D2 P f))) +
  (((((10 * ((pa P) ^ 2)) * ((fR f) ^ 10)) * (fZ f)) * (ks_dR_D1 P f)) * (ks_ddZ_D0D2 P f))) +
  (((((10 * ((pa P) ^ 2)) * ((fR f) ^ 10)) * (fZ f)) * (ks_dR_D2 P f)) * (ks_ddZ_D0D1 P f))) +
  (((((10 * ((pa P) ^ 2)) * ((fR f) ^ 10)) * (fZ f)) * (fdZ0 f)) * (ks_ddR_D1D2 P f))) + (((((10 *
  ((pa P) ^ 2)) * ((fR f) ^ 10)) * (fZ f)) * (fdZ1 f)) * (ks_ddR_D0D2 P f))) + (((((10 * ((pa P) ^
  2)) * ((fR f) ^ 10)) * (fZ f)) * (fdZ2 f)) * (ks_ddR_D0D1 P f))) + (((((10 * ((pa P) ^ 2)) * ((fR
  f) ^ 10)) * (ks_dR_D0 P f)) * (fdZ1 f)) * (fdZ2 f))) + (((((10 * ((pa P) ^ 2)) * ((fR f) ^ 10)) *
  (ks_dR_D1 P f)) * (fdZ0 f)) * (fdZ2 f))) + (((((10 * ((pa P) ^ 2)) * ((fR f) ^ 10)) * (ks_dR_D2 P
  f)) * (fdZ0 f)) * (fdZ1 f))) - (((((22 * ((pa P) ^ 2)) * ((fR f) ^ 9)) * ((fZ f) ^ 2)) * (ks_dR_D0
  P f)) * (ks_ddR_D1D2 P f))) - (((((22 * ((pa P) ^ 2)) * ((fR f) ^ 9)) * ((fZ f) ^ 2)) * (ks_dR_D1 P
  f)) * (ks_ddR_D0D2 P f))) - (((((22 * ((pa P) ^ 2)) * ((fR f) ^ 9)) * ((fZ f) ^ 2)) * (ks_dR_D2 P
  f)) * (ks_ddR_D0D1 P f))) - ((((((60 * ((pa P) ^ 2)) * ((fR f) ^ 9)) * (fZ f)) * (ks_dR_D0 P f)) *
  (ks_dR_D1 P f)) * (fdZ2 f))) - ((((((60 * ((pa P) ^ 2)) * ((fR f) ^ 9)) * (fZ f)) * (ks_dR_D0 P f))
  * (ks_dR_D2 P f)) * (fdZ1 f))) - ((((((60 * ((pa P) ^ 2)) * ((fR f) ^ 9)) * (fZ f)) * (ks_dR_D1 P
  f)) * (ks_dR_D2 P f)) * (fdZ0 f))) + ((((((186 * ((pa P) ^ 2)) * ((fR f) ^ 8)) * ((fZ f) ^ 2)) *
  (ks_dR_D0 P f)) * (ks_dR_D1 P f)) * (ks_dR_D2 P f))) - (((fR f) ^ 14) * (ks_dddR_D0D1D2 P f))) +
  (((2 * ((fR f) ^ 13)) * (ks_dR_D0 P f)) * (ks_ddR_D1D2 P f))) + (((2 * ((fR f) ^ 13)) * (ks_dR_D1 P
  f)) * (ks_ddR_D0D2 P f))) + (((2 * ((fR f) ^ 13)) * (ks_dR_D2 P f)) * (ks_ddR_D0D1 P f))) - ((((6 *
  ((fR f) ^ 12)) * (ks_dR_D0 P f)) * (ks_dR_D1 P f)) * (ks_dR_D2 P f)))) / (((((((pa P) ^ 8) * ((fZ
  f) ^ 8)) + (((4 * ((pa P) ^ 6)) * ((fR f) ^ 4)) * ((fZ f) ^ 6))) + (((6 * ((pa P) ^ 4)) * ((fR f) ^
  8)) * ((fZ f) ^ 4))) + (((4 * ((pa P) ^ 2)) * ((fR f) ^ 12)) * ((fZ f) ^ 2))) + ((fR f) ^ 16)).

(* /repo/Src/Main/Modules/Physics/Free_Data/fd_KerrSchild_H_K0_K1_K2.c:5363-5420 *)
Definition ks_dddH_D0D0D0 (P : kspar) (f : ksarg) : R :=
  (((pL P) * (pM P)) * (((((((((((((pa P) ^ 2) * ((fZ f) ^ 2)) + ((fR f) ^ 4)) ^ 3) * ((fR f) ^ 2)) *
  (ks_dddR_D0D0D0 P f)) - ((((6 * (((((pa P) ^ 2) * ((fZ f) ^ 2)) + ((fR f) ^ 4)) ^ 2)) * (((((((pa
  P) ^ 2) * (fR f)) * (fZ f)) * (fdZ0 f)) - ((((pa P) ^ 2) * ((fZ f) ^ 2)) * (ks_dR_D0 P f))) + (((fR
  f) ^ 4) * (ks_dR_D0 P f)))) * (fR f)) * (ks_ddR_D0D0 P f))) - (((6 * (((((pa P) ^ 2) * ((fZ f) ^
  2)) + ((fR f) ^ 4)) ^ 2)) * (((((((- ((pa P) ^ 2)) * (((fZ f) * (ks_ddR_D0D0 P f)) + ((4 *
  (ks_dR_D0 P f)) * (fdZ0 f)))) * (fR f)) * (fZ f)) + ((((pa P) ^ 2) * (((fZ f) * (ks_ddZ_D0D0 P f))
  + ((fdZ0 f) ^ 2))) * ((fR f) ^ 2))) + (((3 * ((pa P) ^ 2)) * ((fZ f) ^ 2)) * ((ks_dR_D0 P f) ^ 2)))
  + ((((fR f) * (ks_ddR_D0D0 P f)) + ((ks_dR_D0 P f) ^ 2)) * ((fR f) ^ 4)))) * (ks_dR_D0 P f))) - ((2
  * (((((pa P) ^ 2) * ((fZ f) ^ 2)) + ((fR f) ^ 4)) ^ 2)) * (((((((((9 * ((pa P) ^ 2)) * (((fZ f) *
  (ks_ddR_D0D0 P f)) + ((2 * (ks_dR_D0 P f)) * (fdZ0 f)))) * (fR f)) * (fZ f)) * (ks_dR_D0 P f)) +
  ((((pa P) ^ 2) * (((fZ f) * (ks_dddZ_D0D0D0 P f)) + ((3 * (fdZ0 f)) * (ks_ddZ_D0D0 P f)))) * ((fR
  f) ^ 3))) - ((((pa P) ^ 2) * ((((((fZ f) ^ 2) * (ks_dddR_D0D0D0 P f)) + (((6 * (fZ f)) * (ks_dR_D0
  P f)) * (ks_ddZ_D0D0 P f))) + (((6 * (fZ f)) * (ks_ddR_D0D0 P f)) * (fdZ0 f))) + ((6 * (ks_dR_D0 P
  f)) * ((fdZ0 f) ^ 2)))) * ((fR f) ^ 2))) - (((12 * ((pa P) ^ 2)) * ((fZ f) ^ 2)) * ((ks_dR_D0 P f)
  ^ 3))) + ((((fR f) * (ks_dddR_D0D0D0 P f)) + ((3 * (ks_dR_D0 P f)) * (ks_ddR_D0D0 P f))) * ((fR f)
  ^ 5))))) + (((24 * ((((pa P) ^ 2) * ((fZ f) ^ 2)) + ((fR f) ^ 4))) * ((((((((pa P) ^ 2) * (fR f)) *
  (fZ f)) * (fdZ0 f)) - ((((pa P) ^ 2) * ((fZ f) ^ 2)) * (ks_dR_D0 P f))) + (((fR f) ^ 4) * (ks_dR_D0
  P f))) ^ 2)) * (ks_dR_D0 P f))) + (((24 * ((((pa P) ^ 2) * ((fZ f) ^ 2)) + ((fR f) ^ 4))) *
  (((((((pa P) ^ 2) * (fR f)) * (fZ f)) * (fdZ0 f)) - ((((pa P) ^ 2) * ((fZ f) ^ 2)) * (ks_dR_D0 P
  f))) + (((fR f) ^ 4) * (ks_dR_D0 P f)))) * (((((((- ((pa P) ^ 2)) * (((fZ f) * (ks_ddR_D0D0 P f)) +
  ((4 * (ks_dR_D0 P f)) * (fdZ0 f)))) * (fR f)) * (fZ f)) + ((((pa P) ^ 2) * (((fZ f) * (ks_ddZ_D0D0
  P f)) + ((fdZ0 f) ^ 2))) * ((fR f) ^ 2))) + (((3 * ((pa P) ^ 2)) * ((fZ f) ^ 2)) * ((ks_dR_D0 P f)
  ^ 2))) + ((((fR f) * (ks_ddR_D0D0 P f)) + ((ks_dR_D0 P f) ^ 2)) * ((fR f) ^ 4))))) - (48 *
  ((((((((pa P) ^ 2) * (fR f)) * (fZ f)) * (fdZ0 f)) - ((((pa P) ^ 2) * ((fZ f) ^ 2)) * (ks_dR_D0 P
  f))) + (((fR f) ^ 4) * (ks_dR_D0 P f))) ^ 3)))) / (((((pa P) ^ 2) * ((fZ f) ^ 2)) + ((fR f) ^ 4)) ^
  4).

(* /repo/Src/Main/Modules/Physics/Free_Data/fd_KerrSchild_H_K0_K1_K2.c:5421-5523 *)
Definition ks_dddH_D1D1D2 (P : kspar) (f : ksarg) : R :=
  (((pL P) * (pM P)) * (((((((((((((pa P) ^ 2) * ((fZ f) ^ 2)) + ((fR f) ^ 4)) ^ 3) * ((fR f) ^ 2)) *
  (ks_dddR_D1D1D2 P f)) - (((2 * (((((pa P) ^ 2) * ((fZ f) ^ 2)) + ((fR f) ^ 4)) ^ 2)) * (((2 *
  (((((((pa P) ^ 2) * (fR f)) * (fZ f)) * (fdZ1 f)) - ((((pa P) ^ 2) * ((fZ f) ^ 2)) * (ks_dR_D1 P
  f))) + (((fR f) ^ 4) * (ks_dR_D1 P f)))) * (ks_ddR_D1D2 P f)) + ((((((((pa P) ^ 2) * (fR f)) * (fZ
  f)) * (fdZ2 f)) - ((((pa P) ^ 2) * ((fZ f) ^ 2)) * (ks_dR_D2 P f))) + (((fR f) ^ 4) * (ks_dR_D2 P
  f))) * (ks_ddR_D1D1 P f)))) * (fR f))) - ((2 * (((((pa P) ^ 2) * ((fZ f) ^ 2)) + ((fR f) ^ 4)) ^
  2)) * (((2 * (((((((pa P) ^ 2) * (((fZ f) * (ks_ddZ_D1D2 P f)) + ((fdZ1 f) * (fdZ2 f)))) * ((fR f)
  ^ 2)) - (((((pa P) ^ 2) * ((((fZ f) * (ks_ddR_D1D2 P f)) + ((2 * (ks_dR_D1 P f)) * (fdZ2 f))) + ((2
  * (ks_dR_D2 P f)) * (fdZ1 f)))) * (fR f)) * (fZ f))) + ((((3 * ((pa P) ^ 2)) * ((fZ f) ^ 2)) *
  (ks_dR_D1 P f)) * (ks_dR_D2 P f))) + ((((fR f) * (ks_ddR_D1D2 P f)) + ((ks_dR_D1 P f) * (ks_dR_D2 P
  f))) * ((fR f) ^ 4)))) * (ks_dR_D1 P f)) + ((((((((- ((pa P) ^ 2)) * (((fZ f) * (ks_ddR_D1D1 P f))
  + ((4 * (ks_dR_D1 P f)) * (fdZ1 f)))) * (fR f)) * (fZ f)) + ((((pa P) ^ 2) * (((fZ f) *
  (ks_ddZ_D1D1 P f)) + ((fdZ1 f) ^ 2))) * ((fR f) ^ 2))) + (((3 * ((pa P) ^ 2)) * ((fZ f) ^ 2)) *
  ((ks_dR_D1 P f) ^ 2))) + ((((fR f) * (ks_ddR_D1D1 P f)) + ((ks_dR_D1 P f) ^ 2)) * ((fR f) ^ 4))) *
  (ks_dR_D2 P f))))) - ((2 * (((((pa P) ^ 2) * ((fZ f) ^ 2)) + ((fR f) ^ 4)) ^ 2)) * ((((((((pa P) ^
  2) * ((((fZ f) * (ks_dddZ_D1D1D2 P f)) + ((2 * (fdZ1 f)) * (ks_ddZ_D1D2 P f))) + ((ks_ddZ_D1D1 P f)
  * (fdZ2 f)))) * ((fR f) ^ 3)) + ((((3 * ((pa P) ^ 2)) * ((((((2 * (fZ f)) * (ks_dR_D1 P f)) *
  (ks_ddR_D1D2 P f)) + (((fZ f) * (ks_ddR_D1D1 P f)) * (ks_dR_D2 P f))) + ((2 * ((ks_dR_D1 P f) ^ 2))
  * (fdZ2 f))) + (((4 * (ks_dR_D1 P f)) * (ks_dR_D2 P f)) * (fdZ1 f)))) * (fR f)) * (fZ f))) - ((((pa
  P) ^ 2) * (((((((((fZ f) ^ 2) * (ks_dddR_D1D1D2 P f)) + (((4 * (fZ f)) * (ks_dR_D1 P f)) *
  (ks_ddZ_D1D2 P f))) + (((2 * (fZ f)) * (ks_ddR_D1D1 P f)) * (fdZ2 f))) + (((2 * (fZ f)) * (ks_dR_D2
  P f)) * (ks_ddZ_D1D1 P f))) + (((4 * (fZ f)) * (fdZ1 f)) * (ks_ddR_D1D2 P f))) + (((4 * (ks_dR_D1 P
  f)) * (fdZ1 f)) * (fdZ2 f))) + ((2 * (ks_dR_D2 P f)) * ((fdZ1 f) ^ 2)))) * ((fR f) ^ 2))) - ((((12
  * ((pa P) ^ 2)) * ((fZ f) ^ 2)) * ((ks_dR_D1 P f) ^ 2)) * (ks_dR_D2 P f))) + (((((fR f) *
  (ks_dddR_D1D1D2 P f)) + ((2 * (ks_dR_D1 P f)) * (ks_ddR_D1D2 P f))) + ((ks_ddR_D1D1 P f) *
  (ks_dR_D2 P f))) * ((fR f) ^ 5))))) + ((8 * ((((pa P) ^ 2) * ((fZ f) ^ 2)) + ((fR f) ^ 4))) * (((2
  * (((((((pa P) ^ 2) * (fR f)) * (fZ f)) * (fdZ1 f)) - ((((pa P) ^ 2) * ((fZ f) ^ 2)) * (ks_dR_D1 P
  f))) + (((fR f) ^ 4) * (ks_dR_D1 P f)))) * (((((((pa P) ^ 2) * (((fZ f) * (ks_ddZ_D1D2 P f)) +
  ((fdZ1 f) * (fdZ2 f)))) * ((fR f) ^ 2)) - (((((pa P) ^ 2) * ((((fZ f) * (ks_ddR_D1D2 P f)) + ((2 *
  (ks_dR_D1 P f)) * (fdZ2 f))) + ((2 * (ks_dR_D2 P f)) * (fdZ1 f)))) * (fR f)) * (fZ f))) + ((((3 *
  ((pa P) ^ 2)) * ((fZ f) ^ 2)) * (ks_dR_D1 P f)) * (ks_dR_D2 P f))) + ((((fR f) * (ks_ddR_D1D2 P f))
  + ((ks_dR_D1 P f) * (ks_dR_D2 P f))) * ((fR f) ^ 4)))) + ((((((((pa P) ^ 2) * (fR f)) * (fZ f)) *
  (fdZ2 f)) - ((((pa P) ^ 2) * ((fZ f) ^ 2)) * (ks_dR_D2 P f))) + (((fR f) ^ 4) * (ks_dR_D2 P f))) *
  (((((((- ((pa P) ^ 2)) * (((fZ f) * (ks_ddR_D1D1 P f)) + ((4 * (ks_dR_D1 P f)) * (fdZ1 f)))) * (fR
  f)) * (fZ f)) + ((((pa P) ^ 2) * (((fZ f) * (ks_ddZ_D1D1 P f)) + ((fdZ1 f) ^ 2))) * ((fR f) ^ 2)))
  + (((3 * ((pa P) ^ 2)) * ((fZ f) ^ 2)) * ((ks_dR_D1 P f) ^ 2))) + ((((fR f) * (ks_ddR_D1D1 P f)) +
  ((ks_dR_D1 P f) ^ 2)) * ((fR f) ^ 4))))))) + (((8 * ((((pa P) ^ 2) * ((fZ f) ^ 2)) + ((fR f) ^ 4)))
  * (((((((((pa P) ^ 2) * (fR f)) * (fZ f)) * (fdZ1 f)) - ((((pa P) ^ 2) * ((fZ f) ^ 2)) * (ks_dR_D1
  P f))) + (((fR f) ^ 4) * (ks_dR_D1 P f))) * (ks_dR_D2 P f)) + ((2 * (((((((pa P) ^ 2) * (fR f)) *
  (fZ f)) * (fdZ2 f)) - ((((pa P) ^ 2) * ((fZ f) ^ 2)) * (ks_dR_D2 P f))) + (((fR f) ^ 4) * (ks_dR_D2
  P f)))) * (ks_dR_D1 P f)))) * (((((((pa P) ^ 2) * (fR f)) * (fZ f)) * (fdZ1 f)) - ((((pa P) ^ 2) *
  ((fZ f) ^ 2)) * (ks_dR_D1 P f))) + (((fR f) ^ 4) * (ks_dR_D1 P f))))) - ((48 * ((((((((pa P) ^ 2) *
  (fR f)) * (fZ f)) * (fdZ1 f)) - ((((pa P) ^ 2) * ((fZ f) ^ 2)) * (ks_dR_D1 P f))) + (((fR f) ^ 4) *
  (ks_dR_D1 P f))) ^ 2)) * (((((((pa P) ^ 2) * (fR f)) * (fZ f)) * (fdZ2 f)) - ((((pa P) ^ 2) * ((fZ
  f) ^ 2)) * (ks_dR_D2 P f))) + (((fR f) ^ 4) * (ks_dR_D2 P f)))))) / (((((pa P) ^ 2) * ((fZ f) ^ 2))
  + ((fR f) ^ 4)) ^ 4).

(* /repo/Src/Main/Modules/Physics/Free_Data/fd_KerrSchild_H_K0_K1_K2.c:5524-5625 *)
Definition ks_dddH_D2D2D1 (P : kspar) (f : ksarg) : R :=
  (((pL P) * (pM P)) * (((((((((((((pa P) ^ 2) * ((fZ f) ^ 2)) + ((fR f) ^ 4)) ^ 3) * ((fR f) ^ 2)) *
  (ks_dddR_D1D2D2 P f)) - (((2 * (((((pa P) ^ 2) * ((fZ f) ^ 2)) + ((fR f) ^ 4)) ^ 2)) * (((((((((pa
  P) ^ 2) * (fR f)) * (fZ f)) * (fdZ1 f)) - ((((pa P) ^ 2) * ((fZ f) ^ 2)) * (ks_dR_D1 P f))) + (((fR
  f) ^ 4) * (ks_dR_D1 P f))) * (ks_ddR_D2D2 P f)) + ((2 * (((((((pa P) ^ 2) * (fR f)) * (fZ f)) *
  (fdZ2 f)) - ((((pa P) ^ 2) * ((fZ f) ^ 2)) * (ks_dR_D2 P f))) + (((fR f) ^ 4) * (ks_dR_D2 P f)))) *
  (ks_ddR_D1D2 P f)))) * (fR f))) - ((2 * (((((pa P) ^ 2) * ((fZ f) ^ 2)) + ((fR f) ^ 4)) ^ 2)) *
  (((2 * (((((((pa P) ^ 2) * (((fZ f) * (ks_ddZ_D1D2 P f)) + ((fdZ1 f) * (fdZ2 f)))) * ((fR f) ^ 2))
  - (((((pa P) ^ 2) * ((((fZ f) * (ks_ddR_D1D2 P f)) + ((2 * (ks_dR_D1 P f)) * (fdZ2 f))) + ((2 *
  (ks_dR_D2 P f)) * (fdZ1 f)))) * (fR f)) * (fZ f))) + ((((3 * ((pa P) ^ 2)) * ((fZ f) ^ 2)) *
  (ks_dR_D1 P f)) * (ks_dR_D2 P f))) + ((((fR f) * (ks_ddR_D1D2 P f)) + ((ks_dR_D1 P f) * (ks_dR_D2 P
  f))) * ((fR f) ^ 4)))) * (ks_dR_D2 P f)) + ((((((((- ((pa P) ^ 2)) * (((fZ f) * (ks_ddR_D2D2 P f))
  + ((4 * (ks_dR_D2 P f)) * (fdZ2 f)))) * (fR f)) * (fZ f)) + ((((pa P) ^ 2) * (((fZ f) *
  (ks_ddZ_D2D2 P f)) + ((fdZ2 f) ^ 2))) * ((fR f) ^ 2))) + (((3 * ((pa P) ^ 2)) * ((fZ f) ^ 2)) *
  ((ks_dR_D2 P f) ^ 2))) + ((((fR f) * (ks_ddR_D2D2 P f)) + ((ks_dR_D2 P f) ^ 2)) * ((fR f) ^ 4))) *
  (ks_dR_D1 P f))))) - ((2 * (((((pa P) ^ 2) * ((fZ f) ^ 2)) + ((fR f) ^ 4)) ^ 2)) * ((((((((pa P) ^
  2) * ((((fZ f) * (ks_dddZ_D1D2D2 P f)) + ((fdZ1 f) * (ks_ddZ_D2D2 P f))) + ((2 * (fdZ2 f)) *
  (ks_ddZ_D1D2 P f)))) * ((fR f) ^ 3)) + ((((3 * ((pa P) ^ 2)) * ((((((fZ f) * (ks_dR_D1 P f)) *
  (ks_ddR_D2D2 P f)) + (((2 * (fZ f)) * (ks_dR_D2 P f)) * (ks_ddR_D1D2 P f))) + (((4 * (ks_dR_D1 P
  f)) * (ks_dR_D2 P f)) * (fdZ2 f))) + ((2 * ((ks_dR_D2 P f) ^ 2)) * (fdZ1 f)))) * (fR f)) * (fZ f)))
  - ((((pa P) ^ 2) * (((((((((fZ f) ^ 2) * (ks_dddR_D1D2D2 P f)) + (((2 * (fZ f)) * (ks_dR_D1 P f)) *
  (ks_ddZ_D2D2 P f))) + (((4 * (fZ f)) * (ks_dR_D2 P f)) * (ks_ddZ_D1D2 P f))) + (((2 * (fZ f)) *
  (ks_ddR_D2D2 P f)) * (fdZ1 f))) + (((4 * (fZ f)) * (fdZ2 f)) * (ks_ddR_D1D2 P f))) + ((2 *
  (ks_dR_D1 P f)) * ((fdZ2 f) ^ 2))) + (((4 * (ks_dR_D2 P f)) * (fdZ1 f)) * (fdZ2 f)))) * ((fR f) ^
  2))) - ((((12 * ((pa P) ^ 2)) * ((fZ f) ^ 2)) * (ks_dR_D1 P f)) * ((ks_dR_D2 P f) ^ 2))) + (((((fR
  f) * (ks_dddR_D1D2D2 P f)) + ((ks_dR_D1 P f) * (ks_ddR_D2D2 P f))) + ((2 * (ks_dR_D2 P f)) *
  (ks_ddR_D1D2 P f))) * ((fR f) ^ 5))))) + ((8 * ((((pa P) ^ 2) * ((fZ f) ^ 2)) + ((fR f) ^ 4))) *
  (((((((((pa P) ^ 2) * (fR f)) * (fZ f)) * (fdZ1 f)) - ((((pa P) ^ 2) * ((fZ f) ^ 2)) * (ks_dR_D1 P
  f))) + (((fR f) ^ 4) * (ks_dR_D1 P f))) * (((((((- ((pa P) ^ 2)) * (((fZ f) * (ks_ddR_D2D2 P f)) +
  ((4 * (ks_dR_D2 P f)) * (fdZ2 f)))) * (fR f)) * (fZ f)) + ((((pa P) ^ 2) * (((fZ f) * (ks_ddZ_D2D2
  P f)) + ((fdZ2 f) ^ 2))) * ((fR f) ^ 2))) + (((3 * ((pa P) ^ 2)) * ((fZ f) ^ 2)) * ((ks_dR_D2 P f)
  ^ 2))) + ((((fR f) * (ks_ddR_D2D2 P f)) + ((ks_dR_D2 P f) ^ 2)) * ((fR f) ^ 4)))) + ((2 * (((((((pa
  P) ^ 2) * (fR f)) * (fZ f)) * (fdZ2 f)) - ((((pa P) ^ 2) * ((fZ f) ^ 2)) * (ks_dR_D2 P f))) + (((fR
  f) ^ 4) * (ks_dR_D2 P f)))) * (((((((pa P) ^ 2) * (((fZ f) * (ks_ddZ_D1D2 P f)) + ((fdZ1 f) * (fdZ2
  f)))) * ((fR f) ^ 2)) - (((((pa P) ^ 2) * ((((fZ f) * (ks_ddR_D1D2 P f)) + ((2 * (ks_dR_D1 P f)) *
  (fdZ2 f))) + ((2 * (ks_dR_D2 P f)) * (fdZ1 f)))) * (fR f)) * (fZ f))) + ((((3 * ((pa P) ^ 2)) *
  ((fZ f) ^ 2)) * (ks_dR_D1 P f)) * (ks_dR_D2 P f))) + ((((fR f) * (ks_ddR_D1D2 P f)) + ((ks_dR_D1 P
  f) * (ks_dR_D2 P f))) * ((fR f) ^ 4))))))) + (((8 * ((((pa P) ^ 2) * ((fZ f) ^ 2)) + ((fR f) ^ 4)))
  * (((2 * (((((((pa P) ^ 2) * (fR f)) * (fZ f)) * (fdZ1 f)) - ((((pa P) ^ 2) * ((fZ f) ^ 2)) *
  (ks_dR_D1 P f))) + (((fR f) ^ 4) * (ks_dR_D1 P f)))) * (ks_dR_D2 P f)) + ((((((((pa P) ^ 2) * (fR
  f)) * (fZ f)) * (fdZ2 f)) - ((((pa P) ^ 2) * ((fZ f) ^ 2)) * (ks_dR_D2 P f))) + (((fR f) ^ 4) *
  (ks_dR_D2 P f))) * (ks_dR_D1 P f)))) * (((((((pa P) ^ 2) * (fR f)) * (fZ f)) * (fdZ2 f)) - ((((pa
  P) ^ 2) * ((fZ f) ^ 2)) * (ks_dR_D2 P f))) + (((fR f) ^ 4) * (ks_dR_D2 P f))))) - ((48 * (((((((pa
  P) ^ 2) * (fR f)) * (fZ f)) * (fdZ1 f)) - ((((pa P) ^ 2) * ((fZ f) ^ 2)) * (ks_dR_D1 P f))) + (((fR
  f) ^ 4) * (ks_dR_D1 P f)))) * ((((((((pa P) ^ 2) * (fR f)) * (fZ f)) * (fdZ2 f)) - ((((pa P) ^ 2) *
  ((fZ f) ^ 2)) * (ks_dR_D2 P f))) + (((fR f) ^ 4) * (ks_dR_D2 P f))) ^ 2)))) / (((((pa P) ^ 2) *
  ((fZ f) ^ 2)) + ((fR f) ^ 4)) ^ 4).

(* /repo/Src/Main/Modules/Physics/Free_Data/fd_KerrSchild_H_K0_K1_K2.c:5626-5728 *)
Definition ks_dddH_D0D1D0 (P : kspar) (f : ksarg) : R :=
  (((pL P) * (pM P)) * (((((((((((((pa P) ^ 2) * ((fZ f) ^ 2)) + ((fR f) ^ 4)) ^ 3) * ((fR f) ^ 2)) *
  (ks_dddR_D0D0D1 P f)) - (((2 * (((((pa P) ^ 2) * ((fZ f) ^ 2)) + ((fR f) ^ 4)) ^ 2)) * (((2 *
  (((((((pa P) ^ 2) * (fR f)) * (fZ f)) * (fdZ0 f)) - ((((pa P) ^ 2) * ((fZ f) ^ 2)) * (ks_dR_D0 P
  f))) + (((fR f) ^ 4) * (ks_dR_D0 P f)))) * (ks_ddR_D0D1 P f)) + ((((((((pa P) ^ 2) * (fR f)) * (fZ
  f)) * (fdZ1 f)) - ((((pa P) ^ 2) * ((fZ f) ^ 2)) * (ks_dR_D1 P f))) + (((fR f) ^ 4) * (ks_dR_D1 P
  f))) * (ks_ddR_D0D0 P f)))) * (fR f))) - ((2 * (((((pa P) ^ 2) * ((fZ f) ^ 2)) + ((fR f) ^ 4)) ^
  2)) * (((2 * (((((((pa P) ^ 2) * (((fZ f) * (ks_ddZ_D0D1 P f)) + ((fdZ0 f) * (fdZ1 f)))) * ((fR f)
  ^ 2)) - (((((pa P) ^ 2) * ((((fZ f) * (ks_ddR_D0D1 P f)) + ((2 * (ks_dR_D0 P f)) * (fdZ1 f))) + ((2
  * (ks_dR_D1 P f)) * (fdZ0 f)))) * (fR f)) * (fZ f))) + ((((3 * ((pa P) ^ 2)) * ((fZ f) ^ 2)) *
  (ks_dR_D0 P f)) * (ks_dR_D1 P f))) + ((((fR f) * (ks_ddR_D0D1 P f)) + ((ks_dR_D0 P f) * (ks_dR_D1 P
  f))) * ((fR f) ^ 4)))) * (ks_dR_D0 P f)) + ((((((((- ((pa P) ^ 2)) * (((fZ f) * (ks_ddR_D0D0 P f))
  + ((4 * (ks_dR_D0 P f)) * (fdZ0 f)))) * (fR f)) * (fZ f)) + ((((pa P) ^ 2) * (((fZ f) *
  (ks_ddZ_D0D0 P f)) + ((fdZ0 f) ^ 2))) * ((fR f) ^ 2))) + (((3 * ((pa P) ^ 2)) * ((fZ f) ^ 2)) *
  ((ks_dR_D0 P f) ^ 2))) + ((((fR f) * (ks_ddR_D0D0 P f)) + ((ks_dR_D0 P f) ^ 2)) * ((fR f) ^ 4))) *
  (ks_dR_D1 P f))))) - ((2 * (((((pa P) ^ 2) * ((fZ f) ^ 2)) + ((fR f) ^ 4)) ^ 2)) * ((((((((pa P) ^
  2) * ((((fZ f) * (ks_dddZ_D0D0D1 P f)) + ((2 * (fdZ0 f)) * (ks_ddZ_D0D1 P f))) + ((ks_ddZ_D0D0 P f)
  * (fdZ1 f)))) * ((fR f) ^ 3)) + ((((3 * ((pa P) ^ 2)) * ((((((2 * (fZ f)) * (ks_dR_D0 P f)) *
  (ks_ddR_D0D1 P f)) + (((fZ f) * (ks_ddR_D0D0 P f)) * (ks_dR_D1 P f))) + ((2 * ((ks_dR_D0 P f) ^ 2))
  * (fdZ1 f))) + (((4 * (ks_dR_D0 P f)) * (ks_dR_D1 P f)) * (fdZ0 f)))) * (fR f)) * (fZ f))) - ((((pa
  P) ^ 2) * (((((((((fZ f) ^ 2) * (ks_dddR_D0D0D1 P f)) + (((4 * (fZ f)) * (ks_dR_D0 P f)) *
  (ks_ddZ_D0D1 P f))) + (((2 * (fZ f)) * (ks_ddR_D0D0 P f)) * (fdZ1 f))) + (((2 * (fZ f)) * (ks_dR_D1
  P f)) * (ks_ddZ_D0D0 P f))) + (((4 * (fZ f)) * (fdZ0 f)) * (ks_ddR_D0D1 P f))) + (((4 * (ks_dR_D0 P
  f)) * (fdZ0 f)) * (fdZ1 f))) + ((2 * (ks_dR_D1 P f)) * ((fdZ0 f) ^ 2)))) * ((fR f) ^ 2))) - ((((12
  * ((pa P) ^ 2)) * ((fZ f) ^ 2)) * ((ks_dR_D0 P f) ^ 2)) * (ks_dR_D1 P f))) + (((((fR f) *
  (ks_dddR_D0D0D1 P f)) + ((2 * (ks_dR_D0 P f)) * (ks_ddR_D0D1 P f))) + ((ks_ddR_D0D0 P f) *
  (ks_dR_D1 P f))) * ((fR f) ^ 5))))) + ((8 * ((((pa P) ^ 2) * ((fZ f) ^ 2)) + ((fR f) ^ 4))) * (((2
  * (((((((pa P) ^ 2) * (fR f)) * (fZ f)) * (fdZ0 f)) - ((((pa P) ^ 2) * ((fZ f) ^ 2)) * (ks_dR_D0 P
  f))) + (((fR f) ^ 4) * (ks_dR_D0 P f)))) * (((((((pa P) ^ 2) * (((fZ f) * (ks_ddZ_D0D1 P f)) +
  ((fdZ0 f) * (fdZ1 f)))) * ((fR f) ^ 2)) - (((((pa P) ^ 2) * ((((fZ f) * (ks_ddR_D0D1 P f)) + ((2 *
  (ks_dR_D0 P f)) * (fdZ1 f))) + ((2 * (ks_dR_D1 P f)) * (fdZ0 f)))) * (fR f)) * (fZ f))) + ((((3 *
  ((pa P) ^ 2)) * ((fZ f) ^ 2)) * (ks_dR_D0 P f)) * (ks_dR_D1 P f))) + ((((fR f) * (ks_ddR_D0D1 P f))
  + ((ks_dR_D0 P f) * (ks_dR_D1 P f))) * ((fR f) ^ 4)))) + ((((((((pa P) ^ 2) * (fR f)) * (fZ f)) *
  (fdZ1 f)) - ((((pa P) ^ 2) * ((fZ f) ^ 2)) * (ks_dR_D1 P f))) + (((fR f) ^ 4) * (ks_dR_D1 P f))) *
  (((((((- ((pa P) ^ 2)) * (((fZ f) * (ks_ddR_D0D0 P f)) + ((4 * (ks_dR_D0 P f)) * (fdZ0 f)))) * (fR
  f)) * (fZ f)) + ((((pa P) ^ 2) * (((fZ f) * (ks_ddZ_D0D0 P f)) + ((fdZ0 f) ^ 2))) * ((fR f) ^ 2)))
  + (((3 * ((pa P) ^ 2)) * ((fZ f) ^ 2)) * ((ks_dR_D0 P f) ^ 2))) + ((((fR f) * (ks_ddR_D0D0 P f)) +
  ((ks_dR_D0 P f) ^ 2)) * ((fR f) ^ 4))))))) + (((8 * ((((pa P) ^ 2) * ((fZ f) ^ 2)) + ((fR f) ^ 4)))
  * (((((((((pa P) ^ 2) * (fR f)) * (fZ f)) * (fdZ0 f)) - ((((pa P) ^ 2) * ((fZ f) ^ 2)) * (ks_dR_D0
  P f))) + (((fR f) ^ 4) * (ks_dR_D0 P f))) * (ks_dR_D1 P f)) + ((2 * (((((((pa P) ^ 2) * (fR f)) *
  (fZ f)) * (fdZ1 f)) - ((((pa P) ^ 2) * ((fZ f) ^ 2)) * (ks_dR_D1 P f))) + (((fR f) ^ 4) * (ks_dR_D1
  P f)))) * (ks_dR_D0 P f)))) * (((((((pa P) ^ 2) * (fR f)) * (fZ f)) * (fdZ0 f)) - ((((pa P) ^ 2) *
  ((fZ f) ^ 2)) * (ks_dR_D0 P f))) + (((fR f) ^ 4) * (ks_dR_D0 P f))))) - ((48 * ((((((((pa P) ^ 2) *
  (fR f)) * (fZ f)) * (fdZ0 f)) - ((((pa P) ^ 2) * ((fZ f) ^ 2)) * (ks_dR_D0 P f))) + (((fR f) ^ 4) *
  (ks_dR_D0 P f))) ^ 2)) * (((((((pa P) ^ 2) * (fR f)) * (fZ f)) * (fdZ1 f)) - ((((pa P) ^ 2) * ((fZ
  f) ^ 2)) * (ks_dR_D1 P f))) + (((fR f) ^ 4) * (ks_dR_D1 P f)))))) / (((((pa P) ^ 2) * ((fZ f) ^ 2))
  + ((fR f) ^ 4)) ^ 4).

(* the functions dH_D.. by their indices *)
Definition kst_dH (P : kspar) (f : ksarg) (i : nat) : R :=
  match i with
  | 0%nat => ks_dH_D0 P f
  | 1%nat => ks_dH_D1 P f
  | 2%nat => ks_dH_D2 P f
  | _ => 0
  end.
(* the functions ddH_D.. by their indices *)
Definition kst_ddH (P : kspar) (f : ksarg) (i j : nat) : R :=
  match i, j with
  | 0%nat, 0%nat => ks_ddH_D0D0 P f
  | 0%nat, 1%nat => ks_ddH_D0D1 P f
  | 0%nat, 2%nat => ks_ddH_D0D2 P f
  | 1%nat, 1%nat => ks_ddH_D1D1 P f
  | 1%nat, 2%nat => ks_ddH_D1D2 P f
  | 2%nat, 2%nat => ks_ddH_D2D2 P f
  | _, _ => 0
  end.
(* the functions dddH_D.. by their indices *)
Definition kst_dddH (P : kspar) (f : ksarg) (i j k : nat) : R :=
  match i, j, k with
  | 0%nat, 0%nat, 0%nat => ks_dddH_D0D0D0 P f
  | 0%nat, 0%nat, 1%nat => ks_dddH_D0D0D1 P f
  | 0%nat, 0%nat, 2%nat => ks_dddH_D0D0D2 P f
  | 0%nat, 1%nat, 0%nat => ks_dddH_D0D1D0 P f
  | 0%nat, 1%nat, 1%nat => ks_dddH_D0D1D1 P f
  | 0%nat, 1%nat, 2%nat => ks_dddH_D0D1D2 P f
  | 0%nat, 2%nat, 0%nat => ks_dddH_D0D2D0 P f
  | 0%nat, 2%nat, 1%nat => ks_dddH_D0D2D1 P f
  | 0%nat, 2%nat, 2%nat => ks_dddH_D0D2D2 P f
  | 1%nat, 1%nat, 0%nat => ks_dddH_D1D1D0 P f
  | 1%nat, 1%nat, 1%nat => ks_dddH_D1D1D1 P f
  | 1%nat, 1%nat, 2%nat => ks_dddH_D1D1D2 P f
  | 1%nat, 2%nat, 0%nat => ks_dddH_D1D2D0 P f
  | 1%nat, 2%nat, 1%nat => ks_dddH_D1D2D1 P f
  | 1%nat, 2%nat, 2%nat => ks_dddH_D1D2D2 P f
  | 2%nat, 2%nat, 0%nat => ks_dddH_D2D2D0 P f
  | 2%nat, 2%nat, 1%nat => ks_dddH_D2D2D1 P f
  | 2%nat, 2%nat, 2%nat => ks_dddH_D2D2D2 P f
  | _, _, _ => 0
  end.

(* the functions dK0_D.. by their indices *)
Definition kst_dK0 (P : kspar) (f : ksarg) (i : nat) : R :=
  match i with
  | 0%nat => ks_dK0_D0 P f
  | 1%nat => ks_dK0_D1 P f
  | 2%nat => ks_dK0_D2 P f
  | _ => 0
  end.
(* the functions ddK0_D.. by their indices *)
Definition kst_ddK0 (P : kspar) (f : ksarg) (i j : nat) : R :=
  match i, j with
  | 0%nat, 0%nat => ks_ddK0_D0D0 P f
  | 0%nat, 1%nat => ks_ddK0_D0D1 P f
  | 0%nat, 2%nat => ks_ddK0_D0D2 P f
  | 1%nat, 1%nat => ks_ddK0_D1D1 P f
  | 1%nat, 2%nat => ks_ddK0_D1D2 P f
  | 2%nat, 2%nat => ks_ddK0_D2D2 P f
  | _, _ => 0
  end.
(* the functions dddK0_D.. by their indices *)
Definition kst_dddK0 (P : kspar) (f : ksarg) (i j k : nat) : R :=
  match i, j, k with
  | 0%nat, 0%nat, 0%nat => ks_dddK0_D0D0D0 P f
  | 0%nat, 0%nat, 1%nat => ks_dddK0_D0D0D1 P f
  | 0%nat, 0%nat, 2%nat => ks_dddK0_D0D0D2 P f
  | 0%nat, 1%nat, 0%nat => ks_dddK0_D0D1D0 P f
  | 0%nat, 1%nat, 1%nat => ks_dddK0_D0D1D1 P f
  | 0%nat, 1%nat, 2%nat => ks_dddK0_D0D1D2 P f
  | 0%nat, 2%nat, 0%nat => ks_dddK0_D0D2D0 P f
  | 0%nat, 2%nat, 1%nat => ks_dddK0_D0D2D1 P f
  | 0%nat, 2%nat, 2%nat => ks_dddK0_D0D2D2 P f
  | 1%nat, 1%nat, 0%nat => ks_dddK0_D1D1D0 P f
  | 1%nat, 1%nat, 1%nat => ks_dddK0_D1D1D1 P f
  | 1%nat, 1%nat, 2%nat => ks_dddK0_D1D1D2 P f
  | 1%nat, 2%nat, 0%nat => ks_dddK0_D1D2D0 P f
  | 1%nat, 2%nat, 1%nat => ks_dddK0_D1D2D1 P f
  | 1%nat, 2%nat, 2%nat => ks_dddK0_D1D2D2 P f
  | 2%nat, 2%nat, 0%nat => ks_dddK0_D2D2D0 P f
  | 2%nat, 2%nat, 1%nat => ks_dddK0_D2D2D1 P f
  | 2%nat, 2%nat, 2%nat => ks_dddK0_D2D2D2 P f
  | _, _, _ => 0
  end.

(* the functions dK1_D.. by their indices *)
Definition kst_dK1 (P : kspar) (f : ksarg) (i : nat) : R :=
  match i with
  | 0%nat => ks_dK1_D0 P f
  | 1%nat => ks_dK1_D1 P f
  | 2%nat => ks_dK1_D2 P f
  | _ => 0
  end.
(* the functions ddK1_D.. by their indices *)
Definition kst_ddK1 (P : kspar) (f : ksarg) (i j : nat) : R :=
  match i, j with
  | 0%nat, 0%nat => ks_ddK1_D0D0 P f
  | 0%nat, 1%nat => ks_ddK1_D0D1 P f
  | 0%nat, 2%nat => ks_ddK1_D0D2 P f
  | 1%nat, 1%nat => ks_ddK1_D1D1 P f
  | 1%nat, 2%nat => ks_ddK1_D1D2 P f
  | 2%nat, 2%nat => ks_ddK1_D2D2 P f
  | _, _ => 0
  end.
(* the functions dddK1_D.. by their indices *)
Definition kst_dddK1 (P : kspar) (f : ksarg) (i j k : nat) : R :=
  match i, j, k with
  | 0%nat, 0%nat, 0%nat => ks_dddK1_D0D0D0 P f
  | 0%nat, 0%nat, 1%nat => ks_dddK1_D0D0D1 P f
  | 0%nat, 0%nat, 2%nat => ks_dddK1_D0D0D2 P f
  | 0%nat, 1%nat, 0%nat => ks_dddK1_D0D1D0 P f
  | 0%nat, 1%nat, 1%nat => ks_dddK1_D0D1D1 P f
  | 0%nat, 1%nat, 2%nat => ks_dddK1_D0D1D2 P f
  | 0%nat, 2%nat, 0%nat => ks_dddK1_D0D2D0 P f
  | 0%nat, 2%nat, 1%nat => ks_dddK1_D0D2D1 P f
  | 0%nat, 2%nat, 2%nat => ks_dddK1_D0D2D2 P f
  | 1%nat, 1%nat, 0%nat => ks_dddK1_D1D1D0 P f
  | 1%nat, 1%nat, 1%nat => ks_dddK1_D1D1D1 P f
  | 1%nat, 1%nat, 2%nat => ks_dddK1_D1D1D2 P f
  | 1%nat, 2%nat, 0%nat => ks_dddK1_D1D2D0 P f
  | 1%nat, 2%nat, 1%nat => ks_dddK1_D1D2D1 P f
  | 1%nat, 2%nat, 2%nat => ks_dddK1_D1D2D2 P f
  | 2%nat, 2%nat, 0%nat => ks_dddK1_D2D2D0 P f
  | 2%nat, 2%nat, 1%nat => ks_dddK1_D2D2D1 P f
  | 2%nat, 2%nat, 2%nat => ks_dddK1_D2D2D2 P f
  | _, _, _ => 0
  end.

(* the functions dK2_D.. by their indices *)
Definition kst_dK2 (P : kspar) (f : ksarg) (i : nat) : R :=
  match i with
  | 0%nat => ks_dK2_D0 P f
  | 1%nat => ks_dK2_D1 P f
  | 2%nat => ks_dK2_D2 P f
  | _ => 0
  end.
(* the functions ddK2_D.. by their indices *)
Definition kst_ddK2 (P : kspar) (f : ksarg) (i j : nat) : R :=
  match i, j with
  | 0%nat, 0%nat => ks_ddK2_D0D0 P f
  | 0%nat, 1%nat => ks_ddK2_D0D1 P f
  | 0%nat, 2%nat => ks_ddK2_D0D2 P f
  | 1%nat, 1%nat => ks_ddK2_D1D1 P f
  | 1%nat, 2%nat => ks_ddK2_D1D2 P f
  | 2%nat, 2%nat => ks_ddK2_D2D2 P f
  | _, _ => 0
  end.
(* the functions dddK2_D.. by their indices *)
Definition kst_dddK2 (P : kspar) (f : ksarg) (i j k : nat) : R :=
  match i, j, k with
  | 0%nat, 0%nat, 0%nat => ks_dddK2_D0D0D0 P f
  | 0%nat, 0%nat, 1%nat => ks_dddK2_D0D0D1 P f
  | 0%nat, 0%nat, 2%nat => ks_dddK2_D0D0D2 P f
  | 0%nat, 1%nat, 0%nat => ks_dddK2_D0D1D0 P f
  | 0%nat, 1%nat, 1%nat => ks_dddK2_D0D1D1 P f
  | 0%nat, 1%nat, 2%nat => ks_dddK2_D0D1D2 P f
  | 0%nat, 2%nat, 0%nat => ks_dddK2_D0D2D0 P f
  | 0%nat, 2%nat, 1%nat => ks_dddK2_D0D2D1 P f
  | 0%nat, 2%nat, 2%nat => ks_dddK2_D0D2D2 P f
  | 1%nat, 1%nat, 0%nat => ks_dddK2_D1D1D0 P f
  | 1%nat, 1%nat, 1%nat => ks_dddK2_D1D1D1 P f
  | 1%nat, 1%nat, 2%nat => ks_dddK2_D1D1D2 P f
  | 1%nat, 2%nat, 0%nat => ks_dddK2_D1D2D0 P f
  | 1%nat, 2%nat, 1%nat => ks_dddK2_D1D2D1 P f
  | 1%nat, 2%nat, 2%nat => ks_dddK2_D1D2D2 P f
  | 2%nat, 2%nat, 0%nat => ks_dddK2_D2D2D0 P f
  | 2%nat, 2%nat, 1%nat => ks_dddK2_D2D2D1 P f
  | 2%nat, 2%nat, 2%nat => ks_dddK2_D2D2D2 P f
  | _, _, _ => 0
  end.
