(* Generated by tools/ks2coq.py from fd_KerrSchild_c_k0_k1_k2_kt.c: do not edit. *)
From Coq Require Import Reals.
Require Import Verif.GenKsX.
Require Import Verif.GenKsR.
Require Import Verif.GenKsH.
Local Open Scope R_scope.

(* /repo/Src/Main/Modules/Physics/Free_Data/fd_KerrSchild_c_k0_k1_k2_kt.c:142-158 *)
Definition ks_k0 (P : kspar) (f : ksarg) : R :=
  ((/ (sqrt (1 - (pB2 P)))) * (((((- (pB2 P)) * (pBx P)) - ((((((pBx P) * (pBy P)) * ((sqrt (1 - (pB2
  P))) - 1)) * (cos (pphiz P))) + ((((pB2 P) * (sqrt (1 - (pB2 P)))) + (((pBx P) ^ 2) * (1 - (sqrt (1
  - (pB2 P)))))) * (sin (pphiz P)))) * (ks_K1 P f))) + ((((((pBx P) * (pBz P)) * ((sqrt (1 - (pB2
  P))) - 1)) * (sin (pphiy P))) + ((((((- (pBx P)) * (pBy P)) * ((sqrt (1 - (pB2 P))) - 1)) * (sin
  (pphiz P))) + ((((pB2 P) * (sqrt (1 - (pB2 P)))) + (((pBx P) ^ 2) * (1 - (sqrt (1 - (pB2 P)))))) *
  (cos (pphiz P)))) * (cos (pphiy P)))) * (ks_K0 P f))) - ((((((pBx P) * (pBz P)) * ((sqrt (1 - (pB2
  P))) - 1)) * (cos (pphiy P))) + ((((((pBx P) * (pBy P)) * ((sqrt (1 - (pB2 P))) - 1)) * (sin (pphiz
  P))) + ((((- (pB2 P)) * (sqrt (1 - (pB2 P)))) + (((pBx P) ^ 2) * ((sqrt (1 - (pB2 P))) - 1))) *
  (cos (pphiz P)))) * (sin (pphiy P)))) * (ks_K2 P f)))) / (pB2 P).

(* /repo/Src/Main/Modules/Physics/Free_Data/fd_KerrSchild_c_k0_k1_k2_kt.c:630-646 *)
Definition ks_k1 (P : kspar) (f : ksarg) : R :=
  ((/ (sqrt (1 - (pB2 P)))) * (((((- (pB2 P)) * (pBy P)) + ((((((pBx P) * (pBy P)) * ((sqrt (1 - (pB2
  P))) - 1)) * (sin (pphiz P))) + ((((pB2 P) * (sqrt (1 - (pB2 P)))) + (((pBy P) ^ 2) * (1 - (sqrt (1
  - (pB2 P)))))) * (cos (pphiz P)))) * (ks_K1 P f))) + ((((((pBy P) * (pBz P)) * ((sqrt (1 - (pB2
  P))) - 1)) * (sin (pphiy P))) + ((((((- (pBx P)) * (pBy P)) * ((sqrt (1 - (pB2 P))) - 1)) * (cos
  (pphiz P))) + ((((pB2 P) * (sqrt (1 - (pB2 P)))) + (((pBy P) ^ 2) * (1 - (sqrt (1 - (pB2 P)))))) *
  (sin (pphiz P)))) * (cos (pphiy P)))) * (ks_K0 P f))) - ((((((pBy P) * (pBz P)) * ((sqrt (1 - (pB2
  P))) - 1)) * (cos (pphiy P))) + ((((((pBx P) * (pBy P)) * ((sqrt (1 - (pB2 P))) - 1)) * (cos (pphiz
  P))) + ((((- (pB2 P)) * (sqrt (1 - (pB2 P)))) + (((pBy P) ^ 2) * ((sqrt (1 - (pB2 P))) - 1))) *
  (sin (pphiz P)))) * (sin (pphiy P)))) * (ks_K2 P f)))) / (pB2 P).

(* /repo/Src/Main/Modules/Physics/Free_Data/fd_KerrSchild_c_k0_k1_k2_kt.c:1118-1133 *)
Definition ks_k2 (P : kspar) (f : ksarg) : R :=
  ((/ (sqrt (1 - (pB2 P)))) * (((((- (pB2 P)) * (pBz P)) + ((((pBz P) * (((pBx P) * (sin (pphiz P)))
  - ((pBy P) * (cos (pphiz P))))) * ((sqrt (1 - (pB2 P))) - 1)) * (ks_K1 P f))) - ((((((pBz P) *
  (((pBx P) * (cos (pphiz P))) + ((pBy P) * (sin (pphiz P))))) * ((sqrt (1 - (pB2 P))) - 1)) * (sin
  (pphiy P))) + ((((- (pB2 P)) * (sqrt (1 - (pB2 P)))) + (((pBz P) ^ 2) * ((sqrt (1 - (pB2 P))) -
  1))) * (cos (pphiy P)))) * (ks_K2 P f))) - ((((((pBz P) * (((pBx P) * (cos (pphiz P))) + ((pBy P) *
  (sin (pphiz P))))) * ((sqrt (1 - (pB2 P))) - 1)) * (cos (pphiy P))) + ((((pB2 P) * (sqrt (1 - (pB2
  P)))) + (((pBz P) ^ 2) * (1 - (sqrt (1 - (pB2 P)))))) * (sin (pphiy P)))) * (ks_K0 P f)))) / (pB2
  P).

(* /repo/Src/Main/Modules/Physics/Free_Data/fd_KerrSchild_c_k0_k1_k2_kt.c:1566-1578 *)
Definition ks_kt (P : kspar) (f : ksarg) : R :=
  (/ (sqrt (1 - (pB2 P)))) * (((((((pBx P) * (sin (pphiz P))) - ((pBy P) * (cos (pphiz P)))) * (ks_K1
  P f)) + ((((pBz P) * (sin (pphiy P))) - ((((pBx P) * (cos (pphiz P))) + ((pBy P) * (sin (pphiz
  P)))) * (cos (pphiy P)))) * (ks_K0 P f))) - ((((pBz P) * (cos (pphiy P))) + ((((pBx P) * (cos
  (pphiz P))) + ((pBy P) * (sin (pphiz P)))) * (sin (pphiy P)))) * (ks_K2 P f))) + 1).

(* /repo/Src/Main/Modules/Physics/Free_Data/fd_KerrSchild_c_k0_k1_k2_kt.c:1930-1937 *)
Definition ks_c (P : kspar) (f : ksarg) : R :=
  2 * (ks_H P f).

(* /repo/Src/Main/Modules/Physics/Free_Data/fd_KerrSchild_c_k0_k1_k2_kt.c:159-175 *)
Definition ks_dk0_D2 (P : kspar) (f : ksarg) : R :=
  ((/ (sqrt (1 - (pB2 P)))) * ((((- (((((pBx P) * (pBy P)) * ((sqrt (1 - (pB2 P))) - 1)) * (cos
  (pphiz P))) + ((((pB2 P) * (sqrt (1 - (pB2 P)))) + (((pBx P) ^ 2) * (1 - (sqrt (1 - (pB2 P)))))) *
  (sin (pphiz P))))) * (ks_dK1_D2 P f)) + ((((((pBx P) * (pBz P)) * ((sqrt (1 - (pB2 P))) - 1)) *
  (sin (pphiy P))) + ((((((- (pBx P)) * (pBy P)) * ((sqrt (1 - (pB2 P))) - 1)) * (sin (pphiz P))) +
  ((((pB2 P) * (sqrt (1 - (pB2 P)))) + (((pBx P) ^ 2) * (1 - (sqrt (1 - (pB2 P)))))) * (cos (pphiz
  P)))) * (cos (pphiy P)))) * (ks_dK0_D2 P f))) - ((((((pBx P) * (pBz P)) * ((sqrt (1 - (pB2 P))) -
  1)) * (cos (pphiy P))) + ((((((pBx P) * (pBy P)) * ((sqrt (1 - (pB2 P))) - 1)) * (sin (pphiz P))) +
  ((((- (pB2 P)) * (sqrt (1 - (pB2 P)))) + (((pBx P) ^ 2) * ((sqrt (1 - (pB2 P))) - 1))) * (cos
  (pphiz P)))) * (sin (pphiy P)))) * (ks_dK2_D2 P f)))) / (pB2 P).

(* /repo/Src/Main/Modules/Physics/Free_Data/fd_KerrSchild_c_k0_k1_k2_kt.c:176-192 *)
Definition ks_dk0_D0 (P : kspar) (f : ksarg) : R :=
  ((/ (sqrt (1 - (pB2 P)))) * ((((- (((((pBx P) * (pBy P)) * ((sqrt (1 - (pB2 P))) - 1)) * (cos
  (pphiz P))) + ((((pB2 P) * (sqrt (1 - (pB2 P)))) + (((pBx P) ^ 2) * (1 - (sqrt (1 - (pB2 P)))))) *
  (sin (pphiz P))))) * (ks_dK1_D0 P f)) + ((((((pBx P) * (pBz P)) * ((sqrt (1 - (pB2 P))) - 1)) *
  (sin (pphiy P))) + ((((((- (pBx P)) * (pBy P)) * ((sqrt (1 - (pB2 P))) - 1)) * (sin (pphiz P))) +
  ((((pB2 P) * (sqrt (1 - (pB2 P)))) + (((pBx P) ^ 2) * (1 - (sqrt (1 - (pB2 P)))))) * (cos (pphiz
  P)))) * (cos (pphiy P)))) * (ks_dK0_D0 P f))) - ((((((pBx P) * (pBz P)) * ((sqrt (1 - (pB2 P))) -
  1)) * (cos (pphiy P))) + ((((((pBx P) * (pBy P)) * ((sqrt (1 - (pB2 P))) - 1)) * (sin (pphiz P))) +
  ((((- (pB2 P)) * (sqrt (1 - (pB2 P)))) + (((pBx P) ^ 2) * ((sqrt (1 - (pB2 P))) - 1))) * (cos
  (pphiz P)))) * (sin (pphiy P)))) * (ks_dK2_D0 P f)))) / (pB2 P).

(* /repo/Src/Main/Modules/Physics/Free_Data/fd_KerrSchild_c_k0_k1_k2_kt.c:193-209 *)
Definition ks_dk0_D1 (P : kspar) (f : ksarg) : R :=
  ((/ (sqrt (1 - (pB2 P)))) * ((((- (((((pBx P) * (pBy P)) * ((sqrt (1 - (pB2 P))) - 1)) * (cos
  (pphiz P))) + ((((pB2 P) * (sqrt (1 - (pB2 P)))) + (((pBx P) ^ 2) * (1 - (sqrt (1 - (pB2 P)))))) *
  (sin (pphiz P))))) * (ks_dK1_D1 P f)) + ((((((pBx P) * (pBz P)) * ((sqrt (1 - (pB2 P))) - 1)) *
  (sin (pphiy P))) + ((((((- (pBx P)) * (pBy P)) * ((sqrt (1 - (pB2 P))) - 1)) * (sin (pphiz P))) +
  ((((pB2 P) * (sqrt (1 - (pB2 P)))) + (((pBx P) ^ 2) * (1 - (sqrt (1 - (pB2 P)))))) * (cos (pphiz
  P)))) * (cos (pphiy P)))) * (ks_dK0_D1 P f))) - ((((((pBx P) * (pBz P)) * ((sqrt (1 - (pB2 P))) -
  1)) * (cos (pphiy P))) + ((((((pBx P) * (pBy P)) * ((sqrt (1 - (pB2 P))) - 1)) * (sin (pphiz P))) +
  ((((- (pB2 P)) * (sqrt (1 - (pB2 P)))) + (((pBx P) ^ 2) * ((sqrt (1 - (pB2 P))) - 1))) * (cos
  (pphiz P)))) * (sin (pphiy P)))) * (ks_dK2_D1 P f)))) / (pB2 P).

(* /repo/Src/Main/Modules/Physics/Free_Data/fd_KerrSchild_c_k0_k1_k2_kt.c:647-663 *)
Definition ks_dk1_D1 (P : kspar) (f : ksarg) : R :=
  ((/ (sqrt (1 - (pB2 P)))) * ((((((((pBx P) * (pBy P)) * ((sqrt (1 - (pB2 P))) - 1)) * (sin (pphiz
  P))) + ((((pB2 P) * (sqrt (1 - (pB2 P)))) + (((pBy P) ^ 2) * (1 - (sqrt (1 - (pB2 P)))))) * (cos
  (pphiz P)))) * (ks_dK1_D1 P f)) + ((((((pBy P) * (pBz P)) * ((sqrt (1 - (pB2 P))) - 1)) * (sin
  (pphiy P))) + ((((((- (pBx P)) * (pBy P)) * ((sqrt (1 - (pB2 P))) - 1)) * (cos (pphiz P))) +
  ((((pB2 P) * (sqrt (1 - (pB2 P)))) + (((pBy P) ^ 2) * (1 - (sqrt (1 - (pB2 P)))))) * (sin (pphiz
  P)))) * (cos (pphiy P)))) * (ks_dK0_D1 P f))) - ((((((pBy P) * (pBz P)) * ((sqrt (1 - (pB2 P))) -
  1)) * (cos (pphiy P))) + ((((((pBx P) * (pBy P)) * ((sqrt (1 - (pB2 P))) - 1)) * (cos (pphiz P))) +
  ((((- (pB2 P)) * (sqrt (1 - (pB2 P)))) + (((pBy P) ^ 2) * ((sqrt (1 - (pB2 P))) - 1))) * (sin
  (pphiz P)))) * (sin (pphiy P)))) * (ks_dK2_D1 P f)))) / (pB2 P).

(* /repo/Src/Main/Modules/Physics/Free_Data/fd_KerrSchild_c_k0_k1_k2_kt.c:664-680 *)
Definition ks_dk1_D0 (P : kspar) (f : ksarg) : R :=
  ((/ (sqrt (1 - (pB2 P)))) * ((((((((pBx P) * (pBy P)) * ((sqrt (1 - (pB2 P))) - 1)) * (sin (pphiz
  P))) + ((((pB2 P) * (sqrt (1 - (pB2 P)))) + (((pBy P) ^ 2) * (1 - (sqrt (1 - (pB2 P)))))) * (cos
  (pphiz P)))) * (ks_dK1_D0 P f)) + ((((((pBy P) * (pBz P)) * ((sqrt (1 - (pB2 P))) - 1)) * (sin
  (pphiy P))) + ((((((- (pBx P)) * (pBy P)) * ((sqrt (1 - (pB2 P))) - 1)) * (cos (pphiz P))) +
  ((((pB2 P) * (sqrt (1 - (pB2 P)))) + (((pBy P) ^ 2) * (1 - (sqrt (1 - (pB2 P)))))) * (sin (pphiz
  P)))) * (cos (pphiy P)))) * (ks_dK0_D0 P f))) - ((((((pBy P) * (pBz P)) * ((sqrt (1 - (pB2 P))) -
  1)) * (cos (pphiy P))) + ((((((pBx P) * (pBy P)) * ((sqrt (1 - (pB2 P))) - 1)) * (cos (pphiz P))) +
  ((((- (pB2 P)) * (sqrt (1 - (pB2 P)))) + (((pBy P) ^ 2) * ((sqrt (1 - (pB2 P))) - 1))) * (sin
  (pphiz P)))) * (sin (pphiy P)))) * (ks_dK2_D0 P f)))) / (pB2 P).

(* /repo/Src/Main/Modules/Physics/Free_Data/fd_KerrSchild_c_k0_k1_k2_kt.c:681-697 *)
Definition ks_dk1_D2 (P : kspar) (f : ksarg) : R :=
  ((/ (sqrt (1 - (pB2 P)))) * ((((((((pBx P) * (pBy P)) * ((sqrt (1 - (pB2 P))) - 1)) * (sin (pphiz
  P))) + ((((pB2 P) * (sqrt (1 - (pB2 P)))) + (((pBy P) ^ 2) * (1 - (sqrt (1 - (pB2 P)))))) * (cos
  (pphiz P)))) * (ks_dK1_D2 P f)) + ((((((pBy P) * (pBz P)) * ((sqrt (1 - (pB2 P))) - 1)) * (sin
  (pphiy P))) + ((((((- (pBx P)) * (pBy P)) * ((sqrt (1 - (pB2 P))) - 1)) * (cos (pphiz P))) +
  ((((pB2 P) * (sqrt (1 - (pB2 P)))) + (((pBy P) ^ 2) * (1 - (sqrt (1 - (pB2 P)))))) * (sin (pphiz
  P)))) * (cos (pphiy P)))) * (ks_dK0_D2 P f))) - ((((((pBy P) * (pBz P)) * ((sqrt (1 - (pB2 P))) -
  1)) * (cos (pphiy P))) + ((((((pBx P) * (pBy P)) * ((sqrt (1 - (pB2 P))) - 1)) * (cos (pphiz P))) +
  ((((- (pB2 P)) * (sqrt (1 - (pB2 P)))) + (((pBy P) ^ 2) * ((sqrt (1 - (pB2 P))) - 1))) * (sin
  (pphiz P)))) * (sin (pphiy P)))) * (ks_dK2_D2 P f)))) / (pB2 P).

(* /repo/Src/Main/Modules/Physics/Free_Data/fd_KerrSchild_c_k0_k1_k2_kt.c:1134-1149 *)
Definition ks_dk2_D0 (P : kspar) (f : ksarg) : R :=
  ((/ (sqrt (1 - (pB2 P)))) * ((((((pBz P) * (((pBx P) * (sin (pphiz P))) - ((pBy P) * (cos (pphiz
  P))))) * ((sqrt (1 - (pB2 P))) - 1)) * (ks_dK1_D0 P f)) - ((((((pBz P) * (((pBx P) * (cos (pphiz
  P))) + ((pBy P) * (sin (pphiz P))))) * ((sqrt (1 - (pB2 P))) - 1)) * (sin (pphiy P))) + ((((- (pB2
  P)) * (sqrt (1 - (pB2 P)))) + (((pBz P) ^ 2) * ((sqrt (1 - (pB2 P))) - 1))) * (cos (pphiy P)))) *
  (ks_dK2_D0 P f))) - ((((((pBz P) * (((pBx P) * (cos (pphiz P))) + ((pBy P) * (sin (pphiz P))))) *
  ((sqrt (1 - (pB2 P))) - 1)) * (cos (pphiy P))) + ((((pB2 P) * (sqrt (1 - (pB2 P)))) + (((pBz P) ^
  2) * (1 - (sqrt (1 - (pB2 P)))))) * (sin (pphiy P)))) * (ks_dK0_D0 P f)))) / (pB2 P).

(* /repo/Src/Main/Modules/Physics/Free_Data/fd_KerrSchild_c_k0_k1_k2_kt.c:1150-1165 *)
Definition ks_dk2_D1 (P : kspar) (f : ksarg) : R :=
  ((/ (sqrt (1 - (pB2 P)))) * ((((((pBz P) * (((pBx P) * (sin (pphiz P))) - ((pBy P) * (cos (pphiz
  P))))) * ((sqrt (1 - (pB2 P))) - 1)) * (ks_dK1_D1 P f)) - ((((((pBz P) * (((pBx P) * (cos (pphiz
  P))) + ((pBy P) * (sin (pphiz P))))) * ((sqrt (1 - (pB2 P))) - 1)) * (sin (pphiy P))) + ((((- (pB2
  P)) * (sqrt (1 - (pB2 P)))) + (((pBz P) ^ 2) * ((sqrt (1 - (pB2 P))) - 1))) * (cos (pphiy P)))) *
  (ks_dK2_D1 P f))) - ((((((pBz P) * (((pBx P) * (cos (pphiz P))) + ((pBy P) * (sin (pphiz P))))) *
  ((sqrt (1 - (pB2 P))) - 1)) * (cos (pphiy P))) + ((((pB2 P) * (sqrt (1 - (pB2 P)))) + (((pBz P) ^
  2) * (1 - (sqrt (1 - (pB2 P)))))) * (sin (pphiy P)))) * (ks_dK0_D1 P f)))) / (pB2 P).

(* /repo/Src/Main/Modules/Physics/Free_Data/fd_KerrSchild_c_k0_k1_k2_kt.c:1166-1181 *)
Definition ks_dk2_D2 (P : kspar) (f : ksarg) : R :=
  ((/ (sqrt (1 - (pB2 P)))) * ((((((pBz P) * (((pBx P) * (sin (pphiz P))) - ((pBy P) * (cos (pphiz
  P))))) * ((sqrt (1 - (pB2 P))) - 1)) * (ks_dK1_D2 P f)) - ((((((pBz P) * (((pBx P) * (cos (pphiz
  P))) + ((pBy P) * (sin (pphiz P))))) * ((sqrt (1 - (pB2 P))) - 1)) * (sin (pphiy P))) + ((((- (pB2
  P)) * (sqrt (1 - (pB2 P)))) + (((pBz P) ^ 2) * ((sqrt (1 - (pB2 P))) - 1))) * (cos (pphiy P)))) *
  (ks_dK2_D2 P f))) - ((((((pBz P) * (((pBx P) * (cos (pphiz P))) + ((pBy P) * (sin (pphiz P))))) *
  ((sqrt (1 - (pB2 P))) - 1)) * (cos (pphiy P))) + ((((pB2 P) * (sqrt (1 - (pB2 P)))) + (((pBz P) ^
  2) * (1 - (sqrt (1 - (pB2 P)))))) * (sin (pphiy P)))) * (ks_dK0_D2 P f)))) / (pB2 P).

(* /repo/Src/Main/Modules/Physics/Free_Data/fd_KerrSchild_c_k0_k1_k2_kt.c:1579-1591 *)
Definition ks_dkt_D2 (P : kspar) (f : ksarg) : R :=
  (/ (sqrt (1 - (pB2 P)))) * ((((((pBx P) * (sin (pphiz P))) - ((pBy P) * (cos (pphiz P)))) *
  (ks_dK1_D2 P f)) + ((((pBz P) * (sin (pphiy P))) - ((((pBx P) * (cos (pphiz P))) + ((pBy P) * (sin
  (pphiz P)))) * (cos (pphiy P)))) * (ks_dK0_D2 P f))) - ((((pBz P) * (cos (pphiy P))) + ((((pBx P) *
  (cos (pphiz P))) + ((pBy P) * (sin (pphiz P)))) * (sin (pphiy P)))) * (ks_dK2_D2 P f))).

(* /repo/Src/Main/Modules/Physics/Free_Data/fd_KerrSchild_c_k0_k1_k2_kt.c:1592-1604 *)
Definition ks_dkt_D0 (P : kspar) (f : ksarg) : R :=
  (/ (sqrt (1 - (pB2 P)))) * ((((((pBx P) * (sin (pphiz P))) - ((pBy P) * (cos (pphiz P)))) *
  (ks_dK1_D0 P f)) + ((((pBz P) * (sin (pphiy P))) - ((((pBx P) * (cos (pphiz P))) + ((pBy P) * (sin
  (pphiz P)))) * (cos (pphiy P)))) * (ks_dK0_D0 P f))) - ((((pBz P) * (cos (pphiy P))) + ((((pBx P) *
  (cos (pphiz P))) + ((pBy P) * (sin (pphiz P)))) * (sin (pphiy P)))) * (ks_dK2_D0 P f))).

(* /repo/Src/Main/Modules/Physics/Free_Data/fd_KerrSchild_c_k0_k1_k2_kt.c:1605-1617 *)
Definition ks_dkt_D1 (P : kspar) (f : ksarg) : R :=
  (/ (sqrt (1 - (pB2 P)))) * ((((((pBx P) * (sin (pphiz P))) - ((pBy P) * (cos (pphiz P)))) *
  (ks_dK1_D1 P f)) + ((((pBz P) * (sin (pphiy P))) - ((((pBx P) * (cos (pphiz P))) + ((pBy P) * (sin
  (pphiz P)))) * (cos (pphiy P)))) * (ks_dK0_D1 P f))) - ((((pBz P) * (cos (pphiy P))) + ((((pBx P) *
  (cos (pphiz P))) + ((pBy P) * (sin (pphiz P)))) * (sin (pphiy P)))) * (ks_dK2_D1 P f))).

(* /repo/Src/Main/Modules/Physics/Free_Data/fd_KerrSchild_c_k0_k1_k2_kt.c:1938-1945 *)
Definition ks_dc_D2 (P : kspar) (f : ksarg) : R :=
  2 * (ks_dH_D2 P f).

(* /repo/Src/Main/Modules/Physics/Free_Data/fd_KerrSchild_c_k0_k1_k2_kt.c:1946-1953 *)
Definition ks_dc_D1 (P : kspar) (f : ksarg) : R :=
  2 * (ks_dH_D1 P f).

(* /repo/Src/Main/Modules/Physics/Free_Data/fd_KerrSchild_c_k0_k1_k2_kt.c:1954-1961 *)
Definition ks_dc_D0 (P : kspar) (f : ksarg) : R :=
  2 * (ks_dH_D0 P f).

(* /repo/Src/Main/Modules/Physics/Free_Data/fd_KerrSchild_c_k0_k1_k2_kt.c:210-226 *)
Definition ks_ddk0_D1D1 (P : kspar) (f : ksarg) : R :=
  ((/ (sqrt (1 - (pB2 P)))) * ((((- (((((pBx P) * (pBy P)) * ((sqrt (1 - (pB2 P))) - 1)) * (cos
  (pphiz P))) + ((((pB2 P) * (sqrt (1 - (pB2 P)))) + (((pBx P) ^ 2) * (1 - (sqrt (1 - (pB2 P)))))) *
  (sin (pphiz P))))) * (ks_ddK1_D1D1 P f)) + ((((((pBx P) * (pBz P)) * ((sqrt (1 - (pB2 P))) - 1)) *
  (sin (pphiy P))) + ((((((- (pBx P)) * (pBy P)) * ((sqrt (1 - (pB2 P))) - 1)) * (sin (pphiz P))) +
  ((((pB2 P) * (sqrt (1 - (pB2 P)))) + (((pBx P) ^ 2) * (1 - (sqrt (1 - (pB2 P)))))) * (cos (pphiz
  P)))) * (cos (pphiy P)))) * (ks_ddK0_D1D1 P f))) - ((((((pBx P) * (pBz P)) * ((sqrt (1 - (pB2 P)))
  - 1)) * (cos (pphiy P))) + ((((((pBx P) * (pBy P)) * ((sqrt (1 - (pB2 P))) - 1)) * (sin (pphiz P)))
  + ((((- (pB2 P)) * (sqrt (1 - (pB2 P)))) + (((pBx P) ^ 2) * ((sqrt (1 - (pB2 P))) - 1))) * (cos
  (pphiz P)))) * (sin (pphiy P)))) * (ks_ddK2_D1D1 P f)))) / (pB2 P).

(* /repo/Src/Main/Modules/Physics/Free_Data/fd_KerrSchild_c_k0_k1_k2_kt.c:227-243 *)
Definition ks_ddk0_D1D2 (P : kspar) (f : ksarg) : R :=
  ((/ (sqrt (1 - (pB2 P)))) * ((((- (((((pBx P) * (pBy P)) * ((sqrt (1 - (pB2 P))) - 1)) * (cos
  (pphiz P))) + ((((pB2 P) * (sqrt (1 - (pB2 P)))) + (((pBx P) ^ 2) * (1 - (sqrt (1 - (pB2 P)))))) *
  (sin (pphiz P))))) * (ks_ddK1_D1D2 P f)) + ((((((pBx P) * (pBz P)) * ((sqrt (1 - (pB2 P))) - 1)) *
  (sin (pphiy P))) + ((((((- (pBx P)) * (pBy P)) * ((sqrt (1 - (pB2 P))) - 1)) * (sin (pphiz P))) +
  ((((pB2 P) * (sqrt (1 - (pB2 P)))) + (((pBx P) ^ 2) * (1 - (sqrt (1 - (pB2 P)))))) * (cos (pphiz
  P)))) * (cos (pphiy P)))) * (ks_ddK0_D1D2 P f))) - ((((((pBx P) * (pBz P)) * ((sqrt (1 - (pB2 P)))
  - 1)) * (cos (pphiy P))) + ((((((pBx P) * (pBy P)) * ((sqrt (1 - (pB2 P))) - 1)) * (sin (pphiz P)))
  + ((((- (pB2 P)) * (sqrt (1 - (pB2 P)))) + (((pBx P) ^ 2) * ((sqrt (1 - (pB2 P))) - 1))) * (cos
  (pphiz P)))) * (sin (pphiy P)))) * (ks_ddK2_D1D2 P f)))) / (pB2 P).

(* /repo/Src/Main/Modules/Physics/Free_Data/fd_KerrSchild_c_k0_k1_k2_kt.c:244-260 *)
Definition ks_ddk0_D0D1 (P : kspar) (f : ksarg) : R :=
  ((/ (sqrt (1 - (pB2 P)))) * ((((- (((((pBx P) * (pBy P)) * ((sqrt (1 - (pB2 P))) - 1)) * (cos
  (pphiz P))) + ((((pB2 P) * (sqrt (1 - (pB2 P)))) + (((pBx P) ^ 2) * (1 - (sqrt (1 - (pB2 P)))))) *
  (sin (pphiz P))))) * (ks_ddK1_D0D1 P f)) + ((((((pBx P) * (pBz P)) * ((sqrt (1 - (pB2 P))) - 1)) *
  (sin (pphiy P))) + ((((((- (pBx P)) * (pBy P)) * ((sqrt (1 - (pB2 P))) - 1)) * (sin (pphiz P))) +
  ((((pB2 P) * (sqrt (1 - (pB2 P)))) + (((pBx P) ^ 2) * (1 - (sqrt (1 - (pB2 P)))))) * (cos (pphiz
  P)))) * (cos (pphiy P)))) * (ks_ddK0_D0D1 P f))) - ((((((pBx P) * (pBz P)) * ((sqrt (1 - (pB2 P)))
  - 1)) * (cos (pphiy P))) + ((((((pBx P) * (pBy P)) * ((sqrt (1 - (pB2 P))) - 1)) * (sin (pphiz P)))
  + ((((- (pB2 P)) * (sqrt (1 - (pB2 P)))) + (((pBx P) ^ 2) * ((sqrt (1 - (pB2 P))) - 1))) * (cos
  (pphiz P)))) * (sin (pphiy P)))) * (ks_ddK2_D0D1 P f)))) / (pB2 P).

(* /repo/Src/Main/Modules/Physics/Free_Data/fd_KerrSchild_c_k0_k1_k2_kt.c:261-277 *)
Definition ks_ddk0_D0D0 (P : kspar) (f : ksarg) : R :=
  ((/ (sqrt (1 - (pB2 P)))) * ((((- (((((pBx P) * (pBy P)) * ((sqrt (1 - (pB2 P))) - 1)) * (cos
  (pphiz P))) + ((((pB2 P) * (sqrt (1 - (pB2 P)))) + (((pBx P) ^ 2) * (1 - (sqrt (1 - (pB2 P)))))) *
  (sin (pphiz P))))) * (ks_ddK1_D0D0 P f)) + ((((((pBx P) * (pBz P)) * ((sqrt (1 - (pB2 P))) - 1)) *
  (sin (pphiy P))) + ((((((- (pBx P)) * (pBy P)) * ((sqrt (1 - (pB2 P))) - 1)) * (sin (pphiz P))) +
  ((((pB2 P) * (sqrt (1 - (pB2 P)))) + (((pBx P) ^ 2) * (1 - (sqrt (1 - (pB2 P)))))) * (cos (pphiz
  P)))) * (cos (pphiy P)))) * (ks_ddK0_D0D0 P f))) - ((((((pBx P) * (pBz P)) * ((sqrt (1 - (pB2 P)))
  - 1)) * (cos (pphiy P))) + ((((((pBx P) * (pBy P)) * ((sqrt (1 - (pB2 P))) - 1)) * (sin (pphiz P)))
  + ((((- (pB2 P)) * (sqrt (1 - (pB2 P)))) + (((pBx P) ^ 2) * ((sqrt (1 - (pB2 P))) - 1))) * (cos
  (pphiz P)))) * (sin (pphiy P)))) * (ks_ddK2_D0D0 P f)))) / (pB2 P).

(* /repo/Src/Main/Modules/Physics/Free_Data/fd_KerrSchild_c_k0_k1_k2_kt.c:278-294 *)
Definition ks_ddk0_D0D2 (P : kspar) (f : ksarg) : R :=
  ((/ (sqrt (1 - (pB2 P)))) * ((((- (((((pBx P) * (pBy P)) * ((sqrt (1 - (pB2 P))) - 1)) * (cos
  (pphiz P))) + ((((pB2 P) * (sqrt (1 - (pB2 P)))) + (((pBx P) ^ 2) * (1 - (sqrt (1 - (pB2 P)))))) *
  (sin (pphiz P))))) * (ks_ddK1_D0D2 P f)) + ((((((pBx P) * (pBz P)) * ((sqrt (1 - (pB2 P))) - 1)) *
  (sin (pphiy P))) + ((((((- (pBx P)) * (pBy P)) * ((sqrt (1 - (pB2 P))) - 1)) * (sin (pphiz P))) +
  ((((pB2 P) * (sqrt (1 - (pB2 P)))) + (((pBx P) ^ 2) * (1 - (sqrt (1 - (pB2 P)))))) * (cos (pphiz
  P)))) * (cos (pphiy P)))) * (ks_ddK0_D0D2 P f))) - ((((((pBx P) * (pBz P)) * ((sqrt (1 - (pB2 P)))
  - 1)) * (cos (pphiy P))) + ((((((pBx P) * (pBy P)) * ((sqrt (1 - (pB2 P))) - 1)) * (sin (pphiz P)))
  + ((((- (pB2 P)) * (sqrt (1 - (pB2 P)))) + (((pBx P) ^ 2) * ((sqrt (1 - (pB2 P))) - 1))) * (cos
  (pphiz P)))) * (sin (pphiy P)))) * (ks_ddK2_D0D2 P f)))) / (pB2 P).

(* /repo/Src/Main/Modules/Physics/Free_Data/fd_KerrSchild_c_k0_k1_k2_kt.c:295-311 *)
Definition ks_ddk0_D2D2 (P : kspar) (f : ksarg) : R :=
  ((/ (sqrt (1 - (pB2 P)))) * ((((- (((((pBx P) * (pBy P)) * ((sqrt (1 - (pB2 P))) - 1)) * (cos
  (pphiz P))) + ((((pB2 P) * (sqrt (1 - (pB2 P)))) + (((pBx P) ^ 2) * (1 - (sqrt (1 - (pB2 P)))))) *
  (sin (pphiz P))))) * (ks_ddK1_D2D2 P f)) + ((((((pBx P) * (pBz P)) * ((sqrt (1 - (pB2 P))) - 1)) *
  (sin (pphiy P))) + ((((((- (pBx P)) * (pBy P)) * ((sqrt (1 - (pB2 P))) - 1)) * (sin (pphiz P))) +
  ((((pB2 P) * (sqrt (1 - (pB2 P)))) + (((pBx P) ^ 2) * (1 - (sqrt (1 - (pB2 P)))))) * (cos (pphiz
  P)))) * (cos (pphiy P)))) * (ks_ddK0_D2D2 P f))) - ((((((pBx P) * (pBz P)) * ((sqrt (1 - (pB2 P)))
  - 1)) * (cos (pphiy P))) + ((((((pBx P) * (pBy P)) * ((sqrt (1 - (pB2 P))) - 1)) * (sin (pphiz P)))
  + ((((- (pB2 P)) * (sqrt (1 - (pB2 P)))) + (((pBx P) ^ 2) * ((sqrt (1 - (pB2 P))) - 1))) * (cos
  (pphiz P)))) * (sin (pphiy P)))) * (ks_ddK2_D2D2 P f)))) / (pB2 P).

(* /repo/Src/Main/Modules/Physics/Free_Data/fd_KerrSchild_c_k0_k1_k2_kt.c:698-714 *)
Definition ks_ddk1_D2D2 (P : kspar) (f : ksarg) : R :=
  ((/ (sqrt (1 - (pB2 P)))) * ((((((((pBx P) * (pBy P)) * ((sqrt (1 - (pB2 P))) - 1)) * (sin (pphiz
  P))) + ((((pB2 P) * (sqrt (1 - (pB2 P)))) + (((pBy P) ^ 2) * (1 - (sqrt (1 - (pB2 P)))))) * (cos
  (pphiz P)))) * (ks_ddK1_D2D2 P f)) + ((((((pBy P) * (pBz P)) * ((sqrt (1 - (pB2 P))) - 1)) * (sin
  (pphiy P))) + ((((((- (pBx P)) * (pBy P)) * ((sqrt (1 - (pB2 P))) - 1)) * (cos (pphiz P))) +
  ((((pB2 P) * (sqrt (1 - (pB2 P)))) + (((pBy P) ^ 2) * (1 - (sqrt (1 - (pB2 P)))))) * (sin (pphiz
  P)))) * (cos (pphiy P)))) * (ks_ddK0_D2D2 P f))) - ((((((pBy P) * (pBz P)) * ((sqrt (1 - (pB2 P)))
  - 1)) * (cos (pphiy P))) + ((((((pBx P) * (pBy P)) * ((sqrt (1 - (pB2 P))) - 1)) * (cos (pphiz P)))
  + ((((- (pB2 P)) * (sqrt (1 - (pB2 P)))) + (((pBy P) ^ 2) * ((sqrt (1 - (pB2 P))) - 1))) * (sin
  (pphiz P)))) * (sin (pphiy P)))) * (ks_ddK2_D2D2 P f)))) / (pB2 P).

(* /repo/Src/Main/Modules/Physics/Free_Data/fd_KerrSchild_c_k0_k1_k2_kt.c:715-731 *)
Definition ks_ddk1_D0D0 (P : kspar) (f : ksarg) : R :=
  ((/ (sqrt (1 - (pB2 P)))) * ((((((((pBx P) * (pBy P)) * ((sqrt (1 - (pB2 P))) - 1)) * (sin (pphiz
  P))) + ((((pB2 P) * (sqrt (1 - (pB2 P)))) + (((pBy P) ^ 2) * (1 - (sqrt (1 - (pB2 P)))))) * (cos
  (pphiz P)))) * (ks_ddK1_D0D0 P f)) + ((((((pBy P) * (pBz P)) * ((sqrt (1 - (pB2 P))) - 1)) * (sin
  (pphiy P))) + ((((((- (pBx P)) * (pBy P)) * ((sqrt (1 - (pB2 P))) - 1)) * (cos (pphiz P))) +
  ((((pB2 P) * (sqrt (1 - (pB2 P)))) + (((pBy P) ^ 2) * (1 - (sqrt (1 - (pB2 P)))))) * (sin (pphiz
  P)))) * (cos (pphiy P)))) * (ks_ddK0_D0D0 P f))) - ((((((pBy P) * (pBz P)) * ((sqrt (1 - (pB2 P)))
  - 1)) * (cos (pphiy P))) + ((((((pBx P) * (pBy P)) * ((sqrt (1 - (pB2 P))) - 1)) * (cos (pphiz P)))
  + ((((- (pB2 P)) * (sqrt (1 - (pB2 P)))) + (((pBy P) ^ 2) * ((sqrt (1 - (pB2 P))) - 1))) * (sin
  (pphiz P)))) * (sin (pphiy P)))) * (ks_ddK2_D0D0 P f)))) / (pB2 P).

(* /repo/Src/Main/Modules/Physics/Free_Data/fd_KerrSchild_c_k0_k1_k2_kt.c:732-748 *)
Definition ks_ddk1_D0D2 (P : kspar) (f : ksarg) : R :=
  ((/ (sqrt (1 - (pB2 P)))) * ((((((((pBx P) * (pBy P)) * ((sqrt (1 - (pB2 P))) - 1)) * (sin (pphiz
  P))) + ((((pB2 P) * (sqrt (1 - (pB2 P)))) + (((pBy P) ^ 2) * (1 - (sqrt (1 - (pB2 P)))))) * (cos
  (pphiz P)))) * (ks_ddK1_D0D2 P f)) + ((((((pBy P) * (pBz P)) * ((sqrt (1 - (pB2 P))) - 1)) * (sin
  (pphiy P))) + ((((((- (pBx P)) * (pBy P)) * ((sqrt (1 - (pB2 P))) - 1)) * (cos (pphiz P))) +
  ((((pB2 P) * (sqrt (1 - (pB2 P)))) + (((pBy P) ^ 2) * (1 - (sqrt (1 - (pB2 P)))))) * (sin (pphiz
  P)))) * (cos (pphiy P)))) * (ks_ddK0_D0D2 P f))) - ((((((pBy P) * (pBz P)) * ((sqrt (1 - (pB2 P)))
  - 1)) * (cos (pphiy P))) + ((((((pBx P) * (pBy P)) * ((sqrt (1 - (pB2 P))) - 1)) * (cos (pphiz P)))
  + ((((- (pB2 P)) * (sqrt (1 - (pB2 P)))) + (((pBy P) ^ 2) * ((sqrt (1 - (pB2 P))) - 1))) * (sin
  (pphiz P)))) * (sin (pphiy P)))) * (ks_ddK2_D0D2 P f)))) / (pB2 P).

(* /repo/Src/Main/Modules/Physics/Free_Data/fd_KerrSchild_c_k0_k1_k2_kt.c:749-765 *)
Definition ks_ddk1_D1D2 (P : kspar) (f : ksarg) : R :=
  ((/ (sqrt (1 - (pB2 P)))) * ((((((((pBx P) * (pBy P)) * ((sqrt (1 - (pB2 P))) - 1)) * (sin (pphiz
  P))) + ((((pB2 P) * (sqrt (1 - (pB2 P)))) + (((pBy P) ^ 2) * (1 - (sqrt (1 - (pB2 P)))))) * (cos
  (pphiz P)))) * (ks_ddK1_D1D2 P f)) + ((((((pBy P) * (pBz P)) * ((sqrt (1 - (pB2 P))) - 1)) * (sin
  (pphiy P))) + ((((((- (pBx P)) * (pBy P)) * ((sqrt (1 - (pB2 P))) - 1)) * (cos (pphiz P))) +
  ((((pB2 P) * (sqrt (1 - (pB2 P)))) + (((pBy P) ^ 2) * (1 - (sqrt (1 - (pB2 P)))))) * (sin (pphiz
  P)))) * (cos (pphiy P)))) * (ks_ddK0_D1D2 P f))) - ((((((pBy P) * (pBz P)) * ((sqrt (1 - (pB2 P)))
  - 1)) * (cos (pphiy P))) + ((((((pBx P) * (pBy P)) * ((sqrt (1 - (pB2 P))) - 1)) * (cos (pphiz P)))
  + ((((- (pB2 P)) * (sqrt (1 - (pB2 P)))) + (((pBy P) ^ 2) * ((sqrt (1 - (pB2 P))) - 1))) * (sin
  (pphiz P)))) * (sin (pphiy P)))) * (ks_ddK2_D1D2 P f)))) / (pB2 P).

(* /repo/Src/Main/Modules/Physics/Free_Data/fd_KerrSchild_c_k0_k1_k2_kt.c:766-782 *)
Definition ks_ddk1_D1D1 (P : kspar) (f : ksarg) : R :=
  ((/ (sqrt (1 - (pB2 P)))) * ((((((((pBx P) * (pBy P)) * ((sqrt (1 - (pB2 P))) - 1)) * (sin (pphiz
  P))) + ((((pB2 P) * (sqrt (1 - (pB2 P)))) + (((pBy P) ^ 2) * (1 - (sqrt (1 - (pB2 P)))))) * (cos
  (pphiz P)))) * (ks_ddK1_D1D1 P f)) + ((((((pBy P) * (pBz P)) * ((sqrt (1 - (pB2 P))) - 1)) * (sin
  (pphiy P))) + ((((((- (pBx P)) * (pBy P)) * ((sqrt (1 - (pB2 P))) - 1)) * (cos (pphiz P))) +
  ((((pB2 P) * (sqrt (1 - (pB2 P)))) + (((pBy P) ^ 2) * (1 - (sqrt (1 - (pB2 P)))))) * (sin (pphiz
  P)))) * (cos (pphiy P)))) * (ks_ddK0_D1D1 P f))) - ((((((pBy P) * (pBz P)) * ((sqrt (1 - (pB2 P)))
  - 1)) * (cos (pphiy P))) + ((((((pBx P) * (pBy P)) * ((sqrt (1 - (pB2 P))) - 1)) * (cos (pphiz P)))
  + ((((- (pB2 P)) * (sqrt (1 - (pB2 P)))) + (((pBy P) ^ 2) * ((sqrt (1 - (pB2 P))) - 1))) * (sin
  (pphiz P)))) * (sin (pphiy P)))) * (ks_ddK2_D1D1 P f)))) / (pB2 P).

(* /repo/Src/Main/Modules/Physics/Free_Data/fd_KerrSchild_c_k0_k1_k2_kt.c:783-799 *)
Definition ks_ddk1_D0D1 (P : kspar) (f : ksarg) : R :=
  ((/ (sqrt (1 - (pB2 P)))) * ((((((((pBx P) * (pBy P)) * ((sqrt (1 - (pB2 P))) - 1)) * (sin (pphiz
  P))) + ((((pB2 P) * (sqrt (1 - (pB2 P)))) + (((pBy P) ^ 2) * (1 - (sqrt (1 - (pB2 P)))))) * (cos
  (pphiz P)))) * (ks_ddK1_D0D1 P f)) + ((((((pBy P) * (pBz P)) * ((sqrt (1 - (pB2 P))) - 1)) * (sin
  (pphiy P))) + ((((((- (pBx P)) * (pBy P)) * ((sqrt (1 - (pB2 P))) - 1)) * (cos (pphiz P))) +
  ((((pB2 P) * (sqrt (1 - (pB2 P)))) + (((pBy P) ^ 2) * (1 - (sqrt (1 - (pB2 P)))))) * (sin (pphiz
  P)))) * (cos (pphiy P)))) * (ks_ddK0_D0D1 P f))) - ((((((pBy P) * (pBz P)) * ((sqrt (1 - (pB2 P)))
  - 1)) * (cos (pphiy P))) + ((((((pBx P) * (pBy P)) * ((sqrt (1 - (pB2 P))) - 1)) * (cos (pphiz P)))
  + ((((- (pB2 P)) * (sqrt (1 - (pB2 P)))) + (((pBy P) ^ 2) * ((sqrt (1 - (pB2 P))) - 1))) * (sin
  (pphiz P)))) * (sin (pphiy P)))) * (ks_ddK2_D0D1 P f)))) / (pB2 P).

(* /repo/Src/Main/Modules/Physics/Free_Data/fd_KerrSchild_c_k0_k1_k2_kt.c:1182-1197 *)
Definition ks_ddk2_D0D0 (P : kspar) (f : ksarg) : R :=
  ((/ (sqrt (1 - (pB2 P)))) * ((((((pBz P) * (((pBx P) * (sin (pphiz P))) - ((pBy P) * (cos (pphiz
  P))))) * ((sqrt (1 - (pB2 P))) - 1)) * (ks_ddK1_D0D0 P f)) - ((((((pBz P) * (((pBx P) * (cos (pphiz
  P))) + ((pBy P) * (sin (pphiz P))))) * ((sqrt (1 - (pB2 P))) - 1)) * (sin (pphiy P))) + ((((- (pB2
  P)) * (sqrt (1 - (pB2 P)))) + (((pBz P) ^ 2) * ((sqrt (1 - (pB2 P))) - 1))) * (cos (pphiy P)))) *
  (ks_ddK2_D0D0 P f))) - ((((((pBz P) * (((pBx P) * (cos (pphiz P))) + ((pBy P) * (sin (pphiz P)))))
  * ((sqrt (1 - (pB2 P))) - 1)) * (cos (pphiy P))) + ((((pB2 P) * (sqrt (1 - (pB2 P)))) + (((pBz P) ^
  2) * (1 - (sqrt (1 - (pB2 P)))))) * (sin (pphiy P)))) * (ks_ddK0_D0D0 P f)))) / (pB2 P).

(* /repo/Src/Main/Modules/Physics/Free_Data/fd_KerrSchild_c_k0_k1_k2_kt.c:1198-1213 *)
Definition ks_ddk2_D2D2 (P : kspar) (f : ksarg) : R :=
  ((/ (sqrt (1 - (pB2 P)))) * ((((((pBz P) * (((pBx P) * (sin (pphiz P))) - ((pBy P) * (cos (pphiz
  P))))) * ((sqrt (1 - (pB2 P))) - 1)) * (ks_ddK1_D2D2 P f)) - ((((((pBz P) * (((pBx P) * (cos (pphiz
  P))) + ((pBy P) * (sin (pphiz P))))) * ((sqrt (1 - (pB2 P))) - 1)) * (sin (pphiy P))) + ((((- (pB2
  P)) * (sqrt (1 - (pB2 P)))) + (((pBz P) ^ 2) * ((sqrt (1 - (pB2 P))) - 1))) * (cos (pphiy P)))) *
  (ks_ddK2_D2D2 P f))) - ((((((pBz P) * (((pBx P) * (cos (pphiz P))) + ((pBy P) * (sin (pphiz P)))))
  * ((sqrt (1 - (pB2 P))) - 1)) * (cos (pphiy P))) + ((((pB2 P) * (sqrt (1 - (pB2 P)))) + (((pBz P) ^
  2) * (1 - (sqrt (1 - (pB2 P)))))) * (sin (pphiy P)))) * (ks_ddK0_D2D2 P f)))) / (pB2 P).

(* /repo/Src/Main/Modules/Physics/Free_Data/fd_KerrSchild_c_k0_k1_k2_kt.c:1214-1229 *)
Definition ks_ddk2_D1D2 (P : kspar) (f : ksarg) : R :=
  ((/ (sqrt (1 - (pB2 P)))) * ((((((pBz P) * (((pBx P) * (sin (pphiz P))) - ((pBy P) * (cos (pphiz
  P))))) * ((sqrt (1 - (pB2 P))) - 1)) * (ks_ddK1_D1D2 P f)) - ((((((pBz P) * (((pBx P) * (cos (pphiz
  P))) + ((pBy P) * (sin (pphiz P))))) * ((sqrt (1 - (pB2 P))) - 1)) * (sin (pphiy P))) + ((((- (pB2
  P)) * (sqrt (1 - (pB2 P)))) + (((pBz P) ^ 2) * ((sqrt (1 - (pB2 P))) - 1))) * (cos (pphiy P)))) *
  (ks_ddK2_D1D2 P f))) - ((((((pBz P) * (((pBx P) * (cos (pphiz P))) + ((pBy P) * (sin (pphiz P)))))
  * ((sqrt (1 - (pB2 P))) - 1)) * (cos (pphiy P))) + ((((pB2 P) * (sqrt (1 - (pB2 P)))) + (((pBz P) ^
  2) * (1 - (sqrt (1 - (pB2 P)))))) * (sin (pphiy P)))) * (ks_ddK0_D1D2 P f)))) / (pB2 P).

(* /repo/Src/Main/Modules/Physics/Free_Data/fd_KerrSchild_c_k0_k1_k2_kt.c:1230-1245 *)
Definition ks_ddk2_D0D2 (P : kspar) (f : ksarg) : R :=
  ((/ (sqrt (1 - (pB2 P)))) * ((((((pBz P) * (((pBx P) * (sin (pphiz P))) - ((pBy P) * (cos (pphiz
  P))))) * ((sqrt (1 - (pB2 P))) - 1)) * (ks_ddK1_D0D2 P f)) - ((((((pBz P) * (((pBx P) * (cos (pphiz
  P))) + ((pBy P) * (sin (pphiz P))))) * ((sqrt (1 - (pB2 P))) - 1)) * (sin (pphiy P))) + ((((- (pB2
  P)) * (sqrt (1 - (pB2 P)))) + (((pBz P) ^ 2) * ((sqrt (1 - (pB2 P))) - 1))) * (cos (pphiy P)))) *
  (ks_ddK2_D0D2 P f))) - ((((((pBz P) * (((pBx P) * (cos (pphiz P))) + ((pBy P) * (sin (pphiz P)))))
  * ((sqrt (1 - (pB2 P))) - 1)) * (cos (pphiy P))) + ((((pB2 P) * (sqrt (1 - (pB2 P)))) + (((pBz P) ^
  2) * (1 - (sqrt (1 - (pB2 P)))))) * (sin (pphiy P)))) * (ks_ddK0_D0D2 P f)))) / (pB2 P).

(* /repo/Src/Main/Modules/Physics/Free_Data/fd_KerrSchild_c_k0_k1_k2_kt.c:1246-1261 *)
Definition ks_ddk2_D0D1 (P : kspar) (f : ksarg) : R :=
  ((/ (sqrt (1 - (pB2 P)))) * ((((((pBz P) * (((pBx P) * (sin (pphiz P))) - ((pBy P) * (cos (pphiz
  P))))) * ((sqrt (1 - (pB2 P))) - 1)) * (ks_ddK1_D0D1 P f)) - ((((((pBz P) * (((pBx P) * (cos (pphiz
  P))) + ((pBy P) * (sin (pphiz P))))) * ((sqrt (1 - (pB2 P))) - 1)) * (sin (pphiy P))) + ((((- (pB2
  P)) * (sqrt (1 - (pB2 P)))) + (((pBz P) ^ 2) * ((sqrt (1 - (pB2 P))) - 1))) * (cos (pphiy P)))) *
  (ks_ddK2_D0D1 P f))) - ((((((pBz P) * (((pBx P) * (cos (pphiz P))) + ((pBy P) * (sin (pphiz P)))))
  * ((sqrt (1 - (pB2 P))) - 1)) * (cos (pphiy P))) + ((((pB2 P) * (sqrt (1 - (pB2 P)))) + (((pBz P) ^
  2) * (1 - (sqrt (1 - (pB2 P)))))) * (sin (pphiy P)))) * (ks_ddK0_D0D1 P f)))) / (pB2 P).

(* /repo/Src/Main/Modules/Physics/Free_Data/fd_KerrSchild_c_k0_k1_k2_kt.c:1262-1277 *)
Definition ks_ddk2_D1D1 (P : kspar) (f : ksarg) : R :=
  ((/ (sqrt (1 - (pB2 P)))) * ((((((pBz P) * (((pBx P) * (sin (pphiz P))) - ((pBy P) * (cos (pphiz
  P))))) * ((sqrt (1 - (pB2 P))) - 1)) * (ks_ddK1_D1D1 P f)) - ((((((pBz P) * (((pBx P) * (cos (pphiz
  P))) + ((pBy P) * (sin (pphiz P))))) * ((sqrt (1 - (pB2 P))) - 1)) * (sin (pphiy P))) + ((((- (pB2
  P)) * (sqrt (1 - (pB2 P)))) + (((pBz P) ^ 2) * ((sqrt (1 - (pB2 P))) - 1))) * (cos (pphiy P)))) *
  (ks_ddK2_D1D1 P f))) - ((((((pBz P) * (((pBx P) * (cos (pphiz P))) + ((pBy P) * (sin (pphiz P)))))
  * ((sqrt (1 - (pB2 P))) - 1)) * (cos (pphiy P))) + ((((pB2 P) * (sqrt (1 - (pB2 P)))) + (((pBz P) ^
  2) * (1 - (sqrt (1 - (pB2 P)))))) * (sin (pphiy P)))) * (ks_ddK0_D1D1 P f)))) / (pB2 P).

(* /repo/Src/Main/Modules/Physics/Free_Data/fd_KerrSchild_c_k0_k1_k2_kt.c:1618-1630 *)
Definition ks_ddkt_D2D2 (P : kspar) (f : ksarg) : R :=
  (/ (sqrt (1 - (pB2 P)))) * ((((((pBx P) * (sin (pphiz P))) - ((pBy P) * (cos (pphiz P)))) *
  (ks_ddK1_D2D2 P f)) + ((((pBz P) * (sin (pphiy P))) - ((((pBx P) * (cos (pphiz P))) + ((pBy P) *
  (sin (pphiz P)))) * (cos (pphiy P)))) * (ks_ddK0_D2D2 P f))) - ((((pBz P) * (cos (pphiy P))) +
  ((((pBx P) * (cos (pphiz P))) + ((pBy P) * (sin (pphiz P)))) * (sin (pphiy P)))) * (ks_ddK2_D2D2 P
  f))).

(* /repo/Src/Main/Modules/Physics/Free_Data/fd_KerrSchild_c_k0_k1_k2_kt.c:1631-1643 *)
Definition ks_ddkt_D1D2 (P : kspar) (f : ksarg) : R :=
  (/ (sqrt (1 - (pB2 P)))) * ((((((pBx P) * (sin (pphiz P))) - ((pBy P) * (cos (pphiz P)))) *
  (ks_ddK1_D1D2 P f)) + ((((pBz P) * (sin (pphiy P))) - ((((pBx P) * (cos (pphiz P))) + ((pBy P) *
  (sin (pphiz P)))) * (cos (pphiy P)))) * (ks_ddK0_D1D2 P f))) - ((((pBz P) * (cos (pphiy P))) +
  ((((pBx P) * (cos (pphiz P))) + ((pBy P) * (sin (pphiz P)))) * (sin (pphiy P)))) * (ks_ddK2_D1D2 P
  f))).

(* /repo/Src/Main/Modules/Physics/Free_Data/fd_KerrSchild_c_k0_k1_k2_kt.c:1644-1656 *)
Definition ks_ddkt_D0D1 (P : kspar) (f : ksarg) : R :=
  (/ (sqrt (1 - (pB2 P)))) * ((((((pBx P) * (sin (pphiz P))) - ((pBy P) * (cos (pphiz P)))) *
  (ks_ddK1_D0D1 P f)) + ((((pBz P) * (sin (pphiy P))) - ((((pBx P) * (cos (pphiz P))) + ((pBy P) *
  (sin (pphiz P)))) * (cos (pphiy P)))) * (ks_ddK0_D0D1 P f))) - ((((pBz P) * (cos (pphiy P))) +
  ((((pBx P) * (cos (pphiz P))) + ((pBy P) * (sin (pphiz P)))) * (sin (pphiy P)))) * (ks_ddK2_D0D1 P
  f))).

(* /repo/Src/Main/Modules/Physics/Free_Data/fd_KerrSchild_c_k0_k1_k2_kt.c:1657-1669 *)
Definition ks_ddkt_D0D0 (P : kspar) (f : ksarg) : R :=
  (/ (sqrt (1 - (pB2 P)))) * ((((((pBx P) * (sin (pphiz P))) - ((pBy P) * (cos (pphiz P)))) *
  (ks_ddK1_D0D0 P f)) + ((((pBz P) * (sin (pphiy P))) - ((((pBx P) * (cos (pphiz P))) + ((pBy P) *
  (sin (pphiz P)))) * (cos (pphiy P)))) * (ks_ddK0_D0D0 P f))) - ((((pBz P) * (cos (pphiy P))) +
  ((((pBx P) * (cos (pphiz P))) + ((pBy P) * (sin (pphiz P)))) * (sin (pphiy P)))) * (ks_ddK2_D0D0 P
  f))).

(* /repo/Src/Main/Modules/Physics/Free_Data/fd_KerrSchild_c_k0_k1_k2_kt.c:1670-1682 *)
Definition ks_ddkt_D0D2 (P : kspar) (f : ksarg) : R :=
  (/ (sqrt (1 - (pB2 P)))) * ((((((pBx P) * (sin (pphiz P))) - ((pBy P) * (cos (pphiz P)))) *
  (ks_ddK1_D0D2 P f)) + ((((pBz P) * (sin (pphiy P))) - ((((pBx P) * (cos (pphiz P))) + ((pBy P) *
  (sin (pphiz P)))) * (cos (pphiy P)))) * (ks_ddK0_D0D2 P f))) - ((((pBz P) * (cos (pphiy P))) +
  ((((pBx P) * (cos (pphiz P))) + ((pBy P) * (sin (pphiz P)))) * (sin (pphiy P)))) * (ks_ddK2_D0D2 P
  f))).

(* /repo/Src/Main/Modules/Physics/Free_Data/fd_KerrSchild_c_k0_k1_k2_kt.c:1683-1695 *)
Definition ks_ddkt_D1D1 (P : kspar) (f : ksarg) : R :=
  (/ (sqrt (1 - (pB2 P)))) * ((((((pBx P) * (sin (pphiz P))) - ((pBy P) * (cos (pphiz P)))) *
  (ks_ddK1_D1D1 P f)) + ((((pBz P) * (sin (pphiy P))) - ((((pBx P) * (cos (pphiz P))) + ((pBy P) *
  (sin (pphiz P)))) * (cos (pphiy P)))) * (ks_ddK0_D1D1 P f))) - ((((pBz P) * (cos (pphiy P))) +
  ((((pBx P) * (cos (pphiz P))) + ((pBy P) * (sin (pphiz P)))) * (sin (pphiy P)))) * (ks_ddK2_D1D1 P
  f))).

(* /repo/Src/Main/Modules/Physics/Free_Data/fd_KerrSchild_c_k0_k1_k2_kt.c:1962-1969 *)
Definition ks_ddc_D0D2 (P : kspar) (f : ksarg) : R :=
  2 * (ks_ddH_D0D2 P f).

(* /repo/Src/Main/Modules/Physics/Free_Data/fd_KerrSchild_c_k0_k1_k2_kt.c:1970-1977 *)
Definition ks_ddc_D1D2 (P : kspar) (f : ksarg) : R :=
  2 * (ks_ddH_D1D2 P f).

(* /repo/Src/Main/Modules/Physics/Free_Data/fd_KerrSchild_c_k0_k1_k2_kt.c:1978-1985 *)
Definition ks_ddc_D1D1 (P : kspar) (f : ksarg) : R :=
  2 * (ks_ddH_D1D1 P f).

(* /repo/Src/Main/Modules/Physics/Free_Data/fd_KerrSchild_c_k0_k1_k2_kt.c:1986-1993 *)
Definition ks_ddc_D0D1 (P : kspar) (f : ksarg) : R :=
  2 * (ks_ddH_D0D1 P f).

(* /repo/Src/Main/Modules/Physics/Free_Data/fd_KerrSchild_c_k0_k1_k2_kt.c:1994-2001 *)
Definition ks_ddc_D0D0 (P : kspar) (f : ksarg) : R :=
  2 * (ks_ddH_D0D0 P f).

(* /repo/Src/Main/Modules/Physics/Free_Data/fd_KerrSchild_c_k0_k1_k2_kt.c:2002-2009 *)
Definition ks_ddc_D2D2 (P : kspar) (f : ksarg) : R :=
  2 * (ks_ddH_D2D2 P f).

(* /repo/Src/Main/Modules/Physics/Free_Data/fd_KerrSchild_c_k0_k1_k2_kt.c:312-329 *)
Definition ks_dddk0_D0D2D2 (P : kspar) (f : ksarg) : R :=
  ((/ (sqrt (1 - (pB2 P)))) * ((((- (((((pBx P) * (pBy P)) * ((sqrt (1 - (pB2 P))) - 1)) * (cos
  (pphiz P))) + ((((pB2 P) * (sqrt (1 - (pB2 P)))) + (((pBx P) ^ 2) * (1 - (sqrt (1 - (pB2 P)))))) *
  (sin (pphiz P))))) * (ks_dddK1_D0D2D2 P f)) + ((((((pBx P) * (pBz P)) * ((sqrt (1 - (pB2 P))) - 1))
  * (sin (pphiy P))) + ((((((- (pBx P)) * (pBy P)) * ((sqrt (1 - (pB2 P))) - 1)) * (sin (pphiz P))) +
  ((((pB2 P) * (sqrt (1 - (pB2 P)))) + (((pBx P) ^ 2) * (1 - (sqrt (1 - (pB2 P)))))) * (cos (pphiz
  P)))) * (cos (pphiy P)))) * (ks_dddK0_D0D2D2 P f))) - ((((((pBx P) * (pBz P)) * ((sqrt (1 - (pB2
  P))) - 1)) * (cos (pphiy P))) + ((((((pBx P) * (pBy P)) * ((sqrt (1 - (pB2 P))) - 1)) * (sin (pphiz
  P))) + ((((- (pB2 P)) * (sqrt (1 - (pB2 P)))) + (((pBx P) ^ 2) * ((sqrt (1 - (pB2 P))) - 1))) *
  (cos (pphiz P)))) * (sin (pphiy P)))) * (ks_dddK2_D0D2D2 P f)))) / (pB2 P).

(* /repo/Src/Main/Modules/Physics/Free_Data/fd_KerrSchild_c_k0_k1_k2_kt.c:330-347 *)
Definition ks_dddk0_D1D1D0 (P : kspar) (f : ksarg) : R :=
  ((/ (sqrt (1 - (pB2 P)))) * ((((- (((((pBx P) * (pBy P)) * ((sqrt (1 - (pB2 P))) - 1)) * (cos
  (pphiz P))) + ((((pB2 P) * (sqrt (1 - (pB2 P)))) + (((pBx P) ^ 2) * (1 - (sqrt (1 - (pB2 P)))))) *
  (sin (pphiz P))))) * (ks_dddK1_D0D1D1 P f)) + ((((((pBx P) * (pBz P)) * ((sqrt (1 - (pB2 P))) - 1))
  * (sin (pphiy P))) + ((((((- (pBx P)) * (pBy P)) * ((sqrt (1 - (pB2 P))) - 1)) * (sin (pphiz P))) +
  ((((pB2 P) * (sqrt (1 - (pB2 P)))) + (((pBx P) ^ 2) * (1 - (sqrt (1 - (pB2 P)))))) * (cos (pphiz
  P)))) * (cos (pphiy P)))) * (ks_dddK0_D0D1D1 P f))) - ((((((pBx P) * (pBz P)) * ((sqrt (1 - (pB2
  P))) - 1)) * (cos (pphiy P))) + ((((((pBx P) * (pBy P)) * ((sqrt (1 - (pB2 P))) - 1)) * (sin (pphiz
  P))) + ((((- (pB2 P)) * (sqrt (1 - (pB2 P)))) + (((pBx P) ^ 2) * ((sqrt (1 - (pB2 P))) - 1))) *
  (cos (pphiz P)))) * (sin (pphiy P)))) * (ks_dddK2_D0D1D1 P f)))) / (pB2 P).

(* /repo/Src/Main/Modules/Physics/Free_Data/fd_KerrSchild_c_k0_k1_k2_kt.c:348-365 *)
Definition ks_dddk0_D0D2D0 (P : kspar) (f : ksarg) : R :=
  ((/ (sqrt (1 - (pB2 P)))) * ((((- (((((pBx P) * (pBy P)) * ((sqrt (1 - (pB2 P))) - 1)) * (cos
  (pphiz P))) + ((((pB2 P) * (sqrt (1 - (pB2 P)))) + (((pBx P) ^ 2) * (1 - (sqrt (1 - (pB2 P)))))) *
  (sin (pphiz P))))) * (ks_dddK1_D0D0D2 P f)) + ((((((pBx P) * (pBz P)) * ((sqrt (1 - (pB2 P))) - 1))
  * (sin (pphiy P))) + ((((((- (pBx P)) * (pBy P)) * ((sqrt (1 - (pB2 P))) - 1)) * (sin (pphiz P))) +
  ((((pB2 P) * (sqrt (1 - (pB2 P)))) + (((pBx P) ^ 2) * (1 - (sqrt (1 - (pB2 P)))))) * (cos (pphiz
  P)))) * (cos (pphiy P)))) * (ks_dddK0_D0D0D2 P f))) - ((((((pBx P) * (pBz P)) * ((sqrt (1 - (pB2
  P))) - 1)) * (cos (pphiy P))) + ((((((pBx P) * (pBy P)) * ((sqrt (1 - (pB2 P))) - 1)) * (sin (pphiz
  P))) + ((((- (pB2 P)) * (sqrt (1 - (pB2 P)))) + (((pBx P) ^ 2) * ((sqrt (1 - (pB2 P))) - 1))) *
  (cos (pphiz P)))) * (sin (pphiy P)))) * (ks_dddK2_D0D0D2 P f)))) / (pB2 P).

(* /repo/Src/Main/Modules/Physics/Free_Data/fd_KerrSchild_c_k0_k1_k2_kt.c:366-382 *)
Definition ks_dddk0_D0D2D1 (P : kspar) (f : ksarg) : R :=
  ((/ (sqrt (1 - (pB2 P)))) * ((((- (((((pBx P) * (pBy P)) * ((sqrt (1 - (pB2 P))) - 1)) * (cos
  (pphiz P))) + ((((pB2 P) * (sqrt (1 - (pB2 P)))) + (((pBx P) ^ 2) * (1 - (sqrt (1 - (pB2 P)))))) *
  (sin (pphiz P))))) * (ks_dddK1_D0D1D2 P f)) + ((((((pBx P) * (pBz P)) * ((sqrt (1 - (pB2 P))) - 1))
  * (sin (pphiy P))) + ((((((- (pBx P)) * (pBy P)) * ((sqrt (1 - (pB2 P))) - 1)) * (sin (pphiz P))) +
  ((((pB2 P) * (sqrt (1 - (pB2 P)))) + (((pBx P) ^ 2) * (1 - (sqrt (1 - (pB2 P)))))) * (cos (pphiz
  P)))) * (cos (pphiy P)))) * (ks_dddK0_D0D1D2 P f))) - ((((((pBx P) * (pBz P)) * ((sqrt (1 - (pB2
  P))) - 1)) * (cos (pphiy P))) + ((((((pBx P) * (pBy P)) * ((sqrt (1 - (pB2 P))) - 1)) * (sin (pphiz
  P))) + ((((- (pB2 P)) * (sqrt (1 - (pB2 P)))) + (((pBx P) ^ 2) * ((sqrt (1 - (pB2 P))) - 1))) *
  (cos (pphiz P)))) * (sin (pphiy P)))) * (ks_dddK2_D0D1D2 P f)))) / (pB2 P).

(* /repo/Src/Main/Modules/Physics/Free_Data/fd_KerrSchild_c_k0_k1_k2_kt.c:383-400 *)
Definition ks_dddk0_D2D2D1 (P : kspar) (f : ksarg) : R :=
  ((/ (sqrt (1 - (pB2 P)))) * ((((- (((((pBx P) * (pBy P)) * ((sqrt (1 - (pB2 P))) - 1)) * (cos
  (pphiz P))) + ((((pB2 P) * (sqrt (1 - (pB2 P)))) + (((pBx P) ^ 2) * (1 - (sqrt (1 - (pB2 P)))))) *
  (sin (pphiz P))))) * (ks_dddK1_D1D2D2 P f)) + ((((((pBx P) * (pBz P)) * ((sqrt (1 - (pB2 P))) - 1))
  * (sin (pphiy P))) + ((((((- (pBx P)) * (pBy P)) * ((sqrt (1 - (pB2 P))) - 1)) * (sin (pphiz P))) +
  ((((pB2 P) * (sqrt (1 - (pB2 P)))) + (((pBx P) ^ 2) * (1 - (sqrt (1 - (pB2 P)))))) * (cos (pphiz
  P)))) * (cos (pphiy P)))) * (ks_dddK0_D1D2D2 P f))) - ((((((pBx P) * (pBz P)) * ((sqrt (1 - (pB2
  P))) - 1)) * (cos (pphiy P))) + ((((((pBx P) * (pBy P)) * ((sqrt (1 - (pB2 P))) - 1)) * (sin (pphiz
  P))) + ((((- (pB2 P)) * (sqrt (1 - (pB2 P)))) + (((pBx P) ^ 2) * ((sqrt (1 - (pB2 P))) - 1))) *
  (cos (pphiz P)))) * (sin (pphiy P)))) * (ks_dddK2_D1D2D2 P f)))) / (pB2 P).

(* /repo/Src/Main/Modules/Physics/Free_Data/fd_KerrSchild_c_k0_k1_k2_kt.c:401-418 *)
Definition ks_dddk0_D2D2D0 (P : kspar) (f : ksarg) : R :=
  ((/ (sqrt (1 - (pB2 P)))) * ((((- (((((pBx P) * (pBy P)) * ((sqrt (1 - (pB2 P))) - 1)) * (cos
  (pphiz P))) + ((((pB2 P) * (sqrt (1 - (pB2 P)))) + (((pBx P) ^ 2) * (1 - (sqrt (1 - (pB2 P)))))) *
  (sin (pphiz P))))) * (ks_dddK1_D0D2D2 P f)) + ((((((pBx P) * (pBz P)) * ((sqrt (1 - (pB2 P))) - 1))
  * (sin (pphiy P))) + ((((((- (pBx P)) * (pBy P)) * ((sqrt (1 - (pB2 P))) - 1)) * (sin (pphiz P))) +
  ((((pB2 P) * (sqrt (1 - (pB2 P)))) + (((pBx P) ^ 2) * (1 - (sqrt (1 - (pB2 P)))))) * (cos (pphiz
  P)))) * (cos (pphiy P)))) * (ks_dddK0_D0D2D2 P f))) - ((((((pBx P) * (pBz P)) * ((sqrt (1 - (pB2
  P))) - 1)) * (cos (pphiy P))) + ((((((pBx P) * (pBy P)) * ((sqrt (1 - (pB2 P))) - 1)) * (sin (pphiz
  P))) + ((((- (pB2 P)) * (sqrt (1 - (pB2 P)))) + (((pBx P) ^ 2) * ((sqrt (1 - (pB2 P))) - 1))) *
  (cos (pphiz P)))) * (sin (pphiy P)))) * (ks_dddK2_D0D2D2 P f)))) / (pB2 P).

(* /repo/Src/Main/Modules/Physics/Free_Data/fd_KerrSchild_c_k0_k1_k2_kt.c:419-435 *)
Definition ks_dddk0_D1D1D1 (P : kspar) (f : ksarg) : R :=
  ((/ (sqrt (1 - (pB2 P)))) * ((((- (((((pBx P) * (pBy P)) * ((sqrt (1 - (pB2 P))) - 1)) * (cos
  (pphiz P))) + ((((pB2 P) * (sqrt (1 - (pB2 P)))) + (((pBx P) ^ 2) * (1 - (sqrt (1 - (pB2 P)))))) *
  (sin (pphiz P))))) * (ks_dddK1_D1D1D1 P f)) + ((((((pBx P) * (pBz P)) * ((sqrt (1 - (pB2 P))) - 1))
  * (sin (pphiy P))) + ((((((- (pBx P)) * (pBy P)) * ((sqrt (1 - (pB2 P))) - 1)) * (sin (pphiz P))) +
  ((((pB2 P) * (sqrt (1 - (pB2 P)))) + (((pBx P) ^ 2) * (1 - (sqrt (1 - (pB2 P)))))) * (cos (pphiz
  P)))) * (cos (pphiy P)))) * (ks_dddK0_D1D1D1 P f))) - ((((((pBx P) * (pBz P)) * ((sqrt (1 - (pB2
  P))) - 1)) * (cos (pphiy P))) + ((((((pBx P) * (pBy P)) * ((sqrt (1 - (pB2 P))) - 1)) * (sin (pphiz
  P))) + ((((- (pB2 P)) * (sqrt (1 - (pB2 P)))) + (((pBx P) ^ 2) * ((sqrt (1 - (pB2 P))) - 1))) *
  (cos (pphiz P)))) * (sin (pphiy P)))) * (ks_dddK2_D1D1D1 P f)))) / (pB2 P).

(* /repo/Src/Main/Modules/Physics/Free_Data/fd_KerrSchild_c_k0_k1_k2_kt.c:436-452 *)
Definition ks_dddk0_D2D2D2 (P : kspar) (f : ksarg) : R :=
  ((/ (sqrt (1 - (pB2 P)))) * ((((- (((((pBx P) * (pBy P)) * ((sqrt (1 - (pB2 P))) - 1)) * (cos
  (pphiz P))) + ((((pB2 P) * (sqrt (1 - (pB2 P)))) + (((pBx P) ^ 2) * (1 - (sqrt (1 - (pB2 P)))))) *
  (sin (pphiz P))))) * (ks_dddK1_D2D2D2 P f)) + ((((((pBx P) * (pBz P)) * ((sqrt (1 - (pB2 P))) - 1))
  * (sin (pphiy P))) + ((((((- (pBx P)) * (pBy P)) * ((sqrt (1 - (pB2 P))) - 1)) * (sin (pphiz P))) +
  ((((pB2 P) * (sqrt (1 - (pB2 P)))) + (((pBx P) ^ 2) * (1 - (sqrt (1 - (pB2 P)))))) * (cos (pphiz
  P)))) * (cos (pphiy P)))) * (ks_dddK0_D2D2D2 P f))) - ((((((pBx P) * (pBz P)) * ((sqrt (1 - (pB2
  P))) - 1)) * (cos (pphiy P))) + ((((((pBx P) * (pBy P)) * ((sqrt (1 - (pB2 P))) - 1)) * (sin (pphiz
  P))) + ((((- (pB2 P)) * (sqrt (1 - (pB2 P)))) + (((pBx P) ^ 2) * ((sqrt (1 - (pB2 P))) - 1))) *
  (cos (pphiz P)))) * (sin (pphiy P)))) * (ks_dddK2_D2D2D2 P f)))) / (pB2 P).

(* /repo/Src/Main/Modules/Physics/Free_Data/fd_KerrSchild_c_k0_k1_k2_kt.c:453-470 *)
Definition ks_dddk0_D0D1D1 (P : kspar) (f : ksarg) : R :=
  ((/ (sqrt (1 - (pB2 P)))) * ((((- (((((pBx P) * (pBy P)) * ((sqrt (1 - (pB2 P))) - 1)) * (cos
  (pphiz P))) + ((((pB2 P) * (sqrt (1 - (pB2 P)))) + (((pBx P) ^ 2) * (1 - (sqrt (1 - (pB2 P)))))) *
  (sin (pphiz P))))) * (ks_dddK1_D0D1D1 P f)) + ((((((pBx P) * (pBz P)) * ((sqrt (1 - (pB2 P))) - 1))
  * (sin (pphiy P))) + ((((((- (pBx P)) * (pBy P)) * ((sqrt (1 - (pB2 P))) - 1)) * (sin (pphiz P))) +
  ((((pB2 P) * (sqrt (1 - (pB2 P)))) + (((pBx P) ^ 2) * (1 - (sqrt (1 - (pB2 P)))))) * (cos (pphiz
  P)))) * (cos (pphiy P)))) * (ks_dddK0_D0D1D1 P f))) - ((((((pBx P) * (pBz P)) * ((sqrt (1 - (pB2
  P))) - 1)) * (cos (pphiy P))) + ((((((pBx P) * (pBy P)) * ((sqrt (1 - (pB2 P))) - 1)) * (sin (pphiz
  P))) + ((((- (pB2 P)) * (sqrt (1 - (pB2 P)))) + (((pBx P) ^ 2) * ((sqrt (1 - (pB2 P))) - 1))) *
  (cos (pphiz P)))) * (sin (pphiy P)))) * (ks_dddK2_D0D1D1 P f)))) / (pB2 P).

(* /repo/Src/Main/Modules/Physics/Free_Data/fd_KerrSchild_c_k0_k1_k2_kt.c:471-488 *)
Definition ks_dddk0_D0D1D0 (P : kspar) (f : ksarg) : R :=
  ((/ (sqrt (1 - (pB2 P)))) * ((((- (((((pBx P) * (pBy P)) * ((sqrt (1 - (pB2 P))) - 1)) * (cos
  (pphiz P))) + ((((pB2 P) * (sqrt (1 - (pB2 P)))) + (((pBx P) ^ 2) * (1 - (sqrt (1 - (pB2 P)))))) *
  (sin (pphiz P))))) * (ks_dddK1_D0D0D1 P f)) + ((((((pBx P) * (pBz P)) * ((sqrt (1 - (pB2 P))) - 1))
  * (sin (pphiy P))) + ((((((- (pBx P)) * (pBy P)) * ((sqrt (1 - (pB2 P))) - 1)) * (sin (pphiz P))) +
  ((((pB2 P) * (sqrt (1 - (pB2 P)))) + (((pBx P) ^ 2) * (1 - (sqrt (1 - (pB2 P)))))) * (cos (pphiz
  P)))) * (cos (pphiy P)))) * (ks_dddK0_D0D0D1 P f))) - ((((((pBx P) * (pBz P)) * ((sqrt (1 - (pB2
  P))) - 1)) * (cos (pphiy P))) + ((((((pBx P) * (pBy P)) * ((sqrt (1 - (pB2 P))) - 1)) * (sin (pphiz
  P))) + ((((- (pB2 P)) * (sqrt (1 - (pB2 P)))) + (((pBx P) ^ 2) * ((sqrt (1 - (pB2 P))) - 1))) *
  (cos (pphiz P)))) * (sin (pphiy P)))) * (ks_dddK2_D0D0D1 P f)))) / (pB2 P).

(* /repo/Src/Main/Modules/Physics/Free_Data/fd_KerrSchild_c_k0_k1_k2_kt.c:489-506 *)
Definition ks_dddk0_D1D1D2 (P : kspar) (f : ksarg) : R :=
  ((/ (sqrt (1 - (pB2 P)))) * ((((- (((((pBx P) * (pBy P)) * ((sqrt (1 - (pB2 P))) - 1)) * (cos
  (pphiz P))) + ((((pB2 P) * (sqrt (1 - (pB2 P)))) + (((pBx P) ^ 2) * (1 - (sqrt (1 - (pB2 P)))))) *
  (sin (pphiz P))))) * (ks_dddK1_D1D1D2 P f)) + ((((((pBx P) * (pBz P)) * ((sqrt (1 - (pB2 P))) - 1))
  * (sin (pphiy P))) + ((((((- (pBx P)) * (pBy P)) * ((sqrt (1 - (pB2 P))) - 1)) * (sin (pphiz P))) +
  ((((pB2 P) * (sqrt (1 - (pB2 P)))) + (((pBx P) ^ 2) * (1 - (sqrt (1 - (pB2 P)))))) * (cos (pphiz
  P)))) * (cos (pphiy P)))) * (ks_dddK0_D1D1D2 P f))) - ((((((pBx P) * (pBz P)) * ((sqrt (1 - (pB2
  P))) - 1)) * (cos (pphiy P))) + ((((((pBx P) * (pBy P)) * ((sqrt (1 - (pB2 P))) - 1)) * (sin (pphiz
  P))) + ((((- (pB2 P)) * (sqrt (1 - (pB2 P)))) + (((pBx P) ^ 2) * ((sqrt (1 - (pB2 P))) - 1))) *
  (cos (pphiz P)))) * (sin (pphiy P)))) * (ks_dddK2_D1D1D2 P f)))) / (pB2 P).

(* /repo/Src/Main/Modules/Physics/Free_Data/fd_KerrSchild_c_k0_k1_k2_kt.c:507-523 *)
Definition ks_dddk0_D0D1D2 (P : kspar) (f : ksarg) : R :=
  ((/ (sqrt (1 - (pB2 P)))) * ((((- (((((pBx P) * (pBy P)) * ((sqrt (1 - (pB2 P))) - 1)) * (cos
  (pphiz P))) + ((((pB2 P) * (sqrt (1 - (pB2 P)))) + (((pBx P) ^ 2) * (1 - (sqrt (1 - (pB2 P)))))) *
  (sin (pphiz P))))) * (ks_dddK1_D0D1D2 P f)) + ((((((pBx P) * (pBz P)) * ((sqrt (1 - (pB2 P))) - 1))
  * (sin (pphiy P))) + ((((((- (pBx P)) * (pBy P)) * ((sqrt (1 - (pB2 P))) - 1)) * (sin (pphiz P))) +
  ((((pB2 P) * (sqrt (1 - (pB2 P)))) + (((pBx P) ^ 2) * (1 - (sqrt (1 - (pB2 P)))))) * (cos (pphiz
  P)))) * (cos (pphiy P)))) * (ks_dddK0_D0D1D2 P f))) - ((((((pBx P) * (pBz P)) * ((sqrt (1 - (pB2
  P))) - 1)) * (cos (pphiy P))) + ((((((pBx P) * (pBy P)) * ((sqrt (1 - (pB2 P))) - 1)) * (sin (pphiz
  P))) + ((((- (pB2 P)) * (sqrt (1 - (pB2 P)))) + (((pBx P) ^ 2) * ((sqrt (1 - (pB2 P))) - 1))) *
  (cos (pphiz P)))) * (sin (pphiy P)))) * (ks_dddK2_D0D1D2 P f)))) / (pB2 P).

(* /repo/Src/Main/Modules/Physics/Free_Data/fd_KerrSchild_c_k0_k1_k2_kt.c:524-541 *)
Definition ks_dddk0_D1D2D2 (P : kspar) (f : ksarg) : R :=
  ((/ (sqrt (1 - (pB2 P)))) * ((((- (((((pBx P) * (pBy P)) * ((sqrt (1 - (pB2 P))) - 1)) * (cos
  (pphiz P))) + ((((pB2 P) * (sqrt (1 - (pB2 P)))) + (((pBx P) ^ 2) * (1 - (sqrt (1 - (pB2 P)))))) *
  (sin (pphiz P))))) * (ks_dddK1_D1D2D2 P f)) + ((((((pBx P) * (pBz P)) * ((sqrt (1 - (pB2 P))) - 1))
  * (sin (pphiy P))) + ((((((- (pBx P)) * (pBy P)) * ((sqrt (1 - (pB2 P))) - 1)) * (sin (pphiz P))) +
  ((((pB2 P) * (sqrt (1 - (pB2 P)))) + (((pBx P) ^ 2) * (1 - (sqrt (1 - (pB2 P)))))) * (cos (pphiz
  P)))) * (cos (pphiy P)))) * (ks_dddK0_D1D2D2 P f))) - ((((((pBx P) * (pBz P)) * ((sqrt (1 - (pB2
  P))) - 1)) * (cos (pphiy P))) + ((((((pBx P) * (pBy P)) * ((sqrt (1 - (pB2 P))) - 1)) * (sin (pphiz
  P))) + ((((- (pB2 P)) * (sqrt (1 - (pB2 P)))) + (((pBx P) ^ 2) * ((sqrt (1 - (pB2 P))) - 1))) *
  (cos (pphiz P)))) * (sin (pphiy P)))) * (ks_dddK2_D1D2D2 P f)))) / (pB2 P).

(* /repo/Src/Main/Modules/Physics/Free_Data/fd_KerrSchild_c_k0_k1_k2_kt.c:542-558 *)
Definition ks_dddk0_D0D0D0 (P : kspar) (f : ksarg) : R :=
  ((/ (sqrt (1 - (pB2 P)))) * ((((- (((((pBx P) * (pBy P)) * ((sqrt (1 - (pB2 P))) - 1)) * (cos
  (pphiz P))) + ((((pB2 P) * (sqrt (1 - (pB2 P)))) + (((pBx P) ^ 2) * (1 - (sqrt (1 - (pB2 P)))))) *
  (sin (pphiz P))))) * (ks_dddK1_D0D0D0 P f)) + ((((((pBx P) * (pBz P)) * ((sqrt (1 - (pB2 P))) - 1))
  * (sin (pphiy P))) + ((((((- (pBx P)) * (pBy P)) * ((sqrt (1 - (pB2 P))) - 1)) * (sin (pphiz P))) +
  ((((pB2 P) * (sqrt (1 - (pB2 P)))) + (((pBx P) ^ 2) * (1 - (sqrt (1 - (pB2 P)))))) * (cos (pphiz
  P)))) * (cos (pphiy P)))) * (ks_dddK0_D0D0D0 P f))) - ((((((pBx P) * (pBz P)) * ((sqrt (1 - (pB2
  P))) - 1)) * (cos (pphiy P))) + ((((((pBx P) * (pBy P)) * ((sqrt (1 - (pB2 P))) - 1)) * (sin (pphiz
  P))) + ((((- (pB2 P)) * (sqrt (1 - (pB2 P)))) + (((pBx P) ^ 2) * ((sqrt (1 - (pB2 P))) - 1))) *
  (cos (pphiz P)))) * (sin (pphiy P)))) * (ks_dddK2_D0D0D0 P f)))) / (pB2 P).

(* /repo/Src/Main/Modules/Physics/Free_Data/fd_KerrSchild_c_k0_k1_k2_kt.c:559-576 *)
Definition ks_dddk0_D0D0D1 (P : kspar) (f : ksarg) : R :=
  ((/ (sqrt (1 - (pB2 P)))) * ((((- (((((pBx P) * (pBy P)) * ((sqrt (1 - (pB2 P))) - 1)) * (cos
  (pphiz P))) + ((((pB2 P) * (sqrt (1 - (pB2 P)))) + (((pBx P) ^ 2) * (1 - (sqrt (1 - (pB2 P)))))) *
  (sin (pphiz P))))) * (ks_dddK1_D0D0D1 P f)) + ((((((pBx P) * (pBz P)) * ((sqrt (1 - (pB2 P))) - 1))
  * (sin (pphiy P))) + ((((((- (pBx P)) * (pBy P)) * ((sqrt (1 - (pB2 P))) - 1)) * (sin (pphiz P))) +
  ((((pB2 P) * (sqrt (1 - (pB2 P)))) + (((pBx P) ^ 2) * (1 - (sqrt (1 - (pB2 P)))))) * (cos (pphiz
  P)))) * (cos (pphiy P)))) * (ks_dddK0_D0D0D1 P f))) - ((((((pBx P) * (pBz P)) * ((sqrt (1 - (pB2
  P))) - 1)) * (cos (pphiy P))) + ((((((pBx P) * (pBy P)) * ((sqrt (1 - (pB2 P))) - 1)) * (sin (pphiz
  P))) + ((((- (pB2 P)) * (sqrt (1 - (pB2 P)))) + (((pBx P) ^ 2) * ((sqrt (1 - (pB2 P))) - 1))) *
  (cos (pphiz P)))) * (sin (pphiy P)))) * (ks_dddK2_D0D0D1 P f)))) / (pB2 P).

(* /repo/Src/Main/Modules/Physics/Free_Data/fd_KerrSchild_c_k0_k1_k2_kt.c:577-594 *)
Definition ks_dddk0_D0D0D2 (P : kspar) (f : ksarg) : R :=
  ((/ (sqrt (1 - (pB2 P)))) * ((((- (((((pBx P) * (pBy P)) * ((sqrt (1 - (pB2 P))) - 1)) * (cos
  (pphiz P))) + ((((pB2 P) * (sqrt (1 - (pB2 P)))) + (((pBx P) ^ 2) * (1 - (sqrt (1 - (pB2 P)))))) *
  (sin (pphiz P))))) * (ks_dddK1_D0D0D2 P f)) + ((((((pBx P) * (pBz P)) * ((sqrt (1 - (pB2 P))) - 1))
  * (sin (pphiy P))) + ((((((- (pBx P)) * (pBy P)) * ((sqrt (1 - (pB2 P))) - 1)) * (sin (pphiz P))) +
  ((((pB2 P) * (sqrt (1 - (pB2 P)))) + (((pBx P) ^ 2) * (1 - (sqrt (1 - (pB2 P)))))) * (cos (pphiz
  P)))) * (cos (pphiy P)))) * (ks_dddK0_D0D0D2 P f))) - ((((((pBx P) * (pBz P)) * ((sqrt (1 - (pB2
  P))) - 1)) * (cos (pphiy P))) + ((((((pBx P) * (pBy P)) * ((sqrt (1 - (pB2 P))) - 1)) * (sin (pphiz
  P))) + ((((- (pB2 P)) * (sqrt (1 - (pB2 P)))) + (((pBx P) ^ 2) * ((sqrt (1 - (pB2 P))) - 1))) *
  (cos (pphiz P)))) * (sin (pphiy P)))) * (ks_dddK2_D0D0D2 P f)))) / (pB2 P).

(* /repo/Src/Main/Modules/Physics/Free_Data/fd_KerrSchild_c_k0_k1_k2_kt.c:595-611 *)
Definition ks_dddk0_D1D2D0 (P : kspar) (f : ksarg) : R :=
  ((/ (sqrt (1 - (pB2 P)))) * ((((- (((((pBx P) * (pBy P)) * ((sqrt (1 - (pB2 P))) - 1)) * (cos
  (pphiz P))) + ((((pB2 P) * (sqrt (1 - (pB2 P)))) + (((pBx P) ^ 2) * (1 - (sqrt (1 - (pB2 P)))))) *
  (sin (pphiz P))))) * (ks_dddK1_D0D1D2 P f)) + ((((((pBx P) * (pBz P)) * ((sqrt (1 - (pB2 P))) - 1))
  * (sin (pphiy P))) + ((((((- (pBx P)) * (pBy P)) * ((sqrt (1 - (pB2 P))) - 1)) * (sin (pphiz P))) +
  ((((pB2 P) * (sqrt (1 - (pB2 P)))) + (((pBx P) ^ 2) * (1 - (sqrt (1 - (pB2 P)))))) * (cos (pphiz
  P)))) * (cos (pphiy P)))) * (ks_dddK0_D0D1D2 P f))) - ((((((pBx P) * (pBz P)) * ((sqrt (1 - (pB2
  P))) - 1)) * (cos (pphiy P))) + ((((((pBx P) * (pBy P)) * ((sqrt (1 - (pB2 P))) - 1)) * (sin (pphiz
  P))) + ((((- (pB2 P)) * (sqrt (1 - (pB2 P)))) + (((pBx P) ^ 2) * ((sqrt (1 - (pB2 P))) - 1))) *
  (cos (pphiz P)))) * (sin (pphiy P)))) * (ks_dddK2_D0D1D2 P f)))) / (pB2 P).

(* /repo/Src/Main/Modules/Physics/Free_Data/fd_KerrSchild_c_k0_k1_k2_kt.c:612-629 *)
Definition ks_dddk0_D1D2D1 (P : kspar) (f : ksarg) : R :=
  ((/ (sqrt (1 - (pB2 P)))) * ((((- (((((pBx P) * (pBy P)) * ((sqrt (1 - (pB2 P))) - 1)) * (cos
  (pphiz P))) + ((((pB2 P) * (sqrt (1 - (pB2 P)))) + (((pBx P) ^ 2) * (1 - (sqrt (1 - (pB2 P)))))) *
  (sin (pphiz P))))) * (ks_dddK1_D1D1D2 P f)) + ((((((pBx P) * (pBz P)) * ((sqrt (1 - (pB2 P))) - 1))
  * (sin (pphiy P))) + ((((((- (pBx P)) * (pBy P)) * ((sqrt (1 - (pB2 P))) - 1)) * (sin (pphiz P))) +
  ((((pB2 P) * (sqrt (1 - (pB2 P)))) + (((pBx P) ^ 2) * (1 - (sqrt (1 - (pB2 P)))))) * (cos (pphiz
  P)))) * (cos (pphiy P)))) * (ks_dddK0_D1D1D2 P f))) - ((((((pBx P) * (pBz P)) * ((sqrt (1 - (pB2
  P))) - 1)) * (cos (pphiy P))) + ((((((pBx P) * (pBy P)) * ((sqrt (1 - (pB2 P))) - 1)) * (sin (pphiz
  P))) + ((((- (pB2 P)) * (sqrt (1 - (pB2 P)))) + (((pBx P) ^ 2) * ((sqrt (1 - (pB2 P))) - 1))) *
  (cos (pphiz P)))) * (sin (pphiy P)))) * (ks_dddK2_D1D1D2 P f)))) / (pB2 P).

(* /repo/Src/Main/Modules/Physics/Free_Data/fd_KerrSchild_c_k0_k1_k2_kt.c:800-816 *)
Definition ks_dddk1_D0D2D1 (P : kspar) (f : ksarg) : R :=
  ((/ (sqrt (1 - (pB2 P)))) * ((((((((pBx P) * (pBy P)) * ((sqrt (1 - (pB2 P))) - 1)) * (sin (pphiz
  P))) + ((((pB2 P) * (sqrt (1 - (pB2 P)))) + (((pBy P) ^ 2) * (1 - (sqrt (1 - (pB2 P)))))) * (cos
  (pphiz P)))) * (ks_dddK1_D0D1D2 P f)) + ((((((pBy P) * (pBz P)) * ((sqrt (1 - (pB2 P))) - 1)) *
  (sin (pphiy P))) + ((((((- (pBx P)) * (pBy P)) * ((sqrt (1 - (pB2 P))) - 1)) * (cos (pphiz P))) +
  ((((pB2 P) * (sqrt (1 - (pB2 P)))) + (((pBy P) ^ 2) * (1 - (sqrt (1 - (pB2 P)))))) * (sin (pphiz
  P)))) * (cos (pphiy P)))) * (ks_dddK0_D0D1D2 P f))) - ((((((pBy P) * (pBz P)) * ((sqrt (1 - (pB2
  P))) - 1)) * (cos (pphiy P))) + ((((((pBx P) * (pBy P)) * ((sqrt (1 - (pB2 P))) - 1)) * (cos (pphiz
  P))) + ((((- (pB2 P)) * (sqrt (1 - (pB2 P)))) + (((pBy P) ^ 2) * ((sqrt (1 - (pB2 P))) - 1))) *
  (sin (pphiz P)))) * (sin (pphiy P)))) * (ks_dddK2_D0D1D2 P f)))) / (pB2 P).

(* /repo/Src/Main/Modules/Physics/Free_Data/fd_KerrSchild_c_k0_k1_k2_kt.c:817-834 *)
Definition ks_dddk1_D0D2D0 (P : kspar) (f : ksarg) : R :=
  ((/ (sqrt (1 - (pB2 P)))) * ((((((((pBx P) * (pBy P)) * ((sqrt (1 - (pB2 P))) - 1)) * (sin (pphiz
  P))) + ((((pB2 P) * (sqrt (1 - (pB2 P)))) + (((pBy P) ^ 2) * (1 - (sqrt (1 - (pB2 P)))))) * (cos
  (pphiz P)))) * (ks_dddK1_D0D0D2 P f)) + ((((((pBy P) * (pBz P)) * ((sqrt (1 - (pB2 P))) - 1)) *
  (sin (pphiy P))) + ((((((- (pBx P)) * (pBy P)) * ((sqrt (1 - (pB2 P))) - 1)) * (cos (pphiz P))) +
  ((((pB2 P) * (sqrt (1 - (pB2 P)))) + (((pBy P) ^ 2) * (1 - (sqrt (1 - (pB2 P)))))) * (sin (pphiz
  P)))) * (cos (pphiy P)))) * (ks_dddK0_D0D0D2 P f))) - ((((((pBy P) * (pBz P)) * ((sqrt (1 - (pB2
  P))) - 1)) * (cos (pphiy P))) + ((((((pBx P) * (pBy P)) * ((sqrt (1 - (pB2 P))) - 1)) * (cos (pphiz
  P))) + ((((- (pB2 P)) * (sqrt (1 - (pB2 P)))) + (((pBy P) ^ 2) * ((sqrt (1 - (pB2 P))) - 1))) *
  (sin (pphiz P)))) * (sin (pphiy P)))) * (ks_dddK2_D0D0D2 P f)))) / (pB2 P).

(* /repo/Src/Main/Modules/Physics/Free_Data/fd_KerrSchild_c_k0_k1_k2_kt.c:835-851 *)
Definition ks_dddk1_D1D1D1 (P : kspar) (f : ksarg) : R :=
  ((/ (sqrt (1 - (pB2 P)))) * ((((((((pBx P) * (pBy P)) * ((sqrt (1 - (pB2 P))) - 1)) * (sin (pphiz
  P))) + ((((pB2 P) * (sqrt (1 - (pB2 P)))) + (((pBy P) ^ 2) * (1 - (sqrt (1 - (pB2 P)))))) * (cos
  (pphiz P)))) * (ks_dddK1_D1D1D1 P f)) + ((((((pBy P) * (pBz P)) * ((sqrt (1 - (pB2 P))) - 1)) *
  (sin (pphiy P))) + ((((((- (pBx P)) * (pBy P)) * ((sqrt (1 - (pB2 P))) - 1)) * (cos (pphiz P))) +
  ((((pB2 P) * (sqrt (1 - (pB2 P)))) + (((pBy P) ^ 2) * (1 - (sqrt (1 - (pB2 P)))))) * (sin (pphiz
  P)))) * (cos (pphiy P)))) * (ks_dddK0_D1D1D1 P f))) - ((((((pBy P) * (pBz P)) * ((sqrt (1 - (pB2
  P))) - 1)) * (cos (pphiy P))) + ((((((pBx P) * (pBy P)) * ((sqrt (1 - (pB2 P))) - 1)) * (cos (pphiz
  P))) + ((((- (pB2 P)) * (sqrt (1 - (pB2 P)))) + (((pBy P) ^ 2) * ((sqrt (1 - (pB2 P))) - 1))) *
  (sin (pphiz P)))) * (sin (pphiy P)))) * (ks_dddK2_D1D1D1 P f)))) / (pB2 P).

(* /repo/Src/Main/Modules/Physics/Free_Data/fd_KerrSchild_c_k0_k1_k2_kt.c:852-869 *)
Definition ks_dddk1_D0D2D2 (P : kspar) (f : ksarg) : R :=
  ((/ (sqrt (1 - (pB2 P)))) * ((((((((pBx P) * (pBy P)) * ((sqrt (1 - (pB2 P))) - 1)) * (sin (pphiz
  P))) + ((((pB2 P) * (sqrt (1 - (pB2 P)))) + (((pBy P) ^ 2) * (1 - (sqrt (1 - (pB2 P)))))) * (cos
  (pphiz P)))) * (ks_dddK1_D0D2D2 P f)) + ((((((pBy P) * (pBz P)) * ((sqrt (1 - (pB2 P))) - 1)) *
  (sin (pphiy P))) + ((((((- (pBx P)) * (pBy P)) * ((sqrt (1 - (pB2 P))) - 1)) * (cos (pphiz P))) +
  ((((pB2 P) * (sqrt (1 - (pB2 P)))) + (((pBy P) ^ 2) * (1 - (sqrt (1 - (pB2 P)))))) * (sin (pphiz
  P)))) * (cos (pphiy P)))) * (ks_dddK0_D0D2D2 P f))) - ((((((pBy P) * (pBz P)) * ((sqrt (1 - (pB2
  P))) - 1)) * (cos (pphiy P))) + ((((((pBx P) * (pBy P)) * ((sqrt (1 - (pB2 P))) - 1)) * (cos (pphiz
  P))) + ((((- (pB2 P)) * (sqrt (1 - (pB2 P)))) + (((pBy P) ^ 2) * ((sqrt (1 - (pB2 P))) - 1))) *
  (sin (pphiz P)))) * (sin (pphiy P)))) * (ks_dddK2_D0D2D2 P f)))) / (pB2 P).

(* /repo/Src/Main/Modules/Physics/Free_Data/fd_KerrSchild_c_k0_k1_k2_kt.c:870-887 *)
Definition ks_dddk1_D1D1D2 (P : kspar) (f : ksarg) : R :=
  ((/ (sqrt (1 - (pB2 P)))) * ((((((((pBx P) * (pBy P)) * ((sqrt (1 - (pB2 P))) - 1)) * (sin (pphiz
  P))) + ((((pB2 P) * (sqrt (1 - (pB2 P)))) + (((pBy P) ^ 2) * (1 - (sqrt (1 - (pB2 P)))))) * (cos
  (pphiz P)))) * (ks_dddK1_D1D1D2 P f)) + ((((((pBy P) * (pBz P)) * ((sqrt (1 - (pB2 P))) - 1)) *
  (sin (pphiy P))) + ((((((- (pBx P)) * (pBy P)) * ((sqrt (1 - (pB2 P))) - 1)) * (cos (pphiz P))) +
  ((((pB2 P) * (sqrt (1 - (pB2 P)))) + (((pBy P) ^ 2) * (1 - (sqrt (1 - (pB2 P)))))) * (sin (pphiz
  P)))) * (cos (pphiy P)))) * (ks_dddK0_D1D1D2 P f))) - ((((((pBy P) * (pBz P)) * ((sqrt (1 - (pB2
  P))) - 1)) * (cos (pphiy P))) + ((((((pBx P) * (pBy P)) * ((sqrt (1 - (pB2 P))) - 1)) * (cos (pphiz
  P))) + ((((- (pB2 P)) * (sqrt (1 - (pB2 P)))) + (((pBy P) ^ 2) * ((sqrt (1 - (pB2 P))) - 1))) *
  (sin (pphiz P)))) * (sin (pphiy P)))) * (ks_dddK2_D1D1D2 P f)))) / (pB2 P).

(* /repo/Src/Main/Modules/Physics/Free_Data/fd_KerrSchild_c_k0_k1_k2_kt.c:888-904 *)
Definition ks_dddk1_D2D2D2 (P : kspar) (f : ksarg) : R :=
  ((/ (sqrt (1 - (pB2 P)))) * ((((((((pBx P) * (pBy P)) * ((sqrt (1 - (pB2 P))) - 1)) * (sin (pphiz
  P))) + ((((pB2 P) * (sqrt (1 - (pB2 P)))) + (((pBy P) ^ 2) * (1 - (sqrt (1 - (pB2 P)))))) * (cos
  (pphiz P)))) * (ks_dddK1_D2D2D2 P f)) + ((((((pBy P) * (pBz P)) * ((sqrt (1 - (pB2 P))) - 1)) *
  (sin (pphiy P))) + ((((((- (pBx P)) * (pBy P)) * ((sqrt (1 - (pB2 P))) - 1)) * (cos (pphiz P))) +
  ((((pB2 P) * (sqrt (1 - (pB2 P)))) + (((pBy P) ^ 2) * (1 - (sqrt (1 - (pB2 P)))))) * (sin (pphiz
  P)))) * (cos (pphiy P)))) * (ks_dddK0_D2D2D2 P f))) - ((((((pBy P) * (pBz P)) * ((sqrt (1 - (pB2
  P))) - 1)) * (cos (pphiy P))) + ((((((pBx P) * (pBy P)) * ((sqrt (1 - (pB2 P))) - 1)) * (cos (pphiz
  P))) + ((((- (pB2 P)) * (sqrt (1 - (pB2 P)))) + (((pBy P) ^ 2) * ((sqrt (1 - (pB2 P))) - 1))) *
  (sin (pphiz P)))) * (sin (pphiy P)))) * (ks_dddK2_D2D2D2 P f)))) / (pB2 P).

(* /repo/Src/Main/Modules/Physics/Free_Data/fd_KerrSchild_c_k0_k1_k2_kt.c:905-922 *)
Definition ks_dddk1_D0D1D0 (P : kspar) (f : ksarg) : R :=
  ((/ (sqrt (1 - (pB2 P)))) * ((((((((pBx P) * (pBy P)) * ((sqrt (1 - (pB2 P))) - 1)) * (sin (pphiz
  P))) + ((((pB2 P) * (sqrt (1 - (pB2 P)))) + (((pBy P) ^ 2) * (1 - (sqrt (1 - (pB2 P)))))) * (cos
  (pphiz P)))) * (ks_dddK1_D0D0D1 P f)) + ((((((pBy P) * (pBz P)) * ((sqrt (1 - (pB2 P))) - 1)) *
  (sin (pphiy P))) + ((((((- (pBx P)) * (pBy P)) * ((sqrt (1 - (pB2 P))) - 1)) * (cos (pphiz P))) +
  ((((pB2 P) * (sqrt (1 - (pB2 P)))) + (((pBy P) ^ 2) * (1 - (sqrt (1 - (pB2 P)))))) * (sin (pphiz
  P)))) * (cos (pphiy P)))) * (ks_dddK0_D0D0D1 P f))) - ((((((pBy P) * (pBz P)) * ((sqrt (1 - (pB2
  P))) - 1)) * (cos (pphiy P))) + ((((((pBx P) * (pBy P)) * ((sqrt (1 - (pB2 P))) - 1)) * (cos (pphiz
  P))) + ((((- (pB2 P)) * (sqrt (1 - (pB2 P)))) + (((pBy P) ^ 2) * ((sqrt (1 - (pB2 P))) - 1))) *
  (sin (pphiz P)))) * (sin (pphiy P)))) * (ks_dddK2_D0D0D1 P f)))) / (pB2 P).

(* /repo/Src/Main/Modules/Physics/Free_Data/fd_KerrSchild_c_k0_k1_k2_kt.c:923-939 *)
Definition ks_dddk1_D0D1D2 (P : kspar) (f : ksarg) : R :=
  ((/ (sqrt (1 - (pB2 P)))) * ((((((((pBx P) * (pBy P)) * ((sqrt (1 - (pB2 P))) - 1)) * (sin (pphiz
  P))) + ((((pB2 P) * (sqrt (1 - (pB2 P)))) + (((pBy P) ^ 2) * (1 - (sqrt (1 - (pB2 P)))))) * (cos
  (pphiz P)))) * (ks_dddK1_D0D1D2 P f)) + ((((((pBy P) * (pBz P)) * ((sqrt (1 - (pB2 P))) - 1)) *
  (sin (pphiy P))) + ((((((- (pBx P)) * (pBy P)) * ((sqrt (1 - (pB2 P))) - 1)) * (cos (pphiz P))) +
  ((((pB2 P) * (sqrt (1 - (pB2 P)))) + (((pBy P) ^ 2) * (1 - (sqrt (1 - (pB2 P)))))) * (sin (pphiz
  P)))) * (cos (pphiy P)))) * (ks_dddK0_D0D1D2 P f))) - ((((((pBy P) * (pBz P)) * ((sqrt (1 - (pB2
  P))) - 1)) * (cos (pphiy P))) + ((((((pBx P) * (pBy P)) * ((sqrt (1 - (pB2 P))) - 1)) * (cos (pphiz
  P))) + ((((- (pB2 P)) * (sqrt (1 - (pB2 P)))) + (((pBy P) ^ 2) * ((sqrt (1 - (pB2 P))) - 1))) *
  (sin (pphiz P)))) * (sin (pphiy P)))) * (ks_dddK2_D0D1D2 P f)))) / (pB2 P).

(* /repo/Src/Main/Modules/Physics/Free_Data/fd_KerrSchild_c_k0_k1_k2_kt.c:940-957 *)
Definition ks_dddk1_D0D0D2 (P : kspar) (f : ksarg) : R :=
  ((/ (sqrt (1 - (pB2 P)))) * ((((((((pBx P) * (pBy P)) * ((sqrt (1 - (pB2 P))) - 1)) * (sin (pphiz
  P))) + ((((pB2 P) * (sqrt (1 - (pB2 P)))) + (((pBy P) ^ 2) * (1 - (sqrt (1 - (pB2 P)))))) * (cos
  (pphiz P)))) * (ks_dddK1_D0D0D2 P f)) + ((((((pBy P) * (pBz P)) * ((sqrt (1 - (pB2 P))) - 1)) *
  (sin (pphiy P))) + ((((((- (pBx P)) * (pBy P)) * ((sqrt (1 - (pB2 P))) - 1)) * (cos (pphiz P))) +
  ((((pB2 P) * (sqrt (1 - (pB2 P)))) + (((pBy P) ^ 2) * (1 - (sqrt (1 - (pB2 P)))))) * (sin (pphiz
  P)))) * (cos (pphiy P)))) * (ks_dddK0_D0D0D2 P f))) - ((((((pBy P) * (pBz P)) * ((sqrt (1 - (pB2
  P))) - 1)) * (cos (pphiy P))) + ((((((pBx P) * (pBy P)) * ((sqrt (1 - (pB2 P))) - 1)) * (cos (pphiz
  P))) + ((((- (pB2 P)) * (sqrt (1 - (pB2 P)))) + (((pBy P) ^ 2) * ((sqrt (1 - (pB2 P))) - 1))) *
  (sin (pphiz P)))) * (sin (pphiy P)))) * (ks_dddK2_D0D0D2 P f)))) / (pB2 P).

(* /repo/Src/Main/Modules/Physics/Free_Data/fd_KerrSchild_c_k0_k1_k2_kt.c:958-975 *)
Definition ks_dddk1_D0D0D1 (P : kspar) (f : ksarg) : R :=
  ((/ (sqrt (1 - (pB2 P)))) * ((((((((pBx P) * (pBy P)) * ((sqrt (1 - (pB2 P))) - 1)) * (sin (pphiz
  P))) + ((((pB2 P) * (sqrt (1 - (pB2 P)))) + (((pBy P) ^ 2) * (1 - (sqrt (1 - (pB2 P)))))) * (cos
  (pphiz P)))) * (ks_dddK1_D0D0D1 P f)) + ((((((pBy P) * (pBz P)) * ((sqrt (1 - (pB2 P))) - 1)) *
  (sin (pphiy P))) + ((((((- (pBx P)) * (pBy P)) * ((sqrt (1 - (pB2 P))) - 1)) * (cos (pphiz P))) +
  ((((pB2 P) * (sqrt (1 - (pB2 P)))) + (((pBy P) ^ 2) * (1 - (sqrt (1 - (pB2 P)))))) * (sin (pphiz
  P)))) * (cos (pphiy P)))) * (ks_dddK0_D0D0D1 P f))) - ((((((pBy P) * (pBz P)) * ((sqrt (1 - (pB2
  P))) - 1)) * (cos (pphiy P))) + ((((((pBx P) * (pBy P)) * ((sqrt (1 - (pB2 P))) - 1)) * (cos (pphiz
  P))) + ((((- (pB2 P)) * (sqrt (1 - (pB2 P)))) + (((pBy P) ^ 2) * ((sqrt (1 - (pB2 P))) - 1))) *
  (sin (pphiz P)))) * (sin (pphiy P)))) * (ks_dddK2_D0D0D1 P f)))) / (pB2 P).

(* /repo/Src/Main/Modules/Physics/Free_Data/fd_KerrSchild_c_k0_k1_k2_kt.c:976-992 *)
Definition ks_dddk1_D0D0D0 (P : kspar) (f : ksarg) : R :=
  ((/ (sqrt (1 - (pB2 P)))) * ((((((((pBx P) * (pBy P)) * ((sqrt (1 - (pB2 P))) - 1)) * (sin (pphiz
  P))) + ((((pB2 P) * (sqrt (1 - (pB2 P)))) + (((pBy P) ^ 2) * (1 - (sqrt (1 - (pB2 P)))))) * (cos
  (pphiz P)))) * (ks_dddK1_D0D0D0 P f)) + ((((((pBy P) * (pBz P)) * ((sqrt (1 - (pB2 P))) - 1)) *
  (sin (pphiy P))) + ((((((- (pBx P)) * (pBy P)) * ((sqrt (1 - (pB2 P))) - 1)) * (cos (pphiz P))) +
  ((((pB2 P) * (sqrt (1 - (pB2 P)))) + (((pBy P) ^ 2) * (1 - (sqrt (1 - (pB2 P)))))) * (sin (pphiz
  P)))) * (cos (pphiy P)))) * (ks_dddK0_D0D0D0 P f))) - ((((((pBy P) * (pBz P)) * ((sqrt (1 - (pB2
  P))) - 1)) * (cos (pphiy P))) + ((((((pBx P) * (pBy P)) * ((sqrt (1 - (pB2 P))) - 1)) * (cos (pphiz
  P))) + ((((- (pB2 P)) * (sqrt (1 - (pB2 P)))) + (((pBy P) ^ 2) * ((sqrt (1 - (pB2 P))) - 1))) *
  (sin (pphiz P)))) * (sin (pphiy P)))) * (ks_dddK2_D0D0D0 P f)))) / (pB2 P).

(* /repo/Src/Main/Modules/Physics/Free_Data/fd_KerrSchild_c_k0_k1_k2_kt.c:993-1010 *)
Definition ks_dddk1_D2D2D0 (P : kspar) (f : ksarg) : R :=
  ((/ (sqrt (1 - (pB2 P)))) * ((((((((pBx P) * (pBy P)) * ((sqrt (1 - (pB2 P))) - 1)) * (sin (pphiz
  P))) + ((((pB2 P) * (sqrt (1 - (pB2 P)))) + (((pBy P) ^ 2) * (1 - (sqrt (1 - (pB2 P)))))) * (cos
  (pphiz P)))) * (ks_dddK1_D0D2D2 P f)) + ((((((pBy P) * (pBz P)) * ((sqrt (1 - (pB2 P))) - 1)) *
  (sin (pphiy P))) + ((((((- (pBx P)) * (pBy P)) * ((sqrt (1 - (pB2 P))) - 1)) * (cos (pphiz P))) +
  ((((pB2 P) * (sqrt (1 - (pB2 P)))) + (((pBy P) ^ 2) * (1 - (sqrt (1 - (pB2 P)))))) * (sin (pphiz
  P)))) * (cos (pphiy P)))) * (ks_dddK0_D0D2D2 P f))) - ((((((pBy P) * (pBz P)) * ((sqrt (1 - (pB2
  P))) - 1)) * (cos (pphiy P))) + ((((((pBx P) * (pBy P)) * ((sqrt (1 - (pB2 P))) - 1)) * (cos (pphiz
  P))) + ((((- (pB2 P)) * (sqrt (1 - (pB2 P)))) + (((pBy P) ^ 2) * ((sqrt (1 - (pB2 P))) - 1))) *
  (sin (pphiz P)))) * (sin (pphiy P)))) * (ks_dddK2_D0D2D2 P f)))) / (pB2 P).

(* /repo/Src/Main/Modules/Physics/Free_Data/fd_KerrSchild_c_k0_k1_k2_kt.c:1011-1028 *)
Definition ks_dddk1_D2D2D1 (P : kspar) (f : ksarg) : R :=
  ((/ (sqrt (1 - (pB2 P)))) * ((((((((pBx P) * (pBy P)) * ((sqrt (1 - (pB2 P))) - 1)) * (sin (pphiz
  P))) + ((((pB2 P) * (sqrt (1 - (pB2 P)))) + (((pBy P) ^ 2) * (1 - (sqrt (1 - (pB2 P)))))) * (cos
  (pphiz P)))) * (ks_dddK1_D1D2D2 P f)) + ((((((pBy P) * (pBz P)) * ((sqrt (1 - (pB2 P))) - 1)) *
  (sin (pphiy P))) + ((((((- (pBx P)) * (pBy P)) * ((sqrt (1 - (pB2 P))) - 1)) * (cos (pphiz P))) +
  ((((pB2 P) * (sqrt (1 - (pB2 P)))) + (((pBy P) ^ 2) * (1 - (sqrt (1 - (pB2 P)))))) * (sin (pphiz
  P)))) * (cos (pphiy P)))) * (ks_dddK0_D1D2D2 P f))) - ((((((pBy P) * (pBz P)) * ((sqrt (1 - (pB2
  P))) - 1)) * (cos (pphiy P))) + ((((((pBx P) * (pBy P)) * ((sqrt (1 - (pB2 P))) - 1)) * (cos (pphiz
  P))) + ((((- (pB2 P)) * (sqrt (1 - (pB2 P)))) + (((pBy P) ^ 2) * ((sqrt (1 - (pB2 P))) - 1))) *
  (sin (pphiz P)))) * (sin (pphiy P)))) * (ks_dddK2_D1D2D2 P f)))) / (pB2 P).

(* /repo/Src/Main/Modules/Physics/Free_Data/fd_KerrSchild_c_k0_k1_k2_kt.c:1029-1046 *)
Definition ks_dddk1_D1D2D1 (P : kspar) (f : ksarg) : R :=
  ((/ (sqrt (1 - (pB2 P)))) * ((((((((pBx P) * (pBy P)) * ((sqrt (1 - (pB2 P))) - 1)) * (sin (pphiz
  P))) + ((((pB2 P) * (sqrt (1 - (pB2 P)))) + (((pBy P) ^ 2) * (1 - (sqrt (1 - (pB2 P)))))) * (cos
  (pphiz P)))) * (ks_dddK1_D1D1D2 P f)) + ((((((pBy P) * (pBz P)) * ((sqrt (1 - (pB2 P))) - 1)) *
  (sin (pphiy P))) + ((((((- (pBx P)) * (pBy P)) * ((sqrt (1 - (pB2 P))) - 1)) * (cos (pphiz P))) +
  ((((pB2 P) * (sqrt (1 - (pB2 P)))) + (((pBy P) ^ 2) * (1 - (sqrt (1 - (pB2 P)))))) * (sin (pphiz
  P)))) * (cos (pphiy P)))) * (ks_dddK0_D1D1D2 P f))) - ((((((pBy P) * (pBz P)) * ((sqrt (1 - (pB2
  P))) - 1)) * (cos (pphiy P))) + ((((((pBx P) * (pBy P)) * ((sqrt (1 - (pB2 P))) - 1)) * (cos (pphiz
  P))) + ((((- (pB2 P)) * (sqrt (1 - (pB2 P)))) + (((pBy P) ^ 2) * ((sqrt (1 - (pB2 P))) - 1))) *
  (sin (pphiz P)))) * (sin (pphiy P)))) * (ks_dddK2_D1D1D2 P f)))) / (pB2 P).

(* /repo/Src/Main/Modules/Physics/Free_Data/fd_KerrSchild_c_k0_k1_k2_kt.c:1047-1063 *)
Definition ks_dddk1_D1D2D0 (P : kspar) (f : ksarg) : R :=
  ((/ (sqrt (1 - (pB2 P)))) * ((((((((pBx P) * (pBy P)) * ((sqrt (1 - (pB2 P))) - 1)) * (sin (pphiz
  P))) + ((((pB2 P) * (sqrt (1 - (pB2 P)))) + (((pBy P) ^ 2) * (1 - (sqrt (1 - (pB2 P)))))) * (cos
  (pphiz P)))) * (ks_dddK1_D0D1D2 P f)) + ((((((pBy P) * (pBz P)) * ((sqrt (1 - (pB2 P))) - 1)) *
  (sin (pphiy P))) + ((((((- (pBx P)) * (pBy P)) * ((sqrt (1 - (pB2 P))) - 1)) * (cos (pphiz P))) +
  ((((pB2 P) * (sqrt (1 - (pB2 P)))) + (((pBy P) ^ 2) * (1 - (sqrt (1 - (pB2 P)))))) * (sin (pphiz
  P)))) * (cos (pphiy P)))) * (ks_dddK0_D0D1D2 P f))) - ((((((pBy P) * (pBz P)) * ((sqrt (1 - (pB2
  P))) - 1)) * (cos (pphiy P))) + ((((((pBx P) * (pBy P)) * ((sqrt (1 - (pB2 P))) - 1)) * (cos (pphiz
  P))) + ((((- (pB2 P)) * (sqrt (1 - (pB2 P)))) + (((pBy P) ^ 2) * ((sqrt (1 - (pB2 P))) - 1))) *
  (sin (pphiz P)))) * (sin (pphiy P)))) * (ks_dddK2_D0D1D2 P f)))) / (pB2 P).

(* /repo/Src/Main/Modules/Physics/Free_Data/fd_KerrSchild_c_k0_k1_k2_kt.c:1064-1081 *)
Definition ks_dddk1_D0D1D1 (P : kspar) (f : ksarg) : R :=
  ((/ (sqrt (1 - (pB2 P)))) * ((((((((pBx P) * (pBy P)) * ((sqrt (1 - (pB2 P))) - 1)) * (sin (pphiz
  P))) + ((((pB2 P) * (sqrt (1 - (pB2 P)))) + (((pBy P) ^ 2) * (1 - (sqrt (1 - (pB2 P)))))) * (cos
  (pphiz P)))) * (ks_dddK1_D0D1D1 P f)) + ((((((pBy P) * (pBz P)) * ((sqrt (1 - (pB2 P))) - 1)) *
  (sin (pphiy P))) + ((((((- (pBx P)) * (pBy P)) * ((sqrt (1 - (pB2 P))) - 1)) * (cos (pphiz P))) +
  ((((pB2 P) * (sqrt (1 - (pB2 P)))) + (((pBy P) ^ 2) * (1 - (sqrt (1 - (pB2 P)))))) * (sin (pphiz
  P)))) * (cos (pphiy P)))) * (ks_dddK0_D0D1D1 P f))) - ((((((pBy P) * (pBz P)) * ((sqrt (1 - (pB2
  P))) - 1)) * (cos (pphiy P))) + ((((((pBx P) * (pBy P)) * ((sqrt (1 - (pB2 P))) - 1)) * (cos (pphiz
  P))) + ((((- (pB2 P)) * (sqrt (1 - (pB2 P)))) + (((pBy P) ^ 2) * ((sqrt (1 - (pB2 P))) - 1))) *
  (sin (pphiz P)))) * (sin (pphiy P)))) * (ks_dddK2_D0D1D1 P f)))) / (pB2 P).

(* /repo/Src/Main/Modules/Physics/Free_Data/fd_KerrSchild_c_k0_k1_k2_kt.c:1082-1099 *)
Definition ks_dddk1_D1D2D2 (P : kspar) (f : ksarg) : R :=
  ((/ (sqrt (1 - (pB2 P)))) * ((((((((pBx P) * (pBy P)) * ((sqrt (1 - (pB2 P))) - 1)) * (sin (pphiz
  P))) + ((((pB2 P) * (sqrt (1 - (pB2 P)))) + (((pBy P) ^ 2) * (1 - (sqrt (1 - (pB2 P)))))) * (cos
  (pphiz P)))) * (ks_dddK1_D1D2D2 P f)) + ((((((pBy P) * (pBz P)) * ((sqrt (1 - (pB2 P))) - 1)) *
  (sin (pphiy P))) + ((((((- (pBx P)) * (pBy P)) * ((sqrt (1 - (pB2 P))) - 1)) * (cos (pphiz P))) +
  ((((pB2 P) * (sqrt (1 - (pB2 P)))) + (((pBy P) ^ 2) * (1 - (sqrt (1 - (pB2 P)))))) * (sin (pphiz
  P)))) * (cos (pphiy P)))) * (ks_dddK0_D1D2D2 P f))) - ((((((pBy P) * (pBz P)) * ((sqrt (1 - (pB2
  P))) - 1)) * (cos (pphiy P))) + ((((((pBx P) * (pBy P)) * ((sqrt (1 - (pB2 P))) - 1)) * (cos (pphiz
  P))) + ((((- (pB2 P)) * (sqrt (1 - (pB2 P)))) + (((pBy P) ^ 2) * ((sqrt (1 - (pB2 P))) - 1))) *
  (sin (pphiz P)))) * (sin (pphiy P)))) * (ks_dddK2_D1D2D2 P f)))) / (pB2 P).

(* /repo/Src/Main/Modules/Physics/Free_Data/fd_KerrSchild_c_k0_k1_k2_kt.c:1100-1117 *)
Definition ks_dddk1_D1D1D0 (P : kspar) (f : ksarg) : R :=
  ((/ (sqrt (1 - (pB2 P)))) * ((((((((pBx P) * (pBy P)) * ((sqrt (1 - (pB2 P))) - 1)) * (sin (pphiz
  P))) + ((((pB2 P) * (sqrt (1 - (pB2 P)))) + (((pBy P) ^ 2) * (1 - (sqrt (1 - (pB2 P)))))) * (cos
  (pphiz P)))) * (ks_dddK1_D0D1D1 P f)) + ((((((pBy P) * (pBz P)) * ((sqrt (1 - (pB2 P))) - 1)) *
  (sin (pphiy P))) + ((((((- (pBx P)) * (pBy P)) * ((sqrt (1 - (pB2 P))) - 1)) * (cos (pphiz P))) +
  ((((pB2 P) * (sqrt (1 - (pB2 P)))) + (((pBy P) ^ 2) * (1 - (sqrt (1 - (pB2 P)))))) * (sin (pphiz
  P)))) * (cos (pphiy P)))) * (ks_dddK0_D0D1D1 P f))) - ((((((pBy P) * (pBz P)) * ((sqrt (1 - (pB2
  P))) - 1)) * (cos (pphiy P))) + ((((((pBx P) * (pBy P)) * ((sqrt (1 - (pB2 P))) - 1)) * (cos (pphiz
  P))) + ((((- (pB2 P)) * (sqrt (1 - (pB2 P)))) + (((pBy P) ^ 2) * ((sqrt (1 - (pB2 P))) - 1))) *
  (sin (pphiz P)))) * (sin (pphiy P)))) * (ks_dddK2_D0D1D1 P f)))) / (pB2 P).

(* /repo/Src/Main/Modules/Physics/Free_Data/fd_KerrSchild_c_k0_k1_k2_kt.c:1278-1293 *)
Definition ks_dddk2_D0D2D0 (P : kspar) (f : ksarg) : R :=
  ((/ (sqrt (1 - (pB2 P)))) * ((((((pBz P) * (((pBx P) * (sin (pphiz P))) - ((pBy P) * (cos (pphiz
  P))))) * ((sqrt (1 - (pB2 P))) - 1)) * (ks_dddK1_D0D0D2 P f)) - ((((((pBz P) * (((pBx P) * (cos
  (pphiz P))) + ((pBy P) * (sin (pphiz P))))) * ((sqrt (1 - (pB2 P))) - 1)) * (sin (pphiy P))) +
  ((((- (pB2 P)) * (sqrt (1 - (pB2 P)))) + (((pBz P) ^ 2) * ((sqrt (1 - (pB2 P))) - 1))) * (cos
  (pphiy P)))) * (ks_dddK2_D0D0D2 P f))) - ((((((pBz P) * (((pBx P) * (cos (pphiz P))) + ((pBy P) *
  (sin (pphiz P))))) * ((sqrt (1 - (pB2 P))) - 1)) * (cos (pphiy P))) + ((((pB2 P) * (sqrt (1 - (pB2
  P)))) + (((pBz P) ^ 2) * (1 - (sqrt (1 - (pB2 P)))))) * (sin (pphiy P)))) * (ks_dddK0_D0D0D2 P
  f)))) / (pB2 P).

(* /repo/Src/Main/Modules/Physics/Free_Data/fd_KerrSchild_c_k0_k1_k2_kt.c:1294-1309 *)
Definition ks_dddk2_D0D2D1 (P : kspar) (f : ksarg) : R :=
  ((/ (sqrt (1 - (pB2 P)))) * ((((((pBz P) * (((pBx P) * (sin (pphiz P))) - ((pBy P) * (cos (pphiz
  P))))) * ((sqrt (1 - (pB2 P))) - 1)) * (ks_dddK1_D0D1D2 P f)) - ((((((pBz P) * (((pBx P) * (cos
  (pphiz P))) + ((pBy P) * (sin (pphiz P))))) * ((sqrt (1 - (pB2 P))) - 1)) * (sin (pphiy P))) +
  ((((- (pB2 P)) * (sqrt (1 - (pB2 P)))) + (((pBz P) ^ 2) * ((sqrt (1 - (pB2 P))) - 1))) * (cos
  (pphiy P)))) * (ks_dddK2_D0D1D2 P f))) - ((((((pBz P) * (((pBx P) * (cos (pphiz P))) + ((pBy P) *
  (sin (pphiz P))))) * ((sqrt (1 - (pB2 P))) - 1)) * (cos (pphiy P))) + ((((pB2 P) * (sqrt (1 - (pB2
  P)))) + (((pBz P) ^ 2) * (1 - (sqrt (1 - (pB2 P)))))) * (sin (pphiy P)))) * (ks_dddK0_D0D1D2 P
  f)))) / (pB2 P).

(* /repo/Src/Main/Modules/Physics/Free_Data/fd_KerrSchild_c_k0_k1_k2_kt.c:1310-1325 *)
Definition ks_dddk2_D0D2D2 (P : kspar) (f : ksarg) : R :=
  ((/ (sqrt (1 - (pB2 P)))) * ((((((pBz P) * (((pBx P) * (sin (pphiz P))) - ((pBy P) * (cos (pphiz
  P))))) * ((sqrt (1 - (pB2 P))) - 1)) * (ks_dddK1_D0D2D2 P f)) - ((((((pBz P) * (((pBx P) * (cos
  (pphiz P))) + ((pBy P) * (sin (pphiz P))))) * ((sqrt (1 - (pB2 P))) - 1)) * (sin (pphiy P))) +
  ((((- (pB2 P)) * (sqrt (1 - (pB2 P)))) + (((pBz P) ^ 2) * ((sqrt (1 - (pB2 P))) - 1))) * (cos
  (pphiy P)))) * (ks_dddK2_D0D2D2 P f))) - ((((((pBz P) * (((pBx P) * (cos (pphiz P))) + ((pBy P) *
  (sin (pphiz P))))) * ((sqrt (1 - (pB2 P))) - 1)) * (cos (pphiy P))) + ((((pB2 P) * (sqrt (1 - (pB2
  P)))) + (((pBz P) ^ 2) * (1 - (sqrt (1 - (pB2 P)))))) * (sin (pphiy P)))) * (ks_dddK0_D0D2D2 P
  f)))) / (pB2 P).

(* /repo/Src/Main/Modules/Physics/Free_Data/fd_KerrSchild_c_k0_k1_k2_kt.c:1326-1341 *)
Definition ks_dddk2_D0D1D0 (P : kspar) (f : ksarg) : R :=
  ((/ (sqrt (1 - (pB2 P)))) * ((((((pBz P) * (((pBx P) * (sin (pphiz P))) - ((pBy P) * (cos (pphiz
  P))))) * ((sqrt (1 - (pB2 P))) - 1)) * (ks_dddK1_D0D0D1 P f)) - ((((((pBz P) * (((pBx P) * (cos
  (pphiz P))) + ((pBy P) * (sin (pphiz P))))) * ((sqrt (1 - (pB2 P))) - 1)) * (sin (pphiy P))) +
  ((((- (pB2 P)) * (sqrt (1 - (pB2 P)))) + (((pBz P) ^ 2) * ((sqrt (1 - (pB2 P))) - 1))) * (cos
  (pphiy P)))) * (ks_dddK2_D0D0D1 P f))) - ((((((pBz P) * (((pBx P) * (cos (pphiz P))) + ((pBy P) *
  (sin (pphiz P))))) * ((sqrt (1 - (pB2 P))) - 1)) * (cos (pphiy P))) + ((((pB2 P) * (sqrt (1 - (pB2
  P)))) + (((pBz P) ^ 2) * (1 - (sqrt (1 - (pB2 P)))))) * (sin (pphiy P)))) * (ks_dddK0_D0D0D1 P
  f)))) / (pB2 P).

(* /repo/Src/Main/Modules/Physics/Free_Data/fd_KerrSchild_c_k0_k1_k2_kt.c:1342-1357 *)
Definition ks_dddk2_D1D2D2 (P : kspar) (f : ksarg) : R :=
  ((/ (sqrt (1 - (pB2 P)))) * ((((((pBz P) * (((pBx P) * (sin (pphiz P))) - ((pBy P) * (cos (pphiz
  P))))) * ((sqrt (1 - (pB2 P))) - 1)) * (ks_dddK1_D1D2D2 P f)) - ((((((pBz P) * (((pBx P) * (cos
  (pphiz P))) + ((pBy P) * (sin (pphiz P))))) * ((sqrt (1 - (pB2 P))) - 1)) * (sin (pphiy P))) +
  ((((- (pB2 P)) * (sqrt (1 - (pB2 P)))) + (((pBz P) ^ 2) * ((sqrt (1 - (pB2 P))) - 1))) * (cos
  (pphiy P)))) * (ks_dddK2_D1D2D2 P f))) - ((((((pBz P) * (((pBx P) * (cos (pphiz P))) + ((pBy P) *
  (sin (pphiz P))))) * ((sqrt (1 - (pB2 P))) - 1)) * (cos (pphiy P))) + ((((pB2 P) * (sqrt (1 - (pB2
  P)))) + (((pBz P) ^ 2) * (1 - (sqrt (1 - (pB2 P)))))) * (sin (pphiy P)))) * (ks_dddK0_D1D2D2 P
  f)))) / (pB2 P).

(* /repo/Src/Main/Modules/Physics/Free_Data/fd_KerrSchild_c_k0_k1_k2_kt.c:1358-1373 *)
Definition ks_dddk2_D0D0D2 (P : kspar) (f : ksarg) : R :=
  ((/ (sqrt (1 - (pB2 P)))) * ((((((pBz P) * (((pBx P) * (sin (pphiz P))) - ((pBy P) * (cos (pphiz
  P))))) * ((sqrt (1 - (pB2 P))) - 1)) * (ks_dddK1_D0D0D2 P f)) - ((((((pBz P) * (((pBx P) * (cos
  (pphiz P))) + ((pBy P) * (sin (pphiz P))))) * ((sqrt (1 - (pB2 P))) - 1)) * (sin (pphiy P))) +
  ((((- (pB2 P)) * (sqrt (1 - (pB2 P)))) + (((pBz P) ^ 2) * ((sqrt (1 - (pB2 P))) - 1))) * (cos
  (pphiy P)))) * (ks_dddK2_D0D0D2 P f))) - ((((((pBz P) * (((pBx P) * (cos (pphiz P))) + ((pBy P) *
  (sin (pphiz P))))) * ((sqrt (1 - (pB2 P))) - 1)) * (cos (pphiy P))) + ((((pB2 P) * (sqrt (1 - (pB2
  P)))) + (((pBz P) ^ 2) * (1 - (sqrt (1 - (pB2 P)))))) * (sin (pphiy P)))) * (ks_dddK0_D0D0D2 P
  f)))) / (pB2 P).

(* /repo/Src/Main/Modules/Physics/Free_Data/fd_KerrSchild_c_k0_k1_k2_kt.c:1374-1389 *)
Definition ks_dddk2_D0D1D2 (P : kspar) (f : ksarg) : R :=
  ((/ (sqrt (1 - (pB2 P)))) * ((((((pBz P) * (((pBx P) * (sin (pphiz P))) - ((pBy P) * (cos (pphiz
  P))))) * ((sqrt (1 - (pB2 P))) - 1)) * (ks_dddK1_D0D1D2 P f)) - ((((((pBz P) * (((pBx P) * (cos
  (pphiz P))) + ((pBy P) * (sin (pphiz P))))) * ((sqrt (1 - (pB2 P))) - 1)) * (sin (pphiy P))) +
  ((((- (pB2 P)) * (sqrt (1 - (pB2 P)))) + (((pBz P) ^ 2) * ((sqrt (1 - (pB2 P))) - 1))) * (cos
  (pphiy P)))) * (ks_dddK2_D0D1D2 P f))) - ((((((pBz P) * (((pBx P) * (cos (pphiz P))) + ((pBy P) *
  (sin (pphiz P))))) * ((sqrt (1 - (pB2 P))) - 1)) * (cos (pphiy P))) + ((((pB2 P) * (sqrt (1 - (pB2
  P)))) + (((pBz P) ^ 2) * (1 - (sqrt (1 - (pB2 P)))))) * (sin (pphiy P)))) * (ks_dddK0_D0D1D2 P
  f)))) / (pB2 P).

(* /repo/Src/Main/Modules/Physics/Free_Data/fd_KerrSchild_c_k0_k1_k2_kt.c:1390-1405 *)
Definition ks_dddk2_D0D0D0 (P : kspar) (f : ksarg) : R :=
  ((/ (sqrt (1 - (pB2 P)))) * ((((((pBz P) * (((pBx P) * (sin (pphiz P))) - ((pBy P) * (cos (pphiz
  P))))) * ((sqrt (1 - (pB2 P))) - 1)) * (ks_dddK1_D0D0D0 P f)) - ((((((pBz P) * (((pBx P) * (cos
  (pphiz P))) + ((pBy P) * (sin (pphiz P))))) * ((sqrt (1 - (pB2 P))) - 1)) * (sin (pphiy P))) +
  ((((- (pB2 P)) * (sqrt (1 - (pB2 P)))) + (((pBz P) ^ 2) * ((sqrt (1 - (pB2 P))) - 1))) * (cos
  (pphiy P)))) * (ks_dddK2_D0D0D0 P f))) - ((((((pBz P) * (((pBx P) * (cos (pphiz P))) + ((pBy P) *
  (sin (pphiz P))))) * ((sqrt (1 - (pB2 P))) - 1)) * (cos (pphiy P))) + ((((pB2 P) * (sqrt (1 - (pB2
  P)))) + (((pBz P) ^ 2) * (1 - (sqrt (1 - (pB2 P)))))) * (sin (pphiy P)))) * (ks_dddK0_D0D0D0 P
  f)))) / (pB2 P).

(* /repo/Src/Main/Modules/Physics/Free_Data/fd_KerrSchild_c_k0_k1_k2_kt.c:1406-1421 *)
Definition ks_dddk2_D0D0D1 (P : kspar) (f : ksarg) : R :=
  ((/ (sqrt (1 - (pB2 P)))) * ((((((pBz P) * (((pBx P) * (sin (pphiz P))) - ((pBy P) * (cos (pphiz
  P))))) * ((sqrt (1 - (pB2 P))) - 1)) * (ks_dddK1_D0D0D1 P f)) - ((((((pBz P) * (((pBx P) * (cos
  (pphiz P))) + ((pBy P) * (sin (pphiz P))))) * ((sqrt (1 - (pB2 P))) - 1)) * (sin (pphiy P))) +
  ((((- (pB2 P)) * (sqrt (1 - (pB2 P)))) + (((pBz P) ^ 2) * ((sqrt (1 - (pB2 P))) - 1))) * (cos
  (pphiy P)))) * (ks_dddK2_D0D0D1 P f))) - ((((((pBz P) * (((pBx P) * (cos (pphiz P))) + ((pBy P) *
  (sin (pphiz P))))) * ((sqrt (1 - (pB2 P))) - 1)) * (cos (pphiy P))) + ((((pB2 P) * (sqrt (1 - (pB2
  P)))) + (((pBz P) ^ 2) * (1 - (sqrt (1 - (pB2 P)))))) * (sin (pphiy P)))) * (ks_dddK0_D0D0D1 P
  f)))) / (pB2 P).

(* /repo/Src/Main/Modules/Physics/Free_Data/fd_KerrSchild_c_k0_k1_k2_kt.c:1422-1437 *)
Definition ks_dddk2_D2D2D2 (P : kspar) (f : ksarg) : R :=
  ((/ (sqrt (1 - (pB2 P)))) * ((((((pBz P) * (((pBx P) * (sin (pphiz P))) - ((pBy P) * (cos (pphiz
  P))))) * ((sqrt (1 - (pB2 P))) - 1)) * (ks_dddK1_D2D2D2 P f)) - ((((((pBz P) * (((pBx P) * (cos
  (pphiz P))) + ((pBy P) * (sin (pphiz P))))) * ((sqrt (1 - (pB2 P))) - 1)) * (sin (pphiy P))) +
  ((((- (pB2 P)) * (sqrt (1 - (pB2 P)))) + (((pBz P) ^ 2) * ((sqrt (1 - (pB2 P))) - 1))) * (cos
  (pphiy P)))) * (ks_dddK2_D2D2D2 P f))) - ((((((pBz P) * (((pBx P) * (cos (pphiz P))) + ((pBy P) *
  (sin (pphiz P))))) * ((sqrt (1 - (pB2 P))) - 1)) * (cos (pphiy P))) + ((((pB2 P) * (sqrt (1 - (pB2
  P)))) + (((pBz P) ^ 2) * (1 - (sqrt (1 - (pB2 P)))))) * (sin (pphiy P)))) * (ks_dddK0_D2D2D2 P
  f)))) / (pB2 P).

(* /repo/Src/Main/Modules/Physics/Free_Data/fd_KerrSchild_c_k0_k1_k2_kt.c:1438-1453 *)
Definition ks_dddk2_D1D2D1 (P : kspar) (f : ksarg) : R :=
  ((/ (sqrt (1 - (pB2 P)))) * ((((((pBz P) * (((pBx P) * (sin (pphiz P))) - ((pBy P) * (cos (pphiz
  P))))) * ((sqrt (1 - (pB2 P))) - 1)) * (ks_dddK1_D1D1D2 P f)) - ((((((pBz P) * (((pBx P) * (cos
  (pphiz P))) + ((pBy P) * (sin (pphiz P))))) * ((sqrt (1 - (pB2 P))) - 1)) * (sin (pphiy P))) +
  ((((- (pB2 P)) * (sqrt (1 - (pB2 P)))) + (((pBz P) ^ 2) * ((sqrt (1 - (pB2 P))) - 1))) * (cos
  (pphiy P)))) * (ks_dddK2_D1D1D2 P f))) - ((((((pBz P) * (((pBx P) * (cos (pphiz P))) + ((pBy P) *
  (sin (pphiz P))))) * ((sqrt (1 - (pB2 P))) - 1)) * (cos (pphiy P))) + ((((pB2 P) * (sqrt (1 - (pB2
  P)))) + (((pBz P) ^ 2) * (1 - (sqrt (1 - (pB2 P)))))) * (sin (pphiy P)))) * (ks_dddK0_D1D1D2 P
  f)))) / (pB2 P).

(* /repo/Src/Main/Modules/Physics/Free_Data/fd_KerrSchild_c_k0_k1_k2_kt.c:1454-1469 *)
Definition ks_dddk2_D2D2D0 (P : kspar) (f : ksarg) : R :=
  ((/ (sqrt (1 - (pB2 P)))) * ((((((pBz P) * (((pBx P) * (sin (pphiz P))) - ((pBy P) * (cos (pphiz
  P))))) * ((sqrt (1 - (pB2 P))) - 1)) * (ks_dddK1_D0D2D2 P f)) - ((((((pBz P) * (((pBx P) * (cos
  (pphiz P))) + ((pBy P) * (sin (pphiz P))))) * ((sqrt (1 - (pB2 P))) - 1)) * (sin (pphiy P))) +
  ((((- (pB2 P)) * (sqrt (1 - (pB2 P)))) + (((pBz P) ^ 2) * ((sqrt (1 - (pB2 P))) - 1))) * (cos
  (pphiy P)))) * (ks_dddK2_D0D2D2 P f))) - ((((((pBz P) * (((pBx P) * (cos (pphiz P))) + ((pBy P) *
  (sin (pphiz P))))) * ((sqrt (1 - (pB2 P))) - 1)) * (cos (pphiy P))) + ((((pB2 P) * (sqrt (1 - (pB2
  P)))) + (((pBz P) ^ 2) * (1 - (sqrt (1 - (pB2 P)))))) * (sin (pphiy P)))) * (ks_dddK0_D0D2D2 P
  f)))) / (pB2 P).

(* /repo/Src/Main/Modules/Physics/Free_Data/fd_KerrSchild_c_k0_k1_k2_kt.c:1470-1485 *)
Definition ks_dddk2_D2D2D1 (P : kspar) (f : ksarg) : R :=
  ((/ (sqrt (1 - (pB2 P)))) * ((((((pBz P) * (((pBx P) * (sin (pphiz P))) - ((pBy P) * (cos (pphiz
  P))))) * ((sqrt (1 - (pB2 P))) - 1)) * (ks_dddK1_D1D2D2 P f)) - ((((((pBz P) * (((pBx P) * (cos
  (pphiz P))) + ((pBy P) * (sin (pphiz P))))) * ((sqrt (1 - (pB2 P))) - 1)) * (sin (pphiy P))) +
  ((((- (pB2 P)) * (sqrt (1 - (pB2 P)))) + (((pBz P) ^ 2) * ((sqrt (1 - (pB2 P))) - 1))) * (cos
  (pphiy P)))) * (ks_dddK2_D1D2D2 P f))) - ((((((pBz P) * (((pBx P) * (cos (pphiz P))) + ((pBy P) *
  (sin (pphiz P))))) * ((sqrt (1 - (pB2 P))) - 1)) * (cos (pphiy P))) + ((((pB2 P) * (sqrt (1 - (pB2
  P)))) + (((pBz P) ^ 2) * (1 - (sqrt (1 - (pB2 P)))))) * (sin (pphiy P)))) * (ks_dddK0_D1D2D2 P
  f)))) / (pB2 P).

(* /repo/Src/Main/Modules/Physics/Free_Data/fd_KerrSchild_c_k0_k1_k2_kt.c:1486-1501 *)
Definition ks_dddk2_D1D2D0 (P : kspar) (f : ksarg) : R :=
  ((/ (sqrt (1 - (pB2 P)))) * ((((((pBz P) * (((pBx P) * (sin (pphiz P))) - ((pBy P) * (cos (pphiz
  P))))) * ((sqrt (1 - (pB2 P))) - 1)) * (ks_dddK1_D0D1D2 P f)) - ((((((pBz P) * (((pBx P) * (cos
  (pphiz P))) + ((pBy P) * (sin (pphiz P))))) * ((sqrt (1 - (pB2 P))) - 1)) * (sin (pphiy P))) +
  ((((- (pB2 P)) * (sqrt (1 - (pB2 P)))) + (((pBz P) ^ 2) * ((sqrt (1 - (pB2 P))) - 1))) * (cos
  (pphiy P)))) * (ks_dddK2_D0D1D2 P f))) - ((((((pBz P) * (((pBx P) * (cos (pphiz P))) + ((pBy P) *
  (sin (pphiz P))))) * ((sqrt (1 - (pB2 P))) - 1)) * (cos (pphiy P))) + ((((pB2 P) * (sqrt (1 - (pB2
  P)))) + (((pBz P) ^ 2) * (1 - (sqrt (1 - (pB2 P)))))) * (sin (pphiy P)))) * (ks_dddK0_D0D1D2 P
  f)))) / (pB2 P).

(* /repo/Src/Main/Modules/Physics/Free_Data/fd_KerrSchild_c_k0_k1_k2_kt.c:1502-1517 *)
Definition ks_dddk2_D1D1D2 (P : kspar) (f : ksarg) : R :=
  ((/ (sqrt (1 - (pB2 P)))) * ((((((pBz P) * (((pBx P) * (sin (pphiz P))) - ((pBy P) * (cos (pphiz
  P))))) * ((sqrt (1 - (pB2 P))) - 1)) * (ks_dddK1_D1D1D2 P f)) - ((((((pBz P) * (((pBx P) * (cos
  (pphiz P))) + ((pBy P) * (sin (pphiz P))))) * ((sqrt (1 - (pB2 P))) - 1)) * (sin (pphiy P))) +
  ((((- (pB2 P)) * (sqrt (1 - (pB2 P)))) + (((pBz P) ^ 2) * ((sqrt (1 - (pB2 P))) - 1))) * (cos
  (pphiy P)))) * (ks_dddK2_D1D1D2 P f))) - ((((((pBz P) * (((pBx P) * (cos (pphiz P))) + ((pBy P) *
  (sin (pphiz P))))) * ((sqrt (1 - (pB2 P))) - 1)) * (cos (pphiy P))) + ((((pB2 P) * (sqrt (1 - (pB2
  P)))) + (((pBz P) ^ 2) * (1 - (sqrt (1 - (pB2 P)))))) * (sin (pphiy P)))) * (ks_dddK0_D1D1D2 P
  f)))) / (pB2 P).

(* /repo/Src/Main/Modules/Physics/Free_Data/fd_KerrSchild_c_k0_k1_k2_kt.c:1518-1533 *)
Definition ks_dddk2_D1D1D0 (P : kspar) (f : ksarg) : R :=
  ((/ (sqrt (1 - (pB2 P)))) * ((((((pBz P) * (((pBx P) * (sin (pphiz P))) - ((pBy P) * (cos (pphiz
  P))))) * ((sqrt (1 - (pB2 P))) - 1)) * (ks_dddK1_D0D1D1 P f)) - ((((((pBz P) * (((pBx P) * (cos
  (pphiz P))) + ((pBy P) * (sin (pphiz P))))) * ((sqrt (1 - (pB2 P))) - 1)) * (sin (pphiy P))) +
  ((((- (pB2 P)) * (sqrt (1 - (pB2 P)))) + (((pBz P) ^ 2) * ((sqrt (1 - (pB2 P))) - 1))) * (cos
  (pphiy P)))) * (ks_dddK2_D0D1D1 P f))) - ((((((pBz P) * (((pBx P) * (cos (pphiz P))) + ((pBy P) *
  (sin (pphiz P))))) * ((sqrt (1 - (pB2 P))) - 1)) * (cos (pphiy P))) + ((((pB2 P) * (sqrt (1 - (pB2
  P)))) + (((pBz P) ^ 2) * (1 - (sqrt (1 - (pB2 P)))))) * (sin (pphiy P)))) * (ks_dddK0_D0D1D1 P
  f)))) / (pB2 P).

(* /repo/Src/Main/Modules/Physics/Free_Data/fd_KerrSchild_c_k0_k1_k2_kt.c:1534-1549 *)
Definition ks_dddk2_D1D1D1 (P : kspar) (f : ksarg) : R :=
  ((/ (sqrt (1 - (pB2 P)))) * ((((((pBz P) * (((pBx P) * (sin (pphiz P))) - ((pBy P) * (cos (pphiz
  P))))) * ((sqrt (1 - (pB2 P))) - 1)) * (ks_dddK1_D1D1D1 P f)) - ((((((pBz P) * (((pBx P) * (cos
  (pphiz P))) + ((pBy P) * (sin (pphiz P))))) * ((sqrt (1 - (pB2 P))) - 1)) * (sin (pphiy P))) +
  ((((- (pB2 P)) * (sqrt (1 - (pB2 P)))) + (((pBz P) ^ 2) * ((sqrt (1 - (pB2 P))) - 1))) * (cos
  (pphiy P)))) * (ks_dddK2_D1D1D1 P f))) - ((((((pBz P) * (((pBx P) * (cos (pphiz P))) + ((pBy P) *
  (sin (pphiz P))))) * ((sqrt (1 - (pB2 P))) - 1)) * (cos (pphiy P))) + ((((pB2 P) * (sqrt (1 - (pB2
  P)))) + (((pBz P) ^ 2) * (1 - (sqrt (1 - (pB2 P)))))) * (sin (pphiy P)))) * (ks_dddK0_D1D1D1 P
  f)))) / (pB2 P).

(* /repo/Src/Main/Modules/Physics/Free_Data/fd_KerrSchild_c_k0_k1_k2_kt.c:1550-1565 *)
Definition ks_dddk2_D0D1D1 (P : kspar) (f : ksarg) : R :=
  ((/ (sqrt (1 - (pB2 P)))) * ((((((pBz P) * (((pBx P) * (sin (pphiz P))) - ((pBy P) * (cos (pphiz
  P))))) * ((sqrt (1 - (pB2 P))) - 1)) * (ks_dddK1_D0D1D1 P f)) - ((((((pBz P) * (((pBx P) * (cos
  (pphiz P))) + ((pBy P) * (sin (pphiz P))))) * ((sqrt (1 - (pB2 P))) - 1)) * (sin (pphiy P))) +
  ((((- (pB2 P)) * (sqrt (1 - (pB2 P)))) + (((pBz P) ^ 2) * ((sqrt (1 - (pB2 P))) - 1))) * (cos
  (pphiy P)))) * (ks_dddK2_D0D1D1 P f))) - ((((((pBz P) * (((pBx P) * (cos (pphiz P))) + ((pBy P) *
  (sin (pphiz P))))) * ((sqrt (1 - (pB2 P))) - 1)) * (cos (pphiy P))) + ((((pB2 P) * (sqrt (1 - (pB2
  P)))) + (((pBz P) ^ 2) * (1 - (sqrt (1 - (pB2 P)))))) * (sin (pphiy P)))) * (ks_dddK0_D0D1D1 P
  f)))) / (pB2 P).

(* /repo/Src/Main/Modules/Physics/Free_Data/fd_KerrSchild_c_k0_k1_k2_kt.c:1696-1708 *)
Definition ks_dddkt_D0D0D0 (P : kspar) (f : ksarg) : R :=
  (/ (sqrt (1 - (pB2 P)))) * ((((((pBx P) * (sin (pphiz P))) - ((pBy P) * (cos (pphiz P)))) *
  (ks_dddK1_D0D0D0 P f)) + ((((pBz P) * (sin (pphiy P))) - ((((pBx P) * (cos (pphiz P))) + ((pBy P) *
  (sin (pphiz P)))) * (cos (pphiy P)))) * (ks_dddK0_D0D0D0 P f))) - ((((pBz P) * (cos (pphiy P))) +
  ((((pBx P) * (cos (pphiz P))) + ((pBy P) * (sin (pphiz P)))) * (sin (pphiy P)))) * (ks_dddK2_D0D0D0
  P f))).

(* /repo/Src/Main/Modules/Physics/Free_Data/fd_KerrSchild_c_k0_k1_k2_kt.c:1709-1721 *)
Definition ks_dddkt_D0D0D1 (P : kspar) (f : ksarg) : R :=
  (/ (sqrt (1 - (pB2 P)))) * ((((((pBx P) * (sin (pphiz P))) - ((pBy P) * (cos (pphiz P)))) *
  (ks_dddK1_D0D0D1 P f)) + ((((pBz P) * (sin (pphiy P))) - ((((pBx P) * (cos (pphiz P))) + ((pBy P) *
  (sin (pphiz P)))) * (cos (pphiy P)))) * (ks_dddK0_D0D0D1 P f))) - ((((pBz P) * (cos (pphiy P))) +
  ((((pBx P) * (cos (pphiz P))) + ((pBy P) * (sin (pphiz P)))) * (sin (pphiy P)))) * (ks_dddK2_D0D0D1
  P f))).

(* /repo/Src/Main/Modules/Physics/Free_Data/fd_KerrSchild_c_k0_k1_k2_kt.c:1722-1734 *)
Definition ks_dddkt_D0D0D2 (P : kspar) (f : ksarg) : R :=
  (/ (sqrt (1 - (pB2 P)))) * ((((((pBx P) * (sin (pphiz P))) - ((pBy P) * (cos (pphiz P)))) *
  (ks_dddK1_D0D0D2 P f)) + ((((pBz P) * (sin (pphiy P))) - ((((pBx P) * (cos (pphiz P))) + ((pBy P) *
  (sin (pphiz P)))) * (cos (pphiy P)))) * (ks_dddK0_D0D0D2 P f))) - ((((pBz P) * (cos (pphiy P))) +
  ((((pBx P) * (cos (pphiz P))) + ((pBy P) * (sin (pphiz P)))) * (sin (pphiy P)))) * (ks_dddK2_D0D0D2
  P f))).

(* /repo/Src/Main/Modules/Physics/Free_Data/fd_KerrSchild_c_k0_k1_k2_kt.c:1735-1747 *)
Definition ks_dddkt_D1D2D0 (P : kspar) (f : ksarg) : R :=
  (/ (sqrt (1 - (pB2 P)))) * ((((((pBx P) * (sin (pphiz P))) - ((pBy P) * (cos (pphiz P)))) *
  (ks_dddK1_D0D1D2 P f)) + ((((pBz P) * (sin (pphiy P))) - ((((pBx P) * (cos (pphiz P))) + ((pBy P) *
  (sin (pphiz P)))) * (cos (pphiy P)))) * (ks_dddK0_D0D1D2 P f))) - ((((pBz P) * (cos (pphiy P))) +
  ((((pBx P) * (cos (pphiz P))) + ((pBy P) * (sin (pphiz P)))) * (sin (pphiy P)))) * (ks_dddK2_D0D1D2
  P f))).

(* /repo/Src/Main/Modules/Physics/Free_Data/fd_KerrSchild_c_k0_k1_k2_kt.c:1748-1760 *)
Definition ks_dddkt_D0D2D2 (P : kspar) (f : ksarg) : R :=
  (/ (sqrt (1 - (pB2 P)))) * ((((((pBx P) * (sin (pphiz P))) - ((pBy P) * (cos (pphiz P)))) *
  (ks_dddK1_D0D2D2 P f)) + ((((pBz P) * (sin (pphiy P))) - ((((pBx P) * (cos (pphiz P))) + ((pBy P) *
  (sin (pphiz P)))) * (cos (pphiy P)))) * (ks_dddK0_D0D2D2 P f))) - ((((pBz P) * (cos (pphiy P))) +
  ((((pBx P) * (cos (pphiz P))) + ((pBy P) * (sin (pphiz P)))) * (sin (pphiy P)))) * (ks_dddK2_D0D2D2
  P f))).

(* /repo/Src/Main/Modules/Physics/Free_Data/fd_KerrSchild_c_k0_k1_k2_kt.c:1761-1773 *)
Definition ks_dddkt_D2D2D0 (P : kspar) (f : ksarg) : R :=
  (/ (sqrt (1 - (pB2 P)))) * ((((((pBx P) * (sin (pphiz P))) - ((pBy P) * (cos (pphiz P)))) *
  (ks_dddK1_D0D2D2 P f)) + ((((pBz P) * (sin (pphiy P))) - ((((pBx P) * (cos (pphiz P))) + ((pBy P) *
  (sin (pphiz P)))) * (cos (pphiy P)))) * (ks_dddK0_D0D2D2 P f))) - ((((pBz P) * (cos (pphiy P))) +
  ((((pBx P) * (cos (pphiz P))) + ((pBy P) * (sin (pphiz P)))) * (sin (pphiy P)))) * (ks_dddK2_D0D2D2
  P f))).

(* /repo/Src/Main/Modules/Physics/Free_Data/fd_KerrSchild_c_k0_k1_k2_kt.c:1774-1786 *)
Definition ks_dddkt_D2D2D1 (P : kspar) (f : ksarg) : R :=
  (/ (sqrt (1 - (pB2 P)))) * ((((((pBx P) * (sin (pphiz P))) - ((pBy P) * (cos (pphiz P)))) *
  (ks_dddK1_D1D2D2 P f)) + ((((pBz P) * (sin (pphiy P))) - ((((pBx P) * (cos (pphiz P))) + ((pBy P) *
  (sin (pphiz P)))) * (cos (pphiy P)))) * (ks_dddK0_D1D2D2 P f))) - ((((pBz P) * (cos (pphiy P))) +
  ((((pBx P) * (cos (pphiz P))) + ((pBy P) * (sin (pphiz P)))) * (sin (pphiy P)))) * (ks_dddK2_D1D2D2
  P f))).

(* /repo/Src/Main/Modules/Physics/Free_Data/fd_KerrSchild_c_k0_k1_k2_kt.c:1787-1799 *)
Definition ks_dddkt_D2D2D2 (P : kspar) (f : ksarg) : R :=
  (/ (sqrt (1 - (pB2 P)))) * ((((((pBx P) * (sin (pphiz P))) - ((pBy P) * (cos (pphiz P)))) *
  (ks_dddK1_D2D2D2 P f)) + ((((pBz P) * (sin (pphiy P))) - ((((pBx P) * (cos (pphiz P))) + ((pBy P) *
  (sin (pphiz P)))) * (cos (pphiy P)))) * (ks_dddK0_D2D2D2 P f))) - ((((pBz P) * (cos (pphiy P))) +
  ((((pBx P) * (cos (pphiz P))) + ((pBy P) * (sin (pphiz P)))) * (sin (pphiy P)))) * (ks_dddK2_D2D2D2
  P f))).

(* /repo/Src/Main/Modules/Physics/Free_Data/fd_KerrSchild_c_k0_k1_k2_kt.c:1800-1812 *)
Definition ks_dddkt_D1D1D1 (P : kspar) (f : ksarg) : R :=
  (/ (sqrt (1 - (pB2 P)))) * ((((((pBx P) * (sin (pphiz P))) - ((pBy P) * (cos (pphiz P)))) *
  (ks_dddK1_D1D1D1 P f)) + ((((pBz P) * (sin (pphiy P))) - ((((pBx P) * (cos (pphiz P))) + ((pBy P) *
  (sin (pphiz P)))) * (cos (pphiy P)))) * (ks_dddK0_D1D1D1 P f))) - ((((pBz P) * (cos (pphiy P))) +
  ((((pBx P) * (cos (pphiz P))) + ((pBy P) * (sin (pphiz P)))) * (sin (pphiy P)))) * (ks_dddK2_D1D1D1
  P f))).

(* /repo/Src/Main/Modules/Physics/Free_Data/fd_KerrSchild_c_k0_k1_k2_kt.c:1813-1825 *)
Definition ks_dddkt_D1D2D1 (P : kspar) (f : ksarg) : R :=
  (/ (sqrt (1 - (pB2 P)))) * ((((((pBx P) * (sin (pphiz P))) - ((pBy P) * (cos (pphiz P)))) *
  (ks_dddK1_D1D1D2 P f)) + ((((pBz P) * (sin (pphiy P))) - ((((pBx P) * (cos (pphiz P))) + ((pBy P) *
  (sin (pphiz P)))) * (cos (pphiy P)))) * (ks_dddK0_D1D1D2 P f))) - ((((pBz P) * (cos (pphiy P))) +
  ((((pBx P) * (cos (pphiz P))) + ((pBy P) * (sin (pphiz P)))) * (sin (pphiy P)))) * (ks_dddK2_D1D1D2
  P f))).

(* /repo/Src/Main/Modules/Physics/Free_Data/fd_KerrSchild_c_k0_k1_k2_kt.c:1826-1838 *)
Definition ks_dddkt_D1D1D2 (P : kspar) (f : ksarg) : R :=
  (/ (sqrt (1 - (pB2 P)))) * ((((((pBx P) * (sin (pphiz P))) - ((pBy P) * (cos (pphiz P)))) *
  (ks_dddK1_D1D1D2 P f)) + ((((pBz P) * (sin (pphiy P))) - ((((pBx P) * (cos (pphiz P))) + ((pBy P) *
  (sin (pphiz P)))) * (cos (pphiy P)))) * (ks_dddK0_D1D1D2 P f))) - ((((pBz P) * (cos (pphiy P))) +
  ((((pBx P) * (cos (pphiz P))) + ((pBy P) * (sin (pphiz P)))) * (sin (pphiy P)))) * (ks_dddK2_D1D1D2
  P f))).

(* /repo/Src/Main/Modules/Physics/Free_Data/fd_KerrSchild_c_k0_k1_k2_kt.c:1839-1851 *)
Definition ks_dddkt_D1D1D0 (P : kspar) (f : ksarg) : R :=
  (/ (sqrt (1 - (pB2 P)))) * ((((((pBx P) * (sin (pphiz P))) - ((pBy P) * (cos (pphiz P)))) *
  (ks_dddK1_D0D1D1 P f)) + ((((pBz P) * (sin (pphiy P))) - ((((pBx P) * (cos (pphiz P))) + ((pBy P) *
  (sin (pphiz P)))) * (cos (pphiy P)))) * (ks_dddK0_D0D1D1 P f))) - ((((pBz P) * (cos (pphiy P))) +
  ((((pBx P) * (cos (pphiz P))) + ((pBy P) * (sin (pphiz P)))) * (sin (pphiy P)))) * (ks_dddK2_D0D1D1
  P f))).

(* /repo/Src/Main/Modules/Physics/Free_Data/fd_KerrSchild_c_k0_k1_k2_kt.c:1852-1864 *)
Definition ks_dddkt_D1D2D2 (P : kspar) (f : ksarg) : R :=
  (/ (sqrt (1 - (pB2 P)))) * ((((((pBx P) * (sin (pphiz P))) - ((pBy P) * (cos (pphiz P)))) *
  (ks_dddK1_D1D2D2 P f)) + ((((pBz P) * (sin (pphiy P))) - ((((pBx P) * (cos (pphiz P))) + ((pBy P) *
  (sin (pphiz P)))) * (cos (pphiy P)))) * (ks_dddK0_D1D2D2 P f))) - ((((pBz P) * (cos (pphiy P))) +
  ((((pBx P) * (cos (pphiz P))) + ((pBy P) * (sin (pphiz P)))) * (sin (pphiy P)))) * (ks_dddK2_D1D2D2
  P f))).

(* /repo/Src/Main/Modules/Physics/Free_Data/fd_KerrSchild_c_k0_k1_k2_kt.c:1865-1877 *)
Definition ks_dddkt_D0D2D1 (P : kspar) (f : ksarg) : R :=
  (/ (sqrt (1 - (pB2 P)))) * ((((((pBx P) * (sin (pphiz P))) - ((pBy P) * (cos (pphiz P)))) *
  (ks_dddK1_D0D1D2 P f)) + ((((pBz P) * (sin (pphiy P))) - ((((pBx P) * (cos (pphiz P))) + ((pBy P) *
  (sin (pphiz P)))) * (cos (pphiy P)))) * (ks_dddK0_D0D1D2 P f))) - ((((pBz P) * (cos (pphiy P))) +
  ((((pBx P) * (cos (pphiz P))) + ((pBy P) * (sin (pphiz P)))) * (sin (pphiy P)))) * (ks_dddK2_D0D1D2
  P f))).

(* /repo/Src/Main/Modules/Physics/Free_Data/fd_KerrSchild_c_k0_k1_k2_kt.c:1878-1890 *)
Definition ks_dddkt_D0D1D1 (P : kspar) (f : ksarg) : R :=
  (/ (sqrt (1 - (pB2 P)))) * ((((((pBx P) * (sin (pphiz P))) - ((pBy P) * (cos (pphiz P)))) *
  (ks_dddK1_D0D1D1 P f)) + ((((pBz P) * (sin (pphiy P))) - ((((pBx P) * (cos (pphiz P))) + ((pBy P) *
  (sin (pphiz P)))) * (cos (pphiy P)))) * (ks_dddK0_D0D1D1 P f))) - ((((pBz P) * (cos (pphiy P))) +
  ((((pBx P) * (cos (pphiz P))) + ((pBy P) * (sin (pphiz P)))) * (sin (pphiy P)))) * (ks_dddK2_D0D1D1
  P f))).

(* /repo/Src/Main/Modules/Physics/Free_Data/fd_KerrSchild_c_k0_k1_k2_kt.c:1891-1903 *)
Definition ks_dddkt_D0D1D0 (P : kspar) (f : ksarg) : R :=
  (/ (sqrt (1 - (pB2 P)))) * ((((((pBx P) * (sin (pphiz P))) - ((pBy P) * (cos (pphiz P)))) *
  (ks_dddK1_D0D0D1 P f)) + ((((pBz P) * (sin (pphiy P))) - ((((pBx P) * (cos (pphiz P))) + ((pBy P) *
  (sin (pphiz P)))) * (cos (pphiy P)))) * (ks_dddK0_D0D0D1 P f))) - ((((pBz P) * (cos (pphiy P))) +
  ((((pBx P) * (cos (pphiz P))) + ((pBy P) * (sin (pphiz P)))) * (sin (pphiy P)))) * (ks_dddK2_D0D0D1
  P f))).

(* /repo/Src/Main/Modules/Physics/Free_Data/fd_KerrSchild_c_k0_k1_k2_kt.c:1904-1916 *)
Definition ks_dddkt_D0D2D0 (P : kspar) (f : ksarg) : R :=
  (/ (sqrt (1 - (pB2 P)))) * ((((((pBx P) * (sin (pphiz P))) - ((pBy P) * (cos (pphiz P)))) *
  (ks_dddK1_D0D0D2 P f)) + ((((pBz P) * (sin (pphiy P))) - ((((pBx P) * (cos (pphiz P))) + ((pBy P) *
  (sin (pphiz P)))) * (cos (pphiy P)))) * (ks_dddK0_D0D0D2 P f))) - ((((pBz P) * (cos (pphiy P))) +
  ((((pBx P) * (cos (pphiz P))) + ((pBy P) * (sin (pphiz P)))) * (sin (pphiy P)))) * (ks_dddK2_D0D0D2
  P f))).

(* /repo/Src/Main/Modules/Physics/Free_Data/fd_KerrSchild_c_k0_k1_k2_kt.c:1917-1929 *)
Definition ks_dddkt_D0D1D2 (P : kspar) (f : ksarg) : R :=
  (/ (sqrt (1 - (pB2 P)))) * ((((((pBx P) * (sin (pphiz P))) - ((pBy P) * (cos (pphiz P)))) *
  (ks_dddK1_D0D1D2 P f)) + ((((pBz P) * (sin (pphiy P))) - ((((pBx P) * (cos (pphiz P))) + ((pBy P) *
  (sin (pphiz P)))) * (cos (pphiy P)))) * (ks_dddK0_D0D1D2 P f))) - ((((pBz P) * (cos (pphiy P))) +
  ((((pBx P) * (cos (pphiz P))) + ((pBy P) * (sin (pphiz P)))) * (sin (pphiy P)))) * (ks_dddK2_D0D1D2
  P f))).

(* /repo/Src/Main/Modules/Physics/Free_Data/fd_KerrSchild_c_k0_k1_k2_kt.c:2010-2017 *)
Definition ks_dddc_D0D1D0 (P : kspar) (f : ksarg) : R :=
  2 * (ks_dddH_D0D0D1 P f).

(* /repo/Src/Main/Modules/Physics/Free_Data/fd_KerrSchild_c_k0_k1_k2_kt.c:2018-2025 *)
Definition ks_dddc_D0D0D0 (P : kspar) (f : ksarg) : R :=
  2 * (ks_dddH_D0D0D0 P f).

(* /repo/Src/Main/Modules/Physics/Free_Data/fd_KerrSchild_c_k0_k1_k2_kt.c:2026-2033 *)
Definition ks_dddc_D0D1D2 (P : kspar) (f : ksarg) : R :=
  2 * (ks_dddH_D0D1D2 P f).

(* /repo/Src/Main/Modules/Physics/Free_Data/fd_KerrSchild_c_k0_k1_k2_kt.c:2034-2041 *)
Definition ks_dddc_D0D0D2 (P : kspar) (f : ksarg) : R :=
  2 * (ks_dddH_D0D0D2 P f).

(* /repo/Src/Main/Modules/Physics/Free_Data/fd_KerrSchild_c_k0_k1_k2_kt.c:2042-2049 *)
Definition ks_dddc_D2D2D1 (P : kspar) (f : ksarg) : R :=
  2 * (ks_dddH_D1D2D2 P f).

(* /repo/Src/Main/Modules/Physics/Free_Data/fd_KerrSchild_c_k0_k1_k2_kt.c:2050-2057 *)
Definition ks_dddc_D1D2D1 (P : kspar) (f : ksarg) : R :=
  2 * (ks_dddH_D1D1D2 P f).

(* /repo/Src/Main/Modules/Physics/Free_Data/fd_KerrSchild_c_k0_k1_k2_kt.c:2058-2065 *)
Definition ks_dddc_D1D2D2 (P : kspar) (f : ksarg) : R :=
  2 * (ks_dddH_D1D2D2 P f).

(* /repo/Src/Main/Modules/Physics/Free_Data/fd_KerrSchild_c_k0_k1_k2_kt.c:2066-2073 *)
Definition ks_dddc_D2D2D0 (P : kspar) (f : ksarg) : R :=
  2 * (ks_dddH_D0D2D2 P f).

(* /repo/Src/Main/Modules/Physics/Free_Data/fd_KerrSchild_c_k0_k1_k2_kt.c:2074-2081 *)
Definition ks_dddc_D2D2D2 (P : kspar) (f : ksarg) : R :=
  2 * (ks_dddH_D2D2D2 P f).

(* /repo/Src/Main/Modules/Physics/Free_Data/fd_KerrSchild_c_k0_k1_k2_kt.c:2082-2089 *)
Definition ks_dddc_D1D2D0 (P : kspar) (f : ksarg) : R :=
  2 * (ks_dddH_D0D1D2 P f).

(* /repo/Src/Main/Modules/Physics/Free_Data/fd_KerrSchild_c_k0_k1_k2_kt.c:2090-2097 *)
Definition ks_dddc_D1D1D1 (P : kspar) (f : ksarg) : R :=
  2 * (ks_dddH_D1D1D1 P f).

(* /repo/Src/Main/Modules/Physics/Free_Data/fd_KerrSchild_c_k0_k1_k2_kt.c:2098-2105 *)
Definition ks_dddc_D1D1D0 (P : kspar) (f : ksarg) : R :=
  2 * (ks_dddH_D0D1D1 P f).

(* /repo/Src/Main/Modules/Physics/Free_Data/fd_KerrSchild_c_k0_k1_k2_kt.c:2106-2113 *)
Definition ks_dddc_D1D1D2 (P : kspar) (f : ksarg) : R :=
  2 * (ks_dddH_D1D1D2 P f).

(* /repo/Src/Main/Modules/Physics/Free_Data/fd_KerrSchild_c_k0_k1_k2_kt.c:2114-2121 *)
Definition ks_dddc_D0D0D1 (P : kspar) (f : ksarg) : R :=
  2 * (ks_dddH_D0D0D1 P f).

(* /repo/Src/Main/Modules/Physics/Free_Data/fd_KerrSchild_c_k0_k1_k2_kt.c:2122-2129 *)
Definition ks_dddc_D0D2D0 (P : kspar) (f : ksarg) : R :=
  2 * (ks_dddH_D0D0D2 P f).

(* /repo/Src/Main/Modules/Physics/Free_Data/fd_KerrSchild_c_k0_k1_k2_kt.c:2130-2137 *)
Definition ks_dddc_D0D2D2 (P : kspar) (f : ksarg) : R :=
  2 * (ks_dddH_D0D2D2 P f).

(* /repo/Src/Main/Modules/Physics/Free_Data/fd_KerrSchild_c_k0_k1_k2_kt.c:2138-2145 *)
Definition ks_dddc_D0D2D1 (P : kspar) (f : ksarg) : R :=
  2 * (ks_dddH_D0D1D2 P f).

(* /repo/Src/Main/Modules/Physics/Free_Data/fd_KerrSchild_c_k0_k1_k2_kt.c:2146-2153 *)
Definition ks_dddc_D0D1D1 (P : kspar) (f : ksarg) : R :=
  2 * (ks_dddH_D0D1D1 P f).

(* the functions dc_D.. by their indices *)
Definition kst_dc (P : kspar) (f : ksarg) (i : nat) : R :=
  match i with
  | 0%nat => ks_dc_D0 P f
  | 1%nat => ks_dc_D1 P f
  | 2%nat => ks_dc_D2 P f
  | _ => 0
  end.
(* the functions ddc_D.. by their indices *)
Definition kst_ddc (P : kspar) (f : ksarg) (i j : nat) : R :=
  match i, j with
  | 0%nat, 0%nat => ks_ddc_D0D0 P f
  | 0%nat, 1%nat => ks_ddc_D0D1 P f
  | 0%nat, 2%nat => ks_ddc_D0D2 P f
  | 1%nat, 1%nat => ks_ddc_D1D1 P f
  | 1%nat, 2%nat => ks_ddc_D1D2 P f
  | 2%nat, 2%nat => ks_ddc_D2D2 P f
  | _, _ => 0
  end.
(* the functions dddc_D.. by their indices *)
Definition kst_dddc (P : kspar) (f : ksarg) (i j k : nat) : R :=
  match i, j, k with
  | 0%nat, 0%nat, 0%nat => ks_dddc_D0D0D0 P f
  | 0%nat, 0%nat, 1%nat => ks_dddc_D0D0D1 P f
  | 0%nat, 0%nat, 2%nat => ks_dddc_D0D0D2 P f
  | 0%nat, 1%nat, 0%nat => ks_dddc_D0D1D0 P f
  | 0%nat, 1%nat, 1%nat => ks_dddc_D0D1D1 P f
  | 0%nat, 1%nat, 2%nat => ks_dddc_D0D1D2 P f
  | 0%nat, 2%nat, 0%nat => ks_dddc_D0D2D0 P f
  | 0%nat, 2%nat, 1%nat => ks_dddc_D0D2D1 P f
  | 0%nat, 2%nat, 2%nat => ks_dddc_D0D2D2 P f
  | 1%nat, 1%nat, 0%nat => ks_dddc_D1D1D0 P f
  | 1%nat, 1%nat, 1%nat => ks_dddc_D1D1D1 P f
  | 1%nat, 1%nat, 2%nat => ks_dddc_D1D1D2 P f
  | 1%nat, 2%nat, 0%nat => ks_dddc_D1D2D0 P f
  | 1%nat, 2%nat, 1%nat => ks_dddc_D1D2D1 P f
  | 1%nat, 2%nat, 2%nat => ks_dddc_D1D2D2 P f
  | 2%nat, 2%nat, 0%nat => ks_dddc_D2D2D0 P f
  | 2%nat, 2%nat, 1%nat => ks_dddc_D2D2D1 P f
  | 2%nat, 2%nat, 2%nat => ks_dddc_D2D2D2 P f
  | _, _, _ => 0
  end.

(* the functions dk0_D.. by their indices *)
Definition kst_dk0 (P : kspar) (f : ksarg) (i : nat) : R :=
  match i with
  | 0%nat => ks_dk0_D0 P f
  | 1%nat => ks_dk0_D1 P f
  | 2%nat => ks_dk0_D2 P f
  | _ => 0
  end.
(* the functions ddk0_D.. by their indices *)
Definition kst_ddk0 (P : kspar) (f : ksarg) (i j : nat) : R :=
  match i, j with
  | 0%nat, 0%nat => ks_ddk0_D0D0 P f
  | 0%nat, 1%nat => ks_ddk0_D0D1 P f
  | 0%nat, 2%nat => ks_ddk0_D0D2 P f
  | 1%nat, 1%nat => ks_ddk0_D1D1 P f
  | 1%nat, 2%nat => ks_ddk0_D1D2 P f
  | 2%nat, 2%nat => ks_ddk0_D2D2 P f
  | _, _ => 0
  end.
(* the functions dddk0_D.. by their indices *)
Definition kst_dddk0 (P : kspar) (f : ksarg) (i j k : nat) : R :=
  match i, j, k with
  | 0%nat, 0%nat, 0%nat => ks_dddk0_D0D0D0 P f
  | 0%nat, 0%nat, 1%nat => ks_dddk0_D0D0D1 P f
  | 0%nat, 0%nat, 2%nat => ks_dddk0_D0D0D2 P f
  | 0%nat, 1%nat, 0%nat => ks_dddk0_D0D1D0 P f
  | 0%nat, 1%nat, 1%nat => ks_dddk0_D0D1D1 P f
  | 0%nat, 1%nat, 2%nat => ks_dddk0_D0D1D2 P f
  | 0%nat, 2%nat, 0%nat => ks_dddk0_D0D2D0 P f
  | 0%nat, 2%nat, 1%nat => ks_dddk0_D0D2D1 P f
  | 0%nat, 2%nat, 2%nat => ks_dddk0_D0D2D2 P f
  | 1%nat, 1%nat, 0%nat => ks_dddk0_D1D1D0 P f
  | 1%nat, 1%nat, 1%nat => ks_dddk0_D1D1D1 P f
  | 1%nat, 1%nat, 2%nat => ks_dddk0_D1D1D2 P f
  | 1%nat, 2%nat, 0%nat => ks_dddk0_D1D2D0 P f
  | 1%nat, 2%nat, 1%nat => ks_dddk0_D1D2D1 P f
  | 1%nat, 2%nat, 2%nat => ks_dddk0_D1D2D2 P f
  | 2%nat, 2%nat, 0%nat => ks_dddk0_D2D2D0 P f
  | 2%nat, 2%nat, 1%nat => ks_dddk0_D2D2D1 P f
  | 2%nat, 2%nat, 2%nat => ks_dddk0_D2D2D2 P f
  | _, _, _ => 0
  end.

(* the functions dk1_D.. by their indices *)
Definition kst_dk1 (P : kspar) (f : ksarg) (i : nat) : R :=
  match i with
  | 0%nat => ks_dk1_D0 P f
  | 1%nat => ks_dk1_D1 P f
  | 2%nat => ks_dk1_D2 P f
  | _ => 0
  end.
(* the functions ddk1_D.. by their indices *)
Definition kst_ddk1 (P : kspar) (f : ksarg) (i j : nat) : R :=
  match i, j with
  | 0%nat, 0%nat => ks_ddk1_D0D0 P f
  | 0%nat, 1%nat => ks_ddk1_D0D1 P f
  | 0%nat, 2%nat => ks_ddk1_D0D2 P f
  | 1%nat, 1%nat => ks_ddk1_D1D1 P f
  | 1%nat, 2%nat => ks_ddk1_D1D2 P f
  | 2%nat, 2%nat => ks_ddk1_D2D2 P f
  | _, _ => 0
  end.
(* the functions dddk1_D.. by their indices *)
Definition kst_dddk1 (P : kspar) (f : ksarg) (i j k : nat) : R :=
  match i, j, k with
  | 0%nat, 0%nat, 0%nat => ks_dddk1_D0D0D0 P f
  | 0%nat, 0%nat, 1%nat => ks_dddk1_D0D0D1 P f
  | 0%nat, 0%nat, 2%nat => ks_dddk1_D0D0D2 P f
  | 0%nat, 1%nat, 0%nat => ks_dddk1_D0D1D0 P f
  | 0%nat, 1%nat, 1%nat => ks_dddk1_D0D1D1 P f
  | 0%nat, 1%nat, 2%nat => ks_dddk1_D0D1D2 P f
  | 0%nat, 2%nat, 0%nat => ks_dddk1_D0D2D0 P f
  | 0%nat, 2%nat, 1%nat => ks_dddk1_D0D2D1 P f
  | 0%nat, 2%nat, 2%nat => ks_dddk1_D0D2D2 P f
  | 1%nat, 1%nat, 0%nat => ks_dddk1_D1D1D0 P f
  | 1%nat, 1%nat, 1%nat => ks_dddk1_D1D1D1 P f
  | 1%nat, 1%nat, 2%nat => ks_dddk1_D1D1D2 P f
  | 1%nat, 2%nat, 0%nat => ks_dddk1_D1D2D0 P f
  | 1%nat, 2%nat, 1%nat => ks_dddk1_D1D2D1 P f
  | 1%nat, 2%nat, 2%nat => ks_dddk1_D1D2D2 P f
  | 2%nat, 2%nat, 0%nat => ks_dddk1_D2D2D0 P f
  | 2%nat, 2%nat, 1%nat => ks_dddk1_D2D2D1 P f
  | 2%nat, 2%nat, 2%nat => ks_dddk1_D2D2D2 P f
  | _, _, _ => 0
  end.

(* the functions dk2_D.. by their indices *)
Definition kst_dk2 (P : kspar) (f : ksarg) (i : nat) : R :=
  match i with
  | 0%nat => ks_dk2_D0 P f
  | 1%nat => ks_dk2_D1 P f
  | 2%nat => ks_dk2_D2 P f
  | _ => 0
  end.
(* the functions ddk2_D.. by their indices *)
Definition kst_ddk2 (P : kspar) (f : ksarg) (i j : nat) : R :=
  match i, j with
  | 0%nat, 0%nat => ks_ddk2_D0D0 P f
  | 0%nat, 1%nat => ks_ddk2_D0D1 P f
  | 0%nat, 2%nat => ks_ddk2_D0D2 P f
  | 1%nat, 1%nat => ks_ddk2_D1D1 P f
  | 1%nat, 2%nat => ks_ddk2_D1D2 P f
  | 2%nat, 2%nat => ks_ddk2_D2D2 P f
  | _, _ => 0
  end.
(* the functions dddk2_D.. by their indices *)
Definition kst_dddk2 (P : kspar) (f : ksarg) (i j k : nat) : R :=
  match i, j, k with
  | 0%nat, 0%nat, 0%nat => ks_dddk2_D0D0D0 P f
  | 0%nat, 0%nat, 1%nat => ks_dddk2_D0D0D1 P f
  | 0%nat, 0%nat, 2%nat => ks_dddk2_D0D0D2 P f
  | 0%nat, 1%nat, 0%nat => ks_dddk2_D0D1D0 P f
  | 0%nat, 1%nat, 1%nat => ks_dddk2_D0D1D1 P f
  | 0%nat, 1%nat, 2%nat => ks_dddk2_D0D1D2 P f
  | 0%nat, 2%nat, 0%nat => ks_dddk2_D0D2D0 P f
  | 0%nat, 2%nat, 1%nat => ks_dddk2_D0D2D1 P f
  | 0%nat, 2%nat, 2%nat => ks_dddk2_D0D2D2 P f
  | 1%nat, 1%nat, 0%nat => ks_dddk2_D1D1D0 P f
  | 1%nat, 1%nat, 1%nat => ks_dddk2_D1D1D1 P f
  | 1%nat, 1%nat, 2%nat => ks_dddk2_D1D1D2 P f
  | 1%nat, 2%nat, 0%nat => ks_dddk2_D1D2D0 P f
  | 1%nat, 2%nat, 1%nat => ks_dddk2_D1D2D1 P f
  | 1%nat, 2%nat, 2%nat => ks_dddk2_D1D2D2 P f
  | 2%nat, 2%nat, 0%nat => ks_dddk2_D2D2D0 P f
  | 2%nat, 2%nat, 1%nat => ks_dddk2_D2D2D1 P f
  | 2%nat, 2%nat, 2%nat => ks_dddk2_D2D2D2 P f
  | _, _, _ => 0
  end.

(* the functions dkt_D.. by their indices *)
Definition kst_dkt (P : kspar) (f : ksarg) (i : nat) : R :=
  match i with
  | 0%nat => ks_dkt_D0 P f
  | 1%nat => ks_dkt_D1 P f
  | 2%nat => ks_dkt_D2 P f
  | _ => 0
  end.
(* the functions ddkt_D.. by their indices *)
Definition kst_ddkt (P : kspar) (f : ksarg) (i j : nat) : R :=
  match i, j with
  | 0%nat, 0%nat => ks_ddkt_D0D0 P f
  | 0%nat, 1%nat => ks_ddkt_D0D1 P f
  | 0%nat, 2%nat => ks_ddkt_D0D2 P f
  | 1%nat, 1%nat => ks_ddkt_D1D1 P f
  | 1%nat, 2%nat => ks_ddkt_D1D2 P f
  | 2%nat, 2%nat => ks_ddkt_D2D2 P f
  | _, _ => 0
  end.
(* the functions dddkt_D.. by their indices *)
Definition kst_dddkt (P : kspar) (f : ksarg) (i j k : nat) : R :=
  match i, j, k with
  | 0%nat, 0%nat, 0%nat => ks_dddkt_D0D0D0 P f
  | 0%nat, 0%nat, 1%nat => ks_dddkt_D0D0D1 P f
  | 0%nat, 0%nat, 2%nat => ks_dddkt_D0D0D2 P f
  | 0%nat, 1%nat, 0%nat => ks_dddkt_D0D1D0 P f
  | 0%nat, 1%nat, 1%nat => ks_dddkt_D0D1D1 P f
  | 0%nat, 1%nat, 2%nat => ks_dddkt_D0D1D2 P f
  | 0%nat, 2%nat, 0%nat => ks_dddkt_D0D2D0 P f
  | 0%nat, 2%nat, 1%nat => ks_dddkt_D0D2D1 P f
  | 0%nat, 2%nat, 2%nat => ks_dddkt_D0D2D2 P f
  | 1%nat, 1%nat, 0%nat => ks_dddkt_D1D1D0 P f
  | 1%nat, 1%nat, 1%nat => ks_dddkt_D1D1D1 P f
  | 1%nat, 1%nat, 2%nat => ks_dddkt_D1D1D2 P f
  | 1%nat, 2%nat, 0%nat => ks_dddkt_D1D2D0 P f
  | 1%nat, 2%nat, 1%nat => ks_dddkt_D1D2D1 P f
  | 1%nat, 2%nat, 2%nat => ks_dddkt_D1D2D2 P f
  | 2%nat, 2%nat, 0%nat => ks_dddkt_D2D2D0 P f
  | 2%nat, 2%nat, 1%nat => ks_dddkt_D2D2D1 P f
  | 2%nat, 2%nat, 2%nat => ks_dddkt_D2D2D2 P f
  | _, _, _ => 0
  end.
