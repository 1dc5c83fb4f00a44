(* Generated by tools/ks2coq.py from fd_KerrSchild_g_dg_ddg_dddg.c: do not edit. *)
From Coq Require Import Reals.
Require Import Verif.GenKsX.
Require Import Verif.GenKsR.
Require Import Verif.GenKsH.
Require Import Verif.GenKsK.
Local Open Scope R_scope.

(* /repo/Src/Main/Modules/Physics/Free_Data/fd_KerrSchild_g_dg_ddg_dddg.c:78-83 *)
Definition ks_gamma_D0D0 (P : kspar) (f : ksarg) : R :=
  ((ks_c P f) * ((ks_k0 P f) ^ 2)) + 1.

(* /repo/Src/Main/Modules/Physics/Free_Data/fd_KerrSchild_g_dg_ddg_dddg.c:84-90 *)
Definition ks_gamma_D0D1 (P : kspar) (f : ksarg) : R :=
  ((ks_c P f) * (ks_k0 P f)) * (ks_k1 P f).

(* /repo/Src/Main/Modules/Physics/Free_Data/fd_KerrSchild_g_dg_ddg_dddg.c:91-97 *)
Definition ks_gamma_D0D2 (P : kspar) (f : ksarg) : R :=
  ((ks_c P f) * (ks_k0 P f)) * (ks_k2 P f).

(* /repo/Src/Main/Modules/Physics/Free_Data/fd_KerrSchild_g_dg_ddg_dddg.c:98-103 *)
Definition ks_gamma_D1D1 (P : kspar) (f : ksarg) : R :=
  ((ks_c P f) * ((ks_k1 P f) ^ 2)) + 1.

(* /repo/Src/Main/Modules/Physics/Free_Data/fd_KerrSchild_g_dg_ddg_dddg.c:104-110 *)
Definition ks_gamma_D1D2 (P : kspar) (f : ksarg) : R :=
  ((ks_c P f) * (ks_k1 P f)) * (ks_k2 P f).

(* /repo/Src/Main/Modules/Physics/Free_Data/fd_KerrSchild_g_dg_ddg_dddg.c:111-116 *)
Definition ks_gamma_D2D2 (P : kspar) (f : ksarg) : R :=
  ((ks_c P f) * ((ks_k2 P f) ^ 2)) + 1.

(* /repo/Src/Main/Modules/Physics/Free_Data/fd_KerrSchild_g_dg_ddg_dddg.c:156-167 *)
Definition ks_dgamma_D1D2D2 (P : kspar) (f : ksarg) : R :=
  ((((ks_c P f) * (ks_k1 P f)) * (ks_dk2_D2 P f)) + (((ks_c P f) * (ks_k2 P f)) * (ks_dk1_D2 P f))) +
  (((ks_k1 P f) * (ks_k2 P f)) * (ks_dc_D2 P f)).

(* /repo/Src/Main/Modules/Physics/Free_Data/fd_KerrSchild_g_dg_ddg_dddg.c:169-177 *)
Definition ks_dgamma_D0D0D1 (P : kspar) (f : ksarg) : R :=
  (((2 * (ks_c P f)) * (ks_dk0_D1 P f)) + ((ks_k0 P f) * (ks_dc_D1 P f))) * (ks_k0 P f).

(* /repo/Src/Main/Modules/Physics/Free_Data/fd_KerrSchild_g_dg_ddg_dddg.c:179-190 *)
Definition ks_dgamma_D0D2D1 (P : kspar) (f : ksarg) : R :=
  ((((ks_c P f) * (ks_k0 P f)) * (ks_dk2_D1 P f)) + (((ks_c P f) * (ks_k2 P f)) * (ks_dk0_D1 P f))) +
  (((ks_k0 P f) * (ks_k2 P f)) * (ks_dc_D1 P f)).

(* /repo/Src/Main/Modules/Physics/Free_Data/fd_KerrSchild_g_dg_ddg_dddg.c:192-203 *)
Definition ks_dgamma_D0D1D0 (P : kspar) (f : ksarg) : R :=
  ((((ks_c P f) * (ks_k0 P f)) * (ks_dk1_D0 P f)) + (((ks_c P f) * (ks_k1 P f)) * (ks_dk0_D0 P f))) +
  (((ks_k0 P f) * (ks_k1 P f)) * (ks_dc_D0 P f)).

(* /repo/Src/Main/Modules/Physics/Free_Data/fd_KerrSchild_g_dg_ddg_dddg.c:205-216 *)
Definition ks_dgamma_D1D2D1 (P : kspar) (f : ksarg) : R :=
  ((((ks_c P f) * (ks_k1 P f)) * (ks_dk2_D1 P f)) + (((ks_c P f) * (ks_k2 P f)) * (ks_dk1_D1 P f))) +
  (((ks_k1 P f) * (ks_k2 P f)) * (ks_dc_D1 P f)).

(* /repo/Src/Main/Modules/Physics/Free_Data/fd_KerrSchild_g_dg_ddg_dddg.c:218-226 *)
Definition ks_dgamma_D2D2D0 (P : kspar) (f : ksarg) : R :=
  (((2 * (ks_c P f)) * (ks_dk2_D0 P f)) + ((ks_k2 P f) * (ks_dc_D0 P f))) * (ks_k2 P f).

(* /repo/Src/Main/Modules/Physics/Free_Data/fd_KerrSchild_g_dg_ddg_dddg.c:228-236 *)
Definition ks_dgamma_D0D0D0 (P : kspar) (f : ksarg) : R :=
  (((2 * (ks_c P f)) * (ks_dk0_D0 P f)) + ((ks_k0 P f) * (ks_dc_D0 P f))) * (ks_k0 P f).

(* /repo/Src/Main/Modules/Physics/Free_Data/fd_KerrSchild_g_dg_ddg_dddg.c:238-246 *)
Definition ks_dgamma_D0D0D2 (P : kspar) (f : ksarg) : R :=
  (((2 * (ks_c P f)) * (ks_dk0_D2 P f)) + ((ks_k0 P f) * (ks_dc_D2 P f))) * (ks_k0 P f).

(* /repo/Src/Main/Modules/Physics/Free_Data/fd_KerrSchild_g_dg_ddg_dddg.c:248-259 *)
Definition ks_dgamma_D0D2D2 (P : kspar) (f : ksarg) : R :=
  ((((ks_c P f) * (ks_k0 P f)) * (ks_dk2_D2 P f)) + (((ks_c P f) * (ks_k2 P f)) * (ks_dk0_D2 P f))) +
  (((ks_k0 P f) * (ks_k2 P f)) * (ks_dc_D2 P f)).

(* /repo/Src/Main/Modules/Physics/Free_Data/fd_KerrSchild_g_dg_ddg_dddg.c:261-269 *)
Definition ks_dgamma_D2D2D1 (P : kspar) (f : ksarg) : R :=
  (((2 * (ks_c P f)) * (ks_dk2_D1 P f)) + ((ks_k2 P f) * (ks_dc_D1 P f))) * (ks_k2 P f).

(* /repo/Src/Main/Modules/Physics/Free_Data/fd_KerrSchild_g_dg_ddg_dddg.c:271-282 *)
Definition ks_dgamma_D0D1D1 (P : kspar) (f : ksarg) : R :=
  ((((ks_c P f) * (ks_k0 P f)) * (ks_dk1_D1 P f)) + (((ks_c P f) * (ks_k1 P f)) * (ks_dk0_D1 P f))) +
  (((ks_k0 P f) * (ks_k1 P f)) * (ks_dc_D1 P f)).

(* /repo/Src/Main/Modules/Physics/Free_Data/fd_KerrSchild_g_dg_ddg_dddg.c:284-295 *)
Definition ks_dgamma_D0D2D0 (P : kspar) (f : ksarg) : R :=
  ((((ks_c P f) * (ks_k0 P f)) * (ks_dk2_D0 P f)) + (((ks_c P f) * (ks_k2 P f)) * (ks_dk0_D0 P f))) +
  (((ks_k0 P f) * (ks_k2 P f)) * (ks_dc_D0 P f)).

(* /repo/Src/Main/Modules/Physics/Free_Data/fd_KerrSchild_g_dg_ddg_dddg.c:297-308 *)
Definition ks_dgamma_D1D2D0 (P : kspar) (f : ksarg) : R :=
  ((((ks_c P f) * (ks_k1 P f)) * (ks_dk2_D0 P f)) + (((ks_c P f) * (ks_k2 P f)) * (ks_dk1_D0 P f))) +
  (((ks_k1 P f) * (ks_k2 P f)) * (ks_dc_D0 P f)).

(* /repo/Src/Main/Modules/Physics/Free_Data/fd_KerrSchild_g_dg_ddg_dddg.c:310-318 *)
Definition ks_dgamma_D1D1D1 (P : kspar) (f : ksarg) : R :=
  (((2 * (ks_c P f)) * (ks_dk1_D1 P f)) + ((ks_k1 P f) * (ks_dc_D1 P f))) * (ks_k1 P f).

(* /repo/Src/Main/Modules/Physics/Free_Data/fd_KerrSchild_g_dg_ddg_dddg.c:320-331 *)
Definition ks_dgamma_D0D1D2 (P : kspar) (f : ksarg) : R :=
  ((((ks_c P f) * (ks_k0 P f)) * (ks_dk1_D2 P f)) + (((ks_c P f) * (ks_k1 P f)) * (ks_dk0_D2 P f))) +
  (((ks_k0 P f) * (ks_k1 P f)) * (ks_dc_D2 P f)).

(* /repo/Src/Main/Modules/Physics/Free_Data/fd_KerrSchild_g_dg_ddg_dddg.c:333-341 *)
Definition ks_dgamma_D1D1D0 (P : kspar) (f : ksarg) : R :=
  (((2 * (ks_c P f)) * (ks_dk1_D0 P f)) + ((ks_k1 P f) * (ks_dc_D0 P f))) * (ks_k1 P f).

(* /repo/Src/Main/Modules/Physics/Free_Data/fd_KerrSchild_g_dg_ddg_dddg.c:343-351 *)
Definition ks_dgamma_D1D1D2 (P : kspar) (f : ksarg) : R :=
  (((2 * (ks_c P f)) * (ks_dk1_D2 P f)) + ((ks_k1 P f) * (ks_dc_D2 P f))) * (ks_k1 P f).

(* /repo/Src/Main/Modules/Physics/Free_Data/fd_KerrSchild_g_dg_ddg_dddg.c:353-361 *)
Definition ks_dgamma_D2D2D2 (P : kspar) (f : ksarg) : R :=
  (((2 * (ks_c P f)) * (ks_dk2_D2 P f)) + ((ks_k2 P f) * (ks_dc_D2 P f))) * (ks_k2 P f).

(* /repo/Src/Main/Modules/Physics/Free_Data/fd_KerrSchild_g_dg_ddg_dddg.c:439-454 *)
Definition ks_ddgamma_D2D2D0D2 (P : kspar) (f : ksarg) : R :=
  ((((((2 * (ks_c P f)) * (ks_k2 P f)) * (ks_ddk2_D0D2 P f)) + (((2 * (ks_c P f)) * (ks_dk2_D0 P f))
  * (ks_dk2_D2 P f))) + (((ks_k2 P f) ^ 2) * (ks_ddc_D0D2 P f))) + (((2 * (ks_k2 P f)) * (ks_dc_D0 P
  f)) * (ks_dk2_D2 P f))) + (((2 * (ks_k2 P f)) * (ks_dc_D2 P f)) * (ks_dk2_D0 P f)).

(* /repo/Src/Main/Modules/Physics/Free_Data/fd_KerrSchild_g_dg_ddg_dddg.c:456-479 *)
Definition ks_ddgamma_D0D1D0D1 (P : kspar) (f : ksarg) : R :=
  ((((((((((ks_c P f) * (ks_k0 P f)) * (ks_ddk1_D0D1 P f)) + (((ks_c P f) * (ks_k1 P f)) *
  (ks_ddk0_D0D1 P f))) + (((ks_c P f) * (ks_dk0_D0 P f)) * (ks_dk1_D1 P f))) + (((ks_c P f) *
  (ks_dk0_D1 P f)) * (ks_dk1_D0 P f))) + (((ks_k0 P f) * (ks_k1 P f)) * (ks_ddc_D0D1 P f))) +
  (((ks_k0 P f) * (ks_dc_D0 P f)) * (ks_dk1_D1 P f))) + (((ks_k0 P f) * (ks_dc_D1 P f)) * (ks_dk1_D0
  P f))) + (((ks_k1 P f) * (ks_dc_D0 P f)) * (ks_dk0_D1 P f))) + (((ks_k1 P f) * (ks_dc_D1 P f)) *
  (ks_dk0_D0 P f)).

(* /repo/Src/Main/Modules/Physics/Free_Data/fd_KerrSchild_g_dg_ddg_dddg.c:481-496 *)
Definition ks_ddgamma_D1D1D0D1 (P : kspar) (f : ksarg) : R :=
  ((((((2 * (ks_c P f)) * (ks_k1 P f)) * (ks_ddk1_D0D1 P f)) + (((2 * (ks_c P f)) * (ks_dk1_D0 P f))
  * (ks_dk1_D1 P f))) + (((ks_k1 P f) ^ 2) * (ks_ddc_D0D1 P f))) + (((2 * (ks_k1 P f)) * (ks_dc_D0 P
  f)) * (ks_dk1_D1 P f))) + (((2 * (ks_k1 P f)) * (ks_dc_D1 P f)) * (ks_dk1_D0 P f)).

(* /repo/Src/Main/Modules/Physics/Free_Data/fd_KerrSchild_g_dg_ddg_dddg.c:498-521 *)
Definition ks_ddgamma_D1D2D0D1 (P : kspar) (f : ksarg) : R :=
  ((((((((((ks_c P f) * (ks_k1 P f)) * (ks_ddk2_D0D1 P f)) + (((ks_c P f) * (ks_k2 P f)) *
  (ks_ddk1_D0D1 P f))) + (((ks_c P f) * (ks_dk1_D0 P f)) * (ks_dk2_D1 P f))) + (((ks_c P f) *
  (ks_dk1_D1 P f)) * (ks_dk2_D0 P f))) + (((ks_k1 P f) * (ks_k2 P f)) * (ks_ddc_D0D1 P f))) +
  (((ks_k1 P f) * (ks_dc_D0 P f)) * (ks_dk2_D1 P f))) + (((ks_k1 P f) * (ks_dc_D1 P f)) * (ks_dk2_D0
  P f))) + (((ks_k2 P f) * (ks_dc_D0 P f)) * (ks_dk1_D1 P f))) + (((ks_k2 P f) * (ks_dc_D1 P f)) *
  (ks_dk1_D0 P f)).

(* /repo/Src/Main/Modules/Physics/Free_Data/fd_KerrSchild_g_dg_ddg_dddg.c:523-538 *)
Definition ks_ddgamma_D0D0D1D0 (P : kspar) (f : ksarg) : R :=
  ((((((2 * (ks_c P f)) * (ks_k0 P f)) * (ks_ddk0_D0D1 P f)) + (((2 * (ks_c P f)) * (ks_dk0_D0 P f))
  * (ks_dk0_D1 P f))) + (((ks_k0 P f) ^ 2) * (ks_ddc_D0D1 P f))) + (((2 * (ks_k0 P f)) * (ks_dc_D0 P
  f)) * (ks_dk0_D1 P f))) + (((2 * (ks_k0 P f)) * (ks_dc_D1 P f)) * (ks_dk0_D0 P f)).

(* /repo/Src/Main/Modules/Physics/Free_Data/fd_KerrSchild_g_dg_ddg_dddg.c:540-555 *)
Definition ks_ddgamma_D1D1D2D0 (P : kspar) (f : ksarg) : R :=
  ((((((2 * (ks_c P f)) * (ks_k1 P f)) * (ks_ddk1_D0D2 P f)) + (((2 * (ks_c P f)) * (ks_dk1_D0 P f))
  * (ks_dk1_D2 P f))) + (((ks_k1 P f) ^ 2) * (ks_ddc_D0D2 P f))) + (((2 * (ks_k1 P f)) * (ks_dc_D0 P
  f)) * (ks_dk1_D2 P f))) + (((2 * (ks_k1 P f)) * (ks_dc_D2 P f)) * (ks_dk1_D0 P f)).

(* /repo/Src/Main/Modules/Physics/Free_Data/fd_KerrSchild_g_dg_ddg_dddg.c:557-572 *)
Definition ks_ddgamma_D0D0D0D1 (P : kspar) (f : ksarg) : R :=
  ((((((2 * (ks_c P f)) * (ks_k0 P f)) * (ks_ddk0_D0D1 P f)) + (((2 * (ks_c P f)) * (ks_dk0_D0 P f))
  * (ks_dk0_D1 P f))) + (((ks_k0 P f) ^ 2) * (ks_ddc_D0D1 P f))) + (((2 * (ks_k0 P f)) * (ks_dc_D0 P
  f)) * (ks_dk0_D1 P f))) + (((2 * (ks_k0 P f)) * (ks_dc_D1 P f)) * (ks_dk0_D0 P f)).

(* /repo/Src/Main/Modules/Physics/Free_Data/fd_KerrSchild_g_dg_ddg_dddg.c:574-586 *)
Definition ks_ddgamma_D1D1D0D0 (P : kspar) (f : ksarg) : R :=
  (((((2 * (ks_c P f)) * (ks_k1 P f)) * (ks_ddk1_D0D0 P f)) + ((2 * (ks_c P f)) * ((ks_dk1_D0 P f) ^
  2))) + (((ks_k1 P f) ^ 2) * (ks_ddc_D0D0 P f))) + (((4 * (ks_k1 P f)) * (ks_dc_D0 P f)) *
  (ks_dk1_D0 P f)).

(* /repo/Src/Main/Modules/Physics/Free_Data/fd_KerrSchild_g_dg_ddg_dddg.c:588-600 *)
Definition ks_ddgamma_D0D0D2D2 (P : kspar) (f : ksarg) : R :=
  (((((2 * (ks_c P f)) * (ks_k0 P f)) * (ks_ddk0_D2D2 P f)) + ((2 * (ks_c P f)) * ((ks_dk0_D2 P f) ^
  2))) + (((ks_k0 P f) ^ 2) * (ks_ddc_D2D2 P f))) + (((4 * (ks_k0 P f)) * (ks_dc_D2 P f)) *
  (ks_dk0_D2 P f)).

(* /repo/Src/Main/Modules/Physics/Free_Data/fd_KerrSchild_g_dg_ddg_dddg.c:602-614 *)
Definition ks_ddgamma_D2D2D1D1 (P : kspar) (f : ksarg) : R :=
  (((((2 * (ks_c P f)) * (ks_k2 P f)) * (ks_ddk2_D1D1 P f)) + ((2 * (ks_c P f)) * ((ks_dk2_D1 P f) ^
  2))) + (((ks_k2 P f) ^ 2) * (ks_ddc_D1D1 P f))) + (((4 * (ks_k2 P f)) * (ks_dc_D1 P f)) *
  (ks_dk2_D1 P f)).

(* /repo/Src/Main/Modules/Physics/Free_Data/fd_KerrSchild_g_dg_ddg_dddg.c:616-628 *)
Definition ks_ddgamma_D2D2D2D2 (P : kspar) (f : ksarg) : R :=
  (((((2 * (ks_c P f)) * (ks_k2 P f)) * (ks_ddk2_D2D2 P f)) + ((2 * (ks_c P f)) * ((ks_dk2_D2 P f) ^
  2))) + (((ks_k2 P f) ^ 2) * (ks_ddc_D2D2 P f))) + (((4 * (ks_k2 P f)) * (ks_dc_D2 P f)) *
  (ks_dk2_D2 P f)).

(* /repo/Src/Main/Modules/Physics/Free_Data/fd_KerrSchild_g_dg_ddg_dddg.c:630-645 *)
Definition ks_ddgamma_D0D0D2D0 (P : kspar) (f : ksarg) : R :=
  ((((((2 * (ks_c P f)) * (ks_k0 P f)) * (ks_ddk0_D0D2 P f)) + (((2 * (ks_c P f)) * (ks_dk0_D0 P f))
  * (ks_dk0_D2 P f))) + (((ks_k0 P f) ^ 2) * (ks_ddc_D0D2 P f))) + (((2 * (ks_k0 P f)) * (ks_dc_D0 P
  f)) * (ks_dk0_D2 P f))) + (((2 * (ks_k0 P f)) * (ks_dc_D2 P f)) * (ks_dk0_D0 P f)).

(* /repo/Src/Main/Modules/Physics/Free_Data/fd_KerrSchild_g_dg_ddg_dddg.c:647-670 *)
Definition ks_ddgamma_D0D2D2D1 (P : kspar) (f : ksarg) : R :=
  ((((((((((ks_c P f) * (ks_k0 P f)) * (ks_ddk2_D1D2 P f)) + (((ks_c P f) * (ks_k2 P f)) *
  (ks_ddk0_D1D2 P f))) + (((ks_c P f) * (ks_dk0_D1 P f)) * (ks_dk2_D2 P f))) + (((ks_c P f) *
  (ks_dk0_D2 P f)) * (ks_dk2_D1 P f))) + (((ks_k0 P f) * (ks_k2 P f)) * (ks_ddc_D1D2 P f))) +
  (((ks_k0 P f) * (ks_dc_D1 P f)) * (ks_dk2_D2 P f))) + (((ks_k0 P f) * (ks_dc_D2 P f)) * (ks_dk2_D1
  P f))) + (((ks_k2 P f) * (ks_dc_D1 P f)) * (ks_dk0_D2 P f))) + (((ks_k2 P f) * (ks_dc_D2 P f)) *
  (ks_dk0_D1 P f)).

(* /repo/Src/Main/Modules/Physics/Free_Data/fd_KerrSchild_g_dg_ddg_dddg.c:672-695 *)
Definition ks_ddgamma_D1D2D0D2 (P : kspar) (f : ksarg) : R :=
  ((((((((((ks_c P f) * (ks_k1 P f)) * (ks_ddk2_D0D2 P f)) + (((ks_c P f) * (ks_k2 P f)) *
  (ks_ddk1_D0D2 P f))) + (((ks_c P f) * (ks_dk1_D0 P f)) * (ks_dk2_D2 P f))) + (((ks_c P f) *
  (ks_dk1_D2 P f)) * (ks_dk2_D0 P f))) + (((ks_k1 P f) * (ks_k2 P f)) * (ks_ddc_D0D2 P f))) +
  (((ks_k1 P f) * (ks_dc_D0 P f)) * (ks_dk2_D2 P f))) + (((ks_k1 P f) * (ks_dc_D2 P f)) * (ks_dk2_D0
  P f))) + (((ks_k2 P f) * (ks_dc_D0 P f)) * (ks_dk1_D2 P f))) + (((ks_k2 P f) * (ks_dc_D2 P f)) *
  (ks_dk1_D0 P f)).

(* /repo/Src/Main/Modules/Physics/Free_Data/fd_KerrSchild_g_dg_ddg_dddg.c:697-720 *)
Definition ks_ddgamma_D1D2D1D0 (P : kspar) (f : ksarg) : R :=
  ((((((((((ks_c P f) * (ks_k1 P f)) * (ks_ddk2_D0D1 P f)) + (((ks_c P f) * (ks_k2 P f)) *
  (ks_ddk1_D0D1 P f))) + (((ks_c P f) * (ks_dk1_D0 P f)) * (ks_dk2_D1 P f))) + (((ks_c P f) *
  (ks_dk1_D1 P f)) * (ks_dk2_D0 P f))) + (((ks_k1 P f) * (ks_k2 P f)) * (ks_ddc_D0D1 P f))) +
  (((ks_k1 P f) * (ks_dc_D0 P f)) * (ks_dk2_D1 P f))) + (((ks_k1 P f) * (ks_dc_D1 P f)) * (ks_dk2_D0
  P f))) + (((ks_k2 P f) * (ks_dc_D0 P f)) * (ks_dk1_D1 P f))) + (((ks_k2 P f) * (ks_dc_D1 P f)) *
  (ks_dk1_D0 P f)).

(* /repo/Src/Main/Modules/Physics/Free_Data/fd_KerrSchild_g_dg_ddg_dddg.c:722-737 *)
Definition ks_ddgamma_D2D2D2D0 (P : kspar) (f : ksarg) : R :=
  ((((((2 * (ks_c P f)) * (ks_k2 P f)) * (ks_ddk2_D0D2 P f)) + (((2 * (ks_c P f)) * (ks_dk2_D0 P f))
  * (ks_dk2_D2 P f))) + (((ks_k2 P f) ^ 2) * (ks_ddc_D0D2 P f))) + (((2 * (ks_k2 P f)) * (ks_dc_D0 P
  f)) * (ks_dk2_D2 P f))) + (((2 * (ks_k2 P f)) * (ks_dc_D2 P f)) * (ks_dk2_D0 P f)).

(* /repo/Src/Main/Modules/Physics/Free_Data/fd_KerrSchild_g_dg_ddg_dddg.c:739-751 *)
Definition ks_ddgamma_D0D0D0D0 (P : kspar) (f : ksarg) : R :=
  (((((2 * (ks_c P f)) * (ks_k0 P f)) * (ks_ddk0_D0D0 P f)) + ((2 * (ks_c P f)) * ((ks_dk0_D0 P f) ^
  2))) + (((ks_k0 P f) ^ 2) * (ks_ddc_D0D0 P f))) + (((4 * (ks_k0 P f)) * (ks_dc_D0 P f)) *
  (ks_dk0_D0 P f)).

(* /repo/Src/Main/Modules/Physics/Free_Data/fd_KerrSchild_g_dg_ddg_dddg.c:753-765 *)
Definition ks_ddgamma_D0D0D1D1 (P : kspar) (f : ksarg) : R :=
  (((((2 * (ks_c P f)) * (ks_k0 P f)) * (ks_ddk0_D1D1 P f)) + ((2 * (ks_c P f)) * ((ks_dk0_D1 P f) ^
  2))) + (((ks_k0 P f) ^ 2) * (ks_ddc_D1D1 P f))) + (((4 * (ks_k0 P f)) * (ks_dc_D1 P f)) *
  (ks_dk0_D1 P f)).

(* /repo/Src/Main/Modules/Physics/Free_Data/fd_KerrSchild_g_dg_ddg_dddg.c:767-790 *)
Definition ks_ddgamma_D0D1D0D2 (P : kspar) (f : ksarg) : R :=
  ((((((((((ks_c P f) * (ks_k0 P f)) * (ks_ddk1_D0D2 P f)) + (((ks_c P f) * (ks_k1 P f)) *
  (ks_ddk0_D0D2 P f))) + (((ks_c P f) * (ks_dk0_D0 P f)) * (ks_dk1_D2 P f))) + (((ks_c P f) *
  (ks_dk0_D2 P f)) * (ks_dk1_D0 P f))) + (((ks_k0 P f) * (ks_k1 P f)) * (ks_ddc_D0D2 P f))) +
  (((ks_k0 P f) * (ks_dc_D0 P f)) * (ks_dk1_D2 P f))) + (((ks_k0 P f) * (ks_dc_D2 P f)) * (ks_dk1_D0
  P f))) + (((ks_k1 P f) * (ks_dc_D0 P f)) * (ks_dk0_D2 P f))) + (((ks_k1 P f) * (ks_dc_D2 P f)) *
  (ks_dk0_D0 P f)).

(* /repo/Src/Main/Modules/Physics/Free_Data/fd_KerrSchild_g_dg_ddg_dddg.c:792-809 *)
Definition ks_ddgamma_D1D2D1D1 (P : kspar) (f : ksarg) : R :=
  (((((((ks_c P f) * (ks_k1 P f)) * (ks_ddk2_D1D1 P f)) + (((ks_c P f) * (ks_k2 P f)) * (ks_ddk1_D1D1
  P f))) + (((2 * (ks_c P f)) * (ks_dk1_D1 P f)) * (ks_dk2_D1 P f))) + (((ks_k1 P f) * (ks_k2 P f)) *
  (ks_ddc_D1D1 P f))) + (((2 * (ks_k1 P f)) * (ks_dc_D1 P f)) * (ks_dk2_D1 P f))) + (((2 * (ks_k2 P
  f)) * (ks_dc_D1 P f)) * (ks_dk1_D1 P f)).

(* /repo/Src/Main/Modules/Physics/Free_Data/fd_KerrSchild_g_dg_ddg_dddg.c:811-828 *)
Definition ks_ddgamma_D0D2D1D1 (P : kspar) (f : ksarg) : R :=
  (((((((ks_c P f) * (ks_k0 P f)) * (ks_ddk2_D1D1 P f)) + (((ks_c P f) * (ks_k2 P f)) * (ks_ddk0_D1D1
  P f))) + (((2 * (ks_c P f)) * (ks_dk0_D1 P f)) * (ks_dk2_D1 P f))) + (((ks_k0 P f) * (ks_k2 P f)) *
  (ks_ddc_D1D1 P f))) + (((2 * (ks_k0 P f)) * (ks_dc_D1 P f)) * (ks_dk2_D1 P f))) + (((2 * (ks_k2 P
  f)) * (ks_dc_D1 P f)) * (ks_dk0_D1 P f)).

(* /repo/Src/Main/Modules/Physics/Free_Data/fd_KerrSchild_g_dg_ddg_dddg.c:830-847 *)
Definition ks_ddgamma_D1D2D2D2 (P : kspar) (f : ksarg) : R :=
  (((((((ks_c P f) * (ks_k1 P f)) * (ks_ddk2_D2D2 P f)) + (((ks_c P f) * (ks_k2 P f)) * (ks_ddk1_D2D2
  P f))) + (((2 * (ks_c P f)) * (ks_dk1_D2 P f)) * (ks_dk2_D2 P f))) + (((ks_k1 P f) * (ks_k2 P f)) *
  (ks_ddc_D2D2 P f))) + (((2 * (ks_k1 P f)) * (ks_dc_D2 P f)) * (ks_dk2_D2 P f))) + (((2 * (ks_k2 P
  f)) * (ks_dc_D2 P f)) * (ks_dk1_D2 P f)).

(* /repo/Src/Main/Modules/Physics/Free_Data/fd_KerrSchild_g_dg_ddg_dddg.c:849-864 *)
Definition ks_ddgamma_D2D2D1D2 (P : kspar) (f : ksarg) : R :=
  ((((((2 * (ks_c P f)) * (ks_k2 P f)) * (ks_ddk2_D1D2 P f)) + (((2 * (ks_c P f)) * (ks_dk2_D1 P f))
  * (ks_dk2_D2 P f))) + (((ks_k2 P f) ^ 2) * (ks_ddc_D1D2 P f))) + (((2 * (ks_k2 P f)) * (ks_dc_D1 P
  f)) * (ks_dk2_D2 P f))) + (((2 * (ks_k2 P f)) * (ks_dc_D2 P f)) * (ks_dk2_D1 P f)).

(* /repo/Src/Main/Modules/Physics/Free_Data/fd_KerrSchild_g_dg_ddg_dddg.c:866-889 *)
Definition ks_ddgamma_D0D1D2D0 (P : kspar) (f : ksarg) : R :=
  ((((((((((ks_c P f) * (ks_k0 P f)) * (ks_ddk1_D0D2 P f)) + (((ks_c P f) * (ks_k1 P f)) *
  (ks_ddk0_D0D2 P f))) + (((ks_c P f) * (ks_dk0_D0 P f)) * (ks_dk1_D2 P f))) + (((ks_c P f) *
  (ks_dk0_D2 P f)) * (ks_dk1_D0 P f))) + (((ks_k0 P f) * (ks_k1 P f)) * (ks_ddc_D0D2 P f))) +
  (((ks_k0 P f) * (ks_dc_D0 P f)) * (ks_dk1_D2 P f))) + (((ks_k0 P f) * (ks_dc_D2 P f)) * (ks_dk1_D0
  P f))) + (((ks_k1 P f) * (ks_dc_D0 P f)) * (ks_dk0_D2 P f))) + (((ks_k1 P f) * (ks_dc_D2 P f)) *
  (ks_dk0_D0 P f)).

(* /repo/Src/Main/Modules/Physics/Free_Data/fd_KerrSchild_g_dg_ddg_dddg.c:891-914 *)
Definition ks_ddgamma_D0D2D2D0 (P : kspar) (f : ksarg) : R :=
  ((((((((((ks_c P f) * (ks_k0 P f)) * (ks_ddk2_D0D2 P f)) + (((ks_c P f) * (ks_k2 P f)) *
  (ks_ddk0_D0D2 P f))) + (((ks_c P f) * (ks_dk0_D0 P f)) * (ks_dk2_D2 P f))) + (((ks_c P f) *
  (ks_dk0_D2 P f)) * (ks_dk2_D0 P f))) + (((ks_k0 P f) * (ks_k2 P f)) * (ks_ddc_D0D2 P f))) +
  (((ks_k0 P f) * (ks_dc_D0 P f)) * (ks_dk2_D2 P f))) + (((ks_k0 P f) * (ks_dc_D2 P f)) * (ks_dk2_D0
  P f))) + (((ks_k2 P f) * (ks_dc_D0 P f)) * (ks_dk0_D2 P f))) + (((ks_k2 P f) * (ks_dc_D2 P f)) *
  (ks_dk0_D0 P f)).

(* /repo/Src/Main/Modules/Physics/Free_Data/fd_KerrSchild_g_dg_ddg_dddg.c:916-939 *)
Definition ks_ddgamma_D0D1D1D0 (P : kspar) (f : ksarg) : R :=
  ((((((((((ks_c P f) * (ks_k0 P f)) * (ks_ddk1_D0D1 P f)) + (((ks_c P f) * (ks_k1 P f)) *
  (ks_ddk0_D0D1 P f))) + (((ks_c P f) * (ks_dk0_D0 P f)) * (ks_dk1_D1 P f))) + (((ks_c P f) *
  (ks_dk0_D1 P f)) * (ks_dk1_D0 P f))) + (((ks_k0 P f) * (ks_k1 P f)) * (ks_ddc_D0D1 P f))) +
  (((ks_k0 P f) * (ks_dc_D0 P f)) * (ks_dk1_D1 P f))) + (((ks_k0 P f) * (ks_dc_D1 P f)) * (ks_dk1_D0
  P f))) + (((ks_k1 P f) * (ks_dc_D0 P f)) * (ks_dk0_D1 P f))) + (((ks_k1 P f) * (ks_dc_D1 P f)) *
  (ks_dk0_D0 P f)).

(* /repo/Src/Main/Modules/Physics/Free_Data/fd_KerrSchild_g_dg_ddg_dddg.c:941-964 *)
Definition ks_ddgamma_D1D2D2D0 (P : kspar) (f : ksarg) : R :=
  ((((((((((ks_c P f) * (ks_k1 P f)) * (ks_ddk2_D0D2 P f)) + (((ks_c P f) * (ks_k2 P f)) *
  (ks_ddk1_D0D2 P f))) + (((ks_c P f) * (ks_dk1_D0 P f)) * (ks_dk2_D2 P f))) + (((ks_c P f) *
  (ks_dk1_D2 P f)) * (ks_dk2_D0 P f))) + (((ks_k1 P f) * (ks_k2 P f)) * (ks_ddc_D0D2 P f))) +
  (((ks_k1 P f) * (ks_dc_D0 P f)) * (ks_dk2_D2 P f))) + (((ks_k1 P f) * (ks_dc_D2 P f)) * (ks_dk2_D0
  P f))) + (((ks_k2 P f) * (ks_dc_D0 P f)) * (ks_dk1_D2 P f))) + (((ks_k2 P f) * (ks_dc_D2 P f)) *
  (ks_dk1_D0 P f)).

(* /repo/Src/Main/Modules/Physics/Free_Data/fd_KerrSchild_g_dg_ddg_dddg.c:966-981 *)
Definition ks_ddgamma_D1D1D1D0 (P : kspar) (f : ksarg) : R :=
  ((((((2 * (ks_c P f)) * (ks_k1 P f)) * (ks_ddk1_D0D1 P f)) + (((2 * (ks_c P f)) * (ks_dk1_D0 P f))
  * (ks_dk1_D1 P f))) + (((ks_k1 P f) ^ 2) * (ks_ddc_D0D1 P f))) + (((2 * (ks_k1 P f)) * (ks_dc_D0 P
  f)) * (ks_dk1_D1 P f))) + (((2 * (ks_k1 P f)) * (ks_dc_D1 P f)) * (ks_dk1_D0 P f)).

(* /repo/Src/Main/Modules/Physics/Free_Data/fd_KerrSchild_g_dg_ddg_dddg.c:983-1006 *)
Definition ks_ddgamma_D1D2D1D2 (P : kspar) (f : ksarg) : R :=
  ((((((((((ks_c P f) * (ks_k1 P f)) * (ks_ddk2_D1D2 P f)) + (((ks_c P f) * (ks_k2 P f)) *
  (ks_ddk1_D1D2 P f))) + (((ks_c P f) * (ks_dk1_D1 P f)) * (ks_dk2_D2 P f))) + (((ks_c P f) *
  (ks_dk1_D2 P f)) * (ks_dk2_D1 P f))) + (((ks_k1 P f) * (ks_k2 P f)) * (ks_ddc_D1D2 P f))) +
  (((ks_k1 P f) * (ks_dc_D1 P f)) * (ks_dk2_D2 P f))) + (((ks_k1 P f) * (ks_dc_D2 P f)) * (ks_dk2_D1
  P f))) + (((ks_k2 P f) * (ks_dc_D1 P f)) * (ks_dk1_D2 P f))) + (((ks_k2 P f) * (ks_dc_D2 P f)) *
  (ks_dk1_D1 P f)).

(* /repo/Src/Main/Modules/Physics/Free_Data/fd_KerrSchild_g_dg_ddg_dddg.c:1008-1025 *)
Definition ks_ddgamma_D1D2D0D0 (P : kspar) (f : ksarg) : R :=
  (((((((ks_c P f) * (ks_k1 P f)) * (ks_ddk2_D0D0 P f)) + (((ks_c P f) * (ks_k2 P f)) * (ks_ddk1_D0D0
  P f))) + (((2 * (ks_c P f)) * (ks_dk1_D0 P f)) * (ks_dk2_D0 P f))) + (((ks_k1 P f) * (ks_k2 P f)) *
  (ks_ddc_D0D0 P f))) + (((2 * (ks_k1 P f)) * (ks_dc_D0 P f)) * (ks_dk2_D0 P f))) + (((2 * (ks_k2 P
  f)) * (ks_dc_D0 P f)) * (ks_dk1_D0 P f)).

(* /repo/Src/Main/Modules/Physics/Free_Data/fd_KerrSchild_g_dg_ddg_dddg.c:1027-1042 *)
Definition ks_ddgamma_D0D0D0D2 (P : kspar) (f : ksarg) : R :=
  ((((((2 * (ks_c P f)) * (ks_k0 P f)) * (ks_ddk0_D0D2 P f)) + (((2 * (ks_c P f)) * (ks_dk0_D0 P f))
  * (ks_dk0_D2 P f))) + (((ks_k0 P f) ^ 2) * (ks_ddc_D0D2 P f))) + (((2 * (ks_k0 P f)) * (ks_dc_D0 P
  f)) * (ks_dk0_D2 P f))) + (((2 * (ks_k0 P f)) * (ks_dc_D2 P f)) * (ks_dk0_D0 P f)).

(* /repo/Src/Main/Modules/Physics/Free_Data/fd_KerrSchild_g_dg_ddg_dddg.c:1044-1059 *)
Definition ks_ddgamma_D2D2D2D1 (P : kspar) (f : ksarg) : R :=
  ((((((2 * (ks_c P f)) * (ks_k2 P f)) * (ks_ddk2_D1D2 P f)) + (((2 * (ks_c P f)) * (ks_dk2_D1 P f))
  * (ks_dk2_D2 P f))) + (((ks_k2 P f) ^ 2) * (ks_ddc_D1D2 P f))) + (((2 * (ks_k2 P f)) * (ks_dc_D1 P
  f)) * (ks_dk2_D2 P f))) + (((2 * (ks_k2 P f)) * (ks_dc_D2 P f)) * (ks_dk2_D1 P f)).

(* /repo/Src/Main/Modules/Physics/Free_Data/fd_KerrSchild_g_dg_ddg_dddg.c:1061-1078 *)
Definition ks_ddgamma_D0D2D0D0 (P : kspar) (f : ksarg) : R :=
  (((((((ks_c P f) * (ks_k0 P f)) * (ks_ddk2_D0D0 P f)) + (((ks_c P f) * (ks_k2 P f)) * (ks_ddk0_D0D0
  P f))) + (((2 * (ks_c P f)) * (ks_dk0_D0 P f)) * (ks_dk2_D0 P f))) + (((ks_k0 P f) * (ks_k2 P f)) *
  (ks_ddc_D0D0 P f))) + (((2 * (ks_k0 P f)) * (ks_dc_D0 P f)) * (ks_dk2_D0 P f))) + (((2 * (ks_k2 P
  f)) * (ks_dc_D0 P f)) * (ks_dk0_D0 P f)).

(* /repo/Src/Main/Modules/Physics/Free_Data/fd_KerrSchild_g_dg_ddg_dddg.c:1080-1103 *)
Definition ks_ddgamma_D0D2D0D1 (P : kspar) (f : ksarg) : R :=
  ((((((((((ks_c P f) * (ks_k0 P f)) * (ks_ddk2_D0D1 P f)) + (((ks_c P f) * (ks_k2 P f)) *
  (ks_ddk0_D0D1 P f))) + (((ks_c P f) * (ks_dk0_D0 P f)) * (ks_dk2_D1 P f))) + (((ks_c P f) *
  (ks_dk0_D1 P f)) * (ks_dk2_D0 P f))) + (((ks_k0 P f) * (ks_k2 P f)) * (ks_ddc_D0D1 P f))) +
  (((ks_k0 P f) * (ks_dc_D0 P f)) * (ks_dk2_D1 P f))) + (((ks_k0 P f) * (ks_dc_D1 P f)) * (ks_dk2_D0
  P f))) + (((ks_k2 P f) * (ks_dc_D0 P f)) * (ks_dk0_D1 P f))) + (((ks_k2 P f) * (ks_dc_D1 P f)) *
  (ks_dk0_D0 P f)).

(* /repo/Src/Main/Modules/Physics/Free_Data/fd_KerrSchild_g_dg_ddg_dddg.c:1105-1117 *)
Definition ks_ddgamma_D1D1D1D1 (P : kspar) (f : ksarg) : R :=
  (((((2 * (ks_c P f)) * (ks_k1 P f)) * (ks_ddk1_D1D1 P f)) + ((2 * (ks_c P f)) * ((ks_dk1_D1 P f) ^
  2))) + (((ks_k1 P f) ^ 2) * (ks_ddc_D1D1 P f))) + (((4 * (ks_k1 P f)) * (ks_dc_D1 P f)) *
  (ks_dk1_D1 P f)).

(* /repo/Src/Main/Modules/Physics/Free_Data/fd_KerrSchild_g_dg_ddg_dddg.c:1119-1136 *)
Definition ks_ddgamma_D0D1D0D0 (P : kspar) (f : ksarg) : R :=
  (((((((ks_c P f) * (ks_k0 P f)) * (ks_ddk1_D0D0 P f)) + (((ks_c P f) * (ks_k1 P f)) * (ks_ddk0_D0D0
  P f))) + (((2 * (ks_c P f)) * (ks_dk0_D0 P f)) * (ks_dk1_D0 P f))) + (((ks_k0 P f) * (ks_k1 P f)) *
  (ks_ddc_D0D0 P f))) + (((2 * (ks_k0 P f)) * (ks_dc_D0 P f)) * (ks_dk1_D0 P f))) + (((2 * (ks_k1 P
  f)) * (ks_dc_D0 P f)) * (ks_dk0_D0 P f)).

(* /repo/Src/Main/Modules/Physics/Free_Data/fd_KerrSchild_g_dg_ddg_dddg.c:1138-1150 *)
Definition ks_ddgamma_D1D1D2D2 (P : kspar) (f : ksarg) : R :=
  (((((2 * (ks_c P f)) * (ks_k1 P f)) * (ks_ddk1_D2D2 P f)) + ((2 * (ks_c P f)) * ((ks_dk1_D2 P f) ^
  2))) + (((ks_k1 P f) ^ 2) * (ks_ddc_D2D2 P f))) + (((4 * (ks_k1 P f)) * (ks_dc_D2 P f)) *
  (ks_dk1_D2 P f)).

(* /repo/Src/Main/Modules/Physics/Free_Data/fd_KerrSchild_g_dg_ddg_dddg.c:1152-1175 *)
Definition ks_ddgamma_D0D2D1D2 (P : kspar) (f : ksarg) : R :=
  ((((((((((ks_c P f) * (ks_k0 P f)) * (ks_ddk2_D1D2 P f)) + (((ks_c P f) * (ks_k2 P f)) *
  (ks_ddk0_D1D2 P f))) + (((ks_c P f) * (ks_dk0_D1 P f)) * (ks_dk2_D2 P f))) + (((ks_c P f) *
  (ks_dk0_D2 P f)) * (ks_dk2_D1 P f))) + (((ks_k0 P f) * (ks_k2 P f)) * (ks_ddc_D1D2 P f))) +
  (((ks_k0 P f) * (ks_dc_D1 P f)) * (ks_dk2_D2 P f))) + (((ks_k0 P f) * (ks_dc_D2 P f)) * (ks_dk2_D1
  P f))) + (((ks_k2 P f) * (ks_dc_D1 P f)) * (ks_dk0_D2 P f))) + (((ks_k2 P f) * (ks_dc_D2 P f)) *
  (ks_dk0_D1 P f)).

(* /repo/Src/Main/Modules/Physics/Free_Data/fd_KerrSchild_g_dg_ddg_dddg.c:1177-1200 *)
Definition ks_ddgamma_D0D1D2D1 (P : kspar) (f : ksarg) : R :=
  ((((((((((ks_c P f) * (ks_k0 P f)) * (ks_ddk1_D1D2 P f)) + (((ks_c P f) * (ks_k1 P f)) *
  (ks_ddk0_D1D2 P f))) + (((ks_c P f) * (ks_dk0_D1 P f)) * (ks_dk1_D2 P f))) + (((ks_c P f) *
  (ks_dk0_D2 P f)) * (ks_dk1_D1 P f))) + (((ks_k0 P f) * (ks_k1 P f)) * (ks_ddc_D1D2 P f))) +
  (((ks_k0 P f) * (ks_dc_D1 P f)) * (ks_dk1_D2 P f))) + (((ks_k0 P f) * (ks_dc_D2 P f)) * (ks_dk1_D1
  P f))) + (((ks_k1 P f) * (ks_dc_D1 P f)) * (ks_dk0_D2 P f))) + (((ks_k1 P f) * (ks_dc_D2 P f)) *
  (ks_dk0_D1 P f)).

(* /repo/Src/Main/Modules/Physics/Free_Data/fd_KerrSchild_g_dg_ddg_dddg.c:1202-1225 *)
Definition ks_ddgamma_D0D1D1D2 (P : kspar) (f : ksarg) : R :=
  ((((((((((ks_c P f) * (ks_k0 P f)) * (ks_ddk1_D1D2 P f)) + (((ks_c P f) * (ks_k1 P f)) *
  (ks_ddk0_D1D2 P f))) + (((ks_c P f) * (ks_dk0_D1 P f)) * (ks_dk1_D2 P f))) + (((ks_c P f) *
  (ks_dk0_D2 P f)) * (ks_dk1_D1 P f))) + (((ks_k0 P f) * (ks_k1 P f)) * (ks_ddc_D1D2 P f))) +
  (((ks_k0 P f) * (ks_dc_D1 P f)) * (ks_dk1_D2 P f))) + (((ks_k0 P f) * (ks_dc_D2 P f)) * (ks_dk1_D1
  P f))) + (((ks_k1 P f) * (ks_dc_D1 P f)) * (ks_dk0_D2 P f))) + (((ks_k1 P f) * (ks_dc_D2 P f)) *
  (ks_dk0_D1 P f)).

(* /repo/Src/Main/Modules/Physics/Free_Data/fd_KerrSchild_g_dg_ddg_dddg.c:1227-1242 *)
Definition ks_ddgamma_D1D1D2D1 (P : kspar) (f : ksarg) : R :=
  ((((((2 * (ks_c P f)) * (ks_k1 P f)) * (ks_ddk1_D1D2 P f)) + (((2 * (ks_c P f)) * (ks_dk1_D1 P f))
  * (ks_dk1_D2 P f))) + (((ks_k1 P f) ^ 2) * (ks_ddc_D1D2 P f))) + (((2 * (ks_k1 P f)) * (ks_dc_D1 P
  f)) * (ks_dk1_D2 P f))) + (((2 * (ks_k1 P f)) * (ks_dc_D2 P f)) * (ks_dk1_D1 P f)).

(* /repo/Src/Main/Modules/Physics/Free_Data/fd_KerrSchild_g_dg_ddg_dddg.c:1244-1261 *)
Definition ks_ddgamma_D0D1D1D1 (P : kspar) (f : ksarg) : R :=
  (((((((ks_c P f) * (ks_k0 P f)) * (ks_ddk1_D1D1 P f)) + (((ks_c P f) * (ks_k1 P f)) * (ks_ddk0_D1D1
  P f))) + (((2 * (ks_c P f)) * (ks_dk0_D1 P f)) * (ks_dk1_D1 P f))) + (((ks_k0 P f) * (ks_k1 P f)) *
  (ks_ddc_D1D1 P f))) + (((2 * (ks_k0 P f)) * (ks_dc_D1 P f)) * (ks_dk1_D1 P f))) + (((2 * (ks_k1 P
  f)) * (ks_dc_D1 P f)) * (ks_dk0_D1 P f)).

(* /repo/Src/Main/Modules/Physics/Free_Data/fd_KerrSchild_g_dg_ddg_dddg.c:1263-1286 *)
Definition ks_ddgamma_D0D2D1D0 (P : kspar) (f : ksarg) : R :=
  ((((((((((ks_c P f) * (ks_k0 P f)) * (ks_ddk2_D0D1 P f)) + (((ks_c P f) * (ks_k2 P f)) *
  (ks_ddk0_D0D1 P f))) + (((ks_c P f) * (ks_dk0_D0 P f)) * (ks_dk2_D1 P f))) + (((ks_c P f) *
  (ks_dk0_D1 P f)) * (ks_dk2_D0 P f))) + (((ks_k0 P f) * (ks_k2 P f)) * (ks_ddc_D0D1 P f))) +
  (((ks_k0 P f) * (ks_dc_D0 P f)) * (ks_dk2_D1 P f))) + (((ks_k0 P f) * (ks_dc_D1 P f)) * (ks_dk2_D0
  P f))) + (((ks_k2 P f) * (ks_dc_D0 P f)) * (ks_dk0_D1 P f))) + (((ks_k2 P f) * (ks_dc_D1 P f)) *
  (ks_dk0_D0 P f)).

(* /repo/Src/Main/Modules/Physics/Free_Data/fd_KerrSchild_g_dg_ddg_dddg.c:1288-1303 *)
Definition ks_ddgamma_D2D2D1D0 (P : kspar) (f : ksarg) : R :=
  ((((((2 * (ks_c P f)) * (ks_k2 P f)) * (ks_ddk2_D0D1 P f)) + (((2 * (ks_c P f)) * (ks_dk2_D0 P f))
  * (ks_dk2_D1 P f))) + (((ks_k2 P f) ^ 2) * (ks_ddc_D0D1 P f))) + (((2 * (ks_k2 P f)) * (ks_dc_D0 P
  f)) * (ks_dk2_D1 P f))) + (((2 * (ks_k2 P f)) * (ks_dc_D1 P f)) * (ks_dk2_D0 P f)).

(* /repo/Src/Main/Modules/Physics/Free_Data/fd_KerrSchild_g_dg_ddg_dddg.c:1305-1322 *)
Definition ks_ddgamma_D0D1D2D2 (P : kspar) (f : ksarg) : R :=
  (((((((ks_c P f) * (ks_k0 P f)) * (ks_ddk1_D2D2 P f)) + (((ks_c P f) * (ks_k1 P f)) * (ks_ddk0_D2D2
  P f))) + (((2 * (ks_c P f)) * (ks_dk0_D2 P f)) * (ks_dk1_D2 P f))) + (((ks_k0 P f) * (ks_k1 P f)) *
  (ks_ddc_D2D2 P f))) + (((2 * (ks_k0 P f)) * (ks_dc_D2 P f)) * (ks_dk1_D2 P f))) + (((2 * (ks_k1 P
  f)) * (ks_dc_D2 P f)) * (ks_dk0_D2 P f)).

(* /repo/Src/Main/Modules/Physics/Free_Data/fd_KerrSchild_g_dg_ddg_dddg.c:1324-1336 *)
Definition ks_ddgamma_D2D2D0D0 (P : kspar) (f : ksarg) : R :=
  (((((2 * (ks_c P f)) * (ks_k2 P f)) * (ks_ddk2_D0D0 P f)) + ((2 * (ks_c P f)) * ((ks_dk2_D0 P f) ^
  2))) + (((ks_k2 P f) ^ 2) * (ks_ddc_D0D0 P f))) + (((4 * (ks_k2 P f)) * (ks_dc_D0 P f)) *
  (ks_dk2_D0 P f)).

(* /repo/Src/Main/Modules/Physics/Free_Data/fd_KerrSchild_g_dg_ddg_dddg.c:1338-1353 *)
Definition ks_ddgamma_D0D0D2D1 (P : kspar) (f : ksarg) : R :=
  ((((((2 * (ks_c P f)) * (ks_k0 P f)) * (ks_ddk0_D1D2 P f)) + (((2 * (ks_c P f)) * (ks_dk0_D1 P f))
  * (ks_dk0_D2 P f))) + (((ks_k0 P f) ^ 2) * (ks_ddc_D1D2 P f))) + (((2 * (ks_k0 P f)) * (ks_dc_D1 P
  f)) * (ks_dk0_D2 P f))) + (((2 * (ks_k0 P f)) * (ks_dc_D2 P f)) * (ks_dk0_D1 P f)).

(* /repo/Src/Main/Modules/Physics/Free_Data/fd_KerrSchild_g_dg_ddg_dddg.c:1355-1372 *)
Definition ks_ddgamma_D0D2D2D2 (P : kspar) (f : ksarg) : R :=
  (((((((ks_c P f) * (ks_k0 P f)) * (ks_ddk2_D2D2 P f)) + (((ks_c P f) * (ks_k2 P f)) * (ks_ddk0_D2D2
  P f))) + (((2 * (ks_c P f)) * (ks_dk0_D2 P f)) * (ks_dk2_D2 P f))) + (((ks_k0 P f) * (ks_k2 P f)) *
  (ks_ddc_D2D2 P f))) + (((2 * (ks_k0 P f)) * (ks_dc_D2 P f)) * (ks_dk2_D2 P f))) + (((2 * (ks_k2 P
  f)) * (ks_dc_D2 P f)) * (ks_dk0_D2 P f)).

(* /repo/Src/Main/Modules/Physics/Free_Data/fd_KerrSchild_g_dg_ddg_dddg.c:1374-1389 *)
Definition ks_ddgamma_D1D1D1D2 (P : kspar) (f : ksarg) : R :=
  ((((((2 * (ks_c P f)) * (ks_k1 P f)) * (ks_ddk1_D1D2 P f)) + (((2 * (ks_c P f)) * (ks_dk1_D1 P f))
  * (ks_dk1_D2 P f))) + (((ks_k1 P f) ^ 2) * (ks_ddc_D1D2 P f))) + (((2 * (ks_k1 P f)) * (ks_dc_D1 P
  f)) * (ks_dk1_D2 P f))) + (((2 * (ks_k1 P f)) * (ks_dc_D2 P f)) * (ks_dk1_D1 P f)).

(* /repo/Src/Main/Modules/Physics/Free_Data/fd_KerrSchild_g_dg_ddg_dddg.c:1391-1414 *)
Definition ks_ddgamma_D1D2D2D1 (P : kspar) (f : ksarg) : R :=
  ((((((((((ks_c P f) * (ks_k1 P f)) * (ks_ddk2_D1D2 P f)) + (((ks_c P f) * (ks_k2 P f)) *
  (ks_ddk1_D1D2 P f))) + (((ks_c P f) * (ks_dk1_D1 P f)) * (ks_dk2_D2 P f))) + (((ks_c P f) *
  (ks_dk1_D2 P f)) * (ks_dk2_D1 P f))) + (((ks_k1 P f) * (ks_k2 P f)) * (ks_ddc_D1D2 P f))) +
  (((ks_k1 P f) * (ks_dc_D1 P f)) * (ks_dk2_D2 P f))) + (((ks_k1 P f) * (ks_dc_D2 P f)) * (ks_dk2_D1
  P f))) + (((ks_k2 P f) * (ks_dc_D1 P f)) * (ks_dk1_D2 P f))) + (((ks_k2 P f) * (ks_dc_D2 P f)) *
  (ks_dk1_D1 P f)).

(* /repo/Src/Main/Modules/Physics/Free_Data/fd_KerrSchild_g_dg_ddg_dddg.c:1416-1431 *)
Definition ks_ddgamma_D0D0D1D2 (P : kspar) (f : ksarg) : R :=
  ((((((2 * (ks_c P f)) * (ks_k0 P f)) * (ks_ddk0_D1D2 P f)) + (((2 * (ks_c P f)) * (ks_dk0_D1 P f))
  * (ks_dk0_D2 P f))) + (((ks_k0 P f) ^ 2) * (ks_ddc_D1D2 P f))) + (((2 * (ks_k0 P f)) * (ks_dc_D1 P
  f)) * (ks_dk0_D2 P f))) + (((2 * (ks_k0 P f)) * (ks_dc_D2 P f)) * (ks_dk0_D1 P f)).

(* /repo/Src/Main/Modules/Physics/Free_Data/fd_KerrSchild_g_dg_ddg_dddg.c:1433-1456 *)
Definition ks_ddgamma_D0D2D0D2 (P : kspar) (f : ksarg) : R :=
  ((((((((((ks_c P f) * (ks_k0 P f)) * (ks_ddk2_D0D2 P f)) + (((ks_c P f) * (ks_k2 P f)) *
  (ks_ddk0_D0D2 P f))) + (((ks_c P f) * (ks_dk0_D0 P f)) * (ks_dk2_D2 P f))) + (((ks_c P f) *
  (ks_dk0_D2 P f)) * (ks_dk2_D0 P f))) + (((ks_k0 P f) * (ks_k2 P f)) * (ks_ddc_D0D2 P f))) +
  (((ks_k0 P f) * (ks_dc_D0 P f)) * (ks_dk2_D2 P f))) + (((ks_k0 P f) * (ks_dc_D2 P f)) * (ks_dk2_D0
  P f))) + (((ks_k2 P f) * (ks_dc_D0 P f)) * (ks_dk0_D2 P f))) + (((ks_k2 P f) * (ks_dc_D2 P f)) *
  (ks_dk0_D0 P f)).

(* /repo/Src/Main/Modules/Physics/Free_Data/fd_KerrSchild_g_dg_ddg_dddg.c:1458-1473 *)
Definition ks_ddgamma_D1D1D0D2 (P : kspar) (f : ksarg) : R :=
  ((((((2 * (ks_c P f)) * (ks_k1 P f)) * (ks_ddk1_D0D2 P f)) + (((2 * (ks_c P f)) * (ks_dk1_D0 P f))
  * (ks_dk1_D2 P f))) + (((ks_k1 P f) ^ 2) * (ks_ddc_D0D2 P f))) + (((2 * (ks_k1 P f)) * (ks_dc_D0 P
  f)) * (ks_dk1_D2 P f))) + (((2 * (ks_k1 P f)) * (ks_dc_D2 P f)) * (ks_dk1_D0 P f)).

(* /repo/Src/Main/Modules/Physics/Free_Data/fd_KerrSchild_g_dg_ddg_dddg.c:1475-1490 *)
Definition ks_ddgamma_D2D2D0D1 (P : kspar) (f : ksarg) : R :=
  ((((((2 * (ks_c P f)) * (ks_k2 P f)) * (ks_ddk2_D0D1 P f)) + (((2 * (ks_c P f)) * (ks_dk2_D0 P f))
  * (ks_dk2_D1 P f))) + (((ks_k2 P f) ^ 2) * (ks_ddc_D0D1 P f))) + (((2 * (ks_k2 P f)) * (ks_dc_D0 P
  f)) * (ks_dk2_D1 P f))) + (((2 * (ks_k2 P f)) * (ks_dc_D1 P f)) * (ks_dk2_D0 P f)).

(* /repo/Src/Main/Modules/Physics/Free_Data/fd_KerrSchild_g_dg_ddg_dddg.c:1676-1716 *)
Definition ks_dddgamma_D0D1D2D2D1 (P : kspar) (f : ksarg) : R :=
  (((((((((((((((((((ks_c P f) * (ks_k0 P f)) * (ks_dddk1_D1D2D2 P f)) + (((ks_c P f) * (ks_k1 P f))
  * (ks_dddk0_D1D2D2 P f))) + (((ks_c P f) * (ks_dk0_D1 P f)) * (ks_ddk1_D2D2 P f))) + (((2 * (ks_c P
  f)) * (ks_dk0_D2 P f)) * (ks_ddk1_D1D2 P f))) + (((ks_c P f) * (ks_ddk0_D2D2 P f)) * (ks_dk1_D1 P
  f))) + (((2 * (ks_c P f)) * (ks_dk1_D2 P f)) * (ks_ddk0_D1D2 P f))) + (((ks_k0 P f) * (ks_k1 P f))
  * (ks_dddc_D1D2D2 P f))) + (((ks_k0 P f) * (ks_dc_D1 P f)) * (ks_ddk1_D2D2 P f))) + (((2 * (ks_k0 P
  f)) * (ks_dc_D2 P f)) * (ks_ddk1_D1D2 P f))) + (((ks_k0 P f) * (ks_ddc_D2D2 P f)) * (ks_dk1_D1 P
  f))) + (((2 * (ks_k0 P f)) * (ks_dk1_D2 P f)) * (ks_ddc_D1D2 P f))) + (((ks_k1 P f) * (ks_dc_D1 P
  f)) * (ks_ddk0_D2D2 P f))) + (((2 * (ks_k1 P f)) * (ks_dc_D2 P f)) * (ks_ddk0_D1D2 P f))) +
  (((ks_k1 P f) * (ks_ddc_D2D2 P f)) * (ks_dk0_D1 P f))) + (((2 * (ks_k1 P f)) * (ks_dk0_D2 P f)) *
  (ks_ddc_D1D2 P f))) + (((2 * (ks_dc_D1 P f)) * (ks_dk0_D2 P f)) * (ks_dk1_D2 P f))) + (((2 *
  (ks_dc_D2 P f)) * (ks_dk0_D1 P f)) * (ks_dk1_D2 P f))) + (((2 * (ks_dc_D2 P f)) * (ks_dk0_D2 P f))
  * (ks_dk1_D1 P f)).

(* /repo/Src/Main/Modules/Physics/Free_Data/fd_KerrSchild_g_dg_ddg_dddg.c:1718-1774 *)
Definition ks_dddgamma_D0D1D2D0D1 (P : kspar) (f : ksarg) : R :=
  ((((((((((((((((((((((((((((ks_c P f) * (ks_k0 P f)) * (ks_dddk1_D0D1D2 P f)) + (((ks_c P f) *
  (ks_k1 P f)) * (ks_dddk0_D0D1D2 P f))) + (((ks_c P f) * (ks_dk0_D0 P f)) * (ks_ddk1_D1D2 P f))) +
  (((ks_c P f) * (ks_dk0_D1 P f)) * (ks_ddk1_D0D2 P f))) + (((ks_c P f) * (ks_dk0_D2 P f)) *
  (ks_ddk1_D0D1 P f))) + (((ks_c P f) * (ks_dk1_D0 P f)) * (ks_ddk0_D1D2 P f))) + (((ks_c P f) *
  (ks_dk1_D1 P f)) * (ks_ddk0_D0D2 P f))) + (((ks_c P f) * (ks_dk1_D2 P f)) * (ks_ddk0_D0D1 P f))) +
  (((ks_k0 P f) * (ks_k1 P f)) * (ks_dddc_D0D1D2 P f))) + (((ks_k0 P f) * (ks_dc_D0 P f)) *
  (ks_ddk1_D1D2 P f))) + (((ks_k0 P f) * (ks_dc_D1 P f)) * (ks_ddk1_D0D2 P f))) + (((ks_k0 P f) *
  (ks_dc_D2 P f)) * (ks_ddk1_D0D1 P f))) + (((ks_k0 P f) * (ks_dk1_D0 P f)) * (ks_ddc_D1D2 P f))) +
  (((ks_k0 P f) * (ks_dk1_D1 P f)) * (ks_ddc_D0D2 P f))) + (((ks_k0 P f) * (ks_dk1_D2 P f)) *
  (ks_ddc_D0D1 P f))) + (((ks_k1 P f) * (ks_dc_D0 P f)) * (ks_ddk0_D1D2 P f))) + (((ks_k1 P f) *
  (ks_dc_D1 P f)) * (ks_ddk0_D0D2 P f))) + (((ks_k1 P f) * (ks_dc_D2 P f)) * (ks_ddk0_D0D1 P f))) +
  (((ks_k1 P f) * (ks_dk0_D0 P f)) * (ks_ddc_D1D2 P f))) + (((ks_k1 P f) * (ks_dk0_D1 P f)) *
  (ks_ddc_D0D2 P f))) + (((ks_k1 P f) * (ks_dk0_D2 P f)) * (ks_ddc_D0D1 P f))) + (((ks_dc_D0 P f) *
  (ks_dk0_D1 P f)) * (ks_dk1_D2 P f))) + (((ks_dc_D0 P f) * (ks_dk0_D2 P f)) * (ks_dk1_D1 P f))) +
  (((ks_dc_D1 P f) * (ks_dk0_D0 P f)) * (ks_dk1_D2 P f))) + (((ks_dc_D1 P f) * (ks_dk0_D2 P f)) *
  (ks_dk1_D0 P f))) + (((ks_dc_D2 P f) * (ks_dk0_D0 P f)) * (ks_dk1_D1 P f))) + (((ks_dc_D2 P f) *
  (ks_dk0_D1 P f)) * (ks_dk1_D0 P f)).

(* /repo/Src/Main/Modules/Physics/Free_Data/fd_KerrSchild_g_dg_ddg_dddg.c:1776-1816 *)
Definition ks_dddgamma_D1D2D0D2D0 (P : kspar) (f : ksarg) : R :=
  (((((((((((((((((((ks_c P f) * (ks_k1 P f)) * (ks_dddk2_D0D0D2 P f)) + (((ks_c P f) * (ks_k2 P f))
  * (ks_dddk1_D0D0D2 P f))) + (((2 * (ks_c P f)) * (ks_dk1_D0 P f)) * (ks_ddk2_D0D2 P f))) + (((ks_c
  P f) * (ks_ddk1_D0D0 P f)) * (ks_dk2_D2 P f))) + (((ks_c P f) * (ks_dk1_D2 P f)) * (ks_ddk2_D0D0 P
  f))) + (((2 * (ks_c P f)) * (ks_dk2_D0 P f)) * (ks_ddk1_D0D2 P f))) + (((ks_k1 P f) * (ks_k2 P f))
  * (ks_dddc_D0D0D2 P f))) + (((2 * (ks_k1 P f)) * (ks_dc_D0 P f)) * (ks_ddk2_D0D2 P f))) + (((ks_k1
  P f) * (ks_ddc_D0D0 P f)) * (ks_dk2_D2 P f))) + (((ks_k1 P f) * (ks_dc_D2 P f)) * (ks_ddk2_D0D0 P
  f))) + (((2 * (ks_k1 P f)) * (ks_dk2_D0 P f)) * (ks_ddc_D0D2 P f))) + (((2 * (ks_k2 P f)) *
  (ks_dc_D0 P f)) * (ks_ddk1_D0D2 P f))) + (((ks_k2 P f) * (ks_ddc_D0D0 P f)) * (ks_dk1_D2 P f))) +
  (((ks_k2 P f) * (ks_dc_D2 P f)) * (ks_ddk1_D0D0 P f))) + (((2 * (ks_k2 P f)) * (ks_dk1_D0 P f)) *
  (ks_ddc_D0D2 P f))) + (((2 * (ks_dc_D0 P f)) * (ks_dk1_D0 P f)) * (ks_dk2_D2 P f))) + (((2 *
  (ks_dc_D0 P f)) * (ks_dk1_D2 P f)) * (ks_dk2_D0 P f))) + (((2 * (ks_dc_D2 P f)) * (ks_dk1_D0 P f))
  * (ks_dk2_D0 P f)).

(* /repo/Src/Main/Modules/Physics/Free_Data/fd_KerrSchild_g_dg_ddg_dddg.c:1818-1843 *)
Definition ks_dddgamma_D1D1D1D2D1 (P : kspar) (f : ksarg) : R :=
  (((((((((((2 * (ks_c P f)) * (ks_k1 P f)) * (ks_dddk1_D1D1D2 P f)) + (((4 * (ks_c P f)) *
  (ks_dk1_D1 P f)) * (ks_ddk1_D1D2 P f))) + (((2 * (ks_c P f)) * (ks_ddk1_D1D1 P f)) * (ks_dk1_D2 P
  f))) + (((ks_k1 P f) ^ 2) * (ks_dddc_D1D1D2 P f))) + (((4 * (ks_k1 P f)) * (ks_dc_D1 P f)) *
  (ks_ddk1_D1D2 P f))) + (((2 * (ks_k1 P f)) * (ks_ddc_D1D1 P f)) * (ks_dk1_D2 P f))) + (((2 * (ks_k1
  P f)) * (ks_dc_D2 P f)) * (ks_ddk1_D1D1 P f))) + (((4 * (ks_k1 P f)) * (ks_dk1_D1 P f)) *
  (ks_ddc_D1D2 P f))) + (((4 * (ks_dc_D1 P f)) * (ks_dk1_D1 P f)) * (ks_dk1_D2 P f))) + ((2 *
  (ks_dc_D2 P f)) * ((ks_dk1_D1 P f) ^ 2)).

(* /repo/Src/Main/Modules/Physics/Free_Data/fd_KerrSchild_g_dg_ddg_dddg.c:1845-1885 *)
Definition ks_dddgamma_D0D2D0D0D1 (P : kspar) (f : ksarg) : R :=
  (((((((((((((((((((ks_c P f) * (ks_k0 P f)) * (ks_dddk2_D0D0D1 P f)) + (((ks_c P f) * (ks_k2 P f))
  * (ks_dddk0_D0D0D1 P f))) + (((2 * (ks_c P f)) * (ks_dk0_D0 P f)) * (ks_ddk2_D0D1 P f))) + (((ks_c
  P f) * (ks_ddk0_D0D0 P f)) * (ks_dk2_D1 P f))) + (((ks_c P f) * (ks_dk0_D1 P f)) * (ks_ddk2_D0D0 P
  f))) + (((2 * (ks_c P f)) * (ks_dk2_D0 P f)) * (ks_ddk0_D0D1 P f))) + (((ks_k0 P f) * (ks_k2 P f))
  * (ks_dddc_D0D0D1 P f))) + (((2 * (ks_k0 P f)) * (ks_dc_D0 P f)) * (ks_ddk2_D0D1 P f))) + (((ks_k0
  P f) * (ks_ddc_D0D0 P f)) * (ks_dk2_D1 P f))) + (((ks_k0 P f) * (ks_dc_D1 P f)) * (ks_ddk2_D0D0 P
  f))) + (((2 * (ks_k0 P f)) * (ks_dk2_D0 P f)) * (ks_ddc_D0D1 P f))) + (((2 * (ks_k2 P f)) *
  (ks_dc_D0 P f)) * (ks_ddk0_D0D1 P f))) + (((ks_k2 P f) * (ks_ddc_D0D0 P f)) * (ks_dk0_D1 P f))) +
  (((ks_k2 P f) * (ks_dc_D1 P f)) * (ks_ddk0_D0D0 P f))) + (((2 * (ks_k2 P f)) * (ks_dk0_D0 P f)) *
  (ks_ddc_D0D1 P f))) + (((2 * (ks_dc_D0 P f)) * (ks_dk0_D0 P f)) * (ks_dk2_D1 P f))) + (((2 *
  (ks_dc_D0 P f)) * (ks_dk0_D1 P f)) * (ks_dk2_D0 P f))) + (((2 * (ks_dc_D1 P f)) * (ks_dk0_D0 P f))
  * (ks_dk2_D0 P f)).

(* /repo/Src/Main/Modules/Physics/Free_Data/fd_KerrSchild_g_dg_ddg_dddg.c:1887-1927 *)
Definition ks_dddgamma_D0D2D0D2D2 (P : kspar) (f : ksarg) : R :=
  (((((((((((((((((((ks_c P f) * (ks_k0 P f)) * (ks_dddk2_D0D2D2 P f)) + (((ks_c P f) * (ks_k2 P f))
  * (ks_dddk0_D0D2D2 P f))) + (((ks_c P f) * (ks_dk0_D0 P f)) * (ks_ddk2_D2D2 P f))) + (((2 * (ks_c P
  f)) * (ks_dk0_D2 P f)) * (ks_ddk2_D0D2 P f))) + (((ks_c P f) * (ks_ddk0_D2D2 P f)) * (ks_dk2_D0 P
  f))) + (((2 * (ks_c P f)) * (ks_dk2_D2 P f)) * (ks_ddk0_D0D2 P f))) + (((ks_k0 P f) * (ks_k2 P f))
  * (ks_dddc_D0D2D2 P f))) + (((ks_k0 P f) * (ks_dc_D0 P f)) * (ks_ddk2_D2D2 P f))) + (((2 * (ks_k0 P
  f)) * (ks_dc_D2 P f)) * (ks_ddk2_D0D2 P f))) + (((ks_k0 P f) * (ks_ddc_D2D2 P f)) * (ks_dk2_D0 P
  f))) + (((2 * (ks_k0 P f)) * (ks_dk2_D2 P f)) * (ks_ddc_D0D2 P f))) + (((ks_k2 P f) * (ks_dc_D0 P
  f)) * (ks_ddk0_D2D2 P f))) + (((2 * (ks_k2 P f)) * (ks_dc_D2 P f)) * (ks_ddk0_D0D2 P f))) +
  (((ks_k2 P f) * (ks_ddc_D2D2 P f)) * (ks_dk0_D0 P f))) + (((2 * (ks_k2 P f)) * (ks_dk0_D2 P f)) *
  (ks_ddc_D0D2 P f))) + (((2 * (ks_dc_D0 P f)) * (ks_dk0_D2 P f)) * (ks_dk2_D2 P f))) + (((2 *
  (ks_dc_D2 P f)) * (ks_dk0_D0 P f)) * (ks_dk2_D2 P f))) + (((2 * (ks_dc_D2 P f)) * (ks_dk0_D2 P f))
  * (ks_dk2_D0 P f)).

(* /repo/Src/Main/Modules/Physics/Free_Data/fd_KerrSchild_g_dg_ddg_dddg.c:1929-1954 *)
Definition ks_dddgamma_D2D2D2D1D2 (P : kspar) (f : ksarg) : R :=
  (((((((((((2 * (ks_c P f)) * (ks_k2 P f)) * (ks_dddk2_D1D2D2 P f)) + (((2 * (ks_c P f)) *
  (ks_dk2_D1 P f)) * (ks_ddk2_D2D2 P f))) + (((4 * (ks_c P f)) * (ks_dk2_D2 P f)) * (ks_ddk2_D1D2 P
  f))) + (((ks_k2 P f) ^ 2) * (ks_dddc_D1D2D2 P f))) + (((2 * (ks_k2 P f)) * (ks_dc_D1 P f)) *
  (ks_ddk2_D2D2 P f))) + (((4 * (ks_k2 P f)) * (ks_dc_D2 P f)) * (ks_ddk2_D1D2 P f))) + (((2 * (ks_k2
  P f)) * (ks_ddc_D2D2 P f)) * (ks_dk2_D1 P f))) + (((4 * (ks_k2 P f)) * (ks_dk2_D2 P f)) *
  (ks_ddc_D1D2 P f))) + ((2 * (ks_dc_D1 P f)) * ((ks_dk2_D2 P f) ^ 2))) + (((4 * (ks_dc_D2 P f)) *
  (ks_dk2_D1 P f)) * (ks_dk2_D2 P f)).

(* /repo/Src/Main/Modules/Physics/Free_Data/fd_KerrSchild_g_dg_ddg_dddg.c:1956-1996 *)
Definition ks_dddgamma_D0D1D0D2D0 (P : kspar) (f : ksarg) : R :=
  (((((((((((((((((((ks_c P f) * (ks_k0 P f)) * (ks_dddk1_D0D0D2 P f)) + (((ks_c P f) * (ks_k1 P f))
  * (ks_dddk0_D0D0D2 P f))) + (((2 * (ks_c P f)) * (ks_dk0_D0 P f)) * (ks_ddk1_D0D2 P f))) + (((ks_c
  P f) * (ks_ddk0_D0D0 P f)) * (ks_dk1_D2 P f))) + (((ks_c P f) * (ks_dk0_D2 P f)) * (ks_ddk1_D0D0 P
  f))) + (((2 * (ks_c P f)) * (ks_dk1_D0 P f)) * (ks_ddk0_D0D2 P f))) + (((ks_k0 P f) * (ks_k1 P f))
  * (ks_dddc_D0D0D2 P f))) + (((2 * (ks_k0 P f)) * (ks_dc_D0 P f)) * (ks_ddk1_D0D2 P f))) + (((ks_k0
  P f) * (ks_ddc_D0D0 P f)) * (ks_dk1_D2 P f))) + (((ks_k0 P f) * (ks_dc_D2 P f)) * (ks_ddk1_D0D0 P
  f))) + (((2 * (ks_k0 P f)) * (ks_dk1_D0 P f)) * (ks_ddc_D0D2 P f))) + (((2 * (ks_k1 P f)) *
  (ks_dc_D0 P f)) * (ks_ddk0_D0D2 P f))) + (((ks_k1 P f) * (ks_ddc_D0D0 P f)) * (ks_dk0_D2 P f))) +
  (((ks_k1 P f) * (ks_dc_D2 P f)) * (ks_ddk0_D0D0 P f))) + (((2 * (ks_k1 P f)) * (ks_dk0_D0 P f)) *
  (ks_ddc_D0D2 P f))) + (((2 * (ks_dc_D0 P f)) * (ks_dk0_D0 P f)) * (ks_dk1_D2 P f))) + (((2 *
  (ks_dc_D0 P f)) * (ks_dk0_D2 P f)) * (ks_dk1_D0 P f))) + (((2 * (ks_dc_D2 P f)) * (ks_dk0_D0 P f))
  * (ks_dk1_D0 P f)).

(* /repo/Src/Main/Modules/Physics/Free_Data/fd_KerrSchild_g_dg_ddg_dddg.c:1998-2023 *)
Definition ks_dddgamma_D1D1D2D2D0 (P : kspar) (f : ksarg) : R :=
  (((((((((((2 * (ks_c P f)) * (ks_k1 P f)) * (ks_dddk1_D0D2D2 P f)) + (((2 * (ks_c P f)) *
  (ks_dk1_D0 P f)) * (ks_ddk1_D2D2 P f))) + (((4 * (ks_c P f)) * (ks_dk1_D2 P f)) * (ks_ddk1_D0D2 P
  f))) + (((ks_k1 P f) ^ 2) * (ks_dddc_D0D2D2 P f))) + (((2 * (ks_k1 P f)) * (ks_dc_D0 P f)) *
  (ks_ddk1_D2D2 P f))) + (((4 * (ks_k1 P f)) * (ks_dc_D2 P f)) * (ks_ddk1_D0D2 P f))) + (((2 * (ks_k1
  P f)) * (ks_ddc_D2D2 P f)) * (ks_dk1_D0 P f))) + (((4 * (ks_k1 P f)) * (ks_dk1_D2 P f)) *
  (ks_ddc_D0D2 P f))) + ((2 * (ks_dc_D0 P f)) * ((ks_dk1_D2 P f) ^ 2))) + (((4 * (ks_dc_D2 P f)) *
  (ks_dk1_D0 P f)) * (ks_dk1_D2 P f)).

(* /repo/Src/Main/Modules/Physics/Free_Data/fd_KerrSchild_g_dg_ddg_dddg.c:2025-2081 *)
Definition ks_dddgamma_D0D2D0D2D1 (P : kspar) (f : ksarg) : R :=
  ((((((((((((((((((((((((((((ks_c P f) * (ks_k0 P f)) * (ks_dddk2_D0D1D2 P f)) + (((ks_c P f) *
  (ks_k2 P f)) * (ks_dddk0_D0D1D2 P f))) + (((ks_c P f) * (ks_dk0_D0 P f)) * (ks_ddk2_D1D2 P f))) +
  (((ks_c P f) * (ks_dk0_D1 P f)) * (ks_ddk2_D0D2 P f))) + (((ks_c P f) * (ks_dk0_D2 P f)) *
  (ks_ddk2_D0D1 P f))) + (((ks_c P f) * (ks_dk2_D0 P f)) * (ks_ddk0_D1D2 P f))) + (((ks_c P f) *
  (ks_dk2_D1 P f)) * (ks_ddk0_D0D2 P f))) + (((ks_c P f) * (ks_dk2_D2 P f)) * (ks_ddk0_D0D1 P f))) +
  (((ks_k0 P f) * (ks_k2 P f)) * (ks_dddc_D0D1D2 P f))) + (((ks_k0 P f) * (ks_dc_D0 P f)) *
  (ks_ddk2_D1D2 P f))) + (((ks_k0 P f) * (ks_dc_D1 P f)) * (ks_ddk2_D0D2 P f))) + (((ks_k0 P f) *
  (ks_dc_D2 P f)) * (ks_ddk2_D0D1 P f))) + (((ks_k0 P f) * (ks_dk2_D0 P f)) * (ks_ddc_D1D2 P f))) +
  (((ks_k0 P f) * (ks_dk2_D1 P f)) * (ks_ddc_D0D2 P f))) + (((ks_k0 P f) * (ks_dk2_D2 P f)) *
  (ks_ddc_D0D1 P f))) + (((ks_k2 P f) * (ks_dc_D0 P f)) * (ks_ddk0_D1D2 P f))) + (((ks_k2 P f) *
  (ks_dc_D1 P f)) * (ks_ddk0_D0D2 P f))) + (((ks_k2 P f) * (ks_dc_D2 P f)) * (ks_ddk0_D0D1 P f))) +
  (((ks_k2 P f) * (ks_dk0_D0 P f)) * (ks_ddc_D1D2 P f))) + (((ks_k2 P f) * (ks_dk0_D1 P f)) *
  (ks_ddc_D0D2 P f))) + (((ks_k2 P f) * (ks_dk0_D2 P f)) * (ks_ddc_D0D1 P f))) + (((ks_dc_D0 P f) *
  (ks_dk0_D1 P f)) * (ks_dk2_D2 P f))) + (((ks_dc_D0 P f) * (ks_dk0_D2 P f)) * (ks_dk2_D1 P f))) +
  (((ks_dc_D1 P f) * (ks_dk0_D0 P f)) * (ks_dk2_D2 P f))) + (((ks_dc_D1 P f) * (ks_dk0_D2 P f)) *
  (ks_dk2_D0 P f))) + (((ks_dc_D2 P f) * (ks_dk0_D0 P f)) * (ks_dk2_D1 P f))) + (((ks_dc_D2 P f) *
  (ks_dk0_D1 P f)) * (ks_dk2_D0 P f)).

(* /repo/Src/Main/Modules/Physics/Free_Data/fd_KerrSchild_g_dg_ddg_dddg.c:2083-2117 *)
Definition ks_dddgamma_D1D1D2D1D0 (P : kspar) (f : ksarg) : R :=
  (((((((((((((((2 * (ks_c P f)) * (ks_k1 P f)) * (ks_dddk1_D0D1D2 P f)) + (((2 * (ks_c P f)) *
  (ks_dk1_D0 P f)) * (ks_ddk1_D1D2 P f))) + (((2 * (ks_c P f)) * (ks_dk1_D1 P f)) * (ks_ddk1_D0D2 P
  f))) + (((2 * (ks_c P f)) * (ks_dk1_D2 P f)) * (ks_ddk1_D0D1 P f))) + (((ks_k1 P f) ^ 2) *
  (ks_dddc_D0D1D2 P f))) + (((2 * (ks_k1 P f)) * (ks_dc_D0 P f)) * (ks_ddk1_D1D2 P f))) + (((2 *
  (ks_k1 P f)) * (ks_dc_D1 P f)) * (ks_ddk1_D0D2 P f))) + (((2 * (ks_k1 P f)) * (ks_dc_D2 P f)) *
  (ks_ddk1_D0D1 P f))) + (((2 * (ks_k1 P f)) * (ks_dk1_D0 P f)) * (ks_ddc_D1D2 P f))) + (((2 * (ks_k1
  P f)) * (ks_dk1_D1 P f)) * (ks_ddc_D0D2 P f))) + (((2 * (ks_k1 P f)) * (ks_dk1_D2 P f)) *
  (ks_ddc_D0D1 P f))) + (((2 * (ks_dc_D0 P f)) * (ks_dk1_D1 P f)) * (ks_dk1_D2 P f))) + (((2 *
  (ks_dc_D1 P f)) * (ks_dk1_D0 P f)) * (ks_dk1_D2 P f))) + (((2 * (ks_dc_D2 P f)) * (ks_dk1_D0 P f))
  * (ks_dk1_D1 P f)).

(* /repo/Src/Main/Modules/Physics/Free_Data/fd_KerrSchild_g_dg_ddg_dddg.c:2119-2153 *)
Definition ks_dddgamma_D1D1D0D1D2 (P : kspar) (f : ksarg) : R :=
  (((((((((((((((2 * (ks_c P f)) * (ks_k1 P f)) * (ks_dddk1_D0D1D2 P f)) + (((2 * (ks_c P f)) *
  (ks_dk1_D0 P f)) * (ks_ddk1_D1D2 P f))) + (((2 * (ks_c P f)) * (ks_dk1_D1 P f)) * (ks_ddk1_D0D2 P
  f))) + (((2 * (ks_c P f)) * (ks_dk1_D2 P f)) * (ks_ddk1_D0D1 P f))) + (((ks_k1 P f) ^ 2) *
  (ks_dddc_D0D1D2 P f))) + (((2 * (ks_k1 P f)) * (ks_dc_D0 P f)) * (ks_ddk1_D1D2 P f))) + (((2 *
  (ks_k1 P f)) * (ks_dc_D1 P f)) * (ks_ddk1_D0D2 P f))) + (((2 * (ks_k1 P f)) * (ks_dc_D2 P f)) *
  (ks_ddk1_D0D1 P f))) + (((2 * (ks_k1 P f)) * (ks_dk1_D0 P f)) * (ks_ddc_D1D2 P f))) + (((2 * (ks_k1
  P f)) * (ks_dk1_D1 P f)) * (ks_ddc_D0D2 P f))) + (((2 * (ks_k1 P f)) * (ks_dk1_D2 P f)) *
  (ks_ddc_D0D1 P f))) + (((2 * (ks_dc_D0 P f)) * (ks_dk1_D1 P f)) * (ks_dk1_D2 P f))) + (((2 *
  (ks_dc_D1 P f)) * (ks_dk1_D0 P f)) * (ks_dk1_D2 P f))) + (((2 * (ks_dc_D2 P f)) * (ks_dk1_D0 P f))
  * (ks_dk1_D1 P f)).

(* /repo/Src/Main/Modules/Physics/Free_Data/fd_KerrSchild_g_dg_ddg_dddg.c:2155-2195 *)
Definition ks_dddgamma_D0D2D1D1D0 (P : kspar) (f : ksarg) : R :=
  (((((((((((((((((((ks_c P f) * (ks_k0 P f)) * (ks_dddk2_D0D1D1 P f)) + (((ks_c P f) * (ks_k2 P f))
  * (ks_dddk0_D0D1D1 P f))) + (((ks_c P f) * (ks_dk0_D0 P f)) * (ks_ddk2_D1D1 P f))) + (((2 * (ks_c P
  f)) * (ks_dk0_D1 P f)) * (ks_ddk2_D0D1 P f))) + (((ks_c P f) * (ks_ddk0_D1D1 P f)) * (ks_dk2_D0 P
  f))) + (((2 * (ks_c P f)) * (ks_dk2_D1 P f)) * (ks_ddk0_D0D1 P f))) + (((ks_k0 P f) * (ks_k2 P f))
  * (ks_dddc_D0D1D1 P f))) + (((ks_k0 P f) * (ks_dc_D0 P f)) * (ks_ddk2_D1D1 P f))) + (((2 * (ks_k0 P
  f)) * (ks_dc_D1 P f)) * (ks_ddk2_D0D1 P f))) + (((ks_k0 P f) * (ks_ddc_D1D1 P f)) * (ks_dk2_D0 P
  f))) + (((2 * (ks_k0 P f)) * (ks_dk2_D1 P f)) * (ks_ddc_D0D1 P f))) + (((ks_k2 P f) * (ks_dc_D0 P
  f)) * (ks_ddk0_D1D1 P f))) + (((2 * (ks_k2 P f)) * (ks_dc_D1 P f)) * (ks_ddk0_D0D1 P f))) +
  (((ks_k2 P f) * (ks_ddc_D1D1 P f)) * (ks_dk0_D0 P f))) + (((2 * (ks_k2 P f)) * (ks_dk0_D1 P f)) *
  (ks_ddc_D0D1 P f))) + (((2 * (ks_dc_D0 P f)) * (ks_dk0_D1 P f)) * (ks_dk2_D1 P f))) + (((2 *
  (ks_dc_D1 P f)) * (ks_dk0_D0 P f)) * (ks_dk2_D1 P f))) + (((2 * (ks_dc_D1 P f)) * (ks_dk0_D1 P f))
  * (ks_dk2_D0 P f)).

(* /repo/Src/Main/Modules/Physics/Free_Data/fd_KerrSchild_g_dg_ddg_dddg.c:2197-2222 *)
Definition ks_dddgamma_D1D1D1D0D1 (P : kspar) (f : ksarg) : R :=
  (((((((((((2 * (ks_c P f)) * (ks_k1 P f)) * (ks_dddk1_D0D1D1 P f)) + (((2 * (ks_c P f)) *
  (ks_dk1_D0 P f)) * (ks_ddk1_D1D1 P f))) + (((4 * (ks_c P f)) * (ks_dk1_D1 P f)) * (ks_ddk1_D0D1 P
  f))) + (((ks_k1 P f) ^ 2) * (ks_dddc_D0D1D1 P f))) + (((2 * (ks_k1 P f)) * (ks_dc_D0 P f)) *
  (ks_ddk1_D1D1 P f))) + (((4 * (ks_k1 P f)) * (ks_dc_D1 P f)) * (ks_ddk1_D0D1 P f))) + (((2 * (ks_k1
  P f)) * (ks_ddc_D1D1 P f)) * (ks_dk1_D0 P f))) + (((4 * (ks_k1 P f)) * (ks_dk1_D1 P f)) *
  (ks_ddc_D0D1 P f))) + ((2 * (ks_dc_D0 P f)) * ((ks_dk1_D1 P f) ^ 2))) + (((4 * (ks_dc_D1 P f)) *
  (ks_dk1_D0 P f)) * (ks_dk1_D1 P f)).

(* /repo/Src/Main/Modules/Physics/Free_Data/fd_KerrSchild_g_dg_ddg_dddg.c:2224-2249 *)
Definition ks_dddgamma_D0D0D2D1D1 (P : kspar) (f : ksarg) : R :=
  (((((((((((2 * (ks_c P f)) * (ks_k0 P f)) * (ks_dddk0_D1D1D2 P f)) + (((4 * (ks_c P f)) *
  (ks_dk0_D1 P f)) * (ks_ddk0_D1D2 P f))) + (((2 * (ks_c P f)) * (ks_ddk0_D1D1 P f)) * (ks_dk0_D2 P
  f))) + (((ks_k0 P f) ^ 2) * (ks_dddc_D1D1D2 P f))) + (((4 * (ks_k0 P f)) * (ks_dc_D1 P f)) *
  (ks_ddk0_D1D2 P f))) + (((2 * (ks_k0 P f)) * (ks_ddc_D1D1 P f)) * (ks_dk0_D2 P f))) + (((2 * (ks_k0
  P f)) * (ks_dc_D2 P f)) * (ks_ddk0_D1D1 P f))) + (((4 * (ks_k0 P f)) * (ks_dk0_D1 P f)) *
  (ks_ddc_D1D2 P f))) + (((4 * (ks_dc_D1 P f)) * (ks_dk0_D1 P f)) * (ks_dk0_D2 P f))) + ((2 *
  (ks_dc_D2 P f)) * ((ks_dk0_D1 P f) ^ 2)).

(* /repo/Src/Main/Modules/Physics/Free_Data/fd_KerrSchild_g_dg_ddg_dddg.c:2251-2291 *)
Definition ks_dddgamma_D0D1D2D1D2 (P : kspar) (f : ksarg) : R :=
  (((((((((((((((((((ks_c P f) * (ks_k0 P f)) * (ks_dddk1_D1D2D2 P f)) + (((ks_c P f) * (ks_k1 P f))
  * (ks_dddk0_D1D2D2 P f))) + (((ks_c P f) * (ks_dk0_D1 P f)) * (ks_ddk1_D2D2 P f))) + (((2 * (ks_c P
  f)) * (ks_dk0_D2 P f)) * (ks_ddk1_D1D2 P f))) + (((ks_c P f) * (ks_ddk0_D2D2 P f)) * (ks_dk1_D1 P
  f))) + (((2 * (ks_c P f)) * (ks_dk1_D2 P f)) * (ks_ddk0_D1D2 P f))) + (((ks_k0 P f) * (ks_k1 P f))
  * (ks_dddc_D1D2D2 P f))) + (((ks_k0 P f) * (ks_dc_D1 P f)) * (ks_ddk1_D2D2 P f))) + (((2 * (ks_k0 P
  f)) * (ks_dc_D2 P f)) * (ks_ddk1_D1D2 P f))) + (((ks_k0 P f) * (ks_ddc_D2D2 P f)) * (ks_dk1_D1 P
  f))) + (((2 * (ks_k0 P f)) * (ks_dk1_D2 P f)) * (ks_ddc_D1D2 P f))) + (((ks_k1 P f) * (ks_dc_D1 P
  f)) * (ks_ddk0_D2D2 P f))) + (((2 * (ks_k1 P f)) * (ks_dc_D2 P f)) * (ks_ddk0_D1D2 P f))) +
  (((ks_k1 P f) * (ks_ddc_D2D2 P f)) * (ks_dk0_D1 P f))) + (((2 * (ks_k1 P f)) * (ks_dk0_D2 P f)) *
  (ks_ddc_D1D2 P f))) + (((2 * (ks_dc_D1 P f)) * (ks_dk0_D2 P f)) * (ks_dk1_D2 P f))) + (((2 *
  (ks_dc_D2 P f)) * (ks_dk0_D1 P f)) * (ks_dk1_D2 P f))) + (((2 * (ks_dc_D2 P f)) * (ks_dk0_D2 P f))
  * (ks_dk1_D1 P f)).

(* /repo/Src/Main/Modules/Physics/Free_Data/fd_KerrSchild_g_dg_ddg_dddg.c:2293-2318 *)
Definition ks_dddgamma_D0D0D0D1D1 (P : kspar) (f : ksarg) : R :=
  (((((((((((2 * (ks_c P f)) * (ks_k0 P f)) * (ks_dddk0_D0D1D1 P f)) + (((2 * (ks_c P f)) *
  (ks_dk0_D0 P f)) * (ks_ddk0_D1D1 P f))) + (((4 * (ks_c P f)) * (ks_dk0_D1 P f)) * (ks_ddk0_D0D1 P
  f))) + (((ks_k0 P f) ^ 2) * (ks_dddc_D0D1D1 P f))) + (((2 * (ks_k0 P f)) * (ks_dc_D0 P f)) *
  (ks_ddk0_D1D1 P f))) + (((4 * (ks_k0 P f)) * (ks_dc_D1 P f)) * (ks_ddk0_D0D1 P f))) + (((2 * (ks_k0
  P f)) * (ks_ddc_D1D1 P f)) * (ks_dk0_D0 P f))) + (((4 * (ks_k0 P f)) * (ks_dk0_D1 P f)) *
  (ks_ddc_D0D1 P f))) + ((2 * (ks_dc_D0 P f)) * ((ks_dk0_D1 P f) ^ 2))) + (((4 * (ks_dc_D1 P f)) *
  (ks_dk0_D0 P f)) * (ks_dk0_D1 P f)).

(* /repo/Src/Main/Modules/Physics/Free_Data/fd_KerrSchild_g_dg_ddg_dddg.c:2320-2345 *)
Definition ks_dddgamma_D2D2D1D2D1 (P : kspar) (f : ksarg) : R :=
  (((((((((((2 * (ks_c P f)) * (ks_k2 P f)) * (ks_dddk2_D1D1D2 P f)) + (((4 * (ks_c P f)) *
  (ks_dk2_D1 P f)) * (ks_ddk2_D1D2 P f))) + (((2 * (ks_c P f)) * (ks_ddk2_D1D1 P f)) * (ks_dk2_D2 P
  f))) + (((ks_k2 P f) ^ 2) * (ks_dddc_D1D1D2 P f))) + (((4 * (ks_k2 P f)) * (ks_dc_D1 P f)) *
  (ks_ddk2_D1D2 P f))) + (((2 * (ks_k2 P f)) * (ks_ddc_D1D1 P f)) * (ks_dk2_D2 P f))) + (((2 * (ks_k2
  P f)) * (ks_dc_D2 P f)) * (ks_ddk2_D1D1 P f))) + (((4 * (ks_k2 P f)) * (ks_dk2_D1 P f)) *
  (ks_ddc_D1D2 P f))) + (((4 * (ks_dc_D1 P f)) * (ks_dk2_D1 P f)) * (ks_dk2_D2 P f))) + ((2 *
  (ks_dc_D2 P f)) * ((ks_dk2_D1 P f) ^ 2)).

(* /repo/Src/Main/Modules/Physics/Free_Data/fd_KerrSchild_g_dg_ddg_dddg.c:2347-2372 *)
Definition ks_dddgamma_D1D1D1D2D2 (P : kspar) (f : ksarg) : R :=
  (((((((((((2 * (ks_c P f)) * (ks_k1 P f)) * (ks_dddk1_D1D2D2 P f)) + (((2 * (ks_c P f)) *
  (ks_dk1_D1 P f)) * (ks_ddk1_D2D2 P f))) + (((4 * (ks_c P f)) * (ks_dk1_D2 P f)) * (ks_ddk1_D1D2 P
  f))) + (((ks_k1 P f) ^ 2) * (ks_dddc_D1D2D2 P f))) + (((2 * (ks_k1 P f)) * (ks_dc_D1 P f)) *
  (ks_ddk1_D2D2 P f))) + (((4 * (ks_k1 P f)) * (ks_dc_D2 P f)) * (ks_ddk1_D1D2 P f))) + (((2 * (ks_k1
  P f)) * (ks_ddc_D2D2 P f)) * (ks_dk1_D1 P f))) + (((4 * (ks_k1 P f)) * (ks_dk1_D2 P f)) *
  (ks_ddc_D1D2 P f))) + ((2 * (ks_dc_D1 P f)) * ((ks_dk1_D2 P f) ^ 2))) + (((4 * (ks_dc_D2 P f)) *
  (ks_dk1_D1 P f)) * (ks_dk1_D2 P f)).

(* /repo/Src/Main/Modules/Physics/Free_Data/fd_KerrSchild_g_dg_ddg_dddg.c:2374-2399 *)
Definition ks_dddgamma_D2D2D2D2D1 (P : kspar) (f : ksarg) : R :=
  (((((((((((2 * (ks_c P f)) * (ks_k2 P f)) * (ks_dddk2_D1D2D2 P f)) + (((2 * (ks_c P f)) *
  (ks_dk2_D1 P f)) * (ks_ddk2_D2D2 P f))) + (((4 * (ks_c P f)) * (ks_dk2_D2 P f)) * (ks_ddk2_D1D2 P
  f))) + (((ks_k2 P f) ^ 2) * (ks_dddc_D1D2D2 P f))) + (((2 * (ks_k2 P f)) * (ks_dc_D1 P f)) *
  (ks_ddk2_D2D2 P f))) + (((4 * (ks_k2 P f)) * (ks_dc_D2 P f)) * (ks_ddk2_D1D2 P f))) + (((2 * (ks_k2
  P f)) * (ks_ddc_D2D2 P f)) * (ks_dk2_D1 P f))) + (((4 * (ks_k2 P f)) * (ks_dk2_D2 P f)) *
  (ks_ddc_D1D2 P f))) + ((2 * (ks_dc_D1 P f)) * ((ks_dk2_D2 P f) ^ 2))) + (((4 * (ks_dc_D2 P f)) *
  (ks_dk2_D1 P f)) * (ks_dk2_D2 P f)).

(* /repo/Src/Main/Modules/Physics/Free_Data/fd_KerrSchild_g_dg_ddg_dddg.c:2401-2426 *)
Definition ks_dddgamma_D2D2D1D0D0 (P : kspar) (f : ksarg) : R :=
  (((((((((((2 * (ks_c P f)) * (ks_k2 P f)) * (ks_dddk2_D0D0D1 P f)) + (((4 * (ks_c P f)) *
  (ks_dk2_D0 P f)) * (ks_ddk2_D0D1 P f))) + (((2 * (ks_c P f)) * (ks_ddk2_D0D0 P f)) * (ks_dk2_D1 P
  f))) + (((ks_k2 P f) ^ 2) * (ks_dddc_D0D0D1 P f))) + (((4 * (ks_k2 P f)) * (ks_dc_D0 P f)) *
  (ks_ddk2_D0D1 P f))) + (((2 * (ks_k2 P f)) * (ks_ddc_D0D0 P f)) * (ks_dk2_D1 P f))) + (((2 * (ks_k2
  P f)) * (ks_dc_D1 P f)) * (ks_ddk2_D0D0 P f))) + (((4 * (ks_k2 P f)) * (ks_dk2_D0 P f)) *
  (ks_ddc_D0D1 P f))) + (((4 * (ks_dc_D0 P f)) * (ks_dk2_D0 P f)) * (ks_dk2_D1 P f))) + ((2 *
  (ks_dc_D1 P f)) * ((ks_dk2_D0 P f) ^ 2)).

(* /repo/Src/Main/Modules/Physics/Free_Data/fd_KerrSchild_g_dg_ddg_dddg.c:2428-2468 *)
Definition ks_dddgamma_D0D1D2D1D1 (P : kspar) (f : ksarg) : R :=
  (((((((((((((((((((ks_c P f) * (ks_k0 P f)) * (ks_dddk1_D1D1D2 P f)) + (((ks_c P f) * (ks_k1 P f))
  * (ks_dddk0_D1D1D2 P f))) + (((2 * (ks_c P f)) * (ks_dk0_D1 P f)) * (ks_ddk1_D1D2 P f))) + (((ks_c
  P f) * (ks_ddk0_D1D1 P f)) * (ks_dk1_D2 P f))) + (((ks_c P f) * (ks_dk0_D2 P f)) * (ks_ddk1_D1D1 P
  f))) + (((2 * (ks_c P f)) * (ks_dk1_D1 P f)) * (ks_ddk0_D1D2 P f))) + (((ks_k0 P f) * (ks_k1 P f))
  * (ks_dddc_D1D1D2 P f))) + (((2 * (ks_k0 P f)) * (ks_dc_D1 P f)) * (ks_ddk1_D1D2 P f))) + (((ks_k0
  P f) * (ks_ddc_D1D1 P f)) * (ks_dk1_D2 P f))) + (((ks_k0 P f) * (ks_dc_D2 P f)) * (ks_ddk1_D1D1 P
  f))) + (((2 * (ks_k0 P f)) * (ks_dk1_D1 P f)) * (ks_ddc_D1D2 P f))) + (((2 * (ks_k1 P f)) *
  (ks_dc_D1 P f)) * (ks_ddk0_D1D2 P f))) + (((ks_k1 P f) * (ks_ddc_D1D1 P f)) * (ks_dk0_D2 P f))) +
  (((ks_k1 P f) * (ks_dc_D2 P f)) * (ks_ddk0_D1D1 P f))) + (((2 * (ks_k1 P f)) * (ks_dk0_D1 P f)) *
  (ks_ddc_D1D2 P f))) + (((2 * (ks_dc_D1 P f)) * (ks_dk0_D1 P f)) * (ks_dk1_D2 P f))) + (((2 *
  (ks_dc_D1 P f)) * (ks_dk0_D2 P f)) * (ks_dk1_D1 P f))) + (((2 * (ks_dc_D2 P f)) * (ks_dk0_D1 P f))
  * (ks_dk1_D1 P f)).

(* /repo/Src/Main/Modules/Physics/Free_Data/fd_KerrSchild_g_dg_ddg_dddg.c:2470-2486 *)
Definition ks_dddgamma_D1D1D2D2D2 (P : kspar) (f : ksarg) : R :=
  (((((((2 * (ks_c P f)) * (ks_k1 P f)) * (ks_dddk1_D2D2D2 P f)) + (((6 * (ks_c P f)) * (ks_dk1_D2 P
  f)) * (ks_ddk1_D2D2 P f))) + (((ks_k1 P f) ^ 2) * (ks_dddc_D2D2D2 P f))) + (((6 * (ks_k1 P f)) *
  (ks_dc_D2 P f)) * (ks_ddk1_D2D2 P f))) + (((6 * (ks_k1 P f)) * (ks_ddc_D2D2 P f)) * (ks_dk1_D2 P
  f))) + ((6 * (ks_dc_D2 P f)) * ((ks_dk1_D2 P f) ^ 2)).

(* /repo/Src/Main/Modules/Physics/Free_Data/fd_KerrSchild_g_dg_ddg_dddg.c:2488-2528 *)
Definition ks_dddgamma_D1D2D1D0D1 (P : kspar) (f : ksarg) : R :=
  (((((((((((((((((((ks_c P f) * (ks_k1 P f)) * (ks_dddk2_D0D1D1 P f)) + (((ks_c P f) * (ks_k2 P f))
  * (ks_dddk1_D0D1D1 P f))) + (((ks_c P f) * (ks_dk1_D0 P f)) * (ks_ddk2_D1D1 P f))) + (((2 * (ks_c P
  f)) * (ks_dk1_D1 P f)) * (ks_ddk2_D0D1 P f))) + (((ks_c P f) * (ks_ddk1_D1D1 P f)) * (ks_dk2_D0 P
  f))) + (((2 * (ks_c P f)) * (ks_dk2_D1 P f)) * (ks_ddk1_D0D1 P f))) + (((ks_k1 P f) * (ks_k2 P f))
  * (ks_dddc_D0D1D1 P f))) + (((ks_k1 P f) * (ks_dc_D0 P f)) * (ks_ddk2_D1D1 P f))) + (((2 * (ks_k1 P
  f)) * (ks_dc_D1 P f)) * (ks_ddk2_D0D1 P f))) + (((ks_k1 P f) * (ks_ddc_D1D1 P f)) * (ks_dk2_D0 P
  f))) + (((2 * (ks_k1 P f)) * (ks_dk2_D1 P f)) * (ks_ddc_D0D1 P f))) + (((ks_k2 P f) * (ks_dc_D0 P
  f)) * (ks_ddk1_D1D1 P f))) + (((2 * (ks_k2 P f)) * (ks_dc_D1 P f)) * (ks_ddk1_D0D1 P f))) +
  (((ks_k2 P f) * (ks_ddc_D1D1 P f)) * (ks_dk1_D0 P f))) + (((2 * (ks_k2 P f)) * (ks_dk1_D1 P f)) *
  (ks_ddc_D0D1 P f))) + (((2 * (ks_dc_D0 P f)) * (ks_dk1_D1 P f)) * (ks_dk2_D1 P f))) + (((2 *
  (ks_dc_D1 P f)) * (ks_dk1_D0 P f)) * (ks_dk2_D1 P f))) + (((2 * (ks_dc_D1 P f)) * (ks_dk1_D1 P f))
  * (ks_dk2_D0 P f)).

(* /repo/Src/Main/Modules/Physics/Free_Data/fd_KerrSchild_g_dg_ddg_dddg.c:2530-2570 *)
Definition ks_dddgamma_D0D1D1D1D0 (P : kspar) (f : ksarg) : R :=
  (((((((((((((((((((ks_c P f) * (ks_k0 P f)) * (ks_dddk1_D0D1D1 P f)) + (((ks_c P f) * (ks_k1 P f))
  * (ks_dddk0_D0D1D1 P f))) + (((ks_c P f) * (ks_dk0_D0 P f)) * (ks_ddk1_D1D1 P f))) + (((2 * (ks_c P
  f)) * (ks_dk0_D1 P f)) * (ks_ddk1_D0D1 P f))) + (((ks_c P f) * (ks_ddk0_D1D1 P f)) * (ks_dk1_D0 P
  f))) + (((2 * (ks_c P f)) * (ks_dk1_D1 P f)) * (ks_ddk0_D0D1 P f))) + (((ks_k0 P f) * (ks_k1 P f))
  * (ks_dddc_D0D1D1 P f))) + (((ks_k0 P f) * (ks_dc_D0 P f)) * (ks_ddk1_D1D1 P f))) + (((2 * (ks_k0 P
  f)) * (ks_dc_D1 P f)) * (ks_ddk1_D0D1 P f))) + (((ks_k0 P f) * (ks_ddc_D1D1 P f)) * (ks_dk1_D0 P
  f))) + (((2 * (ks_k0 P f)) * (ks_dk1_D1 P f)) * (ks_ddc_D0D1 P f))) + (((ks_k1 P f) * (ks_dc_D0 P
  f)) * (ks_ddk0_D1D1 P f))) + (((2 * (ks_k1 P f)) * (ks_dc_D1 P f)) * (ks_ddk0_D0D1 P f))) +
  (((ks_k1 P f) * (ks_ddc_D1D1 P f)) * (ks_dk0_D0 P f))) + (((2 * (ks_k1 P f)) * (ks_dk0_D1 P f)) *
  (ks_ddc_D0D1 P f))) + (((2 * (ks_dc_D0 P f)) * (ks_dk0_D1 P f)) * (ks_dk1_D1 P f))) + (((2 *
  (ks_dc_D1 P f)) * (ks_dk0_D0 P f)) * (ks_dk1_D1 P f))) + (((2 * (ks_dc_D1 P f)) * (ks_dk0_D1 P f))
  * (ks_dk1_D0 P f)).

(* /repo/Src/Main/Modules/Physics/Free_Data/fd_KerrSchild_g_dg_ddg_dddg.c:2572-2606 *)
Definition ks_dddgamma_D2D2D2D0D1 (P : kspar) (f : ksarg) : R :=
  (((((((((((((((2 * (ks_c P f)) * (ks_k2 P f)) * (ks_dddk2_D0D1D2 P f)) + (((2 * (ks_c P f)) *
  (ks_dk2_D0 P f)) * (ks_ddk2_D1D2 P f))) + (((2 * (ks_c P f)) * (ks_dk2_D1 P f)) * (ks_ddk2_D0D2 P
  f))) + (((2 * (ks_c P f)) * (ks_dk2_D2 P f)) * (ks_ddk2_D0D1 P f))) + (((ks_k2 P f) ^ 2) *
  (ks_dddc_D0D1D2 P f))) + (((2 * (ks_k2 P f)) * (ks_dc_D0 P f)) * (ks_ddk2_D1D2 P f))) + (((2 *
  (ks_k2 P f)) * (ks_dc_D1 P f)) * (ks_ddk2_D0D2 P f))) + (((2 * (ks_k2 P f)) * (ks_dc_D2 P f)) *
  (ks_ddk2_D0D1 P f))) + (((2 * (ks_k2 P f)) * (ks_dk2_D0 P f)) * (ks_ddc_D1D2 P f))) + (((2 * (ks_k2
  P f)) * (ks_dk2_D1 P f)) * (ks_ddc_D0D2 P f))) + (((2 * (ks_k2 P f)) * (ks_dk2_D2 P f)) *
  (ks_ddc_D0D1 P f))) + (((2 * (ks_dc_D0 P f)) * (ks_dk2_D1 P f)) * (ks_dk2_D2 P f))) + (((2 *
  (ks_dc_D1 P f)) * (ks_dk2_D0 P f)) * (ks_dk2_D2 P f))) + (((2 * (ks_dc_D2 P f)) * (ks_dk2_D0 P f))
  * (ks_dk2_D1 P f)).

(* /repo/Src/Main/Modules/Physics/Free_Data/fd_KerrSchild_g_dg_ddg_dddg.c:2608-2633 *)
Definition ks_dddgamma_D1D2D2D2D2 (P : kspar) (f : ksarg) : R :=
  (((((((((((ks_c P f) * (ks_k1 P f)) * (ks_dddk2_D2D2D2 P f)) + (((ks_c P f) * (ks_k2 P f)) *
  (ks_dddk1_D2D2D2 P f))) + (((3 * (ks_c P f)) * (ks_dk1_D2 P f)) * (ks_ddk2_D2D2 P f))) + (((3 *
  (ks_c P f)) * (ks_ddk1_D2D2 P f)) * (ks_dk2_D2 P f))) + (((ks_k1 P f) * (ks_k2 P f)) *
  (ks_dddc_D2D2D2 P f))) + (((3 * (ks_k1 P f)) * (ks_dc_D2 P f)) * (ks_ddk2_D2D2 P f))) + (((3 *
  (ks_k1 P f)) * (ks_ddc_D2D2 P f)) * (ks_dk2_D2 P f))) + (((3 * (ks_k2 P f)) * (ks_dc_D2 P f)) *
  (ks_ddk1_D2D2 P f))) + (((3 * (ks_k2 P f)) * (ks_ddc_D2D2 P f)) * (ks_dk1_D2 P f))) + (((6 *
  (ks_dc_D2 P f)) * (ks_dk1_D2 P f)) * (ks_dk2_D2 P f)).

(* /repo/Src/Main/Modules/Physics/Free_Data/fd_KerrSchild_g_dg_ddg_dddg.c:2635-2675 *)
Definition ks_dddgamma_D1D2D1D2D1 (P : kspar) (f : ksarg) : R :=
  (((((((((((((((((((ks_c P f) * (ks_k1 P f)) * (ks_dddk2_D1D1D2 P f)) + (((ks_c P f) * (ks_k2 P f))
  * (ks_dddk1_D1D1D2 P f))) + (((2 * (ks_c P f)) * (ks_dk1_D1 P f)) * (ks_ddk2_D1D2 P f))) + (((ks_c
  P f) * (ks_ddk1_D1D1 P f)) * (ks_dk2_D2 P f))) + (((ks_c P f) * (ks_dk1_D2 P f)) * (ks_ddk2_D1D1 P
  f))) + (((2 * (ks_c P f)) * (ks_dk2_D1 P f)) * (ks_ddk1_D1D2 P f))) + (((ks_k1 P f) * (ks_k2 P f))
  * (ks_dddc_D1D1D2 P f))) + (((2 * (ks_k1 P f)) * (ks_dc_D1 P f)) * (ks_ddk2_D1D2 P f))) + (((ks_k1
  P f) * (ks_ddc_D1D1 P f)) * (ks_dk2_D2 P f))) + (((ks_k1 P f) * (ks_dc_D2 P f)) * (ks_ddk2_D1D1 P
  f))) + (((2 * (ks_k1 P f)) * (ks_dk2_D1 P f)) * (ks_ddc_D1D2 P f))) + (((2 * (ks_k2 P f)) *
  (ks_dc_D1 P f)) * (ks_ddk1_D1D2 P f))) + (((ks_k2 P f) * (ks_ddc_D1D1 P f)) * (ks_dk1_D2 P f))) +
  (((ks_k2 P f) * (ks_dc_D2 P f)) * (ks_ddk1_D1D1 P f))) + (((2 * (ks_k2 P f)) * (ks_dk1_D1 P f)) *
  (ks_ddc_D1D2 P f))) + (((2 * (ks_dc_D1 P f)) * (ks_dk1_D1 P f)) * (ks_dk2_D2 P f))) + (((2 *
  (ks_dc_D1 P f)) * (ks_dk1_D2 P f)) * (ks_dk2_D1 P f))) + (((2 * (ks_dc_D2 P f)) * (ks_dk1_D1 P f))
  * (ks_dk2_D1 P f)).

(* /repo/Src/Main/Modules/Physics/Free_Data/fd_KerrSchild_g_dg_ddg_dddg.c:2677-2711 *)
Definition ks_dddgamma_D2D2D0D2D1 (P : kspar) (f : ksarg) : R :=
  (((((((((((((((2 * (ks_c P f)) * (ks_k2 P f)) * (ks_dddk2_D0D1D2 P f)) + (((2 * (ks_c P f)) *
  (ks_dk2_D0 P f)) * (ks_ddk2_D1D2 P f))) + (((2 * (ks_c P f)) * (ks_dk2_D1 P f)) * (ks_ddk2_D0D2 P
  f))) + (((2 * (ks_c P f)) * (ks_dk2_D2 P f)) * (ks_ddk2_D0D1 P f))) + (((ks_k2 P f) ^ 2) *
  (ks_dddc_D0D1D2 P f))) + (((2 * (ks_k2 P f)) * (ks_dc_D0 P f)) * (ks_ddk2_D1D2 P f))) + (((2 *
  (ks_k2 P f)) * (ks_dc_D1 P f)) * (ks_ddk2_D0D2 P f))) + (((2 * (ks_k2 P f)) * (ks_dc_D2 P f)) *
  (ks_ddk2_D0D1 P f))) + (((2 * (ks_k2 P f)) * (ks_dk2_D0 P f)) * (ks_ddc_D1D2 P f))) + (((2 * (ks_k2
  P f)) * (ks_dk2_D1 P f)) * (ks_ddc_D0D2 P f))) + (((2 * (ks_k2 P f)) * (ks_dk2_D2 P f)) *
  (ks_ddc_D0D1 P f))) + (((2 * (ks_dc_D0 P f)) * (ks_dk2_D1 P f)) * (ks_dk2_D2 P f))) + (((2 *
  (ks_dc_D1 P f)) * (ks_dk2_D0 P f)) * (ks_dk2_D2 P f))) + (((2 * (ks_dc_D2 P f)) * (ks_dk2_D0 P f))
  * (ks_dk2_D1 P f)).

(* /repo/Src/Main/Modules/Physics/Free_Data/fd_KerrSchild_g_dg_ddg_dddg.c:2713-2738 *)
Definition ks_dddgamma_D1D1D2D1D2 (P : kspar) (f : ksarg) : R :=
  (((((((((((2 * (ks_c P f)) * (ks_k1 P f)) * (ks_dddk1_D1D2D2 P f)) + (((2 * (ks_c P f)) *
  (ks_dk1_D1 P f)) * (ks_ddk1_D2D2 P f))) + (((4 * (ks_c P f)) * (ks_dk1_D2 P f)) * (ks_ddk1_D1D2 P
  f))) + (((ks_k1 P f) ^ 2) * (ks_dddc_D1D2D2 P f))) + (((2 * (ks_k1 P f)) * (ks_dc_D1 P f)) *
  (ks_ddk1_D2D2 P f))) + (((4 * (ks_k1 P f)) * (ks_dc_D2 P f)) * (ks_ddk1_D1D2 P f))) + (((2 * (ks_k1
  P f)) * (ks_ddc_D2D2 P f)) * (ks_dk1_D1 P f))) + (((4 * (ks_k1 P f)) * (ks_dk1_D2 P f)) *
  (ks_ddc_D1D2 P f))) + ((2 * (ks_dc_D1 P f)) * ((ks_dk1_D2 P f) ^ 2))) + (((4 * (ks_dc_D2 P f)) *
  (ks_dk1_D1 P f)) * (ks_dk1_D2 P f)).

(* /repo/Src/Main/Modules/Physics/Free_Data/fd_KerrSchild_g_dg_ddg_dddg.c:2740-2796 *)
Definition ks_dddgamma_D1D2D2D1D0 (P : kspar) (f : ksarg) : R :=
  ((((((((((((((((((((((((((((ks_c P f) * (ks_k1 P f)) * (ks_dddk2_D0D1D2 P f)) + (((ks_c P f) *
  (ks_k2 P f)) * (ks_dddk1_D0D1D2 P f))) + (((ks_c P f) * (ks_dk1_D0 P f)) * (ks_ddk2_D1D2 P f))) +
  (((ks_c P f) * (ks_dk1_D1 P f)) * (ks_ddk2_D0D2 P f))) + (((ks_c P f) * (ks_dk1_D2 P f)) *
  (ks_ddk2_D0D1 P f))) + (((ks_c P f) * (ks_dk2_D0 P f)) * (ks_ddk1_D1D2 P f))) + (((ks_c P f) *
  (ks_dk2_D1 P f)) * (ks_ddk1_D0D2 P f))) + (((ks_c P f) * (ks_dk2_D2 P f)) * (ks_ddk1_D0D1 P f))) +
  (((ks_k1 P f) * (ks_k2 P f)) * (ks_dddc_D0D1D2 P f))) + (((ks_k1 P f) * (ks_dc_D0 P f)) *
  (ks_ddk2_D1D2 P f))) + (((ks_k1 P f) * (ks_dc_D1 P f)) * (ks_ddk2_D0D2 P f))) + (((ks_k1 P f) *
  (ks_dc_D2 P f)) * (ks_ddk2_D0D1 P f))) + (((ks_k1 P f) * (ks_dk2_D0 P f)) * (ks_ddc_D1D2 P f))) +
  (((ks_k1 P f) * (ks_dk2_D1 P f)) * (ks_ddc_D0D2 P f))) + (((ks_k1 P f) * (ks_dk2_D2 P f)) *
  (ks_ddc_D0D1 P f))) + (((ks_k2 P f) * (ks_dc_D0 P f)) * (ks_ddk1_D1D2 P f))) + (((ks_k2 P f) *
  (ks_dc_D1 P f)) * (ks_ddk1_D0D2 P f))) + (((ks_k2 P f) * (ks_dc_D2 P f)) * (ks_ddk1_D0D1 P f))) +
  (((ks_k2 P f) * (ks_dk1_D0 P f)) * (ks_ddc_D1D2 P f))) + (((ks_k2 P f) * (ks_dk1_D1 P f)) *
  (ks_ddc_D0D2 P f))) + (((ks_k2 P f) * (ks_dk1_D2 P f)) * (ks_ddc_D0D1 P f))) + (((ks_dc_D0 P f) *
  (ks_dk1_D1 P f)) * (ks_dk2_D2 P f))) + (((ks_dc_D0 P f) * (ks_dk1_D2 P f)) * (ks_dk2_D1 P f))) +
  (((ks_dc_D1 P f) * (ks_dk1_D0 P f)) * (ks_dk2_D2 P f))) + (((ks_dc_D1 P f) * (ks_dk1_D2 P f)) *
  (ks_dk2_D0 P f))) + (((ks_dc_D2 P f) * (ks_dk1_D0 P f)) * (ks_dk2_D1 P f))) + (((ks_dc_D2 P f) *
  (ks_dk1_D1 P f)) * (ks_dk2_D0 P f)).

(* /repo/Src/Main/Modules/Physics/Free_Data/fd_KerrSchild_g_dg_ddg_dddg.c:2798-2838 *)
Definition ks_dddgamma_D1D2D0D0D1 (P : kspar) (f : ksarg) : R :=
  (((((((((((((((((((ks_c P f) * (ks_k1 P f)) * (ks_dddk2_D0D0D1 P f)) + (((ks_c P f) * (ks_k2 P f))
  * (ks_dddk1_D0D0D1 P f))) + (((2 * (ks_c P f)) * (ks_dk1_D0 P f)) * (ks_ddk2_D0D1 P f))) + (((ks_c
  P f) * (ks_ddk1_D0D0 P f)) * (ks_dk2_D1 P f))) + (((ks_c P f) * (ks_dk1_D1 P f)) * (ks_ddk2_D0D0 P
  f))) + (((2 * (ks_c P f)) * (ks_dk2_D0 P f)) * (ks_ddk1_D0D1 P f))) + (((ks_k1 P f) * (ks_k2 P f))
  * (ks_dddc_D0D0D1 P f))) + (((2 * (ks_k1 P f)) * (ks_dc_D0 P f)) * (ks_ddk2_D0D1 P f))) + (((ks_k1
  P f) * (ks_ddc_D0D0 P f)) * (ks_dk2_D1 P f))) + (((ks_k1 P f) * (ks_dc_D1 P f)) * (ks_ddk2_D0D0 P
  f))) + (((2 * (ks_k1 P f)) * (ks_dk2_D0 P f)) * (ks_ddc_D0D1 P f))) + (((2 * (ks_k2 P f)) *
  (ks_dc_D0 P f)) * (ks_ddk1_D0D1 P f))) + (((ks_k2 P f) * (ks_ddc_D0D0 P f)) * (ks_dk1_D1 P f))) +
  (((ks_k2 P f) * (ks_dc_D1 P f)) * (ks_ddk1_D0D0 P f))) + (((2 * (ks_k2 P f)) * (ks_dk1_D0 P f)) *
  (ks_ddc_D0D1 P f))) + (((2 * (ks_dc_D0 P f)) * (ks_dk1_D0 P f)) * (ks_dk2_D1 P f))) + (((2 *
  (ks_dc_D0 P f)) * (ks_dk1_D1 P f)) * (ks_dk2_D0 P f))) + (((2 * (ks_dc_D1 P f)) * (ks_dk1_D0 P f))
  * (ks_dk2_D0 P f)).

(* /repo/Src/Main/Modules/Physics/Free_Data/fd_KerrSchild_g_dg_ddg_dddg.c:2840-2880 *)
Definition ks_dddgamma_D0D2D0D1D1 (P : kspar) (f : ksarg) : R :=
  (((((((((((((((((((ks_c P f) * (ks_k0 P f)) * (ks_dddk2_D0D1D1 P f)) + (((ks_c P f) * (ks_k2 P f))
  * (ks_dddk0_D0D1D1 P f))) + (((ks_c P f) * (ks_dk0_D0 P f)) * (ks_ddk2_D1D1 P f))) + (((2 * (ks_c P
  f)) * (ks_dk0_D1 P f)) * (ks_ddk2_D0D1 P f))) + (((ks_c P f) * (ks_ddk0_D1D1 P f)) * (ks_dk2_D0 P
  f))) + (((2 * (ks_c P f)) * (ks_dk2_D1 P f)) * (ks_ddk0_D0D1 P f))) + (((ks_k0 P f) * (ks_k2 P f))
  * (ks_dddc_D0D1D1 P f))) + (((ks_k0 P f) * (ks_dc_D0 P f)) * (ks_ddk2_D1D1 P f))) + (((2 * (ks_k0 P
  f)) * (ks_dc_D1 P f)) * (ks_ddk2_D0D1 P f))) + (((ks_k0 P f) * (ks_ddc_D1D1 P f)) * (ks_dk2_D0 P
  f))) + (((2 * (ks_k0 P f)) * (ks_dk2_D1 P f)) * (ks_ddc_D0D1 P f))) + (((ks_k2 P f) * (ks_dc_D0 P
  f)) * (ks_ddk0_D1D1 P f))) + (((2 * (ks_k2 P f)) * (ks_dc_D1 P f)) * (ks_ddk0_D0D1 P f))) +
  (((ks_k2 P f) * (ks_ddc_D1D1 P f)) * (ks_dk0_D0 P f))) + (((2 * (ks_k2 P f)) * (ks_dk0_D1 P f)) *
  (ks_ddc_D0D1 P f))) + (((2 * (ks_dc_D0 P f)) * (ks_dk0_D1 P f)) * (ks_dk2_D1 P f))) + (((2 *
  (ks_dc_D1 P f)) * (ks_dk0_D0 P f)) * (ks_dk2_D1 P f))) + (((2 * (ks_dc_D1 P f)) * (ks_dk0_D1 P f))
  * (ks_dk2_D0 P f)).

(* /repo/Src/Main/Modules/Physics/Free_Data/fd_KerrSchild_g_dg_ddg_dddg.c:2882-2922 *)
Definition ks_dddgamma_D0D2D1D0D1 (P : kspar) (f : ksarg) : R :=
  (((((((((((((((((((ks_c P f) * (ks_k0 P f)) * (ks_dddk2_D0D1D1 P f)) + (((ks_c P f) * (ks_k2 P f))
  * (ks_dddk0_D0D1D1 P f))) + (((ks_c P f) * (ks_dk0_D0 P f)) * (ks_ddk2_D1D1 P f))) + (((2 * (ks_c P
  f)) * (ks_dk0_D1 P f)) * (ks_ddk2_D0D1 P f))) + (((ks_c P f) * (ks_ddk0_D1D1 P f)) * (ks_dk2_D0 P
  f))) + (((2 * (ks_c P f)) * (ks_dk2_D1 P f)) * (ks_ddk0_D0D1 P f))) + (((ks_k0 P f) * (ks_k2 P f))
  * (ks_dddc_D0D1D1 P f))) + (((ks_k0 P f) * (ks_dc_D0 P f)) * (ks_ddk2_D1D1 P f))) + (((2 * (ks_k0 P
  f)) * (ks_dc_D1 P f)) * (ks_ddk2_D0D1 P f))) + (((ks_k0 P f) * (ks_ddc_D1D1 P f)) * (ks_dk2_D0 P
  f))) + (((2 * (ks_k0 P f)) * (ks_dk2_D1 P f)) * (ks_ddc_D0D1 P f))) + (((ks_k2 P f) * (ks_dc_D0 P
  f)) * (ks_ddk0_D1D1 P f))) + (((2 * (ks_k2 P f)) * (ks_dc_D1 P f)) * (ks_ddk0_D0D1 P f))) +
  (((ks_k2 P f) * (ks_ddc_D1D1 P f)) * (ks_dk0_D0 P f))) + (((2 * (ks_k2 P f)) * (ks_dk0_D1 P f)) *
  (ks_ddc_D0D1 P f))) + (((2 * (ks_dc_D0 P f)) * (ks_dk0_D1 P f)) * (ks_dk2_D1 P f))) + (((2 *
  (ks_dc_D1 P f)) * (ks_dk0_D0 P f)) * (ks_dk2_D1 P f))) + (((2 * (ks_dc_D1 P f)) * (ks_dk0_D1 P f))
  * (ks_dk2_D0 P f)).

(* /repo/Src/Main/Modules/Physics/Free_Data/fd_KerrSchild_g_dg_ddg_dddg.c:2924-2958 *)
Definition ks_dddgamma_D0D0D0D1D2 (P : kspar) (f : ksarg) : R :=
  (((((((((((((((2 * (ks_c P f)) * (ks_k0 P f)) * (ks_dddk0_D0D1D2 P f)) + (((2 * (ks_c P f)) *
  (ks_dk0_D0 P f)) * (ks_ddk0_D1D2 P f))) + (((2 * (ks_c P f)) * (ks_dk0_D1 P f)) * (ks_ddk0_D0D2 P
  f))) + (((2 * (ks_c P f)) * (ks_dk0_D2 P f)) * (ks_ddk0_D0D1 P f))) + (((ks_k0 P f) ^ 2) *
  (ks_dddc_D0D1D2 P f))) + (((2 * (ks_k0 P f)) * (ks_dc_D0 P f)) * (ks_ddk0_D1D2 P f))) + (((2 *
  (ks_k0 P f)) * (ks_dc_D1 P f)) * (ks_ddk0_D0D2 P f))) + (((2 * (ks_k0 P f)) * (ks_dc_D2 P f)) *
  (ks_ddk0_D0D1 P f))) + (((2 * (ks_k0 P f)) * (ks_dk0_D0 P f)) * (ks_ddc_D1D2 P f))) + (((2 * (ks_k0
  P f)) * (ks_dk0_D1 P f)) * (ks_ddc_D0D2 P f))) + (((2 * (ks_k0 P f)) * (ks_dk0_D2 P f)) *
  (ks_ddc_D0D1 P f))) + (((2 * (ks_dc_D0 P f)) * (ks_dk0_D1 P f)) * (ks_dk0_D2 P f))) + (((2 *
  (ks_dc_D1 P f)) * (ks_dk0_D0 P f)) * (ks_dk0_D2 P f))) + (((2 * (ks_dc_D2 P f)) * (ks_dk0_D0 P f))
  * (ks_dk0_D1 P f)).

(* /repo/Src/Main/Modules/Physics/Free_Data/fd_KerrSchild_g_dg_ddg_dddg.c:2960-2985 *)
Definition ks_dddgamma_D0D0D2D1D2 (P : kspar) (f : ksarg) : R :=
  (((((((((((2 * (ks_c P f)) * (ks_k0 P f)) * (ks_dddk0_D1D2D2 P f)) + (((2 * (ks_c P f)) *
  (ks_dk0_D1 P f)) * (ks_ddk0_D2D2 P f))) + (((4 * (ks_c P f)) * (ks_dk0_D2 P f)) * (ks_ddk0_D1D2 P
  f))) + (((ks_k0 P f) ^ 2) * (ks_dddc_D1D2D2 P f))) + (((2 * (ks_k0 P f)) * (ks_dc_D1 P f)) *
  (ks_ddk0_D2D2 P f))) + (((4 * (ks_k0 P f)) * (ks_dc_D2 P f)) * (ks_ddk0_D1D2 P f))) + (((2 * (ks_k0
  P f)) * (ks_ddc_D2D2 P f)) * (ks_dk0_D1 P f))) + (((4 * (ks_k0 P f)) * (ks_dk0_D2 P f)) *
  (ks_ddc_D1D2 P f))) + ((2 * (ks_dc_D1 P f)) * ((ks_dk0_D2 P f) ^ 2))) + (((4 * (ks_dc_D2 P f)) *
  (ks_dk0_D1 P f)) * (ks_dk0_D2 P f)).

(* /repo/Src/Main/Modules/Physics/Free_Data/fd_KerrSchild_g_dg_ddg_dddg.c:2987-3027 *)
Definition ks_dddgamma_D0D1D0D1D0 (P : kspar) (f : ksarg) : R :=
  (((((((((((((((((((ks_c P f) * (ks_k0 P f)) * (ks_dddk1_D0D0D1 P f)) + (((ks_c P f) * (ks_k1 P f))
  * (ks_dddk0_D0D0D1 P f))) + (((2 * (ks_c P f)) * (ks_dk0_D0 P f)) * (ks_ddk1_D0D1 P f))) + (((ks_c
  P f) * (ks_ddk0_D0D0 P f)) * (ks_dk1_D1 P f))) + (((ks_c P f) * (ks_dk0_D1 P f)) * (ks_ddk1_D0D0 P
  f))) + (((2 * (ks_c P f)) * (ks_dk1_D0 P f)) * (ks_ddk0_D0D1 P f))) + (((ks_k0 P f) * (ks_k1 P f))
  * (ks_dddc_D0D0D1 P f))) + (((2 * (ks_k0 P f)) * (ks_dc_D0 P f)) * (ks_ddk1_D0D1 P f))) + (((ks_k0
  P f) * (ks_ddc_D0D0 P f)) * (ks_dk1_D1 P f))) + (((ks_k0 P f) * (ks_dc_D1 P f)) * (ks_ddk1_D0D0 P
  f))) + (((2 * (ks_k0 P f)) * (ks_dk1_D0 P f)) * (ks_ddc_D0D1 P f))) + (((2 * (ks_k1 P f)) *
  (ks_dc_D0 P f)) * (ks_ddk0_D0D1 P f))) + (((ks_k1 P f) * (ks_ddc_D0D0 P f)) * (ks_dk0_D1 P f))) +
  (((ks_k1 P f) * (ks_dc_D1 P f)) * (ks_ddk0_D0D0 P f))) + (((2 * (ks_k1 P f)) * (ks_dk0_D0 P f)) *
  (ks_ddc_D0D1 P f))) + (((2 * (ks_dc_D0 P f)) * (ks_dk0_D0 P f)) * (ks_dk1_D1 P f))) + (((2 *
  (ks_dc_D0 P f)) * (ks_dk0_D1 P f)) * (ks_dk1_D0 P f))) + (((2 * (ks_dc_D1 P f)) * (ks_dk0_D0 P f))
  * (ks_dk1_D0 P f)).

(* /repo/Src/Main/Modules/Physics/Free_Data/fd_KerrSchild_g_dg_ddg_dddg.c:3029-3069 *)
Definition ks_dddgamma_D1D2D1D0D0 (P : kspar) (f : ksarg) : R :=
  (((((((((((((((((((ks_c P f) * (ks_k1 P f)) * (ks_dddk2_D0D0D1 P f)) + (((ks_c P f) * (ks_k2 P f))
  * (ks_dddk1_D0D0D1 P f))) + (((2 * (ks_c P f)) * (ks_dk1_D0 P f)) * (ks_ddk2_D0D1 P f))) + (((ks_c
  P f) * (ks_ddk1_D0D0 P f)) * (ks_dk2_D1 P f))) + (((ks_c P f) * (ks_dk1_D1 P f)) * (ks_ddk2_D0D0 P
  f))) + (((2 * (ks_c P f)) * (ks_dk2_D0 P f)) * (ks_ddk1_D0D1 P f))) + (((ks_k1 P f) * (ks_k2 P f))
  * (ks_dddc_D0D0D1 P f))) + (((2 * (ks_k1 P f)) * (ks_dc_D0 P f)) * (ks_ddk2_D0D1 P f))) + (((ks_k1
  P f) * (ks_ddc_D0D0 P f)) * (ks_dk2_D1 P f))) + (((ks_k1 P f) * (ks_dc_D1 P f)) * (ks_ddk2_D0D0 P
  f))) + (((2 * (ks_k1 P f)) * (ks_dk2_D0 P f)) * (ks_ddc_D0D1 P f))) + (((2 * (ks_k2 P f)) *
  (ks_dc_D0 P f)) * (ks_ddk1_D0D1 P f))) + (((ks_k2 P f) * (ks_ddc_D0D0 P f)) * (ks_dk1_D1 P f))) +
  (((ks_k2 P f) * (ks_dc_D1 P f)) * (ks_ddk1_D0D0 P f))) + (((2 * (ks_k2 P f)) * (ks_dk1_D0 P f)) *
  (ks_ddc_D0D1 P f))) + (((2 * (ks_dc_D0 P f)) * (ks_dk1_D0 P f)) * (ks_dk2_D1 P f))) + (((2 *
  (ks_dc_D0 P f)) * (ks_dk1_D1 P f)) * (ks_dk2_D0 P f))) + (((2 * (ks_dc_D1 P f)) * (ks_dk1_D0 P f))
  * (ks_dk2_D0 P f)).

(* /repo/Src/Main/Modules/Physics/Free_Data/fd_KerrSchild_g_dg_ddg_dddg.c:3071-3111 *)
Definition ks_dddgamma_D0D2D1D0D0 (P : kspar) (f : ksarg) : R :=
  (((((((((((((((((((ks_c P f) * (ks_k0 P f)) * (ks_dddk2_D0D0D1 P f)) + (((ks_c P f) * (ks_k2 P f))
  * (ks_dddk0_D0D0D1 P f))) + (((2 * (ks_c P f)) * (ks_dk0_D0 P f)) * (ks_ddk2_D0D1 P f))) + (((ks_c
  P f) * (ks_ddk0_D0D0 P f)) * (ks_dk2_D1 P f))) + (((ks_c P f) * (ks_dk0_D1 P f)) * (ks_ddk2_D0D0 P
  f))) + (((2 * (ks_c P f)) * (ks_dk2_D0 P f)) * (ks_ddk0_D0D1 P f))) + (((ks_k0 P f) * (ks_k2 P f))
  * (ks_dddc_D0D0D1 P f))) + (((2 * (ks_k0 P f)) * (ks_dc_D0 P f)) * (ks_ddk2_D0D1 P f))) + (((ks_k0
  P f) * (ks_ddc_D0D0 P f)) * (ks_dk2_D1 P f))) + (((ks_k0 P f) * (ks_dc_D1 P f)) * (ks_ddk2_D0D0 P
  f))) + (((2 * (ks_k0 P f)) * (ks_dk2_D0 P f)) * (ks_ddc_D0D1 P f))) + (((2 * (ks_k2 P f)) *
  (ks_dc_D0 P f)) * (ks_ddk0_D0D1 P f))) + (((ks_k2 P f) * (ks_ddc_D0D0 P f)) * (ks_dk0_D1 P f))) +
  (((ks_k2 P f) * (ks_dc_D1 P f)) * (ks_ddk0_D0D0 P f))) + (((2 * (ks_k2 P f)) * (ks_dk0_D0 P f)) *
  (ks_ddc_D0D1 P f))) + (((2 * (ks_dc_D0 P f)) * (ks_dk0_D0 P f)) * (ks_dk2_D1 P f))) + (((2 *
  (ks_dc_D0 P f)) * (ks_dk0_D1 P f)) * (ks_dk2_D0 P f))) + (((2 * (ks_dc_D1 P f)) * (ks_dk0_D0 P f))
  * (ks_dk2_D0 P f)).

(* /repo/Src/Main/Modules/Physics/Free_Data/fd_KerrSchild_g_dg_ddg_dddg.c:3113-3153 *)
Definition ks_dddgamma_D1D2D0D1D1 (P : kspar) (f : ksarg) : R :=
  (((((((((((((((((((ks_c P f) * (ks_k1 P f)) * (ks_dddk2_D0D1D1 P f)) + (((ks_c P f) * (ks_k2 P f))
  * (ks_dddk1_D0D1D1 P f))) + (((ks_c P f) * (ks_dk1_D0 P f)) * (ks_ddk2_D1D1 P f))) + (((2 * (ks_c P
  f)) * (ks_dk1_D1 P f)) * (ks_ddk2_D0D1 P f))) + (((ks_c P f) * (ks_ddk1_D1D1 P f)) * (ks_dk2_D0 P
  f))) + (((2 * (ks_c P f)) * (ks_dk2_D1 P f)) * (ks_ddk1_D0D1 P f))) + (((ks_k1 P f) * (ks_k2 P f))
  * (ks_dddc_D0D1D1 P f))) + (((ks_k1 P f) * (ks_dc_D0 P f)) * (ks_ddk2_D1D1 P f))) + (((2 * (ks_k1 P
  f)) * (ks_dc_D1 P f)) * (ks_ddk2_D0D1 P f))) + (((ks_k1 P f) * (ks_ddc_D1D1 P f)) * (ks_dk2_D0 P
  f))) + (((2 * (ks_k1 P f)) * (ks_dk2_D1 P f)) * (ks_ddc_D0D1 P f))) + (((ks_k2 P f) * (ks_dc_D0 P
  f)) * (ks_ddk1_D1D1 P f))) + (((2 * (ks_k2 P f)) * (ks_dc_D1 P f)) * (ks_ddk1_D0D1 P f))) +
  (((ks_k2 P f) * (ks_ddc_D1D1 P f)) * (ks_dk1_D0 P f))) + (((2 * (ks_k2 P f)) * (ks_dk1_D1 P f)) *
  (ks_ddc_D0D1 P f))) + (((2 * (ks_dc_D0 P f)) * (ks_dk1_D1 P f)) * (ks_dk2_D1 P f))) + (((2 *
  (ks_dc_D1 P f)) * (ks_dk1_D0 P f)) * (ks_dk2_D1 P f))) + (((2 * (ks_dc_D1 P f)) * (ks_dk1_D1 P f))
  * (ks_dk2_D0 P f)).

(* /repo/Src/Main/Modules/Physics/Free_Data/fd_KerrSchild_g_dg_ddg_dddg.c:3155-3195 *)
Definition ks_dddgamma_D0D1D2D0D2 (P : kspar) (f : ksarg) : R :=
  (((((((((((((((((((ks_c P f) * (ks_k0 P f)) * (ks_dddk1_D0D2D2 P f)) + (((ks_c P f) * (ks_k1 P f))
  * (ks_dddk0_D0D2D2 P f))) + (((ks_c P f) * (ks_dk0_D0 P f)) * (ks_ddk1_D2D2 P f))) + (((2 * (ks_c P
  f)) * (ks_dk0_D2 P f)) * (ks_ddk1_D0D2 P f))) + (((ks_c P f) * (ks_ddk0_D2D2 P f)) * (ks_dk1_D0 P
  f))) + (((2 * (ks_c P f)) * (ks_dk1_D2 P f)) * (ks_ddk0_D0D2 P f))) + (((ks_k0 P f) * (ks_k1 P f))
  * (ks_dddc_D0D2D2 P f))) + (((ks_k0 P f) * (ks_dc_D0 P f)) * (ks_ddk1_D2D2 P f))) + (((2 * (ks_k0 P
  f)) * (ks_dc_D2 P f)) * (ks_ddk1_D0D2 P f))) + (((ks_k0 P f) * (ks_ddc_D2D2 P f)) * (ks_dk1_D0 P
  f))) + (((2 * (ks_k0 P f)) * (ks_dk1_D2 P f)) * (ks_ddc_D0D2 P f))) + (((ks_k1 P f) * (ks_dc_D0 P
  f)) * (ks_ddk0_D2D2 P f))) + (((2 * (ks_k1 P f)) * (ks_dc_D2 P f)) * (ks_ddk0_D0D2 P f))) +
  (((ks_k1 P f) * (ks_ddc_D2D2 P f)) * (ks_dk0_D0 P f))) + (((2 * (ks_k1 P f)) * (ks_dk0_D2 P f)) *
  (ks_ddc_D0D2 P f))) + (((2 * (ks_dc_D0 P f)) * (ks_dk0_D2 P f)) * (ks_dk1_D2 P f))) + (((2 *
  (ks_dc_D2 P f)) * (ks_dk0_D0 P f)) * (ks_dk1_D2 P f))) + (((2 * (ks_dc_D2 P f)) * (ks_dk0_D2 P f))
  * (ks_dk1_D0 P f)).

(* /repo/Src/Main/Modules/Physics/Free_Data/fd_KerrSchild_g_dg_ddg_dddg.c:3197-3222 *)
Definition ks_dddgamma_D1D1D2D0D0 (P : kspar) (f : ksarg) : R :=
  (((((((((((2 * (ks_c P f)) * (ks_k1 P f)) * (ks_dddk1_D0D0D2 P f)) + (((4 * (ks_c P f)) *
  (ks_dk1_D0 P f)) * (ks_ddk1_D0D2 P f))) + (((2 * (ks_c P f)) * (ks_ddk1_D0D0 P f)) * (ks_dk1_D2 P
  f))) + (((ks_k1 P f) ^ 2) * (ks_dddc_D0D0D2 P f))) + (((4 * (ks_k1 P f)) * (ks_dc_D0 P f)) *
  (ks_ddk1_D0D2 P f))) + (((2 * (ks_k1 P f)) * (ks_ddc_D0D0 P f)) * (ks_dk1_D2 P f))) + (((2 * (ks_k1
  P f)) * (ks_dc_D2 P f)) * (ks_ddk1_D0D0 P f))) + (((4 * (ks_k1 P f)) * (ks_dk1_D0 P f)) *
  (ks_ddc_D0D2 P f))) + (((4 * (ks_dc_D0 P f)) * (ks_dk1_D0 P f)) * (ks_dk1_D2 P f))) + ((2 *
  (ks_dc_D2 P f)) * ((ks_dk1_D0 P f) ^ 2)).

(* /repo/Src/Main/Modules/Physics/Free_Data/fd_KerrSchild_g_dg_ddg_dddg.c:3224-3249 *)
Definition ks_dddgamma_D0D1D2D2D2 (P : kspar) (f : ksarg) : R :=
  (((((((((((ks_c P f) * (ks_k0 P f)) * (ks_dddk1_D2D2D2 P f)) + (((ks_c P f) * (ks_k1 P f)) *
  (ks_dddk0_D2D2D2 P f))) + (((3 * (ks_c P f)) * (ks_dk0_D2 P f)) * (ks_ddk1_D2D2 P f))) + (((3 *
  (ks_c P f)) * (ks_ddk0_D2D2 P f)) * (ks_dk1_D2 P f))) + (((ks_k0 P f) * (ks_k1 P f)) *
  (ks_dddc_D2D2D2 P f))) + (((3 * (ks_k0 P f)) * (ks_dc_D2 P f)) * (ks_ddk1_D2D2 P f))) + (((3 *
  (ks_k0 P f)) * (ks_ddc_D2D2 P f)) * (ks_dk1_D2 P f))) + (((3 * (ks_k1 P f)) * (ks_dc_D2 P f)) *
  (ks_ddk0_D2D2 P f))) + (((3 * (ks_k1 P f)) * (ks_ddc_D2D2 P f)) * (ks_dk0_D2 P f))) + (((6 *
  (ks_dc_D2 P f)) * (ks_dk0_D2 P f)) * (ks_dk1_D2 P f)).

(* /repo/Src/Main/Modules/Physics/Free_Data/fd_KerrSchild_g_dg_ddg_dddg.c:3251-3276 *)
Definition ks_dddgamma_D0D0D2D0D2 (P : kspar) (f : ksarg) : R :=
  (((((((((((2 * (ks_c P f)) * (ks_k0 P f)) * (ks_dddk0_D0D2D2 P f)) + (((2 * (ks_c P f)) *
  (ks_dk0_D0 P f)) * (ks_ddk0_D2D2 P f))) + (((4 * (ks_c P f)) * (ks_dk0_D2 P f)) * (ks_ddk0_D0D2 P
  f))) + (((ks_k0 P f) ^ 2) * (ks_dddc_D0D2D2 P f))) + (((2 * (ks_k0 P f)) * (ks_dc_D0 P f)) *
  (ks_ddk0_D2D2 P f))) + (((4 * (ks_k0 P f)) * (ks_dc_D2 P f)) * (ks_ddk0_D0D2 P f))) + (((2 * (ks_k0
  P f)) * (ks_ddc_D2D2 P f)) * (ks_dk0_D0 P f))) + (((4 * (ks_k0 P f)) * (ks_dk0_D2 P f)) *
  (ks_ddc_D0D2 P f))) + ((2 * (ks_dc_D0 P f)) * ((ks_dk0_D2 P f) ^ 2))) + (((4 * (ks_dc_D2 P f)) *
  (ks_dk0_D0 P f)) * (ks_dk0_D2 P f)).

(* /repo/Src/Main/Modules/Physics/Free_Data/fd_KerrSchild_g_dg_ddg_dddg.c:3278-3303 *)
Definition ks_dddgamma_D0D0D0D0D2 (P : kspar) (f : ksarg) : R :=
  (((((((((((2 * (ks_c P f)) * (ks_k0 P f)) * (ks_dddk0_D0D0D2 P f)) + (((4 * (ks_c P f)) *
  (ks_dk0_D0 P f)) * (ks_ddk0_D0D2 P f))) + (((2 * (ks_c P f)) * (ks_ddk0_D0D0 P f)) * (ks_dk0_D2 P
  f))) + (((ks_k0 P f) ^ 2) * (ks_dddc_D0D0D2 P f))) + (((4 * (ks_k0 P f)) * (ks_dc_D0 P f)) *
  (ks_ddk0_D0D2 P f))) + (((2 * (ks_k0 P f)) * (ks_ddc_D0D0 P f)) * (ks_dk0_D2 P f))) + (((2 * (ks_k0
  P f)) * (ks_dc_D2 P f)) * (ks_ddk0_D0D0 P f))) + (((4 * (ks_k0 P f)) * (ks_dk0_D0 P f)) *
  (ks_ddc_D0D2 P f))) + (((4 * (ks_dc_D0 P f)) * (ks_dk0_D0 P f)) * (ks_dk0_D2 P f))) + ((2 *
  (ks_dc_D2 P f)) * ((ks_dk0_D0 P f) ^ 2)).

(* /repo/Src/Main/Modules/Physics/Free_Data/fd_KerrSchild_g_dg_ddg_dddg.c:3305-3330 *)
Definition ks_dddgamma_D1D1D0D1D1 (P : kspar) (f : ksarg) : R :=
  (((((((((((2 * (ks_c P f)) * (ks_k1 P f)) * (ks_dddk1_D0D1D1 P f)) + (((2 * (ks_c P f)) *
  (ks_dk1_D0 P f)) * (ks_ddk1_D1D1 P f))) + (((4 * (ks_c P f)) * (ks_dk1_D1 P f)) * (ks_ddk1_D0D1 P
  f))) + (((ks_k1 P f) ^ 2) * (ks_dddc_D0D1D1 P f))) + (((2 * (ks_k1 P f)) * (ks_dc_D0 P f)) *
  (ks_ddk1_D1D1 P f))) + (((4 * (ks_k1 P f)) * (ks_dc_D1 P f)) * (ks_ddk1_D0D1 P f))) + (((2 * (ks_k1
  P f)) * (ks_ddc_D1D1 P f)) * (ks_dk1_D0 P f))) + (((4 * (ks_k1 P f)) * (ks_dk1_D1 P f)) *
  (ks_ddc_D0D1 P f))) + ((2 * (ks_dc_D0 P f)) * ((ks_dk1_D1 P f) ^ 2))) + (((4 * (ks_dc_D1 P f)) *
  (ks_dk1_D0 P f)) * (ks_dk1_D1 P f)).

(* /repo/Src/Main/Modules/Physics/Free_Data/fd_KerrSchild_g_dg_ddg_dddg.c:3332-3357 *)
Definition ks_dddgamma_D2D2D0D0D1 (P : kspar) (f : ksarg) : R :=
  (((((((((((2 * (ks_c P f)) * (ks_k2 P f)) * (ks_dddk2_D0D0D1 P f)) + (((4 * (ks_c P f)) *
  (ks_dk2_D0 P f)) * (ks_ddk2_D0D1 P f))) + (((2 * (ks_c P f)) * (ks_ddk2_D0D0 P f)) * (ks_dk2_D1 P
  f))) + (((ks_k2 P f) ^ 2) * (ks_dddc_D0D0D1 P f))) + (((4 * (ks_k2 P f)) * (ks_dc_D0 P f)) *
  (ks_ddk2_D0D1 P f))) + (((2 * (ks_k2 P f)) * (ks_ddc_D0D0 P f)) * (ks_dk2_D1 P f))) + (((2 * (ks_k2
  P f)) * (ks_dc_D1 P f)) * (ks_ddk2_D0D0 P f))) + (((4 * (ks_k2 P f)) * (ks_dk2_D0 P f)) *
  (ks_ddc_D0D1 P f))) + (((4 * (ks_dc_D0 P f)) * (ks_dk2_D0 P f)) * (ks_dk2_D1 P f))) + ((2 *
  (ks_dc_D1 P f)) * ((ks_dk2_D0 P f) ^ 2)).

(* /repo/Src/Main/Modules/Physics/Free_Data/fd_KerrSchild_g_dg_ddg_dddg.c:3359-3384 *)
Definition ks_dddgamma_D0D0D1D2D2 (P : kspar) (f : ksarg) : R :=
  (((((((((((2 * (ks_c P f)) * (ks_k0 P f)) * (ks_dddk0_D1D2D2 P f)) + (((2 * (ks_c P f)) *
  (ks_dk0_D1 P f)) * (ks_ddk0_D2D2 P f))) + (((4 * (ks_c P f)) * (ks_dk0_D2 P f)) * (ks_ddk0_D1D2 P
  f))) + (((ks_k0 P f) ^ 2) * (ks_dddc_D1D2D2 P f))) + (((2 * (ks_k0 P f)) * (ks_dc_D1 P f)) *
  (ks_ddk0_D2D2 P f))) + (((4 * (ks_k0 P f)) * (ks_dc_D2 P f)) * (ks_ddk0_D1D2 P f))) + (((2 * (ks_k0
  P f)) * (ks_ddc_D2D2 P f)) * (ks_dk0_D1 P f))) + (((4 * (ks_k0 P f)) * (ks_dk0_D2 P f)) *
  (ks_ddc_D1D2 P f))) + ((2 * (ks_dc_D1 P f)) * ((ks_dk0_D2 P f) ^ 2))) + (((4 * (ks_dc_D2 P f)) *
  (ks_dk0_D1 P f)) * (ks_dk0_D2 P f)).

(* /repo/Src/Main/Modules/Physics/Free_Data/fd_KerrSchild_g_dg_ddg_dddg.c:3386-3411 *)
Definition ks_dddgamma_D1D1D0D2D0 (P : kspar) (f : ksarg) : R :=
  (((((((((((2 * (ks_c P f)) * (ks_k1 P f)) * (ks_dddk1_D0D0D2 P f)) + (((4 * (ks_c P f)) *
  (ks_dk1_D0 P f)) * (ks_ddk1_D0D2 P f))) + (((2 * (ks_c P f)) * (ks_ddk1_D0D0 P f)) * (ks_dk1_D2 P
  f))) + (((ks_k1 P f) ^ 2) * (ks_dddc_D0D0D2 P f))) + (((4 * (ks_k1 P f)) * (ks_dc_D0 P f)) *
  (ks_ddk1_D0D2 P f))) + (((2 * (ks_k1 P f)) * (ks_ddc_D0D0 P f)) * (ks_dk1_D2 P f))) + (((2 * (ks_k1
  P f)) * (ks_dc_D2 P f)) * (ks_ddk1_D0D0 P f))) + (((4 * (ks_k1 P f)) * (ks_dk1_D0 P f)) *
  (ks_ddc_D0D2 P f))) + (((4 * (ks_dc_D0 P f)) * (ks_dk1_D0 P f)) * (ks_dk1_D2 P f))) + ((2 *
  (ks_dc_D2 P f)) * ((ks_dk1_D0 P f) ^ 2)).

(* /repo/Src/Main/Modules/Physics/Free_Data/fd_KerrSchild_g_dg_ddg_dddg.c:3413-3469 *)
Definition ks_dddgamma_D0D1D1D2D0 (P : kspar) (f : ksarg) : R :=
  ((((((((((((((((((((((((((((ks_c P f) * (ks_k0 P f)) * (ks_dddk1_D0D1D2 P f)) + (((ks_c P f) *
  (ks_k1 P f)) * (ks_dddk0_D0D1D2 P f))) + (((ks_c P f) * (ks_dk0_D0 P f)) * (ks_ddk1_D1D2 P f))) +
  (((ks_c P f) * (ks_dk0_D1 P f)) * (ks_ddk1_D0D2 P f))) + (((ks_c P f) * (ks_dk0_D2 P f)) *
  (ks_ddk1_D0D1 P f))) + (((ks_c P f) * (ks_dk1_D0 P f)) * (ks_ddk0_D1D2 P f))) + (((ks_c P f) *
  (ks_dk1_D1 P f)) * (ks_ddk0_D0D2 P f))) + (((ks_c P f) * (ks_dk1_D2 P f)) * (ks_ddk0_D0D1 P f))) +
  (((ks_k0 P f) * (ks_k1 P f)) * (ks_dddc_D0D1D2 P f))) + (((ks_k0 P f) * (ks_dc_D0 P f)) *
  (ks_ddk1_D1D2 P f))) + (((ks_k0 P f) * (ks_dc_D1 P f)) * (ks_ddk1_D0D2 P f))) + (((ks_k0 P f) *
  (ks_dc_D2 P f)) * (ks_ddk1_D0D1 P f))) + (((ks_k0 P f) * (ks_dk1_D0 P f)) * (ks_ddc_D1D2 P f))) +
  (((ks_k0 P f) * (ks_dk1_D1 P f)) * (ks_ddc_D0D2 P f))) + (((ks_k0 P f) * (ks_dk1_D2 P f)) *
  (ks_ddc_D0D1 P f))) + (((ks_k1 P f) * (ks_dc_D0 P f)) * (ks_ddk0_D1D2 P f))) + (((ks_k1 P f) *
  (ks_dc_D1 P f)) * (ks_ddk0_D0D2 P f))) + (((ks_k1 P f) * (ks_dc_D2 P f)) * (ks_ddk0_D0D1 P f))) +
  (((ks_k1 P f) * (ks_dk0_D0 P f)) * (ks_ddc_D1D2 P f))) + (((ks_k1 P f) * (ks_dk0_D1 P f)) *
  (ks_ddc_D0D2 P f))) + (((ks_k1 P f) * (ks_dk0_D2 P f)) * (ks_ddc_D0D1 P f))) + (((ks_dc_D0 P f) *
  (ks_dk0_D1 P f)) * (ks_dk1_D2 P f))) + (((ks_dc_D0 P f) * (ks_dk0_D2 P f)) * (ks_dk1_D1 P f))) +
  (((ks_dc_D1 P f) * (ks_dk0_D0 P f)) * (ks_dk1_D2 P f))) + (((ks_dc_D1 P f) * (ks_dk0_D2 P f)) *
  (ks_dk1_D0 P f))) + (((ks_dc_D2 P f) * (ks_dk0_D0 P f)) * (ks_dk1_D1 P f))) + (((ks_dc_D2 P f) *
  (ks_dk0_D1 P f)) * (ks_dk1_D0 P f)).

(* /repo/Src/Main/Modules/Physics/Free_Data/fd_KerrSchild_g_dg_ddg_dddg.c:3471-3496 *)
Definition ks_dddgamma_D1D1D0D0D1 (P : kspar) (f : ksarg) : R :=
  (((((((((((2 * (ks_c P f)) * (ks_k1 P f)) * (ks_dddk1_D0D0D1 P f)) + (((4 * (ks_c P f)) *
  (ks_dk1_D0 P f)) * (ks_ddk1_D0D1 P f))) + (((2 * (ks_c P f)) * (ks_ddk1_D0D0 P f)) * (ks_dk1_D1 P
  f))) + (((ks_k1 P f) ^ 2) * (ks_dddc_D0D0D1 P f))) + (((4 * (ks_k1 P f)) * (ks_dc_D0 P f)) *
  (ks_ddk1_D0D1 P f))) + (((2 * (ks_k1 P f)) * (ks_ddc_D0D0 P f)) * (ks_dk1_D1 P f))) + (((2 * (ks_k1
  P f)) * (ks_dc_D1 P f)) * (ks_ddk1_D0D0 P f))) + (((4 * (ks_k1 P f)) * (ks_dk1_D0 P f)) *
  (ks_ddc_D0D1 P f))) + (((4 * (ks_dc_D0 P f)) * (ks_dk1_D0 P f)) * (ks_dk1_D1 P f))) + ((2 *
  (ks_dc_D1 P f)) * ((ks_dk1_D0 P f) ^ 2)).

(* /repo/Src/Main/Modules/Physics/Free_Data/fd_KerrSchild_g_dg_ddg_dddg.c:3498-3523 *)
Definition ks_dddgamma_D1D1D0D0D2 (P : kspar) (f : ksarg) : R :=
  (((((((((((2 * (ks_c P f)) * (ks_k1 P f)) * (ks_dddk1_D0D0D2 P f)) + (((4 * (ks_c P f)) *
  (ks_dk1_D0 P f)) * (ks_ddk1_D0D2 P f))) + (((2 * (ks_c P f)) * (ks_ddk1_D0D0 P f)) * (ks_dk1_D2 P
  f))) + (((ks_k1 P f) ^ 2) * (ks_dddc_D0D0D2 P f))) + (((4 * (ks_k1 P f)) * (ks_dc_D0 P f)) *
  (ks_ddk1_D0D2 P f))) + (((2 * (ks_k1 P f)) * (ks_ddc_D0D0 P f)) * (ks_dk1_D2 P f))) + (((2 * (ks_k1
  P f)) * (ks_dc_D2 P f)) * (ks_ddk1_D0D0 P f))) + (((4 * (ks_k1 P f)) * (ks_dk1_D0 P f)) *
  (ks_ddc_D0D2 P f))) + (((4 * (ks_dc_D0 P f)) * (ks_dk1_D0 P f)) * (ks_dk1_D2 P f))) + ((2 *
  (ks_dc_D2 P f)) * ((ks_dk1_D0 P f) ^ 2)).

(* /repo/Src/Main/Modules/Physics/Free_Data/fd_KerrSchild_g_dg_ddg_dddg.c:3525-3581 *)
Definition ks_dddgamma_D1D2D0D1D2 (P : kspar) (f : ksarg) : R :=
  ((((((((((((((((((((((((((((ks_c P f) * (ks_k1 P f)) * (ks_dddk2_D0D1D2 P f)) + (((ks_c P f) *
  (ks_k2 P f)) * (ks_dddk1_D0D1D2 P f))) + (((ks_c P f) * (ks_dk1_D0 P f)) * (ks_ddk2_D1D2 P f))) +
  (((ks_c P f) * (ks_dk1_D1 P f)) * (ks_ddk2_D0D2 P f))) + (((ks_c P f) * (ks_dk1_D2 P f)) *
  (ks_ddk2_D0D1 P f))) + (((ks_c P f) * (ks_dk2_D0 P f)) * (ks_ddk1_D1D2 P f))) + (((ks_c P f) *
  (ks_dk2_D1 P f)) * (ks_ddk1_D0D2 P f))) + (((ks_c P f) * (ks_dk2_D2 P f)) * (ks_ddk1_D0D1 P f))) +
  (((ks_k1 P f) * (ks_k2 P f)) * (ks_dddc_D0D1D2 P f))) + (((ks_k1 P f) * (ks_dc_D0 P f)) *
  (ks_ddk2_D1D2 P f))) + (((ks_k1 P f) * (ks_dc_D1 P f)) * (ks_ddk2_D0D2 P f))) + (((ks_k1 P f) *
  (ks_dc_D2 P f)) * (ks_ddk2_D0D1 P f))) + (((ks_k1 P f) * (ks_dk2_D0 P f)) * (ks_ddc_D1D2 P f))) +
  (((ks_k1 P f) * (ks_dk2_D1 P f)) * (ks_ddc_D0D2 P f))) + (((ks_k1 P f) * (ks_dk2_D2 P f)) *
  (ks_ddc_D0D1 P f))) + (((ks_k2 P f) * (ks_dc_D0 P f)) * (ks_ddk1_D1D2 P f))) + (((ks_k2 P f) *
  (ks_dc_D1 P f)) * (ks_ddk1_D0D2 P f))) + (((ks_k2 P f) * (ks_dc_D2 P f)) * (ks_ddk1_D0D1 P f))) +
  (((ks_k2 P f) * (ks_dk1_D0 P f)) * (ks_ddc_D1D2 P f))) + (((ks_k2 P f) * (ks_dk1_D1 P f)) *
  (ks_ddc_D0D2 P f))) + (((ks_k2 P f) * (ks_dk1_D2 P f)) * (ks_ddc_D0D1 P f))) + (((ks_dc_D0 P f) *
  (ks_dk1_D1 P f)) * (ks_dk2_D2 P f))) + (((ks_dc_D0 P f) * (ks_dk1_D2 P f)) * (ks_dk2_D1 P f))) +
  (((ks_dc_D1 P f) * (ks_dk1_D0 P f)) * (ks_dk2_D2 P f))) + (((ks_dc_D1 P f) * (ks_dk1_D2 P f)) *
  (ks_dk2_D0 P f))) + (((ks_dc_D2 P f) * (ks_dk1_D0 P f)) * (ks_dk2_D1 P f))) + (((ks_dc_D2 P f) *
  (ks_dk1_D1 P f)) * (ks_dk2_D0 P f)).

(* /repo/Src/Main/Modules/Physics/Free_Data/fd_KerrSchild_g_dg_ddg_dddg.c:3583-3617 *)
Definition ks_dddgamma_D0D0D1D0D2 (P : kspar) (f : ksarg) : R :=
  (((((((((((((((2 * (ks_c P f)) * (ks_k0 P f)) * (ks_dddk0_D0D1D2 P f)) + (((2 * (ks_c P f)) *
  (ks_dk0_D0 P f)) * (ks_ddk0_D1D2 P f))) + (((2 * (ks_c P f)) * (ks_dk0_D1 P f)) * (ks_ddk0_D0D2 P
  f))) + (((2 * (ks_c P f)) * (ks_dk0_D2 P f)) * (ks_ddk0_D0D1 P f))) + (((ks_k0 P f) ^ 2) *
  (ks_dddc_D0D1D2 P f))) + (((2 * (ks_k0 P f)) * (ks_dc_D0 P f)) * (ks_ddk0_D1D2 P f))) + (((2 *
  (ks_k0 P f)) * (ks_dc_D1 P f)) * (ks_ddk0_D0D2 P f))) + (((2 * (ks_k0 P f)) * (ks_dc_D2 P f)) *
  (ks_ddk0_D0D1 P f))) + (((2 * (ks_k0 P f)) * (ks_dk0_D0 P f)) * (ks_ddc_D1D2 P f))) + (((2 * (ks_k0
  P f)) * (ks_dk0_D1 P f)) * (ks_ddc_D0D2 P f))) + (((2 * (ks_k0 P f)) * (ks_dk0_D2 P f)) *
  (ks_ddc_D0D1 P f))) + (((2 * (ks_dc_D0 P f)) * (ks_dk0_D1 P f)) * (ks_dk0_D2 P f))) + (((2 *
  (ks_dc_D1 P f)) * (ks_dk0_D0 P f)) * (ks_dk0_D2 P f))) + (((2 * (ks_dc_D2 P f)) * (ks_dk0_D0 P f))
  * (ks_dk0_D1 P f)).

(* /repo/Src/Main/Modules/Physics/Free_Data/fd_KerrSchild_g_dg_ddg_dddg.c:3619-3644 *)
Definition ks_dddgamma_D0D0D0D2D0 (P : kspar) (f : ksarg) : R :=
  (((((((((((2 * (ks_c P f)) * (ks_k0 P f)) * (ks_dddk0_D0D0D2 P f)) + (((4 * (ks_c P f)) *
  (ks_dk0_D0 P f)) * (ks_ddk0_D0D2 P f))) + (((2 * (ks_c P f)) * (ks_ddk0_D0D0 P f)) * (ks_dk0_D2 P
  f))) + (((ks_k0 P f) ^ 2) * (ks_dddc_D0D0D2 P f))) + (((4 * (ks_k0 P f)) * (ks_dc_D0 P f)) *
  (ks_ddk0_D0D2 P f))) + (((2 * (ks_k0 P f)) * (ks_ddc_D0D0 P f)) * (ks_dk0_D2 P f))) + (((2 * (ks_k0
  P f)) * (ks_dc_D2 P f)) * (ks_ddk0_D0D0 P f))) + (((4 * (ks_k0 P f)) * (ks_dk0_D0 P f)) *
  (ks_ddc_D0D2 P f))) + (((4 * (ks_dc_D0 P f)) * (ks_dk0_D0 P f)) * (ks_dk0_D2 P f))) + ((2 *
  (ks_dc_D2 P f)) * ((ks_dk0_D0 P f) ^ 2)).

(* /repo/Src/Main/Modules/Physics/Free_Data/fd_KerrSchild_g_dg_ddg_dddg.c:3646-3671 *)
Definition ks_dddgamma_D2D2D2D1D1 (P : kspar) (f : ksarg) : R :=
  (((((((((((2 * (ks_c P f)) * (ks_k2 P f)) * (ks_dddk2_D1D1D2 P f)) + (((4 * (ks_c P f)) *
  (ks_dk2_D1 P f)) * (ks_ddk2_D1D2 P f))) + (((2 * (ks_c P f)) * (ks_ddk2_D1D1 P f)) * (ks_dk2_D2 P
  f))) + (((ks_k2 P f) ^ 2) * (ks_dddc_D1D1D2 P f))) + (((4 * (ks_k2 P f)) * (ks_dc_D1 P f)) *
  (ks_ddk2_D1D2 P f))) + (((2 * (ks_k2 P f)) * (ks_ddc_D1D1 P f)) * (ks_dk2_D2 P f))) + (((2 * (ks_k2
  P f)) * (ks_dc_D2 P f)) * (ks_ddk2_D1D1 P f))) + (((4 * (ks_k2 P f)) * (ks_dk2_D1 P f)) *
  (ks_ddc_D1D2 P f))) + (((4 * (ks_dc_D1 P f)) * (ks_dk2_D1 P f)) * (ks_dk2_D2 P f))) + ((2 *
  (ks_dc_D2 P f)) * ((ks_dk2_D1 P f) ^ 2)).

(* /repo/Src/Main/Modules/Physics/Free_Data/fd_KerrSchild_g_dg_ddg_dddg.c:3673-3713 *)
Definition ks_dddgamma_D0D2D0D0D2 (P : kspar) (f : ksarg) : R :=
  (((((((((((((((((((ks_c P f) * (ks_k0 P f)) * (ks_dddk2_D0D0D2 P f)) + (((ks_c P f) * (ks_k2 P f))
  * (ks_dddk0_D0D0D2 P f))) + (((2 * (ks_c P f)) * (ks_dk0_D0 P f)) * (ks_ddk2_D0D2 P f))) + (((ks_c
  P f) * (ks_ddk0_D0D0 P f)) * (ks_dk2_D2 P f))) + (((ks_c P f) * (ks_dk0_D2 P f)) * (ks_ddk2_D0D0 P
  f))) + (((2 * (ks_c P f)) * (ks_dk2_D0 P f)) * (ks_ddk0_D0D2 P f))) + (((ks_k0 P f) * (ks_k2 P f))
  * (ks_dddc_D0D0D2 P f))) + (((2 * (ks_k0 P f)) * (ks_dc_D0 P f)) * (ks_ddk2_D0D2 P f))) + (((ks_k0
  P f) * (ks_ddc_D0D0 P f)) * (ks_dk2_D2 P f))) + (((ks_k0 P f) * (ks_dc_D2 P f)) * (ks_ddk2_D0D0 P
  f))) + (((2 * (ks_k0 P f)) * (ks_dk2_D0 P f)) * (ks_ddc_D0D2 P f))) + (((2 * (ks_k2 P f)) *
  (ks_dc_D0 P f)) * (ks_ddk0_D0D2 P f))) + (((ks_k2 P f) * (ks_ddc_D0D0 P f)) * (ks_dk0_D2 P f))) +
  (((ks_k2 P f) * (ks_dc_D2 P f)) * (ks_ddk0_D0D0 P f))) + (((2 * (ks_k2 P f)) * (ks_dk0_D0 P f)) *
  (ks_ddc_D0D2 P f))) + (((2 * (ks_dc_D0 P f)) * (ks_dk0_D0 P f)) * (ks_dk2_D2 P f))) + (((2 *
  (ks_dc_D0 P f)) * (ks_dk0_D2 P f)) * (ks_dk2_D0 P f))) + (((2 * (ks_dc_D2 P f)) * (ks_dk0_D0 P f))
  * (ks_dk2_D0 P f)).

(* /repo/Src/Main/Modules/Physics/Free_Data/fd_KerrSchild_g_dg_ddg_dddg.c:3715-3740 *)
Definition ks_dddgamma_D2D2D2D2D0 (P : kspar) (f : ksarg) : R :=
  (((((((((((2 * (ks_c P f)) * (ks_k2 P f)) * (ks_dddk2_D0D2D2 P f)) + (((2 * (ks_c P f)) *
  (ks_dk2_D0 P f)) * (ks_ddk2_D2D2 P f))) + (((4 * (ks_c P f)) * (ks_dk2_D2 P f)) * (ks_ddk2_D0D2 P
  f))) + (((ks_k2 P f) ^ 2) * (ks_dddc_D0D2D2 P f))) + (((2 * (ks_k2 P f)) * (ks_dc_D0 P f)) *
  (ks_ddk2_D2D2 P f))) + (((4 * (ks_k2 P f)) * (ks_dc_D2 P f)) * (ks_ddk2_D0D2 P f))) + (((2 * (ks_k2
  P f)) * (ks_ddc_D2D2 P f)) * (ks_dk2_D0 P f))) + (((4 * (ks_k2 P f)) * (ks_dk2_D2 P f)) *
  (ks_ddc_D0D2 P f))) + ((2 * (ks_dc_D0 P f)) * ((ks_dk2_D2 P f) ^ 2))) + (((4 * (ks_dc_D2 P f)) *
  (ks_dk2_D0 P f)) * (ks_dk2_D2 P f)).

(* /repo/Src/Main/Modules/Physics/Free_Data/fd_KerrSchild_g_dg_ddg_dddg.c:3742-3767 *)
Definition ks_dddgamma_D0D2D0D0D0 (P : kspar) (f : ksarg) : R :=
  (((((((((((ks_c P f) * (ks_k0 P f)) * (ks_dddk2_D0D0D0 P f)) + (((ks_c P f) * (ks_k2 P f)) *
  (ks_dddk0_D0D0D0 P f))) + (((3 * (ks_c P f)) * (ks_dk0_D0 P f)) * (ks_ddk2_D0D0 P f))) + (((3 *
  (ks_c P f)) * (ks_ddk0_D0D0 P f)) * (ks_dk2_D0 P f))) + (((ks_k0 P f) * (ks_k2 P f)) *
  (ks_dddc_D0D0D0 P f))) + (((3 * (ks_k0 P f)) * (ks_dc_D0 P f)) * (ks_ddk2_D0D0 P f))) + (((3 *
  (ks_k0 P f)) * (ks_ddc_D0D0 P f)) * (ks_dk2_D0 P f))) + (((3 * (ks_k2 P f)) * (ks_dc_D0 P f)) *
  (ks_ddk0_D0D0 P f))) + (((3 * (ks_k2 P f)) * (ks_ddc_D0D0 P f)) * (ks_dk0_D0 P f))) + (((6 *
  (ks_dc_D0 P f)) * (ks_dk0_D0 P f)) * (ks_dk2_D0 P f)).

(* /repo/Src/Main/Modules/Physics/Free_Data/fd_KerrSchild_g_dg_ddg_dddg.c:3769-3803 *)
Definition ks_dddgamma_D2D2D1D2D0 (P : kspar) (f : ksarg) : R :=
  (((((((((((((((2 * (ks_c P f)) * (ks_k2 P f)) * (ks_dddk2_D0D1D2 P f)) + (((2 * (ks_c P f)) *
  (ks_dk2_D0 P f)) * (ks_ddk2_D1D2 P f))) + (((2 * (ks_c P f)) * (ks_dk2_D1 P f)) * (ks_ddk2_D0D2 P
  f))) + (((2 * (ks_c P f)) * (ks_dk2_D2 P f)) * (ks_ddk2_D0D1 P f))) + (((ks_k2 P f) ^ 2) *
  (ks_dddc_D0D1D2 P f))) + (((2 * (ks_k2 P f)) * (ks_dc_D0 P f)) * (ks_ddk2_D1D2 P f))) + (((2 *
  (ks_k2 P f)) * (ks_dc_D1 P f)) * (ks_ddk2_D0D2 P f))) + (((2 * (ks_k2 P f)) * (ks_dc_D2 P f)) *
  (ks_ddk2_D0D1 P f))) + (((2 * (ks_k2 P f)) * (ks_dk2_D0 P f)) * (ks_ddc_D1D2 P f))) + (((2 * (ks_k2
  P f)) * (ks_dk2_D1 P f)) * (ks_ddc_D0D2 P f))) + (((2 * (ks_k2 P f)) * (ks_dk2_D2 P f)) *
  (ks_ddc_D0D1 P f))) + (((2 * (ks_dc_D0 P f)) * (ks_dk2_D1 P f)) * (ks_dk2_D2 P f))) + (((2 *
  (ks_dc_D1 P f)) * (ks_dk2_D0 P f)) * (ks_dk2_D2 P f))) + (((2 * (ks_dc_D2 P f)) * (ks_dk2_D0 P f))
  * (ks_dk2_D1 P f)).

(* /repo/Src/Main/Modules/Physics/Free_Data/fd_KerrSchild_g_dg_ddg_dddg.c:3805-3830 *)
Definition ks_dddgamma_D1D1D0D1D0 (P : kspar) (f : ksarg) : R :=
  (((((((((((2 * (ks_c P f)) * (ks_k1 P f)) * (ks_dddk1_D0D0D1 P f)) + (((4 * (ks_c P f)) *
  (ks_dk1_D0 P f)) * (ks_ddk1_D0D1 P f))) + (((2 * (ks_c P f)) * (ks_ddk1_D0D0 P f)) * (ks_dk1_D1 P
  f))) + (((ks_k1 P f) ^ 2) * (ks_dddc_D0D0D1 P f))) + (((4 * (ks_k1 P f)) * (ks_dc_D0 P f)) *
  (ks_ddk1_D0D1 P f))) + (((2 * (ks_k1 P f)) * (ks_ddc_D0D0 P f)) * (ks_dk1_D1 P f))) + (((2 * (ks_k1
  P f)) * (ks_dc_D1 P f)) * (ks_ddk1_D0D0 P f))) + (((4 * (ks_k1 P f)) * (ks_dk1_D0 P f)) *
  (ks_ddc_D0D1 P f))) + (((4 * (ks_dc_D0 P f)) * (ks_dk1_D0 P f)) * (ks_dk1_D1 P f))) + ((2 *
  (ks_dc_D1 P f)) * ((ks_dk1_D0 P f) ^ 2)).

(* /repo/Src/Main/Modules/Physics/Free_Data/fd_KerrSchild_g_dg_ddg_dddg.c:3832-3872 *)
Definition ks_dddgamma_D1D2D2D0D2 (P : kspar) (f : ksarg) : R :=
  (((((((((((((((((((ks_c P f) * (ks_k1 P f)) * (ks_dddk2_D0D2D2 P f)) + (((ks_c P f) * (ks_k2 P f))
  * (ks_dddk1_D0D2D2 P f))) + (((ks_c P f) * (ks_dk1_D0 P f)) * (ks_ddk2_D2D2 P f))) + (((2 * (ks_c P
  f)) * (ks_dk1_D2 P f)) * (ks_ddk2_D0D2 P f))) + (((ks_c P f) * (ks_ddk1_D2D2 P f)) * (ks_dk2_D0 P
  f))) + (((2 * (ks_c P f)) * (ks_dk2_D2 P f)) * (ks_ddk1_D0D2 P f))) + (((ks_k1 P f) * (ks_k2 P f))
  * (ks_dddc_D0D2D2 P f))) + (((ks_k1 P f) * (ks_dc_D0 P f)) * (ks_ddk2_D2D2 P f))) + (((2 * (ks_k1 P
  f)) * (ks_dc_D2 P f)) * (ks_ddk2_D0D2 P f))) + (((ks_k1 P f) * (ks_ddc_D2D2 P f)) * (ks_dk2_D0 P
  f))) + (((2 * (ks_k1 P f)) * (ks_dk2_D2 P f)) * (ks_ddc_D0D2 P f))) + (((ks_k2 P f) * (ks_dc_D0 P
  f)) * (ks_ddk1_D2D2 P f))) + (((2 * (ks_k2 P f)) * (ks_dc_D2 P f)) * (ks_ddk1_D0D2 P f))) +
  (((ks_k2 P f) * (ks_ddc_D2D2 P f)) * (ks_dk1_D0 P f))) + (((2 * (ks_k2 P f)) * (ks_dk1_D2 P f)) *
  (ks_ddc_D0D2 P f))) + (((2 * (ks_dc_D0 P f)) * (ks_dk1_D2 P f)) * (ks_dk2_D2 P f))) + (((2 *
  (ks_dc_D2 P f)) * (ks_dk1_D0 P f)) * (ks_dk2_D2 P f))) + (((2 * (ks_dc_D2 P f)) * (ks_dk1_D2 P f))
  * (ks_dk2_D0 P f)).

(* /repo/Src/Main/Modules/Physics/Free_Data/fd_KerrSchild_g_dg_ddg_dddg.c:3874-3914 *)
Definition ks_dddgamma_D0D1D0D1D1 (P : kspar) (f : ksarg) : R :=
  (((((((((((((((((((ks_c P f) * (ks_k0 P f)) * (ks_dddk1_D0D1D1 P f)) + (((ks_c P f) * (ks_k1 P f))
  * (ks_dddk0_D0D1D1 P f))) + (((ks_c P f) * (ks_dk0_D0 P f)) * (ks_ddk1_D1D1 P f))) + (((2 * (ks_c P
  f)) * (ks_dk0_D1 P f)) * (ks_ddk1_D0D1 P f))) + (((ks_c P f) * (ks_ddk0_D1D1 P f)) * (ks_dk1_D0 P
  f))) + (((2 * (ks_c P f)) * (ks_dk1_D1 P f)) * (ks_ddk0_D0D1 P f))) + (((ks_k0 P f) * (ks_k1 P f))
  * (ks_dddc_D0D1D1 P f))) + (((ks_k0 P f) * (ks_dc_D0 P f)) * (ks_ddk1_D1D1 P f))) + (((2 * (ks_k0 P
  f)) * (ks_dc_D1 P f)) * (ks_ddk1_D0D1 P f))) + (((ks_k0 P f) * (ks_ddc_D1D1 P f)) * (ks_dk1_D0 P
  f))) + (((2 * (ks_k0 P f)) * (ks_dk1_D1 P f)) * (ks_ddc_D0D1 P f))) + (((ks_k1 P f) * (ks_dc_D0 P
  f)) * (ks_ddk0_D1D1 P f))) + (((2 * (ks_k1 P f)) * (ks_dc_D1 P f)) * (ks_ddk0_D0D1 P f))) +
  (((ks_k1 P f) * (ks_ddc_D1D1 P f)) * (ks_dk0_D0 P f))) + (((2 * (ks_k1 P f)) * (ks_dk0_D1 P f)) *
  (ks_ddc_D0D1 P f))) + (((2 * (ks_dc_D0 P f)) * (ks_dk0_D1 P f)) * (ks_dk1_D1 P f))) + (((2 *
  (ks_dc_D1 P f)) * (ks_dk0_D0 P f)) * (ks_dk1_D1 P f))) + (((2 * (ks_dc_D1 P f)) * (ks_dk0_D1 P f))
  * (ks_dk1_D0 P f)).

(* /repo/Src/Main/Modules/Physics/Free_Data/fd_KerrSchild_g_dg_ddg_dddg.c:3916-3941 *)
Definition ks_dddgamma_D2D2D0D2D2 (P : kspar) (f : ksarg) : R :=
  (((((((((((2 * (ks_c P f)) * (ks_k2 P f)) * (ks_dddk2_D0D2D2 P f)) + (((2 * (ks_c P f)) *
  (ks_dk2_D0 P f)) * (ks_ddk2_D2D2 P f))) + (((4 * (ks_c P f)) * (ks_dk2_D2 P f)) * (ks_ddk2_D0D2 P
  f))) + (((ks_k2 P f) ^ 2) * (ks_dddc_D0D2D2 P f))) + (((2 * (ks_k2 P f)) * (ks_dc_D0 P f)) *
  (ks_ddk2_D2D2 P f))) + (((4 * (ks_k2 P f)) * (ks_dc_D2 P f)) * (ks_ddk2_D0D2 P f))) + (((2 * (ks_k2
  P f)) * (ks_ddc_D2D2 P f)) * (ks_dk2_D0 P f))) + (((4 * (ks_k2 P f)) * (ks_dk2_D2 P f)) *
  (ks_ddc_D0D2 P f))) + ((2 * (ks_dc_D0 P f)) * ((ks_dk2_D2 P f) ^ 2))) + (((4 * (ks_dc_D2 P f)) *
  (ks_dk2_D0 P f)) * (ks_dk2_D2 P f)).

(* /repo/Src/Main/Modules/Physics/Free_Data/fd_KerrSchild_g_dg_ddg_dddg.c:3943-3983 *)
Definition ks_dddgamma_D1D2D2D1D2 (P : kspar) (f : ksarg) : R :=
  (((((((((((((((((((ks_c P f) * (ks_k1 P f)) * (ks_dddk2_D1D2D2 P f)) + (((ks_c P f) * (ks_k2 P f))
  * (ks_dddk1_D1D2D2 P f))) + (((ks_c P f) * (ks_dk1_D1 P f)) * (ks_ddk2_D2D2 P f))) + (((2 * (ks_c P
  f)) * (ks_dk1_D2 P f)) * (ks_ddk2_D1D2 P f))) + (((ks_c P f) * (ks_ddk1_D2D2 P f)) * (ks_dk2_D1 P
  f))) + (((2 * (ks_c P f)) * (ks_dk2_D2 P f)) * (ks_ddk1_D1D2 P f))) + (((ks_k1 P f) * (ks_k2 P f))
  * (ks_dddc_D1D2D2 P f))) + (((ks_k1 P f) * (ks_dc_D1 P f)) * (ks_ddk2_D2D2 P f))) + (((2 * (ks_k1 P
  f)) * (ks_dc_D2 P f)) * (ks_ddk2_D1D2 P f))) + (((ks_k1 P f) * (ks_ddc_D2D2 P f)) * (ks_dk2_D1 P
  f))) + (((2 * (ks_k1 P f)) * (ks_dk2_D2 P f)) * (ks_ddc_D1D2 P f))) + (((ks_k2 P f) * (ks_dc_D1 P
  f)) * (ks_ddk1_D2D2 P f))) + (((2 * (ks_k2 P f)) * (ks_dc_D2 P f)) * (ks_ddk1_D1D2 P f))) +
  (((ks_k2 P f) * (ks_ddc_D2D2 P f)) * (ks_dk1_D1 P f))) + (((2 * (ks_k2 P f)) * (ks_dk1_D2 P f)) *
  (ks_ddc_D1D2 P f))) + (((2 * (ks_dc_D1 P f)) * (ks_dk1_D2 P f)) * (ks_dk2_D2 P f))) + (((2 *
  (ks_dc_D2 P f)) * (ks_dk1_D1 P f)) * (ks_dk2_D2 P f))) + (((2 * (ks_dc_D2 P f)) * (ks_dk1_D2 P f))
  * (ks_dk2_D1 P f)).

(* /repo/Src/Main/Modules/Physics/Free_Data/fd_KerrSchild_g_dg_ddg_dddg.c:3985-4001 *)
Definition ks_dddgamma_D2D2D1D1D1 (P : kspar) (f : ksarg) : R :=
  (((((((2 * (ks_c P f)) * (ks_k2 P f)) * (ks_dddk2_D1D1D1 P f)) + (((6 * (ks_c P f)) * (ks_dk2_D1 P
  f)) * (ks_ddk2_D1D1 P f))) + (((ks_k2 P f) ^ 2) * (ks_dddc_D1D1D1 P f))) + (((6 * (ks_k2 P f)) *
  (ks_dc_D1 P f)) * (ks_ddk2_D1D1 P f))) + (((6 * (ks_k2 P f)) * (ks_ddc_D1D1 P f)) * (ks_dk2_D1 P
  f))) + ((6 * (ks_dc_D1 P f)) * ((ks_dk2_D1 P f) ^ 2)).

(* /repo/Src/Main/Modules/Physics/Free_Data/fd_KerrSchild_g_dg_ddg_dddg.c:4003-4019 *)
Definition ks_dddgamma_D0D0D0D0D0 (P : kspar) (f : ksarg) : R :=
  (((((((2 * (ks_c P f)) * (ks_k0 P f)) * (ks_dddk0_D0D0D0 P f)) + (((6 * (ks_c P f)) * (ks_dk0_D0 P
  f)) * (ks_ddk0_D0D0 P f))) + (((ks_k0 P f) ^ 2) * (ks_dddc_D0D0D0 P f))) + (((6 * (ks_k0 P f)) *
  (ks_dc_D0 P f)) * (ks_ddk0_D0D0 P f))) + (((6 * (ks_k0 P f)) * (ks_ddc_D0D0 P f)) * (ks_dk0_D0 P
  f))) + ((6 * (ks_dc_D0 P f)) * ((ks_dk0_D0 P f) ^ 2)).

(* /repo/Src/Main/Modules/Physics/Free_Data/fd_KerrSchild_g_dg_ddg_dddg.c:4021-4046 *)
Definition ks_dddgamma_D0D0D1D2D1 (P : kspar) (f : ksarg) : R :=
  (((((((((((2 * (ks_c P f)) * (ks_k0 P f)) * (ks_dddk0_D1D1D2 P f)) + (((4 * (ks_c P f)) *
  (ks_dk0_D1 P f)) * (ks_ddk0_D1D2 P f))) + (((2 * (ks_c P f)) * (ks_ddk0_D1D1 P f)) * (ks_dk0_D2 P
  f))) + (((ks_k0 P f) ^ 2) * (ks_dddc_D1D1D2 P f))) + (((4 * (ks_k0 P f)) * (ks_dc_D1 P f)) *
  (ks_ddk0_D1D2 P f))) + (((2 * (ks_k0 P f)) * (ks_ddc_D1D1 P f)) * (ks_dk0_D2 P f))) + (((2 * (ks_k0
  P f)) * (ks_dc_D2 P f)) * (ks_ddk0_D1D1 P f))) + (((4 * (ks_k0 P f)) * (ks_dk0_D1 P f)) *
  (ks_ddc_D1D2 P f))) + (((4 * (ks_dc_D1 P f)) * (ks_dk0_D1 P f)) * (ks_dk0_D2 P f))) + ((2 *
  (ks_dc_D2 P f)) * ((ks_dk0_D1 P f) ^ 2)).

(* /repo/Src/Main/Modules/Physics/Free_Data/fd_KerrSchild_g_dg_ddg_dddg.c:4048-4073 *)
Definition ks_dddgamma_D1D1D1D1D0 (P : kspar) (f : ksarg) : R :=
  (((((((((((2 * (ks_c P f)) * (ks_k1 P f)) * (ks_dddk1_D0D1D1 P f)) + (((2 * (ks_c P f)) *
  (ks_dk1_D0 P f)) * (ks_ddk1_D1D1 P f))) + (((4 * (ks_c P f)) * (ks_dk1_D1 P f)) * (ks_ddk1_D0D1 P
  f))) + (((ks_k1 P f) ^ 2) * (ks_dddc_D0D1D1 P f))) + (((2 * (ks_k1 P f)) * (ks_dc_D0 P f)) *
  (ks_ddk1_D1D1 P f))) + (((4 * (ks_k1 P f)) * (ks_dc_D1 P f)) * (ks_ddk1_D0D1 P f))) + (((2 * (ks_k1
  P f)) * (ks_ddc_D1D1 P f)) * (ks_dk1_D0 P f))) + (((4 * (ks_k1 P f)) * (ks_dk1_D1 P f)) *
  (ks_ddc_D0D1 P f))) + ((2 * (ks_dc_D0 P f)) * ((ks_dk1_D1 P f) ^ 2))) + (((4 * (ks_dc_D1 P f)) *
  (ks_dk1_D0 P f)) * (ks_dk1_D1 P f)).

(* /repo/Src/Main/Modules/Physics/Free_Data/fd_KerrSchild_g_dg_ddg_dddg.c:4075-4091 *)
Definition ks_dddgamma_D1D1D1D1D1 (P : kspar) (f : ksarg) : R :=
  (((((((2 * (ks_c P f)) * (ks_k1 P f)) * (ks_dddk1_D1D1D1 P f)) + (((6 * (ks_c P f)) * (ks_dk1_D1 P
  f)) * (ks_ddk1_D1D1 P f))) + (((ks_k1 P f) ^ 2) * (ks_dddc_D1D1D1 P f))) + (((6 * (ks_k1 P f)) *
  (ks_dc_D1 P f)) * (ks_ddk1_D1D1 P f))) + (((6 * (ks_k1 P f)) * (ks_ddc_D1D1 P f)) * (ks_dk1_D1 P
  f))) + ((6 * (ks_dc_D1 P f)) * ((ks_dk1_D1 P f) ^ 2)).

(* /repo/Src/Main/Modules/Physics/Free_Data/fd_KerrSchild_g_dg_ddg_dddg.c:4093-4127 *)
Definition ks_dddgamma_D1D1D1D2D0 (P : kspar) (f : ksarg) : R :=
  (((((((((((((((2 * (ks_c P f)) * (ks_k1 P f)) * (ks_dddk1_D0D1D2 P f)) + (((2 * (ks_c P f)) *
  (ks_dk1_D0 P f)) * (ks_ddk1_D1D2 P f))) + (((2 * (ks_c P f)) * (ks_dk1_D1 P f)) * (ks_ddk1_D0D2 P
  f))) + (((2 * (ks_c P f)) * (ks_dk1_D2 P f)) * (ks_ddk1_D0D1 P f))) + (((ks_k1 P f) ^ 2) *
  (ks_dddc_D0D1D2 P f))) + (((2 * (ks_k1 P f)) * (ks_dc_D0 P f)) * (ks_ddk1_D1D2 P f))) + (((2 *
  (ks_k1 P f)) * (ks_dc_D1 P f)) * (ks_ddk1_D0D2 P f))) + (((2 * (ks_k1 P f)) * (ks_dc_D2 P f)) *
  (ks_ddk1_D0D1 P f))) + (((2 * (ks_k1 P f)) * (ks_dk1_D0 P f)) * (ks_ddc_D1D2 P f))) + (((2 * (ks_k1
  P f)) * (ks_dk1_D1 P f)) * (ks_ddc_D0D2 P f))) + (((2 * (ks_k1 P f)) * (ks_dk1_D2 P f)) *
  (ks_ddc_D0D1 P f))) + (((2 * (ks_dc_D0 P f)) * (ks_dk1_D1 P f)) * (ks_dk1_D2 P f))) + (((2 *
  (ks_dc_D1 P f)) * (ks_dk1_D0 P f)) * (ks_dk1_D2 P f))) + (((2 * (ks_dc_D2 P f)) * (ks_dk1_D0 P f))
  * (ks_dk1_D1 P f)).

(* /repo/Src/Main/Modules/Physics/Free_Data/fd_KerrSchild_g_dg_ddg_dddg.c:4129-4185 *)
Definition ks_dddgamma_D0D1D0D2D1 (P : kspar) (f : ksarg) : R :=
  ((((((((((((((((((((((((((((ks_c P f) * (ks_k0 P f)) * (ks_dddk1_D0D1D2 P f)) + (((ks_c P f) *
  (ks_k1 P f)) * (ks_dddk0_D0D1D2 P f))) + (((ks_c P f) * (ks_dk0_D0 P f)) * (ks_ddk1_D1D2 P f))) +
  (((ks_c P f) * (ks_dk0_D1 P f)) * (ks_ddk1_D0D2 P f))) + (((ks_c P f) * (ks_dk0_D2 P f)) *
  (ks_ddk1_D0D1 P f))) + (((ks_c P f) * (ks_dk1_D0 P f)) * (ks_ddk0_D1D2 P f))) + (((ks_c P f) *
  (ks_dk1_D1 P f)) * (ks_ddk0_D0D2 P f))) + (((ks_c P f) * (ks_dk1_D2 P f)) * (ks_ddk0_D0D1 P f))) +
  (((ks_k0 P f) * (ks_k1 P f)) * (ks_dddc_D0D1D2 P f))) + (((ks_k0 P f) * (ks_dc_D0 P f)) *
  (ks_ddk1_D1D2 P f))) + (((ks_k0 P f) * (ks_dc_D1 P f)) * (ks_ddk1_D0D2 P f))) + (((ks_k0 P f) *
  (ks_dc_D2 P f)) * (ks_ddk1_D0D1 P f))) + (((ks_k0 P f) * (ks_dk1_D0 P f)) * (ks_ddc_D1D2 P f))) +
  (((ks_k0 P f) * (ks_dk1_D1 P f)) * (ks_ddc_D0D2 P f))) + (((ks_k0 P f) * (ks_dk1_D2 P f)) *
  (ks_ddc_D0D1 P f))) + (((ks_k1 P f) * (ks_dc_D0 P f)) * (ks_ddk0_D1D2 P f))) + (((ks_k1 P f) *
  (ks_dc_D1 P f)) * (ks_ddk0_D0D2 P f))) + (((ks_k1 P f) * (ks_dc_D2 P f)) * (ks_ddk0_D0D1 P f))) +
  (((ks_k1 P f) * (ks_dk0_D0 P f)) * (ks_ddc_D1D2 P f))) + (((ks_k1 P f) * (ks_dk0_D1 P f)) *
  (ks_ddc_D0D2 P f))) + (((ks_k1 P f) * (ks_dk0_D2 P f)) * (ks_ddc_D0D1 P f))) + (((ks_dc_D0 P f) *
  (ks_dk0_D1 P f)) * (ks_dk1_D2 P f))) + (((ks_dc_D0 P f) * (ks_dk0_D2 P f)) * (ks_dk1_D1 P f))) +
  (((ks_dc_D1 P f) * (ks_dk0_D0 P f)) * (ks_dk1_D2 P f))) + (((ks_dc_D1 P f) * (ks_dk0_D2 P f)) *
  (ks_dk1_D0 P f))) + (((ks_dc_D2 P f) * (ks_dk0_D0 P f)) * (ks_dk1_D1 P f))) + (((ks_dc_D2 P f) *
  (ks_dk0_D1 P f)) * (ks_dk1_D0 P f)).

(* /repo/Src/Main/Modules/Physics/Free_Data/fd_KerrSchild_g_dg_ddg_dddg.c:4187-4212 *)
Definition ks_dddgamma_D2D2D1D1D0 (P : kspar) (f : ksarg) : R :=
  (((((((((((2 * (ks_c P f)) * (ks_k2 P f)) * (ks_dddk2_D0D1D1 P f)) + (((2 * (ks_c P f)) *
  (ks_dk2_D0 P f)) * (ks_ddk2_D1D1 P f))) + (((4 * (ks_c P f)) * (ks_dk2_D1 P f)) * (ks_ddk2_D0D1 P
  f))) + (((ks_k2 P f) ^ 2) * (ks_dddc_D0D1D1 P f))) + (((2 * (ks_k2 P f)) * (ks_dc_D0 P f)) *
  (ks_ddk2_D1D1 P f))) + (((4 * (ks_k2 P f)) * (ks_dc_D1 P f)) * (ks_ddk2_D0D1 P f))) + (((2 * (ks_k2
  P f)) * (ks_ddc_D1D1 P f)) * (ks_dk2_D0 P f))) + (((4 * (ks_k2 P f)) * (ks_dk2_D1 P f)) *
  (ks_ddc_D0D1 P f))) + ((2 * (ks_dc_D0 P f)) * ((ks_dk2_D1 P f) ^ 2))) + (((4 * (ks_dc_D1 P f)) *
  (ks_dk2_D0 P f)) * (ks_dk2_D1 P f)).

(* /repo/Src/Main/Modules/Physics/Free_Data/fd_KerrSchild_g_dg_ddg_dddg.c:4214-4254 *)
Definition ks_dddgamma_D1D2D2D2D0 (P : kspar) (f : ksarg) : R :=
  (((((((((((((((((((ks_c P f) * (ks_k1 P f)) * (ks_dddk2_D0D2D2 P f)) + (((ks_c P f) * (ks_k2 P f))
  * (ks_dddk1_D0D2D2 P f))) + (((ks_c P f) * (ks_dk1_D0 P f)) * (ks_ddk2_D2D2 P f))) + (((2 * (ks_c P
  f)) * (ks_dk1_D2 P f)) * (ks_ddk2_D0D2 P f))) + (((ks_c P f) * (ks_ddk1_D2D2 P f)) * (ks_dk2_D0 P
  f))) + (((2 * (ks_c P f)) * (ks_dk2_D2 P f)) * (ks_ddk1_D0D2 P f))) + (((ks_k1 P f) * (ks_k2 P f))
  * (ks_dddc_D0D2D2 P f))) + (((ks_k1 P f) * (ks_dc_D0 P f)) * (ks_ddk2_D2D2 P f))) + (((2 * (ks_k1 P
  f)) * (ks_dc_D2 P f)) * (ks_ddk2_D0D2 P f))) + (((ks_k1 P f) * (ks_ddc_D2D2 P f)) * (ks_dk2_D0 P
  f))) + (((2 * (ks_k1 P f)) * (ks_dk2_D2 P f)) * (ks_ddc_D0D2 P f))) + (((ks_k2 P f) * (ks_dc_D0 P
  f)) * (ks_ddk1_D2D2 P f))) + (((2 * (ks_k2 P f)) * (ks_dc_D2 P f)) * (ks_ddk1_D0D2 P f))) +
  (((ks_k2 P f) * (ks_ddc_D2D2 P f)) * (ks_dk1_D0 P f))) + (((2 * (ks_k2 P f)) * (ks_dk1_D2 P f)) *
  (ks_ddc_D0D2 P f))) + (((2 * (ks_dc_D0 P f)) * (ks_dk1_D2 P f)) * (ks_dk2_D2 P f))) + (((2 *
  (ks_dc_D2 P f)) * (ks_dk1_D0 P f)) * (ks_dk2_D2 P f))) + (((2 * (ks_dc_D2 P f)) * (ks_dk1_D2 P f))
  * (ks_dk2_D0 P f)).

(* /repo/Src/Main/Modules/Physics/Free_Data/fd_KerrSchild_g_dg_ddg_dddg.c:4256-4281 *)
Definition ks_dddgamma_D0D0D1D1D2 (P : kspar) (f : ksarg) : R :=
  (((((((((((2 * (ks_c P f)) * (ks_k0 P f)) * (ks_dddk0_D1D1D2 P f)) + (((4 * (ks_c P f)) *
  (ks_dk0_D1 P f)) * (ks_ddk0_D1D2 P f))) + (((2 * (ks_c P f)) * (ks_ddk0_D1D1 P f)) * (ks_dk0_D2 P
  f))) + (((ks_k0 P f) ^ 2) * (ks_dddc_D1D1D2 P f))) + (((4 * (ks_k0 P f)) * (ks_dc_D1 P f)) *
  (ks_ddk0_D1D2 P f))) + (((2 * (ks_k0 P f)) * (ks_ddc_D1D1 P f)) * (ks_dk0_D2 P f))) + (((2 * (ks_k0
  P f)) * (ks_dc_D2 P f)) * (ks_ddk0_D1D1 P f))) + (((4 * (ks_k0 P f)) * (ks_dk0_D1 P f)) *
  (ks_ddc_D1D2 P f))) + (((4 * (ks_dc_D1 P f)) * (ks_dk0_D1 P f)) * (ks_dk0_D2 P f))) + ((2 *
  (ks_dc_D2 P f)) * ((ks_dk0_D1 P f) ^ 2)).

(* /repo/Src/Main/Modules/Physics/Free_Data/fd_KerrSchild_g_dg_ddg_dddg.c:4283-4323 *)
Definition ks_dddgamma_D0D2D0D2D0 (P : kspar) (f : ksarg) : R :=
  (((((((((((((((((((ks_c P f) * (ks_k0 P f)) * (ks_dddk2_D0D0D2 P f)) + (((ks_c P f) * (ks_k2 P f))
  * (ks_dddk0_D0D0D2 P f))) + (((2 * (ks_c P f)) * (ks_dk0_D0 P f)) * (ks_ddk2_D0D2 P f))) + (((ks_c
  P f) * (ks_ddk0_D0D0 P f)) * (ks_dk2_D2 P f))) + (((ks_c P f) * (ks_dk0_D2 P f)) * (ks_ddk2_D0D0 P
  f))) + (((2 * (ks_c P f)) * (ks_dk2_D0 P f)) * (ks_ddk0_D0D2 P f))) + (((ks_k0 P f) * (ks_k2 P f))
  * (ks_dddc_D0D0D2 P f))) + (((2 * (ks_k0 P f)) * (ks_dc_D0 P f)) * (ks_ddk2_D0D2 P f))) + (((ks_k0
  P f) * (ks_ddc_D0D0 P f)) * (ks_dk2_D2 P f))) + (((ks_k0 P f) * (ks_dc_D2 P f)) * (ks_ddk2_D0D0 P
  f))) + (((2 * (ks_k0 P f)) * (ks_dk2_D0 P f)) * (ks_ddc_D0D2 P f))) + (((2 * (ks_k2 P f)) *
  (ks_dc_D0 P f)) * (ks_ddk0_D0D2 P f))) + (((ks_k2 P f) * (ks_ddc_D0D0 P f)) * (ks_dk0_D2 P f))) +
  (((ks_k2 P f) * (ks_dc_D2 P f)) * (ks_ddk0_D0D0 P f))) + (((2 * (ks_k2 P f)) * (ks_dk0_D0 P f)) *
  (ks_ddc_D0D2 P f))) + (((2 * (ks_dc_D0 P f)) * (ks_dk0_D0 P f)) * (ks_dk2_D2 P f))) + (((2 *
  (ks_dc_D0 P f)) * (ks_dk0_D2 P f)) * (ks_dk2_D0 P f))) + (((2 * (ks_dc_D2 P f)) * (ks_dk0_D0 P f))
  * (ks_dk2_D0 P f)).

(* /repo/Src/Main/Modules/Physics/Free_Data/fd_KerrSchild_g_dg_ddg_dddg.c:4325-4350 *)
Definition ks_dddgamma_D0D0D1D0D0 (P : kspar) (f : ksarg) : R :=
  (((((((((((2 * (ks_c P f)) * (ks_k0 P f)) * (ks_dddk0_D0D0D1 P f)) + (((4 * (ks_c P f)) *
  (ks_dk0_D0 P f)) * (ks_ddk0_D0D1 P f))) + (((2 * (ks_c P f)) * (ks_ddk0_D0D0 P f)) * (ks_dk0_D1 P
  f))) + (((ks_k0 P f) ^ 2) * (ks_dddc_D0D0D1 P f))) + (((4 * (ks_k0 P f)) * (ks_dc_D0 P f)) *
  (ks_ddk0_D0D1 P f))) + (((2 * (ks_k0 P f)) * (ks_ddc_D0D0 P f)) * (ks_dk0_D1 P f))) + (((2 * (ks_k0
  P f)) * (ks_dc_D1 P f)) * (ks_ddk0_D0D0 P f))) + (((4 * (ks_k0 P f)) * (ks_dk0_D0 P f)) *
  (ks_ddc_D0D1 P f))) + (((4 * (ks_dc_D0 P f)) * (ks_dk0_D0 P f)) * (ks_dk0_D1 P f))) + ((2 *
  (ks_dc_D1 P f)) * ((ks_dk0_D0 P f) ^ 2)).

(* /repo/Src/Main/Modules/Physics/Free_Data/fd_KerrSchild_g_dg_ddg_dddg.c:4352-4408 *)
Definition ks_dddgamma_D0D2D2D1D0 (P : kspar) (f : ksarg) : R :=
  ((((((((((((((((((((((((((((ks_c P f) * (ks_k0 P f)) * (ks_dddk2_D0D1D2 P f)) + (((ks_c P f) *
  (ks_k2 P f)) * (ks_dddk0_D0D1D2 P f))) + (((ks_c P f) * (ks_dk0_D0 P f)) * (ks_ddk2_D1D2 P f))) +
  (((ks_c P f) * (ks_dk0_D1 P f)) * (ks_ddk2_D0D2 P f))) + (((ks_c P f) * (ks_dk0_D2 P f)) *
  (ks_ddk2_D0D1 P f))) + (((ks_c P f) * (ks_dk2_D0 P f)) * (ks_ddk0_D1D2 P f))) + (((ks_c P f) *
  (ks_dk2_D1 P f)) * (ks_ddk0_D0D2 P f))) + (((ks_c P f) * (ks_dk2_D2 P f)) * (ks_ddk0_D0D1 P f))) +
  (((ks_k0 P f) * (ks_k2 P f)) * (ks_dddc_D0D1D2 P f))) + (((ks_k0 P f) * (ks_dc_D0 P f)) *
  (ks_ddk2_D1D2 P f))) + (((ks_k0 P f) * (ks_dc_D1 P f)) * (ks_ddk2_D0D2 P f))) + (((ks_k0 P f) *
  (ks_dc_D2 P f)) * (ks_ddk2_D0D1 P f))) + (((ks_k0 P f) * (ks_dk2_D0 P f)) * (ks_ddc_D1D2 P f))) +
  (((ks_k0 P f) * (ks_dk2_D1 P f)) * (ks_ddc_D0D2 P f))) + (((ks_k0 P f) * (ks_dk2_D2 P f)) *
  (ks_ddc_D0D1 P f))) + (((ks_k2 P f) * (ks_dc_D0 P f)) * (ks_ddk0_D1D2 P f))) + (((ks_k2 P f) *
  (ks_dc_D1 P f)) * (ks_ddk0_D0D2 P f))) + (((ks_k2 P f) * (ks_dc_D2 P f)) * (ks_ddk0_D0D1 P f))) +
  (((ks_k2 P f) * (ks_dk0_D0 P f)) * (ks_ddc_D1D2 P f))) + (((ks_k2 P f) * (ks_dk0_D1 P f)) *
  (ks_ddc_D0D2 P f))) + (((ks_k2 P f) * (ks_dk0_D2 P f)) * (ks_ddc_D0D1 P f))) + (((ks_dc_D0 P f) *
  (ks_dk0_D1 P f)) * (ks_dk2_D2 P f))) + (((ks_dc_D0 P f) * (ks_dk0_D2 P f)) * (ks_dk2_D1 P f))) +
  (((ks_dc_D1 P f) * (ks_dk0_D0 P f)) * (ks_dk2_D2 P f))) + (((ks_dc_D1 P f) * (ks_dk0_D2 P f)) *
  (ks_dk2_D0 P f))) + (((ks_dc_D2 P f) * (ks_dk0_D0 P f)) * (ks_dk2_D1 P f))) + (((ks_dc_D2 P f) *
  (ks_dk0_D1 P f)) * (ks_dk2_D0 P f)).

(* /repo/Src/Main/Modules/Physics/Free_Data/fd_KerrSchild_g_dg_ddg_dddg.c:4410-4450 *)
Definition ks_dddgamma_D0D2D2D0D0 (P : kspar) (f : ksarg) : R :=
  (((((((((((((((((((ks_c P f) * (ks_k0 P f)) * (ks_dddk2_D0D0D2 P f)) + (((ks_c P f) * (ks_k2 P f))
  * (ks_dddk0_D0D0D2 P f))) + (((2 * (ks_c P f)) * (ks_dk0_D0 P f)) * (ks_ddk2_D0D2 P f))) + (((ks_c
  P f) * (ks_ddk0_D0D0 P f)) * (ks_dk2_D2 P f))) + (((ks_c P f) * (ks_dk0_D2 P f)) * (ks_ddk2_D0D0 P
  f))) + (((2 * (ks_c P f)) * (ks_dk2_D0 P f)) * (ks_ddk0_D0D2 P f))) + (((ks_k0 P f) * (ks_k2 P f))
  * (ks_dddc_D0D0D2 P f))) + (((2 * (ks_k0 P f)) * (ks_dc_D0 P f)) * (ks_ddk2_D0D2 P f))) + (((ks_k0
  P f) * (ks_ddc_D0D0 P f)) * (ks_dk2_D2 P f))) + (((ks_k0 P f) * (ks_dc_D2 P f)) * (ks_ddk2_D0D0 P
  f))) + (((2 * (ks_k0 P f)) * (ks_dk2_D0 P f)) * (ks_ddc_D0D2 P f))) + (((2 * (ks_k2 P f)) *
  (ks_dc_D0 P f)) * (ks_ddk0_D0D2 P f))) + (((ks_k2 P f) * (ks_ddc_D0D0 P f)) * (ks_dk0_D2 P f))) +
  (((ks_k2 P f) * (ks_dc_D2 P f)) * (ks_ddk0_D0D0 P f))) + (((2 * (ks_k2 P f)) * (ks_dk0_D0 P f)) *
  (ks_ddc_D0D2 P f))) + (((2 * (ks_dc_D0 P f)) * (ks_dk0_D0 P f)) * (ks_dk2_D2 P f))) + (((2 *
  (ks_dc_D0 P f)) * (ks_dk0_D2 P f)) * (ks_dk2_D0 P f))) + (((2 * (ks_dc_D2 P f)) * (ks_dk0_D0 P f))
  * (ks_dk2_D0 P f)).

(* /repo/Src/Main/Modules/Physics/Free_Data/fd_KerrSchild_g_dg_ddg_dddg.c:4452-4477 *)
Definition ks_dddgamma_D1D1D1D1D2 (P : kspar) (f : ksarg) : R :=
  (((((((((((2 * (ks_c P f)) * (ks_k1 P f)) * (ks_dddk1_D1D1D2 P f)) + (((4 * (ks_c P f)) *
  (ks_dk1_D1 P f)) * (ks_ddk1_D1D2 P f))) + (((2 * (ks_c P f)) * (ks_ddk1_D1D1 P f)) * (ks_dk1_D2 P
  f))) + (((ks_k1 P f) ^ 2) * (ks_dddc_D1D1D2 P f))) + (((4 * (ks_k1 P f)) * (ks_dc_D1 P f)) *
  (ks_ddk1_D1D2 P f))) + (((2 * (ks_k1 P f)) * (ks_ddc_D1D1 P f)) * (ks_dk1_D2 P f))) + (((2 * (ks_k1
  P f)) * (ks_dc_D2 P f)) * (ks_ddk1_D1D1 P f))) + (((4 * (ks_k1 P f)) * (ks_dk1_D1 P f)) *
  (ks_ddc_D1D2 P f))) + (((4 * (ks_dc_D1 P f)) * (ks_dk1_D1 P f)) * (ks_dk1_D2 P f))) + ((2 *
  (ks_dc_D2 P f)) * ((ks_dk1_D1 P f) ^ 2)).

(* /repo/Src/Main/Modules/Physics/Free_Data/fd_KerrSchild_g_dg_ddg_dddg.c:4479-4504 *)
Definition ks_dddgamma_D0D0D2D2D1 (P : kspar) (f : ksarg) : R :=
  (((((((((((2 * (ks_c P f)) * (ks_k0 P f)) * (ks_dddk0_D1D2D2 P f)) + (((2 * (ks_c P f)) *
  (ks_dk0_D1 P f)) * (ks_ddk0_D2D2 P f))) + (((4 * (ks_c P f)) * (ks_dk0_D2 P f)) * (ks_ddk0_D1D2 P
  f))) + (((ks_k0 P f) ^ 2) * (ks_dddc_D1D2D2 P f))) + (((2 * (ks_k0 P f)) * (ks_dc_D1 P f)) *
  (ks_ddk0_D2D2 P f))) + (((4 * (ks_k0 P f)) * (ks_dc_D2 P f)) * (ks_ddk0_D1D2 P f))) + (((2 * (ks_k0
  P f)) * (ks_ddc_D2D2 P f)) * (ks_dk0_D1 P f))) + (((4 * (ks_k0 P f)) * (ks_dk0_D2 P f)) *
  (ks_ddc_D1D2 P f))) + ((2 * (ks_dc_D1 P f)) * ((ks_dk0_D2 P f) ^ 2))) + (((4 * (ks_dc_D2 P f)) *
  (ks_dk0_D1 P f)) * (ks_dk0_D2 P f)).

(* /repo/Src/Main/Modules/Physics/Free_Data/fd_KerrSchild_g_dg_ddg_dddg.c:4506-4531 *)
Definition ks_dddgamma_D2D2D0D1D0 (P : kspar) (f : ksarg) : R :=
  (((((((((((2 * (ks_c P f)) * (ks_k2 P f)) * (ks_dddk2_D0D0D1 P f)) + (((4 * (ks_c P f)) *
  (ks_dk2_D0 P f)) * (ks_ddk2_D0D1 P f))) + (((2 * (ks_c P f)) * (ks_ddk2_D0D0 P f)) * (ks_dk2_D1 P
  f))) + (((ks_k2 P f) ^ 2) * (ks_dddc_D0D0D1 P f))) + (((4 * (ks_k2 P f)) * (ks_dc_D0 P f)) *
  (ks_ddk2_D0D1 P f))) + (((2 * (ks_k2 P f)) * (ks_ddc_D0D0 P f)) * (ks_dk2_D1 P f))) + (((2 * (ks_k2
  P f)) * (ks_dc_D1 P f)) * (ks_ddk2_D0D0 P f))) + (((4 * (ks_k2 P f)) * (ks_dk2_D0 P f)) *
  (ks_ddc_D0D1 P f))) + (((4 * (ks_dc_D0 P f)) * (ks_dk2_D0 P f)) * (ks_dk2_D1 P f))) + ((2 *
  (ks_dc_D1 P f)) * ((ks_dk2_D0 P f) ^ 2)).

(* /repo/Src/Main/Modules/Physics/Free_Data/fd_KerrSchild_g_dg_ddg_dddg.c:4533-4558 *)
Definition ks_dddgamma_D1D1D2D0D2 (P : kspar) (f : ksarg) : R :=
  (((((((((((2 * (ks_c P f)) * (ks_k1 P f)) * (ks_dddk1_D0D2D2 P f)) + (((2 * (ks_c P f)) *
  (ks_dk1_D0 P f)) * (ks_ddk1_D2D2 P f))) + (((4 * (ks_c P f)) * (ks_dk1_D2 P f)) * (ks_ddk1_D0D2 P
  f))) + (((ks_k1 P f) ^ 2) * (ks_dddc_D0D2D2 P f))) + (((2 * (ks_k1 P f)) * (ks_dc_D0 P f)) *
  (ks_ddk1_D2D2 P f))) + (((4 * (ks_k1 P f)) * (ks_dc_D2 P f)) * (ks_ddk1_D0D2 P f))) + (((2 * (ks_k1
  P f)) * (ks_ddc_D2D2 P f)) * (ks_dk1_D0 P f))) + (((4 * (ks_k1 P f)) * (ks_dk1_D2 P f)) *
  (ks_ddc_D0D2 P f))) + ((2 * (ks_dc_D0 P f)) * ((ks_dk1_D2 P f) ^ 2))) + (((4 * (ks_dc_D2 P f)) *
  (ks_dk1_D0 P f)) * (ks_dk1_D2 P f)).

(* /repo/Src/Main/Modules/Physics/Free_Data/fd_KerrSchild_g_dg_ddg_dddg.c:4560-4585 *)
Definition ks_dddgamma_D0D1D1D1D1 (P : kspar) (f : ksarg) : R :=
  (((((((((((ks_c P f) * (ks_k0 P f)) * (ks_dddk1_D1D1D1 P f)) + (((ks_c P f) * (ks_k1 P f)) *
  (ks_dddk0_D1D1D1 P f))) + (((3 * (ks_c P f)) * (ks_dk0_D1 P f)) * (ks_ddk1_D1D1 P f))) + (((3 *
  (ks_c P f)) * (ks_ddk0_D1D1 P f)) * (ks_dk1_D1 P f))) + (((ks_k0 P f) * (ks_k1 P f)) *
  (ks_dddc_D1D1D1 P f))) + (((3 * (ks_k0 P f)) * (ks_dc_D1 P f)) * (ks_ddk1_D1D1 P f))) + (((3 *
  (ks_k0 P f)) * (ks_ddc_D1D1 P f)) * (ks_dk1_D1 P f))) + (((3 * (ks_k1 P f)) * (ks_dc_D1 P f)) *
  (ks_ddk0_D1D1 P f))) + (((3 * (ks_k1 P f)) * (ks_ddc_D1D1 P f)) * (ks_dk0_D1 P f))) + (((6 *
  (ks_dc_D1 P f)) * (ks_dk0_D1 P f)) * (ks_dk1_D1 P f)).

(* /repo/Src/Main/Modules/Physics/Free_Data/fd_KerrSchild_g_dg_ddg_dddg.c:4587-4612 *)
Definition ks_dddgamma_D1D2D0D0D0 (P : kspar) (f : ksarg) : R :=
  (((((((((((ks_c P f) * (ks_k1 P f)) * (ks_dddk2_D0D0D0 P f)) + (((ks_c P f) * (ks_k2 P f)) *
  (ks_dddk1_D0D0D0 P f))) + (((3 * (ks_c P f)) * (ks_dk1_D0 P f)) * (ks_ddk2_D0D0 P f))) + (((3 *
  (ks_c P f)) * (ks_ddk1_D0D0 P f)) * (ks_dk2_D0 P f))) + (((ks_k1 P f) * (ks_k2 P f)) *
  (ks_dddc_D0D0D0 P f))) + (((3 * (ks_k1 P f)) * (ks_dc_D0 P f)) * (ks_ddk2_D0D0 P f))) + (((3 *
  (ks_k1 P f)) * (ks_ddc_D0D0 P f)) * (ks_dk2_D0 P f))) + (((3 * (ks_k2 P f)) * (ks_dc_D0 P f)) *
  (ks_ddk1_D0D0 P f))) + (((3 * (ks_k2 P f)) * (ks_ddc_D0D0 P f)) * (ks_dk1_D0 P f))) + (((6 *
  (ks_dc_D0 P f)) * (ks_dk1_D0 P f)) * (ks_dk2_D0 P f)).

(* /repo/Src/Main/Modules/Physics/Free_Data/fd_KerrSchild_g_dg_ddg_dddg.c:4614-4654 *)
Definition ks_dddgamma_D1D2D0D0D2 (P : kspar) (f : ksarg) : R :=
  (((((((((((((((((((ks_c P f) * (ks_k1 P f)) * (ks_dddk2_D0D0D2 P f)) + (((ks_c P f) * (ks_k2 P f))
  * (ks_dddk1_D0D0D2 P f))) + (((2 * (ks_c P f)) * (ks_dk1_D0 P f)) * (ks_ddk2_D0D2 P f))) + (((ks_c
  P f) * (ks_ddk1_D0D0 P f)) * (ks_dk2_D2 P f))) + (((ks_c P f) * (ks_dk1_D2 P f)) * (ks_ddk2_D0D0 P
  f))) + (((2 * (ks_c P f)) * (ks_dk2_D0 P f)) * (ks_ddk1_D0D2 P f))) + (((ks_k1 P f) * (ks_k2 P f))
  * (ks_dddc_D0D0D2 P f))) + (((2 * (ks_k1 P f)) * (ks_dc_D0 P f)) * (ks_ddk2_D0D2 P f))) + (((ks_k1
  P f) * (ks_ddc_D0D0 P f)) * (ks_dk2_D2 P f))) + (((ks_k1 P f) * (ks_dc_D2 P f)) * (ks_ddk2_D0D0 P
  f))) + (((2 * (ks_k1 P f)) * (ks_dk2_D0 P f)) * (ks_ddc_D0D2 P f))) + (((2 * (ks_k2 P f)) *
  (ks_dc_D0 P f)) * (ks_ddk1_D0D2 P f))) + (((ks_k2 P f) * (ks_ddc_D0D0 P f)) * (ks_dk1_D2 P f))) +
  (((ks_k2 P f) * (ks_dc_D2 P f)) * (ks_ddk1_D0D0 P f))) + (((2 * (ks_k2 P f)) * (ks_dk1_D0 P f)) *
  (ks_ddc_D0D2 P f))) + (((2 * (ks_dc_D0 P f)) * (ks_dk1_D0 P f)) * (ks_dk2_D2 P f))) + (((2 *
  (ks_dc_D0 P f)) * (ks_dk1_D2 P f)) * (ks_dk2_D0 P f))) + (((2 * (ks_dc_D2 P f)) * (ks_dk1_D0 P f))
  * (ks_dk2_D0 P f)).

(* /repo/Src/Main/Modules/Physics/Free_Data/fd_KerrSchild_g_dg_ddg_dddg.c:4656-4690 *)
Definition ks_dddgamma_D2D2D0D1D2 (P : kspar) (f : ksarg) : R :=
  (((((((((((((((2 * (ks_c P f)) * (ks_k2 P f)) * (ks_dddk2_D0D1D2 P f)) + (((2 * (ks_c P f)) *
  (ks_dk2_D0 P f)) * (ks_ddk2_D1D2 P f))) + (((2 * (ks_c P f)) * (ks_dk2_D1 P f)) * (ks_ddk2_D0D2 P
  f))) + (((2 * (ks_c P f)) * (ks_dk2_D2 P f)) * (ks_ddk2_D0D1 P f))) + (((ks_k2 P f) ^ 2) *
  (ks_dddc_D0D1D2 P f))) + (((2 * (ks_k2 P f)) * (ks_dc_D0 P f)) * (ks_ddk2_D1D2 P f))) + (((2 *
  (ks_k2 P f)) * (ks_dc_D1 P f)) * (ks_ddk2_D0D2 P f))) + (((2 * (ks_k2 P f)) * (ks_dc_D2 P f)) *
  (ks_ddk2_D0D1 P f))) + (((2 * (ks_k2 P f)) * (ks_dk2_D0 P f)) * (ks_ddc_D1D2 P f))) + (((2 * (ks_k2
  P f)) * (ks_dk2_D1 P f)) * (ks_ddc_D0D2 P f))) + (((2 * (ks_k2 P f)) * (ks_dk2_D2 P f)) *
  (ks_ddc_D0D1 P f))) + (((2 * (ks_dc_D0 P f)) * (ks_dk2_D1 P f)) * (ks_dk2_D2 P f))) + (((2 *
  (ks_dc_D1 P f)) * (ks_dk2_D0 P f)) * (ks_dk2_D2 P f))) + (((2 * (ks_dc_D2 P f)) * (ks_dk2_D0 P f))
  * (ks_dk2_D1 P f)).

(* /repo/Src/Main/Modules/Physics/Free_Data/fd_KerrSchild_g_dg_ddg_dddg.c:4692-4708 *)
Definition ks_dddgamma_D0D0D1D1D1 (P : kspar) (f : ksarg) : R :=
  (((((((2 * (ks_c P f)) * (ks_k0 P f)) * (ks_dddk0_D1D1D1 P f)) + (((6 * (ks_c P f)) * (ks_dk0_D1 P
  f)) * (ks_ddk0_D1D1 P f))) + (((ks_k0 P f) ^ 2) * (ks_dddc_D1D1D1 P f))) + (((6 * (ks_k0 P f)) *
  (ks_dc_D1 P f)) * (ks_ddk0_D1D1 P f))) + (((6 * (ks_k0 P f)) * (ks_ddc_D1D1 P f)) * (ks_dk0_D1 P
  f))) + ((6 * (ks_dc_D1 P f)) * ((ks_dk0_D1 P f) ^ 2)).

(* /repo/Src/Main/Modules/Physics/Free_Data/fd_KerrSchild_g_dg_ddg_dddg.c:4710-4750 *)
Definition ks_dddgamma_D0D2D0D1D0 (P : kspar) (f : ksarg) : R :=
  (((((((((((((((((((ks_c P f) * (ks_k0 P f)) * (ks_dddk2_D0D0D1 P f)) + (((ks_c P f) * (ks_k2 P f))
  * (ks_dddk0_D0D0D1 P f))) + (((2 * (ks_c P f)) * (ks_dk0_D0 P f)) * (ks_ddk2_D0D1 P f))) + (((ks_c
  P f) * (ks_ddk0_D0D0 P f)) * (ks_dk2_D1 P f))) + (((ks_c P f) * (ks_dk0_D1 P f)) * (ks_ddk2_D0D0 P
  f))) + (((2 * (ks_c P f)) * (ks_dk2_D0 P f)) * (ks_ddk0_D0D1 P f))) + (((ks_k0 P f) * (ks_k2 P f))
  * (ks_dddc_D0D0D1 P f))) + (((2 * (ks_k0 P f)) * (ks_dc_D0 P f)) * (ks_ddk2_D0D1 P f))) + (((ks_k0
  P f) * (ks_ddc_D0D0 P f)) * (ks_dk2_D1 P f))) + (((ks_k0 P f) * (ks_dc_D1 P f)) * (ks_ddk2_D0D0 P
  f))) + (((2 * (ks_k0 P f)) * (ks_dk2_D0 P f)) * (ks_ddc_D0D1 P f))) + (((2 * (ks_k2 P f)) *
  (ks_dc_D0 P f)) * (ks_ddk0_D0D1 P f))) + (((ks_k2 P f) * (ks_ddc_D0D0 P f)) * (ks_dk0_D1 P f))) +
  (((ks_k2 P f) * (ks_dc_D1 P f)) * (ks_ddk0_D0D0 P f))) + (((2 * (ks_k2 P f)) * (ks_dk0_D0 P f)) *
  (ks_ddc_D0D1 P f))) + (((2 * (ks_dc_D0 P f)) * (ks_dk0_D0 P f)) * (ks_dk2_D1 P f))) + (((2 *
  (ks_dc_D0 P f)) * (ks_dk0_D1 P f)) * (ks_dk2_D0 P f))) + (((2 * (ks_dc_D1 P f)) * (ks_dk0_D0 P f))
  * (ks_dk2_D0 P f)).

(* /repo/Src/Main/Modules/Physics/Free_Data/fd_KerrSchild_g_dg_ddg_dddg.c:4752-4792 *)
Definition ks_dddgamma_D0D2D1D2D1 (P : kspar) (f : ksarg) : R :=
  (((((((((((((((((((ks_c P f) * (ks_k0 P f)) * (ks_dddk2_D1D1D2 P f)) + (((ks_c P f) * (ks_k2 P f))
  * (ks_dddk0_D1D1D2 P f))) + (((2 * (ks_c P f)) * (ks_dk0_D1 P f)) * (ks_ddk2_D1D2 P f))) + (((ks_c
  P f) * (ks_ddk0_D1D1 P f)) * (ks_dk2_D2 P f))) + (((ks_c P f) * (ks_dk0_D2 P f)) * (ks_ddk2_D1D1 P
  f))) + (((2 * (ks_c P f)) * (ks_dk2_D1 P f)) * (ks_ddk0_D1D2 P f))) + (((ks_k0 P f) * (ks_k2 P f))
  * (ks_dddc_D1D1D2 P f))) + (((2 * (ks_k0 P f)) * (ks_dc_D1 P f)) * (ks_ddk2_D1D2 P f))) + (((ks_k0
  P f) * (ks_ddc_D1D1 P f)) * (ks_dk2_D2 P f))) + (((ks_k0 P f) * (ks_dc_D2 P f)) * (ks_ddk2_D1D1 P
  f))) + (((2 * (ks_k0 P f)) * (ks_dk2_D1 P f)) * (ks_ddc_D1D2 P f))) + (((2 * (ks_k2 P f)) *
  (ks_dc_D1 P f)) * (ks_ddk0_D1D2 P f))) + (((ks_k2 P f) * (ks_ddc_D1D1 P f)) * (ks_dk0_D2 P f))) +
  (((ks_k2 P f) * (ks_dc_D2 P f)) * (ks_ddk0_D1D1 P f))) + (((2 * (ks_k2 P f)) * (ks_dk0_D1 P f)) *
  (ks_ddc_D1D2 P f))) + (((2 * (ks_dc_D1 P f)) * (ks_dk0_D1 P f)) * (ks_dk2_D2 P f))) + (((2 *
  (ks_dc_D1 P f)) * (ks_dk0_D2 P f)) * (ks_dk2_D1 P f))) + (((2 * (ks_dc_D2 P f)) * (ks_dk0_D1 P f))
  * (ks_dk2_D1 P f)).

(* /repo/Src/Main/Modules/Physics/Free_Data/fd_KerrSchild_g_dg_ddg_dddg.c:4794-4834 *)
Definition ks_dddgamma_D1D2D1D2D2 (P : kspar) (f : ksarg) : R :=
  (((((((((((((((((((ks_c P f) * (ks_k1 P f)) * (ks_dddk2_D1D2D2 P f)) + (((ks_c P f) * (ks_k2 P f))
  * (ks_dddk1_D1D2D2 P f))) + (((ks_c P f) * (ks_dk1_D1 P f)) * (ks_ddk2_D2D2 P f))) + (((2 * (ks_c P
  f)) * (ks_dk1_D2 P f)) * (ks_ddk2_D1D2 P f))) + (((ks_c P f) * (ks_ddk1_D2D2 P f)) * (ks_dk2_D1 P
  f))) + (((2 * (ks_c P f)) * (ks_dk2_D2 P f)) * (ks_ddk1_D1D2 P f))) + (((ks_k1 P f) * (ks_k2 P f))
  * (ks_dddc_D1D2D2 P f))) + (((ks_k1 P f) * (ks_dc_D1 P f)) * (ks_ddk2_D2D2 P f))) + (((2 * (ks_k1 P
  f)) * (ks_dc_D2 P f)) * (ks_ddk2_D1D2 P f))) + (((ks_k1 P f) * (ks_ddc_D2D2 P f)) * (ks_dk2_D1 P
  f))) + (((2 * (ks_k1 P f)) * (ks_dk2_D2 P f)) * (ks_ddc_D1D2 P f))) + (((ks_k2 P f) * (ks_dc_D1 P
  f)) * (ks_ddk1_D2D2 P f))) + (((2 * (ks_k2 P f)) * (ks_dc_D2 P f)) * (ks_ddk1_D1D2 P f))) +
  (((ks_k2 P f) * (ks_ddc_D2D2 P f)) * (ks_dk1_D1 P f))) + (((2 * (ks_k2 P f)) * (ks_dk1_D2 P f)) *
  (ks_ddc_D1D2 P f))) + (((2 * (ks_dc_D1 P f)) * (ks_dk1_D2 P f)) * (ks_dk2_D2 P f))) + (((2 *
  (ks_dc_D2 P f)) * (ks_dk1_D1 P f)) * (ks_dk2_D2 P f))) + (((2 * (ks_dc_D2 P f)) * (ks_dk1_D2 P f))
  * (ks_dk2_D1 P f)).

(* /repo/Src/Main/Modules/Physics/Free_Data/fd_KerrSchild_g_dg_ddg_dddg.c:4836-4876 *)
Definition ks_dddgamma_D0D1D1D0D0 (P : kspar) (f : ksarg) : R :=
  (((((((((((((((((((ks_c P f) * (ks_k0 P f)) * (ks_dddk1_D0D0D1 P f)) + (((ks_c P f) * (ks_k1 P f))
  * (ks_dddk0_D0D0D1 P f))) + (((2 * (ks_c P f)) * (ks_dk0_D0 P f)) * (ks_ddk1_D0D1 P f))) + (((ks_c
  P f) * (ks_ddk0_D0D0 P f)) * (ks_dk1_D1 P f))) + (((ks_c P f) * (ks_dk0_D1 P f)) * (ks_ddk1_D0D0 P
  f))) + (((2 * (ks_c P f)) * (ks_dk1_D0 P f)) * (ks_ddk0_D0D1 P f))) + (((ks_k0 P f) * (ks_k1 P f))
  * (ks_dddc_D0D0D1 P f))) + (((2 * (ks_k0 P f)) * (ks_dc_D0 P f)) * (ks_ddk1_D0D1 P f))) + (((ks_k0
  P f) * (ks_ddc_D0D0 P f)) * (ks_dk1_D1 P f))) + (((ks_k0 P f) * (ks_dc_D1 P f)) * (ks_ddk1_D0D0 P
  f))) + (((2 * (ks_k0 P f)) * (ks_dk1_D0 P f)) * (ks_ddc_D0D1 P f))) + (((2 * (ks_k1 P f)) *
  (ks_dc_D0 P f)) * (ks_ddk0_D0D1 P f))) + (((ks_k1 P f) * (ks_ddc_D0D0 P f)) * (ks_dk0_D1 P f))) +
  (((ks_k1 P f) * (ks_dc_D1 P f)) * (ks_ddk0_D0D0 P f))) + (((2 * (ks_k1 P f)) * (ks_dk0_D0 P f)) *
  (ks_ddc_D0D1 P f))) + (((2 * (ks_dc_D0 P f)) * (ks_dk0_D0 P f)) * (ks_dk1_D1 P f))) + (((2 *
  (ks_dc_D0 P f)) * (ks_dk0_D1 P f)) * (ks_dk1_D0 P f))) + (((2 * (ks_dc_D1 P f)) * (ks_dk0_D0 P f))
  * (ks_dk1_D0 P f)).

(* /repo/Src/Main/Modules/Physics/Free_Data/fd_KerrSchild_g_dg_ddg_dddg.c:4878-4912 *)
Definition ks_dddgamma_D0D0D1D2D0 (P : kspar) (f : ksarg) : R :=
  (((((((((((((((2 * (ks_c P f)) * (ks_k0 P f)) * (ks_dddk0_D0D1D2 P f)) + (((2 * (ks_c P f)) *
  (ks_dk0_D0 P f)) * (ks_ddk0_D1D2 P f))) + (((2 * (ks_c P f)) * (ks_dk0_D1 P f)) * (ks_ddk0_D0D2 P
  f))) + (((2 * (ks_c P f)) * (ks_dk0_D2 P f)) * (ks_ddk0_D0D1 P f))) + (((ks_k0 P f) ^ 2) *
  (ks_dddc_D0D1D2 P f))) + (((2 * (ks_k0 P f)) * (ks_dc_D0 P f)) * (ks_ddk0_D1D2 P f))) + (((2 *
  (ks_k0 P f)) * (ks_dc_D1 P f)) * (ks_ddk0_D0D2 P f))) + (((2 * (ks_k0 P f)) * (ks_dc_D2 P f)) *
  (ks_ddk0_D0D1 P f))) + (((2 * (ks_k0 P f)) * (ks_dk0_D0 P f)) * (ks_ddc_D1D2 P f))) + (((2 * (ks_k0
  P f)) * (ks_dk0_D1 P f)) * (ks_ddc_D0D2 P f))) + (((2 * (ks_k0 P f)) * (ks_dk0_D2 P f)) *
  (ks_ddc_D0D1 P f))) + (((2 * (ks_dc_D0 P f)) * (ks_dk0_D1 P f)) * (ks_dk0_D2 P f))) + (((2 *
  (ks_dc_D1 P f)) * (ks_dk0_D0 P f)) * (ks_dk0_D2 P f))) + (((2 * (ks_dc_D2 P f)) * (ks_dk0_D0 P f))
  * (ks_dk0_D1 P f)).

(* /repo/Src/Main/Modules/Physics/Free_Data/fd_KerrSchild_g_dg_ddg_dddg.c:4914-4954 *)
Definition ks_dddgamma_D1D2D1D1D0 (P : kspar) (f : ksarg) : R :=
  (((((((((((((((((((ks_c P f) * (ks_k1 P f)) * (ks_dddk2_D0D1D1 P f)) + (((ks_c P f) * (ks_k2 P f))
  * (ks_dddk1_D0D1D1 P f))) + (((ks_c P f) * (ks_dk1_D0 P f)) * (ks_ddk2_D1D1 P f))) + (((2 * (ks_c P
  f)) * (ks_dk1_D1 P f)) * (ks_ddk2_D0D1 P f))) + (((ks_c P f) * (ks_ddk1_D1D1 P f)) * (ks_dk2_D0 P
  f))) + (((2 * (ks_c P f)) * (ks_dk2_D1 P f)) * (ks_ddk1_D0D1 P f))) + (((ks_k1 P f) * (ks_k2 P f))
  * (ks_dddc_D0D1D1 P f))) + (((ks_k1 P f) * (ks_dc_D0 P f)) * (ks_ddk2_D1D1 P f))) + (((2 * (ks_k1 P
  f)) * (ks_dc_D1 P f)) * (ks_ddk2_D0D1 P f))) + (((ks_k1 P f) * (ks_ddc_D1D1 P f)) * (ks_dk2_D0 P
  f))) + (((2 * (ks_k1 P f)) * (ks_dk2_D1 P f)) * (ks_ddc_D0D1 P f))) + (((ks_k2 P f) * (ks_dc_D0 P
  f)) * (ks_ddk1_D1D1 P f))) + (((2 * (ks_k2 P f)) * (ks_dc_D1 P f)) * (ks_ddk1_D0D1 P f))) +
  (((ks_k2 P f) * (ks_ddc_D1D1 P f)) * (ks_dk1_D0 P f))) + (((2 * (ks_k2 P f)) * (ks_dk1_D1 P f)) *
  (ks_ddc_D0D1 P f))) + (((2 * (ks_dc_D0 P f)) * (ks_dk1_D1 P f)) * (ks_dk2_D1 P f))) + (((2 *
  (ks_dc_D1 P f)) * (ks_dk1_D0 P f)) * (ks_dk2_D1 P f))) + (((2 * (ks_dc_D1 P f)) * (ks_dk1_D1 P f))
  * (ks_dk2_D0 P f)).

(* /repo/Src/Main/Modules/Physics/Free_Data/fd_KerrSchild_g_dg_ddg_dddg.c:4956-4996 *)
Definition ks_dddgamma_D1D2D2D2D1 (P : kspar) (f : ksarg) : R :=
  (((((((((((((((((((ks_c P f) * (ks_k1 P f)) * (ks_dddk2_D1D2D2 P f)) + (((ks_c P f) * (ks_k2 P f))
  * (ks_dddk1_D1D2D2 P f))) + (((ks_c P f) * (ks_dk1_D1 P f)) * (ks_ddk2_D2D2 P f))) + (((2 * (ks_c P
  f)) * (ks_dk1_D2 P f)) * (ks_ddk2_D1D2 P f))) + (((ks_c P f) * (ks_ddk1_D2D2 P f)) * (ks_dk2_D1 P
  f))) + (((2 * (ks_c P f)) * (ks_dk2_D2 P f)) * (ks_ddk1_D1D2 P f))) + (((ks_k1 P f) * (ks_k2 P f))
  * (ks_dddc_D1D2D2 P f))) + (((ks_k1 P f) * (ks_dc_D1 P f)) * (ks_ddk2_D2D2 P f))) + (((2 * (ks_k1 P
  f)) * (ks_dc_D2 P f)) * (ks_ddk2_D1D2 P f))) + (((ks_k1 P f) * (ks_ddc_D2D2 P f)) * (ks_dk2_D1 P
  f))) + (((2 * (ks_k1 P f)) * (ks_dk2_D2 P f)) * (ks_ddc_D1D2 P f))) + (((ks_k2 P f) * (ks_dc_D1 P
  f)) * (ks_ddk1_D2D2 P f))) + (((2 * (ks_k2 P f)) * (ks_dc_D2 P f)) * (ks_ddk1_D1D2 P f))) +
  (((ks_k2 P f) * (ks_ddc_D2D2 P f)) * (ks_dk1_D1 P f))) + (((2 * (ks_k2 P f)) * (ks_dk1_D2 P f)) *
  (ks_ddc_D1D2 P f))) + (((2 * (ks_dc_D1 P f)) * (ks_dk1_D2 P f)) * (ks_dk2_D2 P f))) + (((2 *
  (ks_dc_D2 P f)) * (ks_dk1_D1 P f)) * (ks_dk2_D2 P f))) + (((2 * (ks_dc_D2 P f)) * (ks_dk1_D2 P f))
  * (ks_dk2_D1 P f)).

(* /repo/Src/Main/Modules/Physics/Free_Data/fd_KerrSchild_g_dg_ddg_dddg.c:4998-5023 *)
Definition ks_dddgamma_D0D1D0D0D0 (P : kspar) (f : ksarg) : R :=
  (((((((((((ks_c P f) * (ks_k0 P f)) * (ks_dddk1_D0D0D0 P f)) + (((ks_c P f) * (ks_k1 P f)) *
  (ks_dddk0_D0D0D0 P f))) + (((3 * (ks_c P f)) * (ks_dk0_D0 P f)) * (ks_ddk1_D0D0 P f))) + (((3 *
  (ks_c P f)) * (ks_ddk0_D0D0 P f)) * (ks_dk1_D0 P f))) + (((ks_k0 P f) * (ks_k1 P f)) *
  (ks_dddc_D0D0D0 P f))) + (((3 * (ks_k0 P f)) * (ks_dc_D0 P f)) * (ks_ddk1_D0D0 P f))) + (((3 *
  (ks_k0 P f)) * (ks_ddc_D0D0 P f)) * (ks_dk1_D0 P f))) + (((3 * (ks_k1 P f)) * (ks_dc_D0 P f)) *
  (ks_ddk0_D0D0 P f))) + (((3 * (ks_k1 P f)) * (ks_ddc_D0D0 P f)) * (ks_dk0_D0 P f))) + (((6 *
  (ks_dc_D0 P f)) * (ks_dk0_D0 P f)) * (ks_dk1_D0 P f)).

(* /repo/Src/Main/Modules/Physics/Free_Data/fd_KerrSchild_g_dg_ddg_dddg.c:5025-5065 *)
Definition ks_dddgamma_D1D2D2D1D1 (P : kspar) (f : ksarg) : R :=
  (((((((((((((((((((ks_c P f) * (ks_k1 P f)) * (ks_dddk2_D1D1D2 P f)) + (((ks_c P f) * (ks_k2 P f))
  * (ks_dddk1_D1D1D2 P f))) + (((2 * (ks_c P f)) * (ks_dk1_D1 P f)) * (ks_ddk2_D1D2 P f))) + (((ks_c
  P f) * (ks_ddk1_D1D1 P f)) * (ks_dk2_D2 P f))) + (((ks_c P f) * (ks_dk1_D2 P f)) * (ks_ddk2_D1D1 P
  f))) + (((2 * (ks_c P f)) * (ks_dk2_D1 P f)) * (ks_ddk1_D1D2 P f))) + (((ks_k1 P f) * (ks_k2 P f))
  * (ks_dddc_D1D1D2 P f))) + (((2 * (ks_k1 P f)) * (ks_dc_D1 P f)) * (ks_ddk2_D1D2 P f))) + (((ks_k1
  P f) * (ks_ddc_D1D1 P f)) * (ks_dk2_D2 P f))) + (((ks_k1 P f) * (ks_dc_D2 P f)) * (ks_ddk2_D1D1 P
  f))) + (((2 * (ks_k1 P f)) * (ks_dk2_D1 P f)) * (ks_ddc_D1D2 P f))) + (((2 * (ks_k2 P f)) *
  (ks_dc_D1 P f)) * (ks_ddk1_D1D2 P f))) + (((ks_k2 P f) * (ks_ddc_D1D1 P f)) * (ks_dk1_D2 P f))) +
  (((ks_k2 P f) * (ks_dc_D2 P f)) * (ks_ddk1_D1D1 P f))) + (((2 * (ks_k2 P f)) * (ks_dk1_D1 P f)) *
  (ks_ddc_D1D2 P f))) + (((2 * (ks_dc_D1 P f)) * (ks_dk1_D1 P f)) * (ks_dk2_D2 P f))) + (((2 *
  (ks_dc_D1 P f)) * (ks_dk1_D2 P f)) * (ks_dk2_D1 P f))) + (((2 * (ks_dc_D2 P f)) * (ks_dk1_D1 P f))
  * (ks_dk2_D1 P f)).

(* /repo/Src/Main/Modules/Physics/Free_Data/fd_KerrSchild_g_dg_ddg_dddg.c:5067-5092 *)
Definition ks_dddgamma_D0D0D0D1D0 (P : kspar) (f : ksarg) : R :=
  (((((((((((2 * (ks_c P f)) * (ks_k0 P f)) * (ks_dddk0_D0D0D1 P f)) + (((4 * (ks_c P f)) *
  (ks_dk0_D0 P f)) * (ks_ddk0_D0D1 P f))) + (((2 * (ks_c P f)) * (ks_ddk0_D0D0 P f)) * (ks_dk0_D1 P
  f))) + (((ks_k0 P f) ^ 2) * (ks_dddc_D0D0D1 P f))) + (((4 * (ks_k0 P f)) * (ks_dc_D0 P f)) *
  (ks_ddk0_D0D1 P f))) + (((2 * (ks_k0 P f)) * (ks_ddc_D0D0 P f)) * (ks_dk0_D1 P f))) + (((2 * (ks_k0
  P f)) * (ks_dc_D1 P f)) * (ks_ddk0_D0D0 P f))) + (((4 * (ks_k0 P f)) * (ks_dk0_D0 P f)) *
  (ks_ddc_D0D1 P f))) + (((4 * (ks_dc_D0 P f)) * (ks_dk0_D0 P f)) * (ks_dk0_D1 P f))) + ((2 *
  (ks_dc_D1 P f)) * ((ks_dk0_D0 P f) ^ 2)).

(* /repo/Src/Main/Modules/Physics/Free_Data/fd_KerrSchild_g_dg_ddg_dddg.c:5094-5119 *)
Definition ks_dddgamma_D0D0D0D0D1 (P : kspar) (f : ksarg) : R :=
  (((((((((((2 * (ks_c P f)) * (ks_k0 P f)) * (ks_dddk0_D0D0D1 P f)) + (((4 * (ks_c P f)) *
  (ks_dk0_D0 P f)) * (ks_ddk0_D0D1 P f))) + (((2 * (ks_c P f)) * (ks_ddk0_D0D0 P f)) * (ks_dk0_D1 P
  f))) + (((ks_k0 P f) ^ 2) * (ks_dddc_D0D0D1 P f))) + (((4 * (ks_k0 P f)) * (ks_dc_D0 P f)) *
  (ks_ddk0_D0D1 P f))) + (((2 * (ks_k0 P f)) * (ks_ddc_D0D0 P f)) * (ks_dk0_D1 P f))) + (((2 * (ks_k0
  P f)) * (ks_dc_D1 P f)) * (ks_ddk0_D0D0 P f))) + (((4 * (ks_k0 P f)) * (ks_dk0_D0 P f)) *
  (ks_ddc_D0D1 P f))) + (((4 * (ks_dc_D0 P f)) * (ks_dk0_D0 P f)) * (ks_dk0_D1 P f))) + ((2 *
  (ks_dc_D1 P f)) * ((ks_dk0_D0 P f) ^ 2)).

(* /repo/Src/Main/Modules/Physics/Free_Data/fd_KerrSchild_g_dg_ddg_dddg.c:5121-5146 *)
Definition ks_dddgamma_D0D0D0D2D2 (P : kspar) (f : ksarg) : R :=
  (((((((((((2 * (ks_c P f)) * (ks_k0 P f)) * (ks_dddk0_D0D2D2 P f)) + (((2 * (ks_c P f)) *
  (ks_dk0_D0 P f)) * (ks_ddk0_D2D2 P f))) + (((4 * (ks_c P f)) * (ks_dk0_D2 P f)) * (ks_ddk0_D0D2 P
  f))) + (((ks_k0 P f) ^ 2) * (ks_dddc_D0D2D2 P f))) + (((2 * (ks_k0 P f)) * (ks_dc_D0 P f)) *
  (ks_ddk0_D2D2 P f))) + (((4 * (ks_k0 P f)) * (ks_dc_D2 P f)) * (ks_ddk0_D0D2 P f))) + (((2 * (ks_k0
  P f)) * (ks_ddc_D2D2 P f)) * (ks_dk0_D0 P f))) + (((4 * (ks_k0 P f)) * (ks_dk0_D2 P f)) *
  (ks_ddc_D0D2 P f))) + ((2 * (ks_dc_D0 P f)) * ((ks_dk0_D2 P f) ^ 2))) + (((4 * (ks_dc_D2 P f)) *
  (ks_dk0_D0 P f)) * (ks_dk0_D2 P f)).

(* /repo/Src/Main/Modules/Physics/Free_Data/fd_KerrSchild_g_dg_ddg_dddg.c:5148-5204 *)
Definition ks_dddgamma_D1D2D0D2D1 (P : kspar) (f : ksarg) : R :=
  ((((((((((((((((((((((((((((ks_c P f) * (ks_k1 P f)) * (ks_dddk2_D0D1D2 P f)) + (((ks_c P f) *
  (ks_k2 P f)) * (ks_dddk1_D0D1D2 P f))) + (((ks_c P f) * (ks_dk1_D0 P f)) * (ks_ddk2_D1D2 P f))) +
  (((ks_c P f) * (ks_dk1_D1 P f)) * (ks_ddk2_D0D2 P f))) + (((ks_c P f) * (ks_dk1_D2 P f)) *
  (ks_ddk2_D0D1 P f))) + (((ks_c P f) * (ks_dk2_D0 P f)) * (ks_ddk1_D1D2 P f))) + (((ks_c P f) *
  (ks_dk2_D1 P f)) * (ks_ddk1_D0D2 P f))) + (((ks_c P f) * (ks_dk2_D2 P f)) * (ks_ddk1_D0D1 P f))) +
  (((ks_k1 P f) * (ks_k2 P f)) * (ks_dddc_D0D1D2 P f))) + (((ks_k1 P f) * (ks_dc_D0 P f)) *
  (ks_ddk2_D1D2 P f))) + (((ks_k1 P f) * (ks_dc_D1 P f)) * (ks_ddk2_D0D2 P f))) + (((ks_k1 P f) *
  (ks_dc_D2 P f)) * (ks_ddk2_D0D1 P f))) + (((ks_k1 P f) * (ks_dk2_D0 P f)) * (ks_ddc_D1D2 P f))) +
  (((ks_k1 P f) * (ks_dk2_D1 P f)) * (ks_ddc_D0D2 P f))) + (((ks_k1 P f) * (ks_dk2_D2 P f)) *
  (ks_ddc_D0D1 P f))) + (((ks_k2 P f) * (ks_dc_D0 P f)) * (ks_ddk1_D1D2 P f))) + (((ks_k2 P f) *
  (ks_dc_D1 P f)) * (ks_ddk1_D0D2 P f))) + (((ks_k2 P f) * (ks_dc_D2 P f)) * (ks_ddk1_D0D1 P f))) +
  (((ks_k2 P f) * (ks_dk1_D0 P f)) * (ks_ddc_D1D2 P f))) + (((ks_k2 P f) * (ks_dk1_D1 P f)) *
  (ks_ddc_D0D2 P f))) + (((ks_k2 P f) * (ks_dk1_D2 P f)) * (ks_ddc_D0D1 P f))) + (((ks_dc_D0 P f) *
  (ks_dk1_D1 P f)) * (ks_dk2_D2 P f))) + (((ks_dc_D0 P f) * (ks_dk1_D2 P f)) * (ks_dk2_D1 P f))) +
  (((ks_dc_D1 P f) * (ks_dk1_D0 P f)) * (ks_dk2_D2 P f))) + (((ks_dc_D1 P f) * (ks_dk1_D2 P f)) *
  (ks_dk2_D0 P f))) + (((ks_dc_D2 P f) * (ks_dk1_D0 P f)) * (ks_dk2_D1 P f))) + (((ks_dc_D2 P f) *
  (ks_dk1_D1 P f)) * (ks_dk2_D0 P f)).

(* /repo/Src/Main/Modules/Physics/Free_Data/fd_KerrSchild_g_dg_ddg_dddg.c:5206-5231 *)
Definition ks_dddgamma_D2D2D1D1D2 (P : kspar) (f : ksarg) : R :=
  (((((((((((2 * (ks_c P f)) * (ks_k2 P f)) * (ks_dddk2_D1D1D2 P f)) + (((4 * (ks_c P f)) *
  (ks_dk2_D1 P f)) * (ks_ddk2_D1D2 P f))) + (((2 * (ks_c P f)) * (ks_ddk2_D1D1 P f)) * (ks_dk2_D2 P
  f))) + (((ks_k2 P f) ^ 2) * (ks_dddc_D1D1D2 P f))) + (((4 * (ks_k2 P f)) * (ks_dc_D1 P f)) *
  (ks_ddk2_D1D2 P f))) + (((2 * (ks_k2 P f)) * (ks_ddc_D1D1 P f)) * (ks_dk2_D2 P f))) + (((2 * (ks_k2
  P f)) * (ks_dc_D2 P f)) * (ks_ddk2_D1D1 P f))) + (((4 * (ks_k2 P f)) * (ks_dk2_D1 P f)) *
  (ks_ddc_D1D2 P f))) + (((4 * (ks_dc_D1 P f)) * (ks_dk2_D1 P f)) * (ks_dk2_D2 P f))) + ((2 *
  (ks_dc_D2 P f)) * ((ks_dk2_D1 P f) ^ 2)).

(* /repo/Src/Main/Modules/Physics/Free_Data/fd_KerrSchild_g_dg_ddg_dddg.c:5233-5258 *)
Definition ks_dddgamma_D1D2D1D1D1 (P : kspar) (f : ksarg) : R :=
  (((((((((((ks_c P f) * (ks_k1 P f)) * (ks_dddk2_D1D1D1 P f)) + (((ks_c P f) * (ks_k2 P f)) *
  (ks_dddk1_D1D1D1 P f))) + (((3 * (ks_c P f)) * (ks_dk1_D1 P f)) * (ks_ddk2_D1D1 P f))) + (((3 *
  (ks_c P f)) * (ks_ddk1_D1D1 P f)) * (ks_dk2_D1 P f))) + (((ks_k1 P f) * (ks_k2 P f)) *
  (ks_dddc_D1D1D1 P f))) + (((3 * (ks_k1 P f)) * (ks_dc_D1 P f)) * (ks_ddk2_D1D1 P f))) + (((3 *
  (ks_k1 P f)) * (ks_ddc_D1D1 P f)) * (ks_dk2_D1 P f))) + (((3 * (ks_k2 P f)) * (ks_dc_D1 P f)) *
  (ks_ddk1_D1D1 P f))) + (((3 * (ks_k2 P f)) * (ks_ddc_D1D1 P f)) * (ks_dk1_D1 P f))) + (((6 *
  (ks_dc_D1 P f)) * (ks_dk1_D1 P f)) * (ks_dk2_D1 P f)).

(* /repo/Src/Main/Modules/Physics/Free_Data/fd_KerrSchild_g_dg_ddg_dddg.c:5260-5285 *)
Definition ks_dddgamma_D0D0D1D0D1 (P : kspar) (f : ksarg) : R :=
  (((((((((((2 * (ks_c P f)) * (ks_k0 P f)) * (ks_dddk0_D0D1D1 P f)) + (((2 * (ks_c P f)) *
  (ks_dk0_D0 P f)) * (ks_ddk0_D1D1 P f))) + (((4 * (ks_c P f)) * (ks_dk0_D1 P f)) * (ks_ddk0_D0D1 P
  f))) + (((ks_k0 P f) ^ 2) * (ks_dddc_D0D1D1 P f))) + (((2 * (ks_k0 P f)) * (ks_dc_D0 P f)) *
  (ks_ddk0_D1D1 P f))) + (((4 * (ks_k0 P f)) * (ks_dc_D1 P f)) * (ks_ddk0_D0D1 P f))) + (((2 * (ks_k0
  P f)) * (ks_ddc_D1D1 P f)) * (ks_dk0_D0 P f))) + (((4 * (ks_k0 P f)) * (ks_dk0_D1 P f)) *
  (ks_ddc_D0D1 P f))) + ((2 * (ks_dc_D0 P f)) * ((ks_dk0_D1 P f) ^ 2))) + (((4 * (ks_dc_D1 P f)) *
  (ks_dk0_D0 P f)) * (ks_dk0_D1 P f)).

(* /repo/Src/Main/Modules/Physics/Free_Data/fd_KerrSchild_g_dg_ddg_dddg.c:5287-5343 *)
Definition ks_dddgamma_D0D1D0D1D2 (P : kspar) (f : ksarg) : R :=
  ((((((((((((((((((((((((((((ks_c P f) * (ks_k0 P f)) * (ks_dddk1_D0D1D2 P f)) + (((ks_c P f) *
  (ks_k1 P f)) * (ks_dddk0_D0D1D2 P f))) + (((ks_c P f) * (ks_dk0_D0 P f)) * (ks_ddk1_D1D2 P f))) +
  (((ks_c P f) * (ks_dk0_D1 P f)) * (ks_ddk1_D0D2 P f))) + (((ks_c P f) * (ks_dk0_D2 P f)) *
  (ks_ddk1_D0D1 P f))) + (((ks_c P f) * (ks_dk1_D0 P f)) * (ks_ddk0_D1D2 P f))) + (((ks_c P f) *
  (ks_dk1_D1 P f)) * (ks_ddk0_D0D2 P f))) + (((ks_c P f) * (ks_dk1_D2 P f)) * (ks_ddk0_D0D1 P f))) +
  (((ks_k0 P f) * (ks_k1 P f)) * (ks_dddc_D0D1D2 P f))) + (((ks_k0 P f) * (ks_dc_D0 P f)) *
  (ks_ddk1_D1D2 P f))) + (((ks_k0 P f) * (ks_dc_D1 P f)) * (ks_ddk1_D0D2 P f))) + (((ks_k0 P f) *
  (ks_dc_D2 P f)) * (ks_ddk1_D0D1 P f))) + (((ks_k0 P f) * (ks_dk1_D0 P f)) * (ks_ddc_D1D2 P f))) +
  (((ks_k0 P f) * (ks_dk1_D1 P f)) * (ks_ddc_D0D2 P f))) + (((ks_k0 P f) * (ks_dk1_D2 P f)) *
  (ks_ddc_D0D1 P f))) + (((ks_k1 P f) * (ks_dc_D0 P f)) * (ks_ddk0_D1D2 P f))) + (((ks_k1 P f) *
  (ks_dc_D1 P f)) * (ks_ddk0_D0D2 P f))) + (((ks_k1 P f) * (ks_dc_D2 P f)) * (ks_ddk0_D0D1 P f))) +
  (((ks_k1 P f) * (ks_dk0_D0 P f)) * (ks_ddc_D1D2 P f))) + (((ks_k1 P f) * (ks_dk0_D1 P f)) *
  (ks_ddc_D0D2 P f))) + (((ks_k1 P f) * (ks_dk0_D2 P f)) * (ks_ddc_D0D1 P f))) + (((ks_dc_D0 P f) *
  (ks_dk0_D1 P f)) * (ks_dk1_D2 P f))) + (((ks_dc_D0 P f) * (ks_dk0_D2 P f)) * (ks_dk1_D1 P f))) +
  (((ks_dc_D1 P f) * (ks_dk0_D0 P f)) * (ks_dk1_D2 P f))) + (((ks_dc_D1 P f) * (ks_dk0_D2 P f)) *
  (ks_dk1_D0 P f))) + (((ks_dc_D2 P f) * (ks_dk0_D0 P f)) * (ks_dk1_D1 P f))) + (((ks_dc_D2 P f) *
  (ks_dk0_D1 P f)) * (ks_dk1_D0 P f)).

(* /repo/Src/Main/Modules/Physics/Free_Data/fd_KerrSchild_g_dg_ddg_dddg.c:5345-5385 *)
Definition ks_dddgamma_D0D2D1D2D2 (P : kspar) (f : ksarg) : R :=
  (((((((((((((((((((ks_c P f) * (ks_k0 P f)) * (ks_dddk2_D1D2D2 P f)) + (((ks_c P f) * (ks_k2 P f))
  * (ks_dddk0_D1D2D2 P f))) + (((ks_c P f) * (ks_dk0_D1 P f)) * (ks_ddk2_D2D2 P f))) + (((2 * (ks_c P
  f)) * (ks_dk0_D2 P f)) * (ks_ddk2_D1D2 P f))) + (((ks_c P f) * (ks_ddk0_D2D2 P f)) * (ks_dk2_D1 P
  f))) + (((2 * (ks_c P f)) * (ks_dk2_D2 P f)) * (ks_ddk0_D1D2 P f))) + (((ks_k0 P f) * (ks_k2 P f))
  * (ks_dddc_D1D2D2 P f))) + (((ks_k0 P f) * (ks_dc_D1 P f)) * (ks_ddk2_D2D2 P f))) + (((2 * (ks_k0 P
  f)) * (ks_dc_D2 P f)) * (ks_ddk2_D1D2 P f))) + (((ks_k0 P f) * (ks_ddc_D2D2 P f)) * (ks_dk2_D1 P
  f))) + (((2 * (ks_k0 P f)) * (ks_dk2_D2 P f)) * (ks_ddc_D1D2 P f))) + (((ks_k2 P f) * (ks_dc_D1 P
  f)) * (ks_ddk0_D2D2 P f))) + (((2 * (ks_k2 P f)) * (ks_dc_D2 P f)) * (ks_ddk0_D1D2 P f))) +
  (((ks_k2 P f) * (ks_ddc_D2D2 P f)) * (ks_dk0_D1 P f))) + (((2 * (ks_k2 P f)) * (ks_dk0_D2 P f)) *
  (ks_ddc_D1D2 P f))) + (((2 * (ks_dc_D1 P f)) * (ks_dk0_D2 P f)) * (ks_dk2_D2 P f))) + (((2 *
  (ks_dc_D2 P f)) * (ks_dk0_D1 P f)) * (ks_dk2_D2 P f))) + (((2 * (ks_dc_D2 P f)) * (ks_dk0_D2 P f))
  * (ks_dk2_D1 P f)).

(* /repo/Src/Main/Modules/Physics/Free_Data/fd_KerrSchild_g_dg_ddg_dddg.c:5387-5412 *)
Definition ks_dddgamma_D1D1D0D2D2 (P : kspar) (f : ksarg) : R :=
  (((((((((((2 * (ks_c P f)) * (ks_k1 P f)) * (ks_dddk1_D0D2D2 P f)) + (((2 * (ks_c P f)) *
  (ks_dk1_D0 P f)) * (ks_ddk1_D2D2 P f))) + (((4 * (ks_c P f)) * (ks_dk1_D2 P f)) * (ks_ddk1_D0D2 P
  f))) + (((ks_k1 P f) ^ 2) * (ks_dddc_D0D2D2 P f))) + (((2 * (ks_k1 P f)) * (ks_dc_D0 P f)) *
  (ks_ddk1_D2D2 P f))) + (((4 * (ks_k1 P f)) * (ks_dc_D2 P f)) * (ks_ddk1_D0D2 P f))) + (((2 * (ks_k1
  P f)) * (ks_ddc_D2D2 P f)) * (ks_dk1_D0 P f))) + (((4 * (ks_k1 P f)) * (ks_dk1_D2 P f)) *
  (ks_ddc_D0D2 P f))) + ((2 * (ks_dc_D0 P f)) * ((ks_dk1_D2 P f) ^ 2))) + (((4 * (ks_dc_D2 P f)) *
  (ks_dk1_D0 P f)) * (ks_dk1_D2 P f)).

(* /repo/Src/Main/Modules/Physics/Free_Data/fd_KerrSchild_g_dg_ddg_dddg.c:5414-5454 *)
Definition ks_dddgamma_D0D1D0D0D2 (P : kspar) (f : ksarg) : R :=
  (((((((((((((((((((ks_c P f) * (ks_k0 P f)) * (ks_dddk1_D0D0D2 P f)) + (((ks_c P f) * (ks_k1 P f))
  * (ks_dddk0_D0D0D2 P f))) + (((2 * (ks_c P f)) * (ks_dk0_D0 P f)) * (ks_ddk1_D0D2 P f))) + (((ks_c
  P f) * (ks_ddk0_D0D0 P f)) * (ks_dk1_D2 P f))) + (((ks_c P f) * (ks_dk0_D2 P f)) * (ks_ddk1_D0D0 P
  f))) + (((2 * (ks_c P f)) * (ks_dk1_D0 P f)) * (ks_ddk0_D0D2 P f))) + (((ks_k0 P f) * (ks_k1 P f))
  * (ks_dddc_D0D0D2 P f))) + (((2 * (ks_k0 P f)) * (ks_dc_D0 P f)) * (ks_ddk1_D0D2 P f))) + (((ks_k0
  P f) * (ks_ddc_D0D0 P f)) * (ks_dk1_D2 P f))) + (((ks_k0 P f) * (ks_dc_D2 P f)) * (ks_ddk1_D0D0 P
  f))) + (((2 * (ks_k0 P f)) * (ks_dk1_D0 P f)) * (ks_ddc_D0D2 P f))) + (((2 * (ks_k1 P f)) *
  (ks_dc_D0 P f)) * (ks_ddk0_D0D2 P f))) + (((ks_k1 P f) * (ks_ddc_D0D0 P f)) * (ks_dk0_D2 P f))) +
  (((ks_k1 P f) * (ks_dc_D2 P f)) * (ks_ddk0_D0D0 P f))) + (((2 * (ks_k1 P f)) * (ks_dk0_D0 P f)) *
  (ks_ddc_D0D2 P f))) + (((2 * (ks_dc_D0 P f)) * (ks_dk0_D0 P f)) * (ks_dk1_D2 P f))) + (((2 *
  (ks_dc_D0 P f)) * (ks_dk0_D2 P f)) * (ks_dk1_D0 P f))) + (((2 * (ks_dc_D2 P f)) * (ks_dk0_D0 P f))
  * (ks_dk1_D0 P f)).

(* /repo/Src/Main/Modules/Physics/Free_Data/fd_KerrSchild_g_dg_ddg_dddg.c:5456-5496 *)
Definition ks_dddgamma_D0D1D0D2D2 (P : kspar) (f : ksarg) : R :=
  (((((((((((((((((((ks_c P f) * (ks_k0 P f)) * (ks_dddk1_D0D2D2 P f)) + (((ks_c P f) * (ks_k1 P f))
  * (ks_dddk0_D0D2D2 P f))) + (((ks_c P f) * (ks_dk0_D0 P f)) * (ks_ddk1_D2D2 P f))) + (((2 * (ks_c P
  f)) * (ks_dk0_D2 P f)) * (ks_ddk1_D0D2 P f))) + (((ks_c P f) * (ks_ddk0_D2D2 P f)) * (ks_dk1_D0 P
  f))) + (((2 * (ks_c P f)) * (ks_dk1_D2 P f)) * (ks_ddk0_D0D2 P f))) + (((ks_k0 P f) * (ks_k1 P f))
  * (ks_dddc_D0D2D2 P f))) + (((ks_k0 P f) * (ks_dc_D0 P f)) * (ks_ddk1_D2D2 P f))) + (((2 * (ks_k0 P
  f)) * (ks_dc_D2 P f)) * (ks_ddk1_D0D2 P f))) + (((ks_k0 P f) * (ks_ddc_D2D2 P f)) * (ks_dk1_D0 P
  f))) + (((2 * (ks_k0 P f)) * (ks_dk1_D2 P f)) * (ks_ddc_D0D2 P f))) + (((ks_k1 P f) * (ks_dc_D0 P
  f)) * (ks_ddk0_D2D2 P f))) + (((2 * (ks_k1 P f)) * (ks_dc_D2 P f)) * (ks_ddk0_D0D2 P f))) +
  (((ks_k1 P f) * (ks_ddc_D2D2 P f)) * (ks_dk0_D0 P f))) + (((2 * (ks_k1 P f)) * (ks_dk0_D2 P f)) *
  (ks_ddc_D0D2 P f))) + (((2 * (ks_dc_D0 P f)) * (ks_dk0_D2 P f)) * (ks_dk1_D2 P f))) + (((2 *
  (ks_dc_D2 P f)) * (ks_dk0_D0 P f)) * (ks_dk1_D2 P f))) + (((2 * (ks_dc_D2 P f)) * (ks_dk0_D2 P f))
  * (ks_dk1_D0 P f)).

(* /repo/Src/Main/Modules/Physics/Free_Data/fd_KerrSchild_g_dg_ddg_dddg.c:5498-5554 *)
Definition ks_dddgamma_D0D2D1D2D0 (P : kspar) (f : ksarg) : R :=
  ((((((((((((((((((((((((((((ks_c P f) * (ks_k0 P f)) * (ks_dddk2_D0D1D2 P f)) + (((ks_c P f) *
  (ks_k2 P f)) * (ks_dddk0_D0D1D2 P f))) + (((ks_c P f) * (ks_dk0_D0 P f)) * (ks_ddk2_D1D2 P f))) +
  (((ks_c P f) * (ks_dk0_D1 P f)) * (ks_ddk2_D0D2 P f))) + (((ks_c P f) * (ks_dk0_D2 P f)) *
  (ks_ddk2_D0D1 P f))) + (((ks_c P f) * (ks_dk2_D0 P f)) * (ks_ddk0_D1D2 P f))) + (((ks_c P f) *
  (ks_dk2_D1 P f)) * (ks_ddk0_D0D2 P f))) + (((ks_c P f) * (ks_dk2_D2 P f)) * (ks_ddk0_D0D1 P f))) +
  (((ks_k0 P f) * (ks_k2 P f)) * (ks_dddc_D0D1D2 P f))) + (((ks_k0 P f) * (ks_dc_D0 P f)) *
  (ks_ddk2_D1D2 P f))) + (((ks_k0 P f) * (ks_dc_D1 P f)) * (ks_ddk2_D0D2 P f))) + (((ks_k0 P f) *
  (ks_dc_D2 P f)) * (ks_ddk2_D0D1 P f))) + (((ks_k0 P f) * (ks_dk2_D0 P f)) * (ks_ddc_D1D2 P f))) +
  (((ks_k0 P f) * (ks_dk2_D1 P f)) * (ks_ddc_D0D2 P f))) + (((ks_k0 P f) * (ks_dk2_D2 P f)) *
  (ks_ddc_D0D1 P f))) + (((ks_k2 P f) * (ks_dc_D0 P f)) * (ks_ddk0_D1D2 P f))) + (((ks_k2 P f) *
  (ks_dc_D1 P f)) * (ks_ddk0_D0D2 P f))) + (((ks_k2 P f) * (ks_dc_D2 P f)) * (ks_ddk0_D0D1 P f))) +
  (((ks_k2 P f) * (ks_dk0_D0 P f)) * (ks_ddc_D1D2 P f))) + (((ks_k2 P f) * (ks_dk0_D1 P f)) *
  (ks_ddc_D0D2 P f))) + (((ks_k2 P f) * (ks_dk0_D2 P f)) * (ks_ddc_D0D1 P f))) + (((ks_dc_D0 P f) *
  (ks_dk0_D1 P f)) * (ks_dk2_D2 P f))) + (((ks_dc_D0 P f) * (ks_dk0_D2 P f)) * (ks_dk2_D1 P f))) +
  (((ks_dc_D1 P f) * (ks_dk0_D0 P f)) * (ks_dk2_D2 P f))) + (((ks_dc_D1 P f) * (ks_dk0_D2 P f)) *
  (ks_dk2_D0 P f))) + (((ks_dc_D2 P f) * (ks_dk0_D0 P f)) * (ks_dk2_D1 P f))) + (((ks_dc_D2 P f) *
  (ks_dk0_D1 P f)) * (ks_dk2_D0 P f)).

(* /repo/Src/Main/Modules/Physics/Free_Data/fd_KerrSchild_g_dg_ddg_dddg.c:5556-5596 *)
Definition ks_dddgamma_D0D1D0D0D1 (P : kspar) (f : ksarg) : R :=
  (((((((((((((((((((ks_c P f) * (ks_k0 P f)) * (ks_dddk1_D0D0D1 P f)) + (((ks_c P f) * (ks_k1 P f))
  * (ks_dddk0_D0D0D1 P f))) + (((2 * (ks_c P f)) * (ks_dk0_D0 P f)) * (ks_ddk1_D0D1 P f))) + (((ks_c
  P f) * (ks_ddk0_D0D0 P f)) * (ks_dk1_D1 P f))) + (((ks_c P f) * (ks_dk0_D1 P f)) * (ks_ddk1_D0D0 P
  f))) + (((2 * (ks_c P f)) * (ks_dk1_D0 P f)) * (ks_ddk0_D0D1 P f))) + (((ks_k0 P f) * (ks_k1 P f))
  * (ks_dddc_D0D0D1 P f))) + (((2 * (ks_k0 P f)) * (ks_dc_D0 P f)) * (ks_ddk1_D0D1 P f))) + (((ks_k0
  P f) * (ks_ddc_D0D0 P f)) * (ks_dk1_D1 P f))) + (((ks_k0 P f) * (ks_dc_D1 P f)) * (ks_ddk1_D0D0 P
  f))) + (((2 * (ks_k0 P f)) * (ks_dk1_D0 P f)) * (ks_ddc_D0D1 P f))) + (((2 * (ks_k1 P f)) *
  (ks_dc_D0 P f)) * (ks_ddk0_D0D1 P f))) + (((ks_k1 P f) * (ks_ddc_D0D0 P f)) * (ks_dk0_D1 P f))) +
  (((ks_k1 P f) * (ks_dc_D1 P f)) * (ks_ddk0_D0D0 P f))) + (((2 * (ks_k1 P f)) * (ks_dk0_D0 P f)) *
  (ks_ddc_D0D1 P f))) + (((2 * (ks_dc_D0 P f)) * (ks_dk0_D0 P f)) * (ks_dk1_D1 P f))) + (((2 *
  (ks_dc_D0 P f)) * (ks_dk0_D1 P f)) * (ks_dk1_D0 P f))) + (((2 * (ks_dc_D1 P f)) * (ks_dk0_D0 P f))
  * (ks_dk1_D0 P f)).

(* /repo/Src/Main/Modules/Physics/Free_Data/fd_KerrSchild_g_dg_ddg_dddg.c:5598-5638 *)
Definition ks_dddgamma_D1D2D1D1D2 (P : kspar) (f : ksarg) : R :=
  (((((((((((((((((((ks_c P f) * (ks_k1 P f)) * (ks_dddk2_D1D1D2 P f)) + (((ks_c P f) * (ks_k2 P f))
  * (ks_dddk1_D1D1D2 P f))) + (((2 * (ks_c P f)) * (ks_dk1_D1 P f)) * (ks_ddk2_D1D2 P f))) + (((ks_c
  P f) * (ks_ddk1_D1D1 P f)) * (ks_dk2_D2 P f))) + (((ks_c P f) * (ks_dk1_D2 P f)) * (ks_ddk2_D1D1 P
  f))) + (((2 * (ks_c P f)) * (ks_dk2_D1 P f)) * (ks_ddk1_D1D2 P f))) + (((ks_k1 P f) * (ks_k2 P f))
  * (ks_dddc_D1D1D2 P f))) + (((2 * (ks_k1 P f)) * (ks_dc_D1 P f)) * (ks_ddk2_D1D2 P f))) + (((ks_k1
  P f) * (ks_ddc_D1D1 P f)) * (ks_dk2_D2 P f))) + (((ks_k1 P f) * (ks_dc_D2 P f)) * (ks_ddk2_D1D1 P
  f))) + (((2 * (ks_k1 P f)) * (ks_dk2_D1 P f)) * (ks_ddc_D1D2 P f))) + (((2 * (ks_k2 P f)) *
  (ks_dc_D1 P f)) * (ks_ddk1_D1D2 P f))) + (((ks_k2 P f) * (ks_ddc_D1D1 P f)) * (ks_dk1_D2 P f))) +
  (((ks_k2 P f) * (ks_dc_D2 P f)) * (ks_ddk1_D1D1 P f))) + (((2 * (ks_k2 P f)) * (ks_dk1_D1 P f)) *
  (ks_ddc_D1D2 P f))) + (((2 * (ks_dc_D1 P f)) * (ks_dk1_D1 P f)) * (ks_dk2_D2 P f))) + (((2 *
  (ks_dc_D1 P f)) * (ks_dk1_D2 P f)) * (ks_dk2_D1 P f))) + (((2 * (ks_dc_D2 P f)) * (ks_dk1_D1 P f))
  * (ks_dk2_D1 P f)).

(* /repo/Src/Main/Modules/Physics/Free_Data/fd_KerrSchild_g_dg_ddg_dddg.c:5640-5665 *)
Definition ks_dddgamma_D2D2D0D1D1 (P : kspar) (f : ksarg) : R :=
  (((((((((((2 * (ks_c P f)) * (ks_k2 P f)) * (ks_dddk2_D0D1D1 P f)) + (((2 * (ks_c P f)) *
  (ks_dk2_D0 P f)) * (ks_ddk2_D1D1 P f))) + (((4 * (ks_c P f)) * (ks_dk2_D1 P f)) * (ks_ddk2_D0D1 P
  f))) + (((ks_k2 P f) ^ 2) * (ks_dddc_D0D1D1 P f))) + (((2 * (ks_k2 P f)) * (ks_dc_D0 P f)) *
  (ks_ddk2_D1D1 P f))) + (((4 * (ks_k2 P f)) * (ks_dc_D1 P f)) * (ks_ddk2_D0D1 P f))) + (((2 * (ks_k2
  P f)) * (ks_ddc_D1D1 P f)) * (ks_dk2_D0 P f))) + (((4 * (ks_k2 P f)) * (ks_dk2_D1 P f)) *
  (ks_ddc_D0D1 P f))) + ((2 * (ks_dc_D0 P f)) * ((ks_dk2_D1 P f) ^ 2))) + (((4 * (ks_dc_D1 P f)) *
  (ks_dk2_D0 P f)) * (ks_dk2_D1 P f)).

(* /repo/Src/Main/Modules/Physics/Free_Data/fd_KerrSchild_g_dg_ddg_dddg.c:5667-5692 *)
Definition ks_dddgamma_D1D1D2D2D1 (P : kspar) (f : ksarg) : R :=
  (((((((((((2 * (ks_c P f)) * (ks_k1 P f)) * (ks_dddk1_D1D2D2 P f)) + (((2 * (ks_c P f)) *
  (ks_dk1_D1 P f)) * (ks_ddk1_D2D2 P f))) + (((4 * (ks_c P f)) * (ks_dk1_D2 P f)) * (ks_ddk1_D1D2 P
  f))) + (((ks_k1 P f) ^ 2) * (ks_dddc_D1D2D2 P f))) + (((2 * (ks_k1 P f)) * (ks_dc_D1 P f)) *
  (ks_ddk1_D2D2 P f))) + (((4 * (ks_k1 P f)) * (ks_dc_D2 P f)) * (ks_ddk1_D1D2 P f))) + (((2 * (ks_k1
  P f)) * (ks_ddc_D2D2 P f)) * (ks_dk1_D1 P f))) + (((4 * (ks_k1 P f)) * (ks_dk1_D2 P f)) *
  (ks_ddc_D1D2 P f))) + ((2 * (ks_dc_D1 P f)) * ((ks_dk1_D2 P f) ^ 2))) + (((4 * (ks_dc_D2 P f)) *
  (ks_dk1_D1 P f)) * (ks_dk1_D2 P f)).

(* /repo/Src/Main/Modules/Physics/Free_Data/fd_KerrSchild_g_dg_ddg_dddg.c:5694-5750 *)
Definition ks_dddgamma_D0D1D2D1D0 (P : kspar) (f : ksarg) : R :=
  ((((((((((((((((((((((((((((ks_c P f) * (ks_k0 P f)) * (ks_dddk1_D0D1D2 P f)) + (((ks_c P f) *
  (ks_k1 P f)) * (ks_dddk0_D0D1D2 P f))) + (((ks_c P f) * (ks_dk0_D0 P f)) * (ks_ddk1_D1D2 P f))) +
  (((ks_c P f) * (ks_dk0_D1 P f)) * (ks_ddk1_D0D2 P f))) + (((ks_c P f) * (ks_dk0_D2 P f)) *
  (ks_ddk1_D0D1 P f))) + (((ks_c P f) * (ks_dk1_D0 P f)) * (ks_ddk0_D1D2 P f))) + (((ks_c P f) *
  (ks_dk1_D1 P f)) * (ks_ddk0_D0D2 P f))) + (((ks_c P f) * (ks_dk1_D2 P f)) * (ks_ddk0_D0D1 P f))) +
  (((ks_k0 P f) * (ks_k1 P f)) * (ks_dddc_D0D1D2 P f))) + (((ks_k0 P f) * (ks_dc_D0 P f)) *
  (ks_ddk1_D1D2 P f))) + (((ks_k0 P f) * (ks_dc_D1 P f)) * (ks_ddk1_D0D2 P f))) + (((ks_k0 P f) *
  (ks_dc_D2 P f)) * (ks_ddk1_D0D1 P f))) + (((ks_k0 P f) * (ks_dk1_D0 P f)) * (ks_ddc_D1D2 P f))) +
  (((ks_k0 P f) * (ks_dk1_D1 P f)) * (ks_ddc_D0D2 P f))) + (((ks_k0 P f) * (ks_dk1_D2 P f)) *
  (ks_ddc_D0D1 P f))) + (((ks_k1 P f) * (ks_dc_D0 P f)) * (ks_ddk0_D1D2 P f))) + (((ks_k1 P f) *
  (ks_dc_D1 P f)) * (ks_ddk0_D0D2 P f))) + (((ks_k1 P f) * (ks_dc_D2 P f)) * (ks_ddk0_D0D1 P f))) +
  (((ks_k1 P f) * (ks_dk0_D0 P f)) * (ks_ddc_D1D2 P f))) + (((ks_k1 P f) * (ks_dk0_D1 P f)) *
  (ks_ddc_D0D2 P f))) + (((ks_k1 P f) * (ks_dk0_D2 P f)) * (ks_ddc_D0D1 P f))) + (((ks_dc_D0 P f) *
  (ks_dk0_D1 P f)) * (ks_dk1_D2 P f))) + (((ks_dc_D0 P f) * (ks_dk0_D2 P f)) * (ks_dk1_D1 P f))) +
  (((ks_dc_D1 P f) * (ks_dk0_D0 P f)) * (ks_dk1_D2 P f))) + (((ks_dc_D1 P f) * (ks_dk0_D2 P f)) *
  (ks_dk1_D0 P f))) + (((ks_dc_D2 P f) * (ks_dk0_D0 P f)) * (ks_dk1_D1 P f))) + (((ks_dc_D2 P f) *
  (ks_dk0_D1 P f)) * (ks_dk1_D0 P f)).

(* /repo/Src/Main/Modules/Physics/Free_Data/fd_KerrSchild_g_dg_ddg_dddg.c:5752-5808 *)
Definition ks_dddgamma_D0D2D1D0D2 (P : kspar) (f : ksarg) : R :=
  ((((((((((((((((((((((((((((ks_c P f) * (ks_k0 P f)) * (ks_dddk2_D0D1D2 P f)) + (((ks_c P f) *
  (ks_k2 P f)) * (ks_dddk0_D0D1D2 P f))) + (((ks_c P f) * (ks_dk0_D0 P f)) * (ks_ddk2_D1D2 P f))) +
  (((ks_c P f) * (ks_dk0_D1 P f)) * (ks_ddk2_D0D2 P f))) + (((ks_c P f) * (ks_dk0_D2 P f)) *
  (ks_ddk2_D0D1 P f))) + (((ks_c P f) * (ks_dk2_D0 P f)) * (ks_ddk0_D1D2 P f))) + (((ks_c P f) *
  (ks_dk2_D1 P f)) * (ks_ddk0_D0D2 P f))) + (((ks_c P f) * (ks_dk2_D2 P f)) * (ks_ddk0_D0D1 P f))) +
  (((ks_k0 P f) * (ks_k2 P f)) * (ks_dddc_D0D1D2 P f))) + (((ks_k0 P f) * (ks_dc_D0 P f)) *
  (ks_ddk2_D1D2 P f))) + (((ks_k0 P f) * (ks_dc_D1 P f)) * (ks_ddk2_D0D2 P f))) + (((ks_k0 P f) *
  (ks_dc_D2 P f)) * (ks_ddk2_D0D1 P f))) + (((ks_k0 P f) * (ks_dk2_D0 P f)) * (ks_ddc_D1D2 P f))) +
  (((ks_k0 P f) * (ks_dk2_D1 P f)) * (ks_ddc_D0D2 P f))) + (((ks_k0 P f) * (ks_dk2_D2 P f)) *
  (ks_ddc_D0D1 P f))) + (((ks_k2 P f) * (ks_dc_D0 P f)) * (ks_ddk0_D1D2 P f))) + (((ks_k2 P f) *
  (ks_dc_D1 P f)) * (ks_ddk0_D0D2 P f))) + (((ks_k2 P f) * (ks_dc_D2 P f)) * (ks_ddk0_D0D1 P f))) +
  (((ks_k2 P f) * (ks_dk0_D0 P f)) * (ks_ddc_D1D2 P f))) + (((ks_k2 P f) * (ks_dk0_D1 P f)) *
  (ks_ddc_D0D2 P f))) + (((ks_k2 P f) * (ks_dk0_D2 P f)) * (ks_ddc_D0D1 P f))) + (((ks_dc_D0 P f) *
  (ks_dk0_D1 P f)) * (ks_dk2_D2 P f))) + (((ks_dc_D0 P f) * (ks_dk0_D2 P f)) * (ks_dk2_D1 P f))) +
  (((ks_dc_D1 P f) * (ks_dk0_D0 P f)) * (ks_dk2_D2 P f))) + (((ks_dc_D1 P f) * (ks_dk0_D2 P f)) *
  (ks_dk2_D0 P f))) + (((ks_dc_D2 P f) * (ks_dk0_D0 P f)) * (ks_dk2_D1 P f))) + (((ks_dc_D2 P f) *
  (ks_dk0_D1 P f)) * (ks_dk2_D0 P f)).

(* /repo/Src/Main/Modules/Physics/Free_Data/fd_KerrSchild_g_dg_ddg_dddg.c:5810-5844 *)
Definition ks_dddgamma_D2D2D2D1D0 (P : kspar) (f : ksarg) : R :=
  (((((((((((((((2 * (ks_c P f)) * (ks_k2 P f)) * (ks_dddk2_D0D1D2 P f)) + (((2 * (ks_c P f)) *
  (ks_dk2_D0 P f)) * (ks_ddk2_D1D2 P f))) + (((2 * (ks_c P f)) * (ks_dk2_D1 P f)) * (ks_ddk2_D0D2 P
  f))) + (((2 * (ks_c P f)) * (ks_dk2_D2 P f)) * (ks_ddk2_D0D1 P f))) + (((ks_k2 P f) ^ 2) *
  (ks_dddc_D0D1D2 P f))) + (((2 * (ks_k2 P f)) * (ks_dc_D0 P f)) * (ks_ddk2_D1D2 P f))) + (((2 *
  (ks_k2 P f)) * (ks_dc_D1 P f)) * (ks_ddk2_D0D2 P f))) + (((2 * (ks_k2 P f)) * (ks_dc_D2 P f)) *
  (ks_ddk2_D0D1 P f))) + (((2 * (ks_k2 P f)) * (ks_dk2_D0 P f)) * (ks_ddc_D1D2 P f))) + (((2 * (ks_k2
  P f)) * (ks_dk2_D1 P f)) * (ks_ddc_D0D2 P f))) + (((2 * (ks_k2 P f)) * (ks_dk2_D2 P f)) *
  (ks_ddc_D0D1 P f))) + (((2 * (ks_dc_D0 P f)) * (ks_dk2_D1 P f)) * (ks_dk2_D2 P f))) + (((2 *
  (ks_dc_D1 P f)) * (ks_dk2_D0 P f)) * (ks_dk2_D2 P f))) + (((2 * (ks_dc_D2 P f)) * (ks_dk2_D0 P f))
  * (ks_dk2_D1 P f)).

(* /repo/Src/Main/Modules/Physics/Free_Data/fd_KerrSchild_g_dg_ddg_dddg.c:5846-5886 *)
Definition ks_dddgamma_D0D1D1D1D2 (P : kspar) (f : ksarg) : R :=
  (((((((((((((((((((ks_c P f) * (ks_k0 P f)) * (ks_dddk1_D1D1D2 P f)) + (((ks_c P f) * (ks_k1 P f))
  * (ks_dddk0_D1D1D2 P f))) + (((2 * (ks_c P f)) * (ks_dk0_D1 P f)) * (ks_ddk1_D1D2 P f))) + (((ks_c
  P f) * (ks_ddk0_D1D1 P f)) * (ks_dk1_D2 P f))) + (((ks_c P f) * (ks_dk0_D2 P f)) * (ks_ddk1_D1D1 P
  f))) + (((2 * (ks_c P f)) * (ks_dk1_D1 P f)) * (ks_ddk0_D1D2 P f))) + (((ks_k0 P f) * (ks_k1 P f))
  * (ks_dddc_D1D1D2 P f))) + (((2 * (ks_k0 P f)) * (ks_dc_D1 P f)) * (ks_ddk1_D1D2 P f))) + (((ks_k0
  P f) * (ks_ddc_D1D1 P f)) * (ks_dk1_D2 P f))) + (((ks_k0 P f) * (ks_dc_D2 P f)) * (ks_ddk1_D1D1 P
  f))) + (((2 * (ks_k0 P f)) * (ks_dk1_D1 P f)) * (ks_ddc_D1D2 P f))) + (((2 * (ks_k1 P f)) *
  (ks_dc_D1 P f)) * (ks_ddk0_D1D2 P f))) + (((ks_k1 P f) * (ks_ddc_D1D1 P f)) * (ks_dk0_D2 P f))) +
  (((ks_k1 P f) * (ks_dc_D2 P f)) * (ks_ddk0_D1D1 P f))) + (((2 * (ks_k1 P f)) * (ks_dk0_D1 P f)) *
  (ks_ddc_D1D2 P f))) + (((2 * (ks_dc_D1 P f)) * (ks_dk0_D1 P f)) * (ks_dk1_D2 P f))) + (((2 *
  (ks_dc_D1 P f)) * (ks_dk0_D2 P f)) * (ks_dk1_D1 P f))) + (((2 * (ks_dc_D2 P f)) * (ks_dk0_D1 P f))
  * (ks_dk1_D1 P f)).

(* /repo/Src/Main/Modules/Physics/Free_Data/fd_KerrSchild_g_dg_ddg_dddg.c:5888-5944 *)
Definition ks_dddgamma_D1D2D1D0D2 (P : kspar) (f : ksarg) : R :=
  ((((((((((((((((((((((((((((ks_c P f) * (ks_k1 P f)) * (ks_dddk2_D0D1D2 P f)) + (((ks_c P f) *
  (ks_k2 P f)) * (ks_dddk1_D0D1D2 P f))) + (((ks_c P f) * (ks_dk1_D0 P f)) * (ks_ddk2_D1D2 P f))) +
  (((ks_c P f) * (ks_dk1_D1 P f)) * (ks_ddk2_D0D2 P f))) + (((ks_c P f) * (ks_dk1_D2 P f)) *
  (ks_ddk2_D0D1 P f))) + (((ks_c P f) * (ks_dk2_D0 P f)) * (ks_ddk1_D1D2 P f))) + (((ks_c P f) *
  (ks_dk2_D1 P f)) * (ks_ddk1_D0D2 P f))) + (((ks_c P f) * (ks_dk2_D2 P f)) * (ks_ddk1_D0D1 P f))) +
  (((ks_k1 P f) * (ks_k2 P f)) * (ks_dddc_D0D1D2 P f))) + (((ks_k1 P f) * (ks_dc_D0 P f)) *
  (ks_ddk2_D1D2 P f))) + (((ks_k1 P f) * (ks_dc_D1 P f)) * (ks_ddk2_D0D2 P f))) + (((ks_k1 P f) *
  (ks_dc_D2 P f)) * (ks_ddk2_D0D1 P f))) + (((ks_k1 P f) * (ks_dk2_D0 P f)) * (ks_ddc_D1D2 P f))) +
  (((ks_k1 P f) * (ks_dk2_D1 P f)) * (ks_ddc_D0D2 P f))) + (((ks_k1 P f) * (ks_dk2_D2 P f)) *
  (ks_ddc_D0D1 P f))) + (((ks_k2 P f) * (ks_dc_D0 P f)) * (ks_ddk1_D1D2 P f))) + (((ks_k2 P f) *
  (ks_dc_D1 P f)) * (ks_ddk1_D0D2 P f))) + (((ks_k2 P f) * (ks_dc_D2 P f)) * (ks_ddk1_D0D1 P f))) +
  (((ks_k2 P f) * (ks_dk1_D0 P f)) * (ks_ddc_D1D2 P f))) + (((ks_k2 P f) * (ks_dk1_D1 P f)) *
  (ks_ddc_D0D2 P f))) + (((ks_k2 P f) * (ks_dk1_D2 P f)) * (ks_ddc_D0D1 P f))) + (((ks_dc_D0 P f) *
  (ks_dk1_D1 P f)) * (ks_dk2_D2 P f))) + (((ks_dc_D0 P f) * (ks_dk1_D2 P f)) * (ks_dk2_D1 P f))) +
  (((ks_dc_D1 P f) * (ks_dk1_D0 P f)) * (ks_dk2_D2 P f))) + (((ks_dc_D1 P f) * (ks_dk1_D2 P f)) *
  (ks_dk2_D0 P f))) + (((ks_dc_D2 P f) * (ks_dk1_D0 P f)) * (ks_dk2_D1 P f))) + (((ks_dc_D2 P f) *
  (ks_dk1_D1 P f)) * (ks_dk2_D0 P f)).

(* /repo/Src/Main/Modules/Physics/Free_Data/fd_KerrSchild_g_dg_ddg_dddg.c:5946-5971 *)
Definition ks_dddgamma_D0D0D2D2D0 (P : kspar) (f : ksarg) : R :=
  (((((((((((2 * (ks_c P f)) * (ks_k0 P f)) * (ks_dddk0_D0D2D2 P f)) + (((2 * (ks_c P f)) *
  (ks_dk0_D0 P f)) * (ks_ddk0_D2D2 P f))) + (((4 * (ks_c P f)) * (ks_dk0_D2 P f)) * (ks_ddk0_D0D2 P
  f))) + (((ks_k0 P f) ^ 2) * (ks_dddc_D0D2D2 P f))) + (((2 * (ks_k0 P f)) * (ks_dc_D0 P f)) *
  (ks_ddk0_D2D2 P f))) + (((4 * (ks_k0 P f)) * (ks_dc_D2 P f)) * (ks_ddk0_D0D2 P f))) + (((2 * (ks_k0
  P f)) * (ks_ddc_D2D2 P f)) * (ks_dk0_D0 P f))) + (((4 * (ks_k0 P f)) * (ks_dk0_D2 P f)) *
  (ks_ddc_D0D2 P f))) + ((2 * (ks_dc_D0 P f)) * ((ks_dk0_D2 P f) ^ 2))) + (((4 * (ks_dc_D2 P f)) *
  (ks_dk0_D0 P f)) * (ks_dk0_D2 P f)).

(* /repo/Src/Main/Modules/Physics/Free_Data/fd_KerrSchild_g_dg_ddg_dddg.c:5973-6013 *)
Definition ks_dddgamma_D0D1D1D0D1 (P : kspar) (f : ksarg) : R :=
  (((((((((((((((((((ks_c P f) * (ks_k0 P f)) * (ks_dddk1_D0D1D1 P f)) + (((ks_c P f) * (ks_k1 P f))
  * (ks_dddk0_D0D1D1 P f))) + (((ks_c P f) * (ks_dk0_D0 P f)) * (ks_ddk1_D1D1 P f))) + (((2 * (ks_c P
  f)) * (ks_dk0_D1 P f)) * (ks_ddk1_D0D1 P f))) + (((ks_c P f) * (ks_ddk0_D1D1 P f)) * (ks_dk1_D0 P
  f))) + (((2 * (ks_c P f)) * (ks_dk1_D1 P f)) * (ks_ddk0_D0D1 P f))) + (((ks_k0 P f) * (ks_k1 P f))
  * (ks_dddc_D0D1D1 P f))) + (((ks_k0 P f) * (ks_dc_D0 P f)) * (ks_ddk1_D1D1 P f))) + (((2 * (ks_k0 P
  f)) * (ks_dc_D1 P f)) * (ks_ddk1_D0D1 P f))) + (((ks_k0 P f) * (ks_ddc_D1D1 P f)) * (ks_dk1_D0 P
  f))) + (((2 * (ks_k0 P f)) * (ks_dk1_D1 P f)) * (ks_ddc_D0D1 P f))) + (((ks_k1 P f) * (ks_dc_D0 P
  f)) * (ks_ddk0_D1D1 P f))) + (((2 * (ks_k1 P f)) * (ks_dc_D1 P f)) * (ks_ddk0_D0D1 P f))) +
  (((ks_k1 P f) * (ks_ddc_D1D1 P f)) * (ks_dk0_D0 P f))) + (((2 * (ks_k1 P f)) * (ks_dk0_D1 P f)) *
  (ks_ddc_D0D1 P f))) + (((2 * (ks_dc_D0 P f)) * (ks_dk0_D1 P f)) * (ks_dk1_D1 P f))) + (((2 *
  (ks_dc_D1 P f)) * (ks_dk0_D0 P f)) * (ks_dk1_D1 P f))) + (((2 * (ks_dc_D1 P f)) * (ks_dk0_D1 P f))
  * (ks_dk1_D0 P f)).

(* /repo/Src/Main/Modules/Physics/Free_Data/fd_KerrSchild_g_dg_ddg_dddg.c:6015-6055 *)
Definition ks_dddgamma_D0D1D2D2D0 (P : kspar) (f : ksarg) : R :=
  (((((((((((((((((((ks_c P f) * (ks_k0 P f)) * (ks_dddk1_D0D2D2 P f)) + (((ks_c P f) * (ks_k1 P f))
  * (ks_dddk0_D0D2D2 P f))) + (((ks_c P f) * (ks_dk0_D0 P f)) * (ks_ddk1_D2D2 P f))) + (((2 * (ks_c P
  f)) * (ks_dk0_D2 P f)) * (ks_ddk1_D0D2 P f))) + (((ks_c P f) * (ks_ddk0_D2D2 P f)) * (ks_dk1_D0 P
  f))) + (((2 * (ks_c P f)) * (ks_dk1_D2 P f)) * (ks_ddk0_D0D2 P f))) + (((ks_k0 P f) * (ks_k1 P f))
  * (ks_dddc_D0D2D2 P f))) + (((ks_k0 P f) * (ks_dc_D0 P f)) * (ks_ddk1_D2D2 P f))) + (((2 * (ks_k0 P
  f)) * (ks_dc_D2 P f)) * (ks_ddk1_D0D2 P f))) + (((ks_k0 P f) * (ks_ddc_D2D2 P f)) * (ks_dk1_D0 P
  f))) + (((2 * (ks_k0 P f)) * (ks_dk1_D2 P f)) * (ks_ddc_D0D2 P f))) + (((ks_k1 P f) * (ks_dc_D0 P
  f)) * (ks_ddk0_D2D2 P f))) + (((2 * (ks_k1 P f)) * (ks_dc_D2 P f)) * (ks_ddk0_D0D2 P f))) +
  (((ks_k1 P f) * (ks_ddc_D2D2 P f)) * (ks_dk0_D0 P f))) + (((2 * (ks_k1 P f)) * (ks_dk0_D2 P f)) *
  (ks_ddc_D0D2 P f))) + (((2 * (ks_dc_D0 P f)) * (ks_dk0_D2 P f)) * (ks_dk1_D2 P f))) + (((2 *
  (ks_dc_D2 P f)) * (ks_dk0_D0 P f)) * (ks_dk1_D2 P f))) + (((2 * (ks_dc_D2 P f)) * (ks_dk0_D2 P f))
  * (ks_dk1_D0 P f)).

(* /repo/Src/Main/Modules/Physics/Free_Data/fd_KerrSchild_g_dg_ddg_dddg.c:6057-6113 *)
Definition ks_dddgamma_D0D2D0D1D2 (P : kspar) (f : ksarg) : R :=
  ((((((((((((((((((((((((((((ks_c P f) * (ks_k0 P f)) * (ks_dddk2_D0D1D2 P f)) + (((ks_c P f) *
  (ks_k2 P f)) * (ks_dddk0_D0D1D2 P f))) + (((ks_c P f) * (ks_dk0_D0 P f)) * (ks_ddk2_D1D2 P f))) +
  (((ks_c P f) * (ks_dk0_D1 P f)) * (ks_ddk2_D0D2 P f))) + (((ks_c P f) * (ks_dk0_D2 P f)) *
  (ks_ddk2_D0D1 P f))) + (((ks_c P f) * (ks_dk2_D0 P f)) * (ks_ddk0_D1D2 P f))) + (((ks_c P f) *
  (ks_dk2_D1 P f)) * (ks_ddk0_D0D2 P f))) + (((ks_c P f) * (ks_dk2_D2 P f)) * (ks_ddk0_D0D1 P f))) +
  (((ks_k0 P f) * (ks_k2 P f)) * (ks_dddc_D0D1D2 P f))) + (((ks_k0 P f) * (ks_dc_D0 P f)) *
  (ks_ddk2_D1D2 P f))) + (((ks_k0 P f) * (ks_dc_D1 P f)) * (ks_ddk2_D0D2 P f))) + (((ks_k0 P f) *
  (ks_dc_D2 P f)) * (ks_ddk2_D0D1 P f))) + (((ks_k0 P f) * (ks_dk2_D0 P f)) * (ks_ddc_D1D2 P f))) +
  (((ks_k0 P f) * (ks_dk2_D1 P f)) * (ks_ddc_D0D2 P f))) + (((ks_k0 P f) * (ks_dk2_D2 P f)) *
  (ks_ddc_D0D1 P f))) + (((ks_k2 P f) * (ks_dc_D0 P f)) * (ks_ddk0_D1D2 P f))) + (((ks_k2 P f) *
  (ks_dc_D1 P f)) * (ks_ddk0_D0D2 P f))) + (((ks_k2 P f) * (ks_dc_D2 P f)) * (ks_ddk0_D0D1 P f))) +
  (((ks_k2 P f) * (ks_dk0_D0 P f)) * (ks_ddc_D1D2 P f))) + (((ks_k2 P f) * (ks_dk0_D1 P f)) *
  (ks_ddc_D0D2 P f))) + (((ks_k2 P f) * (ks_dk0_D2 P f)) * (ks_ddc_D0D1 P f))) + (((ks_dc_D0 P f) *
  (ks_dk0_D1 P f)) * (ks_dk2_D2 P f))) + (((ks_dc_D0 P f) * (ks_dk0_D2 P f)) * (ks_dk2_D1 P f))) +
  (((ks_dc_D1 P f) * (ks_dk0_D0 P f)) * (ks_dk2_D2 P f))) + (((ks_dc_D1 P f) * (ks_dk0_D2 P f)) *
  (ks_dk2_D0 P f))) + (((ks_dc_D2 P f) * (ks_dk0_D0 P f)) * (ks_dk2_D1 P f))) + (((ks_dc_D2 P f) *
  (ks_dk0_D1 P f)) * (ks_dk2_D0 P f)).

(* /repo/Src/Main/Modules/Physics/Free_Data/fd_KerrSchild_g_dg_ddg_dddg.c:6115-6155 *)
Definition ks_dddgamma_D0D2D2D2D1 (P : kspar) (f : ksarg) : R :=
  (((((((((((((((((((ks_c P f) * (ks_k0 P f)) * (ks_dddk2_D1D2D2 P f)) + (((ks_c P f) * (ks_k2 P f))
  * (ks_dddk0_D1D2D2 P f))) + (((ks_c P f) * (ks_dk0_D1 P f)) * (ks_ddk2_D2D2 P f))) + (((2 * (ks_c P
  f)) * (ks_dk0_D2 P f)) * (ks_ddk2_D1D2 P f))) + (((ks_c P f) * (ks_ddk0_D2D2 P f)) * (ks_dk2_D1 P
  f))) + (((2 * (ks_c P f)) * (ks_dk2_D2 P f)) * (ks_ddk0_D1D2 P f))) + (((ks_k0 P f) * (ks_k2 P f))
  * (ks_dddc_D1D2D2 P f))) + (((ks_k0 P f) * (ks_dc_D1 P f)) * (ks_ddk2_D2D2 P f))) + (((2 * (ks_k0 P
  f)) * (ks_dc_D2 P f)) * (ks_ddk2_D1D2 P f))) + (((ks_k0 P f) * (ks_ddc_D2D2 P f)) * (ks_dk2_D1 P
  f))) + (((2 * (ks_k0 P f)) * (ks_dk2_D2 P f)) * (ks_ddc_D1D2 P f))) + (((ks_k2 P f) * (ks_dc_D1 P
  f)) * (ks_ddk0_D2D2 P f))) + (((2 * (ks_k2 P f)) * (ks_dc_D2 P f)) * (ks_ddk0_D1D2 P f))) +
  (((ks_k2 P f) * (ks_ddc_D2D2 P f)) * (ks_dk0_D1 P f))) + (((2 * (ks_k2 P f)) * (ks_dk0_D2 P f)) *
  (ks_ddc_D1D2 P f))) + (((2 * (ks_dc_D1 P f)) * (ks_dk0_D2 P f)) * (ks_dk2_D2 P f))) + (((2 *
  (ks_dc_D2 P f)) * (ks_dk0_D1 P f)) * (ks_dk2_D2 P f))) + (((2 * (ks_dc_D2 P f)) * (ks_dk0_D2 P f))
  * (ks_dk2_D1 P f)).

(* /repo/Src/Main/Modules/Physics/Free_Data/fd_KerrSchild_g_dg_ddg_dddg.c:6157-6191 *)
Definition ks_dddgamma_D1D1D0D2D1 (P : kspar) (f : ksarg) : R :=
  (((((((((((((((2 * (ks_c P f)) * (ks_k1 P f)) * (ks_dddk1_D0D1D2 P f)) + (((2 * (ks_c P f)) *
  (ks_dk1_D0 P f)) * (ks_ddk1_D1D2 P f))) + (((2 * (ks_c P f)) * (ks_dk1_D1 P f)) * (ks_ddk1_D0D2 P
  f))) + (((2 * (ks_c P f)) * (ks_dk1_D2 P f)) * (ks_ddk1_D0D1 P f))) + (((ks_k1 P f) ^ 2) *
  (ks_dddc_D0D1D2 P f))) + (((2 * (ks_k1 P f)) * (ks_dc_D0 P f)) * (ks_ddk1_D1D2 P f))) + (((2 *
  (ks_k1 P f)) * (ks_dc_D1 P f)) * (ks_ddk1_D0D2 P f))) + (((2 * (ks_k1 P f)) * (ks_dc_D2 P f)) *
  (ks_ddk1_D0D1 P f))) + (((2 * (ks_k1 P f)) * (ks_dk1_D0 P f)) * (ks_ddc_D1D2 P f))) + (((2 * (ks_k1
  P f)) * (ks_dk1_D1 P f)) * (ks_ddc_D0D2 P f))) + (((2 * (ks_k1 P f)) * (ks_dk1_D2 P f)) *
  (ks_ddc_D0D1 P f))) + (((2 * (ks_dc_D0 P f)) * (ks_dk1_D1 P f)) * (ks_dk1_D2 P f))) + (((2 *
  (ks_dc_D1 P f)) * (ks_dk1_D0 P f)) * (ks_dk1_D2 P f))) + (((2 * (ks_dc_D2 P f)) * (ks_dk1_D0 P f))
  * (ks_dk1_D1 P f)).

(* /repo/Src/Main/Modules/Physics/Free_Data/fd_KerrSchild_g_dg_ddg_dddg.c:6193-6227 *)
Definition ks_dddgamma_D0D0D2D1D0 (P : kspar) (f : ksarg) : R :=
  (((((((((((((((2 * (ks_c P f)) * (ks_k0 P f)) * (ks_dddk0_D0D1D2 P f)) + (((2 * (ks_c P f)) *
  (ks_dk0_D0 P f)) * (ks_ddk0_D1D2 P f))) + (((2 * (ks_c P f)) * (ks_dk0_D1 P f)) * (ks_ddk0_D0D2 P
  f))) + (((2 * (ks_c P f)) * (ks_dk0_D2 P f)) * (ks_ddk0_D0D1 P f))) + (((ks_k0 P f) ^ 2) *
  (ks_dddc_D0D1D2 P f))) + (((2 * (ks_k0 P f)) * (ks_dc_D0 P f)) * (ks_ddk0_D1D2 P f))) + (((2 *
  (ks_k0 P f)) * (ks_dc_D1 P f)) * (ks_ddk0_D0D2 P f))) + (((2 * (ks_k0 P f)) * (ks_dc_D2 P f)) *
  (ks_ddk0_D0D1 P f))) + (((2 * (ks_k0 P f)) * (ks_dk0_D0 P f)) * (ks_ddc_D1D2 P f))) + (((2 * (ks_k0
  P f)) * (ks_dk0_D1 P f)) * (ks_ddc_D0D2 P f))) + (((2 * (ks_k0 P f)) * (ks_dk0_D2 P f)) *
  (ks_ddc_D0D1 P f))) + (((2 * (ks_dc_D0 P f)) * (ks_dk0_D1 P f)) * (ks_dk0_D2 P f))) + (((2 *
  (ks_dc_D1 P f)) * (ks_dk0_D0 P f)) * (ks_dk0_D2 P f))) + (((2 * (ks_dc_D2 P f)) * (ks_dk0_D0 P f))
  * (ks_dk0_D1 P f)).

(* /repo/Src/Main/Modules/Physics/Free_Data/fd_KerrSchild_g_dg_ddg_dddg.c:6229-6269 *)
Definition ks_dddgamma_D1D2D0D1D0 (P : kspar) (f : ksarg) : R :=
  (((((((((((((((((((ks_c P f) * (ks_k1 P f)) * (ks_dddk2_D0D0D1 P f)) + (((ks_c P f) * (ks_k2 P f))
  * (ks_dddk1_D0D0D1 P f))) + (((2 * (ks_c P f)) * (ks_dk1_D0 P f)) * (ks_ddk2_D0D1 P f))) + (((ks_c
  P f) * (ks_ddk1_D0D0 P f)) * (ks_dk2_D1 P f))) + (((ks_c P f) * (ks_dk1_D1 P f)) * (ks_ddk2_D0D0 P
  f))) + (((2 * (ks_c P f)) * (ks_dk2_D0 P f)) * (ks_ddk1_D0D1 P f))) + (((ks_k1 P f) * (ks_k2 P f))
  * (ks_dddc_D0D0D1 P f))) + (((2 * (ks_k1 P f)) * (ks_dc_D0 P f)) * (ks_ddk2_D0D1 P f))) + (((ks_k1
  P f) * (ks_ddc_D0D0 P f)) * (ks_dk2_D1 P f))) + (((ks_k1 P f) * (ks_dc_D1 P f)) * (ks_ddk2_D0D0 P
  f))) + (((2 * (ks_k1 P f)) * (ks_dk2_D0 P f)) * (ks_ddc_D0D1 P f))) + (((2 * (ks_k2 P f)) *
  (ks_dc_D0 P f)) * (ks_ddk1_D0D1 P f))) + (((ks_k2 P f) * (ks_ddc_D0D0 P f)) * (ks_dk1_D1 P f))) +
  (((ks_k2 P f) * (ks_dc_D1 P f)) * (ks_ddk1_D0D0 P f))) + (((2 * (ks_k2 P f)) * (ks_dk1_D0 P f)) *
  (ks_ddc_D0D1 P f))) + (((2 * (ks_dc_D0 P f)) * (ks_dk1_D0 P f)) * (ks_dk2_D1 P f))) + (((2 *
  (ks_dc_D0 P f)) * (ks_dk1_D1 P f)) * (ks_dk2_D0 P f))) + (((2 * (ks_dc_D1 P f)) * (ks_dk1_D0 P f))
  * (ks_dk2_D0 P f)).

(* /repo/Src/Main/Modules/Physics/Free_Data/fd_KerrSchild_g_dg_ddg_dddg.c:6271-6311 *)
Definition ks_dddgamma_D0D2D2D1D2 (P : kspar) (f : ksarg) : R :=
  (((((((((((((((((((ks_c P f) * (ks_k0 P f)) * (ks_dddk2_D1D2D2 P f)) + (((ks_c P f) * (ks_k2 P f))
  * (ks_dddk0_D1D2D2 P f))) + (((ks_c P f) * (ks_dk0_D1 P f)) * (ks_ddk2_D2D2 P f))) + (((2 * (ks_c P
  f)) * (ks_dk0_D2 P f)) * (ks_ddk2_D1D2 P f))) + (((ks_c P f) * (ks_ddk0_D2D2 P f)) * (ks_dk2_D1 P
  f))) + (((2 * (ks_c P f)) * (ks_dk2_D2 P f)) * (ks_ddk0_D1D2 P f))) + (((ks_k0 P f) * (ks_k2 P f))
  * (ks_dddc_D1D2D2 P f))) + (((ks_k0 P f) * (ks_dc_D1 P f)) * (ks_ddk2_D2D2 P f))) + (((2 * (ks_k0 P
  f)) * (ks_dc_D2 P f)) * (ks_ddk2_D1D2 P f))) + (((ks_k0 P f) * (ks_ddc_D2D2 P f)) * (ks_dk2_D1 P
  f))) + (((2 * (ks_k0 P f)) * (ks_dk2_D2 P f)) * (ks_ddc_D1D2 P f))) + (((ks_k2 P f) * (ks_dc_D1 P
  f)) * (ks_ddk0_D2D2 P f))) + (((2 * (ks_k2 P f)) * (ks_dc_D2 P f)) * (ks_ddk0_D1D2 P f))) +
  (((ks_k2 P f) * (ks_ddc_D2D2 P f)) * (ks_dk0_D1 P f))) + (((2 * (ks_k2 P f)) * (ks_dk0_D2 P f)) *
  (ks_ddc_D1D2 P f))) + (((2 * (ks_dc_D1 P f)) * (ks_dk0_D2 P f)) * (ks_dk2_D2 P f))) + (((2 *
  (ks_dc_D2 P f)) * (ks_dk0_D1 P f)) * (ks_dk2_D2 P f))) + (((2 * (ks_dc_D2 P f)) * (ks_dk0_D2 P f))
  * (ks_dk2_D1 P f)).

(* /repo/Src/Main/Modules/Physics/Free_Data/fd_KerrSchild_g_dg_ddg_dddg.c:6313-6353 *)
Definition ks_dddgamma_D0D1D1D2D1 (P : kspar) (f : ksarg) : R :=
  (((((((((((((((((((ks_c P f) * (ks_k0 P f)) * (ks_dddk1_D1D1D2 P f)) + (((ks_c P f) * (ks_k1 P f))
  * (ks_dddk0_D1D1D2 P f))) + (((2 * (ks_c P f)) * (ks_dk0_D1 P f)) * (ks_ddk1_D1D2 P f))) + (((ks_c
  P f) * (ks_ddk0_D1D1 P f)) * (ks_dk1_D2 P f))) + (((ks_c P f) * (ks_dk0_D2 P f)) * (ks_ddk1_D1D1 P
  f))) + (((2 * (ks_c P f)) * (ks_dk1_D1 P f)) * (ks_ddk0_D1D2 P f))) + (((ks_k0 P f) * (ks_k1 P f))
  * (ks_dddc_D1D1D2 P f))) + (((2 * (ks_k0 P f)) * (ks_dc_D1 P f)) * (ks_ddk1_D1D2 P f))) + (((ks_k0
  P f) * (ks_ddc_D1D1 P f)) * (ks_dk1_D2 P f))) + (((ks_k0 P f) * (ks_dc_D2 P f)) * (ks_ddk1_D1D1 P
  f))) + (((2 * (ks_k0 P f)) * (ks_dk1_D1 P f)) * (ks_ddc_D1D2 P f))) + (((2 * (ks_k1 P f)) *
  (ks_dc_D1 P f)) * (ks_ddk0_D1D2 P f))) + (((ks_k1 P f) * (ks_ddc_D1D1 P f)) * (ks_dk0_D2 P f))) +
  (((ks_k1 P f) * (ks_dc_D2 P f)) * (ks_ddk0_D1D1 P f))) + (((2 * (ks_k1 P f)) * (ks_dk0_D1 P f)) *
  (ks_ddc_D1D2 P f))) + (((2 * (ks_dc_D1 P f)) * (ks_dk0_D1 P f)) * (ks_dk1_D2 P f))) + (((2 *
  (ks_dc_D1 P f)) * (ks_dk0_D2 P f)) * (ks_dk1_D1 P f))) + (((2 * (ks_dc_D2 P f)) * (ks_dk0_D1 P f))
  * (ks_dk1_D1 P f)).

(* /repo/Src/Main/Modules/Physics/Free_Data/fd_KerrSchild_g_dg_ddg_dddg.c:6355-6395 *)
Definition ks_dddgamma_D1D2D2D0D0 (P : kspar) (f : ksarg) : R :=
  (((((((((((((((((((ks_c P f) * (ks_k1 P f)) * (ks_dddk2_D0D0D2 P f)) + (((ks_c P f) * (ks_k2 P f))
  * (ks_dddk1_D0D0D2 P f))) + (((2 * (ks_c P f)) * (ks_dk1_D0 P f)) * (ks_ddk2_D0D2 P f))) + (((ks_c
  P f) * (ks_ddk1_D0D0 P f)) * (ks_dk2_D2 P f))) + (((ks_c P f) * (ks_dk1_D2 P f)) * (ks_ddk2_D0D0 P
  f))) + (((2 * (ks_c P f)) * (ks_dk2_D0 P f)) * (ks_ddk1_D0D2 P f))) + (((ks_k1 P f) * (ks_k2 P f))
  * (ks_dddc_D0D0D2 P f))) + (((2 * (ks_k1 P f)) * (ks_dc_D0 P f)) * (ks_ddk2_D0D2 P f))) + (((ks_k1
  P f) * (ks_ddc_D0D0 P f)) * (ks_dk2_D2 P f))) + (((ks_k1 P f) * (ks_dc_D2 P f)) * (ks_ddk2_D0D0 P
  f))) + (((2 * (ks_k1 P f)) * (ks_dk2_D0 P f)) * (ks_ddc_D0D2 P f))) + (((2 * (ks_k2 P f)) *
  (ks_dc_D0 P f)) * (ks_ddk1_D0D2 P f))) + (((ks_k2 P f) * (ks_ddc_D0D0 P f)) * (ks_dk1_D2 P f))) +
  (((ks_k2 P f) * (ks_dc_D2 P f)) * (ks_ddk1_D0D0 P f))) + (((2 * (ks_k2 P f)) * (ks_dk1_D0 P f)) *
  (ks_ddc_D0D2 P f))) + (((2 * (ks_dc_D0 P f)) * (ks_dk1_D0 P f)) * (ks_dk2_D2 P f))) + (((2 *
  (ks_dc_D0 P f)) * (ks_dk1_D2 P f)) * (ks_dk2_D0 P f))) + (((2 * (ks_dc_D2 P f)) * (ks_dk1_D0 P f))
  * (ks_dk2_D0 P f)).

(* /repo/Src/Main/Modules/Physics/Free_Data/fd_KerrSchild_g_dg_ddg_dddg.c:6397-6437 *)
Definition ks_dddgamma_D0D1D2D0D0 (P : kspar) (f : ksarg) : R :=
  (((((((((((((((((((ks_c P f) * (ks_k0 P f)) * (ks_dddk1_D0D0D2 P f)) + (((ks_c P f) * (ks_k1 P f))
  * (ks_dddk0_D0D0D2 P f))) + (((2 * (ks_c P f)) * (ks_dk0_D0 P f)) * (ks_ddk1_D0D2 P f))) + (((ks_c
  P f) * (ks_ddk0_D0D0 P f)) * (ks_dk1_D2 P f))) + (((ks_c P f) * (ks_dk0_D2 P f)) * (ks_ddk1_D0D0 P
  f))) + (((2 * (ks_c P f)) * (ks_dk1_D0 P f)) * (ks_ddk0_D0D2 P f))) + (((ks_k0 P f) * (ks_k1 P f))
  * (ks_dddc_D0D0D2 P f))) + (((2 * (ks_k0 P f)) * (ks_dc_D0 P f)) * (ks_ddk1_D0D2 P f))) + (((ks_k0
  P f) * (ks_ddc_D0D0 P f)) * (ks_dk1_D2 P f))) + (((ks_k0 P f) * (ks_dc_D2 P f)) * (ks_ddk1_D0D0 P
  f))) + (((2 * (ks_k0 P f)) * (ks_dk1_D0 P f)) * (ks_ddc_D0D2 P f))) + (((2 * (ks_k1 P f)) *
  (ks_dc_D0 P f)) * (ks_ddk0_D0D2 P f))) + (((ks_k1 P f) * (ks_ddc_D0D0 P f)) * (ks_dk0_D2 P f))) +
  (((ks_k1 P f) * (ks_dc_D2 P f)) * (ks_ddk0_D0D0 P f))) + (((2 * (ks_k1 P f)) * (ks_dk0_D0 P f)) *
  (ks_ddc_D0D2 P f))) + (((2 * (ks_dc_D0 P f)) * (ks_dk0_D0 P f)) * (ks_dk1_D2 P f))) + (((2 *
  (ks_dc_D0 P f)) * (ks_dk0_D2 P f)) * (ks_dk1_D0 P f))) + (((2 * (ks_dc_D2 P f)) * (ks_dk0_D0 P f))
  * (ks_dk1_D0 P f)).

(* /repo/Src/Main/Modules/Physics/Free_Data/fd_KerrSchild_g_dg_ddg_dddg.c:6439-6495 *)
Definition ks_dddgamma_D1D2D1D2D0 (P : kspar) (f : ksarg) : R :=
  ((((((((((((((((((((((((((((ks_c P f) * (ks_k1 P f)) * (ks_dddk2_D0D1D2 P f)) + (((ks_c P f) *
  (ks_k2 P f)) * (ks_dddk1_D0D1D2 P f))) + (((ks_c P f) * (ks_dk1_D0 P f)) * (ks_ddk2_D1D2 P f))) +
  (((ks_c P f) * (ks_dk1_D1 P f)) * (ks_ddk2_D0D2 P f))) + (((ks_c P f) * (ks_dk1_D2 P f)) *
  (ks_ddk2_D0D1 P f))) + (((ks_c P f) * (ks_dk2_D0 P f)) * (ks_ddk1_D1D2 P f))) + (((ks_c P f) *
  (ks_dk2_D1 P f)) * (ks_ddk1_D0D2 P f))) + (((ks_c P f) * (ks_dk2_D2 P f)) * (ks_ddk1_D0D1 P f))) +
  (((ks_k1 P f) * (ks_k2 P f)) * (ks_dddc_D0D1D2 P f))) + (((ks_k1 P f) * (ks_dc_D0 P f)) *
  (ks_ddk2_D1D2 P f))) + (((ks_k1 P f) * (ks_dc_D1 P f)) * (ks_ddk2_D0D2 P f))) + (((ks_k1 P f) *
  (ks_dc_D2 P f)) * (ks_ddk2_D0D1 P f))) + (((ks_k1 P f) * (ks_dk2_D0 P f)) * (ks_ddc_D1D2 P f))) +
  (((ks_k1 P f) * (ks_dk2_D1 P f)) * (ks_ddc_D0D2 P f))) + (((ks_k1 P f) * (ks_dk2_D2 P f)) *
  (ks_ddc_D0D1 P f))) + (((ks_k2 P f) * (ks_dc_D0 P f)) * (ks_ddk1_D1D2 P f))) + (((ks_k2 P f) *
  (ks_dc_D1 P f)) * (ks_ddk1_D0D2 P f))) + (((ks_k2 P f) * (ks_dc_D2 P f)) * (ks_ddk1_D0D1 P f))) +
  (((ks_k2 P f) * (ks_dk1_D0 P f)) * (ks_ddc_D1D2 P f))) + (((ks_k2 P f) * (ks_dk1_D1 P f)) *
  (ks_ddc_D0D2 P f))) + (((ks_k2 P f) * (ks_dk1_D2 P f)) * (ks_ddc_D0D1 P f))) + (((ks_dc_D0 P f) *
  (ks_dk1_D1 P f)) * (ks_dk2_D2 P f))) + (((ks_dc_D0 P f) * (ks_dk1_D2 P f)) * (ks_dk2_D1 P f))) +
  (((ks_dc_D1 P f) * (ks_dk1_D0 P f)) * (ks_dk2_D2 P f))) + (((ks_dc_D1 P f) * (ks_dk1_D2 P f)) *
  (ks_dk2_D0 P f))) + (((ks_dc_D2 P f) * (ks_dk1_D0 P f)) * (ks_dk2_D1 P f))) + (((ks_dc_D2 P f) *
  (ks_dk1_D1 P f)) * (ks_dk2_D0 P f)).

(* /repo/Src/Main/Modules/Physics/Free_Data/fd_KerrSchild_g_dg_ddg_dddg.c:6497-6522 *)
Definition ks_dddgamma_D2D2D1D0D1 (P : kspar) (f : ksarg) : R :=
  (((((((((((2 * (ks_c P f)) * (ks_k2 P f)) * (ks_dddk2_D0D1D1 P f)) + (((2 * (ks_c P f)) *
  (ks_dk2_D0 P f)) * (ks_ddk2_D1D1 P f))) + (((4 * (ks_c P f)) * (ks_dk2_D1 P f)) * (ks_ddk2_D0D1 P
  f))) + (((ks_k2 P f) ^ 2) * (ks_dddc_D0D1D1 P f))) + (((2 * (ks_k2 P f)) * (ks_dc_D0 P f)) *
  (ks_ddk2_D1D1 P f))) + (((4 * (ks_k2 P f)) * (ks_dc_D1 P f)) * (ks_ddk2_D0D1 P f))) + (((2 * (ks_k2
  P f)) * (ks_ddc_D1D1 P f)) * (ks_dk2_D0 P f))) + (((4 * (ks_k2 P f)) * (ks_dk2_D1 P f)) *
  (ks_ddc_D0D1 P f))) + ((2 * (ks_dc_D0 P f)) * ((ks_dk2_D1 P f) ^ 2))) + (((4 * (ks_dc_D1 P f)) *
  (ks_dk2_D0 P f)) * (ks_dk2_D1 P f)).

(* /repo/Src/Main/Modules/Physics/Free_Data/fd_KerrSchild_g_dg_ddg_dddg.c:6524-6549 *)
Definition ks_dddgamma_D2D2D1D2D2 (P : kspar) (f : ksarg) : R :=
  (((((((((((2 * (ks_c P f)) * (ks_k2 P f)) * (ks_dddk2_D1D2D2 P f)) + (((2 * (ks_c P f)) *
  (ks_dk2_D1 P f)) * (ks_ddk2_D2D2 P f))) + (((4 * (ks_c P f)) * (ks_dk2_D2 P f)) * (ks_ddk2_D1D2 P
  f))) + (((ks_k2 P f) ^ 2) * (ks_dddc_D1D2D2 P f))) + (((2 * (ks_k2 P f)) * (ks_dc_D1 P f)) *
  (ks_ddk2_D2D2 P f))) + (((4 * (ks_k2 P f)) * (ks_dc_D2 P f)) * (ks_ddk2_D1D2 P f))) + (((2 * (ks_k2
  P f)) * (ks_ddc_D2D2 P f)) * (ks_dk2_D1 P f))) + (((4 * (ks_k2 P f)) * (ks_dk2_D2 P f)) *
  (ks_ddc_D1D2 P f))) + ((2 * (ks_dc_D1 P f)) * ((ks_dk2_D2 P f) ^ 2))) + (((4 * (ks_dc_D2 P f)) *
  (ks_dk2_D1 P f)) * (ks_dk2_D2 P f)).

(* /repo/Src/Main/Modules/Physics/Free_Data/fd_KerrSchild_g_dg_ddg_dddg.c:6551-6576 *)
Definition ks_dddgamma_D1D1D1D0D0 (P : kspar) (f : ksarg) : R :=
  (((((((((((2 * (ks_c P f)) * (ks_k1 P f)) * (ks_dddk1_D0D0D1 P f)) + (((4 * (ks_c P f)) *
  (ks_dk1_D0 P f)) * (ks_ddk1_D0D1 P f))) + (((2 * (ks_c P f)) * (ks_ddk1_D0D0 P f)) * (ks_dk1_D1 P
  f))) + (((ks_k1 P f) ^ 2) * (ks_dddc_D0D0D1 P f))) + (((4 * (ks_k1 P f)) * (ks_dc_D0 P f)) *
  (ks_ddk1_D0D1 P f))) + (((2 * (ks_k1 P f)) * (ks_ddc_D0D0 P f)) * (ks_dk1_D1 P f))) + (((2 * (ks_k1
  P f)) * (ks_dc_D1 P f)) * (ks_ddk1_D0D0 P f))) + (((4 * (ks_k1 P f)) * (ks_dk1_D0 P f)) *
  (ks_ddc_D0D1 P f))) + (((4 * (ks_dc_D0 P f)) * (ks_dk1_D0 P f)) * (ks_dk1_D1 P f))) + ((2 *
  (ks_dc_D1 P f)) * ((ks_dk1_D0 P f) ^ 2)).

(* /repo/Src/Main/Modules/Physics/Free_Data/fd_KerrSchild_g_dg_ddg_dddg.c:6578-6634 *)
Definition ks_dddgamma_D0D1D1D0D2 (P : kspar) (f : ksarg) : R :=
  ((((((((((((((((((((((((((((ks_c P f) * (ks_k0 P f)) * (ks_dddk1_D0D1D2 P f)) + (((ks_c P f) *
  (ks_k1 P f)) * (ks_dddk0_D0D1D2 P f))) + (((ks_c P f) * (ks_dk0_D0 P f)) * (ks_ddk1_D1D2 P f))) +
  (((ks_c P f) * (ks_dk0_D1 P f)) * (ks_ddk1_D0D2 P f))) + (((ks_c P f) * (ks_dk0_D2 P f)) *
  (ks_ddk1_D0D1 P f))) + (((ks_c P f) * (ks_dk1_D0 P f)) * (ks_ddk0_D1D2 P f))) + (((ks_c P f) *
  (ks_dk1_D1 P f)) * (ks_ddk0_D0D2 P f))) + (((ks_c P f) * (ks_dk1_D2 P f)) * (ks_ddk0_D0D1 P f))) +
  (((ks_k0 P f) * (ks_k1 P f)) * (ks_dddc_D0D1D2 P f))) + (((ks_k0 P f) * (ks_dc_D0 P f)) *
  (ks_ddk1_D1D2 P f))) + (((ks_k0 P f) * (ks_dc_D1 P f)) * (ks_ddk1_D0D2 P f))) + (((ks_k0 P f) *
  (ks_dc_D2 P f)) * (ks_ddk1_D0D1 P f))) + (((ks_k0 P f) * (ks_dk1_D0 P f)) * (ks_ddc_D1D2 P f))) +
  (((ks_k0 P f) * (ks_dk1_D1 P f)) * (ks_ddc_D0D2 P f))) + (((ks_k0 P f) * (ks_dk1_D2 P f)) *
  (ks_ddc_D0D1 P f))) + (((ks_k1 P f) * (ks_dc_D0 P f)) * (ks_ddk0_D1D2 P f))) + (((ks_k1 P f) *
  (ks_dc_D1 P f)) * (ks_ddk0_D0D2 P f))) + (((ks_k1 P f) * (ks_dc_D2 P f)) * (ks_ddk0_D0D1 P f))) +
  (((ks_k1 P f) * (ks_dk0_D0 P f)) * (ks_ddc_D1D2 P f))) + (((ks_k1 P f) * (ks_dk0_D1 P f)) *
  (ks_ddc_D0D2 P f))) + (((ks_k1 P f) * (ks_dk0_D2 P f)) * (ks_ddc_D0D1 P f))) + (((ks_dc_D0 P f) *
  (ks_dk0_D1 P f)) * (ks_dk1_D2 P f))) + (((ks_dc_D0 P f) * (ks_dk0_D2 P f)) * (ks_dk1_D1 P f))) +
  (((ks_dc_D1 P f) * (ks_dk0_D0 P f)) * (ks_dk1_D2 P f))) + (((ks_dc_D1 P f) * (ks_dk0_D2 P f)) *
  (ks_dk1_D0 P f))) + (((ks_dc_D2 P f) * (ks_dk0_D0 P f)) * (ks_dk1_D1 P f))) + (((ks_dc_D2 P f) *
  (ks_dk0_D1 P f)) * (ks_dk1_D0 P f)).

(* /repo/Src/Main/Modules/Physics/Free_Data/fd_KerrSchild_g_dg_ddg_dddg.c:6636-6676 *)
Definition ks_dddgamma_D0D2D2D2D0 (P : kspar) (f : ksarg) : R :=
  (((((((((((((((((((ks_c P f) * (ks_k0 P f)) * (ks_dddk2_D0D2D2 P f)) + (((ks_c P f) * (ks_k2 P f))
  * (ks_dddk0_D0D2D2 P f))) + (((ks_c P f) * (ks_dk0_D0 P f)) * (ks_ddk2_D2D2 P f))) + (((2 * (ks_c P
  f)) * (ks_dk0_D2 P f)) * (ks_ddk2_D0D2 P f))) + (((ks_c P f) * (ks_ddk0_D2D2 P f)) * (ks_dk2_D0 P
  f))) + (((2 * (ks_c P f)) * (ks_dk2_D2 P f)) * (ks_ddk0_D0D2 P f))) + (((ks_k0 P f) * (ks_k2 P f))
  * (ks_dddc_D0D2D2 P f))) + (((ks_k0 P f) * (ks_dc_D0 P f)) * (ks_ddk2_D2D2 P f))) + (((2 * (ks_k0 P
  f)) * (ks_dc_D2 P f)) * (ks_ddk2_D0D2 P f))) + (((ks_k0 P f) * (ks_ddc_D2D2 P f)) * (ks_dk2_D0 P
  f))) + (((2 * (ks_k0 P f)) * (ks_dk2_D2 P f)) * (ks_ddc_D0D2 P f))) + (((ks_k2 P f) * (ks_dc_D0 P
  f)) * (ks_ddk0_D2D2 P f))) + (((2 * (ks_k2 P f)) * (ks_dc_D2 P f)) * (ks_ddk0_D0D2 P f))) +
  (((ks_k2 P f) * (ks_ddc_D2D2 P f)) * (ks_dk0_D0 P f))) + (((2 * (ks_k2 P f)) * (ks_dk0_D2 P f)) *
  (ks_ddc_D0D2 P f))) + (((2 * (ks_dc_D0 P f)) * (ks_dk0_D2 P f)) * (ks_dk2_D2 P f))) + (((2 *
  (ks_dc_D2 P f)) * (ks_dk0_D0 P f)) * (ks_dk2_D2 P f))) + (((2 * (ks_dc_D2 P f)) * (ks_dk0_D2 P f))
  * (ks_dk2_D0 P f)).

(* /repo/Src/Main/Modules/Physics/Free_Data/fd_KerrSchild_g_dg_ddg_dddg.c:6678-6694 *)
Definition ks_dddgamma_D2D2D2D2D2 (P : kspar) (f : ksarg) : R :=
  (((((((2 * (ks_c P f)) * (ks_k2 P f)) * (ks_dddk2_D2D2D2 P f)) + (((6 * (ks_c P f)) * (ks_dk2_D2 P
  f)) * (ks_ddk2_D2D2 P f))) + (((ks_k2 P f) ^ 2) * (ks_dddc_D2D2D2 P f))) + (((6 * (ks_k2 P f)) *
  (ks_dc_D2 P f)) * (ks_ddk2_D2D2 P f))) + (((6 * (ks_k2 P f)) * (ks_ddc_D2D2 P f)) * (ks_dk2_D2 P
  f))) + ((6 * (ks_dc_D2 P f)) * ((ks_dk2_D2 P f) ^ 2)).

(* /repo/Src/Main/Modules/Physics/Free_Data/fd_KerrSchild_g_dg_ddg_dddg.c:6696-6752 *)
Definition ks_dddgamma_D0D2D2D0D1 (P : kspar) (f : ksarg) : R :=
  ((((((((((((((((((((((((((((ks_c P f) * (ks_k0 P f)) * (ks_dddk2_D0D1D2 P f)) + (((ks_c P f) *
  (ks_k2 P f)) * (ks_dddk0_D0D1D2 P f))) + (((ks_c P f) * (ks_dk0_D0 P f)) * (ks_ddk2_D1D2 P f))) +
  (((ks_c P f) * (ks_dk0_D1 P f)) * (ks_ddk2_D0D2 P f))) + (((ks_c P f) * (ks_dk0_D2 P f)) *
  (ks_ddk2_D0D1 P f))) + (((ks_c P f) * (ks_dk2_D0 P f)) * (ks_ddk0_D1D2 P f))) + (((ks_c P f) *
  (ks_dk2_D1 P f)) * (ks_ddk0_D0D2 P f))) + (((ks_c P f) * (ks_dk2_D2 P f)) * (ks_ddk0_D0D1 P f))) +
  (((ks_k0 P f) * (ks_k2 P f)) * (ks_dddc_D0D1D2 P f))) + (((ks_k0 P f) * (ks_dc_D0 P f)) *
  (ks_ddk2_D1D2 P f))) + (((ks_k0 P f) * (ks_dc_D1 P f)) * (ks_ddk2_D0D2 P f))) + (((ks_k0 P f) *
  (ks_dc_D2 P f)) * (ks_ddk2_D0D1 P f))) + (((ks_k0 P f) * (ks_dk2_D0 P f)) * (ks_ddc_D1D2 P f))) +
  (((ks_k0 P f) * (ks_dk2_D1 P f)) * (ks_ddc_D0D2 P f))) + (((ks_k0 P f) * (ks_dk2_D2 P f)) *
  (ks_ddc_D0D1 P f))) + (((ks_k2 P f) * (ks_dc_D0 P f)) * (ks_ddk0_D1D2 P f))) + (((ks_k2 P f) *
  (ks_dc_D1 P f)) * (ks_ddk0_D0D2 P f))) + (((ks_k2 P f) * (ks_dc_D2 P f)) * (ks_ddk0_D0D1 P f))) +
  (((ks_k2 P f) * (ks_dk0_D0 P f)) * (ks_ddc_D1D2 P f))) + (((ks_k2 P f) * (ks_dk0_D1 P f)) *
  (ks_ddc_D0D2 P f))) + (((ks_k2 P f) * (ks_dk0_D2 P f)) * (ks_ddc_D0D1 P f))) + (((ks_dc_D0 P f) *
  (ks_dk0_D1 P f)) * (ks_dk2_D2 P f))) + (((ks_dc_D0 P f) * (ks_dk0_D2 P f)) * (ks_dk2_D1 P f))) +
  (((ks_dc_D1 P f) * (ks_dk0_D0 P f)) * (ks_dk2_D2 P f))) + (((ks_dc_D1 P f) * (ks_dk0_D2 P f)) *
  (ks_dk2_D0 P f))) + (((ks_dc_D2 P f) * (ks_dk0_D0 P f)) * (ks_dk2_D1 P f))) + (((ks_dc_D2 P f) *
  (ks_dk0_D1 P f)) * (ks_dk2_D0 P f)).

(* /repo/Src/Main/Modules/Physics/Free_Data/fd_KerrSchild_g_dg_ddg_dddg.c:6754-6794 *)
Definition ks_dddgamma_D0D2D1D1D2 (P : kspar) (f : ksarg) : R :=
  (((((((((((((((((((ks_c P f) * (ks_k0 P f)) * (ks_dddk2_D1D1D2 P f)) + (((ks_c P f) * (ks_k2 P f))
  * (ks_dddk0_D1D1D2 P f))) + (((2 * (ks_c P f)) * (ks_dk0_D1 P f)) * (ks_ddk2_D1D2 P f))) + (((ks_c
  P f) * (ks_ddk0_D1D1 P f)) * (ks_dk2_D2 P f))) + (((ks_c P f) * (ks_dk0_D2 P f)) * (ks_ddk2_D1D1 P
  f))) + (((2 * (ks_c P f)) * (ks_dk2_D1 P f)) * (ks_ddk0_D1D2 P f))) + (((ks_k0 P f) * (ks_k2 P f))
  * (ks_dddc_D1D1D2 P f))) + (((2 * (ks_k0 P f)) * (ks_dc_D1 P f)) * (ks_ddk2_D1D2 P f))) + (((ks_k0
  P f) * (ks_ddc_D1D1 P f)) * (ks_dk2_D2 P f))) + (((ks_k0 P f) * (ks_dc_D2 P f)) * (ks_ddk2_D1D1 P
  f))) + (((2 * (ks_k0 P f)) * (ks_dk2_D1 P f)) * (ks_ddc_D1D2 P f))) + (((2 * (ks_k2 P f)) *
  (ks_dc_D1 P f)) * (ks_ddk0_D1D2 P f))) + (((ks_k2 P f) * (ks_ddc_D1D1 P f)) * (ks_dk0_D2 P f))) +
  (((ks_k2 P f) * (ks_dc_D2 P f)) * (ks_ddk0_D1D1 P f))) + (((2 * (ks_k2 P f)) * (ks_dk0_D1 P f)) *
  (ks_ddc_D1D2 P f))) + (((2 * (ks_dc_D1 P f)) * (ks_dk0_D1 P f)) * (ks_dk2_D2 P f))) + (((2 *
  (ks_dc_D1 P f)) * (ks_dk0_D2 P f)) * (ks_dk2_D1 P f))) + (((2 * (ks_dc_D2 P f)) * (ks_dk0_D1 P f))
  * (ks_dk2_D1 P f)).

(* /repo/Src/Main/Modules/Physics/Free_Data/fd_KerrSchild_g_dg_ddg_dddg.c:6796-6821 *)
Definition ks_dddgamma_D2D2D0D0D2 (P : kspar) (f : ksarg) : R :=
  (((((((((((2 * (ks_c P f)) * (ks_k2 P f)) * (ks_dddk2_D0D0D2 P f)) + (((4 * (ks_c P f)) *
  (ks_dk2_D0 P f)) * (ks_ddk2_D0D2 P f))) + (((2 * (ks_c P f)) * (ks_ddk2_D0D0 P f)) * (ks_dk2_D2 P
  f))) + (((ks_k2 P f) ^ 2) * (ks_dddc_D0D0D2 P f))) + (((4 * (ks_k2 P f)) * (ks_dc_D0 P f)) *
  (ks_ddk2_D0D2 P f))) + (((2 * (ks_k2 P f)) * (ks_ddc_D0D0 P f)) * (ks_dk2_D2 P f))) + (((2 * (ks_k2
  P f)) * (ks_dc_D2 P f)) * (ks_ddk2_D0D0 P f))) + (((4 * (ks_k2 P f)) * (ks_dk2_D0 P f)) *
  (ks_ddc_D0D2 P f))) + (((4 * (ks_dc_D0 P f)) * (ks_dk2_D0 P f)) * (ks_dk2_D2 P f))) + ((2 *
  (ks_dc_D2 P f)) * ((ks_dk2_D0 P f) ^ 2)).

(* /repo/Src/Main/Modules/Physics/Free_Data/fd_KerrSchild_g_dg_ddg_dddg.c:6823-6848 *)
Definition ks_dddgamma_D2D2D2D0D0 (P : kspar) (f : ksarg) : R :=
  (((((((((((2 * (ks_c P f)) * (ks_k2 P f)) * (ks_dddk2_D0D0D2 P f)) + (((4 * (ks_c P f)) *
  (ks_dk2_D0 P f)) * (ks_ddk2_D0D2 P f))) + (((2 * (ks_c P f)) * (ks_ddk2_D0D0 P f)) * (ks_dk2_D2 P
  f))) + (((ks_k2 P f) ^ 2) * (ks_dddc_D0D0D2 P f))) + (((4 * (ks_k2 P f)) * (ks_dc_D0 P f)) *
  (ks_ddk2_D0D2 P f))) + (((2 * (ks_k2 P f)) * (ks_ddc_D0D0 P f)) * (ks_dk2_D2 P f))) + (((2 * (ks_k2
  P f)) * (ks_dc_D2 P f)) * (ks_ddk2_D0D0 P f))) + (((4 * (ks_k2 P f)) * (ks_dk2_D0 P f)) *
  (ks_ddc_D0D2 P f))) + (((4 * (ks_dc_D0 P f)) * (ks_dk2_D0 P f)) * (ks_dk2_D2 P f))) + ((2 *
  (ks_dc_D2 P f)) * ((ks_dk2_D0 P f) ^ 2)).

(* /repo/Src/Main/Modules/Physics/Free_Data/fd_KerrSchild_g_dg_ddg_dddg.c:6850-6875 *)
Definition ks_dddgamma_D2D2D0D2D0 (P : kspar) (f : ksarg) : R :=
  (((((((((((2 * (ks_c P f)) * (ks_k2 P f)) * (ks_dddk2_D0D0D2 P f)) + (((4 * (ks_c P f)) *
  (ks_dk2_D0 P f)) * (ks_ddk2_D0D2 P f))) + (((2 * (ks_c P f)) * (ks_ddk2_D0D0 P f)) * (ks_dk2_D2 P
  f))) + (((ks_k2 P f) ^ 2) * (ks_dddc_D0D0D2 P f))) + (((4 * (ks_k2 P f)) * (ks_dc_D0 P f)) *
  (ks_ddk2_D0D2 P f))) + (((2 * (ks_k2 P f)) * (ks_ddc_D0D0 P f)) * (ks_dk2_D2 P f))) + (((2 * (ks_k2
  P f)) * (ks_dc_D2 P f)) * (ks_ddk2_D0D0 P f))) + (((4 * (ks_k2 P f)) * (ks_dk2_D0 P f)) *
  (ks_ddc_D0D2 P f))) + (((4 * (ks_dc_D0 P f)) * (ks_dk2_D0 P f)) * (ks_dk2_D2 P f))) + ((2 *
  (ks_dc_D2 P f)) * ((ks_dk2_D0 P f) ^ 2)).

(* /repo/Src/Main/Modules/Physics/Free_Data/fd_KerrSchild_g_dg_ddg_dddg.c:6877-6911 *)
Definition ks_dddgamma_D1D1D2D0D1 (P : kspar) (f : ksarg) : R :=
  (((((((((((((((2 * (ks_c P f)) * (ks_k1 P f)) * (ks_dddk1_D0D1D2 P f)) + (((2 * (ks_c P f)) *
  (ks_dk1_D0 P f)) * (ks_ddk1_D1D2 P f))) + (((2 * (ks_c P f)) * (ks_dk1_D1 P f)) * (ks_ddk1_D0D2 P
  f))) + (((2 * (ks_c P f)) * (ks_dk1_D2 P f)) * (ks_ddk1_D0D1 P f))) + (((ks_k1 P f) ^ 2) *
  (ks_dddc_D0D1D2 P f))) + (((2 * (ks_k1 P f)) * (ks_dc_D0 P f)) * (ks_ddk1_D1D2 P f))) + (((2 *
  (ks_k1 P f)) * (ks_dc_D1 P f)) * (ks_ddk1_D0D2 P f))) + (((2 * (ks_k1 P f)) * (ks_dc_D2 P f)) *
  (ks_ddk1_D0D1 P f))) + (((2 * (ks_k1 P f)) * (ks_dk1_D0 P f)) * (ks_ddc_D1D2 P f))) + (((2 * (ks_k1
  P f)) * (ks_dk1_D1 P f)) * (ks_ddc_D0D2 P f))) + (((2 * (ks_k1 P f)) * (ks_dk1_D2 P f)) *
  (ks_ddc_D0D1 P f))) + (((2 * (ks_dc_D0 P f)) * (ks_dk1_D1 P f)) * (ks_dk1_D2 P f))) + (((2 *
  (ks_dc_D1 P f)) * (ks_dk1_D0 P f)) * (ks_dk1_D2 P f))) + (((2 * (ks_dc_D2 P f)) * (ks_dk1_D0 P f))
  * (ks_dk1_D1 P f)).

(* /repo/Src/Main/Modules/Physics/Free_Data/fd_KerrSchild_g_dg_ddg_dddg.c:6913-6929 *)
Definition ks_dddgamma_D2D2D0D0D0 (P : kspar) (f : ksarg) : R :=
  (((((((2 * (ks_c P f)) * (ks_k2 P f)) * (ks_dddk2_D0D0D0 P f)) + (((6 * (ks_c P f)) * (ks_dk2_D0 P
  f)) * (ks_ddk2_D0D0 P f))) + (((ks_k2 P f) ^ 2) * (ks_dddc_D0D0D0 P f))) + (((6 * (ks_k2 P f)) *
  (ks_dc_D0 P f)) * (ks_ddk2_D0D0 P f))) + (((6 * (ks_k2 P f)) * (ks_ddc_D0D0 P f)) * (ks_dk2_D0 P
  f))) + ((6 * (ks_dc_D0 P f)) * ((ks_dk2_D0 P f) ^ 2)).

(* /repo/Src/Main/Modules/Physics/Free_Data/fd_KerrSchild_g_dg_ddg_dddg.c:6931-6956 *)
Definition ks_dddgamma_D2D2D2D0D2 (P : kspar) (f : ksarg) : R :=
  (((((((((((2 * (ks_c P f)) * (ks_k2 P f)) * (ks_dddk2_D0D2D2 P f)) + (((2 * (ks_c P f)) *
  (ks_dk2_D0 P f)) * (ks_ddk2_D2D2 P f))) + (((4 * (ks_c P f)) * (ks_dk2_D2 P f)) * (ks_ddk2_D0D2 P
  f))) + (((ks_k2 P f) ^ 2) * (ks_dddc_D0D2D2 P f))) + (((2 * (ks_k2 P f)) * (ks_dc_D0 P f)) *
  (ks_ddk2_D2D2 P f))) + (((4 * (ks_k2 P f)) * (ks_dc_D2 P f)) * (ks_ddk2_D0D2 P f))) + (((2 * (ks_k2
  P f)) * (ks_ddc_D2D2 P f)) * (ks_dk2_D0 P f))) + (((4 * (ks_k2 P f)) * (ks_dk2_D2 P f)) *
  (ks_ddc_D0D2 P f))) + ((2 * (ks_dc_D0 P f)) * ((ks_dk2_D2 P f) ^ 2))) + (((4 * (ks_dc_D2 P f)) *
  (ks_dk2_D0 P f)) * (ks_dk2_D2 P f)).

(* /repo/Src/Main/Modules/Physics/Free_Data/fd_KerrSchild_g_dg_ddg_dddg.c:6958-6998 *)
Definition ks_dddgamma_D0D2D2D0D2 (P : kspar) (f : ksarg) : R :=
  (((((((((((((((((((ks_c P f) * (ks_k0 P f)) * (ks_dddk2_D0D2D2 P f)) + (((ks_c P f) * (ks_k2 P f))
  * (ks_dddk0_D0D2D2 P f))) + (((ks_c P f) * (ks_dk0_D0 P f)) * (ks_ddk2_D2D2 P f))) + (((2 * (ks_c P
  f)) * (ks_dk0_D2 P f)) * (ks_ddk2_D0D2 P f))) + (((ks_c P f) * (ks_ddk0_D2D2 P f)) * (ks_dk2_D0 P
  f))) + (((2 * (ks_c P f)) * (ks_dk2_D2 P f)) * (ks_ddk0_D0D2 P f))) + (((ks_k0 P f) * (ks_k2 P f))
  * (ks_dddc_D0D2D2 P f))) + (((ks_k0 P f) * (ks_dc_D0 P f)) * (ks_ddk2_D2D2 P f))) + (((2 * (ks_k0 P
  f)) * (ks_dc_D2 P f)) * (ks_ddk2_D0D2 P f))) + (((ks_k0 P f) * (ks_ddc_D2D2 P f)) * (ks_dk2_D0 P
  f))) + (((2 * (ks_k0 P f)) * (ks_dk2_D2 P f)) * (ks_ddc_D0D2 P f))) + (((ks_k2 P f) * (ks_dc_D0 P
  f)) * (ks_ddk0_D2D2 P f))) + (((2 * (ks_k2 P f)) * (ks_dc_D2 P f)) * (ks_ddk0_D0D2 P f))) +
  (((ks_k2 P f) * (ks_ddc_D2D2 P f)) * (ks_dk0_D0 P f))) + (((2 * (ks_k2 P f)) * (ks_dk0_D2 P f)) *
  (ks_ddc_D0D2 P f))) + (((2 * (ks_dc_D0 P f)) * (ks_dk0_D2 P f)) * (ks_dk2_D2 P f))) + (((2 *
  (ks_dc_D2 P f)) * (ks_dk0_D0 P f)) * (ks_dk2_D2 P f))) + (((2 * (ks_dc_D2 P f)) * (ks_dk0_D2 P f))
  * (ks_dk2_D0 P f)).

(* /repo/Src/Main/Modules/Physics/Free_Data/fd_KerrSchild_g_dg_ddg_dddg.c:7000-7025 *)
Definition ks_dddgamma_D0D2D2D2D2 (P : kspar) (f : ksarg) : R :=
  (((((((((((ks_c P f) * (ks_k0 P f)) * (ks_dddk2_D2D2D2 P f)) + (((ks_c P f) * (ks_k2 P f)) *
  (ks_dddk0_D2D2D2 P f))) + (((3 * (ks_c P f)) * (ks_dk0_D2 P f)) * (ks_ddk2_D2D2 P f))) + (((3 *
  (ks_c P f)) * (ks_ddk0_D2D2 P f)) * (ks_dk2_D2 P f))) + (((ks_k0 P f) * (ks_k2 P f)) *
  (ks_dddc_D2D2D2 P f))) + (((3 * (ks_k0 P f)) * (ks_dc_D2 P f)) * (ks_ddk2_D2D2 P f))) + (((3 *
  (ks_k0 P f)) * (ks_ddc_D2D2 P f)) * (ks_dk2_D2 P f))) + (((3 * (ks_k2 P f)) * (ks_dc_D2 P f)) *
  (ks_ddk0_D2D2 P f))) + (((3 * (ks_k2 P f)) * (ks_ddc_D2D2 P f)) * (ks_dk0_D2 P f))) + (((6 *
  (ks_dc_D2 P f)) * (ks_dk0_D2 P f)) * (ks_dk2_D2 P f)).

(* /repo/Src/Main/Modules/Physics/Free_Data/fd_KerrSchild_g_dg_ddg_dddg.c:7027-7043 *)
Definition ks_dddgamma_D1D1D0D0D0 (P : kspar) (f : ksarg) : R :=
  (((((((2 * (ks_c P f)) * (ks_k1 P f)) * (ks_dddk1_D0D0D0 P f)) + (((6 * (ks_c P f)) * (ks_dk1_D0 P
  f)) * (ks_ddk1_D0D0 P f))) + (((ks_k1 P f) ^ 2) * (ks_dddc_D0D0D0 P f))) + (((6 * (ks_k1 P f)) *
  (ks_dc_D0 P f)) * (ks_ddk1_D0D0 P f))) + (((6 * (ks_k1 P f)) * (ks_ddc_D0D0 P f)) * (ks_dk1_D0 P
  f))) + ((6 * (ks_dc_D0 P f)) * ((ks_dk1_D0 P f) ^ 2)).

(* /repo/Src/Main/Modules/Physics/Free_Data/fd_KerrSchild_g_dg_ddg_dddg.c:7045-7101 *)
Definition ks_dddgamma_D1D2D2D0D1 (P : kspar) (f : ksarg) : R :=
  ((((((((((((((((((((((((((((ks_c P f) * (ks_k1 P f)) * (ks_dddk2_D0D1D2 P f)) + (((ks_c P f) *
  (ks_k2 P f)) * (ks_dddk1_D0D1D2 P f))) + (((ks_c P f) * (ks_dk1_D0 P f)) * (ks_ddk2_D1D2 P f))) +
  (((ks_c P f) * (ks_dk1_D1 P f)) * (ks_ddk2_D0D2 P f))) + (((ks_c P f) * (ks_dk1_D2 P f)) *
  (ks_ddk2_D0D1 P f))) + (((ks_c P f) * (ks_dk2_D0 P f)) * (ks_ddk1_D1D2 P f))) + (((ks_c P f) *
  (ks_dk2_D1 P f)) * (ks_ddk1_D0D2 P f))) + (((ks_c P f) * (ks_dk2_D2 P f)) * (ks_ddk1_D0D1 P f))) +
  (((ks_k1 P f) * (ks_k2 P f)) * (ks_dddc_D0D1D2 P f))) + (((ks_k1 P f) * (ks_dc_D0 P f)) *
  (ks_ddk2_D1D2 P f))) + (((ks_k1 P f) * (ks_dc_D1 P f)) * (ks_ddk2_D0D2 P f))) + (((ks_k1 P f) *
  (ks_dc_D2 P f)) * (ks_ddk2_D0D1 P f))) + (((ks_k1 P f) * (ks_dk2_D0 P f)) * (ks_ddc_D1D2 P f))) +
  (((ks_k1 P f) * (ks_dk2_D1 P f)) * (ks_ddc_D0D2 P f))) + (((ks_k1 P f) * (ks_dk2_D2 P f)) *
  (ks_ddc_D0D1 P f))) + (((ks_k2 P f) * (ks_dc_D0 P f)) * (ks_ddk1_D1D2 P f))) + (((ks_k2 P f) *
  (ks_dc_D1 P f)) * (ks_ddk1_D0D2 P f))) + (((ks_k2 P f) * (ks_dc_D2 P f)) * (ks_ddk1_D0D1 P f))) +
  (((ks_k2 P f) * (ks_dk1_D0 P f)) * (ks_ddc_D1D2 P f))) + (((ks_k2 P f) * (ks_dk1_D1 P f)) *
  (ks_ddc_D0D2 P f))) + (((ks_k2 P f) * (ks_dk1_D2 P f)) * (ks_ddc_D0D1 P f))) + (((ks_dc_D0 P f) *
  (ks_dk1_D1 P f)) * (ks_dk2_D2 P f))) + (((ks_dc_D0 P f) * (ks_dk1_D2 P f)) * (ks_dk2_D1 P f))) +
  (((ks_dc_D1 P f) * (ks_dk1_D0 P f)) * (ks_dk2_D2 P f))) + (((ks_dc_D1 P f) * (ks_dk1_D2 P f)) *
  (ks_dk2_D0 P f))) + (((ks_dc_D2 P f) * (ks_dk1_D0 P f)) * (ks_dk2_D1 P f))) + (((ks_dc_D2 P f) *
  (ks_dk1_D1 P f)) * (ks_dk2_D0 P f)).

(* /repo/Src/Main/Modules/Physics/Free_Data/fd_KerrSchild_g_dg_ddg_dddg.c:7103-7128 *)
Definition ks_dddgamma_D0D0D1D1D0 (P : kspar) (f : ksarg) : R :=
  (((((((((((2 * (ks_c P f)) * (ks_k0 P f)) * (ks_dddk0_D0D1D1 P f)) + (((2 * (ks_c P f)) *
  (ks_dk0_D0 P f)) * (ks_ddk0_D1D1 P f))) + (((4 * (ks_c P f)) * (ks_dk0_D1 P f)) * (ks_ddk0_D0D1 P
  f))) + (((ks_k0 P f) ^ 2) * (ks_dddc_D0D1D1 P f))) + (((2 * (ks_k0 P f)) * (ks_dc_D0 P f)) *
  (ks_ddk0_D1D1 P f))) + (((4 * (ks_k0 P f)) * (ks_dc_D1 P f)) * (ks_ddk0_D0D1 P f))) + (((2 * (ks_k0
  P f)) * (ks_ddc_D1D1 P f)) * (ks_dk0_D0 P f))) + (((4 * (ks_k0 P f)) * (ks_dk0_D1 P f)) *
  (ks_ddc_D0D1 P f))) + ((2 * (ks_dc_D0 P f)) * ((ks_dk0_D1 P f) ^ 2))) + (((4 * (ks_dc_D1 P f)) *
  (ks_dk0_D0 P f)) * (ks_dk0_D1 P f)).

(* /repo/Src/Main/Modules/Physics/Free_Data/fd_KerrSchild_g_dg_ddg_dddg.c:7130-7164 *)
Definition ks_dddgamma_D1D1D1D0D2 (P : kspar) (f : ksarg) : R :=
  (((((((((((((((2 * (ks_c P f)) * (ks_k1 P f)) * (ks_dddk1_D0D1D2 P f)) + (((2 * (ks_c P f)) *
  (ks_dk1_D0 P f)) * (ks_ddk1_D1D2 P f))) + (((2 * (ks_c P f)) * (ks_dk1_D1 P f)) * (ks_ddk1_D0D2 P
  f))) + (((2 * (ks_c P f)) * (ks_dk1_D2 P f)) * (ks_ddk1_D0D1 P f))) + (((ks_k1 P f) ^ 2) *
  (ks_dddc_D0D1D2 P f))) + (((2 * (ks_k1 P f)) * (ks_dc_D0 P f)) * (ks_ddk1_D1D2 P f))) + (((2 *
  (ks_k1 P f)) * (ks_dc_D1 P f)) * (ks_ddk1_D0D2 P f))) + (((2 * (ks_k1 P f)) * (ks_dc_D2 P f)) *
  (ks_ddk1_D0D1 P f))) + (((2 * (ks_k1 P f)) * (ks_dk1_D0 P f)) * (ks_ddc_D1D2 P f))) + (((2 * (ks_k1
  P f)) * (ks_dk1_D1 P f)) * (ks_ddc_D0D2 P f))) + (((2 * (ks_k1 P f)) * (ks_dk1_D2 P f)) *
  (ks_ddc_D0D1 P f))) + (((2 * (ks_dc_D0 P f)) * (ks_dk1_D1 P f)) * (ks_dk1_D2 P f))) + (((2 *
  (ks_dc_D1 P f)) * (ks_dk1_D0 P f)) * (ks_dk1_D2 P f))) + (((2 * (ks_dc_D2 P f)) * (ks_dk1_D0 P f))
  * (ks_dk1_D1 P f)).

(* /repo/Src/Main/Modules/Physics/Free_Data/fd_KerrSchild_g_dg_ddg_dddg.c:7166-7200 *)
Definition ks_dddgamma_D2D2D1D0D2 (P : kspar) (f : ksarg) : R :=
  (((((((((((((((2 * (ks_c P f)) * (ks_k2 P f)) * (ks_dddk2_D0D1D2 P f)) + (((2 * (ks_c P f)) *
  (ks_dk2_D0 P f)) * (ks_ddk2_D1D2 P f))) + (((2 * (ks_c P f)) * (ks_dk2_D1 P f)) * (ks_ddk2_D0D2 P
  f))) + (((2 * (ks_c P f)) * (ks_dk2_D2 P f)) * (ks_ddk2_D0D1 P f))) + (((ks_k2 P f) ^ 2) *
  (ks_dddc_D0D1D2 P f))) + (((2 * (ks_k2 P f)) * (ks_dc_D0 P f)) * (ks_ddk2_D1D2 P f))) + (((2 *
  (ks_k2 P f)) * (ks_dc_D1 P f)) * (ks_ddk2_D0D2 P f))) + (((2 * (ks_k2 P f)) * (ks_dc_D2 P f)) *
  (ks_ddk2_D0D1 P f))) + (((2 * (ks_k2 P f)) * (ks_dk2_D0 P f)) * (ks_ddc_D1D2 P f))) + (((2 * (ks_k2
  P f)) * (ks_dk2_D1 P f)) * (ks_ddc_D0D2 P f))) + (((2 * (ks_k2 P f)) * (ks_dk2_D2 P f)) *
  (ks_ddc_D0D1 P f))) + (((2 * (ks_dc_D0 P f)) * (ks_dk2_D1 P f)) * (ks_dk2_D2 P f))) + (((2 *
  (ks_dc_D1 P f)) * (ks_dk2_D0 P f)) * (ks_dk2_D2 P f))) + (((2 * (ks_dc_D2 P f)) * (ks_dk2_D0 P f))
  * (ks_dk2_D1 P f)).

(* /repo/Src/Main/Modules/Physics/Free_Data/fd_KerrSchild_g_dg_ddg_dddg.c:7202-7227 *)
Definition ks_dddgamma_D0D2D1D1D1 (P : kspar) (f : ksarg) : R :=
  (((((((((((ks_c P f) * (ks_k0 P f)) * (ks_dddk2_D1D1D1 P f)) + (((ks_c P f) * (ks_k2 P f)) *
  (ks_dddk0_D1D1D1 P f))) + (((3 * (ks_c P f)) * (ks_dk0_D1 P f)) * (ks_ddk2_D1D1 P f))) + (((3 *
  (ks_c P f)) * (ks_ddk0_D1D1 P f)) * (ks_dk2_D1 P f))) + (((ks_k0 P f) * (ks_k2 P f)) *
  (ks_dddc_D1D1D1 P f))) + (((3 * (ks_k0 P f)) * (ks_dc_D1 P f)) * (ks_ddk2_D1D1 P f))) + (((3 *
  (ks_k0 P f)) * (ks_ddc_D1D1 P f)) * (ks_dk2_D1 P f))) + (((3 * (ks_k2 P f)) * (ks_dc_D1 P f)) *
  (ks_ddk0_D1D1 P f))) + (((3 * (ks_k2 P f)) * (ks_ddc_D1D1 P f)) * (ks_dk0_D1 P f))) + (((6 *
  (ks_dc_D1 P f)) * (ks_dk0_D1 P f)) * (ks_dk2_D1 P f)).

(* /repo/Src/Main/Modules/Physics/Free_Data/fd_KerrSchild_g_dg_ddg_dddg.c:7229-7254 *)
Definition ks_dddgamma_D0D0D2D0D0 (P : kspar) (f : ksarg) : R :=
  (((((((((((2 * (ks_c P f)) * (ks_k0 P f)) * (ks_dddk0_D0D0D2 P f)) + (((4 * (ks_c P f)) *
  (ks_dk0_D0 P f)) * (ks_ddk0_D0D2 P f))) + (((2 * (ks_c P f)) * (ks_ddk0_D0D0 P f)) * (ks_dk0_D2 P
  f))) + (((ks_k0 P f) ^ 2) * (ks_dddc_D0D0D2 P f))) + (((4 * (ks_k0 P f)) * (ks_dc_D0 P f)) *
  (ks_ddk0_D0D2 P f))) + (((2 * (ks_k0 P f)) * (ks_ddc_D0D0 P f)) * (ks_dk0_D2 P f))) + (((2 * (ks_k0
  P f)) * (ks_dc_D2 P f)) * (ks_ddk0_D0D0 P f))) + (((4 * (ks_k0 P f)) * (ks_dk0_D0 P f)) *
  (ks_ddc_D0D2 P f))) + (((4 * (ks_dc_D0 P f)) * (ks_dk0_D0 P f)) * (ks_dk0_D2 P f))) + ((2 *
  (ks_dc_D2 P f)) * ((ks_dk0_D0 P f) ^ 2)).

(* /repo/Src/Main/Modules/Physics/Free_Data/fd_KerrSchild_g_dg_ddg_dddg.c:7256-7296 *)
Definition ks_dddgamma_D0D1D1D2D2 (P : kspar) (f : ksarg) : R :=
  (((((((((((((((((((ks_c P f) * (ks_k0 P f)) * (ks_dddk1_D1D2D2 P f)) + (((ks_c P f) * (ks_k1 P f))
  * (ks_dddk0_D1D2D2 P f))) + (((ks_c P f) * (ks_dk0_D1 P f)) * (ks_ddk1_D2D2 P f))) + (((2 * (ks_c P
  f)) * (ks_dk0_D2 P f)) * (ks_ddk1_D1D2 P f))) + (((ks_c P f) * (ks_ddk0_D2D2 P f)) * (ks_dk1_D1 P
  f))) + (((2 * (ks_c P f)) * (ks_dk1_D2 P f)) * (ks_ddk0_D1D2 P f))) + (((ks_k0 P f) * (ks_k1 P f))
  * (ks_dddc_D1D2D2 P f))) + (((ks_k0 P f) * (ks_dc_D1 P f)) * (ks_ddk1_D2D2 P f))) + (((2 * (ks_k0 P
  f)) * (ks_dc_D2 P f)) * (ks_ddk1_D1D2 P f))) + (((ks_k0 P f) * (ks_ddc_D2D2 P f)) * (ks_dk1_D1 P
  f))) + (((2 * (ks_k0 P f)) * (ks_dk1_D2 P f)) * (ks_ddc_D1D2 P f))) + (((ks_k1 P f) * (ks_dc_D1 P
  f)) * (ks_ddk0_D2D2 P f))) + (((2 * (ks_k1 P f)) * (ks_dc_D2 P f)) * (ks_ddk0_D1D2 P f))) +
  (((ks_k1 P f) * (ks_ddc_D2D2 P f)) * (ks_dk0_D1 P f))) + (((2 * (ks_k1 P f)) * (ks_dk0_D2 P f)) *
  (ks_ddc_D1D2 P f))) + (((2 * (ks_dc_D1 P f)) * (ks_dk0_D2 P f)) * (ks_dk1_D2 P f))) + (((2 *
  (ks_dc_D2 P f)) * (ks_dk0_D1 P f)) * (ks_dk1_D2 P f))) + (((2 * (ks_dc_D2 P f)) * (ks_dk0_D2 P f))
  * (ks_dk1_D1 P f)).

(* /repo/Src/Main/Modules/Physics/Free_Data/fd_KerrSchild_g_dg_ddg_dddg.c:7298-7332 *)
Definition ks_dddgamma_D0D0D2D0D1 (P : kspar) (f : ksarg) : R :=
  (((((((((((((((2 * (ks_c P f)) * (ks_k0 P f)) * (ks_dddk0_D0D1D2 P f)) + (((2 * (ks_c P f)) *
  (ks_dk0_D0 P f)) * (ks_ddk0_D1D2 P f))) + (((2 * (ks_c P f)) * (ks_dk0_D1 P f)) * (ks_ddk0_D0D2 P
  f))) + (((2 * (ks_c P f)) * (ks_dk0_D2 P f)) * (ks_ddk0_D0D1 P f))) + (((ks_k0 P f) ^ 2) *
  (ks_dddc_D0D1D2 P f))) + (((2 * (ks_k0 P f)) * (ks_dc_D0 P f)) * (ks_ddk0_D1D2 P f))) + (((2 *
  (ks_k0 P f)) * (ks_dc_D1 P f)) * (ks_ddk0_D0D2 P f))) + (((2 * (ks_k0 P f)) * (ks_dc_D2 P f)) *
  (ks_ddk0_D0D1 P f))) + (((2 * (ks_k0 P f)) * (ks_dk0_D0 P f)) * (ks_ddc_D1D2 P f))) + (((2 * (ks_k0
  P f)) * (ks_dk0_D1 P f)) * (ks_ddc_D0D2 P f))) + (((2 * (ks_k0 P f)) * (ks_dk0_D2 P f)) *
  (ks_ddc_D0D1 P f))) + (((2 * (ks_dc_D0 P f)) * (ks_dk0_D1 P f)) * (ks_dk0_D2 P f))) + (((2 *
  (ks_dc_D1 P f)) * (ks_dk0_D0 P f)) * (ks_dk0_D2 P f))) + (((2 * (ks_dc_D2 P f)) * (ks_dk0_D0 P f))
  * (ks_dk0_D1 P f)).

(* /repo/Src/Main/Modules/Physics/Free_Data/fd_KerrSchild_g_dg_ddg_dddg.c:7334-7368 *)
Definition ks_dddgamma_D0D0D0D2D1 (P : kspar) (f : ksarg) : R :=
  (((((((((((((((2 * (ks_c P f)) * (ks_k0 P f)) * (ks_dddk0_D0D1D2 P f)) + (((2 * (ks_c P f)) *
  (ks_dk0_D0 P f)) * (ks_ddk0_D1D2 P f))) + (((2 * (ks_c P f)) * (ks_dk0_D1 P f)) * (ks_ddk0_D0D2 P
  f))) + (((2 * (ks_c P f)) * (ks_dk0_D2 P f)) * (ks_ddk0_D0D1 P f))) + (((ks_k0 P f) ^ 2) *
  (ks_dddc_D0D1D2 P f))) + (((2 * (ks_k0 P f)) * (ks_dc_D0 P f)) * (ks_ddk0_D1D2 P f))) + (((2 *
  (ks_k0 P f)) * (ks_dc_D1 P f)) * (ks_ddk0_D0D2 P f))) + (((2 * (ks_k0 P f)) * (ks_dc_D2 P f)) *
  (ks_ddk0_D0D1 P f))) + (((2 * (ks_k0 P f)) * (ks_dk0_D0 P f)) * (ks_ddc_D1D2 P f))) + (((2 * (ks_k0
  P f)) * (ks_dk0_D1 P f)) * (ks_ddc_D0D2 P f))) + (((2 * (ks_k0 P f)) * (ks_dk0_D2 P f)) *
  (ks_ddc_D0D1 P f))) + (((2 * (ks_dc_D0 P f)) * (ks_dk0_D1 P f)) * (ks_dk0_D2 P f))) + (((2 *
  (ks_dc_D1 P f)) * (ks_dk0_D0 P f)) * (ks_dk0_D2 P f))) + (((2 * (ks_dc_D2 P f)) * (ks_dk0_D0 P f))
  * (ks_dk0_D1 P f)).

(* /repo/Src/Main/Modules/Physics/Free_Data/fd_KerrSchild_g_dg_ddg_dddg.c:7370-7410 *)
Definition ks_dddgamma_D0D2D2D1D1 (P : kspar) (f : ksarg) : R :=
  (((((((((((((((((((ks_c P f) * (ks_k0 P f)) * (ks_dddk2_D1D1D2 P f)) + (((ks_c P f) * (ks_k2 P f))
  * (ks_dddk0_D1D1D2 P f))) + (((2 * (ks_c P f)) * (ks_dk0_D1 P f)) * (ks_ddk2_D1D2 P f))) + (((ks_c
  P f) * (ks_ddk0_D1D1 P f)) * (ks_dk2_D2 P f))) + (((ks_c P f) * (ks_dk0_D2 P f)) * (ks_ddk2_D1D1 P
  f))) + (((2 * (ks_c P f)) * (ks_dk2_D1 P f)) * (ks_ddk0_D1D2 P f))) + (((ks_k0 P f) * (ks_k2 P f))
  * (ks_dddc_D1D1D2 P f))) + (((2 * (ks_k0 P f)) * (ks_dc_D1 P f)) * (ks_ddk2_D1D2 P f))) + (((ks_k0
  P f) * (ks_ddc_D1D1 P f)) * (ks_dk2_D2 P f))) + (((ks_k0 P f) * (ks_dc_D2 P f)) * (ks_ddk2_D1D1 P
  f))) + (((2 * (ks_k0 P f)) * (ks_dk2_D1 P f)) * (ks_ddc_D1D2 P f))) + (((2 * (ks_k2 P f)) *
  (ks_dc_D1 P f)) * (ks_ddk0_D1D2 P f))) + (((ks_k2 P f) * (ks_ddc_D1D1 P f)) * (ks_dk0_D2 P f))) +
  (((ks_k2 P f) * (ks_dc_D2 P f)) * (ks_ddk0_D1D1 P f))) + (((2 * (ks_k2 P f)) * (ks_dk0_D1 P f)) *
  (ks_ddc_D1D2 P f))) + (((2 * (ks_dc_D1 P f)) * (ks_dk0_D1 P f)) * (ks_dk2_D2 P f))) + (((2 *
  (ks_dc_D1 P f)) * (ks_dk0_D2 P f)) * (ks_dk2_D1 P f))) + (((2 * (ks_dc_D2 P f)) * (ks_dk0_D1 P f))
  * (ks_dk2_D1 P f)).

(* /repo/Src/Main/Modules/Physics/Free_Data/fd_KerrSchild_g_dg_ddg_dddg.c:7412-7428 *)
Definition ks_dddgamma_D0D0D2D2D2 (P : kspar) (f : ksarg) : R :=
  (((((((2 * (ks_c P f)) * (ks_k0 P f)) * (ks_dddk0_D2D2D2 P f)) + (((6 * (ks_c P f)) * (ks_dk0_D2 P
  f)) * (ks_ddk0_D2D2 P f))) + (((ks_k0 P f) ^ 2) * (ks_dddc_D2D2D2 P f))) + (((6 * (ks_k0 P f)) *
  (ks_dc_D2 P f)) * (ks_ddk0_D2D2 P f))) + (((6 * (ks_k0 P f)) * (ks_ddc_D2D2 P f)) * (ks_dk0_D2 P
  f))) + ((6 * (ks_dc_D2 P f)) * ((ks_dk0_D2 P f) ^ 2)).

(* /repo/Src/Main/Modules/Physics/Free_Data/fd_KerrSchild_g_dg_ddg_dddg.c:7430-7455 *)
Definition ks_dddgamma_D1D1D2D1D1 (P : kspar) (f : ksarg) : R :=
  (((((((((((2 * (ks_c P f)) * (ks_k1 P f)) * (ks_dddk1_D1D1D2 P f)) + (((4 * (ks_c P f)) *
  (ks_dk1_D1 P f)) * (ks_ddk1_D1D2 P f))) + (((2 * (ks_c P f)) * (ks_ddk1_D1D1 P f)) * (ks_dk1_D2 P
  f))) + (((ks_k1 P f) ^ 2) * (ks_dddc_D1D1D2 P f))) + (((4 * (ks_k1 P f)) * (ks_dc_D1 P f)) *
  (ks_ddk1_D1D2 P f))) + (((2 * (ks_k1 P f)) * (ks_ddc_D1D1 P f)) * (ks_dk1_D2 P f))) + (((2 * (ks_k1
  P f)) * (ks_dc_D2 P f)) * (ks_ddk1_D1D1 P f))) + (((4 * (ks_k1 P f)) * (ks_dk1_D1 P f)) *
  (ks_ddc_D1D2 P f))) + (((4 * (ks_dc_D1 P f)) * (ks_dk1_D1 P f)) * (ks_dk1_D2 P f))) + ((2 *
  (ks_dc_D2 P f)) * ((ks_dk1_D1 P f) ^ 2)).

(* /repo/Src/Main/Modules/Physics/Free_Data/fd_KerrSchild_g_dg_ddg_dddg.c:7457-7497 *)
Definition ks_dddgamma_D1D2D0D2D2 (P : kspar) (f : ksarg) : R :=
  (((((((((((((((((((ks_c P f) * (ks_k1 P f)) * (ks_dddk2_D0D2D2 P f)) + (((ks_c P f) * (ks_k2 P f))
  * (ks_dddk1_D0D2D2 P f))) + (((ks_c P f) * (ks_dk1_D0 P f)) * (ks_ddk2_D2D2 P f))) + (((2 * (ks_c P
  f)) * (ks_dk1_D2 P f)) * (ks_ddk2_D0D2 P f))) + (((ks_c P f) * (ks_ddk1_D2D2 P f)) * (ks_dk2_D0 P
  f))) + (((2 * (ks_c P f)) * (ks_dk2_D2 P f)) * (ks_ddk1_D0D2 P f))) + (((ks_k1 P f) * (ks_k2 P f))
  * (ks_dddc_D0D2D2 P f))) + (((ks_k1 P f) * (ks_dc_D0 P f)) * (ks_ddk2_D2D2 P f))) + (((2 * (ks_k1 P
  f)) * (ks_dc_D2 P f)) * (ks_ddk2_D0D2 P f))) + (((ks_k1 P f) * (ks_ddc_D2D2 P f)) * (ks_dk2_D0 P
  f))) + (((2 * (ks_k1 P f)) * (ks_dk2_D2 P f)) * (ks_ddc_D0D2 P f))) + (((ks_k2 P f) * (ks_dc_D0 P
  f)) * (ks_ddk1_D2D2 P f))) + (((2 * (ks_k2 P f)) * (ks_dc_D2 P f)) * (ks_ddk1_D0D2 P f))) +
  (((ks_k2 P f) * (ks_ddc_D2D2 P f)) * (ks_dk1_D0 P f))) + (((2 * (ks_k2 P f)) * (ks_dk1_D2 P f)) *
  (ks_ddc_D0D2 P f))) + (((2 * (ks_dc_D0 P f)) * (ks_dk1_D2 P f)) * (ks_dk2_D2 P f))) + (((2 *
  (ks_dc_D2 P f)) * (ks_dk1_D0 P f)) * (ks_dk2_D2 P f))) + (((2 * (ks_dc_D2 P f)) * (ks_dk1_D2 P f))
  * (ks_dk2_D0 P f)).

(* the functions gamma_D.. by their indices *)
Definition kst_gamma (P : kspar) (f : ksarg) (i j : nat) : R :=
  match i, j with
  | 0%nat, 0%nat => ks_gamma_D0D0 P f
  | 0%nat, 1%nat => ks_gamma_D0D1 P f
  | 0%nat, 2%nat => ks_gamma_D0D2 P f
  | 1%nat, 1%nat => ks_gamma_D1D1 P f
  | 1%nat, 2%nat => ks_gamma_D1D2 P f
  | 2%nat, 2%nat => ks_gamma_D2D2 P f
  | _, _ => 0
  end.
(* the functions dgamma_D.. by their indices *)
Definition kst_dgamma (P : kspar) (f : ksarg) (i j k : nat) : R :=
  match i, j, k with
  | 0%nat, 0%nat, 0%nat => ks_dgamma_D0D0D0 P f
  | 0%nat, 0%nat, 1%nat => ks_dgamma_D0D0D1 P f
  | 0%nat, 0%nat, 2%nat => ks_dgamma_D0D0D2 P f
  | 0%nat, 1%nat, 0%nat => ks_dgamma_D0D1D0 P f
  | 0%nat, 1%nat, 1%nat => ks_dgamma_D0D1D1 P f
  | 0%nat, 1%nat, 2%nat => ks_dgamma_D0D1D2 P f
  | 0%nat, 2%nat, 0%nat => ks_dgamma_D0D2D0 P f
  | 0%nat, 2%nat, 1%nat => ks_dgamma_D0D2D1 P f
  | 0%nat, 2%nat, 2%nat => ks_dgamma_D0D2D2 P f
  | 1%nat, 1%nat, 0%nat => ks_dgamma_D1D1D0 P f
  | 1%nat, 1%nat, 1%nat => ks_dgamma_D1D1D1 P f
  | 1%nat, 1%nat, 2%nat => ks_dgamma_D1D1D2 P f
  | 1%nat, 2%nat, 0%nat => ks_dgamma_D1D2D0 P f
  | 1%nat, 2%nat, 1%nat => ks_dgamma_D1D2D1 P f
  | 1%nat, 2%nat, 2%nat => ks_dgamma_D1D2D2 P f
  | 2%nat, 2%nat, 0%nat => ks_dgamma_D2D2D0 P f
  | 2%nat, 2%nat, 1%nat => ks_dgamma_D2D2D1 P f
  | 2%nat, 2%nat, 2%nat => ks_dgamma_D2D2D2 P f
  | _, _, _ => 0
  end.
(* the functions ddgamma_D.. by their indices *)
Definition kst_ddgamma (P : kspar) (f : ksarg) (i j k l : nat) : R :=
  match i, j, k, l with
  | 0%nat, 0%nat, 0%nat, 0%nat => ks_ddgamma_D0D0D0D0 P f
  | 0%nat, 0%nat, 0%nat, 1%nat => ks_ddgamma_D0D0D0D1 P f
  | 0%nat, 0%nat, 0%nat, 2%nat => ks_ddgamma_D0D0D0D2 P f
  | 0%nat, 0%nat, 1%nat, 0%nat => ks_ddgamma_D0D0D1D0 P f
  | 0%nat, 0%nat, 1%nat, 1%nat => ks_ddgamma_D0D0D1D1 P f
  | 0%nat, 0%nat, 1%nat, 2%nat => ks_ddgamma_D0D0D1D2 P f
  | 0%nat, 0%nat, 2%nat, 0%nat => ks_ddgamma_D0D0D2D0 P f
  | 0%nat, 0%nat, 2%nat, 1%nat => ks_ddgamma_D0D0D2D1 P f
  | 0%nat, 0%nat, 2%nat, 2%nat => ks_ddgamma_D0D0D2D2 P f
  | 0%nat, 1%nat, 0%nat, 0%nat => ks_ddgamma_D0D1D0D0 P f
  | 0%nat, 1%nat, 0%nat, 1%nat => ks_ddgamma_D0D1D0D1 P f
  | 0%nat, 1%nat, 0%nat, 2%nat => ks_ddgamma_D0D1D0D2 P f
  | 0%nat, 1%nat, 1%nat, 0%nat => ks_ddgamma_D0D1D1D0 P f
  | 0%nat, 1%nat, 1%nat, 1%nat => ks_ddgamma_D0D1D1D1 P f
  | 0%nat, 1%nat, 1%nat, 2%nat => ks_ddgamma_D0D1D1D2 P f
  | 0%nat, 1%nat, 2%nat, 0%nat => ks_ddgamma_D0D1D2D0 P f
  | 0%nat, 1%nat, 2%nat, 1%nat => ks_ddgamma_D0D1D2D1 P f
  | 0%nat, 1%nat, 2%nat, 2%nat => ks_ddgamma_D0D1D2D2 P f
  | 0%nat, 2%nat, 0%nat, 0%nat => ks_ddgamma_D0D2D0D0 P f
  | 0%nat, 2%nat, 0%nat, 1%nat => ks_ddgamma_D0D2D0D1 P f
  | 0%nat, 2%nat, 0%nat, 2%nat => ks_ddgamma_D0D2D0D2 P f
  | 0%nat, 2%nat, 1%nat, 0%nat => ks_ddgamma_D0D2D1D0 P f
  | 0%nat, 2%nat, 1%nat, 1%nat => ks_ddgamma_D0D2D1D1 P f
  | 0%nat, 2%nat, 1%nat, 2%nat => ks_ddgamma_D0D2D1D2 P f
  | 0%nat, 2%nat, 2%nat, 0%nat => ks_ddgamma_D0D2D2D0 P f
  | 0%nat, 2%nat, 2%nat, 1%nat => ks_ddgamma_D0D2D2D1 P f
  | 0%nat, 2%nat, 2%nat, 2%nat => ks_ddgamma_D0D2D2D2 P f
  | 1%nat, 1%nat, 0%nat, 0%nat => ks_ddgamma_D1D1D0D0 P f
  | 1%nat, 1%nat, 0%nat, 1%nat => ks_ddgamma_D1D1D0D1 P f
  | 1%nat, 1%nat, 0%nat, 2%nat => ks_ddgamma_D1D1D0D2 P f
  | 1%nat, 1%nat, 1%nat, 0%nat => ks_ddgamma_D1D1D1D0 P f
  | 1%nat, 1%nat, 1%nat, 1%nat => ks_ddgamma_D1D1D1D1 P f
  | 1%nat, 1%nat, 1%nat, 2%nat => ks_ddgamma_D1D1D1D2 P f
  | 1%nat, 1%nat, 2%nat, 0%nat => ks_ddgamma_D1D1D2D0 P f
  | 1%nat, 1%nat, 2%nat, 1%nat => ks_ddgamma_D1D1D2D1 P f
  | 1%nat, 1%nat, 2%nat, 2%nat => ks_ddgamma_D1D1D2D2 P f
  | 1%nat, 2%nat, 0%nat, 0%nat => ks_ddgamma_D1D2D0D0 P f
  | 1%nat, 2%nat, 0%nat, 1%nat => ks_ddgamma_D1D2D0D1 P f
  | 1%nat, 2%nat, 0%nat, 2%nat => ks_ddgamma_D1D2D0D2 P f
  | 1%nat, 2%nat, 1%nat, 0%nat => ks_ddgamma_D1D2D1D0 P f
  | 1%nat, 2%nat, 1%nat, 1%nat => ks_ddgamma_D1D2D1D1 P f
  | 1%nat, 2%nat, 1%nat, 2%nat => ks_ddgamma_D1D2D1D2 P f
  | 1%nat, 2%nat, 2%nat, 0%nat => ks_ddgamma_D1D2D2D0 P f
  | 1%nat, 2%nat, 2%nat, 1%nat => ks_ddgamma_D1D2D2D1 P f
  | 1%nat, 2%nat, 2%nat, 2%nat => ks_ddgamma_D1D2D2D2 P f
  | 2%nat, 2%nat, 0%nat, 0%nat => ks_ddgamma_D2D2D0D0 P f
  | 2%nat, 2%nat, 0%nat, 1%nat => ks_ddgamma_D2D2D0D1 P f
  | 2%nat, 2%nat, 0%nat, 2%nat => ks_ddgamma_D2D2D0D2 P f
  | 2%nat, 2%nat, 1%nat, 0%nat => ks_ddgamma_D2D2D1D0 P f
  | 2%nat, 2%nat, 1%nat, 1%nat => ks_ddgamma_D2D2D1D1 P f
  | 2%nat, 2%nat, 1%nat, 2%nat => ks_ddgamma_D2D2D1D2 P f
  | 2%nat, 2%nat, 2%nat, 0%nat => ks_ddgamma_D2D2D2D0 P f
  | 2%nat, 2%nat, 2%nat, 1%nat => ks_ddgamma_D2D2D2D1 P f
  | 2%nat, 2%nat, 2%nat, 2%nat => ks_ddgamma_D2D2D2D2 P f
  | _, _, _, _ => 0
  end.
(* the functions dddgamma_D.. by their indices *)
Definition kst_dddgamma (P : kspar) (f : ksarg) (i j k l m : nat) : R :=
  match i, j, k, l, m with
  | 0%nat, 0%nat, 0%nat, 0%nat, 0%nat => ks_dddgamma_D0D0D0D0D0 P f
  | 0%nat, 0%nat, 0%nat, 0%nat, 1%nat => ks_dddgamma_D0D0D0D0D1 P f
  | 0%nat, 0%nat, 0%nat, 0%nat, 2%nat => ks_dddgamma_D0D0D0D0D2 P f
  | 0%nat, 0%nat, 0%nat, 1%nat, 0%nat => ks_dddgamma_D0D0D0D1D0 P f
  | 0%nat, 0%nat, 0%nat, 1%nat, 1%nat => ks_dddgamma_D0D0D0D1D1 P f
  | 0%nat, 0%nat, 0%nat, 1%nat, 2%nat => ks_dddgamma_D0D0D0D1D2 P f
  | 0%nat, 0%nat, 0%nat, 2%nat, 0%nat => ks_dddgamma_D0D0D0D2D0 P f
  | 0%nat, 0%nat, 0%nat, 2%nat, 1%nat => ks_dddgamma_D0D0D0D2D1 P f
  | 0%nat, 0%nat, 0%nat, 2%nat, 2%nat => ks_dddgamma_D0D0D0D2D2 P f
  | 0%nat, 0%nat, 1%nat, 0%nat, 0%nat => ks_dddgamma_D0D0D1D0D0 P f
  | 0%nat, 0%nat, 1%nat, 0%nat, 1%nat => ks_dddgamma_D0D0D1D0D1 P f
  | 0%nat, 0%nat, 1%nat, 0%nat, 2%nat => ks_dddgamma_D0D0D1D0D2 P f
  | 0%nat, 0%nat, 1%nat, 1%nat, 0%nat => ks_dddgamma_D0D0D1D1D0 P f
  | 0%nat, 0%nat, 1%nat, 1%nat, 1%nat => ks_dddgamma_D0D0D1D1D1 P f
  | 0%nat, 0%nat, 1%nat, 1%nat, 2%nat => ks_dddgamma_D0D0D1D1D2 P f
  | 0%nat, 0%nat, 1%nat, 2%nat, 0%nat => ks_dddgamma_D0D0D1D2D0 P f
  | 0%nat, 0%nat, 1%nat, 2%nat, 1%nat => ks_dddgamma_D0D0D1D2D1 P f
  | 0%nat, 0%nat, 1%nat, 2%nat, 2%nat => ks_dddgamma_D0D0D1D2D2 P f
  | 0%nat, 0%nat, 2%nat, 0%nat, 0%nat => ks_dddgamma_D0D0D2D0D0 P f
  | 0%nat, 0%nat, 2%nat, 0%nat, 1%nat => ks_dddgamma_D0D0D2D0D1 P f
  | 0%nat, 0%nat, 2%nat, 0%nat, 2%nat => ks_dddgamma_D0D0D2D0D2 P f
  | 0%nat, 0%nat, 2%nat, 1%nat, 0%nat => ks_dddgamma_D0D0D2D1D0 P f
  | 0%nat, 0%nat, 2%nat, 1%nat, 1%nat => ks_dddgamma_D0D0D2D1D1 P f
  | 0%nat, 0%nat, 2%nat, 1%nat, 2%nat => ks_dddgamma_D0D0D2D1D2 P f
  | 0%nat, 0%nat, 2%nat, 2%nat, 0%nat => ks_dddgamma_D0D0D2D2D0 P f
  | 0%nat, 0%nat, 2%nat, 2%nat, 1%nat => ks_dddgamma_D0D0D2D2D1 P f
  | 0%nat, 0%nat, 2%nat, 2%nat, 2%nat => ks_dddgamma_D0D0D2D2D2 P f
  | 0%nat, 1%nat, 0%nat, 0%nat, 0%nat => ks_dddgamma_D0D1D0D0D0 P f
  | 0%nat, 1%nat, 0%nat, 0%nat, 1%nat => ks_dddgamma_D0D1D0D0D1 P f
  | 0%nat, 1%nat, 0%nat, 0%nat, 2%nat => ks_dddgamma_D0D1D0D0D2 P f
  | 0%nat, 1%nat, 0%nat, 1%nat, 0%nat => ks_dddgamma_D0D1D0D1D0 P f
  | 0%nat, 1%nat, 0%nat, 1%nat, 1%nat => ks_dddgamma_D0D1D0D1D1 P f
  | 0%nat, 1%nat, 0%nat, 1%nat, 2%nat => ks_dddgamma_D0D1D0D1D2 P f
  | 0%nat, 1%nat, 0%nat, 2%nat, 0%nat => ks_dddgamma_D0D1D0D2D0 P f
  | 0%nat, 1%nat, 0%nat, 2%nat, 1%nat => ks_dddgamma_D0D1D0D2D1 P f
  | 0%nat, 1%nat, 0%nat, 2%nat, 2%nat => ks_dddgamma_D0D1D0D2D2 P f
  | 0%nat, 1%nat, 1%nat, 0%nat, 0%nat => ks_dddgamma_D0D1D1D0D0 P f
  | 0%nat, 1%nat, 1%nat, 0%nat, 1%nat => ks_dddgamma_D0D1D1D0D1 P f
  | 0%nat, 1%nat, 1%nat, 0%nat, 2%nat => ks_dddgamma_D0D1D1D0D2 P f
  | 0%nat, 1%nat, 1%nat, 1%nat, 0%nat => ks_dddgamma_D0D1D1D1D0 P f
  | 0%nat, 1%nat, 1%nat, 1%nat, 1%nat => ks_dddgamma_D0D1D1D1D1 P f
  | 0%nat, 1%nat, 1%nat, 1%nat, 2%nat => ks_dddgamma_D0D1D1D1D2 P f
  | 0%nat, 1%nat, 1%nat, 2%nat, 0%nat => ks_dddgamma_D0D1D1D2D0 P f
  | 0%nat, 1%nat, 1%nat, 2%nat, 1%nat => ks_dddgamma_D0D1D1D2D1 P f
  | 0%nat, 1%nat, 1%nat, 2%nat, 2%nat => ks_dddgamma_D0D1D1D2D2 P f
  | 0%nat, 1%nat, 2%nat, 0%nat, 0%nat => ks_dddgamma_D0D1D2D0D0 P f
  | 0%nat, 1%nat, 2%nat, 0%nat, 1%nat => ks_dddgamma_D0D1D2D0D1 P f
  | 0%nat, 1%nat, 2%nat, 0%nat, 2%nat => ks_dddgamma_D0D1D2D0D2 P f
  | 0%nat, 1%nat, 2%nat, 1%nat, 0%nat => ks_dddgamma_D0D1D2D1D0 P f
  | 0%nat, 1%nat, 2%nat, 1%nat, 1%nat => ks_dddgamma_D0D1D2D1D1 P f
  | 0%nat, 1%nat, 2%nat, 1%nat, 2%nat => ks_dddgamma_D0D1D2D1D2 P f
  | 0%nat, 1%nat, 2%nat, 2%nat, 0%nat => ks_dddgamma_D0D1D2D2D0 P f
  | 0%nat, 1%nat, 2%nat, 2%nat, 1%nat => ks_dddgamma_D0D1D2D2D1 P f
  | 0%nat, 1%nat, 2%nat, 2%nat, 2%nat => ks_dddgamma_D0D1D2D2D2 P f
  | 0%nat, 2%nat, 0%nat, 0%nat, 0%nat => ks_dddgamma_D0D2D0D0D0 P f
  | 0%nat, 2%nat, 0%nat, 0%nat, 1%nat => ks_dddgamma_D0D2D0D0D1 P f
  | 0%nat, 2%nat, 0%nat, 0%nat, 2%nat => ks_dddgamma_D0D2D0D0D2 P f
  | 0%nat, 2%nat, 0%nat, 1%nat, 0%nat => ks_dddgamma_D0D2D0D1D0 P f
  | 0%nat, 2%nat, 0%nat, 1%nat, 1%nat => ks_dddgamma_D0D2D0D1D1 P f
  | 0%nat, 2%nat, 0%nat, 1%nat, 2%nat => ks_dddgamma_D0D2D0D1D2 P f
  | 0%nat, 2%nat, 0%nat, 2%nat, 0%nat => ks_dddgamma_D0D2D0D2D0 P f
  | 0%nat, 2%nat, 0%nat, 2%nat, 1%nat => ks_dddgamma_D0D2D0D2D1 P f
  | 0%nat, 2%nat, 0%nat, 2%nat, 2%nat => ks_dddgamma_D0D2D0D2D2 P f
  | 0%nat, 2%nat, 1%nat, 0%nat, 0%nat => ks_dddgamma_D0D2D1D0D0 P f
  | 0%nat, 2%nat, 1%nat, 0%nat, 1%nat => ks_dddgamma_D0D2D1D0D1 P f
  | 0%nat, 2%nat, 1%nat, 0%nat, 2%nat => ks_dddgamma_D0D2D1D0D2 P f
  | 0%nat, 2%nat, 1%nat, 1%nat, 0%nat => ks_dddgamma_D0D2D1D1D0 P f
  | 0%nat, 2%nat, 1%nat, 1%nat, 1%nat => ks_dddgamma_D0D2D1D1D1 P f
  | 0%nat, 2%nat, 1%nat, 1%nat, 2%nat => ks_dddgamma_D0D2D1D1D2 P f
  | 0%nat, 2%nat, 1%nat, 2%nat, 0%nat => ks_dddgamma_D0D2D1D2D0 P f
  | 0%nat, 2%nat, 1%nat, 2%nat, 1%nat => ks_dddgamma_D0D2D1D2D1 P f
  | 0%nat, 2%nat, 1%nat, 2%nat, 2%nat => ks_dddgamma_D0D2D1D2D2 P f
  | 0%nat, 2%nat, 2%nat, 0%nat, 0%nat => ks_dddgamma_D0D2D2D0D0 P f
  | 0%nat, 2%nat, 2%nat, 0%nat, 1%nat => ks_dddgamma_D0D2D2D0D1 P f
  | 0%nat, 2%nat, 2%nat, 0%nat, 2%nat => ks_dddgamma_D0D2D2D0D2 P f
  | 0%nat, 2%nat, 2%nat, 1%nat, 0%nat => ks_dddgamma_D0D2D2D1D0 P f
  | 0%nat, 2%nat, 2%nat, 1%nat, 1%nat => ks_dddgamma_D0D2D2D1D1 P f
  | 0%nat, 2%nat, 2%nat, 1%nat, 2%nat => ks_dddgamma_D0D2D2D1D2 P f
  | 0%nat, 2%nat, 2%nat, 2%nat, 0%nat => ks_dddgamma_D0D2D2D2D0 P f
  | 0%nat, 2%nat, 2%nat, 2%nat, 1%nat => ks_dddgamma_D0D2D2D2D1 P f
  | 0%nat, 2%nat, 2%nat, 2%nat, 2%nat => ks_dddgamma_D0D2D2D2D2 P f
  | 1%nat, 1%nat, 0%nat, 0%nat, 0%nat => ks_dddgamma_D1D1D0D0D0 P f
  | 1%nat, 1%nat, 0%nat, 0%nat, 1%nat => ks_dddgamma_D1D1D0D0D1 P f
  | 1%nat, 1%nat, 0%nat, 0%nat, 2%nat => ks_dddgamma_D1D1D0D0D2 P f
  | 1%nat, 1%nat, 0%nat, 1%nat, 0%nat => ks_dddgamma_D1D1D0D1D0 P f
  | 1%nat, 1%nat, 0%nat, 1%nat, 1%nat => ks_dddgamma_D1D1D0D1D1 P f
  | 1%nat, 1%nat, 0%nat, 1%nat, 2%nat => ks_dddgamma_D1D1D0D1D2 P f
  | 1%nat, 1%nat, 0%nat, 2%nat, 0%nat => ks_dddgamma_D1D1D0D2D0 P f
  | 1%nat, 1%nat, 0%nat, 2%nat, 1%nat => ks_dddgamma_D1D1D0D2D1 P f
  | 1%nat, 1%nat, 0%nat, 2%nat, 2%nat => ks_dddgamma_D1D1D0D2D2 P f
  | 1%nat, 1%nat, 1%nat, 0%nat, 0%nat => ks_dddgamma_D1D1D1D0D0 P f
  | 1%nat, 1%nat, 1%nat, 0%nat, 1%nat => ks_dddgamma_D1D1D1D0D1 P f
  | 1%nat, 1%nat, 1%nat, 0%nat, 2%nat => ks_dddgamma_D1D1D1D0D2 P f
  | 1%nat, 1%nat, 1%nat, 1%nat, 0%nat => ks_dddgamma_D1D1D1D1D0 P f
  | 1%nat, 1%nat, 1%nat, 1%nat, 1%nat => ks_dddgamma_D1D1D1D1D1 P f
  | 1%nat, 1%nat, 1%nat, 1%nat, 2%nat => ks_dddgamma_D1D1D1D1D2 P f
  | 1%nat, 1%nat, 1%nat, 2%nat, 0%nat => ks_dddgamma_D1D1D1D2D0 P f
  | 1%nat, 1%nat, 1%nat, 2%nat, 1%nat => ks_dddgamma_D1D1D1D2D1 P f
  | 1%nat, 1%nat, 1%nat, 2%nat, 2%nat => ks_dddgamma_D1D1D1D2D2 P f
  | 1%nat, 1%nat, 2%nat, 0%nat, 0%nat => ks_dddgamma_D1D1D2D0D0 P f
  | 1%nat, 1%nat, 2%nat, 0%nat, 1%nat => ks_dddgamma_D1D1D2D0D1 P f
  | 1%nat, 1%nat, 2%nat, 0%nat, 2%nat => ks_dddgamma_D1D1D2D0D2 P f
  | 1%nat, 1%nat, 2%nat, 1%nat, 0%nat => ks_dddgamma_D1D1D2D1D0 P f
  | 1%nat, 1%nat, 2%nat, 1%nat, 1%nat => ks_dddgamma_D1D1D2D1D1 P f
  | 1%nat, 1%nat, 2%nat, 1%nat, 2%nat => ks_dddgamma_D1D1D2D1D2 P f
  | 1%nat, 1%nat, 2%nat, 2%nat, 0%nat => ks_dddgamma_D1D1D2D2D0 P f
  | 1%nat, 1%nat, 2%nat, 2%nat, 1%nat => ks_dddgamma_D1D1D2D2D1 P f
  | 1%nat, 1%nat, 2%nat, 2%nat, 2%nat => ks_dddgamma_D1D1D2D2D2 P f
  | 1%nat, 2%nat, 0%nat, 0%nat, 0%nat => ks_dddgamma_D1D2D0D0D0 P f
  | 1%nat, 2%nat, 0%nat, 0%nat, 1%nat => ks_dddgamma_D1D2D0D0D1 P f
  | 1%nat, 2%nat, 0%nat, 0%nat, 2%nat => ks_dddgamma_D1D2D0D0D2 P f
  | 1%nat, 2%nat, 0%nat, 1%nat, 0%nat => ks_dddgamma_D1D2D0D1D0 P f
  | 1%nat, 2%nat, 0%nat, 1%nat, 1%nat => ks_dddgamma_D1D2D0D1D1 P f
  | 1%nat, 2%nat, 0%nat, 1%nat, 2%nat => ks_dddgamma_D1D2D0D1D2 P f
  | 1%nat, 2%nat, 0%nat, 2%nat, 0%nat => ks_dddgamma_D1D2D0D2D0 P f
  | 1%nat, 2%nat, 0%nat, 2%nat, 1%nat => ks_dddgamma_D1D2D0D2D1 P f
  | 1%nat, 2%nat, 0%nat, 2%nat, 2%nat => ks_dddgamma_D1D2D0D2D2 P f
  | 1%nat, 2%nat, 1%nat, 0%nat, 0%nat => ks_dddgamma_D1D2D1D0D0 P f
  | 1%nat, 2%nat, 1%nat, 0%nat, 1%nat => ks_dddgamma_D1D2D1D0D1 P f
  | 1%nat, 2%nat, 1%nat, 0%nat, 2%nat => ks_dddgamma_D1D2D1D0D2 P f
  | 1%nat, 2%nat, 1%nat, 1%nat, 0%nat => ks_dddgamma_D1D2D1D1D0 P f
  | 1%nat, 2%nat, 1%nat, 1%nat, 1%nat => ks_dddgamma_D1D2D1D1D1 P f
  | 1%nat, 2%nat, 1%nat, 1%nat, 2%nat => ks_dddgamma_D1D2D1D1D2 P f
  | 1%nat, 2%nat, 1%nat, 2%nat, 0%nat => ks_dddgamma_D1D2D1D2D0 P f
  | 1%nat, 2%nat, 1%nat, 2%nat, 1%nat => ks_dddgamma_D1D2D1D2D1 P f
  | 1%nat, 2%nat, 1%nat, 2%nat, 2%nat => ks_dddgamma_D1D2D1D2D2 P f
  | 1%nat, 2%nat, 2%nat, 0%nat, 0%nat => ks_dddgamma_D1D2D2D0D0 P f
  | 1%nat, 2%nat, 2%nat, 0%nat, 1%nat => ks_dddgamma_D1D2D2D0D1 P f
  | 1%nat, 2%nat, 2%nat, 0%nat, 2%nat => ks_dddgamma_D1D2D2D0D2 P f
  | 1%nat, 2%nat, 2%nat, 1%nat, 0%nat => ks_dddgamma_D1D2D2D1D0 P f
  | 1%nat, 2%nat, 2%nat, 1%nat, 1%nat => ks_dddgamma_D1D2D2D1D1 P f
  | 1%nat, 2%nat, 2%nat, 1%nat, 2%nat => ks_dddgamma_D1D2D2D1D2 P f
  | 1%nat, 2%nat, 2%nat, 2%nat, 0%nat => ks_dddgamma_D1D2D2D2D0 P f
  | 1%nat, 2%nat, 2%nat, 2%nat, 1%nat => ks_dddgamma_D1D2D2D2D1 P f
  | 1%nat, 2%nat, 2%nat, 2%nat, 2%nat => ks_dddgamma_D1D2D2D2D2 P f
  | 2%nat, 2%nat, 0%nat, 0%nat, 0%nat => ks_dddgamma_D2D2D0D0D0 P f
  | 2%nat, 2%nat, 0%nat, 0%nat, 1%nat => ks_dddgamma_D2D2D0D0D1 P f
  | 2%nat, 2%nat, 0%nat, 0%nat, 2%nat => ks_dddgamma_D2D2D0D0D2 P f
  | 2%nat, 2%nat, 0%nat, 1%nat, 0%nat => ks_dddgamma_D2D2D0D1D0 P f
  | 2%nat, 2%nat, 0%nat, 1%nat, 1%nat => ks_dddgamma_D2D2D0D1D1 P f
  | 2%nat, 2%nat, 0%nat, 1%nat, 2%nat => ks_dddgamma_D2D2D0D1D2 P f
  | 2%nat, 2%nat, 0%nat, 2%nat, 0%nat => ks_dddgamma_D2D2D0D2D0 P f
  | 2%nat, 2%nat, 0%nat, 2%nat, 1%nat => ks_dddgamma_D2D2D0D2D1 P f
  | 2%nat, 2%nat, 0%nat, 2%nat, 2%nat => ks_dddgamma_D2D2D0D2D2 P f
  | 2%nat, 2%nat, 1%nat, 0%nat, 0%nat => ks_dddgamma_D2D2D1D0D0 P f
  | 2%nat, 2%nat, 1%nat, 0%nat, 1%nat => ks_dddgamma_D2D2D1D0D1 P f
  | 2%nat, 2%nat, 1%nat, 0%nat, 2%nat => ks_dddgamma_D2D2D1D0D2 P f
  | 2%nat, 2%nat, 1%nat, 1%nat, 0%nat => ks_dddgamma_D2D2D1D1D0 P f
  | 2%nat, 2%nat, 1%nat, 1%nat, 1%nat => ks_dddgamma_D2D2D1D1D1 P f
  | 2%nat, 2%nat, 1%nat, 1%nat, 2%nat => ks_dddgamma_D2D2D1D1D2 P f
  | 2%nat, 2%nat, 1%nat, 2%nat, 0%nat => ks_dddgamma_D2D2D1D2D0 P f
  | 2%nat, 2%nat, 1%nat, 2%nat, 1%nat => ks_dddgamma_D2D2D1D2D1 P f
  | 2%nat, 2%nat, 1%nat, 2%nat, 2%nat => ks_dddgamma_D2D2D1D2D2 P f
  | 2%nat, 2%nat, 2%nat, 0%nat, 0%nat => ks_dddgamma_D2D2D2D0D0 P f
  | 2%nat, 2%nat, 2%nat, 0%nat, 1%nat => ks_dddgamma_D2D2D2D0D1 P f
  | 2%nat, 2%nat, 2%nat, 0%nat, 2%nat => ks_dddgamma_D2D2D2D0D2 P f
  | 2%nat, 2%nat, 2%nat, 1%nat, 0%nat => ks_dddgamma_D2D2D2D1D0 P f
  | 2%nat, 2%nat, 2%nat, 1%nat, 1%nat => ks_dddgamma_D2D2D2D1D1 P f
  | 2%nat, 2%nat, 2%nat, 1%nat, 2%nat => ks_dddgamma_D2D2D2D1D2 P f
  | 2%nat, 2%nat, 2%nat, 2%nat, 0%nat => ks_dddgamma_D2D2D2D2D0 P f
  | 2%nat, 2%nat, 2%nat, 2%nat, 1%nat => ks_dddgamma_D2D2D2D2D1 P f
  | 2%nat, 2%nat, 2%nat, 2%nat, 2%nat => ks_dddgamma_D2D2D2D2D2 P f
  | _, _, _, _, _ => 0
  end.
