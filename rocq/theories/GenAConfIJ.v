(* Generated by tools/c2coq.py from /repo/Src/Main/Modules/Physics/ADM/adm_AConfIJ_XCTS_MConfIJ0.c: do not edit.
   Pointwise: one node ijk of the loop over the nodes of a patch; doubles are reals. *)
Require Import Reals.
Local Open Scope R_scope.

(* /repo/Src/Main/Modules/Physics/ADM/adm_AConfIJ_XCTS_MConfIJ0.c:108-450: the values the loop body reads at its node: field B_U0D1 is B 0 1 *)
Record env : Type := mk {
  ChrisConf : nat -> nat -> nat -> R;
  _LBij : nat -> nat -> R;
  _dLBij : nat -> nat -> nat -> R;
  alphaPsi : R;
  beta : nat -> R;
  dalphaPsi : nat -> R;
  dbeta : nat -> nat -> R;
  dpsi : nat -> R;
  gConf : nat -> nat -> R;
  igConf : nat -> nat -> R;
  psi : R }.

(* /repo/Src/Main/Modules/Physics/ADM/adm_AConfIJ_XCTS_MConfIJ0.c:108-109 *)
Definition psi7 (E : env) : R :=
  (psi E) ^ 7.

(* /repo/Src/Main/Modules/Physics/ADM/adm_AConfIJ_XCTS_MConfIJ0.c:111-118 *)
Definition _DB_UU_U1U2 (E : env) : R :=
  (((igConf E 0 1) * (((((ChrisConf E 2 0 0) * (beta E 0)) + ((ChrisConf E 2 0 1) * (beta E 1)))
  + ((ChrisConf E 2 0 2) * (beta E 2))) + (dbeta E 2 0))) + ((igConf E 1 1) * (((((ChrisConf E 2
  0 1) * (beta E 0)) + ((ChrisConf E 2 1 1) * (beta E 1))) + ((ChrisConf E 2 1 2) * (beta E 2)))
  + (dbeta E 2 1)))) + ((igConf E 1 2) * (((((ChrisConf E 2 0 2) * (beta E 0)) + ((ChrisConf E 2
  1 2) * (beta E 1))) + ((ChrisConf E 2 2 2) * (beta E 2))) + (dbeta E 2 2))).

(* /repo/Src/Main/Modules/Physics/ADM/adm_AConfIJ_XCTS_MConfIJ0.c:120-127 *)
Definition _DB_UU_U1U1 (E : env) : R :=
  (((igConf E 0 1) * (((((ChrisConf E 1 0 0) * (beta E 0)) + ((ChrisConf E 1 0 1) * (beta E 1)))
  + ((ChrisConf E 1 0 2) * (beta E 2))) + (dbeta E 1 0))) + ((igConf E 1 1) * (((((ChrisConf E 1
  0 1) * (beta E 0)) + ((ChrisConf E 1 1 1) * (beta E 1))) + ((ChrisConf E 1 1 2) * (beta E 2)))
  + (dbeta E 1 1)))) + ((igConf E 1 2) * (((((ChrisConf E 1 0 2) * (beta E 0)) + ((ChrisConf E 1
  1 2) * (beta E 1))) + ((ChrisConf E 1 2 2) * (beta E 2))) + (dbeta E 1 2))).

(* /repo/Src/Main/Modules/Physics/ADM/adm_AConfIJ_XCTS_MConfIJ0.c:129-136 *)
Definition _DB_UU_U1U0 (E : env) : R :=
  (((igConf E 0 1) * (((((ChrisConf E 0 0 0) * (beta E 0)) + ((ChrisConf E 0 0 1) * (beta E 1)))
  + ((ChrisConf E 0 0 2) * (beta E 2))) + (dbeta E 0 0))) + ((igConf E 1 1) * (((((ChrisConf E 0
  0 1) * (beta E 0)) + ((ChrisConf E 0 1 1) * (beta E 1))) + ((ChrisConf E 0 1 2) * (beta E 2)))
  + (dbeta E 0 1)))) + ((igConf E 1 2) * (((((ChrisConf E 0 0 2) * (beta E 0)) + ((ChrisConf E 0
  1 2) * (beta E 1))) + ((ChrisConf E 0 2 2) * (beta E 2))) + (dbeta E 0 2))).

(* /repo/Src/Main/Modules/Physics/ADM/adm_AConfIJ_XCTS_MConfIJ0.c:138-145 *)
Definition _DB_UU_U0U2 (E : env) : R :=
  (((igConf E 0 0) * (((((ChrisConf E 2 0 0) * (beta E 0)) + ((ChrisConf E 2 0 1) * (beta E 1)))
  + ((ChrisConf E 2 0 2) * (beta E 2))) + (dbeta E 2 0))) + ((igConf E 0 1) * (((((ChrisConf E 2
  0 1) * (beta E 0)) + ((ChrisConf E 2 1 1) * (beta E 1))) + ((ChrisConf E 2 1 2) * (beta E 2)))
  + (dbeta E 2 1)))) + ((igConf E 0 2) * (((((ChrisConf E 2 0 2) * (beta E 0)) + ((ChrisConf E 2
  1 2) * (beta E 1))) + ((ChrisConf E 2 2 2) * (beta E 2))) + (dbeta E 2 2))).

(* /repo/Src/Main/Modules/Physics/ADM/adm_AConfIJ_XCTS_MConfIJ0.c:147-154 *)
Definition _DB_UU_U0U0 (E : env) : R :=
  (((igConf E 0 0) * (((((ChrisConf E 0 0 0) * (beta E 0)) + ((ChrisConf E 0 0 1) * (beta E 1)))
  + ((ChrisConf E 0 0 2) * (beta E 2))) + (dbeta E 0 0))) + ((igConf E 0 1) * (((((ChrisConf E 0
  0 1) * (beta E 0)) + ((ChrisConf E 0 1 1) * (beta E 1))) + ((ChrisConf E 0 1 2) * (beta E 2)))
  + (dbeta E 0 1)))) + ((igConf E 0 2) * (((((ChrisConf E 0 0 2) * (beta E 0)) + ((ChrisConf E 0
  1 2) * (beta E 1))) + ((ChrisConf E 0 2 2) * (beta E 2))) + (dbeta E 0 2))).

(* /repo/Src/Main/Modules/Physics/ADM/adm_AConfIJ_XCTS_MConfIJ0.c:156-163 *)
Definition _DB_UU_U0U1 (E : env) : R :=
  (((igConf E 0 0) * (((((ChrisConf E 1 0 0) * (beta E 0)) + ((ChrisConf E 1 0 1) * (beta E 1)))
  + ((ChrisConf E 1 0 2) * (beta E 2))) + (dbeta E 1 0))) + ((igConf E 0 1) * (((((ChrisConf E 1
  0 1) * (beta E 0)) + ((ChrisConf E 1 1 1) * (beta E 1))) + ((ChrisConf E 1 1 2) * (beta E 2)))
  + (dbeta E 1 1)))) + ((igConf E 0 2) * (((((ChrisConf E 1 0 2) * (beta E 0)) + ((ChrisConf E 1
  1 2) * (beta E 1))) + ((ChrisConf E 1 2 2) * (beta E 2))) + (dbeta E 1 2))).

(* /repo/Src/Main/Modules/Physics/ADM/adm_AConfIJ_XCTS_MConfIJ0.c:165-172 *)
Definition _DB_UU_U2U0 (E : env) : R :=
  (((igConf E 0 2) * (((((ChrisConf E 0 0 0) * (beta E 0)) + ((ChrisConf E 0 0 1) * (beta E 1)))
  + ((ChrisConf E 0 0 2) * (beta E 2))) + (dbeta E 0 0))) + ((igConf E 1 2) * (((((ChrisConf E 0
  0 1) * (beta E 0)) + ((ChrisConf E 0 1 1) * (beta E 1))) + ((ChrisConf E 0 1 2) * (beta E 2)))
  + (dbeta E 0 1)))) + ((igConf E 2 2) * (((((ChrisConf E 0 0 2) * (beta E 0)) + ((ChrisConf E 0
  1 2) * (beta E 1))) + ((ChrisConf E 0 2 2) * (beta E 2))) + (dbeta E 0 2))).

(* /repo/Src/Main/Modules/Physics/ADM/adm_AConfIJ_XCTS_MConfIJ0.c:174-181 *)
Definition _DB_UU_U2U1 (E : env) : R :=
  (((igConf E 0 2) * (((((ChrisConf E 1 0 0) * (beta E 0)) + ((ChrisConf E 1 0 1) * (beta E 1)))
  + ((ChrisConf E 1 0 2) * (beta E 2))) + (dbeta E 1 0))) + ((igConf E 1 2) * (((((ChrisConf E 1
  0 1) * (beta E 0)) + ((ChrisConf E 1 1 1) * (beta E 1))) + ((ChrisConf E 1 1 2) * (beta E 2)))
  + (dbeta E 1 1)))) + ((igConf E 2 2) * (((((ChrisConf E 1 0 2) * (beta E 0)) + ((ChrisConf E 1
  1 2) * (beta E 1))) + ((ChrisConf E 1 2 2) * (beta E 2))) + (dbeta E 1 2))).

(* /repo/Src/Main/Modules/Physics/ADM/adm_AConfIJ_XCTS_MConfIJ0.c:183-190 *)
Definition _DB_UU_U2U2 (E : env) : R :=
  (((igConf E 0 2) * (((((ChrisConf E 2 0 0) * (beta E 0)) + ((ChrisConf E 2 0 1) * (beta E 1)))
  + ((ChrisConf E 2 0 2) * (beta E 2))) + (dbeta E 2 0))) + ((igConf E 1 2) * (((((ChrisConf E 2
  0 1) * (beta E 0)) + ((ChrisConf E 2 1 1) * (beta E 1))) + ((ChrisConf E 2 1 2) * (beta E 2)))
  + (dbeta E 2 1)))) + ((igConf E 2 2) * (((((ChrisConf E 2 0 2) * (beta E 0)) + ((ChrisConf E 2
  1 2) * (beta E 1))) + ((ChrisConf E 2 2 2) * (beta E 2))) + (dbeta E 2 2))).

(* /repo/Src/Main/Modules/Physics/ADM/adm_AConfIJ_XCTS_MConfIJ0.c:192-202 *)
Definition _LV_UU_U0U2 (E : env) : R :=
  (((((((((((((- (2/3)) * (_DB_UU_U0U0 E)) * (gConf E 0 0)) * (igConf E 0 2)) - ((((2/3) *
  (_DB_UU_U0U1 E)) * (gConf E 0 1)) * (igConf E 0 2))) - ((((2/3) * (_DB_UU_U0U2 E)) * (gConf E 0
  2)) * (igConf E 0 2))) + (_DB_UU_U0U2 E)) - ((((2/3) * (_DB_UU_U1U0 E)) * (gConf E 0 1)) *
  (igConf E 0 2))) - ((((2/3) * (_DB_UU_U1U1 E)) * (gConf E 1 1)) * (igConf E 0 2))) - ((((2/3) *
  (_DB_UU_U1U2 E)) * (gConf E 1 2)) * (igConf E 0 2))) - ((((2/3) * (_DB_UU_U2U0 E)) * (gConf E 0
  2)) * (igConf E 0 2))) + (_DB_UU_U2U0 E)) - ((((2/3) * (_DB_UU_U2U1 E)) * (gConf E 1 2)) *
  (igConf E 0 2))) - ((((2/3) * (_DB_UU_U2U2 E)) * (gConf E 2 2)) * (igConf E 0 2)).

(* /repo/Src/Main/Modules/Physics/ADM/adm_AConfIJ_XCTS_MConfIJ0.c:204-214 *)
Definition _LV_UU_U0U0 (E : env) : R :=
  ((((((((((((- (2/3)) * (_DB_UU_U0U0 E)) * (gConf E 0 0)) * (igConf E 0 0)) + (2 * (_DB_UU_U0U0
  E))) - ((((2/3) * (_DB_UU_U0U1 E)) * (gConf E 0 1)) * (igConf E 0 0))) - ((((2/3) *
  (_DB_UU_U0U2 E)) * (gConf E 0 2)) * (igConf E 0 0))) - ((((2/3) * (_DB_UU_U1U0 E)) * (gConf E 0
  1)) * (igConf E 0 0))) - ((((2/3) * (_DB_UU_U1U1 E)) * (gConf E 1 1)) * (igConf E 0 0))) -
  ((((2/3) * (_DB_UU_U1U2 E)) * (gConf E 1 2)) * (igConf E 0 0))) - ((((2/3) * (_DB_UU_U2U0 E)) *
  (gConf E 0 2)) * (igConf E 0 0))) - ((((2/3) * (_DB_UU_U2U1 E)) * (gConf E 1 2)) * (igConf E 0
  0))) - ((((2/3) * (_DB_UU_U2U2 E)) * (gConf E 2 2)) * (igConf E 0 0)).

(* /repo/Src/Main/Modules/Physics/ADM/adm_AConfIJ_XCTS_MConfIJ0.c:216-226 *)
Definition _LV_UU_U0U1 (E : env) : R :=
  (((((((((((((- (2/3)) * (_DB_UU_U0U0 E)) * (gConf E 0 0)) * (igConf E 0 1)) - ((((2/3) *
  (_DB_UU_U0U1 E)) * (gConf E 0 1)) * (igConf E 0 1))) + (_DB_UU_U0U1 E)) - ((((2/3) *
  (_DB_UU_U0U2 E)) * (gConf E 0 2)) * (igConf E 0 1))) - ((((2/3) * (_DB_UU_U1U0 E)) * (gConf E 0
  1)) * (igConf E 0 1))) + (_DB_UU_U1U0 E)) - ((((2/3) * (_DB_UU_U1U1 E)) * (gConf E 1 1)) *
  (igConf E 0 1))) - ((((2/3) * (_DB_UU_U1U2 E)) * (gConf E 1 2)) * (igConf E 0 1))) - ((((2/3) *
  (_DB_UU_U2U0 E)) * (gConf E 0 2)) * (igConf E 0 1))) - ((((2/3) * (_DB_UU_U2U1 E)) * (gConf E 1
  2)) * (igConf E 0 1))) - ((((2/3) * (_DB_UU_U2U2 E)) * (gConf E 2 2)) * (igConf E 0 1)).

(* /repo/Src/Main/Modules/Physics/ADM/adm_AConfIJ_XCTS_MConfIJ0.c:228-238 *)
Definition _LV_UU_U2U2 (E : env) : R :=
  ((((((((((((- (2/3)) * (_DB_UU_U0U0 E)) * (gConf E 0 0)) * (igConf E 2 2)) - ((((2/3) *
  (_DB_UU_U0U1 E)) * (gConf E 0 1)) * (igConf E 2 2))) - ((((2/3) * (_DB_UU_U0U2 E)) * (gConf E 0
  2)) * (igConf E 2 2))) - ((((2/3) * (_DB_UU_U1U0 E)) * (gConf E 0 1)) * (igConf E 2 2))) -
  ((((2/3) * (_DB_UU_U1U1 E)) * (gConf E 1 1)) * (igConf E 2 2))) - ((((2/3) * (_DB_UU_U1U2 E)) *
  (gConf E 1 2)) * (igConf E 2 2))) - ((((2/3) * (_DB_UU_U2U0 E)) * (gConf E 0 2)) * (igConf E 2
  2))) - ((((2/3) * (_DB_UU_U2U1 E)) * (gConf E 1 2)) * (igConf E 2 2))) - ((((2/3) *
  (_DB_UU_U2U2 E)) * (gConf E 2 2)) * (igConf E 2 2))) + (2 * (_DB_UU_U2U2 E)).

(* /repo/Src/Main/Modules/Physics/ADM/adm_AConfIJ_XCTS_MConfIJ0.c:240-250 *)
Definition _LV_UU_U1U2 (E : env) : R :=
  (((((((((((((- (2/3)) * (_DB_UU_U0U0 E)) * (gConf E 0 0)) * (igConf E 1 2)) - ((((2/3) *
  (_DB_UU_U0U1 E)) * (gConf E 0 1)) * (igConf E 1 2))) - ((((2/3) * (_DB_UU_U0U2 E)) * (gConf E 0
  2)) * (igConf E 1 2))) - ((((2/3) * (_DB_UU_U1U0 E)) * (gConf E 0 1)) * (igConf E 1 2))) -
  ((((2/3) * (_DB_UU_U1U1 E)) * (gConf E 1 1)) * (igConf E 1 2))) - ((((2/3) * (_DB_UU_U1U2 E)) *
  (gConf E 1 2)) * (igConf E 1 2))) + (_DB_UU_U1U2 E)) - ((((2/3) * (_DB_UU_U2U0 E)) * (gConf E 0
  2)) * (igConf E 1 2))) - ((((2/3) * (_DB_UU_U2U1 E)) * (gConf E 1 2)) * (igConf E 1 2))) +
  (_DB_UU_U2U1 E)) - ((((2/3) * (_DB_UU_U2U2 E)) * (gConf E 2 2)) * (igConf E 1 2)).

(* /repo/Src/Main/Modules/Physics/ADM/adm_AConfIJ_XCTS_MConfIJ0.c:252-262 *)
Definition _LV_UU_U1U1 (E : env) : R :=
  ((((((((((((- (2/3)) * (_DB_UU_U0U0 E)) * (gConf E 0 0)) * (igConf E 1 1)) - ((((2/3) *
  (_DB_UU_U0U1 E)) * (gConf E 0 1)) * (igConf E 1 1))) - ((((2/3) * (_DB_UU_U0U2 E)) * (gConf E 0
  2)) * (igConf E 1 1))) - ((((2/3) * (_DB_UU_U1U0 E)) * (gConf E 0 1)) * (igConf E 1 1))) -
  ((((2/3) * (_DB_UU_U1U1 E)) * (gConf E 1 1)) * (igConf E 1 1))) + (2 * (_DB_UU_U1U1 E))) -
  ((((2/3) * (_DB_UU_U1U2 E)) * (gConf E 1 2)) * (igConf E 1 1))) - ((((2/3) * (_DB_UU_U2U0 E)) *
  (gConf E 0 2)) * (igConf E 1 1))) - ((((2/3) * (_DB_UU_U2U1 E)) * (gConf E 1 2)) * (igConf E 1
  1))) - ((((2/3) * (_DB_UU_U2U2 E)) * (gConf E 2 2)) * (igConf E 1 1)).

(* /repo/Src/Main/Modules/Physics/ADM/adm_AConfIJ_XCTS_MConfIJ0.c:264-265 *)
Definition _A_UUij_U2U2 (E : env) : R :=
  (((1 / 2) * (_LV_UU_U2U2 E)) * (psi7 E)) / (alphaPsi E).

(* /repo/Src/Main/Modules/Physics/ADM/adm_AConfIJ_XCTS_MConfIJ0.c:267-268 *)
Definition _A_UUij_U1U2 (E : env) : R :=
  (((1 / 2) * (_LV_UU_U1U2 E)) * (psi7 E)) / (alphaPsi E).

(* /repo/Src/Main/Modules/Physics/ADM/adm_AConfIJ_XCTS_MConfIJ0.c:270-271 *)
Definition _A_UUij_U1U1 (E : env) : R :=
  (((1 / 2) * (_LV_UU_U1U1 E)) * (psi7 E)) / (alphaPsi E).

(* /repo/Src/Main/Modules/Physics/ADM/adm_AConfIJ_XCTS_MConfIJ0.c:273-274 *)
Definition _A_UUij_U0U2 (E : env) : R :=
  (((1 / 2) * (_LV_UU_U0U2 E)) * (psi7 E)) / (alphaPsi E).

(* /repo/Src/Main/Modules/Physics/ADM/adm_AConfIJ_XCTS_MConfIJ0.c:276-277 *)
Definition _A_UUij_U0U1 (E : env) : R :=
  (((1 / 2) * (_LV_UU_U0U1 E)) * (psi7 E)) / (alphaPsi E).

(* /repo/Src/Main/Modules/Physics/ADM/adm_AConfIJ_XCTS_MConfIJ0.c:279-280 *)
Definition _A_UUij_U0U0 (E : env) : R :=
  (((1 / 2) * (_LV_UU_U0U0 E)) * (psi7 E)) / (alphaPsi E).

(* /repo/Src/Main/Modules/Physics/ADM/adm_AConfIJ_XCTS_MConfIJ0.c:282-307 *)
Definition _AijAij (E : env) : R :=
  ((((((((((((((((((((((((((((_A_UUij_U0U0 E) ^ 2) * ((gConf E 0 0) ^ 2)) + ((((4 * (_A_UUij_U0U0
  E)) * (_A_UUij_U0U1 E)) * (gConf E 0 0)) * (gConf E 0 1))) + ((((4 * (_A_UUij_U0U0 E)) *
  (_A_UUij_U0U2 E)) * (gConf E 0 0)) * (gConf E 0 2))) + (((2 * (_A_UUij_U0U0 E)) * (_A_UUij_U1U1
  E)) * ((gConf E 0 1) ^ 2))) + ((((4 * (_A_UUij_U0U0 E)) * (_A_UUij_U1U2 E)) * (gConf E 0 1)) *
  (gConf E 0 2))) + (((2 * (_A_UUij_U0U0 E)) * (_A_UUij_U2U2 E)) * ((gConf E 0 2) ^ 2))) + (((2 *
  ((_A_UUij_U0U1 E) ^ 2)) * (gConf E 0 0)) * (gConf E 1 1))) + ((2 * ((_A_UUij_U0U1 E) ^ 2)) *
  ((gConf E 0 1) ^ 2))) + ((((4 * (_A_UUij_U0U1 E)) * (_A_UUij_U0U2 E)) * (gConf E 0 0)) * (gConf
  E 1 2))) + ((((4 * (_A_UUij_U0U1 E)) * (_A_UUij_U0U2 E)) * (gConf E 0 1)) * (gConf E 0 2))) +
  ((((4 * (_A_UUij_U0U1 E)) * (_A_UUij_U1U1 E)) * (gConf E 0 1)) * (gConf E 1 1))) + ((((4 *
  (_A_UUij_U0U1 E)) * (_A_UUij_U1U2 E)) * (gConf E 0 1)) * (gConf E 1 2))) + ((((4 *
  (_A_UUij_U0U1 E)) * (_A_UUij_U1U2 E)) * (gConf E 0 2)) * (gConf E 1 1))) + ((((4 *
  (_A_UUij_U0U1 E)) * (_A_UUij_U2U2 E)) * (gConf E 0 2)) * (gConf E 1 2))) + (((2 *
  ((_A_UUij_U0U2 E) ^ 2)) * (gConf E 0 0)) * (gConf E 2 2))) + ((2 * ((_A_UUij_U0U2 E) ^ 2)) *
  ((gConf E 0 2) ^ 2))) + ((((4 * (_A_UUij_U0U2 E)) * (_A_UUij_U1U1 E)) * (gConf E 0 1)) * (gConf
  E 1 2))) + ((((4 * (_A_UUij_U0U2 E)) * (_A_UUij_U1U2 E)) * (gConf E 0 1)) * (gConf E 2 2))) +
  ((((4 * (_A_UUij_U0U2 E)) * (_A_UUij_U1U2 E)) * (gConf E 0 2)) * (gConf E 1 2))) + ((((4 *
  (_A_UUij_U0U2 E)) * (_A_UUij_U2U2 E)) * (gConf E 0 2)) * (gConf E 2 2))) + (((_A_UUij_U1U1 E) ^
  2) * ((gConf E 1 1) ^ 2))) + ((((4 * (_A_UUij_U1U1 E)) * (_A_UUij_U1U2 E)) * (gConf E 1 1)) *
  (gConf E 1 2))) + (((2 * (_A_UUij_U1U1 E)) * (_A_UUij_U2U2 E)) * ((gConf E 1 2) ^ 2))) + (((2 *
  ((_A_UUij_U1U2 E) ^ 2)) * (gConf E 1 1)) * (gConf E 2 2))) + ((2 * ((_A_UUij_U1U2 E) ^ 2)) *
  ((gConf E 1 2) ^ 2))) + ((((4 * (_A_UUij_U1U2 E)) * (_A_UUij_U2U2 E)) * (gConf E 1 2)) * (gConf
  E 2 2))) + (((_A_UUij_U2U2 E) ^ 2) * ((gConf E 2 2) ^ 2)).

(* /repo/Src/Main/Modules/Physics/ADM/adm_AConfIJ_XCTS_MConfIJ0.c:311 *)
Definition out_AConfIJ_U0U1 (E : env) : R :=
  _A_UUij_U0U1 E.

(* /repo/Src/Main/Modules/Physics/ADM/adm_AConfIJ_XCTS_MConfIJ0.c:312 *)
Definition out_AConfIJ_U0U0 (E : env) : R :=
  _A_UUij_U0U0 E.

(* /repo/Src/Main/Modules/Physics/ADM/adm_AConfIJ_XCTS_MConfIJ0.c:313 *)
Definition out_AConfIJ_U0U2 (E : env) : R :=
  _A_UUij_U0U2 E.

(* /repo/Src/Main/Modules/Physics/ADM/adm_AConfIJ_XCTS_MConfIJ0.c:314 *)
Definition out_AConfIJ_U2U2 (E : env) : R :=
  _A_UUij_U2U2 E.

(* /repo/Src/Main/Modules/Physics/ADM/adm_AConfIJ_XCTS_MConfIJ0.c:315 *)
Definition out_AConfIJ_U1U1 (E : env) : R :=
  _A_UUij_U1U1 E.

(* /repo/Src/Main/Modules/Physics/ADM/adm_AConfIJ_XCTS_MConfIJ0.c:316 *)
Definition out_AConfIJ_U1U2 (E : env) : R :=
  _A_UUij_U1U2 E.

(* /repo/Src/Main/Modules/Physics/ADM/adm_AConfIJ_XCTS_MConfIJ0.c:319 *)
Definition out__LBij_U0U1 (E : env) : R :=
  _LV_UU_U0U1 E.

(* /repo/Src/Main/Modules/Physics/ADM/adm_AConfIJ_XCTS_MConfIJ0.c:320 *)
Definition out__LBij_U0U0 (E : env) : R :=
  _LV_UU_U0U0 E.

(* /repo/Src/Main/Modules/Physics/ADM/adm_AConfIJ_XCTS_MConfIJ0.c:321 *)
Definition out__LBij_U0U2 (E : env) : R :=
  _LV_UU_U0U2 E.

(* /repo/Src/Main/Modules/Physics/ADM/adm_AConfIJ_XCTS_MConfIJ0.c:322 *)
Definition out__LBij_U1U1 (E : env) : R :=
  _LV_UU_U1U1 E.

(* /repo/Src/Main/Modules/Physics/ADM/adm_AConfIJ_XCTS_MConfIJ0.c:323 *)
Definition out__LBij_U1U2 (E : env) : R :=
  _LV_UU_U1U2 E.

(* /repo/Src/Main/Modules/Physics/ADM/adm_AConfIJ_XCTS_MConfIJ0.c:324 *)
Definition out__LBij_U2U2 (E : env) : R :=
  _LV_UU_U2U2 E.

(* /repo/Src/Main/Modules/Physics/ADM/adm_AConfIJ_XCTS_MConfIJ0.c:325 *)
Definition out_AConfIJ2 (E : env) : R :=
  _AijAij E.

(* /repo/Src/Main/Modules/Physics/ADM/adm_AConfIJ_XCTS_MConfIJ0.c:347-348 *)
Definition d_psi7_ (E : env) : R :=
  (psi E) ^ 7.

(* /repo/Src/Main/Modules/Physics/ADM/adm_AConfIJ_XCTS_MConfIJ0.c:350-351 *)
Definition d_dLnOf_alpha__U2 (E : env) : R :=
  (((- 7) * (dpsi E 2)) / (psi E)) + ((dalphaPsi E 2) / (alphaPsi E)).

(* /repo/Src/Main/Modules/Physics/ADM/adm_AConfIJ_XCTS_MConfIJ0.c:353-354 *)
Definition d_dLnOf_alpha__U0 (E : env) : R :=
  (((- 7) * (dpsi E 0)) / (psi E)) + ((dalphaPsi E 0) / (alphaPsi E)).

(* /repo/Src/Main/Modules/Physics/ADM/adm_AConfIJ_XCTS_MConfIJ0.c:356-357 *)
Definition d_dLnOf_alpha__U1 (E : env) : R :=
  (((- 7) * (dpsi E 1)) / (psi E)) + ((dalphaPsi E 1) / (alphaPsi E)).

(* /repo/Src/Main/Modules/Physics/ADM/adm_AConfIJ_XCTS_MConfIJ0.c:359-361 *)
Definition d_dlAij_U0U1D2 (E : env) : R :=
  ((((- 1) / 2) * (d_psi7_ E)) * (((_LBij E 0 1) * (d_dLnOf_alpha__U2 E)) - (_dLBij E 0 1 2))) /
  (alphaPsi E).

(* /repo/Src/Main/Modules/Physics/ADM/adm_AConfIJ_XCTS_MConfIJ0.c:363-365 *)
Definition d_dlAij_U0U0D2 (E : env) : R :=
  ((((- 1) / 2) * (d_psi7_ E)) * (((_LBij E 0 0) * (d_dLnOf_alpha__U2 E)) - (_dLBij E 0 0 2))) /
  (alphaPsi E).

(* /repo/Src/Main/Modules/Physics/ADM/adm_AConfIJ_XCTS_MConfIJ0.c:367-369 *)
Definition d_dlAij_U0U0D1 (E : env) : R :=
  ((((- 1) / 2) * (d_psi7_ E)) * (((_LBij E 0 0) * (d_dLnOf_alpha__U1 E)) - (_dLBij E 0 0 1))) /
  (alphaPsi E).

(* /repo/Src/Main/Modules/Physics/ADM/adm_AConfIJ_XCTS_MConfIJ0.c:371-373 *)
Definition d_dlAij_U0U1D1 (E : env) : R :=
  ((((- 1) / 2) * (d_psi7_ E)) * (((_LBij E 0 1) * (d_dLnOf_alpha__U1 E)) - (_dLBij E 0 1 1))) /
  (alphaPsi E).

(* /repo/Src/Main/Modules/Physics/ADM/adm_AConfIJ_XCTS_MConfIJ0.c:375-377 *)
Definition d_dlAij_U0U0D0 (E : env) : R :=
  ((((- 1) / 2) * (d_psi7_ E)) * (((_LBij E 0 0) * (d_dLnOf_alpha__U0 E)) - (_dLBij E 0 0 0))) /
  (alphaPsi E).

(* /repo/Src/Main/Modules/Physics/ADM/adm_AConfIJ_XCTS_MConfIJ0.c:379-381 *)
Definition d_dlAij_U1U2D0 (E : env) : R :=
  ((((- 1) / 2) * (d_psi7_ E)) * (((_LBij E 1 2) * (d_dLnOf_alpha__U0 E)) - (_dLBij E 1 2 0))) /
  (alphaPsi E).

(* /repo/Src/Main/Modules/Physics/ADM/adm_AConfIJ_XCTS_MConfIJ0.c:383-385 *)
Definition d_dlAij_U0U1D0 (E : env) : R :=
  ((((- 1) / 2) * (d_psi7_ E)) * (((_LBij E 0 1) * (d_dLnOf_alpha__U0 E)) - (_dLBij E 0 1 0))) /
  (alphaPsi E).

(* /repo/Src/Main/Modules/Physics/ADM/adm_AConfIJ_XCTS_MConfIJ0.c:387-389 *)
Definition d_dlAij_U1U2D2 (E : env) : R :=
  ((((- 1) / 2) * (d_psi7_ E)) * (((_LBij E 1 2) * (d_dLnOf_alpha__U2 E)) - (_dLBij E 1 2 2))) /
  (alphaPsi E).

(* /repo/Src/Main/Modules/Physics/ADM/adm_AConfIJ_XCTS_MConfIJ0.c:391-393 *)
Definition d_dlAij_U1U2D1 (E : env) : R :=
  ((((- 1) / 2) * (d_psi7_ E)) * (((_LBij E 1 2) * (d_dLnOf_alpha__U1 E)) - (_dLBij E 1 2 1))) /
  (alphaPsi E).

(* /repo/Src/Main/Modules/Physics/ADM/adm_AConfIJ_XCTS_MConfIJ0.c:395-397 *)
Definition d_dlAij_U0U2D1 (E : env) : R :=
  ((((- 1) / 2) * (d_psi7_ E)) * (((_LBij E 0 2) * (d_dLnOf_alpha__U1 E)) - (_dLBij E 0 2 1))) /
  (alphaPsi E).

(* /repo/Src/Main/Modules/Physics/ADM/adm_AConfIJ_XCTS_MConfIJ0.c:399-401 *)
Definition d_dlAij_U0U2D0 (E : env) : R :=
  ((((- 1) / 2) * (d_psi7_ E)) * (((_LBij E 0 2) * (d_dLnOf_alpha__U0 E)) - (_dLBij E 0 2 0))) /
  (alphaPsi E).

(* /repo/Src/Main/Modules/Physics/ADM/adm_AConfIJ_XCTS_MConfIJ0.c:403-405 *)
Definition d_dlAij_U0U2D2 (E : env) : R :=
  ((((- 1) / 2) * (d_psi7_ E)) * (((_LBij E 0 2) * (d_dLnOf_alpha__U2 E)) - (_dLBij E 0 2 2))) /
  (alphaPsi E).

(* /repo/Src/Main/Modules/Physics/ADM/adm_AConfIJ_XCTS_MConfIJ0.c:407-409 *)
Definition d_dlAij_U2U2D2 (E : env) : R :=
  ((((- 1) / 2) * (d_psi7_ E)) * (((_LBij E 2 2) * (d_dLnOf_alpha__U2 E)) - (_dLBij E 2 2 2))) /
  (alphaPsi E).

(* /repo/Src/Main/Modules/Physics/ADM/adm_AConfIJ_XCTS_MConfIJ0.c:411-413 *)
Definition d_dlAij_U1U1D2 (E : env) : R :=
  ((((- 1) / 2) * (d_psi7_ E)) * (((_LBij E 1 1) * (d_dLnOf_alpha__U2 E)) - (_dLBij E 1 1 2))) /
  (alphaPsi E).

(* /repo/Src/Main/Modules/Physics/ADM/adm_AConfIJ_XCTS_MConfIJ0.c:415-417 *)
Definition d_dlAij_U1U1D1 (E : env) : R :=
  ((((- 1) / 2) * (d_psi7_ E)) * (((_LBij E 1 1) * (d_dLnOf_alpha__U1 E)) - (_dLBij E 1 1 1))) /
  (alphaPsi E).

(* /repo/Src/Main/Modules/Physics/ADM/adm_AConfIJ_XCTS_MConfIJ0.c:419-421 *)
Definition d_dlAij_U1U1D0 (E : env) : R :=
  ((((- 1) / 2) * (d_psi7_ E)) * (((_LBij E 1 1) * (d_dLnOf_alpha__U0 E)) - (_dLBij E 1 1 0))) /
  (alphaPsi E).

(* /repo/Src/Main/Modules/Physics/ADM/adm_AConfIJ_XCTS_MConfIJ0.c:423-425 *)
Definition d_dlAij_U2U2D0 (E : env) : R :=
  ((((- 1) / 2) * (d_psi7_ E)) * (((_LBij E 2 2) * (d_dLnOf_alpha__U0 E)) - (_dLBij E 2 2 0))) /
  (alphaPsi E).

(* /repo/Src/Main/Modules/Physics/ADM/adm_AConfIJ_XCTS_MConfIJ0.c:427-429 *)
Definition d_dlAij_U2U2D1 (E : env) : R :=
  ((((- 1) / 2) * (d_psi7_ E)) * (((_LBij E 2 2) * (d_dLnOf_alpha__U1 E)) - (_dLBij E 2 2 1))) /
  (alphaPsi E).

(* /repo/Src/Main/Modules/Physics/ADM/adm_AConfIJ_XCTS_MConfIJ0.c:433 *)
Definition d_out_dAConfIJ_U0U0D2 (E : env) : R :=
  d_dlAij_U0U0D2 E.

(* /repo/Src/Main/Modules/Physics/ADM/adm_AConfIJ_XCTS_MConfIJ0.c:434 *)
Definition d_out_dAConfIJ_U0U0D0 (E : env) : R :=
  d_dlAij_U0U0D0 E.

(* /repo/Src/Main/Modules/Physics/ADM/adm_AConfIJ_XCTS_MConfIJ0.c:435 *)
Definition d_out_dAConfIJ_U0U0D1 (E : env) : R :=
  d_dlAij_U0U0D1 E.

(* /repo/Src/Main/Modules/Physics/ADM/adm_AConfIJ_XCTS_MConfIJ0.c:436 *)
Definition d_out_dAConfIJ_U0U1D2 (E : env) : R :=
  d_dlAij_U0U1D2 E.

(* /repo/Src/Main/Modules/Physics/ADM/adm_AConfIJ_XCTS_MConfIJ0.c:437 *)
Definition d_out_dAConfIJ_U0U1D1 (E : env) : R :=
  d_dlAij_U0U1D1 E.

(* /repo/Src/Main/Modules/Physics/ADM/adm_AConfIJ_XCTS_MConfIJ0.c:438 *)
Definition d_out_dAConfIJ_U0U1D0 (E : env) : R :=
  d_dlAij_U0U1D0 E.

(* /repo/Src/Main/Modules/Physics/ADM/adm_AConfIJ_XCTS_MConfIJ0.c:439 *)
Definition d_out_dAConfIJ_U0U2D0 (E : env) : R :=
  d_dlAij_U0U2D0 E.

(* /repo/Src/Main/Modules/Physics/ADM/adm_AConfIJ_XCTS_MConfIJ0.c:440 *)
Definition d_out_dAConfIJ_U0U2D1 (E : env) : R :=
  d_dlAij_U0U2D1 E.

(* /repo/Src/Main/Modules/Physics/ADM/adm_AConfIJ_XCTS_MConfIJ0.c:441 *)
Definition d_out_dAConfIJ_U0U2D2 (E : env) : R :=
  d_dlAij_U0U2D2 E.

(* /repo/Src/Main/Modules/Physics/ADM/adm_AConfIJ_XCTS_MConfIJ0.c:442 *)
Definition d_out_dAConfIJ_U2U2D2 (E : env) : R :=
  d_dlAij_U2U2D2 E.

(* /repo/Src/Main/Modules/Physics/ADM/adm_AConfIJ_XCTS_MConfIJ0.c:443 *)
Definition d_out_dAConfIJ_U1U2D2 (E : env) : R :=
  d_dlAij_U1U2D2 E.

(* /repo/Src/Main/Modules/Physics/ADM/adm_AConfIJ_XCTS_MConfIJ0.c:444 *)
Definition d_out_dAConfIJ_U2U2D0 (E : env) : R :=
  d_dlAij_U2U2D0 E.

(* /repo/Src/Main/Modules/Physics/ADM/adm_AConfIJ_XCTS_MConfIJ0.c:445 *)
Definition d_out_dAConfIJ_U2U2D1 (E : env) : R :=
  d_dlAij_U2U2D1 E.

(* /repo/Src/Main/Modules/Physics/ADM/adm_AConfIJ_XCTS_MConfIJ0.c:446 *)
Definition d_out_dAConfIJ_U1U2D1 (E : env) : R :=
  d_dlAij_U1U2D1 E.

(* /repo/Src/Main/Modules/Physics/ADM/adm_AConfIJ_XCTS_MConfIJ0.c:447 *)
Definition d_out_dAConfIJ_U1U1D2 (E : env) : R :=
  d_dlAij_U1U1D2 E.

(* /repo/Src/Main/Modules/Physics/ADM/adm_AConfIJ_XCTS_MConfIJ0.c:448 *)
Definition d_out_dAConfIJ_U1U2D0 (E : env) : R :=
  d_dlAij_U1U2D0 E.

(* /repo/Src/Main/Modules/Physics/ADM/adm_AConfIJ_XCTS_MConfIJ0.c:449 *)
Definition d_out_dAConfIJ_U1U1D0 (E : env) : R :=
  d_dlAij_U1U1D0 E.

(* /repo/Src/Main/Modules/Physics/ADM/adm_AConfIJ_XCTS_MConfIJ0.c:450 *)
Definition d_out_dAConfIJ_U1U1D1 (E : env) : R :=
  d_dlAij_U1U1D1 E.

(* /repo/Src/Main/Modules/Physics/ADM/adm_AConfIJ_XCTS_MConfIJ0.c:311-316: the arrays AConfIJ_.. after the loop body; the others keep their value *)
Definition store_AConfIJ (E : env) (old : nat -> nat -> R) : nat -> nat -> R :=
  fun i j => match i, j with
  | 0%nat, 1%nat => out_AConfIJ_U0U1 E
  | 0%nat, 0%nat => out_AConfIJ_U0U0 E
  | 0%nat, 2%nat => out_AConfIJ_U0U2 E
  | 2%nat, 2%nat => out_AConfIJ_U2U2 E
  | 1%nat, 1%nat => out_AConfIJ_U1U1 E
  | 1%nat, 2%nat => out_AConfIJ_U1U2 E
  | _, _ => old i j
  end.

(* /repo/Src/Main/Modules/Physics/ADM/adm_AConfIJ_XCTS_MConfIJ0.c:319-324: the arrays _LBij_.. after the loop body; the others keep their value *)
Definition store__LBij (E : env) (old : nat -> nat -> R) : nat -> nat -> R :=
  fun i j => match i, j with
  | 0%nat, 1%nat => out__LBij_U0U1 E
  | 0%nat, 0%nat => out__LBij_U0U0 E
  | 0%nat, 2%nat => out__LBij_U0U2 E
  | 1%nat, 1%nat => out__LBij_U1U1 E
  | 1%nat, 2%nat => out__LBij_U1U2 E
  | 2%nat, 2%nat => out__LBij_U2U2 E
  | _, _ => old i j
  end.

(* /repo/Src/Main/Modules/Physics/ADM/adm_AConfIJ_XCTS_MConfIJ0.c:433-450: the arrays dAConfIJ_.. after the loop body; the others keep their value *)
Definition store_dAConfIJ (E : env) (old : nat -> nat -> nat -> R) : nat -> nat -> nat -> R :=
  fun i j k => match i, j, k with
  | 0%nat, 0%nat, 2%nat => d_out_dAConfIJ_U0U0D2 E
  | 0%nat, 0%nat, 0%nat => d_out_dAConfIJ_U0U0D0 E
  | 0%nat, 0%nat, 1%nat => d_out_dAConfIJ_U0U0D1 E
  | 0%nat, 1%nat, 2%nat => d_out_dAConfIJ_U0U1D2 E
  | 0%nat, 1%nat, 1%nat => d_out_dAConfIJ_U0U1D1 E
  | 0%nat, 1%nat, 0%nat => d_out_dAConfIJ_U0U1D0 E
  | 0%nat, 2%nat, 0%nat => d_out_dAConfIJ_U0U2D0 E
  | 0%nat, 2%nat, 1%nat => d_out_dAConfIJ_U0U2D1 E
  | 0%nat, 2%nat, 2%nat => d_out_dAConfIJ_U0U2D2 E
  | 2%nat, 2%nat, 2%nat => d_out_dAConfIJ_U2U2D2 E
  | 1%nat, 2%nat, 2%nat => d_out_dAConfIJ_U1U2D2 E
  | 2%nat, 2%nat, 0%nat => d_out_dAConfIJ_U2U2D0 E
  | 2%nat, 2%nat, 1%nat => d_out_dAConfIJ_U2U2D1 E
  | 1%nat, 2%nat, 1%nat => d_out_dAConfIJ_U1U2D1 E
  | 1%nat, 1%nat, 2%nat => d_out_dAConfIJ_U1U1D2 E
  | 1%nat, 2%nat, 0%nat => d_out_dAConfIJ_U1U2D0 E
  | 1%nat, 1%nat, 0%nat => d_out_dAConfIJ_U1U1D0 E
  | 1%nat, 1%nat, 1%nat => d_out_dAConfIJ_U1U1D1 E
  | _, _, _ => old i j k
  end.
