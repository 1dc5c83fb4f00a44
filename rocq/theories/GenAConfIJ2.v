(* Generated by tools/c2coq.py from /repo/Src/Main/Modules/Physics/ADM/adm_AConfIJ_SCTT_MConfIJ0.c: do not edit.
   Pointwise: one node ijk of the loop over the nodes of a patch; doubles are reals. *)
Require Import Reals.
Local Open Scope R_scope.

(* /repo/Src/Main/Modules/Physics/ADM/adm_AConfIJ_SCTT_MConfIJ0.c:70-258: the values the loop body reads at its node: field B_U0D1 is B 0 1 *)
Record env : Type := mk {
  ChrisConf : nat -> nat -> nat -> R;
  beta : nat -> R;
  dbeta : nat -> nat -> R;
  gConf : nat -> nat -> R;
  igConf : nat -> nat -> R }.

(* /repo/Src/Main/Modules/Physics/ADM/adm_AConfIJ_SCTT_MConfIJ0.c:70-77 *)
Definition _DB_UU_U1U2 (E : env) : R :=
  (((igConf E 0 1) * (((((ChrisConf E 2 0 0) * (beta E 0)) + ((ChrisConf E 2 0 1) * (beta E 1)))
  + ((ChrisConf E 2 0 2) * (beta E 2))) + (dbeta E 2 0))) + ((igConf E 1 1) * (((((ChrisConf E 2
  0 1) * (beta E 0)) + ((ChrisConf E 2 1 1) * (beta E 1))) + ((ChrisConf E 2 1 2) * (beta E 2)))
  + (dbeta E 2 1)))) + ((igConf E 1 2) * (((((ChrisConf E 2 0 2) * (beta E 0)) + ((ChrisConf E 2
  1 2) * (beta E 1))) + ((ChrisConf E 2 2 2) * (beta E 2))) + (dbeta E 2 2))).

(* /repo/Src/Main/Modules/Physics/ADM/adm_AConfIJ_SCTT_MConfIJ0.c:79-86 *)
Definition _DB_UU_U1U1 (E : env) : R :=
  (((igConf E 0 1) * (((((ChrisConf E 1 0 0) * (beta E 0)) + ((ChrisConf E 1 0 1) * (beta E 1)))
  + ((ChrisConf E 1 0 2) * (beta E 2))) + (dbeta E 1 0))) + ((igConf E 1 1) * (((((ChrisConf E 1
  0 1) * (beta E 0)) + ((ChrisConf E 1 1 1) * (beta E 1))) + ((ChrisConf E 1 1 2) * (beta E 2)))
  + (dbeta E 1 1)))) + ((igConf E 1 2) * (((((ChrisConf E 1 0 2) * (beta E 0)) + ((ChrisConf E 1
  1 2) * (beta E 1))) + ((ChrisConf E 1 2 2) * (beta E 2))) + (dbeta E 1 2))).

(* /repo/Src/Main/Modules/Physics/ADM/adm_AConfIJ_SCTT_MConfIJ0.c:88-95 *)
Definition _DB_UU_U1U0 (E : env) : R :=
  (((igConf E 0 1) * (((((ChrisConf E 0 0 0) * (beta E 0)) + ((ChrisConf E 0 0 1) * (beta E 1)))
  + ((ChrisConf E 0 0 2) * (beta E 2))) + (dbeta E 0 0))) + ((igConf E 1 1) * (((((ChrisConf E 0
  0 1) * (beta E 0)) + ((ChrisConf E 0 1 1) * (beta E 1))) + ((ChrisConf E 0 1 2) * (beta E 2)))
  + (dbeta E 0 1)))) + ((igConf E 1 2) * (((((ChrisConf E 0 0 2) * (beta E 0)) + ((ChrisConf E 0
  1 2) * (beta E 1))) + ((ChrisConf E 0 2 2) * (beta E 2))) + (dbeta E 0 2))).

(* /repo/Src/Main/Modules/Physics/ADM/adm_AConfIJ_SCTT_MConfIJ0.c:97-104 *)
Definition _DB_UU_U0U2 (E : env) : R :=
  (((igConf E 0 0) * (((((ChrisConf E 2 0 0) * (beta E 0)) + ((ChrisConf E 2 0 1) * (beta E 1)))
  + ((ChrisConf E 2 0 2) * (beta E 2))) + (dbeta E 2 0))) + ((igConf E 0 1) * (((((ChrisConf E 2
  0 1) * (beta E 0)) + ((ChrisConf E 2 1 1) * (beta E 1))) + ((ChrisConf E 2 1 2) * (beta E 2)))
  + (dbeta E 2 1)))) + ((igConf E 0 2) * (((((ChrisConf E 2 0 2) * (beta E 0)) + ((ChrisConf E 2
  1 2) * (beta E 1))) + ((ChrisConf E 2 2 2) * (beta E 2))) + (dbeta E 2 2))).

(* /repo/Src/Main/Modules/Physics/ADM/adm_AConfIJ_SCTT_MConfIJ0.c:106-113 *)
Definition _DB_UU_U0U0 (E : env) : R :=
  (((igConf E 0 0) * (((((ChrisConf E 0 0 0) * (beta E 0)) + ((ChrisConf E 0 0 1) * (beta E 1)))
  + ((ChrisConf E 0 0 2) * (beta E 2))) + (dbeta E 0 0))) + ((igConf E 0 1) * (((((ChrisConf E 0
  0 1) * (beta E 0)) + ((ChrisConf E 0 1 1) * (beta E 1))) + ((ChrisConf E 0 1 2) * (beta E 2)))
  + (dbeta E 0 1)))) + ((igConf E 0 2) * (((((ChrisConf E 0 0 2) * (beta E 0)) + ((ChrisConf E 0
  1 2) * (beta E 1))) + ((ChrisConf E 0 2 2) * (beta E 2))) + (dbeta E 0 2))).

(* /repo/Src/Main/Modules/Physics/ADM/adm_AConfIJ_SCTT_MConfIJ0.c:115-122 *)
Definition _DB_UU_U0U1 (E : env) : R :=
  (((igConf E 0 0) * (((((ChrisConf E 1 0 0) * (beta E 0)) + ((ChrisConf E 1 0 1) * (beta E 1)))
  + ((ChrisConf E 1 0 2) * (beta E 2))) + (dbeta E 1 0))) + ((igConf E 0 1) * (((((ChrisConf E 1
  0 1) * (beta E 0)) + ((ChrisConf E 1 1 1) * (beta E 1))) + ((ChrisConf E 1 1 2) * (beta E 2)))
  + (dbeta E 1 1)))) + ((igConf E 0 2) * (((((ChrisConf E 1 0 2) * (beta E 0)) + ((ChrisConf E 1
  1 2) * (beta E 1))) + ((ChrisConf E 1 2 2) * (beta E 2))) + (dbeta E 1 2))).

(* /repo/Src/Main/Modules/Physics/ADM/adm_AConfIJ_SCTT_MConfIJ0.c:124-131 *)
Definition _DB_UU_U2U0 (E : env) : R :=
  (((igConf E 0 2) * (((((ChrisConf E 0 0 0) * (beta E 0)) + ((ChrisConf E 0 0 1) * (beta E 1)))
  + ((ChrisConf E 0 0 2) * (beta E 2))) + (dbeta E 0 0))) + ((igConf E 1 2) * (((((ChrisConf E 0
  0 1) * (beta E 0)) + ((ChrisConf E 0 1 1) * (beta E 1))) + ((ChrisConf E 0 1 2) * (beta E 2)))
  + (dbeta E 0 1)))) + ((igConf E 2 2) * (((((ChrisConf E 0 0 2) * (beta E 0)) + ((ChrisConf E 0
  1 2) * (beta E 1))) + ((ChrisConf E 0 2 2) * (beta E 2))) + (dbeta E 0 2))).

(* /repo/Src/Main/Modules/Physics/ADM/adm_AConfIJ_SCTT_MConfIJ0.c:133-140 *)
Definition _DB_UU_U2U1 (E : env) : R :=
  (((igConf E 0 2) * (((((ChrisConf E 1 0 0) * (beta E 0)) + ((ChrisConf E 1 0 1) * (beta E 1)))
  + ((ChrisConf E 1 0 2) * (beta E 2))) + (dbeta E 1 0))) + ((igConf E 1 2) * (((((ChrisConf E 1
  0 1) * (beta E 0)) + ((ChrisConf E 1 1 1) * (beta E 1))) + ((ChrisConf E 1 1 2) * (beta E 2)))
  + (dbeta E 1 1)))) + ((igConf E 2 2) * (((((ChrisConf E 1 0 2) * (beta E 0)) + ((ChrisConf E 1
  1 2) * (beta E 1))) + ((ChrisConf E 1 2 2) * (beta E 2))) + (dbeta E 1 2))).

(* /repo/Src/Main/Modules/Physics/ADM/adm_AConfIJ_SCTT_MConfIJ0.c:142-149 *)
Definition _DB_UU_U2U2 (E : env) : R :=
  (((igConf E 0 2) * (((((ChrisConf E 2 0 0) * (beta E 0)) + ((ChrisConf E 2 0 1) * (beta E 1)))
  + ((ChrisConf E 2 0 2) * (beta E 2))) + (dbeta E 2 0))) + ((igConf E 1 2) * (((((ChrisConf E 2
  0 1) * (beta E 0)) + ((ChrisConf E 2 1 1) * (beta E 1))) + ((ChrisConf E 2 1 2) * (beta E 2)))
  + (dbeta E 2 1)))) + ((igConf E 2 2) * (((((ChrisConf E 2 0 2) * (beta E 0)) + ((ChrisConf E 2
  1 2) * (beta E 1))) + ((ChrisConf E 2 2 2) * (beta E 2))) + (dbeta E 2 2))).

(* /repo/Src/Main/Modules/Physics/ADM/adm_AConfIJ_SCTT_MConfIJ0.c:151-161 *)
Definition _A_UUij_U2U2 (E : env) : R :=
  ((((((((((((- (2/3)) * (_DB_UU_U0U0 E)) * (gConf E 0 0)) * (igConf E 2 2)) - ((((2/3) *
  (_DB_UU_U0U1 E)) * (gConf E 0 1)) * (igConf E 2 2))) - ((((2/3) * (_DB_UU_U0U2 E)) * (gConf E 0
  2)) * (igConf E 2 2))) - ((((2/3) * (_DB_UU_U1U0 E)) * (gConf E 0 1)) * (igConf E 2 2))) -
  ((((2/3) * (_DB_UU_U1U1 E)) * (gConf E 1 1)) * (igConf E 2 2))) - ((((2/3) * (_DB_UU_U1U2 E)) *
  (gConf E 1 2)) * (igConf E 2 2))) - ((((2/3) * (_DB_UU_U2U0 E)) * (gConf E 0 2)) * (igConf E 2
  2))) - ((((2/3) * (_DB_UU_U2U1 E)) * (gConf E 1 2)) * (igConf E 2 2))) - ((((2/3) *
  (_DB_UU_U2U2 E)) * (gConf E 2 2)) * (igConf E 2 2))) + (2 * (_DB_UU_U2U2 E)).

(* /repo/Src/Main/Modules/Physics/ADM/adm_AConfIJ_SCTT_MConfIJ0.c:163-173 *)
Definition _A_UUij_U1U2 (E : env) : R :=
  (((((((((((((- (2/3)) * (_DB_UU_U0U0 E)) * (gConf E 0 0)) * (igConf E 1 2)) - ((((2/3) *
  (_DB_UU_U0U1 E)) * (gConf E 0 1)) * (igConf E 1 2))) - ((((2/3) * (_DB_UU_U0U2 E)) * (gConf E 0
  2)) * (igConf E 1 2))) - ((((2/3) * (_DB_UU_U1U0 E)) * (gConf E 0 1)) * (igConf E 1 2))) -
  ((((2/3) * (_DB_UU_U1U1 E)) * (gConf E 1 1)) * (igConf E 1 2))) - ((((2/3) * (_DB_UU_U1U2 E)) *
  (gConf E 1 2)) * (igConf E 1 2))) + (_DB_UU_U1U2 E)) - ((((2/3) * (_DB_UU_U2U0 E)) * (gConf E 0
  2)) * (igConf E 1 2))) - ((((2/3) * (_DB_UU_U2U1 E)) * (gConf E 1 2)) * (igConf E 1 2))) +
  (_DB_UU_U2U1 E)) - ((((2/3) * (_DB_UU_U2U2 E)) * (gConf E 2 2)) * (igConf E 1 2)).

(* /repo/Src/Main/Modules/Physics/ADM/adm_AConfIJ_SCTT_MConfIJ0.c:175-185 *)
Definition _A_UUij_U1U1 (E : env) : R :=
  ((((((((((((- (2/3)) * (_DB_UU_U0U0 E)) * (gConf E 0 0)) * (igConf E 1 1)) - ((((2/3) *
  (_DB_UU_U0U1 E)) * (gConf E 0 1)) * (igConf E 1 1))) - ((((2/3) * (_DB_UU_U0U2 E)) * (gConf E 0
  2)) * (igConf E 1 1))) - ((((2/3) * (_DB_UU_U1U0 E)) * (gConf E 0 1)) * (igConf E 1 1))) -
  ((((2/3) * (_DB_UU_U1U1 E)) * (gConf E 1 1)) * (igConf E 1 1))) + (2 * (_DB_UU_U1U1 E))) -
  ((((2/3) * (_DB_UU_U1U2 E)) * (gConf E 1 2)) * (igConf E 1 1))) - ((((2/3) * (_DB_UU_U2U0 E)) *
  (gConf E 0 2)) * (igConf E 1 1))) - ((((2/3) * (_DB_UU_U2U1 E)) * (gConf E 1 2)) * (igConf E 1
  1))) - ((((2/3) * (_DB_UU_U2U2 E)) * (gConf E 2 2)) * (igConf E 1 1)).

(* /repo/Src/Main/Modules/Physics/ADM/adm_AConfIJ_SCTT_MConfIJ0.c:187-197 *)
Definition _A_UUij_U0U2 (E : env) : R :=
  (((((((((((((- (2/3)) * (_DB_UU_U0U0 E)) * (gConf E 0 0)) * (igConf E 0 2)) - ((((2/3) *
  (_DB_UU_U0U1 E)) * (gConf E 0 1)) * (igConf E 0 2))) - ((((2/3) * (_DB_UU_U0U2 E)) * (gConf E 0
  2)) * (igConf E 0 2))) + (_DB_UU_U0U2 E)) - ((((2/3) * (_DB_UU_U1U0 E)) * (gConf E 0 1)) *
  (igConf E 0 2))) - ((((2/3) * (_DB_UU_U1U1 E)) * (gConf E 1 1)) * (igConf E 0 2))) - ((((2/3) *
  (_DB_UU_U1U2 E)) * (gConf E 1 2)) * (igConf E 0 2))) - ((((2/3) * (_DB_UU_U2U0 E)) * (gConf E 0
  2)) * (igConf E 0 2))) + (_DB_UU_U2U0 E)) - ((((2/3) * (_DB_UU_U2U1 E)) * (gConf E 1 2)) *
  (igConf E 0 2))) - ((((2/3) * (_DB_UU_U2U2 E)) * (gConf E 2 2)) * (igConf E 0 2)).

(* /repo/Src/Main/Modules/Physics/ADM/adm_AConfIJ_SCTT_MConfIJ0.c:199-209 *)
Definition _A_UUij_U0U1 (E : env) : R :=
  (((((((((((((- (2/3)) * (_DB_UU_U0U0 E)) * (gConf E 0 0)) * (igConf E 0 1)) - ((((2/3) *
  (_DB_UU_U0U1 E)) * (gConf E 0 1)) * (igConf E 0 1))) + (_DB_UU_U0U1 E)) - ((((2/3) *
  (_DB_UU_U0U2 E)) * (gConf E 0 2)) * (igConf E 0 1))) - ((((2/3) * (_DB_UU_U1U0 E)) * (gConf E 0
  1)) * (igConf E 0 1))) + (_DB_UU_U1U0 E)) - ((((2/3) * (_DB_UU_U1U1 E)) * (gConf E 1 1)) *
  (igConf E 0 1))) - ((((2/3) * (_DB_UU_U1U2 E)) * (gConf E 1 2)) * (igConf E 0 1))) - ((((2/3) *
  (_DB_UU_U2U0 E)) * (gConf E 0 2)) * (igConf E 0 1))) - ((((2/3) * (_DB_UU_U2U1 E)) * (gConf E 1
  2)) * (igConf E 0 1))) - ((((2/3) * (_DB_UU_U2U2 E)) * (gConf E 2 2)) * (igConf E 0 1)).

(* /repo/Src/Main/Modules/Physics/ADM/adm_AConfIJ_SCTT_MConfIJ0.c:211-221 *)
Definition _A_UUij_U0U0 (E : env) : R :=
  ((((((((((((- (2/3)) * (_DB_UU_U0U0 E)) * (gConf E 0 0)) * (igConf E 0 0)) + (2 * (_DB_UU_U0U0
  E))) - ((((2/3) * (_DB_UU_U0U1 E)) * (gConf E 0 1)) * (igConf E 0 0))) - ((((2/3) *
  (_DB_UU_U0U2 E)) * (gConf E 0 2)) * (igConf E 0 0))) - ((((2/3) * (_DB_UU_U1U0 E)) * (gConf E 0
  1)) * (igConf E 0 0))) - ((((2/3) * (_DB_UU_U1U1 E)) * (gConf E 1 1)) * (igConf E 0 0))) -
  ((((2/3) * (_DB_UU_U1U2 E)) * (gConf E 1 2)) * (igConf E 0 0))) - ((((2/3) * (_DB_UU_U2U0 E)) *
  (gConf E 0 2)) * (igConf E 0 0))) - ((((2/3) * (_DB_UU_U2U1 E)) * (gConf E 1 2)) * (igConf E 0
  0))) - ((((2/3) * (_DB_UU_U2U2 E)) * (gConf E 2 2)) * (igConf E 0 0)).

(* /repo/Src/Main/Modules/Physics/ADM/adm_AConfIJ_SCTT_MConfIJ0.c:223-248 *)
Definition _AijAij (E : env) : R :=
  ((((((((((((((((((((((((((((_A_UUij_U0U0 E) ^ 2) * ((gConf E 0 0) ^ 2)) + ((((4 * (_A_UUij_U0U0
  E)) * (_A_UUij_U0U1 E)) * (gConf E 0 0)) * (gConf E 0 1))) + ((((4 * (_A_UUij_U0U0 E)) *
  (_A_UUij_U0U2 E)) * (gConf E 0 0)) * (gConf E 0 2))) + (((2 * (_A_UUij_U0U0 E)) * (_A_UUij_U1U1
  E)) * ((gConf E 0 1) ^ 2))) + ((((4 * (_A_UUij_U0U0 E)) * (_A_UUij_U1U2 E)) * (gConf E 0 1)) *
  (gConf E 0 2))) + (((2 * (_A_UUij_U0U0 E)) * (_A_UUij_U2U2 E)) * ((gConf E 0 2) ^ 2))) + (((2 *
  ((_A_UUij_U0U1 E) ^ 2)) * (gConf E 0 0)) * (gConf E 1 1))) + ((2 * ((_A_UUij_U0U1 E) ^ 2)) *
  ((gConf E 0 1) ^ 2))) + ((((4 * (_A_UUij_U0U1 E)) * (_A_UUij_U0U2 E)) * (gConf E 0 0)) * (gConf
  E 1 2))) + ((((4 * (_A_UUij_U0U1 E)) * (_A_UUij_U0U2 E)) * (gConf E 0 1)) * (gConf E 0 2))) +
  ((((4 * (_A_UUij_U0U1 E)) * (_A_UUij_U1U1 E)) * (gConf E 0 1)) * (gConf E 1 1))) + ((((4 *
  (_A_UUij_U0U1 E)) * (_A_UUij_U1U2 E)) * (gConf E 0 1)) * (gConf E 1 2))) + ((((4 *
  (_A_UUij_U0U1 E)) * (_A_UUij_U1U2 E)) * (gConf E 0 2)) * (gConf E 1 1))) + ((((4 *
  (_A_UUij_U0U1 E)) * (_A_UUij_U2U2 E)) * (gConf E 0 2)) * (gConf E 1 2))) + (((2 *
  ((_A_UUij_U0U2 E) ^ 2)) * (gConf E 0 0)) * (gConf E 2 2))) + ((2 * ((_A_UUij_U0U2 E) ^ 2)) *
  ((gConf E 0 2) ^ 2))) + ((((4 * (_A_UUij_U0U2 E)) * (_A_UUij_U1U1 E)) * (gConf E 0 1)) * (gConf
  E 1 2))) + ((((4 * (_A_UUij_U0U2 E)) * (_A_UUij_U1U2 E)) * (gConf E 0 1)) * (gConf E 2 2))) +
  ((((4 * (_A_UUij_U0U2 E)) * (_A_UUij_U1U2 E)) * (gConf E 0 2)) * (gConf E 1 2))) + ((((4 *
  (_A_UUij_U0U2 E)) * (_A_UUij_U2U2 E)) * (gConf E 0 2)) * (gConf E 2 2))) + (((_A_UUij_U1U1 E) ^
  2) * ((gConf E 1 1) ^ 2))) + ((((4 * (_A_UUij_U1U1 E)) * (_A_UUij_U1U2 E)) * (gConf E 1 1)) *
  (gConf E 1 2))) + (((2 * (_A_UUij_U1U1 E)) * (_A_UUij_U2U2 E)) * ((gConf E 1 2) ^ 2))) + (((2 *
  ((_A_UUij_U1U2 E) ^ 2)) * (gConf E 1 1)) * (gConf E 2 2))) + ((2 * ((_A_UUij_U1U2 E) ^ 2)) *
  ((gConf E 1 2) ^ 2))) + ((((4 * (_A_UUij_U1U2 E)) * (_A_UUij_U2U2 E)) * (gConf E 1 2)) * (gConf
  E 2 2))) + (((_A_UUij_U2U2 E) ^ 2) * ((gConf E 2 2) ^ 2)).

(* /repo/Src/Main/Modules/Physics/ADM/adm_AConfIJ_SCTT_MConfIJ0.c:252 *)
Definition out_AConfIJ_U0U1 (E : env) : R :=
  _A_UUij_U0U1 E.

(* /repo/Src/Main/Modules/Physics/ADM/adm_AConfIJ_SCTT_MConfIJ0.c:253 *)
Definition out_AConfIJ_U0U0 (E : env) : R :=
  _A_UUij_U0U0 E.

(* /repo/Src/Main/Modules/Physics/ADM/adm_AConfIJ_SCTT_MConfIJ0.c:254 *)
Definition out_AConfIJ_U0U2 (E : env) : R :=
  _A_UUij_U0U2 E.

(* /repo/Src/Main/Modules/Physics/ADM/adm_AConfIJ_SCTT_MConfIJ0.c:255 *)
Definition out_AConfIJ_U2U2 (E : env) : R :=
  _A_UUij_U2U2 E.

(* /repo/Src/Main/Modules/Physics/ADM/adm_AConfIJ_SCTT_MConfIJ0.c:256 *)
Definition out_AConfIJ_U1U1 (E : env) : R :=
  _A_UUij_U1U1 E.

(* /repo/Src/Main/Modules/Physics/ADM/adm_AConfIJ_SCTT_MConfIJ0.c:257 *)
Definition out_AConfIJ_U1U2 (E : env) : R :=
  _A_UUij_U1U2 E.

(* /repo/Src/Main/Modules/Physics/ADM/adm_AConfIJ_SCTT_MConfIJ0.c:258 *)
Definition out_AConfIJ2 (E : env) : R :=
  _AijAij E.

(* /repo/Src/Main/Modules/Physics/ADM/adm_AConfIJ_SCTT_MConfIJ0.c:252-257: the arrays AConfIJ_.. after the loop body; the others keep their value *)
Definition store_AConfIJ (E : env) (old : nat -> nat -> R) : nat -> nat -> R :=
  fun i j => match i, j with
  | 0%nat, 1%nat => out_AConfIJ_U0U1 E
  | 0%nat, 0%nat => out_AConfIJ_U0U0 E
  | 0%nat, 2%nat => out_AConfIJ_U0U2 E
  | 2%nat, 2%nat => out_AConfIJ_U2U2 E
  | 1%nat, 1%nat => out_AConfIJ_U1U1 E
  | 1%nat, 2%nat => out_AConfIJ_U1U2 E
  | _, _ => old i j
  end.
