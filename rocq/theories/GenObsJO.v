(* Generated by tools/c2coq.py from /repo/Src/Main/Modules/Physics/Observe/obs_ADM_J_Stokes_Ossokine.c: do not edit.
   Pointwise: one node ijk of the loop over the nodes of a patch; doubles are reals. n: the stored normal of the item; xi: position relative to the centre. *)
Require Import Reals.
Local Open Scope R_scope.

(* /repo/Src/Main/Modules/Physics/Observe/obs_ADM_J_Stokes_Ossokine.c:74-117: the values the loop body reads at its node: field B_U0D1 is B 0 1 *)
Record env : Type := mk {
  AConfIJ : nat -> nat -> R;
  gConf : nat -> nat -> R;
  n : nat -> R;
  psi : R;
  xi : nat -> R }.

(* /repo/Src/Main/Modules/Physics/Observe/obs_ADM_J_Stokes_Ossokine.c:74-75 *)
Definition psi4 (E : env) : R :=
  (psi E) ^ 4.

(* /repo/Src/Main/Modules/Physics/Observe/obs_ADM_J_Stokes_Ossokine.c:77-84 *)
Definition Pn_U2 (E : env) : R :=
  (psi4 E) * (((((((((((AConfIJ E 0 2) * (gConf E 0 0)) * (n E 0)) + (((AConfIJ E 0 2) * (gConf E
  0 1)) * (n E 1))) + (((AConfIJ E 0 2) * (gConf E 0 2)) * (n E 2))) + (((AConfIJ E 1 2) * (gConf
  E 0 1)) * (n E 0))) + (((AConfIJ E 1 2) * (gConf E 1 1)) * (n E 1))) + (((AConfIJ E 1 2) *
  (gConf E 1 2)) * (n E 2))) + (((AConfIJ E 2 2) * (gConf E 0 2)) * (n E 0))) + (((AConfIJ E 2 2)
  * (gConf E 1 2)) * (n E 1))) + (((AConfIJ E 2 2) * (gConf E 2 2)) * (n E 2))).

(* /repo/Src/Main/Modules/Physics/Observe/obs_ADM_J_Stokes_Ossokine.c:86-93 *)
Definition Pn_U1 (E : env) : R :=
  (psi4 E) * (((((((((((AConfIJ E 0 1) * (gConf E 0 0)) * (n E 0)) + (((AConfIJ E 0 1) * (gConf E
  0 1)) * (n E 1))) + (((AConfIJ E 0 1) * (gConf E 0 2)) * (n E 2))) + (((AConfIJ E 1 1) * (gConf
  E 0 1)) * (n E 0))) + (((AConfIJ E 1 1) * (gConf E 1 1)) * (n E 1))) + (((AConfIJ E 1 1) *
  (gConf E 1 2)) * (n E 2))) + (((AConfIJ E 1 2) * (gConf E 0 2)) * (n E 0))) + (((AConfIJ E 1 2)
  * (gConf E 1 2)) * (n E 1))) + (((AConfIJ E 1 2) * (gConf E 2 2)) * (n E 2))).

(* /repo/Src/Main/Modules/Physics/Observe/obs_ADM_J_Stokes_Ossokine.c:95-102 *)
Definition Pn_U0 (E : env) : R :=
  (psi4 E) * (((((((((((AConfIJ E 0 0) * (gConf E 0 0)) * (n E 0)) + (((AConfIJ E 0 0) * (gConf E
  0 1)) * (n E 1))) + (((AConfIJ E 0 0) * (gConf E 0 2)) * (n E 2))) + (((AConfIJ E 0 1) * (gConf
  E 0 1)) * (n E 0))) + (((AConfIJ E 0 1) * (gConf E 1 1)) * (n E 1))) + (((AConfIJ E 0 1) *
  (gConf E 1 2)) * (n E 2))) + (((AConfIJ E 0 2) * (gConf E 0 2)) * (n E 0))) + (((AConfIJ E 0 2)
  * (gConf E 1 2)) * (n E 1))) + (((AConfIJ E 0 2) * (gConf E 2 2)) * (n E 2))).

(* /repo/Src/Main/Modules/Physics/Observe/obs_ADM_J_Stokes_Ossokine.c:104-105 *)
Definition xiP_U2 (E : env) : R :=
  ((- (Pn_U0 E)) * (xi E 1)) + ((Pn_U1 E) * (xi E 0)).

(* /repo/Src/Main/Modules/Physics/Observe/obs_ADM_J_Stokes_Ossokine.c:107-108 *)
Definition xiP_U1 (E : env) : R :=
  ((Pn_U0 E) * (xi E 2)) - ((Pn_U2 E) * (xi E 0)).

(* /repo/Src/Main/Modules/Physics/Observe/obs_ADM_J_Stokes_Ossokine.c:110-111 *)
Definition xiP_U0 (E : env) : R :=
  ((- (Pn_U1 E)) * (xi E 2)) + ((Pn_U2 E) * (xi E 1)).

(* /repo/Src/Main/Modules/Physics/Observe/obs_ADM_J_Stokes_Ossokine.c:115 *)
Definition out_obs__Jn_U2 (E : env) : R :=
  xiP_U2 E.

(* /repo/Src/Main/Modules/Physics/Observe/obs_ADM_J_Stokes_Ossokine.c:116 *)
Definition out_obs__Jn_U0 (E : env) : R :=
  xiP_U0 E.

(* /repo/Src/Main/Modules/Physics/Observe/obs_ADM_J_Stokes_Ossokine.c:117 *)
Definition out_obs__Jn_U1 (E : env) : R :=
  xiP_U1 E.

(* /repo/Src/Main/Modules/Physics/Observe/obs_ADM_J_Stokes_Ossokine.c:115-117: the arrays obs__Jn_.. after the loop body; the others keep their value *)
Definition store_obs__Jn (E : env) (old : nat -> R) : nat -> R :=
  fun i => match i with
  | 2%nat => out_obs__Jn_U2 E
  | 0%nat => out_obs__Jn_U0 E
  | 1%nat => out_obs__Jn_U1 E
  | _ => old i
  end.
