(* Generated by tools/c2coq.py from /repo/Src/Main/Modules/Physics/Observe/obs_ADM_P_Stokes_Ossokine.c: do not edit.
   Pointwise: one node ijk of the loop over the nodes of a patch; doubles are reals. n: the stored normal of the item; xi: position relative to the centre. v_: the loop of the volume items; att: 0 beyond the cut-off radius, else 1. *)
Require Import Reals.
Local Open Scope R_scope.

(* /repo/Src/Main/Modules/Physics/Observe/obs_ADM_P_Stokes_Ossokine.c:88-282: the values the loop body reads at its node: field B_U0D1 is B 0 1 *)
Record env : Type := mk {
  AConfIJ : nat -> nat -> R;
  ChrisConf : nat -> nat -> nat -> R;
  att : R;
  dpsi : nat -> R;
  gConf : nat -> nat -> R;
  igConf : nat -> nat -> R;
  n : nat -> R;
  psi : R;
  trK : R }.

(* /repo/Src/Main/Modules/Physics/Observe/obs_ADM_P_Stokes_Ossokine.c:88-89 *)
Definition psi4 (E : env) : R :=
  (psi E) ^ 4.

(* /repo/Src/Main/Modules/Physics/Observe/obs_ADM_P_Stokes_Ossokine.c:91-92 *)
Definition psi6 (E : env) : R :=
  (psi E) ^ 6.

(* /repo/Src/Main/Modules/Physics/Observe/obs_ADM_P_Stokes_Ossokine.c:94-96 *)
Definition P_U0U1 (E : env) : R :=
  (AConfIJ E 0 1) - ((((2/3) * (igConf E 0 1)) * (psi6 E)) * (trK E)).

(* /repo/Src/Main/Modules/Physics/Observe/obs_ADM_P_Stokes_Ossokine.c:98-100 *)
Definition P_U0U0 (E : env) : R :=
  (AConfIJ E 0 0) - ((((2/3) * (igConf E 0 0)) * (psi6 E)) * (trK E)).

(* /repo/Src/Main/Modules/Physics/Observe/obs_ADM_P_Stokes_Ossokine.c:102-104 *)
Definition P_U0U2 (E : env) : R :=
  (AConfIJ E 0 2) - ((((2/3) * (igConf E 0 2)) * (psi6 E)) * (trK E)).

(* /repo/Src/Main/Modules/Physics/Observe/obs_ADM_P_Stokes_Ossokine.c:106-108 *)
Definition P_U2U2 (E : env) : R :=
  (AConfIJ E 2 2) - ((((2/3) * (igConf E 2 2)) * (psi6 E)) * (trK E)).

(* /repo/Src/Main/Modules/Physics/Observe/obs_ADM_P_Stokes_Ossokine.c:110-112 *)
Definition P_U1U1 (E : env) : R :=
  (AConfIJ E 1 1) - ((((2/3) * (igConf E 1 1)) * (psi6 E)) * (trK E)).

(* /repo/Src/Main/Modules/Physics/Observe/obs_ADM_P_Stokes_Ossokine.c:114-116 *)
Definition P_U1U2 (E : env) : R :=
  (AConfIJ E 1 2) - ((((2/3) * (igConf E 1 2)) * (psi6 E)) * (trK E)).

(* /repo/Src/Main/Modules/Physics/Observe/obs_ADM_P_Stokes_Ossokine.c:118-123 *)
Definition Pn_U2 (E : env) : R :=
  (psi4 E) * (((((((((((P_U0U2 E) * (gConf E 0 0)) * (n E 0)) + (((P_U0U2 E) * (gConf E 0 1)) *
  (n E 1))) + (((P_U0U2 E) * (gConf E 0 2)) * (n E 2))) + (((P_U1U2 E) * (gConf E 0 1)) * (n E
  0))) + (((P_U1U2 E) * (gConf E 1 1)) * (n E 1))) + (((P_U1U2 E) * (gConf E 1 2)) * (n E 2))) +
  (((P_U2U2 E) * (gConf E 0 2)) * (n E 0))) + (((P_U2U2 E) * (gConf E 1 2)) * (n E 1))) +
  (((P_U2U2 E) * (gConf E 2 2)) * (n E 2))).

(* /repo/Src/Main/Modules/Physics/Observe/obs_ADM_P_Stokes_Ossokine.c:125-130 *)
Definition Pn_U1 (E : env) : R :=
  (psi4 E) * (((((((((((P_U0U1 E) * (gConf E 0 0)) * (n E 0)) + (((P_U0U1 E) * (gConf E 0 1)) *
  (n E 1))) + (((P_U0U1 E) * (gConf E 0 2)) * (n E 2))) + (((P_U1U1 E) * (gConf E 0 1)) * (n E
  0))) + (((P_U1U1 E) * (gConf E 1 1)) * (n E 1))) + (((P_U1U1 E) * (gConf E 1 2)) * (n E 2))) +
  (((P_U1U2 E) * (gConf E 0 2)) * (n E 0))) + (((P_U1U2 E) * (gConf E 1 2)) * (n E 1))) +
  (((P_U1U2 E) * (gConf E 2 2)) * (n E 2))).

(* /repo/Src/Main/Modules/Physics/Observe/obs_ADM_P_Stokes_Ossokine.c:132-137 *)
Definition Pn_U0 (E : env) : R :=
  (psi4 E) * (((((((((((P_U0U0 E) * (gConf E 0 0)) * (n E 0)) + (((P_U0U0 E) * (gConf E 0 1)) *
  (n E 1))) + (((P_U0U0 E) * (gConf E 0 2)) * (n E 2))) + (((P_U0U1 E) * (gConf E 0 1)) * (n E
  0))) + (((P_U0U1 E) * (gConf E 1 1)) * (n E 1))) + (((P_U0U1 E) * (gConf E 1 2)) * (n E 2))) +
  (((P_U0U2 E) * (gConf E 0 2)) * (n E 0))) + (((P_U0U2 E) * (gConf E 1 2)) * (n E 1))) +
  (((P_U0U2 E) * (gConf E 2 2)) * (n E 2))).

(* /repo/Src/Main/Modules/Physics/Observe/obs_ADM_P_Stokes_Ossokine.c:141 *)
Definition out_obs__P_U1 (E : env) : R :=
  Pn_U1 E.

(* /repo/Src/Main/Modules/Physics/Observe/obs_ADM_P_Stokes_Ossokine.c:142 *)
Definition out_obs__P_U0 (E : env) : R :=
  Pn_U0 E.

(* /repo/Src/Main/Modules/Physics/Observe/obs_ADM_P_Stokes_Ossokine.c:143 *)
Definition out_obs__P_U2 (E : env) : R :=
  Pn_U2 E.

(* /repo/Src/Main/Modules/Physics/Observe/obs_ADM_P_Stokes_Ossokine.c:155-156 *)
Definition v_psi6_ (E : env) : R :=
  (psi E) ^ 6.

(* /repo/Src/Main/Modules/Physics/Observe/obs_ADM_P_Stokes_Ossokine.c:158-160 *)
Definition v_P__U1U1 (E : env) : R :=
  (AConfIJ E 1 1) - ((((2/3) * (igConf E 1 1)) * (v_psi6_ E)) * (trK E)).

(* /repo/Src/Main/Modules/Physics/Observe/obs_ADM_P_Stokes_Ossokine.c:162-164 *)
Definition v_P__U1U2 (E : env) : R :=
  (AConfIJ E 1 2) - ((((2/3) * (igConf E 1 2)) * (v_psi6_ E)) * (trK E)).

(* /repo/Src/Main/Modules/Physics/Observe/obs_ADM_P_Stokes_Ossokine.c:166-168 *)
Definition v_P__U0U1 (E : env) : R :=
  (AConfIJ E 0 1) - ((((2/3) * (igConf E 0 1)) * (v_psi6_ E)) * (trK E)).

(* /repo/Src/Main/Modules/Physics/Observe/obs_ADM_P_Stokes_Ossokine.c:170-172 *)
Definition v_P__U0U0 (E : env) : R :=
  (AConfIJ E 0 0) - ((((2/3) * (igConf E 0 0)) * (v_psi6_ E)) * (trK E)).

(* /repo/Src/Main/Modules/Physics/Observe/obs_ADM_P_Stokes_Ossokine.c:174-176 *)
Definition v_P__U0U2 (E : env) : R :=
  (AConfIJ E 0 2) - ((((2/3) * (igConf E 0 2)) * (v_psi6_ E)) * (trK E)).

(* /repo/Src/Main/Modules/Physics/Observe/obs_ADM_P_Stokes_Ossokine.c:178-180 *)
Definition v_P__U2U2 (E : env) : R :=
  (AConfIJ E 2 2) - ((((2/3) * (igConf E 2 2)) * (v_psi6_ E)) * (trK E)).

(* /repo/Src/Main/Modules/Physics/Observe/obs_ADM_P_Stokes_Ossokine.c:182-189 *)
Definition v_G1_U1 (E : env) : R :=
  ((((((((((((ChrisConf E 0 0 0) * (v_P__U0U1 E)) + ((ChrisConf E 0 0 1) * (v_P__U1U1 E))) +
  ((ChrisConf E 0 0 2) * (v_P__U1U2 E))) + ((ChrisConf E 1 0 0) * (v_P__U0U0 E))) + ((3 *
  (ChrisConf E 1 0 1)) * (v_P__U0U1 E))) + ((2 * (ChrisConf E 1 0 2)) * (v_P__U0U2 E))) + ((2 *
  (ChrisConf E 1 1 1)) * (v_P__U1U1 E))) + ((3 * (ChrisConf E 1 1 2)) * (v_P__U1U2 E))) +
  ((ChrisConf E 1 2 2) * (v_P__U2U2 E))) + ((ChrisConf E 2 0 2) * (v_P__U0U1 E))) + ((ChrisConf E
  2 1 2) * (v_P__U1U1 E))) + ((ChrisConf E 2 2 2) * (v_P__U1U2 E)).

(* /repo/Src/Main/Modules/Physics/Observe/obs_ADM_P_Stokes_Ossokine.c:191-198 *)
Definition v_G1_U0 (E : env) : R :=
  ((((((((((((2 * (ChrisConf E 0 0 0)) * (v_P__U0U0 E)) + ((3 * (ChrisConf E 0 0 1)) * (v_P__U0U1
  E))) + ((3 * (ChrisConf E 0 0 2)) * (v_P__U0U2 E))) + ((ChrisConf E 0 1 1) * (v_P__U1U1 E))) +
  ((2 * (ChrisConf E 0 1 2)) * (v_P__U1U2 E))) + ((ChrisConf E 0 2 2) * (v_P__U2U2 E))) +
  ((ChrisConf E 1 0 1) * (v_P__U0U0 E))) + ((ChrisConf E 1 1 1) * (v_P__U0U1 E))) + ((ChrisConf E
  1 1 2) * (v_P__U0U2 E))) + ((ChrisConf E 2 0 2) * (v_P__U0U0 E))) + ((ChrisConf E 2 1 2) *
  (v_P__U0U1 E))) + ((ChrisConf E 2 2 2) * (v_P__U0U2 E)).

(* /repo/Src/Main/Modules/Physics/Observe/obs_ADM_P_Stokes_Ossokine.c:200-207 *)
Definition v_G1_U2 (E : env) : R :=
  ((((((((((((ChrisConf E 0 0 0) * (v_P__U0U2 E)) + ((ChrisConf E 0 0 1) * (v_P__U1U2 E))) +
  ((ChrisConf E 0 0 2) * (v_P__U2U2 E))) + ((ChrisConf E 1 0 1) * (v_P__U0U2 E))) + ((ChrisConf E
  1 1 1) * (v_P__U1U2 E))) + ((ChrisConf E 1 1 2) * (v_P__U2U2 E))) + ((ChrisConf E 2 0 0) *
  (v_P__U0U0 E))) + ((2 * (ChrisConf E 2 0 1)) * (v_P__U0U1 E))) + ((3 * (ChrisConf E 2 0 2)) *
  (v_P__U0U2 E))) + ((ChrisConf E 2 1 1) * (v_P__U1U1 E))) + ((3 * (ChrisConf E 2 1 2)) *
  (v_P__U1U2 E))) + ((2 * (ChrisConf E 2 2 2)) * (v_P__U2U2 E)).

(* /repo/Src/Main/Modules/Physics/Observe/obs_ADM_P_Stokes_Ossokine.c:209-227 *)
Definition v_G2_U0 (E : env) : R :=
  (- (((((((((((((((((((((2 * (v_P__U0U0 E)) * (dpsi E 0)) * (gConf E 0 0)) * (igConf E 0 0)) +
  ((((2 * (v_P__U0U0 E)) * (dpsi E 1)) * (gConf E 0 0)) * (igConf E 0 1))) + ((((2 * (v_P__U0U0
  E)) * (dpsi E 2)) * (gConf E 0 0)) * (igConf E 0 2))) + ((((4 * (v_P__U0U1 E)) * (dpsi E 0)) *
  (gConf E 0 1)) * (igConf E 0 0))) + ((((4 * (v_P__U0U1 E)) * (dpsi E 1)) * (gConf E 0 1)) *
  (igConf E 0 1))) + ((((4 * (v_P__U0U1 E)) * (dpsi E 2)) * (gConf E 0 1)) * (igConf E 0 2))) +
  ((((4 * (v_P__U0U2 E)) * (dpsi E 0)) * (gConf E 0 2)) * (igConf E 0 0))) + ((((4 * (v_P__U0U2
  E)) * (dpsi E 1)) * (gConf E 0 2)) * (igConf E 0 1))) + ((((4 * (v_P__U0U2 E)) * (dpsi E 2)) *
  (gConf E 0 2)) * (igConf E 0 2))) + ((((2 * (v_P__U1U1 E)) * (dpsi E 0)) * (gConf E 1 1)) *
  (igConf E 0 0))) + ((((2 * (v_P__U1U1 E)) * (dpsi E 1)) * (gConf E 1 1)) * (igConf E 0 1))) +
  ((((2 * (v_P__U1U1 E)) * (dpsi E 2)) * (gConf E 1 1)) * (igConf E 0 2))) + ((((4 * (v_P__U1U2
  E)) * (dpsi E 0)) * (gConf E 1 2)) * (igConf E 0 0))) + ((((4 * (v_P__U1U2 E)) * (dpsi E 1)) *
  (gConf E 1 2)) * (igConf E 0 1))) + ((((4 * (v_P__U1U2 E)) * (dpsi E 2)) * (gConf E 1 2)) *
  (igConf E 0 2))) + ((((2 * (v_P__U2U2 E)) * (dpsi E 0)) * (gConf E 2 2)) * (igConf E 0 0))) +
  ((((2 * (v_P__U2U2 E)) * (dpsi E 1)) * (gConf E 2 2)) * (igConf E 0 1))) + ((((2 * (v_P__U2U2
  E)) * (dpsi E 2)) * (gConf E 2 2)) * (igConf E 0 2)))) / (psi E).

(* /repo/Src/Main/Modules/Physics/Observe/obs_ADM_P_Stokes_Ossokine.c:229-247 *)
Definition v_G2_U1 (E : env) : R :=
  (- (((((((((((((((((((((2 * (v_P__U0U0 E)) * (dpsi E 0)) * (gConf E 0 0)) * (igConf E 0 1)) +
  ((((2 * (v_P__U0U0 E)) * (dpsi E 1)) * (gConf E 0 0)) * (igConf E 1 1))) + ((((2 * (v_P__U0U0
  E)) * (dpsi E 2)) * (gConf E 0 0)) * (igConf E 1 2))) + ((((4 * (v_P__U0U1 E)) * (dpsi E 0)) *
  (gConf E 0 1)) * (igConf E 0 1))) + ((((4 * (v_P__U0U1 E)) * (dpsi E 1)) * (gConf E 0 1)) *
  (igConf E 1 1))) + ((((4 * (v_P__U0U1 E)) * (dpsi E 2)) * (gConf E 0 1)) * (igConf E 1 2))) +
  ((((4 * (v_P__U0U2 E)) * (dpsi E 0)) * (gConf E 0 2)) * (igConf E 0 1))) + ((((4 * (v_P__U0U2
  E)) * (dpsi E 1)) * (gConf E 0 2)) * (igConf E 1 1))) + ((((4 * (v_P__U0U2 E)) * (dpsi E 2)) *
  (gConf E 0 2)) * (igConf E 1 2))) + ((((2 * (v_P__U1U1 E)) * (dpsi E 0)) * (gConf E 1 1)) *
  (igConf E 0 1))) + ((((2 * (v_P__U1U1 E)) * (dpsi E 1)) * (gConf E 1 1)) * (igConf E 1 1))) +
  ((((2 * (v_P__U1U1 E)) * (dpsi E 2)) * (gConf E 1 1)) * (igConf E 1 2))) + ((((4 * (v_P__U1U2
  E)) * (dpsi E 0)) * (gConf E 1 2)) * (igConf E 0 1))) + ((((4 * (v_P__U1U2 E)) * (dpsi E 1)) *
  (gConf E 1 2)) * (igConf E 1 1))) + ((((4 * (v_P__U1U2 E)) * (dpsi E 2)) * (gConf E 1 2)) *
  (igConf E 1 2))) + ((((2 * (v_P__U2U2 E)) * (dpsi E 0)) * (gConf E 2 2)) * (igConf E 0 1))) +
  ((((2 * (v_P__U2U2 E)) * (dpsi E 1)) * (gConf E 2 2)) * (igConf E 1 1))) + ((((2 * (v_P__U2U2
  E)) * (dpsi E 2)) * (gConf E 2 2)) * (igConf E 1 2)))) / (psi E).

(* /repo/Src/Main/Modules/Physics/Observe/obs_ADM_P_Stokes_Ossokine.c:249-267 *)
Definition v_G2_U2 (E : env) : R :=
  (- (((((((((((((((((((((2 * (v_P__U0U0 E)) * (dpsi E 0)) * (gConf E 0 0)) * (igConf E 0 2)) +
  ((((2 * (v_P__U0U0 E)) * (dpsi E 1)) * (gConf E 0 0)) * (igConf E 1 2))) + ((((2 * (v_P__U0U0
  E)) * (dpsi E 2)) * (gConf E 0 0)) * (igConf E 2 2))) + ((((4 * (v_P__U0U1 E)) * (dpsi E 0)) *
  (gConf E 0 1)) * (igConf E 0 2))) + ((((4 * (v_P__U0U1 E)) * (dpsi E 1)) * (gConf E 0 1)) *
  (igConf E 1 2))) + ((((4 * (v_P__U0U1 E)) * (dpsi E 2)) * (gConf E 0 1)) * (igConf E 2 2))) +
  ((((4 * (v_P__U0U2 E)) * (dpsi E 0)) * (gConf E 0 2)) * (igConf E 0 2))) + ((((4 * (v_P__U0U2
  E)) * (dpsi E 1)) * (gConf E 0 2)) * (igConf E 1 2))) + ((((4 * (v_P__U0U2 E)) * (dpsi E 2)) *
  (gConf E 0 2)) * (igConf E 2 2))) + ((((2 * (v_P__U1U1 E)) * (dpsi E 0)) * (gConf E 1 1)) *
  (igConf E 0 2))) + ((((2 * (v_P__U1U1 E)) * (dpsi E 1)) * (gConf E 1 1)) * (igConf E 1 2))) +
  ((((2 * (v_P__U1U1 E)) * (dpsi E 2)) * (gConf E 1 1)) * (igConf E 2 2))) + ((((4 * (v_P__U1U2
  E)) * (dpsi E 0)) * (gConf E 1 2)) * (igConf E 0 2))) + ((((4 * (v_P__U1U2 E)) * (dpsi E 1)) *
  (gConf E 1 2)) * (igConf E 1 2))) + ((((4 * (v_P__U1U2 E)) * (dpsi E 2)) * (gConf E 1 2)) *
  (igConf E 2 2))) + ((((2 * (v_P__U2U2 E)) * (dpsi E 0)) * (gConf E 2 2)) * (igConf E 0 2))) +
  ((((2 * (v_P__U2U2 E)) * (dpsi E 1)) * (gConf E 2 2)) * (igConf E 1 2))) + ((((2 * (v_P__U2U2
  E)) * (dpsi E 2)) * (gConf E 2 2)) * (igConf E 2 2)))) / (psi E).

(* /repo/Src/Main/Modules/Physics/Observe/obs_ADM_P_Stokes_Ossokine.c:269-270 *)
Definition v_G_U1 (E : env) : R :=
  (att E) * ((v_G1_U1 E) + (v_G2_U1 E)).

(* /repo/Src/Main/Modules/Physics/Observe/obs_ADM_P_Stokes_Ossokine.c:272-273 *)
Definition v_G_U0 (E : env) : R :=
  (att E) * ((v_G1_U0 E) + (v_G2_U0 E)).

(* /repo/Src/Main/Modules/Physics/Observe/obs_ADM_P_Stokes_Ossokine.c:275-276 *)
Definition v_G_U2 (E : env) : R :=
  (att E) * ((v_G1_U2 E) + (v_G2_U2 E)).

(* /repo/Src/Main/Modules/Physics/Observe/obs_ADM_P_Stokes_Ossokine.c:280 *)
Definition v_out_obs__G_U0 (E : env) : R :=
  v_G_U0 E.

(* /repo/Src/Main/Modules/Physics/Observe/obs_ADM_P_Stokes_Ossokine.c:281 *)
Definition v_out_obs__G_U1 (E : env) : R :=
  v_G_U1 E.

(* /repo/Src/Main/Modules/Physics/Observe/obs_ADM_P_Stokes_Ossokine.c:282 *)
Definition v_out_obs__G_U2 (E : env) : R :=
  v_G_U2 E.

(* /repo/Src/Main/Modules/Physics/Observe/obs_ADM_P_Stokes_Ossokine.c:280-282: the arrays obs__G_.. after the loop body; the others keep their value *)
Definition store_obs__G (E : env) (old : nat -> R) : nat -> R :=
  fun i => match i with
  | 0%nat => v_out_obs__G_U0 E
  | 1%nat => v_out_obs__G_U1 E
  | 2%nat => v_out_obs__G_U2 E
  | _ => old i
  end.

(* /repo/Src/Main/Modules/Physics/Observe/obs_ADM_P_Stokes_Ossokine.c:141-143: the arrays obs__P_.. after the loop body; the others keep their value *)
Definition store_obs__P (E : env) (old : nat -> R) : nat -> R :=
  fun i => match i with
  | 1%nat => out_obs__P_U1 E
  | 0%nat => out_obs__P_U0 E
  | 2%nat => out_obs__P_U2 E
  | _ => old i
  end.
