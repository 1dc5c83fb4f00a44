(* Generated by tools/c2coq.py from /repo/Src/Main/Modules/Physics/Observe/obs_spin_inegrands_AKV.c: do not edit.
   Pointwise: one node ijk of the loop over the nodes of a patch; doubles are reals. n: the stored normal of the item; xi: position relative to the centre. *)
Require Import Reals.
Local Open Scope R_scope.

(* /repo/Src/Main/Modules/Physics/Observe/obs_spin_inegrands_AKV.c:56-149: the values the loop body reads at its node: field B_U0D1 is B 0 1 *)
Record env : Type := mk {
  AConfIJ : nat -> nat -> R;
  AKV0 : nat -> R;
  AKV1 : nat -> R;
  AKV2 : nat -> R;
  gConf : nat -> nat -> R;
  n : nat -> R;
  psi : R }.

(* /repo/Src/Main/Modules/Physics/Observe/obs_spin_inegrands_AKV.c:56-57 *)
Definition psim2 (E : env) : R :=
  / ((psi E) ^ 2).

(* /repo/Src/Main/Modules/Physics/Observe/obs_spin_inegrands_AKV.c:59-83 *)
Definition Pn_D0 (E : env) : R :=
  (psim2 E) * ((((((((((((((((((((((((((AConfIJ E 0 0) * ((gConf E 0 0) ^ 2)) * (n E 0)) +
  ((((AConfIJ E 0 0) * (gConf E 0 0)) * (gConf E 0 1)) * (n E 1))) + ((((AConfIJ E 0 0) * (gConf
  E 0 0)) * (gConf E 0 2)) * (n E 2))) + ((((2 * (AConfIJ E 0 1)) * (gConf E 0 0)) * (gConf E 0
  1)) * (n E 0))) + ((((AConfIJ E 0 1) * (gConf E 0 0)) * (gConf E 1 1)) * (n E 1))) +
  ((((AConfIJ E 0 1) * (gConf E 0 0)) * (gConf E 1 2)) * (n E 2))) + (((AConfIJ E 0 1) * ((gConf
  E 0 1) ^ 2)) * (n E 1))) + ((((AConfIJ E 0 1) * (gConf E 0 1)) * (gConf E 0 2)) * (n E 2))) +
  ((((2 * (AConfIJ E 0 2)) * (gConf E 0 0)) * (gConf E 0 2)) * (n E 0))) + ((((AConfIJ E 0 2) *
  (gConf E 0 0)) * (gConf E 1 2)) * (n E 1))) + ((((AConfIJ E 0 2) * (gConf E 0 0)) * (gConf E 2
  2)) * (n E 2))) + ((((AConfIJ E 0 2) * (gConf E 0 1)) * (gConf E 0 2)) * (n E 1))) + (((AConfIJ
  E 0 2) * ((gConf E 0 2) ^ 2)) * (n E 2))) + (((AConfIJ E 1 1) * ((gConf E 0 1) ^ 2)) * (n E
  0))) + ((((AConfIJ E 1 1) * (gConf E 0 1)) * (gConf E 1 1)) * (n E 1))) + ((((AConfIJ E 1 1) *
  (gConf E 0 1)) * (gConf E 1 2)) * (n E 2))) + ((((2 * (AConfIJ E 1 2)) * (gConf E 0 1)) *
  (gConf E 0 2)) * (n E 0))) + ((((AConfIJ E 1 2) * (gConf E 0 1)) * (gConf E 1 2)) * (n E 1))) +
  ((((AConfIJ E 1 2) * (gConf E 0 1)) * (gConf E 2 2)) * (n E 2))) + ((((AConfIJ E 1 2) * (gConf
  E 0 2)) * (gConf E 1 1)) * (n E 1))) + ((((AConfIJ E 1 2) * (gConf E 0 2)) * (gConf E 1 2)) *
  (n E 2))) + (((AConfIJ E 2 2) * ((gConf E 0 2) ^ 2)) * (n E 0))) + ((((AConfIJ E 2 2) * (gConf
  E 0 2)) * (gConf E 1 2)) * (n E 1))) + ((((AConfIJ E 2 2) * (gConf E 0 2)) * (gConf E 2 2)) *
  (n E 2))).

(* /repo/Src/Main/Modules/Physics/Observe/obs_spin_inegrands_AKV.c:85-108 *)
Definition Pn_D1 (E : env) : R :=
  (psim2 E) * (((((((((((((((((((((((((((AConfIJ E 0 0) * (gConf E 0 0)) * (gConf E 0 1)) * (n E
  0)) + (((AConfIJ E 0 0) * ((gConf E 0 1) ^ 2)) * (n E 1))) + ((((AConfIJ E 0 0) * (gConf E 0
  1)) * (gConf E 0 2)) * (n E 2))) + ((((AConfIJ E 0 1) * (gConf E 0 0)) * (gConf E 1 1)) * (n E
  0))) + (((AConfIJ E 0 1) * ((gConf E 0 1) ^ 2)) * (n E 0))) + ((((2 * (AConfIJ E 0 1)) * (gConf
  E 0 1)) * (gConf E 1 1)) * (n E 1))) + ((((AConfIJ E 0 1) * (gConf E 0 1)) * (gConf E 1 2)) *
  (n E 2))) + ((((AConfIJ E 0 1) * (gConf E 0 2)) * (gConf E 1 1)) * (n E 2))) + ((((AConfIJ E 0
  2) * (gConf E 0 0)) * (gConf E 1 2)) * (n E 0))) + ((((AConfIJ E 0 2) * (gConf E 0 1)) * (gConf
  E 0 2)) * (n E 0))) + ((((2 * (AConfIJ E 0 2)) * (gConf E 0 1)) * (gConf E 1 2)) * (n E 1))) +
  ((((AConfIJ E 0 2) * (gConf E 0 1)) * (gConf E 2 2)) * (n E 2))) + ((((AConfIJ E 0 2) * (gConf
  E 0 2)) * (gConf E 1 2)) * (n E 2))) + ((((AConfIJ E 1 1) * (gConf E 0 1)) * (gConf E 1 1)) *
  (n E 0))) + (((AConfIJ E 1 1) * ((gConf E 1 1) ^ 2)) * (n E 1))) + ((((AConfIJ E 1 1) * (gConf
  E 1 1)) * (gConf E 1 2)) * (n E 2))) + ((((AConfIJ E 1 2) * (gConf E 0 1)) * (gConf E 1 2)) *
  (n E 0))) + ((((AConfIJ E 1 2) * (gConf E 0 2)) * (gConf E 1 1)) * (n E 0))) + ((((2 * (AConfIJ
  E 1 2)) * (gConf E 1 1)) * (gConf E 1 2)) * (n E 1))) + ((((AConfIJ E 1 2) * (gConf E 1 1)) *
  (gConf E 2 2)) * (n E 2))) + (((AConfIJ E 1 2) * ((gConf E 1 2) ^ 2)) * (n E 2))) + ((((AConfIJ
  E 2 2) * (gConf E 0 2)) * (gConf E 1 2)) * (n E 0))) + (((AConfIJ E 2 2) * ((gConf E 1 2) ^ 2))
  * (n E 1))) + ((((AConfIJ E 2 2) * (gConf E 1 2)) * (gConf E 2 2)) * (n E 2))).

(* /repo/Src/Main/Modules/Physics/Observe/obs_spin_inegrands_AKV.c:110-133 *)
Definition Pn_D2 (E : env) : R :=
  (psim2 E) * (((((((((((((((((((((((((((AConfIJ E 0 0) * (gConf E 0 0)) * (gConf E 0 2)) * (n E
  0)) + ((((AConfIJ E 0 0) * (gConf E 0 1)) * (gConf E 0 2)) * (n E 1))) + (((AConfIJ E 0 0) *
  ((gConf E 0 2) ^ 2)) * (n E 2))) + ((((AConfIJ E 0 1) * (gConf E 0 0)) * (gConf E 1 2)) * (n E
  0))) + ((((AConfIJ E 0 1) * (gConf E 0 1)) * (gConf E 0 2)) * (n E 0))) + ((((AConfIJ E 0 1) *
  (gConf E 0 1)) * (gConf E 1 2)) * (n E 1))) + ((((AConfIJ E 0 1) * (gConf E 0 2)) * (gConf E 1
  1)) * (n E 1))) + ((((2 * (AConfIJ E 0 1)) * (gConf E 0 2)) * (gConf E 1 2)) * (n E 2))) +
  ((((AConfIJ E 0 2) * (gConf E 0 0)) * (gConf E 2 2)) * (n E 0))) + ((((AConfIJ E 0 2) * (gConf
  E 0 1)) * (gConf E 2 2)) * (n E 1))) + (((AConfIJ E 0 2) * ((gConf E 0 2) ^ 2)) * (n E 0))) +
  ((((AConfIJ E 0 2) * (gConf E 0 2)) * (gConf E 1 2)) * (n E 1))) + ((((2 * (AConfIJ E 0 2)) *
  (gConf E 0 2)) * (gConf E 2 2)) * (n E 2))) + ((((AConfIJ E 1 1) * (gConf E 0 1)) * (gConf E 1
  2)) * (n E 0))) + ((((AConfIJ E 1 1) * (gConf E 1 1)) * (gConf E 1 2)) * (n E 1))) + (((AConfIJ
  E 1 1) * ((gConf E 1 2) ^ 2)) * (n E 2))) + ((((AConfIJ E 1 2) * (gConf E 0 1)) * (gConf E 2
  2)) * (n E 0))) + ((((AConfIJ E 1 2) * (gConf E 0 2)) * (gConf E 1 2)) * (n E 0))) +
  ((((AConfIJ E 1 2) * (gConf E 1 1)) * (gConf E 2 2)) * (n E 1))) + (((AConfIJ E 1 2) * ((gConf
  E 1 2) ^ 2)) * (n E 1))) + ((((2 * (AConfIJ E 1 2)) * (gConf E 1 2)) * (gConf E 2 2)) * (n E
  2))) + ((((AConfIJ E 2 2) * (gConf E 0 2)) * (gConf E 2 2)) * (n E 0))) + ((((AConfIJ E 2 2) *
  (gConf E 1 2)) * (gConf E 2 2)) * (n E 1))) + (((AConfIJ E 2 2) * ((gConf E 2 2) ^ 2)) * (n E
  2))).

(* /repo/Src/Main/Modules/Physics/Observe/obs_spin_inegrands_AKV.c:135-137 *)
Definition s0 (E : env) : R :=
  (((AKV0 E 0) * (Pn_D0 E)) + ((AKV0 E 1) * (Pn_D1 E))) + ((AKV0 E 2) * (Pn_D2 E)).

(* /repo/Src/Main/Modules/Physics/Observe/obs_spin_inegrands_AKV.c:139-141 *)
Definition s1 (E : env) : R :=
  (((AKV1 E 0) * (Pn_D0 E)) + ((AKV1 E 1) * (Pn_D1 E))) + ((AKV1 E 2) * (Pn_D2 E)).

(* /repo/Src/Main/Modules/Physics/Observe/obs_spin_inegrands_AKV.c:143-145 *)
Definition s2 (E : env) : R :=
  (((AKV2 E 0) * (Pn_D0 E)) + ((AKV2 E 1) * (Pn_D1 E))) + ((AKV2 E 2) * (Pn_D2 E)).

(* /repo/Src/Main/Modules/Physics/Observe/obs_spin_inegrands_AKV.c:147 *)
Definition out_SPIN_integrand_U0 (E : env) : R :=
  s0 E.

(* /repo/Src/Main/Modules/Physics/Observe/obs_spin_inegrands_AKV.c:148 *)
Definition out_SPIN_integrand_U1 (E : env) : R :=
  s1 E.

(* /repo/Src/Main/Modules/Physics/Observe/obs_spin_inegrands_AKV.c:149 *)
Definition out_SPIN_integrand_U2 (E : env) : R :=
  s2 E.

(* /repo/Src/Main/Modules/Physics/Observe/obs_spin_inegrands_AKV.c:147-149: the arrays SPIN_integrand_.. after the loop body; the others keep their value *)
Definition store_SPIN_integrand (E : env) (old : nat -> R) : nat -> R :=
  fun i => match i with
  | 0%nat => out_SPIN_integrand_U0 E
  | 1%nat => out_SPIN_integrand_U1 E
  | 2%nat => out_SPIN_integrand_U2 E
  | _ => old i
  end.
