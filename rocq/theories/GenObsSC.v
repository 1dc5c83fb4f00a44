(* Generated by tools/c2coq.py from /repo/Src/Main/Modules/Physics/Observe/obs_spin_inegrands_Campanelli.c: do not edit.
   Pointwise: one node ijk of the loop over the nodes of a patch; doubles are reals. n: the stored normal of the item; xi: position relative to the centre. *)
Require Import Reals.
Local Open Scope R_scope.

(* /repo/Src/Main/Modules/Physics/Observe/obs_spin_inegrands_Campanelli.c:64-156: the values the loop body reads at its node: field B_U0D1 is B 0 1 *)
Record env : Type := mk {
  AConfIJ : nat -> nat -> R;
  gConf : nat -> nat -> R;
  n : nat -> R;
  psi : R;
  xi : nat -> R }.

(* /repo/Src/Main/Modules/Physics/Observe/obs_spin_inegrands_Campanelli.c:64-65 *)
Definition psim2 (E : env) : R :=
  / ((psi E) ^ 2).

(* /repo/Src/Main/Modules/Physics/Observe/obs_spin_inegrands_Campanelli.c:67-90 *)
Definition Pn_U2 (E : env) : R :=
  (psim2 E) * (((((((((((((((((((((((((((AConfIJ E 0 0) * (gConf E 0 0)) * (gConf E 0 2)) * (n E
  0)) + ((((AConfIJ E 0 0) * (gConf E 0 1)) * (gConf E 0 2)) * (n E 1))) + (((AConfIJ E 0 0) *
  ((gConf E 0 2) ^ 2)) * (n E 2))) + ((((AConfIJ E 0 1) * (gConf E 0 0)) * (gConf E 1 2)) * (n E
  0))) + ((((AConfIJ E 0 1) * (gConf E 0 1)) * (gConf E 0 2)) * (n E 0))) + ((((AConfIJ E 0 1) *
  (gConf E 0 1)) * (gConf E 1 2)) * (n E 1))) + ((((AConfIJ E 0 1) * (gConf E 0 2)) * (gConf E 1
  1)) * (n E 1))) + ((((2 * (AConfIJ E 0 1)) * (gConf E 0 2)) * (gConf E 1 2)) * (n E 2))) +
  ((((AConfIJ E 0 2) * (gConf E 0 0)) * (gConf E 2 2)) * (n E 0))) + ((((AConfIJ E 0 2) * (gConf
  E 0 1)) * (gConf E 2 2)) * (n E 1))) + (((AConfIJ E 0 2) * ((gConf E 0 2) ^ 2)) * (n E 0))) +
  ((((AConfIJ E 0 2) * (gConf E 0 2)) * (gConf E 1 2)) * (n E 1))) + ((((2 * (AConfIJ E 0 2)) *
  (gConf E 0 2)) * (gConf E 2 2)) * (n E 2))) + ((((AConfIJ E 1 1) * (gConf E 0 1)) * (gConf E 1
  2)) * (n E 0))) + ((((AConfIJ E 1 1) * (gConf E 1 1)) * (gConf E 1 2)) * (n E 1))) + (((AConfIJ
  E 1 1) * ((gConf E 1 2) ^ 2)) * (n E 2))) + ((((AConfIJ E 1 2) * (gConf E 0 1)) * (gConf E 2
  2)) * (n E 0))) + ((((AConfIJ E 1 2) * (gConf E 0 2)) * (gConf E 1 2)) * (n E 0))) +
  ((((AConfIJ E 1 2) * (gConf E 1 1)) * (gConf E 2 2)) * (n E 1))) + (((AConfIJ E 1 2) * ((gConf
  E 1 2) ^ 2)) * (n E 1))) + ((((2 * (AConfIJ E 1 2)) * (gConf E 1 2)) * (gConf E 2 2)) * (n E
  2))) + ((((AConfIJ E 2 2) * (gConf E 0 2)) * (gConf E 2 2)) * (n E 0))) + ((((AConfIJ E 2 2) *
  (gConf E 1 2)) * (gConf E 2 2)) * (n E 1))) + (((AConfIJ E 2 2) * ((gConf E 2 2) ^ 2)) * (n E
  2))).

(* /repo/Src/Main/Modules/Physics/Observe/obs_spin_inegrands_Campanelli.c:92-115 *)
Definition Pn_U1 (E : env) : R :=
  (psim2 E) * (((((((((((((((((((((((((((AConfIJ E 0 0) * (gConf E 0 0)) * (gConf E 0 1)) * (n E
  0)) + (((AConfIJ E 0 0) * ((gConf E 0 1) ^ 2)) * (n E 1))) + ((((AConfIJ E 0 0) * (gConf E 0
  1)) * (gConf E 0 2)) * (n E 2))) + ((((AConfIJ E 0 1) * (gConf E 0 0)) * (gConf E 1 1)) * (n E
  0))) + (((AConfIJ E 0 1) * ((gConf E 0 1) ^ 2)) * (n E 0))) + ((((2 * (AConfIJ E 0 1)) * (gConf
  E 0 1)) * (gConf E 1 1)) * (n E 1))) + ((((AConfIJ E 0 1) * (gConf E 0 1)) * (gConf E 1 2)) *
  (n E 2))) + ((((AConfIJ E 0 1) * (gConf E 0 2)) * (gConf E 1 1)) * (n E 2))) + ((((AConfIJ E 0
  2) * (gConf E 0 0)) * (gConf E 1 2)) * (n E 0))) + ((((AConfIJ E 0 2) * (gConf E 0 1)) * (gConf
  E 0 2)) * (n E 0))) + ((((2 * (AConfIJ E 0 2)) * (gConf E 0 1)) * (gConf E 1 2)) * (n E 1))) +
  ((((AConfIJ E 0 2) * (gConf E 0 1)) * (gConf E 2 2)) * (n E 2))) + ((((AConfIJ E 0 2) * (gConf
  E 0 2)) * (gConf E 1 2)) * (n E 2))) + ((((AConfIJ E 1 1) * (gConf E 0 1)) * (gConf E 1 1)) *
  (n E 0))) + (((AConfIJ E 1 1) * ((gConf E 1 1) ^ 2)) * (n E 1))) + ((((AConfIJ E 1 1) * (gConf
  E 1 1)) * (gConf E 1 2)) * (n E 2))) + ((((AConfIJ E 1 2) * (gConf E 0 1)) * (gConf E 1 2)) *
  (n E 0))) + ((((AConfIJ E 1 2) * (gConf E 0 2)) * (gConf E 1 1)) * (n E 0))) + ((((2 * (AConfIJ
  E 1 2)) * (gConf E 1 1)) * (gConf E 1 2)) * (n E 1))) + ((((AConfIJ E 1 2) * (gConf E 1 1)) *
  (gConf E 2 2)) * (n E 2))) + (((AConfIJ E 1 2) * ((gConf E 1 2) ^ 2)) * (n E 2))) + ((((AConfIJ
  E 2 2) * (gConf E 0 2)) * (gConf E 1 2)) * (n E 0))) + (((AConfIJ E 2 2) * ((gConf E 1 2) ^ 2))
  * (n E 1))) + ((((AConfIJ E 2 2) * (gConf E 1 2)) * (gConf E 2 2)) * (n E 2))).

(* /repo/Src/Main/Modules/Physics/Observe/obs_spin_inegrands_Campanelli.c:117-141 *)
Definition Pn_U0 (E : env) : R :=
  (psim2 E) * ((((((((((((((((((((((((((AConfIJ E 0 0) * ((gConf E 0 0) ^ 2)) * (n E 0)) +
  ((((AConfIJ E 0 0) * (gConf E 0 0)) * (gConf E 0 1)) * (n E 1))) + ((((AConfIJ E 0 0) * (gConf
  E 0 0)) * (gConf E 0 2)) * (n E 2))) + ((((2 * (AConfIJ E 0 1)) * (gConf E 0 0)) * (gConf E 0
  1)) * (n E 0))) + ((((AConfIJ E 0 1) * (gConf E 0 0)) * (gConf E 1 1)) * (n E 1))) +
  ((((AConfIJ E 0 1) * (gConf E 0 0)) * (gConf E 1 2)) * (n E 2))) + (((AConfIJ E 0 1) * ((gConf
  E 0 1) ^ 2)) * (n E 1))) + ((((AConfIJ E 0 1) * (gConf E 0 1)) * (gConf E 0 2)) * (n E 2))) +
  ((((2 * (AConfIJ E 0 2)) * (gConf E 0 0)) * (gConf E 0 2)) * (n E 0))) + ((((AConfIJ E 0 2) *
  (gConf E 0 0)) * (gConf E 1 2)) * (n E 1))) + ((((AConfIJ E 0 2) * (gConf E 0 0)) * (gConf E 2
  2)) * (n E 2))) + ((((AConfIJ E 0 2) * (gConf E 0 1)) * (gConf E 0 2)) * (n E 1))) + (((AConfIJ
  E 0 2) * ((gConf E 0 2) ^ 2)) * (n E 2))) + (((AConfIJ E 1 1) * ((gConf E 0 1) ^ 2)) * (n E
  0))) + ((((AConfIJ E 1 1) * (gConf E 0 1)) * (gConf E 1 1)) * (n E 1))) + ((((AConfIJ E 1 1) *
  (gConf E 0 1)) * (gConf E 1 2)) * (n E 2))) + ((((2 * (AConfIJ E 1 2)) * (gConf E 0 1)) *
  (gConf E 0 2)) * (n E 0))) + ((((AConfIJ E 1 2) * (gConf E 0 1)) * (gConf E 1 2)) * (n E 1))) +
  ((((AConfIJ E 1 2) * (gConf E 0 1)) * (gConf E 2 2)) * (n E 2))) + ((((AConfIJ E 1 2) * (gConf
  E 0 2)) * (gConf E 1 1)) * (n E 1))) + ((((AConfIJ E 1 2) * (gConf E 0 2)) * (gConf E 1 2)) *
  (n E 2))) + (((AConfIJ E 2 2) * ((gConf E 0 2) ^ 2)) * (n E 0))) + ((((AConfIJ E 2 2) * (gConf
  E 0 2)) * (gConf E 1 2)) * (n E 1))) + ((((AConfIJ E 2 2) * (gConf E 0 2)) * (gConf E 2 2)) *
  (n E 2))).

(* /repo/Src/Main/Modules/Physics/Observe/obs_spin_inegrands_Campanelli.c:143-144 *)
Definition xiP_U2 (E : env) : R :=
  ((- (Pn_U0 E)) * (xi E 1)) + ((Pn_U1 E) * (xi E 0)).

(* /repo/Src/Main/Modules/Physics/Observe/obs_spin_inegrands_Campanelli.c:146-147 *)
Definition xiP_U1 (E : env) : R :=
  ((Pn_U0 E) * (xi E 2)) - ((Pn_U2 E) * (xi E 0)).

(* /repo/Src/Main/Modules/Physics/Observe/obs_spin_inegrands_Campanelli.c:149-150 *)
Definition xiP_U0 (E : env) : R :=
  ((- (Pn_U1 E)) * (xi E 2)) + ((Pn_U2 E) * (xi E 1)).

(* /repo/Src/Main/Modules/Physics/Observe/obs_spin_inegrands_Campanelli.c:154 *)
Definition out_SPIN_integrand_U0 (E : env) : R :=
  xiP_U0 E.

(* /repo/Src/Main/Modules/Physics/Observe/obs_spin_inegrands_Campanelli.c:155 *)
Definition out_SPIN_integrand_U1 (E : env) : R :=
  xiP_U1 E.

(* /repo/Src/Main/Modules/Physics/Observe/obs_spin_inegrands_Campanelli.c:156 *)
Definition out_SPIN_integrand_U2 (E : env) : R :=
  xiP_U2 E.

(* /repo/Src/Main/Modules/Physics/Observe/obs_spin_inegrands_Campanelli.c:154-156: the arrays SPIN_integrand_.. after the loop body; the others keep their value *)
Definition store_SPIN_integrand (E : env) (old : nat -> R) : nat -> R :=
  fun i => match i with
  | 0%nat => out_SPIN_integrand_U0 E
  | 1%nat => out_SPIN_integrand_U1 E
  | 2%nat => out_SPIN_integrand_U2 E
  | _ => old i
  end.
