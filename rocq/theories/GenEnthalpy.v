(* Generated by tools/c2coq.py from /repo/Src/Main/Modules/Physics/StressEnergy_Tensor/Tij_NS_ifluid_xcts_gConf_enthalpy.c: do not edit.
   Pointwise: one node ijk of the loop over the nodes of a patch; doubles are reals. sqrt of a negative number is 0 here: FluidModel.v adds the isfinite test. *)
Require Import Reals.
Local Open Scope R_scope.

(* /repo/Src/Main/Modules/Physics/StressEnergy_Tensor/Tij_NS_ifluid_xcts_gConf_enthalpy.c:44-86: the values the loop body reads at its node: field B_U0D1 is B 0 1 *)
Record env : Type := mk {
  Euler_C : R;
  W : nat -> R;
  alphaPsi : R;
  beta : nat -> R;
  dphi : nat -> R;
  gConf : nat -> nat -> R;
  igConf : nat -> nat -> R;
  psi : R }.

(* /repo/Src/Main/Modules/Physics/StressEnergy_Tensor/Tij_NS_ifluid_xcts_gConf_enthalpy.c:44-45 *)
Definition alpha (E : env) : R :=
  (alphaPsi E) / (psi E).

(* /repo/Src/Main/Modules/Physics/StressEnergy_Tensor/Tij_NS_ifluid_xcts_gConf_enthalpy.c:47-48 *)
Definition psim4 (E : env) : R :=
  / ((psi E) ^ 4).

(* /repo/Src/Main/Modules/Physics/StressEnergy_Tensor/Tij_NS_ifluid_xcts_gConf_enthalpy.c:50-51 *)
Definition psi4 (E : env) : R :=
  (psi E) ^ 4.

(* /repo/Src/Main/Modules/Physics/StressEnergy_Tensor/Tij_NS_ifluid_xcts_gConf_enthalpy.c:53-62 *)
Definition P2 (E : env) : R :=
  (((((2 * (W E 0)) * (dphi E 0)) + ((2 * (W E 1)) * (dphi E 1))) + ((2 * (W E 2)) * (dphi E 2)))
  + ((psi4 E) * ((((((((W E 0) ^ 2) * (gConf E 0 0)) + (((2 * (W E 0)) * (W E 1)) * (gConf E 0
  1))) + (((2 * (W E 0)) * (W E 2)) * (gConf E 0 2))) + (((W E 1) ^ 2) * (gConf E 1 1))) + (((2 *
  (W E 1)) * (W E 2)) * (gConf E 1 2))) + (((W E 2) ^ 2) * (gConf E 2 2))))) + ((psim4 E) *
  ((((((((dphi E 0) ^ 2) * (igConf E 0 0)) + (((2 * (dphi E 0)) * (dphi E 1)) * (igConf E 0 1)))
  + (((2 * (dphi E 0)) * (dphi E 2)) * (igConf E 0 2))) + (((dphi E 1) ^ 2) * (igConf E 1 1))) +
  (((2 * (dphi E 1)) * (dphi E 2)) * (igConf E 1 2))) + (((dphi E 2) ^ 2) * (igConf E 2 2)))).

(* /repo/Src/Main/Modules/Physics/StressEnergy_Tensor/Tij_NS_ifluid_xcts_gConf_enthalpy.c:64-69 *)
Definition uW (E : env) : R :=
  ((((W E 0) * (dphi E 0)) + ((W E 1) * (dphi E 1))) + ((W E 2) * (dphi E 2))) + ((psi4 E) *
  ((((((((W E 0) ^ 2) * (gConf E 0 0)) + (((2 * (W E 0)) * (W E 1)) * (gConf E 0 1))) + (((2 * (W
  E 0)) * (W E 2)) * (gConf E 0 2))) + (((W E 1) ^ 2) * (gConf E 1 1))) + (((2 * (W E 1)) * (W E
  2)) * (gConf E 1 2))) + (((W E 2) ^ 2) * (gConf E 2 2)))).

(* /repo/Src/Main/Modules/Physics/StressEnergy_Tensor/Tij_NS_ifluid_xcts_gConf_enthalpy.c:71-73 *)
Definition Bdphi (E : env) : R :=
  (((beta E 0) * (dphi E 0)) + ((beta E 1) * (dphi E 1))) + ((beta E 2) * (dphi E 2)).

(* /repo/Src/Main/Modules/Physics/StressEnergy_Tensor/Tij_NS_ifluid_xcts_gConf_enthalpy.c:75-76 *)
Definition b (E : env) : R :=
  ((2 * ((alpha E) ^ 2)) * (uW E)) + (((Bdphi E) - (Euler_C E)) ^ 2).

(* /repo/Src/Main/Modules/Physics/StressEnergy_Tensor/Tij_NS_ifluid_xcts_gConf_enthalpy.c:78-80 *)
Definition L2 (E : env) : R :=
  ((1 / 2) * ((b E) + (sqrt ((((- 4) * ((alpha E) ^ 4)) * ((uW E) ^ 2)) + ((b E) ^ 2))))) /
  ((alpha E) ^ 2).

(* /repo/Src/Main/Modules/Physics/StressEnergy_Tensor/Tij_NS_ifluid_xcts_gConf_enthalpy.c:82-83 *)
Definition h2 (E : env) : R :=
  (L2 E) - (P2 E).

(* /repo/Src/Main/Modules/Physics/StressEnergy_Tensor/Tij_NS_ifluid_xcts_gConf_enthalpy.c:85-86 *)
Definition h (E : env) : R :=
  sqrt (h2 E).
