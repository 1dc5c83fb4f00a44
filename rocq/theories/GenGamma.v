(* Generated by tools/c2coq.py from /repo/Src/Main/Modules/Physics/Star/star_NS_ifluid_gConf_dLnGamma.c: do not edit.
   Pointwise: one node ijk of the loop over the nodes of a patch; doubles are reals. *)
Require Import Reals.
Local Open Scope R_scope.

(* /repo/Src/Main/Modules/Physics/Star/star_NS_ifluid_gConf_dLnGamma.c:43-75: the values the loop body reads at its node: field B_U0D1 is B 0 1 *)
Record env : Type := mk {
  W : nat -> R;
  alphaPsi : R;
  beta : nat -> R;
  dphi : nat -> R;
  enthalpy : R;
  gConf : nat -> nat -> R;
  psi : R;
  u0 : R }.

(* /repo/Src/Main/Modules/Physics/Star/star_NS_ifluid_gConf_dLnGamma.c:43-44 *)
Definition alpha (E : env) : R :=
  (alphaPsi E) / (psi E).

(* /repo/Src/Main/Modules/Physics/Star/star_NS_ifluid_gConf_dLnGamma.c:46-47 *)
Definition alpha2 (E : env) : R :=
  (alpha E) ^ 2.

(* /repo/Src/Main/Modules/Physics/Star/star_NS_ifluid_gConf_dLnGamma.c:49-50 *)
Definition psi4 (E : env) : R :=
  (psi E) ^ 4.

(* /repo/Src/Main/Modules/Physics/Star/star_NS_ifluid_gConf_dLnGamma.c:52-53 *)
Definition t_U0 (E : env) : R :=
  ((W E 0) / ((enthalpy E) * (u0 E))) + (beta E 0).

(* /repo/Src/Main/Modules/Physics/Star/star_NS_ifluid_gConf_dLnGamma.c:55-56 *)
Definition t_U1 (E : env) : R :=
  ((W E 1) / ((enthalpy E) * (u0 E))) + (beta E 1).

(* /repo/Src/Main/Modules/Physics/Star/star_NS_ifluid_gConf_dLnGamma.c:58-59 *)
Definition t_U2 (E : env) : R :=
  ((W E 2) / ((enthalpy E) * (u0 E))) + (beta E 2).

(* /repo/Src/Main/Modules/Physics/Star/star_NS_ifluid_gConf_dLnGamma.c:61-64 *)
Definition t2 (E : env) : R :=
  (psi4 E) * (((((((gConf E 0 0) * ((t_U0 E) ^ 2)) + (((2 * (gConf E 0 1)) * (t_U0 E)) * (t_U1
  E))) + (((2 * (gConf E 0 2)) * (t_U0 E)) * (t_U2 E))) + ((gConf E 1 1) * ((t_U1 E) ^ 2))) +
  (((2 * (gConf E 1 2)) * (t_U1 E)) * (t_U2 E))) + ((gConf E 2 2) * ((t_U2 E) ^ 2))).

(* /repo/Src/Main/Modules/Physics/Star/star_NS_ifluid_gConf_dLnGamma.c:66-72 *)
Definition v (E : env) : R :=
  (((((dphi E 0) * (t_U0 E)) + ((dphi E 1) * (t_U1 E))) + ((dphi E 2) * (t_U2 E))) / (((alpha2 E)
  * (enthalpy E)) * (u0 E))) + (((psi4 E) * ((((((((W E 0) ^ 2) * (gConf E 0 0)) + (((2 * (W E
  0)) * (W E 1)) * (gConf E 0 1))) + (((2 * (W E 0)) * (W E 2)) * (gConf E 0 2))) + (((W E 1) ^
  2) * (gConf E 1 1))) + (((2 * (W E 1)) * (W E 2)) * (gConf E 1 2))) + (((W E 2) ^ 2) * (gConf E
  2 2)))) / ((((alpha E) ^ 2) * ((enthalpy E) ^ 2)) * ((u0 E) ^ 2))).

(* /repo/Src/Main/Modules/Physics/Star/star_NS_ifluid_gConf_dLnGamma.c:74-75 *)
Definition G (E : env) : R :=
  (((- (alpha E)) * (u0 E)) * (Rpower (((alpha2 E) - (t2 E)) / (alpha2 E)) (- (1/2)))) * ((v E) -
  1).
