(* Generated by tools/c2coq.py from /repo/Src/Main/Modules/Physics/Star/star_NS_Euler_eq_const_current.c: do not edit.
   At the node the function picks. *)
Require Import Reals.
Local Open Scope R_scope.

(* /repo/Src/Main/Modules/Physics/Star/star_NS_Euler_eq_const_current.c:51-65: the values the loop body reads at its node: field B_U0D1 is B 0 1 *)
Record env : Type := mk {
  W : nat -> R;
  beta : nat -> R;
  dphi : nat -> R;
  enthalpy : R;
  igConf : nat -> nat -> R;
  psi : R;
  u0 : R }.

(* /repo/Src/Main/Modules/Physics/Star/star_NS_Euler_eq_const_current.c:51-52 *)
Definition psim4 (E : env) : R :=
  / ((psi E) ^ 4).

(* /repo/Src/Main/Modules/Physics/Star/star_NS_Euler_eq_const_current.c:54-60 *)
Definition dphiP (E : env) : R :=
  ((((W E 0) * (dphi E 0)) + ((W E 1) * (dphi E 1))) + ((W E 2) * (dphi E 2))) + ((psim4 E) *
  ((((((((dphi E 0) ^ 2) * (igConf E 0 0)) + (((2 * (dphi E 0)) * (dphi E 1)) * (igConf E 0 1)))
  + (((2 * (dphi E 0)) * (dphi E 2)) * (igConf E 0 2))) + (((dphi E 1) ^ 2) * (igConf E 1 1))) +
  (((2 * (dphi E 1)) * (dphi E 2)) * (igConf E 1 2))) + (((dphi E 2) ^ 2) * (igConf E 2 2)))).

(* /repo/Src/Main/Modules/Physics/Star/star_NS_Euler_eq_const_current.c:62-65 *)
Definition Euler_C (E : env) : R :=
  (((- (dphiP E)) - ((enthalpy E) ^ 2)) + (((enthalpy E) * (u0 E)) * ((((beta E 0) * (dphi E 0))
  + ((beta E 1) * (dphi E 1))) + ((beta E 2) * (dphi E 2))))) / ((enthalpy E) * (u0 E)).
