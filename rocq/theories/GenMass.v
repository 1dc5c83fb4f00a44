(* Generated by tools/c2coq.py from /repo/Src/Main/Modules/Physics/Star/star_NS_baryonic_gConf_mass.c: do not edit.
   Pointwise: one node ijk of the loop over the nodes of a patch; doubles are reals. sqrt of a negative number is 0 here: FluidModel.v adds the isfinite test. *)
Require Import Reals.
Local Open Scope R_scope.

(* /repo/Src/Main/Modules/Physics/Star/star_NS_baryonic_gConf_mass.c:49-97: the values the loop body reads at its node: field B_U0D1 is B 0 1 *)
Record env : Type := mk {
  Euler_C : R;
  W : nat -> R;
  alphaPsi : R;
  beta : nat -> R;
  dphi : nat -> R;
  gConf : nat -> nat -> R;
  igConf : nat -> nat -> R;
  psi : R }.

(* /repo/Src/Main/Modules/Physics/Star/star_NS_baryonic_gConf_mass.c:49-50 *)
Definition alpha (E : env) : R :=
  (alphaPsi E) / (psi E).

(* /repo/Src/Main/Modules/Physics/Star/star_NS_baryonic_gConf_mass.c:52-53 *)
Definition psim4 (E : env) : R :=
  / ((psi E) ^ 4).

(* /repo/Src/Main/Modules/Physics/Star/star_NS_baryonic_gConf_mass.c:55-56 *)
Definition psi4 (E : env) : R :=
  (psi E) ^ 4.

(* /repo/Src/Main/Modules/Physics/Star/star_NS_baryonic_gConf_mass.c:58-59 *)
Definition psi6 (E : env) : R :=
  (psi E) ^ 6.

(* /repo/Src/Main/Modules/Physics/Star/star_NS_baryonic_gConf_mass.c:61-70 *)
Definition P2 (E : env) : R :=
  (((((2 * (W E 0)) * (dphi E 0)) + ((2 * (W E 1)) * (dphi E 1))) + ((2 * (W E 2)) * (dphi E 2)))
  + ((psi4 E) * ((((((((W E 0) ^ 2) * (gConf E 0 0)) + (((2 * (W E 0)) * (W E 1)) * (gConf E 0
  1))) + (((2 * (W E 0)) * (W E 2)) * (gConf E 0 2))) + (((W E 1) ^ 2) * (gConf E 1 1))) + (((2 *
  (W E 1)) * (W E 2)) * (gConf E 1 2))) + (((W E 2) ^ 2) * (gConf E 2 2))))) + ((psim4 E) *
  ((((((((dphi E 0) ^ 2) * (igConf E 0 0)) + (((2 * (dphi E 0)) * (dphi E 1)) * (igConf E 0 1)))
  + (((2 * (dphi E 0)) * (dphi E 2)) * (igConf E 0 2))) + (((dphi E 1) ^ 2) * (igConf E 1 1))) +
  (((2 * (dphi E 1)) * (dphi E 2)) * (igConf E 1 2))) + (((dphi E 2) ^ 2) * (igConf E 2 2)))).

(* /repo/Src/Main/Modules/Physics/Star/star_NS_baryonic_gConf_mass.c:72-77 *)
Definition uW (E : env) : R :=
  ((((W E 0) * (dphi E 0)) + ((W E 1) * (dphi E 1))) + ((W E 2) * (dphi E 2))) + ((psi4 E) *
  ((((((((W E 0) ^ 2) * (gConf E 0 0)) + (((2 * (W E 0)) * (W E 1)) * (gConf E 0 1))) + (((2 * (W
  E 0)) * (W E 2)) * (gConf E 0 2))) + (((W E 1) ^ 2) * (gConf E 1 1))) + (((2 * (W E 1)) * (W E
  2)) * (gConf E 1 2))) + (((W E 2) ^ 2) * (gConf E 2 2)))).

(* /repo/Src/Main/Modules/Physics/Star/star_NS_baryonic_gConf_mass.c:79-81 *)
Definition Bdphi (E : env) : R :=
  (((beta E 0) * (dphi E 0)) + ((beta E 1) * (dphi E 1))) + ((beta E 2) * (dphi E 2)).

(* /repo/Src/Main/Modules/Physics/Star/star_NS_baryonic_gConf_mass.c:83-84 *)
Definition b (E : env) : R :=
  ((2 * ((alpha E) ^ 2)) * (uW E)) + (((Bdphi E) - (Euler_C E)) ^ 2).

(* /repo/Src/Main/Modules/Physics/Star/star_NS_baryonic_gConf_mass.c:86-88 *)
Definition L2 (E : env) : R :=
  ((1 / 2) * ((b E) + (sqrt ((((- 4) * ((alpha E) ^ 4)) * ((uW E) ^ 2)) + ((b E) ^ 2))))) /
  ((alpha E) ^ 2).

(* /repo/Src/Main/Modules/Physics/Star/star_NS_baryonic_gConf_mass.c:90-91 *)
Definition h2 (E : env) : R :=
  (L2 E) - (P2 E).

(* /repo/Src/Main/Modules/Physics/Star/star_NS_baryonic_gConf_mass.c:93-94 *)
Definition h (E : env) : R :=
  sqrt (h2 E).

(* /repo/Src/Main/Modules/Physics/Star/star_NS_baryonic_gConf_mass.c:96-97 *)
Definition u0 (E : env) : R :=
  (sqrt (L2 E)) / ((alpha E) * (h E)).
