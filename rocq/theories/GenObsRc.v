(* Generated by tools/c2coq.py from /repo/Src/Main/Modules/Physics/Observe/obs_Rcenter_NS.c: do not edit.
   Pointwise: one node ijk of the loop over the nodes of a patch; doubles are reals. x, y, z: Cartesian coordinates of the node. *)
Require Import Reals.
Local Open Scope R_scope.

(* /repo/Src/Main/Modules/Physics/Observe/obs_Rcenter_NS.c:88-117: the values the loop body reads at its node: field B_U0D1 is B 0 1 *)
Record env : Type := mk {
  ChrisConf : nat -> nat -> nat -> R;
  ddpsi : nat -> nat -> R;
  dpsi : nat -> R;
  igConf : nat -> nat -> R;
  x : R;
  x_CM : R;
  y : R;
  y_CM : R;
  z : R;
  z_CM : R }.

(* /repo/Src/Main/Modules/Physics/Observe/obs_Rcenter_NS.c:88-110 *)
Definition D2psi (E : env) : R :=
  (((((((((((((((((((((((((- (ChrisConf E 0 0 0)) * (dpsi E 0)) * (igConf E 0 0)) - (((2 *
  (ChrisConf E 0 0 1)) * (dpsi E 0)) * (igConf E 0 1))) - (((2 * (ChrisConf E 0 0 2)) * (dpsi E
  0)) * (igConf E 0 2))) - (((ChrisConf E 0 1 1) * (dpsi E 0)) * (igConf E 1 1))) - (((2 *
  (ChrisConf E 0 1 2)) * (dpsi E 0)) * (igConf E 1 2))) - (((ChrisConf E 0 2 2) * (dpsi E 0)) *
  (igConf E 2 2))) - (((ChrisConf E 1 0 0) * (dpsi E 1)) * (igConf E 0 0))) - (((2 * (ChrisConf E
  1 0 1)) * (dpsi E 1)) * (igConf E 0 1))) - (((2 * (ChrisConf E 1 0 2)) * (dpsi E 1)) * (igConf
  E 0 2))) - (((ChrisConf E 1 1 1) * (dpsi E 1)) * (igConf E 1 1))) - (((2 * (ChrisConf E 1 1 2))
  * (dpsi E 1)) * (igConf E 1 2))) - (((ChrisConf E 1 2 2) * (dpsi E 1)) * (igConf E 2 2))) -
  (((ChrisConf E 2 0 0) * (dpsi E 2)) * (igConf E 0 0))) - (((2 * (ChrisConf E 2 0 1)) * (dpsi E
  2)) * (igConf E 0 1))) - (((2 * (ChrisConf E 2 0 2)) * (dpsi E 2)) * (igConf E 0 2))) -
  (((ChrisConf E 2 1 1) * (dpsi E 2)) * (igConf E 1 1))) - (((2 * (ChrisConf E 2 1 2)) * (dpsi E
  2)) * (igConf E 1 2))) - (((ChrisConf E 2 2 2) * (dpsi E 2)) * (igConf E 2 2))) + ((ddpsi E 0
  0) * (igConf E 0 0))) + ((2 * (ddpsi E 0 1)) * (igConf E 0 1))) + ((2 * (ddpsi E 0 2)) *
  (igConf E 0 2))) + ((ddpsi E 1 1) * (igConf E 1 1))) + ((2 * (ddpsi E 1 2)) * (igConf E 1 2)))
  + ((ddpsi E 2 2) * (igConf E 2 2)).

(* /repo/Src/Main/Modules/Physics/Observe/obs_Rcenter_NS.c:115 *)
Definition out_Rc_integrandx (E : env) : R :=
  (D2psi E) * ((x E) - (x_CM E)).

(* /repo/Src/Main/Modules/Physics/Observe/obs_Rcenter_NS.c:116 *)
Definition out_Rc_integrandy (E : env) : R :=
  (D2psi E) * ((y E) - (y_CM E)).

(* /repo/Src/Main/Modules/Physics/Observe/obs_Rcenter_NS.c:117 *)
Definition out_Rc_integrandz (E : env) : R :=
  (D2psi E) * ((z E) - (z_CM E)).
