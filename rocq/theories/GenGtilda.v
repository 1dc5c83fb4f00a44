(* Generated by tools/c2coq.py from /repo/Src/Main/Modules/Physics/Star/star_NS_ifluid_gConf_force_bal.c: do not edit.
   Pointwise: one node ijk of the loop over the nodes of a patch; doubles are reals. x0, y0: Cartesian coordinates of the node. *)
Require Import Reals.
Local Open Scope R_scope.

(* /repo/Src/Main/Modules/Physics/Star/star_NS_ifluid_gConf_force_bal.c:76-112: the values the loop body reads at its node: field B_U0D1 is B 0 1 *)
Record env : Type := mk {
  B0 : nat -> R;
  D : R;
  Omega : R;
  Vr : R;
  W : nat -> R;
  alphaPsi : R;
  enthalpy : R;
  gConf : nat -> nat -> R;
  psi : R;
  u0 : R;
  x0 : R;
  x_CM : R;
  y0 : R;
  y_CM : R }.

(* /repo/Src/Main/Modules/Physics/Star/star_NS_ifluid_gConf_force_bal.c:76 *)
Definition B1_U0 (E : env) : R :=
  ((Omega E) * ((- (y0 E)) + (y_CM E))) + (((Vr E) * ((x0 E) - (x_CM E))) / (D E)).

(* /repo/Src/Main/Modules/Physics/Star/star_NS_ifluid_gConf_force_bal.c:77 *)
Definition B1_U1 (E : env) : R :=
  ((Omega E) * ((x0 E) - (x_CM E))) + (((Vr E) * ((y0 E) - (y_CM E))) / (D E)).

(* /repo/Src/Main/Modules/Physics/Star/star_NS_ifluid_gConf_force_bal.c:78 *)
Definition B1_U2 (E : env) : R :=
  0.

(* /repo/Src/Main/Modules/Physics/Star/star_NS_ifluid_gConf_force_bal.c:79-80 *)
Definition beta_U1 (E : env) : R :=
  (B0 E 1) + (B1_U1 E).

(* /repo/Src/Main/Modules/Physics/Star/star_NS_ifluid_gConf_force_bal.c:82-83 *)
Definition beta_U0 (E : env) : R :=
  (B0 E 0) + (B1_U0 E).

(* /repo/Src/Main/Modules/Physics/Star/star_NS_ifluid_gConf_force_bal.c:85-86 *)
Definition beta_U2 (E : env) : R :=
  (B0 E 2) + (B1_U2 E).

(* /repo/Src/Main/Modules/Physics/Star/star_NS_ifluid_gConf_force_bal.c:88-89 *)
Definition alpha (E : env) : R :=
  (alphaPsi E) / (psi E).

(* /repo/Src/Main/Modules/Physics/Star/star_NS_ifluid_gConf_force_bal.c:91-92 *)
Definition alpha2 (E : env) : R :=
  (alpha E) ^ 2.

(* /repo/Src/Main/Modules/Physics/Star/star_NS_ifluid_gConf_force_bal.c:94-95 *)
Definition psi4 (E : env) : R :=
  (psi E) ^ 4.

(* /repo/Src/Main/Modules/Physics/Star/star_NS_ifluid_gConf_force_bal.c:97-98 *)
Definition t_U0 (E : env) : R :=
  ((W E 0) / ((enthalpy E) * (u0 E))) + (beta_U0 E).

(* /repo/Src/Main/Modules/Physics/Star/star_NS_ifluid_gConf_force_bal.c:100-101 *)
Definition t_U1 (E : env) : R :=
  ((W E 1) / ((enthalpy E) * (u0 E))) + (beta_U1 E).

(* /repo/Src/Main/Modules/Physics/Star/star_NS_ifluid_gConf_force_bal.c:103-104 *)
Definition t_U2 (E : env) : R :=
  ((W E 2) / ((enthalpy E) * (u0 E))) + (beta_U2 E).

(* /repo/Src/Main/Modules/Physics/Star/star_NS_ifluid_gConf_force_bal.c:106-109 *)
Definition t2 (E : env) : R :=
  (psi4 E) * (((((((gConf E 0 0) * ((t_U0 E) ^ 2)) + (((2 * (gConf E 0 1)) * (t_U0 E)) * (t_U1
  E))) + (((2 * (gConf E 0 2)) * (t_U0 E)) * (t_U2 E))) + ((gConf E 1 1) * ((t_U1 E) ^ 2))) +
  (((2 * (gConf E 1 2)) * (t_U1 E)) * (t_U2 E))) + ((gConf E 2 2) * ((t_U2 E) ^ 2))).

(* /repo/Src/Main/Modules/Physics/Star/star_NS_ifluid_gConf_force_bal.c:111-112 *)
Definition Gtilda (E : env) : R :=
  (alpha2 E) - (t2 E).
