(* Generated by tools/c2coq.py from /repo/Src/Main/Modules/Physics/ADM/adm_ham_mom_from_identities.c: do not edit.
   Pointwise: one node ijk of the loop over the nodes of a patch; doubles are reals. *)
Require Import Reals.
Local Open Scope R_scope.

(* /repo/Src/Main/Modules/Physics/ADM/adm_ham_mom_from_identities.c:130-431: the values the loop body reads at its node: field B_U0D1 is B 0 1 *)
Record env : Type := mk {
  AConfIJ : nat -> nat -> R;
  ChrisConf : nat -> nat -> nat -> R;
  EConf : R;
  JConf : nat -> R;
  dAConfIJ : nat -> nat -> nat -> R;
  ddpsi : nat -> nat -> R;
  digConf : nat -> nat -> nat -> R;
  dpsi : nat -> R;
  dtrK : nat -> R;
  gConf : nat -> nat -> R;
  igConf : nat -> nat -> R;
  psi : R;
  trK : R;
  trRicciConf : R }.

(* /repo/Src/Main/Modules/Physics/ADM/adm_ham_mom_from_identities.c:130-131 *)
Definition psim4 (E : env) : R :=
  / ((psi E) ^ 4).

(* /repo/Src/Main/Modules/Physics/ADM/adm_ham_mom_from_identities.c:133-134 *)
Definition psim6 (E : env) : R :=
  / ((psi E) ^ 6).

(* /repo/Src/Main/Modules/Physics/ADM/adm_ham_mom_from_identities.c:136-137 *)
Definition J_U2 (E : env) : R :=
  (JConf E 2) * (psim6 E).

(* /repo/Src/Main/Modules/Physics/ADM/adm_ham_mom_from_identities.c:139-140 *)
Definition J_U0 (E : env) : R :=
  (JConf E 0) * (psim6 E).

(* /repo/Src/Main/Modules/Physics/ADM/adm_ham_mom_from_identities.c:142-143 *)
Definition J_U1 (E : env) : R :=
  (JConf E 1) * (psim6 E).

(* /repo/Src/Main/Modules/Physics/ADM/adm_ham_mom_from_identities.c:145-146 *)
Definition E_ (E : env) : R :=
  (EConf E) * (psim6 E).

(* /repo/Src/Main/Modules/Physics/ADM/adm_ham_mom_from_identities.c:148-149 *)
Definition dLnpsi_D0 (E : env) : R :=
  (dpsi E 0) / (psi E).

(* /repo/Src/Main/Modules/Physics/ADM/adm_ham_mom_from_identities.c:151-152 *)
Definition dLnpsi_D1 (E : env) : R :=
  (dpsi E 1) / (psi E).

(* /repo/Src/Main/Modules/Physics/ADM/adm_ham_mom_from_identities.c:154-155 *)
Definition dLnpsi_D2 (E : env) : R :=
  (dpsi E 2) / (psi E).

(* /repo/Src/Main/Modules/Physics/ADM/adm_ham_mom_from_identities.c:157-179 *)
Definition DDpsi (E : env) : R :=
  (((((((((((((((((((((((((- (ChrisConf E 0 0 0)) * (dpsi E 0)) * (igConf E 0 0)) - (((2 *
  (ChrisConf E 0 0 1)) * (dpsi E 0)) * (igConf E 0 1))) - (((2 * (ChrisConf E 0 0 2)) * (dpsi E
  0)) * (igConf E 0 2))) - (((ChrisConf E 0 1 1) * (dpsi E 0)) * (igConf E 1 1))) - (((2 *
  (ChrisConf E 0 1 2)) * (dpsi E 0)) * (igConf E 1 2))) - (((ChrisConf E 0 2 2) * (dpsi E 0)) *
  (igConf E 2 2))) - (((ChrisConf E 1 0 0) * (dpsi E 1)) * (igConf E 0 0))) - (((2 * (ChrisConf E
  1 0 1)) * (dpsi E 1)) * (igConf E 0 1))) - (((2 * (ChrisConf E 1 0 2)) * (dpsi E 1)) * (igConf
  E 0 2))) - (((ChrisConf E 1 1 1) * (dpsi E 1)) * (igConf E 1 1))) - (((2 * (ChrisConf E 1 1 2))
  * (dpsi E 1)) * (igConf E 1 2))) - (((ChrisConf E 1 2 2) * (dpsi E 1)) * (igConf E 2 2))) -
  (((ChrisConf E 2 0 0) * (dpsi E 2)) * (igConf E 0 0))) - (((2 * (ChrisConf E 2 0 1)) * (dpsi E
  2)) * (igConf E 0 1))) - (((2 * (ChrisConf E 2 0 2)) * (dpsi E 2)) * (igConf E 0 2))) -
  (((ChrisConf E 2 1 1) * (dpsi E 2)) * (igConf E 1 1))) - (((2 * (ChrisConf E 2 1 2)) * (dpsi E
  2)) * (igConf E 1 2))) - (((ChrisConf E 2 2 2) * (dpsi E 2)) * (igConf E 2 2))) + ((ddpsi E 0
  0) * (igConf E 0 0))) + ((2 * (ddpsi E 0 1)) * (igConf E 0 1))) + ((2 * (ddpsi E 0 2)) *
  (igConf E 0 2))) + ((ddpsi E 1 1) * (igConf E 1 1))) + ((2 * (ddpsi E 1 2)) * (igConf E 1 2)))
  + ((ddpsi E 2 2) * (igConf E 2 2)).

(* /repo/Src/Main/Modules/Physics/ADM/adm_ham_mom_from_identities.c:181-182 *)
Definition R_ (E : env) : R :=
  ((((- 8) * (DDpsi E)) * (psim4 E)) / (psi E)) + ((psim4 E) * (trRicciConf E)).

(* /repo/Src/Main/Modules/Physics/ADM/adm_ham_mom_from_identities.c:184-186 *)
Definition Kbar_U0U0 (E : env) : R :=
  ((AConfIJ E 0 0) * (psim6 E)) + (((1 / 3) * (igConf E 0 0)) * (trK E)).

(* /repo/Src/Main/Modules/Physics/ADM/adm_ham_mom_from_identities.c:188-190 *)
Definition Kbar_U0U1 (E : env) : R :=
  ((AConfIJ E 0 1) * (psim6 E)) + (((1 / 3) * (igConf E 0 1)) * (trK E)).

(* /repo/Src/Main/Modules/Physics/ADM/adm_ham_mom_from_identities.c:192-194 *)
Definition Kbar_U0U2 (E : env) : R :=
  ((AConfIJ E 0 2) * (psim6 E)) + (((1 / 3) * (igConf E 0 2)) * (trK E)).

(* /repo/Src/Main/Modules/Physics/ADM/adm_ham_mom_from_identities.c:196-198 *)
Definition Kbar_U2U2 (E : env) : R :=
  ((AConfIJ E 2 2) * (psim6 E)) + (((1 / 3) * (igConf E 2 2)) * (trK E)).

(* /repo/Src/Main/Modules/Physics/ADM/adm_ham_mom_from_identities.c:200-202 *)
Definition Kbar_U1U1 (E : env) : R :=
  ((AConfIJ E 1 1) * (psim6 E)) + (((1 / 3) * (igConf E 1 1)) * (trK E)).

(* /repo/Src/Main/Modules/Physics/ADM/adm_ham_mom_from_identities.c:204-206 *)
Definition Kbar_U1U2 (E : env) : R :=
  ((AConfIJ E 1 2) * (psim6 E)) + (((1 / 3) * (igConf E 1 2)) * (trK E)).

(* /repo/Src/Main/Modules/Physics/ADM/adm_ham_mom_from_identities.c:208-232 *)
Definition KijKij (E : env) : R :=
  ((((((((((((((((((((((((((((Kbar_U0U0 E) ^ 2) * ((gConf E 0 0) ^ 2)) + ((((4 * (Kbar_U0U0 E)) *
  (Kbar_U0U1 E)) * (gConf E 0 0)) * (gConf E 0 1))) + ((((4 * (Kbar_U0U0 E)) * (Kbar_U0U2 E)) *
  (gConf E 0 0)) * (gConf E 0 2))) + (((2 * (Kbar_U0U0 E)) * (Kbar_U1U1 E)) * ((gConf E 0 1) ^
  2))) + ((((4 * (Kbar_U0U0 E)) * (Kbar_U1U2 E)) * (gConf E 0 1)) * (gConf E 0 2))) + (((2 *
  (Kbar_U0U0 E)) * (Kbar_U2U2 E)) * ((gConf E 0 2) ^ 2))) + (((2 * ((Kbar_U0U1 E) ^ 2)) * (gConf
  E 0 0)) * (gConf E 1 1))) + ((2 * ((Kbar_U0U1 E) ^ 2)) * ((gConf E 0 1) ^ 2))) + ((((4 *
  (Kbar_U0U1 E)) * (Kbar_U0U2 E)) * (gConf E 0 0)) * (gConf E 1 2))) + ((((4 * (Kbar_U0U1 E)) *
  (Kbar_U0U2 E)) * (gConf E 0 1)) * (gConf E 0 2))) + ((((4 * (Kbar_U0U1 E)) * (Kbar_U1U1 E)) *
  (gConf E 0 1)) * (gConf E 1 1))) + ((((4 * (Kbar_U0U1 E)) * (Kbar_U1U2 E)) * (gConf E 0 1)) *
  (gConf E 1 2))) + ((((4 * (Kbar_U0U1 E)) * (Kbar_U1U2 E)) * (gConf E 0 2)) * (gConf E 1 1))) +
  ((((4 * (Kbar_U0U1 E)) * (Kbar_U2U2 E)) * (gConf E 0 2)) * (gConf E 1 2))) + (((2 * ((Kbar_U0U2
  E) ^ 2)) * (gConf E 0 0)) * (gConf E 2 2))) + ((2 * ((Kbar_U0U2 E) ^ 2)) * ((gConf E 0 2) ^
  2))) + ((((4 * (Kbar_U0U2 E)) * (Kbar_U1U1 E)) * (gConf E 0 1)) * (gConf E 1 2))) + ((((4 *
  (Kbar_U0U2 E)) * (Kbar_U1U2 E)) * (gConf E 0 1)) * (gConf E 2 2))) + ((((4 * (Kbar_U0U2 E)) *
  (Kbar_U1U2 E)) * (gConf E 0 2)) * (gConf E 1 2))) + ((((4 * (Kbar_U0U2 E)) * (Kbar_U2U2 E)) *
  (gConf E 0 2)) * (gConf E 2 2))) + (((Kbar_U1U1 E) ^ 2) * ((gConf E 1 1) ^ 2))) + ((((4 *
  (Kbar_U1U1 E)) * (Kbar_U1U2 E)) * (gConf E 1 1)) * (gConf E 1 2))) + (((2 * (Kbar_U1U1 E)) *
  (Kbar_U2U2 E)) * ((gConf E 1 2) ^ 2))) + (((2 * ((Kbar_U1U2 E) ^ 2)) * (gConf E 1 1)) * (gConf
  E 2 2))) + ((2 * ((Kbar_U1U2 E) ^ 2)) * ((gConf E 1 2) ^ 2))) + ((((4 * (Kbar_U1U2 E)) *
  (Kbar_U2U2 E)) * (gConf E 1 2)) * (gConf E 2 2))) + (((Kbar_U2U2 E) ^ 2) * ((gConf E 2 2) ^ 2)).

(* /repo/Src/Main/Modules/Physics/ADM/adm_ham_mom_from_identities.c:234-235 *)
Definition Ham_Constraint (E : env) : R :=
  (((((- 16) * PI) * (E_ E)) - (KijKij E)) + (R_ E)) + ((trK E) ^ 2).

(* /repo/Src/Main/Modules/Physics/ADM/adm_ham_mom_from_identities.c:237-240 *)
Definition c_U2U2U2 (E : env) : R :=
  ((((((- 2) * (dLnpsi_D0 E)) * (gConf E 2 2)) * (igConf E 0 2)) - (((2 * (dLnpsi_D1 E)) * (gConf
  E 2 2)) * (igConf E 1 2))) - (((2 * (dLnpsi_D2 E)) * (gConf E 2 2)) * (igConf E 2 2))) + (4 *
  (dLnpsi_D2 E)).

(* /repo/Src/Main/Modules/Physics/ADM/adm_ham_mom_from_identities.c:242-245 *)
Definition c_U0U0U1 (E : env) : R :=
  ((((((- 2) * (dLnpsi_D0 E)) * (gConf E 0 1)) * (igConf E 0 0)) - (((2 * (dLnpsi_D1 E)) * (gConf
  E 0 1)) * (igConf E 0 1))) + (2 * (dLnpsi_D1 E))) - (((2 * (dLnpsi_D2 E)) * (gConf E 0 1)) *
  (igConf E 0 2)).

(* /repo/Src/Main/Modules/Physics/ADM/adm_ham_mom_from_identities.c:247-250 *)
Definition c_U0U0U0 (E : env) : R :=
  ((((((- 2) * (dLnpsi_D0 E)) * (gConf E 0 0)) * (igConf E 0 0)) + (4 * (dLnpsi_D0 E))) - (((2 *
  (dLnpsi_D1 E)) * (gConf E 0 0)) * (igConf E 0 1))) - (((2 * (dLnpsi_D2 E)) * (gConf E 0 0)) *
  (igConf E 0 2)).

(* /repo/Src/Main/Modules/Physics/ADM/adm_ham_mom_from_identities.c:252-254 *)
Definition c_U1U0U2 (E : env) : R :=
  ((- 2) * (gConf E 0 2)) * ((((dLnpsi_D0 E) * (igConf E 0 1)) + ((dLnpsi_D1 E) * (igConf E 1
  1))) + ((dLnpsi_D2 E) * (igConf E 1 2))).

(* /repo/Src/Main/Modules/Physics/ADM/adm_ham_mom_from_identities.c:256-259 *)
Definition c_U0U0U2 (E : env) : R :=
  ((((((- 2) * (dLnpsi_D0 E)) * (gConf E 0 2)) * (igConf E 0 0)) - (((2 * (dLnpsi_D1 E)) * (gConf
  E 0 2)) * (igConf E 0 1))) - (((2 * (dLnpsi_D2 E)) * (gConf E 0 2)) * (igConf E 0 2))) + (2 *
  (dLnpsi_D2 E)).

(* /repo/Src/Main/Modules/Physics/ADM/adm_ham_mom_from_identities.c:261-263 *)
Definition c_U0U2U2 (E : env) : R :=
  ((- 2) * (gConf E 2 2)) * ((((dLnpsi_D0 E) * (igConf E 0 0)) + ((dLnpsi_D1 E) * (igConf E 0
  1))) + ((dLnpsi_D2 E) * (igConf E 0 2))).

(* /repo/Src/Main/Modules/Physics/ADM/adm_ham_mom_from_identities.c:265-267 *)
Definition c_U2U0U1 (E : env) : R :=
  ((- 2) * (gConf E 0 1)) * ((((dLnpsi_D0 E) * (igConf E 0 2)) + ((dLnpsi_D1 E) * (igConf E 1
  2))) + ((dLnpsi_D2 E) * (igConf E 2 2))).

(* /repo/Src/Main/Modules/Physics/ADM/adm_ham_mom_from_identities.c:269-271 *)
Definition c_U2U0U0 (E : env) : R :=
  ((- 2) * (gConf E 0 0)) * ((((dLnpsi_D0 E) * (igConf E 0 2)) + ((dLnpsi_D1 E) * (igConf E 1
  2))) + ((dLnpsi_D2 E) * (igConf E 2 2))).

(* /repo/Src/Main/Modules/Physics/ADM/adm_ham_mom_from_identities.c:273-276 *)
Definition c_U1U1U1 (E : env) : R :=
  ((((((- 2) * (dLnpsi_D0 E)) * (gConf E 1 1)) * (igConf E 0 1)) - (((2 * (dLnpsi_D1 E)) * (gConf
  E 1 1)) * (igConf E 1 1))) + (4 * (dLnpsi_D1 E))) - (((2 * (dLnpsi_D2 E)) * (gConf E 1 1)) *
  (igConf E 1 2)).

(* /repo/Src/Main/Modules/Physics/ADM/adm_ham_mom_from_identities.c:278-280 *)
Definition c_U1U2U2 (E : env) : R :=
  ((- 2) * (gConf E 2 2)) * ((((dLnpsi_D0 E) * (igConf E 0 1)) + ((dLnpsi_D1 E) * (igConf E 1
  1))) + ((dLnpsi_D2 E) * (igConf E 1 2))).

(* /repo/Src/Main/Modules/Physics/ADM/adm_ham_mom_from_identities.c:282-284 *)
Definition c_U0U1U1 (E : env) : R :=
  ((- 2) * (gConf E 1 1)) * ((((dLnpsi_D0 E) * (igConf E 0 0)) + ((dLnpsi_D1 E) * (igConf E 0
  1))) + ((dLnpsi_D2 E) * (igConf E 0 2))).

(* /repo/Src/Main/Modules/Physics/ADM/adm_ham_mom_from_identities.c:286-288 *)
Definition c_U0U1U2 (E : env) : R :=
  ((- 2) * (gConf E 1 2)) * ((((dLnpsi_D0 E) * (igConf E 0 0)) + ((dLnpsi_D1 E) * (igConf E 0
  1))) + ((dLnpsi_D2 E) * (igConf E 0 2))).

(* /repo/Src/Main/Modules/Physics/ADM/adm_ham_mom_from_identities.c:290-293 *)
Definition c_U1U0U1 (E : env) : R :=
  ((((((- 2) * (dLnpsi_D0 E)) * (gConf E 0 1)) * (igConf E 0 1)) + (2 * (dLnpsi_D0 E))) - (((2 *
  (dLnpsi_D1 E)) * (gConf E 0 1)) * (igConf E 1 1))) - (((2 * (dLnpsi_D2 E)) * (gConf E 0 1)) *
  (igConf E 1 2)).

(* /repo/Src/Main/Modules/Physics/ADM/adm_ham_mom_from_identities.c:295-298 *)
Definition c_U2U1U2 (E : env) : R :=
  ((((((- 2) * (dLnpsi_D0 E)) * (gConf E 1 2)) * (igConf E 0 2)) - (((2 * (dLnpsi_D1 E)) * (gConf
  E 1 2)) * (igConf E 1 2))) + (2 * (dLnpsi_D1 E))) - (((2 * (dLnpsi_D2 E)) * (gConf E 1 2)) *
  (igConf E 2 2)).

(* /repo/Src/Main/Modules/Physics/ADM/adm_ham_mom_from_identities.c:300-302 *)
Definition c_U1U0U0 (E : env) : R :=
  ((- 2) * (gConf E 0 0)) * ((((dLnpsi_D0 E) * (igConf E 0 1)) + ((dLnpsi_D1 E) * (igConf E 1
  1))) + ((dLnpsi_D2 E) * (igConf E 1 2))).

(* /repo/Src/Main/Modules/Physics/ADM/adm_ham_mom_from_identities.c:304-306 *)
Definition c_U2U1U1 (E : env) : R :=
  ((- 2) * (gConf E 1 1)) * ((((dLnpsi_D0 E) * (igConf E 0 2)) + ((dLnpsi_D1 E) * (igConf E 1
  2))) + ((dLnpsi_D2 E) * (igConf E 2 2))).

(* /repo/Src/Main/Modules/Physics/ADM/adm_ham_mom_from_identities.c:308-311 *)
Definition c_U1U1U2 (E : env) : R :=
  ((((((- 2) * (dLnpsi_D0 E)) * (gConf E 1 2)) * (igConf E 0 1)) - (((2 * (dLnpsi_D1 E)) * (gConf
  E 1 2)) * (igConf E 1 1))) - (((2 * (dLnpsi_D2 E)) * (gConf E 1 2)) * (igConf E 1 2))) + (2 *
  (dLnpsi_D2 E)).

(* /repo/Src/Main/Modules/Physics/ADM/adm_ham_mom_from_identities.c:313-316 *)
Definition c_U2U0U2 (E : env) : R :=
  ((((((- 2) * (dLnpsi_D0 E)) * (gConf E 0 2)) * (igConf E 0 2)) + (2 * (dLnpsi_D0 E))) - (((2 *
  (dLnpsi_D1 E)) * (gConf E 0 2)) * (igConf E 1 2))) - (((2 * (dLnpsi_D2 E)) * (gConf E 0 2)) *
  (igConf E 2 2)).

(* /repo/Src/Main/Modules/Physics/ADM/adm_ham_mom_from_identities.c:318-326 *)
Definition djKj_U0 (E : env) : R :=
  ((1 / 3) * (psim4 E)) * (((((((dtrK E 0) * (igConf E 0 0)) + ((dtrK E 1) * (igConf E 0 1))) +
  ((dtrK E 2) * (igConf E 0 2))) - ((3 * (psim6 E)) * (((((((10 * (AConfIJ E 0 0)) * (dLnpsi_D0
  E)) + ((10 * (AConfIJ E 0 1)) * (dLnpsi_D1 E))) + ((10 * (AConfIJ E 0 2)) * (dLnpsi_D2 E))) -
  (dAConfIJ E 0 0 0)) - (dAConfIJ E 0 1 1)) - (dAConfIJ E 0 2 2)))) + ((trK E) * (((digConf E 0 0
  0) + (digConf E 0 1 1)) + (digConf E 0 2 2)))) - ((4 * (trK E)) * ((((dLnpsi_D0 E) * (igConf E
  0 0)) + ((dLnpsi_D1 E) * (igConf E 0 1))) + ((dLnpsi_D2 E) * (igConf E 0 2))))).

(* /repo/Src/Main/Modules/Physics/ADM/adm_ham_mom_from_identities.c:328-336 *)
Definition djKj_U1 (E : env) : R :=
  ((1 / 3) * (psim4 E)) * (((((((dtrK E 0) * (igConf E 0 1)) + ((dtrK E 1) * (igConf E 1 1))) +
  ((dtrK E 2) * (igConf E 1 2))) - ((3 * (psim6 E)) * (((((((10 * (AConfIJ E 0 1)) * (dLnpsi_D0
  E)) + ((10 * (AConfIJ E 1 1)) * (dLnpsi_D1 E))) + ((10 * (AConfIJ E 1 2)) * (dLnpsi_D2 E))) -
  (dAConfIJ E 0 1 0)) - (dAConfIJ E 1 1 1)) - (dAConfIJ E 1 2 2)))) + ((trK E) * (((digConf E 0 1
  0) + (digConf E 1 1 1)) + (digConf E 1 2 2)))) - ((4 * (trK E)) * ((((dLnpsi_D0 E) * (igConf E
  0 1)) + ((dLnpsi_D1 E) * (igConf E 1 1))) + ((dLnpsi_D2 E) * (igConf E 1 2))))).

(* /repo/Src/Main/Modules/Physics/ADM/adm_ham_mom_from_identities.c:338-346 *)
Definition djKj_U2 (E : env) : R :=
  ((1 / 3) * (psim4 E)) * (((((((dtrK E 0) * (igConf E 0 2)) + ((dtrK E 1) * (igConf E 1 2))) +
  ((dtrK E 2) * (igConf E 2 2))) - ((3 * (psim6 E)) * (((((((10 * (AConfIJ E 0 2)) * (dLnpsi_D0
  E)) + ((10 * (AConfIJ E 1 2)) * (dLnpsi_D1 E))) + ((10 * (AConfIJ E 2 2)) * (dLnpsi_D2 E))) -
  (dAConfIJ E 0 2 0)) - (dAConfIJ E 1 2 1)) - (dAConfIJ E 2 2 2)))) + ((trK E) * (((digConf E 0 2
  0) + (digConf E 1 2 1)) + (digConf E 2 2 2)))) - ((4 * (trK E)) * ((((dLnpsi_D0 E) * (igConf E
  0 2)) + ((dLnpsi_D1 E) * (igConf E 1 2))) + ((dLnpsi_D2 E) * (igConf E 2 2))))).

(* /repo/Src/Main/Modules/Physics/ADM/adm_ham_mom_from_identities.c:348-355 *)
Definition GammaKbar_U2 (E : env) : R :=
  ((((((((((((ChrisConf E 0 0 0) * (Kbar_U0U2 E)) + ((ChrisConf E 0 0 1) * (Kbar_U1U2 E))) +
  ((ChrisConf E 0 0 2) * (Kbar_U2U2 E))) + ((ChrisConf E 1 0 1) * (Kbar_U0U2 E))) + ((ChrisConf E
  1 1 1) * (Kbar_U1U2 E))) + ((ChrisConf E 1 1 2) * (Kbar_U2U2 E))) + ((ChrisConf E 2 0 0) *
  (Kbar_U0U0 E))) + ((2 * (ChrisConf E 2 0 1)) * (Kbar_U0U1 E))) + ((3 * (ChrisConf E 2 0 2)) *
  (Kbar_U0U2 E))) + ((ChrisConf E 2 1 1) * (Kbar_U1U1 E))) + ((3 * (ChrisConf E 2 1 2)) *
  (Kbar_U1U2 E))) + ((2 * (ChrisConf E 2 2 2)) * (Kbar_U2U2 E)).

(* /repo/Src/Main/Modules/Physics/ADM/adm_ham_mom_from_identities.c:357-364 *)
Definition GammaKbar_U1 (E : env) : R :=
  ((((((((((((ChrisConf E 0 0 0) * (Kbar_U0U1 E)) + ((ChrisConf E 0 0 1) * (Kbar_U1U1 E))) +
  ((ChrisConf E 0 0 2) * (Kbar_U1U2 E))) + ((ChrisConf E 1 0 0) * (Kbar_U0U0 E))) + ((3 *
  (ChrisConf E 1 0 1)) * (Kbar_U0U1 E))) + ((2 * (ChrisConf E 1 0 2)) * (Kbar_U0U2 E))) + ((2 *
  (ChrisConf E 1 1 1)) * (Kbar_U1U1 E))) + ((3 * (ChrisConf E 1 1 2)) * (Kbar_U1U2 E))) +
  ((ChrisConf E 1 2 2) * (Kbar_U2U2 E))) + ((ChrisConf E 2 0 2) * (Kbar_U0U1 E))) + ((ChrisConf E
  2 1 2) * (Kbar_U1U1 E))) + ((ChrisConf E 2 2 2) * (Kbar_U1U2 E)).

(* /repo/Src/Main/Modules/Physics/ADM/adm_ham_mom_from_identities.c:366-373 *)
Definition GammaKbar_U0 (E : env) : R :=
  ((((((((((((2 * (ChrisConf E 0 0 0)) * (Kbar_U0U0 E)) + ((3 * (ChrisConf E 0 0 1)) * (Kbar_U0U1
  E))) + ((3 * (ChrisConf E 0 0 2)) * (Kbar_U0U2 E))) + ((ChrisConf E 0 1 1) * (Kbar_U1U1 E))) +
  ((2 * (ChrisConf E 0 1 2)) * (Kbar_U1U2 E))) + ((ChrisConf E 0 2 2) * (Kbar_U2U2 E))) +
  ((ChrisConf E 1 0 1) * (Kbar_U0U0 E))) + ((ChrisConf E 1 1 1) * (Kbar_U0U1 E))) + ((ChrisConf E
  1 1 2) * (Kbar_U0U2 E))) + ((ChrisConf E 2 0 2) * (Kbar_U0U0 E))) + ((ChrisConf E 2 1 2) *
  (Kbar_U0U1 E))) + ((ChrisConf E 2 2 2) * (Kbar_U0U2 E)).

(* /repo/Src/Main/Modules/Physics/ADM/adm_ham_mom_from_identities.c:375-376 *)
Definition DbarjKj_U2 (E : env) : R :=
  ((GammaKbar_U2 E) * (psim4 E)) + (djKj_U2 E).

(* /repo/Src/Main/Modules/Physics/ADM/adm_ham_mom_from_identities.c:378-379 *)
Definition DbarjKj_U0 (E : env) : R :=
  ((GammaKbar_U0 E) * (psim4 E)) + (djKj_U0 E).

(* /repo/Src/Main/Modules/Physics/ADM/adm_ham_mom_from_identities.c:381-382 *)
Definition DbarjKj_U1 (E : env) : R :=
  ((GammaKbar_U1 E) * (psim4 E)) + (djKj_U1 E).

(* /repo/Src/Main/Modules/Physics/ADM/adm_ham_mom_from_identities.c:384-389 *)
Definition CKbar_U2 (E : env) : R :=
  ((((((((((((Kbar_U0U0 E) * (c_U2U0U0 E)) + ((2 * (Kbar_U0U1 E)) * (c_U2U0U1 E))) + ((Kbar_U0U2
  E) * (c_U0U0U0 E))) + ((Kbar_U0U2 E) * (c_U1U0U1 E))) + ((3 * (Kbar_U0U2 E)) * (c_U2U0U2 E))) +
  ((Kbar_U1U1 E) * (c_U2U1U1 E))) + ((Kbar_U1U2 E) * (c_U0U0U1 E))) + ((Kbar_U1U2 E) * (c_U1U1U1
  E))) + ((3 * (Kbar_U1U2 E)) * (c_U2U1U2 E))) + ((Kbar_U2U2 E) * (c_U0U0U2 E))) + ((Kbar_U2U2 E)
  * (c_U1U1U2 E))) + ((2 * (Kbar_U2U2 E)) * (c_U2U2U2 E)).

(* /repo/Src/Main/Modules/Physics/ADM/adm_ham_mom_from_identities.c:391-396 *)
Definition CKbar_U1 (E : env) : R :=
  ((((((((((((Kbar_U0U0 E) * (c_U1U0U0 E)) + ((Kbar_U0U1 E) * (c_U0U0U0 E))) + ((3 * (Kbar_U0U1
  E)) * (c_U1U0U1 E))) + ((Kbar_U0U1 E) * (c_U2U0U2 E))) + ((2 * (Kbar_U0U2 E)) * (c_U1U0U2 E)))
  + ((Kbar_U1U1 E) * (c_U0U0U1 E))) + ((2 * (Kbar_U1U1 E)) * (c_U1U1U1 E))) + ((Kbar_U1U1 E) *
  (c_U2U1U2 E))) + ((Kbar_U1U2 E) * (c_U0U0U2 E))) + ((3 * (Kbar_U1U2 E)) * (c_U1U1U2 E))) +
  ((Kbar_U1U2 E) * (c_U2U2U2 E))) + ((Kbar_U2U2 E) * (c_U1U2U2 E)).

(* /repo/Src/Main/Modules/Physics/ADM/adm_ham_mom_from_identities.c:398-403 *)
Definition CKbar_U0 (E : env) : R :=
  ((((((((((((2 * (Kbar_U0U0 E)) * (c_U0U0U0 E)) + ((Kbar_U0U0 E) * (c_U1U0U1 E))) + ((Kbar_U0U0
  E) * (c_U2U0U2 E))) + ((3 * (Kbar_U0U1 E)) * (c_U0U0U1 E))) + ((Kbar_U0U1 E) * (c_U1U1U1 E))) +
  ((Kbar_U0U1 E) * (c_U2U1U2 E))) + ((3 * (Kbar_U0U2 E)) * (c_U0U0U2 E))) + ((Kbar_U0U2 E) *
  (c_U1U1U2 E))) + ((Kbar_U0U2 E) * (c_U2U2U2 E))) + ((Kbar_U1U1 E) * (c_U0U1U1 E))) + ((2 *
  (Kbar_U1U2 E)) * (c_U0U1U2 E))) + ((Kbar_U2U2 E) * (c_U0U2U2 E)).

(* /repo/Src/Main/Modules/Physics/ADM/adm_ham_mom_from_identities.c:405-406 *)
Definition Dk_U0 (E : env) : R :=
  ((CKbar_U0 E) * (psim4 E)) + (DbarjKj_U0 E).

(* /repo/Src/Main/Modules/Physics/ADM/adm_ham_mom_from_identities.c:408-409 *)
Definition Dk_U1 (E : env) : R :=
  ((CKbar_U1 E) * (psim4 E)) + (DbarjKj_U1 E).

(* /repo/Src/Main/Modules/Physics/ADM/adm_ham_mom_from_identities.c:411-412 *)
Definition Dk_U2 (E : env) : R :=
  ((CKbar_U2 E) * (psim4 E)) + (DbarjKj_U2 E).

(* /repo/Src/Main/Modules/Physics/ADM/adm_ham_mom_from_identities.c:414-416 *)
Definition Mom_constraint_U2 (E : env) : R :=
  ((Dk_U2 E) - ((8 * PI) * (J_U2 E))) - ((psim4 E) * ((((dtrK E 0) * (igConf E 0 2)) + ((dtrK E
  1) * (igConf E 1 2))) + ((dtrK E 2) * (igConf E 2 2)))).

(* /repo/Src/Main/Modules/Physics/ADM/adm_ham_mom_from_identities.c:418-420 *)
Definition Mom_constraint_U0 (E : env) : R :=
  ((Dk_U0 E) - ((8 * PI) * (J_U0 E))) - ((psim4 E) * ((((dtrK E 0) * (igConf E 0 0)) + ((dtrK E
  1) * (igConf E 0 1))) + ((dtrK E 2) * (igConf E 0 2)))).

(* /repo/Src/Main/Modules/Physics/ADM/adm_ham_mom_from_identities.c:422-424 *)
Definition Mom_constraint_U1 (E : env) : R :=
  ((Dk_U1 E) - ((8 * PI) * (J_U1 E))) - ((psim4 E) * ((((dtrK E 0) * (igConf E 0 1)) + ((dtrK E
  1) * (igConf E 1 1))) + ((dtrK E 2) * (igConf E 1 2)))).

(* /repo/Src/Main/Modules/Physics/ADM/adm_ham_mom_from_identities.c:428 *)
Definition out_mom_U1 (E : env) : R :=
  Mom_constraint_U1 E.

(* /repo/Src/Main/Modules/Physics/ADM/adm_ham_mom_from_identities.c:429 *)
Definition out_mom_U0 (E : env) : R :=
  Mom_constraint_U0 E.

(* /repo/Src/Main/Modules/Physics/ADM/adm_ham_mom_from_identities.c:430 *)
Definition out_mom_U2 (E : env) : R :=
  Mom_constraint_U2 E.

(* /repo/Src/Main/Modules/Physics/ADM/adm_ham_mom_from_identities.c:431 *)
Definition out_ham (E : env) : R :=
  Ham_Constraint E.

(* /repo/Src/Main/Modules/Physics/ADM/adm_ham_mom_from_identities.c:428-430: the arrays mom_.. after the loop body; the others keep their value *)
Definition store_mom (E : env) (old : nat -> R) : nat -> R :=
  fun i => match i with
  | 1%nat => out_mom_U1 E
  | 0%nat => out_mom_U0 E
  | 2%nat => out_mom_U2 E
  | _ => old i
  end.
