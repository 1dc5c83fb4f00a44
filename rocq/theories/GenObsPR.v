(* Generated by tools/c2coq.py from /repo/Src/Main/Modules/Physics/Observe/obs_ADM_P_Stokes_Rashti.c: do not edit.
   Pointwise: one node ijk of the loop over the nodes of a patch; doubles are reals. n: the stored normal of the item; xi: position relative to the centre. v_: the loop of the volume items. *)
Require Import Reals.
Local Open Scope R_scope.

(* /repo/Src/Main/Modules/Physics/Observe/obs_ADM_P_Stokes_Rashti.c:120-360: the values the loop body reads at its node: field B_U0D1 is B 0 1 *)
Record env : Type := mk {
  AConfIJ : nat -> nat -> R;
  ChrisConf : nat -> nat -> nat -> R;
  dAConfIJ : nat -> nat -> nat -> R;
  dgConf : nat -> nat -> nat -> R;
  dpsi : nat -> R;
  dtrK : nat -> R;
  gConf : nat -> nat -> R;
  n : nat -> R;
  psi : R;
  trK : R }.

(* /repo/Src/Main/Modules/Physics/Observe/obs_ADM_P_Stokes_Rashti.c:120-121 *)
Definition psi4 (E : env) : R :=
  (psi E) ^ 4.

(* /repo/Src/Main/Modules/Physics/Observe/obs_ADM_P_Stokes_Rashti.c:123-124 *)
Definition psim6 (E : env) : R :=
  / ((psi E) ^ 6).

(* /repo/Src/Main/Modules/Physics/Observe/obs_ADM_P_Stokes_Rashti.c:126-129 *)
Definition Pi_U2D2 (E : env) : R :=
  ((psim6 E) * ((((AConfIJ E 0 2) * (gConf E 0 2)) + ((AConfIJ E 1 2) * (gConf E 1 2))) +
  ((AConfIJ E 2 2) * (gConf E 2 2)))) - ((2/3) * (trK E)).

(* /repo/Src/Main/Modules/Physics/Observe/obs_ADM_P_Stokes_Rashti.c:131-133 *)
Definition Pi_U2D0 (E : env) : R :=
  (psim6 E) * ((((AConfIJ E 0 2) * (gConf E 0 0)) + ((AConfIJ E 1 2) * (gConf E 0 1))) +
  ((AConfIJ E 2 2) * (gConf E 0 2))).

(* /repo/Src/Main/Modules/Physics/Observe/obs_ADM_P_Stokes_Rashti.c:135-137 *)
Definition Pi_U2D1 (E : env) : R :=
  (psim6 E) * ((((AConfIJ E 0 2) * (gConf E 0 1)) + ((AConfIJ E 1 2) * (gConf E 1 1))) +
  ((AConfIJ E 2 2) * (gConf E 1 2))).

(* /repo/Src/Main/Modules/Physics/Observe/obs_ADM_P_Stokes_Rashti.c:139-142 *)
Definition Pi_U0D0 (E : env) : R :=
  ((psim6 E) * ((((AConfIJ E 0 0) * (gConf E 0 0)) + ((AConfIJ E 0 1) * (gConf E 0 1))) +
  ((AConfIJ E 0 2) * (gConf E 0 2)))) - ((2/3) * (trK E)).

(* /repo/Src/Main/Modules/Physics/Observe/obs_ADM_P_Stokes_Rashti.c:144-146 *)
Definition Pi_U0D1 (E : env) : R :=
  (psim6 E) * ((((AConfIJ E 0 0) * (gConf E 0 1)) + ((AConfIJ E 0 1) * (gConf E 1 1))) +
  ((AConfIJ E 0 2) * (gConf E 1 2))).

(* /repo/Src/Main/Modules/Physics/Observe/obs_ADM_P_Stokes_Rashti.c:148-151 *)
Definition Pi_U1D1 (E : env) : R :=
  ((psim6 E) * ((((AConfIJ E 0 1) * (gConf E 0 1)) + ((AConfIJ E 1 1) * (gConf E 1 1))) +
  ((AConfIJ E 1 2) * (gConf E 1 2)))) - ((2/3) * (trK E)).

(* /repo/Src/Main/Modules/Physics/Observe/obs_ADM_P_Stokes_Rashti.c:153-155 *)
Definition Pi_U1D0 (E : env) : R :=
  (psim6 E) * ((((AConfIJ E 0 1) * (gConf E 0 0)) + ((AConfIJ E 1 1) * (gConf E 0 1))) +
  ((AConfIJ E 1 2) * (gConf E 0 2))).

(* /repo/Src/Main/Modules/Physics/Observe/obs_ADM_P_Stokes_Rashti.c:157-159 *)
Definition Pi_U0D2 (E : env) : R :=
  (psim6 E) * ((((AConfIJ E 0 0) * (gConf E 0 2)) + ((AConfIJ E 0 1) * (gConf E 1 2))) +
  ((AConfIJ E 0 2) * (gConf E 2 2))).

(* /repo/Src/Main/Modules/Physics/Observe/obs_ADM_P_Stokes_Rashti.c:161-163 *)
Definition Pi_U1D2 (E : env) : R :=
  (psim6 E) * ((((AConfIJ E 0 1) * (gConf E 0 2)) + ((AConfIJ E 1 1) * (gConf E 1 2))) +
  ((AConfIJ E 1 2) * (gConf E 2 2))).

(* /repo/Src/Main/Modules/Physics/Observe/obs_ADM_P_Stokes_Rashti.c:165-170 *)
Definition Pin_D2 (E : env) : R :=
  (psi4 E) * (((((((((((Pi_U0D2 E) * (gConf E 0 0)) * (n E 0)) + (((Pi_U0D2 E) * (gConf E 0 1)) *
  (n E 1))) + (((Pi_U0D2 E) * (gConf E 0 2)) * (n E 2))) + (((Pi_U1D2 E) * (gConf E 0 1)) * (n E
  0))) + (((Pi_U1D2 E) * (gConf E 1 1)) * (n E 1))) + (((Pi_U1D2 E) * (gConf E 1 2)) * (n E 2)))
  + (((Pi_U2D2 E) * (gConf E 0 2)) * (n E 0))) + (((Pi_U2D2 E) * (gConf E 1 2)) * (n E 1))) +
  (((Pi_U2D2 E) * (gConf E 2 2)) * (n E 2))).

(* /repo/Src/Main/Modules/Physics/Observe/obs_ADM_P_Stokes_Rashti.c:172-177 *)
Definition Pin_D0 (E : env) : R :=
  (psi4 E) * (((((((((((Pi_U0D0 E) * (gConf E 0 0)) * (n E 0)) + (((Pi_U0D0 E) * (gConf E 0 1)) *
  (n E 1))) + (((Pi_U0D0 E) * (gConf E 0 2)) * (n E 2))) + (((Pi_U1D0 E) * (gConf E 0 1)) * (n E
  0))) + (((Pi_U1D0 E) * (gConf E 1 1)) * (n E 1))) + (((Pi_U1D0 E) * (gConf E 1 2)) * (n E 2)))
  + (((Pi_U2D0 E) * (gConf E 0 2)) * (n E 0))) + (((Pi_U2D0 E) * (gConf E 1 2)) * (n E 1))) +
  (((Pi_U2D0 E) * (gConf E 2 2)) * (n E 2))).

(* /repo/Src/Main/Modules/Physics/Observe/obs_ADM_P_Stokes_Rashti.c:179-184 *)
Definition Pin_D1 (E : env) : R :=
  (psi4 E) * (((((((((((Pi_U0D1 E) * (gConf E 0 0)) * (n E 0)) + (((Pi_U0D1 E) * (gConf E 0 1)) *
  (n E 1))) + (((Pi_U0D1 E) * (gConf E 0 2)) * (n E 2))) + (((Pi_U1D1 E) * (gConf E 0 1)) * (n E
  0))) + (((Pi_U1D1 E) * (gConf E 1 1)) * (n E 1))) + (((Pi_U1D1 E) * (gConf E 1 2)) * (n E 2)))
  + (((Pi_U2D1 E) * (gConf E 0 2)) * (n E 0))) + (((Pi_U2D1 E) * (gConf E 1 2)) * (n E 1))) +
  (((Pi_U2D1 E) * (gConf E 2 2)) * (n E 2))).

(* /repo/Src/Main/Modules/Physics/Observe/obs_ADM_P_Stokes_Rashti.c:188 *)
Definition out_obs__Pin_D2 (E : env) : R :=
  Pin_D2 E.

(* /repo/Src/Main/Modules/Physics/Observe/obs_ADM_P_Stokes_Rashti.c:189 *)
Definition out_obs__Pin_D1 (E : env) : R :=
  Pin_D1 E.

(* /repo/Src/Main/Modules/Physics/Observe/obs_ADM_P_Stokes_Rashti.c:190 *)
Definition out_obs__Pin_D0 (E : env) : R :=
  Pin_D0 E.

(* /repo/Src/Main/Modules/Physics/Observe/obs_ADM_P_Stokes_Rashti.c:197-198 *)
Definition v_psim6_ (E : env) : R :=
  / ((psi E) ^ 6).

(* /repo/Src/Main/Modules/Physics/Observe/obs_ADM_P_Stokes_Rashti.c:200-203 *)
Definition v_Pi__U0D0 (E : env) : R :=
  ((v_psim6_ E) * ((((AConfIJ E 0 0) * (gConf E 0 0)) + ((AConfIJ E 0 1) * (gConf E 0 1))) +
  ((AConfIJ E 0 2) * (gConf E 0 2)))) - ((2/3) * (trK E)).

(* /repo/Src/Main/Modules/Physics/Observe/obs_ADM_P_Stokes_Rashti.c:205-207 *)
Definition v_Pi__U0D1 (E : env) : R :=
  (v_psim6_ E) * ((((AConfIJ E 0 0) * (gConf E 0 1)) + ((AConfIJ E 0 1) * (gConf E 1 1))) +
  ((AConfIJ E 0 2) * (gConf E 1 2))).

(* /repo/Src/Main/Modules/Physics/Observe/obs_ADM_P_Stokes_Rashti.c:209-211 *)
Definition v_Pi__U0D2 (E : env) : R :=
  (v_psim6_ E) * ((((AConfIJ E 0 0) * (gConf E 0 2)) + ((AConfIJ E 0 1) * (gConf E 1 2))) +
  ((AConfIJ E 0 2) * (gConf E 2 2))).

(* /repo/Src/Main/Modules/Physics/Observe/obs_ADM_P_Stokes_Rashti.c:213-215 *)
Definition v_Pi__U1D2 (E : env) : R :=
  (v_psim6_ E) * ((((AConfIJ E 0 1) * (gConf E 0 2)) + ((AConfIJ E 1 1) * (gConf E 1 2))) +
  ((AConfIJ E 1 2) * (gConf E 2 2))).

(* /repo/Src/Main/Modules/Physics/Observe/obs_ADM_P_Stokes_Rashti.c:217-220 *)
Definition v_Pi__U1D1 (E : env) : R :=
  ((v_psim6_ E) * ((((AConfIJ E 0 1) * (gConf E 0 1)) + ((AConfIJ E 1 1) * (gConf E 1 1))) +
  ((AConfIJ E 1 2) * (gConf E 1 2)))) - ((2/3) * (trK E)).

(* /repo/Src/Main/Modules/Physics/Observe/obs_ADM_P_Stokes_Rashti.c:222-225 *)
Definition v_Pi__U2D2 (E : env) : R :=
  ((v_psim6_ E) * ((((AConfIJ E 0 2) * (gConf E 0 2)) + ((AConfIJ E 1 2) * (gConf E 1 2))) +
  ((AConfIJ E 2 2) * (gConf E 2 2)))) - ((2/3) * (trK E)).

(* /repo/Src/Main/Modules/Physics/Observe/obs_ADM_P_Stokes_Rashti.c:227-229 *)
Definition v_Pi__U1D0 (E : env) : R :=
  (v_psim6_ E) * ((((AConfIJ E 0 1) * (gConf E 0 0)) + ((AConfIJ E 1 1) * (gConf E 0 1))) +
  ((AConfIJ E 1 2) * (gConf E 0 2))).

(* /repo/Src/Main/Modules/Physics/Observe/obs_ADM_P_Stokes_Rashti.c:231-233 *)
Definition v_Pi__U2D0 (E : env) : R :=
  (v_psim6_ E) * ((((AConfIJ E 0 2) * (gConf E 0 0)) + ((AConfIJ E 1 2) * (gConf E 0 1))) +
  ((AConfIJ E 2 2) * (gConf E 0 2))).

(* /repo/Src/Main/Modules/Physics/Observe/obs_ADM_P_Stokes_Rashti.c:235-237 *)
Definition v_Pi__U2D1 (E : env) : R :=
  (v_psim6_ E) * ((((AConfIJ E 0 2) * (gConf E 0 1)) + ((AConfIJ E 1 2) * (gConf E 1 1))) +
  ((AConfIJ E 2 2) * (gConf E 1 2))).

(* /repo/Src/Main/Modules/Physics/Observe/obs_ADM_P_Stokes_Rashti.c:239-240 *)
Definition v_dlnpsi_U2 (E : env) : R :=
  (dpsi E 2) / (psi E).

(* /repo/Src/Main/Modules/Physics/Observe/obs_ADM_P_Stokes_Rashti.c:242-243 *)
Definition v_dlnpsi_U1 (E : env) : R :=
  (dpsi E 1) / (psi E).

(* /repo/Src/Main/Modules/Physics/Observe/obs_ADM_P_Stokes_Rashti.c:245-246 *)
Definition v_dlnpsi_U0 (E : env) : R :=
  (dpsi E 0) / (psi E).

(* /repo/Src/Main/Modules/Physics/Observe/obs_ADM_P_Stokes_Rashti.c:248-255 *)
Definition v_dPi1_U1 (E : env) : R :=
  ((- 6) * (v_psim6_ E)) * (((((((((((AConfIJ E 0 0) * (v_dlnpsi_U0 E)) * (gConf E 0 1)) +
  (((AConfIJ E 0 1) * (v_dlnpsi_U0 E)) * (gConf E 1 1))) + (((AConfIJ E 0 1) * (v_dlnpsi_U1 E)) *
  (gConf E 0 1))) + (((AConfIJ E 0 2) * (v_dlnpsi_U0 E)) * (gConf E 1 2))) + (((AConfIJ E 0 2) *
  (v_dlnpsi_U2 E)) * (gConf E 0 1))) + (((AConfIJ E 1 1) * (v_dlnpsi_U1 E)) * (gConf E 1 1))) +
  (((AConfIJ E 1 2) * (v_dlnpsi_U1 E)) * (gConf E 1 2))) + (((AConfIJ E 1 2) * (v_dlnpsi_U2 E)) *
  (gConf E 1 1))) + (((AConfIJ E 2 2) * (v_dlnpsi_U2 E)) * (gConf E 1 2))).

(* /repo/Src/Main/Modules/Physics/Observe/obs_ADM_P_Stokes_Rashti.c:257-264 *)
Definition v_dPi1_U0 (E : env) : R :=
  ((- 6) * (v_psim6_ E)) * (((((((((((AConfIJ E 0 0) * (v_dlnpsi_U0 E)) * (gConf E 0 0)) +
  (((AConfIJ E 0 1) * (v_dlnpsi_U0 E)) * (gConf E 0 1))) + (((AConfIJ E 0 1) * (v_dlnpsi_U1 E)) *
  (gConf E 0 0))) + (((AConfIJ E 0 2) * (v_dlnpsi_U0 E)) * (gConf E 0 2))) + (((AConfIJ E 0 2) *
  (v_dlnpsi_U2 E)) * (gConf E 0 0))) + (((AConfIJ E 1 1) * (v_dlnpsi_U1 E)) * (gConf E 0 1))) +
  (((AConfIJ E 1 2) * (v_dlnpsi_U1 E)) * (gConf E 0 2))) + (((AConfIJ E 1 2) * (v_dlnpsi_U2 E)) *
  (gConf E 0 1))) + (((AConfIJ E 2 2) * (v_dlnpsi_U2 E)) * (gConf E 0 2))).

(* /repo/Src/Main/Modules/Physics/Observe/obs_ADM_P_Stokes_Rashti.c:266-273 *)
Definition v_dPi1_U2 (E : env) : R :=
  ((- 6) * (v_psim6_ E)) * (((((((((((AConfIJ E 0 0) * (v_dlnpsi_U0 E)) * (gConf E 0 2)) +
  (((AConfIJ E 0 1) * (v_dlnpsi_U0 E)) * (gConf E 1 2))) + (((AConfIJ E 0 1) * (v_dlnpsi_U1 E)) *
  (gConf E 0 2))) + (((AConfIJ E 0 2) * (v_dlnpsi_U0 E)) * (gConf E 2 2))) + (((AConfIJ E 0 2) *
  (v_dlnpsi_U2 E)) * (gConf E 0 2))) + (((AConfIJ E 1 1) * (v_dlnpsi_U1 E)) * (gConf E 1 2))) +
  (((AConfIJ E 1 2) * (v_dlnpsi_U1 E)) * (gConf E 2 2))) + (((AConfIJ E 1 2) * (v_dlnpsi_U2 E)) *
  (gConf E 1 2))) + (((AConfIJ E 2 2) * (v_dlnpsi_U2 E)) * (gConf E 2 2))).

(* /repo/Src/Main/Modules/Physics/Observe/obs_ADM_P_Stokes_Rashti.c:275-281 *)
Definition v_dPi2_U0 (E : env) : R :=
  (v_psim6_ E) * ((((((((((dAConfIJ E 0 0 0) * (gConf E 0 0)) + ((dAConfIJ E 0 1 0) * (gConf E 0
  1))) + ((dAConfIJ E 0 1 1) * (gConf E 0 0))) + ((dAConfIJ E 0 2 0) * (gConf E 0 2))) +
  ((dAConfIJ E 0 2 2) * (gConf E 0 0))) + ((dAConfIJ E 1 1 1) * (gConf E 0 1))) + ((dAConfIJ E 1
  2 1) * (gConf E 0 2))) + ((dAConfIJ E 1 2 2) * (gConf E 0 1))) + ((dAConfIJ E 2 2 2) * (gConf E
  0 2))).

(* /repo/Src/Main/Modules/Physics/Observe/obs_ADM_P_Stokes_Rashti.c:283-289 *)
Definition v_dPi2_U1 (E : env) : R :=
  (v_psim6_ E) * ((((((((((dAConfIJ E 0 0 0) * (gConf E 0 1)) + ((dAConfIJ E 0 1 0) * (gConf E 1
  1))) + ((dAConfIJ E 0 1 1) * (gConf E 0 1))) + ((dAConfIJ E 0 2 0) * (gConf E 1 2))) +
  ((dAConfIJ E 0 2 2) * (gConf E 0 1))) + ((dAConfIJ E 1 1 1) * (gConf E 1 1))) + ((dAConfIJ E 1
  2 1) * (gConf E 1 2))) + ((dAConfIJ E 1 2 2) * (gConf E 1 1))) + ((dAConfIJ E 2 2 2) * (gConf E
  1 2))).

(* /repo/Src/Main/Modules/Physics/Observe/obs_ADM_P_Stokes_Rashti.c:291-297 *)
Definition v_dPi2_U2 (E : env) : R :=
  (v_psim6_ E) * ((((((((((dAConfIJ E 0 0 0) * (gConf E 0 2)) + ((dAConfIJ E 0 1 0) * (gConf E 1
  2))) + ((dAConfIJ E 0 1 1) * (gConf E 0 2))) + ((dAConfIJ E 0 2 0) * (gConf E 2 2))) +
  ((dAConfIJ E 0 2 2) * (gConf E 0 2))) + ((dAConfIJ E 1 1 1) * (gConf E 1 2))) + ((dAConfIJ E 1
  2 1) * (gConf E 2 2))) + ((dAConfIJ E 1 2 2) * (gConf E 1 2))) + ((dAConfIJ E 2 2 2) * (gConf E
  2 2))).

(* /repo/Src/Main/Modules/Physics/Observe/obs_ADM_P_Stokes_Rashti.c:299-306 *)
Definition v_dPi3_U2 (E : env) : R :=
  ((- (2/3)) * (dtrK E 2)) + ((v_psim6_ E) * ((((((((((AConfIJ E 0 0) * (dgConf E 0 2 0)) +
  ((AConfIJ E 0 1) * (dgConf E 0 2 1))) + ((AConfIJ E 0 1) * (dgConf E 1 2 0))) + ((AConfIJ E 0
  2) * (dgConf E 0 2 2))) + ((AConfIJ E 0 2) * (dgConf E 2 2 0))) + ((AConfIJ E 1 1) * (dgConf E
  1 2 1))) + ((AConfIJ E 1 2) * (dgConf E 1 2 2))) + ((AConfIJ E 1 2) * (dgConf E 2 2 1))) +
  ((AConfIJ E 2 2) * (dgConf E 2 2 2)))).

(* /repo/Src/Main/Modules/Physics/Observe/obs_ADM_P_Stokes_Rashti.c:308-315 *)
Definition v_dPi3_U1 (E : env) : R :=
  ((- (2/3)) * (dtrK E 1)) + ((v_psim6_ E) * ((((((((((AConfIJ E 0 0) * (dgConf E 0 1 0)) +
  ((AConfIJ E 0 1) * (dgConf E 0 1 1))) + ((AConfIJ E 0 1) * (dgConf E 1 1 0))) + ((AConfIJ E 0
  2) * (dgConf E 0 1 2))) + ((AConfIJ E 0 2) * (dgConf E 1 2 0))) + ((AConfIJ E 1 1) * (dgConf E
  1 1 1))) + ((AConfIJ E 1 2) * (dgConf E 1 1 2))) + ((AConfIJ E 1 2) * (dgConf E 1 2 1))) +
  ((AConfIJ E 2 2) * (dgConf E 1 2 2)))).

(* /repo/Src/Main/Modules/Physics/Observe/obs_ADM_P_Stokes_Rashti.c:317-324 *)
Definition v_dPi3_U0 (E : env) : R :=
  ((- (2/3)) * (dtrK E 0)) + ((v_psim6_ E) * ((((((((((AConfIJ E 0 0) * (dgConf E 0 0 0)) +
  ((AConfIJ E 0 1) * (dgConf E 0 0 1))) + ((AConfIJ E 0 1) * (dgConf E 0 1 0))) + ((AConfIJ E 0
  2) * (dgConf E 0 0 2))) + ((AConfIJ E 0 2) * (dgConf E 0 2 0))) + ((AConfIJ E 1 1) * (dgConf E
  0 1 1))) + ((AConfIJ E 1 2) * (dgConf E 0 1 2))) + ((AConfIJ E 1 2) * (dgConf E 0 2 1))) +
  ((AConfIJ E 2 2) * (dgConf E 0 2 2)))).

(* /repo/Src/Main/Modules/Physics/Observe/obs_ADM_P_Stokes_Rashti.c:326-327 *)
Definition v_dPi_U1 (E : env) : R :=
  ((v_dPi1_U1 E) + (v_dPi2_U1 E)) + (v_dPi3_U1 E).

(* /repo/Src/Main/Modules/Physics/Observe/obs_ADM_P_Stokes_Rashti.c:329-330 *)
Definition v_dPi_U0 (E : env) : R :=
  ((v_dPi1_U0 E) + (v_dPi2_U0 E)) + (v_dPi3_U0 E).

(* /repo/Src/Main/Modules/Physics/Observe/obs_ADM_P_Stokes_Rashti.c:332-333 *)
Definition v_dPi_U2 (E : env) : R :=
  ((v_dPi1_U2 E) + (v_dPi2_U2 E)) + (v_dPi3_U2 E).

(* /repo/Src/Main/Modules/Physics/Observe/obs_ADM_P_Stokes_Rashti.c:335-337 *)
Definition v_G_U1 (E : env) : R :=
  (((ChrisConf E 0 0 1) + (ChrisConf E 1 1 1)) + (ChrisConf E 2 1 2)) + (6 * (v_dlnpsi_U1 E)).

(* /repo/Src/Main/Modules/Physics/Observe/obs_ADM_P_Stokes_Rashti.c:339-341 *)
Definition v_G_U0 (E : env) : R :=
  (((ChrisConf E 0 0 0) + (ChrisConf E 1 0 1)) + (ChrisConf E 2 0 2)) + (6 * (v_dlnpsi_U0 E)).

(* /repo/Src/Main/Modules/Physics/Observe/obs_ADM_P_Stokes_Rashti.c:343-345 *)
Definition v_G_U2 (E : env) : R :=
  (((ChrisConf E 0 0 2) + (ChrisConf E 1 1 2)) + (ChrisConf E 2 2 2)) + (6 * (v_dlnpsi_U2 E)).

(* /repo/Src/Main/Modules/Physics/Observe/obs_ADM_P_Stokes_Rashti.c:347-348 *)
Definition v_DPi_D2 (E : env) : R :=
  ((((v_G_U0 E) * (v_Pi__U0D2 E)) + ((v_G_U1 E) * (v_Pi__U1D2 E))) + ((v_G_U2 E) * (v_Pi__U2D2
  E))) + (v_dPi_U2 E).

(* /repo/Src/Main/Modules/Physics/Observe/obs_ADM_P_Stokes_Rashti.c:350-351 *)
Definition v_DPi_D0 (E : env) : R :=
  ((((v_G_U0 E) * (v_Pi__U0D0 E)) + ((v_G_U1 E) * (v_Pi__U1D0 E))) + ((v_G_U2 E) * (v_Pi__U2D0
  E))) + (v_dPi_U0 E).

(* /repo/Src/Main/Modules/Physics/Observe/obs_ADM_P_Stokes_Rashti.c:353-354 *)
Definition v_DPi_D1 (E : env) : R :=
  ((((v_G_U0 E) * (v_Pi__U0D1 E)) + ((v_G_U1 E) * (v_Pi__U1D1 E))) + ((v_G_U2 E) * (v_Pi__U2D1
  E))) + (v_dPi_U1 E).

(* /repo/Src/Main/Modules/Physics/Observe/obs_ADM_P_Stokes_Rashti.c:358 *)
Definition v_out_obs__DPi_D2 (E : env) : R :=
  v_DPi_D2 E.

(* /repo/Src/Main/Modules/Physics/Observe/obs_ADM_P_Stokes_Rashti.c:359 *)
Definition v_out_obs__DPi_D1 (E : env) : R :=
  v_DPi_D1 E.

(* /repo/Src/Main/Modules/Physics/Observe/obs_ADM_P_Stokes_Rashti.c:360 *)
Definition v_out_obs__DPi_D0 (E : env) : R :=
  v_DPi_D0 E.

(* /repo/Src/Main/Modules/Physics/Observe/obs_ADM_P_Stokes_Rashti.c:358-360: the arrays obs__DPi_.. after the loop body; the others keep their value *)
Definition store_obs__DPi (E : env) (old : nat -> R) : nat -> R :=
  fun i => match i with
  | 2%nat => v_out_obs__DPi_D2 E
  | 1%nat => v_out_obs__DPi_D1 E
  | 0%nat => v_out_obs__DPi_D0 E
  | _ => old i
  end.

(* /repo/Src/Main/Modules/Physics/Observe/obs_ADM_P_Stokes_Rashti.c:188-190: the arrays obs__Pin_.. after the loop body; the others keep their value *)
Definition store_obs__Pin (E : env) (old : nat -> R) : nat -> R :=
  fun i => match i with
  | 2%nat => out_obs__Pin_D2 E
  | 1%nat => out_obs__Pin_D1 E
  | 0%nat => out_obs__Pin_D0 E
  | _ => old i
  end.
