(* Generated by tools/c2coq.py from /repo/Src/Main/Modules/Physics/Observe/obs_ADM_J_Stokes_constraint.c: do not edit.
   Pointwise: one node ijk of the loop over the nodes of a patch; doubles are reals. n: the stored normal of the item; xi: position relative to the centre. v_: the loop of the volume items; x, y, z: Cartesian coordinates of the node. *)
Require Import Reals.
Local Open Scope R_scope.

(* /repo/Src/Main/Modules/Physics/Observe/obs_ADM_J_Stokes_constraint.c:92-714: the values the loop body reads at its node: field B_U0D1 is B 0 1 *)
Record env : Type := mk {
  AConfIJ : nat -> nat -> R;
  ChrisConf : nat -> nat -> nat -> R;
  dpsi : nat -> R;
  gConf : nat -> nat -> R;
  igConf : nat -> nat -> R;
  n : nat -> R;
  psi : R;
  trK : R;
  x : R;
  x_cm : R;
  y : R;
  y_cm : R;
  z : R;
  z_cm : R }.

(* /repo/Src/Main/Modules/Physics/Observe/obs_ADM_J_Stokes_constraint.c:95 *)
Definition x_xCM_U0 (E : env) : R :=
  (x E) - (x_cm E).

(* /repo/Src/Main/Modules/Physics/Observe/obs_ADM_J_Stokes_constraint.c:96 *)
Definition x_xCM_U1 (E : env) : R :=
  (y E) - (y_cm E).

(* /repo/Src/Main/Modules/Physics/Observe/obs_ADM_J_Stokes_constraint.c:97 *)
Definition x_xCM_U2 (E : env) : R :=
  (z E) - (z_cm E).

(* /repo/Src/Main/Modules/Physics/Observe/obs_ADM_J_Stokes_constraint.c:98-99 *)
Definition psi4 (E : env) : R :=
  (psi E) ^ 4.

(* /repo/Src/Main/Modules/Physics/Observe/obs_ADM_J_Stokes_constraint.c:101-102 *)
Definition psim2 (E : env) : R :=
  / ((psi E) ^ 2).

(* /repo/Src/Main/Modules/Physics/Observe/obs_ADM_J_Stokes_constraint.c:104-126 *)
Definition Pn_D0 (E : env) : R :=
  (((- (n E 0)) * (((((2/3) * (gConf E 0 0)) * (psi4 E)) * (trK E)) - ((psim2 E) * (((((((AConfIJ
  E 0 0) * ((gConf E 0 0) ^ 2)) + (((2 * (AConfIJ E 0 1)) * (gConf E 0 0)) * (gConf E 0 1))) +
  (((2 * (AConfIJ E 0 2)) * (gConf E 0 0)) * (gConf E 0 2))) + ((AConfIJ E 1 1) * ((gConf E 0 1)
  ^ 2))) + (((2 * (AConfIJ E 1 2)) * (gConf E 0 1)) * (gConf E 0 2))) + ((AConfIJ E 2 2) *
  ((gConf E 0 2) ^ 2)))))) - ((n E 1) * (((((2/3) * (gConf E 0 1)) * (psi4 E)) * (trK E)) -
  ((psim2 E) * (((((((((((AConfIJ E 0 0) * (gConf E 0 0)) * (gConf E 0 1)) + (((AConfIJ E 0 1) *
  (gConf E 0 0)) * (gConf E 1 1))) + ((AConfIJ E 0 1) * ((gConf E 0 1) ^ 2))) + (((AConfIJ E 0 2)
  * (gConf E 0 0)) * (gConf E 1 2))) + (((AConfIJ E 0 2) * (gConf E 0 1)) * (gConf E 0 2))) +
  (((AConfIJ E 1 1) * (gConf E 0 1)) * (gConf E 1 1))) + (((AConfIJ E 1 2) * (gConf E 0 1)) *
  (gConf E 1 2))) + (((AConfIJ E 1 2) * (gConf E 0 2)) * (gConf E 1 1))) + (((AConfIJ E 2 2) *
  (gConf E 0 2)) * (gConf E 1 2))))))) - ((n E 2) * (((((2/3) * (gConf E 0 2)) * (psi4 E)) * (trK
  E)) - ((psim2 E) * (((((((((((AConfIJ E 0 0) * (gConf E 0 0)) * (gConf E 0 2)) + (((AConfIJ E 0
  1) * (gConf E 0 0)) * (gConf E 1 2))) + (((AConfIJ E 0 1) * (gConf E 0 1)) * (gConf E 0 2))) +
  (((AConfIJ E 0 2) * (gConf E 0 0)) * (gConf E 2 2))) + ((AConfIJ E 0 2) * ((gConf E 0 2) ^ 2)))
  + (((AConfIJ E 1 1) * (gConf E 0 1)) * (gConf E 1 2))) + (((AConfIJ E 1 2) * (gConf E 0 1)) *
  (gConf E 2 2))) + (((AConfIJ E 1 2) * (gConf E 0 2)) * (gConf E 1 2))) + (((AConfIJ E 2 2) *
  (gConf E 0 2)) * (gConf E 2 2)))))).

(* /repo/Src/Main/Modules/Physics/Observe/obs_ADM_J_Stokes_constraint.c:128-150 *)
Definition Pn_D1 (E : env) : R :=
  (((- (n E 0)) * (((((2/3) * (gConf E 0 1)) * (psi4 E)) * (trK E)) - ((psim2 E) *
  (((((((((((AConfIJ E 0 0) * (gConf E 0 0)) * (gConf E 0 1)) + (((AConfIJ E 0 1) * (gConf E 0
  0)) * (gConf E 1 1))) + ((AConfIJ E 0 1) * ((gConf E 0 1) ^ 2))) + (((AConfIJ E 0 2) * (gConf E
  0 0)) * (gConf E 1 2))) + (((AConfIJ E 0 2) * (gConf E 0 1)) * (gConf E 0 2))) + (((AConfIJ E 1
  1) * (gConf E 0 1)) * (gConf E 1 1))) + (((AConfIJ E 1 2) * (gConf E 0 1)) * (gConf E 1 2))) +
  (((AConfIJ E 1 2) * (gConf E 0 2)) * (gConf E 1 1))) + (((AConfIJ E 2 2) * (gConf E 0 2)) *
  (gConf E 1 2)))))) - ((n E 1) * (((((2/3) * (gConf E 1 1)) * (psi4 E)) * (trK E)) - ((psim2 E)
  * (((((((AConfIJ E 0 0) * ((gConf E 0 1) ^ 2)) + (((2 * (AConfIJ E 0 1)) * (gConf E 0 1)) *
  (gConf E 1 1))) + (((2 * (AConfIJ E 0 2)) * (gConf E 0 1)) * (gConf E 1 2))) + ((AConfIJ E 1 1)
  * ((gConf E 1 1) ^ 2))) + (((2 * (AConfIJ E 1 2)) * (gConf E 1 1)) * (gConf E 1 2))) +
  ((AConfIJ E 2 2) * ((gConf E 1 2) ^ 2))))))) - ((n E 2) * (((((2/3) * (gConf E 1 2)) * (psi4
  E)) * (trK E)) - ((psim2 E) * (((((((((((AConfIJ E 0 0) * (gConf E 0 1)) * (gConf E 0 2)) +
  (((AConfIJ E 0 1) * (gConf E 0 1)) * (gConf E 1 2))) + (((AConfIJ E 0 1) * (gConf E 0 2)) *
  (gConf E 1 1))) + (((AConfIJ E 0 2) * (gConf E 0 1)) * (gConf E 2 2))) + (((AConfIJ E 0 2) *
  (gConf E 0 2)) * (gConf E 1 2))) + (((AConfIJ E 1 1) * (gConf E 1 1)) * (gConf E 1 2))) +
  (((AConfIJ E 1 2) * (gConf E 1 1)) * (gConf E 2 2))) + ((AConfIJ E 1 2) * ((gConf E 1 2) ^ 2)))
  + (((AConfIJ E 2 2) * (gConf E 1 2)) * (gConf E 2 2)))))).

(* /repo/Src/Main/Modules/Physics/Observe/obs_ADM_J_Stokes_constraint.c:152-174 *)
Definition Pn_D2 (E : env) : R :=
  (((- (n E 0)) * (((((2/3) * (gConf E 0 2)) * (psi4 E)) * (trK E)) - ((psim2 E) *
  (((((((((((AConfIJ E 0 0) * (gConf E 0 0)) * (gConf E 0 2)) + (((AConfIJ E 0 1) * (gConf E 0
  0)) * (gConf E 1 2))) + (((AConfIJ E 0 1) * (gConf E 0 1)) * (gConf E 0 2))) + (((AConfIJ E 0
  2) * (gConf E 0 0)) * (gConf E 2 2))) + ((AConfIJ E 0 2) * ((gConf E 0 2) ^ 2))) + (((AConfIJ E
  1 1) * (gConf E 0 1)) * (gConf E 1 2))) + (((AConfIJ E 1 2) * (gConf E 0 1)) * (gConf E 2 2)))
  + (((AConfIJ E 1 2) * (gConf E 0 2)) * (gConf E 1 2))) + (((AConfIJ E 2 2) * (gConf E 0 2)) *
  (gConf E 2 2)))))) - ((n E 1) * (((((2/3) * (gConf E 1 2)) * (psi4 E)) * (trK E)) - ((psim2 E)
  * (((((((((((AConfIJ E 0 0) * (gConf E 0 1)) * (gConf E 0 2)) + (((AConfIJ E 0 1) * (gConf E 0
  1)) * (gConf E 1 2))) + (((AConfIJ E 0 1) * (gConf E 0 2)) * (gConf E 1 1))) + (((AConfIJ E 0
  2) * (gConf E 0 1)) * (gConf E 2 2))) + (((AConfIJ E 0 2) * (gConf E 0 2)) * (gConf E 1 2))) +
  (((AConfIJ E 1 1) * (gConf E 1 1)) * (gConf E 1 2))) + (((AConfIJ E 1 2) * (gConf E 1 1)) *
  (gConf E 2 2))) + ((AConfIJ E 1 2) * ((gConf E 1 2) ^ 2))) + (((AConfIJ E 2 2) * (gConf E 1 2))
  * (gConf E 2 2))))))) - ((n E 2) * (((((2/3) * (gConf E 2 2)) * (psi4 E)) * (trK E)) - ((psim2
  E) * (((((((AConfIJ E 0 0) * ((gConf E 0 2) ^ 2)) + (((2 * (AConfIJ E 0 1)) * (gConf E 0 2)) *
  (gConf E 1 2))) + (((2 * (AConfIJ E 0 2)) * (gConf E 0 2)) * (gConf E 2 2))) + ((AConfIJ E 1 1)
  * ((gConf E 1 2) ^ 2))) + (((2 * (AConfIJ E 1 2)) * (gConf E 1 2)) * (gConf E 2 2))) +
  ((AConfIJ E 2 2) * ((gConf E 2 2) ^ 2)))))).

(* /repo/Src/Main/Modules/Physics/Observe/obs_ADM_J_Stokes_constraint.c:176-177 *)
Definition Phi__U1D1 (E : env) : R :=
  0.

(* /repo/Src/Main/Modules/Physics/Observe/obs_ADM_J_Stokes_constraint.c:179-180 *)
Definition Phi__U1D2 (E : env) : R :=
  x_xCM_U0 E.

(* /repo/Src/Main/Modules/Physics/Observe/obs_ADM_J_Stokes_constraint.c:182-183 *)
Definition Phi__U1D0 (E : env) : R :=
  - (x_xCM_U2 E).

(* /repo/Src/Main/Modules/Physics/Observe/obs_ADM_J_Stokes_constraint.c:185-186 *)
Definition Phi__U2D2 (E : env) : R :=
  0.

(* /repo/Src/Main/Modules/Physics/Observe/obs_ADM_J_Stokes_constraint.c:188-189 *)
Definition Phi__U2D1 (E : env) : R :=
  - (x_xCM_U0 E).

(* /repo/Src/Main/Modules/Physics/Observe/obs_ADM_J_Stokes_constraint.c:191-192 *)
Definition Phi__U2D0 (E : env) : R :=
  x_xCM_U1 E.

(* /repo/Src/Main/Modules/Physics/Observe/obs_ADM_J_Stokes_constraint.c:194-195 *)
Definition Phi__U0D1 (E : env) : R :=
  x_xCM_U2 E.

(* /repo/Src/Main/Modules/Physics/Observe/obs_ADM_J_Stokes_constraint.c:197-198 *)
Definition Phi__U0D0 (E : env) : R :=
  0.

(* /repo/Src/Main/Modules/Physics/Observe/obs_ADM_J_Stokes_constraint.c:200-201 *)
Definition Phi__U0D2 (E : env) : R :=
  - (x_xCM_U1 E).

(* /repo/Src/Main/Modules/Physics/Observe/obs_ADM_J_Stokes_constraint.c:203-204 *)
Definition Js_D1 (E : env) : R :=
  (((Phi__U0D1 E) * (Pn_D0 E)) + ((Phi__U1D1 E) * (Pn_D1 E))) + ((Phi__U2D1 E) * (Pn_D2 E)).

(* /repo/Src/Main/Modules/Physics/Observe/obs_ADM_J_Stokes_constraint.c:206-207 *)
Definition Js_D0 (E : env) : R :=
  (((Phi__U0D0 E) * (Pn_D0 E)) + ((Phi__U1D0 E) * (Pn_D1 E))) + ((Phi__U2D0 E) * (Pn_D2 E)).

(* /repo/Src/Main/Modules/Physics/Observe/obs_ADM_J_Stokes_constraint.c:209-210 *)
Definition Js_D2 (E : env) : R :=
  (((Phi__U0D2 E) * (Pn_D0 E)) + ((Phi__U1D2 E) * (Pn_D1 E))) + ((Phi__U2D2 E) * (Pn_D2 E)).

(* /repo/Src/Main/Modules/Physics/Observe/obs_ADM_J_Stokes_constraint.c:214 *)
Definition out_obs__Js_D2 (E : env) : R :=
  Js_D2 E.

(* /repo/Src/Main/Modules/Physics/Observe/obs_ADM_J_Stokes_constraint.c:215 *)
Definition out_obs__Js_D0 (E : env) : R :=
  Js_D0 E.

(* /repo/Src/Main/Modules/Physics/Observe/obs_ADM_J_Stokes_constraint.c:216 *)
Definition out_obs__Js_D1 (E : env) : R :=
  Js_D1 E.

(* /repo/Src/Main/Modules/Physics/Observe/obs_ADM_J_Stokes_constraint.c:226 *)
Definition v_x_xCM_U0 (E : env) : R :=
  (x E) - (x_cm E).

(* /repo/Src/Main/Modules/Physics/Observe/obs_ADM_J_Stokes_constraint.c:227 *)
Definition v_x_xCM_U1 (E : env) : R :=
  (y E) - (y_cm E).

(* /repo/Src/Main/Modules/Physics/Observe/obs_ADM_J_Stokes_constraint.c:228 *)
Definition v_x_xCM_U2 (E : env) : R :=
  (z E) - (z_cm E).

(* /repo/Src/Main/Modules/Physics/Observe/obs_ADM_J_Stokes_constraint.c:229-230 *)
Definition v_psim2_ (E : env) : R :=
  / ((psi E) ^ 2).

(* /repo/Src/Main/Modules/Physics/Observe/obs_ADM_J_Stokes_constraint.c:232-233 *)
Definition v_psi4_ (E : env) : R :=
  (psi E) ^ 4.

(* /repo/Src/Main/Modules/Physics/Observe/obs_ADM_J_Stokes_constraint.c:235-236 *)
Definition v_psim4_ (E : env) : R :=
  1 / (v_psi4_ E).

(* /repo/Src/Main/Modules/Physics/Observe/obs_ADM_J_Stokes_constraint.c:238-239 *)
Definition v_dLnpsi_D0 (E : env) : R :=
  (dpsi E 0) / (psi E).

(* /repo/Src/Main/Modules/Physics/Observe/obs_ADM_J_Stokes_constraint.c:241-242 *)
Definition v_dLnpsi_D1 (E : env) : R :=
  (dpsi E 1) / (psi E).

(* /repo/Src/Main/Modules/Physics/Observe/obs_ADM_J_Stokes_constraint.c:244-245 *)
Definition v_dLnpsi_D2 (E : env) : R :=
  (dpsi E 2) / (psi E).

(* /repo/Src/Main/Modules/Physics/Observe/obs_ADM_J_Stokes_constraint.c:247-249 *)
Definition v_c_U0D2D2 (E : env) : R :=
  ((- 2) * (gConf E 2 2)) * ((((v_dLnpsi_D0 E) * (igConf E 0 0)) + ((v_dLnpsi_D1 E) * (igConf E 0
  1))) + ((v_dLnpsi_D2 E) * (igConf E 0 2))).

(* /repo/Src/Main/Modules/Physics/Observe/obs_ADM_J_Stokes_constraint.c:251-253 *)
Definition v_c_U1D2D2 (E : env) : R :=
  ((- 2) * (gConf E 2 2)) * ((((v_dLnpsi_D0 E) * (igConf E 0 1)) + ((v_dLnpsi_D1 E) * (igConf E 1
  1))) + ((v_dLnpsi_D2 E) * (igConf E 1 2))).

(* /repo/Src/Main/Modules/Physics/Observe/obs_ADM_J_Stokes_constraint.c:255-258 *)
Definition v_c_U0D0D1 (E : env) : R :=
  ((((((- 2) * (v_dLnpsi_D0 E)) * (gConf E 0 1)) * (igConf E 0 0)) - (((2 * (v_dLnpsi_D1 E)) *
  (gConf E 0 1)) * (igConf E 0 1))) + (2 * (v_dLnpsi_D1 E))) - (((2 * (v_dLnpsi_D2 E)) * (gConf E
  0 1)) * (igConf E 0 2)).

(* /repo/Src/Main/Modules/Physics/Observe/obs_ADM_J_Stokes_constraint.c:260-263 *)
Definition v_c_U2D1D2 (E : env) : R :=
  ((((((- 2) * (v_dLnpsi_D0 E)) * (gConf E 1 2)) * (igConf E 0 2)) - (((2 * (v_dLnpsi_D1 E)) *
  (gConf E 1 2)) * (igConf E 1 2))) + (2 * (v_dLnpsi_D1 E))) - (((2 * (v_dLnpsi_D2 E)) * (gConf E
  1 2)) * (igConf E 2 2)).

(* /repo/Src/Main/Modules/Physics/Observe/obs_ADM_J_Stokes_constraint.c:265-268 *)
Definition v_c_U0D0D0 (E : env) : R :=
  ((((((- 2) * (v_dLnpsi_D0 E)) * (gConf E 0 0)) * (igConf E 0 0)) + (4 * (v_dLnpsi_D0 E))) -
  (((2 * (v_dLnpsi_D1 E)) * (gConf E 0 0)) * (igConf E 0 1))) - (((2 * (v_dLnpsi_D2 E)) * (gConf
  E 0 0)) * (igConf E 0 2)).

(* /repo/Src/Main/Modules/Physics/Observe/obs_ADM_J_Stokes_constraint.c:270-272 *)
Definition v_c_U2D0D1 (E : env) : R :=
  ((- 2) * (gConf E 0 1)) * ((((v_dLnpsi_D0 E) * (igConf E 0 2)) + ((v_dLnpsi_D1 E) * (igConf E 1
  2))) + ((v_dLnpsi_D2 E) * (igConf E 2 2))).

(* /repo/Src/Main/Modules/Physics/Observe/obs_ADM_J_Stokes_constraint.c:274-276 *)
Definition v_c_U2D1D1 (E : env) : R :=
  ((- 2) * (gConf E 1 1)) * ((((v_dLnpsi_D0 E) * (igConf E 0 2)) + ((v_dLnpsi_D1 E) * (igConf E 1
  2))) + ((v_dLnpsi_D2 E) * (igConf E 2 2))).

(* /repo/Src/Main/Modules/Physics/Observe/obs_ADM_J_Stokes_constraint.c:278-281 *)
Definition v_c_U1D1D1 (E : env) : R :=
  ((((((- 2) * (v_dLnpsi_D0 E)) * (gConf E 1 1)) * (igConf E 0 1)) - (((2 * (v_dLnpsi_D1 E)) *
  (gConf E 1 1)) * (igConf E 1 1))) + (4 * (v_dLnpsi_D1 E))) - (((2 * (v_dLnpsi_D2 E)) * (gConf E
  1 1)) * (igConf E 1 2)).

(* /repo/Src/Main/Modules/Physics/Observe/obs_ADM_J_Stokes_constraint.c:283-285 *)
Definition v_c_U0D1D1 (E : env) : R :=
  ((- 2) * (gConf E 1 1)) * ((((v_dLnpsi_D0 E) * (igConf E 0 0)) + ((v_dLnpsi_D1 E) * (igConf E 0
  1))) + ((v_dLnpsi_D2 E) * (igConf E 0 2))).

(* /repo/Src/Main/Modules/Physics/Observe/obs_ADM_J_Stokes_constraint.c:287-289 *)
Definition v_c_U0D1D2 (E : env) : R :=
  ((- 2) * (gConf E 1 2)) * ((((v_dLnpsi_D0 E) * (igConf E 0 0)) + ((v_dLnpsi_D1 E) * (igConf E 0
  1))) + ((v_dLnpsi_D2 E) * (igConf E 0 2))).

(* /repo/Src/Main/Modules/Physics/Observe/obs_ADM_J_Stokes_constraint.c:291-294 *)
Definition v_c_U1D1D2 (E : env) : R :=
  ((((((- 2) * (v_dLnpsi_D0 E)) * (gConf E 1 2)) * (igConf E 0 1)) - (((2 * (v_dLnpsi_D1 E)) *
  (gConf E 1 2)) * (igConf E 1 1))) - (((2 * (v_dLnpsi_D2 E)) * (gConf E 1 2)) * (igConf E 1 2)))
  + (2 * (v_dLnpsi_D2 E)).

(* /repo/Src/Main/Modules/Physics/Observe/obs_ADM_J_Stokes_constraint.c:296-299 *)
Definition v_c_U2D0D2 (E : env) : R :=
  ((((((- 2) * (v_dLnpsi_D0 E)) * (gConf E 0 2)) * (igConf E 0 2)) + (2 * (v_dLnpsi_D0 E))) -
  (((2 * (v_dLnpsi_D1 E)) * (gConf E 0 2)) * (igConf E 1 2))) - (((2 * (v_dLnpsi_D2 E)) * (gConf
  E 0 2)) * (igConf E 2 2)).

(* /repo/Src/Main/Modules/Physics/Observe/obs_ADM_J_Stokes_constraint.c:301-303 *)
Definition v_c_U2D0D0 (E : env) : R :=
  ((- 2) * (gConf E 0 0)) * ((((v_dLnpsi_D0 E) * (igConf E 0 2)) + ((v_dLnpsi_D1 E) * (igConf E 1
  2))) + ((v_dLnpsi_D2 E) * (igConf E 2 2))).

(* /repo/Src/Main/Modules/Physics/Observe/obs_ADM_J_Stokes_constraint.c:305-308 *)
Definition v_c_U0D0D2 (E : env) : R :=
  ((((((- 2) * (v_dLnpsi_D0 E)) * (gConf E 0 2)) * (igConf E 0 0)) - (((2 * (v_dLnpsi_D1 E)) *
  (gConf E 0 2)) * (igConf E 0 1))) - (((2 * (v_dLnpsi_D2 E)) * (gConf E 0 2)) * (igConf E 0 2)))
  + (2 * (v_dLnpsi_D2 E)).

(* /repo/Src/Main/Modules/Physics/Observe/obs_ADM_J_Stokes_constraint.c:310-312 *)
Definition v_c_U1D0D0 (E : env) : R :=
  ((- 2) * (gConf E 0 0)) * ((((v_dLnpsi_D0 E) * (igConf E 0 1)) + ((v_dLnpsi_D1 E) * (igConf E 1
  1))) + ((v_dLnpsi_D2 E) * (igConf E 1 2))).

(* /repo/Src/Main/Modules/Physics/Observe/obs_ADM_J_Stokes_constraint.c:314-317 *)
Definition v_c_U1D0D1 (E : env) : R :=
  ((((((- 2) * (v_dLnpsi_D0 E)) * (gConf E 0 1)) * (igConf E 0 1)) + (2 * (v_dLnpsi_D0 E))) -
  (((2 * (v_dLnpsi_D1 E)) * (gConf E 0 1)) * (igConf E 1 1))) - (((2 * (v_dLnpsi_D2 E)) * (gConf
  E 0 1)) * (igConf E 1 2)).

(* /repo/Src/Main/Modules/Physics/Observe/obs_ADM_J_Stokes_constraint.c:319-321 *)
Definition v_c_U1D0D2 (E : env) : R :=
  ((- 2) * (gConf E 0 2)) * ((((v_dLnpsi_D0 E) * (igConf E 0 1)) + ((v_dLnpsi_D1 E) * (igConf E 1
  1))) + ((v_dLnpsi_D2 E) * (igConf E 1 2))).

(* /repo/Src/Main/Modules/Physics/Observe/obs_ADM_J_Stokes_constraint.c:323-326 *)
Definition v_c_U2D2D2 (E : env) : R :=
  ((((((- 2) * (v_dLnpsi_D0 E)) * (gConf E 2 2)) * (igConf E 0 2)) - (((2 * (v_dLnpsi_D1 E)) *
  (gConf E 2 2)) * (igConf E 1 2))) - (((2 * (v_dLnpsi_D2 E)) * (gConf E 2 2)) * (igConf E 2 2)))
  + (4 * (v_dLnpsi_D2 E)).

(* /repo/Src/Main/Modules/Physics/Observe/obs_ADM_J_Stokes_constraint.c:328-329 *)
Definition v_Gamma_U1D0D0 (E : env) : R :=
  (ChrisConf E 1 0 0) + (v_c_U1D0D0 E).

(* /repo/Src/Main/Modules/Physics/Observe/obs_ADM_J_Stokes_constraint.c:331-332 *)
Definition v_Gamma_U0D2D2 (E : env) : R :=
  (ChrisConf E 0 2 2) + (v_c_U0D2D2 E).

(* /repo/Src/Main/Modules/Physics/Observe/obs_ADM_J_Stokes_constraint.c:334-335 *)
Definition v_Gamma_U1D0D2 (E : env) : R :=
  (ChrisConf E 1 0 2) + (v_c_U1D0D2 E).

(* /repo/Src/Main/Modules/Physics/Observe/obs_ADM_J_Stokes_constraint.c:337-338 *)
Definition v_Gamma_U2D2D2 (E : env) : R :=
  (ChrisConf E 2 2 2) + (v_c_U2D2D2 E).

(* /repo/Src/Main/Modules/Physics/Observe/obs_ADM_J_Stokes_constraint.c:340-341 *)
Definition v_Gamma_U1D0D1 (E : env) : R :=
  (ChrisConf E 1 0 1) + (v_c_U1D0D1 E).

(* /repo/Src/Main/Modules/Physics/Observe/obs_ADM_J_Stokes_constraint.c:343-344 *)
Definition v_Gamma_U1D2D2 (E : env) : R :=
  (ChrisConf E 1 2 2) + (v_c_U1D2D2 E).

(* /repo/Src/Main/Modules/Physics/Observe/obs_ADM_J_Stokes_constraint.c:346-347 *)
Definition v_Gamma_U0D0D2 (E : env) : R :=
  (ChrisConf E 0 0 2) + (v_c_U0D0D2 E).

(* /repo/Src/Main/Modules/Physics/Observe/obs_ADM_J_Stokes_constraint.c:349-350 *)
Definition v_Gamma_U2D0D1 (E : env) : R :=
  (ChrisConf E 2 0 1) + (v_c_U2D0D1 E).

(* /repo/Src/Main/Modules/Physics/Observe/obs_ADM_J_Stokes_constraint.c:352-353 *)
Definition v_Gamma_U2D1D2 (E : env) : R :=
  (ChrisConf E 2 1 2) + (v_c_U2D1D2 E).

(* /repo/Src/Main/Modules/Physics/Observe/obs_ADM_J_Stokes_constraint.c:355-356 *)
Definition v_Gamma_U2D0D2 (E : env) : R :=
  (ChrisConf E 2 0 2) + (v_c_U2D0D2 E).

(* /repo/Src/Main/Modules/Physics/Observe/obs_ADM_J_Stokes_constraint.c:358-359 *)
Definition v_Gamma_U0D0D1 (E : env) : R :=
  (ChrisConf E 0 0 1) + (v_c_U0D0D1 E).

(* /repo/Src/Main/Modules/Physics/Observe/obs_ADM_J_Stokes_constraint.c:361-362 *)
Definition v_Gamma_U2D0D0 (E : env) : R :=
  (ChrisConf E 2 0 0) + (v_c_U2D0D0 E).

(* /repo/Src/Main/Modules/Physics/Observe/obs_ADM_J_Stokes_constraint.c:364-365 *)
Definition v_Gamma_U0D0D0 (E : env) : R :=
  (ChrisConf E 0 0 0) + (v_c_U0D0D0 E).

(* /repo/Src/Main/Modules/Physics/Observe/obs_ADM_J_Stokes_constraint.c:367-368 *)
Definition v_Gamma_U1D1D1 (E : env) : R :=
  (ChrisConf E 1 1 1) + (v_c_U1D1D1 E).

(* /repo/Src/Main/Modules/Physics/Observe/obs_ADM_J_Stokes_constraint.c:370-371 *)
Definition v_Gamma_U0D1D1 (E : env) : R :=
  (ChrisConf E 0 1 1) + (v_c_U0D1D1 E).

(* /repo/Src/Main/Modules/Physics/Observe/obs_ADM_J_Stokes_constraint.c:373-374 *)
Definition v_Gamma_U0D1D2 (E : env) : R :=
  (ChrisConf E 0 1 2) + (v_c_U0D1D2 E).

(* /repo/Src/Main/Modules/Physics/Observe/obs_ADM_J_Stokes_constraint.c:376-377 *)
Definition v_Gamma_U1D1D2 (E : env) : R :=
  (ChrisConf E 1 1 2) + (v_c_U1D1D2 E).

(* /repo/Src/Main/Modules/Physics/Observe/obs_ADM_J_Stokes_constraint.c:379-380 *)
Definition v_Gamma_U2D1D1 (E : env) : R :=
  (ChrisConf E 2 1 1) + (v_c_U2D1D1 E).

(* /repo/Src/Main/Modules/Physics/Observe/obs_ADM_J_Stokes_constraint.c:382-388 *)
Definition v_mom_D2D2 (E : env) : R :=
  ((((- (2/3)) * (gConf E 2 2)) * (v_psi4_ E)) * (trK E)) + ((v_psim2_ E) * (((((((AConfIJ E 0 0)
  * ((gConf E 0 2) ^ 2)) + (((2 * (AConfIJ E 0 1)) * (gConf E 0 2)) * (gConf E 1 2))) + (((2 *
  (AConfIJ E 0 2)) * (gConf E 0 2)) * (gConf E 2 2))) + ((AConfIJ E 1 1) * ((gConf E 1 2) ^ 2)))
  + (((2 * (AConfIJ E 1 2)) * (gConf E 1 2)) * (gConf E 2 2))) + ((AConfIJ E 2 2) * ((gConf E 2
  2) ^ 2)))).

(* /repo/Src/Main/Modules/Physics/Observe/obs_ADM_J_Stokes_constraint.c:390-396 *)
Definition v_mom_D1D1 (E : env) : R :=
  ((((- (2/3)) * (gConf E 1 1)) * (v_psi4_ E)) * (trK E)) + ((v_psim2_ E) * (((((((AConfIJ E 0 0)
  * ((gConf E 0 1) ^ 2)) + (((2 * (AConfIJ E 0 1)) * (gConf E 0 1)) * (gConf E 1 1))) + (((2 *
  (AConfIJ E 0 2)) * (gConf E 0 1)) * (gConf E 1 2))) + ((AConfIJ E 1 1) * ((gConf E 1 1) ^ 2)))
  + (((2 * (AConfIJ E 1 2)) * (gConf E 1 1)) * (gConf E 1 2))) + ((AConfIJ E 2 2) * ((gConf E 1
  2) ^ 2)))).

(* /repo/Src/Main/Modules/Physics/Observe/obs_ADM_J_Stokes_constraint.c:398-406 *)
Definition v_mom_D1D2 (E : env) : R :=
  ((((- (2/3)) * (gConf E 1 2)) * (v_psi4_ E)) * (trK E)) + ((v_psim2_ E) * (((((((((((AConfIJ E
  0 0) * (gConf E 0 1)) * (gConf E 0 2)) + (((AConfIJ E 0 1) * (gConf E 0 1)) * (gConf E 1 2))) +
  (((AConfIJ E 0 1) * (gConf E 0 2)) * (gConf E 1 1))) + (((AConfIJ E 0 2) * (gConf E 0 1)) *
  (gConf E 2 2))) + (((AConfIJ E 0 2) * (gConf E 0 2)) * (gConf E 1 2))) + (((AConfIJ E 1 1) *
  (gConf E 1 1)) * (gConf E 1 2))) + (((AConfIJ E 1 2) * (gConf E 1 1)) * (gConf E 2 2))) +
  ((AConfIJ E 1 2) * ((gConf E 1 2) ^ 2))) + (((AConfIJ E 2 2) * (gConf E 1 2)) * (gConf E 2
  2)))).

(* /repo/Src/Main/Modules/Physics/Observe/obs_ADM_J_Stokes_constraint.c:408-414 *)
Definition v_mom_D0D0 (E : env) : R :=
  ((((- (2/3)) * (gConf E 0 0)) * (v_psi4_ E)) * (trK E)) + ((v_psim2_ E) * (((((((AConfIJ E 0 0)
  * ((gConf E 0 0) ^ 2)) + (((2 * (AConfIJ E 0 1)) * (gConf E 0 0)) * (gConf E 0 1))) + (((2 *
  (AConfIJ E 0 2)) * (gConf E 0 0)) * (gConf E 0 2))) + ((AConfIJ E 1 1) * ((gConf E 0 1) ^ 2)))
  + (((2 * (AConfIJ E 1 2)) * (gConf E 0 1)) * (gConf E 0 2))) + ((AConfIJ E 2 2) * ((gConf E 0
  2) ^ 2)))).

(* /repo/Src/Main/Modules/Physics/Observe/obs_ADM_J_Stokes_constraint.c:416-425 *)
Definition v_mom_D0D1 (E : env) : R :=
  ((((- (2/3)) * (gConf E 0 1)) * (v_psi4_ E)) * (trK E)) + ((v_psim2_ E) * (((((((((((AConfIJ E
  0 0) * (gConf E 0 0)) * (gConf E 0 1)) + (((AConfIJ E 0 1) * (gConf E 0 0)) * (gConf E 1 1))) +
  ((AConfIJ E 0 1) * ((gConf E 0 1) ^ 2))) + (((AConfIJ E 0 2) * (gConf E 0 0)) * (gConf E 1 2)))
  + (((AConfIJ E 0 2) * (gConf E 0 1)) * (gConf E 0 2))) + (((AConfIJ E 1 1) * (gConf E 0 1)) *
  (gConf E 1 1))) + (((AConfIJ E 1 2) * (gConf E 0 1)) * (gConf E 1 2))) + (((AConfIJ E 1 2) *
  (gConf E 0 2)) * (gConf E 1 1))) + (((AConfIJ E 2 2) * (gConf E 0 2)) * (gConf E 1 2)))).

(* /repo/Src/Main/Modules/Physics/Observe/obs_ADM_J_Stokes_constraint.c:427-435 *)
Definition v_mom_D0D2 (E : env) : R :=
  ((((- (2/3)) * (gConf E 0 2)) * (v_psi4_ E)) * (trK E)) + ((v_psim2_ E) * (((((((((((AConfIJ E
  0 0) * (gConf E 0 0)) * (gConf E 0 2)) + (((AConfIJ E 0 1) * (gConf E 0 0)) * (gConf E 1 2))) +
  (((AConfIJ E 0 1) * (gConf E 0 1)) * (gConf E 0 2))) + (((AConfIJ E 0 2) * (gConf E 0 0)) *
  (gConf E 2 2))) + ((AConfIJ E 0 2) * ((gConf E 0 2) ^ 2))) + (((AConfIJ E 1 1) * (gConf E 0 1))
  * (gConf E 1 2))) + (((AConfIJ E 1 2) * (gConf E 0 1)) * (gConf E 2 2))) + (((AConfIJ E 1 2) *
  (gConf E 0 2)) * (gConf E 1 2))) + (((AConfIJ E 2 2) * (gConf E 0 2)) * (gConf E 2 2)))).

(* /repo/Src/Main/Modules/Physics/Observe/obs_ADM_J_Stokes_constraint.c:437-438 *)
Definition v_Phi_U1D2 (E : env) : R :=
  v_x_xCM_U0 E.

(* /repo/Src/Main/Modules/Physics/Observe/obs_ADM_J_Stokes_constraint.c:440-441 *)
Definition v_Phi_U0D2 (E : env) : R :=
  - (v_x_xCM_U1 E).

(* /repo/Src/Main/Modules/Physics/Observe/obs_ADM_J_Stokes_constraint.c:443-444 *)
Definition v_Phi_U0D1 (E : env) : R :=
  v_x_xCM_U2 E.

(* /repo/Src/Main/Modules/Physics/Observe/obs_ADM_J_Stokes_constraint.c:446-447 *)
Definition v_Phi_U0D0 (E : env) : R :=
  0.

(* /repo/Src/Main/Modules/Physics/Observe/obs_ADM_J_Stokes_constraint.c:449-450 *)
Definition v_Phi_U1D0 (E : env) : R :=
  - (v_x_xCM_U2 E).

(* /repo/Src/Main/Modules/Physics/Observe/obs_ADM_J_Stokes_constraint.c:452-453 *)
Definition v_Phi_U1D1 (E : env) : R :=
  0.

(* /repo/Src/Main/Modules/Physics/Observe/obs_ADM_J_Stokes_constraint.c:455-456 *)
Definition v_Phi_U2D1 (E : env) : R :=
  - (v_x_xCM_U0 E).

(* /repo/Src/Main/Modules/Physics/Observe/obs_ADM_J_Stokes_constraint.c:458-459 *)
Definition v_Phi_U2D0 (E : env) : R :=
  v_x_xCM_U1 E.

(* /repo/Src/Main/Modules/Physics/Observe/obs_ADM_J_Stokes_constraint.c:461-462 *)
Definition v_Phi_U2D2 (E : env) : R :=
  0.

(* /repo/Src/Main/Modules/Physics/Observe/obs_ADM_J_Stokes_constraint.c:464-465 *)
Definition v_dPhi_U0D2U1 (E : env) : R :=
  - 1.

(* /repo/Src/Main/Modules/Physics/Observe/obs_ADM_J_Stokes_constraint.c:467-468 *)
Definition v_dPhi_U0D2U0 (E : env) : R :=
  0.

(* /repo/Src/Main/Modules/Physics/Observe/obs_ADM_J_Stokes_constraint.c:470-471 *)
Definition v_dPhi_U0D2U2 (E : env) : R :=
  0.

(* /repo/Src/Main/Modules/Physics/Observe/obs_ADM_J_Stokes_constraint.c:473-474 *)
Definition v_dPhi_U2D2U2 (E : env) : R :=
  0.

(* /repo/Src/Main/Modules/Physics/Observe/obs_ADM_J_Stokes_constraint.c:476-477 *)
Definition v_dPhi_U2D2U1 (E : env) : R :=
  0.

(* /repo/Src/Main/Modules/Physics/Observe/obs_ADM_J_Stokes_constraint.c:479-480 *)
Definition v_dPhi_U2D2U0 (E : env) : R :=
  0.

(* /repo/Src/Main/Modules/Physics/Observe/obs_ADM_J_Stokes_constraint.c:482-483 *)
Definition v_dPhi_U0D1U2 (E : env) : R :=
  1.

(* /repo/Src/Main/Modules/Physics/Observe/obs_ADM_J_Stokes_constraint.c:485-486 *)
Definition v_dPhi_U0D1U0 (E : env) : R :=
  0.

(* /repo/Src/Main/Modules/Physics/Observe/obs_ADM_J_Stokes_constraint.c:488-489 *)
Definition v_dPhi_U0D1U1 (E : env) : R :=
  0.

(* /repo/Src/Main/Modules/Physics/Observe/obs_ADM_J_Stokes_constraint.c:491-492 *)
Definition v_dPhi_U2D0U1 (E : env) : R :=
  1.

(* /repo/Src/Main/Modules/Physics/Observe/obs_ADM_J_Stokes_constraint.c:494-495 *)
Definition v_dPhi_U2D0U0 (E : env) : R :=
  0.

(* /repo/Src/Main/Modules/Physics/Observe/obs_ADM_J_Stokes_constraint.c:497-498 *)
Definition v_dPhi_U2D0U2 (E : env) : R :=
  0.

(* /repo/Src/Main/Modules/Physics/Observe/obs_ADM_J_Stokes_constraint.c:500-501 *)
Definition v_dPhi_U2D1U0 (E : env) : R :=
  - 1.

(* /repo/Src/Main/Modules/Physics/Observe/obs_ADM_J_Stokes_constraint.c:503-504 *)
Definition v_dPhi_U2D1U1 (E : env) : R :=
  0.

(* /repo/Src/Main/Modules/Physics/Observe/obs_ADM_J_Stokes_constraint.c:506-507 *)
Definition v_dPhi_U2D1U2 (E : env) : R :=
  0.

(* /repo/Src/Main/Modules/Physics/Observe/obs_ADM_J_Stokes_constraint.c:509-510 *)
Definition v_dPhi_U1D1U2 (E : env) : R :=
  0.

(* /repo/Src/Main/Modules/Physics/Observe/obs_ADM_J_Stokes_constraint.c:512-513 *)
Definition v_dPhi_U1D1U1 (E : env) : R :=
  0.

(* /repo/Src/Main/Modules/Physics/Observe/obs_ADM_J_Stokes_constraint.c:515-516 *)
Definition v_dPhi_U1D1U0 (E : env) : R :=
  0.

(* /repo/Src/Main/Modules/Physics/Observe/obs_ADM_J_Stokes_constraint.c:518-519 *)
Definition v_dPhi_U1D0U2 (E : env) : R :=
  - 1.

(* /repo/Src/Main/Modules/Physics/Observe/obs_ADM_J_Stokes_constraint.c:521-522 *)
Definition v_dPhi_U1D0U0 (E : env) : R :=
  0.

(* /repo/Src/Main/Modules/Physics/Observe/obs_ADM_J_Stokes_constraint.c:524-525 *)
Definition v_dPhi_U1D0U1 (E : env) : R :=
  0.

(* /repo/Src/Main/Modules/Physics/Observe/obs_ADM_J_Stokes_constraint.c:527-528 *)
Definition v_dPhi_U1D2U0 (E : env) : R :=
  1.

(* /repo/Src/Main/Modules/Physics/Observe/obs_ADM_J_Stokes_constraint.c:530-531 *)
Definition v_dPhi_U1D2U1 (E : env) : R :=
  0.

(* /repo/Src/Main/Modules/Physics/Observe/obs_ADM_J_Stokes_constraint.c:533-534 *)
Definition v_dPhi_U1D2U2 (E : env) : R :=
  0.

(* /repo/Src/Main/Modules/Physics/Observe/obs_ADM_J_Stokes_constraint.c:536-537 *)
Definition v_dPhi_U0D0U2 (E : env) : R :=
  0.

(* /repo/Src/Main/Modules/Physics/Observe/obs_ADM_J_Stokes_constraint.c:539-540 *)
Definition v_dPhi_U0D0U1 (E : env) : R :=
  0.

(* /repo/Src/Main/Modules/Physics/Observe/obs_ADM_J_Stokes_constraint.c:542-543 *)
Definition v_dPhi_U0D0U0 (E : env) : R :=
  0.

(* /repo/Src/Main/Modules/Physics/Observe/obs_ADM_J_Stokes_constraint.c:545-547 *)
Definition v_Dphi_U1D0U2 (E : env) : R :=
  ((((v_Gamma_U1D0D2 E) * (v_Phi_U0D0 E)) + ((v_Gamma_U1D1D2 E) * (v_Phi_U1D0 E))) +
  ((v_Gamma_U1D2D2 E) * (v_Phi_U2D0 E))) + (v_dPhi_U1D0U2 E).

(* /repo/Src/Main/Modules/Physics/Observe/obs_ADM_J_Stokes_constraint.c:549-551 *)
Definition v_Dphi_U1D0U0 (E : env) : R :=
  ((((v_Gamma_U1D0D0 E) * (v_Phi_U0D0 E)) + ((v_Gamma_U1D0D1 E) * (v_Phi_U1D0 E))) +
  ((v_Gamma_U1D0D2 E) * (v_Phi_U2D0 E))) + (v_dPhi_U1D0U0 E).

(* /repo/Src/Main/Modules/Physics/Observe/obs_ADM_J_Stokes_constraint.c:553-555 *)
Definition v_Dphi_U1D0U1 (E : env) : R :=
  ((((v_Gamma_U1D0D1 E) * (v_Phi_U0D0 E)) + ((v_Gamma_U1D1D1 E) * (v_Phi_U1D0 E))) +
  ((v_Gamma_U1D1D2 E) * (v_Phi_U2D0 E))) + (v_dPhi_U1D0U1 E).

(* /repo/Src/Main/Modules/Physics/Observe/obs_ADM_J_Stokes_constraint.c:557-559 *)
Definition v_Dphi_U1D2U0 (E : env) : R :=
  ((((v_Gamma_U1D0D0 E) * (v_Phi_U0D2 E)) + ((v_Gamma_U1D0D1 E) * (v_Phi_U1D2 E))) +
  ((v_Gamma_U1D0D2 E) * (v_Phi_U2D2 E))) + (v_dPhi_U1D2U0 E).

(* /repo/Src/Main/Modules/Physics/Observe/obs_ADM_J_Stokes_constraint.c:561-563 *)
Definition v_Dphi_U1D2U1 (E : env) : R :=
  ((((v_Gamma_U1D0D1 E) * (v_Phi_U0D2 E)) + ((v_Gamma_U1D1D1 E) * (v_Phi_U1D2 E))) +
  ((v_Gamma_U1D1D2 E) * (v_Phi_U2D2 E))) + (v_dPhi_U1D2U1 E).

(* /repo/Src/Main/Modules/Physics/Observe/obs_ADM_J_Stokes_constraint.c:565-567 *)
Definition v_Dphi_U1D2U2 (E : env) : R :=
  ((((v_Gamma_U1D0D2 E) * (v_Phi_U0D2 E)) + ((v_Gamma_U1D1D2 E) * (v_Phi_U1D2 E))) +
  ((v_Gamma_U1D2D2 E) * (v_Phi_U2D2 E))) + (v_dPhi_U1D2U2 E).

(* /repo/Src/Main/Modules/Physics/Observe/obs_ADM_J_Stokes_constraint.c:569-571 *)
Definition v_Dphi_U0D0U2 (E : env) : R :=
  ((((v_Gamma_U0D0D2 E) * (v_Phi_U0D0 E)) + ((v_Gamma_U0D1D2 E) * (v_Phi_U1D0 E))) +
  ((v_Gamma_U0D2D2 E) * (v_Phi_U2D0 E))) + (v_dPhi_U0D0U2 E).

(* /repo/Src/Main/Modules/Physics/Observe/obs_ADM_J_Stokes_constraint.c:573-575 *)
Definition v_Dphi_U0D0U1 (E : env) : R :=
  ((((v_Gamma_U0D0D1 E) * (v_Phi_U0D0 E)) + ((v_Gamma_U0D1D1 E) * (v_Phi_U1D0 E))) +
  ((v_Gamma_U0D1D2 E) * (v_Phi_U2D0 E))) + (v_dPhi_U0D0U1 E).

(* /repo/Src/Main/Modules/Physics/Observe/obs_ADM_J_Stokes_constraint.c:577-579 *)
Definition v_Dphi_U0D0U0 (E : env) : R :=
  ((((v_Gamma_U0D0D0 E) * (v_Phi_U0D0 E)) + ((v_Gamma_U0D0D1 E) * (v_Phi_U1D0 E))) +
  ((v_Gamma_U0D0D2 E) * (v_Phi_U2D0 E))) + (v_dPhi_U0D0U0 E).

(* /repo/Src/Main/Modules/Physics/Observe/obs_ADM_J_Stokes_constraint.c:581-583 *)
Definition v_Dphi_U0D2U1 (E : env) : R :=
  ((((v_Gamma_U0D0D1 E) * (v_Phi_U0D2 E)) + ((v_Gamma_U0D1D1 E) * (v_Phi_U1D2 E))) +
  ((v_Gamma_U0D1D2 E) * (v_Phi_U2D2 E))) + (v_dPhi_U0D2U1 E).

(* /repo/Src/Main/Modules/Physics/Observe/obs_ADM_J_Stokes_constraint.c:585-587 *)
Definition v_Dphi_U0D2U0 (E : env) : R :=
  ((((v_Gamma_U0D0D0 E) * (v_Phi_U0D2 E)) + ((v_Gamma_U0D0D1 E) * (v_Phi_U1D2 E))) +
  ((v_Gamma_U0D0D2 E) * (v_Phi_U2D2 E))) + (v_dPhi_U0D2U0 E).

(* /repo/Src/Main/Modules/Physics/Observe/obs_ADM_J_Stokes_constraint.c:589-591 *)
Definition v_Dphi_U0D2U2 (E : env) : R :=
  ((((v_Gamma_U0D0D2 E) * (v_Phi_U0D2 E)) + ((v_Gamma_U0D1D2 E) * (v_Phi_U1D2 E))) +
  ((v_Gamma_U0D2D2 E) * (v_Phi_U2D2 E))) + (v_dPhi_U0D2U2 E).

(* /repo/Src/Main/Modules/Physics/Observe/obs_ADM_J_Stokes_constraint.c:593-595 *)
Definition v_Dphi_U2D2U2 (E : env) : R :=
  ((((v_Gamma_U2D0D2 E) * (v_Phi_U0D2 E)) + ((v_Gamma_U2D1D2 E) * (v_Phi_U1D2 E))) +
  ((v_Gamma_U2D2D2 E) * (v_Phi_U2D2 E))) + (v_dPhi_U2D2U2 E).

(* /repo/Src/Main/Modules/Physics/Observe/obs_ADM_J_Stokes_constraint.c:597-599 *)
Definition v_Dphi_U2D2U1 (E : env) : R :=
  ((((v_Gamma_U2D0D1 E) * (v_Phi_U0D2 E)) + ((v_Gamma_U2D1D1 E) * (v_Phi_U1D2 E))) +
  ((v_Gamma_U2D1D2 E) * (v_Phi_U2D2 E))) + (v_dPhi_U2D2U1 E).

(* /repo/Src/Main/Modules/Physics/Observe/obs_ADM_J_Stokes_constraint.c:601-603 *)
Definition v_Dphi_U2D2U0 (E : env) : R :=
  ((((v_Gamma_U2D0D0 E) * (v_Phi_U0D2 E)) + ((v_Gamma_U2D0D1 E) * (v_Phi_U1D2 E))) +
  ((v_Gamma_U2D0D2 E) * (v_Phi_U2D2 E))) + (v_dPhi_U2D2U0 E).

(* /repo/Src/Main/Modules/Physics/Observe/obs_ADM_J_Stokes_constraint.c:605-607 *)
Definition v_Dphi_U0D1U2 (E : env) : R :=
  ((((v_Gamma_U0D0D2 E) * (v_Phi_U0D1 E)) + ((v_Gamma_U0D1D2 E) * (v_Phi_U1D1 E))) +
  ((v_Gamma_U0D2D2 E) * (v_Phi_U2D1 E))) + (v_dPhi_U0D1U2 E).

(* /repo/Src/Main/Modules/Physics/Observe/obs_ADM_J_Stokes_constraint.c:609-611 *)
Definition v_Dphi_U0D1U0 (E : env) : R :=
  ((((v_Gamma_U0D0D0 E) * (v_Phi_U0D1 E)) + ((v_Gamma_U0D0D1 E) * (v_Phi_U1D1 E))) +
  ((v_Gamma_U0D0D2 E) * (v_Phi_U2D1 E))) + (v_dPhi_U0D1U0 E).

(* /repo/Src/Main/Modules/Physics/Observe/obs_ADM_J_Stokes_constraint.c:613-615 *)
Definition v_Dphi_U0D1U1 (E : env) : R :=
  ((((v_Gamma_U0D0D1 E) * (v_Phi_U0D1 E)) + ((v_Gamma_U0D1D1 E) * (v_Phi_U1D1 E))) +
  ((v_Gamma_U0D1D2 E) * (v_Phi_U2D1 E))) + (v_dPhi_U0D1U1 E).

(* /repo/Src/Main/Modules/Physics/Observe/obs_ADM_J_Stokes_constraint.c:617-619 *)
Definition v_Dphi_U2D0U1 (E : env) : R :=
  ((((v_Gamma_U2D0D1 E) * (v_Phi_U0D0 E)) + ((v_Gamma_U2D1D1 E) * (v_Phi_U1D0 E))) +
  ((v_Gamma_U2D1D2 E) * (v_Phi_U2D0 E))) + (v_dPhi_U2D0U1 E).

(* /repo/Src/Main/Modules/Physics/Observe/obs_ADM_J_Stokes_constraint.c:621-623 *)
Definition v_Dphi_U2D0U0 (E : env) : R :=
  ((((v_Gamma_U2D0D0 E) * (v_Phi_U0D0 E)) + ((v_Gamma_U2D0D1 E) * (v_Phi_U1D0 E))) +
  ((v_Gamma_U2D0D2 E) * (v_Phi_U2D0 E))) + (v_dPhi_U2D0U0 E).

(* /repo/Src/Main/Modules/Physics/Observe/obs_ADM_J_Stokes_constraint.c:625-627 *)
Definition v_Dphi_U2D0U2 (E : env) : R :=
  ((((v_Gamma_U2D0D2 E) * (v_Phi_U0D0 E)) + ((v_Gamma_U2D1D2 E) * (v_Phi_U1D0 E))) +
  ((v_Gamma_U2D2D2 E) * (v_Phi_U2D0 E))) + (v_dPhi_U2D0U2 E).

(* /repo/Src/Main/Modules/Physics/Observe/obs_ADM_J_Stokes_constraint.c:629-631 *)
Definition v_Dphi_U2D1U0 (E : env) : R :=
  ((((v_Gamma_U2D0D0 E) * (v_Phi_U0D1 E)) + ((v_Gamma_U2D0D1 E) * (v_Phi_U1D1 E))) +
  ((v_Gamma_U2D0D2 E) * (v_Phi_U2D1 E))) + (v_dPhi_U2D1U0 E).

(* /repo/Src/Main/Modules/Physics/Observe/obs_ADM_J_Stokes_constraint.c:633-635 *)
Definition v_Dphi_U2D1U1 (E : env) : R :=
  ((((v_Gamma_U2D0D1 E) * (v_Phi_U0D1 E)) + ((v_Gamma_U2D1D1 E) * (v_Phi_U1D1 E))) +
  ((v_Gamma_U2D1D2 E) * (v_Phi_U2D1 E))) + (v_dPhi_U2D1U1 E).

(* /repo/Src/Main/Modules/Physics/Observe/obs_ADM_J_Stokes_constraint.c:637-639 *)
Definition v_Dphi_U2D1U2 (E : env) : R :=
  ((((v_Gamma_U2D0D2 E) * (v_Phi_U0D1 E)) + ((v_Gamma_U2D1D2 E) * (v_Phi_U1D1 E))) +
  ((v_Gamma_U2D2D2 E) * (v_Phi_U2D1 E))) + (v_dPhi_U2D1U2 E).

(* /repo/Src/Main/Modules/Physics/Observe/obs_ADM_J_Stokes_constraint.c:641-643 *)
Definition v_Dphi_U1D1U2 (E : env) : R :=
  ((((v_Gamma_U1D0D2 E) * (v_Phi_U0D1 E)) + ((v_Gamma_U1D1D2 E) * (v_Phi_U1D1 E))) +
  ((v_Gamma_U1D2D2 E) * (v_Phi_U2D1 E))) + (v_dPhi_U1D1U2 E).

(* /repo/Src/Main/Modules/Physics/Observe/obs_ADM_J_Stokes_constraint.c:645-647 *)
Definition v_Dphi_U1D1U1 (E : env) : R :=
  ((((v_Gamma_U1D0D1 E) * (v_Phi_U0D1 E)) + ((v_Gamma_U1D1D1 E) * (v_Phi_U1D1 E))) +
  ((v_Gamma_U1D1D2 E) * (v_Phi_U2D1 E))) + (v_dPhi_U1D1U1 E).

(* /repo/Src/Main/Modules/Physics/Observe/obs_ADM_J_Stokes_constraint.c:649-651 *)
Definition v_Dphi_U1D1U0 (E : env) : R :=
  ((((v_Gamma_U1D0D0 E) * (v_Phi_U0D1 E)) + ((v_Gamma_U1D0D1 E) * (v_Phi_U1D1 E))) +
  ((v_Gamma_U1D0D2 E) * (v_Phi_U2D1 E))) + (v_dPhi_U1D1U0 E).

(* /repo/Src/Main/Modules/Physics/Observe/obs_ADM_J_Stokes_constraint.c:653-670 *)
Definition v_Jv_D2 (E : env) : R :=
  (v_psim4_ E) * (((((((((((((((((((((((((((((v_Dphi_U0D2U0 E) * (igConf E 0 0)) * (v_mom_D0D0
  E)) + (((v_Dphi_U0D2U0 E) * (igConf E 0 1)) * (v_mom_D0D1 E))) + (((v_Dphi_U0D2U0 E) * (igConf
  E 0 2)) * (v_mom_D0D2 E))) + (((v_Dphi_U0D2U1 E) * (igConf E 0 1)) * (v_mom_D0D0 E))) +
  (((v_Dphi_U0D2U1 E) * (igConf E 1 1)) * (v_mom_D0D1 E))) + (((v_Dphi_U0D2U1 E) * (igConf E 1
  2)) * (v_mom_D0D2 E))) + (((v_Dphi_U0D2U2 E) * (igConf E 0 2)) * (v_mom_D0D0 E))) +
  (((v_Dphi_U0D2U2 E) * (igConf E 1 2)) * (v_mom_D0D1 E))) + (((v_Dphi_U0D2U2 E) * (igConf E 2
  2)) * (v_mom_D0D2 E))) + (((v_Dphi_U1D2U0 E) * (igConf E 0 0)) * (v_mom_D0D1 E))) +
  (((v_Dphi_U1D2U0 E) * (igConf E 0 1)) * (v_mom_D1D1 E))) + (((v_Dphi_U1D2U0 E) * (igConf E 0
  2)) * (v_mom_D1D2 E))) + (((v_Dphi_U1D2U1 E) * (igConf E 0 1)) * (v_mom_D0D1 E))) +
  (((v_Dphi_U1D2U1 E) * (igConf E 1 1)) * (v_mom_D1D1 E))) + (((v_Dphi_U1D2U1 E) * (igConf E 1
  2)) * (v_mom_D1D2 E))) + (((v_Dphi_U1D2U2 E) * (igConf E 0 2)) * (v_mom_D0D1 E))) +
  (((v_Dphi_U1D2U2 E) * (igConf E 1 2)) * (v_mom_D1D1 E))) + (((v_Dphi_U1D2U2 E) * (igConf E 2
  2)) * (v_mom_D1D2 E))) + (((v_Dphi_U2D2U0 E) * (igConf E 0 0)) * (v_mom_D0D2 E))) +
  (((v_Dphi_U2D2U0 E) * (igConf E 0 1)) * (v_mom_D1D2 E))) + (((v_Dphi_U2D2U0 E) * (igConf E 0
  2)) * (v_mom_D2D2 E))) + (((v_Dphi_U2D2U1 E) * (igConf E 0 1)) * (v_mom_D0D2 E))) +
  (((v_Dphi_U2D2U1 E) * (igConf E 1 1)) * (v_mom_D1D2 E))) + (((v_Dphi_U2D2U1 E) * (igConf E 1
  2)) * (v_mom_D2D2 E))) + (((v_Dphi_U2D2U2 E) * (igConf E 0 2)) * (v_mom_D0D2 E))) +
  (((v_Dphi_U2D2U2 E) * (igConf E 1 2)) * (v_mom_D1D2 E))) + (((v_Dphi_U2D2U2 E) * (igConf E 2
  2)) * (v_mom_D2D2 E))).

(* /repo/Src/Main/Modules/Physics/Observe/obs_ADM_J_Stokes_constraint.c:672-689 *)
Definition v_Jv_D0 (E : env) : R :=
  (v_psim4_ E) * (((((((((((((((((((((((((((((v_Dphi_U0D0U0 E) * (igConf E 0 0)) * (v_mom_D0D0
  E)) + (((v_Dphi_U0D0U0 E) * (igConf E 0 1)) * (v_mom_D0D1 E))) + (((v_Dphi_U0D0U0 E) * (igConf
  E 0 2)) * (v_mom_D0D2 E))) + (((v_Dphi_U0D0U1 E) * (igConf E 0 1)) * (v_mom_D0D0 E))) +
  (((v_Dphi_U0D0U1 E) * (igConf E 1 1)) * (v_mom_D0D1 E))) + (((v_Dphi_U0D0U1 E) * (igConf E 1
  2)) * (v_mom_D0D2 E))) + (((v_Dphi_U0D0U2 E) * (igConf E 0 2)) * (v_mom_D0D0 E))) +
  (((v_Dphi_U0D0U2 E) * (igConf E 1 2)) * (v_mom_D0D1 E))) + (((v_Dphi_U0D0U2 E) * (igConf E 2
  2)) * (v_mom_D0D2 E))) + (((v_Dphi_U1D0U0 E) * (igConf E 0 0)) * (v_mom_D0D1 E))) +
  (((v_Dphi_U1D0U0 E) * (igConf E 0 1)) * (v_mom_D1D1 E))) + (((v_Dphi_U1D0U0 E) * (igConf E 0
  2)) * (v_mom_D1D2 E))) + (((v_Dphi_U1D0U1 E) * (igConf E 0 1)) * (v_mom_D0D1 E))) +
  (((v_Dphi_U1D0U1 E) * (igConf E 1 1)) * (v_mom_D1D1 E))) + (((v_Dphi_U1D0U1 E) * (igConf E 1
  2)) * (v_mom_D1D2 E))) + (((v_Dphi_U1D0U2 E) * (igConf E 0 2)) * (v_mom_D0D1 E))) +
  (((v_Dphi_U1D0U2 E) * (igConf E 1 2)) * (v_mom_D1D1 E))) + (((v_Dphi_U1D0U2 E) * (igConf E 2
  2)) * (v_mom_D1D2 E))) + (((v_Dphi_U2D0U0 E) * (igConf E 0 0)) * (v_mom_D0D2 E))) +
  (((v_Dphi_U2D0U0 E) * (igConf E 0 1)) * (v_mom_D1D2 E))) + (((v_Dphi_U2D0U0 E) * (igConf E 0
  2)) * (v_mom_D2D2 E))) + (((v_Dphi_U2D0U1 E) * (igConf E 0 1)) * (v_mom_D0D2 E))) +
  (((v_Dphi_U2D0U1 E) * (igConf E 1 1)) * (v_mom_D1D2 E))) + (((v_Dphi_U2D0U1 E) * (igConf E 1
  2)) * (v_mom_D2D2 E))) + (((v_Dphi_U2D0U2 E) * (igConf E 0 2)) * (v_mom_D0D2 E))) +
  (((v_Dphi_U2D0U2 E) * (igConf E 1 2)) * (v_mom_D1D2 E))) + (((v_Dphi_U2D0U2 E) * (igConf E 2
  2)) * (v_mom_D2D2 E))).

(* /repo/Src/Main/Modules/Physics/Observe/obs_ADM_J_Stokes_constraint.c:691-708 *)
Definition v_Jv_D1 (E : env) : R :=
  (v_psim4_ E) * (((((((((((((((((((((((((((((v_Dphi_U0D1U0 E) * (igConf E 0 0)) * (v_mom_D0D0
  E)) + (((v_Dphi_U0D1U0 E) * (igConf E 0 1)) * (v_mom_D0D1 E))) + (((v_Dphi_U0D1U0 E) * (igConf
  E 0 2)) * (v_mom_D0D2 E))) + (((v_Dphi_U0D1U1 E) * (igConf E 0 1)) * (v_mom_D0D0 E))) +
  (((v_Dphi_U0D1U1 E) * (igConf E 1 1)) * (v_mom_D0D1 E))) + (((v_Dphi_U0D1U1 E) * (igConf E 1
  2)) * (v_mom_D0D2 E))) + (((v_Dphi_U0D1U2 E) * (igConf E 0 2)) * (v_mom_D0D0 E))) +
  (((v_Dphi_U0D1U2 E) * (igConf E 1 2)) * (v_mom_D0D1 E))) + (((v_Dphi_U0D1U2 E) * (igConf E 2
  2)) * (v_mom_D0D2 E))) + (((v_Dphi_U1D1U0 E) * (igConf E 0 0)) * (v_mom_D0D1 E))) +
  (((v_Dphi_U1D1U0 E) * (igConf E 0 1)) * (v_mom_D1D1 E))) + (((v_Dphi_U1D1U0 E) * (igConf E 0
  2)) * (v_mom_D1D2 E))) + (((v_Dphi_U1D1U1 E) * (igConf E 0 1)) * (v_mom_D0D1 E))) +
  (((v_Dphi_U1D1U1 E) * (igConf E 1 1)) * (v_mom_D1D1 E))) + (((v_Dphi_U1D1U1 E) * (igConf E 1
  2)) * (v_mom_D1D2 E))) + (((v_Dphi_U1D1U2 E) * (igConf E 0 2)) * (v_mom_D0D1 E))) +
  (((v_Dphi_U1D1U2 E) * (igConf E 1 2)) * (v_mom_D1D1 E))) + (((v_Dphi_U1D1U2 E) * (igConf E 2
  2)) * (v_mom_D1D2 E))) + (((v_Dphi_U2D1U0 E) * (igConf E 0 0)) * (v_mom_D0D2 E))) +
  (((v_Dphi_U2D1U0 E) * (igConf E 0 1)) * (v_mom_D1D2 E))) + (((v_Dphi_U2D1U0 E) * (igConf E 0
  2)) * (v_mom_D2D2 E))) + (((v_Dphi_U2D1U1 E) * (igConf E 0 1)) * (v_mom_D0D2 E))) +
  (((v_Dphi_U2D1U1 E) * (igConf E 1 1)) * (v_mom_D1D2 E))) + (((v_Dphi_U2D1U1 E) * (igConf E 1
  2)) * (v_mom_D2D2 E))) + (((v_Dphi_U2D1U2 E) * (igConf E 0 2)) * (v_mom_D0D2 E))) +
  (((v_Dphi_U2D1U2 E) * (igConf E 1 2)) * (v_mom_D1D2 E))) + (((v_Dphi_U2D1U2 E) * (igConf E 2
  2)) * (v_mom_D2D2 E))).

(* /repo/Src/Main/Modules/Physics/Observe/obs_ADM_J_Stokes_constraint.c:712 *)
Definition v_out_obs__Jv_D1 (E : env) : R :=
  v_Jv_D1 E.

(* /repo/Src/Main/Modules/Physics/Observe/obs_ADM_J_Stokes_constraint.c:713 *)
Definition v_out_obs__Jv_D0 (E : env) : R :=
  v_Jv_D0 E.

(* /repo/Src/Main/Modules/Physics/Observe/obs_ADM_J_Stokes_constraint.c:714 *)
Definition v_out_obs__Jv_D2 (E : env) : R :=
  v_Jv_D2 E.

(* /repo/Src/Main/Modules/Physics/Observe/obs_ADM_J_Stokes_constraint.c:214-216: the arrays obs__Js_.. after the loop body; the others keep their value *)
Definition store_obs__Js (E : env) (old : nat -> R) : nat -> R :=
  fun i => match i with
  | 2%nat => out_obs__Js_D2 E
  | 0%nat => out_obs__Js_D0 E
  | 1%nat => out_obs__Js_D1 E
  | _ => old i
  end.

(* /repo/Src/Main/Modules/Physics/Observe/obs_ADM_J_Stokes_constraint.c:712-714: the arrays obs__Jv_.. after the loop body; the others keep their value *)
Definition store_obs__Jv (E : env) (old : nat -> R) : nat -> R :=
  fun i => match i with
  | 1%nat => v_out_obs__Jv_D1 E
  | 0%nat => v_out_obs__Jv_D0 E
  | 2%nat => v_out_obs__Jv_D2 E
  | _ => old i
  end.
