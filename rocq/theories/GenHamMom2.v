(* Generated by tools/c2coq.py from /repo/Src/Main/Modules/Physics/ADM/adm_ham_mom_from_scratch.c: do not edit.
   Pointwise: one node ijk of the loop over the nodes of a patch; doubles are reals. *)
Require Import Reals.
Local Open Scope R_scope.

(* /repo/Src/Main/Modules/Physics/ADM/adm_ham_mom_from_scratch.c:235-485: the values the loop body reads at its node: field B_U0D1 is B 0 1 *)
Record env : Type := mk {
  EConfC : R;
  EConfP : R;
  Gamma : nat -> nat -> nat -> R;
  JConfC : R;
  JConfP : nat -> R;
  adm_KIJ : nat -> nat -> R;
  adm_g : nat -> nat -> R;
  adm_ig : nat -> nat -> R;
  dGamma : nat -> nat -> nat -> nat -> R;
  dadm_KIJ : nat -> nat -> nat -> R;
  dtrK : nat -> R;
  psi : R;
  trK : R }.

(* /repo/Src/Main/Modules/Physics/ADM/adm_ham_mom_from_scratch.c:236-237 *)
Definition psim6 (E : env) : R :=
  / ((psi E) ^ 6).

(* /repo/Src/Main/Modules/Physics/ADM/adm_ham_mom_from_scratch.c:239-240 *)
Definition Jp_U0 (E : env) : R :=
  (JConfP E 0) * (psim6 E).

(* /repo/Src/Main/Modules/Physics/ADM/adm_ham_mom_from_scratch.c:242-243 *)
Definition Jp_U1 (E : env) : R :=
  (JConfP E 1) * (psim6 E).

(* /repo/Src/Main/Modules/Physics/ADM/adm_ham_mom_from_scratch.c:245-246 *)
Definition Jp_U2 (E : env) : R :=
  (JConfP E 2) * (psim6 E).

(* /repo/Src/Main/Modules/Physics/ADM/adm_ham_mom_from_scratch.c:248-249 *)
Definition Ep (E : env) : R :=
  (EConfP E) * (psim6 E).

(* /repo/Src/Main/Modules/Physics/ADM/adm_ham_mom_from_scratch.c:251-252 *)
Definition Ric1_D0D0 (E : env) : R :=
  ((dGamma E 0 0 0 0) + (dGamma E 1 0 0 1)) + (dGamma E 2 0 0 2).

(* /repo/Src/Main/Modules/Physics/ADM/adm_ham_mom_from_scratch.c:254-255 *)
Definition Ric1_D0D1 (E : env) : R :=
  ((dGamma E 0 0 1 0) + (dGamma E 1 0 1 1)) + (dGamma E 2 0 1 2).

(* /repo/Src/Main/Modules/Physics/ADM/adm_ham_mom_from_scratch.c:257-258 *)
Definition Ric1_D0D2 (E : env) : R :=
  ((dGamma E 0 0 2 0) + (dGamma E 1 0 2 1)) + (dGamma E 2 0 2 2).

(* /repo/Src/Main/Modules/Physics/ADM/adm_ham_mom_from_scratch.c:260-261 *)
Definition Ric1_D1D1 (E : env) : R :=
  ((dGamma E 0 1 1 0) + (dGamma E 1 1 1 1)) + (dGamma E 2 1 1 2).

(* /repo/Src/Main/Modules/Physics/ADM/adm_ham_mom_from_scratch.c:263-264 *)
Definition Ric1_D1D2 (E : env) : R :=
  ((dGamma E 0 1 2 0) + (dGamma E 1 1 2 1)) + (dGamma E 2 1 2 2).

(* /repo/Src/Main/Modules/Physics/ADM/adm_ham_mom_from_scratch.c:266-267 *)
Definition Ric1_D2D2 (E : env) : R :=
  ((dGamma E 0 2 2 0) + (dGamma E 1 2 2 1)) + (dGamma E 2 2 2 2).

(* /repo/Src/Main/Modules/Physics/ADM/adm_ham_mom_from_scratch.c:269-270 *)
Definition Ric2_D0D0 (E : env) : R :=
  ((- (dGamma E 0 0 0 0)) - (dGamma E 1 0 1 0)) - (dGamma E 2 0 2 0).

(* /repo/Src/Main/Modules/Physics/ADM/adm_ham_mom_from_scratch.c:272-273 *)
Definition Ric2_D0D1 (E : env) : R :=
  ((- (dGamma E 0 0 0 1)) - (dGamma E 1 0 1 1)) - (dGamma E 2 0 2 1).

(* /repo/Src/Main/Modules/Physics/ADM/adm_ham_mom_from_scratch.c:275-276 *)
Definition Ric2_D0D2 (E : env) : R :=
  ((- (dGamma E 0 0 0 2)) - (dGamma E 1 0 1 2)) - (dGamma E 2 0 2 2).

(* /repo/Src/Main/Modules/Physics/ADM/adm_ham_mom_from_scratch.c:278-279 *)
Definition Ric2_D1D1 (E : env) : R :=
  ((- (dGamma E 0 0 1 1)) - (dGamma E 1 1 1 1)) - (dGamma E 2 1 2 1).

(* /repo/Src/Main/Modules/Physics/ADM/adm_ham_mom_from_scratch.c:281-282 *)
Definition Ric2_D1D2 (E : env) : R :=
  ((- (dGamma E 0 0 1 2)) - (dGamma E 1 1 1 2)) - (dGamma E 2 1 2 2).

(* /repo/Src/Main/Modules/Physics/ADM/adm_ham_mom_from_scratch.c:284-285 *)
Definition Ric2_D2D2 (E : env) : R :=
  ((- (dGamma E 0 0 2 2)) - (dGamma E 1 1 2 2)) - (dGamma E 2 2 2 2).

(* /repo/Src/Main/Modules/Physics/ADM/adm_ham_mom_from_scratch.c:287-293 *)
Definition Ric3_D0D0 (E : env) : R :=
  (((((((((Gamma E 0 0 0) ^ 2) + ((Gamma E 0 0 0) * (Gamma E 1 0 1))) + ((Gamma E 0 0 0) * (Gamma
  E 2 0 2))) + ((Gamma E 0 0 1) * (Gamma E 1 0 0))) + ((Gamma E 0 0 2) * (Gamma E 2 0 0))) +
  ((Gamma E 1 0 0) * (Gamma E 1 1 1))) + ((Gamma E 1 0 0) * (Gamma E 2 1 2))) + ((Gamma E 1 1 2)
  * (Gamma E 2 0 0))) + ((Gamma E 2 0 0) * (Gamma E 2 2 2)).

(* /repo/Src/Main/Modules/Physics/ADM/adm_ham_mom_from_scratch.c:295-301 *)
Definition Ric3_D0D1 (E : env) : R :=
  ((((((((Gamma E 0 0 0) * (Gamma E 0 0 1)) + ((2 * (Gamma E 0 0 1)) * (Gamma E 1 0 1))) +
  ((Gamma E 0 0 1) * (Gamma E 2 0 2))) + ((Gamma E 0 0 2) * (Gamma E 2 0 1))) + ((Gamma E 1 0 1)
  * (Gamma E 1 1 1))) + ((Gamma E 1 0 1) * (Gamma E 2 1 2))) + ((Gamma E 1 1 2) * (Gamma E 2 0
  1))) + ((Gamma E 2 0 1) * (Gamma E 2 2 2)).

(* /repo/Src/Main/Modules/Physics/ADM/adm_ham_mom_from_scratch.c:303-309 *)
Definition Ric3_D0D2 (E : env) : R :=
  ((((((((Gamma E 0 0 0) * (Gamma E 0 0 2)) + ((Gamma E 0 0 1) * (Gamma E 1 0 2))) + ((Gamma E 0
  0 2) * (Gamma E 1 0 1))) + ((2 * (Gamma E 0 0 2)) * (Gamma E 2 0 2))) + ((Gamma E 1 0 2) *
  (Gamma E 1 1 1))) + ((Gamma E 1 0 2) * (Gamma E 2 1 2))) + ((Gamma E 1 1 2) * (Gamma E 2 0 2)))
  + ((Gamma E 2 0 2) * (Gamma E 2 2 2)).

(* /repo/Src/Main/Modules/Physics/ADM/adm_ham_mom_from_scratch.c:311-317 *)
Definition Ric3_D1D1 (E : env) : R :=
  (((((((((Gamma E 0 0 0) * (Gamma E 0 1 1)) + ((Gamma E 0 0 1) * (Gamma E 1 1 1))) + ((Gamma E 0
  0 2) * (Gamma E 2 1 1))) + ((Gamma E 0 1 1) * (Gamma E 1 0 1))) + ((Gamma E 0 1 1) * (Gamma E 2
  0 2))) + ((Gamma E 1 1 1) ^ 2)) + ((Gamma E 1 1 1) * (Gamma E 2 1 2))) + ((Gamma E 1 1 2) *
  (Gamma E 2 1 1))) + ((Gamma E 2 1 1) * (Gamma E 2 2 2)).

(* /repo/Src/Main/Modules/Physics/ADM/adm_ham_mom_from_scratch.c:319-325 *)
Definition Ric3_D1D2 (E : env) : R :=
  ((((((((Gamma E 0 0 0) * (Gamma E 0 1 2)) + ((Gamma E 0 0 1) * (Gamma E 1 1 2))) + ((Gamma E 0
  0 2) * (Gamma E 2 1 2))) + ((Gamma E 0 1 2) * (Gamma E 1 0 1))) + ((Gamma E 0 1 2) * (Gamma E 2
  0 2))) + ((Gamma E 1 1 1) * (Gamma E 1 1 2))) + ((2 * (Gamma E 1 1 2)) * (Gamma E 2 1 2))) +
  ((Gamma E 2 1 2) * (Gamma E 2 2 2)).

(* /repo/Src/Main/Modules/Physics/ADM/adm_ham_mom_from_scratch.c:327-333 *)
Definition Ric3_D2D2 (E : env) : R :=
  (((((((((Gamma E 0 0 0) * (Gamma E 0 2 2)) + ((Gamma E 0 0 1) * (Gamma E 1 2 2))) + ((Gamma E 0
  0 2) * (Gamma E 2 2 2))) + ((Gamma E 0 2 2) * (Gamma E 1 0 1))) + ((Gamma E 0 2 2) * (Gamma E 2
  0 2))) + ((Gamma E 1 1 1) * (Gamma E 1 2 2))) + ((Gamma E 1 1 2) * (Gamma E 2 2 2))) + ((Gamma
  E 1 2 2) * (Gamma E 2 1 2))) + ((Gamma E 2 2 2) ^ 2).

(* /repo/Src/Main/Modules/Physics/ADM/adm_ham_mom_from_scratch.c:335-338 *)
Definition Ric4_D0D0 (E : env) : R :=
  (((((- ((Gamma E 0 0 0) ^ 2)) - ((2 * (Gamma E 0 0 1)) * (Gamma E 1 0 0))) - ((2 * (Gamma E 0 0
  2)) * (Gamma E 2 0 0))) - ((Gamma E 1 0 1) ^ 2)) - ((2 * (Gamma E 1 0 2)) * (Gamma E 2 0 1))) -
  ((Gamma E 2 0 2) ^ 2).

(* /repo/Src/Main/Modules/Physics/ADM/adm_ham_mom_from_scratch.c:340-346 *)
Definition Ric4_D0D1 (E : env) : R :=
  (((((((((- (Gamma E 0 0 0)) * (Gamma E 0 0 1)) - ((Gamma E 0 0 1) * (Gamma E 1 0 1))) - ((Gamma
  E 0 0 2) * (Gamma E 2 0 1))) - ((Gamma E 0 1 1) * (Gamma E 1 0 0))) - ((Gamma E 0 1 2) * (Gamma
  E 2 0 0))) - ((Gamma E 1 0 1) * (Gamma E 1 1 1))) - ((Gamma E 1 0 2) * (Gamma E 2 1 1))) -
  ((Gamma E 1 1 2) * (Gamma E 2 0 1))) - ((Gamma E 2 0 2) * (Gamma E 2 1 2)).

(* /repo/Src/Main/Modules/Physics/ADM/adm_ham_mom_from_scratch.c:348-354 *)
Definition Ric4_D0D2 (E : env) : R :=
  (((((((((- (Gamma E 0 0 0)) * (Gamma E 0 0 2)) - ((Gamma E 0 0 1) * (Gamma E 1 0 2))) - ((Gamma
  E 0 0 2) * (Gamma E 2 0 2))) - ((Gamma E 0 1 2) * (Gamma E 1 0 0))) - ((Gamma E 0 2 2) * (Gamma
  E 2 0 0))) - ((Gamma E 1 0 1) * (Gamma E 1 1 2))) - ((Gamma E 1 0 2) * (Gamma E 2 1 2))) -
  ((Gamma E 1 2 2) * (Gamma E 2 0 1))) - ((Gamma E 2 0 2) * (Gamma E 2 2 2)).

(* /repo/Src/Main/Modules/Physics/ADM/adm_ham_mom_from_scratch.c:356-359 *)
Definition Ric4_D1D1 (E : env) : R :=
  (((((- ((Gamma E 0 0 1) ^ 2)) - ((2 * (Gamma E 0 1 1)) * (Gamma E 1 0 1))) - ((2 * (Gamma E 0 1
  2)) * (Gamma E 2 0 1))) - ((Gamma E 1 1 1) ^ 2)) - ((2 * (Gamma E 1 1 2)) * (Gamma E 2 1 1))) -
  ((Gamma E 2 1 2) ^ 2).

(* /repo/Src/Main/Modules/Physics/ADM/adm_ham_mom_from_scratch.c:361-367 *)
Definition Ric4_D1D2 (E : env) : R :=
  (((((((((- (Gamma E 0 0 1)) * (Gamma E 0 0 2)) - ((Gamma E 0 1 1) * (Gamma E 1 0 2))) - ((Gamma
  E 0 1 2) * (Gamma E 1 0 1))) - ((Gamma E 0 1 2) * (Gamma E 2 0 2))) - ((Gamma E 0 2 2) * (Gamma
  E 2 0 1))) - ((Gamma E 1 1 1) * (Gamma E 1 1 2))) - ((Gamma E 1 1 2) * (Gamma E 2 1 2))) -
  ((Gamma E 1 2 2) * (Gamma E 2 1 1))) - ((Gamma E 2 1 2) * (Gamma E 2 2 2)).

(* /repo/Src/Main/Modules/Physics/ADM/adm_ham_mom_from_scratch.c:369-372 *)
Definition Ric4_D2D2 (E : env) : R :=
  (((((- ((Gamma E 0 0 2) ^ 2)) - ((2 * (Gamma E 0 1 2)) * (Gamma E 1 0 2))) - ((2 * (Gamma E 0 2
  2)) * (Gamma E 2 0 2))) - ((Gamma E 1 1 2) ^ 2)) - ((2 * (Gamma E 1 2 2)) * (Gamma E 2 1 2))) -
  ((Gamma E 2 2 2) ^ 2).

(* /repo/Src/Main/Modules/Physics/ADM/adm_ham_mom_from_scratch.c:374-375 *)
Definition Ric_D0D0 (E : env) : R :=
  (((Ric1_D0D0 E) + (Ric2_D0D0 E)) + (Ric3_D0D0 E)) + (Ric4_D0D0 E).

(* /repo/Src/Main/Modules/Physics/ADM/adm_ham_mom_from_scratch.c:377-378 *)
Definition Ric_D0D1 (E : env) : R :=
  (((Ric1_D0D1 E) + (Ric2_D0D1 E)) + (Ric3_D0D1 E)) + (Ric4_D0D1 E).

(* /repo/Src/Main/Modules/Physics/ADM/adm_ham_mom_from_scratch.c:380-381 *)
Definition Ric_D0D2 (E : env) : R :=
  (((Ric1_D0D2 E) + (Ric2_D0D2 E)) + (Ric3_D0D2 E)) + (Ric4_D0D2 E).

(* /repo/Src/Main/Modules/Physics/ADM/adm_ham_mom_from_scratch.c:383-384 *)
Definition Ric_D1D1 (E : env) : R :=
  (((Ric1_D1D1 E) + (Ric2_D1D1 E)) + (Ric3_D1D1 E)) + (Ric4_D1D1 E).

(* /repo/Src/Main/Modules/Physics/ADM/adm_ham_mom_from_scratch.c:386-387 *)
Definition Ric_D1D2 (E : env) : R :=
  (((Ric1_D1D2 E) + (Ric2_D1D2 E)) + (Ric3_D1D2 E)) + (Ric4_D1D2 E).

(* /repo/Src/Main/Modules/Physics/ADM/adm_ham_mom_from_scratch.c:389-390 *)
Definition Ric_D2D2 (E : env) : R :=
  (((Ric1_D2D2 E) + (Ric2_D2D2 E)) + (Ric3_D2D2 E)) + (Ric4_D2D2 E).

(* /repo/Src/Main/Modules/Physics/ADM/adm_ham_mom_from_scratch.c:392-395 *)
Definition R_ (E : env) : R :=
  ((((((Ric_D0D0 E) * (adm_ig E 0 0)) + ((2 * (Ric_D0D1 E)) * (adm_ig E 0 1))) + ((2 * (Ric_D0D2
  E)) * (adm_ig E 0 2))) + ((Ric_D1D1 E) * (adm_ig E 1 1))) + ((2 * (Ric_D1D2 E)) * (adm_ig E 1
  2))) + ((Ric_D2D2 E) * (adm_ig E 2 2)).

(* /repo/Src/Main/Modules/Physics/ADM/adm_ham_mom_from_scratch.c:397-427 *)
Definition KijKij (E : env) : R :=
  ((((((((((((((((((((((((((((adm_KIJ E 0 0) ^ 2) * ((adm_g E 0 0) ^ 2)) + ((((4 * (adm_KIJ E 0
  0)) * (adm_KIJ E 0 1)) * (adm_g E 0 0)) * (adm_g E 0 1))) + ((((4 * (adm_KIJ E 0 0)) * (adm_KIJ
  E 0 2)) * (adm_g E 0 0)) * (adm_g E 0 2))) + (((2 * (adm_KIJ E 0 0)) * (adm_KIJ E 1 1)) *
  ((adm_g E 0 1) ^ 2))) + ((((4 * (adm_KIJ E 0 0)) * (adm_KIJ E 1 2)) * (adm_g E 0 1)) * (adm_g E
  0 2))) + (((2 * (adm_KIJ E 0 0)) * (adm_KIJ E 2 2)) * ((adm_g E 0 2) ^ 2))) + (((2 * ((adm_KIJ
  E 0 1) ^ 2)) * (adm_g E 0 0)) * (adm_g E 1 1))) + ((2 * ((adm_KIJ E 0 1) ^ 2)) * ((adm_g E 0 1)
  ^ 2))) + ((((4 * (adm_KIJ E 0 1)) * (adm_KIJ E 0 2)) * (adm_g E 0 0)) * (adm_g E 1 2))) + ((((4
  * (adm_KIJ E 0 1)) * (adm_KIJ E 0 2)) * (adm_g E 0 1)) * (adm_g E 0 2))) + ((((4 * (adm_KIJ E 0
  1)) * (adm_KIJ E 1 1)) * (adm_g E 0 1)) * (adm_g E 1 1))) + ((((4 * (adm_KIJ E 0 1)) * (adm_KIJ
  E 1 2)) * (adm_g E 0 1)) * (adm_g E 1 2))) + ((((4 * (adm_KIJ E 0 1)) * (adm_KIJ E 1 2)) *
  (adm_g E 0 2)) * (adm_g E 1 1))) + ((((4 * (adm_KIJ E 0 1)) * (adm_KIJ E 2 2)) * (adm_g E 0 2))
  * (adm_g E 1 2))) + (((2 * ((adm_KIJ E 0 2) ^ 2)) * (adm_g E 0 0)) * (adm_g E 2 2))) + ((2 *
  ((adm_KIJ E 0 2) ^ 2)) * ((adm_g E 0 2) ^ 2))) + ((((4 * (adm_KIJ E 0 2)) * (adm_KIJ E 1 1)) *
  (adm_g E 0 1)) * (adm_g E 1 2))) + ((((4 * (adm_KIJ E 0 2)) * (adm_KIJ E 1 2)) * (adm_g E 0 1))
  * (adm_g E 2 2))) + ((((4 * (adm_KIJ E 0 2)) * (adm_KIJ E 1 2)) * (adm_g E 0 2)) * (adm_g E 1
  2))) + ((((4 * (adm_KIJ E 0 2)) * (adm_KIJ E 2 2)) * (adm_g E 0 2)) * (adm_g E 2 2))) +
  (((adm_KIJ E 1 1) ^ 2) * ((adm_g E 1 1) ^ 2))) + ((((4 * (adm_KIJ E 1 1)) * (adm_KIJ E 1 2)) *
  (adm_g E 1 1)) * (adm_g E 1 2))) + (((2 * (adm_KIJ E 1 1)) * (adm_KIJ E 2 2)) * ((adm_g E 1 2)
  ^ 2))) + (((2 * ((adm_KIJ E 1 2) ^ 2)) * (adm_g E 1 1)) * (adm_g E 2 2))) + ((2 * ((adm_KIJ E 1
  2) ^ 2)) * ((adm_g E 1 2) ^ 2))) + ((((4 * (adm_KIJ E 1 2)) * (adm_KIJ E 2 2)) * (adm_g E 1 2))
  * (adm_g E 2 2))) + (((adm_KIJ E 2 2) ^ 2) * ((adm_g E 2 2) ^ 2)).

(* /repo/Src/Main/Modules/Physics/ADM/adm_ham_mom_from_scratch.c:429-438 *)
Definition DjKij_U0 (E : env) : R :=
  (((((((((((((((2 * (Gamma E 0 0 0)) * (adm_KIJ E 0 0)) + ((3 * (Gamma E 0 0 1)) * (adm_KIJ E 0
  1))) + ((3 * (Gamma E 0 0 2)) * (adm_KIJ E 0 2))) + ((Gamma E 0 1 1) * (adm_KIJ E 1 1))) + ((2
  * (Gamma E 0 1 2)) * (adm_KIJ E 1 2))) + ((Gamma E 0 2 2) * (adm_KIJ E 2 2))) + ((Gamma E 1 0
  1) * (adm_KIJ E 0 0))) + ((Gamma E 1 1 1) * (adm_KIJ E 0 1))) + ((Gamma E 1 1 2) * (adm_KIJ E 0
  2))) + ((Gamma E 2 0 2) * (adm_KIJ E 0 0))) + ((Gamma E 2 1 2) * (adm_KIJ E 0 1))) + ((Gamma E
  2 2 2) * (adm_KIJ E 0 2))) + (dadm_KIJ E 0 0 0)) + (dadm_KIJ E 0 1 1)) + (dadm_KIJ E 0 2 2).

(* /repo/Src/Main/Modules/Physics/ADM/adm_ham_mom_from_scratch.c:440-449 *)
Definition DjKij_U1 (E : env) : R :=
  (((((((((((((((Gamma E 0 0 0) * (adm_KIJ E 0 1)) + ((Gamma E 0 0 1) * (adm_KIJ E 1 1))) +
  ((Gamma E 0 0 2) * (adm_KIJ E 1 2))) + ((Gamma E 1 0 0) * (adm_KIJ E 0 0))) + ((3 * (Gamma E 1
  0 1)) * (adm_KIJ E 0 1))) + ((2 * (Gamma E 1 0 2)) * (adm_KIJ E 0 2))) + ((2 * (Gamma E 1 1 1))
  * (adm_KIJ E 1 1))) + ((3 * (Gamma E 1 1 2)) * (adm_KIJ E 1 2))) + ((Gamma E 1 2 2) * (adm_KIJ
  E 2 2))) + ((Gamma E 2 0 2) * (adm_KIJ E 0 1))) + ((Gamma E 2 1 2) * (adm_KIJ E 1 1))) +
  ((Gamma E 2 2 2) * (adm_KIJ E 1 2))) + (dadm_KIJ E 0 1 0)) + (dadm_KIJ E 1 1 1)) + (dadm_KIJ E
  1 2 2).

(* /repo/Src/Main/Modules/Physics/ADM/adm_ham_mom_from_scratch.c:451-460 *)
Definition DjKij_U2 (E : env) : R :=
  (((((((((((((((Gamma E 0 0 0) * (adm_KIJ E 0 2)) + ((Gamma E 0 0 1) * (adm_KIJ E 1 2))) +
  ((Gamma E 0 0 2) * (adm_KIJ E 2 2))) + ((Gamma E 1 0 1) * (adm_KIJ E 0 2))) + ((Gamma E 1 1 1)
  * (adm_KIJ E 1 2))) + ((Gamma E 1 1 2) * (adm_KIJ E 2 2))) + ((Gamma E 2 0 0) * (adm_KIJ E 0
  0))) + ((2 * (Gamma E 2 0 1)) * (adm_KIJ E 0 1))) + ((3 * (Gamma E 2 0 2)) * (adm_KIJ E 0 2)))
  + ((Gamma E 2 1 1) * (adm_KIJ E 1 1))) + ((3 * (Gamma E 2 1 2)) * (adm_KIJ E 1 2))) + ((2 *
  (Gamma E 2 2 2)) * (adm_KIJ E 2 2))) + (dadm_KIJ E 0 2 0)) + (dadm_KIJ E 1 2 1)) + (dadm_KIJ E
  2 2 2).

(* /repo/Src/Main/Modules/Physics/ADM/adm_ham_mom_from_scratch.c:462-464 *)
Definition Ham_Constraint (E : env) : R :=
  ((EConfC E) * (((- (KijKij E)) + (R_ E)) + ((trK E) ^ 2))) - ((16 * PI) * (Ep E)).

(* /repo/Src/Main/Modules/Physics/ADM/adm_ham_mom_from_scratch.c:466-469 *)
Definition Mom_constraint_U0 (E : env) : R :=
  ((- (JConfC E)) * ((((- (DjKij_U0 E)) + ((adm_ig E 0 0) * (dtrK E 0))) + ((adm_ig E 0 1) *
  (dtrK E 1))) + ((adm_ig E 0 2) * (dtrK E 2)))) - ((8 * PI) * (Jp_U0 E)).

(* /repo/Src/Main/Modules/Physics/ADM/adm_ham_mom_from_scratch.c:471-474 *)
Definition Mom_constraint_U1 (E : env) : R :=
  ((- (JConfC E)) * ((((- (DjKij_U1 E)) + ((adm_ig E 0 1) * (dtrK E 0))) + ((adm_ig E 1 1) *
  (dtrK E 1))) + ((adm_ig E 1 2) * (dtrK E 2)))) - ((8 * PI) * (Jp_U1 E)).

(* /repo/Src/Main/Modules/Physics/ADM/adm_ham_mom_from_scratch.c:476-479 *)
Definition Mom_constraint_U2 (E : env) : R :=
  ((- (JConfC E)) * ((((- (DjKij_U2 E)) + ((adm_ig E 0 2) * (dtrK E 0))) + ((adm_ig E 1 2) *
  (dtrK E 1))) + ((adm_ig E 2 2) * (dtrK E 2)))) - ((8 * PI) * (Jp_U2 E)).

(* /repo/Src/Main/Modules/Physics/ADM/adm_ham_mom_from_scratch.c:482 *)
Definition out_mom_U0 (E : env) : R :=
  Mom_constraint_U0 E.

(* /repo/Src/Main/Modules/Physics/ADM/adm_ham_mom_from_scratch.c:483 *)
Definition out_mom_U1 (E : env) : R :=
  Mom_constraint_U1 E.

(* /repo/Src/Main/Modules/Physics/ADM/adm_ham_mom_from_scratch.c:484 *)
Definition out_mom_U2 (E : env) : R :=
  Mom_constraint_U2 E.

(* /repo/Src/Main/Modules/Physics/ADM/adm_ham_mom_from_scratch.c:485 *)
Definition out_ham (E : env) : R :=
  Ham_Constraint E.

(* /repo/Src/Main/Modules/Physics/ADM/adm_ham_mom_from_scratch.c:482-484: the arrays mom_.. after the loop body; the others keep their value *)
Definition store_mom (E : env) (old : nat -> R) : nat -> R :=
  fun i => match i with
  | 0%nat => out_mom_U0 E
  | 1%nat => out_mom_U1 E
  | 2%nat => out_mom_U2 E
  | _ => old i
  end.
