(* Generated by tools/ks2coq.py from fd_KerrSchild_R_X_Y_Z.c: do not edit. *)
From Coq Require Import Reals.
Local Open Scope R_scope.

(* /repo/Src/Main/Modules/Physics/Free_Data/fd_KerrSchild_params.c:24-29: the global parameters; [phs] is the value the code
   uses for 1/sqrt(2), written 0.707106781186548 *)
Record kspar : Type := mkpar { pM : R; pa : R; pphiy : R; pphiz : R; pBx : R; pBy : R; pBz : R;
  pB2 : R; pL : R; phs : R }.
(* struct Analytic_Func_Arg_S (Src/Main/Modules/Physics/Free_Data/fd_header.h:19-26) as filled by KS_set_args *)
Record ksarg : Type := mkarg { fx : R; fy : R; fz : R; fX : R; fY : R; fZ : R; fR : R;
  fdX0 : R; fdX1 : R; fdX2 : R; fdY0 : R; fdY1 : R; fdY2 : R; fdZ0 : R; fdZ1 : R; fdZ2 : R }.

(* /repo/Src/Main/Modules/Physics/Free_Data/fd_KerrSchild_R_X_Y_Z.c:117-133 *)
Definition ks_X (P : kspar) (f : ksarg) : R :=
  (((((((- ((((((- 1) + (sqrt (1 - (pB2 P)))) + (pB2 P)) * (pBx P)) * (pBz P)) * (fx f))) - ((((((-
  1) + (sqrt (1 - (pB2 P)))) + (pB2 P)) * (pBy P)) * (pBz P)) * (fy f))) - (((sqrt (1 - (pB2 P))) *
  (pB2 P)) * (fz f))) + (((((- 1) + (sqrt (1 - (pB2 P)))) + (pB2 P)) * ((pBx P) ^ 2)) * (fz f))) +
  (((((- 1) + (sqrt (1 - (pB2 P)))) + (pB2 P)) * ((pBy P) ^ 2)) * (fz f))) * (sin (pphiy P))) + ((cos
  (pphiy P)) * ((((- (((- 1) + (sqrt (1 - (pB2 P)))) * (((((pBy P) ^ 2) * (fx f)) - (((pBx P) * (pBy
  P)) * (fy f))) + ((pBz P) * (((pBz P) * (fx f)) - ((pBx P) * (fz f))))))) + ((pB2 P) * (((((sqrt (1
  - (pB2 P))) - ((pBy P) ^ 2)) - ((pBz P) ^ 2)) * (fx f)) + ((pBx P) * (((pBy P) * (fy f)) + ((pBz P)
  * (fz f))))))) * (cos (pphiz P))) - (((((- ((((((- 1) + (sqrt (1 - (pB2 P)))) + (pB2 P)) * (pBx P))
  * (pBy P)) * (fx f))) + (((((- 1) + (sqrt (1 - (pB2 P)))) + (pB2 P)) * ((pBx P) ^ 2)) * (fy f))) +
  ((((- 1) + (sqrt (1 - (pB2 P)))) * (pBz P)) * (((pBz P) * (fy f)) - ((pBy P) * (fz f))))) - ((pB2
  P) * ((((sqrt (1 - (pB2 P))) * (fy f)) - (((pBz P) ^ 2) * (fy f))) + (((pBy P) * (pBz P)) * (fz
  f))))) * (sin (pphiz P)))))) / (((pB2 P) * ((((sqrt (1 - (pB2 P))) - ((pBx P) ^ 2)) - ((pBy P) ^
  2)) - ((pBz P) ^ 2))) - (((- 1) + (sqrt (1 - (pB2 P)))) * ((((pBx P) ^ 2) + ((pBy P) ^ 2)) + ((pBz
  P) ^ 2)))).

(* /repo/Src/Main/Modules/Physics/Free_Data/fd_KerrSchild_R_X_Y_Z.c:337-350 *)
Definition ks_Y (P : kspar) (f : ksarg) : R :=
  (((((((((((- 1) + (sqrt (1 - (pB2 P)))) + (pB2 P)) * (pBx P)) * (pBy P)) * (fx f)) - (((((- 1) +
  (sqrt (1 - (pB2 P)))) + (pB2 P)) * ((pBx P) ^ 2)) * (fy f))) - ((((- 1) + (sqrt (1 - (pB2 P)))) *
  (pBz P)) * (((pBz P) * (fy f)) - ((pBy P) * (fz f))))) + ((pB2 P) * ((((sqrt (1 - (pB2 P))) * (fy
  f)) - (((pBz P) ^ 2) * (fy f))) + (((pBy P) * (pBz P)) * (fz f))))) * (cos (pphiz P))) + (((((- 1)
  + (sqrt (1 - (pB2 P)))) * (((((pBy P) ^ 2) * (fx f)) - (((pBx P) * (pBy P)) * (fy f))) + ((pBz P) *
  (((pBz P) * (fx f)) - ((pBx P) * (fz f)))))) - ((pB2 P) * (((((sqrt (1 - (pB2 P))) - ((pBy P) ^ 2))
  - ((pBz P) ^ 2)) * (fx f)) + ((pBx P) * (((pBy P) * (fy f)) + ((pBz P) * (fz f))))))) * (sin (pphiz
  P)))) / (((pB2 P) * ((((sqrt (1 - (pB2 P))) - ((pBx P) ^ 2)) - ((pBy P) ^ 2)) - ((pBz P) ^ 2))) -
  (((- 1) + (sqrt (1 - (pB2 P)))) * ((((pBx P) ^ 2) + ((pBy P) ^ 2)) + ((pBz P) ^ 2)))).

(* /repo/Src/Main/Modules/Physics/Free_Data/fd_KerrSchild_R_X_Y_Z.c:550-566 *)
Definition ks_Z (P : kspar) (f : ksarg) : R :=
  ((((((((((((- 1) + (sqrt (1 - (pB2 P)))) + (pB2 P)) * (pBx P)) * (pBz P)) * (fx f)) + ((((((- 1) +
  (sqrt (1 - (pB2 P)))) + (pB2 P)) * (pBy P)) * (pBz P)) * (fy f))) + (((sqrt (1 - (pB2 P))) * (pB2
  P)) * (fz f))) - (((((- 1) + (sqrt (1 - (pB2 P)))) + (pB2 P)) * ((pBx P) ^ 2)) * (fz f))) - (((((-
  1) + (sqrt (1 - (pB2 P)))) + (pB2 P)) * ((pBy P) ^ 2)) * (fz f))) * (cos (pphiy P))) + ((sin (pphiy
  P)) * ((((- (((- 1) + (sqrt (1 - (pB2 P)))) * (((((pBy P) ^ 2) * (fx f)) - (((pBx P) * (pBy P)) *
  (fy f))) + ((pBz P) * (((pBz P) * (fx f)) - ((pBx P) * (fz f))))))) + ((pB2 P) * (((((sqrt (1 -
  (pB2 P))) - ((pBy P) ^ 2)) - ((pBz P) ^ 2)) * (fx f)) + ((pBx P) * (((pBy P) * (fy f)) + ((pBz P) *
  (fz f))))))) * (cos (pphiz P))) - (((((- ((((((- 1) + (sqrt (1 - (pB2 P)))) + (pB2 P)) * (pBx P)) *
  (pBy P)) * (fx f))) + (((((- 1) + (sqrt (1 - (pB2 P)))) + (pB2 P)) * ((pBx P) ^ 2)) * (fy f))) +
  ((((- 1) + (sqrt (1 - (pB2 P)))) * (pBz P)) * (((pBz P) * (fy f)) - ((pBy P) * (fz f))))) - ((pB2
  P) * ((((sqrt (1 - (pB2 P))) * (fy f)) - (((pBz P) ^ 2) * (fy f))) + (((pBy P) * (pBz P)) * (fz
  f))))) * (sin (pphiz P)))))) / (((pB2 P) * ((((sqrt (1 - (pB2 P))) - ((pBx P) ^ 2)) - ((pBy P) ^
  2)) - ((pBz P) ^ 2))) - (((- 1) + (sqrt (1 - (pB2 P)))) * ((((pBx P) ^ 2) + ((pBy P) ^ 2)) + ((pBz
  P) ^ 2)))).

(* /repo/Src/Main/Modules/Physics/Free_Data/fd_KerrSchild_R_X_Y_Z.c:134-144 *)
Definition ks_dX_D2 (P : kspar) (f : ksarg) : R :=
  ((((((- 1) + (sqrt (1 - (pB2 P)))) * (((pBx P) ^ 2) + ((pBy P) ^ 2))) + ((pB2 P) * (((- (sqrt (1 -
  (pB2 P)))) + ((pBx P) ^ 2)) + ((pBy P) ^ 2)))) * (sin (pphiy P))) + ((((((- 1) + (sqrt (1 - (pB2
  P)))) + (pB2 P)) * (pBz P)) * (cos (pphiy P))) * (((pBx P) * (cos (pphiz P))) + ((pBy P) * (sin
  (pphiz P)))))) / (((pB2 P) * ((((sqrt (1 - (pB2 P))) - ((pBx P) ^ 2)) - ((pBy P) ^ 2)) - ((pBz P) ^
  2))) - (((- 1) + (sqrt (1 - (pB2 P)))) * ((((pBx P) ^ 2) + ((pBy P) ^ 2)) + ((pBz P) ^ 2)))).

(* /repo/Src/Main/Modules/Physics/Free_Data/fd_KerrSchild_R_X_Y_Z.c:145-156 *)
Definition ks_dX_D0 (P : kspar) (f : ksarg) : R :=
  ((- ((((((- 1) + (sqrt (1 - (pB2 P)))) + (pB2 P)) * (pBx P)) * (pBz P)) * (sin (pphiy P)))) + ((cos
  (pphiy P)) * (((((pB2 P) * (((sqrt (1 - (pB2 P))) - ((pBy P) ^ 2)) - ((pBz P) ^ 2))) - (((- 1) +
  (sqrt (1 - (pB2 P)))) * (((pBy P) ^ 2) + ((pBz P) ^ 2)))) * (cos (pphiz P))) + ((((((- 1) + (sqrt
  (1 - (pB2 P)))) + (pB2 P)) * (pBx P)) * (pBy P)) * (sin (pphiz P)))))) / (((pB2 P) * ((((sqrt (1 -
  (pB2 P))) - ((pBx P) ^ 2)) - ((pBy P) ^ 2)) - ((pBz P) ^ 2))) - (((- 1) + (sqrt (1 - (pB2 P)))) *
  ((((pBx P) ^ 2) + ((pBy P) ^ 2)) + ((pBz P) ^ 2)))).

(* /repo/Src/Main/Modules/Physics/Free_Data/fd_KerrSchild_R_X_Y_Z.c:157-168 *)
Definition ks_dX_D1 (P : kspar) (f : ksarg) : R :=
  ((- ((((((- 1) + (sqrt (1 - (pB2 P)))) + (pB2 P)) * (pBy P)) * (pBz P)) * (sin (pphiy P)))) + ((cos
  (pphiy P)) * (((((((- 1) + (sqrt (1 - (pB2 P)))) + (pB2 P)) * (pBx P)) * (pBy P)) * (cos (pphiz
  P))) + ((((pB2 P) * (((sqrt (1 - (pB2 P))) - ((pBx P) ^ 2)) - ((pBz P) ^ 2))) - (((- 1) + (sqrt (1
  - (pB2 P)))) * (((pBx P) ^ 2) + ((pBz P) ^ 2)))) * (sin (pphiz P)))))) / (((pB2 P) * ((((sqrt (1 -
  (pB2 P))) - ((pBx P) ^ 2)) - ((pBy P) ^ 2)) - ((pBz P) ^ 2))) - (((- 1) + (sqrt (1 - (pB2 P)))) *
  ((((pBx P) ^ 2) + ((pBy P) ^ 2)) + ((pBz P) ^ 2)))).

(* /repo/Src/Main/Modules/Physics/Free_Data/fd_KerrSchild_R_X_Y_Z.c:351-361 *)
Definition ks_dY_D1 (P : kspar) (f : ksarg) : R :=
  (((((pB2 P) * (((sqrt (1 - (pB2 P))) - ((pBx P) ^ 2)) - ((pBz P) ^ 2))) - (((- 1) + (sqrt (1 - (pB2
  P)))) * (((pBx P) ^ 2) + ((pBz P) ^ 2)))) * (cos (pphiz P))) - ((((((- 1) + (sqrt (1 - (pB2 P)))) +
  (pB2 P)) * (pBx P)) * (pBy P)) * (sin (pphiz P)))) / (((pB2 P) * ((((sqrt (1 - (pB2 P))) - ((pBx P)
  ^ 2)) - ((pBy P) ^ 2)) - ((pBz P) ^ 2))) - (((- 1) + (sqrt (1 - (pB2 P)))) * ((((pBx P) ^ 2) +
  ((pBy P) ^ 2)) + ((pBz P) ^ 2)))).

(* /repo/Src/Main/Modules/Physics/Free_Data/fd_KerrSchild_R_X_Y_Z.c:362-372 *)
Definition ks_dY_D0 (P : kspar) (f : ksarg) : R :=
  (((((((- 1) + (sqrt (1 - (pB2 P)))) + (pB2 P)) * (pBx P)) * (pBy P)) * (cos (pphiz P))) + (((((- 1)
  + (sqrt (1 - (pB2 P)))) * (((pBy P) ^ 2) + ((pBz P) ^ 2))) + ((pB2 P) * (((- (sqrt (1 - (pB2 P))))
  + ((pBy P) ^ 2)) + ((pBz P) ^ 2)))) * (sin (pphiz P)))) / (((pB2 P) * ((((sqrt (1 - (pB2 P))) -
  ((pBx P) ^ 2)) - ((pBy P) ^ 2)) - ((pBz P) ^ 2))) - (((- 1) + (sqrt (1 - (pB2 P)))) * ((((pBx P) ^
  2) + ((pBy P) ^ 2)) + ((pBz P) ^ 2)))).

(* /repo/Src/Main/Modules/Physics/Free_Data/fd_KerrSchild_R_X_Y_Z.c:373-381 *)
Definition ks_dY_D2 (P : kspar) (f : ksarg) : R :=
  (((((- 1) + (sqrt (1 - (pB2 P)))) + (pB2 P)) * (pBz P)) * (((pBy P) * (cos (pphiz P))) - ((pBx P) *
  (sin (pphiz P))))) / (((pB2 P) * ((((sqrt (1 - (pB2 P))) - ((pBx P) ^ 2)) - ((pBy P) ^ 2)) - ((pBz
  P) ^ 2))) - (((- 1) + (sqrt (1 - (pB2 P)))) * ((((pBx P) ^ 2) + ((pBy P) ^ 2)) + ((pBz P) ^ 2)))).

(* /repo/Src/Main/Modules/Physics/Free_Data/fd_KerrSchild_R_X_Y_Z.c:567-578 *)
Definition ks_dZ_D0 (P : kspar) (f : ksarg) : R :=
  (((((((- 1) + (sqrt (1 - (pB2 P)))) + (pB2 P)) * (pBx P)) * (pBz P)) * (cos (pphiy P))) + ((sin
  (pphiy P)) * (((((pB2 P) * (((sqrt (1 - (pB2 P))) - ((pBy P) ^ 2)) - ((pBz P) ^ 2))) - (((- 1) +
  (sqrt (1 - (pB2 P)))) * (((pBy P) ^ 2) + ((pBz P) ^ 2)))) * (cos (pphiz P))) + ((((((- 1) + (sqrt
  (1 - (pB2 P)))) + (pB2 P)) * (pBx P)) * (pBy P)) * (sin (pphiz P)))))) / (((pB2 P) * ((((sqrt (1 -
  (pB2 P))) - ((pBx P) ^ 2)) - ((pBy P) ^ 2)) - ((pBz P) ^ 2))) - (((- 1) + (sqrt (1 - (pB2 P)))) *
  ((((pBx P) ^ 2) + ((pBy P) ^ 2)) + ((pBz P) ^ 2)))).

(* /repo/Src/Main/Modules/Physics/Free_Data/fd_KerrSchild_R_X_Y_Z.c:579-590 *)
Definition ks_dZ_D1 (P : kspar) (f : ksarg) : R :=
  (((((((- 1) + (sqrt (1 - (pB2 P)))) + (pB2 P)) * (pBy P)) * (pBz P)) * (cos (pphiy P))) + ((sin
  (pphiy P)) * (((((((- 1) + (sqrt (1 - (pB2 P)))) + (pB2 P)) * (pBx P)) * (pBy P)) * (cos (pphiz
  P))) - (((((- 1) + (sqrt (1 - (pB2 P)))) * (((pBx P) ^ 2) + ((pBz P) ^ 2))) + ((pB2 P) * (((- (sqrt
  (1 - (pB2 P)))) + ((pBx P) ^ 2)) + ((pBz P) ^ 2)))) * (sin (pphiz P)))))) / (((pB2 P) * ((((sqrt (1
  - (pB2 P))) - ((pBx P) ^ 2)) - ((pBy P) ^ 2)) - ((pBz P) ^ 2))) - (((- 1) + (sqrt (1 - (pB2 P)))) *
  ((((pBx P) ^ 2) + ((pBy P) ^ 2)) + ((pBz P) ^ 2)))).

(* /repo/Src/Main/Modules/Physics/Free_Data/fd_KerrSchild_R_X_Y_Z.c:591-601 *)
Definition ks_dZ_D2 (P : kspar) (f : ksarg) : R :=
  (((((pB2 P) * (((sqrt (1 - (pB2 P))) - ((pBx P) ^ 2)) - ((pBy P) ^ 2))) - (((- 1) + (sqrt (1 - (pB2
  P)))) * (((pBx P) ^ 2) + ((pBy P) ^ 2)))) * (cos (pphiy P))) + ((((((- 1) + (sqrt (1 - (pB2 P)))) +
  (pB2 P)) * (pBz P)) * (sin (pphiy P))) * (((pBx P) * (cos (pphiz P))) + ((pBy P) * (sin (pphiz
  P)))))) / (((pB2 P) * ((((sqrt (1 - (pB2 P))) - ((pBx P) ^ 2)) - ((pBy P) ^ 2)) - ((pBz P) ^ 2))) -
  (((- 1) + (sqrt (1 - (pB2 P)))) * ((((pBx P) ^ 2) + ((pBy P) ^ 2)) + ((pBz P) ^ 2)))).

(* /repo/Src/Main/Modules/Physics/Free_Data/fd_KerrSchild_R_X_Y_Z.c:169-175 *)
Definition ks_ddX_D1D2 (P : kspar) (f : ksarg) : R :=
  0.

(* /repo/Src/Main/Modules/Physics/Free_Data/fd_KerrSchild_R_X_Y_Z.c:176-182 *)
Definition ks_ddX_D0D2 (P : kspar) (f : ksarg) : R :=
  0.

(* /repo/Src/Main/Modules/Physics/Free_Data/fd_KerrSchild_R_X_Y_Z.c:183-189 *)
Definition ks_ddX_D0D1 (P : kspar) (f : ksarg) : R :=
  0.

(* /repo/Src/Main/Modules/Physics/Free_Data/fd_KerrSchild_R_X_Y_Z.c:190-196 *)
Definition ks_ddX_D1D1 (P : kspar) (f : ksarg) : R :=
  0.

(* /repo/Src/Main/Modules/Physics/Free_Data/fd_KerrSchild_R_X_Y_Z.c:197-203 *)
Definition ks_ddX_D0D0 (P : kspar) (f : ksarg) : R :=
  0.

(* /repo/Src/Main/Modules/Physics/Free_Data/fd_KerrSchild_R_X_Y_Z.c:204-210 *)
Definition ks_ddX_D2D2 (P : kspar) (f : ksarg) : R :=
  0.

(* /repo/Src/Main/Modules/Physics/Free_Data/fd_KerrSchild_R_X_Y_Z.c:382-388 *)
Definition ks_ddY_D1D1 (P : kspar) (f : ksarg) : R :=
  0.

(* /repo/Src/Main/Modules/Physics/Free_Data/fd_KerrSchild_R_X_Y_Z.c:389-395 *)
Definition ks_ddY_D1D2 (P : kspar) (f : ksarg) : R :=
  0.

(* /repo/Src/Main/Modules/Physics/Free_Data/fd_KerrSchild_R_X_Y_Z.c:396-402 *)
Definition ks_ddY_D0D0 (P : kspar) (f : ksarg) : R :=
  0.

(* /repo/Src/Main/Modules/Physics/Free_Data/fd_KerrSchild_R_X_Y_Z.c:403-409 *)
Definition ks_ddY_D0D1 (P : kspar) (f : ksarg) : R :=
  0.

(* /repo/Src/Main/Modules/Physics/Free_Data/fd_KerrSchild_R_X_Y_Z.c:410-416 *)
Definition ks_ddY_D0D2 (P : kspar) (f : ksarg) : R :=
  0.

(* /repo/Src/Main/Modules/Physics/Free_Data/fd_KerrSchild_R_X_Y_Z.c:417-423 *)
Definition ks_ddY_D2D2 (P : kspar) (f : ksarg) : R :=
  0.

(* /repo/Src/Main/Modules/Physics/Free_Data/fd_KerrSchild_R_X_Y_Z.c:602-608 *)
Definition ks_ddZ_D0D1 (P : kspar) (f : ksarg) : R :=
  0.

(* /repo/Src/Main/Modules/Physics/Free_Data/fd_KerrSchild_R_X_Y_Z.c:609-615 *)
Definition ks_ddZ_D0D0 (P : kspar) (f : ksarg) : R :=
  0.

(* /repo/Src/Main/Modules/Physics/Free_Data/fd_KerrSchild_R_X_Y_Z.c:616-622 *)
Definition ks_ddZ_D0D2 (P : kspar) (f : ksarg) : R :=
  0.

(* /repo/Src/Main/Modules/Physics/Free_Data/fd_KerrSchild_R_X_Y_Z.c:623-629 *)
Definition ks_ddZ_D1D1 (P : kspar) (f : ksarg) : R :=
  0.

(* /repo/Src/Main/Modules/Physics/Free_Data/fd_KerrSchild_R_X_Y_Z.c:630-636 *)
Definition ks_ddZ_D1D2 (P : kspar) (f : ksarg) : R :=
  0.

(* /repo/Src/Main/Modules/Physics/Free_Data/fd_KerrSchild_R_X_Y_Z.c:637-643 *)
Definition ks_ddZ_D2D2 (P : kspar) (f : ksarg) : R :=
  0.

(* /repo/Src/Main/Modules/Physics/Free_Data/fd_KerrSchild_R_X_Y_Z.c:211-217 *)
Definition ks_dddX_D2D2D2 (P : kspar) (f : ksarg) : R :=
  0.

(* /repo/Src/Main/Modules/Physics/Free_Data/fd_KerrSchild_R_X_Y_Z.c:218-224 *)
Definition ks_dddX_D0D2D2 (P : kspar) (f : ksarg) : R :=
  0.

(* /repo/Src/Main/Modules/Physics/Free_Data/fd_KerrSchild_R_X_Y_Z.c:225-231 *)
Definition ks_dddX_D1D1D1 (P : kspar) (f : ksarg) : R :=
  0.

(* /repo/Src/Main/Modules/Physics/Free_Data/fd_KerrSchild_R_X_Y_Z.c:232-238 *)
Definition ks_dddX_D0D2D0 (P : kspar) (f : ksarg) : R :=
  0.

(* /repo/Src/Main/Modules/Physics/Free_Data/fd_KerrSchild_R_X_Y_Z.c:239-245 *)
Definition ks_dddX_D0D2D1 (P : kspar) (f : ksarg) : R :=
  0.

(* /repo/Src/Main/Modules/Physics/Free_Data/fd_KerrSchild_R_X_Y_Z.c:246-252 *)
Definition ks_dddX_D1D1D0 (P : kspar) (f : ksarg) : R :=
  0.

(* /repo/Src/Main/Modules/Physics/Free_Data/fd_KerrSchild_R_X_Y_Z.c:253-259 *)
Definition ks_dddX_D2D2D0 (P : kspar) (f : ksarg) : R :=
  0.

(* /repo/Src/Main/Modules/Physics/Free_Data/fd_KerrSchild_R_X_Y_Z.c:260-266 *)
Definition ks_dddX_D1D2D2 (P : kspar) (f : ksarg) : R :=
  0.

(* /repo/Src/Main/Modules/Physics/Free_Data/fd_KerrSchild_R_X_Y_Z.c:267-273 *)
Definition ks_dddX_D2D2D1 (P : kspar) (f : ksarg) : R :=
  0.

(* /repo/Src/Main/Modules/Physics/Free_Data/fd_KerrSchild_R_X_Y_Z.c:274-280 *)
Definition ks_dddX_D0D1D1 (P : kspar) (f : ksarg) : R :=
  0.

(* /repo/Src/Main/Modules/Physics/Free_Data/fd_KerrSchild_R_X_Y_Z.c:281-287 *)
Definition ks_dddX_D0D0D1 (P : kspar) (f : ksarg) : R :=
  0.

(* /repo/Src/Main/Modules/Physics/Free_Data/fd_KerrSchild_R_X_Y_Z.c:288-294 *)
Definition ks_dddX_D0D0D2 (P : kspar) (f : ksarg) : R :=
  0.

(* /repo/Src/Main/Modules/Physics/Free_Data/fd_KerrSchild_R_X_Y_Z.c:295-301 *)
Definition ks_dddX_D0D1D2 (P : kspar) (f : ksarg) : R :=
  0.

(* /repo/Src/Main/Modules/Physics/Free_Data/fd_KerrSchild_R_X_Y_Z.c:302-308 *)
Definition ks_dddX_D0D0D0 (P : kspar) (f : ksarg) : R :=
  0.

(* /repo/Src/Main/Modules/Physics/Free_Data/fd_KerrSchild_R_X_Y_Z.c:309-315 *)
Definition ks_dddX_D1D2D0 (P : kspar) (f : ksarg) : R :=
  0.

(* /repo/Src/Main/Modules/Physics/Free_Data/fd_KerrSchild_R_X_Y_Z.c:316-322 *)
Definition ks_dddX_D1D1D2 (P : kspar) (f : ksarg) : R :=
  0.

(* /repo/Src/Main/Modules/Physics/Free_Data/fd_KerrSchild_R_X_Y_Z.c:323-329 *)
Definition ks_dddX_D1D2D1 (P : kspar) (f : ksarg) : R :=
  0.

(* /repo/Src/Main/Modules/Physics/Free_Data/fd_KerrSchild_R_X_Y_Z.c:330-336 *)
Definition ks_dddX_D0D1D0 (P : kspar) (f : ksarg) : R :=
  0.

(* /repo/Src/Main/Modules/Physics/Free_Data/fd_KerrSchild_R_X_Y_Z.c:424-430 *)
Definition ks_dddY_D1D2D2 (P : kspar) (f : ksarg) : R :=
  0.

(* /repo/Src/Main/Modules/Physics/Free_Data/fd_KerrSchild_R_X_Y_Z.c:431-437 *)
Definition ks_dddY_D0D2D1 (P : kspar) (f : ksarg) : R :=
  0.

(* /repo/Src/Main/Modules/Physics/Free_Data/fd_KerrSchild_R_X_Y_Z.c:438-444 *)
Definition ks_dddY_D0D2D0 (P : kspar) (f : ksarg) : R :=
  0.

(* /repo/Src/Main/Modules/Physics/Free_Data/fd_KerrSchild_R_X_Y_Z.c:445-451 *)
Definition ks_dddY_D0D2D2 (P : kspar) (f : ksarg) : R :=
  0.

(* /repo/Src/Main/Modules/Physics/Free_Data/fd_KerrSchild_R_X_Y_Z.c:452-458 *)
Definition ks_dddY_D1D1D0 (P : kspar) (f : ksarg) : R :=
  0.

(* /repo/Src/Main/Modules/Physics/Free_Data/fd_KerrSchild_R_X_Y_Z.c:459-465 *)
Definition ks_dddY_D2D2D0 (P : kspar) (f : ksarg) : R :=
  0.

(* /repo/Src/Main/Modules/Physics/Free_Data/fd_KerrSchild_R_X_Y_Z.c:466-472 *)
Definition ks_dddY_D2D2D1 (P : kspar) (f : ksarg) : R :=
  0.

(* /repo/Src/Main/Modules/Physics/Free_Data/fd_KerrSchild_R_X_Y_Z.c:473-479 *)
Definition ks_dddY_D1D2D1 (P : kspar) (f : ksarg) : R :=
  0.

(* /repo/Src/Main/Modules/Physics/Free_Data/fd_KerrSchild_R_X_Y_Z.c:480-486 *)
Definition ks_dddY_D2D2D2 (P : kspar) (f : ksarg) : R :=
  0.

(* /repo/Src/Main/Modules/Physics/Free_Data/fd_KerrSchild_R_X_Y_Z.c:487-493 *)
Definition ks_dddY_D0D1D2 (P : kspar) (f : ksarg) : R :=
  0.

(* /repo/Src/Main/Modules/Physics/Free_Data/fd_KerrSchild_R_X_Y_Z.c:494-500 *)
Definition ks_dddY_D1D1D2 (P : kspar) (f : ksarg) : R :=
  0.

(* /repo/Src/Main/Modules/Physics/Free_Data/fd_KerrSchild_R_X_Y_Z.c:501-507 *)
Definition ks_dddY_D0D1D0 (P : kspar) (f : ksarg) : R :=
  0.

(* /repo/Src/Main/Modules/Physics/Free_Data/fd_KerrSchild_R_X_Y_Z.c:508-514 *)
Definition ks_dddY_D0D1D1 (P : kspar) (f : ksarg) : R :=
  0.

(* /repo/Src/Main/Modules/Physics/Free_Data/fd_KerrSchild_R_X_Y_Z.c:515-521 *)
Definition ks_dddY_D1D1D1 (P : kspar) (f : ksarg) : R :=
  0.

(* /repo/Src/Main/Modules/Physics/Free_Data/fd_KerrSchild_R_X_Y_Z.c:522-528 *)
Definition ks_dddY_D1D2D0 (P : kspar) (f : ksarg) : R :=
  0.

(* /repo/Src/Main/Modules/Physics/Free_Data/fd_KerrSchild_R_X_Y_Z.c:529-535 *)
Definition ks_dddY_D0D0D2 (P : kspar) (f : ksarg) : R :=
  0.

(* /repo/Src/Main/Modules/Physics/Free_Data/fd_KerrSchild_R_X_Y_Z.c:536-542 *)
Definition ks_dddY_D0D0D1 (P : kspar) (f : ksarg) : R :=
  0.

(* /repo/Src/Main/Modules/Physics/Free_Data/fd_KerrSchild_R_X_Y_Z.c:543-549 *)
Definition ks_dddY_D0D0D0 (P : kspar) (f : ksarg) : R :=
  0.

(* /repo/Src/Main/Modules/Physics/Free_Data/fd_KerrSchild_R_X_Y_Z.c:644-650 *)
Definition ks_dddZ_D1D1D2 (P : kspar) (f : ksarg) : R :=
  0.

(* /repo/Src/Main/Modules/Physics/Free_Data/fd_KerrSchild_R_X_Y_Z.c:651-657 *)
Definition ks_dddZ_D0D1D2 (P : kspar) (f : ksarg) : R :=
  0.

(* /repo/Src/Main/Modules/Physics/Free_Data/fd_KerrSchild_R_X_Y_Z.c:658-664 *)
Definition ks_dddZ_D0D1D1 (P : kspar) (f : ksarg) : R :=
  0.

(* /repo/Src/Main/Modules/Physics/Free_Data/fd_KerrSchild_R_X_Y_Z.c:665-671 *)
Definition ks_dddZ_D0D1D0 (P : kspar) (f : ksarg) : R :=
  0.

(* /repo/Src/Main/Modules/Physics/Free_Data/fd_KerrSchild_R_X_Y_Z.c:672-678 *)
Definition ks_dddZ_D1D2D0 (P : kspar) (f : ksarg) : R :=
  0.

(* /repo/Src/Main/Modules/Physics/Free_Data/fd_KerrSchild_R_X_Y_Z.c:679-685 *)
Definition ks_dddZ_D0D2D0 (P : kspar) (f : ksarg) : R :=
  0.

(* /repo/Src/Main/Modules/Physics/Free_Data/fd_KerrSchild_R_X_Y_Z.c:686-692 *)
Definition ks_dddZ_D0D2D1 (P : kspar) (f : ksarg) : R :=
  0.

(* /repo/Src/Main/Modules/Physics/Free_Data/fd_KerrSchild_R_X_Y_Z.c:693-699 *)
Definition ks_dddZ_D0D2D2 (P : kspar) (f : ksarg) : R :=
  0.

(* /repo/Src/Main/Modules/Physics/Free_Data/fd_KerrSchild_R_X_Y_Z.c:700-706 *)
Definition ks_dddZ_D2D2D1 (P : kspar) (f : ksarg) : R :=
  0.

(* /repo/Src/Main/Modules/Physics/Free_Data/fd_KerrSchild_R_X_Y_Z.c:707-713 *)
Definition ks_dddZ_D1D1D0 (P : kspar) (f : ksarg) : R :=
  0.

(* /repo/Src/Main/Modules/Physics/Free_Data/fd_KerrSchild_R_X_Y_Z.c:714-720 *)
Definition ks_dddZ_D2D2D2 (P : kspar) (f : ksarg) : R :=
  0.

(* /repo/Src/Main/Modules/Physics/Free_Data/fd_KerrSchild_R_X_Y_Z.c:721-727 *)
Definition ks_dddZ_D1D1D1 (P : kspar) (f : ksarg) : R :=
  0.

(* /repo/Src/Main/Modules/Physics/Free_Data/fd_KerrSchild_R_X_Y_Z.c:728-734 *)
Definition ks_dddZ_D1D2D2 (P : kspar) (f : ksarg) : R :=
  0.

(* /repo/Src/Main/Modules/Physics/Free_Data/fd_KerrSchild_R_X_Y_Z.c:735-741 *)
Definition ks_dddZ_D0D0D2 (P : kspar) (f : ksarg) : R :=
  0.

(* /repo/Src/Main/Modules/Physics/Free_Data/fd_KerrSchild_R_X_Y_Z.c:742-748 *)
Definition ks_dddZ_D0D0D0 (P : kspar) (f : ksarg) : R :=
  0.

(* /repo/Src/Main/Modules/Physics/Free_Data/fd_KerrSchild_R_X_Y_Z.c:749-755 *)
Definition ks_dddZ_D0D0D1 (P : kspar) (f : ksarg) : R :=
  0.

(* /repo/Src/Main/Modules/Physics/Free_Data/fd_KerrSchild_R_X_Y_Z.c:756-762 *)
Definition ks_dddZ_D1D2D1 (P : kspar) (f : ksarg) : R :=
  0.

(* /repo/Src/Main/Modules/Physics/Free_Data/fd_KerrSchild_R_X_Y_Z.c:763-769 *)
Definition ks_dddZ_D2D2D0 (P : kspar) (f : ksarg) : R :=
  0.

(* the functions dX_D.. by their indices *)
Definition kst_dX (P : kspar) (f : ksarg) (i : nat) : R :=
  match i with
  | 0%nat => ks_dX_D0 P f
  | 1%nat => ks_dX_D1 P f
  | 2%nat => ks_dX_D2 P f
  | _ => 0
  end.
(* the functions ddX_D.. by their indices *)
Definition kst_ddX (P : kspar) (f : ksarg) (i j : nat) : R :=
  match i, j with
  | 0%nat, 0%nat => ks_ddX_D0D0 P f
  | 0%nat, 1%nat => ks_ddX_D0D1 P f
  | 0%nat, 2%nat => ks_ddX_D0D2 P f
  | 1%nat, 1%nat => ks_ddX_D1D1 P f
  | 1%nat, 2%nat => ks_ddX_D1D2 P f
  | 2%nat, 2%nat => ks_ddX_D2D2 P f
  | _, _ => 0
  end.
(* the functions dddX_D.. by their indices *)
Definition kst_dddX (P : kspar) (f : ksarg) (i j k : nat) : R :=
  match i, j, k with
  | 0%nat, 0%nat, 0%nat => ks_dddX_D0D0D0 P f
  | 0%nat, 0%nat, 1%nat => ks_dddX_D0D0D1 P f
  | 0%nat, 0%nat, 2%nat => ks_dddX_D0D0D2 P f
  | 0%nat, 1%nat, 0%nat => ks_dddX_D0D1D0 P f
  | 0%nat, 1%nat, 1%nat => ks_dddX_D0D1D1 P f
  | 0%nat, 1%nat, 2%nat => ks_dddX_D0D1D2 P f
  | 0%nat, 2%nat, 0%nat => ks_dddX_D0D2D0 P f
  | 0%nat, 2%nat, 1%nat => ks_dddX_D0D2D1 P f
  | 0%nat, 2%nat, 2%nat => ks_dddX_D0D2D2 P f
  | 1%nat, 1%nat, 0%nat => ks_dddX_D1D1D0 P f
  | 1%nat, 1%nat, 1%nat => ks_dddX_D1D1D1 P f
  | 1%nat, 1%nat, 2%nat => ks_dddX_D1D1D2 P f
  | 1%nat, 2%nat, 0%nat => ks_dddX_D1D2D0 P f
  | 1%nat, 2%nat, 1%nat => ks_dddX_D1D2D1 P f
  | 1%nat, 2%nat, 2%nat => ks_dddX_D1D2D2 P f
  | 2%nat, 2%nat, 0%nat => ks_dddX_D2D2D0 P f
  | 2%nat, 2%nat, 1%nat => ks_dddX_D2D2D1 P f
  | 2%nat, 2%nat, 2%nat => ks_dddX_D2D2D2 P f
  | _, _, _ => 0
  end.

(* the functions dY_D.. by their indices *)
Definition kst_dY (P : kspar) (f : ksarg) (i : nat) : R :=
  match i with
  | 0%nat => ks_dY_D0 P f
  | 1%nat => ks_dY_D1 P f
  | 2%nat => ks_dY_D2 P f
  | _ => 0
  end.
(* the functions ddY_D.. by their indices *)
Definition kst_ddY (P : kspar) (f : ksarg) (i j : nat) : R :=
  match i, j with
  | 0%nat, 0%nat => ks_ddY_D0D0 P f
  | 0%nat, 1%nat => ks_ddY_D0D1 P f
  | 0%nat, 2%nat => ks_ddY_D0D2 P f
  | 1%nat, 1%nat => ks_ddY_D1D1 P f
  | 1%nat, 2%nat => ks_ddY_D1D2 P f
  | 2%nat, 2%nat => ks_ddY_D2D2 P f
  | _, _ => 0
  end.
(* the functions dddY_D.. by their indices *)
Definition kst_dddY (P : kspar) (f : ksarg) (i j k : nat) : R :=
  match i, j, k with
  | 0%nat, 0%nat, 0%nat => ks_dddY_D0D0D0 P f
  | 0%nat, 0%nat, 1%nat => ks_dddY_D0D0D1 P f
  | 0%nat, 0%nat, 2%nat => ks_dddY_D0D0D2 P f
  | 0%nat, 1%nat, 0%nat => ks_dddY_D0D1D0 P f
  | 0%nat, 1%nat, 1%nat => ks_dddY_D0D1D1 P f
  | 0%nat, 1%nat, 2%nat => ks_dddY_D0D1D2 P f
  | 0%nat, 2%nat, 0%nat => ks_dddY_D0D2D0 P f
  | 0%nat, 2%nat, 1%nat => ks_dddY_D0D2D1 P f
  | 0%nat, 2%nat, 2%nat => ks_dddY_D0D2D2 P f
  | 1%nat, 1%nat, 0%nat => ks_dddY_D1D1D0 P f
  | 1%nat, 1%nat, 1%nat => ks_dddY_D1D1D1 P f
  | 1%nat, 1%nat, 2%nat => ks_dddY_D1D1D2 P f
  | 1%nat, 2%nat, 0%nat => ks_dddY_D1D2D0 P f
  | 1%nat, 2%nat, 1%nat => ks_dddY_D1D2D1 P f
  | 1%nat, 2%nat, 2%nat => ks_dddY_D1D2D2 P f
  | 2%nat, 2%nat, 0%nat => ks_dddY_D2D2D0 P f
  | 2%nat, 2%nat, 1%nat => ks_dddY_D2D2D1 P f
  | 2%nat, 2%nat, 2%nat => ks_dddY_D2D2D2 P f
  | _, _, _ => 0
  end.

(* the functions dZ_D.. by their indices *)
Definition kst_dZ (P : kspar) (f : ksarg) (i : nat) : R :=
  match i with
  | 0%nat => ks_dZ_D0 P f
  | 1%nat => ks_dZ_D1 P f
  | 2%nat => ks_dZ_D2 P f
  | _ => 0
  end.
(* the functions ddZ_D.. by their indices *)
Definition kst_ddZ (P : kspar) (f : ksarg) (i j : nat) : R :=
  match i, j with
  | 0%nat, 0%nat => ks_ddZ_D0D0 P f
  | 0%nat, 1%nat => ks_ddZ_D0D1 P f
  | 0%nat, 2%nat => ks_ddZ_D0D2 P f
  | 1%nat, 1%nat => ks_ddZ_D1D1 P f
  | 1%nat, 2%nat => ks_ddZ_D1D2 P f
  | 2%nat, 2%nat => ks_ddZ_D2D2 P f
  | _, _ => 0
  end.
(* the functions dddZ_D.. by their indices *)
Definition kst_dddZ (P : kspar) (f : ksarg) (i j k : nat) : R :=
  match i, j, k with
  | 0%nat, 0%nat, 0%nat => ks_dddZ_D0D0D0 P f
  | 0%nat, 0%nat, 1%nat => ks_dddZ_D0D0D1 P f
  | 0%nat, 0%nat, 2%nat => ks_dddZ_D0D0D2 P f
  | 0%nat, 1%nat, 0%nat => ks_dddZ_D0D1D0 P f
  | 0%nat, 1%nat, 1%nat => ks_dddZ_D0D1D1 P f
  | 0%nat, 1%nat, 2%nat => ks_dddZ_D0D1D2 P f
  | 0%nat, 2%nat, 0%nat => ks_dddZ_D0D2D0 P f
  | 0%nat, 2%nat, 1%nat => ks_dddZ_D0D2D1 P f
  | 0%nat, 2%nat, 2%nat => ks_dddZ_D0D2D2 P f
  | 1%nat, 1%nat, 0%nat => ks_dddZ_D1D1D0 P f
  | 1%nat, 1%nat, 1%nat => ks_dddZ_D1D1D1 P f
  | 1%nat, 1%nat, 2%nat => ks_dddZ_D1D1D2 P f
  | 1%nat, 2%nat, 0%nat => ks_dddZ_D1D2D0 P f
  | 1%nat, 2%nat, 1%nat => ks_dddZ_D1D2D1 P f
  | 1%nat, 2%nat, 2%nat => ks_dddZ_D1D2D2 P f
  | 2%nat, 2%nat, 0%nat => ks_dddZ_D2D2D0 P f
  | 2%nat, 2%nat, 1%nat => ks_dddZ_D2D2D1 P f
  | 2%nat, 2%nat, 2%nat => ks_dddZ_D2D2D2 P f
  | _, _, _ => 0
  end.
