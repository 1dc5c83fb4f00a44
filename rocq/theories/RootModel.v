(** RootModel.v - the two root finders of
    Src/Main/Modules/Maths/Equation_Solvings/root_finders.c.

    SIMPLIFICATION: doubles are exact reals (RealBase.v).  An equation handed to the bisection may
    return a non-finite number ([None], read as nan: every comparison with it is false) and may
    set root->interrupt when called at given points; it is otherwise a pure function of x (the
    [void *params] it reads is fixed).  The equations handed to the steepest descent are finite
    everywhere and never interrupt.  Verbose printing and timing are left out. *)
From Verif Require Import RealBase.
Open Scope R_scope.

(** root_finders.h / maths_equation_solvings_lib.h: exit_status *)
Inductive status :=
| UNDEF | OK | EXTREMA | MAX_ITER | NO_IMPROVEMENT | INTERRUPTED | ABNORMAL.

(** root->residual: DBL_MAX until an equation has been evaluated (line 182), then a number or nan. *)
Inductive resid := Unset | Val (v : option R).

(** What the caller can read after execute_root_finder: exit_status, x_sol[0], residual and (in
    the verbose output) the number of the last step. *)
Record bis_result := mkBis { b_status : status; b_x : R; b_residual : resid; b_steps : nat }.

(** [x*y > 0] of two doubles: false when either is nan (lines 165, 231) *)
Definition prod_pos (x y : option R) : bool :=
  match x, y with Some u, Some v => ltR 0 (u * v) | _, _ => false end.

Section Bisect.
Variable f : R -> option R.      (* root->f[0](params, .) *)
Variable stops : R -> bool.      (* does the call at x set root->interrupt? *)
Variable TOL : R.

(** root_finders.c:187-241, the while loop.  [left] = MaxIter + 1 - i, [i] the step number,
    [intr] root->interrupt, [x] the content of x_sol[0]. *)
Fixpoint bisect_loop (left i : nat) (intr : bool) (a b : R) (FA : option R)
                     (x : R) (res : resid) : bis_result :=
  match left with
  | O => mkBis MAX_ITER x res (i - 1)                       (* lines 242-250 *)
  | S left' =>
      let d := / 2 * (b - a) in
      let p := a + d in
      let FP := f p in
      let intr := intr || stops p in
      if intr then mkBis INTERRUPTED x (Val FP) i           (* 195-203 *)
      else match FP with
      | None => mkBis ABNORMAL x (Val FP) i                 (* 204-212 *)
      | Some fp =>
          if EQL fp 0 || LSS (Rabs d) TOL
          then mkBis OK p (Val FP) i                        (* 220-227 *)
          else if prod_pos FA FP
               then bisect_loop left' (S i) intr p b FP x (Val FP)
               else bisect_loop left' (S i) intr a p FA x (Val FP)
      end
  end.
End Bisect.

(** root_finders.c:144-260 root_finder_bisect_single.  [None] = Error0 (the program ends).
    [n] = number of equations, [A], [B] = a_bisect, b_bisect; x_sol[0] is 0 from calloc (line 84).
    The interrupt flag is cleared (183) after the two trial calls of line 165 and before the call
    of line 186. *)
Definition bisect (n : nat) (f : R -> option R) (stops : R -> bool)
                  (A B TOL : R) (MaxIter : nat) : option bis_result :=
  if negb (n =? 1)%nat then None
  else if prod_pos (f A) (f B) then None
  else Some (bisect_loop f stops TOL MaxIter 1 (stops A) A B (f A) 0 Unset).

(** ** Steepest descent *)

Definition vec := nat -> R.
Definition upd (x : vec) (dir : nat) (v : R) : vec := fun i => if (i =? dir)%nat then v else x i.

(** One equation is a function of the vector of unknowns. *)
Definition eqn := vec -> R.

(** root_finders.c:550-564 g_SD *)
Fixpoint g_SD (fs : list eqn) (x : vec) : R :=
  match fs with [] => 0 | f :: r => (f x) ^ 2 + g_SD r x end.

(** root_finders.c:566-582 dg_dx_of_df_dx_SD (the df_dx[i] paired with its f[i]) *)
Fixpoint dg_sum (fds : list (eqn * (vec -> nat -> R))) (x : vec) (dir : nat) : R :=
  match fds with [] => 0 | (f, df) :: r => f x * df x dir + dg_sum r x dir end.
Definition dg_dx_of_df_dx_SD (fds : list (eqn * (vec -> nat -> R))) (x : vec) (dir : nat) : R :=
  dg_sum fds x dir * 2.

(** 10E-5 of line 588 *)
Definition eps_SD : R := / 10000.
(** lines 589-590: h = max(|x|*eps, eps) *)
Definition h_SD (xd : R) : R :=
  let fabsx := Rabs xd * eps_SD in if ltR eps_SD fabsx then fabsx else eps_SD.

(** root_finders.c:584-605 dg_dx_FD3M_SD *)
Definition dg_dx_FD3M_SD (fs : list eqn) (x : vec) (dir : nat) : R :=
  let h := h_SD (x dir) in
  let x1 := upd x dir (x dir - h) in
  let gl := g_SD fs x1 in
  let x2 := upd x1 dir (x1 dir + 2 * h) in
  let gr := g_SD fs x2 in
  / 2 * (gr - gl) / h.

(** root_finders.c:607-630 dg_dx_FD3R_SD *)
Definition dg_dx_FD3R_SD (fs : list eqn) (x : vec) (dir : nat) : R :=
  let h := h_SD (x dir) in
  let g := g_SD fs x in
  let x1 := upd x dir (x dir + h) in
  let gr1 := g_SD fs x1 in
  let x2 := upd x1 dir (x1 dir + h) in
  let gr2 := g_SD fs x2 in
  / 2 * (-3 * g + 4 * gr1 - gr2) / h.

(** root_finders.c:632-655 dg_dx_FD3L_SD *)
Definition dg_dx_FD3L_SD (fs : list eqn) (x : vec) (dir : nat) : R :=
  let h := h_SD (x dir) in
  let g := g_SD fs x in
  let x1 := upd x dir (x dir - h) in
  let gl1 := g_SD fs x1 in
  let x2 := upd x1 dir (x1 dir - h) in
  let gl2 := g_SD fs x2 in
  / 2 * (3 * g - 4 * gl1 + gl2) / h.

(** What the caller chose (lines 300-308): derivatives, or a finite-difference stencil. *)
Inductive diffs := Given (df : list (vec -> nat -> R)) | FD_Left | FD_Right | FD_Mid.
Definition gradient (fs : list eqn) (how : diffs) : vec -> nat -> R :=
  match how with
  | Given df => dg_dx_of_df_dx_SD (combine fs df)
  | FD_Left => dg_dx_FD3L_SD fs
  | FD_Right => dg_dx_FD3R_SD fs
  | FD_Mid => dg_dx_FD3M_SD fs
  end.

(** Maths/General/general.c:10-30 root_square with v1 = 0 *)
Definition root_square1 (n : nat) (z : vec) : R := sqrt (Rsum n (fun i => Pow2 (z i))).

(** y[i] = x[i] - alpha*z[i] *)
Definition step (x : vec) (alpha : R) (z : vec) : vec := fun i => x i - alpha * z i.

Record sd_result := mkSD { s_status : status; s_x : vec; s_residual : option R }.

Section SD.
Variable fs : list eqn.
Variable n : nat.
Variable dg : vec -> nat -> R.
Variable TOL : R.

(** root_finders.c:387-429, the inner while (g3 >= g1).  [Some (inl (alpha3,g3))]: left with a
    decrease; [Some (inr (y,g3))]: alpha3 < 0.5*TOL, x := y; [None]: still looping after [fuel]
    halvings. *)
Fixpoint line_search (fuel : nat) (x z : vec) (g1 alpha3 g3 : R) : option ((R * R) + (vec * R)) :=
  if leR g1 g3 then
    match fuel with
    | O => None
    | S fuel' =>
        let alpha3 := alpha3 / 2 in
        let y := step x alpha3 z in
        let g3 := g_SD fs y in
        if ltR alpha3 (/ 2 * TOL) then Some (inr (y, g3))
        else line_search fuel' x z g1 alpha3 g3
    end
  else Some (inl (alpha3, g3)).

(** root_finders.c:433-460: the trial step alpha0.  [None]: h3 = 0, so that alpha0 and then g0 are
    not finite and [g0 < g3] is false. *)
Definition alpha0_of (x z : vec) (g1 alpha3 g3 : R) : option R :=
  let alpha2 := alpha3 * / 2 in
  let g2 := g_SD fs (step x alpha2 z) in
  let h1 := (g2 - g1) / alpha2 in
  let h2 := (g3 - g2) / (alpha3 - alpha2) in
  let h3 := (h2 - h1) / alpha3 in
  let? q := fdiv h1 h3 in Some (/ 2 * (alpha2 - q)).

(** One pass of the outer loop (320-489).  [inl r]: the loop ends with r; [inr (x,g)]: next k. *)
Definition sd_pass (fuel : nat) (x : vec) : option (sd_result + (vec * R)) :=
  let g1 := g_SD fs x in
  let z := dg x in
  let z0 := root_square1 n z in
  if EQL z0 0 then Some (inl (mkSD EXTREMA x (Some (sqrt g1))))
  else
    let z := fun i => z i / z0 in
    match line_search fuel x z g1 1 (g_SD fs (step x 1 z)) with
    | None => None
    | Some (inr (y, g3)) => Some (inl (mkSD NO_IMPROVEMENT y (Some (sqrt g3))))
    | Some (inl (alpha3, g3)) =>
        let a0 := alpha0_of x z g1 alpha3 g3 in
        let '(alpha, g) :=
          match a0 with
          | Some al => let g0 := g_SD fs (step x al z) in
                       if ltR g0 g3 then (al, g0) else (alpha3, g3)
          | None => (alpha3, g3)
          end in
        let x' := step x alpha z in
        if ltR (Rabs (g - g1)) TOL then Some (inl (mkSD OK x' (Some (sqrt g))))
        else Some (inr (x', g))
    end.

(** The outer while (k <= MaxIter); [left] = MaxIter + 1 - k. *)
Fixpoint sd_loop (fuel left : nat) (x : vec) : option sd_result :=
  match left with
  | O => None (* not reached: the loop leaves through line 500 *)
  | S left' =>
      match sd_pass fuel x with
      | None => None
      | Some (inl r) => Some r
      | Some (inr (x', g)) =>
          match left' with
          | O => Some (mkSD MAX_ITER x' (Some (sqrt g)))   (* lines 491-502 *)
          | S _ => sd_loop fuel left' x'
          end
      end
  end.

(** root_finders.c:266-513 root_finder_steepest_descent, started at x (x_gss, or 0).  With
    MaxIter = 0 the loop is never entered: status UNDEF, residual DBL_MAX ([None]). *)
Definition steepest (fuel MaxIter : nat) (x : vec) : option sd_result :=
  match MaxIter with
  | O => Some (mkSD UNDEF x None)
  | S _ => sd_loop fuel MaxIter x
  end.
End SD.

(** The whole call: equations, derivative choice, tolerance, MaxIter and initial guess. *)
Definition steepest_descent (fs : list eqn) (n : nat) (how : diffs) (TOL : R)
           (fuel MaxIter : nat) (x0 : vec) : option sd_result :=
  steepest fs n (gradient fs how) TOL fuel MaxIter x0.
