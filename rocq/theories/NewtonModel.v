(** NewtonModel.v - the Newton iteration of the domain-decomposition solver:
    Src/Main/Modules/Maths/Equation_Solvings/solve_eqs_ddm_schur_complement.c (solve_field) and
    solve_eqs.c (the default stop criterion).

    The equations of the patches enter as parameters: [feq p u] is the column f that make_f (:2198-2207) computes in patch p
    from the field u, [Bj p u] and [Ej p u] are the matrices B and E^T that jacobian_field_eq and jacobian_bc_eq fill
    (making_B_and_E, :1470-1494).  FieldUpdate only recomputes quantities derived from the field and is part of these
    functions.  [ps] holds the numbering and the subfaces, which do not change during the iteration. *)
From Verif Require Import Base TextModel MatrixModel SchurModel SewModel.

Section Newton.
Context {F : Type} (zero one : F) (add sub mul : F -> F -> F) (opp : F -> F) (grt_abs : F -> F -> bool).
Context (drop : option F) (long : bool) (solver : matrix F -> list F -> outcome (list F)) (junkz : Z) (junk : F).
Context (pd : nat -> nat -> list F -> list F) (interp : nat -> sface F -> nat -> list F -> F)
        (d2f : nat -> nat -> nat -> nat -> F) (dinterp : nat -> sface F -> nat -> nat -> nat -> F).
Context (feq : nat -> list F -> list F) (Bj Ej : nat -> list F -> list (list F)).

(** :171-185 make_f, make_partial_g and make_g; a null g is dereferenced by dot (:2644) *)
Definition make_g_all (ps : list (ipatch F)) (us : list (list F)) : outcome (list (list F)) :=
  omap (fun q => do g <- make_g zero one add mul opp pd interp (combine ps us) q;
                 match g with None => UB | Some g => Ok g end) (seq 0 (List.length ps)).

(** :209-220 the linear system of patch p: making_B_and_E, making_F_and_C *)
Definition assemble (ps : list (ipatch F)) (us gs : list (list F)) (p : nat) : outcome (spatch F) :=
  do P <- rd ps p; do u <- rd us p; do g <- rd gs p;
  do FC <- F_and_C zero one add mul opp d2f dinterp ps p;
  Ok (mkP (i_NS P) (i_NI P) (Bj p u) (Ej p u) (feq p u) g (fst FC) (snd FC)).

(** :205-314 one Newton step on a grid of several patches, after the stop criterion said continue *)
Definition newton_step (lambda : F) (ps : list (ipatch F)) (us gs : list (list F)) : outcome (list (list F)) :=
  do sps <- omap (assemble ps us gs) (seq 0 (List.length ps));
  do xy <- schur_step zero add sub mul grt_abs drop long solver junkz junk sps;
  omap (fun p => do P <- rd ps p; do u <- rd us p; do v <- rd xy p;
                 do ub <- update_field zero sub mul lambda (i_NS P) (i_NI P) (i_inv P) (i_Iinv P) (fst v) (snd v) u;
                 Ok (fst ub)) (seq 0 (List.length ps)).

(** :161-329 without the stop criterion: k rounds of the loop on a grid of several patches *)
Fixpoint newton_steps (k : nat) (lambda : F) (ps : list (ipatch F)) (us : list (list F)) : outcome (list (list F)) :=
  match k with
  | 0 => Ok us
  | S k => do us' <- newton_steps k lambda ps us; do gs <- make_g_all ps us'; newton_step lambda ps us' gs
  end.

(** :110-156 one Newton step on a grid with a single patch; NS is the number of all nodes there *)
Definition newton_step_single (lambda : F) (P : ipatch F) (u : list F) : outcome (list F) :=
  do x <- solve_Bx_f zero grt_abs drop solver (mkP (i_NS P) (i_NI P) (Bj 0 u) [] (feq 0 u) [] [] []);
  do ub <- update_field_single_patch zero sub mul lambda (i_NS P) (i_inv P) x u;
  Ok (fst ub).
End Newton.

(** ** the loop *)
Section Loop.
Context {D : Type} (isfinite : D -> bool) (gt : D -> D -> bool).

(** solve_eqs.c:29-93 default_stop_criteria_solve_equations: the residual of each patch, the step (the same in
    every patch), solve_Residual, solve_Max_Newton_Step.  true: continue. *)
Inductive verdict := Abnormal | MaxStep | Satisfied | Goes_on.
Fixpoint criteria (res : list D) (step max_step : Z) (res_d : D) : verdict :=
  match res with
  | [] => Satisfied
  | r :: t => if negb (isfinite r) then Abnormal
              else if (max_step <=? step)%Z then MaxStep
              else if gt r res_d then Goes_on
              else criteria t step max_step res_d
  end.
Definition StopCriteria (res : list D) (step max_step : Z) (res_d : D) : bool :=
  match criteria res step max_step res_d with Goes_on => true | _ => false end.

(** solve_field :103-330, both branches: [residual st] is what calculate_residual stores in Frms of each patch, [body st] the Newton
    step; the history is settings->HFrms of the patches of a grid of several patches (appended by calculate_residual, :2688-2699; a single patch records only its initial residual, :2616-2627).
    The loop is given [fuel] rounds; None: not finished. *)
Context {St : Type} (residual : St -> outcome (list D)) (body : St -> outcome St).
Fixpoint solve_field (fuel : nat) (step max_step : Z) (res_d : D) (st : St) (hist : list (list D)) : outcome (option (St * Z * list (list D))) :=
  match fuel with
  | 0 => Ok None
  | S fuel =>
      do res <- residual st;
      if StopCriteria res step max_step res_d then
        do st' <- body st; solve_field fuel (step + 1) max_step res_d st' (hist ++ [res])
      else Ok (Some (st, step, hist ++ [res]))
  end.
End Loop.
