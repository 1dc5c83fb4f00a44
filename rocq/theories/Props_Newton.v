(** Props_Newton.v - C86-C92: the Newton iteration on a grid of patches by the Schur complement method.  [safe P o]: the outcome o is
    not undefined behaviour, and if it is a result the result satisfies P (an abort comes from the linear solver or from an error exit).
    F is any commutative ring: exact arithmetic.  The sparse solver (UMFPACK) is a parameter assumed to satisfy SchurSpec.exact_solver.
    SchurSpec.v, SewSpec.v and NewtonSpec.v say what is to be computed. *)
From Coq Require Import Reals Lra.
From Verif Require Import Base TextModel MatrixModel MatrixSpec SchurModel SchurSpec SchurProofs SchurExact SchurReal SewModel SewSpec SewMap SewFinal SewMeaning SewRefute
  NewtonModel NewtonSpec NewtonProofs NewtonLoop NewtonReal NewtonExamples.
From Verif Require RealBase.
Open Scope nat_scope.
Notation length := List.length.

(** C86. One linear solve gives the solution of the whole block system. *)
Theorem C86_schur_solves : forall F (zero one : F) add mul sub opp grt_abs, ring_theory zero one add mul sub opp eq ->
  forall drop long solver junkz junk, grt_abs zero zero = false -> exact_solver zero add mul solver ->
  forall ps : list (spatch F), ps <> [] -> Forall (patch_ok (map sNI ps)) ps -> sizes_ok ps ->
  nothing_dropped zero add sub mul grt_abs (drop_limit zero drop) ps ->
  safe (solves_block_system zero add mul ps) (schur_step zero add sub mul grt_abs drop long solver junkz junk ps).
Proof. intros. apply (step_solves zero one add mul sub opp); assumption. Qed.
Print Assumptions C86_schur_solves.
(** With dropped entries: the equations hold up to the terms that come from the dropped entries. *)
Theorem C86_schur_drops : forall F (zero one : F) add mul sub opp grt_abs, ring_theory zero one add mul sub opp eq ->
  forall drop long solver junkz junk, grt_abs zero zero = false -> exact_solver zero add mul solver ->
  forall ps : list (spatch F), ps <> [] -> Forall (patch_ok (map sNI ps)) ps -> sizes_ok ps ->
  safe (solves_with_drops zero add sub mul grt_abs (drop_limit zero drop) ps) (schur_step zero add sub mul grt_abs drop long solver junkz junk ps).
Proof. intros. apply (step_drops zero one add mul sub opp); assumption. Qed.
Print Assumptions C86_schur_drops.
(** A bound on these terms over the reals, with the test GRT(ABSd(x),limit) of the code: entries up to limit + 1e-12 are dropped, also when
    the limit is 0. *)
Definition grt_abs_R (x l : R) : bool := RealBase.GRT (RealBase.ABSd x) l.
Theorem C86_drop_bound : forall lim, (0 <= lim)%R -> forall (ps : list (spatch R)) xy,
  solves_with_drops 0%R Rplus Rminus Rmult grt_abs_R lim ps xy ->
  let tol0 := (/ 1000000000000)%R in let tol := (lim + tol0)%R in
  length xy = length ps /\ exists Xs : list (list (list R)),
  (forall p P x y, nth_error ps p = Some P -> nth_error xy p = Some (x, y) ->
     (forall i r, i < sNI P -> r < sNS P -> sumR (sNS P) (fun k => kept 0%R grt_abs_R lim (entry 0%R (sB P) r k) * entry 0%R (nth p Xs []) i k)%R = entry 0%R (sET P) i r) /\
     forall r, r < sNS P -> (Rabs (sub_row 0%R Rplus Rmult P x y r - ent 0%R (sf P) r) <=
       tol * (sumR (sNS P) (fun c => Rabs (ent 0%R x c)) + sumR (sNI P) (fun i => sumR (sNS P) (fun c => Rabs (entry 0%R (sB P) r c)) * Rabs (ent 0%R y i))))%R) /\
  (forall q Q i, nth_error ps q = Some Q -> i < sNI Q ->
     (Rabs (interface_row 0%R Rplus Rmult ps xy q i - ent 0%R (sg Q) i) <=
       sumR (length ps) (fun p => let P := nth p ps (mkP 0 0 [] [] [] [] [] []) in
         sumR (sNI P) (fun j => (tol0 + tol * sumR (sNS P) (fun k => Rabs (entry 0%R (nth p Xs []) j k))) * Rabs (ent 0%R (snd (nth p xy ([], []))) j))))%R).
Proof.
  intros lim Hl ps xy H tol0 tol. assert (T0 : RealBase.ROUND_OFF_ERR = tol0) by (unfold RealBase.ROUND_OFF_ERR, tol0; lra).
  assert (B : forall l v, grt_abs_R v l = false -> (Rabs v <= l + tol0)%R).
  { intros l v E. unfold grt_abs_R in E. rewrite RealBase.ABSd_Rabs in E. rewrite <- T0. apply Rnot_lt_le. intros C. apply RealBase.GRT_iff in C. congruence. }
  assert (0 < tol0)%R by (unfold tol0; lra).
  apply (drops_bound grt_abs_R lim tol tol0); [apply B| |unfold tol; lra|lra|assumption]. intros v E. specialize (B 0%R v E). lra.
Qed.
Print Assumptions C86_drop_bound.
(** A grid of a single patch: the dense system is solved. *)
Theorem C86_single : forall F (zero : F) add mul grt_abs drop solver, exact_solver zero add mul solver ->
  forall P : spatch F, 0 < sNS P -> shape (sNS P) (sNS P) (sB P) -> length (sf P) = sNS P ->
  (Z.of_nat (sNS P) * Z.of_nat (sNS P) <= 2147483647)%Z ->
  (forall r c, r < sNS P -> c < sNS P -> not_dropped zero grt_abs (drop_limit zero drop) (entry zero (sB P) r c)) ->
  safe (fun x => length x = sNS P /\ forall r, r < sNS P -> sumF zero add (sNS P) (fun c => mul (entry zero (sB P) r c) (ent zero x c)) = ent zero (sf P) r)
    (solve_Bx_f zero grt_abs drop solver P).
Proof. intros. apply (single_solves zero add mul); assumption. Qed.
Print Assumptions C86_single.
(** two patches, one subdomain and one interface point each: the hypotheses hold and the solve succeeds *)
Definition ex_blocks : list (spatch Z) :=
  [mkP 1 1 [[1]] [[1]] [-8] [-1] [Some (mkM 1 1 (RMO [1])); None] [Some (mkM 1 1 (REG [[-1]])); None];
   mkP 1 1 [[1]] [[-1]] [-1] [2] [Some (mkM 1 1 (RMO [1])); Some (mkM 1 1 (RMO [0]))] [Some (mkM 1 1 (REG [[-1]])); Some (mkM 1 1 (REG [[1]]))]]%Z.
Lemma ex_block_ok a b : block_ok 1 1 1 (Some (mkM 1 1 (RMO [a]))) (Some (mkM 1 1 (REG [[b]]))) (F := Z).
Proof. right. exists [[a]], [[b]]. split; [reflexivity|]. split; [split; [reflexivity|repeat constructor]|]. split; [reflexivity|split; [reflexivity|repeat constructor]]. Qed.
Example C86_ex : Forall (patch_ok (map sNI ex_blocks)) ex_blocks /\ sizes_ok ex_blocks /\
  nothing_dropped 0%Z Z.add Z.sub Z.mul zgrt (drop_limit 0%Z None) ex_blocks /\ exact_solver 0%Z Z.add Z.mul (zsolver cands) /\
  exists xy, schur_step 0%Z Z.add Z.sub Z.mul zgrt None true (zsolver ([-4; 2] :: cands)%Z) 0%Z 0%Z ex_blocks = Ok xy /\ xy = [([-4], [-4; 2]); ([1], [2])]%Z.
Proof.
  split; [|split; [|split; [apply z_nothing|split; [apply zsolver_exact|]]]].
  3: {
    vm_compute. eexists. split; reflexivity. }
  - constructor; [|constructor; [|constructor]]; (constructor; cbn; try lia; try (split; [reflexivity|repeat constructor])); intros [|[|[|q]]] n Fo Co En EF EC; cbn in *; try discriminate;
    injection En as <-; injection EF as <-; injection EC as <-; try apply ex_block_ok; left; split; reflexivity.
  - split; [cbn; lia|]. repeat constructor; cbn; lia.
Qed.

(** C87. The numbering of the nodes of a patch: for every patch and every set of subfaces it is either a permutation with the stated
    order, or an error exit because a subface is internal or a node of a face is on no subface. *)
Theorem C87_numbering : forall F n0 n1 n2 nn (sfs : list (sface F)) map0 inv0,
  nn = n0 * n1 * n2 -> (Z.of_nat n0 * Z.of_nat n1 * Z.of_nat n2 < 4294967296)%Z -> length map0 = nn -> length inv0 = nn ->
  Forall (fun sf => Forall (fun i => i < nn) (f_id sf)) sfs ->
  let accepted := Forall (fun sf => f_exterF sf = true) sfs /\ forall i, i < nn -> on_face n0 n1 n2 i -> on_some_subface sfs i in
  ((exists m, make_map_and_inv n0 n1 n2 nn false sfs map0 inv0 = Ok m /\ numbering n0 n1 n2 nn sfs m) /\ accepted) \/
  (make_map_and_inv n0 n1 n2 nn false sfs map0 inv0 = Abort /\ ~ accepted).
Proof. exact @map_ok. Qed.
Print Assumptions C87_numbering.
(** The numbering is what the assembly of the interface equations needs. *)
Theorem C87_numbered : forall F n0 n1 n2 nn (sfs : list (sface F)) m, numbering n0 n1 n2 nn sfs m -> 0 < s_NS m -> 0 < s_NI m ->
  let P := mkIP (s_NS m) (s_NI m) (s_inv m) (s_Iinv m) (s_Imap m) sfs in patch_numbered P /\ i_nn P = nn.
Proof. exact @numbering_patch. Qed.
Print Assumptions C87_numbered.
Theorem C87_closed : forall F n0 n1 n2 nn (sfs : list (sface F)) map0 inv0, make_map_and_inv n0 n1 n2 nn true sfs map0 inv0 = Abort.
Proof. exact @map_closed. Qed.
Print Assumptions C87_closed.
(** 3 x 1 x 1 nodes: all on faces; the outer boundary holds node 0, the interface the others *)
Definition ex_sfs : list (sface Z) := [mkSF [2; 1] [] 1 0 0 true false false true true false []; mkSF [0; 1] [] 0 1 0 true true false false false false []].
Example C87_ex : make_map_and_inv 3 1 1 3 false ex_sfs [7; 7; 7] [7; 7; 7] = Ok (mkSmap [0; 1; 2] [0; 1; 2] 0 2 1 [None; None; Some 0] [2]) /\
  make_map_and_inv 3 1 1 3 false [nth 1 ex_sfs (mkSF [] [] 0 0 0 true false false true true false [])] [7; 7; 7] [7; 7; 7] = Abort.
Proof. vm_compute. split; reflexivity. Qed.

(** C88. g is the sum of the jumps at each interface node, and the blocks F and C are its matrix: applied to any fields they give the g of
    these fields. *)
Theorem C88_jumps : forall F (zero one : F) add mul sub opp, ring_theory zero one add mul sub opp eq ->
  forall pd interp d2f dinterp ps, grid_sewn ps ->
  (forall p P, nth_error ps p = Some P -> jacobians_match zero add mul pd interp d2f dinterp p (i_nn P)) ->
  forall us q Q, fields_fit ps us -> nth_error ps q = Some Q ->
  exists g, make_g zero one add mul opp pd interp (combine ps us) q = Ok (Some g) /\ length g = i_NI Q /\
    forall i, i < i_NI Q -> ent zero g i = at_interface zero add Q i (jump zero add sub mul pd interp us q).
Proof. intros F zero one add mul sub opp RT pd interp d2f dinterp. exact (g_meaning zero one add mul sub opp RT pd interp d2f dinterp). Qed.
Print Assumptions C88_jumps.
Theorem C88_jacobian : forall F (zero one : F) add mul sub opp, ring_theory zero one add mul sub opp eq ->
  forall pd interp d2f dinterp ps, grid_sewn ps ->
  (forall p P, nth_error ps p = Some P -> jacobians_match zero add mul pd interp d2f dinterp p (i_nn P)) ->
  exists sps, length sps = length ps /\
  (forall p P S, nth_error ps p = Some P -> nth_error sps p = Some S ->
     sNS S = i_NS P /\ sNI S = i_NI P /\ F_and_C zero one add mul opp d2f dinterp ps p = Ok (sF S, sC S)) /\
  forall us q Q, fields_fit ps us -> nth_error ps q = Some Q ->
    exists g, make_g zero one add mul opp pd interp (combine ps us) q = Ok (Some g) /\ length g = i_NI Q /\
      forall i, i < i_NI Q -> ent zero g i = interface_row zero add mul sps (map (fun Pu => restrict zero (fst Pu) (snd Pu)) (combine ps us)) q i.
Proof. intros F zero one add mul sub opp RT pd interp d2f dinterp. exact (g_blocks zero one add mul sub opp RT pd interp d2f dinterp). Qed.
Print Assumptions C88_jacobian.
Example C88_ex : grid_sewn zgrid /\ (forall p P, nth_error zgrid p = Some P -> jacobians_match 0%Z Z.add Z.mul zpd zinterp zd2f zdinterp p (i_nn P)) /\
  fields_fit zgrid us0 /\ make_g_all 0%Z 1%Z Z.add Z.mul Z.opp zpd zinterp zgrid us0 = Ok [[-1]; [2]]%Z.
Proof.
  split; [apply grid_ok|]. split; [exact (grid_jac 0%Z 1%Z Z.add Z.mul Z.sub Z.opp ZRT)|]. split; [|vm_compute; reflexivity].
  split; [reflexivity|]. intros [|[|[|p]]] P u EP EU; cbn in EP, EU; try discriminate; injection EP as <-; injection EU as <-; reflexivity.
Qed.

(** C89. The update changes every node once, by -lambda times the correction of that node, and keeps the old field in the backup. *)
Theorem C89_update : forall F (zero : F) sub mul lambda NS NI inv Iinv x y u,
  NS + NI = length u -> NS <= length inv -> NI <= length Iinv -> NoDup (firstn NS inv ++ firstn NI Iinv) ->
  Forall (fun i => i < length u) (firstn NS inv ++ firstn NI Iinv) -> NS <= length x -> NI <= length y ->
  exists u' b', update_field zero sub mul lambda NS NI inv Iinv x y u = Ok (u', b') /\ length u' = length u /\ b' = u /\
    (forall s, s < NS -> ent zero u' (nth s inv 0) = sub (ent zero u (nth s inv 0)) (mul lambda (ent zero x s))) /\
    (forall i, i < NI -> ent zero u' (nth i Iinv 0) = sub (ent zero u (nth i Iinv 0)) (mul lambda (ent zero y i))).
Proof. intros F zero sub mul lambda NS NI inv Iinv x y u H1 H2 H3 H4 H5 H6 H7. apply update_ok; [unfold node_lists; auto|assumption|assumption]. Qed.
Print Assumptions C89_update.
Theorem C89_update_single : forall F (zero : F) sub mul lambda NS inv x u,
  NS <= length inv -> NoDup (firstn NS inv) -> Forall (fun i => i < length u) (firstn NS inv) -> NS <= length x ->
  exists u' b', update_field_single_patch zero sub mul lambda NS inv x u = Ok (u', b') /\ length u' = length u /\ length b' = length u /\
    (forall s, s < NS -> ent zero u' (nth s inv 0) = sub (ent zero u (nth s inv 0)) (mul lambda (ent zero x s)) /\ ent zero b' (nth s inv 0) = ent zero u (nth s inv 0)) /\
    (forall k, ~ In k (firstn NS inv) -> ent zero u' k = ent zero u k).
Proof. exact @update_single_ok. Qed.
Print Assumptions C89_update_single.
Example C89_ex : update_field 0%Z Z.sub Z.mul 2%Z 2 1 [2; 0; 1] [1] [10; 20]%Z [30; 99]%Z [1; 2; 3]%Z = Ok ([-39; -58; -17], [1; 2; 3])%Z /\
  NoDup (firstn 2 [2; 0; 1] ++ firstn 1 [1]).
Proof. split; [vm_compute; reflexivity|]. cbn. repeat constructor; cbn; intuition lia. Qed.

(** C90. One Newton step subtracts lambda times the solution of the equations linearised at the current fields. *)
Theorem C90_newton_step : forall F (zero one : F) add mul sub opp grt_abs, ring_theory zero one add mul sub opp eq ->
  forall drop long solver junkz junk, grt_abs zero zero = false -> exact_solver zero add mul solver ->
  forall pd interp d2f dinterp feq Bj Ej ps, grid_sewn ps ->
  (forall p P, nth_error ps p = Some P -> jacobians_match zero add mul pd interp d2f dinterp p (i_nn P)) ->
  equations_fit feq Bj Ej ps -> grid_fits ps -> ps <> [] -> forall lambda us gs, fields_fit ps us ->
  make_g_all zero one add mul opp pd interp ps us = Ok gs ->
  (forall sps, omap (assemble zero one add mul opp d2f dinterp feq Bj Ej ps us gs) (seq 0 (length ps)) = Ok sps ->
     nothing_dropped zero add sub mul grt_abs (drop_limit zero drop) sps) ->
  safe (fun us' => exists ds, newton_correction zero one add sub mul opp pd interp feq Bj Ej lambda ps us us' ds)
    (newton_step zero one add sub mul opp grt_abs drop long solver junkz junk d2f dinterp feq Bj Ej lambda ps us gs).
Proof. intros. apply (newton_ok zero one add mul sub opp); assumption. Qed.
Print Assumptions C90_newton_step.
(** k steps scale the jumps of the initial fields by (1 - lambda)^k, whatever the equations; if the equations are affine, the residuals of
    the equations too.  With lambda = 1 one step is exact. *)
Theorem C90_newton_steps : forall F (zero one : F) add mul sub opp grt_abs, ring_theory zero one add mul sub opp eq ->
  forall drop long solver junkz junk, grt_abs zero zero = false -> exact_solver zero add mul solver ->
  forall pd interp d2f dinterp feq Bj Ej ps, grid_sewn ps ->
  (forall p P, nth_error ps p = Some P -> jacobians_match zero add mul pd interp d2f dinterp p (i_nn P)) ->
  equations_fit feq Bj Ej ps -> grid_fits ps -> ps <> [] ->
  (forall us gs sps, fields_fit ps us -> make_g_all zero one add mul opp pd interp ps us = Ok gs ->
     omap (assemble zero one add mul opp d2f dinterp feq Bj Ej ps us gs) (seq 0 (length ps)) = Ok sps ->
     nothing_dropped zero add sub mul grt_abs (drop_limit zero drop) sps) ->
  forall lambda us0 gs0, fields_fit ps us0 -> make_g_all zero one add mul opp pd interp ps us0 = Ok gs0 -> forall k,
  safe (fun us => fields_fit ps us /\
          make_g_all zero one add mul opp pd interp ps us = Ok (map (map (mul (power one mul (sub one lambda) k))) gs0) /\
          (equations_affine zero add sub mul feq Bj Ej ps -> forall p P, nth_error ps p = Some P ->
             feq p (nth p us []) = map (mul (power one mul (sub one lambda) k)) (feq p (nth p us0 []))))
    (newton_steps zero one add sub mul opp grt_abs drop long solver junkz junk pd interp d2f dinterp feq Bj Ej k lambda ps us0).
Proof. intros. apply (steps_ok zero one add mul sub opp); assumption. Qed.
Print Assumptions C90_newton_steps.
Theorem C90_single : forall F (zero one : F) add mul sub opp grt_abs, ring_theory zero one add mul sub opp eq ->
  forall drop solver, exact_solver zero add mul solver -> forall feq Bj lambda P u, 0 < i_NS P -> i_NS P = length u -> i_NS P <= length (i_inv P) ->
  NoDup (firstn (i_NS P) (i_inv P)) -> Forall (fun i => i < length u) (firstn (i_NS P) (i_inv P)) -> shape (i_NS P) (i_NS P) (Bj 0 u) ->
  length (feq 0 u) = i_NS P -> (Z.of_nat (i_NS P) * Z.of_nat (i_NS P) <= 2147483647)%Z ->
  (forall r c, r < i_NS P -> c < i_NS P -> not_dropped zero grt_abs (drop_limit zero drop) (entry zero (Bj 0 u) r c)) ->
  safe (fun u' => length u' = length u /\ exists d, length d = length u /\
          (forall n, n < length u -> ent zero u' n = sub (ent zero u n) (mul lambda (ent zero d n))) /\
          (forall r, r < i_NS P -> sumF zero add (i_NS P) (fun c => mul (entry zero (Bj 0 u) r c) (ent zero d (nth c (i_inv P) 0))) = ent zero (feq 0 u) r))
    (newton_step_single zero sub mul grt_abs drop solver feq Bj lambda P u).
Proof. intros F zero one add mul sub opp grt_abs RT. exact (single_newton_ok zero one add mul sub opp grt_abs RT). Qed.
Print Assumptions C90_single.
(** on the two-patch grid the hypotheses hold; with lambda = 1 one step reaches the solution, with lambda = 2 two steps return to the start *)
Example C90_ex : equations_fit zfeq zB zE zgrid /\ grid_fits zgrid /\ equations_affine 0%Z Z.add Z.sub Z.mul zfeq zB zE zgrid /\
  (let steps := newton_steps 0%Z 1%Z Z.add Z.sub Z.mul Z.opp zgrt None true (zsolver cands) 0%Z 0%Z zpd zinterp zd2f zdinterp zfeq zB zE in
   steps 1 1%Z zgrid us0 = Ok [[5; 6]; [6; 7]]%Z /\ steps 2 2%Z zgrid us0 = Ok us0) /\
  zfeq 0 [5; 6]%Z = [0%Z] /\ zfeq 1 [6; 7]%Z = [0%Z] /\ make_g_all 0%Z 1%Z Z.add Z.mul Z.opp zpd zinterp zgrid [[5; 6]; [6; 7]]%Z = Ok [[0]; [0]]%Z.
Proof.
  split; [apply grid_eqs|]. split; [apply grid_sizes|]. split; [exact (grid_affine 0%Z 1%Z Z.add Z.mul Z.sub Z.opp 11%Z 1%Z ZRT)|].
  vm_compute. repeat split; reflexivity.
Qed.

(** C91. The loop ends after at most solve_Max_Newton_Step steps, and what its end means. *)
Theorem C91_loop : forall D (isfinite : D -> bool) gt St (residual : St -> outcome (list D)) body max_step res_d st0,
  match solve_field isfinite gt residual body (S (Z.to_nat max_step)) 0 max_step res_d st0 [] with
  | Ok (Some (st, kz, hist)) => exists k h res, kz = Z.of_nat k /\ iterates isfinite gt residual body max_step res_d st0 k st h /\
        hist = h ++ [res] /\ length hist = S k /\ residual st = Ok res /\ (Z.of_nat k <= Z.max 0 max_step)%Z /\
        ((exists r, In r res /\ isfinite r = false) \/ (max_step <= Z.of_nat k)%Z \/ Forall (fun r => isfinite r = true /\ gt r res_d = false) res)
  | Ok None => False
  | Abort => exists k st h, iterates isfinite gt residual body max_step res_d st0 k st h /\ (residual st = Abort \/ body st = Abort)
  | UB => exists k st h, iterates isfinite gt residual body max_step res_d st0 k st h /\ (residual st = UB \/ body st = UB)
  end.
Proof. exact @loop_ends. Qed.
Print Assumptions C91_loop.
(** With finite residuals the loop goes on exactly when the step limit is not reached and some patch has a residual above the goal. *)
Theorem C91_continue : forall D (isfinite : D -> bool) gt res step max_step res_d, Forall (fun r => isfinite r = true) res ->
  (StopCriteria isfinite gt res step max_step res_d = true <-> (step < max_step)%Z /\ exists r, In r res /\ gt r res_d = true).
Proof. exact @continue_iff. Qed.
Print Assumptions C91_continue.
(** A residual that is not finite does not stop the loop when an earlier patch has a large one; NaN and infinity are [None]. *)
Theorem C91_nan_refuted : exists (isfinite : option Z -> bool) gt res step max_step res_d, (forall r, isfinite r = false <-> r = None) /\
  In None res /\ StopCriteria isfinite gt res step max_step res_d = true.
Proof.
  exists (fun r => match r with None => false | Some _ => true end), (fun a b => match a, b with Some x, Some y => (y <? x)%Z | _, _ => false end),
    [Some 5; None]%Z, 0%Z, 10%Z, (Some 1%Z). split; [|split; [right; left; reflexivity|reflexivity]].
  intros [z|]; split; intros H; try discriminate; reflexivity.
Qed.
Print Assumptions C91_nan_refuted.
(** The residual is the root mean square of f and g together. *)
Theorem C91_residual : forall NS NI f g, NS <= length f -> NI <= length g ->
  Frms NS NI f g = Ok (sqrt ((sumR NS (fun i => nth i f 0 * nth i f 0) + sumR NI (fun i => nth i g 0 * nth i g 0)) / INR (NS + NI)))%R.
Proof. exact Frms_value. Qed.
Print Assumptions C91_residual.
(** Affine equations: the residual of each patch shrinks by |1 - lambda| in each step. *)
Theorem C91_history : forall grt_abs drop long solver junkz junk, grt_abs 0%R 0%R = false -> exact_solver 0%R Rplus Rmult solver ->
  forall pd interp d2f dinterp feq Bj Ej lambda ps, grid_sewn ps ->
  (forall p P, nth_error ps p = Some P -> jacobians_match 0%R Rplus Rmult pd interp d2f dinterp p (i_nn P)) ->
  equations_fit feq Bj Ej ps -> grid_fits ps -> ps <> [] -> equations_affine 0%R Rplus Rminus Rmult feq Bj Ej ps ->
  (forall us gs sps, fields_fit ps us -> make_g_all 0%R 1%R Rplus Rmult Ropp pd interp ps us = Ok gs ->
     omap (assemble 0%R 1%R Rplus Rmult Ropp d2f dinterp feq Bj Ej ps us gs) (seq 0 (length ps)) = Ok sps ->
     nothing_dropped 0%R Rplus Rminus Rmult grt_abs (drop_limit 0%R drop) sps) ->
  forall isfinite gt max_step res_d us0 rs0, fields_fit ps us0 -> residuals pd interp feq ps us0 = Ok rs0 ->
  forall k us hist, iterates isfinite gt (residuals pd interp feq ps) (newton_body grt_abs drop long solver junkz junk pd interp d2f dinterp feq Bj Ej lambda ps)
     max_step res_d us0 k us hist ->
  fields_fit ps us /\ residuals pd interp feq ps us = Ok (map (Rmult (Rabs (1 - lambda) ^ k)) rs0) /\
  length hist = k /\ forall j, j < k -> nth j hist [] = map (Rmult (Rabs (1 - lambda) ^ j)) rs0.
Proof. intros grt_abs drop long solver junkz junk Z0 EX. exact (history grt_abs drop long solver junkz junk Z0 EX). Qed.
Print Assumptions C91_history.
(** the two-patch grid over the reals meets the hypotheses *)
Definition grtR (x l : R) : bool := if Req_EM_T x 0 then false else true.
Definition solverR (cs : list (list R)) := cand_solver 0%R Rplus Rmult (fun a b => if Req_EM_T a b then true else false) cs.
Example C91_history_ex : let ps := grid 0%R 1%R in let pd := pdz 0%R Rminus in let interp := @interpz R 0%R in let feq := feqz 0%R Rplus Rminus 11%R 1%R in
  grtR 0 0 = false /\ (forall cs, exact_solver 0%R Rplus Rmult (solverR cs)) /\ grid_sewn ps /\ (forall p P, nth_error ps p = Some P -> jacobians_match 0%R Rplus Rmult pd interp (d2fz 0%R 1%R Ropp) (dinterpz 0%R 1%R Ropp) p (i_nn P)) /\ equations_fit feq (@Bz R 1%R) (@Ez R 1%R Ropp) ps /\ equations_affine 0%R Rplus Rminus Rmult feq (@Bz R 1%R) (@Ez R 1%R Ropp) ps /\ (forall sps, nothing_dropped 0%R Rplus Rminus Rmult grtR (drop_limit 0%R None) sps) /\ fields_fit ps [[1; 2]; [4; 4]]%R /\ exists r0 r1, residuals pd interp feq ps [[1; 2]; [4; 4]]%R = Ok [r0; r1].
Proof.
  intros ps pd interp feq. split; [unfold grtR; destruct (Req_EM_T 0 0); [reflexivity|congruence]|].
  split; [intros cs; apply cand_exact; intros a b; destruct (Req_EM_T a b); [auto|discriminate]|].
  split; [apply grid_ok|]. split; [exact (grid_jac 0%R 1%R Rplus Rmult Rminus Ropp RTheory)|]. split; [apply grid_eqs|].
  split; [exact (grid_affine 0%R 1%R Rplus Rmult Rminus Ropp 11%R 1%R RTheory)|]. split.
  - intros sps. assert (H : forall l v, not_dropped 0%R grtR l v) by (intros l v; unfold not_dropped, grtR; destruct (Req_EM_T v 0); [auto|discriminate]).
    intros p P HP. split; [|split]; intros; [apply H|apply H|]. split; intros; apply H.
  - split; [|eexists; eexists; reflexivity].
    split; [reflexivity|]. intros [|[|[|p]]] P u EP EU; cbn in EP, EU; try discriminate; injection EP as <-; injection EU as <-; reflexivity.
Qed.
Example C91_ex : solve_field (fun _ : Z => true) Z.gtb (fun n => Ok [n; 1%Z]) (fun n => Ok (n / 2)%Z) 11 0 10 4%Z 40%Z [] = Ok (Some (2, 4, [[40; 1]; [20; 1]; [10; 1]; [5; 1]; [2; 1]]))%Z /\
  solve_field (fun _ : Z => true) Z.gtb (fun n => Ok [n; 1%Z]) (fun n => Ok (n / 2)%Z) 3 0 2 4%Z 40%Z [] = Ok (Some (10, 2, [[40; 1]; [20; 1]; [10; 1]]))%Z.
Proof. vm_compute. split; reflexivity. Qed.

(** C92. Grids on which the solver cannot run although it accepts them. *)
Theorem C92_checks : forall l, checks_and_constraints l = Ok tt <->
  Forall (fun t => fst (fst t) && snd (fst t) = false) l /\ length (filter (fun t => snd t =? 0) l) <= 1.
Proof. exact checks_accept. Qed.
Print Assumptions C92_checks.
(** A patch without interface points in a grid of several patches passes the check above, but the linear solve never succeeds. *)
Theorem C92_no_interface_refuted : (forall F (zero : F) add sub mul grt_abs drop long solver junkz junk ps P, In P ps -> sNI P = 0 ->
    forall xy, schur_step zero add sub mul grt_abs drop long solver junkz junk ps <> Ok xy) /\
  (forall F (zero : F) add sub mul grt_abs drop long solver junkz junk P ps, sNI P = 0 ->
    schur_step zero add sub mul grt_abs drop long solver junkz junk (P :: ps) = UB) /\
  checks_and_constraints [(false, false, 0); (false, false, 1); (true, false, 1)] = Ok tt.
Proof. split; [|split; [|reflexivity]]; intros; [apply (no_interface_points zero add sub mul grt_abs drop long solver junkz junk ps P); assumption|apply no_interface_points_ub; assumption]. Qed.
Print Assumptions C92_no_interface_refuted.
(** A collocated point of a continuity condition whose twin is not an interface node of the neighbour is written out of bounds. *)
Theorem C92_collocated_refuted : forall F (zero one : F) add mul opp d2f dinterp ps p q P Q sf s n1,
  nth_error ps p = Some P -> nth_error ps q = Some Q -> p <> q -> In sf (i_faces Q) -> is_interface sf = true -> f_adj sf = p -> f_exterF sf = true ->
  f_touch sf && f_copy sf = true -> f_dn sf = false -> s < length (f_id sf) -> nth_error (f_adjid sf) s = Some n1 -> nth_error (i_Imap P) n1 = Some None ->
  nth (nth s (f_id sf) 0) (i_Imap Q) None <> None -> forall FC, making_F_and_C zero one add mul opp d2f dinterp ps p q <> Ok FC.
Proof. exact @colloc_not_interface. Qed.
Print Assumptions C92_collocated_refuted.
(** A patch adjacent to itself: g cannot be made. *)
Theorem C92_self_refuted : forall F (zero one : F) add mul opp pd interp ps q Qu sf, nth_error ps q = Some Qu -> In sf (i_faces (fst Qu)) -> is_interface sf = true ->
  f_adj sf = q -> forall g, make_g zero one add mul opp pd interp ps q <> Ok g.
Proof. exact @self_adjacent. Qed.
Print Assumptions C92_self_refuted.
(** The assembly used by the test of the Jacobian writes through a null pointer whenever a row has to be written. *)
Theorem C92_regular_refuted : forall F (zero one : F) add mul opp d2f dinterp ps p q P Q sf s,
  nth_error ps p = Some P -> nth_error ps q = Some Q -> In sf (i_faces Q) -> is_interface sf = true -> p = q \/ f_adj sf = p -> f_exterF sf = true ->
  f_dn sf = true \/ f_touch sf && f_copy sf = false /\ p <> q -> s < length (f_id sf) -> nth (nth s (f_id sf) 0) (i_Imap Q) None <> None ->
  forall FC, making_F_and_C_Regular zero one add mul opp d2f dinterp ps p q <> Ok FC.
Proof. exact @regular_fails. Qed.
Print Assumptions C92_regular_refuted.
(** patch 1 is continuous with patch 0 at a node that is a subdomain node of patch 0; and the grid of C88 for the other two *)
Example C92_ex : making_F_and_C 0%Z 1%Z Z.add Z.mul Z.opp zd2f zdinterp
    [mkIP 1 1 [1; 0] [0] [Some 0; None] []; mkIP 1 1 [1; 0] [0] [Some 0; None] [mkSF [0] [1] 0 1 0 true false false true true false []]] 0 1 = UB /\
  making_F_and_C_Regular 0%Z 1%Z Z.add Z.mul Z.opp zd2f zdinterp zgrid 1 0 = UB /\
  make_g 0%Z 1%Z Z.add Z.mul Z.opp zpd zinterp [(mkIP 1 1 [1; 0] [0] [Some 0; None] [mkSF [0] [1] 0 1 0 true false false true true false []], [1; 2]%Z)] 0 = UB.
Proof. vm_compute. repeat split; reflexivity. Qed.
