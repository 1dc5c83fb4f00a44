(** Props_Root.v - property theorems C39 (bisection) and C60 (steepest descent). *)
From Verif Require Import RealBase RootModel RootProofs RootSD RootFinal.
Open Scope R_scope.

(** C39. For every function, interval, tolerance and iteration limit: the bisection refuses exactly when asked for more than
    one equation or when the function has the same sign at both ends; a reported success for a function continuous on the
    bracket comes with a point of the bracket and its residual, after k steps a true root lies within |B-A|/2^k of it, and
    either the residual is below 1e-12 or that distance is below TOL - 1e-12; success is reached whenever MaxIter halvings
    are enough; on any other outcome the solution is the 0 it was allocated with. *)
Theorem C39_bisection :
  (forall n f stops A B TOL M, bisect n f stops A B TOL M = None <->
     (n <> 1%nat \/ exists u v, f A = Some u /\ f B = Some v /\ 0 < u * v)) /\
  (forall f stops F A B TOL M r,
     (forall x, between A B x -> f x = Some (F x) /\ continuity_pt F x) ->
     bisect 1 f stops A B TOL M = Some r -> b_status r = OK ->
     between A B (b_x r) /\ b_residual r = Val (Some (F (b_x r))) /\ (1 <= b_steps r <= M)%nat /\
     (exists root, between A B root /\ F root = 0 /\ Rabs (b_x r - root) <= Rabs (B - A) / 2 ^ b_steps r) /\
     (Rabs (F (b_x r)) < / 1000000000000 \/ Rabs (B - A) / 2 ^ b_steps r < TOL - / 1000000000000)) /\
  (forall f stops F A B TOL M,
     (forall x, between A B x -> f x = Some (F x) /\ stops x = false) ->
     F A * F B <= 0 -> (1 <= M)%nat -> Rabs (B - A) / 2 ^ M < TOL - / 1000000000000 ->
     exists r, bisect 1 f stops A B TOL M = Some r /\ b_status r = OK) /\
  (forall f stops A B TOL M r, bisect 1 f stops A B TOL M = Some r -> b_status r <> OK ->
     b_x r = 0 /\ (b_status r = MAX_ITER \/ b_status r = INTERRUPTED \/ b_status r = ABNORMAL) /\
     (b_status r = ABNORMAL -> b_residual r = Val None) /\
     (b_status r = INTERRUPTED -> exists p, between A B p /\ stops p = true)).
Proof. exact (conj bisect_refuses (conj bisect_ok (conj bisect_terminates bisect_other))). Qed.
Print Assumptions C39_bisection.
(** The solution left behind when the iteration limit is hit need not even lie in the bracket. *)
Theorem C39_max_iter_best_point_refuted :
  exists r, bisect 1 sq2 (fun _ => false) 1 2 (/ 4) 1 = Some r /\ b_status r = MAX_ITER /\ b_x r = 0 /\ ~ between 1 2 (b_x r).
Proof. exact sq2_max. Qed.
Print Assumptions C39_max_iter_best_point_refuted.
Example C39_ex : (forall x, between 1 2 x -> sq2 x = Some (x * x - 2) /\ continuity_pt (fun x => x * x - 2) x) /\
  exists r, bisect 1 sq2 (fun _ => false) 1 2 1 5 = Some r /\ b_status r = OK.
Proof. exact sq2_hyp. Qed.

(** C60. For every system, derivative choice, tolerance, limit and start: the run never reports a worse state than it started
    from, except within TOL/2 of such a state when it gives up (NO_IMPROVEMENT); the residual is the root of the sum of
    squares at the returned point; OK means the last step decreased the sum by less than TOL; the iteration limit means
    every step decreased it by at least TOL, so it is not hit when MaxIter*TOL exceeds the initial sum; with a positive
    tolerance the run ends; and the gradient is the derivative of the sum (finite differences: when it is quadratic). *)
Theorem C60_steepest_descent :
  (forall fs n how TOL fuel M x0 r, steepest_descent fs n how TOL fuel M x0 = Some r ->
     match s_status r with
     | UNDEF => M = O
     | EXTREMA => sumsq fs (s_x r) <= sumsq fs x0 /\
         sqrt (Rsum n (fun i => gradient fs how (s_x r) i ^ 2)) < ROUND_OFF_ERR
     | OK => exists x, sumsq fs x <= sumsq fs x0 /\ sumsq fs (s_x r) < sumsq fs x /\ sumsq fs x - sumsq fs (s_x r) < TOL
     | MAX_ITER => (1 <= M)%nat /\ sumsq fs (s_x r) < sumsq fs x0 /\ INR M * TOL <= sumsq fs x0 - sumsq fs (s_x r)
     | NO_IMPROVEMENT => exists x, sumsq fs x <= sumsq fs x0 /\ forall i, (i < n)%nat -> Rabs (s_x r i - x i) < / 2 * TOL
     | _ => False
     end /\ (s_status r <> UNDEF -> s_residual r = Some (sqrt (sumsq fs (s_x r))))) /\
  (forall fs n how TOL fuel M x0 r, 0 < TOL -> sumsq fs x0 < INR M * TOL ->
     steepest_descent fs n how TOL fuel M x0 = Some r -> s_status r <> MAX_ITER) /\
  (forall fs n dg TOL M x, 0 < TOL -> exists fuel0, forall fuel, (fuel0 <= fuel)%nat ->
     steepest fs n dg TOL fuel M x <> None) /\
  (forall fs x, sumsq fs x = 0 <-> Forall (fun f => f x = 0) fs) /\
  (forall fs dfs x dir, List.length fs = List.length dfs ->
     (forall k, (k < List.length fs)%nat ->
        derivable_pt_lim (fun t => nth k fs (fun _ => 0) (upd x dir t)) (x dir) (nth k dfs (fun _ _ => 0) x dir)) ->
     derivable_pt_lim (fun t => sumsq fs (upd x dir t)) (x dir) (gradient fs (Given dfs) x dir)) /\
  (forall fs x dir c0 c1 c2, (forall t, sumsq fs (upd x dir t) = c0 + c1 * t + c2 * t ^ 2) ->
     forall how, how = FD_Left \/ how = FD_Right \/ how = FD_Mid -> gradient fs how x dir = c1 + 2 * c2 * x dir).
Proof. exact (conj sd_honest (conj sd_no_max (conj steepest_ends (conj sd_root (conj sumsq_deriv sumsq_fd))))). Qed.
Print Assumptions C60_steepest_descent.
(** "OK" does not mean that a root was found: for every tolerance s between 1e-12 and 1 the equation 1 + s x^2 = 0, which
    has no root, is reported as solved with residual 1. *)
Theorem C60_ok_is_root_refuted : forall s, / 1000000000000 <= s <= 1 ->
  (forall x, noroot s x <> 0) /\
  exists r, steepest_descent [noroot s] 1 (Given [dnoroot s]) s 2 1 (fun _ => / 2) = Some r /\
    s_status r = OK /\ s_residual r = Some 1.
Proof. exact sd_ok_not_root. Qed.
Print Assumptions C60_ok_is_root_refuted.
(** Giving up can leave a point worse than the initial guess (whose sum of squares is 1 here). *)
Theorem C60_never_worse_refuted : forall TOL M, 0 < TOL -> (1 <= M)%nat ->
  exists fuel r v, steepest_descent [vshape] 1 FD_Right TOL fuel M zerov = Some r /\
    s_status r = NO_IMPROVEMENT /\ s_residual r = Some v /\ v > 1 /\ sumsq [vshape] zerov = 1.
Proof. exact vshape_worse'. Qed.
Print Assumptions C60_never_worse_refuted.
(** With a tolerance of zero or below the run need not end at all. *)
Theorem C60_zero_tolerance_refuted : forall TOL M, TOL <= 0 -> (1 <= M)%nat ->
  forall fuel, steepest_descent [vshape] 1 FD_Right TOL fuel M zerov = None.
Proof. exact vshape_diverges. Qed.
Print Assumptions C60_zero_tolerance_refuted.
Example C60_ex : (forall t, sumsq [lin] (upd zerov 0 t) = 0 + 0 * t + 1 * t ^ 2) /\
  derivable_pt_lim (fun t => lin (upd zerov 0 t)) (zerov 0%nat) ((fun _ _ => 1) zerov 0%nat).
Proof. exact (conj sumsq_fd_ex sumsq_deriv_ex). Qed.
