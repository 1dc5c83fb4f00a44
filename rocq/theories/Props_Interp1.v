(** Props_Interp1.v - C76-C80: one-dimensional interpolation and finite differences.  peval [c0;c1;...] y = c0 + c1 y + ... *)
From Verif Require Import RealBase SpectralSpec Interp1Model Interp1Spec Interp1Final.
From Verif Require Base.
Import Base(outcome, Ok, Abort, UB).
Open Scope R_scope.

(** C76 (partial). Neville: the value of the polynomial through all N points (hence exact for every polynomial of degree < N);
    when [mx] of more than 10 points are asked for, the polynomial through the points 0, s, 2s, ..., (mx-2)s and mx-1, with
    s = N/mx.  Missing: strides s >= 2 that divide mx-1, where the claim is false (next theorem). *)
Theorem C76_neville_partial :
  (forall x f N mx, (mx = 0 \/ N <= mx \/ N <= 10)%nat -> (1 <= N)%nat -> distinct_points N x ->
    (exists p, length p = N /\ (forall k, (k < N)%nat -> peval p (x k) = f k) /\ forall h, interpolation_Neville_1d x f N mx h = Ok (Some (peval p h))) /\
    (forall q, (length q <= N)%nat -> (forall k, (k < N)%nat -> f k = peval q (x k)) -> forall h, interpolation_Neville_1d x f N mx h = Ok (Some (peval q h)))) /\
  (forall x f N mx, (0 < mx < N)%nat -> (10 < N)%nat -> (N / mx = 1 \/ (mx - 1) mod (N / mx) <> 0)%nat -> distinct_points N x ->
    exists (idx : nat -> nat) p, (forall k, (k < mx)%nat -> idx k < N)%nat /\ (forall k, (k < mx - 1)%nat -> idx k = k * (N / mx))%nat /\ idx (mx - 1)%nat = (mx - 1)%nat /\
      length p = mx /\ (forall k, (k < mx)%nat -> peval p (x (idx k)) = f (idx k)) /\ forall h, interpolation_Neville_1d x f N mx h = Ok (Some (peval p h))).
Proof. exact c76. Qed.
Print Assumptions C76_neville_partial.
(** Whenever the stride s = N/mx >= 2 divides mx-1 a point is used twice and the result is a division by zero, for every data;
    and the last point used is point mx-1, not the end of the data: 2 out of 12 points of i^2 extrapolate 11 at 11. *)
Theorem C76_subsampling_refuted :
  (forall x f N mx h, (2 <= mx < N)%nat -> (10 < N)%nat -> (2 <= N / mx)%nat -> ((mx - 1) mod (N / mx) = 0)%nat -> interpolation_Neville_1d x f N mx h = Ok None) /\
  interpolation_Neville_1d INR (fun i => INR i * INR i) 12 2 (INR 11) = Ok (Some 11) /\ INR 11 * INR 11 <> 11.
Proof. exact c76r. Qed.
Print Assumptions C76_subsampling_refuted.
Example C76_ex : distinct_points 12 INR /\ ((7 - 1) mod (20 / 7) = 0)%nat /\ ((6 - 1) mod (20 / 6) <> 0)%nat.
Proof. split; [intros i j _ _ E; apply INR_eq in E; exact E|]. split; [reflexivity|discriminate]. Qed.

(** C77. Natural cubic spline.  Points at least 1e-12 apart in either order are put in increasing order, equal end points are
    refused.  The evaluation returns the value (and slope) of the natural cubic spline through the points: inside each
    interval, at every given point (where it is the given value), at every point of the domain that is not exactly 1e-12 from
    a given point; DBL_MAX outside; and a straight line for data on a straight line. *)
Theorem C77_spline_plan : forall N x f,
  (separated_points N x -> (2 <= N)%nat -> order_arrays N x f = Ok (mkSpline N x f)) /\
  (separated_points N (fun i => x (N - 1 - i)%nat) -> (2 <= N)%nat -> order_arrays N x f = Ok (mkSpline N (fun i => x (N - 1 - i)%nat) (fun i => f (N - 1 - i)%nat))) /\
  ((1 <= N)%nat -> Rabs (x 0%nat - x (N - 1)%nat) < / 1000000000000 -> order_arrays N x f = Abort) /\ (N = 0%nat -> order_arrays N x f = Abort).
Proof. exact c77_plan. Qed.
Print Assumptions C77_spline_plan.
Theorem C77_spline : forall s, (2 <= sN s)%nat -> separated_points (sN s) (sx s) ->
  exists S S' : nat -> R -> R, natural_cubic_spline (sN s - 1) (sx s) (sf s) S /\ (forall i y, derivable_pt_lim (S i) y (S' i y)) /\
    (forall i h, (i + 1 < sN s)%nat -> sx s i + / 1000000000000 < h < sx s (i+1)%nat - / 1000000000000 ->
       interpolation_spline s h = Num (Some (S i h)) /\ derivative_spline s h = Num (Some (S' i h))) /\
    (forall k, (k < sN s)%nat -> interpolation_spline s (sx s k) = Num (Some (sf s k)) /\ exists i, (i + 1 < sN s)%nat /\ (k = i \/ k = i + 1)%nat /\ derivative_spline s (sx s k) = Num (Some (S' i (sx s k)))) /\
    (forall h, sx s 0%nat - / 1000000000000 < h < sx s (sN s - 1)%nat + / 1000000000000 -> (forall k, (k < sN s)%nat -> Rabs (h - sx s k) <> / 1000000000000) ->
       exists i, (i + 1 < sN s)%nat /\ sx s i - / 1000000000000 < h < sx s (i+1)%nat + / 1000000000000 /\ interpolation_spline s h = Num (Some (S i h)) /\ derivative_spline s h = Num (Some (S' i h))) /\
    (forall h, h <= sx s 0%nat - / 1000000000000 \/ sx s (sN s - 1)%nat + / 1000000000000 <= h -> interpolation_spline s h = Dmax /\ derivative_spline s h = Dmax) /\
    (forall a b, (forall i, (i < sN s)%nat -> sf s i = a + b * sx s i) -> forall i y, (i + 1 < sN s)%nat -> S i y = a + b * y).
Proof. exact c77. Qed.
Print Assumptions C77_spline.
(** Exactly 1e-12 to the right of a given point, also in the interior, the point counts as outside. *)
Theorem C77_edge_refuted : forall s k, (2 <= sN s)%nat -> (forall i, (i + 1 < sN s)%nat -> sx s i + 2 / 1000000000000 < sx s (i+1)%nat) -> (k < sN s)%nat ->
  interpolation_spline s (sx s k + / 1000000000000) = Dmax.
Proof. exact c77r. Qed.
Print Assumptions C77_edge_refuted.
Example C77_ex : separated_points 3 INR. Proof. exact sep3. Qed.

(** C78. Hermite.  For increasing points and n = num_points: an h in [x_k, x_(k+1)) with n points from k on gives the value of
    the polynomial of degree < 2n with the given values and slopes at these n points (it exists, and any such polynomial gives
    the result); the data are reproduced there; otherwise the program stops.  Without slopes given they come from finite
    differences of order acc: polynomials of degree <= acc and < 2n are then reproduced. *)
Theorem C78_hermite : forall x f fo fp N np, (forall i, (i + 1 < N)%nat -> x i < x (i+1)%nat) -> (1 <= np <= N)%nat -> (forall i, (i < N)%nat -> fo i = Some (fp i)) ->
  (forall h k, (k + np <= N)%nat -> (k + 1 < N)%nat -> x k <= h < x (k+1)%nat ->
     (exists p, (length p <= 2 * np)%nat /\ matches np (fun i => x (k+i)%nat) (fun i => f (k+i)%nat) (fun i => fp (k+i)%nat) p) /\
     forall p, (length p <= 2 * np)%nat -> matches np (fun i => x (k+i)%nat) (fun i => f (k+i)%nat) (fun i => fp (k+i)%nat) p ->
       interpolation_Hermite_1d x f fo N np h = Ok (Some (peval p h))) /\
  (forall k, (k + np <= N)%nat -> (k + 1 < N)%nat -> interpolation_Hermite_1d x f fo N np (x k) = Ok (Some (f k))) /\
  (forall h, h < x 0%nat \/ x (N-1)%nat <= h \/ (exists k, (k + 1 < N)%nat /\ (N < k + np)%nat /\ x k <= h < x (k+1)%nat) -> interpolation_Hermite_1d x f fo N np h = Abort).
Proof. exact c78. Qed.
Print Assumptions C78_hermite.
Theorem C78_hermite_plan :
  (forall N x f fp acc np, (np = 0 \/ N < np)%nat \/ (fp = None /\ acc = 0%nat) -> plan_hermite N x f fp acc np = Abort) /\
  (forall N x f g acc np, separated_points N x -> (2 <= N)%nat -> (1 <= np <= N)%nat -> plan_hermite N x f (Some g) acc np = Ok (mkHermite N x f (fun i => Some (g i)))) /\
  (forall N x f g acc np, separated_points N (fun i => x (N - 1 - i)%nat) -> (2 <= N)%nat -> (1 <= np <= N)%nat ->
     plan_hermite N x f (Some g) acc np = Ok (mkHermite N (fun i => x (N - 1 - i)%nat) (fun i => f (N - 1 - i)%nat) (fun i => Some (g (N - 1 - i)%nat)))) /\
  (forall N x p acc np, separated_points N x -> (1 <= acc < 100)%nat -> (acc + 1 < N)%nat -> (1 <= np <= N)%nat -> (length p <= acc + 1)%nat -> (length p <= 2 * np)%nat ->
    exists H, plan_hermite N x (fun i => peval p (x i)) None acc np = Ok H /\
    forall h, x 0%nat <= h < x (Nat.min (N - 1) (N - np + 1)) -> interpolation_Hermite_1d (hx H) (hf H) (hfp H) (hN H) np h = Ok (Some (peval p h))).
Proof. exact (conj c78_plan (conj c78_given (conj c78_given_rev c78_end))). Qed.
Print Assumptions C78_hermite_plan.
(** The last data point cannot be interpolated at, and the "derivative of the interpolant" is not that: for x = 0,1,2, f = 0 and
    slopes 0,1,0 it is 11/16 at 1/2 where the derivative of the interpolant is -1/4. *)
Theorem C78_end_and_derivative_refuted :
  (forall x f fo N np, (1 <= N)%nat -> (forall i, (i + 1 < N)%nat -> x i < x (i+1)%nat) -> (1 <= np <= N)%nat -> (forall i, (i < N)%nat -> exists d, fo i = Some d) -> interpolation_Hermite_1d x f fo N np (x (N-1)%nat) = Abort) /\
  exists p, matches 2 INR (fun _ => 0) (fun i => if Nat.eqb i 1 then 1 else 0) p /\ length p = 4%nat /\
    (forall h, 0 <= h < 1 -> interpolation_Hermite_1d INR (fun _ => 0) (fun i => Some (if Nat.eqb i 1 then 1 else 0)) 3 2 h = Ok (Some (peval p h))) /\
    derivable_pt_lim (peval p) (1/2) (-1/4) /\
    derivative_Hermite_1d INR (fun i => if Nat.eqb i 1 then 1 else 0) 3 (1/2) = Ok (Num (Some (11/16))).
Proof. exact c78r. Qed.
Print Assumptions C78_end_and_derivative_refuted.
Example C78_ex : exists H, plan_hermite 6 INR (fun i => peval [1;2;0;4] (INR i)) None 3 2 = Ok H /\
  interpolation_Hermite_1d (hx H) (hf H) (hfp H) (hN H) 2 (5/2) = Ok (Some (peval [1;2;0;4] (5/2))).
Proof. exact c78_ex. Qed.

(** C79. Finite differences.  The derivative of order M with accuracy acc >= 1 uses acc+M consecutive points around x0 (centred
    where the grid allows) and is
    exact for every polynomial of degree < acc+M on arbitrary distinct points; too few points or more than 100 are refused. *)
Theorem C79_finite_difference :
  (forall f x x0 Nx M acc p g, (1 <= acc)%nat -> (acc + M <= 100)%nat -> (acc + M < Nx)%nat -> distinct_points Nx x ->
    (length p <= acc + M)%nat -> (forall i, (i < Nx)%nat -> f i = peval p (x i)) -> nth_derivative M (peval p) g ->
    finite_difference_Fornberg f x x0 Nx M acc = Ok (Some (g x0))) /\
  (forall x x0 Nx M acc, (1 <= acc)%nat -> (acc + M <= 100)%nat -> (acc + M < Nx)%nat ->
    exists off, (off + (acc + M) <= Nx)%nat /\
      (forall f f', (forall i, (off <= i < off + (acc + M))%nat -> f i = f' i) -> finite_difference_Fornberg f x x0 Nx M acc = finite_difference_Fornberg f' x x0 Nx M acc) /\
      ((2 <= acc + M)%nat -> x 0%nat <= x0 <= x (Nx - 1)%nat -> exists k, (off <= k)%nat /\ (k + 1 < off + (acc + M))%nat /\ x k <= x0 <= x (k + 1)%nat /\
        ((acc + M - 1) / 2 <= k -> k + (acc + M - (acc + M - 1) / 2) <= Nx -> off = k - (acc + M - 1) / 2)%nat)) /\
  (forall f x x0 Nx M acc, (1 <= acc + M)%nat -> (100 < acc + M)%nat \/ (Nx <= acc + M)%nat -> finite_difference_Fornberg f x x0 Nx M acc = Abort).
Proof. exact c79. Qed.
Print Assumptions C79_finite_difference.
(** Refused although acc+M points are enough; a point outside the grid is accepted (the check compares with a value the loop
    never leaves); accuracy 0 reads weights that were never computed. *)
Theorem C79_checks_refuted :
  (forall f x x0 M acc, (1 <= acc + M)%nat -> finite_difference_Fornberg f x x0 (acc + M) M acc = Abort) /\
  (exists v, finite_difference_Fornberg (fun _ => 1) INR 1000 4 0 2 = Ok (Some v)) /\
  (forall f x x0 Nx M, (1 <= M <= 100)%nat -> (M < Nx)%nat -> finite_difference_Fornberg f x x0 Nx M 0 = UB).
Proof. exact c79r. Qed.
Print Assumptions C79_checks_refuted.
Example C79_ex : finite_difference_Fornberg (fun i => peval [0;0;0;1] (INR i)) INR 1 5 1 3 = Ok (Some 3).
Proof. exact c79_ex. Qed.

(** C80 (partial). The spline version of the piecewise polytrope: 0 at and below the floor, never below -1e-12, the sampled
    value at a sample above the floor (0 for one that is not positive), the natural cubic spline in between.  Missing:
    enthalpies beyond the last sample (h > 2), where the claim is false (next theorem). *)
Theorem C80_spline_eos_partial : forall s fl, (2 <= sN s)%nat -> separated_points (sN s) (sx s) ->
  (forall h v, ncs_value s fl h = Some v -> 0 <= v \/ v = - / 1000000000000) /\
  (forall h, h <= fl -> Rabs (h - fl) <> / 1000000000000 -> ncs_value s fl h = Some 0) /\
  (forall k, (k < sN s)%nat -> fl + / 1000000000000 <= sx s k -> (/ 1000000000000 < sf s k -> ncs_value s fl (sx s k) = Some (sf s k)) /\ (sf s k <= 0 -> sf s k <> - / 1000000000000 -> ncs_value s fl (sx s k) = Some 0)) /\
  (exists S, natural_cubic_spline (sN s - 1) (sx s) (sf s) S /\ forall i h, (i + 1 < sN s)%nat -> sx s i + / 1000000000000 < h < sx s (i+1)%nat - / 1000000000000 -> fl + / 1000000000000 <= h ->
     / 1000000000000 < S i h -> ncs_value s fl h = Some (S i h)).
Proof. exact c80. Qed.
Print Assumptions C80_spline_eos_partial.
(** Beyond the last sample the star is silently vacuum. *)
Theorem C80_beyond_samples_refuted : forall s fl h, (2 <= sN s)%nat -> separated_points (sN s) (sx s) -> sx s (sN s - 1)%nat + / 1000000000000 <= h -> ncs_value s fl h = Some 0.
Proof. exact c80r. Qed.
Print Assumptions C80_beyond_samples_refuted.
Example C80_ex : ncs_value (mkSpline 3 INR (fun i => 1 + INR i)) (1/2) 2 = Some 3 /\ ncs_value (mkSpline 3 INR (fun i => 1 + INR i)) (1/2) 3 = Some 0.
Proof. exact c80_ex. Qed.
