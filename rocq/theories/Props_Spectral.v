(** Props_Spectral.v - property theorems C38 (cosine sum), C55 (interpolation), C56, C57 (spectral derivatives),
    C58 (functional derivatives), C59 (Jacobian of the derivative).
    [peval p] is the polynomial with coefficient list p; [length p <= n] means degree below n. *)
From Verif Require Import RealBase SpectralModel SpectralSpec FuncDerivModel SpectralDeriv FuncDerivProofs SpectralFinal.
From Verif Require Base.
Import Base(outcome, Ok, Abort, UB, obind).
Open Scope R_scope.

(** C38. The closed form is the sum of cos(i a), i = 1..N, for every N and every angle outside the round-off windows of 0 and
    2 pi; inside them the limit N is returned.  Missing: other multiples of 2 pi (next theorem). *)
Theorem C38_cosine_sum_partial :
  (forall N a, (a = 0 \/ a = 2*PI \/ forall k : Z, a <> IZR k * (2 * PI)) ->
     (a = 0 \/ /1000000000000 <= Rabs a) -> (a = 2*PI \/ /1000000000000 <= Rabs (a - 2*PI)) ->
     sum_1_N_cos_ia N a = Some (Rsum N (fun i => cos (INR (S i) * a)))) /\
  (forall N a, Rabs a < /1000000000000 \/ Rabs (a - 2*PI) < /1000000000000 -> sum_1_N_cos_ia N a = Some (INR N)).
Proof. exact sum_cos_all. Qed.
Print Assumptions C38_cosine_sum_partial.
(** At every other multiple of 2 pi the sum is N, but the code divides by zero. *)
Theorem C38_other_multiples_refuted : forall N k, (k < 0 \/ 1 < k)%Z -> sum_1_N_cos_ia N (IZR k * (2*PI)) = None.
Proof. exact sum_cos_pole. Qed.
Print Assumptions C38_other_multiples_refuted.
Example C38_ex : (forall k : Z, PI <> IZR k * (2 * PI)) /\ /1000000000000 <= Rabs PI /\ /1000000000000 <= Rabs (PI - 2*PI).
Proof. exact ex_angle. Qed.

(** C55. Interpolation along a line of n Chebyshev extrema points on [mn,mx]: for any field values there is a polynomial of
    degree below n that takes them at the points, and at every point of the line the interpolation returns that polynomial
    (a point within 1e-12 of an end, relative to half the length, is moved to the end). Any other polynomial of degree below n
    with these values gives the same results. *)
Theorem C55_interpolation : forall mn mx n, mn < mx -> (2 <= n)%nat -> forall v : nat -> R, exists p : list R,
  length p = n /\
  (forall j, (j < n)%nat -> peval p (point_extrema mn mx n j) = v j) /\
  (forall q, (length q <= n)%nat -> (forall j, (j < n)%nat -> peval q (point_extrema mn mx n j) = v j) -> forall x, mn <= x <= mx -> peval q (clip mn mx x) = peval p (clip mn mx x)) /\
  (forall pt, mn <= pt <= mx -> interpolation_Chebyshev_Tn mn mx n v pt = Some (peval p (clip mn mx pt))).
Proof. exact interp_all. Qed.
Print Assumptions C55_interpolation.
(** At the grid points themselves interpolation returns the stored values. *)
Theorem C55_at_grid_points : forall mn mx n v j, mn < mx -> (2 <= n)%nat -> INR n <= 500000 -> (j < n)%nat ->
  interpolation_Chebyshev_Tn mn mx n v (point_extrema mn mx n j) = Some (v j).
Proof. exact interp_at_points. Qed.
Print Assumptions C55_at_grid_points.
Example C55_ex : INR 40 <= 500000.
Proof. exact ex_size. Qed.

(** C56. First spectral derivative along a line: exact on every polynomial of degree below the number of points, for both kinds of
    collocation; and every set of values is such a polynomial. *)
Theorem C56_first_derivative :
  (forall mn mx n v p i, mn < mx -> (2 <= n)%nat -> INR n <= 500000 -> (length p <= n)%nat -> (i < n)%nat ->
    (forall j, (j < n)%nat -> v j = peval p (point_extrema mn mx n j)) ->
    exists D, partial_derivative_extrema mn mx n v = Some D /\ derivable_pt_lim (peval p) (point_extrema mn mx n i) (D i)) /\
  (forall mn mx n v p i, mn < mx -> (1 <= n)%nat -> INR n <= 500000 -> (length p <= n)%nat -> (i < n)%nat ->
    (forall j, (j < n)%nat -> v j = peval p (point_nodes mn mx n j)) ->
    exists D, partial_derivative_nodes mn mx n v = Some D /\ derivable_pt_lim (peval p) (point_nodes mn mx n i) (D i)) /\
  (forall mn mx n v, mn < mx -> (2 <= n)%nat -> exists p, length p = n /\ forall j, (j < n)%nat -> v j = peval p (point_extrema mn mx n j)) /\
  (forall mn mx n v, mn < mx -> (1 <= n)%nat -> exists p, length p = n /\ forall j, (j < n)%nat -> v j = peval p (point_nodes mn mx n j)).
Proof. exact deriv1_all. Qed.
Print Assumptions C56_first_derivative.
Example C56_ex : length [1; 2; 3] = 3%nat /\ peval [1; 2; 3] 2 = 17.
Proof. exact ex_poly. Qed.

(** C57. Second spectral derivative, likewise; on the extrema grid up to 216 points. *)
Theorem C57_second_derivative_partial :
  (forall mn mx n v p i, mn < mx -> (2 <= n <= 216)%nat -> (length p <= n)%nat -> (i < n)%nat ->
    (forall j, (j < n)%nat -> v j = peval p (point_extrema mn mx n j)) ->
    exists d, partial_derivative2_extrema mn mx n v i = Ok (Some d) /\ second_derivative_at (peval p) (point_extrema mn mx n i) d) /\
  (forall mn mx n v p i, mn < mx -> (1 <= n)%nat -> INR n <= 500000 -> (length p <= n)%nat -> (i < n)%nat ->
    (forall j, (j < n)%nat -> v j = peval p (point_nodes mn mx n j)) ->
    exists d, partial_derivative2_nodes mn mx n v i = Ok (Some d) /\ second_derivative_at (peval p) (point_nodes mn mx n i) d).
Proof. exact deriv2_all. Qed.
Print Assumptions C57_second_derivative_partial.
(** From 217 points on, an int product overflows at both ends of the line: undefined behaviour. *)
Theorem C57_overflow_refuted : forall mn mx n v i, (217 <= n)%nat -> (i = 0 \/ i = n - 1)%nat ->
  partial_derivative2_extrema mn mx n v i = UB.
Proof. exact deriv2_overflow. Qed.
Print Assumptions C57_overflow_refuted.
Example C57_ex : length [1; 2; 3] = 3%nat /\ peval [1; 2; 3] 2 = 17.
Proof. exact ex_poly. Qed.

(** C58. The functional derivative of an interpolated value with respect to the field value at grid point j is the value at q
    of the polynomial that is 1 at point j and 0 at the other points (which exists); that of the derivative is the
    derivative of that polynomial. [apart x y]: x = y or they differ by at least 1e-12. Wrong arguments stop the program. *)
Theorem C58_functional_derivative_partial :
  (forall N j q p, (2 <= N)%nat -> INR N <= 500000 -> (j < N)%nat -> -1 <= q <= 1 ->
    apart (acos q) (INR j * PI / INR (N-1)) -> (length p <= N)%nat ->
    (forall k, (k < N)%nat -> peval p (cos (INR k * PI / INR (N-1))) = if Nat.eqb k j then 1 else 0) ->
    sum_0_N_dCi_dfj_by_Ti_q N j q = Ok (Some (peval p q))) /\
  (forall N j q p, (2 <= N <= 1025)%nat -> (j < N)%nat -> -1 <= q <= 1 -> apart q 1 -> apart q (-1) ->
    apart (acos q) (INR j * PI / INR (N-1)) -> (length p <= N)%nat ->
    (forall k, (k < N)%nat -> peval p (cos (INR k * PI / INR (N-1))) = if Nat.eqb k j then 1 else 0) ->
    exists d, sum_0_N_dCi_dfj_by_dTi_dq N j q = Ok (Some d) /\ derivable_pt_lim (peval p) q d) /\
  (forall N j, (2 <= N)%nat -> exists p, length p = N /\
    (forall k, (k < N)%nat -> peval p (cos (INR k * PI / INR (N-1))) = if Nat.eqb k j then 1 else 0)) /\
  (forall N j q, (N <= j)%nat \/ q < -1 \/ 1 < q -> sum_0_N_dCi_dfj_by_Ti_q N j q = Abort /\ sum_0_N_dCi_dfj_by_dTi_dq N j q = Abort).
Proof. exact fd_all. Qed.
Print Assumptions C58_functional_derivative_partial.
(** From 1026 points on an int product overflows: undefined behaviour. *)
Theorem C58_overflow_refuted : forall N, (1026 <= N)%nat -> sum_0_N_dCi_dfj_by_dTi_dq N 0 1 = UB.
Proof. exact fd_overflow. Qed.
Print Assumptions C58_overflow_refuted.
Example C58_ex : apart (acos 0) (INR 1 * PI / INR (3-1)) /\ apart 0 1 /\ apart 0 (-1).
Proof. exact ex_apart. Qed.

(** C59. The Jacobian entries of the first derivative along a line, applied to any field values, give what the derivative
    routine gives: the Newton matrix is consistent with the equations. *)
Theorem C59_jacobian_is_derivative : forall N i v, (2 <= N <= 1025)%nat -> (i < N)%nat ->
  exists J D, (forall l, (l < N)%nat -> sum_0_N_dCi_dfj_by_dTi_dq N l (colloc_extrema N i) = Ok (Some (J l))) /\
    derivative_ChebyshevExtrema_1st v N = Some D /\ Rsum N (fun l => J l * v l) = D i.
Proof. exact jacobian_row. Qed.
Print Assumptions C59_jacobian_is_derivative.
Example C59_ex : (2 <= 3 <= 1025)%nat /\ (1 < 3)%nat.
Proof. split; [split|]; repeat constructor. Qed.
