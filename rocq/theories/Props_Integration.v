(** Props_Integration.v - property theorems C61-C68: whole-patch interpolation, integration, Jacobians, quadratures, filter. *)
From Verif Require Import RealBase SpectralModel SpectralSpec Spectral3Model Spectral3Spec Spectral3Proofs IntegrationProofs SurfaceProofs QuadProofs IntegrationExamples.
From Verif Require Base.
Import Base(outcome, Ok, Abort, UB).
Open Scope R_scope.

(** C61. On every patch with at least two points per direction and non-empty ranges: any values are those of a
    polynomial of degree below the number of points, and interpolating them in three, two or one directions at any point of the patch gives that polynomial at
    the point (snapped to the ends within round-off, [clip]). *)
Theorem C61_patch_interpolation :
  (forall b v, well b -> exists a, takes b v a) /\
  (forall b v a x y z, well b -> takes b v a ->
     mn0 b <= x <= mx0 b -> mn1 b <= y <= mx1 b -> mn2 b <= z <= mx2 b ->
     interpolation_XYZ b v x y z =
     Ok (Some (peval3 (n0 b) (n1 b) (n2 b) a (clip (mn0 b) (mx0 b) x) (clip (mn1 b) (mx1 b) y) (clip (mn2 b) (mx2 b) z)))) /\
  (forall b v A K x y, well b -> (K < n2 b)%nat ->
     (forall i j, (i < n0 b)%nat -> (j < n1 b)%nat -> v (at_ b i j K) = peval2 (n0 b) (n1 b) A (px b i) (py b j)) ->
     mn0 b <= x <= mx0 b -> mn1 b <= y <= mx1 b ->
     interpolation_XY b v x y K = Ok (Some (peval2 (n0 b) (n1 b) A (clip (mn0 b) (mx0 b) x) (clip (mn1 b) (mx1 b) y)))) /\
  (forall b v A J x z, well b -> (J < n1 b)%nat ->
     (forall i k, (i < n0 b)%nat -> (k < n2 b)%nat -> v (at_ b i J k) = peval2 (n0 b) (n2 b) A (px b i) (pz b k)) ->
     mn0 b <= x <= mx0 b -> mn2 b <= z <= mx2 b ->
     interpolation_XZ b v x z J = Ok (Some (peval2 (n0 b) (n2 b) A (clip (mn0 b) (mx0 b) x) (clip (mn2 b) (mx2 b) z)))) /\
  (forall b v A I y z, well b -> (I < n0 b)%nat ->
     (forall j k, (j < n1 b)%nat -> (k < n2 b)%nat -> v (at_ b I j k) = peval2 (n1 b) (n2 b) A (py b j) (pz b k)) ->
     mn1 b <= y <= mx1 b -> mn2 b <= z <= mx2 b ->
     interpolation_YZ b v y z I = Ok (Some (peval2 (n1 b) (n2 b) A (clip (mn1 b) (mx1 b) y) (clip (mn2 b) (mx2 b) z)))) /\
  (forall b v p x J K, well b -> (J < n1 b)%nat -> (K < n2 b)%nat -> (length p <= n0 b)%nat ->
     (forall i, (i < n0 b)%nat -> v (at_ b i J K) = peval p (px b i)) -> mn0 b <= x <= mx0 b ->
     interpolation_X b v x J K = Ok (Some (peval p (clip (mn0 b) (mx0 b) x)))) /\
  (forall b v p y I K, well b -> (I < n0 b)%nat -> (K < n2 b)%nat -> (length p <= n1 b)%nat ->
     (forall j, (j < n1 b)%nat -> v (at_ b I j K) = peval p (py b j)) -> mn1 b <= y <= mx1 b ->
     interpolation_Y b v y I K = Ok (Some (peval p (clip (mn1 b) (mx1 b) y)))) /\
  (forall b v p z I J, well b -> (I < n0 b)%nat -> (J < n1 b)%nat -> (length p <= n2 b)%nat ->
     (forall k, (k < n2 b)%nat -> v (at_ b I J k) = peval p (pz b k)) -> mn2 b <= z <= mx2 b ->
     interpolation_Z b v z I J = Ok (Some (peval p (clip (mn2 b) (mx2 b) z)))).
Proof.
  exact (conj takes_exists (conj interp_XYZ (conj interp_XY (conj interp_XZ (conj interp_YZ (conj interp_X_poly (conj interp_Y_poly interp_Z_poly))))))).
Qed.
Print Assumptions C61_patch_interpolation.
Example C61_ex : well box_ex /\ takes box_ex xyz_ex xyz_poly /\ interpolation_XYZ box_ex xyz_ex 1 3 5 = Ok (Some 15).
Proof. exact ex_interp. Qed.

(** C62. The integral over a whole Cartesian patch of f with the volume element sqrt(det g) is exact whenever f*sqrt(det g)
    is at the points a polynomial of degree below the number of points per direction (it always is, by C61). *)
Theorem C62_volume_integral : forall b f g A, well b -> density b f g A ->
  exists V, f_xyz_whole_dV cart b f g = Ok (Some V) /\
    integral3_is (peval3 (n0 b) (n1 b) (n2 b) A) (mn0 b) (mx0 b) (mn1 b) (mx1 b) (mn2 b) (mx2 b) V.
Proof. exact whole_dV. Qed.
Print Assumptions C62_volume_integral.
(** the value is determined: two such iterated integrals are equal *)
Theorem C62_integral_unique : forall f a0 b0 a1 b1 a2 b2 I I',
  integral3_is f a0 b0 a1 b1 a2 b2 I -> integral3_is f a0 b0 a1 b1 a2 b2 I' -> I = I'.
Proof. exact integral3_unique. Qed.
Print Assumptions C62_integral_unique.
Example C62_ex : well box_ex /\ density box_ex xyz_ex flat xyz_poly /\
  exists V, f_xyz_whole_dV cart box_ex xyz_ex flat = Ok (Some V) /\ V = 2 * 4 * 6 * 1 * 2 * 3.
Proof. exact ex_volume. Qed.

(** C63. The integral between two given grid points per direction: the same, with the coordinates of the points as limits
    (in either order), for every choice of points. *)
Theorem C63_interval_integral : forall b f g A Ii If Ji Jf Ki Kf, well b -> density b f g A ->
  exists V, f_xyz_interval_dV cart b f g Ii If Ji Jf Ki Kf = Ok (Some V) /\
    integral3_is (peval3 (n0 b) (n1 b) (n2 b) A) (px b Ii) (px b If) (py b Ji) (py b Jf) (pz b Ki) (pz b Kf) V.
Proof. exact interval_dV. Qed.
Print Assumptions C63_interval_integral.
Example C63_ex : well box_ex /\ density box_ex xyz_ex flat xyz_poly /\ px box_ex 0 = 0 /\ px box_ex 2 = 2.
Proof. exact ex_interval. Qed.

(** C64. The surface integral on a coordinate surface of a Cartesian patch is exact, with the area element of the induced
    2-metric. *)
Theorem C64_surface_integral : forall b f g face I A, well b -> (face < 3)%nat -> (I < n_in b face)%nat ->
  area_density b f g face I A ->
  exists V, f_xyz_dS cart b f g face I = Ok (Some V) /\
  match face with
  | 0 => integral2_is (peval2 (n1 b) (n2 b) A) (mn1 b) (mx1 b) (mn2 b) (mx2 b) V
  | 1 => integral2_is (peval2 (n0 b) (n2 b) A) (mn0 b) (mx0 b) (mn2 b) (mx2 b) V
  | _ => integral2_is (peval2 (n0 b) (n1 b) A) (mn0 b) (mx0 b) (mn1 b) (mx1 b) V
  end.
Proof. exact surface_dS. Qed.
Print Assumptions C64_surface_integral.
Example C64_ex : well box_ex /\ area_density box_ex (fun _ => 1) flat 0 1 (fun i j => if (Nat.eqb i 0 && Nat.eqb j 0)%bool then 1 else 0) /\
  exists V, f_xyz_dS cart box_ex (fun _ => 1) flat 0 1 = Ok (Some V) /\ V = 4 * 6.
Proof. exact ex_surface. Qed.

(** C65. For any coordinate Jacobian supplied by the patch whose determinant does not vanish, the derivatives of x,y,z with
    respect to the normalised coordinates are the two-sided inverse matrix of the derivatives of the normalised coordinates
    with respect to x,y,z; each coordinate has derivative 1 by itself; and if the patch's Jacobian entry is the derivative of
    its coordinate X along a line, the returned dN/dx is the derivative of the normalised coordinate along it. *)
Theorem C65_inverse_jacobian :
  (forall j b, det_dN_dx j b <> 0 -> exists p q : nat -> nat -> R,
    (forall r c, (r < 3)%nat -> (c < 3)%nat -> dq2_dq1 j b (N_ r) (x_ c) = Ok (Some (p r c))) /\
    (forall r c, (r < 3)%nat -> (c < 3)%nat -> dq2_dq1 j b (x_ r) (N_ c) = Ok (Some (q r c))) /\
    (forall r c, (r < 3)%nat -> (c < 3)%nat ->
      Rsum 3 (fun m => p r m * q m c) = (if Nat.eqb r c then 1 else 0) /\
      Rsum 3 (fun m => q r m * p m c) = (if Nat.eqb r c then 1 else 0))) /\
  (forall j b d, dq2_dq1 j b (N_ d) (N_ d) = Ok (Some 1) /\ dq2_dq1 j b (x_ d) (x_ d) = Ok (Some 1) /\ dq2_dq1 j b (a_ d) (a_ d) = Ok (Some 1)) /\
  (forall b, well b -> det_dN_dx JT_Cartesian b <> 0) /\
  (forall j b r c (X : R -> R) t, (r < 3)%nat -> mn_of b r <> mx_of b r -> derivable_pt_lim X t (j (a_ r) (x_ c)) ->
     exists d, dq2_dq1 j b (N_ r) (x_ c) = Ok (Some d) /\
       derivable_pt_lim (fun s => (2 * X s - (mn_of b r + mx_of b r)) / (mn_of b r - mx_of b r)) t d).
Proof. exact (conj inverse_jacobian2 (conj jacobian_self (conj cart_regular chain_rule))). Qed.
Print Assumptions C65_inverse_jacobian.
Example C65_ex : det_dN_dx JT_Cartesian box_ex <> 0.
Proof. exact (cart_regular box_ex box_ex_well). Qed.

(** C66. The composite Simpson rule is exact for cubics on any odd number n >= 3 of points; an even number stops the program
    and a single point gives no number. *)
Theorem C66_simpson :
  (forall a b n f p, Nat.odd n = true -> (3 <= n)%nat -> (length p <= 4)%nat ->
    (forall j, (j < n)%nat -> f j = peval p (a + INR j * ((b - a) / INR (n-1)))) ->
    exists V, Composite_Simpson_1D a b n f = Ok (Some V) /\ integral_is (peval p) a b V) /\
  (forall a b n f, Nat.even n = true -> Composite_Simpson_1D a b n f = Abort) /\
  (forall a b f, Composite_Simpson_1D a b 1 f = Ok None).
Proof. exact (conj simpson_exact (conj simpson_bad simpson_one)). Qed.
Print Assumptions C66_simpson.
Example C66_ex : exists V, Composite_Simpson_1D 0 2 3 (fun j => peval [0;0;0;1] (0 + INR j * ((2 - 0) / INR (3-1)))) = Ok (Some V) /\ V = 4.
Proof. exact ex_simpson. Qed.

(** C67. Gauss-Chebyshev quadrature at n extrema is exact for polynomials of degree below 2n-2.  Proved of the sum the code
    forms for every n >= 2, and of the whole call only for n <= 6: see the next theorem. *)
Theorem C67_gauss_chebyshev_partial :
  (forall n f p, (2 <= n)%nat -> (length p <= 2*n-2)%nat ->
    (forall j, (j < n)%nat -> f j = peval p (- cos (INR j * PI / INR (n-1)))) ->
    integral_is (fun t => peval p (cos t)) 0 PI (GQ_ChebyshevExtrema_sum n f)) /\
  (forall n f p, (2 <= n <= 6)%nat -> (length p <= 2*n-2)%nat ->
    (forall j, (j < n)%nat -> f j = peval p (- cos (INR j * PI / INR (n-1)))) ->
    exists V, GaussQuadrature_ChebyshevExtrema n f = Ok V /\ integral_is (fun t => peval p (cos t)) 0 PI V).
Proof. exact (conj gauss_exact gauss_small). Qed.
Print Assumptions C67_gauss_chebyshev_partial.
(** Every Gauss quadrature with more than a few points computes a factorial that does not fit an int: undefined behaviour. *)
Theorem C67_defined_for_all_sizes_refuted :
  (forall n f, (7 <= n)%nat -> GaussQuadrature_ChebyshevExtrema n f = UB) /\
  (forall w n f, (8 <= n)%nat -> GaussQuadrature_Lobatto w n f = UB) /\
  (forall w n f, (7 <= n)%nat -> GaussQuadrature_Legendre w n f = UB).
Proof. exact gauss_overflow. Qed.
Print Assumptions C67_defined_for_all_sizes_refuted.
(** The factorial is right up to 12! and overflows from 13! on. *)
Theorem C67_factorial :
  (forall n, (n <= 12)%nat -> Factorial (Z.of_nat n) = Ok (zfact n)) /\ (forall n, (13 <= n)%nat -> Factorial (Z.of_nat n) = UB) /\
  (forall n, (n < 0)%Z -> Factorial n = Abort).
Proof. exact (conj Factorial_ok (conj Factorial_ub Factorial_neg)). Qed.
Print Assumptions C67_factorial.
Example C67_ex : exists V, GaussQuadrature_ChebyshevExtrema 3 (fun j => peval [1;1] (- cos (INR j * PI / INR (3-1)))) = Ok V /\ V = PI.
Proof. exact ex_gauss. Qed.

(** C68. The spectral filter writes any values as a Chebyshev series, multiplies the coefficient of order (a,c,e) by
    s(a)s(c)s(e) and evaluates it again; the factor is 1 for order 0, 0 for the highest order and between 0 and 1
    otherwise; and the coefficients it leaves cached are those of the new values. *)
Theorem C68_spectral_filter :
  (forall b v, well b -> exists d, forall i j k, (i < n0 b)%nat -> (j < n1 b)%nat -> (k < n2 b)%nat ->
     v (at_ b i j k) = series b d (cx b i) (cy b j) (cz b k)) /\
  (forall erfc p b v d, well b -> small b ->
     (forall i j k, (i < n0 b)%nat -> (j < n1 b)%nat -> (k < n2 b)%nat -> v (at_ b i j k) = series b d (cx b i) (cy b j) (cz b k)) ->
     exists w, filter_erfclog erfc p b v = Ok (Some w) /\
     forall i j k, (i < n0 b)%nat -> (j < n1 b)%nat -> (k < n2 b)%nat ->
       w i j k = series b (fun a c e => d a c e * (erfclog erfc (th_of (n0 b) a) p * erfclog erfc (th_of (n1 b) c) p * erfclog erfc (th_of (n2 b) e) p)) (cx b i) (cy b j) (cz b k)) /\
  (forall erfc p n, erfclog erfc (th_of n 0) p = 1) /\
  (forall erfc p n, (2 <= n)%nat -> erfclog erfc (th_of n (n-1)) p = 0) /\
  (forall erfc p th, (forall x, 0 <= erfc x <= 2) -> 0 <= erfclog erfc th p <= 1) /\
  (forall erfc p b v w C C', well b -> small b -> filter_erfclog erfc p b v = Ok (Some w) -> make_coeffs_3d b v = Ok (Some C) ->
     make_coeffs_3d b (fun l => w (l / n2 b / n1 b) (l / n2 b mod n1 b) (l mod n2 b))%nat = Ok (Some C') ->
     forall i j k, (i < n0 b)%nat -> (j < n1 b)%nat -> (k < n2 b)%nat -> C' (at_ b i j k) = filtered_coeffs erfc p b C i j k).
Proof. exact (conj series_exists (conj filter_series (conj filter_low (conj filter_high (conj filter_range filter_cache))))). Qed.
Print Assumptions C68_spectral_filter.
Example C68_ex : well box_ex /\ small box_ex.
Proof. exact (conj box_ex_well box_ex_small). Qed.
