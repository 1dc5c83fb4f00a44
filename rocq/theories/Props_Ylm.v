(** Props_Ylm.v - spherical harmonics: indices, functions, transform (C110-C112). *)
From Verif Require Import RealBase SpectralSpec Spectral3Spec FourierModel Spectral3Model YlmSpec YlmModel YlmThms.
From Verif Require Base.
Import Base(outcome, Ok, Abort, UB, obind).
Open Scope R_scope.

(** C110. The index maps.  For 0 <= m <= l <= Lmax: onto 0..Ncoeffs-1, one to one. *)
Theorem C110_index_nonnegative_m :
  (forall L l m, (m <= l <= L)%nat -> (lm2n l m < Ncoeffs_Ylm L)%nat) /\
  (forall L n, (n < Ncoeffs_Ylm L)%nat -> exists l m, (m <= l <= L)%nat /\ lm2n l m = n) /\
  (forall l m l' m', (m <= l)%nat -> (m' <= l')%nat -> lm2n l m = lm2n l' m' -> l = l' /\ m = m').
Proof. exact index_maps. Qed.
Print Assumptions C110_index_nonnegative_m.
(** For -l <= m <= l: the two maps are inverse to each other between these pairs and 0..(lmax+1)^2-1; |m| > l stops the program. *)
Theorem C110_index_all_m :
  (forall l m lmax, (Z.abs m <= l <= lmax)%Z -> exists n, lm2n_Ylm l m lmax = Ok n /\ (0 <= n < (lmax + 1) * (lmax + 1))%Z /\ n2lm_Ylm n lmax = (l, m)) /\
  (forall n lmax, (0 <= lmax)%Z -> (0 <= n < (lmax + 1) * (lmax + 1))%Z -> exists l m, n2lm_Ylm n lmax = (l, m) /\ (Z.abs m <= l <= lmax)%Z /\ lm2n_Ylm l m lmax = Ok n) /\
  (forall l m lmax, (l < Z.abs m)%Z -> lm2n_Ylm l m lmax = Abort).
Proof. exact index_maps_full. Qed.
Print Assumptions C110_index_all_m.
Example C110_ex : lm2n 2 1 = 4%nat /\ Ncoeffs_Ylm 2 = 6%nat /\ lm2n_Ylm 2 (-1) 3 = Ok 9%Z /\ n2lm_Ylm 9 3 = (2, -1)%Z.
Proof. exact ex_index. Qed.

(** C111. The specification determines P_l^m(x), and the code computes it; bad arguments stop the program. *)
Theorem C111_specification_exists : (exists P, legendre_functions P) /\ forall l m x v w, is_legendre l m x v -> is_legendre l m x w -> v = w.
Proof. exact (conj legendre_ex legendre_unique). Qed.
Print Assumptions C111_specification_exists.
Theorem C111_legendre_functions :
  (forall l m x, (m <= l)%nat -> -1 <= x <= 1 -> exists v, associated_legendre l m x = Ok v /\ is_legendre l m x v) /\
  (forall l m x, (l < m)%nat \/ x < -1 \/ 1 < x -> associated_legendre l m x = Abort).
Proof. exact legendre_thm. Qed.
Print Assumptions C111_legendre_functions.
(** The theta derivative, for l up to 46340. *)
Theorem C111_theta_derivative_partial : forall l m, (Z.of_nat l <= 46340)%Z -> (m <= l)%nat -> exists F, legendre_angle l m F /\
  forall t, 0 <= t <= PI -> exists v, d_associated_legendre_dtheta l m (cos t) = Ok v /\ derivable_pt_lim F t v.
Proof. exact dlegendre_thm. Qed.
Print Assumptions C111_theta_derivative_partial.
Theorem C111_theta_derivative_refuted : forall l x, (46340 < Z.of_nat l)%Z -> d_associated_legendre_dtheta l 0 x = UB.
Proof. exact dlegendre_overflow. Qed.
Print Assumptions C111_theta_derivative_refuted.
(** Y_lm = N_lm P_lm(cos theta) e^(i m phi) and Y_l,-m = (-1)^m conj(Y_lm); bad angles or |m| > l stop the program. *)
Theorem C111_harmonics :
  (forall l m theta phi v, (m <= l)%nat -> 0 <= theta <= PI -> 0 <= phi <= 2 * PI -> is_legendre l m (cos theta) v ->
     Ylm l (Z.of_nat m) theta phi = Ok (ylm_norm l m * v * cos (INR m * phi), ylm_norm l m * v * sin (INR m * phi)) /\
     Ylm l (- Z.of_nat m) theta phi = Ok ((-1) ^ m * (ylm_norm l m * v * cos (INR m * phi)), - ((-1) ^ m * (ylm_norm l m * v * sin (INR m * phi))))) /\
  (forall l m theta phi, (Z.of_nat l < Z.abs m)%Z \/ theta < 0 \/ PI < theta \/ phi < 0 \/ 2 * PI < phi -> Ylm l m theta phi = Abort).
Proof. exact ylm_thm. Qed.
Print Assumptions C111_harmonics.
Theorem C111_harmonic_derivatives_partial :
  (forall l m theta phi y, Ylm l m theta phi = Ok y -> dYlm_dphi l m theta phi = Ok (cmul (0, IZR m) y)) /\
  (forall l m phi F, (Z.of_nat l <= 46340)%Z -> (m <= l)%nat -> 0 <= phi <= 2 * PI -> legendre_angle l m F -> forall t d, 0 < t < PI -> derivable_pt_lim F t d ->
     dYlm_dtheta l (Z.of_nat m) t phi = Ok (ylm_norm l m * d * cos (INR m * phi), ylm_norm l m * d * sin (INR m * phi)) /\
     dYlm_dtheta l (- Z.of_nat m) t phi = Ok ((-1) ^ m * (ylm_norm l m * d * cos (INR m * phi)), - ((-1) ^ m * (ylm_norm l m * d * sin (INR m * phi))))).
Proof. exact dylm_thm. Qed.
Print Assumptions C111_harmonic_derivatives_partial.
Example C111_ex : associated_legendre 2 1 (3 / 5) = Ok (- (9 / 5) * (4 / 5)) /\ is_legendre 2 0 (1 / 2) (- 1 / 8).
Proof. exact ex_leg. Qed.

(** C112. Gauss-Legendre quadrature with the code's weights integrates polynomials of degree below 2n exactly; the call itself is defined for n <= 6. *)
Theorem C112_gauss_legendre_partial : forall n x, (1 <= n)%nat -> (Z.of_nat n <= 46340)%Z -> legendre_zeros n x -> exists w,
  (forall i, (i < n)%nat -> Legendre_weight_function (x i) n = Ok (w i)) /\
  (forall c, (length c <= 2 * n)%nat -> integral_is (peval c) (-1) 1 (Rsum n (fun i => w i * peval c (x i)))) /\
  (forall f, (n <= 6)%nat -> GaussQuadrature_Legendre w n f = Ok (Rsum n (fun i => w i * f i))).
Proof. exact gauss_thm. Qed.
Print Assumptions C112_gauss_legendre_partial.
(** A root is given for N < 100 and a number below N; everything else stops the program. *)
Theorem C112_roots : forall tab i N, Legendre_root_function tab i N = if (Nat.ltb N 100 && Nat.ltb i N)%bool then Ok (tab i) else Abort.
Proof. exact roots_thm. Qed.
Print Assumptions C112_roots.
(** Interpolation evaluates the harmonic series of the stored coefficients, and the tables are its derivatives. *)
Theorem C112_interpolation : forall P, legendre_functions P -> forall re im L theta phi, 0 <= theta <= PI -> 0 <= phi <= 2 * PI ->
  interpolation_Ylm re im L theta phi = Ok (harmonic L (fun l m => re (lm2n l m)) (fun l m => im (lm2n l m)) (fun l m => P l m (cos theta)) phi).
Proof. exact interp_thm. Qed.
Print Assumptions C112_interpolation.
Theorem C112_derivative_tables_partial : forall P, legendre_functions P -> forall tab re im Nt Np L i j, (Nt < 100)%nat -> (i < Nt)%nat -> (j < Np)%nat -> -1 < tab i < 1 ->
  let F theta phi := harmonic L (fun l m => re (lm2n l m)) (fun l m => im (lm2n l m)) (fun l m => P l m (cos theta)) phi in
  let theta := acos (- tab i) in let phi := 2 * PI * INR j / INR Np in
  (exists v, df_dphi_Ylm tab re im Nt Np L i j = Ok v /\ derivable_pt_lim (F theta) phi v) /\
  ((Z.of_nat L <= 46340)%Z -> exists v, df_dtheta_Ylm tab re im Nt Np L i j = Ok v /\ derivable_pt_lim (fun t => F t phi) theta v).
Proof. exact tables_thm. Qed.
Print Assumptions C112_derivative_tables_partial.
(** Data sampled from a real function with harmonic degree at most Lmax: with Lmax < Ntheta <= 6 and 2 Lmax < Nphi the coefficients come
    back exactly, nothing is written past them, and interpolation gives the function at every point. *)
Theorem C112_coefficients_partial : forall P, legendre_functions P -> forall tab f a b L Nt Np A, legendre_zeros Nt tab -> (L < Nt <= 6)%nat -> (2 * L < Np)%nat ->
  (forall l, b l O = 0) ->
  (forall i j, (i < Nt)%nat -> (j < Np)%nat -> f (j + i * Np)%nat = harmonic L a b (fun l m => P l m (cos (acos (- tab i)))) (2 * PI * INR j / INR Np)) ->
  exists re im, get_Ylm_coeffs tab f Nt Np L A = Ok (re, im) /\
    (forall l m, (m <= l <= L)%nat -> re (lm2n l m) = a l m /\ im (lm2n l m) = b l m) /\
    (forall k, (Ncoeffs_Ylm L <= k)%nat -> re k = fst A k /\ im k = snd A k) /\
    (forall theta phi, 0 <= theta <= PI -> 0 <= phi <= 2 * PI -> interpolation_Ylm re im L theta phi = Ok (harmonic L a b (fun l m => P l m (cos theta)) phi)).
Proof. exact coeffs_thm. Qed.
Print Assumptions C112_coefficients_partial.
(** For any number of theta points the sums are the coefficients ... *)
Theorem C112_sums_partial : forall P, legendre_functions P -> forall tab f a b L Nt Np l m, legendre_zeros Nt tab -> (L < Nt)%nat -> (Z.of_nat Nt <= 46340)%Z -> (2 * L < Np)%nat ->
  (forall i j, (i < Nt)%nat -> (j < Np)%nat -> f (j + i * Np)%nat = harmonic L a b (fun l m => P l m (cos (acos (- tab i)))) (2 * PI * INR j / INR Np)) ->
  (m <= l <= L)%nat -> (forall l, b l O = 0) ->
  exists w vr vi, (forall i, (i < Nt)%nat -> Legendre_weight_function (tab i) Nt = Ok (w i)) /\
    (forall i, (i < Nt)%nat -> fYlm fst f (fun i => acos (- tab i)) Np l m i = Ok (vr i) /\ fYlm snd f (fun i => acos (- tab i)) Np l m i = Ok (vi i)) /\
    Rsum Nt (fun i => w i * vr i) = a l m /\ Rsum Nt (fun i => w i * vi i) = b l m.
Proof. exact sums_thm. Qed.
Print Assumptions C112_sums_partial.
(** ... but from seven theta points on the call overflows an int in (2n)!. *)
Theorem C112_defined_for_all_sizes_refuted : forall tab f L Nt Np A, (7 <= Nt < 100)%nat -> (forall i, (i < Nt)%nat -> -1 < tab i < 1) -> get_Ylm_coeffs tab f Nt Np L A = UB.
Proof. exact coeffs_undefined. Qed.
Print Assumptions C112_defined_for_all_sizes_refuted.
Example C112_ex1 : legendre_zeros 2 tab2 /\ (1 < 2 <= 6)%nat /\ (2 * 1 < 3)%nat.
Proof. exact ex_coef. Qed.
Example C112_ex2 : exists f re im, get_Ylm_coeffs tab2 f 2 3 1 (fun _ => 0, fun _ => 0) = Ok (re, im) /\ re (lm2n 1 1) = 3 /\ im (lm2n 1 1) = 2 /\ re (lm2n 1 0) = 5.
Proof. exact ex_coef2. Qed.
