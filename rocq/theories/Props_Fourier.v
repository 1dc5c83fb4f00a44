(** Props_Fourier.v - discrete Fourier transforms (C107-C109). *)
From Verif Require Import RealBase FourierSpec FourierModel FourierProofs FourierFinal FourierExamples.

(** C107. One dimension.  No points: refused.  Otherwise, while the products m*i fit in a Uint: the values recovered from the
    coefficients of v are those of v for odd n; for even n the highest mode comes back twice.  If v samples a trigonometric polynomial of
    degree K < n/2, the coefficients are its complex Fourier coefficients. *)
Theorem C107_fourier_1d_partial :
  (forall v, r2cft_1d v 0 = None) /\ (forall c, c2rft_1d c 0 = None) /\
  (forall v n, n <> 0%nat -> exists c w, r2cft_1d v n = Some c /\ c2rft_1d c n = Some w) /\
  (forall v n c w, fits n -> r2cft_1d v n = Some c -> c2rft_1d c n = Some w -> forall i, (i < n)%nat ->
     w i = v i + (if Nat.even n then alt i * (Rsum n (fun j => alt j * v j) / INR n) else 0)) /\
  (forall v n c K a b, fits n -> (2 * K < n)%nat -> (forall i, (i < n)%nat -> v i = trig1 K a b (xnode n i)) -> r2cft_1d v n = Some c ->
     forall m, (m <= n / 2)%nat -> c m = match m with O => (a O, 0) | _ => if Nat.leb m K then (a m / 2, - b m / 2) else (0, 0) end).
Proof.
  exact (conj (fun v => eq_refl) (conj (fun c => eq_refl) (conj
    (fun v n H => ex_intro _ _ (ex_intro _ _ (conj (r2_eq v n H) (c2_eq _ n H)))) (conj roundtrip_odd_even coefs_1d)))).
Qed.
Print Assumptions C107_fourier_1d_partial.
Example C107_ex1 : fits 3 /\ Nat.even 3 = false /\ exists c w, r2cft_1d va 3 = Some c /\ c2rft_1d c 3 = Some w /\ w 0%nat = 1 /\ w 2%nat = -1.
Proof. exact odd_1d. Qed.
Example C107_ex2 : (2 * 1 < 4)%nat /\ fits 4 /\ trig1 1 (fun k => INR k) (fun _ => 2) 0 = 1.
Proof. exact ex_1d. Qed.
(** Even n: the data 1, -1 come back as 2, -2. *)
Theorem C107_even_refuted : exists c w, r2cft_1d va 2 = Some c /\ c2rft_1d c 2 = Some w /\ w 0%nat = 2 * va 0%nat /\ w 1%nat = 2 * va 1%nat.
Proof. exact nyquist_1d. Qed.
Print Assumptions C107_even_refuted.
(** From 92683 points on the product m*i wraps and the coefficients are not those of the data. *)
Theorem C107_wrap_refuted : ~ (forall v n c, r2cft_1d v n = Some c -> forall m, (m <= n / 2)%nat ->
    fst (c m) = Rsum n (fun i => v i * cos (INR m * xnode n i)) / INR n).
Proof. exact wrap_refuted. Qed.
Print Assumptions C107_wrap_refuted.

(** C108. Two periodic dimensions.  If the data sample a trigonometric polynomial below the Nyquist degrees, interpolation gives it
    at every point and the two derivative tables hold its partial derivatives; with odd point counts interpolation at a grid point
    gives back the data, whatever they are; the derivative tables are derivatives of the interpolant for any coefficients. *)
Theorem C108_fourier_2d_partial :
  (forall f N0 N1 K0 K1 a b c d, (2 * K0 < N0)%nat -> (2 * K1 < N1)%nat ->
    (forall i j, (i < N0)%nat -> (j < N1)%nat -> f (IJ i j N1) = trig2 K0 K1 a b c d (xnode N0 i) (xnode N1 j)) ->
    let C := r2cft_2d f N0 N1 in
    (forall x y, interp_2d (fst C) (snd C) N0 N1 x y = trig2 K0 K1 a b c d x y) /\
    (forall i j, derivable_pt_lim (fun x => trig2 K0 K1 a b c d x (xnode N1 j)) (xnode N0 i) (df_dphi0 (fst C) (snd C) N0 N1 i j) /\
                 derivable_pt_lim (fun y => trig2 K0 K1 a b c d (xnode N0 i) y) (xnode N1 j) (df_dphi1 (fst C) (snd C) N0 N1 i j))) /\
  (forall f N0 N1 i j, Nat.even N0 = false -> Nat.even N1 = false -> (i < N0)%nat -> (j < N1)%nat ->
    interp_2d (fst (r2cft_2d f N0 N1)) (snd (r2cft_2d f N0 N1)) N0 N1 (xnode N0 i) (xnode N1 j) = f (IJ i j N1)) /\
  (forall rC iC N0 N1 i j,
    derivable_pt_lim (fun x => interp_2d rC iC N0 N1 x (xnode N1 j)) (xnode N0 i) (df_dphi0 rC iC N0 N1 i j) /\
    derivable_pt_lim (fun y => interp_2d rC iC N0 N1 (xnode N0 i) y) (xnode N1 j) (df_dphi1 rC iC N0 N1 i j)).
Proof.
  exact (conj (fun f N0 N1 K0 K1 a b c d H0 H1 Hf => conj (interp_2d_exact f N0 N1 K0 K1 a b c d H0 H1 Hf) (derivs_exact f N0 N1 K0 K1 a b c d H0 H1 Hf))
    (conj interp_2d_nodes (fun rC iC N0 N1 i j => conj (dphi0_ok rC iC N0 N1 i j) (dphi1_ok rC iC N0 N1 i j)))).
Qed.
Print Assumptions C108_fourier_2d_partial.
Example C108_ex : (2 * 1 < 3)%nat /\ (2 * 1 < 4)%nat /\ trig2 1 1 (fun _ _ => 0) (fun _ _ => 0) c11 (fun _ _ => 0) (PI / 2) 0 = 1.
Proof. exact (conj (le_n 3) (conj (le_S 3 3 (le_n 3)) (proj2 (proj2 (proj2 (proj2 ex_S2)))))). Qed.
(** Even counts: at a grid point the interpolant of 1, -1 is 2. *)
Theorem C108_even_refuted :
  interp_2d (fst (r2cft_2d va 2 1)) (snd (r2cft_2d va 2 1)) 2 1 (xnode 2 0) (xnode 1 0) = 2 /\ va (IJ 0 0 1) = 1.
Proof. exact nyquist_2d. Qed.
Print Assumptions C108_even_refuted.

(** C109. The sphere, theta_i = i pi/(Ntheta-1), phi_j = 2 pi j/Nphi.  An odd Nphi stops the program.  Data sampled from a function
    that is consistent over the poles and trigonometric of low enough degree are interpolated and differentiated exactly, with or without the search
    for a better continuation. *)
Theorem C109_fourier_sphere_partial :
  (forall f Nth Nph improve, (Nph mod 2 <> 0)%nat -> r2cft_2d_S2 f Nth Nph improve = None) /\
  (forall f Nth Nph K0 K1 a b c d (improve : bool), (2 <= Nth)%nat -> (2 <= Nph)%nat -> (Nph mod 2 = 0)%nat -> on_sphere (trig2 K0 K1 a b c d) ->
    (if improve then (K0 + 2 < Nth)%nat /\ (2 * (K1 + 1) < Nph)%nat else (K0 + 1 < Nth)%nat /\ (2 * K1 < Nph)%nat) ->
    (forall i j, (i < Nth)%nat -> (j < Nph)%nat -> f (IJ i j Nph) = trig2 K0 K1 a b c d (INR i * PI / INR (Nth - 1)) (xnode Nph j)) ->
    exists rC iC, r2cft_2d_S2 f Nth Nph improve = Some (rC, iC) /\
      (forall th ph, interp_S2 rC iC Nth Nph th ph = trig2 K0 K1 a b c d th ph) /\
      (forall i j, derivable_pt_lim (fun th => trig2 K0 K1 a b c d th (xnode Nph j)) (INR i * PI / INR (Nth - 1)) (df_dphi0 rC iC (2 * (Nth - 1)) Nph i j) /\
         derivable_pt_lim (fun ph => trig2 K0 K1 a b c d (INR i * PI / INR (Nth - 1)) ph) (xnode Nph j) (df_dphi1 rC iC (2 * (Nth - 1)) Nph i j))).
Proof. exact (conj S2_odd S2_exact). Qed.
Print Assumptions C109_fourier_sphere_partial.
Example C109_ex : on_sphere (trig2 1 1 (fun _ _ => 0) (fun _ _ => 0) c11 (fun _ _ => 0)) /\ (1 + 2 < 4)%nat /\ (2 * (1 + 1) < 6)%nat /\ (6 mod 2 = 0)%nat /\
  trig2 1 1 (fun _ _ => 0) (fun _ _ => 0) c11 (fun _ _ => 0) (PI / 2) 0 = 1.
Proof. exact ex_S2. Qed.
(** At the highest mode (cos theta on two theta points) the value at the pole is doubled. *)
Theorem C109_nyquist_refuted : (forall i j, (i < 2)%nat -> (j < 2)%nat -> vs (IJ i j 2) = cos (INR i * PI / INR (2 - 1))) /\
  exists rC iC, r2cft_2d_S2 vs 2 2 false = Some (rC, iC) /\ interp_S2 rC iC 2 2 0 0 = 2.
Proof. exact nyquist_S2. Qed.
Print Assumptions C109_nyquist_refuted.
