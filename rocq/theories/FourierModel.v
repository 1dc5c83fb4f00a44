(** FourierModel.v - the discrete Fourier transforms of fourier_transformation.c.  double complex is a pair (real, imaginary); cexp of an
    imaginary argument i t is (cos t, sin t).  Arrays are functions of their index.  Simplified: allocation never fails, doubles are reals. *)
From Verif Require Import RealBase.

Definition Cx : Type := (R * R)%type.
Definition cadd (a b : Cx) : Cx := (fst a + fst b, snd a + snd b).
Definition cmul (a b : Cx) : Cx := (fst a * fst b - snd a * snd b, fst a * snd b + snd a * fst b).
Definition cscal (x : R) (a : Cx) : Cx := (x * fst a, x * snd a).
Definition cexpi (t : R) : Cx := (cos t, sin t).
(** c = 0; for (i = 0; i < n; ++i) c += f(i) *)
Fixpoint csum (n : nat) (f : nat -> Cx) : Cx := match n with O => (0, 0) | S m => cadd (csum m f) (f m) end.

(** fourier_transformation.h:5 *)
Definition IJ (i j n : nat) : nat := (j + i * n)%nat.
(** product of two Uint as a Uint: fourier_transformation.c:102 [m*i*x0] multiplies m*i first *)
Definition umul (a b : nat) : R := IZR ((Z.of_nat a * Z.of_nat b) mod 4294967296).

(** fourier_transformation.c:88-111; None: Error0 for n = 0.  The l = n/2+1 coefficients. *)
Definition r2cft_1d (v : nat -> R) (n : nat) : option (nat -> Cx) :=
  match n with
  | O => None
  | _ => Some (fun m => let c := csum n (fun i => cscal (v i) (cexpi (umul m i * (- 2 * PI / INR n)))) in (fst c / INR n, snd c / INR n))
  end.
(** fourier_transformation.c:118-140 *)
Definition c2rft_1d (c : nat -> Cx) (N : nat) : option (nat -> R) :=
  match N with
  | O => None
  | _ => Some (fun i => let x := INR i * (2 * PI / INR N) in
           fst (c O) + Rsum (N / 2 + 1 - 1) (fun j => 2 * fst (cmul (c (S j)) (cexpi (INR (S j) * x)))))
  end.

(** fourier_transformation.c:410-429: FT in the second index, entry 0 halved *)
Definition cf2 (f : nat -> R) (N1 : nat) (i m1 : nat) : Cx :=
  let cf := csum N1 (fun j => cscal (f (IJ i j N1)) (cexpi (INR j * (INR m1 * (- 2 * PI / INR N1))))) in
  let cf := (fst cf / INR N1, snd cf / INR N1) in
  match m1 with O => (fst cf / 2, snd cf / 2) | _ => cf end.
(** fourier_transformation.c:431-463: FT in the first index of one part g i m1, row 0 halved *)
Definition cf1 (g : nat -> R) (N0 m0 : nat) : Cx :=
  let c := csum N0 (fun i => cscal (g i) (cexpi (INR i * (INR m0 * (- 2 * PI / INR N0))))) in
  let c := (fst c / INR N0, snd c / INR N0) in
  match m0 with O => (fst c / 2, snd c / 2) | _ => c end.
(** fourier_transformation.c:380-490 r2cft_2d_coeffs: the arrays realC, imagC of 2*l0*l1 entries; entry k < l0l1 belongs to
    m0 = k/l1, m1 = k mod l1 *)
Definition r2cft_2d (f : nat -> R) (N0 N1 : nat) : (nat -> R) * (nat -> R) :=
  let l0 := (N0 / 2 + 1)%nat in let l1 := (N1 / 2 + 1)%nat in let l0l1 := (l0 * l1)%nat in
  let cr k := cf1 (fun i => fst (cf2 f N1 i (k mod l1))) N0 (k / l1) in
  let ci k := cf1 (fun i => snd (cf2 f N1 i (k mod l1))) N0 (k / l1) in
  (fun k => if Nat.ltb k l0l1 then fst (cr k) else fst (ci (k - l0l1)%nat),
   fun k => if Nat.ltb k l0l1 then snd (cr k) else snd (ci (k - l0l1)%nat)).

(** the two brackets of fourier_transformation.c:539-544, 592-597, 640-645 *)
Definition br_p (rC iC : nat -> R) (l0l1 k : nat) : Cx := (rC k - iC (l0l1 + k)%nat, iC k + rC (l0l1 + k)%nat).
Definition br_m (rC iC : nat -> R) (l0l1 k : nat) : Cx := (rC k + iC (l0l1 + k)%nat, iC k - rC (l0l1 + k)%nat).
(** fourier_transformation.c:512-548 r2cft_2d_interpolation *)
Definition interp_2d (rC iC : nat -> R) (N0 N1 : nat) (phi0 phi1 : R) : R :=
  let l0 := (N0 / 2 + 1)%nat in let l1 := (N1 / 2 + 1)%nat in let l0l1 := (l0 * l1)%nat in
  2 * fst (csum l0 (fun m0 => csum l1 (fun m1 =>
    cadd (cmul (br_p rC iC l0l1 (IJ m0 m1 l1)) (cexpi (INR m0 * phi0 + INR m1 * phi1)))
         (cmul (br_m rC iC l0l1 (IJ m0 m1 l1)) (cexpi (INR m0 * phi0 - INR m1 * phi1)))))).
(** fourier_transformation.c:577-620 r2cft_2d_df_dphi0 at node (i,j) *)
Definition df_dphi0 (rC iC : nat -> R) (N0 N1 : nat) (i j : nat) : R :=
  let l0 := (N0 / 2 + 1)%nat in let l1 := (N1 / 2 + 1)%nat in let l0l1 := (l0 * l1)%nat in
  let phi0 := INR i * (2 * PI / INR N0) in let phi1 := INR j * (2 * PI / INR N1) in
  2 * fst (csum l0 (fun m0 => csum l1 (fun m1 => let Im0 := (0, INR m0) in
    cadd (cmul (cmul (cmul Im0 (br_p rC iC l0l1 (IJ m0 m1 l1))) (cexpi (INR m0 * phi0))) (cexpi (INR m1 * phi1)))
         (cmul (cmul (cmul Im0 (br_m rC iC l0l1 (IJ m0 m1 l1))) (cexpi (INR m0 * phi0))) (cexpi (- (INR m1 * phi1))))))).
(** fourier_transformation.c:623-668 r2cft_2d_df_dphi1 at node (i,j); the division by exp(i m1 phi1) is the product with its conjugate *)
Definition df_dphi1 (rC iC : nat -> R) (N0 N1 : nat) (i j : nat) : R :=
  let l0 := (N0 / 2 + 1)%nat in let l1 := (N1 / 2 + 1)%nat in let l0l1 := (l0 * l1)%nat in
  let phi0 := INR i * (2 * PI / INR N0) in let phi1 := INR j * (2 * PI / INR N1) in
  2 * fst (csum l1 (fun m1 => csum l0 (fun m0 => let Im1 := (0, INR m1) in
    cadd (cmul (cmul (cmul Im1 (br_p rC iC l0l1 (IJ m0 m1 l1))) (cexpi (INR m0 * phi0))) (cexpi (INR m1 * phi1)))
         (cmul (cmul (cmul (0, - INR m1) (br_m rC iC l0l1 (IJ m0 m1 l1))) (cexpi (INR m0 * phi0))) (cexpi (- (INR m1 * phi1))))))).

(** fourier_transformation.c:203-229: the field continued over the poles; [Nt] is Ntheta-1 *)
Definition ext_S2 (f : nat -> R) (Nt Np : nat) (k : nat) : R :=
  let i := (k / Np)%nat in let j := (k mod Np)%nat in
  if Nat.ltb i Nt then f (IJ i j Np) else f (IJ (2 * Nt - i) ((j + Np / 2) mod Np) Np).
(** :243-251 the other continuation *)
Definition ext2_S2 (f : nat -> R) (Nt Np : nat) (k : nat) : R :=
  let i := (k / Np)%nat in let j := (k mod Np)%nat in
  if Nat.ltb i Nt then f (IJ i j Np) else f (IJ (2 * Nt - i) j Np).
(** running maximum of fabs over a list of indices *)
Definition maxabs (a : nat -> R) (l : list nat) (m : R) : R := fold_left (fun m k => if Rlt_dec m (Rabs (a k)) then Rabs (a k) else m) l m.
(** :283-363 r2cft_2d_last_coeffs_max_mag_S2 (asserts l0, l1 >= 2): the indices visited; MaxMag_d is the larger magnitude *)
Definition last_idx (l0 l1 : nat) : list nat :=
  let A := flat_map (fun m0 => map (fun m1 => IJ m0 m1 l1) (seq 0 l1)) (seq (l0 - 2) 2) in
  let B := flat_map (fun m0 => map (fun m1 => IJ m0 m1 l1) (seq (l1 - 2) 2)) (seq 0 l0) in
  A ++ B ++ map (fun k => k + l0 * l1)%nat A ++ map (fun k => k + l0 * l1)%nat B.
Definition last_max (N0 N1 : nat) (rC iC : nat -> R) : R :=
  let l := last_idx (N0 / 2 + 1) (N1 / 2 + 1) in Rmax (maxabs rC l 0) (maxabs iC l 0).
(** :171-271 r2cft_2d_coeffs_S2.  None: Error0 for odd Nphi, or a failed assert.  Simplified: 2*(Ntheta-1)*Nphi < 2^32 and Ntheta >= 1. *)
Definition r2cft_2d_S2 (f : nat -> R) (Ntheta Nphi : nat) (improve : bool) : option ((nat -> R) * (nat -> R)) :=
  if Nat.eqb (Nphi mod 2) 0 then
    let Nt := (Ntheta - 1)%nat in
    let c := r2cft_2d (ext_S2 f Nt Nphi) (2 * Nt) Nphi in
    if improve then
      if (Nat.leb 2 (2 * Nt / 2 + 1) && Nat.leb 2 (Nphi / 2 + 1))%bool then
        let max1 := last_max (2 * Nt) Nphi (fst c) (snd c) in
        if Rlt_dec (1 / 1000000) max1 then
          let c2 := r2cft_2d (ext2_S2 f Nt Nphi) (2 * Nt) Nphi in
          if Rlt_dec max1 (last_max (2 * Nt) Nphi (fst c2) (snd c2)) then Some c else Some c2
        else Some c
      else None
    else Some c
  else None.
(** :494-505 *)
Definition interp_S2 (rC iC : nat -> R) (Ntheta Nphi : nat) (theta phi : R) : R := interp_2d rC iC (2 * (Ntheta - 1)) Nphi theta phi.
