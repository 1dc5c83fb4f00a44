(** YlmModel.v - spherical_harmonics.c and spherical_harmonics_transformation.c.  l and m are non-negative where the code only passes
    non-negative values; double complex is a pair as in FourierModel.v; doubles are reals. *)
From Verif Require Import RealBase FourierModel Spectral3Model.
From Verif Require Base SpectralModel.
Import Base(outcome, Ok, Abort, UB, obind).
Open Scope R_scope.

(** spherical_harmonics.c:61-71: [i = 1..m] pmm *= -fact*somx2; fact += 2 *)
Fixpoint pmm_loop (n : nat) (somx2 pmm fact : R) : R :=
  match n with O => pmm | S k => pmm_loop k somx2 (pmm * (- fact * somx2)) (fact + 2) end.
Definition pmm_val (m : nat) (x : R) : R :=
  match m with O => 1 | _ => pmm_loop m (sqrt ((1 - x) * (1 + x))) 1 1 end.
(** :88-93: [n] turns starting at ll *)
Fixpoint ll_loop (n ll m : nat) (x pmm pmmp1 pll : R) : R :=
  match n with
  | O => pll
  | S k => let pll := (x * (2 * INR ll - 1) * pmmp1 - (INR ll + INR m - 1) * pmm) / (INR ll - INR m) in ll_loop k (S ll) m x pmmp1 pll pll
  end.
(** :73-97 *)
Definition legendre_val (l m : nat) (x : R) : R :=
  let pmm := pmm_val m x in
  if Nat.eqb l m then pmm else
  let pmmp1 := x * (2 * INR m + 1) * pmm in
  if Nat.eqb l (m + 1) then pmmp1 else ll_loop (l - (m + 1)) (m + 2) m x pmm pmmp1 0.
(** :43-99 associated_legendre *)
Definition associated_legendre (l m : nat) (x : R) : outcome R :=
  if (ltR 1 x || ltR x (-1))%bool then Abort else if Nat.ltb l m then Abort else Ok (legendre_val l m x).
(** an int expression: overflow is undefined behaviour *)
Definition int_ (z : Z) : outcome R := if SpectralModel.in_int z then Ok (IZR z) else UB.
(** :9-39 d_associated_legendre_dtheta.  In the branch m == 0 the quotient is an int division. *)
Definition d_associated_legendre_dtheta (l m : nat) (x : R) : outcome R :=
  let zl := Z.of_nat l in let zm := Z.of_nat m in
  if Nat.eqb l 0 then Ok 0 else
  if Nat.eqb m l then
    obind (int_ ((zl + zm) * (zl - zm + 1))) (fun c => obind (associated_legendre l (m - 1) x) (fun p => Ok (- (c * p) * (1 / 2))))
  else if Nat.eqb m 0 then
    obind (int_ ((zl + zm) * (zl - zm + 1))) (fun _ => obind (int_ (zl * (zl + 1))) (fun _ =>
    obind (associated_legendre l 1 x) (fun p => Ok (- (- (1 + IZR (((zl + zm) * (zl - zm + 1)) / (zl * (zl + 1)))) * p) * (1 / 2)))))
  else
    obind (int_ ((zl + zm) * (zl - zm + 1))) (fun c => obind (associated_legendre l (m - 1) x) (fun p =>
    obind (associated_legendre l (m + 1) x) (fun q => Ok (- (c * p - q) * (1 / 2))))).
(** :123-127 (the same at :185-189): factor /= sqrt(lpm-i) for i < 2|m|; factor *= 0.5*sqrt((2l+1)/pi) *)
Fixpoint factor_loop (n i lpm : nat) (factor : R) : R :=
  match n with O => factor | S k => factor_loop k (S i) lpm (factor / sqrt (INR (lpm - i))) end.
Definition factor (l pm : nat) : R := factor_loop (2 * pm) 0 (l + pm) 1 * (1 / 2 * sqrt ((2 * INR l + 1) / PI)).
(** SIGN[mp%2] *)
Definition sgn2 (mp : nat) : R := if Nat.even mp then 1 else -1.
Definition bad_angles (theta phi : R) : bool := (ltR PI theta || ltR theta 0 || (ltR (2 * PI) phi || ltR phi 0))%bool.
(** :102-145 Ylm *)
Definition Ylm (l : nat) (m : Z) (theta phi : R) : outcome Cx :=
  if bad_angles theta phi then Abort else
  obind (associated_legendre l (Z.abs_nat m) (cos theta)) (fun p =>
  let fp := if Z.leb 0 m then factor l (Z.abs_nat m) * p else sgn2 (Z.abs_nat m) * factor l (Z.abs_nat m) * p in
  Ok (cscal fp (cexpi (IZR m * phi)))).
(** :148-157 dYlm_dphi *)
Definition dYlm_dphi (l : nat) (m : Z) (theta phi : R) : outcome Cx := obind (Ylm l m theta phi) (fun y => Ok (cmul (0, IZR m) y)).
(** :160-206 dYlm_dtheta *)
Definition dYlm_dtheta (l : nat) (m : Z) (theta phi : R) : outcome Cx :=
  if bad_angles theta phi then Abort else
  obind (d_associated_legendre_dtheta l (Z.abs_nat m) (cos theta)) (fun p =>
  let fp := if Z.leb 0 m then factor l (Z.abs_nat m) * p else sgn2 (Z.abs_nat m) * factor l (Z.abs_nat m) * p in
  Ok (cscal fp (cexpi (IZR m * phi)))).

(** spherical_harmonics_transformation.c:250-253 *)
Definition lm2n (l m : nat) : nat := (l * (l + 1) / 2 + m)%nat.
(** :228-234 (the assert stops the program), ints without overflow *)
Definition lm2n_Ylm (l m lmax : Z) : outcome Z :=
  if Z.leb (Z.abs m) l then
    let i := (if Z.leb 0 m then lmax - l else lmax - l - m)%Z in
    let j := (if Z.leb m 0 then lmax - l else lmax - l + m)%Z in Ok (j + (lmax + 1) * i)%Z
  else Abort.
(** :237-244, C division and remainder *)
Definition n2lm_Ylm (n lmax : Z) : Z * Z :=
  let j := Z.rem n (lmax + 1) in let i := Z.quot (n - j) (lmax + 1) in
  let m := (j - i)%Z in (if Z.leb 0 m then lmax - i else lmax - j, m)%Z.
(** :270-273 and maths_spectral_methods_lib.h:14 *)
Definition Ncoeffs_Ylm (Lmax : nat) : nat := ((Lmax + 1) * Lmax / 2 + Lmax + 1)%nat.

(** legendre_root_and_weight_function.c:14-18; the division is total *)
Definition Legendre_weight_function (x : R) (n : nat) : outcome R :=
  obind (d_associated_legendre_dtheta n 0 x) (fun dp => Ok (2 / Pow2 dp)).
(** :22-31; [tab] is the table Legendre_root[N] *)
Definition Legendre_root_function (tab : nat -> R) (rootN N : nat) : outcome R :=
  if Nat.leb 100 N then Abort else if Nat.leb N rootN then Abort else Ok (tab rootN).
(** spherical_harmonics_transformation.c:255-267 *)
Definition integrate_expImphi (f : nat -> R) (n : nat) (m : Z) : Cx :=
  cscal (2 * PI / INR n) (csum n (fun i => cscal (f i) (cexpi (IZR m * (2 * PI / INR n) * INR i)))).
(** an outcome for every i < n (no aborts, no undefined behaviour), as an array *)
Fixpoint oarray (n : nat) (f : nat -> outcome R) : outcome (nat -> R) :=
  match n with O => Ok (fun _ => 0) | S k => obind (oarray k f) (fun a => obind (f k) (fun v => Ok (fun i => if Nat.eqb i k then v else a i))) end.
(** :101-114: the pairs (l,m) in the order of the loops *)
Definition lm_pairs (Lmax : nat) : list (nat * nat) := flat_map (fun l => map (fun m => (l, m)) (seq 0 (S l))) (seq 0 (S Lmax)).
Definition upd (A : nat -> R) (k : nat) (v : R) : nat -> R := fun i => if Nat.eqb i k then v else A i.
(** the values Ylm(l,m,theta[i],0).re times one part of v[m][i] *)
Definition fYlm (part : Cx -> R) (f theta : nat -> R) (Np l m i : nat) : outcome R :=
  obind (Ylm l (Z.of_nat m) (theta i) 0) (fun y => Ok (fst y * part (integrate_expImphi (fun j => f (j + i * Np)%nat) Np (- Z.of_nat m)))).
(** :101-114 body of the loop; [w] are the weights *)
Definition coef_step (w f theta : nat -> R) (Nt Np : nat) (A : (nat -> R) * (nat -> R)) (l m : nat) : outcome ((nat -> R) * (nat -> R)) :=
  obind (oarray Nt (fYlm fst f theta Np l m)) (fun re => obind (oarray Nt (fYlm snd f theta Np l m)) (fun im =>
  obind (GaussQuadrature_Legendre w Nt re) (fun r => obind (GaussQuadrature_Legendre w Nt im) (fun s =>
  Ok (upd (fst A) (lm2n l m) r, upd (snd A) (lm2n l m) s))))).
Fixpoint coef_loop (w f theta : nat -> R) (Nt Np : nat) (l : list (nat * nat)) (A : (nat -> R) * (nat -> R)) : outcome ((nat -> R) * (nat -> R)) :=
  match l with [] => Ok A | (a, b) :: t => obind (coef_step w f theta Nt Np A a b) (fun A => coef_loop w f theta Nt Np t A) end.
(** :49-122 get_Ylm_coeffs_GaussLegendre_EquiSpaced.  Simplified: the weights, which the code recomputes inside each quadrature, are computed once. *)
Definition get_Ylm_coeffs (tab : nat -> R) (f : nat -> R) (Nt Np Lmax : nat) (A : (nat -> R) * (nat -> R)) : outcome ((nat -> R) * (nat -> R)) :=
  obind (oarray Nt (fun i => Legendre_root_function tab i Nt)) (fun x =>
  obind (oarray Nt (fun i => Legendre_weight_function (x i) Nt)) (fun w =>
  coef_loop w f (fun i => acos (- x i)) Nt Np (lm_pairs Lmax) A)).
(** a sum of complex outcomes *)
Fixpoint osum (n : nat) (f : nat -> outcome Cx) : outcome Cx :=
  match n with O => Ok (0, 0) | S k => obind (osum k f) (fun s => obind (f k) (fun v => Ok (cadd s v))) end.
(** :126-147 interpolation_Ylm, :151-186 df_dphi_Ylm and :190-226 df_dtheta_Ylm share the double sum; [zero] says whether m = 0 is included *)
Definition series (Y : nat -> Z -> outcome Cx) (zero : bool) (re im : nat -> R) (Lmax : nat) : outcome R :=
  obind (osum (S Lmax) (fun l =>
    obind (osum l (fun k => let m := S k in let lm := lm2n l m in
      obind (Y l (Z.of_nat m)) (fun y => obind (Y l (- Z.of_nat m)%Z) (fun y' =>
      Ok (cadd (cmul (re lm, im lm) y) (cmul (cscal (sgn2 m) (re lm, - im lm)) y')))))) (fun s =>
    if zero then obind (Y l 0%Z) (fun y => Ok (cadd s (cmul (re (lm2n l 0), im (lm2n l 0)) y))) else Ok s))) (fun s => Ok (fst s)).
Definition interpolation_Ylm (re im : nat -> R) (Lmax : nat) (theta phi : R) : outcome R := series (fun l m => Ylm l m theta phi) true re im Lmax.
(** :151-186 at the point (i,j) *)
Definition df_dphi_Ylm (tab re im : nat -> R) (Nt Np Lmax i j : nat) : outcome R :=
  obind (Legendre_root_function tab i Nt) (fun x => series (fun l m => dYlm_dphi l m (acos (- x)) (INR j * 2 * PI / INR Np)) false re im Lmax).
(** :190-226 *)
Definition df_dtheta_Ylm (tab re im : nat -> R) (Nt Np Lmax i j : nat) : outcome R :=
  obind (Legendre_root_function tab i Nt) (fun x => series (fun l m => dYlm_dtheta l m (acos (- x)) (INR j * 2 * PI / INR Np)) true re im Lmax).
