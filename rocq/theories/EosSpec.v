(** EosSpec.v - what the equation-of-state properties are stated with. *)
From Verif Require Import RealBase.
From Verif Require Base.
Import Base(outcome, Ok).
Open Scope R_scope.

(** the barotropic relations of one polytropic piece: constant K, exponent gamma, energy constant a:
    p = K rho^gamma, e = (1+a) rho + p/(gamma-1), h = (e+p)/rho, e0 = e/rho - 1 *)
Definition polytrope_at (K gamma a h rho p e e0 : R) : Prop :=
  0 < rho /\ p = K * Rpower rho gamma /\ e = (1 + a) * rho + p / (gamma - 1) /\ h = (e + p) / rho /\ e0 = e / rho - 1.
(** a user function that returns a number near h and whose derivative at h is d *)
Definition derives (f : R -> outcome (option R)) (h d : R) : Prop :=
  exists F : R -> R, (exists eps, 0 < eps /\ forall x, Rabs (x - h) < eps -> f x = Ok (Some (F x))) /\ derivable_pt_lim F h d.
(** a table of N >= 2 pieces: exponents above 1, thresholds positive and increasing (the first entry is not a threshold) *)
Definition good_table (gamma : list R) (K0 : R) (rho : list R) : Prop :=
  (2 <= length gamma)%nat /\ (length gamma <= length rho)%nat /\ 0 < K0 /\
  (forall i, (i < length gamma)%nat -> 1 + / 1000000000000 <= nth i gamma 0) /\
  0 < nth 1 rho 0 /\ nth 0 rho 0 <= nth 1 rho 0 /\
  (forall i, (1 <= i)%nat -> (S i < length gamma)%nat -> nth i rho 0 < nth (S i) rho 0).
(** the same for a function that returns a number or stops *)
Definition derives_o (f : R -> outcome R) (h d : R) : Prop :=
  exists F : R -> R, (exists eps, 0 < eps /\ forall x, Rabs (x - h) < eps -> f x = Ok (F x)) /\ derivable_pt_lim F h d.
(** x agrees with y to a relative error of 1e-15 *)
Definition close_to (x y : R) : Prop := Rabs (x - y) <= / 10 ^ 15 * Rabs y.
