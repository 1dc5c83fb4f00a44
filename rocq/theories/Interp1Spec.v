(** Interp1Spec.v - what the one-dimensional interpolation properties are stated with. *)
From Verif Require Import RealBase SpectralSpec.
Open Scope R_scope.

(** S i (0 <= i < n) are the pieces of a natural cubic spline through the points (x_0,f_0) ... (x_n,f_n): cubic polynomials that
    pass through the points at both ends of their interval, agree at inner points in first and second derivative, and have
    zero second derivative at both ends *)
Definition natural_cubic_spline (n : nat) (x f : nat -> R) (S : nat -> R -> R) : Prop :=
  (forall i, (i < n)%nat -> exists p, length p = 4%nat /\ forall y, S i y = peval p y) /\
  (forall i, (i < n)%nat -> S i (x i) = f i /\ S i (x (i+1)%nat) = f (i+1)%nat) /\
  exists S' S'' : nat -> R -> R,
    (forall i y, (i < n)%nat -> derivable_pt_lim (S i) y (S' i y) /\ derivable_pt_lim (S' i) y (S'' i y)) /\
    (forall i, (i + 1 < n)%nat -> S' i (x (i+1)%nat) = S' (i+1)%nat (x (i+1)%nat) /\ S'' i (x (i+1)%nat) = S'' (i+1)%nat (x (i+1)%nat)) /\
    S'' 0%nat (x 0%nat) = 0 /\ S'' (n-1)%nat (x n) = 0.
(** points in increasing order, at least 1e-12 apart *)
Definition separated_points (N : nat) (x : nat -> R) : Prop := forall i, (i + 1 < N)%nat -> x i + / 1000000000000 < x (i+1)%nat.
(** g is the m-th derivative of f everywhere *)
Fixpoint nth_derivative (m : nat) (f g : R -> R) : Prop :=
  match m with
  | O => forall y, f y = g y
  | S k => exists f', (forall y, derivable_pt_lim f y (f' y)) /\ nth_derivative k f' g
  end.
Definition distinct_points (N : nat) (x : nat -> R) : Prop := forall i j, (i < N)%nat -> (j < N)%nat -> x i = x j -> i = j.
(** p has the given values and slopes at the n given points *)
Definition matches (n : nat) (x f fp : nat -> R) (p : list R) : Prop :=
  forall i, (i < n)%nat -> peval p (x i) = f i /\ derivable_pt_lim (peval p) (x i) (fp i).
