(** YlmSpec.v - associated Legendre functions by Rodrigues' formula, spherical harmonics, Legendre roots. *)
From Verif Require Import RealBase.

(** D k is the k-th derivative of D 0 *)
Definition derivatives (D : nat -> R -> R) : Prop := forall k y, derivable_pt_lim (D k) y (D (S k) y).
(** v = P_l^m(x) = (-1)^m (1-x^2)^(m/2) / (2^l l!) d^(l+m)/dx^(l+m) (x^2-1)^l   (Condon-Shortley phase) *)
Definition is_legendre (l m : nat) (x v : R) : Prop :=
  exists D, derivatives D /\ (forall y, D O y = (y * y - 1) ^ l) /\ v = (-1) ^ m * sqrt (1 - x * x) ^ m / (2 ^ l * INR (fact l)) * D (l + m)%nat x.
(** sqrt((2l+1)/(4 pi) (l-m)!/(l+m)!) *)
Definition ylm_norm (l m : nat) : R := sqrt ((2 * INR l + 1) / (4 * PI) * (INR (fact (l - m)) / INR (fact (l + m)))).
(** the real function with harmonic coefficients a_lm + i b_lm for m >= 0 (and (-1)^m times the conjugate for -m):
    sum_l a_l0 Y_l0 + 2 sum_{0<m<=l} (a_lm cos(m phi) - b_lm sin(m phi)) Y_lm(theta,0); [P l m] stands for P_l^m(cos theta) *)
Definition harmonic (L : nat) (a b P : nat -> nat -> R) (phi : R) : R :=
  Rsum (S L) (fun l => a l O * ylm_norm l 0 * P l O +
    Rsum l (fun k => 2 * (a l (S k) * cos (INR (S k) * phi) - b l (S k) * sin (INR (S k) * phi)) * ylm_norm l (S k) * P l (S k))).
(** x 0 .. x (n-1) are n different zeros, inside (-1,1), of the Legendre polynomial of degree n *)
Definition legendre_zeros (n : nat) (x : nat -> R) : Prop :=
  (forall i, (i < n)%nat -> is_legendre n 0 (x i) 0 /\ -1 < x i < 1) /\ (forall i j, (i < n)%nat -> (j < n)%nat -> x i = x j -> i = j).
(** P l m x = P_l^m(x) *)
Definition legendre_functions (P : nat -> nat -> R -> R) : Prop := forall l m x, is_legendre l m x (P l m x).
(** F t = P_l^m(cos t) for 0 <= t <= PI *)
Definition legendre_angle (l m : nat) (F : R -> R) : Prop := forall t, 0 <= t <= PI -> is_legendre l m (cos t) (F t).
