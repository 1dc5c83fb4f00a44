(** SpectralSpec.v - polynomials as coefficient lists, and what "derivative" means. *)
From Verif Require Import RealBase.

(** p = [a0; a1; ...] is a0 + a1 x + a2 x^2 + ... ; a list of length m is a polynomial of degree < m *)
Fixpoint peval (p : list R) (x : R) : R :=
  match p with [] => 0 | a :: q => a + x * peval q x end.
(** d is the second derivative of f at x *)
Definition second_derivative_at (f : R -> R) (x d : R) : Prop :=
  exists f' : R -> R, (forall y, derivable_pt_lim f y (f' y)) /\ derivable_pt_lim f' x d.
(** The point where interpolation on [mn,mx] really evaluates: a point closer to an end than
    1e-12 times half the length is taken as that end. *)
Definition clip (mn mx pt : R) : R :=
  if Rlt_dec (Rabs (pt - mn)) (/1000000000000 * ((mx - mn) / 2)) then mn
  else if Rlt_dec (Rabs (pt - mx)) (/1000000000000 * ((mx - mn) / 2)) then mx else pt.
