(** PhiSpec.v - the continuity equation the velocity potential phi solves. *)
From Verif Require Import RealBase TensorSpec XctsSpec AdmSpec.

(** fields are functions of the Cartesian point; [partial f x a d]: the derivative of f along axis a at x is d *)
Definition point := nat -> R.
Definition along (x : point) (a : nat) (t : R) : point := fun i => x i + t * delta i a.
Definition partial (f : point -> R) (x : point) (a : nat) (d : R) : Prop := derivable_pt_lim (fun t => f (along x a t)) 0 d.

(** fluid and metric fields of a star *)
Record star := mkstar {
  s_psi : point -> R; s_ap : point -> R; s_rho : point -> R; s_h : point -> R; s_u0 : point -> R;
  s_dphi : nat -> point -> R; s_W : nat -> point -> R; s_beta : nat -> point -> R; s_ig : nat -> nat -> point -> R }.

(** alpha rho0 u^i with u^i = (D^i phi + W^i)/h - u^0 beta^i, D^i phi = psi^-4 g^ij d_j phi, alpha = alpha psi/psi *)
Definition mass_flux (s : star) (i : nat) (y : point) : R :=
  let alpha := s_ap s y / s_psi s y in
  s_rho s y * alpha * ((sum3 (fun j => s_ig s i j y * s_dphi s j y) / s_psi s y ^ 4 + s_W s i y) / s_h s y - s_u0 s y * s_beta s i y).

(** divergence of a vector with values V and derivatives d_i V^i = dV i for a connection G *)
Definition diverg (G : nat -> nat -> nat -> R) (V dV : nat -> R) : R :=
  sum3 dV + sum3 (fun i => sum3 (fun j => G i i j * V j)).
