(** ObsSpec.v - the vocabulary of the theorems about global quantities (momenta, masses, spins):
    currents, fluxes and divergences in a 3-metric. *)
From Verif Require Import RealBase TensorSpec XctsSpec ShiftSpec AdmSpec AdmFinal.

(** scalar product of two vectors; flux of V through a surface element with unit normal n *)
Definition dot (gam : nat -> nat -> R) (V W : nat -> R) : R := sum3 (fun i => sum3 (fun j => gam i j * V i * W j)).
(** divergence of a vector: d_i V^i + G^i_ij V^j, [dV i k] = d_k V^i *)
Definition DivV (G : nat -> nat -> nat -> R) (V : nat -> R) (dV : nat -> nat -> R) : R :=
  sum3 (fun i => dV i i) + sum3 (fun i => sum3 (fun j => G i i j * V j)).
(** D_i phi^j *)
Definition Dvec (G : nat -> nat -> nat -> R) (phi : nat -> R) (dphi : nat -> nat -> R) (i j : nat) : R :=
  dphi j i + sum3 (fun k => G j i k * phi k).
(** the ADM momentum tensor pi^i_j = K^i_j - delta^i_j K and its derivative *)
Definition piud (gam Ku : nat -> nat -> R) (K : R) (i j : nat) : R := sum3 (fun l => Ku i l * gam l j) - delta i j * K.
Definition dpiud (gam : nat -> nat -> R) (dgam : nat -> nat -> nat -> R) (Ku : nat -> nat -> R) (dKu : nat -> nat -> nat -> R) (dK : nat -> R) (i j k : nat) : R :=
  sum3 (fun l => dKu i l k * gam l j + Ku i l * dgam l j k) - delta i j * dK k.
(** the current pi^i_j phi^j of a vector field phi and its derivative (product rule) *)
Definition cur gam Ku K (phi : nat -> R) (i : nat) : R := sum3 (fun j => piud gam Ku K i j * phi j).
Definition dcur gam dgam Ku dKu K dK (phi : nat -> R) (dphi : nat -> nat -> R) (i k : nat) : R :=
  sum3 (fun j => dpiud gam dgam Ku dKu dK i j k * phi j + piud gam Ku K i j * dphi j k).
(** translations and rotations: e_d and (e_d x r)^k *)
Definition eps (i j k : nat) : R :=
  match i, j, k with
  | 0, 1, 2 | 1, 2, 0 | 2, 0, 1 => 1%R
  | 0, 2, 1 | 2, 1, 0 | 1, 0, 2 => (- (1))%R
  | _, _, _ => 0%R
  end%nat.
Definition trans (d k : nat) : R := delta d k.
Definition dtrans (d k l : nat) : R := 0.
Definition rot (r : nat -> R) (d k : nat) : R := sum3 (fun l => eps d l k * r l).
Definition drot (d k l : nat) : R := eps d l k.
(** cross product *)
Definition cross (a b : nat -> R) (i : nat) : R := sum3 (fun j => sum3 (fun k => eps i j k * a j * b k)).

(** the physical geometry of conformal data *)
Section Phys.
  Variable c : conf.
  Definition gam (i j : nat) : R := Pg (sy (cg c)) (cpsi c) i j.
  Definition igam (i j : nat) : R := Pig (sy (cig c)) (cpsi c) i j.
  Definition dgam (i j k : nat) : R := dPg (sy (cg c)) (syd (cdg c)) (cpsi c) (cdpsi c) i j k.
  Definition Gam (k i j : nat) : R := PG (sy (cg c)) (sy (cig c)) (syl (cG c)) (cpsi c) (cdpsi c) k i j.
  Definition Ku (i j : nat) : R := Kup (sy (cig c)) (cpsi c) (sy (cA c)) (cK c) i j.
  Definition dKu (i j k : nat) : R := dKup (sy (cig c)) (syd (cdig c)) (cpsi c) (cdpsi c) (sy (cA c)) (syd (cdA c)) (cK c) (cdK c) i j k.
  Definition Kd (i j : nat) : R := Kdn (sy (cg c)) (cpsi c) (sy (cA c)) (cK c) i j.
  (** K_ij - K gamma_ij *)
  Definition momd (i j : nat) : R := Kd i j - cK c * gam i j.
  (** residual of the momentum constraint D_j K^ij - D^i K = 8 pi j^i without matter *)
  Definition mom_vac (i : nat) : R := MomConstraint 1 igam Gam Ku dKu (cdK c) (fun _ => 0) i.
End Phys.
