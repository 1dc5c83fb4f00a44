(** ShiftSpec.v - covariant calculus of a vector field V^i with derivatives dV i a = d_a V^i and
    ddV i a b = d_b d_a V^i, for a connection G with derivatives dG k i j l = d_l G^k_ij. *)
From Verif Require Import RealBase TensorSpec.

Section Vec.
  Variables (ig : nat -> nat -> R) (dig : nat -> nat -> nat -> R).
  Variables (G : nat -> nat -> nat -> R) (dG : nat -> nat -> nat -> nat -> R).
  Variables (V : nat -> R) (dV : nat -> nat -> R) (ddV : nat -> nat -> nat -> R).
  (** D_m V^i *)
  Definition DV (m i : nat) : R := dV i m + sum3 (fun l => G i m l * V l).
  (** d_j (D_m V^i), product rule *)
  Definition dDV (j m i : nat) : R := ddV i m j + sum3 (fun l => dG i m l j * V l + G i m l * dV l j).
  (** D_j D_m V^i *)
  Definition DDV (j m i : nat) : R :=
    dDV j m i + sum3 (fun n => G i j n * DV m n) - sum3 (fun n => G n j m * DV n i).
  (** D_m V^m *)
  Definition divV : R := sum3 (fun m => DV m m).
  (** conformal Killing form (LV)^ij = D^i V^j + D^j V^i - 2/3 g^ij D_l V^l *)
  Definition LV (i j : nat) : R :=
    sum3 (fun l => ig i l * DV l j) + sum3 (fun l => ig j l * DV l i) - 2 / 3 * ig i j * divV.
  (** its partial derivatives, product rule *)
  Definition dLV (i j k : nat) : R :=
    sum3 (fun l => dig i l k * DV l j + ig i l * dDV k l j) + sum3 (fun l => dig j l k * DV l i + ig j l * dDV k l i)
    - 2 / 3 * (dig i j k * divV + ig i j * sum3 (fun m => dDV k m m)).
  (** the conformal vector Laplacian D_j (LV)^ij with the Ricci tensor commuted out:
      D^j D_j V^i + 1/3 D^i D_j V^j + R^i_l V^l *)
  Definition VecLap (Ric : nat -> nat -> R) (i : nat) : R :=
    sum3 (fun j => sum3 (fun m => ig j m * DDV j m i)) + / 3 * sum3 (fun m => ig i m * sum3 (fun j => DDV m j j))
    + sum3 (fun m => sum3 (fun l => ig i m * Ric m l * V l)).
End Vec.

(** the connection annihilates the inverse metric: d_k g^ij = - G^i_kl g^lj - G^j_kl g^il *)
Definition compat_inv (ig : nat -> nat -> R) (dig : nat -> nat -> nat -> R) (G : nat -> nat -> nat -> R) : Prop :=
  forall i j k, (i < 3)%nat -> (j < 3)%nat -> (k < 3)%nat ->
  dig i j k = - sum3 (fun l => G i k l * ig l j) - sum3 (fun l => G j k l * ig i l).

(** d_j ln(alpha psi / psi^7) *)
Definition dln (psi ap : R) (dpsi dap : nat -> R) (j : nat) : R := dap j / ap - 7 * dpsi j / psi.

(** shift operator: D_j(LV)^ij - (LV)^ij d_j ln(alpha psi/psi^7) *)
Definition shift_op ig G dG Ric (dl : nat -> R) V dV ddV (i : nat) : R :=
  VecLap ig G dG V dV ddV Ric i - sum3 (fun j => LV ig G V dV i j * dl j).
