(** TensorSpec.v - the tensor calculus the theorems about the generated physics
    code are stated with.  Indices run over 0,1,2.  A C field family T_D0D0, T_D0D1,
    T_D0D2, T_D1D1, .. stores a symmetric tensor by its ordered components only;
    [sy T] reads component (i,j) of that tensor, [syl G] component (k,i,j) of a family
    G_UkDiDj symmetric in its lower pair, [syd dT] component (i,j,k) of T_DiDj's k-th
    derivative and [syld] that of G's derivatives. *)
From Verif Require Import RealBase.

Definition sum3 (f : nat -> R) : R := f 0%nat + f 1%nat + f 2%nat.
Definition delta (i j : nat) : R := if Nat.eqb i j then 1 else 0.
Definition sy (T : nat -> nat -> R) (i j : nat) : R := if Nat.leb i j then T i j else T j i.
Definition syl (T : nat -> nat -> nat -> R) (k i j : nat) : R := if Nat.leb i j then T k i j else T k j i.
Definition syd (T : nat -> nat -> nat -> R) (i j k : nat) : R := if Nat.leb i j then T i j k else T j i k.
Definition syld (T : nat -> nat -> nat -> nat -> R) (k i j l : nat) : R :=
  if Nat.leb i j then T k i j l else T k j i l.

(** [ig] is the inverse of the symmetric matrix [g] *)
Definition inverse3 (g ig : nat -> nat -> R) : Prop :=
  forall i j, (i < 3)%nat -> (j < 3)%nat -> sum3 (fun m => g i m * ig m j) = delta i j.

(** Levi-Civita connection of a metric with inverse [ig] and derivatives
    [dg a b c] = d_c g_ab *)
Definition Christoffel (ig : nat -> nat -> R) (dg : nat -> nat -> nat -> R) (k i j : nat) : R :=
  / 2 * sum3 (fun m => ig k m * (dg m i j + dg m j i - dg i j m)).

(** Ricci tensor of a connection [G] with derivatives [dG k i j l] = d_l G^k_ij:
    R_ab = d_c G^c_ab - d_b G^c_ac + G^c_cd G^d_ab - G^c_bd G^d_ac *)
Definition RicciOf (G : nat -> nat -> nat -> R) (dG : nat -> nat -> nat -> nat -> R) (a b : nat) : R :=
  sum3 (fun c => dG c a b c) - sum3 (fun c => dG c a c b)
  + sum3 (fun c => sum3 (fun d => G c c d * G d a b))
  - sum3 (fun c => sum3 (fun d => G c b d * G d a c)).

(** Full contraction with the inverse metric *)
Definition trace3 (ig T : nat -> nat -> R) : R := sum3 (fun a => sum3 (fun b => ig a b * T a b)).

(** Covariant Laplacian of a scalar with gradient [d] and second derivatives [dd] *)
Definition Lap (ig : nat -> nat -> R) (G : nat -> nat -> nat -> R) (d : nat -> R) (dd : nat -> nat -> R) : R :=
  sum3 (fun i => sum3 (fun j => ig i j * (dd i j - sum3 (fun k => G k i j * d k)))).

(** Case analysis on tensor indices *)
Lemma lt3 i : (i < 3)%nat -> i = 0%nat \/ i = 1%nat \/ i = 2%nat.
Proof. lia. Qed.
Ltac idx i := match goal with H : (i < 3)%nat |- _ =>
  destruct (lt3 i H) as [->|[->| ->]]; clear H end.
Ltac tensors := cbv [sum3 delta sy syl syd syld Nat.eqb Nat.leb].
