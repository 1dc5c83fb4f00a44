(** LinAlg3Spec.v - what the 3x3 and transformation theorems are stated with. *)
From Verif Require Import RealBase LinAlg3Model.

(** Ordinary matrix product and identity, written with the entries as a table. *)
Definition entry (m : mat3) (i j : nat) : R :=
  match i, j with
  | 0%nat, 0%nat => a00 m | 0%nat, 1%nat => a01 m | 0%nat, _ => a02 m
  | 1%nat, 0%nat => a10 m | 1%nat, 1%nat => a11 m | 1%nat, _ => a12 m
  | _, 0%nat => a20 m | _, 1%nat => a21 m | _, _ => a22 m end.
Definition delta (i j : nat) : R := if Nat.eqb i j then 1 else 0.
(** B is the two-sided inverse of A. *)
Definition inverse_of (B A : mat3) : Prop :=
  forall i j, (i < 3)%nat -> (j < 3)%nat ->
    Rsum 3 (fun k => entry A i k * entry B k j) = delta i j /\
    Rsum 3 (fun k => entry B i k * entry A k j) = delta i j.
Definition invertible (A : mat3) : Prop := exists B, inverse_of B A.

(** The full matrix a symmetric record stands for, and its quadratic form. *)
Definition full (s : sym3) : mat3 := M3 (s00 s) (s01 s) (s02 s) (s01 s) (s11 s) (s12 s) (s02 s) (s12 s) (s22 s).
Definition quad (s : sym3) (x : nat -> R) : R :=
  Rsum 3 (fun i => Rsum 3 (fun j => x i * entry (full s) i j * x j)).
Definition positive_definite (s : sym3) : Prop :=
  forall x : nat -> R, (exists i, (i < 3)%nat /\ x i <> 0) -> 0 < quad s x.

(** Minkowski interval with c = 1. *)
Definition interval (v : vec4) : R := - (u0 v)^2 + (u1 v)^2 + (u2 v)^2 + (u3 v)^2.
(** Euclidean scalar product and oriented volume of the space parts. *)
Definition dot3 (v w : vec4) : R := u1 v * u1 w + u2 v * u2 w + u3 v * u3 w.
Definition triple (a b c : vec4) : R :=
  u1 a * (u2 b * u3 c - u3 b * u2 c) + u2 a * (u3 b * u1 c - u1 b * u3 c) + u3 a * (u1 b * u2 c - u2 b * u1 c).
