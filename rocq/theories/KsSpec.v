(** KsSpec.v - the boosted, rotated Kerr black hole in Kerr-Schild form, written from the
    physics and not from the code.  Units G = c = 1; signature - + + +. *)
From Coq Require Import Reals.
Local Open Scope R_scope.

(** a spatial vector: components 0, 1, 2 *)
Definition vec := nat -> R.
Definition v3 (a b c : R) : vec := fun i => match i with O => a | 1%nat => b | _ => c end.
Definition dot (u v : vec) : R := u 0%nat * v 0%nat + u 1%nat * v 1%nat + u 2%nat * v 2%nat.
Definition kron (i j : nat) : R := if Nat.eqb i j then 1 else 0.

(** rotation by an angle about the y and about the z axis *)
Definition roty (th : R) (v : vec) : vec :=
  v3 (cos th * v 0%nat + sin th * v 2%nat) (v 1%nat) (- sin th * v 0%nat + cos th * v 2%nat).
Definition rotz (ph : R) (v : vec) : vec :=
  v3 (cos ph * v 0%nat - sin ph * v 1%nat) (sin ph * v 0%nat + cos ph * v 1%nat) (v 2%nat).

(** Lorentz factor; rest-frame position of the event (0, x) of the frame in which the hole
    moves with velocity v: only the component along v changes *)
Definition lorentz (v : vec) : R := 1 / sqrt (1 - dot v v).
Definition rest_position (v x : vec) : vec :=
  fun i => x i + (lorentz v - 1) * (dot x v / dot v v) * v i.
(** a covector (1, K) of the rest frame seen in that frame: time and space components *)
Definition lab_time (v K : vec) : R := lorentz v * (1 - dot K v).
Definition lab_space (v K : vec) : vec :=
  fun i => K i + (lorentz v - 1) * (dot K v / dot v v) * v i - lorentz v * v i.

(** Kerr-Schild radius of the rest-frame point X, mass function and null covector (1, l) *)
Definition kerr_radius (a : R) (X : vec) (r : R) : Prop :=
  0 < r /\ (X 0%nat ^ 2 + X 1%nat ^ 2) / (r ^ 2 + a ^ 2) + X 2%nat ^ 2 / r ^ 2 = 1.
Definition kerr_H (M a : R) (X : vec) (r : R) : R := M * r ^ 3 / (r ^ 4 + a ^ 2 * X 2%nat ^ 2).
Definition kerr_l (a : R) (X : vec) (r : R) : vec :=
  v3 ((r * X 0%nat + a * X 1%nat) / (r ^ 2 + a ^ 2)) ((r * X 1%nat - a * X 0%nat) / (r ^ 2 + a ^ 2)) (X 2%nat / r).
(** the disk spanned by the ring singularity; off it the radius exists *)
Definition on_disk (a : R) (X : vec) : Prop := X 2%nat = 0 /\ X 0%nat ^ 2 + X 1%nat ^ 2 <= a ^ 2.

(** the event horizon of a Kerr hole is at r = M + sqrt(M^2 - a^2), the outer root of Delta *)
Definition kerr_Delta (M a r : R) : R := r ^ 2 - 2 * M * r + a ^ 2.

(** moving coordinate k of a point to the value t *)
Definition moved (p : vec) (k : nat) (t : R) : vec := fun i => if Nat.eqb i k then t else p i.

(** the black hole of mass M, spin parameter a with its spin axis turned by th about y and then by ph
    about z, moving with velocity v through the origin at time 0 *)
Definition hole_position (th ph : R) (v x : vec) : vec := roty (- th) (rotz (- ph) (rest_position v x)).
Definition hole_covector (a th ph : R) (v X : vec) (r : R) (mu : nat) : R :=
  let K := rotz ph (roty th (kerr_l a X r)) in
  match mu with O => lab_time v K | S i => lab_space v K i end.
Definition eta (mu nu : nat) : R := if Nat.eqb mu nu then (if Nat.eqb mu 0 then -1 else 1) else 0.
(** the four-metric at position x (time 0), where r is the Kerr radius of that point *)
Definition hole_metric (M a th ph : R) (v x : vec) (r : R) (mu nu : nat) : R :=
  let X := hole_position th ph v x in
  eta mu nu + 2 * kerr_H M a X r * hole_covector a th ph v X r mu * hole_covector a th ph v X r nu.
