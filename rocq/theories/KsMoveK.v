(** KsMoveK.v - what is needed of a family F, dF, ddF, dddF when the point moves in direction k. *)
From Coq Require Import Reals Lra Lia ZArith.
From Coquelicot Require Import Coquelicot.
Require Import Verif.GenKsX Verif.GenKsR Verif.GenKsH Verif.GenKsK Verif.KsCalc.
Local Open Scope R_scope.

(** along the curve: dF is the derivative of F, ddF of dF, and dddF + e of ddF *)
Record smooth3 (g : R -> ksarg) (k : nat) (t : R) (F : ksarg -> R) (dF : ksarg -> nat -> R)
  (ddF : ksarg -> nat -> nat -> R) (dddF : ksarg -> nat -> nat -> nat -> R) (e : nat -> nat -> nat -> R) : Prop := {
  s3_0 : is_derive (fun s => F (g s)) t (dF (g t) k);
  s3_d : forall i, (i < 3)%nat -> is_derive (fun s => dF (g s) i) t (ddF (g t) (Nat.min i k) (Nat.max i k));
  s3_dd : forall i j, (i <= j)%nat -> (j < 3)%nat ->
     is_derive (fun s => ddF (g s) i j) t (t3 (dddF (g t)) i j k + e i j k) }.
Definition z3 (i j k : nat) : R := 0.
(** unpacks the hypothesis H : smooth3 ... into the derivatives of the ten named functions *)
Ltac un3 H :=
  let A := fresh in let B := fresh in let C := fresh in
  destruct H as [A B C];
  let go T := (let X := fresh "L" in pose proof T as X; cbn [Nat.min Nat.max t3 Nat.ltb Nat.leb kst_dH kst_ddH kst_dddH kst_dK0 kst_ddK0 kst_dddK0 kst_dK1 kst_ddK1 kst_dddK1 kst_dK2 kst_ddK2 kst_dddK2 kst_dc kst_ddc kst_dddc kst_dk0 kst_ddk0 kst_dddk0 kst_dk1 kst_ddk1 kst_dddk1 kst_dk2 kst_ddk2 kst_dddk2 kst_dkt kst_ddkt kst_dddkt] in X; unfold z3 in X) in
  go A; go (B 0%nat ltac:(lia)); go (B 1%nat ltac:(lia)); go (B 2%nat ltac:(lia));
  go (C 0%nat 0%nat ltac:(lia) ltac:(lia)); go (C 0%nat 1%nat ltac:(lia) ltac:(lia));
  go (C 0%nat 2%nat ltac:(lia) ltac:(lia)); go (C 1%nat 1%nat ltac:(lia) ltac:(lia));
  go (C 1%nat 2%nat ltac:(lia) ltac:(lia)); go (C 2%nat 2%nat ltac:(lia) ltac:(lia)); clear A B C.
