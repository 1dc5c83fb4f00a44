(** KsDR.v - every derivative function of R is the derivative of the function one order lower. *)
From Coq Require Import Reals Lra Lia ZArith.
From Coquelicot Require Import Coquelicot.
Require Import Verif.GenKsX Verif.GenKsR Verif.KsCalc.
Local Open Scope R_scope.

(** the two radicands of R, as the code writes them *)
Definition cw1 (P : kspar) (f : ksarg) : R :=
  ((4 * ((pa P) ^ 2)) * ((fZ f) ^ 2)) + ((((- ((pa P) ^ 2)) + ((fX f) ^ 2)) + ((fY f) ^ 2)) + ((fZ f) ^ 2)) ^ 2.
Definition cw2 (P : kspar) (f : ksarg) : R :=
  (((- ((pa P) ^ 2)) + ((fX f) ^ 2)) + ((fY f) ^ 2)) + ((fZ f) ^ 2) + sqrt (cw1 P f).

Section S.
Variables (P : kspar) (g : R -> ksarg) (t : R).
Hypothesis W1 : 0 < cw1 P (g t).
Hypothesis W2 : 0 < cw2 P (g t).
Let S1 : sqrt (cw1 P (g t)) <> 0. Proof. apply Rgt_not_eq; apply sqrt_lt_R0; assumption. Qed.
Let S2 : sqrt (cw2 P (g t)) <> 0. Proof. apply Rgt_not_eq; apply sqrt_lt_R0; assumption. Qed.

Ltac rd :=
  match goal with H : moves g _ t |- _ =>
    destruct H as [HX HY HZ H0 H1 H2 H3 H4 H5 H6 H7 H8]; cbn [dirX dirY dirZ] in HX, HY, HZ end;
  pose proof S1 as E1; pose proof S2 as E2; pose proof W1 as E3; pose proof W2 as E4;
  unfold cw2, cw1 in E1, E2, E3, E4;
  lazymatch goal with |- is_derive (fun s => ?a _ (_ s)) _ (?b _ _) =>
    unfold a; unf0; eapply D_cast; [ dv; side | unfold b; unf0; clear - E1 E2; revert E1 E2; dvz;
    gen_sqrt; gen_arg P g t; intros; field; auto ] end.
Lemma D_R i : (i < 3)%nat -> moves g i t -> is_derive (fun s => ks_R P (g s)) t (kst_dR P (g t) i).
Proof. intros Hi H. destruct i as [|[|[|i]]]; [| | |lia]; cbn [kst_dR]; rd. Qed.
Lemma D_dR i k : (i < 3)%nat -> (k < 3)%nat -> moves g k t ->
  is_derive (fun s => kst_dR P (g s) i) t (kst_ddR P (g t) (Nat.min i k) (Nat.max i k)).
Proof.
  intros Hi Hk H. destruct i as [|[|[|i]]]; [| | |lia]; destruct k as [|[|[|k]]]; [| | |lia| | | |lia| | | |lia];
    cbn [Nat.min Nat.max kst_dR kst_ddR]; rd.
Qed.
Lemma D_ddR i j k : (i <= j)%nat -> (j < 3)%nat -> (k < 3)%nat -> moves g k t ->
  is_derive (fun s => kst_ddR P (g s) i j) t (kst_dddR P (g t) i j k).
Proof.
  intros Hi Hj Hk H. destruct i as [|[|[|i]]]; [| | |lia]; destruct j as [|[|[|j]]]; try lia;
    destruct k as [|[|[|k]]]; try lia; cbn [kst_ddR kst_dddR]; rd.
Qed.

(** the order of differentiation does not matter *)
Lemma sym_dddR i j k : (i <= j)%nat -> (j < 3)%nat -> (k < 3)%nat ->
  kst_dddR P (g t) i j k = t3 (kst_dddR P (g t)) i j k.
Proof.
  intros Hi Hj Hk.
  pose proof S1 as E1; pose proof S2 as E2; unfold cw2, cw1 in E1, E2.
  destruct i as [|[|[|i]]]; [| | |lia]; destruct j as [|[|[|j]]]; try lia;
    destruct k as [|[|[|k]]]; try lia; cbt; cbn [kst_dddR]; try reflexivity;
  lazymatch goal with |- ?a _ _ = ?b _ _ => unfold a, b; unf0; clear - E1 E2; revert E1 E2;
    gen_sqrt; gen_arg P g t; intros; field; auto end.
Qed.
End S.
