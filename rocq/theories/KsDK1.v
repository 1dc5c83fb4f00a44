(** KsDK1.v - the derivative functions of K1. *)
From Coq Require Import Reals Lra Lia ZArith.
From Coquelicot Require Import Coquelicot.
Require Import Verif.GenKsX Verif.GenKsR Verif.GenKsH Verif.KsCalc Verif.KsMove.
Local Open Scope R_scope.

Section S.
Variables (P : kspar) (g : R -> ksarg) (t : R).
Hypothesis Q : (pa P) ^ 2 + fR (g t) ^ 2 <> 0.

Ltac rd :=
  hd;
  lazymatch goal with |- is_derive (fun s => ?a _ (_ s)) _ _ =>
    unfold a; unf0; eapply D_cast; [ dv; nzq | ] end.
Ltac re := 
    lazymatch goal with |- _ = ?b _ _ => unfold b end;
    unf0; clear - Q; revert Q; dvz;
    genR P g t; gen_arg P g t; intros; field; nzq.
Lemma D_K1 i : (i < 3)%nat -> movesR P g i t -> is_derive (fun s => ks_K1 P (g s)) t (kst_dK1 P (g t) i).
Proof. intros Hi H. destruct i as [|[|[|i]]]; [| | |lia]; cbn [kst_dK1]; rd; re. Qed.
Lemma D_dK1 i k : (i < 3)%nat -> (k < 3)%nat -> movesR P g k t ->
  is_derive (fun s => kst_dK1 P (g s) i) t (kst_ddK1 P (g t) (Nat.min i k) (Nat.max i k)).
Proof.
  intros Hi Hk H. destruct i as [|[|[|i]]]; [| | |lia]; destruct k as [|[|[|k]]]; [| | |lia| | | |lia| | | |lia];
    cbn [Nat.min Nat.max kst_dK1 kst_ddK1]; rd; re.
Qed.
Lemma D_ddK1 i j k : (i <= j)%nat -> (j < 3)%nat -> (k < 3)%nat -> movesR P g k t ->
  is_derive (fun s => kst_ddK1 P (g s) i j) t (kst_dddK1 P (g t) i j k).
Proof.
  intros Hi Hj Hk H. destruct i as [|[|[|i]]]; [| | |lia]; destruct j as [|[|[|j]]]; try lia;
    destruct k as [|[|[|k]]]; try lia; cbn [kst_ddK1 kst_dddK1]; rd; re.
Qed.
Lemma sym_dddK1 i j k : (i <= j)%nat -> (j < 3)%nat -> (k < 3)%nat ->
  kst_dddK1 P (g t) i j k = t3 (kst_dddK1 P (g t)) i j k.
Proof.
  intros Hi Hj Hk.
  destruct i as [|[|[|i]]]; [| | |lia]; destruct j as [|[|[|j]]]; try lia;
    destruct k as [|[|[|k]]]; try lia; cbt; cbn [kst_dddK1]; try reflexivity;
  lazymatch goal with |- ?a _ _ = ?b _ _ => unfold a; re end.
Qed.
End S.
