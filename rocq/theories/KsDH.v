(** KsDH.v - the derivative functions of H. *)
From Coq Require Import Reals Lra Lia ZArith.
From Coquelicot Require Import Coquelicot.
Require Import Verif.GenKsX Verif.GenKsR Verif.GenKsH Verif.KsCalc Verif.KsMove.
Local Open Scope R_scope.

Definition ksq (P : kspar) (f : ksarg) : R := (pa P) ^ 2 * fZ f ^ 2 + fR f ^ 4.
Section S.
Variables (P : kspar) (g : R -> ksarg) (t : R).
Hypothesis Q0 : ksq P (g t) <> 0.

Ltac rd :=
  hd; pose proof Q0 as Q; unfold ksq in Q;
  lazymatch goal with |- is_derive (fun s => ?a _ (_ s)) _ _ =>
    unfold a; unf0; eapply D_cast; [ dv; nzq | ] end.
Ltac re := 
    lazymatch goal with |- _ = ?b _ _ + _ => unfold b | |- _ = ?b _ _ => unfold b end;
    unf0;
    match goal with Q : pa P ^ 2 * fZ (g t) ^ 2 + fR (g t) ^ 4 <> 0 |- _ => clear - Q; revert Q end; dvz;
    genR P g t; gen_arg P g t; intros; field; nzq.
Lemma D_H i : (i < 3)%nat -> movesR P g i t -> is_derive (fun s => ks_H P (g s)) t (kst_dH P (g t) i).
Proof. intros Hi H. destruct i as [|[|[|i]]]; [| | |lia]; cbn [kst_dH]; rd; re. Qed.
Lemma D_dH i k : (i < 3)%nat -> (k < 3)%nat -> movesR P g k t ->
  is_derive (fun s => kst_dH P (g s) i) t (kst_ddH P (g t) (Nat.min i k) (Nat.max i k)).
Proof.
  intros Hi Hk H. destruct i as [|[|[|i]]]; [| | |lia]; destruct k as [|[|[|k]]]; [| | |lia| | | |lia| | | |lia];
    cbn [Nat.min Nat.max kst_dH kst_ddH]; rd; re.
Qed.
(** third derivatives: correct whenever two indices agree; for three different indices the
    code's value is off by this term *)
Definition ksbug (P : kspar) (f : ksarg) (i j k : nat) : R :=
  if ((i =? j) || (j =? k) || (i =? k))%nat%bool then 0 else
  119 * pL P * pM P * pa P ^ 4 * fR f ^ 5 * fZ f ^ 3 *
    (ks_dR_D0 P f * ks_dR_D1 P f * fdZ2 f + ks_dR_D0 P f * ks_dR_D2 P f * fdZ1 f
     + ks_dR_D1 P f * ks_dR_D2 P f * fdZ0 f) / ksq P f ^ 4.
Lemma D_ddH i j k : (i <= j)%nat -> (j < 3)%nat -> (k < 3)%nat -> movesR P g k t ->
  is_derive (fun s => kst_ddH P (g s) i j) t (kst_dddH P (g t) i j k + ksbug P (g t) i j k).
Proof.
  intros Hi Hj Hk H. unfold ksbug, ksq. destruct i as [|[|[|i]]]; [| | |lia]; destruct j as [|[|[|j]]]; try lia;
    destruct k as [|[|[|k]]]; try lia; cbn [kst_ddH kst_dddH Nat.eqb orb]; rd; re.
Qed.
Lemma sym_dddH i j k : (i <= j)%nat -> (j < 3)%nat -> (k < 3)%nat ->
  kst_dddH P (g t) i j k = t3 (kst_dddH P (g t)) i j k.
Proof.
  intros Hi Hj Hk. pose proof Q0 as Q; unfold ksq in Q.
  destruct i as [|[|[|i]]]; [| | |lia]; destruct j as [|[|[|j]]]; try lia;
    destruct k as [|[|[|k]]]; try lia; cbt; cbn [kst_dddH]; try reflexivity;
  lazymatch goal with |- ?a _ _ = ?b _ _ => unfold a; re end.
Qed.
End S.
