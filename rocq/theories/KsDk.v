(** KsDk.v - the derivative functions of c, k0, k1, k2, kt. *)
From Coq Require Import Reals Lra Lia ZArith.
From Coquelicot Require Import Coquelicot.
Require Import Verif.GenKsX Verif.GenKsR Verif.GenKsH Verif.GenKsK Verif.KsCalc Verif.KsMoveK.
Local Open Scope R_scope.

Section S.
Variables (P : kspar) (g : R -> ksarg) (t : R) (k : nat) (e : nat -> nat -> nat -> R).
Hypothesis Hk : (k < 3)%nat.
Hypothesis SH : smooth3 g k t (ks_H P) (kst_dH P) (kst_ddH P) (kst_dddH P) e.
Hypothesis S0 : smooth3 g k t (ks_K0 P) (kst_dK0 P) (kst_ddK0 P) (kst_dddK0 P) z3.
Hypothesis S1 : smooth3 g k t (ks_K1 P) (kst_dK1 P) (kst_ddK1 P) (kst_dddK1 P) z3.
Hypothesis S2 : smooth3 g k t (ks_K2 P) (kst_dK2 P) (kst_ddK2 P) (kst_dddK2 P) z3.

Ltac fin :=
  lazymatch goal with |- is_derive (fun s => ?a _ (_ s)) _ _ =>
    unfold a; eapply D_cast; [dv | lazymatch goal with |- _ = ?b _ _ + _ => unfold b | |- _ = ?b _ _ => unfold b end ];
    unfold z3; unfold Rdiv; ring end.
Ltac cases3 :=
  constructor; [ | intros i Hi; destruct i as [|[|[|i]]]; [| | |exfalso; lia]
    | intros i j Hi Hj; destruct i as [|[|[|i]]]; [| | |exfalso; lia]; destruct j as [|[|[|j]]]; try (exfalso; lia) ];
  destruct k as [|[|[|k']]]; try (exfalso; lia); cbt.
Lemma S_c : smooth3 g k t (ks_c P) (kst_dc P) (kst_ddc P) (kst_dddc P) (fun i j l => 2 * e i j l).
Proof.
  pose proof SH as A. clear S0 S1 S2 SH.
  cases3; un3 A; cbn [kst_dc kst_ddc kst_dddc]; fin.
Qed.
Lemma S_k0 : smooth3 g k t (ks_k0 P) (kst_dk0 P) (kst_ddk0 P) (kst_dddk0 P) z3.
Proof.
  pose proof S0 as A; pose proof S1 as B; pose proof S2 as C. clear S0 S1 S2 SH e.
  cases3; un3 A; un3 B; un3 C; cbn [kst_dk0 kst_ddk0 kst_dddk0]; fin.
Qed.
Lemma S_k1 : smooth3 g k t (ks_k1 P) (kst_dk1 P) (kst_ddk1 P) (kst_dddk1 P) z3.
Proof.
  pose proof S0 as A; pose proof S1 as B; pose proof S2 as C. clear S0 S1 S2 SH e.
  cases3; un3 A; un3 B; un3 C; cbn [kst_dk1 kst_ddk1 kst_dddk1]; fin.
Qed.
Lemma S_k2 : smooth3 g k t (ks_k2 P) (kst_dk2 P) (kst_ddk2 P) (kst_dddk2 P) z3.
Proof.
  pose proof S0 as A; pose proof S1 as B; pose proof S2 as C. clear S0 S1 S2 SH e.
  cases3; un3 A; un3 B; un3 C; cbn [kst_dk2 kst_ddk2 kst_dddk2]; fin.
Qed.
Lemma S_kt : smooth3 g k t (ks_kt P) (kst_dkt P) (kst_ddkt P) (kst_dddkt P) z3.
Proof.
  pose proof S0 as A; pose proof S1 as B; pose proof S2 as C. clear S0 S1 S2 SH e.
  cases3; un3 A; un3 B; un3 C; cbn [kst_dkt kst_ddkt kst_dddkt]; fin.
Qed.
End S.
