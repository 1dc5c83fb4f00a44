(** KsDG.v - the derivative functions of the metric gamma. *)
From Coq Require Import Reals Lra Lia ZArith.
From Coquelicot Require Import Coquelicot.
Require Import Verif.GenKsX Verif.GenKsR Verif.GenKsH Verif.GenKsK Verif.GenKsG Verif.KsCalc Verif.KsMoveK.
Local Open Scope R_scope.
(** the component i of the null vector *)
Definition kvec (P : kspar) (f : ksarg) (i : nat) : R :=
  match i with O => ks_k0 P f | 1%nat => ks_k1 P f | _ => ks_k2 P f end.
Section S.
Variables (P : kspar) (g : R -> ksarg) (t : R) (k : nat) (e : nat -> nat -> nat -> R).
Hypothesis Hk : (k < 3)%nat.
Hypothesis Sc : smooth3 g k t (ks_c P) (kst_dc P) (kst_ddc P) (kst_dddc P) e.
Hypothesis S0 : smooth3 g k t (ks_k0 P) (kst_dk0 P) (kst_ddk0 P) (kst_dddk0 P) z3.
Hypothesis S1 : smooth3 g k t (ks_k1 P) (kst_dk1 P) (kst_ddk1 P) (kst_dddk1 P) z3.
Hypothesis S2 : smooth3 g k t (ks_k2 P) (kst_dk2 P) (kst_ddk2 P) (kst_dddk2 P) z3.

Ltac fin :=
  lazymatch goal with |- is_derive (fun s => ?a _ (_ s)) _ _ =>
    unfold a; eapply D_cast; [dv | lazymatch goal with |- _ = ?b _ _ + _ => unfold b | |- _ = ?b _ _ => unfold b end ];
    dvz; ring end.
Ltac unp := pose proof Sc as A; pose proof S0 as A0; pose proof S1 as A1; pose proof S2 as A2; clear S0 S1 S2 Sc;
  destruct k as [|[|[|k']]]; try (exfalso; lia); un3 A; un3 A0; un3 A1; un3 A2; clear Hk.
Ltac c3 i := destruct i as [|[|[|i]]]; try (exfalso; lia).
Lemma D_gamma i j : (i <= j)%nat -> (j < 3)%nat ->
  is_derive (fun s => kst_gamma P (g s) i j) t (kst_dgamma P (g t) i j k).
Proof. intros Hi Hj. unp; c3 i; c3 j; clear Hi Hj; cbn [kst_gamma kst_dgamma]; fin. Qed.
Lemma D_dgamma i j l : (i <= j)%nat -> (j < 3)%nat -> (l < 3)%nat ->
  is_derive (fun s => kst_dgamma P (g s) i j l) t (kst_ddgamma P (g t) i j l k).
Proof. intros Hi Hj Hl. unp; c3 i; c3 j; c3 l; clear Hi Hj Hl; cbn [kst_dgamma kst_ddgamma]; fin. Qed.
Lemma D_ddgamma i j l m : (i <= j)%nat -> (j < 3)%nat -> (l < 3)%nat -> (m < 3)%nat ->
  is_derive (fun s => kst_ddgamma P (g s) i j l m) t
    (kst_dddgamma P (g t) i j l m k + e (Nat.min l m) (Nat.max l m) k * kvec P (g t) i * kvec P (g t) j).
Proof.
  intros Hi Hj Hl Hm. unp; c3 i; c3 j; c3 l; c3 m; clear Hi Hj Hl Hm;
    cbn [kst_ddgamma kst_dddgamma kvec Nat.min Nat.max]; fin.
Qed.
End S.
