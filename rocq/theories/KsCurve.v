(** KsCurve.v - moving one coordinate of a node. *)
From Coq Require Import Reals Lra Lia.
From Coquelicot Require Import Coquelicot.
From Verif Require Import GenKsX GenKsR GenKsH GenKsK GenKsG KsSpec KsModel KsCalc KsDR KsMove KsDH KsDK0 KsDK1 KsDK2 KsMoveK KsDk KsDG KsProofs.
Local Open Scope R_scope.

Section C.
Variables (P : kspar) (u v w : R -> R) (t : R) (k : nat).
Hypothesis Hk : (k < 3)%nat.
Hypothesis Du : is_derive (fun s => u s) t (kron k 0).
Hypothesis Dv : is_derive (fun s => v s) t (kron k 1).
Hypothesis Dw : is_derive (fun s => w s) t (kron k 2).
Let g (s : R) : ksarg := ks_set_args P (u s) (v s) (w s).
Lemma curve_moves : moves g k t.
Proof.
  constructor; unfold g; cbn [ks_set_args fX fY fZ fdX0 fdX1 fdX2 fdY0 fdY1 fdY2 fdZ0 fdZ1 fdZ2].
  4-12: match goal with |- is_derive (fun s => ?a _ _) _ _ => unfold a end; apply D_const.
  all: match goal with |- is_derive (fun s => ?a _ _) _ _ => unfold a end; cbn [fx fy fz];
    (eapply D_cast; [dv|]); clear - Hk;
    destruct k as [|[|[|k']]]; try (exfalso; lia); cbn [dirX dirY dirZ ks_set_args fdX0 fdX1 fdX2 fdY0 fdY1 fdY2 fdZ0 fdZ1 fdZ2];
    match goal with |- _ = ?a _ _ => unfold a end; unfold kron; cbn [Nat.eqb]; unfold Rdiv; ring.
Qed.
Hypothesis OD : ~ on_disk (pa P) (posv (g t)).
Hypothesis HS : 0 < phs P.
Hypothesis W : 0 < cw1 P (g t) /\ 0 < cw2 P (g t).
Lemma curve_R0 : 0 < fR (g t).
Proof. change (0 < phs P * sqrt (cw2 P (g t))). apply Rmult_lt_0_compat; auto. apply sqrt_lt_R0. apply W. Qed.
Lemma curve_movesR : movesR P g k t.
Proof.
  destruct W as [W1 W2]. pose proof curve_moves as M. constructor; auto.
  - change (is_derive (fun s => ks_R P (g s)) t (kst_dR P (g t) k)). apply D_R; auto.
  - intros i Hi. apply D_dR; auto.
  - intros i j Hi Hj. rewrite <- sym_dddR by auto. apply D_ddR; auto.
Qed.
Lemma curve_q : ksq P (g t) <> 0.
Proof.
  unfold ksq. pose proof curve_R0 as Q. assert (0 < fR (g t) ^ 4) by (apply pow_lt; auto).
  pose proof (pow2_ge_0 (pa P)). pose proof (pow2_ge_0 (fZ (g t))). nra.
Qed.
Lemma curve_ar : pa P ^ 2 + fR (g t) ^ 2 <> 0.
Proof. pose proof curve_R0 as Q. pose proof (pow2_ge_0 (pa P)). nra. Qed.
Lemma curve_H : smooth3 g k t (ks_H P) (kst_dH P) (kst_ddH P) (kst_dddH P) (ksbug P (g t)).
Proof.
  pose proof curve_movesR as M. pose proof curve_q as Q. constructor.
  - apply D_H; auto.
  - intros; apply D_dH; auto.
  - intros i j Hi Hj. rewrite <- sym_dddH by auto. apply D_ddH; auto.
Qed.
Lemma curve_K0 : smooth3 g k t (ks_K0 P) (kst_dK0 P) (kst_ddK0 P) (kst_dddK0 P) z3.
Proof.
  pose proof curve_movesR as M. pose proof curve_ar as Q. constructor.
  - apply D_K0; auto.
  - intros; apply D_dK0; auto.
  - intros i j Hi Hj. unfold z3. rewrite Rplus_0_r, <- sym_dddK0 by auto. apply D_ddK0; auto.
Qed.
Lemma curve_K1 : smooth3 g k t (ks_K1 P) (kst_dK1 P) (kst_ddK1 P) (kst_dddK1 P) z3.
Proof.
  pose proof curve_movesR as M. pose proof curve_ar as Q. constructor.
  - apply D_K1; auto.
  - intros; apply D_dK1; auto.
  - intros i j Hi Hj. unfold z3. rewrite Rplus_0_r, <- sym_dddK1 by auto. apply D_ddK1; auto.
Qed.
Lemma curve_K2 : smooth3 g k t (ks_K2 P) (kst_dK2 P) (kst_ddK2 P) (kst_dddK2 P) z3.
Proof.
  pose proof curve_movesR as M. assert (Q : fR (g t) <> 0) by (pose proof curve_R0; lra). constructor.
  - apply D_K2; auto.
  - intros; apply D_dK2; auto.
  - intros i j Hi Hj. unfold z3. rewrite Rplus_0_r, <- sym_dddK2 by auto. apply D_ddK2; auto.
Qed.
Definition err (i j l : nat) : R := 2 * ksbug P (g t) i j l.
Lemma curve_gamma i j : (i <= j)%nat -> (j < 3)%nat ->
  is_derive (fun s => kst_gamma P (g s) i j) t (kst_dgamma P (g t) i j k) /\
  (forall l, (l < 3)%nat -> is_derive (fun s => kst_dgamma P (g s) i j l) t (kst_ddgamma P (g t) i j l k)) /\
  (forall l m, (l < 3)%nat -> (m < 3)%nat -> is_derive (fun s => kst_ddgamma P (g s) i j l m) t
     (kst_dddgamma P (g t) i j l m k + 2 * ksbug P (g t) (Nat.min l m) (Nat.max l m) k * kvec P (g t) i * kvec P (g t) j)).
Proof.
  intros Hi Hj. pose proof curve_H as SH. pose proof curve_K0 as S0. pose proof curve_K1 as S1. pose proof curve_K2 as S2.
  pose proof (S_c P g t k _ Hk SH) as Sc.
  pose proof (S_k0 P g t k Hk S0 S1 S2) as T0. pose proof (S_k1 P g t k Hk S0 S1 S2) as T1. pose proof (S_k2 P g t k Hk S0 S1 S2) as T2.
  split; [|split].
  - eapply D_gamma; eauto.
  - intros l Hl. eapply D_dgamma; eauto.
  - intros l m Hl Hm. apply (D_ddgamma P g t k (fun i j l => 2 * ksbug P (g t) i j l) Hk Sc T0 T1 T2); auto.
Qed.
End C.
