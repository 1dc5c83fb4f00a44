(** SchurReal.v - how far the solution of the linear step is from solving the block system when the sparse format drops small
    entries: GRT(ABSd(x),limit) keeps an entry only above limit + 1e-12 (core_lib.h:27-32, matrix_conversions.c:34-51, matrix_arithmetic.c:276-320). *)
From Coq Require Import Reals Lra.
From Verif Require Import Base TextModel MatrixModel MatrixSpec SchurModel SchurSpec SchurProofs SchurExact.
Open Scope nat_scope.
Notation length := List.length.
Notation sumR := (sumF 0%R Rplus).

Lemma sumR_S n h : sumR (S n) h = (sumR n h + h n)%R.
Proof. unfold sumF. rewrite seq_S, fold_left_app. reflexivity. Qed.
Lemma sumR_abs n (h b : nat -> R) : (forall k, (k < n)%nat -> (Rabs (h k) <= b k)%R) -> (Rabs (sumR n h) <= sumR n b)%R.
Proof.
  induction n as [|n IH]; intros H; [cbn; rewrite Rabs_R0; lra|]. rewrite !sumR_S. eapply Rle_trans; [apply Rabs_triang|].
  apply Rplus_le_compat; [apply IH; intros; apply H; lia|apply H; lia].
Qed.
Lemma sumR_scal n c (h : nat -> R) : sumR n (fun k => c * h k)%R = (c * sumR n h)%R.
Proof. induction n as [|n IH]; [cbn; ring|]. rewrite !sumR_S, IH. ring. Qed.
Lemma sumR_pos n (h : nat -> R) : (forall k, (k < n)%nat -> (0 <= h k)%R) -> (0 <= sumR n h)%R.
Proof. induction n as [|n IH]; intros H; [cbn; lra|]. rewrite sumR_S. apply Rplus_le_le_0_compat; [apply IH; intros; apply H; lia|apply H; lia]. Qed.

Section Bound.
Context (grt_abs : R -> R -> bool) (lim tol tol0 : R).
Context (HL : forall v, grt_abs v lim = false -> (Rabs v <= tol)%R) (H0' : forall v, grt_abs v 0%R = false -> (Rabs v <= tol0)%R).
Context (HT : (0 <= tol)%R) (HT0 : (0 <= tol0)%R).
Notation st := (kept 0%R grt_abs lim).
Lemma drop_small v : (Rabs (v - st v) <= tol)%R.
Proof. unfold kept. destruct (grt_abs v lim) eqn:E; [replace (v - v)%R with 0%R by ring; rewrite Rabs_R0; assumption|]. rewrite Rminus_0_r. apply HL. assumption. Qed.
Lemma drop_small0 v : (Rabs (v - kept 0%R grt_abs 0%R v) <= tol0)%R.
Proof. unfold kept. destruct (grt_abs v 0%R) eqn:E; [replace (v - v)%R with 0%R by ring; rewrite Rabs_R0; assumption|]. rewrite Rminus_0_r. apply H0'. assumption. Qed.
Lemma kept_le l v : (Rabs (kept 0%R grt_abs l v) <= Rabs v)%R.
Proof. unfold kept. destruct (grt_abs v l); [lra|]. rewrite Rabs_R0. apply Rabs_pos. Qed.

Theorem drops_bound ps xy : solves_with_drops 0%R Rplus Rminus Rmult grt_abs lim ps xy ->
  length xy = length ps /\ exists Xs : list (list (list R)),
  (forall p P x y, nth_error ps p = Some P -> nth_error xy p = Some (x, y) ->
     (forall i r, i < sNI P -> r < sNS P -> sumR (sNS P) (fun k => st (entry 0%R (sB P) r k) * entry 0%R (nth p Xs []) i k)%R = entry 0%R (sET P) i r) /\
     forall r, r < sNS P -> (Rabs (sub_row 0%R Rplus Rmult P x y r - ent 0%R (sf P) r) <=
       tol * (sumR (sNS P) (fun c => Rabs (ent 0%R x c)) + sumR (sNI P) (fun i => sumR (sNS P) (fun c => Rabs (entry 0%R (sB P) r c)) * Rabs (ent 0%R y i))))%R) /\
  (forall q Q i, nth_error ps q = Some Q -> i < sNI Q ->
     (Rabs (interface_row 0%R Rplus Rmult ps xy q i - ent 0%R (sg Q) i) <=
       sumR (length ps) (fun p => let P := nth p ps (mkP 0 0 [] [] [] [] [] []) in
         sumR (sNI P) (fun j => (tol0 + tol * sumR (sNS P) (fun k => Rabs (entry 0%R (nth p Xs []) j k))) * Rabs (ent 0%R (snd (nth p xy ([], []))) j))))%R).
Proof.
  intros (L & Xs & H1 & H2). split; [assumption|]. exists Xs. split.
  - intros p P x y HP Exy. destruct (H1 p P x y HP Exy) as (_ & _ & HE & HR). split; [assumption|]. intros r Hr. rewrite (HR r Hr).
    match goal with |- (Rabs (?f + ?e - ?f) <= _)%R => replace (f + e - f)%R with e by ring end.
    rewrite Rmult_plus_distr_l. eapply Rle_trans; [apply Rabs_triang|]. apply Rplus_le_compat.
    + rewrite <- sumR_scal. apply sumR_abs. intros c Hc. rewrite Rabs_mult. apply Rmult_le_compat_r; [apply Rabs_pos|apply drop_small].
    + rewrite <- sumR_scal. apply sumR_abs. intros i Hi. rewrite Rabs_mult, <- Rmult_assoc. apply Rmult_le_compat_r; [apply Rabs_pos|].
      rewrite <- sumR_scal. apply sumR_abs. intros c Hc. rewrite Rabs_mult, Rmult_comm. apply Rmult_le_compat; try apply Rabs_pos; [apply drop_small|apply kept_le].
  - intros q Q i HQ Hi. rewrite (H2 q Q i HQ Hi). match goal with |- (Rabs (?f + ?e - ?f) <= _)%R => replace (f + e - f)%R with e by ring end.
    apply sumR_abs. intros p Hp. cbv zeta. apply sumR_abs. intros j Hj. rewrite Rabs_mult. apply Rmult_le_compat_r; [apply Rabs_pos|].
    unfold Rminus at 1. eapply Rle_trans; [apply Rabs_triang|]. rewrite Rabs_Ropp. apply Rplus_le_compat; [apply drop_small0|].
    rewrite <- sumR_scal. apply sumR_abs. intros k Hk. rewrite Rabs_mult. apply Rmult_le_compat; try apply Rabs_pos; [apply drop_small|apply kept_le].
Qed.
End Bound.
