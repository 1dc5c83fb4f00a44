(** RootFinal.v - the statements of C39 and C60 and concrete cases. *)
From Verif Require Import RealBase RootModel RootProofs RootSD.
Open Scope R_scope.

(** a concrete run: x^2 - 2 on [1,2]; in one step it accepts 3/2 when the tolerance is 1 *)
Definition sq2 (x : R) : option R := Some (x * x - 2).
Lemma sq2_cont x : continuity_pt (fun x => x * x - 2) x.
Proof. apply derivable_continuous_pt. reg. Qed.
Lemma sq2_run : bisect 1 sq2 (fun _ => false) 1 2 1 5 = Some (mkBis OK (1 + / 2 * (2 - 1)) (Val (Some ((1 + / 2 * (2 - 1)) * (1 + / 2 * (2 - 1)) - 2))) 1).
Proof.
  unfold bisect, sq2. cbn [Nat.eqb negb prod_pos].
  destruct (ltR_spec 0 ((1 * 1 - 2) * (2 * 2 - 2))); [lra|].
  cbn [bisect_loop]. cbn [orb].
  replace (LSS (Rabs (/ 2 * (2 - 1))) 1) with true.
  - rewrite orb_true_r. reflexivity.
  - symmetry. apply LSS_iff. rewrite Rabs_right by lra. unfold ROUND_OFF_ERR. lra.
Qed.
Lemma sq2_hyp : (forall x, between 1 2 x -> sq2 x = Some (x * x - 2) /\ continuity_pt (fun x => x * x - 2) x) /\
  exists r, bisect 1 sq2 (fun _ => false) 1 2 1 5 = Some r /\ b_status r = OK.
Proof.
  split.
  - intros x _. split; [reflexivity|apply sq2_cont].
  - eexists. split; [exact sq2_run|reflexivity].
Qed.
Lemma sq2_max : exists r, bisect 1 sq2 (fun _ => false) 1 2 (/ 4) 1 = Some r /\ b_status r = MAX_ITER /\ b_x r = 0 /\ ~ between 1 2 (b_x r).
Proof.
  unfold bisect, sq2. cbn [Nat.eqb negb prod_pos].
  destruct (ltR_spec 0 ((1 * 1 - 2) * (2 * 2 - 2))); [lra|].
  cbn [bisect_loop]. cbn [orb].
  replace (LSS (Rabs (/ 2 * (2 - 1))) (/ 4)) with false.
  2:{ symmetry. apply LSS_false. rewrite Rabs_right by lra. unfold ROUND_OFF_ERR. lra. }
  replace (EQL ((1 + / 2 * (2 - 1)) * (1 + / 2 * (2 - 1)) - 2) 0) with false.
  2:{ symmetry. apply EQL_false. rewrite Rminus_0_r, Rabs_right by lra. unfold ROUND_OFF_ERR. lra. }
  cbn [orb].
  assert (B : ~ between 1 2 0) by (intros H; apply between_iff in H; lra).
  destruct (prod_pos _ _); eexists; (split; [reflexivity|]); cbn [b_status b_x]; auto.
Qed.

(** Statement of C60 in terms of the equations: the sum of squares of the equations. *)
Definition sumsq (fs : list eqn) (x : vec) : R := fold_right (fun f s => f x * f x + s) 0 fs.
Lemma sumsq_g fs x : g_SD fs x = sumsq fs x.
Proof. induction fs as [|f fs IH]; cbn [g_SD sumsq fold_right]; [reflexivity|]. rewrite IH. unfold sumsq. simpl. lra. Qed.

Lemma sd_honest fs n how TOL fuel M x0 r :
  steepest_descent fs n how TOL fuel M x0 = Some r ->
  match s_status r with
  | UNDEF => M = O
  | EXTREMA => sumsq fs (s_x r) <= sumsq fs x0 /\
      sqrt (Rsum n (fun i => gradient fs how (s_x r) i ^ 2)) < ROUND_OFF_ERR
  | OK => exists x, sumsq fs x <= sumsq fs x0 /\ sumsq fs (s_x r) < sumsq fs x /\ sumsq fs x - sumsq fs (s_x r) < TOL
  | MAX_ITER => (1 <= M)%nat /\ sumsq fs (s_x r) < sumsq fs x0 /\ INR M * TOL <= sumsq fs x0 - sumsq fs (s_x r)
  | NO_IMPROVEMENT => exists x, sumsq fs x <= sumsq fs x0 /\ forall i, (i < n)%nat -> Rabs (s_x r i - x i) < / 2 * TOL
  | _ => False
  end /\
  (s_status r <> UNDEF -> s_residual r = Some (sqrt (sumsq fs (s_x r)))).
Proof.
  intros E. apply steepest_ok in E. rewrite <- !sumsq_g.
  destruct E as [H|y H1 H2|x y H1 H2|x y H1 H2 H3|y H1 H2 H3]; cbn [s_status s_x s_residual]; rewrite <- ?sumsq_g.
  - split; [exact H|congruence].
  - split; [|reflexivity]. auto.
  - split; [|reflexivity]. exists x. rewrite <- sumsq_g. auto.
  - split; [|reflexivity]. exists x. rewrite <- sumsq_g. auto.
  - split; [|reflexivity]. auto.
Qed.

Lemma sd_no_max fs n how TOL fuel M x0 r : 0 < TOL -> sumsq fs x0 < INR M * TOL ->
  steepest_descent fs n how TOL fuel M x0 = Some r -> s_status r <> MAX_ITER.
Proof.
  intros HT H E S. destruct (sd_honest _ _ _ _ _ _ _ _ E) as [G _]. rewrite S in G.
  destruct G as (_ & _ & G). pose proof (g_nonneg fs (s_x r)). rewrite sumsq_g in H0. lra.
Qed.

Lemma sd_root fs x : sumsq fs x = 0 <-> Forall (fun f => f x = 0) fs.
Proof. rewrite <- sumsq_g. apply g_zero. Qed.

Lemma sumsq_deriv fs dfs x dir : List.length fs = List.length dfs ->
  (forall k, (k < List.length fs)%nat ->
     derivable_pt_lim (fun t => nth k fs (fun _ => 0) (upd x dir t)) (x dir) (nth k dfs (fun _ _ => 0) x dir)) ->
  derivable_pt_lim (fun t => sumsq fs (upd x dir t)) (x dir) (gradient fs (Given dfs) x dir).
Proof.
  intros H1 H2. pose proof (g_deriv fs dfs x dir H1 H2) as D.
  intros e He. destruct (D e He) as [dl Hd]. exists dl. intros h A B. rewrite <- !sumsq_g. apply Hd; assumption.
Qed.

Lemma sumsq_fd fs x dir c0 c1 c2 :
  (forall t, sumsq fs (upd x dir t) = c0 + c1 * t + c2 * t ^ 2) ->
  forall how, how = FD_Left \/ how = FD_Right \/ how = FD_Mid ->
  gradient fs how x dir = c1 + 2 * c2 * x dir.
Proof. intros H. apply (fd_exact fs x dir c0 c1 c2). intros t. rewrite sumsq_g. apply H. Qed.

(** A run that is accepted: x = 0 from 2 *)
Definition lin : eqn := fun x => x 0%nat.
Lemma noroot_none s x : 0 <= s -> noroot s x <> 0.
Proof. intros H. unfold noroot. pose proof (pow2_ge_0 (x 0%nat)). nra. Qed.

Lemma sd_ok_not_root s : ROUND_OFF_ERR <= s <= 1 ->
  (forall x, noroot s x <> 0) /\
  exists r, steepest_descent [noroot s] 1 (Given [dnoroot s]) s 2 1 (fun _ => / 2) = Some r /\
    s_status r = OK /\ s_residual r = Some 1.
Proof.
  intros H. split; [|apply noroot_ok; exact H]. intros x. apply noroot_none. pose proof ROE_pos. lra.
Qed.
Lemma vshape_worse' TOL M : 0 < TOL -> (1 <= M)%nat ->
  exists fuel r v, steepest_descent [vshape] 1 FD_Right TOL fuel M zerov = Some r /\
    s_status r = NO_IMPROVEMENT /\ s_residual r = Some v /\ v > 1 /\ sumsq [vshape] zerov = 1.
Proof. intros A B. destruct (vshape_worse TOL M A B) as (fuel & r & v & H). rewrite sumsq_g in H. exists fuel, r, v. exact H. Qed.

Lemma sumsq_fd_ex : forall t, sumsq [lin] (upd zerov 0 t) = 0 + 0 * t + 1 * t ^ 2.
Proof. intros t. cbn [sumsq fold_right]. unfold lin. rewrite upd_at. simpl. lra. Qed.
Lemma sumsq_deriv_ex : derivable_pt_lim (fun t => lin (upd zerov 0 t)) (zerov 0%nat) ((fun _ _ => 1) zerov 0%nat).
Proof.
  intros e He. exists (mkposreal 1 Rlt_0_1). intros h Hh _. unfold lin. rewrite !upd_at.
  replace ((zerov 0%nat + h - zerov 0%nat) / h - 1) with 0 by (field; exact Hh). rewrite Rabs_R0. exact He.
Qed.
