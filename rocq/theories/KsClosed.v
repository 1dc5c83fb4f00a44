(** KsClosed.v - radius, null vector, metric and 3+1 split in closed form. *)
From Coq Require Import Reals Lra Lia Psatz.
From Verif Require Import RealBase LinAlg3Model LinAlg3Proofs GenKsX GenKsR GenKsH GenKsK GenKsG KsSpec KsModel KsDR KsDH KsDG KsProofs.
Local Open Scope R_scope.

Lemma pow2_gt_0 x : x <> 0 -> 0 < x ^ 2.
Proof. intros H. pose proof (Rsqr_pos_lt x H) as Q. rewrite Rsqr_pow2 in Q. exact Q. Qed.
Lemma cw1_nonneg P f : 0 <= cw1 P f.
Proof. unfold cw1. apply Rplus_le_le_0_compat; [|apply pow2_ge_0]. pose proof (pow2_ge_0 (pa P)); pose proof (pow2_ge_0 (fZ f)). apply Rmult_le_pos; lra. Qed.
Lemma off_disk_pos P f : ~ on_disk (pa P) (posv f) -> 0 < cw1 P f /\ 0 < cw2 P f.
Proof.
  intros H. unfold on_disk, posv in H. cbn [v3] in H.
  pose proof (cw1_nonneg P f) as N.
  assert (W : 0 < cw1 P f).
  { unfold cw1 in *. set (A := - pa P ^ 2 + fX f ^ 2 + fY f ^ 2 + fZ f ^ 2) in *.
    destruct (Req_dec A 0) as [E|E].
    - destruct (Req_dec (fZ f) 0) as [Z|Z].
      + exfalso. apply H. split; auto. unfold A in E. rewrite Z in E. nra.
      + destruct (Req_dec (pa P) 0) as [Q|Q].
        * unfold A in E. rewrite Q in E. assert (0 < fZ f ^ 2) by (apply pow2_gt_0; auto). nra.
        * assert (0 < fZ f ^ 2) by (apply pow2_gt_0; auto). assert (0 < pa P ^ 2) by (apply pow2_gt_0; auto).
          rewrite E. nra.
    - assert (0 < A ^ 2) by (apply pow2_gt_0; auto). nra. }
  split; auto. unfold cw2.
  assert (S : 0 < sqrt (cw1 P f)) by (apply sqrt_lt_R0; auto).
  assert (SS : sqrt (cw1 P f) * sqrt (cw1 P f) = cw1 P f) by (apply sqrt_sqrt; auto).
  revert S SS. generalize (sqrt (cw1 P f)). intros w S SS. unfold cw1 in SS.
  set (A := - pa P ^ 2 + fX f ^ 2 + fY f ^ 2 + fZ f ^ 2) in *.
  destruct (Rlt_le_dec 0 A) as [L|L]; [lra|].
  (* A <= 0: then Z <> 0 and a <> 0 *)
  destruct (Rlt_le_dec 0 (A + w)) as [G|G]; [exact G|exfalso].
  assert (Q : w * w <= A * A) by nra.
  assert (Z2 : pa P ^ 2 * fZ f ^ 2 <= 0) by nra.
  destruct (Req_dec (fZ f) 0) as [Z|Z].
  - apply H. split; auto. unfold A in L. rewrite Z in L. nra.
  - assert (0 < fZ f ^ 2) by (apply pow2_gt_0; auto).
    destruct (Req_dec (pa P) 0) as [B|B].
    + unfold A in L. rewrite B in L. nra.
    + assert (0 < pa P ^ 2) by (apply pow2_gt_0; auto). nra.
Qed.

(** the quartic that the Kerr radius solves *)
Lemma radius_quartic a X r : 0 < r ->
  (kerr_radius a X r <->
   (r ^ 2) ^ 2 - (X 0%nat ^ 2 + X 1%nat ^ 2 + X 2%nat ^ 2 - a ^ 2) * r ^ 2 - a ^ 2 * X 2%nat ^ 2 = 0).
Proof.
  intros Hr. unfold kerr_radius.
  assert (N1 : 0 < r ^ 2) by (apply pow_lt; auto). assert (N2 : 0 < r ^ 2 + a ^ 2) by nra.
  set (u := (X 0%nat ^ 2 + X 1%nat ^ 2)).
  assert (E : u / (r ^ 2 + a ^ 2) + X 2%nat ^ 2 / r ^ 2 = (u * r ^ 2 + X 2%nat ^ 2 * (r ^ 2 + a ^ 2)) / ((r ^ 2 + a ^ 2) * r ^ 2))
    by (field; lra).
  rewrite E. unfold u. split.
  - intros [_ H]. apply (Rmult_eq_compat_r ((r ^ 2 + a ^ 2) * r ^ 2)) in H. unfold Rdiv in H.
    rewrite Rmult_assoc, Rinv_l in H by nra. nra.
  - intros H. split; auto. apply (Rmult_eq_reg_r ((r ^ 2 + a ^ 2) * r ^ 2)); [|nra].
    unfold Rdiv. rewrite Rmult_assoc, Rinv_l by nra. nra.
Qed.
Lemma radius_unique a X r1 r2 : kerr_radius a X r1 -> kerr_radius a X r2 -> r1 = r2.
Proof.
  intros H1 H2. assert (P1 : 0 < r1) by apply H1. assert (P2 : 0 < r2) by apply H2.
  apply radius_quartic in H1; auto. apply radius_quartic in H2; auto.
  assert (Q1 : 0 < r1 ^ 2) by (apply pow_lt; auto). assert (Q2 : 0 < r2 ^ 2) by (apply pow_lt; auto).
  assert (E : r1 ^ 2 = r2 ^ 2).
  { revert Q1 Q2 H1 H2. generalize (r1 ^ 2) (r2 ^ 2). intros u v Q1 Q2 H1 H2.
    set (A := X 0%nat ^ 2 + X 1%nat ^ 2 + X 2%nat ^ 2 - a ^ 2) in *.
    set (C := a ^ 2 * X 2%nat ^ 2) in *. assert (0 <= C) by (unfold C; nra).
    assert (F : (u - v) * (u * v + C) = 0) by nra.
    apply Rmult_integral in F. destruct F; nra. }
  nra.
Qed.
Lemma radius_off_disk a X r : kerr_radius a X r -> ~ on_disk a X.
Proof.
  intros H [Z D]. assert (P1 : 0 < r) by apply H. apply radius_quartic in H; auto. rewrite Z in H.
  assert (0 < r ^ 2) by (apply pow_lt; auto). nra.
Qed.
(** what the code computes for R, for any value of the constant hs *)
Lemma code_radius P f : ~ on_disk (pa P) (posv f) ->
  kerr_radius (pa P) (posv f) (sqrt (cw2 P f / 2)) /\ ks_R P f = phs P * sqrt 2 * sqrt (cw2 P f / 2).
Proof.
  intros H. destruct (off_disk_pos P f H) as [W1 W2]. split.
  - assert (S : 0 < sqrt (cw2 P f / 2)) by (apply sqrt_lt_R0; lra).
    apply radius_quartic; auto.
    assert (E : sqrt (cw2 P f / 2) ^ 2 = cw2 P f / 2) by (rewrite <- Rsqr_pow2; apply Rsqr_sqrt; lra).
    rewrite E. unfold posv. cbn [v3]. unfold cw2.
    assert (SS : sqrt (cw1 P f) * sqrt (cw1 P f) = cw1 P f) by (apply sqrt_sqrt; lra).
    revert SS. generalize (sqrt (cw1 P f)). intros w SS. unfold cw1 in SS.
    revert SS. generalize (pa P ^ 2) (fX f ^ 2) (fY f ^ 2) (fZ f ^ 2). intros. nra.
  - rewrite Rmult_assoc, <- sqrt_mult by lra. replace (2 * (cw2 P f / 2)) with (cw2 P f) by field. reflexivity.
Qed.
Lemma hs_sqrt2 h : 0 < h -> h ^ 2 = 1 / 2 -> h * sqrt 2 = 1.
Proof.
  intros H0 H. assert (S : 0 < sqrt 2) by (apply sqrt_lt_R0; lra).
  assert (SS : sqrt 2 * sqrt 2 = 2) by (apply sqrt_sqrt; lra).
  assert ((h * sqrt 2 - 1) * (h * sqrt 2 + 1) = 0).
  { replace ((h * sqrt 2 - 1) * (h * sqrt 2 + 1)) with (h ^ 2 * (sqrt 2 * sqrt 2) - 1) by ring. rewrite H, SS. lra. }
  apply Rmult_integral in H1. destruct H1; [lra|]. nra.
Qed.
(** the literal in the source *)
Lemma hs_literal : Rabs (707106781186548 / 1000000000000000 - 1 / sqrt 2) <= / 1000000000000000.
Proof.
  assert (S : 0 < sqrt 2) by (apply sqrt_lt_R0; lra).
  assert (SS : sqrt 2 * sqrt 2 = 2) by (apply sqrt_sqrt; lra).
  assert (E : 1 / sqrt 2 = sqrt 2 / 2) by (apply (Rmult_eq_reg_r (2 * sqrt 2)); [|lra]; unfold Rdiv; transitivity 2; [field; lra|]; transitivity (sqrt 2 * sqrt 2); [lra|field]). rewrite E.
  assert (B1 : sqrt 2 <= 2 * (707106781186548 / 1000000000000000)).
  { apply (Rsqr_incr_0_var); [|lra]. unfold Rsqr. rewrite SS. lra. }
  assert (B2 : 2 * (707106781186547 / 1000000000000000) <= sqrt 2).
  { apply (Rsqr_incr_0_var); [|lra]. unfold Rsqr. rewrite SS. lra. }
  apply Rabs_le. lra.
Qed.

(** ** null *)
Lemma kerr_l_unit a X r : kerr_radius a X r -> dot (kerr_l a X r) (kerr_l a X r) = 1.
Proof.
  intros [Hr H]. rewrite <- H. unfold dot, kerr_l. cbn [v3]. field. split; [lra|].
  assert (0 < r ^ 2) by (apply pow_lt; auto). nra.
Qed.
Lemma cs1 x : cos x * cos x + sin x * sin x = 1.
Proof. pose proof (sin2_cos2 x) as H. unfold Rsqr in H. lra. Qed.
Lemma rotz_dot p u v : dot (rotz p u) (rotz p v) = dot u v.
Proof. unfold dot, rotz. cbn [v3]. pose proof (cs1 p) as C. revert C. generalize (cos p) (sin p). intros c s C.
  replace (u 0%nat * v 0%nat + u 1%nat * v 1%nat) with ((c * c + s * s) * (u 0%nat * v 0%nat + u 1%nat * v 1%nat)) by (rewrite C; ring). ring. Qed.
Lemma roty_dot p u v : dot (roty p u) (roty p v) = dot u v.
Proof. unfold dot, roty. cbn [v3]. pose proof (cs1 p) as C. revert C. generalize (cos p) (sin p). intros c s C.
  transitivity ((c * c + s * s) * (u 0%nat * v 0%nat + u 2%nat * v 2%nat) + u 1%nat * v 1%nat); [ring|rewrite C; ring]. Qed.
Lemma lab_null v K : 0 < dot v v < 1 ->
  lab_time v K ^ 2 - dot (lab_space v K) (lab_space v K) = 1 - dot K K.
Proof.
  intros B. destruct (s_facts _ B) as [S1 S2].
  unfold lab_time, lab_space, lorentz. unfold dot at 3 5.
  assert (F : v 0%nat ^ 2 = 1 - sqrt (1 - dot v v) ^ 2 - v 1%nat ^ 2 - v 2%nat ^ 2) by (rewrite S2; unfold dot; ring).
  assert (G : dot v v = 1 - sqrt (1 - dot v v) ^ 2) by lra.
  assert (N : 1 - sqrt (1 - dot v v) ^ 2 <> 0) by lra.
  revert F G N S1. generalize (sqrt (1 - dot v v)). intros s F G N S1. unfold dot at 2 3. rewrite G.
  unfold dot.
  clear - F N S1. generalize dependent (v 0%nat). intros v0 F. generalize (v 1%nat) (v 2%nat) (K 0%nat) (K 1%nat) (K 2%nat) F. clear F.
  intros v1 v2 K0 K1 K2 F. field [F]. split; [lra|split; [exact N|replace (v0 * v0 + v1 * v1 + v2 * v2) with (1 - s ^ 2) by (rewrite <- (Rplus_0_r (v0 * v0)); replace (v0 * v0) with (v0 ^ 2) by ring; rewrite F; ring); exact N]].
Qed.
