(** KsSplit.v - lapse and shift give back the four-metric. *)
From Coq Require Import Reals Lra Lia Psatz.
From Verif Require Import RealBase LinAlg3Model LinAlg3Spec LinAlg3Proofs GenKsX GenKsR GenKsH GenKsK GenKsG KsSpec KsModel KsDR KsDH KsDG KsProofs KsClosed KsMetric.
Local Open Scope R_scope.

Lemma sqrt_ge1 x : 1 <= x -> 1 <= sqrt x.
Proof. intros H. rewrite <- sqrt_1 at 1. apply sqrt_le_1_alt. exact H. Qed.
Lemma inv_le1 x : 1 <= x -> 1 / x <= 1.
Proof. intros H. apply (Rmult_le_reg_r x); [lra|]. unfold Rdiv. rewrite Rmult_assoc, Rinv_l; lra. Qed.

Section N.
Variables (P : kspar) (ctr q : vec) (r : R).
Hypothesis G : good_par P.
Hypothesis Hr : kerr_radius (pa P) (hpos P (sub q ctr)) r.
Let f := ks_node P ctr q.
Let g4 (mu nu : nat) : R := hole_metric (pM P) (pa P) (pphiy P) (pphiz P) (boostv P) (sub q ctr) r mu nu.

Lemma g4_sym mu nu : g4 mu nu = g4 nu mu.
Proof. unfold g4, hole_metric, eta. rewrite (Nat.eqb_sym mu nu).
  destruct (Nat.eqb nu mu) eqn:E; [apply Nat.eqb_eq in E; subst; ring|ring]. Qed.
Lemma entry_g4 i j : (i < 3)%nat -> (j < 3)%nat -> entry (full (gsym P ctr q)) i j = g4 (S i) (S j).
Proof.
  intros Hi Hj. pose proof (metric_closed P ctr q r G Hr) as M. fold g4 in M.
  destruct i as [|[|[|i]]]; try lia; destruct j as [|[|[|j]]]; try lia; cbn [entry full gsym a00 a01 a02 a10 a11 a12 a20 a21 a22 s00 s01 s02 s11 s12 s22];
   try (apply M; lia); rewrite g4_sym; apply M; lia.
Qed.
Lemma betaD_k i : (i < 3)%nat -> ks_betaD P f i = ks_c P f * ks_kt P f * kvec P f i.
Proof. intros Hi. destruct i as [|[|[|i]]]; [| | |lia]; reflexivity. Qed.
(** k . beta *)
Lemma kbeta n be : dot (kvec P f) (kvec P f) = n -> 0 < 1 + ks_c P f * n ->
  (forall i, (i < 3)%nat -> Rsum 3 (fun j => entry (full (gsym P ctr q)) i j * be j) = ks_betaD P f i) ->
  dot (kvec P f) be = ks_c P f * ks_kt P f * n / (1 + ks_c P f * n).
Proof.
  intros En Hn Hb.
  assert (A : forall i, (i < 3)%nat -> be i + ks_c P f * kvec P f i * dot (kvec P f) be = ks_c P f * ks_kt P f * kvec P f i).
  { intros i Hi. rewrite <- betaD_k by auto. rewrite <- (Hb i Hi).
    pose proof (gamma_form P ctr q) as F. fold f in F.
    pose proof (F 0%nat 0%nat ltac:(lia) ltac:(lia)) as E00. pose proof (F 0%nat 1%nat ltac:(lia) ltac:(lia)) as E01.
    pose proof (F 0%nat 2%nat ltac:(lia) ltac:(lia)) as E02. pose proof (F 1%nat 1%nat ltac:(lia) ltac:(lia)) as E11.
    pose proof (F 1%nat 2%nat ltac:(lia) ltac:(lia)) as E12. pose proof (F 2%nat 2%nat ltac:(lia) ltac:(lia)) as E22.
    unfold gsym, ks_metric. fold f.
    unfold Rsum, dot. destruct i as [|[|[|i]]]; [| | |lia]; cbn;
      cbn [kst_gamma kvec] in *; rewrite ?E00, ?E01, ?E02, ?E11, ?E12, ?E22; unfold kron; cbn [Nat.eqb]; ring. }
  pose proof (A 0%nat ltac:(lia)) as A0. pose proof (A 1%nat ltac:(lia)) as A1. pose proof (A 2%nat ltac:(lia)) as A2.
  apply (Rmult_eq_reg_r (1 + ks_c P f * n)); [|lra]. unfold Rdiv. rewrite Rmult_assoc, Rinv_l, Rmult_1_r by lra.
  set (d := dot (kvec P f) be) in *. assert (Ed : d = dot (kvec P f) be) by reflexivity. clearbody d. subst n.
  assert (D : d = kvec P f 0 * be 0%nat + kvec P f 1 * be 1%nat + kvec P f 2 * be 2%nat) by exact Ed.
  assert (B0 : be 0%nat = ks_c P f * ks_kt P f * kvec P f 0 - ks_c P f * kvec P f 0 * d) by lra.
  assert (B1 : be 1%nat = ks_c P f * ks_kt P f * kvec P f 1 - ks_c P f * kvec P f 1 * d) by lra.
  assert (B2 : be 2%nat = ks_c P f * ks_kt P f * kvec P f 2 - ks_c P f * kvec P f 2 * d) by lra.
  rewrite B0, B1, B2 in D. unfold dot. apply Rminus_diag_uniq.
  match type of D with d = ?e => transitivity (d - e); [ring|lra] end.
Qed.
Lemma g4_0i i : moving_hole P -> (i < 3)%nat -> g4 0 (S i) = ks_betaD P f i.
Proof.
  intros M Hi. rewrite betaD_k by auto. unfold g4, hole_metric, eta. cbn [Nat.eqb].
  change (hole_position (pphiy P) (pphiz P) (boostv P) (sub q ctr)) with (hpos P (sub q ctr)).
  unfold f. rewrite (nkt P ctr q r G Hr M), (nk P ctr q r G Hr i Hi). unfold ks_c. rewrite (nH P ctr q r G Hr). ring.
Qed.
Lemma g4_00 : moving_hole P -> g4 0 0 = -1 + ks_c P f * ks_kt P f ^ 2.
Proof.
  intros M. unfold g4, hole_metric, eta. cbn [Nat.eqb].
  change (hole_position (pphiy P) (pphiz P) (boostv P) (sub q ctr)) with (hpos P (sub q ctr)).
  unfold f. rewrite (nkt P ctr q r G Hr M). unfold ks_c. rewrite (nH P ctr q r G Hr). ring.
Qed.
Lemma alpha_facts : 0 <= ks_c P f -> 0 < ks_alpha P f <= 1 /\ ks_alpha P f ^ 2 = 1 / (1 + ks_c P f * ks_kt P f ^ 2).
Proof.
  intros C. unfold ks_alpha. replace (1 + ks_c P f * ks_kt P f * ks_kt P f) with (1 + ks_c P f * ks_kt P f ^ 2) by ring.
  assert (N : 0 <= ks_c P f * ks_kt P f ^ 2) by (apply Rmult_le_pos; auto; apply pow2_ge_0).
  assert (S : 1 <= sqrt (1 + ks_c P f * ks_kt P f ^ 2)) by (apply sqrt_ge1; lra).
  assert (SS : sqrt (1 + ks_c P f * ks_kt P f ^ 2) ^ 2 = 1 + ks_c P f * ks_kt P f ^ 2)
    by (rewrite <- Rsqr_pow2; apply Rsqr_sqrt; lra).
  repeat split.
  - apply Rdiv_lt_0_compat; lra.
  - apply inv_le1; exact S.
  - rewrite <- SS at 2. field. lra.
Qed.
Theorem split_moving : moving_hole P -> 0 <= pM P ->
  exists ig al be, ks_populate P ctr q = Some (ig, al, be) /\
    (forall i k, (i < 3)%nat -> (k < 3)%nat -> Rsum 3 (fun j => g4 (S i) (S j) * entry (full ig) j k) = kron i k) /\
    0 < al <= 1 /\
    (forall i, (i < 3)%nat -> Rsum 3 (fun j => g4 (S i) (S j) * be j) = g4 0 (S i)) /\
    - al ^ 2 + Rsum 3 (fun i => Rsum 3 (fun j => g4 (S i) (S j) * be i * be j)) = g4 0 0.
Proof.
  intros M HM. destruct (shift_lower P ctr q r G Hr HM) as (ig & al & be & E & I & Ea & Eb).
  fold f in Ea, Eb. pose proof (H_nonneg P ctr q r G Hr HM) as C. fold f in C.
  pose proof (null_moving P ctr q r G Hr M) as Nu. fold f in Nu.
  destruct (alpha_facts C) as [A1 A2].
  assert (N : 0 < 1 + ks_c P f * ks_kt P f ^ 2) by (pose proof (pow2_ge_0 (ks_kt P f)); nra).
  exists ig, al, be. split; [exact E|]. split.
  { intros i k Hi Hk. destruct (I i k Hi Hk) as [I1 _]. unfold kron. fold (delta i k). rewrite <- I1.
    unfold Rsum. rewrite !entry_g4 by lia. reflexivity. }
  split; [rewrite Ea; exact A1|]. split.
  { intros i Hi. rewrite (g4_0i i M Hi), <- (Eb i Hi). unfold Rsum. rewrite !entry_g4 by lia. reflexivity. }
  assert (SU : Rsum 3 (fun i => Rsum 3 (fun j => g4 (S i) (S j) * be i * be j)) = Rsum 3 (fun i => be i * ks_betaD P f i)).
  { transitivity (Rsum 3 (fun i => be i * Rsum 3 (fun j => entry (full (gsym P ctr q)) i j * be j))).
    - unfold Rsum. rewrite !entry_g4 by lia. ring.
    - unfold Rsum at 1 3. rewrite !Eb by lia. reflexivity. }
  rewrite SU.
  assert (D : Rsum 3 (fun i => be i * ks_betaD P f i) = ks_c P f * ks_kt P f * dot (kvec P f) be).
  { unfold Rsum, dot. rewrite !betaD_k by lia. ring. }
  rewrite D, (kbeta (ks_kt P f ^ 2) be (eq_sym Nu) N Eb), g4_00 by auto. rewrite Ea, A2. field. lra.
Qed.
(** a hole at rest: the code keeps B2 at a small positive number, which shows in kt only *)
Theorem split_resting : resting_hole P -> 0 <= pM P ->
  exists ig al be, ks_populate P ctr q = Some (ig, al, be) /\
    (forall i k, (i < 3)%nat -> (k < 3)%nat -> Rsum 3 (fun j => g4 (S i) (S j) * entry (full ig) j k) = kron i k) /\
    (forall i, (i < 3)%nat -> Rsum 3 (fun j => g4 (S i) (S j) * be j) = g4 0 (S i) / sqrt (1 - pB2 P)) /\
    exists al0, 0 < al0 <= 1 /\ al0 * sqrt (1 - pB2 P) <= al <= al0 /\
    (forall b, (forall i, (i < 3)%nat -> Rsum 3 (fun j => g4 (S i) (S j) * b j) = g4 0 (S i)) ->
       - al0 ^ 2 + Rsum 3 (fun i => Rsum 3 (fun j => g4 (S i) (S j) * b i * b j)) = g4 0 0).
Proof.
  intros M HM. destruct (shift_lower P ctr q r G Hr HM) as (ig & al & be & E & I & Ea & Eb).
  fold f in Ea, Eb. pose proof (H_nonneg P ctr q r G Hr HM) as C. fold f in C.
  pose proof (null_resting P ctr q r G Hr M) as Nu. fold f in Nu.
  pose proof (covector_resting P f M) as [Kt _].
  destruct (s_facts _ (proj1 M)) as [S1 S2].
  assert (L0 : hole_covector (pa P) (pphiy P) (pphiz P) (boostv P) (hpos P (sub q ctr)) r 0 = 1).
  { unfold hole_covector, lab_time, lorentz, boostv. destruct M as (_ & E1 & E2 & E3). rewrite E1, E2, E3.
    unfold dot. cbn [v3]. rewrite !Rmult_0_r, !Rplus_0_r, Rminus_0_r, sqrt_1. field. }
  assert (Z : forall i, (i < 3)%nat -> g4 0 (S i) = ks_c P f * kvec P f i).
  { intros i Hi. unfold g4, hole_metric, eta. cbn [Nat.eqb].
    change (hole_position (pphiy P) (pphiz P) (boostv P) (sub q ctr)) with (hpos P (sub q ctr)).
    rewrite L0. unfold f. rewrite (nk P ctr q r G Hr i Hi). unfold ks_c. rewrite (nH P ctr q r G Hr). ring. }
  assert (Z0 : g4 0 0 = -1 + ks_c P f).
  { unfold g4, hole_metric, eta. cbn [Nat.eqb].
    change (hole_position (pphiy P) (pphiz P) (boostv P) (sub q ctr)) with (hpos P (sub q ctr)).
    rewrite L0. unfold f. unfold ks_c. rewrite (nH P ctr q r G Hr). ring. }
  exists ig, al, be. split; [exact E|]. split.
  { intros i k Hi Hk. destruct (I i k Hi Hk) as [I1 _]. unfold kron. fold (delta i k). rewrite <- I1.
    unfold Rsum. rewrite !entry_g4 by lia. reflexivity. }
  split.
  { intros i Hi. rewrite Z by auto. transitivity (ks_betaD P f i).
    - rewrite <- (Eb i Hi). unfold Rsum. rewrite !entry_g4 by lia. reflexivity.
    - rewrite betaD_k, Kt by auto. field. lra. }
  exists (1 / sqrt (1 + ks_c P f)).
  assert (Q1 : 1 <= sqrt (1 + ks_c P f)) by (apply sqrt_ge1; lra).
  assert (Q2 : sqrt (1 + ks_c P f) ^ 2 = 1 + ks_c P f) by (rewrite <- Rsqr_pow2; apply Rsqr_sqrt; lra).
  split.
  { split; [apply Rdiv_lt_0_compat; lra|]. apply inv_le1; exact Q1. }
  split.
  { rewrite Ea. unfold ks_alpha. rewrite Kt. set (s := sqrt (1 - pB2 P)) in *.
    assert (T : ks_c P f * (1 / s) * (1 / s) = ks_c P f / s ^ 2) by (field; lra). rewrite T.
    assert (S3 : 0 < s ^ 2 <= 1) by (split; [nra|rewrite S2; destruct M; lra]).
    assert (V : 1 <= / s ^ 2) by (rewrite <- Rinv_1 at 1; apply Rinv_le_contravar; lra).
    assert (L1 : 1 + ks_c P f <= 1 + ks_c P f / s ^ 2) by (unfold Rdiv; nra).
    assert (L2 : 1 + ks_c P f / s ^ 2 <= (1 + ks_c P f) * / s ^ 2) by (unfold Rdiv; nra).
    assert (L3 : sqrt ((1 + ks_c P f) * / s ^ 2) = sqrt (1 + ks_c P f) / s).
    { rewrite sqrt_mult by lra. unfold Rdiv. f_equal. replace (/ s ^ 2) with ((/ s) ^ 2) by (field; lra).
      rewrite <- Rsqr_pow2. apply sqrt_Rsqr. left. apply Rinv_0_lt_compat. lra. }
    assert (W : 0 < sqrt (1 + ks_c P f / s ^ 2)) by (apply sqrt_lt_R0; lra).
    split.
    - replace (1 / sqrt (1 + ks_c P f) * s) with (/ (sqrt (1 + ks_c P f) / s)) by (field; lra).
      unfold Rdiv at 2. rewrite Rmult_1_l. apply Rinv_le_contravar; auto. rewrite <- L3. apply sqrt_le_1_alt. exact L2.
    - unfold Rdiv at 1 3. rewrite !Rmult_1_l. apply Rinv_le_contravar; [lra|]. apply sqrt_le_1_alt. exact L1. }
  intros b Hb.
  assert (SU : Rsum 3 (fun i => Rsum 3 (fun j => g4 (S i) (S j) * b i * b j)) = ks_c P f * dot (kvec P f) b).
  { transitivity (Rsum 3 (fun i => b i * Rsum 3 (fun j => g4 (S i) (S j) * b j))).
    - unfold Rsum. ring.
    - unfold Rsum at 1. rewrite !Hb, !Z by lia. unfold dot. ring. }
  rewrite SU, Z0.
  assert (D : dot (kvec P f) b = ks_c P f / (1 + ks_c P f)).
  { assert (T : dot (kvec P f) (fun i => / sqrt (1 - pB2 P) * b i) = ks_c P f * ks_kt P f * 1 / (1 + ks_c P f * 1)).
    { apply (kbeta 1); auto; [lra|]. intros i Hi. rewrite betaD_k, Kt by auto.
      transitivity (/ sqrt (1 - pB2 P) * Rsum 3 (fun j => g4 (S i) (S j) * b j)).
      - unfold Rsum. rewrite !entry_g4 by lia. ring.
      - rewrite Hb, Z by auto. field. lra. }
    rewrite Kt in T. unfold dot in *.
    apply (Rmult_eq_reg_l (/ sqrt (1 - pB2 P))); [|apply Rinv_neq_0_compat; lra].
    transitivity (ks_c P f * (1 / sqrt (1 - pB2 P)) * 1 / (1 + ks_c P f * 1)); [rewrite <- T; ring|].
    field. repeat split; lra. }
  rewrite D. replace ((1 / sqrt (1 + ks_c P f)) ^ 2) with (1 / (1 + ks_c P f)).
  - field. lra.
  - rewrite <- Q2 at 1. field. lra.
Qed.
End N.
