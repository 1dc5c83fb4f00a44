(** KsMetric.v - the stored metric, lapse and shift against the boosted Kerr four-metric. *)
From Coq Require Import Reals Lra Lia Psatz.
From Verif Require Import RealBase LinAlg3Model LinAlg3Spec LinAlg3Proofs GenKsX GenKsR GenKsH GenKsK GenKsG KsSpec KsModel KsDR KsDH KsDG KsProofs KsClosed.
Local Open Scope R_scope.

(** agreement of two vectors on the three components *)
Definition eq3 (u v : vec) : Prop := forall i, (i < 3)%nat -> u i = v i.
Lemma eq3_c u v : eq3 u v -> u 0%nat = v 0%nat /\ u 1%nat = v 1%nat /\ u 2%nat = v 2%nat.
Proof. intros H. repeat split; apply H; lia. Qed.
Lemma radius_ext a u v r : eq3 u v -> kerr_radius a u r -> kerr_radius a v r.
Proof. intros H. apply eq3_c in H. destruct H as (A & B & C). unfold kerr_radius. rewrite A, B, C. auto. Qed.
Lemma disk_ext a u v : eq3 u v -> on_disk a u -> on_disk a v.
Proof. intros H. apply eq3_c in H. destruct H as (A & B & C). unfold on_disk. rewrite A, B, C. auto. Qed.
Lemma l_ext a u v r : eq3 u v -> eq3 (kerr_l a u r) (kerr_l a v r).
Proof. intros H. apply eq3_c in H. destruct H as (A & B & C). intros i Hi. unfold kerr_l. rewrite A, B, C. auto. Qed.
Lemma H_ext M a u v r : eq3 u v -> kerr_H M a u r = kerr_H M a v r.
Proof. intros H. apply eq3_c in H. destruct H as (A & B & C). unfold kerr_H. rewrite C. auto. Qed.
Lemma rot_ext th ph u v : eq3 u v -> eq3 (rotz ph (roty th u)) (rotz ph (roty th v)).
Proof. intros H. apply eq3_c in H. destruct H as (A & B & C). intros i Hi. unfold rotz, roty. cbn [v3]. rewrite A, B, C. auto. Qed.
Lemma dot_ext u v u' v' : eq3 u v -> eq3 u' v' -> dot u u' = dot v v'.
Proof. intros H K. apply eq3_c in H. apply eq3_c in K. destruct H as (A & B & C). destruct K as (A' & B' & C').
  unfold dot. congruence. Qed.
Lemma lab_ext w u v : eq3 u v -> lab_time w u = lab_time w v /\ eq3 (lab_space w u) (lab_space w v).
Proof.
  intros H. assert (D : dot u w = dot v w) by (apply dot_ext; auto; intros i Hi; auto).
  split; [unfold lab_time; rewrite D; auto|]. intros i Hi. unfold lab_space. rewrite D, (H i Hi). auto.
Qed.

(** a parameter set as fd_KerrSchild_set_params leaves it *)
Definition good_par (P : kspar) : Prop :=
  (moving_hole P \/ resting_hole P) /\ pL P = 1 /\ 0 < phs P /\ phs P ^ 2 = 1 / 2.
Definition hpos (P : kspar) (x : vec) : vec := hole_position (pphiy P) (pphiz P) (boostv P) x.
Definition sub (q c : vec) : vec := fun i => q i - c i.

Lemma node_pos P ctr q : moving_hole P \/ resting_hole P -> eq3 (posv (ks_node P ctr q)) (hpos P (sub q ctr)).
Proof.
  intros H i Hi. unfold ks_node.
  transitivity (hole_position (pphiy P) (pphiz P) (boostv P) (v3 (q 0%nat - ctr 0%nat) (q 1%nat - ctr 1%nat) (q 2%nat - ctr 2%nat)) i).
  - destruct H; [apply position_moving|apply position_resting]; auto.
  - unfold hpos. destruct i as [|[|[|i]]]; [| | |lia]; reflexivity.
Qed.
Lemma node_R P ctr q : fR (ks_node P ctr q) = ks_R P (ks_node P ctr q).
Proof. reflexivity. Qed.

Section N.
Variables (P : kspar) (ctr q : vec) (r : R).
Hypothesis G : good_par P.
Hypothesis Hr : kerr_radius (pa P) (hpos P (sub q ctr)) r.
Let f := ks_node P ctr q.
Let X := hpos P (sub q ctr).
Lemma npos : eq3 (posv f) X. Proof. apply node_pos, G. Qed.
Lemma npos' : eq3 X (posv f). Proof. intros i Hi. symmetry. apply npos; auto. Qed.
Lemma ndisk : ~ on_disk (pa P) (posv f).
Proof. intros D. apply (disk_ext _ _ X npos) in D. apply (radius_off_disk _ _ _ Hr D). Qed.
Lemma nR : fR f = r.
Proof.
  destruct (code_radius P f ndisk) as [A B]. unfold f in *. rewrite node_R, B.
  destruct G as (_ & _ & H1 & H2). rewrite (hs_sqrt2 _ H1 H2), Rmult_1_l.
  apply (radius_unique (pa P) X); auto. eapply radius_ext; [|exact A]. apply npos.
Qed.
Lemma nKl : eq3 (Kvec P f) (kerr_l (pa P) X r).
Proof.
  intros i Hi. rewrite <- (l_ext (pa P) (posv f) X r npos i Hi). pose proof nR as E.
  unfold Kvec, kerr_l, posv, ks_K0, ks_K1, ks_K2. rewrite E. destruct i as [|[|[|i]]]; [| | |lia]; cbn [v3].
  - f_equal; ring.
  - f_equal; ring.
  - reflexivity.
Qed.
Lemma nH : ks_H P f = kerr_H (pM P) (pa P) X r.
Proof.
  rewrite <- (H_ext _ _ _ _ r npos). unfold ks_H, kerr_H, posv. cbn [v3]. rewrite nR.
  destruct G as (_ & L & _). rewrite L. f_equal; ring.
Qed.
(** the spatial part of the covector *)
Lemma nk : forall i, (i < 3)%nat -> kvec P f i = hole_covector (pa P) (pphiy P) (pphiz P) (boostv P) X r (S i).
Proof.
  intros i Hi. unfold hole_covector.
  assert (E : kvec P f i = lab_space (boostv P) (rotz (pphiz P) (roty (pphiy P) (Kvec P f))) i).
  { destruct (proj1 G) as [M|M]; [apply (covector_moving P f M)|apply (covector_resting P f M)]; auto. }
  rewrite E. apply lab_ext; auto. apply rot_ext. apply nKl.
Qed.
Lemma nkt : moving_hole P -> ks_kt P f = hole_covector (pa P) (pphiy P) (pphiz P) (boostv P) X r 0.
Proof.
  intros M. unfold hole_covector. rewrite (proj1 (covector_moving P f M)). apply lab_ext. apply rot_ext. apply nKl.
Qed.
Lemma gamma_form i j : (i <= j)%nat -> (j < 3)%nat -> kst_gamma P f i j = kron i j + ks_c P f * kvec P f i * kvec P f j.
Proof.
  intros Hi Hj. destruct i as [|[|[|i]]]; try lia; destruct j as [|[|[|j]]]; try lia;
   cbn [kst_gamma kvec]; unfold kron; cbn [Nat.eqb];
   unfold ks_gamma_D0D0, ks_gamma_D0D1, ks_gamma_D0D2, ks_gamma_D1D1, ks_gamma_D1D2, ks_gamma_D2D2; ring.
Qed.
Lemma eta_S i j : eta (S i) (S j) = kron i j.
Proof. unfold eta, kron. cbn [Nat.eqb]. destruct (Nat.eqb i j); reflexivity. Qed.
Lemma metric_closed i j : (i <= j)%nat -> (j < 3)%nat -> ks_metric P ctr q i j =
   hole_metric (pM P) (pa P) (pphiy P) (pphiz P) (boostv P) (sub q ctr) r (S i) (S j).
Proof.
  intros Hi Hj. unfold ks_metric. rewrite gamma_form by auto. unfold hole_metric. rewrite eta_S.
  unfold f in *. fold (hpos P (sub q ctr)). fold f. rewrite (nk i), (nk j) by lia. unfold ks_c. rewrite nH. unfold X. reflexivity.
Qed.

Lemma H_nonneg : 0 <= pM P -> 0 <= ks_c P f.
Proof.
  intros HM. unfold ks_c. rewrite nH. unfold kerr_H. destruct Hr as [Rp _].
  assert (0 < r ^ 3) by (apply pow_lt; auto). assert (0 < r ^ 4) by (apply pow_lt; auto).
  apply Rmult_le_pos; [lra|]. apply Rmult_le_pos; [apply Rmult_le_pos; lra|].
  left. apply Rinv_0_lt_compat. pose proof (pow2_ge_0 (pa P)). pose proof (pow2_ge_0 (X 2%nat)). nra.
Qed.
Lemma null_moving : moving_hole P -> ks_kt P f ^ 2 = dot (kvec P f) (kvec P f).
Proof.
  intros M. pose proof (proj2 M) as E.
  set (K := rotz (pphiz P) (roty (pphiy P) (kerr_l (pa P) X r))).
  assert (D : 0 < dot (boostv P) (boostv P) < 1) by (rewrite <- E; apply M).
  pose proof (lab_null (boostv P) K D) as L.
  assert (KK : dot K K = 1) by (unfold K; rewrite rotz_dot, roty_dot; apply kerr_l_unit; exact Hr).
  rewrite KK in L. rewrite (nkt M). unfold hole_covector. fold K.
  rewrite (dot_ext (kvec P f) (lab_space (boostv P) K) (kvec P f) (lab_space (boostv P) K)); [lra| |]; intros i Hi; rewrite nk by auto; reflexivity.
Qed.
Lemma null_resting : resting_hole P -> dot (kvec P f) (kvec P f) = 1.
Proof.
  intros (B & E1 & E2 & E3).
  set (K := rotz (pphiz P) (roty (pphiy P) (kerr_l (pa P) X r))).
  assert (KK : dot K K = 1) by (unfold K; rewrite rotz_dot, roty_dot; apply kerr_l_unit; exact Hr).
  rewrite <- KK. apply dot_ext; intros i Hi; rewrite nk by auto; unfold hole_covector; fold K; unfold boostv;
    rewrite E1, E2, E3, lab_space_rest by auto; reflexivity.
Qed.

(** ** inverse metric, shift *)
Definition gsym : sym3 :=
  S3 (ks_metric P ctr q 0 0) (ks_metric P ctr q 0 1) (ks_metric P ctr q 0 2)
     (ks_metric P ctr q 1 1) (ks_metric P ctr q 1 2) (ks_metric P ctr q 2 2).
Lemma gsym_pd : 0 <= pM P -> positive_definite gsym.
Proof.
  intros HM x (i & Hi & Hx). unfold quad, gsym, full, ks_metric. cbn.
  pose proof (H_nonneg HM) as C. fold f in C |- *.
  pose proof (gamma_form 0 0 ltac:(lia) ltac:(lia)) as E00. pose proof (gamma_form 0 1 ltac:(lia) ltac:(lia)) as E01.
  pose proof (gamma_form 0 2 ltac:(lia) ltac:(lia)) as E02. pose proof (gamma_form 1 1 ltac:(lia) ltac:(lia)) as E11.
  pose proof (gamma_form 1 2 ltac:(lia) ltac:(lia)) as E12. pose proof (gamma_form 2 2 ltac:(lia) ltac:(lia)) as E22.
  cbn [kst_gamma kvec] in *. rewrite E00, E01, E02, E11, E12, E22. unfold kron. cbn [Nat.eqb].
  revert C. generalize (ks_c P f) (ks_k0 P f) (ks_k1 P f) (ks_k2 P f). intros c k0 k1 k2 C.
  assert (Q : 0 < x 0%nat ^ 2 + x 1%nat ^ 2 + x 2%nat ^ 2).
  { pose proof (pow2_ge_0 (x 0%nat)); pose proof (pow2_ge_0 (x 1%nat)); pose proof (pow2_ge_0 (x 2%nat)).
    destruct i as [|[|[|i]]]; [| | |lia]; pose proof (pow2_gt_0 _ Hx); lra. }
  match goal with |- 0 < ?e => replace e with
    (x 0%nat ^ 2 + x 1%nat ^ 2 + x 2%nat ^ 2 + c * (k0 * x 0%nat + k1 * x 1%nat + k2 * x 2%nat) ^ 2) by ring end.
  pose proof (pow2_ge_0 (k0 * x 0%nat + k1 * x 1%nat + k2 * x 2%nat)). nra.
Qed.
(** lowering the shift gives back betaD *)
Lemma shift_lower : 0 <= pM P -> exists ig al be, ks_populate P ctr q = Some (ig, al, be) /\
  inverse_of (full ig) (full gsym) /\ al = ks_alpha P f /\
  (forall i, (i < 3)%nat -> Rsum 3 (fun j => entry (full gsym) i j * be j) = ks_betaD P f i).
Proof.
  intros HM. destruct (inverse_pd gsym (gsym_pd HM)) as (ig & E & I). unfold ks_populate.
  change (S3 (ks_metric P ctr q 0 0) (ks_metric P ctr q 0 1) (ks_metric P ctr q 0 2)
     (ks_metric P ctr q 1 1) (ks_metric P ctr q 1 2) (ks_metric P ctr q 2 2)) with gsym. rewrite E.
  exists ig, (ks_alpha P f), (fun i => ks_betaU P f ig i). split; [reflexivity|]. split; [exact I|]. split; [reflexivity|].
  intros i Hi.
  pose proof (fun j H => proj1 (I i j Hi H)) as A.
  pose proof (A 0%nat ltac:(lia)) as A0. pose proof (A 1%nat ltac:(lia)) as A1. pose proof (A 2%nat ltac:(lia)) as A2.
  unfold Rsum in *. cbn in A0, A1, A2. cbn [ks_betaU].
  generalize dependent (entry (full gsym) i 0). intros e0. generalize dependent (entry (full gsym) i 1). intros e1.
  generalize dependent (entry (full gsym) i 2). intros e2 A A0 A1 A2.
  set (b0 := ks_betaD P f 0). set (b1 := ks_betaD P f 1). set (b2 := ks_betaD P f 2).
  transitivity (b0 * delta i 0 + b1 * delta i 1 + b2 * delta i 2).
  { rewrite <- A0, <- A1, <- A2. cbn. ring. }
  destruct i as [|[|[|i]]]; [| | |lia]; unfold delta; cbn [Nat.eqb]; unfold b0, b1, b2; ring.
Qed.
End N.
