(** TrigSums.v - trigonometric sums used by the spectral theorems. *)
From Verif Require Import RealBase.

Lemma cos_INR_PI n : cos (INR n * PI) = if Nat.even n then 1 else -1.
Proof.
  induction n.
  - cbn. rewrite Rmult_0_l. apply cos_0.
  - rewrite S_INR, Rmult_plus_distr_r, Rmult_1_l, neg_cos, IHn, Nat.even_succ, <- Nat.negb_even.
    destruct (Nat.even n); cbn; lra.
Qed.
Lemma sin_INR_PI n : sin (INR n * PI) = 0.
Proof.
  induction n.
  - cbn. rewrite Rmult_0_l. apply sin_0.
  - rewrite S_INR, Rmult_plus_distr_r, Rmult_1_l, neg_sin, IHn. lra.
Qed.
Lemma cos_2nPI x n : cos (x + 2 * INR n * PI) = cos x.
Proof. apply cos_period. Qed.
Lemma sin_2nPI x n : sin (x + 2 * INR n * PI) = sin x.
Proof. apply sin_period. Qed.

Lemma cos_cos a b : 2 * (cos a * cos b) = cos (a + b) + cos (a - b).
Proof. rewrite cos_plus, cos_minus. ring. Qed.

(** Dirichlet kernel: 2 sin(a/2) sum_{i=1..N} cos(i a) = sin((N+1/2)a) - sin(a/2) *)
Lemma dirichlet N a : 2 * sin (a/2) * Rsum N (fun i => cos (INR (S i) * a)) = sin ((INR N + /2) * a) - sin (a/2).
Proof.
  induction N.
  - cbn [Rsum]. rewrite Rmult_0_r. replace ((INR 0 + /2) * a) with (a/2) by (cbn; field). ring.
  - cbn [Rsum]. rewrite Rmult_plus_distr_l, IHN.
    replace ((INR N + /2) * a) with (INR (S N) * a - a/2) by (rewrite S_INR; field).
    replace ((INR (S N) + /2) * a) with (INR (S N) * a + a/2) by field.
    rewrite sin_plus, sin_minus. ring.
Qed.

(** Trapezoidal sum over 0..M. *)
Definition W (M : nat) (f : nat -> R) : R := f O / 2 + Rsum (M - 1) (fun t => f (S t)) + f M / 2.
Lemma W_ext M f g : (forall k, (k <= M)%nat -> f k = g k) -> W M f = W M g.
Proof.
  intros H. unfold W. rewrite (H O), (H M) by lia.
  rewrite (Rsum_ext (M-1) _ (fun t => g (S t))); auto. intros. apply H. lia.
Qed.
Lemma W_plus M f g : W M (fun k => f k + g k) = W M f + W M g.
Proof. unfold W. rewrite Rsum_plus. lra. Qed.
Lemma W_scal M c f : W M (fun k => c * f k) = c * W M f.
Proof. unfold W. rewrite Rsum_scal. lra. Qed.
Lemma W_exchange M N (f : nat -> nat -> R) : W M (fun i => W N (fun j => f i j)) = W N (fun j => W M (fun i => f i j)).
Proof.
  unfold W.
  rewrite !Rsum_plus.
  rewrite (Rsum_exchange (M-1) (N-1)).
  assert (E : forall n g, Rsum n (fun i => g i / 2) = Rsum n g / 2) by (intros; induction n; cbn; lra).
  rewrite !E. lra.
Qed.
Lemma W_Rsum M N (f : nat -> nat -> R) : W M (fun i => Rsum N (fun j => f i j)) = Rsum N (fun j => W M (fun i => f i j)).
Proof.
  unfold W. rewrite !Rsum_plus, (Rsum_exchange (M-1) N).
  assert (E : forall n g, Rsum n (fun i => g i / 2) = Rsum n g / 2) by (intros; induction n; cbn; lra).
  rewrite (E N (fun j => f O j)), (E N (fun j => f M j)). lra.
Qed.
Lemma W_zero M f : (forall k, (k <= M)%nat -> f k = 0) -> W M f = 0.
Proof. intros. unfold W. rewrite (Rsum_zero (M-1)), (H O), (H M) by (intros; try apply H; lia). lra. Qed.
Lemma W_single M i f : (0 < M)%nat -> (i <= M)%nat -> (forall k, (k <= M)%nat -> k <> i -> f k = 0) ->
  W M f = f i * (if ((i =? 0) || (i =? M))%nat then /2 else 1).
Proof.
  intros HM Hi H. unfold W.
  destruct (Nat.eqb_spec i 0), (Nat.eqb_spec i M); cbn [orb].
  - lia.
  - subst. rewrite (Rsum_zero (M-1)), (H M) by (intros; try apply H; lia). field.
  - subst. rewrite (Rsum_zero (M-1)), (H O) by (intros; try apply H; lia). field.
  - rewrite (Rsum_single (M-1) (i-1)), (H O), (H M).
    + replace (S (i - 1)) with i by lia. field.
    + lia. + lia. + lia. + lia. + lia.
    + intros. apply H; lia.
Qed.

Lemma W_cos M m : (0 < M)%nat -> sin (INR m * PI / INR M / 2) <> 0 -> W M (fun k => cos (INR k * (INR m * PI / INR M))) = 0.
Proof.
  intros HM Hs. set (a := INR m * PI / INR M) in *.
  assert (HMr : INR M <> 0) by (apply not_0_INR; lia).
  apply (Rmult_eq_reg_l (2 * sin (a/2))); [|lra].
  unfold W. rewrite Rmult_0_r.
  transitivity (sin (a/2) * (cos (INR 0 * a) + cos (INR M * a)) + 2 * sin (a/2) * Rsum (M-1) (fun t => cos (INR (S t) * a))).
  { field. }
  rewrite dirichlet.
  replace ((INR (M - 1) + /2) * a) with (INR M * a - a/2) by (rewrite minus_INR by lia; cbn; field).
  replace (INR M * a) with (INR m * PI) by (unfold a; field; auto).
  rewrite sin_minus, sin_INR_PI. cbn [INR]. rewrite Rmult_0_l, cos_0. ring.
Qed.
Lemma W_cos_period M q : W (S M) (fun k => cos (INR k * (2 * INR q * PI))) = INR (S M).
Proof.
  assert (E : forall k, cos (INR k * (2 * INR q * PI)) = 1).
  { intros k. replace (INR k * (2 * INR q * PI)) with (0 + 2 * INR (k*q) * PI) by (rewrite mult_INR; ring).
    rewrite cos_2nPI. apply cos_0. }
  unfold W. rewrite !E. rewrite (Rsum_ext _ _ (fun _ => 1)) by (intros; apply E).
  rewrite Rsum_const. rewrite S_INR. replace (S M - 1)%nat with M by lia. lra.
Qed.

Lemma sin_pos_nz m M : (0 < m < 2 * M)%nat -> sin (INR m * PI / INR M / 2) <> 0.
Proof.
  intros H. pose proof PI_RGT_0.
  assert (0 < INR M) by (apply lt_0_INR; lia).
  assert (0 < INR m) by (apply lt_0_INR; lia).
  assert (INR m < 2 * INR M). { replace 2 with (INR 2) by (cbn; lra). rewrite <- mult_INR. apply lt_INR. lia. }
  assert (0 < sin (INR m * PI / INR M / 2)); [|lra].
  apply sin_gt_0.
  - apply Rdiv_lt_0_compat; [|lra]. apply Rdiv_lt_0_compat; [|lra]. apply Rmult_lt_0_compat; lra.
  - apply (Rmult_lt_reg_r (2 * INR M)); [lra|].
    replace (INR m * PI / INR M / 2 * (2 * INR M)) with (INR m * PI) by (field; lra).
    rewrite (Rmult_comm PI). apply Rmult_lt_compat_r; lra.
Qed.

(** Discrete orthogonality on the extrema grid. *)
Lemma W_orth M i k : (0 < M)%nat -> (i <= M)%nat -> (k <= M)%nat ->
  W M (fun j => cos (INR j * (INR i * PI / INR M)) * cos (INR j * (INR k * PI / INR M))) =
  if (i =? k)%nat then (if ((i =? 0) || (i =? M))%nat then INR M else INR M / 2) else 0.
Proof.
  intros HM Hi Hk.
  assert (HMr : INR M <> 0) by (apply not_0_INR; lia).
  apply (Rmult_eq_reg_l 2); [|lra]. rewrite <- W_scal.
  assert (D : exists d, (d <= M)%nat /\ (d = 0 <-> i = k)%nat /\ forall j, cos (INR j * (INR i * PI / INR M) - INR j * (INR k * PI / INR M)) = cos (INR j * (INR d * PI / INR M))).
  { destruct (Nat.le_ge_cases k i).
    - exists (i - k)%nat. split; [lia|split; [lia|]]. intros. f_equal. rewrite minus_INR by lia. field; auto.
    - exists (k - i)%nat. split; [lia|split; [lia|]]. intros. rewrite <- cos_neg. f_equal. rewrite minus_INR by lia. field; auto. }
  destruct D as (d & Hd & Hd0 & HD).
  rewrite (W_ext M _ (fun j => cos (INR j * (INR (i + k) * PI / INR M)) + cos (INR j * (INR d * PI / INR M)))).
  2:{ intros j _. rewrite cos_cos, HD. f_equal. f_equal. rewrite plus_INR. field; auto. }
  rewrite W_plus.
  assert (A : W M (fun j => cos (INR j * (INR (i + k) * PI / INR M))) = if ((i + k =? 0) || (i + k =? 2 * M))%nat then INR M else 0).
  { destruct (Nat.eqb_spec (i+k) 0); cbn [orb].
    - rewrite e. destruct M; [lia|]. transitivity (W (S M) (fun k => cos (INR k * (2 * INR 0 * PI)))); [|apply W_cos_period]. apply W_ext. intros. f_equal. cbn [INR]. field. auto.
    - destruct (Nat.eqb_spec (i+k) (2*M)).
      + rewrite e. destruct M; [lia|]. transitivity (W (S M) (fun k => cos (INR k * (2 * INR 1 * PI)))); [|apply W_cos_period]. apply W_ext. intros. f_equal. rewrite mult_INR. cbn [INR]. field. auto.
      + apply W_cos; auto. apply sin_pos_nz. lia. }
  assert (B : W M (fun j => cos (INR j * (INR d * PI / INR M))) = if (d =? 0)%nat then INR M else 0).
  { destruct (Nat.eqb_spec d 0).
    - subst d. destruct M; [lia|]. transitivity (W (S M) (fun k => cos (INR k * (2 * INR 0 * PI)))); [|apply W_cos_period]. apply W_ext. intros. f_equal. cbn [INR]. field. auto.
    - apply W_cos; auto. apply sin_pos_nz. lia. }
  rewrite A, B.
  destruct (Nat.eqb_spec i k), (Nat.eqb_spec d 0); try lia.
  - destruct (Nat.eqb_spec (i+k) 0), (Nat.eqb_spec (i+k) (2*M)), (Nat.eqb_spec i 0), (Nat.eqb_spec i M); cbn [orb]; try lia; lra.
  - destruct (Nat.eqb_spec (i+k) 0), (Nat.eqb_spec (i+k) (2*M)); cbn [orb]; try lia; lra.
Qed.

(** Nodes grid: angles (k+1/2) pi / n, k < n. *)
Lemma nodes_cos n m : (0 < n)%nat -> sin (INR m * PI / INR n / 2) <> 0 ->
  Rsum n (fun k => cos ((INR k + /2) * (INR m * PI / INR n))) = 0.
Proof.
  intros Hn Hs. set (a := INR m * PI / INR n) in *.
  assert (Hr : INR n <> 0) by (apply not_0_INR; lia).
  assert (T : forall N, 2 * sin (a/2) * Rsum N (fun k => cos ((INR k + /2) * a)) = sin (INR N * a)).
  { induction N. - cbn. rewrite Rmult_0_l, sin_0. ring.
    - cbn [Rsum]. rewrite Rmult_plus_distr_l, IHN.
      replace (INR N * a) with ((INR N + /2) * a - a/2) by field.
      replace (INR (S N) * a) with ((INR N + /2) * a + a/2) by (rewrite S_INR; field).
      rewrite sin_plus, sin_minus. ring. }
  apply (Rmult_eq_reg_l (2 * sin (a/2))); [|lra]. rewrite T, Rmult_0_r.
  replace (INR n * a) with (INR m * PI) by (unfold a; field; auto). apply sin_INR_PI.
Qed.
Lemma nodes_orth n i k : (0 < n)%nat -> (i < n)%nat -> (k < n)%nat ->
  Rsum n (fun j => cos ((INR j + /2) * (INR i * PI / INR n)) * cos ((INR j + /2) * (INR k * PI / INR n))) =
  if (i =? k)%nat then (if (i =? 0)%nat then INR n else INR n / 2) else 0.
Proof.
  intros Hn Hi Hk.
  assert (Hr : INR n <> 0) by (apply not_0_INR; lia).
  apply (Rmult_eq_reg_l 2); [|lra]. rewrite <- Rsum_scal.
  assert (D : exists d, (d < n)%nat /\ (d = 0 <-> i = k)%nat /\ forall x, cos (x * (INR i * PI / INR n) - x * (INR k * PI / INR n)) = cos (x * (INR d * PI / INR n))).
  { destruct (Nat.le_ge_cases k i).
    - exists (i - k)%nat. split; [lia|split; [lia|]]. intros. f_equal. rewrite minus_INR by lia. field; auto.
    - exists (k - i)%nat. split; [lia|split; [lia|]]. intros. rewrite <- cos_neg. f_equal. rewrite minus_INR by lia. field; auto. }
  destruct D as (d & Hd & Hd0 & HD).
  rewrite (Rsum_ext n _ (fun j => cos ((INR j + /2) * (INR (i + k) * PI / INR n)) + cos ((INR j + /2) * (INR d * PI / INR n)))).
  2:{ intros j _. rewrite cos_cos, HD. f_equal. f_equal. rewrite plus_INR. field; auto. }
  rewrite Rsum_plus.
  assert (Z : forall m, (m = 0)%nat -> Rsum n (fun j => cos ((INR j + /2) * (INR m * PI / INR n))) = INR n).
  { intros m ->. rewrite (Rsum_ext n _ (fun _ => 1)). rewrite Rsum_const; ring.
    intros. cbn [INR]. replace ((INR i0 + /2) * (0 * PI / INR n)) with 0 by (field; auto). apply cos_0. }
  destruct (Nat.eqb_spec i k).
  - subst k. rewrite (Z d) by lia. destruct (Nat.eqb_spec i 0).
    + rewrite Z by lia. ring.
    + rewrite nodes_cos; auto. lra. apply sin_pos_nz. lia.
  - rewrite !nodes_cos; auto. lra. all: apply sin_pos_nz; lia.
Qed.
Lemma W_orth_dual n i k : (0 < n)%nat -> (i < n)%nat -> (k < n)%nat -> i <> k ->
  1 + 2 * Rsum (n - 1) (fun t => cos ((INR i + /2) * (INR (S t) * PI / INR n)) * cos ((INR k + /2) * (INR (S t) * PI / INR n))) = 0.
Proof.
  intros Hn Hi Hk Hne.
  assert (Hr : INR n <> 0) by (apply not_0_INR; lia).
  rewrite <- Rsum_scal.
  assert (D : exists d, (0 < d < n)%nat /\ forall x, cos ((INR i + /2) * x - (INR k + /2) * x) = cos (INR d * x)).
  { destruct (Nat.le_ge_cases k i).
    - exists (i - k)%nat. split; [lia|]. intros. f_equal. rewrite minus_INR by lia. ring.
    - exists (k - i)%nat. split; [lia|]. intros. rewrite <- cos_neg. f_equal. rewrite minus_INR by lia. ring. }
  destruct D as (d & Hd & HD).
  rewrite (Rsum_ext (n-1) _ (fun t => cos (INR (S t) * (INR (i + k + 1) * PI / INR n)) + cos (INR (S t) * (INR d * PI / INR n)))).
  2:{ intros t _. rewrite cos_cos, HD. f_equal; f_equal; rewrite ?plus_INR; cbn [INR]; field; auto. }
  rewrite Rsum_plus.
  assert (E : forall m, (0 < m < 2 * n)%nat -> Rsum (n-1) (fun t => cos (INR (S t) * (INR m * PI / INR n))) = - (1 + cos (INR m * PI)) / 2).
  { intros m Hm. pose proof (W_cos n m Hn (sin_pos_nz m n Hm)) as Z. unfold W in Z.
    change (INR 0) with 0 in Z. rewrite Rmult_0_l, cos_0 in Z.
    replace (INR n * (INR m * PI / INR n)) with (INR m * PI) in Z by (field; auto). lra. }
  rewrite (E (i+k+1)%nat), (E d) by lia. rewrite !cos_INR_PI.
  assert (Nat.even (i+k+1) = negb (Nat.even d)) as ->.
  { pose proof (HD PI) as P. 
    assert (X : Nat.even (i+k) = Nat.even d).
    { assert (Q : cos (INR i * PI - INR k * PI) = cos (INR d * PI)) by (rewrite <- HD; f_equal; field).
      rewrite cos_minus, !sin_INR_PI, !cos_INR_PI in Q. rewrite Nat.even_add.
      destruct (Nat.even i), (Nat.even k), (Nat.even d); cbn; auto; exfalso; lra. }
    rewrite <- X, !Nat.even_add. destruct (Nat.even i), (Nat.even k); reflexivity. }
  destruct (Nat.even d); cbn; lra.
Qed.
