(** NormProofs.v - proofs for NormModel.v. *)
From Verif Require Import RealBase NormModel.
From Verif Require Base.
Import Base(outcome, Ok, Abort, UB).
From Coq Require Import Reals Lra Lia.
Open Scope R_scope.
Definition val (a : arr) (i : nat) : R := match a with Some v => v i | None => 0 end.
Lemma sum_ext n f g : (forall i, (i < n)%nat -> f i = g i) -> sum_to n f = sum_to n g.
Proof. induction n; intros H; cbn; [reflexivity|]. rewrite IHn, H by (intros; try apply H; lia). reflexivity. Qed.
Lemma sum_le n f g : (forall i, (i < n)%nat -> f i <= g i) -> sum_to n f <= sum_to n g.
Proof. induction n; intros H; cbn; [lra|]. apply Rplus_le_compat; [apply IHn; intros; apply H; lia|apply H; lia]. Qed.
Lemma sum_0 n : sum_to n (fun _ => 0) = 0.
Proof. induction n; cbn; lra. Qed.
Lemma sum_c n c : sum_to n (fun _ => c) = INR n * c.
Proof. induction n; [cbn; lra|]. rewrite S_INR. cbn [sum_to]. rewrite IHn. lra. Qed.
Lemma sum_add n f g : sum_to n (fun i => f i + g i) = sum_to n f + sum_to n g.
Proof. induction n; cbn; lra. Qed.
Lemma sum_scal n c f : sum_to n (fun i => c * f i) = c * sum_to n f.
Proof. induction n; cbn; [lra|]. rewrite IHn. lra. Qed.
Lemma sum_pos n f : (forall i, (i < n)%nat -> 0 <= f i) -> 0 <= sum_to n f.
Proof. intros H. rewrite <- (sum_0 n). apply sum_le. exact H. Qed.
Lemma sum_zero n f : (forall i, (i < n)%nat -> 0 <= f i) -> sum_to n f = 0 -> forall i, (i < n)%nat -> f i = 0.
Proof.
  induction n; intros H E i I; [lia|]. cbn in E. assert (0 <= sum_to n f) by (apply sum_pos; intros; apply H; lia). assert (0 <= f n) by (apply H; lia).
  destruct (Nat.eq_dec i n) as [->|N]; [lra|]. apply IHn; [intros; apply H; lia|lra|lia].
Qed.
Lemma pow2 x : Pow2 x = x * x. Proof. reflexivity. Qed.
Lemma sqp x : 0 <= x * x. Proof. nra. Qed.
Lemma cauchy n a b : sum_to n (fun i => a i * b i) * sum_to n (fun i => a i * b i) <= sum_to n (fun i => a i * a i) * sum_to n (fun i => b i * b i).
Proof.
  induction n; cbn; [lra|]. set (s := sum_to n (fun i => a i * b i)) in *. set (p := sum_to n (fun i => a i * a i)) in *. set (q := sum_to n (fun i => b i * b i)) in *.
  assert (P : 0 <= p) by (apply sum_pos; intros; apply sqp). assert (Q : 0 <= q) by (apply sum_pos; intros; apply sqp).
  set (x := a n). set (y := b n). clearbody s p q x y. clear a b.
  assert (K : 2 * (s * x * y) <= p * (y * y) + q * (x * x)).
  { assert (U : 0 <= p * (y * y)) by (apply Rmult_le_pos; [lra|apply sqp]). assert (V : 0 <= q * (x * x)) by (apply Rmult_le_pos; [lra|apply sqp]).
    assert (W : (s * x * y) * (s * x * y) <= (p * (y * y)) * (q * (x * x))).
    { replace ((s * x * y) * (s * x * y)) with ((s * s) * ((x * y) * (x * y))) by ring. replace ((p * (y * y)) * (q * (x * x))) with ((p * q) * ((x * y) * (x * y))) by ring.
      apply Rmult_le_compat_r; [apply sqp|exact IHn]. }
    revert U V W. generalize (s * x * y) (p * (y * y)) (q * (x * x)). intros t u v U V W.
    destruct (Rle_dec (2 * t) (u + v)); [assumption|exfalso]. assert (0 <= u + v) by lra. assert ((u + v) * (u + v) < (2 * t) * (2 * t)) by nra. pose proof (sqp (u - v)). nra. }
  nra.
Qed.
(** the three functions written with null as the zero vector *)
Lemma rs_val n a b : root_square n a b = sqrt (sum_to n (fun i => (val a i - val b i) * (val a i - val b i))).
Proof.
  destruct a as [v|], b as [w|]; cbn [root_square val]; try (f_equal; apply sum_ext; intros; rewrite pow2; ring).
  rewrite (sum_ext _ _ (fun _ => 0)), sum_0, sqrt_0 by (intros; ring). reflexivity.
Qed.
Lemma l1_val n a b : (0 < n)%nat -> L1_norm n a b = Some (sum_to n (fun i => Rabs (val a i - val b i)) / INR n).
Proof.
  intros N. destruct n as [|n]; [lia|]. destruct a as [v|], b as [w|]; unfold L1_norm; cbn [val]; do 2 f_equal; try (apply sum_ext; intros).
  - f_equal; ring.
  - replace (0 - w i) with (- w i) by ring. symmetry. apply Rabs_Ropp.
  - rewrite (sum_ext _ _ (fun _ => 0)), sum_0 by (intros; replace (0 - 0) with 0 by ring; apply Rabs_R0). unfold Rdiv. ring.
Qed.
Lemma rs_pos n a b : 0 <= root_square n a b.
Proof. rewrite rs_val. apply sqrt_pos. Qed.
Lemma rs_sq n a b : root_square n a b * root_square n a b = sum_to n (fun i => (val a i - val b i) * (val a i - val b i)).
Proof. rewrite rs_val. apply sqrt_sqrt. apply sum_pos. intros. apply sqp. Qed.
Lemma rs_sym n a b : root_square n a b = root_square n b a.
Proof. rewrite !rs_val. f_equal. apply sum_ext. intros. ring. Qed.
Lemma rs_zero n a b : root_square n a b = 0 <-> forall i, (i < n)%nat -> val a i = val b i.
Proof.
  split.
  - intros E i I. pose proof (rs_sq n a b) as Q. rewrite E, Rmult_0_l in Q. symmetry in Q. pose proof (sum_zero n _ (fun i _ => sqp _) Q i I). cbv beta in *. nra.
  - intros H. rewrite rs_val, (sum_ext _ _ (fun _ => 0)), sum_0, sqrt_0; [reflexivity|]. intros i I. rewrite (H i I). ring.
Qed.
Lemma dot_le n a b : Rabs (dot n a b) <= root_square n (Some a) None * root_square n (Some b) None.
Proof.
  apply Rsqr_incr_0_var; [|apply Rmult_le_pos; apply rs_pos]. rewrite <- Rsqr_abs. unfold Rsqr.
  replace (root_square n (Some a) None * root_square n (Some b) None * (root_square n (Some a) None * root_square n (Some b) None))
    with ((root_square n (Some a) None * root_square n (Some a) None) * (root_square n (Some b) None * root_square n (Some b) None)) by ring.
  rewrite !rs_sq. cbn [val]. unfold dot. rewrite (sum_ext n (fun i => (a i - 0) * (a i - 0)) (fun i => a i * a i)), (sum_ext n (fun i => (b i - 0) * (b i - 0)) (fun i => b i * b i)) by (intros; ring).
  apply cauchy.
Qed.
Lemma rs_tri n a b c : root_square n a c <= root_square n a b + root_square n b c.
Proof.
  pose proof (rs_pos n a b) as P. pose proof (rs_pos n b c) as Q. apply Rsqr_incr_0_var; [|lra]. unfold Rsqr. rewrite rs_sq.
  set (x := fun i => val a i - val b i). set (y := fun i => val b i - val c i).
  assert (E : sum_to n (fun i => (val a i - val c i) * (val a i - val c i)) = sum_to n (fun i => x i * x i) + 2 * dot n x y + sum_to n (fun i => y i * y i)).
  { unfold dot. rewrite <- sum_scal, <- !sum_add. apply sum_ext. intros. unfold x, y. ring. }
  rewrite E. pose proof (rs_sq n a b) as A. pose proof (rs_sq n b c) as B.
  assert (X : root_square n (Some x) None = root_square n a b) by (rewrite !rs_val; f_equal; apply sum_ext; intros; cbn [val]; unfold x; ring).
  assert (Y : root_square n (Some y) None = root_square n b c) by (rewrite !rs_val; f_equal; apply sum_ext; intros; cbn [val]; unfold y; ring).
  pose proof (dot_le n x y) as D. rewrite X, Y in D. pose proof (Rle_abs (dot n x y)). unfold x, y in *. cbv beta in *. nra.
Qed.
Lemma l1_pos n a b m : L1_norm n a b = Some m -> 0 <= m.
Proof.
  destruct n as [|n]; [destruct a, b; cbn; intros E; try discriminate; injection E; lra|]. rewrite l1_val by lia. intros E. injection E as <-.
  apply Rmult_le_pos; [apply (sum_pos (S n) (fun i => Rabs (val a i - val b i))); intros; apply Rabs_pos|]. left. apply Rinv_0_lt_compat. apply (lt_0_INR (S n)). lia.
Qed.
Lemma inr_pos n : (0 < n)%nat -> 0 < INR n. Proof. intros. apply lt_0_INR. lia. Qed.
Lemma l1_zero n a b : (0 < n)%nat -> (L1_norm n a b = Some 0 <-> forall i, (i < n)%nat -> val a i = val b i).
Proof.
  intros N. rewrite l1_val by exact N. pose proof (inr_pos n N) as P. split.
  - intros E i I. injection E as E. assert (Z : sum_to n (fun i => Rabs (val a i - val b i)) = 0).
    { apply (Rmult_eq_reg_r (/ INR n)); [unfold Rdiv in E; lra|]. apply Rgt_not_eq, Rinv_0_lt_compat, P. }
    pose proof (sum_zero n _ (fun i _ => Rabs_pos _) Z i I) as Q. cbv beta in Q. destruct (Req_dec (val a i - val b i) 0) as [|K]; [lra|]. apply Rabs_no_R0 in K. tauto.
  - intros H. f_equal. rewrite (sum_ext _ _ (fun _ => 0)), sum_0; [unfold Rdiv; ring|]. intros i I. rewrite (H i I). replace (val b i - val b i) with 0 by ring. apply Rabs_R0.
Qed.
Lemma l1_tri n a b c x y z : (0 < n)%nat -> L1_norm n a c = Some x -> L1_norm n a b = Some y -> L1_norm n b c = Some z -> x <= y + z.
Proof.
  intros N. rewrite !l1_val by exact N. intros A B C. injection A as <-. injection B as <-. injection C as <-. pose proof (inr_pos n N) as P.
  unfold Rdiv. rewrite <- Rmult_plus_distr_r. apply Rmult_le_compat_r; [left; apply Rinv_0_lt_compat, P|]. rewrite <- sum_add. apply sum_le. intros i _.
  replace (val a i - val c i) with ((val a i - val b i) + (val b i - val c i)) by ring. apply Rabs_triang.
Qed.
Lemma l1_sym n a b : L1_norm n a b = L1_norm n b a.
Proof.
  destruct n as [|n]; [destruct a, b; reflexivity|]. rewrite !l1_val by lia. do 2 f_equal. apply sum_ext. intros. apply Rabs_minus_sym.
Qed.
Lemma l2_val n a b y : (0 < n)%nat -> L2_norm n a b = Some y -> y = root_square n a b / sqrt (INR n).
Proof. intros N E. destruct n; [lia|]. unfold L2_norm in E. congruence. Qed.
Lemma l1_l2 n a b x y : (0 < n)%nat -> L1_norm n a b = Some x -> L2_norm n a b = Some y -> x <= y.
Proof.
  intros N A B. rewrite l1_val in A by exact N. injection A as <-. apply l2_val in B; [|exact N]. subst y. rename n into m.
  pose proof (inr_pos m N) as P. set (d := fun i => Rabs (val a i - val b i)).
  pose proof (cauchy m d (fun _ => 1)) as C. cbv beta in C. rewrite (sum_ext m (fun i => d i * 1) d), (sum_c m (1*1)) in C by (intros; ring).
  rewrite (sum_ext m (fun i => d i * d i) (fun i => (val a i - val b i) * (val a i - val b i))) in C by (intros; unfold d; rewrite <- Rabs_mult; apply Rabs_right, Rle_ge, sqp).
  rewrite <- rs_sq in C. fold d. assert (D : sum_to m d <= root_square m a b * sqrt (INR m)).
  { apply Rsqr_incr_0_var; [|apply Rmult_le_pos; [apply rs_pos|apply sqrt_pos]]. unfold Rsqr. pose proof (sqrt_sqrt (INR m) (Rlt_le _ _ P)). nra. }
  assert (S2 : 0 < sqrt (INR m)) by (apply sqrt_lt_R0, P). apply (Rmult_le_reg_r (INR m)); [exact P|].
  unfold Rdiv. rewrite Rmult_assoc, Rinv_l, Rmult_1_r by lra. eapply Rle_trans; [exact D|]. right.
  pose proof (sqrt_sqrt (INR m) (Rlt_le _ _ P)) as QQ. set (q := sqrt (INR m)) in *.
  rewrite <- QQ. field. lra.
Qed.
Lemma linf_loop_spec k : forall i v mx, (exists j, (j < i)%nat /\ Rabs (v j) = mx) -> (forall j, (j < i)%nat -> Rabs (v j) <= mx) ->
  (exists j, (j < i + k)%nat /\ Rabs (v j) = linf_loop k i v mx) /\ (forall j, (j < i + k)%nat -> Rabs (v j) <= linf_loop k i v mx).
Proof.
  induction k; intros i v mx E H; cbn [linf_loop]; [rewrite Nat.add_0_r; tauto|]. replace (i + S k)%nat with (S i + k)%nat by lia. apply IHk.
  - destruct (Rlt_dec mx (Rabs (v i))); [exists i; split; [lia|reflexivity]|]. destruct E as (j & J & E). exists j. split; [lia|exact E].
  - intros j J. destruct (Nat.eq_dec j i) as [->|N]; destruct (Rlt_dec mx (Rabs (v i))); try lra; specialize (H j ltac:(lia)); lra.
Qed.
Lemma linf_ok n v m : L_inf n v = Ok m <-> exists w, v = Some w /\ (exists i, (i < n)%nat /\ Rabs (w i) = m) /\ (forall i, (i < n)%nat -> Rabs (w i) <= m).
Proof.
  assert (K : forall w k, (exists j, (j < 1 + k)%nat /\ Rabs (w j) = linf_loop k 1 w (Rabs (w 0%nat))) /\ (forall j, (j < 1 + k)%nat -> Rabs (w j) <= linf_loop k 1 w (Rabs (w 0%nat)))).
  { intros w k. apply linf_loop_spec; [exists 0%nat; split; [lia|reflexivity]|]. intros j J. replace j with 0%nat by lia. lra. }
  destruct v as [w|], n as [|k]; cbn [L_inf]; (split; [intros E; try discriminate|intros (w' & E & (i & I & A) & B); try discriminate; try lia]).
  - injection E as <-. exists w. split; [reflexivity|]. apply K.
  - injection E as <-. destruct (K w k) as [(j & J & C) D]. f_equal. apply Rle_antisym; [rewrite <- C; apply B; lia|rewrite <- A; apply D; lia].
Qed.
Lemma linf_l2 n v x y : L_inf n (Some v) = Ok x -> L2_norm n (Some v) None = Some y -> y <= x.
Proof.
  intros A B. apply linf_ok in A. destruct A as (w & E & (i & I & A) & H). injection E as <-. assert (N : (0 < n)%nat) by lia. apply l2_val in B; [|exact N]. subst y. rename n into m.
  pose proof (inr_pos m N) as P. assert (S2 : 0 < sqrt (INR m)) by (apply sqrt_lt_R0, P). assert (X : 0 <= x) by (rewrite <- A; apply Rabs_pos).
  apply (Rmult_le_reg_r (sqrt (INR m))); [exact S2|]. unfold Rdiv. rewrite Rmult_assoc, Rinv_l, Rmult_1_r by lra.
  apply Rsqr_incr_0_var; [|apply Rmult_le_pos; lra]. unfold Rsqr. rewrite rs_sq. replace (x * sqrt (INR m) * (x * sqrt (INR m))) with ((sqrt (INR m) * sqrt (INR m)) * (x * x)) by ring.
  rewrite sqrt_sqrt by lra. rewrite <- sum_c. apply sum_le. intros j J. cbn [val]. specialize (H j J). pose proof (Rabs_pos (v j)).
  replace ((v j - 0) * (v j - 0)) with (Rabs (v j) * Rabs (v j)); [nra|]. rewrite <- Rabs_mult, Rabs_right by (apply Rle_ge, sqp). ring.
Qed.
Lemma maxmag a b : MaxMag_d a b = Rmax (Rabs a) (Rabs b).
Proof. unfold MaxMag_d, Rmax. destruct (Rlt_dec _ _), (Rle_dec _ _); lra. Qed.
