(** SpectralProofs.v - Chebyshev transforms, interpolation and derivatives are exact on polynomials. *)
From Verif Require Import RealBase TrigSums SpectralModel SpectralSpec ChebProofs.
From Verif Require Base.
Import Base(outcome, Ok, Abort, UB, obind).
Open Scope R_scope.

(** ** polynomials and Chebyshev series *)
Definition inspan (m : nat) (f : R -> R) : Prop := exists d : nat -> R, forall x, f x = Rsum m (fun k => d k * T k x).

Lemma inspan_ext m f g : (forall x, f x = g x) -> inspan m f -> inspan m g.
Proof. intros H [d Hd]. exists d. intros. rewrite <- H. apply Hd. Qed.
Lemma inspan_mono m m' f : (m <= m')%nat -> inspan m f -> inspan m' f.
Proof.
  intros Hm [d Hd]. exists (fun k => if Nat.ltb k m then d k else 0). intros x. rewrite Hd.
  replace m' with (m + (m' - m))%nat by lia. rewrite Rsum_app.
  rewrite (Rsum_zero (m' - m)); [rewrite Rplus_0_r; apply Rsum_ext|]; intros i Hi.
  - destruct (Nat.ltb_spec i m); [reflexivity|lia].
  - destruct (Nat.ltb_spec (m + i) m); [lia|ring].
Qed.
Lemma inspan_plus m f g : inspan m f -> inspan m g -> inspan m (fun x => f x + g x).
Proof.
  intros [d Hd] [e He]. exists (fun k => d k + e k). intros. rewrite Hd, He, <- Rsum_plus. apply Rsum_ext. intros. ring.
Qed.
Lemma inspan_scal m c f : inspan m f -> inspan m (fun x => c * f x).
Proof. intros [d Hd]. exists (fun k => c * d k). intros. rewrite Hd, <- Rsum_scal. apply Rsum_ext. intros. ring. Qed.
Lemma inspan_zero m : inspan m (fun _ => 0).
Proof. exists (fun _ => 0). intros. symmetry. apply Rsum_zero. intros. ring. Qed.
Lemma inspan_T k : inspan (S k) (T k).
Proof.
  exists (fun i => if Nat.eqb i k then 1 else 0). intros x. rewrite (Rsum_single (S k) k).
  - rewrite Nat.eqb_refl. ring. - lia. - intros i Hi Hne. destruct (Nat.eqb_spec i k); [congruence|ring].
Qed.
Lemma inspan_xT k : inspan (S (S k)) (fun x => x * T k x).
Proof.
  destruct k.
  - apply (inspan_ext _ (T 1)). intros. rewrite T_1, T_0. ring. apply inspan_T.
  - apply (inspan_ext _ (fun x => /2 * T (S (S k)) x + /2 * T k x)).
    + intros. rewrite T_SS. field.
    + apply inspan_plus; apply inspan_scal. apply inspan_T. apply (inspan_mono (S k)); [lia|apply inspan_T].
Qed.
Lemma inspan_sum m N (f : nat -> R -> R) : (forall k, (k < N)%nat -> inspan m (f k)) -> inspan m (fun x => Rsum N (fun k => f k x)).
Proof.
  induction N; intros H; cbn [Rsum].
  - apply inspan_zero.
  - apply inspan_plus; [apply IHN; intros; apply H; lia|apply H; lia].
Qed.
Lemma inspan_x m f : inspan m f -> inspan (S m) (fun x => x * f x).
Proof.
  intros [d Hd]. apply (inspan_ext _ (fun x => Rsum m (fun k => d k * (x * T k x)))).
  - intros. rewrite Hd, <- Rsum_scal. apply Rsum_ext. intros; ring.
  - apply inspan_sum. intros. apply inspan_scal. apply (inspan_mono (S (S k))); [lia|apply inspan_xT].
Qed.
Lemma poly_span a b p : inspan (length p) (fun x => peval p (a * x + b)).
Proof.
  induction p as [|c q IH]; cbn [length peval].
  - apply inspan_zero.
  - apply (inspan_ext _ (fun x => c * T 0 x + (a * (x * peval q (a * x + b)) + b * peval q (a * x + b)))).
    { intros. rewrite T_0. ring. }
    apply inspan_plus. apply inspan_scal. apply (inspan_mono 1); [lia|apply inspan_T].
    apply inspan_plus; apply inspan_scal. apply inspan_x; auto. apply (inspan_mono (length q)); [lia|auto].
Qed.
(** the other way *)
Definition ispoly (m : nat) (f : R -> R) : Prop := exists p, length p = m /\ forall x, f x = peval p x.
Fixpoint padd (p q : list R) : list R := match p, q with a :: p, b :: q => a + b :: padd p q | _, _ => [] end.
Lemma padd_eval p : forall q x, length p = length q -> peval (padd p q) x = peval p x + peval q x /\ length (padd p q) = length p.
Proof.
  induction p as [|a p IH]; intros [|b q] x H; cbn in *; try discriminate. split; [ring|auto].
  destruct (IH q x) as [E1 E2]; [lia|]. rewrite E1, E2. split; [ring|auto].
Qed.
Lemma ispoly_ext m f g : (forall x, f x = g x) -> ispoly m f -> ispoly m g.
Proof. intros H (p & Hl & Hp). exists p; split; auto. intros. rewrite <- H; auto. Qed.
Lemma ispoly_plus m f g : ispoly m f -> ispoly m g -> ispoly m (fun x => f x + g x).
Proof.
  intros (p & Hl & Hp) (q & Hl' & Hq). exists (padd p q). split.
  - destruct (padd_eval p q 0) as [_ E]; [congruence|]. congruence.
  - intros. destruct (padd_eval p q x) as [E _]; [congruence|]. rewrite E, Hp, Hq. reflexivity.
Qed.
Lemma ispoly_scal m c f : ispoly m f -> ispoly m (fun x => c * f x).
Proof.
  intros (p & Hl & Hp). exists (map (fun a => c * a) p). rewrite map_length. split; auto. intros x. rewrite Hp. clear.
  induction p; cbn; [ring|]. rewrite <- IHp. ring.
Qed.
Lemma ispoly_S m f : ispoly m f -> ispoly (S m) f.
Proof.
  intros (p & Hl & Hp). exists (p ++ [0]). rewrite app_length; cbn. split; [lia|]. intros. rewrite Hp. clear.
  induction p; cbn; [ring|]. rewrite IHp. reflexivity.
Qed.
Lemma ispoly_mono m m' f : (m <= m')%nat -> ispoly m f -> ispoly m' f.
Proof. induction 1; auto. intros. apply ispoly_S. auto. Qed.
Lemma ispoly_x m f : ispoly m f -> ispoly (S m) (fun x => x * f x).
Proof. intros (p & Hl & Hp). exists (0 :: p). cbn. split; [lia|]. intros. rewrite Hp. ring. Qed.
Lemma ispoly_zero m : ispoly m (fun _ => 0).
Proof. apply (ispoly_mono 0); [lia|]. exists []. split; auto. Qed.
Lemma ispoly_const c : ispoly 1 (fun _ => c).
Proof. exists [c]. split; auto. intros. cbn. ring. Qed.
Lemma ispoly_T a b k : ispoly (S k) (fun y => T k (a * y + b)).
Proof.
  assert (G : ispoly (S k) (fun y => T k (a * y + b)) /\ ispoly (S (S k)) (fun y => T (S k) (a * y + b))); [|apply G].
  induction k.
  - split.
    + apply (ispoly_ext _ (fun _ => 1)); [intros; rewrite T_0; reflexivity|]. apply ispoly_const.
    + exists [b; a]. split; auto. intros. rewrite T_1. cbn. ring.
  - destruct IHk as [A B]. split; auto.
    apply (ispoly_ext _ (fun y => (2 * (a * (y * T (S k) (a*y+b)) + b * T (S k) (a*y+b))) + (-1) * T k (a*y+b))).
    { intros. rewrite T_SS. ring. }
    apply ispoly_plus; apply ispoly_scal.
    + apply ispoly_plus; apply ispoly_scal. apply ispoly_x; auto. apply ispoly_S; auto.
    + apply ispoly_S, ispoly_S; auto.
Qed.
Lemma ispoly_sum m N (f : nat -> R -> R) : (forall k, (k < N)%nat -> ispoly m (f k)) -> ispoly m (fun x => Rsum N (fun k => f k x)).
Proof.
  induction N; intros H; cbn [Rsum].
  - apply ispoly_zero.
  - apply ispoly_plus; [apply IHN; intros; apply H; lia|apply H; lia].
Qed.
Lemma series_poly a b m d : ispoly m (fun y => Rsum m (fun k => d k * T k (a * y + b))).
Proof. apply ispoly_sum. intros. apply ispoly_scal. apply (ispoly_mono (S k)); [lia|apply ispoly_T]. Qed.

(** ** coefficients *)
Lemma coeffs_extrema v n : (2 <= n)%nat -> exists C, rft_1d_ChebyshevExtrema_coeffs v n = Some C /\
  forall i, C i = W (n-1) (fun j => v j * cos (INR j * (INR i * PI / INR (n-1)))) / INR (n-1).
Proof.
  intros Hn. assert (Hr : INR (n-1) <> 0) by (apply not_0_INR; lia).
  unfold rft_1d_ChebyshevExtrema_coeffs. rewrite fdiv_some by auto. cbn [fbind].
  eexists; split; [reflexivity|]. intros i. cbv beta zeta.
  unfold W. replace (n - 1 - 1)%nat with (n - 2)%nat by lia.
  rewrite (Rsum_ext (n-2) (fun t => v (S t) * cos (INR (S t) * (INR i * PI / INR (n-1)))) (fun t => v (S t) * cos (INR (S t) * (INR i * (PI / INR (n - 1))))))
    by (intros; do 2 f_equal; field; auto).
  change (INR 0) with 0. rewrite Rmult_0_l, cos_0.
  replace (INR (n-1) * (INR i * PI / INR (n-1))) with (INR i * PI) by (field; auto).
  rewrite cos_INR_PI. fold (SIGN i). field. auto.
Qed.
Lemma coeffs_nodes v n : (1 <= n)%nat -> exists C, rft_1d_ChebyshevNodes_coeffs v n = Some C /\
  forall i, C i = Rsum n (fun j => v j * cos ((INR j + /2) * (INR i * PI / INR n))) / INR n.
Proof.
  intros Hn. assert (Hr : INR n <> 0) by (apply not_0_INR; lia).
  unfold rft_1d_ChebyshevNodes_coeffs. rewrite fdiv_some by auto. cbn [fbind].
  eexists; split; [reflexivity|]. intros i. cbv beta zeta. f_equal. apply Rsum_ext. intros. do 2 f_equal. field; auto.
Qed.
Definition wE (n i : nat) : R := if ((i =? 0) || (i =? n-1))%nat then 1 else /2.
Definition wN (i : nat) : R := if (i =? 0)%nat then 1 else /2.

Lemma T_extrema n k j : (2 <= n)%nat -> T k (colloc_extrema n j) = cos (INR j * (INR k * PI / INR (n-1))).
Proof.
  intros. assert (Hr : INR (n-1) <> 0) by (apply not_0_INR; lia).
  unfold colloc_extrema. rewrite T_cos. f_equal. field; auto.
Qed.
Lemma T_nodes n k j : (1 <= n)%nat -> T k (colloc_nodes n j) = cos ((INR j + /2) * (INR k * PI / INR n)).
Proof.
  intros. assert (Hr : INR n <> 0) by (apply not_0_INR; lia).
  unfold colloc_nodes. rewrite T_cos. f_equal. field; auto.
Qed.

Lemma coeffs_extrema_series v n d : (2 <= n)%nat ->
  (forall j, (j < n)%nat -> v j = Rsum n (fun k => d k * T k (colloc_extrema n j))) ->
  exists C, rft_1d_ChebyshevExtrema_coeffs v n = Some C /\ forall i, (i < n)%nat -> C i = d i * wE n i.
Proof.
  intros Hn Hv. assert (Hr : INR (n-1) <> 0) by (apply not_0_INR; lia).
  destruct (coeffs_extrema v n Hn) as (C & E & HC). exists C; split; auto. intros i Hi. rewrite HC.
  rewrite (W_ext _ _ (fun j => Rsum n (fun k => d k * (cos (INR j * (INR i * PI / INR (n-1))) * cos (INR j * (INR k * PI / INR (n-1))))))).
  2:{ intros j Hj. rewrite Hv by lia. rewrite <- Rsum_scal_r. apply Rsum_ext. intros k Hk. rewrite T_extrema by auto. ring. }
  rewrite W_Rsum. rewrite (Rsum_single n i); auto.
  - rewrite W_scal, W_orth by lia. rewrite Nat.eqb_refl. unfold wE. destruct ((i =? 0) || (i =? n-1))%nat; field; auto.
  - intros k Hk Hne. rewrite W_scal, W_orth by lia. destruct (Nat.eqb_spec i k); [congruence|ring].
Qed.
Lemma coeffs_nodes_series v n d : (1 <= n)%nat ->
  (forall j, (j < n)%nat -> v j = Rsum n (fun k => d k * T k (colloc_nodes n j))) ->
  exists C, rft_1d_ChebyshevNodes_coeffs v n = Some C /\ forall i, (i < n)%nat -> C i = d i * wN i.
Proof.
  intros Hn Hv. assert (Hr : INR n <> 0) by (apply not_0_INR; lia).
  destruct (coeffs_nodes v n Hn) as (C & E & HC). exists C; split; auto. intros i Hi. rewrite HC.
  rewrite (Rsum_ext n _ (fun j => Rsum n (fun k => d k * (cos ((INR j + /2) * (INR i * PI / INR n)) * cos ((INR j + /2) * (INR k * PI / INR n)))))).
  2:{ intros j Hj. rewrite Hv by lia. rewrite <- Rsum_scal_r. apply Rsum_ext. intros k Hk. rewrite T_nodes by auto. ring. }
  rewrite Rsum_exchange. rewrite (Rsum_single n i); auto.
  - rewrite Rsum_scal, nodes_orth by lia. rewrite Nat.eqb_refl. unfold wN. destruct (i =? 0)%nat; field; auto.
  - intros k Hk Hne. rewrite Rsum_scal, nodes_orth by lia. destruct (Nat.eqb_spec i k); [congruence|ring].
Qed.

(** any values are the values of a Chebyshev series of n terms *)
Lemma W_as_sum M f : (0 < M)%nat -> W M f = Rsum (S M) (fun k => f k * (if ((k =? 0) || (k =? M))%nat then /2 else 1)).
Proof.
  intros HM. unfold W. rewrite Rsum_S_l. destruct M as [|m]; [lia|]. cbn [Rsum Nat.eqb orb]. rewrite Nat.eqb_refl.
  replace (S m - 1)%nat with m by lia.
  rewrite (Rsum_ext m (fun i => f (S i) * (if (i =? m)%nat then / 2 else 1)) (fun t => f (S t))). lra.
  intros i Hi. destruct (Nat.eqb_spec i m); [lia|ring].
Qed.
Lemma values_extrema_series v n : (2 <= n)%nat ->
  exists d, forall j, (j < n)%nat -> v j = Rsum n (fun k => d k * T k (colloc_extrema n j)).
Proof.
  intros Hn. assert (Hr : INR (n-1) <> 0) by (apply not_0_INR; lia).
  exists (fun k => 2 / INR (n-1) * W (n-1) (fun j => v j * cos (INR j * (INR k * PI / INR (n-1)))) * (if ((k =? 0) || (k =? n-1))%nat then /2 else 1)).
  intros j Hj.
  transitivity (2 / INR (n-1) * W (n-1) (fun k => W (n-1) (fun l => v l * (cos (INR l * (INR k * PI / INR (n-1))) * cos (INR j * (INR k * PI / INR (n-1))))))).
  - rewrite W_exchange.
    rewrite (W_ext _ _ (fun l => v l * W (n-1) (fun k => cos (INR k * (INR l * PI / INR (n-1))) * cos (INR k * (INR j * PI / INR (n-1)))))).
    2:{ intros l Hl. rewrite <- W_scal. apply W_ext. intros k Hk. do 3 f_equal; field; auto. }
    rewrite (W_single (n-1) j); [|lia|lia|intros k Hk Hne; rewrite W_orth by lia; destruct (Nat.eqb_spec k j); [congruence|ring]].
    rewrite W_orth by lia. rewrite Nat.eqb_refl. destruct ((j =? 0) || (j =? n-1))%nat; field; auto.
  - rewrite W_as_sum by lia. replace (S (n-1)) with n by lia. rewrite <- Rsum_scal. apply Rsum_ext. intros k Hk.
    rewrite T_extrema by auto.
    rewrite (W_ext _ _ (fun l => cos (INR j * (INR k * PI / INR (n-1))) * (v l * cos (INR l * (INR k * PI / INR (n-1)))))) by (intros; ring).
    rewrite W_scal. ring.
Qed.
Lemma nodes_dual n i k : (0 < n)%nat -> (i < n)%nat -> (k < n)%nat ->
  1 + 2 * Rsum (n - 1) (fun t => cos ((INR i + /2) * (INR (S t) * PI / INR n)) * cos ((INR k + /2) * (INR (S t) * PI / INR n))) =
  if (i =? k)%nat then INR n else 0.
Proof.
  intros Hn Hi Hk. destruct (Nat.eqb_spec i k) as [->|Hne]; [|apply W_orth_dual; auto].
  assert (Hr : INR n <> 0) by (apply not_0_INR; lia).
  rewrite <- Rsum_scal.
  rewrite (Rsum_ext (n-1) _ (fun t => cos (INR (S t) * (INR (2 * k + 1) * PI / INR n)) + 1)).
  2:{ intros t _. rewrite cos_cos, Rminus_eq_0, cos_0. f_equal. f_equal. rewrite plus_INR, mult_INR. change (INR 2) with (1+1). change (INR 1) with 1. field; auto. }
  rewrite Rsum_plus, Rsum_const.
  assert (Hm : (0 < 2 * k + 1 < 2 * n)%nat) by lia.
  pose proof (W_cos n (2*k+1) Hn (sin_pos_nz _ n Hm)) as Z. unfold W in Z.
  change (INR 0) with 0 in Z. rewrite Rmult_0_l, cos_0 in Z.
  replace (INR n * (INR (2*k+1) * PI / INR n)) with (INR (2*k+1) * PI) in Z by (field; auto).
  rewrite cos_INR_PI in Z. replace (Nat.even (2*k+1)) with false in Z by (rewrite Nat.even_add, Nat.even_mul; reflexivity).
  rewrite minus_INR by lia. change (INR 1) with 1. lra.
Qed.
Lemma values_nodes_series v n : (1 <= n)%nat ->
  exists d, forall j, (j < n)%nat -> v j = Rsum n (fun k => d k * T k (colloc_nodes n j)).
Proof.
  intros Hn. assert (Hr : INR n <> 0) by (apply not_0_INR; lia).
  exists (fun k => (if (k =? 0)%nat then 1 else 2) / INR n * Rsum n (fun l => v l * cos ((INR l + /2) * (INR k * PI / INR n)))).
  intros j Hj.
  rewrite (Rsum_ext n _ (fun k => Rsum n (fun l => v l * / INR n * ((if (k =? 0)%nat then 1 else 2) * (cos ((INR l + /2) * (INR k * PI / INR n)) * cos ((INR j + /2) * (INR k * PI / INR n))))))).
  2:{ intros k Hk. rewrite T_nodes by auto. unfold Rdiv. rewrite Rmult_assoc, (Rmult_comm (Rsum _ _)), <- Rmult_assoc, <- Rsum_scal.
      apply Rsum_ext. intros l Hl. field; auto. }
  rewrite Rsum_exchange.
  rewrite (Rsum_ext n _ (fun l => v l * / INR n * (if (l =? j)%nat then INR n else 0))).
  2:{ intros l Hl. rewrite Rsum_scal. f_equal. rewrite <- nodes_dual by lia.
      replace n with (S (n-1)) at 1 by lia. rewrite Rsum_S_l. cbn [Nat.eqb]. change (INR 0) with 0.
      unfold Rdiv. rewrite !Rmult_0_l, !Rmult_0_r, !cos_0. rewrite Rsum_scal. ring. }
  rewrite (Rsum_single n j); auto.
  - rewrite Nat.eqb_refl. field; auto.
  - intros i Hi Hne. destruct (Nat.eqb_spec i j); [congruence|ring].
Qed.

(** ** collocation points keep away from the round-off windows *)
Lemma sin_half x : 0 <= x <= 1 -> x / 2 <= sin x.
Proof.
  intros [H0 H1]. destruct (Req_dec x 0) as [->|Hne]. { rewrite sin_0; lra. }
  destruct (MVT_cor2 sin cos 0 x) as (c & Hc & Hb); [lra|intros; apply derivable_pt_lim_sin|].
  rewrite sin_0 in Hc. assert (cos (PI/3) <= cos c).
  { pose proof PI2_3_2. pose proof PI_4. apply cos_decr_1; lra. }
  rewrite cos_PI3 in H. nra.
Qed.
Lemma one_minus_cos t : 1 - cos t = 2 * (sin (t/2) * sin (t/2)).
Proof. replace t with (2 * (t/2)) at 1 by field. rewrite cos_2a_sin. ring. Qed.
Lemma away t n : 1 <= n <= 500000 -> PI / (2 * n) <= t <= PI -> ROUND_OFF_ERR <= 1 - cos t.
Proof.
  intros Hn Ht. pose proof PI_RGT_0. pose proof PI_4. pose proof PI2_3_2.
  assert (A : 0 < PI / (2*n)) by (apply Rdiv_lt_0_compat; lra).
  assert (B : PI / (2*n) <= 2). { apply (Rmult_le_reg_r (2*n)); [lra|]. unfold Rdiv. rewrite Rmult_assoc, Rinv_l by lra. lra. }
  apply Rle_trans with (1 - cos (PI/(2*n))).
  - rewrite one_minus_cos. assert (S1 : PI / (2*n) / 2 / 2 <= sin (PI/(2*n)/2)) by (apply sin_half; lra).
    assert (Q : 3 / (8 * n) <= sin (PI / (2*n) / 2)).
    { apply Rle_trans with (PI / (2*n) / 2 / 2); auto. replace (PI / (2*n)/2/2) with (PI / (8*n)) by (field; lra).
      apply Rmult_le_compat_r; [|lra]. apply Rlt_le, Rinv_0_lt_compat; lra. }
    assert (Z : 3 / 4000000 <= 3 / (8 * n)).
    { apply Rmult_le_compat_l; [lra|]. apply Rinv_le_contravar; lra. }
    assert (3 / 4000000 * (3/4000000) <= sin (PI / (2*n) / 2) * sin (PI / (2*n) / 2)) by (apply Rmult_le_compat; lra).
    unfold ROUND_OFF_ERR. lra.
  - apply Rplus_le_compat_l, Ropp_le_contravar. destruct (Req_dec t (PI/(2*n))) as [->|]; [lra|].
    apply Rlt_le. apply cos_decreasing_1; lra.
Qed.
Lemma away_both t n : 1 <= n <= 500000 -> PI / (2 * n) <= t <= PI - PI / (2*n) -> good (cos t).
Proof.
  intros Hn Ht. pose proof (COS_bound t). pose proof PI_RGT_0.
  assert (A : 0 < PI / (2*n)) by (apply Rdiv_lt_0_compat; lra).
  assert (H1 : ROUND_OFF_ERR <= 1 - cos t) by (apply (away t n); lra).
  assert (H2 : ROUND_OFF_ERR <= 1 - cos (PI - t)) by (apply (away (PI - t) n); lra).
  replace (cos (PI - t)) with (- cos t) in H2 by (rewrite cos_minus, cos_PI, sin_PI; ring).
  pose proof ROE_pos.
  split; [lra|]. split; right.
  - rewrite Rabs_left1; lra. - rewrite Rabs_pos_eq; lra.
Qed.
Lemma good_1 : good 1.
Proof. split; [lra|]. split; [auto|]. right. rewrite Rabs_pos_eq; unfold ROUND_OFF_ERR; lra. Qed.
Lemma good_m1 : good (-1).
Proof. split; [lra|]. split; [|auto]. right. rewrite Rabs_left; unfold ROUND_OFF_ERR; lra. Qed.
Lemma good_extrema n i : (2 <= n)%nat -> INR n <= 500000 -> (i < n)%nat -> good (colloc_extrema n i).
Proof.
  intros Hn Hb Hi. unfold colloc_extrema.
  destruct (Nat.eq_dec i 0) as [->|H0]. { change (INR 0) with 0. rewrite Rmult_0_l, cos_0. apply good_1. }
  assert (Hr : 0 < INR (n-1)) by (apply lt_0_INR; lia).
  destruct (Nat.eq_dec i (n-1)) as [->|H1].
  { replace (INR (n-1) * (PI / INR (n-1))) with PI by (field; lra). rewrite cos_PI. apply good_m1. }
  pose proof PI_RGT_0.
  assert (1 <= INR i) by (change 1 with (INR 1); apply le_INR; lia).
  assert (INR i <= INR (n-1) - 1) by (replace (INR (n-1) - 1) with (INR (n-1-1)) by (rewrite (minus_INR (n-1) 1) by lia; reflexivity); apply le_INR; lia).
  assert (INR (n-1) = INR n - 1) by (apply (minus_INR n 1); lia).
  assert (P : 0 < PI / INR (n-1)) by (apply Rdiv_lt_0_compat; lra).
  apply (away_both _ (INR (n-1))); [lra|].
  replace (PI / (2 * INR (n-1))) with (PI / INR (n-1) / 2) by (field; lra).
  split; [nra|]. replace PI with (INR (n-1) * (PI / INR (n-1))) at 2 by (field; lra). nra.
Qed.
Lemma good_nodes n i : (1 <= n)%nat -> INR n <= 500000 -> (i < n)%nat -> good (colloc_nodes n i).
Proof.
  intros Hn Hb Hi. unfold colloc_nodes. pose proof PI_RGT_0.
  assert (Hr : 1 <= INR n) by (change 1 with (INR 1); apply le_INR; lia).
  assert (0 <= INR i) by apply pos_INR.
  assert (INR i <= INR n - 1) by (replace (INR n - 1) with (INR (n-1)) by (rewrite (minus_INR n 1) by lia; reflexivity); apply le_INR; lia).
  assert (P : 0 < PI / INR n) by (apply Rdiv_lt_0_compat; lra).
  apply (away_both _ (INR n)); [lra|].
  replace (PI / (2 * INR n)) with (PI / INR n / 2) by (field; lra).
  split; [nra|]. replace PI with (INR n * (PI / INR n)) at 2 by (field; lra). nra.
Qed.

(** ** physical line [mn,mx] and the variable in [-1,1] *)
Lemma point_colloc_extrema mn mx n i : (2 <= n)%nat -> point_extrema mn mx n i = (mn - mx)/2 * colloc_extrema n i + (mn+mx)/2.
Proof.
  intros. assert (INR (n-1) <> 0) by (apply not_0_INR; lia).
  unfold point_extrema, colloc_extrema. replace (INR i * PI / INR (n-1)) with (INR i * (PI / INR (n-1))) by (field; auto). field.
Qed.
Lemma point_colloc_nodes mn mx n i : (1 <= n)%nat -> point_nodes mn mx n i = (mn - mx)/2 * colloc_nodes n i + (mn+mx)/2.
Proof.
  intros. assert (INR n <> 0) by (apply not_0_INR; lia).
  unfold point_nodes, colloc_nodes. replace ((INR i + /2) * PI / INR n) with ((INR i + /2) * (PI / INR n)) by (field; auto). field.
Qed.
Lemma General_good mn mx pt : mn < mx -> mn <= pt <= mx ->
  good (General2ChebyshevExtrema mn mx pt) /\ (mn - mx)/2 * General2ChebyshevExtrema mn mx pt + (mn+mx)/2 = clip mn mx pt.
Proof.
  intros Hm Hp. unfold General2ChebyshevExtrema. set (c := (pt * 2 - (mx + mn)) / (- mx + mn)).
  assert (Hc : pt = (mn - mx)/2 * c + (mn+mx)/2) by (unfold c; field; lra).
  assert (Bc : -1 <= c <= 1) by nra.
  assert (A1 : Rabs (pt - mn) = (mx - mn)/2 * Rabs (c - 1)).
  { rewrite <- (Rabs_pos_eq ((mx-mn)/2)) at 1 by lra. rewrite <- Rabs_mult, <- Rabs_Ropp. f_equal. rewrite Hc. field. }
  assert (A2 : Rabs (pt - mx) = (mx - mn)/2 * Rabs (c - -1)).
  { rewrite <- (Rabs_pos_eq ((mx-mn)/2)) at 1 by lra. rewrite <- Rabs_mult, <- Rabs_Ropp. f_equal. rewrite Hc. field. }
  unfold clip. fold ROUND_OFF_ERR.
  destruct (EQL c 1) eqn:E1.
  - apply EQL_iff in E1. destruct (Rlt_dec (Rabs (pt - mn)) _) as [|N]; [|exfalso; apply N; rewrite A1; nra].
    split; [apply good_1|field].
  - pose proof (proj1 (EQL_false _ _) E1) as F1.
    destruct (Rlt_dec (Rabs (pt - mn)) _) as [N|_]; [exfalso; rewrite A1 in N; nra|].
    destruct (EQL c (-1)) eqn:E2.
    + apply EQL_iff in E2. destruct (Rlt_dec (Rabs (pt - mx)) _) as [|N]; [|exfalso; apply N; rewrite A2; nra].
      split; [apply good_m1|field].
    + pose proof (proj1 (EQL_false _ _) E2) as F2.
      destruct (Rlt_dec (Rabs (pt - mx)) _) as [N|_]; [exfalso; rewrite A2 in N; nra|].
      split; [|symmetry; exact Hc]. split; auto.
Qed.

(** ** interpolation *)
Lemma interp_series mn mx n v d pt : (2 <= n)%nat -> mn < mx -> mn <= pt <= mx ->
  (forall j, (j < n)%nat -> v j = Rsum n (fun k => d k * T k (colloc_extrema n j))) ->
  interpolation_Chebyshev_Tn mn mx n v pt = Some (Rsum n (fun k => d k * T k (General2ChebyshevExtrema mn mx pt))).
Proof.
  intros Hn Hm Hp Hv. unfold interpolation_Chebyshev_Tn.
  destruct (coeffs_extrema_series v n d Hn Hv) as (C & -> & HC). cbn [fbind]. f_equal.
  destruct (General_good mn mx pt Hm Hp) as [G _].
  apply Rsum_ext. intros i Hi. rewrite HC by auto. unfold wE, T_cheb_combined. rewrite !Cheb_Tn_T by auto.
  destruct (Nat.eqb_spec i 0) as [->|]. { rewrite T_0. cbn [orb]. ring. }
  destruct (Nat.eqb_spec i (n-1)); cbn [orb]; field.
Qed.
Lemma affine_inv mn mx y : mn < mx -> exists x, y = (mn - mx)/2 * x + (mn+mx)/2.
Proof. intros. exists ((2*y - (mx+mn))/(mn-mx)). field. lra. Qed.
Lemma interp_poly mn mx n v p pt : (2 <= n)%nat -> mn < mx -> mn <= pt <= mx -> (length p <= n)%nat ->
  (forall j, (j < n)%nat -> v j = peval p (point_extrema mn mx n j)) ->
  interpolation_Chebyshev_Tn mn mx n v pt = Some (peval p (clip mn mx pt)).
Proof.
  intros Hn Hm Hp Hl Hv.
  destruct (inspan_mono _ n _ Hl (poly_span ((mn-mx)/2) ((mn+mx)/2) p)) as [d Hd].
  rewrite (interp_series mn mx n v d pt); auto.
  - rewrite <- Hd. destruct (General_good mn mx pt Hm Hp) as [_ ->]. reflexivity.
  - intros j Hj. rewrite Hv by auto. rewrite point_colloc_extrema by auto. rewrite Hd. reflexivity.
Qed.
(** there is a polynomial through any values *)
Lemma through_extrema mn mx n v : (2 <= n)%nat -> mn < mx ->
  exists p, length p = n /\ forall j, (j < n)%nat -> v j = peval p (point_extrema mn mx n j).
Proof.
  intros Hn Hm. destruct (values_extrema_series v n Hn) as [d Hd].
  destruct (series_poly (2/(mn-mx)) (- (mn+mx)/(mn-mx)) n d) as (p & Hl & Hp). exists p; split; auto.
  intros j Hj. rewrite <- Hp, Hd by auto. apply Rsum_ext. intros k Hk. f_equal. f_equal. rewrite point_colloc_extrema by auto. field. lra.
Qed.
Lemma through_nodes mn mx n v : (1 <= n)%nat -> mn < mx ->
  exists p, length p = n /\ forall j, (j < n)%nat -> v j = peval p (point_nodes mn mx n j).
Proof.
  intros Hn Hm. destruct (values_nodes_series v n Hn) as [d Hd].
  destruct (series_poly (2/(mn-mx)) (- (mn+mx)/(mn-mx)) n d) as (p & Hl & Hp). exists p; split; auto.
  intros j Hj. rewrite <- Hp, Hd by auto. apply Rsum_ext. intros k Hk. f_equal. f_equal. rewrite point_colloc_nodes by auto. field. lra.
Qed.
