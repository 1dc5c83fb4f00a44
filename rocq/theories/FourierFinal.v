(** FourierFinal.v *)
From Verif Require Import RealBase TrigSums FourierSpec FourierModel FourierProofs.

(** ** 1-d *)
Lemma alt_add i j : alt (i + j) = alt i * alt j.
Proof. unfold alt. rewrite Nat.even_add. destruct (Nat.even i), (Nat.even j); cbn; lra. Qed.
Lemma roundtrip_odd_even v n c w : fits n -> r2cft_1d v n = Some c -> c2rft_1d c n = Some w -> forall i, (i < n)%nat ->
  w i = v i + (if Nat.even n then alt i * (Rsum n (fun j => alt j * v j) / INR n) else 0).
Proof.
  intros Hf E1 E2 i Hi. rewrite (roundtrip_1d v n c w Hf E1 E2 i Hi).
  rewrite (Rsum_ext n _ (fun j => (if Nat.eqb i j then v j else 0) + (if Nat.even n then (alt i / INR n) * (alt j * v j) else 0))).
  - rewrite Rsum_plus. f_equal.
    + rewrite (Rsum_single n i) by (try exact Hi; intros k _ Hk; destruct (Nat.eqb_spec i k); congruence). rewrite Nat.eqb_refl. reflexivity.
    + destruct (Nat.even n); [|apply Rsum_zero; reflexivity]. rewrite Rsum_scal. unfold Rdiv. ring.
  - intros j Hj. rewrite DN_node by assumption. fold (alt (i + j)). rewrite alt_add.
    destruct (Nat.eqb i j), (Nat.even n); unfold Rdiv; ring.
Qed.

(** orthogonality of a low mode to any other resolved mode, with phases *)
Lemma orth_ne N k m s r : (2 * k < N)%nat -> (2 * m <= N)%nat -> k <> m -> Rsum N (fun i => cos (INR k * xnode N i - s) * cos (INR m * xnode N i - r)) = 0.
Proof.
  intros Hk Hm Ne. destruct m as [|m'].
  - rewrite (sum_ext2 _ _ (fun i => cos r * (cos (INR k * xnode N i - s) * cos (INR 0 * (0 - xnode N i))))).
    + rewrite Rsum_scal, mode_row by lia. destruct (Nat.eqb_spec k 0); [congruence|ring].
    + intros i. cbn [INR]. rewrite !Rmult_0_l, cos_0. unfold Rminus. rewrite Rplus_0_l, cos_neg. ring.
  - assert (Hm0 : INR (S m') <> 0) by (apply not_0_INR; discriminate).
    rewrite (sum_ext2 _ _ (fun i => cos (INR k * xnode N i - s) * cos (INR (S m') * (r / INR (S m') - xnode N i)))).
    + rewrite mode_row by lia. destruct (Nat.eqb_spec k (S m')); [congruence|reflexivity].
    + intros i. f_equal. rewrite <- cos_neg. f_equal. field. exact Hm0.
Qed.
Lemma sin_as_cos t : sin t = cos (t - PI / 2).
Proof. rewrite cos_minus, cos_PI2, sin_PI2. ring. Qed.
Lemma trig1_orth N K a b m r : (2 * K < N)%nat -> (2 * m <= N)%nat -> (K < m)%nat -> Rsum N (fun i => trig1 K a b (xnode N i) * cos (INR m * xnode N i - r)) = 0.
Proof.
  intros HK Hm H. unfold trig1.
  rewrite (sum_ext2 _ _ (fun i => Rsum (S K) (fun k => a k * (cos (INR k * xnode N i - 0) * cos (INR m * xnode N i - r)) + b k * (cos (INR k * xnode N i - PI / 2) * cos (INR m * xnode N i - r))))).
  - rewrite Rsum_exchange. apply Rsum_zero. intros k Hk. rewrite Rsum_plus, !Rsum_scal, !orth_ne by lia. ring.
  - intros i. rewrite <- Rsum_scal_r. apply sum_ext2. intros k. rewrite <- sin_as_cos, Rminus_0_r. ring.
Qed.
(** the diagonal sums *)
Lemma orth_eq N k s r : (2 * k < N)%nat -> Rsum N (fun i => cos (INR k * xnode N i - s) * cos (INR k * xnode N i - r)) =
  match k with O => INR N * (cos s * cos r) | _ => INR N / 2 * cos (s - r) end.
Proof.
  intros Hk. destruct k as [|k'].
  - rewrite (sum_ext2 _ _ (fun i => cos s * cos r)); [apply Rsum_const|]. intros i. cbn [INR]. rewrite !Rmult_0_l. unfold Rminus. rewrite !Rplus_0_l, !cos_neg. reflexivity.
  - assert (Hm0 : INR (S k') <> 0) by (apply not_0_INR; discriminate).
    rewrite (sum_ext2 _ _ (fun i => cos (INR (S k') * xnode N i - s) * cos (INR (S k') * (r / INR (S k') - xnode N i)))).
    + rewrite mode_row by lia. rewrite Nat.eqb_refl. f_equal. rewrite <- cos_neg. f_equal. field. exact Hm0.
    + intros i. f_equal. rewrite <- cos_neg. f_equal. field. exact Hm0.
Qed.
Lemma trig1_coef N K a b m r : (2 * K < N)%nat -> (m <= K)%nat ->
  Rsum N (fun i => trig1 K a b (xnode N i) * cos (INR m * xnode N i - r)) = match m with O => INR N * (a O * cos r) | _ => INR N / 2 * (a m * cos r + b m * sin r) end.
Proof.
  intros HK Hm. unfold trig1.
  rewrite (sum_ext2 _ _ (fun i => Rsum (S K) (fun k => a k * (cos (INR k * xnode N i - 0) * cos (INR m * xnode N i - r)) + b k * (cos (INR k * xnode N i - PI / 2) * cos (INR m * xnode N i - r))))).
  - rewrite Rsum_exchange. rewrite (Rsum_single _ m); [|lia|].
    + rewrite Rsum_plus, !Rsum_scal, !orth_eq by lia. destruct m.
      * rewrite cos_0, cos_PI2. ring.
      * replace (0 - r) with (- r) by ring. rewrite cos_neg, cos_minus, cos_PI2, sin_PI2. ring.
    + intros k Hk Nk. rewrite Rsum_plus, !Rsum_scal, !orth_ne by lia. ring.
  - intros i. rewrite <- Rsum_scal_r. apply sum_ext2. intros k. rewrite <- sin_as_cos, Rminus_0_r. ring.
Qed.
Lemma coefs_1d v n c K a b : fits n -> (2 * K < n)%nat -> (forall i, (i < n)%nat -> v i = trig1 K a b (xnode n i)) -> r2cft_1d v n = Some c ->
  forall m, (m <= n / 2)%nat -> c m = match m with O => (a O, 0) | _ => if Nat.leb m K then (a m / 2, - b m / 2) else (0, 0) end.
Proof.
  intros Hf HK Hv E m Hm. rewrite (r2cft_1d_val v n c Hf E m Hm). assert (HN : INR n <> 0) by (apply not_0_INR; lia).
  assert (Hm2 : (2 * m <= n)%nat) by (pose proof (Nat.div_mod n 2); lia).
  rewrite (Rsum_ext n (fun i => v i * cos (INR m * xnode n i)) (fun i => trig1 K a b (xnode n i) * cos (INR m * xnode n i - 0))) by (intros i Hi; rewrite Hv, Rminus_0_r by exact Hi; reflexivity).
  rewrite (Rsum_ext n (fun i => v i * sin (INR m * xnode n i)) (fun i => trig1 K a b (xnode n i) * cos (INR m * xnode n i - PI / 2))) by (intros i Hi; rewrite Hv, <- sin_as_cos by exact Hi; reflexivity).
  destruct (Nat.leb_spec m K) as [L|L].
  - rewrite !trig1_coef by lia. destruct m; rewrite ?cos_0, ?sin_0, ?cos_PI2, ?sin_PI2; f_equal; field; exact HN.
  - rewrite !trig1_orth by lia. destruct m; [lia|]. f_equal; field; exact HN.
Qed.

(** ** 2-d *)
Lemma interp_2d_exact f N0 N1 K0 K1 a b c d : (2 * K0 < N0)%nat -> (2 * K1 < N1)%nat ->
  (forall i j, (i < N0)%nat -> (j < N1)%nat -> f (IJ i j N1) = trig2 K0 K1 a b c d (xnode N0 i) (xnode N1 j)) ->
  forall x y, interp_2d (fst (r2cft_2d f N0 N1)) (snd (r2cft_2d f N0 N1)) N0 N1 x y = trig2 K0 K1 a b c d x y.
Proof.
  intros H0 H1 Hf x y. rewrite interp_kernel by lia. rewrite <- (kernel_trig2 N0 N1 K0 K1 a b c d x y H0 H1).
  apply Rsum_ext. intros i Hi. apply Rsum_ext. intros j Hj. rewrite Hf by assumption. reflexivity.
Qed.
Lemma interp_2d_nodes f N0 N1 i j : Nat.even N0 = false -> Nat.even N1 = false -> (i < N0)%nat -> (j < N1)%nat ->
  interp_2d (fst (r2cft_2d f N0 N1)) (snd (r2cft_2d f N0 N1)) N0 N1 (xnode N0 i) (xnode N1 j) = f (IJ i j N1).
Proof.
  intros E0 E1 Hi Hj. rewrite interp_kernel by lia. rewrite (Rsum_single _ i _ Hi).
  - rewrite (Rsum_single _ j _ Hj). 
    + rewrite !DN_node, E0, E1, !Nat.eqb_refl by assumption. ring.
    + intros k Hk Nk. rewrite (DN_node N1 j k), E1 by assumption. destruct (Nat.eqb_spec j k); [congruence|ring].
  - intros k Hk Nk. apply Rsum_zero. intros l Hl. rewrite (DN_node N0 i k), E0 by assumption. destruct (Nat.eqb_spec i k); [congruence|ring].
Qed.
Lemma Rsum_deriv n (f : nat -> R -> R) (d : nat -> R) x : (forall k, (k < n)%nat -> derivable_pt_lim (f k) x (d k)) -> derivable_pt_lim (fun t => Rsum n (fun k => f k t)) x (Rsum n d).
Proof.
  induction n; intros H; cbn [Rsum].
  - apply derivable_pt_lim_const.
  - apply (derivable_pt_lim_plus (fun t => Rsum n (fun k => f k t)) (f n)); [apply IHn; intros; apply H; lia|apply H; lia].
Qed.
Lemma trig_deriv k x : derivable_pt_lim (fun t => cos (k * t)) x (- k * sin (k * x)) /\ derivable_pt_lim (fun t => sin (k * t)) x (k * cos (k * x)).
Proof.
  assert (L : derivable_pt_lim (fun t => k * t) x k).
  { pose proof (derivable_pt_lim_scal id k x 1 (derivable_pt_lim_id x)) as H. rewrite Rmult_1_r in H. exact H. }
  split.
  - replace (- k * sin (k * x)) with (- sin (k * x) * k) by ring. apply (derivable_pt_lim_comp (fun t => k * t) cos); [exact L|apply derivable_pt_lim_cos].
  - replace (k * cos (k * x)) with (cos (k * x) * k) by ring. apply (derivable_pt_lim_comp (fun t => k * t) sin); [exact L|apply derivable_pt_lim_sin].
Qed.
Lemma lin2_deriv (A B : R) (f g : R -> R) f' g' x : derivable_pt_lim f x f' -> derivable_pt_lim g x g' -> derivable_pt_lim (fun t => A * f t + B * g t) x (A * f' + B * g').
Proof. intros Hf Hg. apply (derivable_pt_lim_plus (fun t => A * f t) (fun t => B * g t)); apply (derivable_pt_lim_scal); assumption. Qed.
Lemma scal2_deriv (f : R -> R) f' x : derivable_pt_lim f x f' -> derivable_pt_lim (fun t => 2 * f t) x (2 * f').
Proof. apply (derivable_pt_lim_scal f 2). Qed.
Lemma dphi0_ok rC iC N0 N1 i j : derivable_pt_lim (fun x => interp_2d rC iC N0 N1 x (xnode N1 j)) (xnode N0 i) (df_dphi0 rC iC N0 N1 i j).
Proof.
  apply (derivable_pt_lim_ext (fun x => 2 * Rsum (N0 / 2 + 1) (fun m0 => Rsum (N1 / 2 + 1) (fun m1 => term rC iC ((N0 / 2 + 1) * (N1 / 2 + 1)) (IJ m0 m1 (N1 / 2 + 1)) (INR m0 * x) (INR m1 * xnode N1 j))))).
  { intros x. symmetry. apply interp_terms. }
  unfold df_dphi0. cbv zeta. rewrite csum_val. cbn [fst]. apply scal2_deriv. apply Rsum_deriv. intros m0 _. rewrite csum_val. cbn [fst]. apply Rsum_deriv. intros m1 _.
  set (L := ((N0 / 2 + 1) * (N1 / 2 + 1))%nat). set (k := IJ m0 m1 (N1 / 2 + 1)). set (b := INR m1 * xnode N1 j).
  change (INR i * (2 * PI / INR N0)) with (xnode N0 i). change (INR j * (2 * PI / INR N1)) with (xnode N1 j). fold b.
  apply (derivable_pt_lim_ext (fun x => (2 * (rC k * cos b - rC (L + k)%nat * sin b)) * cos (INR m0 * x) + (2 * (iC (L + k)%nat * sin b - iC k * cos b)) * sin (INR m0 * x))).
  { intros x. unfold term. ring. }
  cbn [cadd cmul cexpi br_p br_m fst snd]. rewrite cos_neg, sin_neg.
  match goal with |- derivable_pt_lim _ _ ?v =>
    replace v with ((2 * (rC k * cos b - rC (L + k)%nat * sin b)) * (- INR m0 * sin (INR m0 * xnode N0 i)) + (2 * (iC (L + k)%nat * sin b - iC k * cos b)) * (INR m0 * cos (INR m0 * xnode N0 i))) by ring end.
  apply lin2_deriv; apply trig_deriv.
Qed.
Lemma dphi1_ok rC iC N0 N1 i j : derivable_pt_lim (fun y => interp_2d rC iC N0 N1 (xnode N0 i) y) (xnode N1 j) (df_dphi1 rC iC N0 N1 i j).
Proof.
  apply (derivable_pt_lim_ext (fun y => 2 * Rsum (N1 / 2 + 1) (fun m1 => Rsum (N0 / 2 + 1) (fun m0 => term rC iC ((N0 / 2 + 1) * (N1 / 2 + 1)) (IJ m0 m1 (N1 / 2 + 1)) (INR m0 * xnode N0 i) (INR m1 * y))))).
  { intros y. rewrite interp_terms. cbv zeta. f_equal. apply Rsum_exchange. }
  unfold df_dphi1. cbv zeta. rewrite csum_val. cbn [fst]. apply scal2_deriv. apply Rsum_deriv. intros m1 _. rewrite csum_val. cbn [fst]. apply Rsum_deriv. intros m0 _.
  set (L := ((N0 / 2 + 1) * (N1 / 2 + 1))%nat). set (k := IJ m0 m1 (N1 / 2 + 1)). 
  change (INR i * (2 * PI / INR N0)) with (xnode N0 i). change (INR j * (2 * PI / INR N1)) with (xnode N1 j). set (a := INR m0 * xnode N0 i).
  apply (derivable_pt_lim_ext (fun y => (2 * (rC k * cos a - iC k * sin a)) * cos (INR m1 * y) + (2 * (iC (L + k)%nat * sin a - rC (L + k)%nat * cos a)) * sin (INR m1 * y))).
  { intros y. unfold term. ring. }
  cbn [cadd cmul cexpi br_p br_m fst snd]. rewrite cos_neg, sin_neg.
  match goal with |- derivable_pt_lim _ _ ?v =>
    replace v with ((2 * (rC k * cos a - iC k * sin a)) * (- INR m1 * sin (INR m1 * xnode N1 j)) + (2 * (iC (L + k)%nat * sin a - rC (L + k)%nat * cos a)) * (INR m1 * cos (INR m1 * xnode N1 j))) by ring end.
  apply lin2_deriv; apply trig_deriv.
Qed.
Lemma derivs_exact f N0 N1 K0 K1 a b c d : (2 * K0 < N0)%nat -> (2 * K1 < N1)%nat ->
  (forall i j, (i < N0)%nat -> (j < N1)%nat -> f (IJ i j N1) = trig2 K0 K1 a b c d (xnode N0 i) (xnode N1 j)) ->
  forall i j, derivable_pt_lim (fun x => trig2 K0 K1 a b c d x (xnode N1 j)) (xnode N0 i) (df_dphi0 (fst (r2cft_2d f N0 N1)) (snd (r2cft_2d f N0 N1)) N0 N1 i j) /\
    derivable_pt_lim (fun y => trig2 K0 K1 a b c d (xnode N0 i) y) (xnode N1 j) (df_dphi1 (fst (r2cft_2d f N0 N1)) (snd (r2cft_2d f N0 N1)) N0 N1 i j).
Proof.
  intros H0 H1 Hf i j. pose proof (interp_2d_exact f N0 N1 K0 K1 a b c d H0 H1 Hf) as E. split.
  - eapply derivable_pt_lim_ext; [|apply dphi0_ok]. intros x. apply E.
  - eapply derivable_pt_lim_ext; [|apply dphi1_ok]. intros y. apply E.
Qed.

(** ** the sphere *)
Lemma trig2_period1 K0 K1 a b c d x y k : trig2 K0 K1 a b c d x (y + 2 * INR k * PI) = trig2 K0 K1 a b c d x y.
Proof.
  unfold trig2. apply sum_ext2. intros m. apply sum_ext2. intros l.
  replace (INR l * (y + 2 * INR k * PI)) with (INR l * y + 2 * INR (l * k) * PI) by (rewrite mult_INR; ring). rewrite cos_2nPI, sin_2nPI. reflexivity.
Qed.
Lemma ext_ok f Nt Np K0 K1 a b c d : (0 < Nt)%nat -> (0 < Np)%nat -> (Np mod 2 = 0)%nat -> on_sphere (trig2 K0 K1 a b c d) ->
  (forall i j, (i <= Nt)%nat -> (j < Np)%nat -> f (IJ i j Np) = trig2 K0 K1 a b c d (INR i * PI / INR Nt) (xnode Np j)) ->
  forall i j, (i < 2 * Nt)%nat -> (j < Np)%nat -> ext_S2 f Nt Np (IJ i j Np) = trig2 K0 K1 a b c d (xnode (2 * Nt) i) (xnode Np j).
Proof.
  intros Ht Hp Hev Hs Hf i j Hi Hj. unfold ext_S2. cbv zeta. destruct (IJ_div Np i j Hj) as [-> ->].
  assert (HT : INR Nt <> 0) by (apply not_0_INR; lia). assert (HP : INR Np <> 0) by (apply not_0_INR; lia).
  assert (X : forall i, xnode (2 * Nt) i = INR i * PI / INR Nt) by (intros; unfold xnode; rewrite mult_INR; cbn [INR]; field; exact HT).
  destruct (Nat.ltb_spec i Nt) as [L|L].
  - rewrite Hf by lia. rewrite X. reflexivity.
  - rewrite Hf; [|lia|apply Nat.mod_upper_bound; lia].
    rewrite X, <- (Hs (INR i * PI / INR Nt) (xnode Np j)).
    replace (INR (2 * Nt - i) * PI / INR Nt) with (2 * PI - INR i * PI / INR Nt) by (rewrite minus_INR, mult_INR by lia; cbn [INR]; field; exact HT).
    pose proof (Nat.div_mod (j + Np / 2) Np ltac:(lia)) as DM.
    rewrite <- (trig2_period1 K0 K1 a b c d (2 * PI - INR i * PI / INR Nt) (xnode Np ((j + Np / 2) mod Np)) ((j + Np / 2) / Np)).
    f_equal. unfold xnode.
    assert (E : INR j + INR Np / 2 = INR Np * INR ((j + Np / 2) / Np) + INR ((j + Np / 2) mod Np)).
    { rewrite <- mult_INR, <- plus_INR, <- DM, plus_INR. f_equal.
      pose proof (Nat.div_mod Np 2 ltac:(lia)) as D2. rewrite Hev, Nat.add_0_r in D2. rewrite D2 at 1. rewrite mult_INR. cbn [INR]. field. }
    replace (INR ((j + Np / 2) mod Np)) with (INR j + INR Np / 2 - INR Np * INR ((j + Np / 2) / Np)) by lra. field. exact HP.
Qed.
Lemma K2_vanish F N0 N1 K0 K1 a b c d m0 m1 r0 r1 : (2 * K0 < N0)%nat -> (2 * K1 < N1)%nat -> (2 * m0 <= N0)%nat -> (2 * m1 <= N1)%nat -> (K0 < m0 \/ K1 < m1)%nat ->
  (forall i j, (i < N0)%nat -> (j < N1)%nat -> F (IJ i j N1) = trig2 K0 K1 a b c d (xnode N0 i) (xnode N1 j)) ->
  K2 F N0 N1 (fun i => cos (INR m0 * xnode N0 i - r0)) (fun j => cos (INR m1 * xnode N1 j - r1)) = 0.
Proof.
  intros H0 H1 M0 M1 H HF. unfold K2.
  rewrite (Rsum_ext N0 _ (fun i => Rsum N1 (fun j => trig2 K0 K1 a b c d (xnode N0 i) (xnode N1 j) * (cos (INR m0 * xnode N0 i - r0) * cos (INR m1 * xnode N1 j - r1))))) by (intros i Hi; apply Rsum_ext; intros j Hj; rewrite HF by assumption; reflexivity).
  assert (T : forall u z, trig2 K0 K1 a b c d u z = trig1 K0 (fun k => Rsum (S K1) (fun l => a k l * cos (INR l * z) + b k l * sin (INR l * z)))
      (fun k => Rsum (S K1) (fun l => c k l * cos (INR l * z) + d k l * sin (INR l * z))) u).
  { intros u z. unfold trig2, trig1. apply sum_ext2. intros k. rewrite <- !Rsum_scal_r, <- Rsum_plus. apply sum_ext2. intros l. ring. }
  assert (T' : forall u z, trig2 K0 K1 a b c d u z = trig1 K1 (fun l => Rsum (S K0) (fun k => a k l * cos (INR k * u) + c k l * sin (INR k * u)))
      (fun l => Rsum (S K0) (fun k => b k l * cos (INR k * u) + d k l * sin (INR k * u))) z).
  { intros u z. unfold trig2, trig1. rewrite Rsum_exchange. apply sum_ext2. intros l. rewrite <- !Rsum_scal_r, <- Rsum_plus. apply sum_ext2. intros k. ring. }
  destruct H as [H|H].
  - rewrite Rsum_exchange. apply Rsum_zero. intros j Hj.
    rewrite (sum_ext2 _ _ (fun i => cos (INR m1 * xnode N1 j - r1) * (trig1 K0 (fun k => Rsum (S K1) (fun l => a k l * cos (INR l * xnode N1 j) + b k l * sin (INR l * xnode N1 j)))
      (fun k => Rsum (S K1) (fun l => c k l * cos (INR l * xnode N1 j) + d k l * sin (INR l * xnode N1 j))) (xnode N0 i) * cos (INR m0 * xnode N0 i - r0)))) by (intros i; rewrite T; ring).
    rewrite Rsum_scal, trig1_orth by lia. ring.
  - apply Rsum_zero. intros i Hi.
    rewrite (sum_ext2 _ _ (fun j => cos (INR m0 * xnode N0 i - r0) * (trig1 K1 (fun l => Rsum (S K0) (fun k => a k l * cos (INR k * xnode N0 i) + c k l * sin (INR k * xnode N0 i)))
      (fun l => Rsum (S K0) (fun k => b k l * cos (INR k * xnode N0 i) + d k l * sin (INR k * xnode N0 i))) (xnode N1 j) * cos (INR m1 * xnode N1 j - r1)))) by (intros j; rewrite T'; ring).
    rewrite Rsum_scal, trig1_orth by lia. ring.
Qed.
Lemma K2_ext f N0 N1 F F' G G' : (forall i, F i = F' i) -> (forall j, G j = G' j) -> K2 f N0 N1 F G = K2 f N0 N1 F' G'.
Proof. intros H1 H2. unfold K2. apply sum_ext2. intros i. apply sum_ext2. intros j. rewrite H1, H2. reflexivity. Qed.
Lemma coef_vanish F N0 N1 K0 K1 a b c d m0 m1 : (2 * K0 < N0)%nat -> (2 * K1 < N1)%nat -> (m0 < N0 / 2 + 1)%nat -> (m1 < N1 / 2 + 1)%nat -> (K0 < m0 \/ K1 < m1)%nat ->
  (forall i j, (i < N0)%nat -> (j < N1)%nat -> F (IJ i j N1) = trig2 K0 K1 a b c d (xnode N0 i) (xnode N1 j)) ->
  let k := IJ m0 m1 (N1 / 2 + 1) in let L := ((N0 / 2 + 1) * (N1 / 2 + 1))%nat in let rC := fst (r2cft_2d F N0 N1) in let iC := snd (r2cft_2d F N0 N1) in
  rC k = 0 /\ iC k = 0 /\ rC (L + k)%nat = 0 /\ iC (L + k)%nat = 0.
Proof.
  intros H0 H1 M0 M1 H HF k L rC iC.
  assert (Q0 : (2 * m0 <= N0)%nat) by (pose proof (Nat.div_mod N0 2); lia). assert (Q1 : (2 * m1 <= N1)%nat) by (pose proof (Nat.div_mod N1 2); lia).
  destruct (entries F N0 N1 ltac:(lia) ltac:(lia) m0 m1 M0 M1) as (A & B & C & D). cbv zeta in A, B, C, D. fold k L rC iC in A, B, C, D. rewrite A, B, C, D.
  pose proof (fun r0 r1 => K2_vanish F N0 N1 K0 K1 a b c d m0 m1 r0 r1 H0 H1 Q0 Q1 H HF) as V.
  assert (EC : forall N m i, cos (INR m * xnode N i) = cos (INR m * xnode N i - 0)) by (intros; rewrite Rminus_0_r; reflexivity).
  assert (ES : forall N m i, sin (INR m * xnode N i) = cos (INR m * xnode N i - PI / 2)) by (intros; apply sin_as_cos).
  rewrite (K2_ext F N0 N1 _ _ _ _ (EC N0 m0) (EC N1 m1)), (K2_ext F N0 N1 _ _ _ _ (ES N0 m0) (EC N1 m1)), (K2_ext F N0 N1 _ _ _ _ (EC N0 m0) (ES N1 m1)), (K2_ext F N0 N1 _ _ _ _ (ES N0 m0) (ES N1 m1)).
  rewrite !V. repeat split; ring.
Qed.
Lemma maxabs_zero a l : (forall k, In k l -> a k = 0) -> maxabs a l 0 = 0.
Proof.
  unfold maxabs. induction l as [|x l IH]; intros H; [reflexivity|]. cbn [fold_left]. rewrite (H x) by (left; reflexivity). rewrite Rabs_R0.
  destruct (Rlt_dec 0 0); [lra|]. apply IH. intros k Hk. apply H. right. exact Hk.
Qed.
Lemma S2_coefs f Nth Nph K0 K1 a b c d (improve : bool) : (2 <= Nth)%nat -> (2 <= Nph)%nat -> (Nph mod 2 = 0)%nat -> on_sphere (trig2 K0 K1 a b c d) ->
  (if improve then (K0 + 2 < Nth)%nat /\ (2 * (K1 + 1) < Nph)%nat else (K0 + 1 < Nth)%nat /\ (2 * K1 < Nph)%nat) ->
  (forall i j, (i < Nth)%nat -> (j < Nph)%nat -> f (IJ i j Nph) = trig2 K0 K1 a b c d (INR i * PI / INR (Nth - 1)) (xnode Nph j)) ->
  r2cft_2d_S2 f Nth Nph improve = Some (r2cft_2d (ext_S2 f (Nth - 1) Nph) (2 * (Nth - 1)) Nph).
Proof.
  intros Ht Hp Hev Hs HK Hf. unfold r2cft_2d_S2. rewrite Hev. cbn [Nat.eqb]. cbv zeta. destruct improve; [|reflexivity]. destruct HK as [HK0 HK1].
  set (Nt := (Nth - 1)%nat) in *. set (N0 := (2 * Nt)%nat).
  assert (D0 : (N0 / 2 = Nt)%nat) by (unfold N0; rewrite Nat.mul_comm; apply Nat.div_mul; lia).
  assert (D1 : (2 * (Nph / 2) = Nph)%nat) by (pose proof (Nat.div_mod Nph 2); lia).
  replace (Nat.leb 2 (N0 / 2 + 1) && Nat.leb 2 (Nph / 2 + 1))%bool with true.
  2:{ symmetry. apply andb_true_iff. split; apply Nat.leb_le; lia. }
  assert (HF : forall i j, (i < N0)%nat -> (j < Nph)%nat -> ext_S2 f Nt Nph (IJ i j Nph) = trig2 K0 K1 a b c d (xnode N0 i) (xnode Nph j)).
  { apply ext_ok; try lia; try assumption. intros i j Hi Hj. apply Hf; [unfold Nt in Hi; lia|exact Hj]. }
  set (F := ext_S2 f Nt Nph) in *.
  assert (Z : forall k, In k (last_idx (N0 / 2 + 1) (Nph / 2 + 1)) -> fst (r2cft_2d F N0 Nph) k = 0 /\ snd (r2cft_2d F N0 Nph) k = 0).
  { assert (Q0 : (2 * K0 < N0)%nat) by (unfold N0, Nt; lia). assert (Q1 : (2 * K1 < Nph)%nat) by lia. pose proof (fun m0 m1 M0 M1 H => coef_vanish F N0 Nph K0 K1 a b c d m0 m1 Q0 Q1 M0 M1 H HF) as V. cbv zeta in V.
    assert (A : forall k, In k (flat_map (fun m0 => map (fun m1 => IJ m0 m1 (Nph / 2 + 1)) (seq 0 (Nph / 2 + 1))) (seq (N0 / 2 + 1 - 2) 2)) \/
                          In k (flat_map (fun m0 => map (fun m1 => IJ m0 m1 (Nph / 2 + 1)) (seq (Nph / 2 + 1 - 2) 2)) (seq 0 (N0 / 2 + 1))) ->
       exists m0 m1, k = IJ m0 m1 (Nph / 2 + 1) /\ (m0 < N0 / 2 + 1)%nat /\ (m1 < Nph / 2 + 1)%nat /\ (K0 < m0 \/ K1 < m1)%nat).
    { intros k [H|H]; apply in_flat_map in H; destruct H as (m0 & I0 & H); apply in_map_iff in H; destruct H as (m1 & <- & I1); apply in_seq in I0; apply in_seq in I1;
        exists m0, m1; (split; [reflexivity|]); split; [lia| |lia|]; split; lia. }
    unfold last_idx. cbv zeta. intros k Hk. rewrite !in_app_iff in Hk.
    destruct Hk as [Hk|[Hk|[Hk|Hk]]].
    - destruct (A k (or_introl Hk)) as (m0 & m1 & -> & M0 & M1 & H). destruct (V m0 m1 M0 M1 H) as (V1 & V2 & _). split; assumption.
    - destruct (A k (or_intror Hk)) as (m0 & m1 & -> & M0 & M1 & H). destruct (V m0 m1 M0 M1 H) as (V1 & V2 & _). split; assumption.
    - apply in_map_iff in Hk. destruct Hk as (k' & <- & Hk). destruct (A k' (or_introl Hk)) as (m0 & m1 & -> & M0 & M1 & H). destruct (V m0 m1 M0 M1 H) as (_ & _ & V3 & V4).
      rewrite Nat.add_comm. split; assumption.
    - apply in_map_iff in Hk. destruct Hk as (k' & <- & Hk). destruct (A k' (or_intror Hk)) as (m0 & m1 & -> & M0 & M1 & H). destruct (V m0 m1 M0 M1 H) as (_ & _ & V3 & V4).
      rewrite Nat.add_comm. split; assumption. }
  assert (LM : last_max N0 Nph (fst (r2cft_2d F N0 Nph)) (snd (r2cft_2d F N0 Nph)) = 0).
  { unfold last_max. cbv zeta. rewrite !maxabs_zero; [apply Rmax_left; lra| |]; intros k Hk; apply Z; exact Hk. }
  rewrite LM. destruct (Rlt_dec (1 / 1000000) 0); [lra|reflexivity].
Qed.
Lemma S2_exact f Nth Nph K0 K1 a b c d (improve : bool) : (2 <= Nth)%nat -> (2 <= Nph)%nat -> (Nph mod 2 = 0)%nat -> on_sphere (trig2 K0 K1 a b c d) ->
  (if improve then (K0 + 2 < Nth)%nat /\ (2 * (K1 + 1) < Nph)%nat else (K0 + 1 < Nth)%nat /\ (2 * K1 < Nph)%nat) ->
  (forall i j, (i < Nth)%nat -> (j < Nph)%nat -> f (IJ i j Nph) = trig2 K0 K1 a b c d (INR i * PI / INR (Nth - 1)) (xnode Nph j)) ->
  exists rC iC, r2cft_2d_S2 f Nth Nph improve = Some (rC, iC) /\
    (forall th ph, interp_S2 rC iC Nth Nph th ph = trig2 K0 K1 a b c d th ph) /\
    (forall i j, derivable_pt_lim (fun th => trig2 K0 K1 a b c d th (xnode Nph j)) (INR i * PI / INR (Nth - 1)) (df_dphi0 rC iC (2 * (Nth - 1)) Nph i j) /\
       derivable_pt_lim (fun ph => trig2 K0 K1 a b c d (INR i * PI / INR (Nth - 1)) ph) (xnode Nph j) (df_dphi1 rC iC (2 * (Nth - 1)) Nph i j)).
Proof.
  intros Ht Hp Hev Hs HK Hf. pose proof (S2_coefs f Nth Nph K0 K1 a b c d improve Ht Hp Hev Hs HK Hf) as E.
  assert (HK' : (2 * K0 < 2 * (Nth - 1))%nat /\ (2 * K1 < Nph)%nat) by (destruct improve; lia).
  assert (HF : forall i j, (i < 2 * (Nth - 1))%nat -> (j < Nph)%nat -> ext_S2 f (Nth - 1) Nph (IJ i j Nph) = trig2 K0 K1 a b c d (xnode (2 * (Nth - 1)) i) (xnode Nph j)).
  { apply ext_ok; try lia; try assumption. intros i j Hi Hj. apply Hf; [lia|exact Hj]. }
  exists (fst (r2cft_2d (ext_S2 f (Nth - 1) Nph) (2 * (Nth - 1)) Nph)), (snd (r2cft_2d (ext_S2 f (Nth - 1) Nph) (2 * (Nth - 1)) Nph)).
  split; [rewrite E; f_equal; apply surjective_pairing|]. split.
  - intros th ph. unfold interp_S2. apply interp_2d_exact; try apply HK'; assumption.
  - intros i j. replace (INR i * PI / INR (Nth - 1)) with (xnode (2 * (Nth - 1)) i)
      by (unfold xnode; rewrite mult_INR; cbn [INR]; field; apply not_0_INR; lia).
    apply derivs_exact; try apply HK'; assumption.
Qed.
Lemma S2_odd f Nth Nph improve : (Nph mod 2 <> 0)%nat -> r2cft_2d_S2 f Nth Nph improve = None.
Proof. intros H. unfold r2cft_2d_S2. destruct (Nat.eqb_spec (Nph mod 2) 0); [congruence|reflexivity]. Qed.
