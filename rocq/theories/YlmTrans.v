(** YlmTrans.v - the coefficients that get_Ylm_coeffs computes for band-limited data are the coefficients of the data. *)
From Verif Require Import RealBase TrigSums SpectralSpec ChebProofs SpectralProofs SpectralDeriv PolyLib Spectral3Spec IntegrationProofs QuadProofs
  FourierSpec FourierModel FourierProofs FourierFinal Spectral3Model YlmSpec YlmModel LegendreProofs YlmProofs LegendreOrtho YlmFinal.
From Verif Require Base.
Import Base(outcome, Ok, Abort, UB, obind).
Open Scope R_scope.

Lemma ispoly_mul m k f g : ispoly (S m) f -> ispoly (S k) g -> ispoly (S (m + k)) (fun x => f x * g x).
Proof.
  intros (l & Hl & Hp) Hg. revert m f Hl Hp. induction l as [|c r IH]; intros m f Hl Hp; cbn in Hl; [discriminate|]. injection Hl as Hl.
  destruct m as [|m].
  - destruct r; [|discriminate]. apply (ispoly_ext _ (fun x => c * g x)); [intros; rewrite Hp; cbn; ring|]. apply ispoly_scal. exact Hg.
  - apply (ispoly_ext _ (fun x => c * g x + x * (peval r x * g x))); [intros; rewrite Hp; cbn; ring|].
    apply ispoly_plus; [apply (ispoly_mono (S k)); [lia|apply ispoly_scal; exact Hg]|]. cbn [Nat.add]. apply ispoly_x. apply IH; auto.
Qed.
Lemma ispoly_refl m f : ispoly m f -> ispoly m (fun x => f (- x)).
Proof.
  intros (l & Hl & Hp). revert m f Hl Hp. induction l as [|c r IH]; intros m f Hl Hp; cbn in Hl; subst m.
  - exists []. split; [reflexivity|]. intros x. rewrite Hp. reflexivity.
  - apply (ispoly_ext _ (fun x => c + -1 * (x * peval r (- x)))); [intros; rewrite Hp; cbn; ring|]. apply ispoly_plus; [apply ispoly_cst; cbn; lia|]. apply ispoly_scal. apply ispoly_x. apply IH; auto.
Qed.
Lemma int_refl f I : integral_is f (-1) 1 I -> integral_is (fun x => f (- x)) (-1) 1 I.
Proof.
  intros (F & HF & ->). exists (fun x => - F (- x)). split; [|replace (- (-1)) with 1 by ring; replace (- (1)) with (-1) by ring; ring].
  intros x. replace (f (- x)) with (- (f (- x) * - (1))) by ring. apply (derivable_pt_lim_opp (fun x => F (- x))).
  apply (derivable_pt_lim_comp (fun x => - x) F); [|apply HF]. apply (derivable_pt_lim_opp (fun x => x)). apply derivable_pt_lim_id.
Qed.
Lemma wt_poly m : ispoly (2 * m + 1) (wt m).
Proof.
  apply (ispoly_ext _ (fun y => (-1) ^ m * (y * y - 1) ^ m)); [|apply ispoly_scal, U_poly].
  intros y. unfold wt. rewrite <- Rpow_mult_distr. f_equal. ring.
Qed.

Section Q.
Variable q : nat -> nat -> R -> R.
Hypothesis Hq : family q.
Local Notation p := (LegendreProofs.p q).
Local Notation P := (YlmProofs.P q).
Lemma pp_poly l k m : (m <= l)%nat -> ispoly (l + k + 1) (fun y => wt m y * p l m y * p k m y).
Proof.
  intros Hl. destruct (Nat.le_gt_cases m k) as [Hk|Hk].
  - replace (l + k + 1)%nat with (S ((2 * m + (l - m)) + (k - m))) by lia. apply ispoly_mul.
    + apply (ispoly_mul (2 * m) (l - m) (wt m) (p l m)); [apply (ispoly_mono (2 * m + 1)); [lia|apply wt_poly]|].
      apply (ispoly_mono (l + 1 - m)); [lia|apply p_poly; exact Hq].
    + apply (ispoly_mono (k + 1 - m)); [lia|apply p_poly; exact Hq].
  - apply (ispoly_ext _ (fun _ => 0)); [|apply ispoly_zero]. intros y. rewrite (p_high q Hq k m) by lia. ring.
Qed.
Lemma PP l k m y : -1 <= y <= 1 -> P l m y * P k m y = wt m y * p l m y * p k m y.
Proof.
  intros Hy. unfold YlmProofs.P, wt. set (s := sqrt (1 - y * y)). assert (E : s * s = 1 - y * y) by (apply sqrt_sqrt; nra). rewrite <- E, Rpow_mult_distr.
  assert (E2 : (-1) ^ m * (-1) ^ m = 1) by (rewrite <- Rpow_mult_distr; replace (-1 * -1) with 1 by ring; apply pow1).
  transitivity (((-1) ^ m * (-1) ^ m) * (s ^ m * s ^ m * p l m y * p k m y)); [ring|rewrite E2; ring].
Qed.

Section G.
Variable n : nat.
Variable x : nat -> R.
Hypothesis Hn : (1 <= n)%nat.
Hypothesis Hz : forall i, (i < n)%nat -> p n 0 (x i) = 0.
Hypothesis Hin : forall i, (i < n)%nat -> -1 < x i < 1.
Hypothesis Hd : forall i j, (i < n)%nat -> (j < n)%nat -> x i = x j -> i = j.
Local Notation w := (gl_weight q n x).
Lemma weight_ok i : small n -> (i < n)%nat -> Legendre_weight_function (x i) n = Ok (w i).
Proof.
  intros Hs Hi. pose proof (Hin i Hi) as B. destruct (acos_bound (x i)) as [B1 B2]. unfold Legendre_weight_function.
  rewrite <- (cos_acos (x i)) at 1 by lra. rewrite (dtheta_ok q Hq) by (try assumption; lia || lra). cbn [obind]. f_equal. unfold gl_weight, Pow2, dPth.
  rewrite cos_acos by lra. cbn [INR pow]. f_equal. rewrite Rmult_0_l, !Rmult_0_l, Rplus_0_l.
  assert (E : sin (acos (x i)) * sin (acos (x i)) = 1 - x i * x i).
  { pose proof (sin2_cos2 (acos (x i))) as S2. rewrite cos_acos in S2 by lra. unfold Rsqr in S2. lra. }
  rewrite <- E. ring.
Qed.
Lemma quad_refl g : ispoly (2 * n) g -> integral_is g (-1) 1 (Rsum n (fun i => w i * g (- x i))).
Proof.
  intros Hg. pose proof (gauss_legendre q Hq n x Hn Hz Hin Hd _ (ispoly_refl _ _ Hg)) as I1. apply int_refl in I1.
  refine (integral_ext _ _ _ _ _ _ I1). intros y. cbv beta. f_equal. ring.
Qed.
Lemma quad_PP l k m : (l + k < 2 * n)%nat -> (m <= l)%nat ->
  Rsum n (fun i => w i * (P l m (- x i) * P k m (- x i))) = if Nat.eqb l k then 2 / (2 * INR l + 1) * (INR (fact (l + m)) / INR (fact (l - m))) else 0.
Proof.
  intros H1 H2. rewrite (Rsum_ext n _ (fun i => w i * (wt m (- x i) * p l m (- x i) * p k m (- x i)))).
  2:{ intros i Hi. pose proof (Hin i Hi). rewrite PP by lra. reflexivity. }
  pose proof (quad_refl _ (ispoly_mono (l + k + 1) (2 * n) _ ltac:(lia) (pp_poly l k m H2))) as I1. cbv beta in I1.
  destruct (Nat.eqb_spec l k) as [->|N].
  - apply (int_unique _ _ _ _ _ I1). apply norm; assumption.
  - apply (int_unique _ _ _ _ _ I1). apply orth; assumption.
Qed.
(** sum over the nodes of w times harmonic (l,m) times the expansion in degree *)
Lemma quad_coef L l m (c : nat -> R) : (L < n)%nat -> (m <= l <= L)%nat ->
  Rsum n (fun i => w i * (ylm_norm l m * P l m (- x i) * (2 * PI * Rsum (S L) (fun k => c k * ylm_norm k m * P k m (- x i))))) = c l.
Proof.
  intros HL Hm. pose proof PI_RGT_0.
  rewrite (Rsum_ext n _ (fun i => Rsum (S L) (fun k => (2 * PI * ylm_norm l m * c k * ylm_norm k m) * (w i * (P l m (- x i) * P k m (- x i)))))).
  2:{ intros i Hi. rewrite <- !Rsum_scal. apply sum_ext2. intros k. ring. }
  rewrite Rsum_exchange. rewrite (Rsum_single (S L) l); [|lia|].
  - rewrite Rsum_scal, quad_PP by lia. rewrite Nat.eqb_refl.
    assert (E : ylm_norm l m * ylm_norm l m = (2 * INR l + 1) / (4 * PI) * (INR (fact (l - m)) / INR (fact (l + m)))).
    { unfold ylm_norm. apply sqrt_sqrt. pose proof (pos_INR l). pose proof (INR_fact_lt_0 (l - m)). pose proof (INR_fact_lt_0 (l + m)).
      apply Rmult_le_pos; left; apply Rdiv_lt_0_compat; lra. }
    transitivity (2 * PI * c l * (ylm_norm l m * ylm_norm l m) * (2 / (2 * INR l + 1) * (INR (fact (l + m)) / INR (fact (l - m))))); [ring|]. rewrite E.
    pose proof (pos_INR l). field. repeat split; try apply INR_fact_neq_0; lra.
  - intros k Hk N. rewrite Rsum_scal, quad_PP by lia. destruct (Nat.eqb_spec l k); [congruence|]. ring.
Qed.
End G.

(** ** the sum over phi *)
Lemma sum_pad L l g : (l <= L)%nat -> (forall k, (l <= k)%nat -> g k = 0) -> Rsum l g = Rsum L g.
Proof. intros H Hg. induction H; [reflexivity|]. cbn [Rsum]. rewrite <- IHle, Hg by lia. ring. Qed.
Lemma sum_shift L (g : nat -> R) : Rsum (S L) g = g O + Rsum L (fun k => g (S k)).
Proof. induction L; cbn [Rsum] in *; [ring|]. rewrite IHL. ring. Qed.
Definition deg (L m : nat) (c : nat -> nat -> R) (y : R) : R := Rsum (S L) (fun l => c l m * ylm_norm l m * P l m y).
Definition phA (L : nat) (a : nat -> nat -> R) (y : R) (m : nat) : R := match m with O => deg L 0 a y | _ => 2 * deg L m a y end.
Definition phB (L : nat) (b : nat -> nat -> R) (y : R) (m : nat) : R := match m with O => 0 | _ => - 2 * deg L m b y end.
Lemma P_high l m y : (l < m)%nat -> P l m y = 0.
Proof. intros H. unfold YlmProofs.P. rewrite (p_high q Hq) by exact H. ring. Qed.
Lemma harmonic_trig L a b y phi : harmonic L a b (fun l m => P l m y) phi = trig1 L (phA L a y) (phB L b y) phi.
Proof.
  unfold harmonic, trig1. rewrite (sum_shift L (fun k => phA L a y k * cos (INR k * phi) + phB L b y k * sin (INR k * phi))). change (INR 0) with 0. replace (0 * phi) with 0 by ring. rewrite cos_0, sin_0.
  rewrite Rsum_plus. f_equal; [unfold phA, phB, deg; ring|].
  rewrite (Rsum_ext (S L) _ (fun l => Rsum L (fun k => 2 * (a l (S k) * cos (INR (S k) * phi) - b l (S k) * sin (INR (S k) * phi)) * ylm_norm l (S k) * P l (S k) y))).
  2:{ intros l Hl. apply sum_pad; [lia|]. intros k Hk. rewrite P_high by lia. ring. }
  rewrite Rsum_exchange. apply sum_ext2. intros k. unfold phA, phB, deg.
  transitivity (Rsum (S L) (fun l => 2 * cos (INR (S k) * phi) * (a l (S k) * ylm_norm l (S k) * P l (S k) y)) + Rsum (S L) (fun l => - 2 * sin (INR (S k) * phi) * (b l (S k) * ylm_norm l (S k) * P l (S k) y))).
  - rewrite <- Rsum_plus. apply sum_ext2. intros l. ring.
  - rewrite !Rsum_scal. ring.
Qed.
Lemma phi_int L N m g A B : (2 * L < N)%nat -> (m <= L)%nat -> (forall j, (j < N)%nat -> g j = trig1 L A B (xnode N j)) ->
  integrate_expImphi g N (- Z.of_nat m) = match m with O => (2 * PI * A O, 0) | _ => (PI * A m, - (PI * B m)) end.
Proof.
  intros HN Hm Hg. assert (NZ : INR N <> 0) by (apply not_0_INR; lia). unfold integrate_expImphi. rewrite csum_val. unfold cscal. cbn [fst snd].
  assert (E1 : Rsum N (fun i => fst (cscal (g i) (cexpi (IZR (- Z.of_nat m) * (2 * PI / INR N) * INR i)))) = Rsum N (fun i => trig1 L A B (xnode N i) * cos (INR m * xnode N i - 0))).
  { apply Rsum_ext. intros i Hi. unfold cscal, cexpi. cbn [fst]. rewrite Hg by exact Hi. f_equal. rewrite opp_IZR, <- INR_IZR_INZ, <- cos_neg. f_equal. unfold xnode. ring. }
  assert (E2 : Rsum N (fun i => snd (cscal (g i) (cexpi (IZR (- Z.of_nat m) * (2 * PI / INR N) * INR i)))) = - 1 * Rsum N (fun i => trig1 L A B (xnode N i) * cos (INR m * xnode N i - PI / 2))).
  { rewrite <- Rsum_scal. apply Rsum_ext. intros i Hi. unfold cscal, cexpi. cbn [snd]. rewrite Hg, <- sin_as_cos by exact Hi. rewrite opp_IZR, <- INR_IZR_INZ.
    replace (- INR m * (2 * PI / INR N) * INR i) with (- (INR m * xnode N i)) by (unfold xnode; ring). rewrite sin_neg. ring. }
  unfold cscal in E1, E2. cbn [fst snd] in E1, E2. rewrite E1, E2, !trig1_coef by assumption.
  destruct m; rewrite ?cos_0, ?sin_0, ?cos_PI2, ?sin_PI2; f_equal; field; exact NZ.
Qed.
Lemma phi_int_harm L N m g a b y : (2 * L < N)%nat -> (m <= L)%nat -> (forall j, (j < N)%nat -> g j = harmonic L a b (fun l m => P l m y) (INR j * 2 * PI / INR N)) ->
  integrate_expImphi g N (- Z.of_nat m) = (2 * PI * deg L m a y, match m with O => 0 | _ => 2 * PI * deg L m b y end).
Proof.
  intros HN Hm Hg. rewrite (phi_int L N m g (phA L a y) (phB L b y) HN Hm).
  - destruct m; cbn [phA phB]; f_equal; ring.
  - intros j Hj. rewrite Hg, harmonic_trig by exact Hj. f_equal. unfold xnode. field. apply not_0_INR. lia.
Qed.

(** ** the loop over (l,m) *)
Lemma in_pairs L l m : In (l, m) (lm_pairs L) <-> (m <= l <= L)%nat.
Proof.
  unfold lm_pairs. rewrite in_flat_map. split.
  - intros (k & H1 & H2). apply in_map_iff in H2. destruct H2 as (j & E & H2). injection E as -> ->. apply in_seq in H1. apply in_seq in H2. lia.
  - intros H. exists l. split; [apply in_seq; lia|]. apply in_map_iff. exists m. split; [reflexivity|]. apply in_seq. lia.
Qed.
Lemma coef_loop_ok w f theta Nt Np r s : forall ps A,
  (forall l m A, In (l, m) ps -> coef_step w f theta Nt Np A l m = Ok (upd (fst A) (lm2n l m) (r l m), upd (snd A) (lm2n l m) (s l m))) ->
  (forall l m, In (l, m) ps -> (m <= l)%nat) ->
  exists B, coef_loop w f theta Nt Np ps A = Ok B /\
    (forall l m, In (l, m) ps -> fst B (lm2n l m) = r l m /\ snd B (lm2n l m) = s l m) /\
    (forall k, (forall l m, In (l, m) ps -> lm2n l m <> k) -> fst B k = fst A k /\ snd B k = snd A k).
Proof.
  induction ps as [|(l, m) t IH]; intros A Hs Hm; cbn [coef_loop].
  - exists A. split; [reflexivity|]. split; [intros ? ? []|]. auto.
  - rewrite Hs by (left; reflexivity). cbn [obind]. destruct (IH (upd (fst A) (lm2n l m) (r l m), upd (snd A) (lm2n l m) (s l m))) as (B & E & HB & HF).
    { intros. apply Hs. right. assumption. } { intros. apply Hm. right. assumption. }
    exists B. split; [exact E|]. split.
    + intros l' m' [H|H]; [|apply HB; exact H]. injection H as -> ->.
      assert (Hl' : (m' <= l')%nat) by (apply Hm; left; reflexivity).
      destruct (in_dec (fun a b : nat * nat => ltac:(decide equality; apply Nat.eq_dec)) (l', m') t) as [I|N]; [apply HB; exact I|].
      destruct (HF (lm2n l' m')) as [-> ->]; [|unfold upd; cbn [fst snd]; rewrite Nat.eqb_refl; split; reflexivity].
      intros l m I E'. apply lm2n_inj in E'; [|apply Hm; right; exact I|exact Hl']. destruct E' as [-> ->]. contradiction.
    + intros k Hk. destruct (HF k) as [-> ->]; [intros; apply Hk; right; assumption|]. unfold upd. cbn [fst snd].
      assert (N : lm2n l m <> k) by (apply Hk; left; reflexivity). destruct (Nat.eqb_spec k (lm2n l m)); [congruence|]. auto.
Qed.
Lemma quad_small w n f : (n <= 6)%nat -> GaussQuadrature_Legendre w n f = Ok (Rsum n (fun i => w i * f i)).
Proof.
  intros H. unfold GaussQuadrature_Legendre. replace (2 * Z.of_nat n)%Z with (Z.of_nat (2 * n)) by lia. rewrite !Factorial_ok by lia. reflexivity.
Qed.
Definition nodes_at (Np : nat) (j : nat) : R := INR j * 2 * PI / INR Np.
(** the theta sum over the nodes, for one (l,m): the values the loop stores *)
Lemma sums_ok tab f a b L Nt Np l m : (forall i, (i < Nt)%nat -> p Nt 0 (tab i) = 0 /\ -1 < tab i < 1) ->
  (forall i j, (i < Nt)%nat -> (j < Nt)%nat -> tab i = tab j -> i = j) ->
  (L < Nt)%nat -> (2 * L < Np)%nat ->
  (forall i j, (i < Nt)%nat -> (j < Np)%nat -> f (j + i * Np)%nat = harmonic L a b (fun l m => P l m (- tab i)) (INR j * 2 * PI / INR Np)) ->
  (m <= l <= L)%nat ->
  exists vr vi, (forall i, (i < Nt)%nat -> fYlm fst f (fun i => acos (- tab i)) Np l m i = Ok (vr i) /\ fYlm snd f (fun i => acos (- tab i)) Np l m i = Ok (vi i)) /\
    Rsum Nt (fun i => gl_weight q Nt tab i * vr i) = a l m /\ Rsum Nt (fun i => gl_weight q Nt tab i * vi i) = match m with O => 0 | _ => b l m end.
Proof.
  intros HT HD HL HN Hf Hm. pose proof PI_RGT_0.
  exists (fun i => ylm_norm l m * P l m (- tab i) * (2 * PI * deg L m a (- tab i))),
         (fun i => ylm_norm l m * P l m (- tab i) * match m with O => 0 | _ => 2 * PI * deg L m b (- tab i) end).
  split; [|split].
  - intros i Hi. destruct (HT i Hi) as [_ B]. destruct (node_theta _ B) as [[T1 T2] T3]. unfold fYlm.
    rewrite (Ylm_pos q Hq) by (lra || lia). cbn [obind]. rewrite (phi_int_harm L Np m _ a b (- tab i)) by (try assumption; try lia; intros; apply Hf; assumption).
    unfold uY, cscal, cexpi. cbn [fst snd]. rewrite T3, Rmult_0_r, cos_0, Rmult_1_r. split; reflexivity.
  - apply (quad_coef Nt tab) with (c := fun k => a k m); try assumption; try lia; intros; apply HT; assumption.
  - destruct m as [|m].
    + apply Rsum_zero. intros i Hi. ring.
    + apply (quad_coef Nt tab) with (c := fun k => b k (S m)); try assumption; try lia; intros; apply HT; assumption.
Qed.
Lemma coeffs_ok tab f a b L Nt Np A : (forall i, (i < Nt)%nat -> p Nt 0 (tab i) = 0 /\ -1 < tab i < 1) ->
  (forall i j, (i < Nt)%nat -> (j < Nt)%nat -> tab i = tab j -> i = j) ->
  (L < Nt <= 6)%nat -> (2 * L < Np)%nat ->
  (forall i j, (i < Nt)%nat -> (j < Np)%nat -> f (j + i * Np)%nat = harmonic L a b (fun l m => P l m (- tab i)) (INR j * 2 * PI / INR Np)) ->
  exists B, get_Ylm_coeffs tab f Nt Np L A = Ok B /\
    (forall l m, (m <= l <= L)%nat -> fst B (lm2n l m) = a l m /\ snd B (lm2n l m) = match m with O => 0 | _ => b l m end) /\
    (forall k, (Ncoeffs_Ylm L <= k)%nat -> fst B k = fst A k /\ snd B k = snd A k).
Proof.
  intros HT HD HL HN Hf. unfold get_Ylm_coeffs.
  destruct (oarray_ok Nt (fun i => Legendre_root_function tab i Nt) tab) as (x & E & Hx).
  { intros i Hi. unfold Legendre_root_function. destruct (Nat.leb_spec 100 Nt); [lia|]. destruct (Nat.leb_spec Nt i); [lia|]. reflexivity. }
  rewrite E. cbn [obind].
  destruct (oarray_ok Nt (fun i => Legendre_weight_function (x i) Nt) (gl_weight q Nt tab)) as (w & Ew & Hw).
  { intros i Hi. rewrite Hx by exact Hi. apply weight_ok; try lia; [|unfold small; lia]. intros; apply HT; assumption. }
  rewrite Ew. cbn [obind].
  destruct (coef_loop_ok w f (fun i => acos (- x i)) Nt Np a (fun l m => match m with O => 0 | _ => b l m end) (lm_pairs L) A) as (B & EB & H1 & H2).
  - intros l m A' Hin'. apply in_pairs in Hin'. destruct (sums_ok tab f a b L Nt Np l m HT HD ltac:(lia) HN Hf Hin') as (vr & vi & HV & S1 & S2).
    unfold coef_step.
    assert (EX : forall part i, (i < Nt)%nat -> fYlm part f (fun i => acos (- x i)) Np l m i = fYlm part f (fun i => acos (- tab i)) Np l m i).
    { intros part i Hi. unfold fYlm. rewrite Hx by exact Hi. reflexivity. }
    destruct (oarray_ok Nt (fYlm fst f (fun i => acos (- x i)) Np l m) vr) as (re & Er & Hr). { intros i Hi. rewrite EX by exact Hi. apply HV. exact Hi. }
    destruct (oarray_ok Nt (fYlm snd f (fun i => acos (- x i)) Np l m) vi) as (im & Ei & Hi'). { intros i Hi. rewrite EX by exact Hi. apply HV. exact Hi. }
    rewrite Er, Ei. cbn [obind]. rewrite !quad_small by lia. cbn [obind]. rewrite <- S1, <- S2.
    rewrite (Rsum_ext Nt (fun i => w i * re i) (fun i => gl_weight q Nt tab i * vr i)) by (intros i Hi; rewrite Hw, Hr by exact Hi; reflexivity).
    rewrite (Rsum_ext Nt (fun i => w i * im i) (fun i => gl_weight q Nt tab i * vi i)) by (intros i Hi; rewrite Hw, Hi' by exact Hi; reflexivity).
    reflexivity.
  - intros l m H. apply in_pairs in H. lia.
  - exists B. split; [exact EB|]. split.
    + intros l m H. apply H1. apply in_pairs. exact H.
    + intros k Hk. apply H2. intros l m H. apply in_pairs in H. pose proof (lm2n_range l m L H). lia.
Qed.
(** from seven theta points on, the quadrature overflows an int *)
Lemma coeffs_ub tab f L Nt Np A : (7 <= Nt < 100)%nat -> (forall i, (i < Nt)%nat -> -1 < tab i < 1) -> get_Ylm_coeffs tab f Nt Np L A = UB.
Proof.
  intros HN HT. unfold get_Ylm_coeffs.
  destruct (oarray_ok Nt (fun i => Legendre_root_function tab i Nt) tab) as (x & E & Hx).
  { intros i Hi. unfold Legendre_root_function. destruct (Nat.leb_spec 100 Nt); [lia|]. destruct (Nat.leb_spec Nt i); [lia|]. reflexivity. }
  rewrite E. cbn [obind].
  destruct (oarray_ok Nt (fun i => Legendre_weight_function (x i) Nt) (gl_weight q Nt tab)) as (w & Ew & Hw).
  { intros i Hi. rewrite Hx by exact Hi. apply weight_ok; try lia; [exact HT|unfold small; lia]. }
  rewrite Ew. cbn [obind]. unfold lm_pairs. cbn [seq flat_map map app coef_loop]. unfold coef_step.
  assert (HY : forall part i, (i < Nt)%nat -> exists v, fYlm part f (fun i => acos (- x i)) Np 0 0 i = Ok v).
  { intros part i Hi. unfold fYlm. rewrite Hx by exact Hi. pose proof (HT i Hi) as B. destruct (node_theta _ B) as [[T1 T2] T3].
    pose proof PI_RGT_0. rewrite (Ylm_pos q Hq) by (lra || lia). cbn [obind]. eexists. reflexivity. }
  assert (HA : forall part k, (k <= Nt)%nat -> exists a, oarray k (fYlm part f (fun i => acos (- x i)) Np 0 0) = Ok a).
  { intros part k. induction k; intros Hk; cbn [oarray]; [eexists; reflexivity|]. destruct IHk as (a & ->); [lia|]. destruct (HY part k ltac:(lia)) as (v & ->). cbn [obind]. eexists. reflexivity. }
  destruct (HA fst Nt (le_n _)) as (re & ->). destruct (HA snd Nt (le_n _)) as (im & ->). cbn [obind].
  rewrite (proj2 (proj2 gauss_overflow) w Nt re) by lia. reflexivity.
Qed.
End Q.
