(** LegendreOrtho.v - orthogonality and norm of the Legendre functions, exactness of Gauss-Legendre quadrature. *)
From Verif Require Import RealBase TrigSums SpectralSpec ChebProofs SpectralProofs SpectralDeriv PolyLib Spectral3Spec IntegrationProofs YlmSpec LegendreProofs.
Open Scope R_scope.

(** ** integrals *)
Lemma int_plus f g a b I J : integral_is f a b I -> integral_is g a b J -> integral_is (fun x => f x + g x) a b (I + J).
Proof.
  intros (F & HF & ->) (G & HG & ->). exists (fun x => F x + G x). split; [|ring]. intros x. apply (derivable_pt_lim_plus F G); auto.
Qed.
Lemma int_unique f a b I J : integral_is f a b I -> integral_is f a b J -> I = J.
Proof.
  intros (F & HF & ->) (G & HG & ->).
  assert (D : forall x, derivable_pt_lim (fun x => F x - G x) x 0).
  { intros x. replace 0 with (f x - f x) by ring. apply (derivable_pt_lim_minus F G); auto. }
  assert (C : F b - G b = F a - G a).
  { pose (pr := fun x => exist (fun l => derivable_pt_abs (fun x => F x - G x) x l) 0 (D x) : derivable_pt (fun x => F x - G x) x).
    assert (K : constant (fun x => F x - G x)).
    { apply (null_derivative_1 _ pr). intros x. apply derive_pt_eq_0. apply D. }
    apply K. }
  lra.
Qed.
Lemma int_poly m f a b : ispoly m f -> exists I, integral_is f a b I.
Proof.
  intros (p & _ & Hp).
  assert (A : forall p j, exists F, forall x, derivable_pt_lim F x (x ^ j * peval p x)).
  { clear. induction p as [|c q IH]; intros j.
    - exists (fun _ => 0). intros x. cbn. rewrite Rmult_0_r. apply derivable_pt_lim_const.
    - destruct (IH (S j)) as (F & HF). exists (fun x => c * powI j x + F x). intros x. cbn [peval].
      replace (x ^ j * (c + x * peval q x)) with (c * x ^ j + x ^ S j * peval q x) by (cbn; ring).
      apply (derivable_pt_lim_plus (fun x => c * powI j x) F); [apply (derivable_pt_lim_scal (powI j)); apply d_powI|apply HF]. }
  destruct (A p O) as (F & HF). exists (F b - F a), F. split; [|reflexivity]. intros x. rewrite Hp. specialize (HF x). cbn [pow] in HF. rewrite Rmult_1_l in HF. exact HF.
Qed.
Lemma ispoly_mult m k f g : ispoly m f -> ispoly k g -> ispoly (m + k) (fun x => f x * g x).
Proof.
  intros (p & Hl & Hp) Hg. revert m f Hl Hp. induction p as [|c q IH]; intros m f Hl Hp; cbn in Hl; subst m.
  - apply (ispoly_ext _ (fun _ => 0)); [intros; rewrite Hp; cbn; ring|apply ispoly_zero].
  - apply (ispoly_ext _ (fun x => c * g x + x * (peval q x * g x))); [intros; rewrite Hp; cbn; ring|].
    apply ispoly_plus; [apply (ispoly_mono k); [lia|apply ispoly_scal; exact Hg]|]. cbn [Nat.add]. apply ispoly_x. apply IH; auto.
Qed.
Lemma jet_high m : forall D, jet D -> ispoly m (D O) -> forall k y, (m <= k)%nat -> D k y = 0.
Proof.
  induction m; intros D HD H0 k y Hk.
  - revert y. induction k; intros y; [apply ispoly_0; exact H0|].
    apply (uniqueness_limite (D k) y); [apply HD|]. apply (derivable_pt_lim_ext (fun _ => 0)); [intros; symmetry; apply IHk; lia|apply derivable_pt_lim_const].
  - destruct k as [|k]; [lia|]. destruct (ispoly_deriv m (D O) H0) as (f' & Hf' & Df).
    apply (IHm (fun k => D (S k))); [apply jet_shift; exact HD| |lia].
    apply (ispoly_ext _ f'); [|exact Hf']. intros x. apply (uniqueness_limite (D O) x); [apply Df|apply HD].
Qed.
Lemma jet_poly m : forall D, jet D -> ispoly m (D O) -> forall k, ispoly (m - k) (D k).
Proof.
  induction m; intros D HD H0 k.
  - apply (ispoly_ext _ (fun _ => 0)); [|apply ispoly_zero]. intros x. symmetry. apply (jet_high 0); auto; lia.
  - destruct k as [|k]; [exact H0|]. destruct (ispoly_deriv m (D O) H0) as (f' & Hf' & Df).
    replace (S m - S k)%nat with (m - k)%nat by lia. apply (IHm (fun k => D (S k))); [apply jet_shift; exact HD|].
    apply (ispoly_ext _ f'); [|exact Hf']. intros x. apply (uniqueness_limite (D O) x); [apply Df|apply HD].
Qed.
(** division by distinct roots *)
Fixpoint prodr (n : nat) (x : nat -> R) (y : R) : R := match n with O => 1 | S k => (y - x k) * prodr k x y end.
Lemma div_roots n : forall m f x, ispoly (n + m) f -> (forall i j, (i < n)%nat -> (j < n)%nat -> x i = x j -> i = j) -> (forall i, (i < n)%nat -> f (x i) = 0) ->
  exists g, ispoly m g /\ forall y, f y = prodr n x y * g y.
Proof.
  induction n; intros m f x Hf Hd Hz.
  - exists f. split; [exact Hf|]. intros; cbn; ring.
  - destruct (ispoly_quot (n + m) f (x n) Hf) as (g & Hg & E). rewrite (Hz n) in E by lia.
    destruct (IHn m g x Hg) as (h & Hh & Eh).
    + intros; apply Hd; auto; lia.
    + intros i Hi. pose proof (E (x i)) as Ei. rewrite (Hz i) in Ei by lia. assert (x i <> x n) by (intros C; apply Hd in C; lia).
      assert (Z : (x i - x n) * g (x i) = 0) by lra. apply Rmult_integral in Z. destruct Z; [exfalso; lra|assumption].
    + exists h. split; [exact Hh|]. intros y. rewrite E, Eh. cbn [prodr]. ring.
Qed.

Section Q.
Variable q : nat -> nat -> R -> R.
Hypothesis Hq : family q.
Local Notation p := (p q).
Lemma p_poly l m : ispoly (l + 1 - m) (p l m).
Proof.
  unfold LegendreProofs.p. replace (l + 1 - m)%nat with (2 * l + 1 - (l + m))%nat by lia. apply jet_poly; [apply q_jet; exact Hq|].
  pose proof (cf_pos l). apply (ispoly_ext _ (fun y => / cf l * (y * y - 1) ^ l)); [|apply ispoly_scal, U_poly].
  intros y. rewrite <- (q_0 q Hq). field. lra.
Qed.
Lemma p_end l y : y * y = 1 -> p (S l) 0 y = y * p l 0 y.
Proof.
  intros Hy. unfold LegendreProofs.p. rewrite !Nat.add_0_r, (qA q Hq). pose proof (qB q Hq l l y) as B. rewrite Hy in B.
  destruct l; [cbn [INR]; ring|]. assert (H : INR (S l) * q (S l) (S l - 1)%nat y = 0); [|lra].
  assert (INR (S l) <> 0) by (apply not_0_INR; discriminate). pose proof (pos_INR (S l)).
  apply Rmult_eq_reg_l with (INR (S l) - 1 - 2 * INR (S l)); [|lra]. rewrite Rmult_0_r, <- B. ring.
Qed.
Lemma p_sq l y : y * y = 1 -> p l 0 y * p l 0 y = 1.
Proof.
  intros Hy. induction l; [unfold LegendreProofs.p; rewrite (q0_val q Hq); cbn; ring|]. rewrite p_end by exact Hy.
  replace (y * p l 0 y * (y * p l 0 y)) with (y * y * (p l 0 y * p l 0 y)) by ring. rewrite Hy, IHl. ring.
Qed.
Definition wt (m : nat) (y : R) : R := (1 - y * y) ^ m.
Lemma wt_deriv m y : derivable_pt_lim (wt (S m)) y (INR (S m) * wt m y * (- 2 * y)).
Proof.
  apply (derivable_pt_lim_comp (fun y => 1 - y * y) (fun z => z ^ S m)); [|apply (derivable_pt_lim_pow _ (S m))].
  replace (-2 * y) with (0 - (1 * y + y * 1)) by ring. apply (derivable_pt_lim_minus (fun _ => 1) (fun y => y * y)); [apply derivable_pt_lim_const|].
  apply (derivable_pt_lim_mult (fun y => y) (fun y => y)); apply derivable_pt_lim_id.
Qed.
Lemma div_form l m y : derivable_pt_lim (fun y => wt (S m) y * p l (S m) y) y (- ((INR l + INR m + 1) * (INR l - INR m)) * (wt m y * p l m y)).
Proof.
  replace (- ((INR l + INR m + 1) * (INR l - INR m)) * (wt m y * p l m y)) with (INR (S m) * wt m y * (- 2 * y) * p l (S m) y + wt (S m) y * p l (S (S m)) y).
  - apply (derivable_pt_lim_mult (wt (S m)) (p l (S m))); [apply wt_deriv|apply p_deriv; exact Hq].
  - pose proof (p_ode q Hq l (S m) y ltac:(lia)) as O. replace (S m - 1)%nat with m in O by lia. rewrite S_INR in *.
    change (wt (S m) y) with ((1 - y * y) * wt m y).
    match type of O with ?a = 0 => match goal with |- ?x = ?z => transitivity (z - wt m y * a); [ring|rewrite O; ring] end end.
Qed.
Lemma wt_end m y : y * y = 1 -> wt (S m) y = 0.
Proof. intros H. unfold wt. rewrite H. cbn. ring. Qed.
Lemma int_step l m G G' : (forall y, derivable_pt_lim G y (G' y)) ->
  integral_is (fun y => - ((INR l + INR m + 1) * (INR l - INR m)) * (wt m y * p l m y * G y) + wt (S m) y * p l (S m) y * G' y) (-1) 1 0.
Proof.
  intros HG. exists (fun y => wt (S m) y * p l (S m) y * G y). split.
  - intros y. pose proof (derivable_pt_lim_mult _ _ y _ _ (div_form l m y) (HG y)) as D.
    replace (- ((INR l + INR m + 1) * (INR l - INR m)) * (wt m y * p l m y * G y) + wt (S m) y * p l (S m) y * G' y)
      with (- ((INR l + INR m + 1) * (INR l - INR m)) * (wt m y * p l m y) * G y + wt (S m) y * p l (S m) y * G' y) by ring. exact D.
  - rewrite !wt_end by ring. ring.
Qed.
(** P_l is orthogonal to polynomials of lower degree *)
Lemma low_orth l G : jet G -> (forall y, G l y = 0) -> integral_is (fun y => p l 0 y * G O y) (-1) 1 0.
Proof.
  intros HG Hl.
  assert (A : forall j m, (m + j = l)%nat -> integral_is (fun y => wt m y * p l m y * G m y) (-1) 1 0).
  { induction j; intros m E.
    - assert (m = l) as -> by lia. apply (integral_ext (fun _ => 0)); [intros; rewrite Hl; ring|]. exists (fun _ => 0). split; [intros; apply derivable_pt_lim_const|ring].
    - pose proof (IHj (S m) ltac:(lia)) as I1. pose proof (int_step l m (G m) (G (S m)) (HG m)) as I2.
      set (c := - ((INR l + INR m + 1) * (INR l - INR m))) in *.
      assert (C : c <> 0). { unfold c. assert (INR m < INR l) by (apply lt_INR; lia). pose proof (pos_INR m). apply Ropp_neq_0_compat, Rmult_integral_contrapositive_currified; lra. }
      pose proof (integral_scal _ _ _ _ (/ c) (int_plus _ _ _ _ _ _ I2 (integral_scal _ _ _ _ (-1) I1))) as I3.
      replace (/ c * (0 + -1 * 0)) with 0 in I3 by ring. refine (integral_ext _ _ _ _ _ _ I3). intros y. cbv beta. field. exact C. }
  apply (integral_ext (fun y => wt 0 y * p l 0 y * G O y)); [intros; unfold wt; cbn; ring|]. apply (A l O). lia.
Qed.
Lemma low_orth_poly l g : ispoly l g -> integral_is (fun y => p l 0 y * g y) (-1) 1 0.
Proof.
  intros Hg. destruct (ispoly_jet l g Hg) as (D & HD & E). apply (integral_ext (fun y => p l 0 y * D O y)); [intros; rewrite E; reflexivity|].
  apply low_orth; [exact HD|]. intros y. apply (jet_high l D HD); [|lia]. apply (ispoly_ext _ g); [intros; symmetry; apply E|exact Hg].
Qed.
(** orthogonality for equal m *)
Lemma orth l k m : l <> k -> integral_is (fun y => wt m y * p l m y * p k m y) (-1) 1 0.
Proof.
  intros N. set (c := INR k * (INR k + 1) - INR l * (INR l + 1)).
  assert (C : c <> 0). { unfold c. pose proof (pos_INR l). pose proof (pos_INR k). intros H1. assert (E : (INR k - INR l) * (INR k + INR l + 1) = 0) by lra.
    apply Rmult_integral in E. destruct E as [E|E]; [|lra]. apply N, INR_eq. lra. }
  pose proof (int_step l m (p k m) (p k (S m)) (p_deriv q Hq k m)) as I1. pose proof (int_step k m (p l m) (p l (S m)) (p_deriv q Hq l m)) as I2.
  pose proof (integral_scal _ _ _ _ (/ c) (int_plus _ _ _ _ _ _ I1 (integral_scal _ _ _ _ (-1) I2))) as I3.
  replace (/ c * (0 + -1 * 0)) with 0 in I3 by ring. refine (integral_ext _ _ _ _ _ _ I3). intros y. cbv beta. unfold c in *. field. exact C.
Qed.
(** norms *)
Lemma euler l y : (1 <= l)%nat -> y * p l 1 y = INR l * p l 0 y + p (l - 1) 1 y.
Proof.
  intros Hl. destruct l as [|l]; [lia|]. replace (S l - 1)%nat with l by lia. unfold LegendreProofs.p.
  replace (S l + 1)%nat with (S (S l)) by lia. replace (S l + 0)%nat with (S l) by lia. replace (l + 1)%nat with (S l) by lia.
  rewrite (qA q Hq l (S l)), (qA q Hq l l). replace (S l - 1)%nat with l by lia. pose proof (qB q Hq l l y) as B. rewrite S_INR.
  match type of B with ?a = 0 => match goal with |- ?x = ?z => transitivity (z + a); [ring|rewrite B; ring] end end.
Qed.
Lemma norm0 l : integral_is (fun y => p l 0 y * p l 0 y) (-1) 1 (2 / (2 * INR l + 1)).
Proof.
  pose proof (pos_INR l) as PL. destruct l as [|l].
  - exists (fun y => y). split; [|cbn [INR]; field]. intros y. unfold LegendreProofs.p. rewrite (q0_val q Hq). cbn [Nat.add]. rewrite Rmult_1_l. apply derivable_pt_lim_id.
  - assert (O1 : integral_is (fun y => p (S l) 0 y * p l 1 y) (-1) 1 0).
    { apply low_orth_poly. apply (ispoly_mono (l + 1 - 1)); [lia|apply p_poly]. }
    assert (T : integral_is (fun y => p (S l) 0 y * p (S l) 0 y + y * (2 * (p (S l) 0 y * p (S l) 1 y))) (-1) 1 2).
    { exists (fun y => y * (p (S l) 0 y * p (S l) 0 y)). split.
      - intros y. pose proof (p_deriv q Hq (S l) 0 y) as D. pose proof (derivable_pt_lim_mult (fun y => y) _ y _ _ (derivable_pt_lim_id y) (derivable_pt_lim_mult _ _ y _ _ D D)) as DD.
        replace (p (S l) 0 y * p (S l) 0 y + y * (2 * (p (S l) 0 y * p (S l) 1 y))) with
          (1 * (p (S l) 0 y * p (S l) 0 y) + y * (p (S l) 1 y * p (S l) 0 y + p (S l) 0 y * p (S l) 1 y)) by ring. exact DD.
      - rewrite !p_sq by ring. ring. }
    pose proof (integral_scal _ _ _ _ (/ (2 * INR (S l) + 1)) (int_plus _ _ _ _ _ _ T (integral_scal _ _ _ _ (-2) O1))) as I3.
    replace (/ (2 * INR (S l) + 1) * (2 + -2 * 0)) with (2 / (2 * INR (S l) + 1)) in I3 by (field; lra).
    refine (integral_ext _ _ _ _ _ _ I3). intros y. cbv beta. pose proof (euler (S l) y ltac:(lia)) as E. replace (S l - 1)%nat with l in E by lia.
    replace (p l 1 y) with (y * p (S l) 1 y - INR (S l) * p (S l) 0 y) by lra. field. lra.
Qed.
Lemma norm l m : (m <= l)%nat -> integral_is (fun y => wt m y * p l m y * p l m y) (-1) 1 (2 / (2 * INR l + 1) * (INR (fact (l + m)) / INR (fact (l - m)))).
Proof.
  pose proof (pos_INR l) as PL. induction m; intros H.
  - rewrite Nat.add_0_r, Nat.sub_0_r. replace (2 / (2 * INR l + 1) * (INR (fact l) / INR (fact l))) with (2 / (2 * INR l + 1)) by (field; split; [apply INR_fact_neq_0|lra]).
    apply (integral_ext (fun y => p l 0 y * p l 0 y)); [intros; unfold wt; cbn; ring|apply norm0].
  - pose proof (IHm ltac:(lia)) as I1. pose proof (int_step l m (p l m) (p l (S m)) (p_deriv q Hq l m)) as I2.
    pose proof (int_plus _ _ _ _ _ _ I2 (integral_scal _ _ _ _ ((INR l + INR m + 1) * (INR l - INR m)) I1)) as I3.
    replace (2 / (2 * INR l + 1) * (INR (fact (l + S m)) / INR (fact (l - S m)))) with
      (0 + (INR l + INR m + 1) * (INR l - INR m) * (2 / (2 * INR l + 1) * (INR (fact (l + m)) / INR (fact (l - m))))).
    + refine (integral_ext _ _ _ _ _ _ I3). intros y. cbv beta. ring.
    + replace (l + S m)%nat with (S (l + m)) by lia. replace (l - m)%nat with (S (l - S m)) by lia. rewrite !fact_simpl, !mult_INR.
      replace (INR (S (l + m))) with (INR l + INR m + 1) by (rewrite S_INR, plus_INR; ring).
      replace (INR (S (l - S m))) with (INR l - INR m) by (replace (S (l - S m)) with (l - m)%nat by lia; rewrite minus_INR by lia; reflexivity).
      assert (INR m < INR l) by (apply lt_INR; lia). field. repeat split; try apply INR_fact_neq_0; lra.
Qed.

(** ** Gauss-Legendre quadrature *)
Section Gauss.
Variable n : nat.
Variable x : nat -> R.
Hypothesis Hn : (1 <= n)%nat.
Hypothesis Hz : forall i, (i < n)%nat -> p n 0 (x i) = 0.
Hypothesis Hin : forall i, (i < n)%nat -> -1 < x i < 1.
Hypothesis Hd : forall i j, (i < n)%nat -> (j < n)%nat -> x i = x j -> i = j.
Lemma p1_nz : forall y, y * y = 1 -> p n 0 y <> 0.
Proof. intros y Hy E. pose proof (p_sq n y Hy). rewrite E in *. lra. Qed.
Lemma P_prod : exists c, c <> 0 /\ forall y, prodr n x y = c * p n 0 y.
Proof.
  destruct (div_roots n 1 (p n 0) x) as (g & Hg & E); auto. { apply (ispoly_mono (n + 1 - 0)); [lia|apply p_poly]. }
  destruct (ispoly_quot 0 g 0 Hg) as (h & Hh & Eh).
  assert (G : forall y, g y = g 0) by (intros y; rewrite Eh, (ispoly_0 h Hh); ring).
  assert (N : g 0 <> 0). { intros Z. apply (p1_nz 1); [ring|]. rewrite E, G, Z. ring. }
  exists (/ g 0). split; [apply Rinv_neq_0_compat; exact N|]. intros y. rewrite E, (G y). field. exact N.
Qed.
(** P_n(y)/(y - x_i) *)
Lemma quot_i i : (i < n)%nat -> exists g, ispoly n g /\ (forall y, p n 0 y = (y - x i) * g y) /\ g (x i) = p n 1 (x i) /\ g (x i) <> 0 /\
  forall j, (j < n)%nat -> j <> i -> g (x j) = 0.
Proof.
  intros Hi. destruct (ispoly_quot n (p n 0) (x i)) as (g & Hg & E). { apply (ispoly_mono (n + 1 - 0)); [lia|apply p_poly]. }
  pose proof (quot_deriv (p n 0) g (x i) n E Hg) as D.
  rewrite (Hz i Hi) in E. exists g. split; [exact Hg|]. split; [intros; rewrite E; ring|].
  assert (Z : forall j, (j < n)%nat -> j <> i -> g (x j) = 0).
  { intros j Hj N. pose proof (E (x j)) as Ej. rewrite (Hz j Hj) in Ej. assert (x j <> x i) by (intros C; apply N, Hd; auto).
    assert (ZZ : (x j - x i) * g (x j) = 0) by lra. apply Rmult_integral in ZZ. destruct ZZ; [exfalso; lra|assumption]. }
  split; [apply (uniqueness_limite (p n 0) (x i)); [exact D|apply p_deriv; exact Hq]|]. split; [|exact Z].
  intros C. apply (p1_nz 1); [ring|]. rewrite E, (ispoly_roots n g x Hg Hd); [ring|]. intros j Hj. destruct (Nat.eq_dec j i) as [->|N]; auto.
Qed.
Lemma exact_some : exists I : nat -> R, forall f, ispoly (2 * n) f -> integral_is f (-1) 1 (Rsum n (fun i => I i * f (x i))).
Proof.
  assert (A : forall k, (k <= n)%nat -> exists (l : nat -> R -> R) (I : nat -> R), forall i, (i < k)%nat -> ispoly n (l i) /\ integral_is (l i) (-1) 1 (I i) /\
     l i (x i) = 1 /\ forall j, (j < n)%nat -> j <> i -> l i (x j) = 0).
  { induction k; intros Hk.
    - exists (fun _ _ => 0), (fun _ => 0). intros i Hi. lia.
    - destruct (IHk ltac:(lia)) as (l & I & H). destruct (quot_i k ltac:(lia)) as (g & Hg & _ & _ & Ng & Zg).
      set (lk := fun y => / g (x k) * g y). assert (Hlk : ispoly n lk) by (apply ispoly_scal; exact Hg).
      destruct (int_poly n lk (-1) 1 Hlk) as (J & HJ).
      exists (fun i => if Nat.eqb i k then lk else l i), (fun i => if Nat.eqb i k then J else I i). intros i Hi.
      destruct (Nat.eqb_spec i k) as [->|N]; [|apply H; lia]. split; [exact Hlk|]. split; [exact HJ|]. split; [unfold lk; field; exact Ng|].
      intros j Hj Nj. unfold lk. rewrite (Zg j Hj Nj). ring. }
  destruct (A n (le_n n)) as (l & I & H). exists I. intros f Hf.
  set (r := fun y => Rsum n (fun i => f (x i) * l i y)).
  assert (Hr : ispoly n r) by (apply ispoly_sum; intros i Hi; apply ispoly_scal, H; exact Hi).
  assert (Rx : forall j, (j < n)%nat -> r (x j) = f (x j)).
  { intros j Hj. unfold r. rewrite (Rsum_single n j _ Hj); [rewrite (proj1 (proj2 (proj2 (H j Hj)))); ring|].
    intros i Hi N. rewrite (proj2 (proj2 (proj2 (H i Hi))) j Hj) by auto. ring. }
  destruct (div_roots n n (fun y => f y - r y) x) as (h & Hh & E); auto.
  { apply ispoly_minus; [apply (ispoly_mono (2 * n)); [lia|exact Hf]|apply (ispoly_mono n); [lia|exact Hr]]. }
  { intros i Hi. rewrite Rx by exact Hi. ring. }
  destruct P_prod as (c & _ & EP).
  pose proof (low_orth_poly n _ (ispoly_scal n c h Hh)) as I0.
  assert (I1 : integral_is r (-1) 1 (Rsum n (fun i => f (x i) * I i))).
  { apply integral_sum. intros i Hi. apply integral_scal. apply H. exact Hi. }
  pose proof (int_plus _ _ _ _ _ _ I1 I0) as I2. rewrite Rplus_0_r in I2.
  rewrite (Rsum_ext n (fun i => I i * f (x i)) (fun i => f (x i) * I i)) by (intros; ring).
  refine (integral_ext _ _ _ _ _ _ I2). intros y. cbv beta. pose proof (E y) as Ey. rewrite EP in Ey.
  transitivity (r y + c * p n 0 y * h y); [ring|]. rewrite <- Ey. ring.
Qed.
Definition gl_weight (i : nat) : R := 2 / ((1 - x i * x i) * (p n 1 (x i) * p n 1 (x i))).
Lemma gauss_legendre f : ispoly (2 * n) f -> integral_is f (-1) 1 (Rsum n (fun i => gl_weight i * f (x i))).
Proof.
  destruct exact_some as (I & HI). intros Hf.
  rewrite (Rsum_ext n (fun i => gl_weight i * f (x i)) (fun i => I i * f (x i))); [apply HI; exact Hf|].
  intros i Hi. f_equal. clear f Hf.
  destruct (quot_i i Hi) as (g & Hg & Eg & G1 & Ng & Zg). set (G := g (x i)) in *.
  assert (S1 : forall u : R -> R, Rsum n (fun j => I j * (g (x j) * u (x j))) = I i * (G * u (x i))).
  { intros u. rewrite (Rsum_single n i _ Hi); [reflexivity|]. intros j Hj N. rewrite Zg by assumption. ring. }
  assert (J1 : integral_is (fun y => g y * p n 1 y) (-1) 1 (I i * (G * G))).
  { rewrite G1 at 2. rewrite <- (S1 (p n 1)). apply (HI (fun y => g y * p n 1 y)). replace (2 * n)%nat with (n + n)%nat by lia. apply ispoly_mult; [exact Hg|].
    apply (ispoly_mono (n + 1 - 1)); [lia|apply p_poly]. }
  assert (J2 : integral_is (fun y => g y * g y) (-1) 1 (I i * (G * G))).
  { unfold G at 2. rewrite <- (S1 g). apply (HI (fun y => g y * g y)). replace (2 * n)%nat with (n + n)%nat by lia. apply ispoly_mult; exact Hg. }
  assert (Hg' : exists g', forall y, derivable_pt_lim g y (g' y)).
  { destruct (ispoly_deriv n g) as (g' & _ & D); [apply ispoly_S; exact Hg|]. exists g'. exact D. }
  destruct Hg' as (g' & Dg).
  assert (P1 : forall y, p n 1 y = g y + (y - x i) * g' y).
  { intros y. apply (uniqueness_limite (p n 0) y); [apply p_deriv; exact Hq|]. apply (derivable_pt_lim_ext (fun y => (y - x i) * g y)); [intros; symmetry; apply Eg|].
    replace (g y + (y - x i) * g' y) with ((1 - 0) * g y + (y - x i) * g' y) by ring.
    apply (derivable_pt_lim_mult (fun y => y - x i) g); [|apply Dg]. apply (derivable_pt_lim_minus (fun y => y) (fun _ => x i)); [apply derivable_pt_lim_id|apply derivable_pt_lim_const]. }
  pose proof (Hin i Hi) as B.
  assert (J3 : integral_is (fun y => 2 * (g y * p n 1 y) + -1 * (g y * g y)) (-1) 1 (2 / (1 - x i * x i))).
  { exists (fun y => (y - x i) * (g y * g y)). split.
    - intros y. replace (2 * (g y * p n 1 y) + -1 * (g y * g y)) with ((1 - 0) * (g y * g y) + (y - x i) * (g' y * g y + g y * g' y)) by (rewrite P1; ring).
      apply (derivable_pt_lim_mult (fun y => y - x i) (fun y => g y * g y)); [|apply (derivable_pt_lim_mult g g); apply Dg].
      apply (derivable_pt_lim_minus (fun y => y) (fun _ => x i)); [apply derivable_pt_lim_id|apply derivable_pt_lim_const].
    - assert (A1 : (1 - x i) * (g 1 * g 1) = / (1 - x i)).
      { pose proof (p_sq n 1 ltac:(ring)) as Q. rewrite Eg in Q. apply Rmult_eq_reg_l with (1 - x i); [|lra]. rewrite Rinv_r by lra. refine (eq_trans _ Q). ring. }
      assert (A2 : (-1 - x i) * (g (-1) * g (-1)) = - / (1 + x i)).
      { pose proof (p_sq n (-1) ltac:(ring)) as Q. rewrite Eg in Q. apply Rmult_eq_reg_l with (-1 - x i); [|lra].
        transitivity 1; [refine (eq_trans _ Q); ring|field; lra]. }
      rewrite A1, A2. field. repeat split; nra. }
  pose proof (int_plus _ _ _ _ _ _ (integral_scal _ _ _ _ 2 J1) (integral_scal _ _ _ _ (-1) J2)) as J4. pose proof (int_unique _ _ _ _ _ J3 J4) as E.
  unfold gl_weight. rewrite <- G1. fold G.
  assert (NZ : 1 - x i * x i <> 0) by nra.
  assert (E2 : I i * (G * G) * (1 - x i * x i) = 2).
  { transitivity ((2 * (I i * (G * G)) + -1 * (I i * (G * G))) * (1 - x i * x i)); [ring|]. rewrite <- E. field. exact NZ. }
  rewrite <- E2. field. split; assumption.
Qed.
End Gauss.
End Q.
