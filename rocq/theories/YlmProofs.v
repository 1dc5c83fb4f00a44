(** YlmProofs.v - the code's Legendre functions and harmonics are those of the specification. *)
From Verif Require Import RealBase TrigSums SpectralSpec ChebProofs SpectralProofs SpectralDeriv PolyLib FourierModel Spectral3Model YlmSpec YlmModel LegendreProofs.
From Verif Require Base.
Import Base(outcome, Ok, Abort, UB, obind).
Open Scope R_scope.

Section Q.
Variable q : nat -> nat -> R -> R.
Hypothesis Hq : family q.
Local Notation p := (p q).
Definition P (l m : nat) (x : R) : R := (-1) ^ m * sqrt (1 - x * x) ^ m * p l m x.
Lemma P_legendre l m x v : is_legendre l m x v <-> v = P l m x.
Proof.
  pose proof (cf_pos l) as C. unfold is_legendre, P. fold (cf l). split.
  - intros (D & HD & D0 & ->). pose proof (U_unique l D _ (conj HD D0) (Hq l) (l + m)%nat x) as E. cbv beta in E. rewrite E. unfold LegendreProofs.p. field. lra.
  - intros ->. destruct (Hq l) as [J J0]. exists (fun k y => cf l * q l k y). split; [exact J|]. split; [exact J0|]. unfold LegendreProofs.p. field. lra.
Qed.
Lemma pmm_loop_val n : forall j x s, s = sqrt (1 - x * x) ->
  pmm_loop n s ((-1) ^ j * s ^ j * p j j x) (2 * INR j + 1) = (-1) ^ (j + n) * s ^ (j + n) * p (j + n) (j + n) x.
Proof.
  induction n; intros j x s Hs; cbn [pmm_loop].
  - rewrite Nat.add_0_r. reflexivity.
  - replace (j + S n)%nat with (S j + n)%nat by lia. rewrite <- (IHn (S j) x s Hs). f_equal.
    + rewrite (p_diag q Hq (S j)). rewrite S_INR. cbn [pow]. ring.
    + rewrite S_INR. ring.
Qed.
Lemma pmm_P m x : pmm_val m x = P m m x.
Proof.
  unfold pmm_val, P. destruct m as [|m].
  - cbn [pow]. rewrite (p_diag q Hq 0). ring.
  - replace ((1 - x) * (1 + x)) with (1 - x * x) by ring.
    pose proof (pmm_loop_val (S m) 0 x (sqrt (1 - x * x)) eq_refl) as E. cbn [INR pow Nat.add] in E. rewrite (p_diag q Hq 0) in E.
    replace (1 * 1 * 1) with 1 in E by ring. replace (2 * 0 + 1) with 1 in E by ring. rewrite E. reflexivity.
Qed.
Lemma ll_loop_val n : forall ll m x c pll, (m + 2 <= ll)%nat -> (1 <= n)%nat ->
  ll_loop n ll m x (c * p (ll - 2) m x) (c * p (ll - 1) m x) pll = c * p (ll - 1 + n) m x.
Proof.
  induction n; intros ll m x c pll H1 H2; [lia|]. cbn [ll_loop]. cbv zeta.
  assert (E : (x * (2 * INR ll - 1) * (c * p (ll - 1) m x) - (INR ll + INR m - 1) * (c * p (ll - 2) m x)) / (INR ll - INR m) = c * p ll m x).
  { pose proof (p_three q Hq (ll - 1) m x ltac:(lia)) as T. replace (S (ll - 1)) with ll in T by lia. replace (ll - 1 - 1)%nat with (ll - 2)%nat in T by lia.
    rewrite minus_INR in T by lia. change (INR 1) with 1 in T.
    assert (D : INR ll - INR m <> 0). { assert (INR m < INR ll) by (apply lt_INR; lia). lra. }
    apply Rmult_eq_reg_r with (INR ll - INR m); [|exact D]. unfold Rdiv. rewrite Rmult_assoc, Rinv_l, Rmult_1_r by exact D.
    transitivity (c * ((INR ll - 1 - INR m + 1) * p ll m x)); [rewrite T; ring|ring]. }
  rewrite E. destruct n as [|n].
  - cbn [ll_loop]. f_equal. replace (ll - 1 + 1)%nat with ll by lia. reflexivity.
  - replace (c * p (ll - 1) m x) with (c * p (S ll - 2) m x) by (replace (S ll - 2)%nat with (ll - 1)%nat by lia; reflexivity).
    replace (c * p ll m x) with (c * p (S ll - 1) m x) at 1 by (replace (S ll - 1)%nat with ll by lia; reflexivity).
    rewrite IHn by lia. f_equal. replace (S ll - 1 + S n)%nat with (ll - 1 + S (S n))%nat by lia. reflexivity.
Qed.
Lemma legendre_P l m x : (m <= l)%nat -> legendre_val l m x = P l m x.
Proof.
  intros H. unfold legendre_val. cbv zeta. rewrite pmm_P. destruct (Nat.eqb_spec l m) as [->|N]; [reflexivity|].
  assert (F : x * (2 * INR m + 1) * P m m x = P (S m) m x) by (unfold P; rewrite (p_first q Hq m); ring).
  rewrite F. destruct (Nat.eqb_spec l (m + 1)) as [->|N1]; [rewrite Nat.add_1_r; reflexivity|].
  set (c := (-1) ^ m * sqrt (1 - x * x) ^ m). 
  replace (P m m x) with (c * p (m + 2 - 2) m x) by (replace (m + 2 - 2)%nat with m by lia; reflexivity).
  replace (P (S m) m x) with (c * p (m + 2 - 1) m x) by (replace (m + 2 - 1)%nat with (S m) by lia; reflexivity).
  rewrite ll_loop_val by lia. unfold P, c. f_equal. f_equal. lia.
Qed.
Lemma assoc_ok l m x : (m <= l)%nat -> -1 <= x <= 1 -> associated_legendre l m x = Ok (P l m x).
Proof.
  intros H Hx. unfold associated_legendre. destruct (ltR_spec 1 x); [lra|]. destruct (ltR_spec x (-1)); [lra|]. cbn [orb].
  destruct (Nat.ltb_spec l m); [lia|]. rewrite legendre_P by exact H. reflexivity.
Qed.
(** ** the theta derivative *)
Definition Pth (l m : nat) (t : R) : R := (- sin t) ^ m * p l m (cos t).
Lemma P_theta l m t : 0 <= t <= PI -> P l m (cos t) = Pth l m t.
Proof.
  intros Ht. unfold P, Pth. replace (1 - cos t * cos t) with (sin t * sin t) by (pose proof (sin2_cos2 t); unfold Rsqr in *; lra).
  rewrite sqrt_square by (apply sin_ge_0; lra). rewrite <- Rpow_mult_distr. replace (-1 * sin t) with (- sin t) by ring. reflexivity.
Qed.
Definition dPth (l m : nat) (t : R) : R := INR m * (- sin t) ^ (m - 1) * (- cos t) * p l m (cos t) + (- sin t) ^ S m * p l (S m) (cos t).
Lemma Pth_deriv l m t : derivable_pt_lim (Pth l m) t (dPth l m t).
Proof.
  unfold Pth, dPth.
  assert (A : derivable_pt_lim (fun t => (- sin t) ^ m) t (INR m * (- sin t) ^ (m - 1) * (- cos t))).
  { replace (m - 1)%nat with (Nat.pred m) by lia.
    apply (derivable_pt_lim_comp (fun t => - sin t) (fun z => z ^ m)); [|apply derivable_pt_lim_pow].
    apply (derivable_pt_lim_opp sin). apply derivable_pt_lim_sin. }
  assert (B : derivable_pt_lim (fun t => p l m (cos t)) t (p l (S m) (cos t) * (- sin t))).
  { apply (derivable_pt_lim_comp cos (p l m)); [apply derivable_pt_lim_cos|apply p_deriv; exact Hq]. }
  replace (INR m * (- sin t) ^ (m - 1) * - cos t * p l m (cos t) + (- sin t) ^ S m * p l (S m) (cos t))
    with (INR m * (- sin t) ^ (m - 1) * (- cos t) * p l m (cos t) + (- sin t) ^ m * (p l (S m) (cos t) * (- sin t))) by (cbn [pow]; ring).
  apply (derivable_pt_lim_mult (fun t => (- sin t) ^ m) (fun t => p l m (cos t))); assumption.
Qed.
Lemma dPth_formula l m t : (1 <= m)%nat -> dPth l m t = - ((INR l + INR m) * (INR l - INR m + 1) * Pth l (m - 1) t - Pth l (S m) t) * (1 / 2).
Proof.
  intros Hm. unfold dPth, Pth. pose proof (p_ode q Hq l m (cos t) Hm) as O. destruct m as [|k]; [lia|]. replace (S k - 1)%nat with k in * by lia.
  assert (S2 : sin t * sin t = 1 - cos t * cos t) by (pose proof (sin2_cos2 t); unfold Rsqr in *; lra).
  replace ((- sin t) ^ S (S k)) with ((sin t * sin t) * (- sin t) ^ k) by (cbn [pow]; ring). rewrite S2.
  set (u := (- sin t) ^ k). set (c := cos t) in *.
  match type of O with ?a = 0 => match goal with |- ?x = ?z => transitivity (z - u * / 2 * a); [field|rewrite O; ring] end end.
Qed.
Definition small (l : nat) : Prop := (Z.of_nat l <= 46340)%Z.
Lemma int_ok l m : small l -> (m <= l)%nat -> int_ ((Z.of_nat l + Z.of_nat m) * (Z.of_nat l - Z.of_nat m + 1)) = Ok ((INR l + INR m) * (INR l - INR m + 1)).
Proof.
  intros Hl Hm. unfold int_, SpectralModel.in_int, small in *.
  assert (B0 : (0 <= Z.of_nat m <= Z.of_nat l)%Z) by lia. set (a := Z.of_nat l) in *. set (b := Z.of_nat m) in *.
  assert (L : ((-2147483648 <=? (a + b) * (a - b + 1)) && ((a + b) * (a - b + 1) <=? 2147483647))%Z = true).
  { assert (a * a <= 46340 * 46340)%Z by (apply Z.mul_le_mono_nonneg; lia). assert (b <= b * b)%Z by (destruct (Z.eq_dec b 0); nia). apply andb_true_iff. split; apply Z.leb_le; nia. }
  rewrite L. unfold a, b. rewrite mult_IZR, !plus_IZR, minus_IZR, <- !INR_IZR_INZ. reflexivity.
Qed.
Lemma dtheta_ok l m t : small l -> (m <= l)%nat -> 0 <= t <= PI -> d_associated_legendre_dtheta l m (cos t) = Ok (dPth l m t).
Proof.
  intros Hl Hm Ht. pose proof (COS_bound t) as CB. unfold d_associated_legendre_dtheta. cbv zeta.
  destruct (Nat.eqb_spec l 0) as [->|Hl0].
  - assert (m = O) as -> by lia. unfold dPth. cbn [INR]. rewrite (p_high q Hq 0 1) by lia. f_equal. ring.
  - rewrite int_ok by assumption. cbn [obind]. destruct (Nat.eqb_spec m l) as [->|Nml].
    + rewrite assoc_ok by (try lia; lra). cbn [obind]. f_equal. rewrite P_theta by exact Ht. rewrite dPth_formula by lia.
      assert (Z : Pth l (S l) t = 0) by (unfold Pth; rewrite (p_high q Hq l (S l)) by lia; ring). rewrite Z. ring.
    + destruct (Nat.eqb_spec m 0) as [->|Hm0].
      * pose proof (int_ok l 0 Hl ltac:(lia)) as IO. change (Z.of_nat 0) with 0%Z in *.
        replace (int_ (Z.of_nat l * (Z.of_nat l + 1))) with (Ok ((INR l + INR 0) * (INR l - INR 0 + 1))).
        2:{ rewrite <- IO. f_equal. lia. }
        cbn [obind]. rewrite assoc_ok by (try lia; lra). cbn [obind]. f_equal.
        replace ((Z.of_nat l + 0) * (Z.of_nat l - 0 + 1) / (Z.of_nat l * (Z.of_nat l + 1)))%Z with 1%Z.
        2:{ replace ((Z.of_nat l + 0) * (Z.of_nat l - 0 + 1))%Z with (Z.of_nat l * (Z.of_nat l + 1))%Z by lia. symmetry. apply Z.div_same. nia. }
        rewrite P_theta by exact Ht. unfold dPth, Pth. cbn [INR pow]. field.
      * rewrite !assoc_ok by (try lia; lra). cbn [obind]. f_equal. rewrite !P_theta by exact Ht. rewrite dPth_formula by lia.
        replace (m + 1)%nat with (S m) by lia. reflexivity.
Qed.
(** ** normalisation *)
Lemma factor_loop_val n : forall i lpm c, (i + n <= lpm)%nat -> factor_loop n i lpm c = c * sqrt (INR (fact (lpm - i - n)) / INR (fact (lpm - i))).
Proof.
  induction n; intros i lpm c H; cbn [factor_loop].
  - rewrite Nat.sub_0_r. unfold Rdiv. rewrite Rinv_r by apply INR_fact_neq_0. rewrite sqrt_1. ring.
  - rewrite IHn by lia. replace (lpm - S i - n)%nat with (lpm - i - S n)%nat by lia.
    assert (E : (lpm - i = S (lpm - S i))%nat) by lia.
    replace (INR (lpm - i)) with (INR (S (lpm - S i))) by (rewrite E; reflexivity).
    replace (INR (fact (lpm - i))) with (INR (S (lpm - S i)) * INR (fact (lpm - S i))) by (rewrite E, fact_simpl, mult_INR; reflexivity).
    assert (H0 : 0 < INR (S (lpm - S i))) by (apply lt_0_INR; lia). pose proof (INR_fact_lt_0 (lpm - S i)). pose proof (INR_fact_lt_0 (lpm - i - S n)).
    replace (INR (fact (lpm - i - S n)) / (INR (S (lpm - S i)) * INR (fact (lpm - S i)))) with (/ INR (S (lpm - S i)) * (INR (fact (lpm - i - S n)) / INR (fact (lpm - S i)))) by (field; split; lra).
    rewrite sqrt_mult; [|left; apply Rinv_0_lt_compat; exact H0|left; apply Rdiv_lt_0_compat; assumption].
    rewrite sqrt_inv. unfold Rdiv. ring.
Qed.
Lemma factor_norm l m : (m <= l)%nat -> factor l m = ylm_norm l m.
Proof.
  intros H. unfold factor, ylm_norm. rewrite factor_loop_val by lia. rewrite Nat.sub_0_r. replace (l + m - 2 * m)%nat with (l - m)%nat by lia.
  pose proof PI_RGT_0. pose proof (pos_INR l). pose proof (INR_fact_lt_0 (l - m)). pose proof (INR_fact_lt_0 (l + m)).
  assert (A : 0 <= (2 * INR l + 1) / PI) by (left; apply Rdiv_lt_0_compat; lra).
  rewrite sqrt_mult; [| left; apply Rdiv_lt_0_compat; lra |left; apply Rdiv_lt_0_compat; assumption].
  replace ((2 * INR l + 1) / (4 * PI)) with ((1 / 2) ^ 2 * ((2 * INR l + 1) / PI)) by (field; lra).
  rewrite (sqrt_mult ((1 / 2) ^ 2)) by (try exact A; cbn; lra). rewrite sqrt_pow2 by lra. ring.
Qed.
End Q.
