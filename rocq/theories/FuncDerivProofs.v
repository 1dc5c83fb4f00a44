(** FuncDerivProofs.v - the closed sums of general.c. *)
From Coq Require Import Nsatz.
From Verif Require Import RealBase TrigSums SpectralModel SpectralSpec ChebProofs SpectralProofs SpectralDeriv FuncDerivModel.
From Verif Require Base.
Import Base(outcome, Ok, Abort, UB, obind).
Open Scope R_scope.

Lemma cos_multiple k : cos (IZR k * (2 * PI)) = 1.
Proof.
  destruct (Z.le_ge_cases 0 k) as [H|H].
  - replace k with (Z.of_nat (Z.to_nat k)) by lia. rewrite <- INR_IZR_INZ.
    replace (INR (Z.to_nat k) * (2 * PI)) with (0 + 2 * INR (Z.to_nat k) * PI) by ring. rewrite cos_2nPI. apply cos_0.
  - rewrite <- cos_neg. replace (- (IZR k * (2 * PI))) with (IZR (-k) * (2*PI)) by (rewrite opp_IZR; ring).
    replace (- k)%Z with (Z.of_nat (Z.to_nat (-k))) by lia. rewrite <- INR_IZR_INZ.
    replace (INR (Z.to_nat (-k)) * (2 * PI)) with (0 + 2 * INR (Z.to_nat (-k)) * PI) by ring. rewrite cos_2nPI. apply cos_0.
Qed.
Lemma sin_half_zero a : sin (a/2) = 0 <-> exists k : Z, a = IZR k * (2 * PI).
Proof.
  split.
  - intros H. apply sin_eq_0_0 in H as [k Hk]. exists k. replace a with (2 * (a/2)) by field. rewrite Hk. ring.
  - intros [k ->]. replace (IZR k * (2 * PI) / 2) with (IZR k * PI) by field. apply sin_eq_0_1. eauto.
Qed.

Lemma sum_cos_exact N a : (forall k : Z, a <> IZR k * (2 * PI)) \/ a = 0 \/ a = 2 * PI ->
  (a = 0 \/ ROUND_OFF_ERR <= Rabs a) -> (a = 2*PI \/ ROUND_OFF_ERR <= Rabs (a - 2*PI)) ->
  sum_1_N_cos_ia N a = Some (Rsum N (fun i => cos (INR (S i) * a))).
Proof.
  intros Ha W0 W1. unfold sum_1_N_cos_ia.
  assert (Z : forall k, a = IZR k * (2 * PI) -> Rsum N (fun i => cos (INR (S i) * a)) = INR N).
  { intros k ->. rewrite (Rsum_ext N _ (fun _ => 1)). rewrite Rsum_const; ring.
    intros i _. rewrite INR_IZR_INZ, <- Rmult_assoc, <- mult_IZR. apply cos_multiple. }
  destruct (EQL a 0 || EQL a (2 * PI))%bool eqn:E.
  - f_equal. symmetry. apply orb_true_iff in E as [E|E]; apply EQL_iff in E.
    + rewrite Rminus_0_r in E. destruct W0 as [->|]; [|lra]. apply (Z 0%Z). ring.
    + destruct W1 as [->|]; [|lra]. apply (Z 1%Z). ring.
  - apply orb_false_iff in E as [E0 E1]. apply EQL_false in E0. apply EQL_false in E1. pose proof ROE_pos.
    destruct Ha as [Ha|[-> | ->]].
    2:{ rewrite Rminus_0_r, Rabs_R0 in E0. lra. }
    2:{ rewrite Rminus_eq_0, Rabs_R0 in E1. lra. }
    assert (S0 : sin (a/2) <> 0). { intros S0. apply sin_half_zero in S0 as [k Hk]. apply (Ha k Hk). }
    replace (/2 * a) with (a/2) by field. rewrite fdiv_some by auto. cbn [fbind]. f_equal.
    pose proof (dirichlet N a) as D. apply (Rmult_eq_reg_l (2 * sin (a/2))); [|lra]. rewrite D. field. auto.
Qed.
Lemma sum_cos_pole N k : (k < 0 \/ 1 < k)%Z -> sum_1_N_cos_ia N (IZR k * (2*PI)) = None.
Proof.
  intros Hk. unfold sum_1_N_cos_ia. pose proof PI2_3_2. 
  assert (R1 : ROUND_OFF_ERR < 1) by (unfold ROUND_OFF_ERR; lra).
  assert (K : IZR k <= -1 \/ 2 <= IZR k) by (destruct Hk; [left|right]; apply IZR_le; lia).
  destruct (EQL _ 0) eqn:E. { apply EQL_iff in E. rewrite Rminus_0_r in E. apply Rabs_def2 in E. destruct K; nra. }
  destruct (EQL _ (2*PI)) eqn:E'. { apply EQL_iff in E'. apply Rabs_def2 in E'. destruct K; nra. }
  cbn [orb]. assert (sin (/2 * (IZR k * (2*PI))) = 0) as ->.
  { replace (/2 * (IZR k * (2*PI))) with (IZR k * (2 * PI) / 2) by field. apply sin_half_zero. eauto. }
  rewrite fdiv_none. reflexivity.
Qed.
(** inside the windows the count N is returned *)
Lemma sum_cos_window N a : Rabs a < ROUND_OFF_ERR \/ Rabs (a - 2*PI) < ROUND_OFF_ERR -> sum_1_N_cos_ia N a = Some (INR N).
Proof.
  intros H. unfold sum_1_N_cos_ia. destruct H as [H|H].
  - rewrite (proj2 (EQL_iff a 0)); auto. rewrite Rminus_0_r; auto.
  - rewrite (proj2 (EQL_iff a (2*PI))); auto. rewrite orb_true_r. reflexivity.
Qed.

(** ** closed forms of sum i sin(i g) and sum i^2 cos(i g) *)
Lemma sum_isin N g : 4 * (sin (g/2) * sin (g/2)) * Rsum N (fun i => INR (S i) * sin (INR (S i) * g)) =
  - ((1 + 2 * INR N) * cos ((/2 + INR N) * g) * sin (g/2) - cos (g/2) * sin ((/2 + INR N) * g)).
Proof.
  induction N.
  - cbn [Rsum]. change (INR 0) with 0. replace ((/2 + 0) * g) with (g/2) by field. ring.
  - cbn [Rsum]. rewrite Rmult_plus_distr_l, IHN.
    replace ((/2 + INR N) * g) with (INR (S N) * g - g/2) by (rewrite S_INR; field).
    replace ((/2 + INR (S N)) * g) with (INR (S N) * g + g/2) by (rewrite S_INR; field).
    rewrite cos_plus, sin_plus, cos_minus, sin_minus. rewrite !S_INR. ring.
Qed.
Lemma sum_i2cos N g : 8 * (sin (g/2) * sin (g/2) * sin (g/2)) * Rsum N (fun i => INR (S i) * INR (S i) * cos (INR (S i) * g)) =
  (1 + INR N) * (1 + INR N) * sin ((/2 - INR N) * g) + (-1 + 2 * INR N + 2 * (INR N * INR N)) * sin ((/2 + INR N) * g)
  - INR N * INR N * sin ((3/2 + INR N) * g).
Proof.
  induction N.
  - cbn [Rsum]. change (INR 0) with 0. replace ((/2 + 0) * g) with (g/2) by field. replace ((/2 - 0) * g) with (g/2) by field. ring.
  - cbn [Rsum]. rewrite Rmult_plus_distr_l, IHN.
    replace ((/2 + INR N) * g) with (INR (S N) * g - g/2) by (rewrite S_INR; field).
    replace ((/2 - INR N) * g) with ((g/2 + 2 * (g/2)) - INR (S N) * g) by (rewrite S_INR; field).
    replace ((3/2 + INR N) * g) with (INR (S N) * g + g/2) by (rewrite S_INR; field).
    replace ((/2 + INR (S N)) * g) with (INR (S N) * g + g/2) by (rewrite S_INR; field).
    replace ((/2 - INR (S N)) * g) with (g/2 - INR (S N) * g) by (rewrite S_INR; field).
    replace ((3/2 + INR (S N)) * g) with (INR (S N) * g + (g/2 + 2 * (g/2))) by (rewrite S_INR; field).
    repeat rewrite ?sin_plus, ?sin_minus, ?cos_plus, ?cos_minus. rewrite sin_2a, cos_2a_sin.
    pose proof (sin2_cos2 (g/2)) as S2. unfold Rsqr in S2.
    set (s := sin (g/2)) in *. set (c := cos (g/2)) in *. set (SS := sin (INR (S N) * g)). set (CC := cos (INR (S N) * g)).
    rewrite S_INR. set (n := INR N). nsatz.
Qed.
Lemma Cot_ok a : sin a <> 0 -> Cot a = Some (cos a / sin a).
Proof.
  intros H. unfold Cot. destruct (Req_EM_T (cos a) 0) as [E|E].
  - rewrite E. f_equal. field; auto.
  - unfold tan. rewrite fdiv_some.
    + f_equal. field; auto.
    + unfold Rdiv. apply Rmult_integral_contrapositive_currified; auto. apply Rinv_neq_0_compat; auto.
Qed.
Lemma cot_form_ok N g : sin (g/2) <> 0 ->
  cot_form (Z.of_nat N) g = Some (-4 * Rsum N (fun i => INR (S i) * sin (INR (S i) * g))).
Proof.
  intros H. unfold cot_form, Csc. rewrite fdiv_some by auto. cbn [fbind]. rewrite Cot_ok by auto. cbn [fbind]. f_equal.
  rewrite plus_IZR, mult_IZR, <- INR_IZR_INZ.
  apply (Rmult_eq_reg_l (- (sin (g/2) * sin (g/2)))); [|nra].
  replace (- (sin (g/2) * sin (g/2)) * (-4 * Rsum N (fun i => INR (S i) * sin (INR (S i) * g)))) with
    (4 * (sin (g/2) * sin (g/2)) * Rsum N (fun i => INR (S i) * sin (INR (S i) * g))) by ring.
  rewrite sum_isin. field. auto.
Qed.
Lemma csc3_form_ok N g : sin (g/2) <> 0 ->
  csc3_form (Z.of_nat N) g = Some (8 * Rsum N (fun i => INR (S i) * INR (S i) * cos (INR (S i) * g))).
Proof.
  intros H. unfold csc3_form, Csc. rewrite fdiv_some by auto. cbn [fbind]. f_equal. unfold Pow2Z.
  rewrite !mult_IZR, !plus_IZR, !mult_IZR, <- !INR_IZR_INZ.
  set (s := sin (g/2)) in *.
  assert (s * s * s <> 0) by (repeat apply Rmult_integral_contrapositive_currified; auto).
  apply (Rmult_eq_reg_l (s * s * s)); auto.
  replace (s * s * s * (8 * Rsum N (fun i => INR (S i) * INR (S i) * cos (INR (S i) * g)))) with
    (8 * (s * s * s) * Rsum N (fun i => INR (S i) * INR (S i) * cos (INR (S i) * g))) by ring.
  unfold s. rewrite sum_i2cos. fold s. field. auto.
Qed.
Lemma sum_squares N : Rsum N (fun i => INR (S i) * INR (S i)) = INR N * (INR N + 1) * (2 * INR N + 1) / 6.
Proof. induction N; cbn [Rsum]. - change (INR 0) with 0. field. - rewrite IHN, S_INR. field. Qed.
Lemma sum_alt N : Rsum N (fun i => - SIGN (S i) * (INR (S i) * INR (S i))) = - SIGN N * (INR N * (INR N + 1) / 2).
Proof. induction N; cbn [Rsum]. - change (INR 0) with 0. field. - rewrite IHN, !SIGN_S, S_INR. field. Qed.
Lemma in_int_small N : (N <= 1023)%nat ->
  in_int (Z.of_nat N * (Z.of_nat N + 1) * (2 * Z.of_nat N + 1)) = true /\ in_int (- Z.of_nat N * (Z.of_nat N + 1) * (2 * Z.of_nat N + 1)) = true /\
  in_int (-1 + 2 * Z.of_nat N + 2 * Pow2Z (Z.of_nat N)) = true.
Proof.
  intros H. assert (0 <= Z.of_nat N <= 1023)%Z by lia. set (z := Z.of_nat N) in *. unfold Pow2Z, in_int.
  assert (0 <= z * (z+1) <= 1023*1024)%Z by nia. assert (0 <= z * (z+1) * (2*z+1) <= 1023*1024*2047)%Z by nia.
  rewrite !andb_true_iff, !Z.leb_le. nia.
Qed.
Lemma EQL_exact x y : x = y \/ ROUND_OFF_ERR <= Rabs (x - y) -> EQL x y = true <-> x = y.
Proof.
  intros H. split.
  - intros E. apply EQL_iff in E. destruct H; auto. lra.
  - intros ->. apply EQL_refl.
Qed.
Definition apart (x y : R) : Prop := x = y \/ ROUND_OFF_ERR <= Rabs (x - y).
Lemma EQL_cases x y : apart x y -> (EQL x y = true /\ x = y) \/ (EQL x y = false /\ x <> y).
Proof.
  intros H. pose proof (EQL_exact x y H) as E. destruct (EQL x y); [left|right]; split; auto. apply E; auto.
  intros Z. apply E in Z. discriminate.
Qed.
Lemma half_sin_nz g : 0 < g < 2 * PI -> sin (g/2) <> 0.
Proof. intros. assert (0 < sin (g/2)); [apply sin_gt_0; lra|lra]. Qed.
Lemma half_sin_nz' g : - (2 * PI) < g < 0 -> sin (g/2) <> 0.
Proof. intros. replace (g/2) with (- (-g/2)) by field. rewrite sin_neg. assert (sin (-g/2) <> 0) by (apply half_sin_nz; lra). lra. Qed.

Lemma d_dq_ok N a b : (N <= 1023)%nat -> 0 <= a <= PI -> 0 <= b <= PI ->
  apart a 0 -> apart a PI -> apart b 0 -> apart b PI -> apart a b ->
  d_dq_sum_1_N_cos_ixb_cos_ixa (Z.of_nat N) b a = Ok (Some (Rsum N (fun i => cos (INR (S i) * b) * (INR (S i) * U' (S i) (cos a))))).
Proof.
  intros HN Ha Hb A0 AP B0 BP AB. unfold d_dq_sum_1_N_cos_ixb_cos_ixa.
  destruct (in_int_small N HN) as (I1 & I2 & I3). pose proof PI_RGT_0.
  destruct (EQL_cases a 0 A0) as [[-> ->]|[-> N0]].
  { rewrite cos_0.
    rewrite (Rsum_ext N _ (fun i => INR (S i) * INR (S i) * cos (INR (S i) * b))).
    2:{ intros i _. destruct (U_at_1 (S i)) as [_ ->]. ring. }
    destruct (EQL_cases b 0 B0) as [[-> ->]|[-> Nb]].
    - rewrite I1. do 2 f_equal. rewrite (Rsum_ext N _ (fun i => INR (S i) * INR (S i))) by (intros; rewrite Rmult_0_r, cos_0; ring).
      rewrite sum_squares, !mult_IZR, !plus_IZR, mult_IZR, <- INR_IZR_INZ. reflexivity.
    - rewrite I3, csc3_form_ok by (apply half_sin_nz; lra). cbn [fbind]. do 2 f_equal. field. }
  destruct (EQL_cases a PI AP) as [[-> ->]|[-> NP]].
  { rewrite cos_PI.
    assert (UP : forall i, INR (S i) * U' (S i) (-1) = - SIGN (S i) * (INR (S i) * INR (S i))).
    { intros. destruct (U_at_m1 (S i)) as [_ ->]. ring. }
    destruct (EQL_cases b 0 B0) as [[-> ->]|[-> Nb]].
    - rewrite (Rsum_ext N _ (fun i => - SIGN (S i) * (INR (S i) * INR (S i)))) by (intros; rewrite Rmult_0_r, cos_0, UP; ring).
      rewrite sum_alt. unfold SIGN, Pow2.
      destruct (Z.eqb_spec (Z.rem (Z.of_nat N) 2) 0) as [E|E].
      + assert (Nat.even N = true) as ->. { apply Nat.even_spec. exists (Z.to_nat (Z.of_nat N / 2)). rewrite Z.rem_mod_nonneg in E by lia. apply Nat2Z.inj. rewrite Nat2Z.inj_mul, Z2Nat.id by (apply Z.div_pos; lia). rewrite (Z.div_mod (Z.of_nat N) 2) at 1 by lia. lia. }
        do 2 f_equal. rewrite <- INR_IZR_INZ. field.
      + assert (Nat.even N = false) as ->. { rewrite <- Nat.negb_odd. apply negb_false_iff, Nat.odd_spec. exists (Z.to_nat (Z.of_nat N / 2)). rewrite Z.rem_mod_nonneg in E by lia. apply Nat2Z.inj. rewrite Nat2Z.inj_add, Nat2Z.inj_mul, Z2Nat.id by (apply Z.div_pos; lia). pose proof (Z.mod_pos_bound (Z.of_nat N) 2). rewrite (Z.div_mod (Z.of_nat N) 2) at 1 by lia. lia. }
        do 2 f_equal. rewrite minus_IZR, <- INR_IZR_INZ. field.
    - destruct (EQL_cases b PI BP) as [[-> ->]|[-> Nb']].
      + rewrite I2. do 2 f_equal.
        rewrite (Rsum_ext N _ (fun i => -1 * (INR (S i) * INR (S i)))).
        2:{ intros i _. rewrite cos_INR_PI, UP. unfold SIGN. destruct (Nat.even (S i)); ring. }
        rewrite Rsum_scal, sum_squares, !mult_IZR, !plus_IZR, mult_IZR, opp_IZR, <- INR_IZR_INZ. field.
      + rewrite I3, !csc3_form_ok by (apply half_sin_nz; lra). cbn [fbind]. do 2 f_equal.
        transitivity (- /2 * (Rsum N (fun i => INR (S i) * INR (S i) * cos (INR (S i) * (PI + b))) + Rsum N (fun i => INR (S i) * INR (S i) * cos (INR (S i) * (PI - b))))); [field|].
        rewrite <- Rsum_plus, <- Rsum_scal. apply Rsum_ext. intros i _. rewrite UP.
        replace (INR (S i) * (PI + b)) with (INR (S i) * PI + INR (S i) * b) by ring.
        replace (INR (S i) * (PI - b)) with (INR (S i) * PI - INR (S i) * b) by ring.
        rewrite cos_plus, cos_minus, sin_INR_PI, cos_INR_PI. unfold SIGN. field. }
  assert (Sa : sin a <> 0) by (assert (0 < sin a); [apply sin_gt_0; lra|lra]).
  assert (G1 : sin ((a+b)/2) <> 0) by (apply half_sin_nz; lra).
  assert (UP : forall i, INR (S i) * U' (S i) (cos a) = INR (S i) * sin (INR (S i) * a) / sin a).
  { intros i. destruct (U_sin (S i) a) as [_ <-]. field; auto. }
  rewrite (Rsum_ext N _ (fun i => / sin a * (cos (INR (S i) * b) * (INR (S i) * sin (INR (S i) * a))))).
  2:{ intros i _. rewrite UP. field; auto. }
  rewrite Rsum_scal.
  assert (E : forall i, cos (INR (S i) * b) * (INR (S i) * sin (INR (S i) * a)) =
    /2 * (INR (S i) * sin (INR (S i) * (a+b)) + INR (S i) * sin (INR (S i) * (a-b)))).
  { intros i. replace (INR (S i) * (a+b)) with (INR (S i) * a + INR (S i) * b) by ring.
    replace (INR (S i) * (a-b)) with (INR (S i) * a - INR (S i) * b) by ring. rewrite sin_plus, sin_minus. field. }
  rewrite (Rsum_ext N _ _ (fun i _ => E i)), Rsum_scal, Rsum_plus.
  assert (AB' : apart (a - b) 0). { destruct AB as [->|AB]; [left; ring|right; rewrite Rminus_0_r; auto]. }
  destruct (EQL_cases (a-b) 0 AB') as [[-> Z]|[-> Nab]].
  - rewrite cot_form_ok by auto. cbn [fbind]. rewrite fdiv_some by lra. do 2 f_equal.
    rewrite Z. rewrite (Rsum_zero N (fun i => INR (S i) * sin (INR (S i) * 0))) by (intros; rewrite Rmult_0_r, sin_0; ring). field; auto.
  - assert (G2 : sin ((a-b)/2) <> 0). { destruct (Rlt_dec (a-b) 0); [apply half_sin_nz'|apply half_sin_nz]; lra. }
    rewrite !cot_form_ok by auto. cbn [fbind]. rewrite fdiv_some by lra. do 2 f_equal. field; auto.
Qed.

(** ** the cardinal functions *)
(** the polynomial with value 1 at the j-th extremum and 0 at the others is given by the sum over the transform of e_j *)
Definition card (N j : nat) (x : R) : R :=
  (1 + 2 * Rsum (N-2) (fun i => cos (INR (S i) * (INR j * PI / INR (N-1))) * T (S i) x) + SIGN j * T (N-1) x)
  * ((if ((j =? 0) || (j =? N-1))%nat then /2 else 1) / INR (N-1)).
Lemma card_coeff N j d : (2 <= N)%nat -> (j < N)%nat ->
  (forall k, (k < N)%nat -> Rsum N (fun i => d i * T i (colloc_extrema N k)) = if (k =? j)%nat then 1 else 0) ->
  forall i, (i < N)%nat -> d i = (if ((i =? 0) || (i =? N-1))%nat then 1 else 2) * cos (INR i * (INR j * PI / INR (N-1))) * ((if ((j =? 0) || (j =? N-1))%nat then /2 else 1) / INR (N-1)).
Proof.
  intros HN Hj Hd i Hi. assert (Hr : INR (N-1) <> 0) by (apply not_0_INR; lia).
  destruct (coeffs_extrema_series (fun k => if (k =? j)%nat then 1 else 0) N d HN) as (C & EC & HC).
  { intros k Hk. symmetry. apply Hd; auto. }
  destruct (coeffs_extrema (fun k => if (k =? j)%nat then 1 else 0) N HN) as (C' & EC' & HC').
  rewrite EC in EC'. injection EC' as <-.
  pose proof (HC i Hi) as E. rewrite HC' in E.
  rewrite (W_single (N-1) j) in E; [|lia|lia|intros k Hk Hne; destruct (Nat.eqb_spec k j); [congruence|ring]].
  rewrite Nat.eqb_refl in E.
  replace (INR j * (INR i * PI / INR (N-1))) with (INR i * (INR j * PI / INR (N-1))) in E by (field; auto).
  unfold wE in E. destruct ((i =? 0) || (i =? N-1))%nat.
  - rewrite Rmult_1_r in E. rewrite <- E. field; auto.
  - replace (d i) with (2 * (d i * /2)) by field. rewrite <- E. field; auto.
Qed.
Lemma sum3 N g : (2 <= N)%nat -> Rsum N g = g O + Rsum (N-2) (fun i => g (S i)) + g (N-1)%nat.
Proof.
  intros HN. replace N with (S (N-2) + 1)%nat at 1 by lia. rewrite Rsum_app, Rsum_S_l. cbn [Rsum].
  replace (S (N-2) + 0)%nat with (N-1)%nat by lia. ring.
Qed.
Lemma card_series N j d : (2 <= N)%nat -> (j < N)%nat ->
  (forall k, (k < N)%nat -> Rsum N (fun i => d i * T i (colloc_extrema N k)) = if (k =? j)%nat then 1 else 0) ->
  forall x, Rsum N (fun i => d i * T i x) = card N j x.
Proof.
  intros HN Hj Hd x. assert (Hr : INR (N-1) <> 0) by (apply not_0_INR; lia).
  pose proof (card_coeff N j d HN Hj Hd) as E.
  rewrite sum3 by auto. rewrite (E O), (E (N-1)%nat) by lia.
  rewrite (Rsum_ext (N-2) _ (fun i => (2 * ((if ((j =? 0) || (j =? N - 1))%nat then / 2 else 1) / INR (N - 1))) * (cos (INR (S i) * (INR j * PI / INR (N - 1))) * T (S i) x))).
  2:{ intros i Hi. rewrite (E (S i)) by lia. destruct (Nat.eqb_spec (S i) 0); [lia|]. destruct (Nat.eqb_spec (S i) (N-1)); [lia|]. cbn [orb]. ring. }
  rewrite Rsum_scal, (Nat.eqb_refl (N-1)), orb_true_r. cbn [Nat.eqb orb]. rewrite T_0. change (INR 0) with 0. rewrite Rmult_0_l, cos_0.
  replace (INR (N-1) * (INR j * PI / INR (N-1))) with (INR j * PI) by (field; auto). rewrite cos_INR_PI.
  unfold card, SIGN. destruct ((j =? 0) || (j =? N - 1))%nat; field; auto.
Qed.
Lemma acos_range q : -1 <= q <= 1 -> 0 <= acos q <= PI.
Proof. intros. apply acos_bound. Qed.
Lemma T_acos n q : -1 <= q <= 1 -> T n q = cos (INR n * acos q).
Proof. intros. rewrite <- T_cos, cos_acos by auto. reflexivity. Qed.
Lemma check_range q : -1 <= q <= 1 -> (ltR q (-1) || ltR 1 q)%bool = false.
Proof. intros. destruct (ltR_spec q (-1)); [lra|]. destruct (ltR_spec 1 q); [lra|]. reflexivity. Qed.

(** the angle of the j-th point, away from 0 and pi unless it is an end *)
Lemma alpha_far N j : (2 <= N)%nat -> INR N <= 500000 -> (0 < j < N - 1)%nat ->
  let al := INR j * PI / INR (N-1) in ROUND_OFF_ERR <= al <= PI - ROUND_OFF_ERR.
Proof.
  intros HN Hb Hj al. pose proof PI2_3_2. pose proof PI_4.
  assert (Hr : 0 < INR (N-1)) by (apply lt_0_INR; lia).
  assert (J1 : 1 <= INR j) by (change 1 with (INR 1); apply le_INR; lia).
  assert (J2 : INR j + 1 <= INR (N-1)) by (rewrite <- S_INR; apply le_INR; lia).
  assert (E : INR (N-1) = INR N - 1) by (apply (minus_INR N 1); lia).
  assert (P : / 500000 <= / INR (N-1)) by (apply Rinv_le_contravar; lra).
  assert (Q : ROUND_OFF_ERR <= PI / INR (N-1)). { unfold ROUND_OFF_ERR, Rdiv. nra. }
  assert (Z : PI = INR (N-1) * (PI / INR (N-1))) by (field; lra).
  assert (A : al = INR j * (PI / INR (N-1))) by (unfold al; field; lra).
  assert (0 < PI / INR (N-1)) by (apply Rdiv_lt_0_compat; lra).
  rewrite A. split; [nra|]. rewrite Z at 2. nra.
Qed.
Lemma not_mult a : - (2*PI) < a < 2 * PI -> a <> 0 -> forall k : Z, a <> IZR k * (2 * PI).
Proof.
  intros Ha H0 k E. pose proof PI_RGT_0.
  destruct (Z.lt_trichotomy k 0) as [K|[->|K]].
  - assert (IZR k <= -1) by (apply IZR_le; lia). nra.
  - lra.
  - assert (1 <= IZR k) by (apply IZR_le; lia). nra.
Qed.
Lemma sum_cos_use N a : - PI <= a <= 2 * PI -> apart a 0 -> apart a (2*PI) ->
  sum_1_N_cos_ia N a = Some (Rsum N (fun i => cos (INR (S i) * a))).
Proof.
  intros Ha H0 H2. pose proof PI_RGT_0. apply sum_cos_exact.
  - destruct (Req_dec a 0); [right; left; auto|]. destruct (Req_dec a (2*PI)); [right; right; auto|].
    left. apply not_mult; auto. lra.
  - destruct H0; [left; auto|right]. rewrite Rminus_0_r in *. auto.
  - exact H2.
Qed.
Lemma two_cos n al th : Rsum n (fun i => cos (INR (S i) * (th + al))) + Rsum n (fun i => cos (INR (S i) * (th - al))) =
  2 * Rsum n (fun i => cos (INR (S i) * al) * cos (INR (S i) * th)).
Proof.
  rewrite <- Rsum_plus, <- Rsum_scal. apply Rsum_ext. intros i _.
  replace (INR (S i) * (th + al)) with (INR (S i) * th + INR (S i) * al) by ring.
  replace (INR (S i) * (th - al)) with (INR (S i) * th - INR (S i) * al) by ring. rewrite cos_plus, cos_minus. ring.
Qed.
Lemma fd_value N j q : (2 <= N)%nat -> INR N <= 500000 -> (j < N)%nat -> -1 <= q <= 1 ->
  apart (acos q) (INR j * PI / INR (N-1)) ->
  sum_0_N_dCi_dfj_by_Ti_q N j q = Ok (Some (card N j q)).
Proof.
  intros HN Hb Hj Hq HA. unfold sum_0_N_dCi_dfj_by_Ti_q. rewrite check_range by auto.
  destruct (Nat.leb_spec N j); [lia|].
  assert (Hr : INR (N-1) <> 0) by (apply not_0_INR; lia). rewrite fdiv_some by auto. cbn [fbind].
  pose proof (acos_range q Hq) as Hth. pose proof PI_RGT_0. pose proof PI2_3_2. pose proof PI_4. pose proof ROE_pos.
  assert (R1 : ROUND_OFF_ERR < 1) by (unfold ROUND_OFF_ERR; lra).
  unfold card.
  rewrite (Rsum_ext (N-2) _ (fun i => cos (INR (S i) * (INR j * PI / INR (N - 1))) * cos (INR (S i) * acos q))) by (intros; rewrite T_acos by auto; reflexivity).
  rewrite (T_acos (N-1)) by auto. set (th := acos q) in *. f_equal.
  destruct (Nat.eqb_spec j 0) as [->|J0].
  - rewrite sum_cos_use; [|lra| |].
    + cbn [fbind orb]. f_equal. change (SIGN 0) with 1. change (INR 0) with 0.
      rewrite (Rsum_ext (N-2) (fun i => cos (INR (S i) * (0 * PI / INR (N - 1))) * cos (INR (S i) * th)) (fun i => cos (INR (S i) * th))).
      field; auto. intros i _. replace (INR (S i) * (0 * PI / INR (N-1))) with 0 by (field; auto). rewrite cos_0; ring.
    + change (INR 0) with 0 in HA. replace (0 * PI / INR (N-1)) with 0 in HA by (field; auto). exact HA.
    + right. rewrite Rabs_left; lra.
  - destruct (Nat.eqb_spec j (N-1)) as [E|J1].
    + assert (EP : INR j * PI / INR (N-1) = PI) by (rewrite E; field; auto). rewrite EP in *.
      rewrite !sum_cos_use; [|lra| | |lra| |].
      * cbn [fbind orb]. f_equal. 
        replace (1 + SIGN j * cos (INR (N-1) * th) + Rsum (N-2) (fun i => cos (INR (S i) * (th + PI))) + Rsum (N-2) (fun i => cos (INR (S i) * (th - PI))))
         with (1 + SIGN j * cos (INR (N-1) * th) + (Rsum (N-2) (fun i => cos (INR (S i) * (th + PI))) + Rsum (N-2) (fun i => cos (INR (S i) * (th - PI))))) by ring.
        rewrite two_cos. field; auto.
      * destruct HA as [->|HA]; [left; ring|right]. replace (th - PI - 0) with (th - PI) by ring. exact HA.
      * right. rewrite Rabs_left; lra.
      * right. rewrite Rabs_pos_eq; lra.
      * destruct HA as [->|HA]; [left; ring|right]. replace (th + PI - 2 * PI) with (th - PI) by ring. exact HA.
    + assert (HJ : (0 < j < N-1)%nat) by lia.
      pose proof (alpha_far N j HN Hb HJ) as AF. cbv zeta in AF. rewrite fdiv_some by auto. cbn [fbind].
      set (al := INR j * PI / INR (N-1)) in *.
      rewrite !sum_cos_use; [|lra| | |lra| |].
      * cbn [fbind orb]. f_equal.
        replace (1 + SIGN j * cos (INR (N-1) * th) + Rsum (N-2) (fun i => cos (INR (S i) * (th + al))) + Rsum (N-2) (fun i => cos (INR (S i) * (th - al))))
         with (1 + SIGN j * cos (INR (N-1) * th) + (Rsum (N-2) (fun i => cos (INR (S i) * (th + al))) + Rsum (N-2) (fun i => cos (INR (S i) * (th - al))))) by ring.
        rewrite two_cos. field; auto.
      * destruct HA as [->|HA]; [left; ring|right]. replace (th - al - 0) with (th - al) by ring. exact HA.
      * right. rewrite Rabs_left; lra.
      * right. rewrite Rabs_pos_eq; lra.
      * right. rewrite Rabs_left; lra.
Qed.
Definition card' (N j : nat) (x : R) : R :=
  (2 * Rsum (N-2) (fun i => cos (INR (S i) * (INR j * PI / INR (N-1))) * (INR (S i) * U' (S i) x)) + SIGN j * (INR (N-1) * U' (N-1) x))
  * ((if ((j =? 0) || (j =? N-1))%nat then /2 else 1) / INR (N-1)).
Lemma card_diff N j x : derivable_pt_lim (card N j) x (card' N j x).
Proof.
  unfold card, card'. set (w := (if ((j =? 0) || (j =? N-1))%nat then /2 else 1) / INR (N-1)).
  apply (dlim_ext (fun x => w * (1 + 2 * Rsum (N-2) (fun i => cos (INR (S i) * (INR j * PI / INR (N-1))) * T (S i) x) + SIGN j * T (N-1) x))). { intros; ring. }
  match goal with |- derivable_pt_lim _ _ (?A * w) => rewrite (Rmult_comm A w) end. apply (derivable_pt_lim_scal (fun x => 1 + 2 * Rsum (N-2) (fun i => cos (INR (S i) * (INR j * PI / INR (N-1))) * T (S i) x) + SIGN j * T (N-1) x)).
  apply (derivable_pt_lim_plus (fun x => 1 + 2 * Rsum (N-2) (fun i => cos (INR (S i) * (INR j * PI / INR (N-1))) * T (S i) x)) (fun x => SIGN j * T (N-1) x)).
  - apply (dlim_ext (fun x => 2 * Rsum (N-2) (fun i => cos (INR (S i) * (INR j * PI / INR (N-1))) * T (S i) x) + fct_cte 1 x)). { intros. unfold fct_cte. ring. }
    replace (2 * Rsum (N - 2) (fun i => cos (INR (S i) * (INR j * PI / INR (N - 1))) * (INR (S i) * U' (S i) x))) with
      (2 * Rsum (N - 2) (fun i => cos (INR (S i) * (INR j * PI / INR (N - 1))) * (INR (S i) * U' (S i) x)) + 0) by ring.
    apply (derivable_pt_lim_plus (fun x => 2 * Rsum (N-2) (fun i => cos (INR (S i) * (INR j * PI / INR (N-1))) * T (S i) x)) (fct_cte 1)); [|apply derivable_pt_lim_const].
    apply (derivable_pt_lim_scal (fun x => Rsum (N-2) (fun i => cos (INR (S i) * (INR j * PI / INR (N-1))) * T (S i) x))).
    apply (dlim_sum (N-2) (fun i x => cos (INR (S i) * (INR j * PI / INR (N-1))) * T (S i) x)).
    intros. apply derivable_pt_lim_scal. apply dT.
  - apply derivable_pt_lim_scal. apply dT.
Qed.
Lemma good_angle q : good q -> apart (acos q) 0 /\ apart (acos q) PI.
Proof.
  intros (Hq & H1 & H2). pose proof (acos_range q Hq) as Ht. pose proof PI_RGT_0.
  assert (L : forall t, 0 <= t <= PI -> 1 - cos t <= t).
  { intros t Ht'. assert (0 <= sin (t/2)) by (apply sin_ge_0; lra). rewrite one_minus_cos. pose proof (SIN_bound (t/2)).
    assert (sin (t/2) <= t/2). { destruct (Req_dec t 0) as [->|]. replace (0/2) with 0 by field. rewrite sin_0; lra. apply Rlt_le, sin_lt_x; lra. }
    assert (sin (t/2) * sin (t/2) <= sin (t/2) * 1) by (apply Rmult_le_compat_l; lra). lra. }
  split.
  - destruct H1 as [->|H1]. left; apply acos_1. right. rewrite Rminus_0_r, Rabs_pos_eq by lra.
    rewrite Rabs_left1 in H1 by lra. pose proof (L (acos q) Ht) as K. rewrite cos_acos in K by auto. lra.
  - destruct H2 as [->|H2]. left. replace (-1) with (-(1)) by ring. rewrite acos_opp, acos_1. ring.
    right. rewrite Rabs_left1 by lra. rewrite Rabs_pos_eq in H2 by lra.
    assert (Hp : 0 <= PI - acos q <= PI) by lra. pose proof (L _ Hp) as K. rewrite cos_minus, cos_PI, sin_PI, cos_acos in K by auto. lra.
Qed.
Lemma fd_deriv N j q : (2 <= N <= 1025)%nat -> (j < N)%nat -> good q ->
  apart (acos q) (INR j * PI / INR (N-1)) ->
  sum_0_N_dCi_dfj_by_dTi_dq N j q = Ok (Some (card' N j q)).
Proof.
  intros HN Hj G HA. destruct (good_angle q G) as [A0 AP]. pose proof (proj1 G) as Hq.
  assert (Hb : INR N <= 500000) by (apply Rle_trans with (INR 1025); [apply le_INR; lia|rewrite INR_IZR_INZ; apply IZR_le; lia]).
  unfold sum_0_N_dCi_dfj_by_dTi_dq. rewrite check_range by auto. destruct (Nat.leb_spec N j); [lia|].
  assert (Hr : INR (N-1) <> 0) by (apply not_0_INR; lia). rewrite fdiv_some by auto.
  pose proof (acos_range q Hq) as Hth. pose proof PI_RGT_0. pose proof PI2_3_2. pose proof ROE_pos.
  assert (R1 : ROUND_OFF_ERR < 1) by (unfold ROUND_OFF_ERR; lra).
  replace (Z.of_nat N - 2)%Z with (Z.of_nat (N-2)) by lia.
  assert (UN : Cheb_Un (Z.of_nat (N-2)) q = U' (N-1) q).
  { rewrite <- Cheb_Un_U' by auto. f_equal. lia. }
  rewrite UN. unfold card'.
  destruct (Nat.eqb_spec j 0) as [->|J0].
  - assert (Z0 : INR 0 * PI / INR (N-1) = 0) by (change (INR 0) with 0; field; auto). rewrite Z0 in *.
    rewrite d_dq_ok; try lia; try lra; auto.
    + cbn [obind fbind orb]. do 2 f_equal. rewrite cos_acos by auto. change (SIGN 0) with 1. field; auto.
    + left; auto.
    + right. rewrite Rabs_left; lra.
  - destruct (Nat.eqb_spec j (N-1)) as [E|J1].
    + assert (EP : INR j * PI / INR (N-1) = PI) by (rewrite E; field; auto). rewrite EP in *.
      rewrite d_dq_ok; try lia; try lra; auto.
      * cbn [obind fbind orb]. do 2 f_equal. rewrite cos_acos by auto. field; auto.
      * right. rewrite Rabs_pos_eq; lra.
      * left; auto.
    + assert (HJ : (0 < j < N-1)%nat) by lia.
      pose proof (alpha_far N j (proj1 HN) Hb HJ) as AF. cbv zeta in AF. rewrite fdiv_some by auto.
      set (al := INR j * PI / INR (N-1)) in *.
      rewrite d_dq_ok; try lia; try lra; auto.
      * cbn [obind fbind orb]. do 2 f_equal. rewrite cos_acos by auto. field; auto.
      * right. rewrite Rabs_pos_eq; lra.
      * right. rewrite Rabs_left1; lra.
Qed.

(** ** statements about polynomials *)
Lemma span10 p N : (length p <= N)%nat -> exists d, forall x, peval p x = Rsum N (fun k => d k * T k x).
Proof.
  intros Hl. destruct (inspan_mono _ N _ Hl (poly_span 1 0 p)) as [d Hd]. exists d. intros x. rewrite <- Hd. f_equal. ring.
Qed.
Lemma card_poly N j p : (2 <= N)%nat -> (j < N)%nat -> (length p <= N)%nat ->
  (forall k, (k < N)%nat -> peval p (cos (INR k * PI / INR (N-1))) = if Nat.eqb k j then 1 else 0) ->
  forall x, peval p x = card N j x.
Proof.
  intros HN Hj Hl Hp. destruct (span10 p N Hl) as [d Hd]. intros x. rewrite Hd. apply (card_series N j d HN Hj).
  intros k Hk. rewrite <- Hd, <- Hp by auto. f_equal. unfold colloc_extrema. f_equal. field. apply not_0_INR; lia.
Qed.
Lemma card_exists N j : (2 <= N)%nat -> exists p, length p = N /\
  (forall k, (k < N)%nat -> peval p (cos (INR k * PI / INR (N-1))) = if Nat.eqb k j then 1 else 0).
Proof.
  intros HN. destruct (values_extrema_series (fun k => if Nat.eqb k j then 1 else 0) N HN) as [d Hd].
  destruct (series_poly 1 0 N d) as (p & Hl & Hp). exists p; split; auto. intros k Hk. rewrite (Hd k Hk), <- Hp.
  apply Rsum_ext. intros i Hi. f_equal. f_equal. unfold colloc_extrema. rewrite Rmult_1_l, Rplus_0_r. f_equal. field. apply not_0_INR; lia.
Qed.
Lemma fd_value_poly N j q p : (2 <= N)%nat -> INR N <= 500000 -> (j < N)%nat -> -1 <= q <= 1 ->
  apart (acos q) (INR j * PI / INR (N-1)) -> (length p <= N)%nat ->
  (forall k, (k < N)%nat -> peval p (cos (INR k * PI / INR (N-1))) = if Nat.eqb k j then 1 else 0) ->
  sum_0_N_dCi_dfj_by_Ti_q N j q = Ok (Some (peval p q)).
Proof. intros. rewrite (card_poly N j p) by auto. apply fd_value; auto. Qed.
Lemma fd_deriv_poly N j q p : (2 <= N <= 1025)%nat -> (j < N)%nat -> -1 <= q <= 1 -> apart q 1 -> apart q (-1) ->
  apart (acos q) (INR j * PI / INR (N-1)) -> (length p <= N)%nat ->
  (forall k, (k < N)%nat -> peval p (cos (INR k * PI / INR (N-1))) = if Nat.eqb k j then 1 else 0) ->
  exists d, sum_0_N_dCi_dfj_by_dTi_dq N j q = Ok (Some d) /\ derivable_pt_lim (peval p) q d.
Proof.
  intros. exists (card' N j q). split. apply fd_deriv; auto. split; auto.
  apply (dlim_ext (card N j)). intros; symmetry; apply card_poly; auto. lia. apply card_diff.
Qed.
(** collocation angles are apart *)
Lemma acos_colloc N i : (2 <= N)%nat -> (i < N)%nat -> acos (colloc_extrema N i) = INR i * PI / INR (N-1).
Proof.
  intros HN Hi. assert (Hr : 0 < INR (N-1)) by (apply lt_0_INR; lia). pose proof PI_RGT_0.
  unfold colloc_extrema. rewrite acos_cos. field; lra.
  assert (0 <= INR i) by apply pos_INR. assert (INR i <= INR (N-1)) by (apply le_INR; lia).
  assert (0 < PI / INR (N-1)) by (apply Rdiv_lt_0_compat; lra). split; [nra|].
  replace PI with (INR (N-1) * (PI / INR (N-1))) at 2 by (field; lra). nra.
Qed.
Lemma colloc_apart N i j : (2 <= N)%nat -> INR N <= 500000 -> (i < N)%nat -> (j < N)%nat ->
  apart (acos (colloc_extrema N i)) (INR j * PI / INR (N-1)).
Proof.
  intros HN Hb Hi Hj. rewrite acos_colloc by auto. pose proof PI2_3_2. pose proof PI_4.
  destruct (Nat.eq_dec i j) as [->|Hne]; [left; reflexivity|right].
  assert (Hr : 0 < INR (N-1)) by (apply lt_0_INR; lia).
  assert (E : INR (N-1) = INR N - 1) by (apply (minus_INR N 1); lia).
  assert (P : / 500000 <= / INR (N-1)) by (apply Rinv_le_contravar; lra).
  assert (Q : ROUND_OFF_ERR <= PI / INR (N-1)). { unfold ROUND_OFF_ERR, Rdiv. nra. }
  replace (INR i * PI / INR (N-1) - INR j * PI / INR (N-1)) with ((INR i - INR j) * (PI / INR (N-1))) by (field; lra).
  assert (0 < PI / INR (N-1)) by (apply Rdiv_lt_0_compat; lra).
  rewrite Rabs_mult, (Rabs_pos_eq (PI / _)) by lra.
  assert (1 <= Rabs (INR i - INR j)). {
    destruct (Nat.lt_ge_cases i j).
    - assert (INR i + 1 <= INR j) by (rewrite <- S_INR; apply le_INR; lia). rewrite Rabs_left1; lra.
    - assert (INR j + 1 <= INR i) by (rewrite <- S_INR; apply le_INR; lia). rewrite Rabs_pos_eq; lra. }
  nra.
Qed.
(** the Jacobian row of the first derivative is the derivative *)
Lemma Rsum_opt_const {A} (x : A) : Some x = Some x. Proof. reflexivity. Qed.
Lemma jacobian_row N i v : (2 <= N <= 1025)%nat -> (i < N)%nat ->
  exists J D, (forall l, (l < N)%nat -> sum_0_N_dCi_dfj_by_dTi_dq N l (colloc_extrema N i) = Ok (Some (J l))) /\
    derivative_ChebyshevExtrema_1st v N = Some D /\ Rsum N (fun l => J l * v l) = D i.
Proof.
  intros HN Hi.
  assert (Hb : INR N <= 500000) by (apply Rle_trans with (INR 1025); [apply le_INR; lia|rewrite INR_IZR_INZ; apply IZR_le; lia]).
  pose proof (good_extrema N i (proj1 HN) Hb Hi) as G.
  destruct (values_extrema_series v N (proj1 HN)) as [d Hd].
  destruct (der1_extrema v N d i (proj1 HN) Hb Hi Hd) as (D & HD & Di).
  exists (fun l => card' N l (colloc_extrema N i)), D. split; [|split; auto].
  - intros l Hl. apply fd_deriv; auto. apply colloc_apart; auto. lia.
  - rewrite Di. set (x := colloc_extrema N i) in *.
    (* both are the derivative of the same function *)
    apply (uniqueness_limite (fun y => Rsum N (fun k => d k * T k y)) x); [|apply d1_series].
    apply (dlim_ext (fun y => Rsum N (fun l => v l * card N l y))).
    + intros y.
      (* expand v through the series of the cardinal functions *)
      assert (Cd : forall l, (l < N)%nat -> exists dl, forall y, card N l y = Rsum N (fun k => dl k * T k y) /\
                   forall k, (k < N)%nat -> card N l (colloc_extrema N k) = if Nat.eqb k l then 1 else 0).
      { intros l Hl. destruct (values_extrema_series (fun k => if Nat.eqb k l then 1 else 0) N (proj1 HN)) as [dl Hdl].
        exists dl. intros z. assert (CS := card_series N l dl (proj1 HN) Hl (fun k Hk => eq_sym (Hdl k Hk))).
        split; [symmetry; apply CS|]. intros k Hk. rewrite <- CS. symmetry. apply Hdl; auto. }
      assert (In : inspan N (fun y => Rsum N (fun l => v l * card N l y))).
      { apply inspan_sum. intros l Hl. apply inspan_scal. destruct (Cd l Hl) as [dl Hdl]. exists dl. intros; apply Hdl. }
      destruct In as [e He]. rewrite He.
      assert (VE : forall j, (j < N)%nat -> v j = Rsum N (fun k => e k * T k (colloc_extrema N j))).
      { intros j Hj. rewrite <- He. rewrite (Rsum_single N j); auto.
        - destruct (Cd j Hj) as [dj Hdj]. rewrite (proj2 (Hdj 0) j Hj), Nat.eqb_refl. ring.
        - intros l Hl Hne. destruct (Cd l Hl) as [dl Hdl]. rewrite (proj2 (Hdl 0) j Hj). destruct (Nat.eqb_spec j l); [congruence|ring]. }
      destruct (coeffs_extrema_series v N d (proj1 HN) Hd) as (C1 & E1 & H1).
      destruct (coeffs_extrema_series v N e (proj1 HN) VE) as (C2 & E2 & H2).
      rewrite E1 in E2. injection E2 as <-.
      apply Rsum_ext. intros k Hk. f_equal. pose proof (H1 k Hk) as Q1. rewrite (H2 k Hk) in Q1.
      unfold wE in Q1. destruct ((k =? 0) || (k =? N-1))%nat; lra.
    + rewrite (Rsum_ext N (fun l => card' N l x * v l) (fun l => v l * card' N l x)) by (intros; ring).
      apply (dlim_sum N (fun l y => v l * card N l y)). intros. apply derivable_pt_lim_scal. apply card_diff.
Qed.
(** int overflow in the sums: 1026 points or more, at the first point *)
Lemma fd_overflow N : (1026 <= N)%nat -> sum_0_N_dCi_dfj_by_dTi_dq N 0 1 = UB.
Proof.
  intros HN. unfold sum_0_N_dCi_dfj_by_dTi_dq. rewrite check_range by lra. destruct (Nat.leb_spec N 0); [lia|].
  rewrite fdiv_some by (apply not_0_INR; lia). cbn [Nat.eqb]. rewrite acos_1.
  unfold d_dq_sum_1_N_cos_ixb_cos_ixa. rewrite !EQL_refl.
  assert (in_int ((Z.of_nat N - 2) * (Z.of_nat N - 2 + 1) * (2 * (Z.of_nat N - 2) + 1)) = false) as ->; [|reflexivity].
  unfold in_int. apply andb_false_iff. right. apply Z.leb_gt.
  set (z := (Z.of_nat N - 2)%Z). assert (1024 <= z)%Z by lia. assert (1024 * 1025 <= z * (z+1))%Z by nia. nia.
Qed.
