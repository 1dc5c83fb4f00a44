From Verif Require Import RealBase TrigSums SpectralModel SpectralSpec.
From Verif Require Base.
Import Base(outcome, Ok, Abort, UB, obind).
Open Scope R_scope.

(** ** Chebyshev polynomials *)
Fixpoint TT (n : nat) (x : R) : R * R := (* (T_n, T_{n+1}) *)
  match n with O => (1, x) | S m => let '(a, b) := TT m x in (b, 2 * x * b - a) end.
Fixpoint UU (n : nat) (x : R) : R * R := (* (U_{n-1}, U_n) *)
  match n with O => (0, 1) | S m => let '(a, b) := UU m x in (b, 2 * x * b - a) end.
Definition T n x := fst (TT n x).
Definition U n x := snd (UU n x).       (* U_n *)
Definition U' n x := fst (UU n x).      (* U_{n-1} *)
Lemma T_0 x : T 0 x = 1. Proof. reflexivity. Qed.
Lemma T_1 x : T 1 x = x. Proof. reflexivity. Qed.
Lemma T_SS n x : T (S (S n)) x = 2 * x * T (S n) x - T n x.
Proof. unfold T. cbn [TT]. destruct (TT n x) as [a b]. reflexivity. Qed.
Lemma U'_S n x : U' (S n) x = U n x.
Proof. unfold U', U. cbn [UU]. destruct (UU n x); reflexivity. Qed.
Lemma U_S n x : U (S n) x = 2 * x * U n x - U' n x.
Proof. unfold U', U. cbn [UU]. destruct (UU n x); reflexivity. Qed.
Lemma U'_0 x : U' 0 x = 0. Proof. reflexivity. Qed.
Lemma U_0 x : U 0 x = 1. Proof. reflexivity. Qed.

Lemma two_step (P : nat -> Prop) : P O -> P 1%nat -> (forall n, P n -> P (S n) -> P (S (S n))) -> forall n, P n.
Proof. intros H0 H1 H n. assert (P n /\ P (S n)) by (induction n; intuition). tauto. Qed.

Lemma T_cos n t : T n (cos t) = cos (INR n * t).
Proof.
  revert n. apply two_step.
  - rewrite T_0. cbn. rewrite Rmult_0_l, cos_0. reflexivity.
  - rewrite T_1. cbn. rewrite Rmult_1_l. reflexivity.
  - intros n H1 H2. rewrite T_SS, H1, H2.
    replace (INR (S (S n)) * t) with (INR (S n) * t + t) by (rewrite (S_INR (S n)); ring).
    replace (INR n * t) with (INR (S n) * t - t) by (rewrite (S_INR n); ring).
    rewrite cos_plus, cos_minus. ring.
Qed.
Lemma U_sin n t : U n (cos t) * sin t = sin (INR (S n) * t) /\ U' n (cos t) * sin t = sin (INR n * t).
Proof.
  induction n.
  - rewrite U_0, U'_0. cbn. rewrite !Rmult_1_l, !Rmult_0_l, sin_0. split; reflexivity.
  - destruct IHn as [A B]. rewrite U'_S. split; [|exact A].
    rewrite U_S. rewrite Rmult_minus_distr_r, Rmult_assoc, A, B.
    replace (INR (S (S n)) * t) with (INR (S n) * t + t) by (rewrite (S_INR (S n)); ring).
    replace (INR n * t) with (INR (S n) * t - t) by (rewrite (S_INR n); ring).
    rewrite sin_plus, sin_minus. ring.
Qed.
(** T_{n+1} = x U_n - U_{n-1} *)
Lemma T_U n x : T (S n) x = x * U n x - U' n x /\ U n x = T n x + x * U' n x.
Proof.
  induction n.
  - rewrite T_1, T_0, U_0, U'_0. split; ring.
  - destruct IHn as [A B]. rewrite U'_S, U_S, T_SS. split.
    + rewrite A. replace (T n x) with (U n x - x * U' n x) by lra. ring.
    + rewrite A. ring.
Qed.
Lemma SIGN_S n : SIGN (S n) = - SIGN n.
Proof. unfold SIGN. rewrite Nat.even_succ, <- Nat.negb_even. destruct (Nat.even n); cbn; lra. Qed.
Lemma T_at_1 n : T n 1 = 1.
Proof. revert n; apply two_step; [reflexivity|reflexivity|]. intros. rewrite T_SS, H, H0. ring. Qed.
Lemma T_at_m1 n : T n (-1) = SIGN n.
Proof.
  revert n; apply two_step; [reflexivity|reflexivity|]. intros n H1 H2. rewrite T_SS, H1, H2, !SIGN_S. ring.
Qed.
Lemma U_at_1 n : U n 1 = INR (S n) /\ U' n 1 = INR n.
Proof.
  induction n. { rewrite U_0, U'_0. cbn. split; reflexivity. }
  destruct IHn as [A B]. rewrite U'_S. split; auto. rewrite U_S, A, B. rewrite !S_INR. ring.
Qed.
Lemma U_at_m1 n : U n (-1) = SIGN n * INR (S n) /\ U' n (-1) = - SIGN n * INR n.
Proof.
  induction n. { rewrite U_0, U'_0. unfold SIGN; cbn. split; ring. }
  destruct IHn as [A B]. rewrite U'_S.
  rewrite SIGN_S. split; [|rewrite A; ring]. rewrite U_S, A, B. rewrite !S_INR. ring.
Qed.

(** ** The C functions are these polynomials on [-1,1] (away from the round-off windows) *)
Definition good (x : R) : Prop :=
  -1 <= x <= 1 /\ (x = 1 \/ ROUND_OFF_ERR <= Rabs (x - 1)) /\ (x = -1 \/ ROUND_OFF_ERR <= Rabs (x - -1)).

Lemma EQL_1_m1 : EQL 1 (-1) = false.
Proof. apply EQL_false. rewrite Rabs_pos_eq; unfold ROUND_OFF_ERR; lra. Qed.
Lemma EQL_m1_1 : EQL (-1) 1 = false.
Proof. apply EQL_false. rewrite Rabs_left; unfold ROUND_OFF_ERR; lra. Qed.
Lemma Zodd_nat n : Z.odd (Z.of_nat n) = negb (Nat.even n).
Proof. rewrite Nat.negb_even. induction n; auto. rewrite Nat2Z.inj_succ, Z.odd_succ, <- Z.negb_odd, Nat.odd_succ, IHn. rewrite <- Nat.negb_odd. reflexivity. Qed.

Lemma good_cases x : good x -> x = 1 \/ x = -1 \/ (EQL x 1 = false /\ EQL x (-1) = false /\ -1 < x < 1).
Proof.
  intros (H & [E|E1] & [E'|E2]); auto. right; right.
  split; [apply EQL_false; auto|split; [apply EQL_false; auto|]].
  pose proof ROE_pos. split.
  - destruct (Req_dec x (-1)); [|lra]. subst. replace (-1 - -1) with 0 in E2 by ring. rewrite Rabs_R0 in E2. lra.
  - destruct (Req_dec x 1); [|lra]. subst. replace (1 - 1) with 0 in E1 by ring. rewrite Rabs_R0 in E1. lra.
Qed.

Lemma Cheb_Tn_T n x : good x -> Cheb_Tn (Z.of_nat n) x = T n x.
Proof.
  intros G. unfold Cheb_Tn. destruct (Z.eqb_spec (Z.of_nat n) 0) as [E|E].
  { assert (n = O) by lia. subst. reflexivity. }
  destruct (good_cases x G) as [->|[->|(E1 & E2 & H)]].
  - rewrite EQL_refl, T_at_1. reflexivity.
  - rewrite EQL_m1_1, EQL_refl, T_at_m1, Zodd_nat. unfold SIGN. destruct (Nat.even n); reflexivity.
  - rewrite E1, E2. rewrite <- INR_IZR_INZ, <- T_cos, cos_acos by lra. reflexivity.
Qed.
Lemma Cheb_Un_U n x : good x -> Cheb_Un (Z.of_nat n) x = U n x.
Proof.
  intros G. unfold Cheb_Un. destruct (Z.eqb_spec (Z.of_nat n) 0) as [E|E].
  { assert (n = O) by lia. subst. reflexivity. }
  assert (S1 : IZR (Z.of_nat n + 1) = INR (S n)) by (rewrite plus_IZR, <- INR_IZR_INZ, S_INR; reflexivity).
  destruct (good_cases x G) as [->|[->|(E1 & E2 & H)]].
  - rewrite EQL_refl. destruct (U_at_1 n) as [-> _]. exact S1.
  - rewrite EQL_m1_1, EQL_refl, Zodd_nat. destruct (U_at_m1 n) as [-> _]. unfold SIGN. destruct (Nat.even n); cbn [negb].
    + rewrite S1. ring.
    + rewrite minus_IZR, opp_IZR, <- INR_IZR_INZ, S_INR. ring.
  - rewrite E1, E2, S1. destruct (U_sin n (acos x)) as [K _]. rewrite cos_acos in K by lra. rewrite <- K.
    assert (sin (acos x) <> 0).
    { rewrite sin_acos by lra. intros Z. apply sqrt_eq_0 in Z; unfold Rsqr in *; nra. }
    field. auto.
Qed.
Lemma Cheb_Un_U' n x : good x -> Cheb_Un (Z.of_nat n - 1) x = U' n x.
Proof.
  intros G. destruct n.
  - cbn [Z.of_nat Z.sub Z.add Z.opp]. rewrite U'_0. unfold Cheb_Un. cbn [Z.eqb].
    destruct (good_cases x G) as [->|[->|(E1 & E2 & H)]].
    + rewrite EQL_refl. reflexivity.
    + rewrite EQL_m1_1, EQL_refl. reflexivity.
    + rewrite E1, E2. change (-1 + 1)%Z with 0%Z. rewrite Rmult_0_l, sin_0. unfold Rdiv; ring.
  - rewrite U'_S, <- Cheb_Un_U by auto. f_equal. lia.
Qed.

(** ** Derivatives of T *)
Lemma dT n x : derivable_pt_lim (T n) x (INR n * U' n x).
Proof.
  revert n. apply two_step.
  - replace (INR 0 * U' 0 x) with 0 by (cbn; ring). apply (derivable_pt_lim_const 1).
  - replace (INR 1 * U' 1 x) with 1 by (rewrite U'_S, U_0; cbn; ring). apply derivable_pt_lim_id.
  - intros n H1 H2.
    assert (E : forall f g l, derivable_pt_lim f x l -> (forall y, f y = g y) -> derivable_pt_lim g x l).
    { intros f g l Hf He. unfold derivable_pt_lim in *. intros eps Hp. destruct (Hf eps Hp) as [d Hd]. exists d. intros h. rewrite <- !He. apply Hd. }
    eapply E; [|intros y; symmetry; apply T_SS].
    replace (INR (S (S n)) * U' (S (S n)) x) with ((2 * 1) * T (S n) x + 2 * x * (INR (S n) * U' (S n) x) - INR n * U' n x).
    + apply (derivable_pt_lim_minus (fun y => 2 * y * T (S n) y) (T n)); auto.
      apply (derivable_pt_lim_mult (fun y => 2 * y) (T (S n))); auto.
      apply derivable_pt_lim_scal. apply derivable_pt_lim_id.
    + rewrite !U'_S, U_S. destruct (T_U n x) as [-> _]. rewrite !S_INR. ring.
Qed.
(** second derivatives, by the same recurrence *)
Fixpoint DD (n : nat) (x : R) : R * R := (* (T''_n, T''_{n+1}) *)
  match n with O => (0, 0) | S m => let '(a, b) := DD m x in (b, 4 * (INR (S m) * U m x) + 2 * x * b - a) end.
Definition D2 n x := fst (DD n x).
Lemma D2_SS n x : D2 (S (S n)) x = 4 * (INR (S n) * U n x) + 2 * x * D2 (S n) x - D2 n x.
Proof. unfold D2. cbn [DD]. destruct (DD n x). reflexivity. Qed.
Lemma d2T n x : derivable_pt_lim (fun y => INR n * U' n y) x (D2 n x).
Proof.
  revert n. apply two_step.
  - change (D2 0 x) with 0. 
    assert (H := derivable_pt_lim_const 0 x). unfold derivable_pt_lim in *. intros eps Hp. destruct (H eps Hp) as [d Hd]. exists d.
    intros h Hh Hl. specialize (Hd h Hh Hl). unfold fct_cte in Hd. cbn [INR]. rewrite !Rmult_0_l. exact Hd.
  - change (D2 1 x) with 0. assert (H := derivable_pt_lim_const 1 x). unfold derivable_pt_lim in *. intros eps Hp. destruct (H eps Hp) as [d Hd]. exists d.
    intros h Hh Hl. specialize (Hd h Hh Hl). unfold fct_cte in Hd. rewrite !U'_S, !U_0. cbn [INR]. rewrite !Rmult_1_l. exact Hd.
  - intros n H1 H2. rewrite D2_SS.
    assert (E : forall f g l, derivable_pt_lim f x l -> (forall y, f y = g y) -> derivable_pt_lim g x l).
    { intros f g l Hf He. unfold derivable_pt_lim in *. intros eps Hp. destruct (Hf eps Hp) as [d Hd]. exists d. intros h. rewrite <- !He. apply Hd. }
    apply (E (fun y => 2 * T (S n) y + 2 * y * (INR (S n) * U' (S n) y) - INR n * U' n y)).
    + replace (4 * (INR (S n) * U n x) + 2 * x * D2 (S n) x - D2 n x) with
        (2 * (INR (S n) * U' (S n) x) + ((2*1) * (INR (S n) * U' (S n) x) + 2 * x * D2 (S n) x) - D2 n x) by (rewrite U'_S; ring).
      apply (derivable_pt_lim_minus (fun y => 2 * T (S n) y + 2 * y * (INR (S n) * U' (S n) y)) (fun y => INR n * U' n y)); auto.
      apply (derivable_pt_lim_plus (fun y => 2 * T (S n) y) (fun y => 2 * y * (INR (S n) * U' (S n) y))).
      * apply derivable_pt_lim_scal. apply dT.
      * apply (derivable_pt_lim_mult (fun y => 2 * y) (fun y => INR (S n) * U' (S n) y)); auto.
        apply derivable_pt_lim_scal. apply derivable_pt_lim_id.
    + intros y. rewrite !U'_S, U_S. destruct (T_U n y) as [-> _]. rewrite !S_INR. ring.
Qed.
Lemma D2_formula n x : (x*x-1) * D2 n x = INR n * ((INR n + 1) * T n x - U n x).
Proof.
  revert n. apply two_step.
  - change (D2 0 x) with 0. cbn; ring.
  - change (D2 1 x) with 0. rewrite T_1, U_S, U_0, U'_0. cbn. ring.
  - intros n H1 H2. rewrite D2_SS.
    transitivity (4 * (x*x-1) * (INR (S n) * U n x) + 2 * x * ((x*x-1) * D2 (S n) x) - (x*x-1) * D2 n x). ring.
    rewrite H1, H2. rewrite T_SS, !U_S, !U'_S. destruct (T_U n x) as [A B].
    rewrite A. replace (T n x) with (U n x - x * U' n x) by lra. rewrite !S_INR. ring.
Qed.
Lemma D2_at_1 n : D2 n 1 = INR n * INR n * (INR n * INR n - 1) / 3.
Proof.
  revert n. apply two_step.
  - change (D2 0 1) with 0. cbn; field.
  - change (D2 1 1) with 0. cbn; field.
  - intros n H1 H2. rewrite D2_SS, H1, H2. destruct (U_at_1 n) as [-> _]. rewrite !S_INR. field.
Qed.
Lemma D2_at_m1 n : D2 n (-1) = SIGN n * (INR n * INR n * (INR n * INR n - 1) / 3).
Proof.
  revert n. apply two_step.
  - change (D2 0 (-1)) with 0. cbn; field.
  - change (D2 1 (-1)) with 0. cbn; field.
  - intros n H1 H2. rewrite D2_SS, H1, H2. destruct (U_at_m1 n) as [-> _].
    rewrite !SIGN_S, !S_INR. field.
Qed.
Lemma d2Cheb_ok n x : good x -> (n <= 215)%nat \/ (x <> 1 /\ x <> -1) -> d2Cheb_Tn_dx2 (Z.of_nat n) x = Ok (D2 n x).
Proof.
  intros G Hn. unfold d2Cheb_Tn_dx2.
  destruct (Z.eqb_spec (Z.of_nat n) 0). { assert (n = O) by lia. subst. reflexivity. }
  destruct (Z.eqb_spec (Z.of_nat n) 1). { assert (n = 1%nat) by lia. subst. reflexivity. }
  cbn [orb]. destruct (Z.eqb_spec (Z.of_nat n) 2). { assert (n = 2%nat) by lia. subst. f_equal. unfold D2; cbn. ring. }
  assert (Q : IZR (Z.of_nat n * Z.of_nat n * (Z.of_nat n * Z.of_nat n - 1)) = INR n * INR n * (INR n * INR n - 1)).
  { rewrite !mult_IZR, minus_IZR, mult_IZR, <- INR_IZR_INZ. reflexivity. }
  assert (Q' : IZR (- Z.of_nat n * Z.of_nat n * (Z.of_nat n * Z.of_nat n - 1)) = - (INR n * INR n * (INR n * INR n - 1))).
  { rewrite !mult_IZR, minus_IZR, mult_IZR, opp_IZR, <- INR_IZR_INZ. ring. }
  assert (I1 : (n <= 215)%nat -> in_int (Z.of_nat n * Z.of_nat n * (Z.of_nat n * Z.of_nat n - 1)) = true /\ in_int (- Z.of_nat n * Z.of_nat n * (Z.of_nat n * Z.of_nat n - 1)) = true).
  { intros H. unfold in_int. assert (0 <= Z.of_nat n <= 215)%Z by lia. set (z := Z.of_nat n) in *.
    assert (0 <= z*z <= 215*215)%Z by nia. assert (H3 : (0 <= z*z*(z*z) <= 215*215*(215*215))%Z) by nia.
    rewrite !andb_true_iff, !Z.leb_le. nia. }
  destruct (good_cases x G) as [->|[->|(E1 & E2 & H)]].
  - rewrite EQL_refl. destruct Hn as [Hn|[Hn _]]; [|congruence]. destruct (I1 Hn) as [-> _]. rewrite D2_at_1, Q. reflexivity.
  - rewrite EQL_m1_1, EQL_refl, Zodd_nat. destruct Hn as [Hn|[_ Hn]]; [|congruence]. destruct (I1 Hn) as [-> ->]. rewrite D2_at_m1. unfold SIGN.
    destruct (Nat.even n); cbn [negb]; f_equal; rewrite ?Q, ?Q'; field.
  - rewrite E1, E2. f_equal. rewrite Cheb_Tn_T, Cheb_Un_U by auto.
    apply (Rmult_eq_reg_l (x*x-1)); [|nra]. rewrite D2_formula.
    rewrite plus_IZR, <- INR_IZR_INZ. field. nra.
Qed.
