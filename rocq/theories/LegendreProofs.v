(** LegendreProofs.v - the recurrences of associated Legendre functions from Rodrigues' formula. *)
From Verif Require Import RealBase TrigSums SpectralSpec ChebProofs SpectralProofs SpectralDeriv PolyLib YlmSpec.

(** ** jets of (y^2-1)^l *)
Lemma U_poly l : ispoly (2 * l + 1) (fun y => (y * y - 1) ^ l).
Proof.
  induction l.
  - apply (ispoly_ext _ (fun _ => 1)); [intros; reflexivity|apply ispoly_const].
  - apply (ispoly_ext _ (fun y => (y - 1) * ((y - - 1) * (y * y - 1) ^ l))); [intros; cbn; ring|].
    replace (2 * S l + 1)%nat with (S (S (2 * l + 1))) by lia. apply ispoly_lin, ispoly_lin, IHl.
Qed.
Definition isU (l : nat) (D : nat -> R -> R) : Prop := jet D /\ forall y, D O y = (y * y - 1) ^ l.
Lemma U_ex l : exists D, isU l D.
Proof. destruct (ispoly_jet _ _ (U_poly l)) as (D & H & E). exists D. split; assumption. Qed.
Lemma U_unique l D E : isU l D -> isU l E -> forall k y, D k y = E k y.
Proof. intros [H1 H2] [H3 H4]. apply jet_unique; auto. intros; rewrite H2, H4; reflexivity. Qed.
(** derivative jet *)
Lemma jet_shift D : jet D -> jet (fun k => D (S k)).
Proof. intros H k y. apply H. Qed.
Lemma U_succ l D E : isU l D -> isU (S l) E -> forall k y, E (S k) y = 2 * INR (S l) * (y * D k y + INR k * D (k - 1)%nat y).
Proof.
  intros [HD D0] [HE E0] k y.
  pose proof (jet_scal (2 * INR (S l)) _ (jet_lin 0 D HD)) as J.
  rewrite (jet_unique (fun k => E (S k)) _ (jet_shift E HE) J); [cbn beta; rewrite Rminus_0_r; reflexivity|].
  intros x. cbn beta. replace (INR 0) with 0 by reflexivity. rewrite D0.
  apply (uniqueness_limite (E O) x); [apply HE|].
  apply (derivable_pt_lim_ext (fun y => (y * y - 1) ^ S l)); [intros; rewrite E0; reflexivity|].
  assert (L : derivable_pt_lim (fun y => y * y - 1) x (2 * x)).
  { replace (2 * x) with (1 * x + x * 1 - 0) by ring. apply (derivable_pt_lim_minus (fun y => y * y) (fun _ => 1)); [|apply derivable_pt_lim_const].
    apply (derivable_pt_lim_mult (fun y => y) (fun y => y)); apply derivable_pt_lim_id. }
  replace (2 * INR (S l) * ((x - 0) * (x * x - 1) ^ l + 0 * D (0 - 1)%nat x)) with (INR (S l) * (x * x - 1) ^ Nat.pred (S l) * (2 * x)) by (cbn [Nat.pred]; ring).
  apply (derivable_pt_lim_comp (fun y => y * y - 1) (fun z => z ^ S l)); [exact L|apply derivable_pt_lim_pow].
Qed.
(** (y^2-1) U' = 2 l y U *)
Lemma U_ode l D : isU l D -> forall k y,
  (y * y - 1) * D (S k) y + 2 * (INR k - INR l) * y * D k y + INR k * (INR k - 1 - 2 * INR l) * D (k - 1)%nat y = 0.
Proof.
  intros [HD D0] k y.
  pose proof (jet_lin 1 _ (jet_lin (-1) _ (jet_shift D HD))) as J1.
  pose proof (jet_scal (2 * INR l) _ (jet_lin 0 _ HD)) as J2.
  pose proof (jet_unique _ _ J1 J2) as E. cbv beta in E.
  assert (B : forall x, (x - 1) * ((x - -1) * D 1%nat x + INR 0 * D (S (0 - 1)) x) + INR 0 * ((x - -1) * D (S (0 - 1)) x + INR (0 - 1) * D (S (0 - 1 - 1)) x) =
     2 * INR l * ((x - 0) * D 0%nat x + INR 0 * D (0 - 1)%nat x)).
  { intros x. change (INR (0 - 1)) with 0. change (INR 0) with 0. rewrite D0.
    assert (D1 : D 1%nat x = INR l * (x * x - 1) ^ Nat.pred l * (2 * x)).
    { apply (uniqueness_limite (D O) x); [apply HD|]. apply (derivable_pt_lim_ext (fun y => (y * y - 1) ^ l)); [intros; rewrite D0; reflexivity|].
      apply (derivable_pt_lim_comp (fun y => y * y - 1) (fun z => z ^ l)); [|apply derivable_pt_lim_pow].
      replace (2 * x) with (1 * x + x * 1 - 0) by ring. apply (derivable_pt_lim_minus (fun y => y * y) (fun _ => 1)); [|apply derivable_pt_lim_const].
      apply (derivable_pt_lim_mult (fun y => y) (fun y => y)); apply derivable_pt_lim_id. }
    rewrite D1. destruct l; [cbn; ring|]. cbn [Nat.pred pow]. ring. }
  specialize (E B k y).
  assert (X : forall i, INR k * (INR (k - 1) * D (S (k - 1 - 1)) i) = INR k * ((INR k - 1) * D (k - 1)%nat i)).
  { intros i. destruct k as [|[|k]]; [cbn; ring|cbn; ring|]. replace (S (S (S k) - 1 - 1)) with (S (S k) - 1)%nat by lia.
    replace (INR (S (S k) - 1)) with (INR (S (S k)) - 1); [reflexivity|]. rewrite minus_INR by lia. reflexivity. }
  assert (Y : forall i, INR k * D (S (k - 1)) i = INR k * D k i) by (intros i; destruct k; [cbn; ring|replace (S (S k - 1)) with (S k) by lia; reflexivity]).
  specialize (X y). specialize (Y y).
  match type of E with ?a = ?b => match type of X with ?c = ?d => match type of Y with ?e = ?f =>
    transitivity ((a - b) + 2 * y * (f - e) + (d - c)); [ring|rewrite E, X, Y; ring] end end end.
Qed.

(** ** p l m = d^(l+m) U_l / (2^l l!) *)
Definition cf (l : nat) : R := 2 ^ l * INR (fact l).
Lemma cf_pos l : 0 < cf l.
Proof. unfold cf. apply Rmult_lt_0_compat; [apply pow_lt; lra|apply INR_fact_lt_0]. Qed.
Lemma cf_S l : cf (S l) = 2 * INR (S l) * cf l.
Proof. unfold cf. cbn [pow]. rewrite fact_simpl, mult_INR. ring. Qed.
(** a family of jets, one per l *)
Definition family (q : nat -> nat -> R -> R) : Prop := forall l, isU l (fun k y => cf l * q l k y).
Lemma family_ex : exists q, family q.
Proof.
  assert (H : forall l, exists D, isU l D) by apply U_ex.
  (* the jets are computed, no choice needed *)
  pose (U := fix U (l : nat) : nat -> R -> R := match l with O => fun k _ => match k with O => 1 | _ => 0 end
     | S l => fun k y => match k with O => (y * y - 1) ^ S l | S k => 2 * INR (S l) * (y * U l k y + INR k * U l (k - 1)%nat y) end end).
  assert (HU : forall l, isU l (U l)).
  { induction l.
    - split; [apply jet_const|reflexivity].
    - destruct (H (S l)) as (E & HE). pose proof (U_succ l (U l) E IHl HE) as S1. destruct HE as [JE E0].
      assert (EQ : forall k y, U (S l) k y = E k y) by (intros [|k] y; [rewrite E0; reflexivity|rewrite S1; reflexivity]).
      split; [|reflexivity]. intros k y. apply (derivable_pt_lim_ext (E k)); [intros; symmetry; apply EQ|]. rewrite EQ. apply JE. }
  exists (fun l k y => U l k y / cf l). intros l. pose proof (cf_pos l). destruct (HU l) as [J E].
  assert (EQ : forall k y, cf l * (U l k y / cf l) = U l k y) by (intros; field; lra).
  split; [|intros; rewrite EQ; apply E]. intros k y. apply (derivable_pt_lim_ext (U l k)); [intros; symmetry; apply EQ|]. rewrite EQ. apply J.
Qed.
Section Family.
Variable q : nat -> nat -> R -> R.
Hypothesis Hq : family q.
Lemma q_jet l : jet (q l).
Proof.
  intros k y. pose proof (cf_pos l). destruct (Hq l) as [J _]. specialize (J k y). cbv beta in J.
  apply (derivable_pt_lim_ext (fun y => / cf l * (cf l * q l k y))); [intros; field; lra|].
  replace (q l (S k) y) with (/ cf l * (cf l * q l (S k) y)) by (field; lra). apply (derivable_pt_lim_scal (fun y => cf l * q l k y)). exact J.
Qed.
Lemma q_0 l y : cf l * q l 0 y = (y * y - 1) ^ l.
Proof. apply (proj2 (Hq l)). Qed.
Lemma qA l k y : q (S l) (S k) y = y * q l k y + INR k * q l (k - 1)%nat y.
Proof.
  pose proof (U_succ l _ _ (Hq l) (Hq (S l)) k y) as E. cbv beta in E. rewrite cf_S in E. pose proof (cf_pos l). pose proof (lt_0_INR (S l) ltac:(lia)).
  apply Rmult_eq_reg_l with (2 * INR (S l) * cf l); [|apply Rmult_integral_contrapositive_currified; lra]. rewrite E. ring.
Qed.
Lemma qB l k y : (y * y - 1) * q l (S k) y + 2 * (INR k - INR l) * y * q l k y + INR k * (INR k - 1 - 2 * INR l) * q l (k - 1)%nat y = 0.
Proof.
  pose proof (U_ode l _ (Hq l) k y) as E. cbv beta in E. pose proof (cf_pos l). apply Rmult_eq_reg_l with (cf l); [|lra]. rewrite Rmult_0_r, <- E. ring.
Qed.
Lemma q0_val k y : q 0 k y = match k with O => 1 | _ => 0 end.
Proof.
  pose proof (U_unique O _ (fun k _ => match k with O => 1 | _ => 0 end) (Hq O)) as E. cbv beta in E.
  assert (C : cf O = 1) by (unfold cf; cbn; ring). rewrite C in E. rewrite <- (Rmult_1_l (q 0 k y)). apply E. split; [apply jet_const|reflexivity].
Qed.
Lemma q_high l : forall k y, (2 * l < k)%nat -> q l k y = 0.
Proof.
  induction l; intros k y H.
  - rewrite q0_val. destruct k; [lia|reflexivity].
  - destruct k as [|k]; [lia|]. rewrite qA, !IHl by lia. ring.
Qed.
(** ** p l m: the m-th derivative of the Legendre polynomial *)
Definition p (l m : nat) (y : R) : R := q l (l + m) y.
Lemma p_high l m y : (l < m)%nat -> p l m y = 0.
Proof. intros. apply q_high. lia. Qed.
Lemma p_deriv l m y : derivable_pt_lim (p l m) y (p l (S m) y).
Proof. unfold p. replace (l + S m)%nat with (S (l + m)) by lia. apply q_jet. Qed.
Lemma p_diag m y : p m m y = match m with O => 1 | S k => (2 * INR m - 1) * p k k y end.
Proof.
  destruct m as [|k]; unfold p; [apply q0_val|].
  replace (S k + S k)%nat with (S (S (k + k))) by lia. rewrite qA, q_high by lia. replace (S (k + k) - 1)%nat with (k + k)%nat by lia.
  rewrite Rmult_0_r, Rplus_0_l. f_equal. rewrite !S_INR, plus_INR. ring.
Qed.
Lemma p_first m y : p (S m) m y = y * (2 * INR m + 1) * p m m y.
Proof.
  unfold p. replace (S m + m)%nat with (S (m + m)) by lia. rewrite qA.
  assert (E : INR (m + m) * q m (m + m - 1)%nat y = 2 * INR m * y * q m (m + m) y).
  { pose proof (qB m (m + m) y) as B. rewrite (q_high m (S (m + m))) in B by lia. rewrite !plus_INR in *. lra. }
  rewrite E. ring.
Qed.
Lemma p_three l m y : (1 <= l)%nat -> (INR l - INR m + 1) * p (S l) m y = (2 * INR l + 1) * y * p l m y - (INR l + INR m) * p (l - 1) m y.
Proof.
  intros Hl. destruct l as [|l]; [lia|]. replace (S l - 1)%nat with l by lia. unfold p.
  replace (S (S l) + m)%nat with (S (S (l + m))) by lia. replace (S l + m)%nat with (S (l + m)) by lia.
  rewrite qA. replace (S (l + m) - 1)%nat with (l + m)%nat by lia. rewrite (qA l (l + m)).
  destruct (l + m)%nat as [|k] eqn:E.
  - assert (l = O /\ m = O) as [-> ->] by lia. rewrite q0_val. pose proof (q_0 1 y) as Q. assert (C : cf 1%nat = 2) by (unfold cf; cbn; ring). rewrite C in Q. cbn [pow] in Q.
    cbn [INR]. replace (q 1 0 y) with ((y * y - 1) / 2) by lra. field.
  - rewrite (qA l k). replace (S k - 1)%nat with k by lia. pose proof (qB l k y) as B.
    assert (EK : INR k = INR l + INR m - 1) by (rewrite <- plus_INR, E, S_INR; ring).
    rewrite !S_INR. rewrite !EK in *.
    match type of B with ?a = 0 => match goal with |- ?x = ?z => transitivity (z - (INR l + 1 + INR m) * a); [ring|rewrite B; ring] end end.
Qed.
(** ** the differential equation, in divergence form *)
Lemma p_ode l m y : (1 <= m)%nat -> (y * y - 1) * p l (S m) y + 2 * INR m * y * p l m y + (INR l + INR m) * (INR m - 1 - INR l) * p l (m - 1) y = 0.
Proof.
  intros H. unfold p. replace (l + S m)%nat with (S (l + m)) by lia. pose proof (qB l (l + m) y) as B. rewrite plus_INR in B.
  replace (l + m - 1)%nat with (l + (m - 1))%nat in B by lia. rewrite <- B. ring.
Qed.
End Family.
