(** IntegrationProofs.v - spectral integration is exact on polynomials; the quadrature rules. *)
From Verif Require Import RealBase TrigSums SpectralModel SpectralSpec ChebProofs SpectralProofs SpectralDeriv Spectral3Model Spectral3Spec Spectral3Proofs.
From Verif Require Base IndexModel IndexProofs.
Import Base(outcome, Ok, Abort, UB, obind).
Open Scope R_scope.

(** ** antiderivatives *)
Definition Anti (k : nat) (x : R) : R :=
  match k with
  | O => x
  | S O => x * x / 2
  | S (S m) => (T (S k) x * / INR (S k) - T (S m) x * / INR (S m)) / 2
  end.
Lemma dAnti k x : derivable_pt_lim (Anti k) x (T k x).
Proof.
  destruct k as [|[|m]].
  - apply (dlim_ext id). reflexivity. rewrite T_0. apply derivable_pt_lim_id.
  - apply (dlim_ext (fun y => /2 * (id * id)%F y)). intros; unfold mult_fct, id; cbn; field.
    rewrite T_1. replace x with (/2 * (1 * x + x * 1)) at 2 by field. apply derivable_pt_lim_scal. apply derivable_pt_lim_mult; apply derivable_pt_lim_id.
  - apply (dlim_ext (fun y => /2 * (/ INR (S (S (S m))) * T (S (S (S m))) y - / INR (S m) * T (S m) y))).
    { intros; unfold Anti; field; split; apply not_0_INR; lia. }
    replace (T (S (S m)) x) with (/2 * (/ INR (S (S (S m))) * (INR (S (S (S m))) * U' (S (S (S m))) x) - / INR (S m) * (INR (S m) * U' (S m) x))).
    + apply (derivable_pt_lim_scal (fun y => / INR (S (S (S m))) * T (S (S (S m))) y - / INR (S m) * T (S m) y)).
      apply (derivable_pt_lim_minus (fun y => / INR (S (S (S m))) * T (S (S (S m))) y) (fun y => / INR (S m) * T (S m) y)); apply derivable_pt_lim_scal, dT.
    + rewrite !U'_S. rewrite (U_S (S m)), U'_S. rewrite (proj1 (T_U (S m) x)), U'_S. field; split; apply not_0_INR; lia.
Qed.
Lemma antider_unique (F G : R -> R) (f : R -> R) a b : (forall x, derivable_pt_lim F x (f x)) -> (forall x, derivable_pt_lim G x (f x)) -> F b - F a = G b - G a.
Proof.
  intros HF HG. assert (D : forall x, derivable_pt_lim (F - G)%F x 0).
  { intros x. replace 0 with (f x - f x) by ring. apply derivable_pt_lim_minus; auto. }
  assert (E : constant (F - G)%F).
  { apply (null_derivative_1 _ (fun x => exist _ 0 (D x))). intros x. reflexivity. }
  specialize (E a b). unfold minus_fct in E. lra.
Qed.
Lemma conventional N n ti tf : integral_conventional_ChebTn N n ti tf =
  (if ((n =? 0) || (n =? N-1))%nat then 1 else 2) * (Anti n (cos tf) - Anti n (cos ti)).
Proof.
  unfold integral_conventional_ChebTn.
  assert (E : (if (n =? 0)%nat then cos tf - cos ti
    else if (n =? 1)%nat then (cos (2*tf) - cos (2*ti)) / 4
    else (- cos tf * cos (tf * INR n) + cos ti * cos (ti * INR n)
          - INR n * sin tf * sin (tf * INR n) + INR n * sin ti * sin (ti * INR n)) / (Pow2 (INR n) - 1)) = Anti n (cos tf) - Anti n (cos ti)).
  { destruct n as [|[|m]]; cbn [Nat.eqb].
    - reflexivity.
    - unfold Anti. rewrite !cos_2a_cos. field.
    - unfold Anti. rewrite (T_cos (S (S (S m))) tf), (T_cos (S (S (S m))) ti), (T_cos (S m) tf), (T_cos (S m) ti).
      assert (P1 : INR (S (S (S m))) = INR (S (S m)) + 1) by (rewrite (S_INR (S (S m))); reflexivity).
      assert (P2 : INR (S m) = INR (S (S m)) - 1) by (rewrite (S_INR (S m)); ring).
      assert (P3 : 1 < INR (S (S m))) by (rewrite !S_INR; pose proof (pos_INR m); lra).
      rewrite P1, P2. set (k := INR (S (S m))) in *.
      replace ((k + 1) * tf) with (k * tf + tf) by ring. replace ((k - 1) * tf) with (k * tf - tf) by ring. replace ((k + 1) * ti) with (k * ti + ti) by ring. replace ((k - 1) * ti) with (k * ti - ti) by ring.
      rewrite !cos_plus, !cos_minus, !(Rmult_comm tf k), !(Rmult_comm ti k). unfold Pow2. field. repeat split; nra. }
  rewrite E. destruct ((n =? 0) || (n =? N - 1))%bool; ring.
Qed.
(** the antiderivative of x^a *)
Definition powI (a : nat) (x : R) : R := x ^ (S a) / INR (S a).
Lemma d_powI a x : derivable_pt_lim (powI a) x (x ^ a).
Proof.
  apply (dlim_ext (fun y => / INR (S a) * y ^ (S a))). { intros; unfold powI, Rdiv; ring. }
  replace (x ^ a) with (/ INR (S a) * (INR (S a) * x ^ pred (S a))).
  - apply derivable_pt_lim_scal. apply derivable_pt_lim_pow.
  - cbn [pred]. field. apply not_0_INR; lia.
Qed.
Lemma integral_mono mn mx n a ti tf : (2 <= n)%nat -> mn < mx -> (a < n)%nat ->
  Rsum n (fun i => FT n (fun t => point_extrema mn mx n t ^ a) i * integral_conventional_ChebTn n i ti tf) =
  (powI a ((mn-mx)/2 * cos tf + (mn+mx)/2) - powI a ((mn-mx)/2 * cos ti + (mn+mx)/2)) * (2 / (mn-mx)).
Proof.
  intros Hn Hm Ha.
  destruct (poly_series mn mx n (mono a) Hm ltac:(rewrite mono_len; lia)) as (d & Hd & _).
  destruct (coeffs_extrema_series (fun t => point_extrema mn mx n t ^ a) n d Hn) as (C & EC & HC).
  { intros j Hj. rewrite point_colloc_extrema, <- Hd, mono_eval by auto. reflexivity. }
  rewrite (Rsum_ext n _ (fun i => d i * Anti i (cos tf) - d i * Anti i (cos ti))).
  2:{ intros i Hi. unfold FT. rewrite EC, HC, conventional by auto. unfold wE. destruct ((i =? 0) || (i =? n-1))%nat; field. }
  rewrite Rsum_minus.
  rewrite (antider_unique (fun x => Rsum n (fun i => d i * Anti i x)) (fun x => 2/(mn-mx) * powI a ((mn-mx)/2 * x + (mn+mx)/2)) (fun x => ((mn-mx)/2 * x + (mn+mx)/2) ^ a) (cos ti) (cos tf)).
  - field. lra.
  - intros x. rewrite <- mono_eval, Hd. apply (dlim_sum n (fun i x => d i * Anti i x) (fun k => d k * T k x)). intros. apply derivable_pt_lim_scal, dAnti.
  - intros x. replace ((((mn-mx)/2 * x + (mn+mx)/2)) ^ a) with (2/(mn-mx) * (((mn-mx)/2 * x + (mn+mx)/2) ^ a * ((mn-mx)/2))) by (field; lra).
    apply (derivable_pt_lim_scal (fun x => powI a ((mn-mx)/2 * x + (mn+mx)/2))). apply dlim_affine. apply d_powI.
Qed.
(** the whole interval: odd terms vanish, so summing even ones is enough *)
Lemma Anti_parity k x : Anti k (-x) = - SIGN k * Anti k x.
Proof.
  assert (TP : forall n y, T n (-y) = SIGN n * T n y).
  { intros n y. revert n. apply two_step. - rewrite !T_0; unfold SIGN; cbn; ring. - rewrite !T_1; unfold SIGN; cbn; ring.
    - intros n H H1. rewrite !T_SS, H, H1, !SIGN_S. ring. }
  destruct k as [|[|m]].
  - unfold Anti, SIGN; cbn; ring.
  - unfold Anti, SIGN; cbn. field.
  - unfold Anti. rewrite !TP, !SIGN_S. field. split; apply not_0_INR; lia.
Qed.
Lemma whole_even N k : Nat.even k = true -> Int_ChebTn_OPTM k N = integral_conventional_ChebTn N k PI 0.
Proof.
  intros He. rewrite conventional, cos_0, cos_PI. replace (-1) with (- (1)) by ring. rewrite Anti_parity. unfold SIGN; rewrite He.
  unfold Int_ChebTn_OPTM. destruct k as [|[|m]]; [|discriminate|].
  - cbn. ring.
  - replace (Nat.eqb (S (S m)) 0) with false by reflexivity. cbn [orb]. unfold Anti. rewrite !T_at_1.
    assert (P1 : INR (S (S (S m))) = INR (S (S m)) + 1) by (rewrite (S_INR (S (S m))); reflexivity).
    assert (P2 : INR (S m) = INR (S (S m)) - 1) by (rewrite (S_INR (S m)); ring).
    assert (P3 : 1 < INR (S (S m))) by (rewrite !S_INR; pose proof (pos_INR m); lra).
    rewrite P1, P2. set (q := INR (S (S m))) in *. unfold Pow2. destruct (S (S m) =? N-1)%nat; field; repeat split; nra.
Qed.
Lemma whole_odd N k : Nat.even k = false -> integral_conventional_ChebTn N k PI 0 = 0.
Proof.
  intros He. rewrite conventional, cos_0, cos_PI. replace (-1) with (- (1)) by ring. rewrite Anti_parity. unfold SIGN; rewrite He. ring.
Qed.
Lemma even_sum_all n f : (forall i, (i < n)%nat -> Nat.even i = false -> f i = 0) -> even_sum n f = Rsum n f.
Proof.
  unfold even_sum. intros H. revert H. induction n using (well_founded_induction lt_wf). intros Hf.
  destruct n as [|[|m]]; [reflexivity|cbn; ring|].
  assert (Hf' : forall i, (i < m)%nat -> Nat.even i = false -> f i = 0) by (intros; apply Hf; auto; lia).
  specialize (H m ltac:(lia) Hf').
  change (Nat.div2 (S (S (S m)))) with (S (Nat.div2 (S m))). cbn [Rsum]. rewrite H.
  destruct (Nat.even m) eqn:Em.
  - apply Nat.even_spec in Em. destruct Em as [q ->].
    assert (E1 : f (S (2 * q)) = 0). { apply Hf; [lia|]. rewrite Nat.even_succ, Nat.odd_mul. reflexivity. }
    replace (Nat.div2 (S (2 * q))) with q by (rewrite Nat.div2_succ_double; reflexivity). rewrite E1. ring.
  - assert (Eo : Nat.odd m = true) by (rewrite <- Nat.negb_even, Em; reflexivity). apply Nat.odd_spec in Eo. destruct Eo as [q Eq].
    rewrite (Hf m) by (auto; lia). replace (2 * Nat.div2 (S m))%nat with (S m). ring.
    rewrite Eq. replace (S (2 * q + 1)) with (2 * (S q))%nat by lia. rewrite Nat.div2_double. lia.
Qed.
Lemma whole_mono mn mx n a : (2 <= n)%nat -> mn < mx -> (a < n)%nat ->
  Rsum n (fun i => FT n (fun t => point_extrema mn mx n t ^ a) i * integral_conventional_ChebTn n i PI 0) =
  (powI a mx - powI a mn) * (2 / (mx-mn)).
Proof.
  intros. rewrite integral_mono by auto. rewrite cos_0, cos_PI.
  replace ((mn-mx)/2 * 1 + (mn+mx)/2) with mn by field. replace ((mn-mx)/2 * -1 + (mn+mx)/2) with mx by field. field. lra.
Qed.

(** ** iterated integrals of polynomials *)
Lemma integral_sum n (f : nat -> R -> R) a b (I : nat -> R) : (forall i, (i < n)%nat -> integral_is (f i) a b (I i)) -> integral_is (fun x => Rsum n (fun i => f i x)) a b (Rsum n I).
Proof.
  induction n; intros H; cbn [Rsum].
  - exists (fct_cte 0). split. intros; apply derivable_pt_lim_const. unfold fct_cte; ring.
  - destruct IHn as (F & HF & EF); [intros; apply H; lia|]. destruct (H n) as (G & HG & EG); [lia|].
    exists (F + G)%F. split. intros; apply derivable_pt_lim_plus; auto. unfold plus_fct. rewrite EF, EG. ring.
Qed.
Lemma integral_scal f a b I c : integral_is f a b I -> integral_is (fun x => c * f x) a b (c * I).
Proof. intros (F & HF & ->). exists (fun x => c * F x). split. intros; apply derivable_pt_lim_scal; auto. ring. Qed.
Lemma integral_ext f g a b I : (forall x, f x = g x) -> integral_is f a b I -> integral_is g a b I.
Proof. intros E (F & HF & ->). exists F; split; auto. intros x. rewrite <- E. apply HF. Qed.
Lemma integral_pow i a b : integral_is (fun x => x ^ i) a b (powI i b - powI i a).
Proof. exists (powI i). split; auto. apply d_powI. Qed.
Definition dI i a b := powI i b - powI i a.
Lemma integral2_poly m0 m1 A a0 b0 a1 b1 : integral2_is (peval2 m0 m1 A) a0 b0 a1 b1
  (Rsum m0 (fun i => Rsum m1 (fun j => A i j * dI i a0 b0 * dI j a1 b1))).
Proof.
  exists (fun y => Rsum m0 (fun i => Rsum m1 (fun j => A i j * dI i a0 b0 * y ^ j))). split.
  - intros y. apply (integral_sum m0 (fun i x => Rsum m1 (fun j => A i j * x ^ i * y ^ j))). intros i _.
    apply (integral_sum m1 (fun j x => A i j * x ^ i * y ^ j)). intros j _.
    apply (integral_ext (fun x => (A i j * y ^ j) * x ^ i)). intros; ring.
    replace (A i j * dI i a0 b0 * y ^ j) with ((A i j * y ^ j) * dI i a0 b0) by ring. apply integral_scal, integral_pow.
  - apply (integral_sum m0 (fun i y => Rsum m1 (fun j => A i j * dI i a0 b0 * y ^ j))). intros i _.
    apply (integral_sum m1 (fun j y => A i j * dI i a0 b0 * y ^ j)). intros j _. apply integral_scal, integral_pow.
Qed.
Lemma integral3_poly m0 m1 m2 A a0 b0 a1 b1 a2 b2 : integral3_is (peval3 m0 m1 m2 A) a0 b0 a1 b1 a2 b2
  (Rsum m0 (fun i => Rsum m1 (fun j => Rsum m2 (fun k => A i j k * dI i a0 b0 * dI j a1 b1 * dI k a2 b2)))).
Proof.
  exists (fun y z => Rsum m0 (fun i => Rsum m1 (fun j => Rsum m2 (fun k => A i j k * dI i a0 b0 * y ^ j * z ^ k)))). split.
  - intros y z. apply (integral_sum m0 (fun i x => Rsum m1 (fun j => Rsum m2 (fun k => A i j k * x ^ i * y ^ j * z ^ k)))). intros i _.
    apply (integral_sum m1 (fun j x => Rsum m2 (fun k => A i j k * x ^ i * y ^ j * z ^ k))). intros j _.
    apply (integral_sum m2 (fun k x => A i j k * x ^ i * y ^ j * z ^ k)). intros k _.
    apply (integral_ext (fun x => (A i j k * y ^ j * z ^ k) * x ^ i)). intros; ring.
    replace (A i j k * dI i a0 b0 * y ^ j * z ^ k) with ((A i j k * y ^ j * z ^ k) * dI i a0 b0) by ring. apply integral_scal, integral_pow.
  - exists (fun z => Rsum m0 (fun i => Rsum m1 (fun j => Rsum m2 (fun k => A i j k * dI i a0 b0 * dI j a1 b1 * z ^ k)))). split.
    + intros z. apply (integral_sum m0 (fun i y => Rsum m1 (fun j => Rsum m2 (fun k => A i j k * dI i a0 b0 * y ^ j * z ^ k)))). intros i _.
      apply (integral_sum m1 (fun j y => Rsum m2 (fun k => A i j k * dI i a0 b0 * y ^ j * z ^ k))). intros j _.
      apply (integral_sum m2 (fun k y => A i j k * dI i a0 b0 * y ^ j * z ^ k)). intros k _.
      apply (integral_ext (fun y => (A i j k * dI i a0 b0 * z ^ k) * y ^ j)). intros; ring.
      replace (A i j k * dI i a0 b0 * dI j a1 b1 * z ^ k) with ((A i j k * dI i a0 b0 * z ^ k) * dI j a1 b1) by ring. apply integral_scal, integral_pow.
    + apply (integral_sum m0 (fun i y => Rsum m1 (fun j => Rsum m2 (fun k => A i j k * dI i a0 b0 * dI j a1 b1 * y ^ k)))). intros i _.
      apply (integral_sum m1 (fun j y => Rsum m2 (fun k => A i j k * dI i a0 b0 * dI j a1 b1 * y ^ k))). intros j _.
      apply (integral_sum m2 (fun k y => A i j k * dI i a0 b0 * dI j a1 b1 * y ^ k)). intros k _. apply integral_scal, integral_pow.
Qed.

(** ** the volume integrals on a Cartesian patch *)
Lemma all_points_ok {A} n (F : nat -> option A) d e : (forall l, (l < n)%nat -> F l = Some (e l)) ->
  exists w, all_points n F d = Some w /\ forall l, (l < n)%nat -> w l = e l.
Proof.
  induction n; intros H; cbn [all_points]. { exists d; split; auto; lia. }
  destruct IHn as (w & -> & Hw); [intros; apply H; lia|]. rewrite H by lia. eexists; split; [reflexivity|].
  intros l Hl. cbv beta. destruct (Nat.eqb_spec l n); [subst; auto|apply Hw; lia].
Qed.
Lemma det_cart b : det_dN_dx JT_Cartesian b = (2 / (- mx0 b + mn0 b)) * (2 / (- mx1 b + mn1 b)) * (2 / (- mx2 b + mn2 b)).
Proof. unfold det_dN_dx, a_entry, dN_dq, dN_dXd, JT_Cartesian, SpectralModel.dN_dX. cbn [dir Nat.eqb mn_of mx_of]. ring. Qed.
Lemma J_cart b : well b -> J_xyzN0N1N2 JT_Cartesian b = Some ((mn0 b - mx0 b)/2 * ((mn1 b - mx1 b)/2) * ((mn2 b - mx2 b)/2)).
Proof.
  intros (_ & _ & _ & M0 & M1 & M2). unfold J_xyzN0N1N2. rewrite det_cart.
  rewrite fdiv_some. f_equal; field; repeat split; lra.
  assert (forall u v, u < v -> 2 / (- v + u) <> 0). { intros u v H E. apply (Rmult_integral_contrapositive_currified 2 (/ (- v + u))); [lra|apply Rinv_neq_0_compat; lra|exact E]. }
  apply Rmult_integral_contrapositive_currified; [apply Rmult_integral_contrapositive_currified|]; apply H; auto.
Qed.
Lemma det_g_spec g : det_g g = det3s (g00 g) (g01 g) (g02 g) (g11 g) (g12 g) (g22 g).
Proof. unfold det_g, det3s, Pow2. ring. Qed.
Definition cart : nat -> JT := fun _ => JT_Cartesian.
Lemma even_sum_ext n f g : (forall i, (i < n)%nat -> Nat.even i = true -> f i = g i) -> even_sum n f = even_sum n g.
Proof.
  intros H. unfold even_sum. apply Rsum_ext. intros t Ht. apply H.
  - pose proof (Nat.div2_odd (S n)). unfold Nat.b2n in *. destruct (Nat.odd (S n)); lia.
  - rewrite Nat.even_mul. reflexivity.
Qed.
Lemma even_weights n N (g : nat -> R) : even_sum n (fun i => g i * Int_ChebTn_OPTM i N) = Rsum n (fun i => g i * integral_conventional_ChebTn N i PI 0).
Proof.
  rewrite (even_sum_ext n _ (fun i => g i * integral_conventional_ChebTn N i PI 0)).
  2:{ intros i _ He. rewrite whole_even by auto. reflexivity. }
  apply even_sum_all. intros i _ He. rewrite whole_odd by auto. ring.
Qed.
Lemma even_sum_scal n f c : even_sum n (fun i => f i * c) = even_sum n f * c.
Proof. unfold even_sum. apply Rsum_scal_r. Qed.
Lemma even3 b (C : nat -> R) :
  even_sum (n0 b) (fun i => even_sum (n1 b) (fun j => even_sum (n2 b) (fun k =>
       C (at_ b i j k) * Int_ChebTn_OPTM i (n0 b) * Int_ChebTn_OPTM j (n1 b) * Int_ChebTn_OPTM k (n2 b)))) =
  Rsum (n0 b) (fun i => Rsum (n1 b) (fun j => Rsum (n2 b) (fun k =>
       C (at_ b i j k) * integral_conventional_ChebTn (n0 b) i PI 0 * integral_conventional_ChebTn (n1 b) j PI 0 * integral_conventional_ChebTn (n2 b) k PI 0))).
Proof.
  rewrite (even_sum_ext (n0 b) _ (fun i => Rsum (n1 b) (fun j => Rsum (n2 b) (fun k => C (at_ b i j k) * integral_conventional_ChebTn (n1 b) j PI 0 * integral_conventional_ChebTn (n2 b) k PI 0)) * Int_ChebTn_OPTM i (n0 b))).
  - rewrite even_weights. apply Rsum_ext. intros i _. rewrite <- Rsum_scal_r. apply Rsum_ext. intros j _. rewrite <- Rsum_scal_r. apply Rsum_ext. intros k _. ring.
  - intros i _ _.
    rewrite (even_sum_ext (n1 b) _ (fun j => (Rsum (n2 b) (fun k => C (at_ b i j k) * integral_conventional_ChebTn (n2 b) k PI 0) * Int_ChebTn_OPTM i (n0 b)) * Int_ChebTn_OPTM j (n1 b))).
    + rewrite even_weights, <- Rsum_scal_r. apply Rsum_ext. intros j _. rewrite <- !Rsum_scal_r. apply Rsum_ext. intros k _. ring.
    + intros j _ _. rewrite even_weights, <- !Rsum_scal_r. apply Rsum_ext. intros k _. ring.
Qed.
(** f*sqrt(det g) at the points are the values of the polynomial A, and det g >= 0 *)
Definition density (b : box) (f : nat -> R) (g : nat -> metric) (A : nat -> nat -> nat -> R) : Prop :=
  forall i j k, (i < n0 b)%nat -> (j < n1 b)%nat -> (k < n2 b)%nat ->
    let G := g (at_ b i j k) in
    let D := det3s (g00 G) (g01 G) (g02 G) (g11 G) (g12 G) (g22 G) in
    0 <= D /\ f (at_ b i j k) * sqrt D = peval3 (n0 b) (n1 b) (n2 b) A (px b i) (py b j) (pz b k).
Lemma unflatten b l : (l < n0 b * n1 b * n2 b)%nat -> exists i j k, (i < n0 b)%nat /\ (j < n1 b)%nat /\ (k < n2 b)%nat /\ l = at_ b i j k /\
  k = (l mod n2 b)%nat /\ j = (l / n2 b mod n1 b)%nat /\ i = (l / n2 b / n1 b)%nat.
Proof.
  intros H. assert (n2 b <> 0)%nat by (intro E; rewrite E in H; lia). assert (n1 b <> 0)%nat by (intro E; rewrite E in H; lia).
  exists (l / n2 b / n1 b)%nat, (l / n2 b mod n1 b)%nat, (l mod n2 b)%nat. repeat split; try (apply Nat.mod_upper_bound; auto).
  - apply Nat.div_lt_upper_bound; auto. apply Nat.div_lt_upper_bound; auto. lia.
  - unfold at_, IndexModel.ijk. rewrite (Nat.div_mod l (n2 b)) at 1 by auto. rewrite (Nat.div_mod (l / n2 b) (n1 b)) at 1 by auto. lia.
Qed.
Lemma peval3_scal m0 m1 m2 c A x y z : peval3 m0 m1 m2 (fun i j k => c * A i j k) x y z = c * peval3 m0 m1 m2 A x y z.
Proof.
  unfold peval3. rewrite <- Rsum_scal. apply Rsum_ext; intros. rewrite <- Rsum_scal. apply Rsum_ext; intros. rewrite <- Rsum_scal. apply Rsum_ext; intros. ring.
Qed.
Definition Jc b := (mn0 b - mx0 b)/2 * ((mn1 b - mx1 b)/2) * ((mn2 b - mx2 b)/2).
Lemma integrand_ok b f g A : well b -> density b f g A ->
  exists F, integrand cart b f g = Some F /\ takes b F (fun i j k => Jc b * A i j k).
Proof.
  intros Hw Hd.
  destruct (all_points_ok (n0 b * n1 b * n2 b) (integrand_at cart b f g) (fun _ => 0) (fun l => f l * sqrt (det_g (g l)) * Jc b)) as (F & E & HF).
  { intros l Hl. destruct (unflatten b l Hl) as (i & j & k & Hi & Hj & Hk & -> & _).
    destruct (Hd i j k Hi Hj Hk) as [Hp _]. unfold integrand_at, cart. rewrite det_g_spec.
    destruct (ltR_spec (det3s (g00 (g (at_ b i j k))) (g01 (g (at_ b i j k))) (g02 (g (at_ b i j k))) (g11 (g (at_ b i j k))) (g12 (g (at_ b i j k))) (g22 (g (at_ b i j k)))) 0); [lra|].
    rewrite J_cart by auto. reflexivity. }
  exists F; split; auto. intros i j k Hi Hj Hk. rewrite HF by (apply IndexProofs.ijk_lt; auto).
  rewrite det_g_spec. rewrite (proj2 (Hd i j k Hi Hj Hk)). rewrite peval3_scal. ring.
Qed.
Lemma sum3_scal m0 m1 m2 c (A B : nat -> nat -> nat -> R) : (forall i j k, (i < m0)%nat -> (j < m1)%nat -> (k < m2)%nat -> A i j k = c * B i j k) ->
  Rsum m0 (fun i => Rsum m1 (fun j => Rsum m2 (fun k => A i j k))) = c * Rsum m0 (fun i => Rsum m1 (fun j => Rsum m2 (fun k => B i j k))).
Proof.
  intros H. rewrite <- Rsum_scal. apply Rsum_ext; intros. rewrite <- Rsum_scal. apply Rsum_ext; intros. rewrite <- Rsum_scal. apply Rsum_ext; intros. auto.
Qed.
Theorem interval_dV b f g A Ii If Ji Jf Ki Kf : well b -> density b f g A ->
  exists V, f_xyz_interval_dV cart b f g Ii If Ji Jf Ki Kf = Ok (Some V) /\
    integral3_is (peval3 (n0 b) (n1 b) (n2 b) A) (px b Ii) (px b If) (py b Ji) (py b Jf) (pz b Ki) (pz b Kf) V.
Proof.
  intros Hw Hd. destruct (integrand_ok b f g A Hw Hd) as (F & E & HF). unfold f_xyz_interval_dV. rewrite E. cbn [oR].
  destruct Hw as (N0 & N1 & N2 & M0 & M1 & M2).
  destruct (coeffs_3d_tensor b N0 N1 N2 F _ _ _ _ (fun a t => px b t ^ a) (fun c t => py b t ^ c) (fun e t => pz b t ^ e) HF) as (C & -> & HC).
  cbn [use obind]. eexists; split; [reflexivity|].
  rewrite (Rsum_ext (n0 b) _ (fun i => Rsum (n1 b) (fun j => Rsum (n2 b) (fun k =>
     Rsum (n0 b) (fun a => Rsum (n1 b) (fun c => Rsum (n2 b) (fun e => Jc b * A a c e * FT (n0 b) (fun t => px b t ^ a) i * FT (n1 b) (fun t => py b t ^ c) j * FT (n2 b) (fun t => pz b t ^ e) k))) *
       integral_conventional_ChebTn (n0 b) i (th_at Ii (n0 b)) (th_at If (n0 b)) *
       integral_conventional_ChebTn (n1 b) j (th_at Ji (n1 b)) (th_at Jf (n1 b)) *
       integral_conventional_ChebTn (n2 b) k (th_at Ki (n2 b)) (th_at Kf (n2 b)))))).
  2:{ intros i Hi. apply Rsum_ext; intros j Hj. apply Rsum_ext; intros k Hk. rewrite HC by auto. reflexivity. }
  rewrite (weighted_3d (n0 b) (n1 b) (n2 b) (n0 b) (n1 b) (n2 b) (fun a c e => Jc b * A a c e) (fun a => FT (n0 b) (fun t => px b t ^ a)) (fun c => FT (n1 b) (fun t => py b t ^ c)) (fun e => FT (n2 b) (fun t => pz b t ^ e))
     (fun i => integral_conventional_ChebTn (n0 b) i (th_at Ii (n0 b)) (th_at If (n0 b)))
     (fun j => integral_conventional_ChebTn (n1 b) j (th_at Ji (n1 b)) (th_at Jf (n1 b)))
     (fun k => integral_conventional_ChebTn (n2 b) k (th_at Ki (n2 b)) (th_at Kf (n2 b)))).
  rewrite (sum3_scal _ _ _ 1 _ (fun i j k => A i j k * dI i (px b Ii) (px b If) * dI j (py b Ji) (py b Jf) * dI k (pz b Ki) (pz b Kf))).
  - rewrite Rmult_1_l. apply integral3_poly.
  - intros a c e Ha Hc He. unfold px, py, pz. rewrite !integral_mono by auto.
    assert (PE : forall mn mx n i, (2 <= n)%nat -> (mn - mx)/2 * cos (th_at i n) + (mn+mx)/2 = point_extrema mn mx n i).
    { intros mn mx n i Hn. unfold point_extrema, th_at. field. }
    rewrite !PE by auto. unfold dI, Jc. field. lra.
Qed.
Theorem whole_dV b f g A : well b -> density b f g A ->
  exists V, f_xyz_whole_dV cart b f g = Ok (Some V) /\
    integral3_is (peval3 (n0 b) (n1 b) (n2 b) A) (mn0 b) (mx0 b) (mn1 b) (mx1 b) (mn2 b) (mx2 b) V.
Proof.
  intros Hw Hd. destruct (integrand_ok b f g A Hw Hd) as (F & E & HF). unfold f_xyz_whole_dV. rewrite E. cbn [oR].
  destruct Hw as (N0 & N1 & N2 & M0 & M1 & M2).
  destruct (coeffs_3d_tensor b N0 N1 N2 F _ _ _ _ (fun a t => px b t ^ a) (fun c t => py b t ^ c) (fun e t => pz b t ^ e) HF) as (C & -> & HC).
  cbn [use obind]. eexists; split; [reflexivity|]. rewrite even3.
  rewrite (Rsum_ext (n0 b) _ (fun i => Rsum (n1 b) (fun j => Rsum (n2 b) (fun k =>
     Rsum (n0 b) (fun a => Rsum (n1 b) (fun c => Rsum (n2 b) (fun e => Jc b * A a c e * FT (n0 b) (fun t => px b t ^ a) i * FT (n1 b) (fun t => py b t ^ c) j * FT (n2 b) (fun t => pz b t ^ e) k))) *
       integral_conventional_ChebTn (n0 b) i PI 0 *
       integral_conventional_ChebTn (n1 b) j PI 0 *
       integral_conventional_ChebTn (n2 b) k PI 0)))).
  2:{ intros i Hi. apply Rsum_ext; intros j Hj. apply Rsum_ext; intros k Hk. rewrite HC by auto. reflexivity. }
  rewrite (weighted_3d (n0 b) (n1 b) (n2 b) (n0 b) (n1 b) (n2 b) (fun a c e => Jc b * A a c e) (fun a => FT (n0 b) (fun t => px b t ^ a)) (fun c => FT (n1 b) (fun t => py b t ^ c)) (fun e => FT (n2 b) (fun t => pz b t ^ e))
     (fun i => integral_conventional_ChebTn (n0 b) i PI 0)
     (fun j => integral_conventional_ChebTn (n1 b) j PI 0)
     (fun k => integral_conventional_ChebTn (n2 b) k PI 0)).
  rewrite (sum3_scal _ _ _ (-1) _ (fun i j k => A i j k * dI i (mn0 b) (mx0 b) * dI j (mn1 b) (mx1 b) * dI k (mn2 b) (mx2 b))).
  - rewrite Rmult_comm, <- Rmult_assoc. replace (-1 * -1) with 1 by ring. rewrite Rmult_1_l. apply integral3_poly.
  - intros a c e Ha Hc He. unfold px, py, pz. rewrite !whole_mono by auto. unfold dI, Jc. field. lra.
Qed.
