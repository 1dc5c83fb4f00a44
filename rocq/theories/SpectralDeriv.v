(** SpectralDeriv.v - spectral derivatives are exact on polynomials. *)
From Verif Require Import RealBase TrigSums SpectralModel SpectralSpec ChebProofs SpectralProofs.
From Verif Require Base.
Import Base(outcome, Ok, Abort, UB, obind).
Open Scope R_scope.

Lemma dlim_ext f g x l : (forall y, f y = g y) -> derivable_pt_lim f x l -> derivable_pt_lim g x l.
Proof. intros He Hf. unfold derivable_pt_lim in *. intros eps Hp. destruct (Hf eps Hp) as [d Hd]. exists d. intros h. rewrite <- !He. apply Hd. Qed.
Lemma dlim_sum n (f : nat -> R -> R) l x : (forall k, (k < n)%nat -> derivable_pt_lim (f k) x (l k)) ->
  derivable_pt_lim (fun y => Rsum n (fun k => f k y)) x (Rsum n l).
Proof.
  induction n; intros H; cbn [Rsum].
  - apply (dlim_ext (fct_cte 0)). reflexivity. apply derivable_pt_lim_const.
  - apply (derivable_pt_lim_plus (fun y => Rsum n (fun k => f k y)) (f n)). apply IHn; intros; apply H; lia. apply H; lia.
Qed.
Lemma d1_series n d x : derivable_pt_lim (fun y => Rsum n (fun k => d k * T k y)) x (Rsum n (fun k => d k * (INR k * U' k x))).
Proof. apply (dlim_sum n (fun k y => d k * T k y)). intros. apply derivable_pt_lim_scal. apply dT. Qed.
Lemma d2_series n d x : derivable_pt_lim (fun y => Rsum n (fun k => d k * (INR k * U' k y))) x (Rsum n (fun k => d k * D2 k x)).
Proof. apply (dlim_sum n (fun k y => d k * (INR k * U' k y))). intros. apply (derivable_pt_lim_scal (fun y => INR k * U' k y)). apply d2T. Qed.
Lemma dlim_affine g a b x l : derivable_pt_lim g (a * x + b) l -> derivable_pt_lim (fun y => g (a * y + b)) x (l * a).
Proof.
  intros H. apply (derivable_pt_lim_comp (fun y => a * y + b) g); auto.
  assert (D : derivable_pt_lim (fun y => a * y + b) x (a * 1 + 0)).
  { apply (derivable_pt_lim_plus (fun y => a * y) (fct_cte b)). apply derivable_pt_lim_scal, derivable_pt_lim_id. apply derivable_pt_lim_const. }
  rewrite Rmult_1_r, Rplus_0_r in D. exact D.
Qed.

Lemma sum_ends n (g : nat -> R) : (2 <= n)%nat -> g O = 0 ->
  Rsum n g = Rsum (n-1-1) (fun t => g (S t)) + g (n-1)%nat.
Proof.
  intros Hn H0. replace n with (S (n-1-1) + 1)%nat at 1 by lia. rewrite Rsum_app, Rsum_S_l, H0. cbn [Rsum].
  replace (S (n-1-1) + 0)%nat with (n-1)%nat by lia. ring.
Qed.
Lemma sum_ends2 n (g : nat -> R) : (3 <= n)%nat -> g O = 0 -> g 1%nat = 0 ->
  Rsum n g = Rsum (n-1-2) (fun t => g (S (S t))) + g (n-1)%nat.
Proof.
  intros Hn H0 H1. replace n with (S (S (n-1-2)) + 1)%nat at 1 by lia. rewrite Rsum_app, !Rsum_S_l, H0, H1. cbn [Rsum].
  replace (S (S (n-1-2)) + 0)%nat with (n-1)%nat by lia. ring.
Qed.

Lemma der1_extrema v n d i : (2 <= n)%nat -> INR n <= 500000 -> (i < n)%nat ->
  (forall j, (j < n)%nat -> v j = Rsum n (fun k => d k * T k (colloc_extrema n j))) ->
  exists D, derivative_ChebyshevExtrema_1st v n = Some D /\ D i = Rsum n (fun k => d k * (INR k * U' k (colloc_extrema n i))).
Proof.
  intros Hn Hb Hi Hv. unfold derivative_ChebyshevExtrema_1st.
  destruct (coeffs_extrema_series v n d Hn Hv) as (C & -> & HC). cbn [fbind]. eexists; split; [reflexivity|].
  cbv beta zeta. pose proof (good_extrema n i Hn Hb Hi) as G. set (x := colloc_extrema n i) in *.
  rewrite (sum_ends n (fun k => d k * (INR k * U' k x))); [|auto|change (INR 0) with 0; ring].
  rewrite <- Rsum_scal_r. f_equal.
  - apply Rsum_ext. intros t Ht. rewrite HC by lia. rewrite Cheb_Un_U' by auto. unfold wE.
    destruct (Nat.eqb_spec (S t) 0); [lia|]. destruct (Nat.eqb_spec (S t) (n-1)); [lia|]. cbn [orb]. field.
  - rewrite HC by lia. rewrite Cheb_Un_U' by auto. unfold wE. rewrite Nat.eqb_refl, orb_true_r. ring.
Qed.
Lemma der1_nodes v n d i : (1 <= n)%nat -> INR n <= 500000 -> (i < n)%nat ->
  (forall j, (j < n)%nat -> v j = Rsum n (fun k => d k * T k (colloc_nodes n j))) ->
  exists D, derivative_ChebyshevNodes_1st v n = Some D /\ D i = Rsum n (fun k => d k * (INR k * U' k (colloc_nodes n i))).
Proof.
  intros Hn Hb Hi Hv. unfold derivative_ChebyshevNodes_1st.
  destruct (coeffs_nodes_series v n d Hn Hv) as (C & -> & HC). cbn [fbind]. eexists; split; [reflexivity|].
  cbv beta zeta. pose proof (good_nodes n i Hn Hb Hi) as G. set (x := colloc_nodes n i) in *.
  replace n with (S (n-1)) at 2 by lia. rewrite Rsum_S_l. change (INR 0) with 0.
  rewrite <- Rsum_scal_r. rewrite Rmult_0_l, Rmult_0_r, Rplus_0_l.
  apply Rsum_ext. intros t Ht. rewrite HC by lia. rewrite Cheb_Un_U' by auto. unfold wN.
  destruct (Nat.eqb_spec (S t) 0); [lia|]. field.
Qed.
Lemma osum_ok n f g : (forall t, (t < n)%nat -> f t = Ok (g t)) -> osum n f = Ok (Rsum n g).
Proof. induction n; intros H; cbn [osum Rsum]; auto. rewrite IHn by (intros; apply H; lia). cbn [obind]. rewrite H by lia. reflexivity. Qed.
Lemma der2_extrema v n d i : (2 <= n <= 216)%nat -> (i < n)%nat ->
  (forall j, (j < n)%nat -> v j = Rsum n (fun k => d k * T k (colloc_extrema n j))) ->
  derivative_ChebyshevExtrema_2nd v n i = Ok (Some (Rsum n (fun k => d k * D2 k (colloc_extrema n i)))).
Proof.
  intros Hn Hi Hv. unfold derivative_ChebyshevExtrema_2nd.
  destruct (coeffs_extrema_series v n d (proj1 Hn) Hv) as (C & -> & HC).
  assert (Hb : INR n <= 500000) by (apply Rle_trans with (INR 216); [apply le_INR; lia|rewrite INR_IZR_INZ; apply IZR_le; lia]).
  pose proof (good_extrema n i (proj1 Hn) Hb Hi) as G. cbv zeta. set (x := colloc_extrema n i) in *.
  rewrite (osum_ok _ _ (fun t => C (S (S t)) * D2 (S (S t)) x)).
  2:{ intros t Ht. rewrite d2Cheb_ok; [reflexivity|auto|left; lia]. }
  cbn [obind]. rewrite d2Cheb_ok; [|auto|left; lia]. cbn [obind]. do 2 f_equal.
  destruct (Nat.eq_dec n 2) as [->|Hne].
  - cbn. change (D2 0 x) with 0. change (D2 1 x) with 0. ring.
  - rewrite (sum_ends2 n (fun k => d k * D2 k x)); [|lia|change (D2 0 x) with 0; ring|change (D2 1 x) with 0; ring].
    rewrite <- Rsum_scal_r. f_equal.
    + apply Rsum_ext. intros t Ht. rewrite HC by lia. unfold wE.
      destruct (Nat.eqb_spec (S (S t)) 0); [lia|]. destruct (Nat.eqb_spec (S (S t)) (n-1)); [lia|]. cbn [orb]. field.
    + rewrite HC by lia. unfold wE. rewrite Nat.eqb_refl, orb_true_r. ring.
Qed.
Lemma nodes_inner n i : (1 <= n)%nat -> (i < n)%nat -> colloc_nodes n i <> 1 /\ colloc_nodes n i <> -1.
Proof.
  intros Hn Hi. unfold colloc_nodes. pose proof PI_RGT_0.
  assert (Hr : 1 <= INR n) by (change 1 with (INR 1); apply le_INR; lia).
  assert (0 <= INR i) by apply pos_INR.
  assert (INR i + 1 <= INR n) by (rewrite <- S_INR; apply le_INR; lia).
  set (t := (INR i + /2) * (PI / INR n)).
  assert (P : 0 < PI / INR n) by (apply Rdiv_lt_0_compat; lra).
  assert (0 < t < PI).
  { unfold t. split; [nra|]. replace PI with (INR n * (PI / INR n)) at 2 by (field; lra). nra. }
  assert (A : 0 < sin t) by (apply sin_gt_0; lra).
  pose proof (sin2_cos2 t) as S2. unfold Rsqr in S2.
  split; intros E; rewrite E in S2; nra.
Qed.
Lemma der2_nodes v n d i : (1 <= n)%nat -> INR n <= 500000 -> (i < n)%nat ->
  (forall j, (j < n)%nat -> v j = Rsum n (fun k => d k * T k (colloc_nodes n j))) ->
  derivative_ChebyshevNodes_2nd v n i = Ok (Some (Rsum n (fun k => d k * D2 k (colloc_nodes n i)))).
Proof.
  intros Hn Hb Hi Hv. unfold derivative_ChebyshevNodes_2nd.
  destruct (coeffs_nodes_series v n d Hn Hv) as (C & -> & HC).
  pose proof (good_nodes n i Hn Hb Hi) as G. pose proof (nodes_inner n i Hn Hi) as In. cbv zeta. set (x := colloc_nodes n i) in *.
  rewrite (osum_ok _ _ (fun t => C (S (S t)) * D2 (S (S t)) x)).
  2:{ intros t Ht. rewrite d2Cheb_ok; [reflexivity|auto|right; auto]. }
  cbn [obind]. do 2 f_equal.
  destruct (Nat.eq_dec n 1) as [->|Hne].
  - cbn. change (D2 0 x) with 0. ring.
  - replace n with (S (S (n-2))) at 2 by lia. rewrite !Rsum_S_l. change (D2 0 x) with 0. change (D2 1 x) with 0.
    rewrite <- Rsum_scal_r. rewrite !Rmult_0_r, !Rplus_0_l.
    apply Rsum_ext. intros t Ht. rewrite HC by lia. unfold wN. destruct (Nat.eqb_spec (S (S t)) 0); [lia|]. field.
Qed.

(** ** in physical coordinates *)
Lemma poly_series mn mx n p : mn < mx -> (length p <= n)%nat ->
  exists d, (forall x, peval p ((mn-mx)/2 * x + (mn+mx)/2) = Rsum n (fun k => d k * T k x)) /\
            (forall y, peval p y = Rsum n (fun k => d k * T k (2/(mn-mx) * y + (- (mn+mx)/(mn-mx))))).
Proof.
  intros Hm Hl. destruct (inspan_mono _ n _ Hl (poly_span ((mn-mx)/2) ((mn+mx)/2) p)) as [d Hd]. exists d. split; auto.
  intros y. rewrite <- Hd. f_equal. field. lra.
Qed.
Lemma deriv1_extrema mn mx n v p i : (2 <= n)%nat -> INR n <= 500000 -> mn < mx -> (length p <= n)%nat -> (i < n)%nat ->
  (forall j, (j < n)%nat -> v j = peval p (point_extrema mn mx n j)) ->
  exists D, partial_derivative_extrema mn mx n v = Some D /\ derivable_pt_lim (peval p) (point_extrema mn mx n i) (D i).
Proof.
  intros Hn Hb Hm Hl Hi Hv. destruct (poly_series mn mx n p Hm Hl) as (d & Hd & He).
  destruct (der1_extrema v n d i Hn Hb Hi) as (D & HD & Di).
  { intros j Hj. rewrite Hv, point_colloc_extrema, Hd by auto. reflexivity. }
  unfold partial_derivative_extrema. rewrite HD. cbn [fbind]. eexists; split; [reflexivity|].
  cbv beta. rewrite Di. unfold dN_dX. replace (- mx + mn) with (mn - mx) by ring.
  eapply dlim_ext; [intros y; symmetry; apply He|].
  apply (dlim_affine (fun x => Rsum n (fun k => d k * T k x))).
  rewrite point_colloc_extrema by auto.
  replace (2 / (mn - mx) * ((mn - mx) / 2 * colloc_extrema n i + (mn + mx) / 2) + - (mn + mx) / (mn - mx)) with (colloc_extrema n i) by (field; lra).
  apply d1_series.
Qed.
Lemma deriv1_nodes mn mx n v p i : (1 <= n)%nat -> INR n <= 500000 -> mn < mx -> (length p <= n)%nat -> (i < n)%nat ->
  (forall j, (j < n)%nat -> v j = peval p (point_nodes mn mx n j)) ->
  exists D, partial_derivative_nodes mn mx n v = Some D /\ derivable_pt_lim (peval p) (point_nodes mn mx n i) (D i).
Proof.
  intros Hn Hb Hm Hl Hi Hv. destruct (poly_series mn mx n p Hm Hl) as (d & Hd & He).
  destruct (der1_nodes v n d i Hn Hb Hi) as (D & HD & Di).
  { intros j Hj. rewrite Hv, point_colloc_nodes, Hd by auto. reflexivity. }
  unfold partial_derivative_nodes. rewrite HD. cbn [fbind]. eexists; split; [reflexivity|].
  cbv beta. rewrite Di. unfold dN_dX. replace (- mx + mn) with (mn - mx) by ring.
  eapply dlim_ext; [intros y; symmetry; apply He|].
  apply (dlim_affine (fun x => Rsum n (fun k => d k * T k x))).
  rewrite point_colloc_nodes by auto.
  replace (2 / (mn - mx) * ((mn - mx) / 2 * colloc_nodes n i + (mn + mx) / 2) + - (mn + mx) / (mn - mx)) with (colloc_nodes n i) by (field; lra).
  apply d1_series.
Qed.
Lemma second_affine n d a b p y x : (forall y, peval p y = Rsum n (fun k => d k * T k (a * y + b))) -> a * y + b = x ->
  second_derivative_at (peval p) y (Rsum n (fun k => d k * D2 k x) * (a * a)).
Proof.
  intros He Hx. exists (fun y => a * Rsum n (fun k => d k * (INR k * U' k (a * y + b)))). split.
  - intros z. eapply dlim_ext; [intros; symmetry; apply He|]. rewrite Rmult_comm.
    apply (dlim_affine (fun x => Rsum n (fun k => d k * T k x))). apply d1_series.
  - replace (Rsum n (fun k => d k * D2 k x) * (a * a)) with (a * (Rsum n (fun k => d k * D2 k x) * a)) by ring.
    apply (derivable_pt_lim_scal (fun y => Rsum n (fun k => d k * (INR k * U' k (a * y + b))))).
    apply (dlim_affine (fun x => Rsum n (fun k => d k * (INR k * U' k x)))). rewrite Hx. apply d2_series.
Qed.
Lemma deriv2_extrema mn mx n v p i : (2 <= n <= 216)%nat -> mn < mx -> (length p <= n)%nat -> (i < n)%nat ->
  (forall j, (j < n)%nat -> v j = peval p (point_extrema mn mx n j)) ->
  exists d, partial_derivative2_extrema mn mx n v i = Ok (Some d) /\ second_derivative_at (peval p) (point_extrema mn mx n i) d.
Proof.
  intros Hn Hm Hl Hi Hv. destruct (poly_series mn mx n p Hm Hl) as (d & Hd & He).
  unfold partial_derivative2_extrema. rewrite (der2_extrema v n d i Hn Hi).
  2:{ intros j Hj. rewrite Hv, point_colloc_extrema, Hd by (auto; lia). reflexivity. }
  cbn [obind fbind]. eexists; split; [reflexivity|]. unfold dN_dX, Pow2. replace (- mx + mn) with (mn - mx) by ring.
  apply (second_affine n d (2/(mn-mx)) (- (mn+mx)/(mn-mx))); auto.
  rewrite point_colloc_extrema by lia. field; lra.
Qed.
Lemma deriv2_nodes mn mx n v p i : (1 <= n)%nat -> INR n <= 500000 -> mn < mx -> (length p <= n)%nat -> (i < n)%nat ->
  (forall j, (j < n)%nat -> v j = peval p (point_nodes mn mx n j)) ->
  exists d, partial_derivative2_nodes mn mx n v i = Ok (Some d) /\ second_derivative_at (peval p) (point_nodes mn mx n i) d.
Proof.
  intros Hn Hb Hm Hl Hi Hv. destruct (poly_series mn mx n p Hm Hl) as (d & Hd & He).
  unfold partial_derivative2_nodes. rewrite (der2_nodes v n d i Hn Hb Hi).
  2:{ intros j Hj. rewrite Hv, point_colloc_nodes, Hd by auto. reflexivity. }
  cbn [obind fbind]. eexists; split; [reflexivity|]. unfold dN_dX, Pow2. replace (- mx + mn) with (mn - mx) by ring.
  apply (second_affine n d (2/(mn-mx)) (- (mn+mx)/(mn-mx))); auto.
  rewrite point_colloc_nodes by lia. field; lra.
Qed.
(** the int overflow: 217 points or more, at both ends of the line *)
Lemma deriv2_overflow mn mx n v i : (217 <= n)%nat -> (i = 0 \/ i = n - 1)%nat ->
  partial_derivative2_extrema mn mx n v i = UB.
Proof.
  intros Hn Hi. unfold partial_derivative2_extrema, derivative_ChebyshevExtrema_2nd.
  destruct (coeffs_extrema v n) as (C & -> & _); [lia|]. cbv zeta.
  assert (Hr : 0 < INR (n-1)) by (apply lt_0_INR; lia).
  assert (O : forall z, (216 <= z)%Z -> in_int (z*z*(z*z-1)) = false /\ in_int (-z*z*(z*z-1)) = false).
  { intros z Hz. assert (216*216 <= z*z)%Z by nia. assert (2176735680 <= z*z*(z*z-1))%Z by nia.
    unfold in_int. split; apply andb_false_iff; [right|left]; apply Z.leb_gt; nia. }
  assert (X : exists c, (c = 1 \/ c = -1) /\ colloc_extrema n i = c).
  { unfold colloc_extrema. destruct Hi as [->| ->].
    - exists 1. split; auto. change (INR 0) with 0. rewrite Rmult_0_l. apply cos_0.
    - exists (-1). split; auto. replace (INR (n-1) * (PI / INR (n-1))) with PI by (field; lra). apply cos_PI. }
  destruct X as (c & Hc & ->).
  set (f := fun t => obind (d2Cheb_Tn_dx2 (Z.of_nat (S (S t))) c) (fun d => Ok (C (S (S t)) * d))).
  assert (Hall : forall z, (216 <= z)%Z -> d2Cheb_Tn_dx2 z c = UB).
  { intros z Hz. unfold d2Cheb_Tn_dx2. destruct (O z Hz) as [O1 O2].
    destruct (Z.eqb_spec z 0); [lia|]. destruct (Z.eqb_spec z 1); [lia|]. destruct (Z.eqb_spec z 2); [lia|]. cbn [orb].
    destruct Hc as [->| ->].
    - rewrite EQL_refl, O1. reflexivity.
    - rewrite EQL_m1_1, EQL_refl, O1, O2. destruct (Z.odd z); reflexivity. }
  rewrite (Hall (Z.of_nat (n-1))) by lia.
  assert (NA : forall m, osum m f = UB \/ exists s, osum m f = Ok s).
  { induction m; cbn [osum]; [right; eauto|]. destruct IHm as [->|[s ->]]; [left; reflexivity|]. cbn [obind].
    assert (F : f m = obind (d2Cheb_Tn_dx2 (Z.of_nat (S (S m))) c) (fun d => Ok (C (S (S m)) * d))) by reflexivity. rewrite F. clear F.
    assert (D : d2Cheb_Tn_dx2 (Z.of_nat (S (S m))) c = UB \/ exists s, d2Cheb_Tn_dx2 (Z.of_nat (S (S m))) c = Ok s).
    { unfold d2Cheb_Tn_dx2. repeat match goal with |- context [if ?b then _ else _] => destruct b end; eauto. }
    destruct D as [->|[t ->]]; cbn [obind]; eauto. }
  destruct (NA (n - 1 - 2)%nat) as [->|[s ->]]; reflexivity.
Qed.
