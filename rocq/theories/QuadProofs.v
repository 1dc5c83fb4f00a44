(** QuadProofs.v - quadrature rules on a line, and the spectral filter. *)
From Verif Require Import RealBase TrigSums SpectralModel SpectralSpec ChebProofs SpectralProofs SpectralDeriv Spectral3Model Spectral3Spec Spectral3Proofs IntegrationProofs.
From Verif Require Base IndexModel IndexProofs.
Import Base(outcome, Ok, Abort, UB, obind).
Open Scope R_scope.

(** ** Simpson *)
Lemma mod2_even q : ((2 * q) mod 2 = 0)%nat. Proof. rewrite Nat.mul_comm. apply Nat.mod_mul; lia. Qed.
Lemma mod2_odd q : ((2 * q + 1) mod 2 = 1)%nat. Proof. rewrite Nat.add_comm, Nat.mul_comm. rewrite Nat.mod_add by lia. reflexivity. Qed.
Lemma panels m (f : nat -> R) : (1 <= m)%nat ->
  f O + f (2*m)%nat + 2 * Rsum (2*m-1) (fun t => if Nat.eqb ((S t) mod 2) 0 then f (S t) else 0)
   + 4 * Rsum (2*m-1) (fun t => if Nat.eqb ((S t) mod 2) 0 then 0 else f (S t)) =
  Rsum m (fun q => f (2*q)%nat + 4 * f (2*q+1)%nat + f (2*q+2)%nat).
Proof.
  induction m; intros H; [lia|]. destruct m as [|m]. { cbn. ring. }
  set (k := S m) in *. assert (Hk : (1 <= k)%nat) by (subst k; lia). specialize (IHm Hk).
  change (Rsum (S k) (fun q => f (2*q)%nat + 4 * f (2*q+1)%nat + f (2*q+2)%nat)) with (Rsum k (fun q => f (2*q)%nat + 4 * f (2*q+1)%nat + f (2*q+2)%nat) + (f (2*k)%nat + 4 * f (2*k+1)%nat + f (2*k+2)%nat)).
  rewrite <- IHm. replace (2 * S k - 1)%nat with (S (S (2*k-1))) by lia. cbn [Rsum].
  replace (S (2*k-1)) with (2*k)%nat by lia. replace (S (2 * k)) with (2*k+1)%nat by lia.
  rewrite mod2_even, mod2_odd. cbn [Nat.eqb]. replace (2 * S k)%nat with (2*k+2)%nat by lia. ring.
Qed.
Definition cubicI (p : list R) (x : R) : R := Rsum (length p) (fun i => nth i p 0 * powI i x).
Lemma d_cubicI p x : derivable_pt_lim (cubicI p) x (peval p x).
Proof. rewrite peval_sum. apply (dlim_sum (length p) (fun i x => nth i p 0 * powI i x) (fun a => nth a p 0 * x ^ a)). intros. apply derivable_pt_lim_scal, d_powI. Qed.
Lemma panel_exact p x h : (length p <= 4)%nat ->
  h / 3 * (peval p x + 4 * peval p (x + h) + peval p (x + 2*h)) = cubicI p (x + 2*h) - cubicI p x.
Proof.
  intros Hl. unfold cubicI. destruct p as [|c0 [|c1 [|c2 [|c3 [|? ?]]]]]; cbn [length] in Hl; try lia; cbn [length Rsum nth peval]; unfold powI; cbn [pow INR]; field.
Qed.
Theorem simpson_exact a b n f p : Nat.odd n = true -> (3 <= n)%nat -> (length p <= 4)%nat ->
  (forall j, (j < n)%nat -> f j = peval p (a + INR j * ((b - a) / INR (n-1)))) ->
  exists V, Composite_Simpson_1D a b n f = Ok (Some V) /\ integral_is (peval p) a b V.
Proof.
  intros Ho Hn Hl Hf. apply Nat.odd_spec in Ho. destruct Ho as [m ->]. assert (Hm : (1 <= m)%nat) by lia.
  unfold Composite_Simpson_1D. rewrite mod2_odd. cbn [Nat.eqb negb].
  replace (2*m+1-1)%nat with (2*m)%nat in * by lia. replace (2*m+1-2)%nat with (2*m-1)%nat by lia.
  assert (Hr : INR (2*m) <> 0) by (apply not_0_INR; lia). rewrite fdiv_some by auto. cbn [fbind].
  eexists; split; [reflexivity|]. exists (cubicI p). split; [apply d_cubicI|].
  rewrite panels by auto. set (h := (b-a)/INR (2*m)) in *.
  replace b with (a + INR (2*m) * h) by (subst h; field; auto).
  replace (cubicI p a) with (cubicI p (a + INR (2*0) * h)) by (f_equal; cbn; ring).
  assert (P : forall q, (q <= m)%nat -> h * Rsum q (fun q => f (2*q)%nat + 4 * f (2*q+1)%nat + f (2*q+2)%nat) / 3 = cubicI p (a + INR (2*q) * h) - cubicI p (a + INR (2*0) * h)).
  { induction q; intros Hq. { cbn [Rsum]. rewrite Rmult_0_r. unfold Rdiv. rewrite Rmult_0_l. ring. }
    cbn [Rsum]. specialize (IHq ltac:(lia)).
    transitivity (h * Rsum q (fun q => f (2*q)%nat + 4 * f (2*q+1)%nat + f (2*q+2)%nat) / 3 + h / 3 * (f (2*q)%nat + 4 * f (2*q+1)%nat + f (2*q+2)%nat)). { field. }
    rewrite IHq. rewrite !Hf by lia.
    pose proof (panel_exact p (a + INR (2*q) * h) h Hl) as E.
    replace (a + INR (2*q+1) * h) with (a + INR (2*q) * h + h) by (rewrite plus_INR; cbn [INR]; ring).
    replace (a + INR (2*q+2) * h) with (a + INR (2*q) * h + 2*h) by (rewrite (plus_INR (2*q) 2); cbn [INR]; ring).
    replace (a + INR (2 * S q) * h) with (a + INR (2*q) * h + 2*h) by (replace (2 * S q)%nat with (2*q+2)%nat by lia; rewrite (plus_INR (2*q) 2); cbn [INR]; ring).
    rewrite E. ring. }
  apply P; auto.
Qed.
Lemma simpson_bad a b n f : Nat.even n = true -> Composite_Simpson_1D a b n f = Abort.
Proof. intros He. apply Nat.even_spec in He. destruct He as [q ->]. unfold Composite_Simpson_1D. rewrite mod2_even. reflexivity. Qed.
Lemma simpson_one a b f : Composite_Simpson_1D a b 1 f = Ok None.
Proof. unfold Composite_Simpson_1D. cbn [Nat.modulo Nat.eqb negb Nat.sub INR]. cbn. rewrite fdiv_none. reflexivity. Qed.

(** ** Gauss-Chebyshev *)
Lemma gauss_sum_W n f : (2 <= n)%nat -> GQ_ChebyshevExtrema_sum n f = PI / INR (n-1) * W (n-1) f.
Proof. intros. unfold GQ_ChebyshevExtrema_sum, W. replace (n-1-1)%nat with (n-2)%nat by lia. field. apply not_0_INR; lia. Qed.
Definition cosI (k : nat) (t : R) : R := match k with O => t | _ => sin (INR k * t) * / INR k end.
Lemma d_cosI k t : derivable_pt_lim (cosI k) t (cos (INR k * t)).
Proof.
  destruct k. { change (INR 0) with 0. rewrite Rmult_0_l, cos_0. apply derivable_pt_lim_id. }
  assert (Hk : INR (S k) <> 0) by (apply not_0_INR; lia).
  apply (dlim_ext (fun y => / INR (S k) * sin (INR (S k) * y + 0))). { intros y. unfold cosI. rewrite Rplus_0_r. ring. }
  replace (cos (INR (S k) * t)) with (/ INR (S k) * (cos (INR (S k) * t + 0) * INR (S k))) by (rewrite Rplus_0_r; field; auto).
  apply (derivable_pt_lim_scal (fun y => sin (INR (S k) * y + 0))). apply dlim_affine. apply derivable_pt_lim_sin.
Qed.
Theorem gauss_exact n f p : (2 <= n)%nat -> (length p <= 2*n-2)%nat ->
  (forall j, (j < n)%nat -> f j = peval p (- cos (INR j * PI / INR (n-1)))) ->
  integral_is (fun t => peval p (cos t)) 0 PI (GQ_ChebyshevExtrema_sum n f).
Proof.
  intros Hn Hl Hf. assert (Hr : INR (n-1) <> 0) by (apply not_0_INR; lia).
  destruct (inspan_mono _ (2*n-2) _ Hl (poly_span 1 0 p)) as [d Hd].
  assert (Hd' : forall x, peval p x = Rsum (2*n-2) (fun k => d k * T k x)). { intros x. rewrite <- Hd. f_equal. ring. }
  exists (fun t => Rsum (2*n-2) (fun k => d k * cosI k t)). split.
  - intros t. rewrite Hd'. apply (dlim_sum (2*n-2) (fun k t => d k * cosI k t)). intros k _. rewrite T_cos. apply derivable_pt_lim_scal, d_cosI.
  - rewrite gauss_sum_W by auto.
    assert (TP : forall n y, T n (-y) = SIGN n * T n y).
    { intros m y. revert m. apply two_step. - rewrite !T_0; unfold SIGN; cbn; ring. - rewrite !T_1; unfold SIGN; cbn; ring.
      - intros m H H1. rewrite !T_SS, H, H1, !SIGN_S. ring. }
    rewrite (W_ext _ _ (fun j => Rsum (2*n-2) (fun k => (d k * SIGN k) * cos (INR j * (INR k * PI / INR (n-1)))))).
    2:{ intros j Hj. rewrite Hf by lia. rewrite Hd'. apply Rsum_ext. intros k _. rewrite TP, T_cos. rewrite (Rmult_comm (d k) (SIGN k)), Rmult_assoc, (Rmult_comm (SIGN k)), <- Rmult_assoc.
        replace (INR k * (INR j * PI / INR (n-1))) with (INR j * (INR k * PI / INR (n-1))) by (field; auto). ring. }
    rewrite W_Rsum. rewrite <- Rsum_minus.
    rewrite (Rsum_single (2*n-2) O); [|lia|].
    + rewrite (Rsum_single (2*n-2) O); [|lia|].
      * unfold cosI. rewrite W_scal.
        rewrite (W_ext _ _ (fun k => 1)). 2:{ intros j _. change (INR 0) with 0. replace (INR j * (0 * PI / INR (n-1))) with 0 by (field; auto). apply cos_0. }
        assert (EW : W (n-1) (fun _ => 1) = INR (n-1)). { unfold W. rewrite Rsum_const. rewrite (minus_INR (n-1) 1) by lia. cbn [INR]. lra. }
        rewrite EW. unfold SIGN; cbn [Nat.even]. field. auto.
      * intros k Hk Hne. destruct k; [lia|]. unfold cosI. rewrite Rmult_0_r, sin_0, sin_INR_PI. ring.
    + intros k Hk Hne. rewrite W_scal. rewrite W_cos; [ring|lia|]. apply sin_pos_nz. lia.
Qed.
Lemma fact_ok n : (n <= 12)%nat -> Factorial_nat n = Ok (zfact n).
Proof. intros H. do 13 (destruct n as [|n]; [vm_compute; reflexivity|]). lia. Qed.
Lemma fact_ub n : (13 <= n)%nat -> Factorial_nat n = UB.
Proof.
  intros H. induction n; [lia|]. destruct (Nat.eq_dec n 12) as [->|].
  - vm_compute. reflexivity.
  - cbn [Factorial_nat]. rewrite IHn by lia. reflexivity.
Qed.
Lemma Factorial_ok n : (n <= 12)%nat -> Factorial (Z.of_nat n) = Ok (zfact n).
Proof. intros. unfold Factorial. destruct (Z.ltb_spec (Z.of_nat n) 0); [lia|]. rewrite Nat2Z.id. apply fact_ok; auto. Qed.
Lemma Factorial_ub n : (13 <= n)%nat -> Factorial (Z.of_nat n) = UB.
Proof. intros. unfold Factorial. destruct (Z.ltb_spec (Z.of_nat n) 0); [lia|]. rewrite Nat2Z.id. apply fact_ub; auto. Qed.
Theorem gauss_small n f p : (2 <= n <= 6)%nat -> (length p <= 2*n-2)%nat ->
  (forall j, (j < n)%nat -> f j = peval p (- cos (INR j * PI / INR (n-1)))) ->
  exists V, GaussQuadrature_ChebyshevExtrema n f = Ok V /\ integral_is (fun t => peval p (cos t)) 0 PI V.
Proof.
  intros Hn Hl Hf. unfold GaussQuadrature_ChebyshevExtrema. replace (2 * Z.of_nat n)%Z with (Z.of_nat (2*n)) by lia.
  rewrite Factorial_ok by lia. cbn [obind]. eexists; split; [reflexivity|]. apply gauss_exact; auto; lia.
Qed.
Theorem gauss_overflow :
  (forall n f, (7 <= n)%nat -> GaussQuadrature_ChebyshevExtrema n f = UB) /\
  (forall w n f, (8 <= n)%nat -> GaussQuadrature_Lobatto w n f = UB) /\
  (forall w n f, (7 <= n)%nat -> GaussQuadrature_Legendre w n f = UB).
Proof.
  repeat split; intros; unfold GaussQuadrature_ChebyshevExtrema, GaussQuadrature_Lobatto, GaussQuadrature_Legendre.
  - replace (2 * Z.of_nat n)%Z with (Z.of_nat (2*n)) by lia. rewrite Factorial_ub by lia. reflexivity.
  - replace (2 * Z.of_nat n - 2)%Z with (Z.of_nat (2*n-2)) by lia. rewrite Factorial_ub by lia. reflexivity.
  - replace (2 * Z.of_nat n)%Z with (Z.of_nat (2*n)) by lia. rewrite Factorial_ub by lia. reflexivity.
Qed.

(** ** the spectral filter *)
Lemma chebT_T n x : chebT n x = T n x.
Proof. revert n. apply two_step; [reflexivity|reflexivity|]. intros n H H1. rewrite T_SS, <- H, <- H1. reflexivity. Qed.
Lemma erfclog_0 erfc p : erfclog erfc 0 p = 1.
Proof. unfold erfclog. destruct (ltR_spec 0 ROUND_OFF_ERR) as [|N]; auto. pose proof ROE_pos; lra. Qed.
Lemma erfclog_1 erfc p : erfclog erfc 1 p = 0.
Proof.
  unfold erfclog. pose proof ROE_pos. assert (ROUND_OFF_ERR < 1) by (unfold ROUND_OFF_ERR; lra).
  destruct (ltR_spec 1 ROUND_OFF_ERR) as [|N]; [lra|]. destruct (ltR_spec (1 - ROUND_OFF_ERR) 1); auto. lra.
Qed.
Lemma erfclog_range erfc p th : (forall x, 0 <= erfc x <= 2) -> 0 <= erfclog erfc th p <= 1.
Proof.
  intros H. unfold erfclog. destruct (ltR th ROUND_OFF_ERR); [lra|]. destruct (ltR _ th); [lra|]. destruct (ltR _ _); [lra|].
  match goal with |- context [erfc ?e] => pose proof (H e) end. lra.
Qed.
Lemma th_first n : th_of n 0 = 0. Proof. unfold th_of. change (INR 0) with 0. unfold Rdiv. ring. Qed.
Lemma th_last n : (2 <= n)%nat -> th_of n (n-1) = 1.
Proof. intros. unfold th_of. rewrite minus_INR by lia. cbn [INR]. field. assert (1 < INR n) by (apply (lt_INR 1); lia). lra. Qed.
Lemma FT_T n a i : (2 <= n)%nat -> (a < n)%nat -> (i < n)%nat -> FT n (fun t => T a (colloc_extrema n t)) i = if Nat.eqb a i then wE n i else 0.
Proof.
  intros Hn Ha Hi. unfold FT.
  destruct (coeffs_extrema_series (fun t => T a (colloc_extrema n t)) n (fun k => if Nat.eqb k a then 1 else 0) Hn) as (C & -> & HC).
  { intros j Hj. rewrite (Rsum_single n a); auto. rewrite Nat.eqb_refl; ring. intros k _ Hk. destruct (Nat.eqb_spec k a); [lia|ring]. }
  rewrite HC by auto. destruct (Nat.eqb_spec i a), (Nat.eqb_spec a i); try lia; ring.
Qed.
Lemma comb_T n i x : good x -> T_cheb_combined n i x = T i x * (if ((i =? 0) || (i =? n-1))%nat then 1 else 2).
Proof.
  intros G. unfold T_cheb_combined. rewrite !Cheb_Tn_T by auto. destruct (Nat.eqb_spec i 0) as [->|]. rewrite T_0; cbn [orb]; ring.
  destruct (Nat.eqb_spec i (n-1)); cbn [orb]; ring.
Qed.
Lemma wE_inv n i : wE n i * (if ((i =? 0) || (i =? n-1))%nat then 1 else 2) = 1.
Proof. unfold wE. destruct ((i =? 0) || (i =? n-1))%nat; field. Qed.
Definition cx b i := colloc_extrema (n0 b) i.
Definition cy b i := colloc_extrema (n1 b) i.
Definition cz b i := colloc_extrema (n2 b) i.
Definition series (b : box) (d : nat -> nat -> nat -> R) (x y z : R) : R :=
  Rsum (n0 b) (fun i => Rsum (n1 b) (fun j => Rsum (n2 b) (fun k => d i j k * chebT i x * chebT j y * chebT k z))).
Definition small (b : box) : Prop := INR (n0 b) <= 500000 /\ INR (n1 b) <= 500000 /\ INR (n2 b) <= 500000.
Lemma delta3 n0 n1 n2 (d : nat -> nat -> nat -> R) i j k : (i < n0)%nat -> (j < n1)%nat -> (k < n2)%nat -> forall u v w,
  Rsum n0 (fun a => Rsum n1 (fun c => Rsum n2 (fun e => d a c e * (if Nat.eqb a i then u else 0) * (if Nat.eqb c j then v else 0) * (if Nat.eqb e k then w else 0)))) = d i j k * u * v * w.
Proof.
  intros Hi Hj Hk u v w. rewrite (Rsum_single n0 i); auto.
  - rewrite (Rsum_single n1 j); auto.
    + rewrite (Rsum_single n2 k); auto. rewrite !Nat.eqb_refl; reflexivity.
      intros e _ He. destruct (Nat.eqb_spec e k); [lia|ring].
    + intros c _ Hc. apply Rsum_zero. intros. destruct (Nat.eqb_spec c j); [lia|ring].
  - intros a _ Ha. apply Rsum_zero. intros. apply Rsum_zero. intros. destruct (Nat.eqb_spec a i); [lia|ring].
Qed.
Lemma coeffs_of_series b v d : well b ->
  (forall i j k, (i < n0 b)%nat -> (j < n1 b)%nat -> (k < n2 b)%nat -> v (at_ b i j k) = series b d (cx b i) (cy b j) (cz b k)) ->
  exists C, make_coeffs_3d b v = Ok (Some C) /\ forall i j k, (i < n0 b)%nat -> (j < n1 b)%nat -> (k < n2 b)%nat ->
    C (at_ b i j k) = d i j k * wE (n0 b) i * wE (n1 b) j * wE (n2 b) k.
Proof.
  intros (N0 & N1 & N2 & _) Hv.
  destruct (coeffs_3d_tensor b N0 N1 N2 v (n0 b) (n1 b) (n2 b) d (fun a t => T a (cx b t)) (fun a t => T a (cy b t)) (fun a t => T a (cz b t))) as (C & E & HC).
  { intros i j k Hi Hj Hk. rewrite Hv by auto. unfold series. apply Rsum_ext; intros. apply Rsum_ext; intros. apply Rsum_ext; intros. rewrite !chebT_T. reflexivity. }
  exists C; split; auto. intros i j k Hi Hj Hk. rewrite HC by auto.
  rewrite <- (delta3 (n0 b) (n1 b) (n2 b) d i j k Hi Hj Hk).
  apply Rsum_ext; intros a Ha. apply Rsum_ext; intros c Hc. apply Rsum_ext; intros e He. unfold cx, cy, cz. rewrite !FT_T by auto. reflexivity.
Qed.
Lemma G2C mn mx n i : mn < mx -> (2 <= n)%nat -> INR n <= 500000 -> (i < n)%nat ->
  General2ChebyshevExtrema mn mx (point_extrema mn mx n i) = colloc_extrema n i.
Proof.
  intros Hm Hn Hs Hi. pose proof (good_extrema n i Hn Hs Hi) as G. rewrite point_colloc_extrema by auto. unfold General2ChebyshevExtrema.
  replace ((((mn - mx) / 2 * colloc_extrema n i + (mn + mx) / 2) * 2 - (mx + mn)) / (- mx + mn)) with (colloc_extrema n i) by (field; lra).
  destruct (good_cases _ G) as [->|[->|(E1 & E2 & _)]].
  - rewrite EQL_refl. reflexivity.
  - rewrite EQL_m1_1, EQL_refl. reflexivity.
  - rewrite E1, E2. reflexivity.
Qed.
Theorem filter_series erfc p b v d : well b -> small b ->
  (forall i j k, (i < n0 b)%nat -> (j < n1 b)%nat -> (k < n2 b)%nat -> v (at_ b i j k) = series b d (cx b i) (cy b j) (cz b k)) ->
  exists w, filter_erfclog erfc p b v = Ok (Some w) /\
  forall i j k, (i < n0 b)%nat -> (j < n1 b)%nat -> (k < n2 b)%nat ->
    w i j k = series b (fun a c e => d a c e * (erfclog erfc (th_of (n0 b) a) p * erfclog erfc (th_of (n1 b) c) p * erfclog erfc (th_of (n2 b) e) p)) (cx b i) (cy b j) (cz b k).
Proof.
  intros Hw (S0 & S1 & S2) Hv. destruct (coeffs_of_series b v d Hw Hv) as (C & E & HC). destruct Hw as (N0 & N1 & N2 & M0 & M1 & M2).
  unfold filter_erfclog. rewrite E. cbn [obind]. eexists; split; [reflexivity|].
  intros i j k Hi Hj Hk. cbv beta zeta. rewrite !G2C by auto. fold (cx b i) (cy b j) (cz b k). unfold series.
  apply Rsum_ext; intros a Ha. apply Rsum_ext; intros c Hc. apply Rsum_ext; intros e He.
  unfold filtered_coeffs. rewrite HC by auto. unfold Tx, Ty, Tz.
  rewrite !comb_T by (apply good_extrema; auto). rewrite !chebT_T.
  pose proof (wE_inv (n0 b) a) as W0. pose proof (wE_inv (n1 b) c) as W1. pose proof (wE_inv (n2 b) e) as W2.
  set (u0 := if ((a =? 0) || (a =? n0 b - 1))%nat then 1 else 2) in *. set (u1 := if ((c =? 0) || (c =? n1 b - 1))%nat then 1 else 2) in *.
  set (u2 := if ((e =? 0) || (e =? n2 b - 1))%nat then 1 else 2) in *.
  set (f := erfclog erfc (th_of (n0 b) a) p * erfclog erfc (th_of (n1 b) c) p * erfclog erfc (th_of (n2 b) e) p).
  transitivity (d a c e * f * T a (cx b i) * T c (cy b j) * T e (cz b k) * (wE (n0 b) a * u0) * (wE (n1 b) c * u1) * (wE (n2 b) e * u2)). ring.
  rewrite W0, W1, W2. ring.
Qed.
Theorem series_exists b v : well b -> exists d, forall i j k, (i < n0 b)%nat -> (j < n1 b)%nat -> (k < n2 b)%nat -> v (at_ b i j k) = series b d (cx b i) (cy b j) (cz b k).
Proof.
  intros Hw. destruct (takes_exists b v Hw) as [a Ha]. destruct Hw as (N0 & N1 & N2 & M0 & M1 & M2).
  assert (X : forall mn mx n, mn < mx -> exists e : nat -> nat -> R, forall q x, (q < n)%nat -> ((mn-mx)/2 * x + (mn+mx)/2) ^ q = Rsum n (fun k => e q k * T k x)).
  { intros mn mx n Hm. destruct (finite_choice (fun q e => forall x, ((mn-mx)/2 * x + (mn+mx)/2) ^ q = Rsum n (fun k => e k * T k x)) (fun _ : nat => 0) n) as [f Hf].
    - intros q Hq. destruct (poly_series mn mx n (mono q) Hm) as (d & Hd & _). rewrite mono_len; lia. exists d. intros x. rewrite <- mono_eval. apply Hd.
    - exists f. intros q x Hq. apply Hf; auto. }
  destruct (X _ _ (n0 b) M0) as [e0 E0]. destruct (X _ _ (n1 b) M1) as [e1 E1]. destruct (X _ _ (n2 b) M2) as [e2 E2].
  exists (fun i j k => Rsum (n0 b) (fun q => Rsum (n1 b) (fun r => Rsum (n2 b) (fun s => a q r s * e0 q i * e1 r j * e2 s k)))).
  intros i j k Hi Hj Hk. rewrite Ha by auto. unfold peval3, px, py, pz. rewrite !point_colloc_extrema by auto. unfold series.
  etransitivity; [|symmetry; etransitivity; [|apply (weighted_3d (n0 b) (n1 b) (n2 b) (n0 b) (n1 b) (n2 b) a e0 e1 e2 (fun t => T t (cx b i)) (fun t => T t (cy b j)) (fun t => T t (cz b k)))]].
  - apply Rsum_ext; intros q Hq. apply Rsum_ext; intros r Hr. apply Rsum_ext; intros s Hs. rewrite E0, E1, E2 by auto. reflexivity.
  - apply Rsum_ext; intros q Hq. apply Rsum_ext; intros r Hr. apply Rsum_ext; intros s Hs. rewrite !chebT_T. reflexivity.
Qed.
