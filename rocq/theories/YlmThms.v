(** YlmThms.v - the statements of Props_Ylm.v without the auxiliary family of derivatives. *)
From Verif Require Import RealBase TrigSums SpectralSpec ChebProofs SpectralProofs SpectralDeriv PolyLib Spectral3Spec IntegrationProofs QuadProofs
  FourierSpec FourierModel FourierProofs FourierFinal Spectral3Model YlmSpec YlmModel LegendreProofs YlmProofs LegendreOrtho YlmFinal YlmTrans.
From Verif Require Base SpectralModel.
Import Base(outcome, Ok, Abort, UB, obind).
Open Scope R_scope.

Theorem index_maps :
  (forall L l m, (m <= l <= L)%nat -> (lm2n l m < Ncoeffs_Ylm L)%nat) /\
  (forall L n, (n < Ncoeffs_Ylm L)%nat -> exists l m, (m <= l <= L)%nat /\ lm2n l m = n) /\
  (forall l m l' m', (m <= l)%nat -> (m' <= l')%nat -> lm2n l m = lm2n l' m' -> l = l' /\ m = m').
Proof. exact (conj (fun L l m H => lm2n_range l m L H) (conj lm2n_onto lm2n_inj)). Qed.
Theorem index_maps_full :
  (forall l m lmax, (Z.abs m <= l <= lmax)%Z -> exists n, lm2n_Ylm l m lmax = Ok n /\ (0 <= n < (lmax + 1) * (lmax + 1))%Z /\ n2lm_Ylm n lmax = (l, m)) /\
  (forall n lmax, (0 <= lmax)%Z -> (0 <= n < (lmax + 1) * (lmax + 1))%Z -> exists l m, n2lm_Ylm n lmax = (l, m) /\ (Z.abs m <= l <= lmax)%Z /\ lm2n_Ylm l m lmax = Ok n) /\
  (forall l m lmax, (l < Z.abs m)%Z -> lm2n_Ylm l m lmax = Abort).
Proof.
  split; [exact lm2n_Ylm_inv|]. split.
  - intros n lmax H0 H. exists (fst (n2lm_Ylm n lmax)), (snd (n2lm_Ylm n lmax)). split; [apply surjective_pairing|]. exact (n2lm_Ylm_inv n lmax H0 H).
  - intros l m lmax H. unfold lm2n_Ylm. destruct (Z.leb_spec (Z.abs m) l); [lia|reflexivity].
Qed.
Lemma fn_P q P : family q -> legendre_functions P -> forall l m x, P l m x = YlmProofs.P q l m x.
Proof. intros Hq HP l m x. apply (P_legendre q Hq). apply HP. Qed.
Theorem legendre_ex : exists P, legendre_functions P.
Proof. destruct family_ex as (q & Hq). exists (YlmProofs.P q). intros l m x. apply (P_legendre q Hq). reflexivity. Qed.
Theorem legendre_unique l m x v w : is_legendre l m x v -> is_legendre l m x w -> v = w.
Proof. destruct family_ex as (q & Hq). intros H1 H2. apply (P_legendre q Hq) in H1. apply (P_legendre q Hq) in H2. congruence. Qed.
Theorem legendre_thm :
  (forall l m x, (m <= l)%nat -> -1 <= x <= 1 -> exists v, associated_legendre l m x = Ok v /\ is_legendre l m x v) /\
  (forall l m x, (l < m)%nat \/ x < -1 \/ 1 < x -> associated_legendre l m x = Abort).
Proof.
  destruct family_ex as (q & Hq). split.
  - intros l m x H1 H2. eexists. split; [apply (assoc_ok q Hq); assumption|]. apply (P_legendre q Hq). reflexivity.
  - intros l m x H. unfold associated_legendre. destruct (ltR_spec 1 x), (ltR_spec x (-1)); cbn [orb]; try reflexivity. destruct (Nat.ltb_spec l m); [reflexivity|]. destruct H as [H|[H|H]]; [lia|lra|lra].
Qed.
Theorem dlegendre_thm : forall l m, (Z.of_nat l <= 46340)%Z -> (m <= l)%nat -> exists F, legendre_angle l m F /\
  forall t, 0 <= t <= PI -> exists v, d_associated_legendre_dtheta l m (cos t) = Ok v /\ derivable_pt_lim F t v.
Proof.
  destruct family_ex as (q & Hq). intros l m Hs Hm. exists (Pth q l m). split.
  - intros t Ht. apply (P_legendre q Hq). rewrite P_theta by exact Ht. reflexivity.
  - intros t Ht. eexists. split; [apply (dtheta_ok q Hq); assumption|]. apply Pth_deriv. exact Hq.
Qed.
Theorem dlegendre_overflow : forall l x, (46340 < Z.of_nat l)%Z -> d_associated_legendre_dtheta l 0 x = UB.
Proof.
  intros l x H. unfold d_associated_legendre_dtheta. cbv zeta. destruct (Nat.eqb_spec l 0) as [->|N]; [cbn in H; lia|]. destruct (Nat.eqb_spec 0 l); [lia|].
  cbn [Nat.eqb]. unfold int_ at 1. replace (SpectralModel.in_int _) with false; [reflexivity|]. symmetry. unfold SpectralModel.in_int. apply Bool.andb_false_iff. right. apply Z.leb_gt.
  change (Z.of_nat 0) with 0%Z. nia.
Qed.
Theorem ylm_thm :
  (forall l m theta phi v, (m <= l)%nat -> 0 <= theta <= PI -> 0 <= phi <= 2 * PI -> is_legendre l m (cos theta) v ->
     Ylm l (Z.of_nat m) theta phi = Ok (ylm_norm l m * v * cos (INR m * phi), ylm_norm l m * v * sin (INR m * phi)) /\
     Ylm l (- Z.of_nat m) theta phi = Ok ((-1) ^ m * (ylm_norm l m * v * cos (INR m * phi)), - ((-1) ^ m * (ylm_norm l m * v * sin (INR m * phi))))) /\
  (forall l m theta phi, (Z.of_nat l < Z.abs m)%Z \/ theta < 0 \/ PI < theta \/ phi < 0 \/ 2 * PI < phi -> Ylm l m theta phi = Abort).
Proof.
  destruct family_ex as (q & Hq). split.
  - intros l m theta phi v Hm Ht Hp Hv. apply (P_legendre q Hq) in Hv. subst v. rewrite (Ylm_pos q Hq), (Ylm_neg q Hq) by assumption. unfold uY, cscal, conj_, cexpi. cbn [fst snd].
    rewrite sgn2_pow. split; [reflexivity|]. f_equal. f_equal; ring.
  - intros l m theta phi H. unfold Ylm, bad_angles. destruct (ltR_spec PI theta); [reflexivity|]. destruct (ltR_spec theta 0); [reflexivity|]. destruct (ltR_spec (2 * PI) phi); [reflexivity|].
    destruct (ltR_spec phi 0); [reflexivity|]. cbn [orb]. destruct H as [H|H]; [|exfalso; lra]. rewrite (proj2 legendre_thm) by (left; lia). reflexivity.
Qed.
(** derivatives of the harmonics *)
Theorem dylm_thm :
  (forall l m theta phi y, Ylm l m theta phi = Ok y -> dYlm_dphi l m theta phi = Ok (cmul (0, IZR m) y)) /\
  (forall l m phi F, (Z.of_nat l <= 46340)%Z -> (m <= l)%nat -> 0 <= phi <= 2 * PI -> legendre_angle l m F -> forall t d, 0 < t < PI -> derivable_pt_lim F t d ->
     dYlm_dtheta l (Z.of_nat m) t phi = Ok (ylm_norm l m * d * cos (INR m * phi), ylm_norm l m * d * sin (INR m * phi)) /\
     dYlm_dtheta l (- Z.of_nat m) t phi = Ok ((-1) ^ m * (ylm_norm l m * d * cos (INR m * phi)), - ((-1) ^ m * (ylm_norm l m * d * sin (INR m * phi))))).
Proof.
  destruct family_ex as (q & Hq). split.
  - intros l m theta phi y H. unfold dYlm_dphi. rewrite H. reflexivity.
  - intros l m phi F Hs Hm Hp HF t d Ht Hd.
    assert (E : d = dPth q l m t).
    { apply (uniqueness_limite F t); [exact Hd|]. apply (CubedJac.dlim_ext (Pth q l m)); [apply Pth_deriv; exact Hq|].
      exists (Rmin t (PI - t)). split; [apply Rmin_pos; lra|]. intros u Hu. pose proof (Rmin_l t (PI - t)). pose proof (Rmin_r t (PI - t)). apply Rabs_def2 in Hu.
      rewrite <- P_theta by lra. apply (P_legendre q Hq). apply HF. lra. }
    subst d. rewrite (dth_pos q Hq), (dth_neg q Hq) by (lra || assumption). unfold udth, cscal, conj_, cexpi. cbn [fst snd]. rewrite sgn2_pow. split; [reflexivity|]. f_equal. f_equal; ring.
Qed.
Lemma harmonic_ext L a b P Q phi : (forall l m, P l m = Q l m) -> harmonic L a b P phi = harmonic L a b Q phi.
Proof. intros H. unfold harmonic. apply sum_ext2. intros l. rewrite H. f_equal. apply sum_ext2. intros k. rewrite H. reflexivity. Qed.
Theorem interp_thm : forall P, legendre_functions P -> forall re im L theta phi, 0 <= theta <= PI -> 0 <= phi <= 2 * PI ->
  interpolation_Ylm re im L theta phi = Ok (harmonic L (fun l m => re (lm2n l m)) (fun l m => im (lm2n l m)) (fun l m => P l m (cos theta)) phi).
Proof.
  destruct family_ex as (q & Hq). intros P HP re im L theta phi Ht Hp. rewrite (interp_ok q Hq) by assumption. f_equal. unfold Hm. apply harmonic_ext. intros l m. symmetry. apply fn_P; assumption.
Qed.
Theorem tables_thm : forall P, legendre_functions P -> forall tab re im Nt Np L i j, (Nt < 100)%nat -> (i < Nt)%nat -> (j < Np)%nat -> -1 < tab i < 1 ->
  let F theta phi := harmonic L (fun l m => re (lm2n l m)) (fun l m => im (lm2n l m)) (fun l m => P l m (cos theta)) phi in
  let theta := acos (- tab i) in let phi := 2 * PI * INR j / INR Np in
  (exists v, df_dphi_Ylm tab re im Nt Np L i j = Ok v /\ derivable_pt_lim (F theta) phi v) /\
  ((Z.of_nat L <= 46340)%Z -> exists v, df_dtheta_Ylm tab re im Nt Np L i j = Ok v /\ derivable_pt_lim (fun t => F t phi) theta v).
Proof.
  destruct family_ex as (q & Hq). intros P HP tab re im Nt Np L i j HN Hi Hj Hx F theta phi.
  assert (EP : phi = INR j * 2 * PI / INR Np) by (unfold phi; field; apply not_0_INR; lia).
  assert (EF : forall t u, F t u = Hm q L (fun l m => re (lm2n l m)) (fun l m => im (lm2n l m)) t u) by (intros; unfold F, Hm; apply harmonic_ext; intros; apply fn_P; assumption).
  split.
  - destruct (dphi_table q Hq tab re im Nt Np L i j HN Hi Hj Hx) as (v & E & D). exists v. split; [exact E|]. rewrite EP. refine (derivable_pt_lim_ext _ _ _ _ _ D). intros t. symmetry. apply EF.
  - intros HL. destruct (dth_table q Hq tab re im Nt Np L i j HL HN Hi Hj Hx) as (v & E & D). exists v. split; [exact E|]. rewrite EP. refine (derivable_pt_lim_ext _ _ _ _ _ D). intros t. symmetry. apply EF.
Qed.
(** ** quadrature and coefficients *)
Lemma zeros_p q n x : family q -> legendre_zeros n x -> forall i, (i < n)%nat -> LegendreProofs.p q n 0 (x i) = 0 /\ -1 < x i < 1.
Proof.
  intros Hq [H _] i Hi. destruct (H i Hi) as [H1 H2]. split; [|exact H2]. apply (P_legendre q Hq) in H1. unfold YlmProofs.P in H1. cbn [pow] in H1. lra.
Qed.
Theorem gauss_thm : forall n x, (1 <= n)%nat -> (Z.of_nat n <= 46340)%Z -> legendre_zeros n x -> exists w,
  (forall i, (i < n)%nat -> Legendre_weight_function (x i) n = Ok (w i)) /\
  (forall c, (length c <= 2 * n)%nat -> integral_is (peval c) (-1) 1 (Rsum n (fun i => w i * peval c (x i)))) /\
  (forall f, (n <= 6)%nat -> GaussQuadrature_Legendre w n f = Ok (Rsum n (fun i => w i * f i))).
Proof.
  destruct family_ex as (q & Hq). intros n x H1 H2 HZ. pose proof (zeros_p q n x Hq HZ) as HZ'. exists (gl_weight q n x). split; [|split].
  - intros i Hi. apply weight_ok; try assumption. intros; apply HZ'; assumption.
  - intros c Hc. apply gauss_legendre; try assumption; [intros; apply HZ'; assumption|intros; apply HZ'; assumption|apply HZ|]. apply ispoly_peval. exact Hc.
  - intros f Hn. apply quad_small. exact Hn.
Qed.
Theorem coeffs_thm : forall P, legendre_functions P -> forall tab f a b L Nt Np A, legendre_zeros Nt tab -> (L < Nt <= 6)%nat -> (2 * L < Np)%nat ->
  (forall l, b l O = 0) ->
  (forall i j, (i < Nt)%nat -> (j < Np)%nat -> f (j + i * Np)%nat = harmonic L a b (fun l m => P l m (cos (acos (- tab i)))) (2 * PI * INR j / INR Np)) ->
  exists re im, get_Ylm_coeffs tab f Nt Np L A = Ok (re, im) /\
    (forall l m, (m <= l <= L)%nat -> re (lm2n l m) = a l m /\ im (lm2n l m) = b l m) /\
    (forall k, (Ncoeffs_Ylm L <= k)%nat -> re k = fst A k /\ im k = snd A k) /\
    (forall theta phi, 0 <= theta <= PI -> 0 <= phi <= 2 * PI -> interpolation_Ylm re im L theta phi = Ok (harmonic L a b (fun l m => P l m (cos theta)) phi)).
Proof.
  destruct family_ex as (q & Hq). intros P HP tab f a b L Nt Np A HZ HL HN Hb Hf. pose proof (zeros_p q Nt tab Hq HZ) as HZ'.
  destruct (coeffs_ok q Hq tab f a b L Nt Np A HZ' (proj2 HZ) HL HN) as ((re, im) & E & H1 & H2).
  - intros i j Hi Hj. rewrite Hf by assumption. replace (INR j * 2 * PI / INR Np) with (2 * PI * INR j / INR Np) by (field; apply not_0_INR; lia).
    apply harmonic_ext. intros l m. destruct (HZ' i Hi) as [_ B]. rewrite cos_acos by lra. apply fn_P; assumption.
  - exists re, im. split; [exact E|]. cbn [fst snd] in H1, H2.
    assert (H1' : forall l m, (m <= l <= L)%nat -> re (lm2n l m) = a l m /\ im (lm2n l m) = b l m).
    { intros l m H. destruct (H1 l m H) as [-> ->]. split; [reflexivity|]. destruct m; [symmetry; apply Hb|reflexivity]. }
    split; [exact H1'|]. split; [exact H2|]. intros theta phi Ht Hp. rewrite (interp_thm P HP) by assumption. f_equal. unfold harmonic. apply Rsum_ext. intros l Hl.
    destruct (H1' l O) as [-> _]; [lia|]. f_equal. apply Rsum_ext. intros k Hk. destruct (H1' l (S k)) as [-> ->]; [lia|]. reflexivity.
Qed.
Theorem coeffs_undefined : forall tab f L Nt Np A, (7 <= Nt < 100)%nat -> (forall i, (i < Nt)%nat -> -1 < tab i < 1) -> get_Ylm_coeffs tab f Nt Np L A = UB.
Proof. destruct family_ex as (q & Hq). exact (coeffs_ub q Hq). Qed.
(** the sums the program would form, without the overflow, for every number of theta points *)
Theorem sums_thm : forall P, legendre_functions P -> forall tab f a b L Nt Np l m, legendre_zeros Nt tab -> (L < Nt)%nat -> (Z.of_nat Nt <= 46340)%Z -> (2 * L < Np)%nat ->
  (forall i j, (i < Nt)%nat -> (j < Np)%nat -> f (j + i * Np)%nat = harmonic L a b (fun l m => P l m (cos (acos (- tab i)))) (2 * PI * INR j / INR Np)) ->
  (m <= l <= L)%nat -> (forall l, b l O = 0) ->
  exists w vr vi, (forall i, (i < Nt)%nat -> Legendre_weight_function (tab i) Nt = Ok (w i)) /\
    (forall i, (i < Nt)%nat -> fYlm fst f (fun i => acos (- tab i)) Np l m i = Ok (vr i) /\ fYlm snd f (fun i => acos (- tab i)) Np l m i = Ok (vi i)) /\
    Rsum Nt (fun i => w i * vr i) = a l m /\ Rsum Nt (fun i => w i * vi i) = b l m.
Proof.
  destruct family_ex as (q & Hq). intros P HP tab f a b L Nt Np l m HZ HL HS HN Hf Hlm Hb. pose proof (zeros_p q Nt tab Hq HZ) as HZ'.
  destruct (sums_ok q Hq tab f a b L Nt Np l m HZ' (proj2 HZ) HL HN) as (vr & vi & H1 & H2 & H3); [|exact Hlm|].
  - intros i j Hi Hj. rewrite Hf by assumption. replace (INR j * 2 * PI / INR Np) with (2 * PI * INR j / INR Np) by (field; apply not_0_INR; lia).
    apply harmonic_ext. intros l' m'. destruct (HZ' i Hi) as [_ B]. rewrite cos_acos by lra. apply fn_P; assumption.
  - exists (gl_weight q Nt tab), vr, vi. split; [intros i Hi; apply weight_ok; try assumption; try lia; intros; apply HZ'; assumption|]. split; [exact H1|]. split; [exact H2|]. rewrite H3. destruct m; [symmetry; apply Hb|reflexivity].
Qed.

(** ** examples *)
Lemma leg2 x v : -1 <= x <= 1 -> (is_legendre 2 0 x v <-> v = (3 * (x * x) - 1) / 2).
Proof.
  intros Hx. destruct (proj1 legendre_thm 2 0 x)%nat as (u & E & H); [lia|exact Hx|].
  assert (U : u = (3 * (x * x) - 1) / 2).
  { unfold associated_legendre in E. destruct (ltR_spec 1 x); [lra|]. destruct (ltR_spec x (-1)); [lra|]. cbn in E. injection E as <-. field. }
  subst u. split; [intros H'; exact (legendre_unique _ _ _ _ _ H' H)|intros ->; exact H].
Qed.
Definition tab2 (i : nat) : R := match i with O => - / sqrt 3 | _ => / sqrt 3 end.
Lemma tab2_zeros : legendre_zeros 2 tab2.
Proof.
  assert (S3 : 1 < sqrt 3) by (rewrite <- sqrt_1; apply sqrt_lt_1; lra). assert (Q : sqrt 3 * sqrt 3 = 3) by (apply sqrt_sqrt; lra).
  assert (I1 : 0 < / sqrt 3) by (apply Rinv_0_lt_compat; lra). assert (I2 : / sqrt 3 * / sqrt 3 = 1 / 3) by (rewrite <- Q at 3; field; lra).
  split.
  - assert (B : forall i, -1 < tab2 i < 1) by (intros [|i]; cbn; nra). assert (V : forall i, tab2 i * tab2 i = 1 / 3) by (intros [|i]; cbn; [rewrite <- I2; ring|exact I2]).
    intros i Hi. split; [|apply B]. pose proof (B i). apply leg2; [lra|]. rewrite V. field.
  - intros i j Hi Hj. destruct i as [|[|i]], j as [|[|j]]; try lia; cbn; intros; lra.
Qed.
Example ex_coef : legendre_zeros 2 tab2 /\ (1 < 2 <= 6)%nat /\ (2 * 1 < 3)%nat.
Proof. split; [exact tab2_zeros|lia]. Qed.
Example ex_index : lm2n 2 1 = 4%nat /\ Ncoeffs_Ylm 2 = 6%nat /\ lm2n_Ylm 2 (-1) 3 = Ok 9%Z /\ n2lm_Ylm 9 3 = (2, -1)%Z.
Proof. repeat split. Qed.
Example ex_leg : associated_legendre 2 1 (3 / 5) = Ok (- (9 / 5) * (4 / 5)) /\ is_legendre 2 0 (1 / 2) (- 1 / 8).
Proof.
  split.
  - unfold associated_legendre. destruct (ltR_spec 1 (3 / 5)); [lra|]. destruct (ltR_spec (3 / 5) (-1)); [lra|]. cbn [orb Nat.ltb Nat.leb]. f_equal. cbn.
    replace ((1 - 3 / 5) * (1 + 3 / 5)) with (4 / 5 * (4 / 5)) by field. rewrite sqrt_square by lra. field.
  - apply leg2; [lra|field].
Qed.
Example ex_coef2 : exists f re im, get_Ylm_coeffs tab2 f 2 3 1 (fun _ => 0, fun _ => 0) = Ok (re, im) /\ re (lm2n 1 1) = 3 /\ im (lm2n 1 1) = 2 /\ re (lm2n 1 0) = 5.
Proof.
  destruct legendre_ex as (P & HP). set (a := fun l m => match l, m with 1%nat, 1%nat => 3 | 1%nat, _ => 5 | _, _ => 0 end). set (b := fun l m => match l, m with 1%nat, 1%nat => 2 | _, _ => 0 end).
  exists (fun k => harmonic 1 a b (fun l m => P l m (cos (acos (- tab2 (k / 3))))) (2 * PI * INR (k mod 3) / INR 3)).
  destruct (coeffs_thm P HP tab2 (fun k => harmonic 1 a b (fun l m => P l m (cos (acos (- tab2 (k / 3))))) (2 * PI * INR (k mod 3) / INR 3)) a b 1 2 3 (fun _ => 0, fun _ => 0) tab2_zeros ltac:(lia) ltac:(lia)) as (re & im & E & H & _).
  - intros [|[|l]]; reflexivity.
  - intros i j Hi Hj. cbv beta. rewrite Nat.div_add, Nat.mod_add, Nat.div_small, Nat.mod_small by lia. reflexivity.
  - exists re, im. split; [exact E|]. destruct (H 1 1)%nat as [-> ->]; [lia|]. destruct (H 1 0)%nat as [-> _]; [lia|]. repeat split.
Qed.
Theorem roots_thm : forall tab i N, Legendre_root_function tab i N = if (Nat.ltb N 100 && Nat.ltb i N)%bool then Ok (tab i) else Abort.
Proof. intros tab i N. unfold Legendre_root_function. destruct (Nat.leb_spec 100 N), (Nat.ltb_spec N 100), (Nat.leb_spec N i), (Nat.ltb_spec i N); try lia; reflexivity. Qed.
