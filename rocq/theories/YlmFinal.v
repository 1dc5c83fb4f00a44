(** YlmFinal.v - the transform, interpolation and derivatives in spherical harmonics. *)
From Verif Require Import RealBase TrigSums SpectralSpec ChebProofs SpectralProofs SpectralDeriv PolyLib Spectral3Spec IntegrationProofs
  FourierSpec FourierModel FourierProofs FourierFinal Spectral3Model YlmSpec YlmModel LegendreProofs YlmProofs LegendreOrtho.
From Verif Require Base.
From Verif Require CubedJac.
Import Base(outcome, Ok, Abort, UB, obind).
Open Scope R_scope.

(** ** index maps *)
Lemma tri2 l : (2 * (l * (l + 1) / 2) = l * (l + 1))%nat.
Proof.
  assert (E : exists k, (l * (l + 1) = 2 * k)%nat).
  { induction l as [|l (k & H)]; [exists O; reflexivity|]. exists (k + S l)%nat. nia. }
  destruct E as (k & E). rewrite E, (Nat.mul_comm 2 k), Nat.div_mul by lia. lia.
Qed.
Lemma tri_mono a b : (a < b)%nat -> (a * (a + 1) / 2 + a < b * (b + 1) / 2)%nat.
Proof. intros H. pose proof (tri2 a). pose proof (tri2 b). nia. Qed.
Lemma lm2n_inj l m l' m' : (m <= l)%nat -> (m' <= l')%nat -> lm2n l m = lm2n l' m' -> l = l' /\ m = m'.
Proof.
  unfold lm2n. intros H1 H2 E. destruct (Nat.lt_trichotomy l l') as [L|[->|L]].
  - pose proof (tri_mono l l' L). lia.
  - lia.
  - pose proof (tri_mono l' l L). lia.
Qed.
Lemma lm2n_range l m L : (m <= l <= L)%nat -> (lm2n l m < Ncoeffs_Ylm L)%nat.
Proof.
  unfold lm2n, Ncoeffs_Ylm. intros H. rewrite (Nat.mul_comm (L + 1) L). pose proof (tri2 L). pose proof (tri2 l). nia.
Qed.
Lemma lm2n_onto L n : (n < Ncoeffs_Ylm L)%nat -> exists l m, (m <= l <= L)%nat /\ lm2n l m = n.
Proof.
  unfold Ncoeffs_Ylm. rewrite (Nat.mul_comm (L + 1) L). induction L; intros H.
  - exists O, O. cbn in *. split; [lia|]. unfold lm2n. cbn. lia.
  - destruct (Nat.lt_ge_cases n (L * (L + 1) / 2 + L + 1)) as [C|C].
    + destruct (IHL C) as (l & m & H1 & H2). exists l, m. split; [lia|exact H2].
    + exists (S L), (n - S L * (S L + 1) / 2)%nat. pose proof (tri2 L). pose proof (tri2 (S L)). unfold lm2n. split; nia.
Qed.
Lemma lm2n_Ylm_inv l m lmax : (Z.abs m <= l <= lmax)%Z -> exists n, lm2n_Ylm l m lmax = Ok n /\ (0 <= n < (lmax + 1) * (lmax + 1))%Z /\ n2lm_Ylm n lmax = (l, m).
Proof.
  intros H. unfold lm2n_Ylm. destruct (Z.leb_spec (Z.abs m) l); [|lia]. eexists. split; [reflexivity|].
  set (i := (if (0 <=? m)%Z then lmax - l else lmax - l - m)%Z). set (j := (if (m <=? 0)%Z then lmax - l else lmax - l + m)%Z).
  assert (Hi : (0 <= i <= lmax)%Z) by (unfold i; destruct (Z.leb_spec 0 m); lia).
  assert (Hj : (0 <= j <= lmax)%Z) by (unfold j; destruct (Z.leb_spec m 0); lia).
  split; [nia|]. unfold n2lm_Ylm.
  assert (R1 : Z.rem (j + (lmax + 1) * i) (lmax + 1) = j).
  { rewrite Z.rem_mod_nonneg by nia. rewrite Z.mul_comm, Z.mod_add by lia. apply Z.mod_small. lia. }
  rewrite R1. replace (j + (lmax + 1) * i - j)%Z with (i * (lmax + 1))%Z by ring. rewrite Z.quot_mul by lia.
  unfold i, j. destruct (Z.leb_spec 0 m), (Z.leb_spec m 0); f_equal; try lia; match goal with |- context [(0 <=? ?e)%Z] => destruct (Z.leb_spec 0 e); lia end.
Qed.
Lemma n2lm_Ylm_inv n lmax : (0 <= lmax)%Z -> (0 <= n < (lmax + 1) * (lmax + 1))%Z -> let lm := n2lm_Ylm n lmax in
  (Z.abs (snd lm) <= fst lm <= lmax)%Z /\ lm2n_Ylm (fst lm) (snd lm) lmax = Ok n.
Proof.
  intros H0 H. unfold n2lm_Ylm. cbv zeta. set (j := Z.rem n (lmax + 1)).
  assert (Hj : (0 <= j <= lmax)%Z). { unfold j. rewrite Z.rem_mod_nonneg by lia. pose proof (Z.mod_pos_bound n (lmax + 1)). lia. }
  assert (E : exists i, (0 <= i <= lmax)%Z /\ n = (j + (lmax + 1) * i)%Z).
  { exists (n / (lmax + 1))%Z. unfold j. rewrite Z.rem_mod_nonneg by lia. split; [|pose proof (Z.div_mod n (lmax + 1)); lia].
    split; [apply Z.div_pos; lia|]. assert (n / (lmax + 1) < lmax + 1)%Z by (apply Z.div_lt_upper_bound; lia). lia. }
  destruct E as (i & Hi & E). replace (Z.quot (n - j) (lmax + 1)) with i by (rewrite E; replace (j + (lmax + 1) * i - j)%Z with (i * (lmax + 1))%Z by ring; rewrite Z.quot_mul by lia; reflexivity).
  cbn [fst snd]. unfold lm2n_Ylm.
  destruct (Z.leb_spec 0 (j - i)); split; try lia.
  - destruct (Z.leb_spec (Z.abs (j - i)) (lmax - i)); [|lia]. destruct (Z.leb_spec (j - i) 0); f_equal; rewrite E; nia.
  - destruct (Z.leb_spec (Z.abs (j - i)) (lmax - j)); [|lia]. destruct (Z.leb_spec (j - i) 0); f_equal; rewrite E; nia.
Qed.

(** ** arrays of outcomes *)
Lemma oarray_ok n f v : (forall i, (i < n)%nat -> f i = Ok (v i)) -> exists a, oarray n f = Ok a /\ forall i, (i < n)%nat -> a i = v i.
Proof.
  induction n; intros H; cbn [oarray].
  - exists (fun _ => 0). split; [reflexivity|]. intros; lia.
  - destruct IHn as (a & E & Ha); [intros; apply H; lia|]. rewrite E, H by lia. cbn [obind]. eexists. split; [reflexivity|].
    intros i Hi. cbv beta. destruct (Nat.eqb_spec i n) as [->|N]; [reflexivity|]. apply Ha. lia.
Qed.
Definition conj_ (z : Cx) : Cx := (fst z, - snd z).
Lemma osum_ok n f v : (forall i, (i < n)%nat -> f i = Ok (v i)) -> osum n f = Ok (csum n v).
Proof. induction n; intros H; cbn [osum csum]; [reflexivity|]. rewrite IHn, H by (intros; try apply H; lia). reflexivity. Qed.
Lemma sgn2_sq m : sgn2 m * sgn2 m = 1.
Proof. unfold sgn2. destruct (Nat.even m); ring. Qed.
Lemma sgn2_pow m : sgn2 m = (-1) ^ m.
Proof.
  unfold sgn2. induction m; [reflexivity|]. cbn [pow]. rewrite <- IHm, Nat.even_succ, <- Nat.negb_even. destruct (Nat.even m); cbn [negb]; ring.
Qed.
(** the double sum over (l,m) *)
Lemma series_ok Y zero re im L u :
  (forall l m, (m <= l <= L)%nat -> Y l (Z.of_nat m) = Ok (u l m)) ->
  (forall l m, (m <= l <= L)%nat -> Y l (- Z.of_nat m)%Z = Ok (cscal (sgn2 m) (conj_ (u l m)))) ->
  series Y zero re im L = Ok (Rsum (S L) (fun l => (if zero then re (lm2n l 0) * fst (u l O) - im (lm2n l 0) * snd (u l O) else 0) +
     Rsum l (fun k => 2 * (re (lm2n l (S k)) * fst (u l (S k)) - im (lm2n l (S k)) * snd (u l (S k)))))).
Proof.
  intros H1 H2. unfold series.
  rewrite (osum_ok (S L) _ (fun l => cadd (csum l (fun k => cadd (cmul (re (lm2n l (S k)), im (lm2n l (S k))) (u l (S k)))
      (cmul (cscal (sgn2 (S k)) (re (lm2n l (S k)), - im (lm2n l (S k)))) (cscal (sgn2 (S k)) (conj_ (u l (S k)))))))
      (if zero then cmul (re (lm2n l 0), im (lm2n l 0)) (u l O) else (0, 0)))).
  - cbn [obind]. f_equal. rewrite csum_val. cbn [fst]. apply Rsum_ext. intros l Hl. rewrite csum_val. cbn [cadd fst].
    rewrite Rplus_comm. f_equal; [destruct zero; reflexivity|]. apply Rsum_ext. intros k Hk. cbn [cadd cmul cscal conj_ fst snd].
    pose proof (sgn2_sq (S k)) as S1. set (s := sgn2 (S k)) in *.
    transitivity (re (lm2n l (S k)) * fst (u l (S k)) - im (lm2n l (S k)) * snd (u l (S k)) + (s * s) * (re (lm2n l (S k)) * fst (u l (S k)) - im (lm2n l (S k)) * snd (u l (S k)))); [ring|rewrite S1; ring].
  - intros l Hl. rewrite (osum_ok l _ (fun k => cadd (cmul (re (lm2n l (S k)), im (lm2n l (S k))) (u l (S k)))
      (cmul (cscal (sgn2 (S k)) (re (lm2n l (S k)), - im (lm2n l (S k)))) (cscal (sgn2 (S k)) (conj_ (u l (S k))))))).
    + cbn [obind]. destruct zero; [assert (H0 : Y l 0%Z = Ok (u l O)) by (apply (H1 l O); lia); rewrite H0; reflexivity|]. f_equal. unfold cadd. cbn [fst snd]. rewrite !Rplus_0_r. apply surjective_pairing.
    + intros k Hk. cbv zeta. rewrite H1, H2 by lia. reflexivity.
Qed.

Section Q.
Variable q : nat -> nat -> R -> R.
Hypothesis Hq : family q.
Local Notation P := (YlmProofs.P q).
Definition uY (l m : nat) (theta phi : R) : Cx := cscal (ylm_norm l m * P l m (cos theta)) (cexpi (INR m * phi)).
Lemma good_angles theta phi : 0 <= theta <= PI -> 0 <= phi <= 2 * PI -> bad_angles theta phi = false.
Proof.
  intros H1 H2. unfold bad_angles. destruct (ltR_spec PI theta); [lra|]. destruct (ltR_spec theta 0); [lra|]. destruct (ltR_spec (2 * PI) phi); [lra|]. destruct (ltR_spec phi 0); [lra|]. reflexivity.
Qed.
Lemma abs_pos m : Z.abs_nat (Z.of_nat m) = m. Proof. apply Zabs2Nat.id. Qed.
Lemma abs_neg m : Z.abs_nat (- Z.of_nat m) = m. Proof. lia. Qed.
Lemma Ylm_pos l m theta phi : (m <= l)%nat -> 0 <= theta <= PI -> 0 <= phi <= 2 * PI -> Ylm l (Z.of_nat m) theta phi = Ok (uY l m theta phi).
Proof.
  intros Hm Ht Hp. unfold Ylm. rewrite good_angles, abs_pos by assumption. rewrite (assoc_ok q Hq) by (try assumption; apply COS_bound). cbn [obind]. cbv zeta.
  replace (0 <=? Z.of_nat m)%Z with true by (symmetry; apply Z.leb_le; lia). rewrite factor_norm by assumption. unfold uY. rewrite INR_IZR_INZ. reflexivity.
Qed.
Lemma Ylm_neg l m theta phi : (m <= l)%nat -> 0 <= theta <= PI -> 0 <= phi <= 2 * PI -> Ylm l (- Z.of_nat m) theta phi = Ok (cscal (sgn2 m) (conj_ (uY l m theta phi))).
Proof.
  intros Hm Ht Hp. destruct m as [|m].
  - change (- Z.of_nat 0)%Z with (Z.of_nat 0). rewrite Ylm_pos by assumption. f_equal. unfold uY, cscal, conj_, cexpi, sgn2. cbn [Nat.even fst snd INR]. rewrite Rmult_0_l, sin_0. f_equal; ring.
  - unfold Ylm. rewrite good_angles, abs_neg by assumption. rewrite (assoc_ok q Hq) by (try assumption; apply COS_bound). cbn [obind]. cbv zeta.
    replace (0 <=? - Z.of_nat (S m))%Z with false by (symmetry; apply Z.leb_gt; lia). rewrite factor_norm by assumption. unfold uY, cscal, conj_, cexpi. cbn [fst snd].
    rewrite opp_IZR, <- INR_IZR_INZ, Ropp_mult_distr_l_reverse, cos_neg, sin_neg. f_equal. f_equal; ring.
Qed.
Definition udphi (l m : nat) (theta phi : R) : Cx := cmul (0, INR m) (uY l m theta phi).
Lemma dphi_pos l m theta phi : (m <= l)%nat -> 0 <= theta <= PI -> 0 <= phi <= 2 * PI -> dYlm_dphi l (Z.of_nat m) theta phi = Ok (udphi l m theta phi).
Proof. intros. unfold dYlm_dphi. rewrite Ylm_pos by assumption. cbn [obind]. rewrite <- INR_IZR_INZ. reflexivity. Qed.
Lemma dphi_neg l m theta phi : (m <= l)%nat -> 0 <= theta <= PI -> 0 <= phi <= 2 * PI -> dYlm_dphi l (- Z.of_nat m) theta phi = Ok (cscal (sgn2 m) (conj_ (udphi l m theta phi))).
Proof.
  intros. unfold dYlm_dphi. rewrite Ylm_neg by assumption. cbn [obind]. rewrite opp_IZR, <- INR_IZR_INZ. unfold udphi, cmul, cscal, conj_. cbn [fst snd]. f_equal. f_equal; ring.
Qed.
Definition udth (l m : nat) (theta phi : R) : Cx := cscal (ylm_norm l m * dPth q l m theta) (cexpi (INR m * phi)).
Lemma dth_pos l m theta phi : small l -> (m <= l)%nat -> 0 <= theta <= PI -> 0 <= phi <= 2 * PI -> dYlm_dtheta l (Z.of_nat m) theta phi = Ok (udth l m theta phi).
Proof.
  intros Hs Hm Ht Hp. unfold dYlm_dtheta. rewrite good_angles, abs_pos by assumption. rewrite (dtheta_ok q Hq) by assumption. cbn [obind]. cbv zeta.
  replace (0 <=? Z.of_nat m)%Z with true by (symmetry; apply Z.leb_le; lia). rewrite factor_norm by assumption. unfold udth. rewrite INR_IZR_INZ. reflexivity.
Qed.
Lemma dth_neg l m theta phi : small l -> (m <= l)%nat -> 0 <= theta <= PI -> 0 <= phi <= 2 * PI -> dYlm_dtheta l (- Z.of_nat m) theta phi = Ok (cscal (sgn2 m) (conj_ (udth l m theta phi))).
Proof.
  intros Hs Hm Ht Hp. destruct m as [|m].
  - change (- Z.of_nat 0)%Z with (Z.of_nat 0). rewrite dth_pos by assumption. f_equal. unfold udth, cscal, conj_, cexpi, sgn2. cbn [Nat.even fst snd INR]. rewrite Rmult_0_l, sin_0. f_equal; ring.
  - unfold dYlm_dtheta. rewrite good_angles, abs_neg by assumption. rewrite (dtheta_ok q Hq) by assumption. cbn [obind]. cbv zeta.
    replace (0 <=? - Z.of_nat (S m))%Z with false by (symmetry; apply Z.leb_gt; lia). rewrite factor_norm by assumption. unfold udth, cscal, conj_, cexpi. cbn [fst snd].
    rewrite opp_IZR, <- INR_IZR_INZ, Ropp_mult_distr_l_reverse, cos_neg, sin_neg. f_equal. f_equal; ring.
Qed.
(** ** interpolation *)
Definition Hm (L : nat) (a b : nat -> nat -> R) (theta phi : R) : R := harmonic L a b (fun l m => P l m (cos theta)) phi.
Lemma interp_ok re im L theta phi : 0 <= theta <= PI -> 0 <= phi <= 2 * PI ->
  interpolation_Ylm re im L theta phi = Ok (Hm L (fun l m => re (lm2n l m)) (fun l m => im (lm2n l m)) theta phi).
Proof.
  intros Ht Hp. unfold interpolation_Ylm. rewrite (series_ok _ true re im L (fun l m => uY l m theta phi)).
  - f_equal. unfold Hm, harmonic. apply sum_ext2. intros l. unfold uY, cscal, cexpi. cbn [fst snd INR]. rewrite Rmult_0_l, sin_0, cos_0. f_equal; [ring|].
    apply sum_ext2. intros k. ring.
  - intros l m Hlm. apply Ylm_pos; try assumption; lia.
  - intros l m Hlm. apply Ylm_neg; try assumption; lia.
Qed.
Lemma node_theta x : -1 < x < 1 -> 0 < acos (- x) < PI /\ cos (acos (- x)) = - x.
Proof. intros H. split; [apply acos_bound_lt; lra|apply cos_acos; lra]. Qed.
Lemma node_phi Np j : (j < Np)%nat -> 0 <= INR j * 2 * PI / INR Np <= 2 * PI.
Proof.
  intros H. pose proof PI_RGT_0. assert (0 < INR Np) by (apply lt_0_INR; lia). pose proof (pos_INR j). assert (INR j < INR Np) by (apply lt_INR; exact H). split.
  - apply Rmult_le_pos; [|left; apply Rinv_0_lt_compat; lra]. nra.
  - apply Rmult_le_reg_r with (INR Np); [lra|]. unfold Rdiv. rewrite Rmult_assoc, Rinv_l by lra. nra.
Qed.
Lemma dphi_table tab re im Nt Np L i j : (Nt < 100)%nat -> (i < Nt)%nat -> (j < Np)%nat -> -1 < tab i < 1 ->
  exists v, df_dphi_Ylm tab re im Nt Np L i j = Ok v /\
    derivable_pt_lim (Hm L (fun l m => re (lm2n l m)) (fun l m => im (lm2n l m)) (acos (- tab i))) (INR j * 2 * PI / INR Np) v.
Proof.
  intros HN Hi Hj Hx. destruct (node_theta _ Hx) as [[T1 T2] _]. pose proof (node_phi Np j Hj) as HP. set (phi := INR j * 2 * PI / INR Np) in *. set (theta := acos (- tab i)) in *.
  unfold df_dphi_Ylm, Legendre_root_function. destruct (Nat.leb_spec 100 Nt); [lia|]. destruct (Nat.leb_spec Nt i); [lia|]. cbn [obind]. fold phi theta.
  eexists. split.
  - apply (series_ok _ false re im L (fun l m => udphi l m theta phi)); intros l m Hlm; [apply dphi_pos|apply dphi_neg]; lra || lia.
  - unfold Hm, harmonic. apply Rsum_deriv. intros l Hl.
    apply (derivable_pt_lim_plus (fun _ => _)); [apply derivable_pt_lim_const|]. apply Rsum_deriv. intros k Hk.
    apply (derivable_pt_lim_ext (fun t => (2 * re (lm2n l (S k)) * ylm_norm l (S k) * P l (S k) (cos theta)) * cos (INR (S k) * t) + (- 2 * im (lm2n l (S k)) * ylm_norm l (S k) * P l (S k) (cos theta)) * sin (INR (S k) * t))); [intros; ring|].
    match goal with |- derivable_pt_lim _ _ ?v => replace v with ((2 * re (lm2n l (S k)) * ylm_norm l (S k) * P l (S k) (cos theta)) * (- INR (S k) * sin (INR (S k) * phi)) + (- 2 * im (lm2n l (S k)) * ylm_norm l (S k) * P l (S k) (cos theta)) * (INR (S k) * cos (INR (S k) * phi))) end.
    + apply lin2_deriv; apply trig_deriv.
    + unfold udphi, uY, cmul, cscal, cexpi. cbn [fst snd]. ring.
Qed.
Lemma dth_table tab re im Nt Np L i j : small L -> (Nt < 100)%nat -> (i < Nt)%nat -> (j < Np)%nat -> -1 < tab i < 1 ->
  exists v, df_dtheta_Ylm tab re im Nt Np L i j = Ok v /\
    derivable_pt_lim (fun t => Hm L (fun l m => re (lm2n l m)) (fun l m => im (lm2n l m)) t (INR j * 2 * PI / INR Np)) (acos (- tab i)) v.
Proof.
  intros HL HN Hi Hj Hx. destruct (node_theta _ Hx) as [[T1 T2] _]. pose proof (node_phi Np j Hj) as HP. set (phi := INR j * 2 * PI / INR Np) in *. set (theta := acos (- tab i)) in *.
  unfold df_dtheta_Ylm, Legendre_root_function. destruct (Nat.leb_spec 100 Nt); [lia|]. destruct (Nat.leb_spec Nt i); [lia|]. cbn [obind]. fold phi theta.
  eexists. split.
  - apply (series_ok _ true re im L (fun l m => udth l m theta phi)); intros l m Hlm; [apply dth_pos|apply dth_neg]; try lra; try lia; unfold small in *; lia.
  - assert (D : forall l m c, derivable_pt_lim (fun t => c * P l m (cos t)) theta (c * dPth q l m theta)).
    { intros l m c. apply (derivable_pt_lim_scal (fun t => P l m (cos t))). apply (CubedJac.dlim_ext (Pth q l m)); [apply Pth_deriv; exact Hq|].
      exists (Rmin theta (PI - theta)). split; [apply Rmin_pos; lra|]. intros t Ht. apply P_theta.
      pose proof (Rmin_l theta (PI - theta)). pose proof (Rmin_r theta (PI - theta)). apply Rabs_def2 in Ht. lra. }
    unfold Hm, harmonic. apply Rsum_deriv. intros l Hl.
    apply (derivable_pt_lim_plus (fun t => re (lm2n l 0) * ylm_norm l 0 * P l 0 (cos t))).
    + match goal with |- derivable_pt_lim _ _ ?v => replace v with (re (lm2n l 0) * ylm_norm l 0 * dPth q l 0 theta) by (unfold udth, cscal, cexpi; cbn [fst snd INR]; rewrite Rmult_0_l, sin_0, cos_0; ring) end. apply D.
    + apply Rsum_deriv. intros k Hk.
      match goal with |- derivable_pt_lim _ _ ?v => replace v with (2 * (re (lm2n l (S k)) * cos (INR (S k) * phi) - im (lm2n l (S k)) * sin (INR (S k) * phi)) * ylm_norm l (S k) * dPth q l (S k) theta) by (unfold udth, cscal, cexpi; cbn [fst snd]; ring) end. apply D.
Qed.
End Q.
