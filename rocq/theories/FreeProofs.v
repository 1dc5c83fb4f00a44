(** FreeProofs.v - roll-off, blended metric, conformal Kerr-Schild, isotropic and Painleve-Gullstrand Schwarzschild. *)
From Coq Require Import Reals Lra Lia Psatz Bool.
From Coquelicot Require Import Coquelicot.
From Verif Require Import RealBase LinAlg3Model LinAlg3Spec LinAlg3Proofs CubedModel CubedAngles EosModel EosProofs BssnModel BssnProofs GenKsX GenKsG KsSpec KsModel KsProofs KsClosed KsMetric KsFinal FreeModel.
From Verif Require CubedSpec GenKsKij GenPgKij.
Local Open Scope R_scope.

(** ** roll-off *)
Lemma ROE_num : ROUND_OFF_ERR = / 1000000000000. Proof. unfold ROUND_OFF_ERR; lra. Qed.
Lemma exp_neg x : 0 <= x -> 0 < exp (- x) <= 1.
Proof. intros H. split; [apply exp_pos|]. rewrite <- exp_0. destruct (Req_dec x 0) as [->|]; [rewrite Ropp_0; lra|]. left. apply exp_increasing. lra. Qed.
Lemma cpow_nonneg x y : 0 <= x -> 0 <= y -> exists w, cpow x y = Some w /\ 0 <= w /\ (0 < y -> x <= 1 -> w <= 1).
Proof.
  intros Hx Hy. destruct (Req_dec x 0) as [->|Nx].
  - destruct (Req_dec y 0) as [->|Ny].
    + exists 1. unfold cpow. destruct (Req_EM_T 0 0); [|lra]. repeat split; lra.
    + exists 0. rewrite cpow_0 by lra. repeat split; lra.
  - exists (Rpower x y). rewrite cpow_pos by lra. split; [reflexivity|]. split; [left; apply exp_pos|]. intros Y X. unfold Rpower.
    assert (ln x <= 0). { destruct (Req_dec x 1) as [->|]; [rewrite ln_1; lra|]. rewrite <- ln_1. left. apply ln_increasing; lra. }
    replace (y * ln x) with (- (- (y * ln x))) by ring. apply exp_neg. nra.
Qed.
Lemma lambda_nonneg k rmin rmax r l : roll_lambda k rmin rmax r = Some l -> 0 <= l.
Proof.
  destruct k; cbn [roll_lambda].
  - destruct (ltR_spec r rmax); [|discriminate]. intros E; inversion E. pose proof (Rabs_pos (r - rmin)). apply Rmult_le_pos; auto. left. apply Rinv_0_lt_compat. lra.
  - intros E; inversion E; lra.
Qed.
(** inside the cut-off the value is the documented one; beyond it the cut version is 0 and the other stops for the ratio *)
Theorem roll_value f k rmin rmax p r : 0 < rmax -> 0 <= r -> 0 < p ->
  (r < rmax - / 1000000000000 -> exists w, cpow (r / rmax) p = Some w /\ (0 < r -> w = Rpower (r / rmax) p) /\ (r = 0 -> w = 0) /\
     roll_off f k rmin rmax p r = Some (exp (- (match k with Ratio => Rabs (r - rmin) / (rmax - r) | Const1 => 1 end) * w))) /\
  (rmax - / 1000000000000 <= r -> roll_off ExpCut k rmin rmax p r = Some 0) /\
  (roll_off ExpAll Ratio rmin rmax p r = None <-> rmax <= r) /\
  (forall a, roll_off f k rmin rmax p r = Some a -> 0 <= a <= 1).
Proof.
  intros Hm Hr Hp. rewrite <- ROE_num. pose proof ROE_pos as RO.
  assert (Q : 0 <= r / rmax) by (apply Rmult_le_pos; auto; left; apply Rinv_0_lt_compat; auto).
  destruct (cpow_nonneg (r / rmax) p Q ltac:(lra)) as (w & Ew & Hw & _).
  assert (L : LSS r rmax = ltR r (rmax - ROUND_OFF_ERR)) by reflexivity.
  split; [|split; [|split]].
  - intros H. exists w. split; [exact Ew|]. split; [|split].
    + intros H0. rewrite cpow_pos in Ew by (apply Rdiv_lt_0_compat; auto). inversion Ew. auto.
    + intros ->. replace (0 / rmax) with 0 in Ew by (unfold Rdiv; ring). rewrite cpow_0 in Ew by auto. inversion Ew. auto.
    + unfold roll_off. rewrite L, Ew. destruct (ltR_spec r (rmax - ROUND_OFF_ERR)); [|lra].
      destruct k; cbn [roll_lambda].
      * destruct (ltR_spec r rmax); [|lra]. cbn [fbind]. destruct f; reflexivity.
      * cbn [fbind]. destruct f; reflexivity.
  - intros H. unfold roll_off. rewrite L. destruct (ltR_spec r (rmax - ROUND_OFF_ERR)); [lra|reflexivity].
  - unfold roll_off, roll_lambda. rewrite Ew. destruct (ltR_spec r rmax); cbn [fbind]; split; intros; try discriminate; try lra; auto.
  - intros a. unfold roll_off. rewrite Ew.
    destruct (roll_lambda k rmin rmax r) as [l|] eqn:El; cbn [fbind].
    + pose proof (lambda_nonneg _ _ _ _ _ El) as Hl.
      assert (E : 0 < exp (- l * w) <= 1) by (replace (- l * w) with (- (l * w)) by ring; apply exp_neg; nra).
      destruct f; [destruct (LSS r rmax)|]; intros X; inversion X; subst; lra.
    + destruct f; [destruct (LSS r rmax)|]; intros X; inversion X; subst; lra.
Qed.
Lemma roll_min f rmin rmax p : 0 < rmin -> rmin < rmax - / 1000000000000 -> 0 < p -> roll_off f Ratio rmin rmax p rmin = Some 1.
Proof.
  intros H1 H2 Hp. assert (P : 0 < / 1000000000000) by lra.
  destruct (roll_value f Ratio rmin rmax p rmin ltac:(lra) ltac:(lra) Hp) as (A & _).
  destruct (A H2) as (w & _ & _ & _ & E). rewrite E. f_equal. rewrite Rminus_diag_eq by reflexivity. rewrite Rabs_R0.
  replace (- (0 / (rmax - rmin)) * w) with 0 by (unfold Rdiv; ring). apply exp_0.
Qed.

(** ** blend with the flat metric *)
Lemma blend_quad att g x : quad (blend att g) x = (1 - att) * (x 0%nat ^ 2 + x 1%nat ^ 2 + x 2%nat ^ 2) + att * quad g x.
Proof. unfold quad, blend, full. cbn. ring. Qed.
Lemma blend_pd att g : 0 <= att <= 1 -> positive_definite g -> positive_definite (blend att g).
Proof.
  intros Ha G x X. rewrite blend_quad. pose proof (G x X) as Q.
  assert (0 < x 0%nat ^ 2 + x 1%nat ^ 2 + x 2%nat ^ 2).
  { destruct X as (i & Hi & Hx). pose proof (pow2_ge_0 (x 0%nat)); pose proof (pow2_ge_0 (x 1%nat)); pose proof (pow2_ge_0 (x 2%nat)).
    destruct i as [|[|[|i]]]; [| | |lia]; pose proof (pow2_gt_0 _ Hx); lra. }
  destruct (Req_dec att 0) as [->|]; nra.
Qed.
Lemma blend_1 g : blend 1 g = g. Proof. destruct g. unfold blend. cbn. f_equal; ring. Qed.
Definition norm3 (v : vec) : R := sqrt (dot v v).
Theorem blended f k rmin rmax p ctr q g : 0 < rmin -> 0 < rmax -> 0 < p -> positive_definite g ->
  let r := norm3 (fun i => q i - ctr i) in
  (forall a, roll_off f k rmin rmax p r = Some a ->
     exists gc ig, w1flat_w2KS f k rmin rmax p ctr q g = Some (gc, ig) /\ gc = blend a g /\ positive_definite gc /\ inverse_of (full ig) (full gc)) /\
  (roll_off f k rmin rmax p r = None -> w1flat_w2KS f k rmin rmax p ctr q g = None) /\
  (forall old, w_scaled f k rmin rmax p ctr q old = match roll_off f k rmin rmax p r with Some a => Some (a * old) | None => None end).
Proof.
  intros H1 H2 Hp G r. unfold w1flat_w2KS, w_scaled, Pow2.
  destruct (ltR_spec 0 rmin); [|lra]. destruct (ltR_spec 0 rmax); [|lra]. cbn [negb orb].
  change (sqrt ((q 0%nat - ctr 0%nat) * (q 0%nat - ctr 0%nat) + (q 1%nat - ctr 1%nat) * (q 1%nat - ctr 1%nat) + (q 2%nat - ctr 2%nat) * (q 2%nat - ctr 2%nat))) with r.
  split; [|split].
  - intros a E. rewrite E. cbn [fbind].
    destruct (roll_value f k rmin rmax p r H2 (sqrt_pos _) Hp) as (_ & _ & _ & B).
    pose proof (blend_pd a g (B a E) G) as PD. destruct (inverse_pd _ PD) as (ig & Ei & I). rewrite Ei. cbn [fbind].
    exists (blend a g), ig. auto.
  - intros E. rewrite E. reflexivity.
  - intros old. destruct (roll_off f k rmin rmax p r); reflexivity.
Qed.
Lemma blend_needs_radii f k rmin rmax p ctr q g old : ~ (0 < rmin /\ 0 < rmax) ->
  w1flat_w2KS f k rmin rmax p ctr q g = None /\ w_scaled f k rmin rmax p ctr q old = None.
Proof.
  intros H. unfold w1flat_w2KS, w_scaled. destruct (ltR_spec 0 rmin); destruct (ltR_spec 0 rmax); cbn [negb orb]; auto. tauto.
Qed.

(** ** conformal Kerr-Schild *)
Theorem conf_ks hs M a chi V P ctr q : ks_set_params hs M a chi V = Some P -> usable hs V -> 0 <= M ->
  ~ on_disk a (hole_position (pphiy P) (pphiz P) V (fun i => q i - ctr i)) ->
  exists psi ap be gc igc ig al,
    conf_ks_fields P ctr q = Some (psi, ap, be) /\ conf_ks_metric P ctr q = Some (gc, igc) /\
    ks_populate P ctr q = Some (ig, al, be) /\
    0 < psi /\ ap = al * psi /\ scale_sym (psi ^ 4) gc = ks_sym P ctr q /\
    Matrix_Determinant_3x3_Symmetric gc = 1 /\ positive_definite gc /\ inverse_of (full igc) (full gc).
Proof.
  intros H U HM ND. destruct (usable_good _ _ _ _ _ _ H U) as (G & EB & EM & Ea & _ & _).
  destruct (radius_exists _ _ ND) as [r Hr].
  assert (HrP : kerr_radius (pa P) (hpos P (sub q ctr)) r).
  { rewrite Ea. eapply radius_ext; [|exact Hr]. unfold hpos. change (sub q ctr) with (fun i => q i - ctr i).
    intros i Hi. apply pos_extv; auto. intros j Hj. symmetry. auto. }
  pose proof (gsym_pd P ctr q r G HrP ltac:(lra)) as PD. change (gsym P ctr q) with (ks_sym P ctr q) in PD.
  destruct (shift_lower P ctr q r G HrP ltac:(lra)) as (ig & al & be & EP & _).
  destruct (bssn_ok _ PD false false true) as (gt & i1 & psi & E1 & P1 & P2 & P3 & P4 & P5 & P6).
  destruct (bssn_ok _ PD true true false) as (gt2 & i2 & psi2 & E2 & Q1 & Q2 & Q3 & Q4 & Q5 & Q6).
  assert (EQ : psi = psi2).
  { assert (T : psi ^ 12 = psi2 ^ 12) by congruence.
    assert (R12 : forall y, 0 < y -> Rpower (y ^ 12) (1 / 12) = y).
    { intros y Hy. rewrite <- Rpower_pow, Rpower_mult by auto. replace (INR 12 * (1 / 12)) with 1 by (simpl; field). apply Rpower_1; auto. }
    rewrite <- (R12 psi P1), <- (R12 psi2 Q1), T. reflexivity. }
  subst psi2.
  exists psi, (al * psi), be, gt2, i2, ig, al. unfold conf_ks_fields, conf_ks_metric, fd_populate_ConfKerrSchild.
  rewrite EP, E1, E2. rewrite Rmult_1_l. repeat split; auto; try (symmetry; exact Q3); intros; apply Q6; auto.
Qed.

(** ** isotropic Schwarzschild *)
Theorem iso_schwarzschild M ctr q : 0 <= M -> let r := norm3 (fun i => q i - ctr i) in 0 < r ->
  exists psi ap, iso_fields M ctr q = Some (psi, ap) /\ psi = 1 + M / (2 * r) /\ 1 <= psi /\
   let al := ap / psi in let rho := psi ^ 2 * r in
   ap = 1 - M / (2 * r) /\ al ^ 2 = 1 - 2 * M / rho /\ (0 < al <-> M / 2 < r) /\
   (** the radial line element psi^4 dr^2 is drho^2/(1-2M/rho) *)
   (forall d, derivable_pt_lim (fun s => (1 + M / (2 * s)) ^ 2 * s) r d -> psi ^ 4 * (1 - 2 * M / rho) = d ^ 2).
Proof.
  intros HM r Hr. unfold iso_fields, Pow2.
  change (sqrt ((q 0%nat - ctr 0%nat) * (q 0%nat - ctr 0%nat) + (q 1%nat - ctr 1%nat) * (q 1%nat - ctr 1%nat) + (q 2%nat - ctr 2%nat) * (q 2%nat - ctr 2%nat))) with r.
  clearbody r. assert (Q : 0 <= M / (2 * r)) by (apply Rmult_le_pos; auto; left; apply Rinv_0_lt_compat; lra).
  unfold fdiv. destruct (Req_EM_T (2 * r) 0); [lra|]. cbn [fbind]. destruct (Req_EM_T (1 + M / (2 * r)) 0); [lra|]. cbn [fbind].
  exists (1 + M / (2 * r)), ((1 - M / (2 * r)) / (1 + M / (2 * r)) * (1 + M / (2 * r))). split; [reflexivity|]. split; [reflexivity|]. split; [lra|].
  set (al := (1 - M / (2 * r)) / (1 + M / (2 * r)) * (1 + M / (2 * r)) / (1 + M / (2 * r))). set (rho := (1 + M / (2 * r)) ^ 2 * r).
  assert (A : al = (1 - M / (2 * r)) / (1 + M / (2 * r))) by (unfold al; field; split; lra).
  assert (P : 0 < 2 * r + M) by lra.
  split; [field; lra|]. split; [|split].
  - rewrite A. unfold rho. field. split; [|lra]. nra.
  - rewrite A. replace ((1 - M / (2 * r)) / (1 + M / (2 * r))) with ((2 * r - M) / (2 * r + M)) by (field; lra). split; intros B.
    + assert (0 < 2 * r - M); [|lra]. replace (2 * r - M) with ((2 * r - M) / (2 * r + M) * (2 * r + M)) by (field; lra). apply Rmult_lt_0_compat; lra.
    + apply Rdiv_lt_0_compat; lra.
  - intros d D. assert (E : d = 1 - (M / (2 * r)) ^ 2).
    { apply (uniqueness_limite _ r _ _ D). apply is_derive_Reals. auto_derive; [lra|field; lra]. }
    rewrite E. unfold rho. field. split; [|lra]. nra.
Qed.
Theorem iso_horizon irr ctr q : 0 < irr -> norm3 (fun i => q i - ctr i) = iso_radius irr ->
  iso_fields irr ctr q = Some (2, 0) /\ 2 ^ 2 * iso_radius irr = 2 * irr.
Proof.
  intros H E. unfold iso_radius in *. split; [|lra]. unfold iso_fields, Pow2.
  change (sqrt ((q 0%nat - ctr 0%nat) * (q 0%nat - ctr 0%nat) + (q 1%nat - ctr 1%nat) * (q 1%nat - ctr 1%nat) + (q 2%nat - ctr 2%nat) * (q 2%nat - ctr 2%nat))) with (norm3 (fun i => q i - ctr i)).
  rewrite E. replace (2 * (5 / 10 * irr)) with irr by lra. unfold fdiv. destruct (Req_EM_T irr 0); [lra|]. cbn [fbind].
  replace (irr / irr) with 1 by (field; lra). destruct (Req_EM_T (1 + 1) 0); [lra|]. cbn [fbind]. do 2 f_equal; lra.
Qed.

(** ** Painleve-Gullstrand *)
Definition comp (v : vec3) (i : nat) : R := match i with O => w0 v | 1%nat => w1 v | _ => w2 v end.
Theorem pg_shift M ctr q : 0 <= M -> let x := fun i => q i - ctr i in let r := norm3 x in 0 < r ->
  (x 0%nat = 0 \/ / 1000000000000 <= Rabs (x 0%nat)) -> (x 1%nat = 0 \/ / 1000000000000 <= Rabs (x 1%nat)) ->
  exists b, pg_beta M ctr q = Some b /\ (forall i, (i < 3)%nat -> comp b i = sqrt (2 * M / r) * (x i / r)) /\
    - (pg_alphaPsi / pg_psi) ^ 2 + comp b 0 ^ 2 + comp b 1 ^ 2 + comp b 2 ^ 2 = - (1 - 2 * M / r).
Proof.
  rewrite <- ROE_num. intros HM x r Hr T0 T1. unfold pg_beta, Pow2.
  change (sqrt ((q 0%nat - ctr 0%nat) * (q 0%nat - ctr 0%nat) + (q 1%nat - ctr 1%nat) * (q 1%nat - ctr 1%nat) + (q 2%nat - ctr 2%nat) * (q 2%nat - ctr 2%nat))) with r.
  unfold fdiv. destruct (Req_EM_T r 0); [lra|]. cbn [fbind].
  assert (Q : 0 <= 2 * M / r) by (apply Rmult_le_pos; [lra|]; left; apply Rinv_0_lt_compat; lra).
  destruct (ltR_spec (2 * M / r) 0); [lra|].
  pose proof (polar (x 0%nat) (x 1%nat) (x 2%nat) T0 T1) as PO.
  change (CubedSpec.vnorm (x 0%nat, x 1%nat, x 2%nat)) with r in PO. destruct (PO ltac:(lra)) as (_ & _ & D). clear PO.
  unfold CubedSpec.dir_of, CubedSpec.vscale in D. cbn [get] in D. inversion D as [[D0 D1 D2]].
  unfold spheNcart_transformation, dc_ds, mvec. cbn.
  eexists. split; [reflexivity|].
  change (q 0%nat - ctr 0%nat) with (x 0%nat). change (q 1%nat - ctr 1%nat) with (x 1%nat). change (q 2%nat - ctr 2%nat) with (x 2%nat).
  assert (C : forall s, sin (acos (x 2%nat / r)) * cos (arctan (x 1%nat) (x 0%nat)) * s = s * (x 0%nat / r)) by (intros; rewrite D0; unfold Rdiv; ring).
  assert (C1 : forall s, sin (acos (x 2%nat / r)) * sin (arctan (x 1%nat) (x 0%nat)) * s = s * (x 1%nat / r)) by (intros; rewrite D1; unfold Rdiv; ring).
  assert (C2 : forall s, cos (acos (x 2%nat / r)) * s = s * (x 2%nat / r)) by (intros; rewrite D2; unfold Rdiv; ring).
  assert (SQ : sqrt (2 * M / r) * sqrt (2 * M / r) = 2 * M / r) by (apply sqrt_sqrt; auto).
  match goal with |- (forall i, _ -> comp ?b i = _) /\ _ => assert (B : forall i, (i < 3)%nat -> comp b i = sqrt (2 * M / r) * (x i / r)) end.
  { intros i Hi. destruct i as [|[|[|i]]]; [| | |lia]; cbn [comp w0 w1 w2].
    - rewrite <- C. unfold r, x. ring.
    - rewrite <- C1. unfold r, x. ring.
    - rewrite <- C2. unfold r, x. ring. }
  split; [exact B|]. pose proof (B 0%nat ltac:(lia)) as B0. pose proof (B 1%nat ltac:(lia)) as B1. pose proof (B 2%nat ltac:(lia)) as B2.
  cbn [comp w0 w1 w2] in B0, B1, B2. rewrite B0, B1, B2. clear B B0 B1 B2. unfold pg_alphaPsi, pg_psi.
  assert (RR : x 0%nat * x 0%nat + x 1%nat * x 1%nat + x 2%nat * x 2%nat = r * r).
  { unfold r, norm3, dot. rewrite sqrt_sqrt; [reflexivity|nra]. }
  revert SQ RR. generalize (sqrt (2 * M / r)) (x 0%nat) (x 1%nat) (x 2%nat). clearbody r. clear - Hr. intros s a b c SQ RR.
  cbn [w0 w1 w2]. transitivity (-1 + (s * s) * ((a * a + b * b + c * c) / (r * r))); [field; lra|]. rewrite SQ, RR. field. lra.
Qed.
Lemma pg_horizon irr : 0 < irr -> 1 - 2 * irr / pg_radius irr = 0.
Proof. intros H. unfold pg_radius. field. lra. Qed.

(** the exact derivatives of that shift *)
Definition shift_of (M : R) (i : nat) (x : vec) : R := sqrt (2 * M / norm3 x) * (x i / norm3 x).
Lemma shift_derivative M x i k : 0 < M -> 0 < norm3 x -> (i < 3)%nat -> (k < 3)%nat ->
  derivable_pt_lim (fun s => shift_of M i (moved x k s)) (x k)
    (sqrt (2 * M / norm3 x ^ 3) * (kron i k - 3 / 2 * x i * x k / norm3 x ^ 2)).
Proof.
  intros HM Hr Hi Hk. apply is_derive_Reals. set (r := norm3 x) in *.
  assert (D2 : dot x x = r * r) by (unfold r, norm3; rewrite sqrt_sqrt; auto; unfold dot; nra).
  assert (P : 0 < dot x x) by nra.
  set (n2 := fun s => dot x x - x k * x k + s * s).
  assert (N : forall s, norm3 (moved x k s) = sqrt (n2 s)).
  { intros s. unfold norm3, n2. f_equal. unfold dot, moved. destruct k as [|[|[|k]]]; [| | |lia]; cbn [Nat.eqb]; ring. }
  assert (E : forall s, shift_of M i (moved x k s) = sqrt (2 * M / sqrt (n2 s)) * (moved x k s i / sqrt (n2 s))).
  { intros s. unfold shift_of. rewrite N. reflexivity. }
  apply is_derive_ext with (f := fun s => sqrt (2 * M / sqrt (n2 s)) * (moved x k s i / sqrt (n2 s))); [intros; symmetry; apply E|].
  assert (Nk : n2 (x k) = r * r) by (unfold n2; lra).
  assert (Sk : sqrt (n2 (x k)) = r) by (rewrite Nk; apply sqrt_square; lra).
  assert (Dn : is_derive (fun s => sqrt (n2 s)) (x k) (x k / r)).
  { unfold n2. auto_derive.
    - assert (0 < r * r) by nra. unfold n2 in Nk. lra.
    - change (dot x x - x k * x k + x k * x k) with (n2 (x k)). rewrite Sk. field. lra. }
  assert (Dm : is_derive (fun s => moved x k s i) (x k) (kron i k)).
  { unfold moved, kron. destruct (Nat.eqb i k); auto_derive; auto. }
  assert (Mi : moved x k (x k) i = x i) by (unfold moved; destruct (Nat.eqb_spec i k); subst; auto).
  set (W := fun s => sqrt (n2 s)) in *. set (m := fun s => moved x k s i) in *.
  assert (DnW : is_derive W (x k) (x k / r)) by exact Dn. assert (Dmm : is_derive m (x k) (kron i k)) by exact Dm. clear Dn Dm.
  assert (Wk : W (x k) = r) by exact Sk. assert (mk : m (x k) = x i) by exact Mi.
  change (is_derive (fun s => sqrt (2 * M / W s) * (m s / W s)) (x k) (sqrt (2 * M / r ^ 3) * (kron i k - 3 / 2 * x i * x k / r ^ 2))).
  assert (Q : 0 < 2 * M / r) by (apply Rdiv_lt_0_compat; lra).
  assert (S3 : sqrt (2 * M / r ^ 3) = sqrt (2 * M / r) / r).
  { replace (2 * M / r ^ 3) with (2 * M / r / (r * r)) by (field; lra). rewrite sqrt_div_alt by nra. rewrite sqrt_square by lra. reflexivity. }
  rewrite S3. clearbody W m r. clear E N Nk Sk Mi P D2.
  auto_derive.
  - rewrite Wk. repeat split; try (eexists; eassumption); try lra.
  - rewrite (is_derive_unique (fun x0 : R => W x0) (x k) _ DnW), (is_derive_unique (fun x0 : R => m x0) (x k) _ Dmm), Wk, mk.
    change (2 * M * / r) with (2 * M / r).
    assert (SS : sqrt (2 * M / r) * sqrt (2 * M / r) = 2 * M / r) by (apply sqrt_sqrt; lra).
    assert (SP : 0 < sqrt (2 * M / r)) by (apply sqrt_lt_R0; auto).
    revert SS SP. generalize (sqrt (2 * M / r)). intros s SS SP.
    assert (MM : M = s * s * r / 2) by (rewrite SS; field; lra). rewrite MM. field. lra.
Qed.
(** from those derivatives the code's extrinsic curvature *)
Theorem pg_curvature M x : 0 < M -> 0 < norm3 x -> let r := norm3 x in
  let db := fun i k => sqrt (2 * M / r ^ 3) * (kron i k - 3 / 2 * x i * x k / r ^ 2) in
  (forall i j, (i <= j)%nat -> (j < 3)%nat -> pg_Kij db i j = sqrt (2 * M / r ^ 3) * (kron i j - 3 / 2 * x i * x j / r ^ 2)) /\
  pg_trK db = 3 / 2 * sqrt (2 * M / r ^ 3).
Proof.
  intros HM Hr r db. assert (Hr' : 0 < r) by exact Hr. split.
  - intros i j Hi Hj. unfold pg_Kij, GenPgKij.store_Kij.
    destruct i as [|[|[|i]]]; destruct j as [|[|[|j]]]; try lia; cbn [GenPgKij.store_Kij];
    unfold GenPgKij.out_Kij_D0D0, GenPgKij.out_Kij_D0D1, GenPgKij.out_Kij_D0D2, GenPgKij.out_Kij_D1D1, GenPgKij.out_Kij_D1D2, GenPgKij.out_Kij_D2D2,
      GenPgKij.pgKij_D0D0, GenPgKij.pgKij_D0D1, GenPgKij.pgKij_D0D2, GenPgKij.pgKij_D1D1, GenPgKij.pgKij_D1D2, GenPgKij.pgKij_D2D2;
    cbn [GenPgKij.dBeta GenPgKij.alpha]; unfold db, kron; cbn [Nat.eqb]; generalize (sqrt (2 * M / r ^ 3)); intros; field; lra.
  - unfold pg_trK, GenPgKij.out_trKij, GenPgKij.trk, GenPgKij.pgKij_D0D0, GenPgKij.pgKij_D1D1, GenPgKij.pgKij_D2D2.
    cbn [GenPgKij.dBeta GenPgKij.alpha]. unfold db, kron. cbn [Nat.eqb].
    assert (D2 : x 0%nat * x 0%nat + x 1%nat * x 1%nat + x 2%nat * x 2%nat = r * r) by (unfold r, norm3, dot; rewrite sqrt_sqrt; auto; nra).
    generalize (sqrt (2 * M / r ^ 3)). intros s.
    transitivity (s * (3 - 3 / 2 * (x 0%nat * x 0%nat + x 1%nat * x 1%nat + x 2%nat * x 2%nat) / r ^ 2)); [field; lra|].
    rewrite D2. field. lra.
Qed.

(** ** extrinsic curvature of the Kerr-Schild slice *)
Definition D_shift (Chris : nat -> nat -> nat -> R) (be : nat -> R) (db : nat -> nat -> R) (i j : nat) : R :=
  db i j - (Chris 0%nat i j * be 0%nat + Chris 1%nat i j * be 1%nat + Chris 2%nat i j * be 2%nat).
Theorem ks_curvature P ctr q Chris ig db :
  (forall a i j, (i < 3)%nat -> (j < 3)%nat -> Chris a i j = Chris a j i) ->
  (forall i j, (i < 3)%nat -> (j < 3)%nat -> ig i j = ig j i) ->
  let al := ks_alpha P (ks_node P ctr q) in let be := ks_betaD P (ks_node P ctr q) in al <> 0 ->
  let K := fun i j => ks_Kij P ctr q Chris ig db (Nat.min i j) (Nat.max i j) in
  (forall i j, (i < 3)%nat -> (j < 3)%nat -> 2 * al * K i j = D_shift Chris be db i j + D_shift Chris be db j i) /\
  ks_trK P ctr q Chris ig db = Rsum 3 (fun i => Rsum 3 (fun j => ig i j * K i j)).
Proof.
  intros SC SI al be HA K. unfold al, be in *. clear al be.
  assert (E : forall i j, (i < 3)%nat -> (j < 3)%nat -> K i j = (D_shift Chris (ks_betaD P (ks_node P ctr q)) db i j + D_shift Chris (ks_betaD P (ks_node P ctr q)) db j i) / (2 * ks_alpha P (ks_node P ctr q))).
  { intros i j Hi Hj. unfold K, D_shift. rewrite (SC 0%nat i j), (SC 1%nat i j), (SC 2%nat i j) by auto.
    assert (A0 := fun a => SC a 1%nat 0%nat ltac:(lia) ltac:(lia)). assert (A1 := fun a => SC a 2%nat 0%nat ltac:(lia) ltac:(lia)).
    assert (A2 := fun a => SC a 2%nat 1%nat ltac:(lia) ltac:(lia)). clear SC.
    unfold ks_Kij. set (be := ks_betaD P (ks_node P ctr q)) in *. set (al := ks_alpha P (ks_node P ctr q)) in *. clearbody be al.
    destruct i as [|[|[|i]]]; destruct j as [|[|[|j]]]; try lia; cbn [Nat.min Nat.max GenKsKij.store_Kij]; rewrite ?A0, ?A1, ?A2;
    unfold GenKsKij.out_Kij_D0D0, GenKsKij.out_Kij_D0D1, GenKsKij.out_Kij_D0D2, GenKsKij.out_Kij_D1D1, GenKsKij.out_Kij_D1D2, GenKsKij.out_Kij_D2D2,
      GenKsKij.ksKij_D0D0, GenKsKij.ksKij_D0D1, GenKsKij.ksKij_D0D2, GenKsKij.ksKij_D1D1, GenKsKij.ksKij_D1D2, GenKsKij.ksKij_D2D2,
      GenKsKij.DB_D0D0, GenKsKij.DB_D0D1, GenKsKij.DB_D0D2, GenKsKij.DB_D1D0, GenKsKij.DB_D1D1, GenKsKij.DB_D1D2, GenKsKij.DB_D2D0, GenKsKij.DB_D2D1, GenKsKij.DB_D2D2;
    cbn [GenKsKij.Chris GenKsKij.KS__alpha GenKsKij.KS__beta GenKsKij.dKS__beta GenKsKij.ig]; field; auto. }
  split.
  - intros i j Hi Hj. rewrite E by auto. field. auto.
  - unfold ks_trK, GenKsKij.out_trKij, GenKsKij.trk. cbn [GenKsKij.ig].
    unfold K, ks_Kij. unfold Rsum. cbn [Nat.min Nat.max GenKsKij.store_Kij].
    rewrite (SI 1%nat 0%nat), (SI 2%nat 0%nat), (SI 2%nat 1%nat) by lia.
    unfold GenKsKij.out_Kij_D0D0, GenKsKij.out_Kij_D0D1, GenKsKij.out_Kij_D0D2, GenKsKij.out_Kij_D1D1, GenKsKij.out_Kij_D1D2, GenKsKij.out_Kij_D2D2. ring.
Qed.
