(** Props_Free.v - property theorems C125..C128 (extrinsic curvature, roll-off, conformal Kerr-Schild, Schwarzschild free data). *)
From Coq Require Import Reals Lra Lia Psatz Bool.
From Verif Require Import RealBase LinAlg3Model LinAlg3Spec LinAlg3Proofs CubedModel EosModel BssnModel GenKsX GenKsG KsSpec KsModel KsFinal FreeModel FreeProofs Props_Ks.
Local Open Scope R_scope.

(** C125. Extrinsic curvature of the Kerr-Schild slice, from Christoffel symbols, inverse metric and derivatives of the
    lowered shift: 2 alpha K_ij = D_i beta_j + D_j beta_i (stored for i <= j) and trK = gamma^ij K_ij. *)
Theorem C125_Kij : forall P ctr q Chris ig db,
  (forall a i j, (i < 3)%nat -> (j < 3)%nat -> Chris a i j = Chris a j i) ->
  (forall i j, (i < 3)%nat -> (j < 3)%nat -> ig i j = ig j i) ->
  let al := ks_alpha P (ks_node P ctr q) in let be := ks_betaD P (ks_node P ctr q) in al <> 0 ->
  let K := fun i j => ks_Kij P ctr q Chris ig db (Nat.min i j) (Nat.max i j) in
  let D := fun i j => db i j - (Chris 0%nat i j * be 0%nat + Chris 1%nat i j * be 1%nat + Chris 2%nat i j * be 2%nat) in
  (forall i j, (i < 3)%nat -> (j < 3)%nat -> 2 * al * K i j = D i j + D j i) /\
  ks_trK P ctr q Chris ig db =
    ig 0%nat 0%nat * K 0%nat 0%nat + ig 1%nat 1%nat * K 1%nat 1%nat + ig 2%nat 2%nat * K 2%nat 2%nat
    + 2 * (ig 0%nat 1%nat * K 0%nat 1%nat + ig 0%nat 2%nat * K 0%nat 2%nat + ig 1%nat 2%nat * K 1%nat 2%nat).
Proof.
  intros P ctr q Chris ig db SC SI al be HA K D. destruct (ks_curvature P ctr q Chris ig db SC SI HA) as [A B].
  split; [exact A|]. rewrite B. unfold Rsum. rewrite (SI 1%nat 0%nat), (SI 2%nat 0%nat), (SI 2%nat 1%nat) by lia.
  unfold K. cbn [Nat.min Nat.max]. ring.
Qed.
Print Assumptions C125_Kij.
Example C125_ex : exists P, ks_set_params ex_hs 1 (1 / 2) ex_chi ex_V = Some P /\
  (forall ctr q ig al be, ks_populate P ctr q = Some (ig, al, be) -> 0 < al -> ks_alpha P (ks_node P ctr q) <> 0) /\
  (forall a i j, (i < 3)%nat -> (j < 3)%nat -> (fun b k l => INR (b + k * l)) a i j = (fun b k l => INR (b + k * l)) a j i).
Proof.
  destruct (proj2 (C119_setup ex_hs 1 (1 / 2) ex_chi ex_V)) as [P Q]; [rewrite ex_chin; split; lra|]. exists P. split; [exact Q|]. split.
  - intros ctr q ig al be E H. unfold ks_populate in E. destruct (Matrix_Inverse_3x3_Symmetric _); [|discriminate].
    assert (A : ks_alpha P (ks_node P ctr q) = al) by (apply (f_equal (fun o => match o with Some (_, x, _) => x | None => 0 end)) in E; exact E).
    lra.
  - intros a i j Hi Hj. f_equal. lia.
Qed.

(** C126. The attenuation factor: 1 at rmin and the documented exponential below rmax - 1e-12, always in [0,1]; beyond, 0 for the
    cut version; the uncut version with the ratio stops the program. *)
Theorem C126_roll_off : forall f k rmin rmax p r, 0 < rmax -> 0 <= r -> 0 < p ->
  (r < rmax - / 1000000000000 -> 0 < r ->
     roll_off f k rmin rmax p r =
       Some (exp (- (match k with Ratio => Rabs (r - rmin) / (rmax - r) | Const1 => 1 end) * Rpower (r / rmax) p))) /\
  (rmax - / 1000000000000 <= r -> roll_off ExpCut k rmin rmax p r = Some 0) /\
  (roll_off ExpAll Ratio rmin rmax p r = None <-> rmax <= r) /\
  (0 < rmin -> rmin < rmax - / 1000000000000 -> roll_off f Ratio rmin rmax p rmin = Some 1) /\
  (forall a, roll_off f k rmin rmax p r = Some a -> 0 <= a <= 1).
Proof.
  intros f k rmin rmax p r H1 H2 H3. destruct (roll_value f k rmin rmax p r H1 H2 H3) as (A & B & C & D).
  split; [|split; [exact B|split; [exact C|split; [|exact D]]]].
  - intros L R0. destruct (A L) as (w & _ & W & _ & E). rewrite E, (W R0). reflexivity.
  - intros. apply roll_min; auto.
Qed.
Print Assumptions C126_roll_off.
(** the modified metric is the flat metric plus the attenuated difference; it stays positive definite and the inverse stored is
    its inverse; the trace of K (and the lapse) is multiplied by the same factor *)
Theorem C126_blend : forall f k rmin rmax p ctr q g old, 0 < p -> positive_definite g ->
  let r := sqrt ((q 0%nat - ctr 0%nat) ^ 2 + (q 1%nat - ctr 1%nat) ^ 2 + (q 2%nat - ctr 2%nat) ^ 2) in
  (0 < rmin -> 0 < rmax -> forall a, roll_off f k rmin rmax p r = Some a ->
     w_scaled f k rmin rmax p ctr q old = Some (a * old) /\
     exists gc ig, w1flat_w2KS f k rmin rmax p ctr q g = Some (gc, ig) /\
       (forall i j, (i < 3)%nat -> (j < 3)%nat -> entry (full gc) i j = kron i j + a * (entry (full g) i j - kron i j)) /\
       positive_definite gc /\ inverse_of (full ig) (full gc)) /\
  (~ (0 < rmin /\ 0 < rmax) \/ roll_off f k rmin rmax p r = None ->
     w1flat_w2KS f k rmin rmax p ctr q g = None /\ w_scaled f k rmin rmax p ctr q old = None).
Proof.
  intros f k rmin rmax p ctr q g old Hp G r.
  assert (ER : norm3 (fun i => q i - ctr i) = r) by (unfold norm3, dot, r; f_equal; ring).
  split.
  - intros H1 H2 a E. destruct (blended f k rmin rmax p ctr q g H1 H2 Hp G) as (A & _ & C). rewrite ER in *.
    split; [rewrite C, E; reflexivity|]. destruct (A a E) as (gc & ig & E1 & E2 & E3 & E4). exists gc, ig. split; [exact E1|]. split; [|auto].
    intros i j Hi Hj. subst gc. destruct i as [|[|[|i]]]; destruct j as [|[|[|j]]]; try lia; unfold blend, full, kron; cbn; ring.
  - intros [N|N]; [apply blend_needs_radii; auto|].
    destruct (Rlt_dec 0 rmin) as [H1|H1]; [|apply blend_needs_radii; tauto]. destruct (Rlt_dec 0 rmax) as [H2|H2]; [|apply blend_needs_radii; tauto].
    destruct (blended f k rmin rmax p ctr q g H1 H2 Hp G) as (_ & B & C). rewrite ER in *. rewrite C, N. auto.
Qed.
Print Assumptions C126_blend.
Example C126_ex : roll_off ExpCut Const1 1 4 2 2 = Some (exp (- (1) * Rpower (2 / 4) 2)) /\ positive_definite (S3 2 0 0 3 0 4).
Proof.
  split.
  - apply (C126_roll_off ExpCut Const1 1 4 2 2); lra.
  - intros x (i & Hi & Hx). unfold quad, full. cbn. pose proof (pow2_ge_0 (x 0%nat)); pose proof (pow2_ge_0 (x 1%nat)); pose proof (pow2_ge_0 (x 2%nat)).
    destruct i as [|[|[|i]]]; [| | |lia]; pose proof (KsClosed.pow2_gt_0 _ Hx); nra.
Qed.

(** C127. Conformal Kerr-Schild: psi^4 times the conformal metric is the Kerr-Schild metric of C119, the conformal metric has unit
    determinant and is positive definite with its inverse stored, alphaPsi is psi times the lapse, the shift is that of C120. *)
Theorem C127_conformal : forall hs M a chi V P, ks_set_params hs M a chi V = Some P -> usable_hole hs V -> 0 <= M ->
  exists th ph, spin_axis chi th ph /\ forall ctr q, ~ on_disk a (hole_position th ph V (fun i => q i - ctr i)) ->
  exists psi ap be gc igc ig al,
    conf_ks_fields P ctr q = Some (psi, ap, be) /\ conf_ks_metric P ctr q = Some (gc, igc) /\
    ks_populate P ctr q = Some (ig, al, be) /\
    0 < psi /\ ap = al * psi /\
    (forall i j, (i <= j)%nat -> (j < 3)%nat -> psi ^ 4 * entry (full gc) i j = ks_metric P ctr q i j) /\
    Matrix_Determinant_3x3_Symmetric gc = 1 /\ positive_definite gc /\ inverse_of (full igc) (full gc).
Proof.
  intros hs M a chi V P H U HM. exists (pphiy P), (pphiz P). split.
  - unfold spin_axis. rewrite <- ROE_val. intros A B C i Hi.
    destruct (params_ok _ _ _ _ _ _ H) as (_ & _ & _ & _ & _ & _ & AX & _). destruct (AX A B C) as (_ & _ & Q). apply Q; auto.
  - intros ctr q D. destruct (conf_ks hs M a chi V P ctr q H (uh _ _ U) HM D) as (psi & ap & be & gc & igc & ig & al & A1 & A2 & A3 & A4 & A5 & A6 & A7 & A8 & A9).
    exists psi, ap, be, gc, igc, ig, al. repeat (split; [assumption|]). split; [|auto].
    intros i j Hi Hj. unfold scale_sym, ks_sym in A6. injection A6 as E0 E1 E2 E3 E4 E5.
    destruct i as [|[|[|i]]]; destruct j as [|[|[|j]]]; try lia; unfold full; cbn;
      [rewrite <- E0|rewrite <- E1|rewrite <- E2|rewrite <- E3|rewrite <- E4|rewrite <- E5]; ring.
Qed.
Print Assumptions C127_conformal.
Example C127_ex : usable_hole ex_hs ex_V /\ 0 <= 1.
Proof. split; [apply C120_ex|lra]. Qed.

(** C128. Schwarzschild in isotropic coordinates: with areal radius rho = psi^2 r the line element
    -alpha^2 dt^2 + psi^4 (dr^2 + r^2 dOmega^2) is -(1-2M/rho) dt^2 + drho^2/(1-2M/rho) + rho^2 dOmega^2; the start-off
    radius is the horizon. *)
Theorem C128_isotropic : forall M ctr q, 0 <= M ->
  let r := sqrt ((q 0%nat - ctr 0%nat) ^ 2 + (q 1%nat - ctr 1%nat) ^ 2 + (q 2%nat - ctr 2%nat) ^ 2) in 0 < r ->
  exists psi ap, iso_fields M ctr q = Some (psi, ap) /\ psi = 1 + M / (2 * r) /\ 1 <= psi /\
   let al := ap / psi in let rho := psi ^ 2 * r in
   al ^ 2 = 1 - 2 * M / rho /\ psi ^ 4 * r ^ 2 = rho ^ 2 /\ (0 < al <-> M / 2 < r) /\
   (forall d, derivable_pt_lim (fun s => (1 + M / (2 * s)) ^ 2 * s) r d -> psi ^ 4 * (1 - 2 * M / rho) = d ^ 2).
Proof.
  intros M ctr q HM r Hr. assert (ER : norm3 (fun i => q i - ctr i) = r) by (unfold norm3, dot, r; f_equal; ring).
  pose proof (iso_schwarzschild M ctr q HM) as T. rewrite ER in T. destruct (T Hr) as (psi & ap & E & A & B & C & D & F & G).
  exists psi, ap. split; [exact E|]. split; [exact A|]. split; [exact B|]. split; [exact D|]. split; [ring|]. split; [exact F|exact G].
Qed.
Print Assumptions C128_isotropic.
Theorem C128_isotropic_horizon : forall irr ctr q, 0 < irr ->
  sqrt ((q 0%nat - ctr 0%nat) ^ 2 + (q 1%nat - ctr 1%nat) ^ 2 + (q 2%nat - ctr 2%nat) ^ 2) = iso_radius irr ->
  iso_fields irr ctr q = Some (2, 0) /\ 2 ^ 2 * iso_radius irr = 2 * irr.
Proof.
  intros irr ctr q H E. apply iso_horizon; auto. rewrite <- E. unfold norm3, dot. f_equal. ring.
Qed.
Print Assumptions C128_isotropic_horizon.
(** Painleve-Gullstrand: shift sqrt(2M/r) along the radius, unit lapse and flat metric, so g_00 = -(1 - 2M/r) with zero at the
    start-off radius; not claimed at nodes with a coordinate within 1e-12 of the centre's but not equal to it. *)
Theorem C128_PG_shift_partial : forall M ctr q, 0 <= M -> let x := fun i => q i - ctr i in
  let r := sqrt (x 0%nat ^ 2 + x 1%nat ^ 2 + x 2%nat ^ 2) in 0 < r ->
  (x 0%nat = 0 \/ / 1000000000000 <= Rabs (x 0%nat)) -> (x 1%nat = 0 \/ / 1000000000000 <= Rabs (x 1%nat)) ->
  exists b, pg_beta M ctr q = Some b /\
    w0 b = sqrt (2 * M / r) * (x 0%nat / r) /\ w1 b = sqrt (2 * M / r) * (x 1%nat / r) /\ w2 b = sqrt (2 * M / r) * (x 2%nat / r) /\
    - (pg_alphaPsi / pg_psi) ^ 2 + pg_psi ^ 4 * (w0 b ^ 2 + w1 b ^ 2 + w2 b ^ 2) = - (1 - 2 * M / r).
Proof.
  intros M ctr q HM x r Hr T0 T1. assert (ER : norm3 x = r) by (unfold norm3, dot, r; f_equal; ring).
  pose proof (pg_shift M ctr q HM) as T. cbv zeta in T. fold x in T. rewrite ER in T.
  destruct (T Hr T0 T1) as (b & E & A & B). exists b. split; [exact E|].
  split; [exact (A 0%nat ltac:(lia))|]. split; [exact (A 1%nat ltac:(lia))|]. split; [exact (A 2%nat ltac:(lia))|].
  rewrite <- B. unfold comp, pg_psi. ring.
Qed.
Print Assumptions C128_PG_shift_partial.
Theorem C128_PG_horizon : forall irr, 0 < irr -> 1 - 2 * irr / pg_radius irr = 0.
Proof. exact pg_horizon. Qed.
Print Assumptions C128_PG_horizon.
(** its curvature, from the exact derivatives of the shift: the code's formula gives sqrt(2M/r^3) (delta_ij - 3/2 x_i x_j/r^2) and
    trace 3/2 sqrt(2M/r^3) *)
Theorem C128_PG_curvature : forall M x, 0 < M -> let n := fun y : vec => sqrt (y 0%nat ^ 2 + y 1%nat ^ 2 + y 2%nat ^ 2) in 0 < n x ->
  forall db, (forall i k, (i < 3)%nat -> (k < 3)%nat ->
     derivable_pt_lim (fun s => let y := moved x k s in sqrt (2 * M / n y) * (y i / n y)) (x k) (db i k)) ->
  (forall i j, (i <= j)%nat -> (j < 3)%nat -> pg_Kij db i j = sqrt (2 * M / n x ^ 3) * (kron i j - 3 / 2 * x i * x j / n x ^ 2)) /\
  pg_trK db = 3 / 2 * sqrt (2 * M / n x ^ 3).
Proof.
  intros M x HM n Hr db D. assert (EN : forall y, norm3 y = n y) by (intros; unfold norm3, dot, n; f_equal; ring).
  assert (Hx : 0 < norm3 x) by (rewrite EN; auto).
  destruct (pg_curvature M x HM Hx) as [A B]. rewrite !EN in A, B.
  assert (E : forall i k, (i < 3)%nat -> (k < 3)%nat -> db i k = sqrt (2 * M / n x ^ 3) * (kron i k - 3 / 2 * x i * x k / n x ^ 2)).
  { intros i k Hi Hk. eapply uniqueness_limite; [apply D; auto|]. rewrite <- EN.
    pose proof (shift_derivative M x i k HM Hx Hi Hk) as S. intros eps He. destruct (S eps He) as [dl Hd]. exists dl. intros h Hh Hl.
    specialize (Hd h Hh Hl). unfold shift_of in Hd. cbv zeta. rewrite <- !EN. exact Hd. }
  split.
  - intros i j Hi Hj. rewrite <- (A i j Hi Hj). unfold pg_Kij, GenPgKij.store_Kij.
    destruct i as [|[|[|i]]]; destruct j as [|[|[|j]]]; try lia;
    unfold GenPgKij.out_Kij_D0D0, GenPgKij.out_Kij_D0D1, GenPgKij.out_Kij_D0D2, GenPgKij.out_Kij_D1D1, GenPgKij.out_Kij_D1D2, GenPgKij.out_Kij_D2D2,
      GenPgKij.pgKij_D0D0, GenPgKij.pgKij_D0D1, GenPgKij.pgKij_D0D2, GenPgKij.pgKij_D1D1, GenPgKij.pgKij_D1D2, GenPgKij.pgKij_D2D2;
    cbn [GenPgKij.dBeta GenPgKij.alpha]; rewrite !E by lia; reflexivity.
  - rewrite <- B. unfold pg_trK, GenPgKij.out_trKij, GenPgKij.trk, GenPgKij.pgKij_D0D0, GenPgKij.pgKij_D1D1, GenPgKij.pgKij_D2D2.
    cbn [GenPgKij.dBeta GenPgKij.alpha]. rewrite !E by lia. reflexivity.
Qed.
Print Assumptions C128_PG_curvature.
Example C128_ex : let x := v3 0 3 4 in 0 < sqrt (x 0%nat ^ 2 + x 1%nat ^ 2 + x 2%nat ^ 2) /\
  (forall M i k, 0 < M -> (i < 3)%nat -> (k < 3)%nat -> exists d, derivable_pt_lim (fun s => shift_of M i (moved x k s)) (x k) d).
Proof.
  intros x. assert (H : 0 < sqrt (x 0%nat ^ 2 + x 1%nat ^ 2 + x 2%nat ^ 2)) by (unfold x; cbn [v3]; apply sqrt_lt_R0; lra). split; [exact H|].
  intros M i k HM Hi Hk. eexists. apply shift_derivative; auto. unfold norm3, dot. replace (x 0%nat * x 0%nat + x 1%nat * x 1%nat + x 2%nat * x 2%nat) with (x 0%nat ^ 2 + x 1%nat ^ 2 + x 2%nat ^ 2) by ring. exact H.
Qed.
