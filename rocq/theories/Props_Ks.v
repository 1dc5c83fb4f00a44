(** Props_Ks.v - property theorems C119..C124 (the boosted Kerr-Schild black hole as free data). *)
From Coq Require Import Reals Lra Lia Psatz Bool.
From Verif Require Import RealBase LinAlg3Model LinAlg3Spec LinAlg3Proofs CubedModel CubedAngles GenKsX GenKsG KsSpec KsModel KsProofs KsClosed KsMetric KsFinal KsRefute.
From Verif Require CubedSpec.
Local Open Scope R_scope.

(** a hole the code represents exactly, in words of the user: velocity below that of light and either zero or not
    below 1e-6; the constant of the code stands for 1/sqrt 2 (C119_literal says how far it is from it) *)
Definition usable_hole (hs : R) (V : vec) : Prop :=
  0 < hs /\ hs ^ 2 = 1 / 2 /\ dot V V < 1 /\ (dot V V = 0 \/ / 1000000000000 <= dot V V).
(** th, ph turn the z axis into the direction of the spin; no claim for a spin or a component of it under 1e-12 *)
Definition spin_axis (chi : vec) (th ph : R) : Prop :=
  / 1000000000000 <= sqrt (dot chi chi) ->
  (chi 0%nat = 0 \/ / 1000000000000 <= Rabs (chi 0%nat)) -> (chi 1%nat = 0 \/ / 1000000000000 <= Rabs (chi 1%nat)) ->
  forall i, (i < 3)%nat -> rotz ph (roty th (v3 0 0 1)) i = chi i / sqrt (dot chi chi).
Lemma ROE_val : ROUND_OFF_ERR = / 1000000000000. Proof. unfold ROUND_OFF_ERR; lra. Qed.
Lemma uh hs V : usable_hole hs V -> usable hs V.
Proof. unfold usable_hole, usable. rewrite ROE_val. auto. Qed.

(** C119. The stored three-metric is the spatial part of the boosted, rotated Kerr metric in Kerr-Schild form, at the
    Kerr radius of the node (which exists and is unique off the disk), on every node off the disk. *)
Theorem C119_metric : forall hs M a chi V P, ks_set_params hs M a chi V = Some P -> usable_hole hs V ->
  exists th ph, spin_axis chi th ph /\ forall ctr q, let x := fun i => q i - ctr i in
    ~ on_disk a (hole_position th ph V x) ->
    exists r, kerr_radius a (hole_position th ph V x) r /\ (forall r', kerr_radius a (hole_position th ph V x) r' -> r' = r) /\
     forall i j, (i <= j)%nat -> (j < 3)%nat -> ks_metric P ctr q i j = hole_metric M a th ph V x r (S i) (S j).
Proof.
  intros hs M a chi V P H U. destruct (metric_kerr hs M a chi V P H (uh _ _ U)) as (th & ph & A & B).
  exists th, ph. split.
  - unfold spin_axis. rewrite <- ROE_val. exact A.
  - intros ctr q x D. destruct (B ctr q D) as (r & R1 & R2 & R3 & _). exists r. auto.
Qed.
Print Assumptions C119_metric.
(** the set-up succeeds exactly when |chi| is below 1 + 1e-12, except at the one value 1 - 1e-12 (the comparison macro leaves it out) *)
Theorem C119_setup : forall hs M a chi V,
  (exists P, ks_set_params hs M a chi V = Some P) <->
  sqrt (dot chi chi) < 1 + / 1000000000000 /\ sqrt (dot chi chi) <> 1 - / 1000000000000.
Proof.
  intros hs M a chi V. unfold ks_set_params, Pow2.
  change (sqrt (chi 0%nat * chi 0%nat + chi 1%nat * chi 1%nat + chi 2%nat * chi 2%nat)) with (sqrt (dot chi chi)).
  rewrite <- ROE_val. destruct (LSSEQL (sqrt (dot chi chi)) 1) eqn:E; cbn [negb].
  - split; [intros _|].
    + apply LSSEQL_iff in E. exact E.
    + intros _. destruct (EQL (V 0%nat * V 0%nat + V 1%nat * V 1%nat + V 2%nat * V 2%nat) 0), (EQL (sqrt (dot chi chi)) 0); cbn [negb]; eexists; reflexivity.
  - split; [intros [P Q]; discriminate|]. intros L. exfalso.
    assert (T : LSSEQL (sqrt (dot chi chi)) 1 = true) by (apply LSSEQL_iff; exact L). congruence.
Qed.
Print Assumptions C119_setup.
(** the literal 0.707106781186548 *)
Theorem C119_literal : Rabs (707106781186548 / 1000000000000000 - 1 / sqrt 2) <= / 1000000000000000.
Proof. exact hs_literal. Qed.
Print Assumptions C119_literal.
(** a velocity of square below 1e-12 is silently replaced by rest *)
Theorem C119_small_boost_kept_refuted :
  ~ forall hs M a chi V P, ks_set_params hs M a chi V = Some P -> 0 < hs -> hs ^ 2 = 1 / 2 -> dot V V < 1 ->
     forall i, (i < 3)%nat -> boostv P i = V i.
Proof.
  intros H. set (V := v3 (/ 10000000) 0 0).
  assert (D : dot V V = / 100000000000000) by (unfold V, dot; cbn [v3]; lra).
  destruct (proj2 (C119_setup (sqrt (1 / 2)) 1 0 (v3 0 0 0) V)) as [P Q].
  { replace (dot (v3 0 0 0) (v3 0 0 0)) with 0 by (unfold dot; cbn [v3]; ring). rewrite sqrt_0. split; lra. }
  destruct (params_ok _ _ _ _ _ _ Q) as (_ & _ & _ & _ & _ & Z & _). rewrite ROE_val, D in Z. destruct (Z ltac:(lra)) as [Z1 _].
  specialize (H _ _ _ _ _ _ Q (sqrt_lt_R0 (1 / 2) ltac:(lra)) (pow2_sqrt (1 / 2) ltac:(lra))).
  specialize (H ltac:(rewrite D; lra) 0%nat ltac:(lia)). rewrite (Z1 0%nat ltac:(lia)) in H. unfold V in H. cbn [v3] in H. lra.
Qed.
Print Assumptions C119_small_boost_kept_refuted.

(** a hole with spin 1/2 along z moving with half the speed of light along x, at the node (0,0,3) of the hole at the origin *)
Definition ex_hs : R := sqrt (1 / 2).
Lemma ex_hs_ok : 0 < ex_hs /\ ex_hs ^ 2 = 1 / 2.
Proof. unfold ex_hs. split; [apply sqrt_lt_R0; lra|apply pow2_sqrt; lra]. Qed.
Definition ex_chi := v3 0 0 (1 / 2). Definition ex_V := v3 (1 / 2) 0 0.
Lemma ex_chin : sqrt (dot ex_chi ex_chi) = 1 / 2.
Proof. unfold dot, ex_chi. cbn [v3]. replace (0 * 0 + 0 * 0 + 1 / 2 * (1 / 2)) with ((1 / 2) * (1 / 2)) by lra. apply sqrt_square. lra. Qed.
Lemma ex_VV : dot ex_V ex_V = 1 / 4. Proof. unfold dot, ex_V. cbn [v3]. lra. Qed.
Example C119_ex : exists P th ph r, ks_set_params ex_hs 1 (1 / 2) ex_chi ex_V = Some P /\ usable_hole ex_hs ex_V /\
  spin_axis ex_chi th ph /\ ~ on_disk (1 / 2) (hole_position th ph ex_V (v3 0 0 3)) /\
  kerr_radius (1 / 2) (hole_position th ph ex_V (v3 0 0 3)) r /\ r = 3.
Proof.
  destruct (proj2 (C119_setup ex_hs 1 (1 / 2) ex_chi ex_V)) as [P Q]; [rewrite ex_chin; split; lra|].
  exists P, 0, 0, 3. split; [exact Q|]. split.
  { destruct ex_hs_ok. unfold usable_hole. rewrite ex_VV. repeat split; auto; lra. }
  split.
  { intros _ _ _ i Hi. rewrite ex_chin. unfold rotz, roty, ex_chi. rewrite sin_0, cos_0.
    destruct i as [|[|[|i]]]; [| | |lia]; cbn [v3]; lra. }
  assert (Z : forall i, (i < 3)%nat -> hole_position 0 0 ex_V (v3 0 0 3) i = v3 0 0 3 i).
  { intros i Hi. unfold hole_position, roty, rotz, rest_position. rewrite Ropp_0, sin_0, cos_0.
    assert (D : dot (v3 0 0 3) ex_V = 0) by (unfold dot, ex_V; cbn [v3]; lra). rewrite D.
    destruct i as [|[|[|i]]]; [| | |lia]; unfold ex_V; cbn [v3]; unfold Rdiv; ring. }
  split.
  - intros [D _]. rewrite Z in D by lia. cbn [v3] in D. lra.
  - split; [|reflexivity]. unfold kerr_radius. rewrite !Z by lia. cbn [v3]. lra.
Qed.

(** C120. Lapse and shift of the code, with that metric, make up the same four-metric: g_0i = gamma_ij beta^j and
    g_00 = beta_i beta^i - alpha^2, for a moving hole of non-negative mass; the inverse stored beside them is the inverse. *)
Theorem C120_moving : forall hs M a chi V P, ks_set_params hs M a chi V = Some P -> usable_hole hs V -> 0 <= M -> dot V V <> 0 ->
  exists th ph, spin_axis chi th ph /\ forall ctr q, let x := fun i => q i - ctr i in
    ~ on_disk a (hole_position th ph V x) ->
    exists r, kerr_radius a (hole_position th ph V x) r /\
     let g := fun mu nu => hole_metric M a th ph V x r mu nu in
     exists ig al be, ks_populate P ctr q = Some (ig, al, be) /\
       (forall i k, (i < 3)%nat -> (k < 3)%nat ->
          g (S i) 1%nat * entry (full ig) 0 k + g (S i) 2%nat * entry (full ig) 1 k + g (S i) 3%nat * entry (full ig) 2 k = kron i k) /\
       0 < al <= 1 /\
       (forall i, (i < 3)%nat -> g (S i) 1%nat * be 0%nat + g (S i) 2%nat * be 1%nat + g (S i) 3%nat * be 2%nat = g 0%nat (S i)) /\
       - al ^ 2 + (g 0%nat 1%nat * be 0%nat + g 0%nat 2%nat * be 1%nat + g 0%nat 3%nat * be 2%nat) = g 0%nat 0%nat.
Proof.
  intros hs M a chi V P H U HM HV. destruct (metric_kerr hs M a chi V P H (uh _ _ U)) as (th & ph & A & B).
  exists th, ph. split; [unfold spin_axis; rewrite <- ROE_val; exact A|].
  intros ctr q x D. destruct (B ctr q D) as (r & R1 & _ & _ & R3 & _). exists r. split; [exact R1|]. intros g.
  destruct (R3 HM HV) as (ig & al & be & E & I & L & SS & T). exists ig, al, be. split; [exact E|].
  split; [|split; [exact L|]].
  { intros i k Hi Hk. rewrite <- (I i k Hi Hk). unfold Rsum, g, x. ring. }
  assert (S' : forall i, (i < 3)%nat -> g (S i) 1%nat * be 0%nat + g (S i) 2%nat * be 1%nat + g (S i) 3%nat * be 2%nat = g 0%nat (S i)).
  { intros i Hi. unfold g, x. rewrite <- (SS i Hi). unfold Rsum. ring. }
  split; [exact S'|]. unfold g at 4. unfold x. rewrite <- T. rewrite <- !S' by lia. unfold Rsum. fold x. fold (g 1%nat 1%nat). unfold g. ring.
Qed.
Print Assumptions C120_moving.
(** for a hole at rest kt is 1/sqrt(1-1e-14) instead of 1: the shift is larger by that factor, the lapse smaller by at
    most that factor *)
Theorem C120_resting_partial : forall hs M a chi V P, ks_set_params hs M a chi V = Some P -> usable_hole hs V -> 0 <= M -> dot V V = 0 ->
  exists th ph, spin_axis chi th ph /\ forall ctr q, let x := fun i => q i - ctr i in
    ~ on_disk a (hole_position th ph V x) ->
    exists r, kerr_radius a (hole_position th ph V x) r /\
     let g := fun mu nu => hole_metric M a th ph V x r mu nu in let s := sqrt (1 - / 100000000000000) in
     exists ig al be al0, ks_populate P ctr q = Some (ig, al, be) /\
       (forall i k, (i < 3)%nat -> (k < 3)%nat ->
          g (S i) 1%nat * entry (full ig) 0 k + g (S i) 2%nat * entry (full ig) 1 k + g (S i) 3%nat * entry (full ig) 2 k = kron i k) /\
       0 < al0 <= 1 /\ al0 * s <= al <= al0 /\
       (forall i, (i < 3)%nat -> g (S i) 1%nat * (s * be 0%nat) + g (S i) 2%nat * (s * be 1%nat) + g (S i) 3%nat * (s * be 2%nat) = g 0%nat (S i)) /\
       - al0 ^ 2 + (g 0%nat 1%nat * (s * be 0%nat) + g 0%nat 2%nat * (s * be 1%nat) + g 0%nat 3%nat * (s * be 2%nat)) = g 0%nat 0%nat.
Proof.
  intros hs M a chi V P H U HM HV. destruct (metric_kerr hs M a chi V P H (uh _ _ U)) as (th & ph & A & B).
  exists th, ph. split; [unfold spin_axis; rewrite <- ROE_val; exact A|].
  intros ctr q x D. destruct (B ctr q D) as (r & R1 & _ & _ & _ & R3). exists r. split; [exact R1|]. intros g s.
  destruct (R3 HM HV) as (ig & al & be & E & I & SS & al0 & L1 & L2 & T). exists ig, al, be, al0. split; [exact E|].
  assert (SP : 0 < s) by (apply sqrt_lt_R0; lra).
  split; [|split; [exact L1|split; [exact L2|]]].
  { intros i k Hi Hk. rewrite <- (I i k Hi Hk). unfold Rsum, g, x. ring. }
  assert (S' : forall i, (i < 3)%nat -> g (S i) 1%nat * (s * be 0%nat) + g (S i) 2%nat * (s * be 1%nat) + g (S i) 3%nat * (s * be 2%nat) = g 0%nat (S i)).
  { intros i Hi. specialize (SS i Hi). unfold Rsum in SS. fold s in SS.
    change (hole_metric M a th ph V (fun i0 => q i0 - ctr i0) r) with g in SS.
    transitivity (s * (g (S i) 1%nat * be 0%nat + g (S i) 2%nat * be 1%nat + g (S i) 3%nat * be 2%nat)); [ring|].
    replace (g (S i) 1%nat * be 0%nat + g (S i) 2%nat * be 1%nat + g (S i) 3%nat * be 2%nat) with (g 0%nat (S i) / s) by (rewrite <- SS; ring).
    field. lra. }
  split; [exact S'|]. unfold g at 4. unfold x. rewrite <- (T (fun i => s * be i)).
  - rewrite <- !S' by lia. unfold Rsum, g, x. ring.
  - intros i Hi. specialize (S' i Hi). unfold g, x in S'. unfold Rsum. rewrite <- S'. ring.
Qed.
Print Assumptions C120_resting_partial.
Example C120_ex : usable_hole ex_hs ex_V /\ 0 <= 1 /\ dot ex_V ex_V <> 0 /\ usable_hole ex_hs (v3 0 0 0) /\ dot (v3 0 0 0) (v3 0 0 0) = 0.
Proof.
  destruct ex_hs_ok. assert (dot (v3 0 0 0) (v3 0 0 0) = 0) by (unfold dot; cbn [v3]; ring).
  unfold usable_hole. rewrite ex_VV, H1. repeat split; auto; lra.
Qed.

(** C121. The stored first and second derivatives of the three-metric are its derivatives. *)
Theorem C121_derivatives : forall hs M a chi V P, ks_set_params hs M a chi V = Some P -> usable_hole hs V ->
  exists th ph, spin_axis chi th ph /\ forall ctr q, ~ on_disk a (hole_position th ph V (fun i => q i - ctr i)) ->
  forall i j k l, (i <= j)%nat -> (j < 3)%nat -> (k < 3)%nat -> (l < 3)%nat ->
   derivable_pt_lim (fun s => ks_metric P ctr (moved q k s) i j) (q k) (ks_dmetric P ctr q i j k) /\
   derivable_pt_lim (fun s => ks_dmetric P ctr (moved q l s) i j k) (q l) (ks_ddmetric P ctr q i j k l).
Proof.
  intros hs M a chi V P H U. exists (pphiy P), (pphiz P). split.
  - unfold spin_axis. rewrite <- ROE_val. intros A B C i Hi.
    destruct (params_ok _ _ _ _ _ _ H) as (_ & _ & _ & _ & _ & _ & AX & _). destruct (AX A B C) as (_ & _ & Q). apply Q; auto.
  - intros ctr q D i j k l Hi Hj Hk Hl. pose proof (metric_derivatives _ _ _ _ _ _ H (uh _ _ U) ctr q D i j) as T.
    split; [apply (T k Hi Hj Hk)|]. destruct (T l Hi Hj Hl) as (_ & T2 & _). apply T2; auto.
Qed.
Print Assumptions C121_derivatives.

(** C122. Third derivatives: right when two of the three directions agree (any metric component) ... *)
Theorem C122_third_partial : forall hs M a chi V P, ks_set_params hs M a chi V = Some P -> usable_hole hs V ->
  exists th ph, spin_axis chi th ph /\ forall ctr q, ~ on_disk a (hole_position th ph V (fun i => q i - ctr i)) ->
  forall i j k l m, (i <= j)%nat -> (j < 3)%nat -> (k < 3)%nat -> (l < 3)%nat -> (m < 3)%nat -> k = l \/ k = m \/ l = m ->
   derivable_pt_lim (fun s => ks_ddmetric P ctr (moved q k s) i j l m) (q k) (ks_dddmetric P ctr q i j l m k).
Proof.
  intros hs M a chi V P H U. exists (pphiy P), (pphiz P). split.
  - unfold spin_axis. rewrite <- ROE_val. intros A B C i Hi.
    destruct (params_ok _ _ _ _ _ _ H) as (_ & _ & _ & _ & _ & _ & AX & _). destruct (AX A B C) as (_ & _ & Q). apply Q; auto.
  - exact (third_ok _ _ _ _ _ _ H (uh _ _ U)).
Qed.
Print Assumptions C122_third_partial.
(** ... and wrong for d_x d_y d_z gamma_zz in the whole octant of every spinning hole at rest whose spin is along z *)
Theorem C122_third_mixed_refuted : forall hs M a c P ctr q, ks_set_params hs M a (v3 0 0 c) (v3 0 0 0) = Some P ->
  0 < hs -> hs ^ 2 = 1 / 2 -> / 1000000000000 <= c -> 0 < M -> a <> 0 ->
  ctr 0%nat < q 0%nat -> ctr 1%nat < q 1%nat -> ctr 2%nat < q 2%nat ->
  ~ derivable_pt_lim (fun s => ks_ddmetric P ctr (moved q 2 s) 2 2 0 1) (q 2%nat) (ks_dddmetric P ctr q 2 2 0 1 2).
Proof. intros hs M a c P ctr q. rewrite <- ROE_val. apply third_wrong. Qed.
Print Assumptions C122_third_mixed_refuted.
Example C122_ex : exists P, ks_set_params ex_hs 1 (1 / 2) ex_chi (v3 0 0 0) = Some P /\ / 1000000000000 <= 1 / 2.
Proof. destruct (proj2 (C119_setup ex_hs 1 (1 / 2) ex_chi (v3 0 0 0))) as [P Q]; [rewrite ex_chin; split; lra|]. exists P. split; [exact Q|lra]. Qed.

(** C123. The surface equation of the hole vanishes exactly on the points of the given Kerr radius ... *)
Theorem C123_surface_equation : forall hs M a chi V P Rs, ks_set_params hs M a chi V = Some P -> usable_hole hs V -> 0 < Rs ->
  exists th ph, spin_axis chi th ph /\ forall t p d,
  (bh_surface_eq P Rs t p d = 0 <->
   kerr_radius a (hole_position th ph V (v3 (d * sin t * cos p) (d * sin t * sin p) (d * cos t))) Rs).
Proof.
  intros hs M a chi V P Rs H U HR. exists (pphiy P), (pphiz P). split.
  - unfold spin_axis. rewrite <- ROE_val. intros A B C i Hi.
    destruct (params_ok _ _ _ _ _ _ H) as (_ & _ & _ & _ & _ & _ & AX & _). destruct (AX A B C) as (_ & _ & Q). apply Q; auto.
  - intros t p d. destruct (usable_good _ _ _ _ _ _ H (uh _ _ U)) as ((G1 & _ & G3 & G4) & EB & _ & Ea & _).
    rewrite (surface_eq_zero P Rs t p d G3 G4 HR G1), Ea.
    split; apply radius_ext; intros i Hi; apply pos_extv; auto; intros j Hj; symmetry; auto.
Qed.
Print Assumptions C123_surface_equation.
(** ... but the radius asked for is that of the horizon (outer root of Delta) only without spin *)
Theorem C123_surface_is_horizon_refuted : forall M a, 0 < M -> (kerr_Delta M a (bh_surface_R M a) = 0 <-> a = 0).
Proof. exact surface_wrong. Qed.
Print Assumptions C123_surface_is_horizon_refuted.
Example C123_ex : kerr_Delta 1 (3 / 5) (9 / 5) = 0 /\ kerr_Delta 1 (3 / 5) (bh_surface_R 1 (3 / 5)) = 18 / 25.
Proof. split; [unfold kerr_Delta; lra|rewrite surface_value by lra; lra]. Qed.

(** C124. Start-off values of a hole: mass, spin parameter and radius from the irreducible mass and the dimensionless
    spin are those of Kerr: Christodoulou's formula with J = a m, chi = a / m, horizon radius, horizon area 16 pi irr^2. *)
Theorem C124_start_general : forall irr chi, 0 < irr -> sqrt (dot chi chi) <= 1 ->
  exists m a r, bh_start_general irr chi = Some (m, a, r) /\ irr <= m /\
    m ^ 2 = irr ^ 2 + (a * m) ^ 2 / (4 * irr ^ 2) /\ a = sqrt (dot chi chi) * m /\ a <= m /\
    kerr_Delta m a r = 0 /\ m <= r /\ 4 * PI * (r ^ 2 + a ^ 2) = 16 * PI * irr ^ 2.
Proof.
  intros irr chi Hi Hc. destruct (start_general irr chi Hi Hc) as (m & a & r & E & A & B & C & D & F & G & K).
  exists m, a, r. repeat split; auto. rewrite K. ring.
Qed.
Print Assumptions C124_start_general.
Theorem C124_spin_above_one : forall irr chi, 1 + / 1000000000000 < sqrt (dot chi chi) ->
  bh_start_general irr chi = None /\ bh_start_close irr chi = None.
Proof.
  intros irr chi. rewrite <- ROE_val. intros H. unfold bh_start_general, bh_start_close, Pow2.
  change (sqrt (chi 0%nat * chi 0%nat + chi 1%nat * chi 1%nat + chi 2%nat * chi 2%nat)) with (sqrt (dot chi chi)).
  assert (T : GRT (sqrt (dot chi chi)) 1 = true) by (apply GRT_iff; lra). rewrite T. auto.
Qed.
Print Assumptions C124_spin_above_one.
(** The "close" start-off stores the irreducible mass as Christodoulou mass: spin over mass is not the given spin, and a spin of 9/10 even gives
    a spin parameter above the mass (no horizon). *)
Theorem C124_start_close_refuted : forall irr chi, 0 < irr -> sqrt (dot chi chi) <= 1 ->
  exists m a r, bh_start_close irr chi = Some (m, a, r) /\ m = irr /\ r = 3 / 2 * irr /\
    (sqrt (dot chi chi) <> 0 -> sqrt (dot chi chi) * m < a) /\ (sqrt (dot chi chi) = 9 / 10 -> m < a).
Proof. exact start_close. Qed.
Print Assumptions C124_start_close_refuted.
Example C124_ex : sqrt (dot ex_chi ex_chi) <= 1 /\ sqrt (dot (v3 0 0 (9 / 10)) (v3 0 0 (9 / 10))) = 9 / 10.
Proof.
  rewrite ex_chin. split; [lra|]. unfold dot. cbn [v3]. replace (0 * 0 + 0 * 0 + 9 / 10 * (9 / 10)) with ((9 / 10) * (9 / 10)) by lra. apply sqrt_square. lra.
Qed.
