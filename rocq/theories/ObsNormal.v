(** ObsNormal.v - the normals of the surface integrals (obs_calculate.c:69-157) and the counterexamples. *)
From Verif Require Import RealBase TensorSpec TensorProofs RicciProofs RicciFinal XctsSpec ShiftSpec XctsProofs AdmSpec AdmConf AdmGen AdmFinal ObsSpec ObsProofs ObsGauss ObsMass ObsKomar.
From Verif Require GenObsPO GenObsK.

(** obs_calculate.c:93-99 and 136-142: the squared norm of the three numbers v *)
Definition norm2 (f : R) (g : nat -> nat -> R) (v : nat -> R) : R :=
  f * (g 0%nat 0%nat * v 0%nat ^ 2 + 2 * g 0%nat 1%nat * v 0%nat * v 1%nat + 2 * g 0%nat 2%nat * v 0%nat * v 2%nat
       + g 1%nat 1%nat * v 1%nat ^ 2 + 2 * g 1%nat 2%nat * v 1%nat * v 2%nat + g 2%nat 2%nat * v 2%nat ^ 2).
(** n_physical_metric_around, obs_calculate.c:69-113: [dc i] = dq2_dq1(patch,_c_,x_i), the derivative of the patch coordinate c by x_i *)
Definition n_physical (g : nat -> nat -> R) (psi : R) (dc : nat -> R) (i : nat) : R := dc i / sqrt (norm2 (psi ^ 2 * psi ^ 2) g dc).
(** n_conformal_metric_around, obs_calculate.c:115-157 *)
Definition n_conformal (g : nat -> nat -> R) (dc : nat -> R) (i : nat) : R := dc i / sqrt (norm2 1 g dc).

Lemma unit_gen f g v : 0 < norm2 f g v -> dot (fun i j => f * sy g i j) (fun i => v i / sqrt (norm2 f g v)) (fun i => v i / sqrt (norm2 f g v)) = 1.
Proof.
  intros H. assert (Hs : sqrt (norm2 f g v) <> 0) by (apply Rgt_not_eq, sqrt_lt_R0, H).
  transitivity (norm2 f g v / (sqrt (norm2 f g v) * sqrt (norm2 f g v))).
  - unfold dot, sum3. cbn [sy Nat.leb]. set (q := sqrt (norm2 f g v)) in *. unfold norm2. unfold sy. cbn [Nat.leb]. field. exact Hs.
  - rewrite sqrt_sqrt by lra. field. lra.
Qed.
Lemma n_physical_unit g psi dc : 0 < norm2 (psi ^ 2 * psi ^ 2) g dc -> dot (fun i j => psi ^ 4 * sy g i j) (n_physical g psi dc) (n_physical g psi dc) = 1.
Proof.
  intros H. rewrite <- (unit_gen _ _ _ H). unfold n_physical, dot. unfold sum3. replace (psi ^ 4) with (psi ^ 2 * psi ^ 2) by ring. reflexivity.
Qed.
Lemma n_conformal_unit g dc : 0 < norm2 1 g dc -> dot (sy g) (n_conformal g dc) (n_conformal g dc) = 1.
Proof. intros H. rewrite <- (unit_gen _ _ _ H). unfold n_conformal, dot. unfold sum3. ring. Qed.
(** flat conformal metric: orthogonal to every tangent vector *)
Lemma n_physical_ortho psi dc t : sum3 (fun i => dc i * t i) = 0 -> dot (fun i j => psi ^ 4 * sy delta i j) (n_physical delta psi dc) t = 0.
Proof.
  intros H. unfold n_physical. set (q := sqrt _). unfold dot. unfold Rdiv. transitivity (psi ^ 4 * / q * sum3 (fun i => dc i * t i)).
  - unfold sum3, sy, delta; cbn. ring.
  - rewrite H. ring.
Qed.
Lemma n_conformal_ortho dc t : sum3 (fun i => dc i * t i) = 0 -> dot (sy delta) (n_conformal delta dc) t = 0.
Proof.
  intros H. unfold n_conformal. set (q := sqrt _). unfold dot. unfold Rdiv. transitivity (/ q * sum3 (fun i => dc i * t i)).
  - unfold sum3, sy, delta; cbn. ring.
  - rewrite H. ring.
Qed.
(** a metric that is not conformally flat-diagonal: the numbers n are not normal to the surface c = const *)
Definition skew_g (i j : nat) : R := match i, j with 0%nat, 1%nat => 1 | 0%nat, 0%nat => 2 | 1%nat, 1%nat => 2 | 2%nat, 2%nat => 1 | _, _ => 0 end.
Lemma n_not_normal : exists (g : nat -> nat -> R) (dc t : nat -> R), (forall v, sum3 (fun i => v i ^ 2) <> 0 -> 0 < norm2 1 g v) /\
  sum3 (fun i => dc i * t i) = 0 /\ dot (sy g) (n_conformal g dc) t <> 0 /\ dot (fun i j => 1 ^ 4 * sy g i j) (n_physical g 1 dc) t <> 0.
Proof.
  exists skew_g, (fun i => delta i 0), (fun i => delta i 1). split; [|split; [|split]].
  - intros v H. unfold norm2, skew_g. unfold sum3 in H. nra.
  - unfold sum3, delta. cbn. ring.
  - unfold n_conformal. set (q := sqrt _). assert (Hq : 0 < q) by (apply sqrt_lt_R0; unfold norm2, skew_g, delta; cbn; lra).
    unfold dot, sum3, sy, skew_g, delta. cbn [Nat.leb Nat.eqb]. replace (_ + _) with (/ q) by (field; lra). apply Rinv_neq_0_compat. lra.
  - unfold n_physical. set (q := sqrt _). assert (Hq : 0 < q) by (apply sqrt_lt_R0; unfold norm2, skew_g, delta; cbn; lra).
    unfold dot, sum3, sy, skew_g, delta. cbn [Nat.leb Nat.eqb]. replace (_ + _) with (/ q) by (field; lra). apply Rinv_neq_0_compat. lra.
Qed.

(** data used by the examples: flat conformal metric, psi and its derivative, A = diag(1,-1,0) constant *)
Definition exA (i j : nat) : R := match i, j with 0%nat, 0%nat => 1 | 1%nat, 1%nat => -1 | _, _ => 0 end.
Definition ex_flat (p : R) (dp : nat -> R) (ddp : nat -> nat -> R) (k : R) : conf :=
  mkconf delta delta (fun _ _ _ => 0) (fun _ _ _ => 0) (fun _ _ _ => 0) (fun _ _ _ _ => 0) p dp ddp 1 exA (fun _ _ _ => 0) k (fun _ => 0) 1 0 1 (fun _ => 0).
Lemma ex_flat_ok p dp ddp k : p <> 0 -> conf_ok (ex_flat p dp ddp k).
Proof.
  intros Hp. unfold conf_ok. cbn [cg cig cdg cdig cG cA cpsi cap ex_flat].
  split; [|split; [|split; [|split; [|split; [|split]]]]].
  - intros i j Hi Hj. idx i; idx j; unfold sum3, sy, delta; cbn; ring.
  - intros i j Hi Hj. idx i; idx j; unfold sum3, sy, delta; cbn; ring.
  - intros i j l Hi Hj Hl. unfold syd. unfold sum3. cbn [ex_flat]; repeat (destruct (Nat.leb _ _)); ring.
  - intros k0 i j Hk Hi Hj. unfold syl, Christoffel, syd. unfold sum3. repeat (destruct (Nat.leb _ _)); field.
  - unfold sum3, sy, delta, exA; cbn. ring.
  - exact Hp.
  - lra.
Qed.
Lemma ex_flat_vac p dp ddp k i : p <> 0 -> (i < 3)%nat -> mom_vac (ex_flat p dp ddp k) i = 0.
Proof.
  intros Hp Hi. unfold mom_vac, MomConstraint.
  pose proof (ex_flat_ok p dp ddp k Hp) as OK. pose proof OK as OK'. destruct OK as (H & _ & _ & _ & T & _).
  set (c := ex_flat p dp ddp k) in *.
  assert (CD : DivT (Gam c) (Ku c) (dKu c) i = DivT (syl (cG c)) (sy (cA c)) (syd (cdA c)) i / cpsi c ^ 10 + sum3 (fun j => sy (cig c) i j * cdK c j) / (3 * cpsi c ^ 4))
      by (apply (conf_div (sy (cg c)) (sy (cig c)) (syd (cdig c)) (syl (cG c)) (cpsi c) (cdpsi c)); auto using sy_sym, syl_sym, compat_g, compat_ig).
  rewrite CD. unfold DivT, sum3. subst c. cbn [ex_flat cG cA cdA cdK cig cpsi]. unfold syl, syd. repeat (destruct (Nat.leb _ _)); cbn; field; exact Hp.
Qed.
(** the volume term of the Ossokine form is not the divergence in the metric it is integrated with *)
Lemma ossokine_refuted : exists c i, (i < 3)%nat /\ conf_ok c /\ (forall k, (k < 3)%nat -> mom_vac c k = 0) /\
  DivV (Gam c) (Pos c i) (dPos c i) <> - GenObsPO.store_obs__G (envPO c (fun _ => 0) 1) (fun _ => 0) i.
Proof.
  exists (ex_flat 1 (fun i => delta i 0) (fun _ _ => 0) 0), 0%nat. split; [lia|]. split; [apply ex_flat_ok; lra|]. split; [intros; apply ex_flat_vac; [lra|assumption]|].
  set (c := ex_flat 1 (fun i => delta i 0) (fun _ _ => 0) 0).
  assert (OK : conf_ok c) by (apply ex_flat_ok; lra).
  pose proof (PO_div c (fun _ => 0) OK (fun _ => 0) 0%nat ltac:(lia)) as X.
  rewrite (ex_flat_vac 1 (fun i => delta i 0) (fun _ _ => 0) 0 0%nat ltac:(lra) ltac:(lia) : mom_vac c 0%nat = 0) in X.
  unfold DivV. intros E.
  assert (Z : sum3 (fun i => sum3 (fun j => Gam c i i j * Pos c 0 j)) = 0) by lra.
  revert Z. unfold c. cbv -[Rplus Rminus Rmult Rdiv Ropp Rinv pow IZR PI]. lra.
Qed.
