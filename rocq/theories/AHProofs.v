(** AHProofs.v - proofs about the vectors and scalars computed on a horizon: normal, its derivative,
    boundary value of the shift, spin vector fields (ControlModel.v) and expansion (GenAH.v). *)
From Coq Require Import Reals Lra Lia Psatz Ranalysis List.
From Verif Require Import RealBase TensorSpec AdmSpec AdmFinal ObsSpec ControlModel.
From Verif Require ObsNormal GenAH.
Open Scope R_scope.

(** ** expansion *)
Lemma Gam_trace c j : conf_ok c -> (j < 3)%nat ->
  sum3 (fun i => Gam c i i j) = sum3 (fun i => syl (cG c) i i j) + 6 * cdpsi c j / cpsi c.
Proof.
  intros (H & H' & _ & _ & _ & Hp & _) Hj.
  assert (T : sum3 (fun i => sum3 (fun m => sy (cg c) i j * (sy (cig c) i m * cdpsi c m))) = cdpsi c j).
  { transitivity (sum3 (fun m => sum3 (fun i => sy (cig c) m i * sy (cg c) i j) * cdpsi c m)).
    - unfold sum3. assert (S : forall a b, sy (cig c) a b = sy (cig c) b a).
      { intros a b. unfold sy. destruct (Nat.leb_spec a b), (Nat.leb_spec b a); try reflexivity; try lia. replace a with b by lia. reflexivity. }
      rewrite (S 1%nat 0%nat), (S 2%nat 0%nat), (S 2%nat 1%nat). ring.
    - unfold sum3 at 1. rewrite !H' by lia. idx j; unfold delta; cbn; ring. }
  assert (E : sum3 (fun i => Gam c i i j) = sum3 (fun i => syl (cG c) i i j) + 2 * (4 * cdpsi c j - sum3 (fun i => sum3 (fun m => sy (cg c) i j * (sy (cig c) i m * cdpsi c m)))) / cpsi c).
  { clear T H H'. destruct c as [g ig dg dig G dG p dp ddp ap A dA K dK e1 e2 e3 e4]. cbn [cpsi cdpsi cg cig cG] in *.
    unfold Gam, PG, Cp, Wp, Lp. cbn [cpsi cdpsi cg cig cG].
    idx j; unfold sum3, delta, syl, sy; cbn [Nat.eqb Nat.leb]; field; exact Hp. }
  rewrite E, T. field. exact Hp.
Qed.
Theorem expansion_ok c s ds : conf_ok c -> dot (sy (cg c)) s s = 1 ->
  GenAH.Theta (GenAH.mk (cA c) (cG c) s ds (cdpsi c) (cg c) (cpsi c) (cK c))
  = cpsi c ^ 3 / 4 *
    (DivV (Gam c) (fun i => s i / cpsi c ^ 2) (fun i k => ds i k / cpsi c ^ 2 - 2 * s i * cdpsi c k / cpsi c ^ 3)
     + sum3 (fun i => sum3 (fun j => Kd c i j * (s i / cpsi c ^ 2) * (s j / cpsi c ^ 2))) - cK c).
Proof.
  intros OK Hs. pose proof OK as (_ & _ & _ & _ & _ & Hp & _).
  set (V := fun i => s i / cpsi c ^ 2).
  assert (D : sum3 (fun i => sum3 (fun j => Gam c i i j * V j)) = sum3 (fun j => (sum3 (fun i => syl (cG c) i i j) + 6 * cdpsi c j / cpsi c) * V j)).
  { transitivity (sum3 (fun j => sum3 (fun i => Gam c i i j) * V j)); [unfold sum3; ring|].
    unfold sum3 at 1 4. rewrite !Gam_trace by (auto; lia). reflexivity. }
  assert (KK : sum3 (fun i => sum3 (fun j => Kd c i j * V i * V j)) =
     sum3 (fun i => sum3 (fun j => sum3 (fun l => sum3 (fun m => sy (cg c) i l * sy (cg c) j m * sy (cA c) l m)) * s i * s j)) / cpsi c ^ 6
     + cK c / 3 * dot (sy (cg c)) s s).
  { unfold Kd, Kdn, V, dot. unfold sum3. field. exact Hp. }
  unfold DivV. rewrite D. change (fun i => sum3 (fun j => Kd c i j * (s i / cpsi c ^ 2) * (s j / cpsi c ^ 2))) with (fun i => sum3 (fun j => Kd c i j * V i * V j)). rewrite KK, Hs. clear D KK Hs OK. unfold V.
  destruct c as [g ig dg dig G dG p dp ddp ap A dA K dK e1 e2 e3 e4]. cbn [cpsi cdpsi cg cig cG cA cK] in *.
  cbv -[Rplus Rminus Rmult Rdiv Ropp Rinv pow IZR]. field. exact Hp.
Qed.
Lemma max_expansion_spec l : 0 <= max_expansion l /\ (forall E, In E l -> Rabs (GenAH.Theta E) <= max_expansion l) /\
  (max_expansion l = 0 \/ exists E, In E l /\ max_expansion l = Rabs (GenAH.Theta E)).
Proof.
  unfold max_expansion. set (f := fun m E => _).
  assert (G : forall l m, 0 <= m -> m <= fold_left f l m /\ (forall E, In E l -> Rabs (GenAH.Theta E) <= fold_left f l m) /\
     (fold_left f l m = m \/ exists E, In E l /\ fold_left f l m = Rabs (GenAH.Theta E))).
  { clear l. induction l as [|E l IH]; intros m Hm; cbn [fold_left].
    - repeat split; [lra|intros E []|left; reflexivity].
    - assert (F : (f m E = m \/ f m E = Rabs (GenAH.Theta E)) /\ m <= f m E /\ Rabs (GenAH.Theta E) <= f m E).
      { unfold f. cbv zeta. destruct (ltR_spec m (Rabs (GenAH.Theta E))); split; auto; lra. }
      destruct F as (F0 & F1 & F2). destruct (IH (f m E) ltac:(lra)) as (A & B & C). repeat split; [lra| |].
      + intros E' [<-|H']; [lra|apply B; exact H'].
      + destruct C as [C|(E' & HE & C)]; [|right; exists E'; split; [right; exact HE|exact C]].
        destruct F0 as [F0|F0]; [left; congruence|right; exists E; split; [left; reflexivity|congruence]]. }
  destruct (G l 0 (Rle_refl 0)) as (A & B & C). auto.
Qed.

(** ** the normal *)
Definition sq3 (x : nat -> R) : R := x 0%nat * x 0%nat + x 1%nat * x 1%nat + x 2%nat * x 2%nat.
Lemma rad_sq x : rad x * rad x = sq3 x.
Proof. apply sqrt_sqrt. unfold sq3. nra. Qed.
Lemma rad_pos x : 0 < sq3 x -> 0 < rad x.
Proof. intros H. apply sqrt_lt_R0. exact H. Qed.
Definition posdef3 (g : nat -> nat -> R) : Prop := forall v, 0 < sq3 v -> 0 < dot (sy g) v v.
Lemma bh__n_pos g x : posdef3 g -> 0 < sq3 x -> 0 < bh__n g x /\ bh__n g x * bh__n g x = dot (sy g) (nhat x) (nhat x).
Proof.
  intros PD Hx. pose proof (rad_pos x Hx) as Hr. pose proof (rad_sq x) as Hr2.
  assert (U : sq3 (nhat x) = 1). { unfold sq3, nhat. unfold sq3 in Hr2. replace 1 with ((rad x * rad x)/(rad x * rad x)) by (field; lra). rewrite Hr2 at 1. field. lra. }
  assert (P : 0 < dot (sy g) (nhat x) (nhat x)) by (apply PD; lra).
  assert (E : forall n : nat -> R, g 0%nat 0%nat * n 0%nat ^ 2 + 2 * g 0%nat 1%nat * n 0%nat * n 1%nat + 2 * g 0%nat 2%nat * n 0%nat * n 2%nat
        + g 1%nat 1%nat * n 1%nat ^ 2 + 2 * g 1%nat 2%nat * n 1%nat * n 2%nat + g 2%nat 2%nat * n 2%nat ^ 2 = dot (sy g) n n).
  { intros n. unfold dot, sum3, sy. cbn [Nat.leb]. ring. }
  unfold bh__n. cbv zeta. rewrite E. split; [apply sqrt_lt_R0; exact P|apply sqrt_sqrt; lra].
Qed.
Theorem sConf_unit g x : posdef3 g -> 0 < sq3 x -> dot (sy g) (sConf (bh__n g x) x) (sConf (bh__n g x) x) = 1.
Proof.
  intros PD Hx. destruct (bh__n_pos g x PD Hx) as [HN H2]. set (N := bh__n g x) in *. set (n := nhat x) in *.
  transitivity (dot (sy g) n n / (N*N)); [|rewrite <- H2; field; lra].
  unfold dot, sConf, sum3. subst n. field. lra.
Qed.
(** it is n divided by a positive number, hence points away from the centre *)
Lemma sConf_outward g x : posdef3 g -> 0 < sq3 x -> exists k, 0 < k /\ forall i, sConf (bh__n g x) x i = k * x i.
Proof.
  intros PD Hx. destruct (bh__n_pos g x PD Hx) as [HN _]. pose proof (rad_pos x Hx).
  exists (/ (rad x * bh__n g x)). split; [apply Rinv_0_lt_compat; nra|]. intros i. unfold sConf, nhat. field. lra.
Qed.
(** not orthogonal to the sphere in a general metric *)
Lemma sConf_not_normal : exists g x t, posdef3 g /\ 0 < sq3 x /\ x 0%nat * t 0%nat + x 1%nat * t 1%nat + x 2%nat * t 2%nat = 0 /\
  dot (sy g) (sConf (bh__n g x) x) t <> 0.
Proof.
  exists ObsNormal.skew_g, (fun i => delta i 0), (fun i => delta i 1).
  assert (PD : posdef3 ObsNormal.skew_g). { intros v H. unfold sq3 in H. unfold dot, sum3, sy, ObsNormal.skew_g. cbn [Nat.leb]. nra. }
  assert (Hx : 0 < sq3 (fun i => delta i 0)) by (unfold sq3, delta; cbn; lra).
  split; [exact PD|]. split; [exact Hx|]. split; [unfold delta; cbn; ring|].
  destruct (sConf_outward _ _ PD Hx) as (k & Hk & E).
  unfold dot, sum3. rewrite !E. unfold sy, ObsNormal.skew_g, delta. cbn [Nat.leb Nat.eqb]. lra.
Qed.
(** and it is when the metric is a multiple of the identity *)
Lemma sConf_normal_flat f x t : 0 < f -> 0 < sq3 x -> x 0%nat * t 0%nat + x 1%nat * t 1%nat + x 2%nat * t 2%nat = 0 ->
  dot (sy (fun i j => f * delta i j)) (sConf (bh__n (fun i j => f * delta i j) x) x) t = 0.
Proof.
  intros Hf Hx Ht. assert (PD : posdef3 (fun i j => f * delta i j)). { intros v H. unfold sq3 in H. unfold dot, sum3, sy, delta. cbn [Nat.leb Nat.eqb]. nra. }
  destruct (sConf_outward _ _ PD Hx) as (k & Hk & E). unfold dot, sum3. rewrite !E. unfold sy, delta. cbn [Nat.leb Nat.eqb].
  replace (_ + _) with (f * k * (x 0%nat * t 0%nat + x 1%nat * t 1%nat + x 2%nat * t 2%nat)) by ring. rewrite Ht. ring.
Qed.

(** the derivative of the normal along a coordinate axis *)
Definition shift3 (x : nat -> R) (j : nat) (h : R) (i : nat) : R := x i + (if Nat.eqb i j then h else 0).
Lemma shift3_0 x j i : shift3 x j 0 i = x i.
Proof. unfold shift3. destruct (Nat.eqb i j); ring. Qed.
Lemma rad_deriv x j : 0 < sq3 x -> (j < 3)%nat -> derivable_pt_lim (fun h => rad (shift3 x j h)) 0 (nhat x j).
Proof.
  intros Hx Hj. unfold rad at 1.
  assert (E0 : forall i, shift3 x j 0 i = x i) by (intros; apply shift3_0).
  assert (P : 0 < shift3 x j 0 0%nat * shift3 x j 0 0%nat + shift3 x j 0 1%nat * shift3 x j 0 1%nat + shift3 x j 0 2%nat * shift3 x j 0 2%nat) by (rewrite !E0; exact Hx).
  assert (D : derivable_pt_lim (fun h => shift3 x j h 0%nat * shift3 x j h 0%nat + shift3 x j h 1%nat * shift3 x j h 1%nat + shift3 x j h 2%nat * shift3 x j h 2%nat) 0 (2 * x j)).
  { assert (S : forall i, (i < 3)%nat -> derivable_pt_lim (fun h => shift3 x j h i * shift3 x j h i) 0 (2 * x i * (if Nat.eqb i j then 1 else 0))).
    { intros i Hi. unfold shift3.
      assert (d : derivable_pt_lim (fun h => x i + (if Nat.eqb i j then h else 0)) 0 (if Nat.eqb i j then 1 else 0)).
      { destruct (Nat.eqb i j).
        - replace 1 with (0 + 1) by ring. apply derivable_pt_lim_plus; [apply derivable_pt_lim_const|apply derivable_pt_lim_id].
        - apply derivable_pt_lim_const. }
      pose proof (derivable_pt_lim_mult _ _ 0 _ _ d d) as M. 
      assert (Q : (if Nat.eqb i j then 1 else 0) * (x i + (if Nat.eqb i j then 0 else 0)) + (x i + (if Nat.eqb i j then 0 else 0)) * (if Nat.eqb i j then 1 else 0) = 2 * x i * (if Nat.eqb i j then 1 else 0)) by (destruct (Nat.eqb i j); ring).
      rewrite <- Q. exact M. }
    assert (T : 2 * x j = 2 * x 0%nat * (if Nat.eqb 0 j then 1 else 0) + 2 * x 1%nat * (if Nat.eqb 1 j then 1 else 0) + 2 * x 2%nat * (if Nat.eqb 2 j then 1 else 0)) by (idx j; cbn; ring).
    rewrite T. refine (derivable_pt_lim_plus (fun h => shift3 x j h 0%nat * shift3 x j h 0%nat + shift3 x j h 1%nat * shift3 x j h 1%nat) (fun h => shift3 x j h 2%nat * shift3 x j h 2%nat) _ _ _ _ _); [|apply S; lia].
    refine (derivable_pt_lim_plus (fun h => shift3 x j h 0%nat * shift3 x j h 0%nat) (fun h => shift3 x j h 1%nat * shift3 x j h 1%nat) _ _ _ _ _); apply S; lia. }
  pose proof (derivable_pt_lim_comp _ sqrt 0 _ _ D (derivable_pt_lim_sqrt _ P)) as C.
  assert (V : / (2 * sqrt (shift3 x j 0 0%nat * shift3 x j 0 0%nat + shift3 x j 0 1%nat * shift3 x j 0 1%nat + shift3 x j 0 2%nat * shift3 x j 0 2%nat)) * (2 * x j) = nhat x j).
  { rewrite !E0. fold (rad x). pose proof (rad_pos x Hx). unfold nhat. field. lra. }
  rewrite V in C. exact C.
Qed.
Lemma nhat_deriv x i j : 0 < sq3 x -> (i < 3)%nat -> (j < 3)%nat ->
  derivable_pt_lim (fun h => nhat (shift3 x j h) i) 0 (((if Nat.eqb i j then 1 else 0) - nhat x i * nhat x j) / rad x).
Proof.
  intros Hx Hi Hj. pose proof (rad_pos x Hx) as Hr. unfold nhat at 1.
  assert (E0 : rad (shift3 x j 0) = rad x) by (unfold rad; rewrite !shift3_0; reflexivity).
  assert (d : derivable_pt_lim (fun h => shift3 x j h i) 0 (if Nat.eqb i j then 1 else 0)).
  { unfold shift3. destruct (Nat.eqb i j).
    - replace 1 with (0 + 1) by ring. apply derivable_pt_lim_plus; [apply derivable_pt_lim_const|apply derivable_pt_lim_id].
    - apply derivable_pt_lim_const. }
  pose proof (derivable_pt_lim_div _ _ 0 _ _ d (rad_deriv x j Hx Hj) ltac:(cbv beta; rewrite E0; lra)) as D. cbv beta in D.
  rewrite E0, shift3_0 in D.
  assert (V : ((if Nat.eqb i j then 1 else 0) * rad x - nhat x j * x i) / Rsqr (rad x) = ((if Nat.eqb i j then 1 else 0) - nhat x i * nhat x j) / rad x)
    by (unfold nhat, Rsqr; field; lra).
  rewrite V in D. exact D.
Qed.
Theorem dsConf_ok (N : (nat -> R) -> R) (dN x : nat -> R) i j : 0 < sq3 x -> N x <> 0 -> (i < 3)%nat -> (j < 3)%nat ->
  derivable_pt_lim (fun h => N (shift3 x j h)) 0 (dN j) -> N (shift3 x j 0) = N x ->
  derivable_pt_lim (fun h => sConf (N (shift3 x j h)) (shift3 x j h) i) 0 (dsConf (N x) dN x i j).
Proof.
  intros Hx HN Hi Hj DN E0. pose proof (rad_pos x Hx) as Hr. unfold sConf.
  pose proof (derivable_pt_lim_div _ _ 0 _ _ (nhat_deriv x i j Hx Hi Hj) DN ltac:(cbv beta; rewrite E0; exact HN)) as D. cbv beta in D.
  assert (En : nhat (shift3 x j 0) i = nhat x i) by (unfold nhat, rad; rewrite !shift3_0; reflexivity).
  rewrite E0, En in D.
  match type of D with derivable_pt_lim _ _ ?v => assert (V : v = dsConf (N x) dN x i j) end.
  { unfold dsConf, Rsqr. cbv zeta. field. split; [exact HN|lra]. }
  rewrite V in D. exact D.
Qed.

(** ** rotation vector fields and the boundary value of the shift *)
Lemma OmegaXr_cross Om x i : (i < 3)%nat -> OmegaXr Om x i = cross Om x i /\ W_spin Om x i = cross Om x i.
Proof. intros Hi. idx i; unfold OmegaXr, W_spin, cross, sum3, eps; split; ring. Qed.
Lemma cross_ortho Om x : sum3 (fun i => cross Om x i * x i) = 0 /\ sum3 (fun i => cross Om x i * Om i) = 0.
Proof. unfold cross, sum3, eps. split; ring. Qed.
Theorem beta_normal g ap psi s Om x : psi <> 0 -> dot (sy g) s s = 1 ->
  dot (fun i j => psi ^ 4 * sy g i j) (fun i => beta_ibc ap psi s Om x i - cross Om x i) (fun i => s i / psi ^ 2) = ap/psi.
Proof.
  intros Hp H. assert (B : forall i, (i < 3)%nat -> beta_ibc ap psi s Om x i - cross Om x i = s i / psi^2 * (ap/psi)).
  { intros i Hi. unfold beta_ibc. cbv zeta. rewrite (proj1 (OmegaXr_cross Om x i Hi)). ring. }
  unfold dot in *. unfold sum3 in *. rewrite !B by lia.
  match type of H with ?l = _ => transitivity (ap/psi * l); [field; exact Hp|rewrite H; ring] end.
Qed.
