(** FourierExamples.v - the failures (Nyquist mode, Uint wrap-around) and concrete cases. *)
From Coq Require Import ZArith Lia.
From Verif Require Import RealBase TrigSums FourierSpec FourierModel FourierProofs FourierFinal.

Definition va : nat -> R := fun i => match i with O => 1 | _ => -1 end.
Lemma nyquist_1d : exists c w, r2cft_1d va 2 = Some c /\ c2rft_1d c 2 = Some w /\ w 0%nat = 2 * va 0%nat /\ w 1%nat = 2 * va 1%nat.
Proof.
  eexists. eexists. split; [reflexivity|]. split; [reflexivity|].
  pose proof (roundtrip_odd_even va 2 _ _ ltac:(unfold fits; cbn; lia) eq_refl eq_refl) as H.
  split; [rewrite (H 0%nat) by lia|rewrite (H 1%nat) by lia]; cbn; unfold alt, va; cbn; field.
Qed.
Lemma odd_1d : fits 3 /\ Nat.even 3 = false /\ exists c w, r2cft_1d va 3 = Some c /\ c2rft_1d c 3 = Some w /\ w 0%nat = 1 /\ w 2%nat = -1.
Proof.
  split; [unfold fits; cbn; lia|]. split; [reflexivity|]. eexists. eexists. split; [reflexivity|]. split; [reflexivity|].
  pose proof (roundtrip_odd_even va 3 _ _ ltac:(unfold fits; cbn; lia) eq_refl eq_refl) as H.
  split; [rewrite (H 0%nat) by lia|rewrite (H 2%nat) by lia]; cbn; ring.
Qed.
(** ** the Uint product m*i wraps *)
Lemma nat_of (z : Z) : (0 <= z)%Z -> exists n, Z.of_nat n = z.
Proof. intros H. exists (Z.to_nat z). apply Z2Nat.id. exact H. Qed.
Lemma wrap_gen n i0 m : Z.of_nat n = 92683%Z -> Z.of_nat i0 = 92682%Z -> Z.of_nat m = 46341%Z ->
  ~ (forall v n c, r2cft_1d v n = Some c -> forall m, (m <= n / 2)%nat ->
    fst (c m) = Rsum n (fun i => v i * cos (INR m * xnode n i)) / INR n).
Proof.
  intros Zn Zi Zm H.
  assert (Rn : INR n = 92683) by (rewrite INR_IZR_INZ, Zn; reflexivity). assert (Ri : INR i0 = 92682) by (rewrite INR_IZR_INZ, Zi; reflexivity).
  assert (Rm : INR m = 46341) by (rewrite INR_IZR_INZ, Zm; reflexivity).
  set (v := fun i => if Nat.eqb i i0 then 1 else 0).
  assert (Hn : n <> O) by lia. assert (Hi : (i0 < n)%nat) by lia.
  assert (Hm : (m <= n / 2)%nat). { pose proof (Nat.div_mod n 2 ltac:(lia)). pose proof (Nat.mod_upper_bound n 2 ltac:(lia)). lia. }
  specialize (H v n _ (r2_eq v n Hn) m Hm). cbv zeta beta in H. rewrite csum_val in H. cbn [fst] in H.
  rewrite (Rsum_single n i0 _ Hi) in H by (intros k _ Hk; unfold v; destruct (Nat.eqb_spec k i0); [congruence|cbn; ring]).
  rewrite (Rsum_single n i0 (fun i => v i * _) Hi) in H by (intros k _ Hk; unfold v; destruct (Nat.eqb_spec k i0); [congruence|ring]).
  unfold v in H. rewrite Nat.eqb_refl in H. cbn [cscal cexpi fst] in H. unfold umul, xnode in H. rewrite Zm, Zi, Rn, Ri, Rm in H.
  change ((46341 * 92682) mod 4294967296)%Z with 9266%Z in H. pose proof PI_RGT_0 as P.
  assert (A : 0 < cos (9266 * (-2 * PI / 92683))).
  { apply cos_gt_0; [|]; [apply Rmult_lt_reg_r with 92683; [lra|]|apply Rmult_lt_reg_r with 92683; [lra|]]; field_simplify; lra. }
  assert (B : cos (46341 * (92682 * (2 * PI / 92683))) < 0).
  { replace (46341 * (92682 * (2 * PI / 92683))) with (- (2 * PI * 46341 / 92683) + 2 * INR m * PI) by (rewrite Rm; field).
    rewrite cos_2nPI, cos_neg. apply cos_lt_0; apply Rmult_lt_reg_r with 92683; try lra; field_simplify; lra. }
  lra.
Qed.
Lemma wrap_refuted : ~ (forall v n c, r2cft_1d v n = Some c -> forall m, (m <= n / 2)%nat ->
    fst (c m) = Rsum n (fun i => v i * cos (INR m * xnode n i)) / INR n).
Proof.
  destruct (nat_of 92683 ltac:(lia)) as [n Hn]. destruct (nat_of 92682 ltac:(lia)) as [i Hi]. destruct (nat_of 46341 ltac:(lia)) as [m Hm].
  exact (wrap_gen n i m Hn Hi Hm).
Qed.
(** ** two dimensions and the sphere *)
Lemma nyquist_2d : interp_2d (fst (r2cft_2d va 2 1)) (snd (r2cft_2d va 2 1)) 2 1 (xnode 2 0) (xnode 1 0) = 2 /\ va (IJ 0 0 1) = 1.
Proof.
  split; [|reflexivity]. rewrite interp_kernel by lia. cbn [Rsum].
  pose proof (DN_node 2 0 0 ltac:(lia) ltac:(lia)) as A. pose proof (DN_node 2 0 1 ltac:(lia) ltac:(lia)) as B. pose proof (DN_node 1 0 0 ltac:(lia) ltac:(lia)) as C.
  rewrite A, B, C. unfold IJ, va. cbn. field.
Qed.
(** cos(theta) on 2 x 2 points: theta = 0, pi *)
Definition vs : nat -> R := fun k => match k with O | 1%nat => 1 | _ => -1 end.
Lemma nyquist_S2 : (forall i j, (i < 2)%nat -> (j < 2)%nat -> vs (IJ i j 2) = cos (INR i * PI / INR (2 - 1))) /\
  exists rC iC, r2cft_2d_S2 vs 2 2 false = Some (rC, iC) /\ interp_S2 rC iC 2 2 0 0 = 2.
Proof.
  split.
  { intros i j Hi Hj. destruct i as [|[|]]; [| |lia]; destruct j as [|[|]]; try lia; cbn; rewrite ?Rmult_0_l, ?Rmult_1_l; unfold Rdiv; rewrite ?Rmult_0_l, ?cos_0, ?Rinv_1, ?Rmult_1_r, ?cos_PI; reflexivity. }
  unfold r2cft_2d_S2. change (2 mod 2)%nat with 0%nat. change (0 =? 0)%nat with true. cbv iota zeta. change (2 - 1)%nat with 1%nat. change (2 * 1)%nat with 2%nat.
  exists (fst (r2cft_2d (ext_S2 vs 1 2) 2 2)), (snd (r2cft_2d (ext_S2 vs 1 2) 2 2)). split; [f_equal; apply surjective_pairing|].
  unfold interp_S2. change (2 * (2 - 1))%nat with 2%nat. rewrite interp_kernel by lia. cbn [Rsum].
  pose proof (DN_node 2 0 0 ltac:(lia) ltac:(lia)) as A. pose proof (DN_node 2 0 1 ltac:(lia) ltac:(lia)) as B.
  replace (xnode 2 0) with 0 in * by (unfold xnode; cbn; ring). rewrite A, B. unfold ext_S2, IJ, vs. cbn. field.
Qed.
(** sin(theta) cos(phi): smooth on the sphere, resolved by 4 x 6 points *)
Definition c11 (k l : nat) : R := if (Nat.eqb k 1 && Nat.eqb l 1)%bool then 1 else 0.
Lemma t11 x y : trig2 1 1 (fun _ _ => 0) (fun _ _ => 0) c11 (fun _ _ => 0) x y = sin x * cos y.
Proof. unfold trig2, c11. cbn. rewrite !Rmult_1_l. ring. Qed.
Lemma ex_S2 : on_sphere (trig2 1 1 (fun _ _ => 0) (fun _ _ => 0) c11 (fun _ _ => 0)) /\ (1 + 2 < 4)%nat /\ (2 * (1 + 1) < 6)%nat /\ (6 mod 2 = 0)%nat /\
  trig2 1 1 (fun _ _ => 0) (fun _ _ => 0) c11 (fun _ _ => 0) (PI / 2) 0 = 1.
Proof.
  split; [|repeat split; try lia; rewrite t11, sin_PI2, cos_0; ring].
  intros th ph. rewrite !t11. replace (2 * PI - th) with (- th + 2 * INR 1 * PI) by (cbn; ring). rewrite sin_2nPI, sin_neg, neg_cos. ring.
Qed.
Lemma ex_1d : (2 * 1 < 4)%nat /\ fits 4 /\ trig1 1 (fun k => INR k) (fun _ => 2) 0 = 1.
Proof. split; [lia|]. split; [unfold fits; cbn; lia|]. unfold trig1. cbn. rewrite !Rmult_0_r, cos_0, sin_0. ring. Qed.
