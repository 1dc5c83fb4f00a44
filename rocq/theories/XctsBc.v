(** XctsBc.v - boundary conditions of the XCTS metric fields and their Jacobians; flat shift Jacobian. *)
From Verif Require Import RealBase TensorSpec XctsSpec ShiftSpec XctsProofs ShiftProofs.
From Verif Require GenBcPsi GenJacBcPsi GenBcAlphaPsi GenJacBcAlphaPsi GenBc2AlphaPsi GenJacBc2AlphaPsi.
From Verif Require GenBcB0 GenBcB1 GenBcB2 GenJacBcB0 GenJacBcB1 GenJacBcB2 GenFlatJacB0 GenFlatJacB1 GenFlatJacB2.
From Coquelicot Require Import Coquelicot.

(** ** outgoing expansion of the surface with conformal unit normal s *)
(** D_i s^i of the conformal connection *)
Definition div1 (G : nat -> nat -> nat -> R) (s : nat -> R) (ds : nat -> nat -> R) : R :=
  sum3 (fun i => ds i i) + sum3 (fun i => sum3 (fun j => G i i j * s j)).
Definition lower (g : nat -> nat -> R) (s : nat -> R) (i : nat) : R := sum3 (fun j => g i j * s j).
(** Expansion Theta = D_i S^i + K_ij S^i S^j - K with the physical metric psi^4 g, connection
    G + 2(delta L + delta L - g W), S = s/psi^2, K^ij = A^ij/psi^10 + g^ij K/(3 psi^4): *)
Definition expansion (g : nat -> nat -> R) G (A : nat -> nat -> R) (psi : R) (dpsi : nat -> R) (K : R) (s : nat -> R) (ds : nat -> nat -> R) : R :=
  let S := fun i => s i / psi ^ 2 in
  let dS := fun i a => ds i a / psi ^ 2 - 2 * s i * dpsi a / psi ^ 3 in
  sum3 (fun i => dS i i) + sum3 (fun i => sum3 (fun j => G i i j * S j)) + 6 * sum3 (fun j => dpsi j / psi * S j)
  + (sum3 (fun i => sum3 (fun j => A i j / psi ^ 10 * lower (fun a b => psi ^ 4 * g a b) S i * lower (fun a b => psi ^ 4 * g a b) S j)) + K / 3)
  - K.

Lemma bc_psi_expansion : forall E : GenBcPsi.env, GenBcPsi.psi E <> 0 ->
  GenBcPsi.inner_out_schur_F E = GenBcPsi.psi E ^ 6 / 4 *
   expansion (sy (GenBcPsi.gConf E)) (syl (GenBcPsi.ChrisConf E)) (sy (GenBcPsi.AConfIJ E)) (GenBcPsi.psi E) (GenBcPsi.dpsi E) (GenBcPsi.trK E)
     (GenBcPsi.bh_sConf E) (GenBcPsi.dbh_sConf E).
Proof. intros E H. gen E. cbn in H. field. assumption. Qed.

Lemma flat_b0 : forall E : GenFlatJacB0.env,
  GenFlatJacB0.B_out_schur_B E = GenFlatJacB0.JConfC E *
    shift_op (sy (GenFlatJacB0.igConf E)) (fun _ _ _ => 0) (fun _ _ _ _ => 0) (fun _ _ => 0)
      (dln (GenFlatJacB0.psi E) (GenFlatJacB0.alphaPsi E) (GenFlatJacB0.dpsi E) (GenFlatJacB0.dalphaPsi E))
      (fun _ => 0) (fun k a => delta k 0 * GenFlatJacB0.J1 E a) (fun k a b => delta k 0 * GenFlatJacB0.J2 E (ax2 a b)) 0
  /\ GenFlatJacB0.E_out_schur_Et E = GenFlatJacB0.B_out_schur_B E.
Proof.
  intros E. split; [|reflexivity]. destruct E as [j1 j2 jc ap dap dp igc p].
  cbv -[Rplus Rminus Rmult Ropp Rinv pow IZR PI]. generalize (/ p) (/ ap); intros ip iap. field.
Qed.

Lemma flat_b1 : forall E : GenFlatJacB1.env,
  GenFlatJacB1.B_out_schur_B E = GenFlatJacB1.JConfC E *
    shift_op (sy (GenFlatJacB1.igConf E)) (fun _ _ _ => 0) (fun _ _ _ _ => 0) (fun _ _ => 0)
      (dln (GenFlatJacB1.psi E) (GenFlatJacB1.alphaPsi E) (GenFlatJacB1.dpsi E) (GenFlatJacB1.dalphaPsi E))
      (fun _ => 0) (fun k a => delta k 1 * GenFlatJacB1.J1 E a) (fun k a b => delta k 1 * GenFlatJacB1.J2 E (ax2 a b)) 1
  /\ GenFlatJacB1.E_out_schur_Et E = GenFlatJacB1.B_out_schur_B E.
Proof.
  intros E. split; [|reflexivity]. destruct E as [j1 j2 jc ap dap dp igc p].
  cbv -[Rplus Rminus Rmult Ropp Rinv pow IZR PI]. generalize (/ p) (/ ap); intros ip iap. field.
Qed.

Lemma flat_b2 : forall E : GenFlatJacB2.env,
  GenFlatJacB2.B_out_schur_B E = GenFlatJacB2.JConfC E *
    shift_op (sy (GenFlatJacB2.igConf E)) (fun _ _ _ => 0) (fun _ _ _ _ => 0) (fun _ _ => 0)
      (dln (GenFlatJacB2.psi E) (GenFlatJacB2.alphaPsi E) (GenFlatJacB2.dpsi E) (GenFlatJacB2.dalphaPsi E))
      (fun _ => 0) (fun k a => delta k 2 * GenFlatJacB2.J1 E a) (fun k a b => delta k 2 * GenFlatJacB2.J2 E (ax2 a b)) 2
  /\ GenFlatJacB2.E_out_schur_Et E = GenFlatJacB2.B_out_schur_B E.
Proof.
  intros E. split; [|reflexivity]. destruct E as [j1 j2 jc ap dap dp igc p].
  cbv -[Rplus Rminus Rmult Ropp Rinv pow IZR PI]. generalize (/ p) (/ ap); intros ip iap. field.
Qed.

(** ** boundary residuals of a patch as functions of the nodal values, and their derivatives *)
Lemma quart_derive A D K p dp q dq : p <> 0 ->
  derivable_pt_lim (fun t => (p + t * dp) ^ 3 * (1 / 4 * A / (p + t * dp) ^ 3 + 1 / 4 * D * (p + t * dp) + (q + t * dq) - 1 / 6 * (p + t * dp) ^ 3 * K)) 0
   (3 * dp * p ^ 2 * q + dp * p ^ 3 * (D - p ^ 2 * K) + p ^ 3 * dq).
Proof.
  intros H. apply is_derive_Reals. auto_derive.
  - rewrite Rmult_0_l, Rplus_0_r. repeat split. change (p ^ 3 <> 0). apply pow_nonzero, H.
  - rewrite !Rmult_0_l, !Rplus_0_r. field. assumption.
Qed.

Lemma affine_d a b : derivable_pt_lim (fun t => a + t * b) 0 b.
Proof. apply is_derive_Reals. auto_derive; [trivial|ring]. Qed.

Section Patch.
  Variables (n : nat) (D1 : nat -> nat -> nat -> R).
  Variables (K psi ibca v0 : nodal) (A g : nat -> nat -> nat -> R) (G : nat -> nat -> nat -> nat -> R) (s ibcb B1 : nat -> nat -> R) (ds : nat -> nat -> nat -> R).

  (** psi: outer psi = 1, inner the apparent horizon condition *)
  Definition env_bc_psi (u : nodal) (ijk : nat) : GenBcPsi.env :=
    GenBcPsi.mk (A ijk) (G ijk) (s ijk) (ds ijk) (fun a => lin n (D1 a) u ijk) (g ijk) (u ijk) (K ijk).
  Definition env_jac_bc_psi (u : nodal) (ijk lmn : nat) : GenJacBcPsi.env :=
    GenJacBcPsi.mk (G ijk) (fun a => D1 a ijk lmn) (s ijk) (ds ijk) (fun a => lin n (D1 a) u ijk) (krd ijk lmn) (u ijk) (K ijk).

  Lemma bc_psi_outer : forall u,
    jacobian n (fun u i => GenBcPsi.outer_out_schur_F (env_bc_psi u i)) u (fun _ => True) (fun i l => GenJacBcPsi.outer_B_out_schur_B (env_jac_bc_psi u i l)).
  Proof.
    intros u ijk lmn Hi Hl _. cbn.
    apply (derivable_ext (fun t => (u ijk - 1) + t * krd ijk lmn)).
    - intros t. unfold GenBcPsi.outer_out_schur_F, GenBcPsi.outer_outerB_F; cbn. rewrite bump_krd. ring.
    - apply is_derive_Reals. auto_derive; [trivial|]. unfold GenJacBcPsi.outer_B_out_schur_B, GenJacBcPsi.outer_B_outerB_Bpart; cbn. ring.
  Qed.
  Lemma bc_psi_inner : forall u,
    jacobian n (fun u i => GenBcPsi.inner_out_schur_F (env_bc_psi u i)) u (fun i => u i <> 0) (fun i l => GenJacBcPsi.inner_B_out_schur_B (env_jac_bc_psi u i l)).
  Proof.
    intros u ijk lmn Hi Hl Hu. cbn beta.
    pose proof (quart_derive (GenBcPsi.inner__AIJsisj (env_bc_psi u ijk)) (GenBcPsi.inner__DiHSi (env_bc_psi u ijk)) (K ijk) (u ijk) (krd ijk lmn)
      (sum3 (fun a => s ijk a * lin n (D1 a) u ijk)) (sum3 (fun a => s ijk a * D1 a ijk lmn)) Hu) as D.
    eapply derivable_ext; [|replace (GenJacBcPsi.inner_B_out_schur_B _) with (3 * krd ijk lmn * u ijk ^ 2 * sum3 (fun a => s ijk a * lin n (D1 a) u ijk) +
       krd ijk lmn * u ijk ^ 3 * (GenBcPsi.inner__DiHSi (env_bc_psi u ijk) - u ijk ^ 2 * K ijk) + u ijk ^ 3 * sum3 (fun a => s ijk a * D1 a ijk lmn)); [exact D|]].
    - intros t. unfold GenBcPsi.inner_out_schur_F, GenBcPsi.inner_innerB_F, GenBcPsi.inner_psi3.
      change (GenBcPsi.inner__AIJsisj (env_bc_psi (bump u lmn t) ijk)) with (GenBcPsi.inner__AIJsisj (env_bc_psi u ijk)).
      change (GenBcPsi.inner__DiHSi (env_bc_psi (bump u lmn t) ijk)) with (GenBcPsi.inner__DiHSi (env_bc_psi u ijk)).
      generalize (GenBcPsi.inner__AIJsisj (env_bc_psi u ijk)) (GenBcPsi.inner__DiHSi (env_bc_psi u ijk)); intros a d.
      cbn [env_bc_psi GenBcPsi.psi GenBcPsi.bh_sConf GenBcPsi.dpsi GenBcPsi.trK]. rewrite !lin_bump by exact Hl. rewrite bump_krd.
      unfold sum3. unfold Rdiv. ring.
    - unfold GenJacBcPsi.inner_B_out_schur_B, GenJacBcPsi.inner_B_innerB_Bpart.
      change (GenJacBcPsi.inner_B__DiHSi_b (env_jac_bc_psi u ijk lmn)) with (GenBcPsi.inner__DiHSi (env_bc_psi u ijk)).
      generalize (GenBcPsi.inner__DiHSi (env_bc_psi u ijk)); intros d.
      unfold GenJacBcPsi.inner_B_psi2, GenJacBcPsi.inner_B_psi3, GenJacBcPsi.inner_B_Jpsi_D0, GenJacBcPsi.inner_B_Jpsi_D1, GenJacBcPsi.inner_B_Jpsi_D2, sum3.
      cbn [env_jac_bc_psi GenJacBcPsi.psi GenJacBcPsi.bh_sConf GenJacBcPsi.dpsi GenJacBcPsi.trK GenJacBcPsi.kd GenJacBcPsi.J1]. ring.
  Qed.
  (** the coupling to interface points uses the same formula; the outer one is 0, which is the derivative there *)
  Lemma bc_psi_E : forall u i l, GenJacBcPsi.inner_E_out_schur_Et (env_jac_bc_psi u i l) = GenJacBcPsi.inner_B_out_schur_B (env_jac_bc_psi u i l) /\
    (i <> l -> GenJacBcPsi.outer_E_out_schur_Et (env_jac_bc_psi u i l) = GenJacBcPsi.outer_B_out_schur_B (env_jac_bc_psi u i l)).
  Proof.
    intros u i l. split; [reflexivity|]. intros H. cbn. unfold GenJacBcPsi.outer_E_out_schur_Et, GenJacBcPsi.outer_E_outerB_Epart, GenJacBcPsi.outer_B_out_schur_B, GenJacBcPsi.outer_B_outerB_Bpart, env_jac_bc_psi; cbn.
    unfold krd. destruct (Nat.eqb_spec i l); [contradiction|reflexivity].
  Qed.

  (** alpha psi, T1: outer 1, inner prescribed lapse; T2: inner s^i d_i(alpha psi) = 0 *)
  Definition env_bc_ap (u : nodal) (ijk : nat) := GenBcAlphaPsi.mk (u ijk) (ibca ijk) (psi ijk).
  Definition env_bc2_ap (u : nodal) (ijk : nat) := GenBc2AlphaPsi.mk (u ijk) (s ijk) (fun a => lin n (D1 a) u ijk).
  Definition env_jac_bc_ap (ijk lmn : nat) := GenJacBcAlphaPsi.mk (krd ijk lmn).
  Definition env_jac_bc2_ap (ijk lmn : nat) := GenJacBc2AlphaPsi.mk (fun a => D1 a ijk lmn) (s ijk) (krd ijk lmn).

  Ltac affine t := intros u ijk lmn Hi Hl _; cbn beta;
    match goal with |- derivable_pt_lim (fun t => ?f (?e (bump u lmn t) ijk)) 0 ?J =>
      apply (derivable_ext (fun t => f (e u ijk) + t * J));
      [intros t; cbv -[Rplus Rminus Rmult Ropp bump lin krd IZR]; rewrite ?lin_bump by exact Hl; rewrite ?bump_krd; ring
      |apply affine_d] end.
  Lemma bc_ap_outer : forall u, jacobian n (fun u i => GenBcAlphaPsi.outer_out_schur_F (env_bc_ap u i)) u (fun _ => True) (fun i l => GenJacBcAlphaPsi.outer_B_out_schur_B (env_jac_bc_ap i l)).
  Proof. affine t. Qed.
  Lemma bc_ap_inner : forall u, jacobian n (fun u i => GenBcAlphaPsi.inner_out_schur_F (env_bc_ap u i)) u (fun _ => True) (fun i l => GenJacBcAlphaPsi.inner_B_out_schur_B (env_jac_bc_ap i l)).
  Proof. affine t. Qed.
  Lemma bc2_ap_outer : forall u, jacobian n (fun u i => GenBc2AlphaPsi.outer_out_schur_F (env_bc2_ap u i)) u (fun _ => True) (fun i l => GenJacBc2AlphaPsi.outer_B_out_schur_B (env_jac_bc2_ap i l)).
  Proof. affine t. Qed.
  Lemma bc2_ap_inner : forall u, jacobian n (fun u i => GenBc2AlphaPsi.inner_out_schur_F (env_bc2_ap u i)) u (fun _ => True) (fun i l => GenJacBc2AlphaPsi.inner_B_out_schur_B (env_jac_bc2_ap i l)).
  Proof. affine t. Qed.

  Definition env_bc_b0 (u : nodal) (ijk : nat) := GenBcB0.mk (fun _ => u ijk) (B1 ijk) (ibcb ijk) (v0 ijk).
  Definition env_jac_bc_b0 (ijk lmn : nat) := GenJacBcB0.mk (krd ijk lmn).
  Lemma bc_b0_outer : forall u, jacobian n (fun u i => GenBcB0.outer_out_schur_F (env_bc_b0 u i)) u (fun _ => True) (fun i l => GenJacBcB0.outer_B_out_schur_B (env_jac_bc_b0 i l)).
  Proof. affine t. Qed.
  Lemma bc_b0_inner : forall u, jacobian n (fun u i => GenBcB0.inner_out_schur_F (env_bc_b0 u i)) u (fun _ => True) (fun i l => GenJacBcB0.inner_B_out_schur_B (env_jac_bc_b0 i l)).
  Proof. affine t. Qed.

  Definition env_bc_b1 (u : nodal) (ijk : nat) := GenBcB1.mk (fun _ => u ijk) (B1 ijk) (ibcb ijk) (v0 ijk).
  Definition env_jac_bc_b1 (ijk lmn : nat) := GenJacBcB1.mk (krd ijk lmn).
  Lemma bc_b1_outer : forall u, jacobian n (fun u i => GenBcB1.outer_out_schur_F (env_bc_b1 u i)) u (fun _ => True) (fun i l => GenJacBcB1.outer_B_out_schur_B (env_jac_bc_b1 i l)).
  Proof. affine t. Qed.
  Lemma bc_b1_inner : forall u, jacobian n (fun u i => GenBcB1.inner_out_schur_F (env_bc_b1 u i)) u (fun _ => True) (fun i l => GenJacBcB1.inner_B_out_schur_B (env_jac_bc_b1 i l)).
  Proof. affine t. Qed.

  Definition env_bc_b2 (u : nodal) (ijk : nat) := GenBcB2.mk (fun _ => u ijk) (B1 ijk) (ibcb ijk) (v0 ijk).
  Definition env_jac_bc_b2 (ijk lmn : nat) := GenJacBcB2.mk (krd ijk lmn).
  Lemma bc_b2_outer : forall u, jacobian n (fun u i => GenBcB2.outer_out_schur_F (env_bc_b2 u i)) u (fun _ => True) (fun i l => GenJacBcB2.outer_B_out_schur_B (env_jac_bc_b2 i l)).
  Proof. affine t. Qed.
  Lemma bc_b2_inner : forall u, jacobian n (fun u i => GenBcB2.inner_out_schur_F (env_bc_b2 u i)) u (fun _ => True) (fun i l => GenJacBcB2.inner_B_out_schur_B (env_jac_bc_b2 i l)).
  Proof. affine t. Qed.
End Patch.
