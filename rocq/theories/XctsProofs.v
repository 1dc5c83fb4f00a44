(** XctsProofs.v - generated residuals and Jacobians of the XCTS metric equations. *)
From Verif Require Import RealBase TensorSpec XctsSpec.
From Verif Require GenEqPsi GenJacPsi GenEqAlphaPsi GenJacAlphaPsi GenEqB0 GenEqB1 GenEqB2.
From Coquelicot Require Import Coquelicot.

Ltac gen E := destruct E; cbv -[Rplus Rminus Rmult Rdiv Ropp Rinv pow IZR PI].

(** ** residual = covariant expression *)
Lemma psi_formula : forall E : GenEqPsi.env, GenEqPsi.psi E <> 0 ->
  GenEqPsi.out_schur_F E =
  ham (Lap (sy (GenEqPsi.igConf E)) (syl (GenEqPsi.ChrisConf E)) (GenEqPsi.dpsi E) (sy (GenEqPsi.ddpsi E)))
      (GenEqPsi.trRicciConf E) (GenEqPsi.trK E) (GenEqPsi.AConfIJ2 E) (GenEqPsi.EConfC E) (GenEqPsi.EConfP E) (GenEqPsi.psi E).
Proof. intros E H. gen E. cbn in H. field. assumption. Qed.

Lemma jac_psi_formula : forall E : GenJacPsi.env, GenJacPsi.psi E <> 0 ->
  GenJacPsi.B_out_schur_B E =
  dham (GenJacPsi.trRicciConf E) (GenJacPsi.trK E) (GenJacPsi.AConfIJ2 E) (GenJacPsi.EConfC E) (GenJacPsi.EConfP E) (GenJacPsi.psi E)
       (Lap (sy (GenJacPsi.igConf E)) (syl (GenJacPsi.ChrisConf E)) (GenJacPsi.J1 E) (fun a b => GenJacPsi.J2 E (ax2 a b))) (GenJacPsi.kd E).
Proof. intros E H. gen E. cbn in H. field. assumption. Qed.
Lemma jac_psi_E : forall E : GenJacPsi.env, GenJacPsi.E_out_schur_Et E = GenJacPsi.B_out_schur_B E.
Proof. intros; reflexivity. Qed.

Lemma ap_formula : forall E : GenEqAlphaPsi.env, GenEqAlphaPsi.psi E <> 0 ->
  GenEqAlphaPsi.out_schur_F E =
  lapse (Lap (sy (GenEqAlphaPsi.igConf E)) (syl (GenEqAlphaPsi.ChrisConf E)) (GenEqAlphaPsi.dalphaPsi E) (sy (GenEqAlphaPsi.ddalphaPsi E)))
      (GenEqAlphaPsi.trRicciConf E) (GenEqAlphaPsi.trK E) (GenEqAlphaPsi.AConfIJ2 E) (GenEqAlphaPsi.SConfC E)
      (GenEqAlphaPsi.EConfP E) (GenEqAlphaPsi.SConfP E) (GenEqAlphaPsi.psi E)
      (sum3 (fun i => GenEqAlphaPsi.beta E i * GenEqAlphaPsi.dtrK E i)) (GenEqAlphaPsi.alphaPsi E).
Proof. intros E H. gen E. cbn in H. field. assumption. Qed.

Lemma jac_ap_formula : forall E : GenJacAlphaPsi.env, GenJacAlphaPsi.psi E <> 0 ->
  GenJacAlphaPsi.B_out_schur_B E =
  lapse (Lap (sy (GenJacAlphaPsi.igConf E)) (syl (GenJacAlphaPsi.ChrisConf E)) (GenJacAlphaPsi.J1 E) (fun a b => GenJacAlphaPsi.J2 E (ax2 a b)))
      (GenJacAlphaPsi.trRicciConf E) (GenJacAlphaPsi.trK E) (GenJacAlphaPsi.AConfIJ2 E) (GenJacAlphaPsi.SConfC E)
      (GenJacAlphaPsi.EConfP E) (GenJacAlphaPsi.SConfP E) (GenJacAlphaPsi.psi E) 0 (GenJacAlphaPsi.kd E).
Proof. intros E H. gen E. cbn in H. field. assumption. Qed.
Lemma jac_ap_E : forall E : GenJacAlphaPsi.env, GenJacAlphaPsi.E_out_schur_Et E = GenJacAlphaPsi.B_out_schur_B E.
Proof. intros; reflexivity. Qed.

Lemma b0_formula : forall E : GenEqB0.env, GenEqB0.psi E <> 0 ->
  GenEqB0.out_schur_F E = mom (DivT (syl (GenEqB0.ChrisConf E)) (sy (GenEqB0.AConfIJ E)) (syd (GenEqB0.dAConfIJ E)) 0)
    (sum3 (fun j => sy (GenEqB0.igConf E) 0 j * GenEqB0.dtrK E j)) (GenEqB0.JConfC E) (GenEqB0.JConfP E 0) (GenEqB0.psi E) (GenEqB0.alphaPsi E).
Proof. intros E H. gen E. cbn in H. field. assumption. Qed.
Lemma b1_formula : forall E : GenEqB1.env, GenEqB1.psi E <> 0 ->
  GenEqB1.out_schur_F E = mom (DivT (syl (GenEqB1.ChrisConf E)) (sy (GenEqB1.AConfIJ E)) (syd (GenEqB1.dAConfIJ E)) 1)
    (sum3 (fun j => sy (GenEqB1.igConf E) 1 j * GenEqB1.dtrK E j)) (GenEqB1.JConfC E) (GenEqB1.JConfP E 1) (GenEqB1.psi E) (GenEqB1.alphaPsi E).
Proof. intros E H. gen E. cbn in H. field. assumption. Qed.
Lemma b2_formula : forall E : GenEqB2.env, GenEqB2.psi E <> 0 ->
  GenEqB2.out_schur_F E = mom (DivT (syl (GenEqB2.ChrisConf E)) (sy (GenEqB2.AConfIJ E)) (syd (GenEqB2.dAConfIJ E)) 2)
    (sum3 (fun j => sy (GenEqB2.igConf E) 2 j * GenEqB2.dtrK E j)) (GenEqB2.JConfC E) (GenEqB2.JConfP E 2) (GenEqB2.psi E) (GenEqB2.alphaPsi E).
Proof. intros E H. gen E. cbn in H. field. assumption. Qed.

(** ** linear operations and bumps *)
Lemma lin_bump n M u l t i : (l < n)%nat -> lin n M (bump u l t) i = lin n M u i + t * M i l.
Proof.
  intros Hl. unfold lin, bump.
  rewrite (Rsum_ext n _ (fun j => M i j * u j + (if Nat.eqb j l then t * M i l else 0))).
  - rewrite Rsum_plus, (Rsum_single n l (fun j => if Nat.eqb j l then _ else _)); auto.
    + rewrite Nat.eqb_refl. reflexivity.
    + intros j _ H. destruct (Nat.eqb_spec j l); [contradiction|reflexivity].
  - intros j _. destruct (Nat.eqb_spec j l); [subst|]; ring.
Qed.
Lemma bump_krd u l t i : bump u l t i = u i + t * krd i l.
Proof. unfold bump, krd. destruct (Nat.eqb i l); ring. Qed.

Lemma Lap_affine ig G d dd d' dd' t : Lap ig G (fun a => d a + t * d' a) (fun a b => dd a b + t * dd' a b) = Lap ig G d dd + t * Lap ig G d' dd'.
Proof. unfold Lap, sum3. ring. Qed.
Lemma Lap_ext ig G d dd d' dd' : (forall a, (a < 3)%nat -> d a = d' a) -> (forall a b, (a < 3)%nat -> (b < 3)%nat -> dd a b = dd' a b) ->
  Lap ig G d dd = Lap ig G d' dd'.
Proof. intros H H'. unfold Lap, sum3. rewrite !H, !H' by lia. reflexivity. Qed.

Lemma derivable_ext f g x l : (forall t, f t = g t) -> derivable_pt_lim f x l -> derivable_pt_lim g x l.
Proof. intros H D e He. destruct (D e He) as [d Hd]. exists d. intros h Hh Hl. rewrite <- !H. apply Hd; assumption. Qed.

Lemma ham_derive lap dlap Rs K A2 C E p dp : p <> 0 ->
  derivable_pt_lim (fun t => ham (lap + t * dlap) Rs K A2 C E (p + t * dp)) 0 (dham Rs K A2 C E p dlap dp).
Proof.
  intros H. apply is_derive_Reals. unfold ham, dham. auto_derive.
  - rewrite Rmult_0_l, Rplus_0_r. repeat split; try assumption.
    change (8 * p ^ 7 <> 0). apply Rmult_integral_contrapositive_currified; [lra|apply pow_nonzero, H].
  - rewrite !Rmult_0_l, !Rplus_0_r. field. assumption.
Qed.
Lemma lapse_derive lap dlap Rs K A2 C E S p b ap dap :
  derivable_pt_lim (fun t => lapse (lap + t * dlap) Rs K A2 C E S p b (ap + t * dap)) 0 (lapse dlap Rs K A2 C E S p 0 dap).
Proof.
  apply (derivable_ext (fun t => lapse lap Rs K A2 C E S p b ap + t * lapse dlap Rs K A2 C E S p 0 dap)).
  - intros. unfold lapse, Rdiv. ring.
  - apply is_derive_Reals. auto_derive; [trivial|ring].
Qed.

(** ** the assembled residuals and matrices *)
Section Patch.
  Variables (n : nat) (D1 D2 : nat -> nat -> nat -> R).
  Variables (A2 C P S K Rs psi ap : nodal) (G : nat -> nat -> nat -> nat -> R) (ig : nat -> nat -> nat -> R) (beta dK : nat -> nat -> R).

  Definition res_psi (u : nodal) (ijk : nat) : R :=
    GenEqPsi.out_schur_F (GenEqPsi.mk (A2 ijk) (G ijk) (C ijk) (P ijk)
      (fun a b => lin n (D2 (ax2 a b)) u ijk) (fun a => lin n (D1 a) u ijk) (ig ijk) (u ijk) (K ijk) (Rs ijk)).
  Definition env_jac_psi (u : nodal) (ijk lmn : nat) : GenJacPsi.env :=
    GenJacPsi.mk (A2 ijk) (G ijk) (C ijk) (P ijk) (fun a => D1 a ijk lmn) (fun c => D2 c ijk lmn) (ig ijk) (krd ijk lmn) (u ijk) (K ijk) (Rs ijk).

  Lemma ax2_sy (f : nat -> R) a b : (a < 3)%nat -> (b < 3)%nat -> sy (fun a b => f (ax2 a b)) a b = f (ax2 a b).
  Proof. intros. idx a; idx b; reflexivity. Qed.

  Lemma psi_jacobian : forall u,
    jacobian n res_psi u (fun i => u i <> 0) (fun ijk lmn => GenJacPsi.B_out_schur_B (env_jac_psi u ijk lmn)).
  Proof.
    intros u ijk lmn Hi Hl Hu.
    rewrite jac_psi_formula by exact Hu.
    set (L0 := Lap (sy (ig ijk)) (syl (G ijk)) (fun a => lin n (D1 a) u ijk) (fun a b => lin n (D2 (ax2 a b)) u ijk)).
    set (L1 := Lap (sy (GenJacPsi.igConf _)) _ _ _).
    assert (X : forall t, bump u lmn t ijk <> 0 -> res_psi (bump u lmn t) ijk =
       ham (L0 + t * L1) (Rs ijk) (K ijk) (A2 ijk) (C ijk) (P ijk) (u ijk + t * krd ijk lmn)).
    { intros t Ht. unfold res_psi. rewrite psi_formula by exact Ht. cbn [GenEqPsi.igConf GenEqPsi.ChrisConf GenEqPsi.dpsi GenEqPsi.ddpsi GenEqPsi.trRicciConf GenEqPsi.trK GenEqPsi.AConfIJ2 GenEqPsi.EConfC GenEqPsi.EConfP GenEqPsi.psi].
      rewrite bump_krd. f_equal. unfold L0, L1. rewrite <- Lap_affine.
      apply Lap_ext; intros; cbn [GenJacPsi.J1 GenJacPsi.J2 env_jac_psi].
      - apply lin_bump, Hl.
      - rewrite (ax2_sy (fun c => lin n (D2 c) (bump u lmn t) ijk)) by assumption. apply lin_bump, Hl. }
    pose proof (ham_derive L0 L1 (Rs ijk) (K ijk) (A2 ijk) (C ijk) (P ijk) (u ijk) (krd ijk lmn) Hu) as D.
    apply is_derive_Reals. apply is_derive_Reals in D.
    apply (is_derive_ext_loc _ _ _ _ ) with (2 := D).
    assert (Q : locally 0 (fun t => u ijk + t * krd ijk lmn <> 0)).
    { assert (Hc : continuous (fun t => u ijk + t * krd ijk lmn) 0).
      { apply (ex_derive_continuous (fun t => u ijk + t * krd ijk lmn)). auto_derive; trivial. }
      apply (Hc (fun y => y <> 0)). rewrite Rmult_0_l, Rplus_0_r. apply (open_neq 0), Hu. }
    revert Q. apply filter_imp. intros t Ht. symmetry. apply X. rewrite bump_krd. exact Ht.
  Qed.

  Definition res_ap (u : nodal) (ijk : nat) : R :=
    GenEqAlphaPsi.out_schur_F (GenEqAlphaPsi.mk (A2 ijk) (G ijk) (P ijk) (C ijk) (S ijk) (u ijk) (beta ijk)
      (fun a => lin n (D1 a) u ijk) (fun a b => lin n (D2 (ax2 a b)) u ijk) (dK ijk) (ig ijk) (psi ijk) (K ijk) (Rs ijk)).
  Definition env_jac_ap (ijk lmn : nat) : GenJacAlphaPsi.env :=
    GenJacAlphaPsi.mk (A2 ijk) (G ijk) (P ijk) (fun a => D1 a ijk lmn) (fun c => D2 c ijk lmn) (C ijk) (S ijk) (ig ijk) (krd ijk lmn) (psi ijk) (K ijk) (Rs ijk).

  Lemma ap_jacobian : forall u,
    jacobian n res_ap u (fun i => psi i <> 0) (fun ijk lmn => GenJacAlphaPsi.B_out_schur_B (env_jac_ap ijk lmn)).
  Proof.
    intros u ijk lmn Hi Hl Hu.
    rewrite jac_ap_formula by exact Hu.
    set (L0 := Lap (sy (ig ijk)) (syl (G ijk)) (fun a => lin n (D1 a) u ijk) (fun a b => lin n (D2 (ax2 a b)) u ijk)).
    set (L1 := Lap (sy (GenJacAlphaPsi.igConf _)) _ _ _).
    apply (derivable_ext (fun t => lapse (L0 + t * L1) (Rs ijk) (K ijk) (A2 ijk) (C ijk) (P ijk) (S ijk) (psi ijk)
       (sum3 (fun i => beta ijk i * dK ijk i)) (u ijk + t * krd ijk lmn))); [|apply lapse_derive].
    intros t. unfold res_ap. rewrite ap_formula by exact Hu.
    cbn [GenEqAlphaPsi.igConf GenEqAlphaPsi.ChrisConf GenEqAlphaPsi.dalphaPsi GenEqAlphaPsi.ddalphaPsi GenEqAlphaPsi.trRicciConf GenEqAlphaPsi.trK GenEqAlphaPsi.AConfIJ2 GenEqAlphaPsi.SConfC GenEqAlphaPsi.EConfP GenEqAlphaPsi.SConfP GenEqAlphaPsi.psi GenEqAlphaPsi.alphaPsi GenEqAlphaPsi.beta GenEqAlphaPsi.dtrK].
    rewrite bump_krd. f_equal. unfold L0, L1. rewrite <- Lap_affine.
    apply Lap_ext; intros; cbn [GenJacAlphaPsi.J1 GenJacAlphaPsi.J2 env_jac_ap].
    - symmetry; apply lin_bump, Hl.
    - rewrite (ax2_sy (fun c => lin n (D2 c) (bump u lmn t) ijk)) by assumption. symmetry; apply lin_bump, Hl.
  Qed.
End Patch.
