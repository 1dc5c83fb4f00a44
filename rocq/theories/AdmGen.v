(** AdmGen.v - the generated ADM code computes the physical geometry and the constraints. *)
From Verif Require Import RealBase TensorSpec RicciFinal XctsSpec ShiftSpec XctsProofs AdmSpec AdmConf.
From Verif Require GenKDD GenKUU GenKUU2 GenAdmG GenHamMom GenHamMom2 GenEqPsi GenEqB0 GenEqB1 GenEqB2 GenAConfIJ2.

Lemma admg_formula : forall (E : GenAdmG.env) old i j, (i < 3)%nat -> (j < 3)%nat ->
  sy (GenAdmG.store_adm_g E old) i j = Pg (sy (GenAdmG.gConf E)) (GenAdmG.psi E) i j.
Proof. intros E old i j Hi Hj. destruct E. idx i; idx j; cbv -[Rplus Rminus Rmult Rdiv Ropp Rinv pow IZR PI]; ring. Qed.
Lemma kuu_formula : forall (E : GenKUU.env) old i j, GenKUU.psi E <> 0 -> (i < 3)%nat -> (j < 3)%nat ->
  sy (GenKUU.store_adm_KIJ E old) i j = Kup (sy (GenKUU.igConf E)) (GenKUU.psi E) (sy (GenKUU.AConfIJ E)) (GenKUU.trK E) i j.
Proof. intros E old i j H Hi Hj. destruct E. cbn in H. idx i; idx j; cbv -[Rplus Rminus Rmult Rdiv Ropp Rinv pow IZR PI]; field; assumption. Qed.
Lemma kdd_formula : forall (E : GenKDD.env) old i j, GenKDD.psi E <> 0 -> (i < 3)%nat -> (j < 3)%nat ->
  sy (GenKDD.store_adm_Kij E old) i j = Kdn (sy (GenKDD.gConf E)) (GenKDD.psi E) (sy (GenKDD.AConfIJ E)) (GenKDD.trK E) i j.
Proof. intros E old i j H Hi Hj. destruct E. cbn in H. idx i; idx j; cbv -[Rplus Rminus Rmult Rdiv Ropp Rinv pow IZR PI]; field; assumption. Qed.
(** raising K_ij *)
Lemma kuu2_formula : forall (E : GenKUU2.env) old i j, GenKUU2.psi E <> 0 -> (i < 3)%nat -> (j < 3)%nat ->
  sy (GenKUU2.store_adm_KIJ E old) i j = sum3 (fun l => sum3 (fun m => Pig (sy (GenKUU2.igConf E)) (GenKUU2.psi E) i l * Pig (sy (GenKUU2.igConf E)) (GenKUU2.psi E) j m * sy (GenKUU2.adm_Kij E) l m)).
Proof. intros E old i j H Hi Hj. destruct E. cbn in H. idx i; idx j; cbv -[Rplus Rminus Rmult Rdiv Ropp Rinv pow IZR PI]; field; assumption. Qed.

(** scratch version *)
Lemma ham2_formula : forall E : GenHamMom2.env, GenHamMom2.psi E <> 0 ->
  GenHamMom2.out_ham E = HamConstraint (GenHamMom2.EConfC E) (sy (GenHamMom2.adm_g E)) (sy (GenHamMom2.adm_ig E))
    (sy (RicciOf (syl (GenHamMom2.Gamma E)) (syld (GenHamMom2.dGamma E)))) (sy (GenHamMom2.adm_KIJ E)) (GenHamMom2.trK E) (GenHamMom2.EConfP E / GenHamMom2.psi E ^ 6).
Proof. intros E H. destruct E. cbn in H. cbv -[Rplus Rminus Rmult Rdiv Ropp Rinv pow IZR PI]. field; assumption. Qed.
Lemma mom2_formula : forall (E : GenHamMom2.env) old i, GenHamMom2.psi E <> 0 -> (i < 3)%nat ->
  GenHamMom2.store_mom E old i = MomConstraint (GenHamMom2.JConfC E) (sy (GenHamMom2.adm_ig E)) (syl (GenHamMom2.Gamma E))
    (sy (GenHamMom2.adm_KIJ E)) (syd (GenHamMom2.dadm_KIJ E)) (GenHamMom2.dtrK E) (fun i => GenHamMom2.JConfP E i / GenHamMom2.psi E ^ 6) i.
Proof. intros E old i H Hi. destruct E. cbn in H. idx i; cbv -[Rplus Rminus Rmult Rdiv Ropp Rinv pow IZR PI]; field; assumption. Qed.

(** version from the conformal identities *)
Lemma ham_formula : forall E : GenHamMom.env, GenHamMom.psi E <> 0 ->
  GenHamMom.out_ham E = (GenHamMom.trRicciConf E - 8 * Lap (sy (GenHamMom.igConf E)) (syl (GenHamMom.ChrisConf E)) (GenHamMom.dpsi E) (sy (GenHamMom.ddpsi E)) / GenHamMom.psi E) / GenHamMom.psi E ^ 4
    - square2 (Pg (sy (GenHamMom.gConf E)) (GenHamMom.psi E)) (Kup (sy (GenHamMom.igConf E)) (GenHamMom.psi E) (sy (GenHamMom.AConfIJ E)) (GenHamMom.trK E))
    + GenHamMom.trK E ^ 2 - 16 * PI * (GenHamMom.EConf E / GenHamMom.psi E ^ 6).
Proof. intros E H. destruct E. cbn in H. cbv -[Rplus Rminus Rmult Rdiv Ropp Rinv pow IZR PI]. field; assumption. Qed.
Lemma mom_formula : forall (E : GenHamMom.env) old i, GenHamMom.psi E <> 0 -> (i < 3)%nat ->
  GenHamMom.store_mom E old i = MomConstraint 1 (Pig (sy (GenHamMom.igConf E)) (GenHamMom.psi E))
    (PG (sy (GenHamMom.gConf E)) (sy (GenHamMom.igConf E)) (syl (GenHamMom.ChrisConf E)) (GenHamMom.psi E) (GenHamMom.dpsi E))
    (Kup (sy (GenHamMom.igConf E)) (GenHamMom.psi E) (sy (GenHamMom.AConfIJ E)) (GenHamMom.trK E))
    (dKup (sy (GenHamMom.igConf E)) (syd (GenHamMom.digConf E)) (GenHamMom.psi E) (GenHamMom.dpsi E) (sy (GenHamMom.AConfIJ E)) (syd (GenHamMom.dAConfIJ E)) (GenHamMom.trK E) (GenHamMom.dtrK E))
    (GenHamMom.dtrK E) (fun i => GenHamMom.JConf E i / GenHamMom.psi E ^ 6) i.
Proof. intros E old i H Hi. destruct E. cbn in H. idx i; cbv -[Rplus Rminus Rmult Rdiv Ropp Rinv pow IZR PI]; field; assumption. Qed.

(** SCTT: A^ij = (L beta)^ij *)
Lemma A_sctt : forall (E : GenAConfIJ2.env) old i j,
  inverse3 (sy (GenAConfIJ2.gConf E)) (sy (GenAConfIJ2.igConf E)) -> (i <= j)%nat -> (j < 3)%nat ->
  GenAConfIJ2.store_AConfIJ E old i j = LV (sy (GenAConfIJ2.igConf E)) (syl (GenAConfIJ2.ChrisConf E)) (GenAConfIJ2.beta E) (GenAConfIJ2.dbeta E) i j.
Proof.
  intros E old i j H Hij Hj. assert (Hi : (i < 3)%nat) by lia.
  assert (T : forall W : nat -> nat -> R, sum3 (fun l => sum3 (fun m => sy (GenAConfIJ2.gConf E) l m * sum3 (fun n => sy (GenAConfIJ2.igConf E) l n * W n m))) = sum3 (fun m => W m m)).
  { intros W. transitivity (sum3 (fun m => sum3 (fun n => sum3 (fun l => sy (GenAConfIJ2.gConf E) m l * sy (GenAConfIJ2.igConf E) l n) * W n m))).
    - unfold sum3, sy; cbn [Nat.leb]. ring.
    - unfold sum3 at 1 2. rewrite !H by lia. unfold delta, sum3; cbn [Nat.eqb]. ring. }
  specialize (T (DV (syl (GenAConfIJ2.ChrisConf E)) (GenAConfIJ2.beta E) (GenAConfIJ2.dbeta E))).
  unfold LV, divV. rewrite <- T. clear T H. destruct E.
  idx i; idx j; try (exfalso; lia); clear Hij; cbv -[Rplus Rminus Rmult Rdiv Ropp Rinv pow IZR PI]; field.
Qed.
