(** ShiftProofs.v - A^ij, shift equations and their Jacobians. *)
From Verif Require Import RealBase TensorSpec XctsSpec ShiftSpec XctsProofs.
From Verif Require GenAConfIJ GenJacB0 GenJacB1 GenJacB2 GenFlatJacB0 GenFlatJacB1 GenFlatJacB2 GenEqB0 GenEqB1 GenEqB2.
From Coquelicot Require Import Coquelicot.

(** ** the Jacobian rows *)
Lemma jac_b0_formula : forall E : GenJacB0.env,
  GenJacB0.B_out_schur_B E = GenJacB0.JConfC E *
    shift_op (sy (GenJacB0.igConf E)) (syl (GenJacB0.ChrisConf E)) (syld (GenJacB0.dChrisConf E)) (sy (GenJacB0.RicciConf E))
      (dln (GenJacB0.psi E) (GenJacB0.alphaPsi E) (GenJacB0.dpsi E) (GenJacB0.dalphaPsi E))
      (fun k => delta k 0 * GenJacB0.kd E) (fun k a => delta k 0 * GenJacB0.J1 E a) (fun k a b => delta k 0 * GenJacB0.J2 E (ax2 a b)) 0.
Proof.
  intros E. destruct E as [Ch j1 j2 jc Ri ap dCh dap dp igc k p].
  cbv -[Rplus Rminus Rmult Ropp Rinv pow IZR PI]. generalize (/ p) (/ ap); intros ip iap. field.
Qed.
Lemma jac_b1_formula : forall E : GenJacB1.env,
  GenJacB1.B_out_schur_B E = GenJacB1.JConfC E *
    shift_op (sy (GenJacB1.igConf E)) (syl (GenJacB1.ChrisConf E)) (syld (GenJacB1.dChrisConf E)) (sy (GenJacB1.RicciConf E))
      (dln (GenJacB1.psi E) (GenJacB1.alphaPsi E) (GenJacB1.dpsi E) (GenJacB1.dalphaPsi E))
      (fun k => delta k 1 * GenJacB1.kd E) (fun k a => delta k 1 * GenJacB1.J1 E a) (fun k a b => delta k 1 * GenJacB1.J2 E (ax2 a b)) 1.
Proof.
  intros E. destruct E as [Ch j1 j2 jc Ri ap dCh dap dp igc k p].
  cbv -[Rplus Rminus Rmult Ropp Rinv pow IZR PI]. generalize (/ p) (/ ap); intros ip iap. field.
Qed.
Lemma jac_b2_formula : forall E : GenJacB2.env,
  GenJacB2.B_out_schur_B E = GenJacB2.JConfC E *
    shift_op (sy (GenJacB2.igConf E)) (syl (GenJacB2.ChrisConf E)) (syld (GenJacB2.dChrisConf E)) (sy (GenJacB2.RicciConf E))
      (dln (GenJacB2.psi E) (GenJacB2.alphaPsi E) (GenJacB2.dpsi E) (GenJacB2.dalphaPsi E))
      (fun k => delta k 2 * GenJacB2.kd E) (fun k a => delta k 2 * GenJacB2.J1 E a) (fun k a b => delta k 2 * GenJacB2.J2 E (ax2 a b)) 2.
Proof.
  intros E. destruct E as [Ch j1 j2 jc Ri ap dCh dap dp igc k p].
  cbv -[Rplus Rminus Rmult Ropp Rinv pow IZR PI]. generalize (/ p) (/ ap); intros ip iap. field.
Qed.
Lemma jac_b0_E : forall E, GenJacB0.E_out_schur_Et E = GenJacB0.B_out_schur_B E. Proof. reflexivity. Qed.
Lemma jac_b1_E : forall E, GenJacB1.E_out_schur_Et E = GenJacB1.B_out_schur_B E. Proof. reflexivity. Qed.
Lemma jac_b2_E : forall E, GenJacB2.E_out_schur_Et E = GenJacB2.B_out_schur_B E. Proof. reflexivity. Qed.

(** ** A^ij *)
Lemma A_formula : forall (E : GenAConfIJ.env) old i j,
  inverse3 (sy (GenAConfIJ.gConf E)) (sy (GenAConfIJ.igConf E)) -> (i <= j)%nat -> (j < 3)%nat -> GenAConfIJ.alphaPsi E <> 0 ->
  GenAConfIJ.store__LBij E old i j = LV (sy (GenAConfIJ.igConf E)) (syl (GenAConfIJ.ChrisConf E)) (GenAConfIJ.beta E) (GenAConfIJ.dbeta E) i j /\
  GenAConfIJ.store_AConfIJ E old i j = GenAConfIJ.psi E ^ 7 / (2 * GenAConfIJ.alphaPsi E) *
    LV (sy (GenAConfIJ.igConf E)) (syl (GenAConfIJ.ChrisConf E)) (GenAConfIJ.beta E) (GenAConfIJ.dbeta E) i j.
Proof.
  intros E old i j H Hij Hj Hap. assert (Hi : (i < 3)%nat) by lia.
  assert (T : forall W : nat -> nat -> R, sum3 (fun l => sum3 (fun m => sy (GenAConfIJ.gConf E) l m * sum3 (fun n => sy (GenAConfIJ.igConf E) l n * W n m))) = sum3 (fun m => W m m)).
  { intros W. transitivity (sum3 (fun m => sum3 (fun n => sum3 (fun l => sy (GenAConfIJ.gConf E) m l * sy (GenAConfIJ.igConf E) l n) * W n m))).
    - unfold sum3, sy; cbn [Nat.leb]. ring.
    - unfold sum3 at 1 2. rewrite !H by lia. unfold delta, sum3; cbn [Nat.eqb]. ring. }
  specialize (T (DV (syl (GenAConfIJ.ChrisConf E)) (GenAConfIJ.beta E) (GenAConfIJ.dbeta E))).
  unfold LV, divV. rewrite <- T. clear T H.
  destruct E. cbn in Hap.
  split; idx i; idx j; try (exfalso; lia); clear Hij; cbv -[Rplus Rminus Rmult Rdiv Ropp Rinv pow IZR PI]; field; try assumption.
Qed.
