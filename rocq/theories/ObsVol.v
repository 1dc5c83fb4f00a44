(** ObsVol.v - the generated volume integrands. *)
From Verif Require Import RealBase TensorSpec TensorProofs RicciProofs RicciFinal XctsSpec ShiftSpec XctsProofs AdmSpec AdmConf AdmGen AdmFinal ObsSpec ObsProofs ObsGauss.
From Verif Require GenObsPR GenObsPC GenObsJC.

Section C.
  Variables (c : conf) (n x x0 : nat -> R).
  Hypothesis OK : conf_ok c.
  Let Hp : cpsi c <> 0. Proof. destruct OK as (_ & _ & _ & _ & _ & H & _). exact H. Qed.
  Definition envPC := GenObsPC.mk (cA c) (cG c) (cdpsi c) (cg c) (cig c) n (cpsi c) (cK c).
  Definition envPR := GenObsPR.mk (cA c) (cG c) (cdA c) (cdg c) (cdpsi c) (cdK c) (cg c) n (cpsi c) (cK c).
  Definition envJC := GenObsJC.mk (cA c) (cG c) (cdpsi c) (cg c) (cig c) n (cpsi c) (cK c) (x 0%nat) (x0 0%nat) (x 1%nat) (x0 1%nat) (x 2%nat) (x0 2%nat).
  Lemma pi_raise i j : (i < 3)%nat -> (j < 3)%nat -> piud (gam c) (Ku c) (cK c) i j = sum3 (fun l => igam c i l * momd c l j).
  Proof.
    intros Hi Hj. pose proof (fun l (Hl : (l < 3)%nat) => Kd_lower c OK l j Hl Hj) as X.
    destruct OK as (_ & H' & _).
    unfold momd. rewrite (sum3_ext _ (fun l => igam c i l * (sum3 (fun k => sum3 (fun q => gam c l k * Ku c k q * gam c q j)) - cK c * gam c l j))) by (intros; rewrite X by assumption; reflexivity).
    assert (I : forall k, (k < 3)%nat -> sum3 (fun l => igam c i l * gam c l k) = delta i k).
    { intros k Hk. rewrite <- H' by assumption. unfold igam, gam, Pig, Pg, sum3. field. exact Hp. }
    transitivity (sum3 (fun k => sum3 (fun l => igam c i l * gam c l k) * sum3 (fun q => Ku c k q * gam c q j)) - cK c * sum3 (fun l => igam c i l * gam c l j)).
    - rewrite I by assumption. rewrite (sum3_ext (fun k => sum3 _ * _) (fun k => delta i k * sum3 (fun q => Ku c k q * gam c q j))) by (intros; rewrite I by assumption; reflexivity).
      unfold piud. unfold sum3 at 2. idx i; unfold delta at 2 3 4; cbn [Nat.eqb]; ring.
    - unfold sum3. ring.
  Qed.
  Ltac comp := unfold momd, Kd, gam, Kdn, Pg, Gam, PG, Cp, Wp, Lp; cbv -[Rplus Rminus Rmult Rdiv Ropp Rinv pow IZR PI cpsi cA cg cig cG cdpsi cK]; field; exact Hp.
  Lemma PC_m00 : GenObsPC.v_mom_D0D0 envPC = momd c 0 0. Proof. comp. Qed.
  Lemma PC_m01 : GenObsPC.v_mom_D0D1 envPC = momd c 0 1. Proof. comp. Qed.
  Lemma PC_m02 : GenObsPC.v_mom_D0D2 envPC = momd c 0 2. Proof. comp. Qed.
  Lemma PC_m11 : GenObsPC.v_mom_D1D1 envPC = momd c 1 1. Proof. comp. Qed.
  Lemma PC_m12 : GenObsPC.v_mom_D1D2 envPC = momd c 1 2. Proof. comp. Qed.
  Lemma PC_m22 : GenObsPC.v_mom_D2D2 envPC = momd c 2 2. Proof. comp. Qed.
  Lemma PC_G000 : GenObsPC.v_Gamma_U0D0D0 envPC = Gam c 0 0 0. Proof. comp. Qed.
  Lemma PC_G001 : GenObsPC.v_Gamma_U0D0D1 envPC = Gam c 0 0 1. Proof. comp. Qed.
  Lemma PC_G002 : GenObsPC.v_Gamma_U0D0D2 envPC = Gam c 0 0 2. Proof. comp. Qed.
  Lemma PC_G011 : GenObsPC.v_Gamma_U0D1D1 envPC = Gam c 0 1 1. Proof. comp. Qed.
  Lemma PC_G012 : GenObsPC.v_Gamma_U0D1D2 envPC = Gam c 0 1 2. Proof. comp. Qed.
  Lemma PC_G022 : GenObsPC.v_Gamma_U0D2D2 envPC = Gam c 0 2 2. Proof. comp. Qed.
  Lemma PC_G100 : GenObsPC.v_Gamma_U1D0D0 envPC = Gam c 1 0 0. Proof. comp. Qed.
  Lemma PC_G101 : GenObsPC.v_Gamma_U1D0D1 envPC = Gam c 1 0 1. Proof. comp. Qed.
  Lemma PC_G102 : GenObsPC.v_Gamma_U1D0D2 envPC = Gam c 1 0 2. Proof. comp. Qed.
  Lemma PC_G111 : GenObsPC.v_Gamma_U1D1D1 envPC = Gam c 1 1 1. Proof. comp. Qed.
  Lemma PC_G112 : GenObsPC.v_Gamma_U1D1D2 envPC = Gam c 1 1 2. Proof. comp. Qed.
  Lemma PC_G122 : GenObsPC.v_Gamma_U1D2D2 envPC = Gam c 1 2 2. Proof. comp. Qed.
  Lemma PC_G200 : GenObsPC.v_Gamma_U2D0D0 envPC = Gam c 2 0 0. Proof. comp. Qed.
  Lemma PC_G201 : GenObsPC.v_Gamma_U2D0D1 envPC = Gam c 2 0 1. Proof. comp. Qed.
  Lemma PC_G202 : GenObsPC.v_Gamma_U2D0D2 envPC = Gam c 2 0 2. Proof. comp. Qed.
  Lemma PC_G211 : GenObsPC.v_Gamma_U2D1D1 envPC = Gam c 2 1 1. Proof. comp. Qed.
  Lemma PC_G212 : GenObsPC.v_Gamma_U2D1D2 envPC = Gam c 2 1 2. Proof. comp. Qed.
  Lemma PC_G222 : GenObsPC.v_Gamma_U2D2D2 envPC = Gam c 2 2 2. Proof. comp. Qed.
  Ltac rwPC := rewrite ?PC_m00, ?PC_m01, ?PC_m02, ?PC_m11, ?PC_m12, ?PC_m22, ?PC_G000, ?PC_G001, ?PC_G002, ?PC_G011, ?PC_G012, ?PC_G022, ?PC_G100, ?PC_G101, ?PC_G102, ?PC_G111, ?PC_G112, ?PC_G122, ?PC_G200, ?PC_G201, ?PC_G202, ?PC_G211, ?PC_G212, ?PC_G222.
  Lemma JC_m00 : GenObsJC.v_mom_D0D0 envJC = momd c 0 0. Proof. comp. Qed.
  Lemma JC_m01 : GenObsJC.v_mom_D0D1 envJC = momd c 0 1. Proof. comp. Qed.
  Lemma JC_m02 : GenObsJC.v_mom_D0D2 envJC = momd c 0 2. Proof. comp. Qed.
  Lemma JC_m11 : GenObsJC.v_mom_D1D1 envJC = momd c 1 1. Proof. comp. Qed.
  Lemma JC_m12 : GenObsJC.v_mom_D1D2 envJC = momd c 1 2. Proof. comp. Qed.
  Lemma JC_m22 : GenObsJC.v_mom_D2D2 envJC = momd c 2 2. Proof. comp. Qed.
  Lemma JC_G000 : GenObsJC.v_Gamma_U0D0D0 envJC = Gam c 0 0 0. Proof. comp. Qed.
  Lemma JC_G001 : GenObsJC.v_Gamma_U0D0D1 envJC = Gam c 0 0 1. Proof. comp. Qed.
  Lemma JC_G002 : GenObsJC.v_Gamma_U0D0D2 envJC = Gam c 0 0 2. Proof. comp. Qed.
  Lemma JC_G011 : GenObsJC.v_Gamma_U0D1D1 envJC = Gam c 0 1 1. Proof. comp. Qed.
  Lemma JC_G012 : GenObsJC.v_Gamma_U0D1D2 envJC = Gam c 0 1 2. Proof. comp. Qed.
  Lemma JC_G022 : GenObsJC.v_Gamma_U0D2D2 envJC = Gam c 0 2 2. Proof. comp. Qed.
  Lemma JC_G100 : GenObsJC.v_Gamma_U1D0D0 envJC = Gam c 1 0 0. Proof. comp. Qed.
  Lemma JC_G101 : GenObsJC.v_Gamma_U1D0D1 envJC = Gam c 1 0 1. Proof. comp. Qed.
  Lemma JC_G102 : GenObsJC.v_Gamma_U1D0D2 envJC = Gam c 1 0 2. Proof. comp. Qed.
  Lemma JC_G111 : GenObsJC.v_Gamma_U1D1D1 envJC = Gam c 1 1 1. Proof. comp. Qed.
  Lemma JC_G112 : GenObsJC.v_Gamma_U1D1D2 envJC = Gam c 1 1 2. Proof. comp. Qed.
  Lemma JC_G122 : GenObsJC.v_Gamma_U1D2D2 envJC = Gam c 1 2 2. Proof. comp. Qed.
  Lemma JC_G200 : GenObsJC.v_Gamma_U2D0D0 envJC = Gam c 2 0 0. Proof. comp. Qed.
  Lemma JC_G201 : GenObsJC.v_Gamma_U2D0D1 envJC = Gam c 2 0 1. Proof. comp. Qed.
  Lemma JC_G202 : GenObsJC.v_Gamma_U2D0D2 envJC = Gam c 2 0 2. Proof. comp. Qed.
  Lemma JC_G211 : GenObsJC.v_Gamma_U2D1D1 envJC = Gam c 2 1 1. Proof. comp. Qed.
  Lemma JC_G212 : GenObsJC.v_Gamma_U2D1D2 envJC = Gam c 2 1 2. Proof. comp. Qed.
  Lemma JC_G222 : GenObsJC.v_Gamma_U2D2D2 envJC = Gam c 2 2 2. Proof. comp. Qed.
  Ltac rwJC := rewrite ?JC_m00, ?JC_m01, ?JC_m02, ?JC_m11, ?JC_m12, ?JC_m22, ?JC_G000, ?JC_G001, ?JC_G002, ?JC_G011, ?JC_G012, ?JC_G022, ?JC_G100, ?JC_G101, ?JC_G102, ?JC_G111, ?JC_G112, ?JC_G122, ?JC_G200, ?JC_G201, ?JC_G202, ?JC_G211, ?JC_G212, ?JC_G222.
  Lemma momd_sym i j : momd c i j = momd c j i.
  Proof.
    unfold momd. rewrite (gam_sym c i). f_equal. unfold Kd, Kdn. rewrite (sy_sym (cg c) i j). do 2 f_equal.
    transitivity (sum3 (fun l => sum3 (fun m => sy (cg c) i m * sy (cg c) j l * sy (cA c) l m))); [|reflexivity || (apply sum3_ext; intros; apply sum3_ext; intros; ring)].
    unfold sum3. rewrite (sy_sym (cA c) 1 0)%nat, (sy_sym (cA c) 2 0)%nat, (sy_sym (cA c) 2 1)%nat. ring.
  Qed.
  Ltac symm := rewrite ?(momd_sym 1 0)%nat, ?(momd_sym 2 0)%nat, ?(momd_sym 2 1)%nat, ?(Gam_sym c _ 1 0)%nat, ?(Gam_sym c _ 2 0)%nat, ?(Gam_sym c _ 2 1)%nat.
  Lemma PC_vol old d : (d < 3)%nat -> GenObsPC.store_obs__Pv envPC old d =
    sum3 (fun i => sum3 (fun j => piud (gam c) (Ku c) (cK c) i j * Dvec (Gam c) (trans d) (dtrans d) i j)).
  Proof.
    intros Hd. rewrite (sum3_ext (fun i => _) (fun i => sum3 (fun j => sum3 (fun l => igam c i l * momd c l j) * Dvec (Gam c) (trans d) (dtrans d) i j)))
      by (intros; apply sum3_ext; intros; rewrite pi_raise by assumption; reflexivity).
    idx d; unfold GenObsPC.store_obs__Pv, GenObsPC.v_out_obs__Pv_D0, GenObsPC.v_out_obs__Pv_D1, GenObsPC.v_out_obs__Pv_D2, GenObsPC.v_Pv_D0, GenObsPC.v_Pv_D1, GenObsPC.v_Pv_D2;
    rwPC; unfold GenObsPC.v_psim4_, GenObsPC.v_psi4_; cbn [GenObsPC.psi GenObsPC.igConf envPC]; unfold Dvec, trans, dtrans, delta, igam, Pig, sum3, sy; cbn [Nat.eqb Nat.leb]; symm; field; exact Hp.
  Qed.
  Lemma JC_vol old d : (d < 3)%nat -> GenObsJC.store_obs__Jv envJC old d =
    sum3 (fun i => sum3 (fun j => piud (gam c) (Ku c) (cK c) i j * Dvec (Gam c) (rot (fun l => x l - x0 l) d) (drot d) i j)).
  Proof.
    intros Hd. rewrite (sum3_ext (fun i => _) (fun i => sum3 (fun j => sum3 (fun l => igam c i l * momd c l j) * Dvec (Gam c) (rot (fun l => x l - x0 l) d) (drot d) i j)))
      by (intros; apply sum3_ext; intros; rewrite pi_raise by assumption; reflexivity).
    idx d; unfold GenObsJC.store_obs__Jv, GenObsJC.v_out_obs__Jv_D0, GenObsJC.v_out_obs__Jv_D1, GenObsJC.v_out_obs__Jv_D2, GenObsJC.v_Jv_D0, GenObsJC.v_Jv_D1, GenObsJC.v_Jv_D2;
    unfold GenObsJC.v_Dphi_U0D0U0, GenObsJC.v_Dphi_U0D0U1, GenObsJC.v_Dphi_U0D0U2, GenObsJC.v_Dphi_U0D1U0, GenObsJC.v_Dphi_U0D1U1, GenObsJC.v_Dphi_U0D1U2, GenObsJC.v_Dphi_U0D2U0, GenObsJC.v_Dphi_U0D2U1, GenObsJC.v_Dphi_U0D2U2, GenObsJC.v_Dphi_U1D0U0, GenObsJC.v_Dphi_U1D0U1, GenObsJC.v_Dphi_U1D0U2, GenObsJC.v_Dphi_U1D1U0, GenObsJC.v_Dphi_U1D1U1, GenObsJC.v_Dphi_U1D1U2, GenObsJC.v_Dphi_U1D2U0, GenObsJC.v_Dphi_U1D2U1, GenObsJC.v_Dphi_U1D2U2, GenObsJC.v_Dphi_U2D0U0, GenObsJC.v_Dphi_U2D0U1, GenObsJC.v_Dphi_U2D0U2, GenObsJC.v_Dphi_U2D1U0, GenObsJC.v_Dphi_U2D1U1, GenObsJC.v_Dphi_U2D1U2, GenObsJC.v_Dphi_U2D2U0, GenObsJC.v_Dphi_U2D2U1, GenObsJC.v_Dphi_U2D2U2;
    rwJC; unfold GenObsJC.v_psim4_, GenObsJC.v_psi4_, GenObsJC.v_dPhi_U0D0U0, GenObsJC.v_dPhi_U0D0U1, GenObsJC.v_dPhi_U0D0U2, GenObsJC.v_dPhi_U0D1U0, GenObsJC.v_dPhi_U0D1U1, GenObsJC.v_dPhi_U0D1U2, GenObsJC.v_dPhi_U0D2U0, GenObsJC.v_dPhi_U0D2U1, GenObsJC.v_dPhi_U0D2U2, GenObsJC.v_dPhi_U1D0U0, GenObsJC.v_dPhi_U1D0U1, GenObsJC.v_dPhi_U1D0U2, GenObsJC.v_dPhi_U1D1U0, GenObsJC.v_dPhi_U1D1U1, GenObsJC.v_dPhi_U1D1U2, GenObsJC.v_dPhi_U1D2U0, GenObsJC.v_dPhi_U1D2U1, GenObsJC.v_dPhi_U1D2U2, GenObsJC.v_dPhi_U2D0U0, GenObsJC.v_dPhi_U2D0U1, GenObsJC.v_dPhi_U2D0U2, GenObsJC.v_dPhi_U2D1U0, GenObsJC.v_dPhi_U2D1U1, GenObsJC.v_dPhi_U2D1U2, GenObsJC.v_dPhi_U2D2U0, GenObsJC.v_dPhi_U2D2U1, GenObsJC.v_dPhi_U2D2U2, GenObsJC.v_Phi_U0D0, GenObsJC.v_Phi_U0D1, GenObsJC.v_Phi_U0D2, GenObsJC.v_Phi_U1D0, GenObsJC.v_Phi_U1D1, GenObsJC.v_Phi_U1D2, GenObsJC.v_Phi_U2D0, GenObsJC.v_Phi_U2D1, GenObsJC.v_Phi_U2D2, GenObsJC.v_x_xCM_U0, GenObsJC.v_x_xCM_U1, GenObsJC.v_x_xCM_U2;
    cbn [GenObsJC.psi GenObsJC.igConf GenObsJC.x GenObsJC.y GenObsJC.z GenObsJC.x_cm GenObsJC.y_cm GenObsJC.z_cm envJC]; unfold Dvec, rot, drot, delta, igam, Pig, sum3, sy; cbn [eps Nat.eqb Nat.leb]; symm; field; exact Hp.
  Qed.
  (** the version without the constraint: pi^i_d written with A^ij g_jk, derivatives by the product rule *)
  Definition pic (i j : nat) : R := sum3 (fun l => sy (cA c) i l * sy (cg c) l j) / cpsi c ^ 6 - 2 / 3 * delta i j * cK c.
  Definition dpic (i j k : nat) : R :=
    sum3 (fun l => syd (cdA c) i l k * sy (cg c) l j + sy (cA c) i l * syd (cdg c) l j k) / cpsi c ^ 6
    - 6 * sum3 (fun l => sy (cA c) i l * sy (cg c) l j) * cdpsi c k / cpsi c ^ 7 - 2 / 3 * delta i j * cdK c k.
  Lemma PR_vol old d : (d < 3)%nat -> GenObsPR.store_obs__DPi envPR old d =
    sum3 (fun i => dpic i d i) + sum3 (fun i => (sum3 (fun k => syl (cG c) k k i) + 6 * cdpsi c i / cpsi c) * pic i d).
  Proof.
    intros Hd. unfold pic, dpic. idx d; cbv -[Rplus Rminus Rmult Rdiv Ropp Rinv pow IZR PI cpsi cA cdA cg cdg cG cdpsi cK cdK]; field; exact Hp.
  Qed.
  Lemma pic_pi i j : (i < 3)%nat -> (j < 3)%nat -> piud (gam c) (Ku c) (cK c) i j = pic i j.
  Proof.
    intros Hi Hj. destruct OK as (_ & H' & _). specialize (H' i j Hi Hj).
    unfold piud, pic, gam, Ku, Pg, Kup.
    transitivity (sum3 (fun l => sy (cA c) i l * sy (cg c) l j) / cpsi c ^ 6 + cK c / 3 * sum3 (fun m => sy (cig c) i m * sy (cg c) m j) - delta i j * cK c).
    - unfold sum3. field. exact Hp.
    - rewrite H'. field. exact Hp.
  Qed.
  Lemma dpic_pi i j k : (i < 3)%nat -> (j < 3)%nat -> (k < 3)%nat -> dpiud (gam c) (dgam c) (Ku c) (dKu c) (cdK c) i j k = dpic i j k.
  Proof.
    intros Hi Hj Hk. destruct OK as (H & H' & Hd & _).
    assert (D : sum3 (fun m => syd (cdig c) i m k * sy (cg c) m j + sy (cig c) i m * syd (cdg c) m j k) = 0).
    { specialize (Hd j i k Hj Hi Hk). rewrite <- Hd. unfold sum3.
      rewrite !(sy_sym (cg c) j), !(sy_sym (cig c) i), !(syd_sym (cdg c) j), !(syd_sym (cdig c) i). ring. }
    specialize (H' i j Hi Hj). unfold dpiud, dpic, gam, dgam, Ku, dKu, Pg, dPg, Kup, dKup.
    transitivity (sum3 (fun l => syd (cdA c) i l k * sy (cg c) l j + sy (cA c) i l * syd (cdg c) l j k) / cpsi c ^ 6
      - 6 * sum3 (fun l => sy (cA c) i l * sy (cg c) l j) * cdpsi c k / cpsi c ^ 7
      + cK c / 3 * sum3 (fun m => syd (cdig c) i m k * sy (cg c) m j + sy (cig c) i m * syd (cdg c) m j k)
      + cdK c k / 3 * sum3 (fun m => sy (cig c) i m * sy (cg c) m j) - delta i j * cdK c k).
    - unfold sum3. field. exact Hp.
    - rewrite D, H'. field. exact Hp.
  Qed.
  Lemma Gam_tr i : (i < 3)%nat -> sum3 (fun k => Gam c k k i) = sum3 (fun k => syl (cG c) k k i) + 6 * cdpsi c i / cpsi c.
  Proof.
    intros Hi. destruct OK as (H & _).
    pose proof (C_tr (sy (cg c)) (sy (cig c)) (cpsi c) (cdpsi c)) as X.
    unfold Gam, PG. transitivity (sum3 (fun k => syl (cG c) k k i) + sum3 (fun k => Cp (sy (cg c)) (sy (cig c)) (cpsi c) (cdpsi c) k k i)); [unfold sum3; ring|].
    rewrite X by auto using sy_sym. unfold Lp. unfold Rdiv. ring.
  Qed.
  Lemma PR_div old d : (d < 3)%nat -> GenObsPR.store_obs__DPi envPR old d =
    DivV (Gam c) (cur (gam c) (Ku c) (cK c) (trans d)) (dcur (gam c) (dgam c) (Ku c) (dKu c) (cK c) (cdK c) (trans d) (dtrans d)).
  Proof.
    intros Hd. rewrite PR_vol by assumption.
    rewrite (sum3_ext (fun i => dpic i d i) (fun i => dpiud (gam c) (dgam c) (Ku c) (dKu c) (cdK c) i d i)) by (intros; rewrite dpic_pi by assumption; reflexivity).
    rewrite (sum3_ext (fun i => (sum3 _ + _) * _) (fun i => sum3 (fun k => Gam c k k i) * piud (gam c) (Ku c) (cK c) i d)) by (intros; rewrite pic_pi, Gam_tr by assumption; reflexivity).
    unfold DivV, cur, dcur. generalize (piud (gam c) (Ku c) (cK c)) (dpiud (gam c) (dgam c) (Ku c) (dKu c) (cdK c)). intros q dq.
    unfold sum3, trans, dtrans, delta. idx d; cbn [Nat.eqb]; ring.
  Qed.
  (** with the vacuum momentum constraint all three volume integrands are the divergence *)
  Lemma PC_div old d : (d < 3)%nat -> (forall k, (k < 3)%nat -> mom_vac c k = 0) -> GenObsPC.store_obs__Pv envPC old d =
    DivV (Gam c) (cur (gam c) (Ku c) (cK c) (trans d)) (dcur (gam c) (dgam c) (Ku c) (dKu c) (cK c) (cdK c) (trans d) (dtrans d)).
  Proof.
    intros Hd Hm. rewrite div_cur, PC_vol by assumption. unfold sum3. rewrite !Hm by lia. ring.
  Qed.
  Lemma JC_div old d : (d < 3)%nat -> (forall k, (k < 3)%nat -> mom_vac c k = 0) -> GenObsJC.store_obs__Jv envJC old d =
    DivV (Gam c) (cur (gam c) (Ku c) (cK c) (rot (fun l => x l - x0 l) d))
      (dcur (gam c) (dgam c) (Ku c) (dKu c) (cK c) (cdK c) (rot (fun l => x l - x0 l) d) (drot d)).
  Proof.
    intros Hd Hm. rewrite div_cur, JC_vol by assumption. unfold sum3. rewrite !Hm by lia. ring.
  Qed.
End C.
