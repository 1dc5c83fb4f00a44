(** ObsMass.v - masses, Komar mass, spins, centre and the Ossokine form of the momentum. *)
From Verif Require Import RealBase TensorSpec TensorProofs RicciProofs RicciFinal XctsSpec ShiftSpec XctsProofs AdmSpec AdmConf AdmGen AdmFinal ObsSpec ObsProofs ObsGauss.
From Verif Require GenObsMS2 GenObsMI GenObsMC GenObsK GenObsSC GenObsSA GenObsRc GenObsPO GenObsJO.
Ltac raw := cbv -[Rplus Rminus Rmult Rdiv Ropp Rinv pow IZR PI cpsi cA cdA cg cig cdg cdig cG cdpsi cddpsi cK cdK cap cEP R_sc].

Section C.
  Variables (c : conf) (n : nat -> R).
  Hypothesis OK : conf_ok c.
  Notation g := (sy (cg c)). Notation ig := (sy (cig c)). Notation dg := (syd (cdg c)). Notation dig := (syd (cdig c)).
  Notation p := (cpsi c). Notation A := (sy (cA c)). Notation K := (cK c).
  Let Hp : p <> 0. Proof. destruct OK as (_ & _ & _ & _ & _ & H & _). exact H. Qed.
  (** n^i gamma^jk (d_k gamma_ij - d_i gamma_jk) *)
  Lemma mass_S2 : GenObsMS2.out_ADM_mass_integrand_S (GenObsMS2.mk (cdg c) (cdpsi c) (cig c) n p)
    = sum3 (fun i => n i * sum3 (fun j => sum3 (fun k => igam c j k * (dgam c i j k - dgam c j k i)))).
  Proof.
    destruct OK as (H & _).
    assert (T : sum3 (fun a => sum3 (fun b => ig a b * g a b)) = 3).
    { pose proof (H 0 0)%nat as H0. pose proof (H 1 1)%nat as H1. pose proof (H 2 2)%nat as H2.
      unfold sum3, delta in *. cbn [Nat.eqb] in *. rewrite ?(sy_sym (cig c) 1 0)%nat, ?(sy_sym (cig c) 2 0)%nat, ?(sy_sym (cig c) 2 1)%nat, ?(sy_sym (cg c) 1 0)%nat, ?(sy_sym (cg c) 2 0)%nat, ?(sy_sym (cg c) 2 1)%nat in *.
      specialize (H0 ltac:(lia) ltac:(lia)). specialize (H1 ltac:(lia) ltac:(lia)). specialize (H2 ltac:(lia) ltac:(lia)). lra. }
    transitivity (sum3 (fun i => n i * (sum3 (fun j => sum3 (fun k => ig j k * (dg i j k - dg j k i)))
      + 4 / p * sum3 (fun k => sum3 (fun j => g i j * ig j k) * cdpsi c k) - 4 / p * cdpsi c i * sum3 (fun a => sum3 (fun b => ig a b * g a b))))).
    - rewrite T. rewrite (sum3_ext (fun i => n i * _) (fun i => n i * (sum3 (fun j => sum3 (fun k => ig j k * (dg i j k - dg j k i)))
      + 4 / p * sum3 (fun k => delta i k * cdpsi c k) - 4 / p * cdpsi c i * 3))).
      2:{ intros i Hi. rewrite (sum3_ext (fun k => sum3 _ * cdpsi c k) (fun k => delta i k * cdpsi c k)) by (intros; rewrite H by assumption; reflexivity). reflexivity. }
      raw. field. exact Hp.
    - unfold igam, dgam, Pig, dPg. unfold sum3. field. exact Hp.
  Qed.
  (** conformal: flux and divergence of - grad psi / 2 pi in the conformal metric *)
  Definition gradpsi (i : nat) : R := sum3 (fun j => ig i j * cdpsi c j).
  Definition dgradpsi (i k : nat) : R := sum3 (fun j => dig i j k * cdpsi c j + ig i j * sy (cddpsi c) j k).
  Lemma flux_grad (f : nat -> R) : dot g (fun i => sum3 (fun j => ig i j * f j)) n = sum3 (fun i => f i * n i).
  Proof.
    destruct OK as (_ & H' & _).
    transitivity (sum3 (fun b => sum3 (fun j => sum3 (fun i => ig j i * g i b) * f j) * n b)).
    - unfold dot, sum3. rewrite ?(sy_sym (cig c) 1 0)%nat, ?(sy_sym (cig c) 2 0)%nat, ?(sy_sym (cig c) 2 1)%nat. ring.
    - apply sum3_ext. intros b Hb. rewrite (sum3_ext _ (fun j => delta j b * f j)) by (intros; rewrite H' by assumption; reflexivity).
      unfold sum3, delta. idx b; cbn [Nat.eqb]; ring.
  Qed.
  Lemma div_grad : DivV (syl (cG c)) gradpsi dgradpsi = Lap ig (syl (cG c)) (cdpsi c) (sy (cddpsi c)).
  Proof.
    pose proof (compat_ig c OK) as Ci. unfold DivV, dgradpsi, gradpsi, Lap. unfold sum3. rewrite !Ci by lia. unfold sum3.
    rewrite ?(sy_sym (cig c) 1 0)%nat, ?(sy_sym (cig c) 2 0)%nat, ?(sy_sym (cig c) 2 1)%nat, ?(syl_sym (cG c) _ 1 0)%nat, ?(syl_sym (cG c) _ 2 0)%nat, ?(syl_sym (cG c) _ 2 1)%nat, ?(sy_sym (cddpsi c) 1 0)%nat, ?(sy_sym (cddpsi c) 2 0)%nat, ?(sy_sym (cddpsi c) 2 1)%nat. ring.
  Qed.
  Definition envMC := GenObsMC.mk (cA c) (cEP c) (cdpsi c) (cg c) n p K (R_sc c).
  Lemma MC_surf : GenObsMC.out_obs__Ms envMC = - dot g gradpsi n / (2 * PI).
  Proof. unfold gradpsi. rewrite flux_grad. reflexivity. Qed.
  Lemma MC_vol : GenObsMC.v_out_obs__Mv envMC = - Lap ig (syl (cG c)) (cdpsi c) (sy (cddpsi c)) / (2 * PI)
     + ham (Lap ig (syl (cG c)) (cdpsi c) (sy (cddpsi c))) (R_sc c) K (square2 g A) 1 (cEP c) p / (2 * PI).
  Proof. generalize (Lap ig (syl (cG c)) (cdpsi c) (sy (cddpsi c))). intros L. unfold ham, square2. raw. field. split; first [apply PI_neq0|exact Hp]. Qed.
  (** isotropic *)
  Lemma MI_surf at_ : GenObsMI.out_ADM_mass_integrand_S (GenObsMI.mk (cG c) at_ (cddpsi c) (cdpsi c) (cig c) n) = dot g gradpsi n.
  Proof. unfold gradpsi. rewrite flux_grad. reflexivity. Qed.
  Lemma MI_vol at_ : GenObsMI.v_out_ADM_mass_integrand_V (GenObsMI.mk (cG c) at_ (cddpsi c) (cdpsi c) (cig c) n) = DivV (syl (cG c)) gradpsi dgradpsi * at_.
  Proof. rewrite div_grad. raw. ring. Qed.
  (** spins *)
  Lemma SC_formula xi old i : (i < 3)%nat -> GenObsSC.store_SPIN_integrand (GenObsSC.mk (cA c) (cg c) n p xi) old i
    = cross xi (fun k => sum3 (fun j => (Kd c k j - K / 3 * gam c k j) * n j)) i.
  Proof. intros Hi. idx i; raw; field; exact Hp. Qed.
  Lemma SA_formula (phi : nat -> nat -> R) old d : (d < 3)%nat -> GenObsSA.store_SPIN_integrand (GenObsSA.mk (cA c) (phi 0%nat) (phi 1%nat) (phi 2%nat) (cg c) n p) old d
    = sum3 (fun k => sum3 (fun j => (Kd c k j - K / 3 * gam c k j) * phi d k * n j)).
  Proof. intros Hd. idx d; raw; field; exact Hp. Qed.
  Lemma SA_killing (phi : nat -> nat -> R) old d : (d < 3)%nat -> dot (gam c) (phi d) n = 0 ->
    GenObsSA.store_SPIN_integrand (GenObsSA.mk (cA c) (phi 0%nat) (phi 1%nat) (phi 2%nat) (cg c) n p) old d = sum3 (fun k => sum3 (fun j => Kd c k j * phi d k * n j)).
  Proof.
    intros Hd T. rewrite SA_formula by assumption.
    transitivity (sum3 (fun k => sum3 (fun j => Kd c k j * phi d k * n j)) - K / 3 * dot (gam c) (phi d) n); [unfold dot, sum3; ring|rewrite T; ring].
  Qed.
  (** centre of a star *)
  Lemma Rc_formula (x xc : nat -> R) : let E := GenObsRc.mk (cG c) (cddpsi c) (cdpsi c) (cig c) (x 0%nat) (xc 0%nat) (x 1%nat) (xc 1%nat) (x 2%nat) (xc 2%nat) in
    forall i, (i < 3)%nat -> match i with O => GenObsRc.out_Rc_integrandx E | S O => GenObsRc.out_Rc_integrandy E | _ => GenObsRc.out_Rc_integrandz E end
     = DivV (syl (cG c)) gradpsi dgradpsi * (x i - xc i).
  Proof. cbv zeta. intros i Hi. rewrite div_grad. idx i; raw; ring. Qed.
  (** Ossokine *)
  Definition Pos (i j : nat) : R := p ^ 10 * (Ku c i j - igam c i j * K).
  Definition envPO at_ := GenObsPO.mk (cA c) (cG c) at_ (cdpsi c) (cg c) (cig c) n p K.
  Lemma PO_surf at_ old i : (i < 3)%nat -> GenObsPO.store_obs__P (envPO at_) old i = dot (gam c) (Pos i) n.
  Proof. intros Hi. unfold Pos, dot. idx i; raw; field; exact Hp. Qed.
  Lemma PO_vol at_ old i : (i < 3)%nat -> GenObsPO.store_obs__G (envPO at_) old i = at_ *
    (sum3 (fun j => sum3 (fun k => syl (cG c) i j k * Pos j k)) + sum3 (fun j => sum3 (fun k => syl (cG c) j j k * Pos i k))
     - 2 * sum3 (fun j => sum3 (fun k => g j k * Pos j k)) * gradpsi i / p).
  Proof. intros Hi. unfold Pos, gradpsi. idx i; raw; field; exact Hp. Qed.
  Definition dPos (i j k : nat) : R := 10 * p ^ 9 * cdpsi c k * (Ku c i j - igam c i j * K)
    + p ^ 10 * (dKu c i j k - (dig i j k / p ^ 4 - 4 * ig i j * cdpsi c k / p ^ 5) * K - igam c i j * cdK c k).
  Lemma Ku_tr : sum3 (fun a => sum3 (fun b => gam c a b * Ku c a b)) = K.
  Proof.
    destruct OK as (H & _ & _ & _ & T & _).
    assert (I : sum3 (fun a => sum3 (fun b => ig a b * g a b)) = 3) by (apply (inv_tr g ig); auto using sy_sym).
    transitivity (sum3 (fun a => sum3 (fun b => g a b * A a b)) / p ^ 6 + K / 3 * sum3 (fun a => sum3 (fun b => ig a b * g a b))).
    - unfold gam, Ku, Pg, Kup, sum3. field. exact Hp.
    - rewrite T, I. field. exact Hp.
  Qed.
  (** d_j P^ij = - G^i + psi^10 (momentum constraint) *)
  Lemma PO_div old i : (i < 3)%nat -> sum3 (fun j => dPos i j j) = - GenObsPO.store_obs__G (envPO 1) old i + p ^ 10 * mom_vac c i.
  Proof.
    intros Hi. rewrite PO_vol by assumption.
    pose proof OK as OK'. destruct OK as (H & _ & _ & _ & T & _).
    assert (CD : DivT (Gam c) (Ku c) (dKu c) i = DivT (syl (cG c)) A (syd (cdA c)) i / p ^ 10 + sum3 (fun j => ig i j * cdK c j) / (3 * p ^ 4))
      by (apply (conf_div g ig dig (syl (cG c)) p (cdpsi c)); auto using sy_sym, syl_sym, compat_g, compat_ig).
    unfold mom_vac, MomConstraint. rewrite CD.
    assert (TP : sum3 (fun j => sum3 (fun k => g j k * Pos j k)) = - 2 * p ^ 6 * K).
    { pose proof Ku_tr as X. assert (I : sum3 (fun a => sum3 (fun b => ig a b * g a b)) = 3) by (apply (inv_tr g ig); auto using sy_sym).
      transitivity (p ^ 6 * sum3 (fun a => sum3 (fun b => gam c a b * Ku c a b)) - p ^ 6 * K * sum3 (fun a => sum3 (fun b => ig a b * g a b))).
      - unfold Pos, gam, igam, Pg, Pig, sum3. field. exact Hp.
      - rewrite X, I. ring. }
    rewrite TP. pose proof (compat_ig c OK') as Ci.
    unfold dPos, Pos, gradpsi, dKu, dKup, Ku, Kup, igam, Pig, DivT, sum3. rewrite !Ci by assumption || lia. unfold sum3.
    idx i; rewrite ?(sy_sym (cig c) 1 0)%nat, ?(sy_sym (cig c) 2 0)%nat, ?(sy_sym (cig c) 2 1)%nat, ?(sy_sym (cA c) 1 0)%nat, ?(sy_sym (cA c) 2 0)%nat, ?(sy_sym (cA c) 2 1)%nat,
     ?(syl_sym (cG c) _ 1 0)%nat, ?(syl_sym (cG c) _ 2 0)%nat, ?(syl_sym (cG c) _ 2 1)%nat; field; exact Hp.
  Qed.
  Lemma JO_formula xi old i : (i < 3)%nat -> GenObsJO.store_obs__Jn (GenObsJO.mk (cA c) (cg c) n p xi) old i
    = cross xi (fun k => dot (gam c) (A k) n) i.
  Proof. intros Hi. idx i; raw; ring. Qed.
End C.
