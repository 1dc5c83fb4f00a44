(** ObsGauss.v - the volume integrands are divergences of the currents whose fluxes are the surface integrands. *)
From Verif Require Import RealBase TensorSpec TensorProofs RicciProofs RicciFinal XctsSpec ShiftSpec XctsProofs AdmSpec AdmConf AdmGen AdmFinal ObsSpec ObsProofs.
From Verif Require GenObsP GenObsJ GenObsPR GenObsPC GenObsJC GenObsPO GenObsJO GenObsSC GenObsSA.

Section General.
  Variables (gm : nat -> nat -> R) (dgm G : nat -> nat -> nat -> R) (Kq : nat -> nat -> R) (dKq : nat -> nat -> nat -> R) (K : R) (dK : nat -> R).
  Hypothesis Sg : forall i j, gm i j = gm j i.
  Hypothesis SG : forall k i j, G k i j = G k j i.
  Hypothesis SK : forall i j, Kq i j = Kq j i.
  Hypothesis SdK : forall i j k, dKq i j k = dKq j i k.
  Hypothesis Cg : compat gm dgm G.
  Lemma div_pi j : (j < 3)%nat ->
    sum3 (fun i => dpiud gm dgm Kq dKq dK i j i) + sum3 (fun i => sum3 (fun k => G i i k * piud gm Kq K k j))
    = sum3 (fun i => sum3 (fun k => G k i j * piud gm Kq K i k)) + (sum3 (fun k => gm j k * DivT G Kq dKq k) - dK j).
  Proof.
    intros Hj. unfold dpiud, sum3. rewrite !Cg by lia.
    unfold piud, DivT, sum3, delta. idx j; cbn [Nat.eqb];
    rewrite ?(SG _ 1 0)%nat, ?(SG _ 2 0)%nat, ?(SG _ 2 1)%nat, ?(Sg 1 0)%nat, ?(Sg 2 0)%nat, ?(Sg 2 1)%nat, ?(SK 1 0)%nat, ?(SK 2 0)%nat, ?(SK 2 1)%nat, ?(SdK 1 0)%nat, ?(SdK 2 0)%nat, ?(SdK 2 1)%nat; ring.
  Qed.
  (** div (pi.phi) = pi^i_j D_i phi^j + phi^j (gamma_jk D_l K^kl - d_j K) *)
  Lemma div_current phi dphi :
    DivV G (cur gm Kq K phi) (dcur gm dgm Kq dKq K dK phi dphi)
    = sum3 (fun i => sum3 (fun j => piud gm Kq K i j * Dvec G phi dphi i j))
      + sum3 (fun j => phi j * (sum3 (fun k => gm j k * DivT G Kq dKq k) - dK j)).
  Proof.
    transitivity (sum3 (fun j => phi j * (sum3 (fun i => dpiud gm dgm Kq dKq dK i j i) + sum3 (fun i => sum3 (fun k => G i i k * piud gm Kq K k j))))
      + sum3 (fun i => sum3 (fun j => piud gm Kq K i j * dphi j i))).
    - unfold DivV, cur, dcur. generalize (piud gm Kq K) (dpiud gm dgm Kq dKq dK). intros p dp. unfold sum3. ring.
    - rewrite (sum3_ext (fun j => phi j * _) (fun j => phi j * (sum3 (fun i => sum3 (fun k => G k i j * piud gm Kq K i k)) + (sum3 (fun k => gm j k * DivT G Kq dKq k) - dK j))))
        by (intros; rewrite div_pi by assumption; reflexivity).
      unfold Dvec. generalize (piud gm Kq K) (DivT G Kq dKq). intros p d. unfold sum3.
      rewrite ?(SG _ 1 0)%nat, ?(SG _ 2 0)%nat, ?(SG _ 2 1)%nat. ring.
  Qed.
End General.

Section C.
  Variable c : conf.
  Hypothesis OK : conf_ok c.
  Notation g := (sy (cg c)). Notation ig := (sy (cig c)). Notation p := (cpsi c). Notation A := (sy (cA c)). Notation K := (cK c).
  Lemma gam_sym i j : gam c i j = gam c j i.
  Proof. unfold gam, Pg. rewrite (sy_sym _ i). reflexivity. Qed.
  Lemma Gam_sym k i j : Gam c k i j = Gam c k j i.
  Proof. unfold Gam, PG, Cp. rewrite (syl_sym _ _ i), (sy_sym _ i). ring. Qed.
  Lemma Ku_sym i j : Ku c i j = Ku c j i.
  Proof. unfold Ku, Kup. rewrite (sy_sym (cA c) i), (sy_sym (cig c) i). reflexivity. Qed.
  Lemma dKu_sym i j k : dKu c i j k = dKu c j i k.
  Proof. unfold dKu, dKup. rewrite (sy_sym (cA c) i), (sy_sym (cig c) i), (syd_sym (cdA c) i), (syd_sym (cdig c) i). reflexivity. Qed.
  Lemma gam_compat : compat (gam c) (dgam c) (Gam c).
  Proof.
    destruct OK as (H & H' & _ & HG & T & Hp & _).
    apply (conf_compat (sy (cg c)) (sy (cig c)) (syd (cdg c)) (syl (cG c)) (cpsi c) (cdpsi c)); auto using sy_sym, syl_sym, compat_g.
  Qed.
  (** lowering K^ij *)
  Lemma Kd_lower i j : (i < 3)%nat -> (j < 3)%nat -> sum3 (fun k => sum3 (fun l => gam c i k * Ku c k l * gam c l j)) = Kd c i j.
  Proof.
    intros Hi Hj. destruct OK as (H & _ & _ & _ & _ & Hp & _).
    unfold gam, Ku, Kd, Pg, Kup, Kdn.
    transitivity (sum3 (fun l => sum3 (fun m => g i l * g m j * A l m)) / p ^ 2 + p ^ 4 * K / 3 * sum3 (fun l => sum3 (fun k => g i k * ig k l) * g l j)).
    - unfold sum3. field. exact Hp.
    - rewrite (sum3_ext (fun l => sum3 (fun k => g i k * ig k l) * g l j) (fun l => delta i l * g l j)) by (intros; rewrite H by assumption; reflexivity).
      assert (X : sum3 (fun l => sum3 (fun m => g i l * g m j * A l m)) = sum3 (fun l => sum3 (fun m => g i l * g j m * A l m)))
        by (apply sum3_ext; intros; apply sum3_ext; intros; rewrite (sy_sym _ j); reflexivity).
      rewrite X. unfold delta. idx i; unfold sum3 at 3; cbn [Nat.eqb]; unfold Rdiv; ring.
  Qed.
  (** the flux of the current of phi is (K_ij - K gamma_ij) phi^i n^j *)
  Lemma flux_cur phi n : dot (gam c) (cur (gam c) (Ku c) K phi) n = sum3 (fun i => sum3 (fun j => momd c i j * phi i * n j)).
  Proof.
    unfold momd.
    rewrite (sum3_ext (fun i => sum3 (fun j => (Kd c i j - _) * _ * _)) (fun i => sum3 (fun j => (sum3 (fun k => sum3 (fun l => gam c i k * Ku c k l * gam c l j)) - K * gam c i j) * phi i * n j)))
      by (intros; apply sum3_ext; intros; rewrite Kd_lower by assumption; reflexivity).
    unfold dot, cur, piud, sum3, delta; cbn [Nat.eqb].
    rewrite ?(gam_sym 1 0)%nat, ?(gam_sym 2 0)%nat, ?(gam_sym 2 1)%nat, ?(Ku_sym 1 0)%nat, ?(Ku_sym 2 0)%nat, ?(Ku_sym 2 1)%nat. ring.
  Qed.
  Lemma gam_inv i : (i < 3)%nat -> forall f, sum3 (fun k => gam c i k * sum3 (fun l => igam c k l * f l)) = f i.
  Proof.
    intros Hi f. destruct OK as (H & _ & _ & _ & _ & Hp & _).
    transitivity (sum3 (fun l => sum3 (fun k => g i k * ig k l) * f l)).
    - unfold gam, igam, Pg, Pig, sum3. field. exact Hp.
    - rewrite (sum3_ext (fun l => sum3 (fun k => g i k * ig k l) * f l) (fun l => delta i l * f l)) by (intros; rewrite H by assumption; reflexivity).
      unfold sum3, delta; idx i; cbn [Nat.eqb]; ring.
  Qed.
  Lemma div_cur phi dphi :
    DivV (Gam c) (cur (gam c) (Ku c) K phi) (dcur (gam c) (dgam c) (Ku c) (dKu c) K (cdK c) phi dphi)
    = sum3 (fun i => sum3 (fun j => piud (gam c) (Ku c) K i j * Dvec (Gam c) phi dphi i j)) + sum3 (fun j => phi j * sum3 (fun k => gam c j k * mom_vac c k)).
  Proof.
    rewrite div_current by auto using gam_sym, Gam_sym, Ku_sym, dKu_sym, gam_compat. f_equal.
    apply sum3_ext. intros j Hj. f_equal.
    transitivity (sum3 (fun k => gam c j k * DivT (Gam c) (Ku c) (dKu c) k) - sum3 (fun k => gam c j k * sum3 (fun l => igam c k l * cdK c l))).
    - rewrite gam_inv by assumption. reflexivity.
    - unfold mom_vac, MomConstraint. generalize (DivT (Gam c) (Ku c) (dKu c)). intros D. unfold sum3. ring.
  Qed.
End C.
