(** ObsKomar.v - the Komar mass: the volume integrand is the divergence of the surface current on stationary solutions. *)
From Verif Require Import RealBase TensorSpec TensorProofs RicciProofs RicciFinal XctsSpec ShiftSpec XctsProofs AdmSpec AdmConf AdmGen AdmFinal ObsSpec ObsProofs ObsGauss.
From Verif Require GenObsK.

(** lapse, shift and stress trace at the node: d(alpha psi), dd(alpha psi), beta, d beta, S = psi^6 times the trace of the stress *)
Record gauge := mkgauge { gdap : nat -> R; gddap : nat -> nat -> R; gbeta : nat -> R; gdbeta : nat -> nat -> R; gS : R }.
Definition envK (c : conf) (q : gauge) (n : nat -> R) : GenObsK.env :=
  GenObsK.mk (cA c) (cEP c) (cJP c) (gS q) (cap c) (gbeta q) (gdap q) (cdpsi c) (cg c) n (cpsi c) (cK c).
Section C.
  Variables (c : conf) (q : gauge) (n : nat -> R).
  Hypothesis OK : conf_ok c.
  Notation g := (sy (cg c)). Notation ig := (sy (cig c)). Notation dg := (syd (cdg c)). Notation dig := (syd (cdig c)).
  Notation p := (cpsi c). Notation A := (sy (cA c)). Notation K := (cK c). Notation ap := (cap c).
  Let Hp : p <> 0. Proof. destruct OK as (_ & _ & _ & _ & _ & H & _). exact H. Qed.
  (** alpha = (alpha psi)/psi and its derivatives by the quotient rule *)
  Definition alp : R := ap / p.
  Definition dalp (i : nat) : R := gdap q i / p - ap * cdpsi c i / p ^ 2.
  Definition ddalp (i j : nat) : R := sy (gddap q) i j / p - gdap q i * cdpsi c j / p ^ 2 - gdap q j * cdpsi c i / p ^ 2
    - ap * sy (cddpsi c) i j / p ^ 2 + 2 * ap * cdpsi c i * cdpsi c j / p ^ 3.
  (** K^i_j beta^j *)
  Definition Kbeta (i : nat) : R := sum3 (fun l => sum3 (fun j => Ku c i l * gam c l j * gbeta q j)).
  Definition dKbeta (i k : nat) : R := sum3 (fun l => sum3 (fun j => (dKu c i l k * gam c l j + Ku c i l * dgam c l j k) * gbeta q j + Ku c i l * gam c l j * gdbeta q j k)).
  Lemma komar_surf : GenObsK.out_obs_komar_mass__s (envK c q n) = sum3 (fun i => (dalp i - sum3 (fun j => Kd c i j * gbeta q j)) * n i).
  Proof. cbv -[Rplus Rminus Rmult Rdiv Ropp Rinv pow IZR PI cpsi cA cg cK cap cdpsi gdap gbeta]. field. exact Hp. Qed.
  Lemma komar_vol : GenObsK.v_out_obs_komar_mass__v (envK c q n) =
    alp * ((cEP c + gS q) / p ^ 6) - 2 * dot (gam c) (fun i => cJP c i / p ^ 6) (gbeta q).
  Proof. cbv -[Rplus Rminus Rmult Rdiv Ropp Rinv pow IZR PI cpsi cA cg cK cap cdpsi gdap gbeta cEP gS cJP]. field. exact Hp. Qed.

  Lemma C_contr k : (k < 3)%nat -> sum3 (fun i => sum3 (fun j => ig i j * Cp g ig p (cdpsi c) k i j)) = - 2 * Wp ig p (cdpsi c) k.
  Proof.
    intros Hk. destruct OK as (H & _).
    assert (I : sum3 (fun a => sum3 (fun b => ig a b * g a b)) = 3) by (apply (inv_tr g ig); auto using sy_sym).
    unfold Cp. transitivity (4 * sum3 (fun m => ig k m * Lp p (cdpsi c) m) - 2 * Wp ig p (cdpsi c) k * sum3 (fun a => sum3 (fun b => ig a b * g a b))).
    - generalize (Wp ig p (cdpsi c)) (Lp p (cdpsi c)). intros W L. unfold sum3, delta. idx k; cbn [Nat.eqb]; rewrite ?(sy_sym (cig c) 1 0)%nat, ?(sy_sym (cig c) 2 0)%nat, ?(sy_sym (cig c) 2 1)%nat; ring.
    - rewrite I. unfold Wp. ring.
  Qed.
  Lemma lap_phys : Lap (igam c) (Gam c) dalp ddalp = (Lap ig (syl (cG c)) (gdap q) (sy (gddap q)) - alp * Lap ig (syl (cG c)) (cdpsi c) (sy (cddpsi c))) / p ^ 5.
  Proof.
    transitivity ((sum3 (fun i => sum3 (fun j => ig i j * (ddalp i j - sum3 (fun k => syl (cG c) k i j * dalp k))))
       - sum3 (fun k => sum3 (fun i => sum3 (fun j => ig i j * Cp g ig p (cdpsi c) k i j)) * dalp k)) / p ^ 4).
    - unfold Lap, igam, Gam, PG, Pig. generalize (Cp g ig p (cdpsi c)) ddalp dalp. intros C a b. unfold sum3, Rdiv. ring.
    - rewrite (sum3_ext (fun k => sum3 _ * dalp k) (fun k => - 2 * Wp ig p (cdpsi c) k * dalp k)) by (intros; rewrite C_contr by assumption; reflexivity).
      unfold Lap, ddalp, dalp, alp, Wp, Lp, sum3.
      rewrite ?(sy_sym (cig c) 1 0)%nat, ?(sy_sym (cig c) 2 0)%nat, ?(sy_sym (cig c) 2 1)%nat, ?(syl_sym (cG c) _ 1 0)%nat, ?(syl_sym (cG c) _ 2 0)%nat, ?(syl_sym (cG c) _ 2 1)%nat, ?(sy_sym (cddpsi c) 1 0)%nat, ?(sy_sym (cddpsi c) 2 0)%nat, ?(sy_sym (cddpsi c) 2 1)%nat, ?(sy_sym (gddap q) 1 0)%nat, ?(sy_sym (gddap q) 2 0)%nat, ?(sy_sym (gddap q) 2 1)%nat.
      field. exact Hp.
  Qed.
  (** the code's lapse equation *)
  Definition lapse_res : R := lapse (Lap ig (syl (cG c)) (gdap q) (sy (gddap q))) (R_sc c) K (A_sq c) 1 (cEP c) (gS q) p (sum3 (fun i => gbeta q i * cdK c i)) ap.
  Definition ham_res : R := ham (Lap ig (syl (cG c)) (cdpsi c) (sy (cddpsi c))) (R_sc c) K (A_sq c) 1 (cEP c) p.
  Definition mom_res (i : nat) : R := MomConstraint 1 (igam c) (Gam c) (Ku c) (dKu c) (cdK c) (fun i => cJP c i / p ^ 6) i.
  Lemma lapse_phys : ham_res = 0 -> lapse_res = 0 ->
    Lap (igam c) (Gam c) dalp ddalp = alp * (square2 (gam c) (Ku c) + 4 * PI * ((cEP c + gS q) / p ^ 6)) + sum3 (fun i => gbeta q i * cdK c i).
  Proof.
    intros Hh Hl. rewrite lap_phys.
    assert (S2 : square2 (gam c) (Ku c) = square2 g A / p ^ 12 + K ^ 2 / 3).
    { destruct OK as (H & _ & _ & _ & T & _). apply (conf_square g ig p); auto using sy_sym. }
    rewrite S2. change (square2 g A) with (A_sq c).
    unfold ham_res, lapse_res, ham, lapse in *. unfold alp.
    set (L1 := Lap ig (syl (cG c)) (gdap q) (sy (gddap q))) in *. set (L0 := Lap ig (syl (cG c)) (cdpsi c) (sy (cddpsi c))) in *.
    set (bK := sum3 (fun i => gbeta q i * cdK c i)) in *. clearbody L1 L0 bK.
    assert (E0 : L0 = R_sc c * p / 8 + K ^ 2 * p ^ 5 / 12 - A_sq c / (8 * p ^ 7) - 2 * PI * cEP c / p) by lra.
    assert (E1 : L1 = ap * (7 * A_sq c / (8 * p ^ 8) + 5 * p ^ 4 * K ^ 2 / 12 + R_sc c / 8) + p ^ 5 * bK + 2 * PI * ap * (cEP c + 2 * gS q) / p ^ 2) by lra.
    rewrite E0, E1. field. exact Hp.
  Qed.
  Lemma div_Kbeta : DivV (Gam c) Kbeta dKbeta = sum3 (fun i => sum3 (fun j => sum3 (fun l => Ku c i l * gam c l j) * Dvec (Gam c) (gbeta q) (gdbeta q) i j))
    + sum3 (fun j => gbeta q j * sum3 (fun k => gam c j k * DivT (Gam c) (Ku c) (dKu c) k)).
  Proof.
    pose proof (div_current (gam c) (dgam c) (Gam c) (Ku c) (dKu c) 0 (fun _ => 0) (gam_sym c) (Gam_sym c) (Ku_sym c) (dKu_sym c) (gam_compat c OK) (gbeta q) (gdbeta q)) as X.
    transitivity (DivV (Gam c) (cur (gam c) (Ku c) 0 (gbeta q)) (dcur (gam c) (dgam c) (Ku c) (dKu c) 0 (fun _ => 0) (gbeta q) (gdbeta q))).
    - unfold DivV, Kbeta, dKbeta, cur, dcur, piud, dpiud. generalize (Gam c) (gam c) (dgam c) (Ku c) (dKu c). intros. unfold sum3. ring.
    - rewrite X. unfold piud. generalize (Gam c) (gam c) (Ku c) (Dvec (Gam c) (gbeta q) (gdbeta q)) (DivT (Gam c) (Ku c) (dKu c)). intros. unfold sum3. ring.
  Qed.
  (** D_i beta_j *)
  Definition Dbeta (i j : nat) : R := sum3 (fun k => gam c j k * Dvec (Gam c) (gbeta q) (gdbeta q) i k).
  Lemma KDbeta : (forall i j, (i < 3)%nat -> (j < 3)%nat -> (Dbeta i j + Dbeta j i) / 2 = alp * Kd c i j) ->
    sum3 (fun i => sum3 (fun j => sum3 (fun l => Ku c i l * gam c l j) * Dvec (Gam c) (gbeta q) (gdbeta q) i j)) = alp * square2 (gam c) (Ku c).
  Proof.
    intros St.
    transitivity (sum3 (fun i => sum3 (fun l => Ku c i l * ((Dbeta i l + Dbeta l i) / 2)))).
    - unfold Dbeta. generalize (Dvec (Gam c) (gbeta q) (gdbeta q)). intros D. unfold sum3.
      rewrite ?(Ku_sym c 1 0)%nat, ?(Ku_sym c 2 0)%nat, ?(Ku_sym c 2 1)%nat, ?(gam_sym c 1 0)%nat, ?(gam_sym c 2 0)%nat, ?(gam_sym c 2 1)%nat. field.
    - rewrite (sum3_ext (fun i => sum3 _) (fun i => sum3 (fun l => Ku c i l * (alp * sum3 (fun a => sum3 (fun b => gam c i a * Ku c a b * gam c b l))))))
        by (intros; apply sum3_ext; intros; rewrite St, (Kd_lower c OK) by assumption; reflexivity).
      unfold square2. generalize alp. intros al. unfold sum3.
      rewrite ?(Ku_sym c 1 0)%nat, ?(Ku_sym c 2 0)%nat, ?(Ku_sym c 2 1)%nat, ?(gam_sym c 1 0)%nat, ?(gam_sym c 2 0)%nat, ?(gam_sym c 2 1)%nat. ring.
  Qed.
  Lemma komar_div : ham_res = 0 -> lapse_res = 0 -> (forall i, (i < 3)%nat -> mom_res i = 0) ->
    (forall i j, (i < 3)%nat -> (j < 3)%nat -> (Dbeta i j + Dbeta j i) / 2 = alp * Kd c i j) ->
    Lap (igam c) (Gam c) dalp ddalp - DivV (Gam c) Kbeta dKbeta = 4 * PI * GenObsK.v_out_obs_komar_mass__v (envK c q n).
  Proof.
    intros Hh Hl Hm St. rewrite lapse_phys by assumption. rewrite div_Kbeta, KDbeta by assumption. rewrite komar_vol.
    assert (D : forall k, (k < 3)%nat -> DivT (Gam c) (Ku c) (dKu c) k = sum3 (fun l => igam c k l * cdK c l) + 8 * PI * (cJP c k / p ^ 6)).
    { intros k Hk. specialize (Hm k Hk). unfold mom_res, MomConstraint in Hm. lra. }
    rewrite (sum3_ext (fun j => gbeta q j * sum3 (fun k => gam c j k * DivT (Gam c) (Ku c) (dKu c) k)) (fun j => gbeta q j * (cdK c j + 8 * PI * sum3 (fun k => gam c j k * (cJP c k / p ^ 6))))).
    2:{ intros j Hj. f_equal. rewrite <- (gam_inv c OK j Hj (cdK c)) at 1.
      rewrite (sum3_ext (fun k => gam c j k * DivT _ _ _ k) (fun k => gam c j k * (sum3 (fun l => igam c k l * cdK c l) + 8 * PI * (cJP c k / p ^ 6)))) by (intros; rewrite D by assumption; reflexivity).
      unfold sum3. ring. }
    unfold dot. generalize (square2 (gam c) (Ku c)) (alp). intros s a. unfold sum3.
    rewrite ?(gam_sym c 1 0)%nat, ?(gam_sym c 2 0)%nat, ?(gam_sym c 2 1)%nat. field. exact Hp.
  Qed.
End C.
