(** PhiProofs.v - residual of the phi equation. *)
From Verif Require Import RealBase TensorSpec RicciFinal XctsSpec ShiftSpec XctsProofs AdmSpec AdmConf PhiSpec.
From Verif Require GenEqPhi1 GenEqPhi2 GenJacPhi GenBcPhi1 GenBcPhi3 GenJacBcPhi1 GenJacBcPhi3.
From Coquelicot Require Import Coquelicot.

(** covariant form of the bulk terms *)
Definition phi_res (ig : nat -> nat -> R) (G : nat -> nat -> nat -> R) (psi : R) (dlp dla dlh dlu drho dphi : nat -> R) ddphi
    (rho h u0 : R) (W beta : nat -> R) (DiBi pol : R) : R :=
  let J i := sum3 (fun j => ig i j * dphi j) + psi ^ 4 * W i - h * psi ^ 4 * u0 * beta i in
  sum3 (fun i => drho i * J i) + pol * sum3 (fun i => sum3 (fun j => ig i j * ddphi i j))
  + rho * (Lap ig G dphi ddphi + sum3 (fun i => sum3 (fun j => ig i j * dphi i * (dla j - dlh j + 2 * dlp j)))
     + psi ^ 4 * sum3 (fun i => W i * (sum3 (fun k => G k k i) + dla i - dlh i + 6 * dlp i))
     - h * u0 * psi ^ 4 * sum3 (fun i => beta i * (dla i + dlu i)) - DiBi * (h * u0 * psi ^ 4)).

Lemma phi1_formula : forall E : GenEqPhi1.env, GenEqPhi1.psi E <> 0 ->
  GenEqPhi1.out_schur_F E =
  phi_res (sy (GenEqPhi1.igConf E)) (syl (GenEqPhi1.ChrisConf E)) (GenEqPhi1.psi E)
    (fun i => GenEqPhi1.dpsi E i / GenEqPhi1.psi E) (fun i => GenEqPhi1.dalphaPsi E i / GenEqPhi1.alphaPsi E - GenEqPhi1.dpsi E i / GenEqPhi1.psi E)
    (fun i => GenEqPhi1.denthalpy E i / GenEqPhi1.enthalpy E) (fun i => GenEqPhi1.du0 E i / GenEqPhi1.u0 E)
    (GenEqPhi1.drho0 E) (GenEqPhi1.dphi E) (sy (GenEqPhi1.ddphi E)) (GenEqPhi1.rho0 E) (GenEqPhi1.enthalpy E) (GenEqPhi1.u0 E)
    (GenEqPhi1.W E) (GenEqPhi1.beta E) (GenEqPhi1.alphaPsi E / GenEqPhi1.psi E * GenEqPhi1.trK E)
    (GenEqPhi1.e E * GenEqPhi1.rhoc E * (GenEqPhi1.rho0 E / GenEqPhi1.rhoc E - 1) ^ 4).
Proof.
  intros [att Ch W ap be dap ddf dh df dp dr du e h ig it p r rc k u] Hp. clear Hp.
  cbv -[Rplus Rminus Rmult Rdiv Ropp Rinv pow IZR]. unfold Rdiv.
  generalize (/ p) (/ ap) (/ h) (/ u) (/ rc). intros. ring.
Qed.
Lemma phi2_formula : forall E : GenEqPhi2.env, GenEqPhi2.psi E <> 0 ->
  GenEqPhi2.out_schur_F E =
  phi_res (sy (GenEqPhi2.igConf E)) (syl (GenEqPhi2.ChrisConf E)) (GenEqPhi2.psi E)
    (fun i => GenEqPhi2.dpsi E i / GenEqPhi2.psi E) (fun i => GenEqPhi2.dalphaPsi E i / GenEqPhi2.alphaPsi E - GenEqPhi2.dpsi E i / GenEqPhi2.psi E)
    (fun i => GenEqPhi2.denthalpy E i / GenEqPhi2.enthalpy E) (fun i => GenEqPhi2.du0 E i / GenEqPhi2.u0 E)
    (GenEqPhi2.drho0 E) (GenEqPhi2.dphi E) (sy (GenEqPhi2.ddphi E)) (GenEqPhi2.rho0 E) (GenEqPhi2.enthalpy E) (GenEqPhi2.u0 E)
    (GenEqPhi2.W E) (GenEqPhi2.beta E)
    (diverg (syl (GenEqPhi2.ChrisConf E)) (GenEqPhi2.beta E) (fun i => GenEqPhi2.dbeta E i i) + 6 * sum3 (fun i => GenEqPhi2.dpsi E i / GenEqPhi2.psi E * GenEqPhi2.beta E i))
    (GenEqPhi2.e E * GenEqPhi2.rhoc E * (GenEqPhi2.rho0 E / GenEqPhi2.rhoc E - 1) ^ 4).
Proof.
  intros [att Ch W ap be dap dbe ddf dh df dp dr du e h ig it p r rc u] Hp. clear Hp.
  cbv -[Rplus Rminus Rmult Rdiv Ropp Rinv pow IZR]. unfold Rdiv.
  generalize (/ p) (/ ap) (/ h) (/ u) (/ rc). intros. ring.
Qed.

Lemma flux_derive (p a r h u v w b : R -> R) dp da dr dh du dv dw db : p 0 <> 0 -> h 0 <> 0 ->
  derivable_pt_lim p 0 dp -> derivable_pt_lim a 0 da -> derivable_pt_lim r 0 dr -> derivable_pt_lim h 0 dh ->
  derivable_pt_lim u 0 du -> derivable_pt_lim v 0 dv -> derivable_pt_lim w 0 dw -> derivable_pt_lim b 0 db ->
  let X := (v 0 / p 0 ^ 4 + w 0) / h 0 - u 0 * b 0 in
  derivable_pt_lim (fun t => r t * (a t / p t) * ((v t / p t ^ 4 + w t) / h t - u t * b t)) 0
    (dr * (a 0 / p 0) * X + r 0 * (da / p 0 - a 0 * dp / p 0 ^ 2) * X
     + r 0 * (a 0 / p 0) * ((dv / p 0 ^ 4 - 4 * v 0 * dp / p 0 ^ 5 + dw) / h 0 - (v 0 / p 0 ^ 4 + w 0) * dh / h 0 ^ 2 - du * b 0 - u 0 * db)).
Proof.
  intros Hp Hh Dp Da Dr Dh Du Dv Dw Db X.
  apply is_derive_Reals in Dp, Da, Dr, Dh, Du, Dv, Dw, Db. apply is_derive_Reals.
  auto_derive.
  - repeat split; try (eexists; eassumption); try assumption.
    change (p 0 ^ 4 <> 0). apply pow_nonzero, Hp.
  - replace (Derive (fun x : R => p x) 0) with dp by (symmetry; exact (is_derive_unique p 0 dp Dp)).
    replace (Derive (fun x : R => a x) 0) with da by (symmetry; exact (is_derive_unique a 0 da Da)).
    replace (Derive (fun x : R => r x) 0) with dr by (symmetry; exact (is_derive_unique r 0 dr Dr)).
    replace (Derive (fun x : R => h x) 0) with dh by (symmetry; exact (is_derive_unique h 0 dh Dh)).
    replace (Derive (fun x : R => u x) 0) with du by (symmetry; exact (is_derive_unique u 0 du Du)).
    replace (Derive (fun x : R => v x) 0) with dv by (symmetry; exact (is_derive_unique v 0 dv Dv)).
    replace (Derive (fun x : R => w x) 0) with dw by (symmetry; exact (is_derive_unique w 0 dw Dw)).
    replace (Derive (fun x : R => b x) 0) with db by (symmetry; exact (is_derive_unique b 0 db Db)).
    unfold X. field. split; assumption.
Qed.

Lemma sum3_derive (f g : nat -> R -> R) (df dg : nat -> R) :
  (forall j, (j < 3)%nat -> derivable_pt_lim (f j) 0 (df j)) -> (forall j, (j < 3)%nat -> derivable_pt_lim (g j) 0 (dg j)) ->
  derivable_pt_lim (fun t => sum3 (fun j => f j t * g j t)) 0 (sum3 (fun j => df j * g j 0 + f j 0 * dg j)).
Proof.
  intros H H'. unfold sum3.
  apply (derivable_pt_lim_plus (fun t => f 0%nat t * g 0%nat t + f 1%nat t * g 1%nat t) (fun t => f 2%nat t * g 2%nat t)).
  - apply (derivable_pt_lim_plus (fun t => f 0%nat t * g 0%nat t) (fun t => f 1%nat t * g 1%nat t)).
    + apply (derivable_pt_lim_mult (f 0%nat) (g 0%nat)); [apply H|apply H']; lia.
    + apply (derivable_pt_lim_mult (f 1%nat) (g 1%nat)); [apply H|apply H']; lia.
  - apply (derivable_pt_lim_mult (f 2%nat) (g 2%nat)); [apply H|apply H']; lia.
Qed.

Lemma along0 x a : along x a 0 = x.
Proof. unfold along. apply FunctionalExtensionality.functional_extensionality. intros i. ring. Qed.

(** values and first derivatives at a node of the fields of a star *)
Record jet := mkjet { j_v : R; j_d : nat -> R }.
Definition has_jet (f : point -> R) (x : point) (v : R) (d : nat -> R) : Prop :=
  f x = v /\ forall a, (a < 3)%nat -> partial f x a (d a).

Section Star.
  Variables (s : star) (x : point).
  Variables (psi ap rho h u0 : R) (dpsi dap drho dh du0 dphi W beta : nat -> R) (ddphi dW dbeta : nat -> nat -> R).
  Variables (g ig : nat -> nat -> R) (dig G : nat -> nat -> nat -> R).
  Hypothesis Jpsi : has_jet (s_psi s) x psi dpsi.
  Hypothesis Jap : has_jet (s_ap s) x ap dap.
  Hypothesis Jrho : has_jet (s_rho s) x rho drho.
  Hypothesis Jh : has_jet (s_h s) x h dh.
  Hypothesis Ju : has_jet (s_u0 s) x u0 du0.
  Hypothesis Jphi : forall i, (i < 3)%nat -> has_jet (s_dphi s i) x (dphi i) (ddphi i).
  Hypothesis JW : forall i, (i < 3)%nat -> has_jet (s_W s i) x (W i) (dW i).
  Hypothesis Jb : forall i, (i < 3)%nat -> has_jet (s_beta s i) x (beta i) (dbeta i).
  Hypothesis Jig : forall i j, (i < 3)%nat -> (j < 3)%nat -> has_jet (s_ig s i j) x (ig i j) (dig i j).
  Hypothesis Inv : inverse3 g ig.
  Hypothesis Sg : forall i j, g i j = g j i.
  Hypothesis Sig : forall i j, ig i j = ig j i.
  Hypothesis SG : forall k i j, G k i j = G k j i.
  Hypothesis Cig : compat_inv ig dig G.
  Hypothesis Hp : psi <> 0.
  Hypothesis Hap : ap <> 0.
  Hypothesis Hh : h <> 0.
  Hypothesis Hu : u0 <> 0.

  (** the derivative of the mass flux along its own axis *)
  Definition dflux (i : nat) : R :=
    let v := sum3 (fun j => ig i j * dphi j) in
    let X := (v / psi ^ 4 + W i) / h - u0 * beta i in
    drho i * (ap / psi) * X + rho * (dap i / psi - ap * dpsi i / psi ^ 2) * X
     + rho * (ap / psi) * ((sum3 (fun j => dig i j i * dphi j + ig i j * ddphi j i) / psi ^ 4 - 4 * v * dpsi i / psi ^ 5 + dW i i) / h
        - (v / psi ^ 4 + W i) * dh i / h ^ 2 - du0 i * beta i - u0 * dbeta i i).

  Lemma flux_partial i : (i < 3)%nat -> partial (mass_flux s i) x i (dflux i).
  Proof.
    intros Hi. unfold partial, mass_flux. cbv zeta.
    pose proof (sum3_derive (fun j t => s_ig s i j (along x i t)) (fun j t => s_dphi s j (along x i t)) (fun j => dig i j i) (fun j => ddphi j i)
      (fun j Hj => proj2 (Jig i j Hi Hj) i Hi) (fun j Hj => proj2 (Jphi j Hj) i Hi)) as V.
    cbv beta in V. rewrite along0 in V.
    pose proof (flux_derive (fun t => s_psi s (along x i t)) (fun t => s_ap s (along x i t)) (fun t => s_rho s (along x i t)) (fun t => s_h s (along x i t))
      (fun t => s_u0 s (along x i t)) (fun t => sum3 (fun j => s_ig s i j (along x i t) * s_dphi s j (along x i t))) (fun t => s_W s i (along x i t))
      (fun t => s_beta s i (along x i t)) (dpsi i) (dap i) (drho i) (dh i) (du0 i)
      (sum3 (fun j => dig i j i * dphi j + ig i j * ddphi j i)) (dW i i) (dbeta i i)) as F.
    cbv beta in F. rewrite along0 in F.
    destruct Jpsi as [Vp Dp], Jap as [Va Da], Jrho as [Vr Dr], Jh as [Vh Dh], Ju as [Vu Du]. destruct (JW i Hi) as [Vw Dw]. destruct (Jb i Hi) as [Vb Db].
    rewrite Vp, Va, Vr, Vh, Vu, Vw, Vb in F.
    rewrite (sum3_ext (fun j => s_ig s i j x * s_dphi s j x) (fun j => ig i j * dphi j)) in F
      by (intros j Hj; rewrite (proj1 (Jig i j Hi Hj)), (proj1 (Jphi j Hj)); reflexivity).
    rewrite (sum3_ext (fun j => dig i j i * s_dphi s j x + s_ig s i j x * ddphi j i) (fun j => dig i j i * dphi j + ig i j * ddphi j i)) in V
      by (intros j Hj; rewrite (proj1 (Jig i j Hi Hj)), (proj1 (Jphi j Hj)); reflexivity).
    refine (F Hp Hh _ _ _ _ _ V _ _); [apply Dp|apply Da|apply Dr|apply Dh|apply Du|apply Dw|apply Db]; assumption.
  Qed.

  Lemma flux_value i : (i < 3)%nat -> mass_flux s i x = rho * (ap / psi) * ((sum3 (fun j => ig i j * dphi j) / psi ^ 4 + W i) / h - u0 * beta i).
  Proof.
    intros Hi. unfold mass_flux. destruct Jpsi as [-> _], Jap as [-> _], Jrho as [-> _], Jh as [-> _], Ju as [-> _]. destruct (JW i Hi) as [-> _]. destruct (Jb i Hi) as [-> _].
    rewrite (sum3_ext (fun j => s_ig s i j x * s_dphi s j x) (fun j => ig i j * dphi j))
      by (intros j Hj; rewrite (proj1 (Jig i j Hi Hj)), (proj1 (Jphi j Hj)); reflexivity).
    reflexivity.
  Qed.

  (** divergence for the physical connection *)
  Lemma diverg_phys V dV : diverg (PG g ig G psi dpsi) V dV = diverg G V dV + 6 * sum3 (fun i => dpsi i / psi * V i).
  Proof.
    unfold diverg.
    transitivity (sum3 dV + sum3 (fun i => sum3 (fun j => G i i j * V j)) + sum3 (fun j => sum3 (fun c => Cp g ig psi dpsi c c j) * V j)).
    - unfold PG, sum3. ring.
    - rewrite (sum3_ext (fun j => sum3 (fun c => Cp g ig psi dpsi c c j) * V j) (fun j => 6 * (dpsi j / psi) * V j)); [unfold sum3; ring|].
      intros j Hj. rewrite (C_tr g ig psi dpsi Sg Inv j Hj). reflexivity.
  Qed.

  Lemma phi_continuity pol DiBi :
    (forall i j, ddphi i j = ddphi j i) -> sum3 (fun i => dW i i) = 0 -> DiBi = diverg (PG g ig G psi dpsi) beta (fun i => dbeta i i) ->
    phi_res ig G psi (fun i => dpsi i / psi) (fun i => dap i / ap - dpsi i / psi) (fun i => dh i / h) (fun i => du0 i / u0)
      drho dphi ddphi rho h u0 W beta DiBi pol
    = psi ^ 4 * h / (ap / psi) * diverg (PG g ig G psi dpsi) (fun i => mass_flux s i x) dflux
      + pol * sum3 (fun i => sum3 (fun j => ig i j * ddphi i j)).
  Proof.
    intros Sdd DW0 ->. rewrite !diverg_phys.
    set (V := fun i => rho * (ap / psi) * ((sum3 (fun j => ig i j * dphi j) / psi ^ 4 + W i) / h - u0 * beta i)).
    assert (EV : forall f : nat -> R, sum3 (fun i => f i * mass_flux s i x) = sum3 (fun i => f i * V i)).
    { intros f. apply sum3_ext. intros i Hi. rewrite flux_value by assumption. reflexivity. }
    assert (E2 : diverg G (fun i => mass_flux s i x) dflux = diverg G V dflux).
    { unfold diverg. f_equal. apply sum3_ext. intros i Hi. apply EV. }
    rewrite E2, EV.
    (* divergence of the inverse metric *)
    assert (Dg : sum3 (fun i => sum3 (fun j => dig i j i * dphi j)) = - sum3 (fun i => sum3 (fun j => ig i j * sum3 (fun k => G k i j * dphi k))) - sum3 (fun i => sum3 (fun l => sum3 (fun j => G i i l * ig l j * dphi j)))).
    { rewrite (sum3_ext _ (fun i => sum3 (fun j => (- sum3 (fun l => G i i l * ig l j) - sum3 (fun l => G j i l * ig i l)) * dphi j)))
        by (intros; apply sum3_ext; intros; rewrite Cig by assumption; reflexivity).
      unfold sum3. ring. }
    assert (DW2 : dW 2%nat 2%nat = - dW 0%nat 0%nat - dW 1%nat 1%nat) by (unfold sum3 in DW0; lra).
    assert (Key : psi ^ 4 * h / (ap / psi) * diverg G V dflux =
      rho * (sum3 (fun i => sum3 (fun j => dig i j i * dphi j)) + sum3 (fun i => sum3 (fun j => ig i j * ddphi j i)) 
         + sum3 (fun i => sum3 (fun l => sum3 (fun j => G i i l * ig l j * dphi j))) + psi ^ 4 * sum3 (fun i => sum3 (fun l => G i i l * W l)) + psi ^ 4 * sum3 (fun i => dW i i)
         - psi ^ 4 * h * u0 * diverg G beta (fun i => dbeta i i) - psi ^ 4 * h * sum3 (fun i => du0 i * beta i))
      + sum3 (fun i => drho i * (sum3 (fun j => ig i j * dphi j) + psi ^ 4 * W i - h * psi ^ 4 * u0 * beta i))
      + rho * sum3 (fun i => (dap i / ap - dpsi i / psi) * (sum3 (fun j => ig i j * dphi j) + psi ^ 4 * W i - h * psi ^ 4 * u0 * beta i))
      - rho * sum3 (fun i => 4 * dpsi i / psi * sum3 (fun j => ig i j * dphi j))
      - rho * sum3 (fun i => dh i / h * (sum3 (fun j => ig i j * dphi j) + psi ^ 4 * W i))).
    { unfold diverg, V, dflux. unfold sum3. field. repeat split; assumption. }
    rewrite Rmult_plus_distr_l, Key, Dg, DW0. unfold phi_res, Lap, V, diverg. unfold sum3.
    rewrite !(Sig 1%nat 0%nat), !(Sig 2%nat 0%nat), !(Sig 2%nat 1%nat), !(Sdd 1%nat 0%nat), !(Sdd 2%nat 0%nat), !(Sdd 2%nat 1%nat).
    field. repeat split; assumption.
  Qed.
End Star.
