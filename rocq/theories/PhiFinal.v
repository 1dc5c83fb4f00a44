(** PhiFinal.v - the phi equation, its matrix and its surface conditions. *)
From Verif Require Import RealBase TensorSpec RicciFinal XctsSpec ShiftSpec XctsProofs AdmSpec AdmConf PhiSpec PhiProofs.
From Verif Require GenEqPhi1 GenEqPhi2 GenJacPhi GenBcPhi1 GenBcPhi3 GenJacBcPhi1 GenJacBcPhi3.
From Coquelicot Require Import Coquelicot.

(** the values an EoS-consistent star takes at the node, as read by the code *)
Definition star_at (s : star) (x : point) (psi ap rho h u0 : R) (dpsi dap drho dh du0 dphi W beta : nat -> R)
    (ddphi ig : nat -> nat -> R) (dW dbeta : nat -> nat -> R) (dig : nat -> nat -> nat -> R) : Prop :=
  has_jet (s_psi s) x psi dpsi /\ has_jet (s_ap s) x ap dap /\ has_jet (s_rho s) x rho drho /\ has_jet (s_h s) x h dh /\
  has_jet (s_u0 s) x u0 du0 /\ (forall i, (i < 3)%nat -> has_jet (s_dphi s i) x (dphi i) (ddphi i)) /\
  (forall i, (i < 3)%nat -> has_jet (s_W s i) x (W i) (dW i)) /\ (forall i, (i < 3)%nat -> has_jet (s_beta s i) x (beta i) (dbeta i)) /\
  (forall i j, (i < 3)%nat -> (j < 3)%nat -> has_jet (s_ig s i j) x (ig i j) (dig i j)).

Lemma phi1_continuity : forall (E : GenEqPhi1.env) s x g dW dbeta dig flux',
  let G := syl (GenEqPhi1.ChrisConf E) in let ig := sy (GenEqPhi1.igConf E) in
  let DD := PG g ig G (GenEqPhi1.psi E) (GenEqPhi1.dpsi E) in
  star_at s x (GenEqPhi1.psi E) (GenEqPhi1.alphaPsi E) (GenEqPhi1.rho0 E) (GenEqPhi1.enthalpy E) (GenEqPhi1.u0 E) (GenEqPhi1.dpsi E)
    (GenEqPhi1.dalphaPsi E) (GenEqPhi1.drho0 E) (GenEqPhi1.denthalpy E) (GenEqPhi1.du0 E) (GenEqPhi1.dphi E) (GenEqPhi1.W E) (GenEqPhi1.beta E)
    (sy (GenEqPhi1.ddphi E)) ig dW dbeta dig ->
  inverse3 g ig -> (forall i j, g i j = g j i) -> compat_inv ig dig G ->
  GenEqPhi1.psi E <> 0 -> GenEqPhi1.alphaPsi E <> 0 -> GenEqPhi1.enthalpy E <> 0 -> GenEqPhi1.u0 E <> 0 ->
  sum3 (fun i => dW i i) = 0 -> GenEqPhi1.alphaPsi E / GenEqPhi1.psi E * GenEqPhi1.trK E = diverg DD (GenEqPhi1.beta E) (fun i => dbeta i i) ->
  (forall i, (i < 3)%nat -> partial (mass_flux s i) x i (flux' i)) ->
  GenEqPhi1.out_schur_F E =
   GenEqPhi1.psi E ^ 4 * GenEqPhi1.enthalpy E / (GenEqPhi1.alphaPsi E / GenEqPhi1.psi E) * diverg DD (fun i => mass_flux s i x) flux'
   + GenEqPhi1.e E * GenEqPhi1.rhoc E * (GenEqPhi1.rho0 E / GenEqPhi1.rhoc E - 1) ^ 4 * sum3 (fun i => sum3 (fun j => ig i j * sy (GenEqPhi1.ddphi E) i j)).
Proof.
  intros E s x g dW dbeta dig flux' G ig DD (Jp & Ja & Jr & Jh & Ju & Jphi & JW & Jb & Jig) Inv Sg Cig Hp Ha Hh Hu DW0 HK HF.
  rewrite phi1_formula by exact Hp.
  rewrite (phi_continuity s x _ _ _ _ _ _ _ _ _ _ _ _ _ _ dW dbeta g _ dig _ Jp Ja Jr Jh Ju Jphi JW Jb Jig Inv Sg (sy_sym _) Cig Hp Ha Hh Hu _ _ (sy_sym _) DW0 HK).
  do 2 f_equal. unfold diverg. f_equal. apply sum3_ext. intros i Hi.
  eapply uniqueness_limite; [|apply HF, Hi].
  exact (flux_partial s x _ _ _ _ _ _ _ _ _ _ _ _ _ _ dW dbeta _ dig Jp Ja Jr Jh Ju Jphi JW Jb Jig Hp Hh i Hi).
Qed.

Lemma phi2_continuity : forall (E : GenEqPhi2.env) s x g dW dig flux',
  let G := syl (GenEqPhi2.ChrisConf E) in let ig := sy (GenEqPhi2.igConf E) in
  let DD := PG g ig G (GenEqPhi2.psi E) (GenEqPhi2.dpsi E) in
  star_at s x (GenEqPhi2.psi E) (GenEqPhi2.alphaPsi E) (GenEqPhi2.rho0 E) (GenEqPhi2.enthalpy E) (GenEqPhi2.u0 E) (GenEqPhi2.dpsi E)
    (GenEqPhi2.dalphaPsi E) (GenEqPhi2.drho0 E) (GenEqPhi2.denthalpy E) (GenEqPhi2.du0 E) (GenEqPhi2.dphi E) (GenEqPhi2.W E) (GenEqPhi2.beta E)
    (sy (GenEqPhi2.ddphi E)) ig dW (GenEqPhi2.dbeta E) dig ->
  inverse3 g ig -> (forall i j, g i j = g j i) -> compat_inv ig dig G ->
  GenEqPhi2.psi E <> 0 -> GenEqPhi2.alphaPsi E <> 0 -> GenEqPhi2.enthalpy E <> 0 -> GenEqPhi2.u0 E <> 0 ->
  sum3 (fun i => dW i i) = 0 ->
  (forall i, (i < 3)%nat -> partial (mass_flux s i) x i (flux' i)) ->
  GenEqPhi2.out_schur_F E =
   GenEqPhi2.psi E ^ 4 * GenEqPhi2.enthalpy E / (GenEqPhi2.alphaPsi E / GenEqPhi2.psi E) * diverg DD (fun i => mass_flux s i x) flux'
   + GenEqPhi2.e E * GenEqPhi2.rhoc E * (GenEqPhi2.rho0 E / GenEqPhi2.rhoc E - 1) ^ 4 * sum3 (fun i => sum3 (fun j => ig i j * sy (GenEqPhi2.ddphi E) i j)).
Proof.
  intros E s x g dW dig flux' G ig DD (Jp & Ja & Jr & Jh & Ju & Jphi & JW & Jb & Jig) Inv Sg Cig Hp Ha Hh Hu DW0 HF.
  rewrite phi2_formula by exact Hp.
  assert (HK : diverg (syl (GenEqPhi2.ChrisConf E)) (GenEqPhi2.beta E) (fun i => GenEqPhi2.dbeta E i i) + 6 * sum3 (fun i => GenEqPhi2.dpsi E i / GenEqPhi2.psi E * GenEqPhi2.beta E i)
     = diverg DD (GenEqPhi2.beta E) (fun i => GenEqPhi2.dbeta E i i)) by (symmetry; apply diverg_phys; assumption).
  rewrite (phi_continuity s x _ _ _ _ _ _ _ _ _ _ _ _ _ _ dW (GenEqPhi2.dbeta E) g _ dig _ Jp Ja Jr Jh Ju Jphi JW Jb Jig Inv Sg (sy_sym _) Cig Hp Ha Hh Hu _ _ (sy_sym _) DW0 HK).
  do 2 f_equal. unfold diverg. f_equal. apply sum3_ext. intros i Hi.
  eapply uniqueness_limite; [|apply HF, Hi].
  exact (flux_partial s x _ _ _ _ _ _ _ _ _ _ _ _ _ _ dW (GenEqPhi2.dbeta E) _ dig Jp Ja Jr Jh Ju Jphi JW Jb Jig Hp Hh i Hi).
Qed.

Lemma affine_derive f c j : (forall t, f t = c + t * j) -> derivable_pt_lim f 0 j.
Proof.
  intros H. apply (derivable_ext (fun t => c + t * j)); [intros; symmetry; apply H|].
  apply is_derive_Reals. auto_derive; [trivial|ring].
Qed.

(** the nodal residuals: phi enters through its derivatives and, where the centre condition is added, its interpolant *)
Lemma phi1_jacobian : forall n D1 D2 I0 att G W ap beta dap dh dp dr du e h ig p r rc K u0 u,
  jacobian n
    (fun u ijk => GenEqPhi1.add_out_schur_F (GenEqPhi1.mk att (G ijk) (W ijk) (ap ijk) (beta ijk) (dap ijk) (fun a b => lin n (D2 (ax2 a b)) u ijk)
       (dh ijk) (fun a => lin n (D1 a) u ijk) (dp ijk) (dr ijk) (du ijk) e (h ijk) (ig ijk) (Rsum n (fun l => I0 l * u l)) (p ijk) (r ijk) rc (K ijk) (u0 ijk)))
    u (fun _ => True)
    (fun ijk lmn => GenJacPhi.add_B_out_schur_B (GenJacPhi.mk att (G ijk) (fun a => D1 a ijk lmn) (fun c => D2 c ijk lmn) (ap ijk) (I0 lmn) (dap ijk) (dh ijk)
       (dp ijk) (dr ijk) e (h ijk) (ig ijk) (p ijk) (r ijk) rc)).
Proof.
  intros n D1 D2 I0 att G W ap beta dap dh dp dr du e h ig p r rc K u0 u ijk lmn Hi Hl _.
  refine (affine_derive _ (GenEqPhi1.add_out_schur_F (GenEqPhi1.mk att (G ijk) (W ijk) (ap ijk) (beta ijk) (dap ijk) (fun a b => lin n (D2 (ax2 a b)) u ijk)
       (dh ijk) (fun a => lin n (D1 a) u ijk) (dp ijk) (dr ijk) (du ijk) e (h ijk) (ig ijk) (Rsum n (fun l => I0 l * u l)) (p ijk) (r ijk) rc (K ijk) (u0 ijk))) _ _). intros t.
  pose proof (lin_bump n (fun _ => I0) u lmn t ijk Hl) as HI. unfold lin in HI.
  cbv -[lin bump Rsum Rplus Rminus Rmult Rdiv Ropp Rinv pow IZR] in HI |- *.
  rewrite !lin_bump by assumption. rewrite HI. unfold Rdiv.
  generalize (/ p ijk) (/ ap ijk) (/ h ijk) (/ u0 ijk) (/ rc). intros. ring.
Qed.
Lemma phi2_jacobian : forall n D1 D2 I0 att G W ap beta dap dbeta dh dp dr du e h ig p r rc u0 u,
  jacobian n
    (fun u ijk => GenEqPhi2.add_out_schur_F (GenEqPhi2.mk att (G ijk) (W ijk) (ap ijk) (beta ijk) (dap ijk) (dbeta ijk) (fun a b => lin n (D2 (ax2 a b)) u ijk)
       (dh ijk) (fun a => lin n (D1 a) u ijk) (dp ijk) (dr ijk) (du ijk) e (h ijk) (ig ijk) (Rsum n (fun l => I0 l * u l)) (p ijk) (r ijk) rc (u0 ijk)))
    u (fun _ => True)
    (fun ijk lmn => GenJacPhi.add_B_out_schur_B (GenJacPhi.mk att (G ijk) (fun a => D1 a ijk lmn) (fun c => D2 c ijk lmn) (ap ijk) (I0 lmn) (dap ijk) (dh ijk)
       (dp ijk) (dr ijk) e (h ijk) (ig ijk) (p ijk) (r ijk) rc)).
Proof.
  intros n D1 D2 I0 att G W ap beta dap dbeta dh dp dr du e h ig p r rc u0 u ijk lmn Hi Hl _.
  refine (affine_derive _ (GenEqPhi2.add_out_schur_F (GenEqPhi2.mk att (G ijk) (W ijk) (ap ijk) (beta ijk) (dap ijk) (dbeta ijk) (fun a b => lin n (D2 (ax2 a b)) u ijk)
       (dh ijk) (fun a => lin n (D1 a) u ijk) (dp ijk) (dr ijk) (du ijk) e (h ijk) (ig ijk) (Rsum n (fun l => I0 l * u l)) (p ijk) (r ijk) rc (u0 ijk))) _ _). intros t.
  pose proof (lin_bump n (fun _ => I0) u lmn t ijk Hl) as HI. unfold lin in HI.
  cbv -[lin bump Rsum Rplus Rminus Rmult Rdiv Ropp Rinv pow IZR] in HI |- *.
  rewrite !lin_bump by assumption. rewrite HI. unfold Rdiv.
  generalize (/ p ijk) (/ ap ijk) (/ h ijk) (/ u0 ijk) (/ rc). intros. ring.
Qed.
(** the condition at the star's centre only adds its term *)
Lemma phi_add : (forall E, GenEqPhi1.add_out_schur_F E = GenEqPhi1.out_schur_F E + GenEqPhi1.Att_Con_Num E * GenEqPhi1.interp E) /\
  (forall E, GenEqPhi2.add_out_schur_F E = GenEqPhi2.out_schur_F E + GenEqPhi2.Att_Con_Num E * GenEqPhi2.interp E).
Proof. split; reflexivity. Qed.
Lemma jac_phi_E : forall E, GenJacPhi.E_out_schur_Et E = GenJacPhi.B_out_schur_B E /\ GenJacPhi.add_E_out_schur_Et E = GenJacPhi.add_B_out_schur_B E.
Proof. intros E. assert (X : GenJacPhi.E_out_schur_Et E = GenJacPhi.B_out_schur_B E) by reflexivity. split; [exact X|].
  unfold GenJacPhi.add_E_out_schur_Et, GenJacPhi.add_B_out_schur_B. rewrite X. reflexivity. Qed.

(** ** surface condition, first form *)
Lemma bc1_flux : forall E : GenBcPhi1.env, GenBcPhi1.psi E <> 0 -> GenBcPhi1.enthalpy E <> 0 ->
  GenBcPhi1.outer_out_schur_F E = GenBcPhi1.psi E ^ 4 * GenBcPhi1.enthalpy E *
    sum3 (fun i => GenBcPhi1.drho0 E i *
      ((sum3 (fun j => sy (GenBcPhi1.igConf E) i j * GenBcPhi1.dphi E j) / GenBcPhi1.psi E ^ 4 + GenBcPhi1.W E i) / GenBcPhi1.enthalpy E
        - GenBcPhi1.u0 E * GenBcPhi1.beta E i)).
Proof. intros E. gen E. intros. field. split; assumption. Qed.
Lemma bc1_jacobian : forall n D1 W beta dr h ig p u0 u,
  jacobian n
    (fun u ijk => GenBcPhi1.outer_out_schur_F (GenBcPhi1.mk (W ijk) (beta ijk) (fun a => lin n (D1 a) u ijk) (dr ijk) (h ijk) (ig ijk) (p ijk) (u0 ijk)))
    u (fun _ => True)
    (fun ijk lmn => GenJacBcPhi1.outer_B_out_schur_B (GenJacBcPhi1.mk (fun a => D1 a ijk lmn) (dr ijk) (ig ijk))).
Proof.
  intros n D1 W beta dr h ig p u0 u ijk lmn Hi Hl _.
  refine (affine_derive _ (GenBcPhi1.outer_out_schur_F (GenBcPhi1.mk (W ijk) (beta ijk) (fun a => lin n (D1 a) u ijk) (dr ijk) (h ijk) (ig ijk) (p ijk) (u0 ijk))) _ _). intros t.
  cbv -[lin bump Rsum Rplus Rminus Rmult Rdiv Ropp Rinv pow IZR].
  rewrite !lin_bump by assumption. ring.
Qed.
Lemma jac_bc_phi_E : (forall E, GenJacBcPhi1.outer_E_out_schur_Et E = GenJacBcPhi1.outer_B_out_schur_B E) /\
  (forall E, GenJacBcPhi3.outer_E_out_schur_Et E = GenJacBcPhi3.outer_B_out_schur_B E).
Proof. split; reflexivity. Qed.

(** ** surface condition, third form: the matrix is the derivative of the residual when the conformal metric is flat there *)
Lemma bc3_jacobian_flat : forall n D1 W beta X g p u0 u,
  (forall ijk i j, sy (g ijk) i j = delta i j) ->
  jacobian n
    (fun u ijk => GenBcPhi3.outer_out_schur_F (GenBcPhi3.mk (W ijk) (beta ijk) (X ijk) (fun a => lin n (D1 a) u ijk) (g ijk) (p ijk) (u0 ijk)))
    u (fun _ => True)
    (fun ijk lmn => GenJacBcPhi3.outer_B_out_schur_B (GenJacBcPhi3.mk (fun a => D1 a ijk lmn) (X ijk) (g ijk))).
Proof.
  intros n D1 W beta X g p u0 u Hg ijk lmn Hi Hl _.
  refine (affine_derive _ (GenBcPhi3.outer_out_schur_F (GenBcPhi3.mk (W ijk) (beta ijk) (X ijk) (fun a => lin n (D1 a) u ijk) (g ijk) (p ijk) (u0 ijk))) _ _). intros t.
  pose proof (Hg ijk 0 0)%nat as G0. pose proof (Hg ijk 0 1)%nat as G1. pose proof (Hg ijk 0 2)%nat as G2.
  pose proof (Hg ijk 1 1)%nat as G3. pose proof (Hg ijk 1 2)%nat as G4. pose proof (Hg ijk 2 2)%nat as G5.
  cbv -[lin bump Rsum Rplus Rminus Rmult Rdiv Ropp Rinv pow IZR Rpower] in *.
  rewrite !lin_bump by assumption. rewrite !G0, !G1, !G2, !G3, !G4, !G5. ring.
Qed.
Lemma Rpower_1 x : Rpower 1 x = 1.
Proof. unfold Rpower. rewrite ln_1, Rmult_0_r. apply exp_0. Qed.
(** and not otherwise: metric 4 on the diagonal *)
Lemma bc3_not_jacobian : exists n D1 W beta X g p u0 u,
  (forall i j, g i j = g j i) /\ (forall v : nat -> R, (exists i, (i < 3)%nat /\ v i <> 0) -> 0 < sum3 (fun i => sum3 (fun j => g i j * v i * v j))) /\
  ~ jacobian n
    (fun u ijk => GenBcPhi3.outer_out_schur_F (GenBcPhi3.mk (W ijk) (beta ijk) X (fun a => lin n (D1 a) u ijk) g (p ijk) (u0 ijk)))
    u (fun _ => True)
    (fun ijk lmn => GenJacBcPhi3.outer_B_out_schur_B (GenJacBcPhi3.mk (fun a => D1 a ijk lmn) X g)).
Proof.
  exists 1%nat, (fun _ _ _ => 1), (fun _ _ => 0), (fun _ _ => 0), (fun a => if Nat.eqb a 0 then 1/2 else 0), (fun i j => 4 * delta i j), (fun _ => 1), (fun _ => 1), (fun _ => 0).
  split; [|split].
  - intros i j. unfold delta. rewrite Nat.eqb_sym. reflexivity.
  - intros v [i [Hi Hv]]. unfold sum3, delta. cbn.
    assert (0 < v i * v i) by nra. idx i; nra.
  - intros J. specialize (J 0%nat 0%nat ltac:(lia) ltac:(lia) I).
    assert (D : derivable_pt_lim (fun t => GenBcPhi3.outer_out_schur_F (GenBcPhi3.mk (fun _ => 0) (fun _ => 0) (fun a => if Nat.eqb a 0 then 1/2 else 0)
       (fun a => lin 1 (fun _ _ => 1) (bump (fun _ => 0) 0 t) 0) (fun i j => 4 * delta i j) 1 1)) 0 (1/2)).
    { apply (affine_derive _ 0). intros t. cbv -[lin bump Rsum Rplus Rminus Rmult Rdiv Ropp Rinv pow IZR Rpower].
      rewrite !lin_bump by lia. replace (lin 1 (fun _ _ => 1) (fun _ => 0) 0) with 0 by (unfold lin; cbn; ring).
      match goal with |- context [Rpower ?a _] => replace a with 1 by field end. rewrite Rpower_1. field. }
    pose proof (uniqueness_limite _ _ _ _ J D) as H. revert H.
    cbv -[Rplus Rminus Rmult Rdiv Ropp Rinv pow IZR Rpower].
    match goal with |- context [Rpower ?a _] => replace a with 1 by field end. rewrite Rpower_1. lra.
Qed.
(** where the star has an inner boundary patch the rows are zero on both sides *)
Lemma bc_inner_zero : (forall E, GenBcPhi1.inner_out_schur_F E = 0) /\ (forall E, GenBcPhi3.inner_out_schur_F E = 0) /\
  (forall E, GenJacBcPhi1.inner_B_out_schur_B E = 0 /\ GenJacBcPhi1.inner_E_out_schur_Et E = 0) /\
  (forall E, GenJacBcPhi3.inner_B_out_schur_B E = 0 /\ GenJacBcPhi3.inner_E_out_schur_Et E = 0).
Proof. repeat split; reflexivity. Qed.

(** ** a rotating, expanding star with a density gradient: rho0 = 1 + x, phi = r^2/2, W = (-y, x, 0) *)
Definition ex_star : star :=
  mkstar (fun _ => 1) (fun _ => 1) (fun y => 1 + y 0%nat) (fun _ => 1) (fun _ => 1) (fun i y => y i)
    (fun i y => match i with 0%nat => - y 1%nat | 1%nat => y 0%nat | _ => 0 end) (fun _ _ => 0) (fun i j _ => delta i j).
Definition ex_x : point := fun i => match i with 0%nat => 1 | 1%nat => 2 | _ => 3 end.
Definition ex_W (i : nat) : R := match i with 0%nat => - 2 | 1%nat => 1 | _ => 0 end.
Definition ex_dW (i a : nat) : R := match i, a with 0%nat, 1%nat => - 1 | 1%nat, 0%nat => 1 | _, _ => 0 end.
Definition ex_env : GenEqPhi1.env :=
  GenEqPhi1.mk 0 (fun _ _ _ => 0) ex_W 1 (fun _ => 0) (fun _ => 0) delta (fun _ => 0) ex_x (fun _ => 0) (fun a => delta a 0) (fun _ => 0) 0 1 delta 0 1 2 1 0 1.
Definition ex_env2 : GenEqPhi2.env :=
  GenEqPhi2.mk 0 (fun _ _ _ => 0) ex_W 1 (fun _ => 0) (fun _ => 0) (fun _ _ => 0) delta (fun _ => 0) ex_x (fun _ => 0) (fun a => delta a 0) (fun _ => 0) 0 1 delta 0 1 2 1 1.
Ltac aff := match goal with |- derivable_pt_lim ?f 0 ?d => apply (affine_derive f (f 0)); intros t; cbv -[Rplus Rminus Rmult Rdiv Ropp Rinv pow IZR]; ring end.
Lemma ex_star_at : star_at ex_star ex_x 1 1 2 1 1 (fun _ => 0) (fun _ => 0) (fun a => delta a 0) (fun _ => 0) (fun _ => 0) ex_x ex_W (fun _ => 0) (sy delta) (sy delta) ex_dW (fun _ _ => 0) (fun _ _ _ => 0).
Proof.
  unfold star_at, has_jet, partial.
  repeat split; cbn [ex_star s_psi s_ap s_rho s_h s_u0 s_dphi s_W s_beta s_ig]; intros; try (cbv -[Rplus Rminus Rmult Rdiv Ropp Rinv pow IZR]; lra);
  try idx a; try idx i; try idx j;
  try (aff); cbv -[Rplus Rminus Rmult Rdiv Ropp Rinv pow IZR]; lra.
Qed.
Lemma ex_phi : exists s x g dW dbeta dig flux',
  star_at s x (GenEqPhi1.psi ex_env) (GenEqPhi1.alphaPsi ex_env) (GenEqPhi1.rho0 ex_env) (GenEqPhi1.enthalpy ex_env) (GenEqPhi1.u0 ex_env) (GenEqPhi1.dpsi ex_env)
    (GenEqPhi1.dalphaPsi ex_env) (GenEqPhi1.drho0 ex_env) (GenEqPhi1.denthalpy ex_env) (GenEqPhi1.du0 ex_env) (GenEqPhi1.dphi ex_env) (GenEqPhi1.W ex_env) (GenEqPhi1.beta ex_env)
    (sy (GenEqPhi1.ddphi ex_env)) (sy (GenEqPhi1.igConf ex_env)) dW dbeta dig /\
  inverse3 g (sy (GenEqPhi1.igConf ex_env)) /\ compat_inv (sy (GenEqPhi1.igConf ex_env)) dig (syl (GenEqPhi1.ChrisConf ex_env)) /\ sum3 (fun i => dW i i) = 0 /\
  GenEqPhi1.alphaPsi ex_env / GenEqPhi1.psi ex_env * GenEqPhi1.trK ex_env
   = diverg (PG g (sy (GenEqPhi1.igConf ex_env)) (syl (GenEqPhi1.ChrisConf ex_env)) (GenEqPhi1.psi ex_env) (GenEqPhi1.dpsi ex_env)) (GenEqPhi1.beta ex_env) (fun i => dbeta i i) /\
  (forall i, (i < 3)%nat -> partial (mass_flux s i) x i (flux' i)) /\
  GenEqPhi1.out_schur_F ex_env = 5 /\ GenEqPhi2.out_schur_F ex_env2 = 5.
Proof.
  exists ex_star, ex_x, delta, ex_dW, (fun _ _ => 0), (fun _ _ _ => 0), (dflux 1 1 2 1 1 (fun _ => 0) (fun _ => 0) (fun a => delta a 0) (fun _ => 0) (fun _ => 0) ex_x ex_W (fun _ => 0) (sy delta) ex_dW (fun _ _ => 0) (sy delta) (fun _ _ _ => 0)).
  split; [exact ex_star_at|]. split; [intros i j Hi Hj; idx i; idx j; cbv -[Rplus Rminus Rmult Rdiv Ropp Rinv pow IZR]; lra|].
  split; [intros a i j Ha Hi Hj; idx a; idx i; idx j; cbv -[Rplus Rminus Rmult Rdiv Ropp Rinv pow IZR]; ring|].
  split; [cbv -[Rplus Rminus Rmult Rdiv Ropp Rinv pow IZR]; lra|].
  split; [cbv -[Rplus Rminus Rmult Rdiv Ropp Rinv pow IZR]; field|].
  split.
  - destruct ex_star_at as (Jp & Ja & Jr & Jh & Ju & Jphi & JW & Jb & Jig). intros i Hi.
    refine (flux_partial ex_star ex_x _ _ _ _ _ _ _ _ _ _ _ _ _ _ _ _ _ _ Jp Ja Jr Jh Ju Jphi JW Jb Jig _ _ i Hi); lra.
  - split; cbv -[Rplus Rminus Rmult Rdiv Ropp Rinv pow IZR]; field.
Qed.
