(** Props_Phi.v - property theorems C101-C102: the velocity potential of an irrotational or spinning star. *)
From Verif Require Import RealBase TensorSpec RicciFinal XctsSpec ShiftSpec XctsProofs AdmSpec AdmConf PhiSpec PhiProofs PhiFinal.
From Verif Require GenEqPhi1 GenEqPhi2 GenJacPhi GenBcPhi1 GenBcPhi3 GenJacBcPhi1 GenJacBcPhi3.

(** C101. At every node, for every star whose fields have there the values and derivatives the code reads, with
    non-zero psi, alpha psi, enthalpy and u^0 and a spin vector with d_i W^i = 0: the residual of the phi equation (T2 form) is
    psi^4 h / alpha times the divergence, in the physical metric psi^4 g, of the mass flux
    alpha rho0 ((D^i phi + W^i)/h - u^0 beta^i), plus the polish term, which vanishes when its factor e is 0; the T1 form is the same when
    alpha K = D_i beta^i.  For every number of nodes, differentiation matrices and weights of the interpolation to the star's centre the
    matrix entries are the derivatives of the residual with respect to the nodal values of phi, in both forms. *)
Theorem C101_phi_equation :
  (forall (E : GenEqPhi1.env) s x g dW dbeta dig flux',
  let G := syl (GenEqPhi1.ChrisConf E) in let ig := sy (GenEqPhi1.igConf E) in
  let DD := PG g ig G (GenEqPhi1.psi E) (GenEqPhi1.dpsi E) in
  star_at s x (GenEqPhi1.psi E) (GenEqPhi1.alphaPsi E) (GenEqPhi1.rho0 E) (GenEqPhi1.enthalpy E) (GenEqPhi1.u0 E) (GenEqPhi1.dpsi E)
    (GenEqPhi1.dalphaPsi E) (GenEqPhi1.drho0 E) (GenEqPhi1.denthalpy E) (GenEqPhi1.du0 E) (GenEqPhi1.dphi E) (GenEqPhi1.W E) (GenEqPhi1.beta E)
    (sy (GenEqPhi1.ddphi E)) ig dW dbeta dig ->
  inverse3 g ig -> (forall i j, g i j = g j i) -> compat_inv ig dig G ->
  GenEqPhi1.psi E <> 0 -> GenEqPhi1.alphaPsi E <> 0 -> GenEqPhi1.enthalpy E <> 0 -> GenEqPhi1.u0 E <> 0 ->
  sum3 (fun i => dW i i) = 0 -> GenEqPhi1.alphaPsi E / GenEqPhi1.psi E * GenEqPhi1.trK E = diverg DD (GenEqPhi1.beta E) (fun i => dbeta i i) ->
  (forall i, (i < 3)%nat -> partial (mass_flux s i) x i (flux' i)) ->
  GenEqPhi1.out_schur_F E =
   GenEqPhi1.psi E ^ 4 * GenEqPhi1.enthalpy E / (GenEqPhi1.alphaPsi E / GenEqPhi1.psi E) * diverg DD (fun i => mass_flux s i x) flux'
   + GenEqPhi1.e E * GenEqPhi1.rhoc E * (GenEqPhi1.rho0 E / GenEqPhi1.rhoc E - 1) ^ 4 * sum3 (fun i => sum3 (fun j => ig i j * sy (GenEqPhi1.ddphi E) i j))) /\
  (forall (E : GenEqPhi2.env) s x g dW dig flux',
  let G := syl (GenEqPhi2.ChrisConf E) in let ig := sy (GenEqPhi2.igConf E) in
  let DD := PG g ig G (GenEqPhi2.psi E) (GenEqPhi2.dpsi E) in
  star_at s x (GenEqPhi2.psi E) (GenEqPhi2.alphaPsi E) (GenEqPhi2.rho0 E) (GenEqPhi2.enthalpy E) (GenEqPhi2.u0 E) (GenEqPhi2.dpsi E)
    (GenEqPhi2.dalphaPsi E) (GenEqPhi2.drho0 E) (GenEqPhi2.denthalpy E) (GenEqPhi2.du0 E) (GenEqPhi2.dphi E) (GenEqPhi2.W E) (GenEqPhi2.beta E)
    (sy (GenEqPhi2.ddphi E)) ig dW (GenEqPhi2.dbeta E) dig ->
  inverse3 g ig -> (forall i j, g i j = g j i) -> compat_inv ig dig G ->
  GenEqPhi2.psi E <> 0 -> GenEqPhi2.alphaPsi E <> 0 -> GenEqPhi2.enthalpy E <> 0 -> GenEqPhi2.u0 E <> 0 ->
  sum3 (fun i => dW i i) = 0 ->
  (forall i, (i < 3)%nat -> partial (mass_flux s i) x i (flux' i)) ->
  GenEqPhi2.out_schur_F E =
   GenEqPhi2.psi E ^ 4 * GenEqPhi2.enthalpy E / (GenEqPhi2.alphaPsi E / GenEqPhi2.psi E) * diverg DD (fun i => mass_flux s i x) flux'
   + GenEqPhi2.e E * GenEqPhi2.rhoc E * (GenEqPhi2.rho0 E / GenEqPhi2.rhoc E - 1) ^ 4 * sum3 (fun i => sum3 (fun j => ig i j * sy (GenEqPhi2.ddphi E) i j))) /\
  (forall n D1 D2 I0 att G W ap beta dap dh dp dr du e h ig p r rc K u0 u,
  jacobian n
    (fun u ijk => GenEqPhi1.add_out_schur_F (GenEqPhi1.mk att (G ijk) (W ijk) (ap ijk) (beta ijk) (dap ijk) (fun a b => lin n (D2 (ax2 a b)) u ijk)
       (dh ijk) (fun a => lin n (D1 a) u ijk) (dp ijk) (dr ijk) (du ijk) e (h ijk) (ig ijk) (Rsum n (fun l => I0 l * u l)) (p ijk) (r ijk) rc (K ijk) (u0 ijk)))
    u (fun _ => True)
    (fun ijk lmn => GenJacPhi.add_B_out_schur_B (GenJacPhi.mk att (G ijk) (fun a => D1 a ijk lmn) (fun c => D2 c ijk lmn) (ap ijk) (I0 lmn) (dap ijk) (dh ijk)
       (dp ijk) (dr ijk) e (h ijk) (ig ijk) (p ijk) (r ijk) rc))) /\
  (forall n D1 D2 I0 att G W ap beta dap dbeta dh dp dr du e h ig p r rc u0 u,
  jacobian n
    (fun u ijk => GenEqPhi2.add_out_schur_F (GenEqPhi2.mk att (G ijk) (W ijk) (ap ijk) (beta ijk) (dap ijk) (dbeta ijk) (fun a b => lin n (D2 (ax2 a b)) u ijk)
       (dh ijk) (fun a => lin n (D1 a) u ijk) (dp ijk) (dr ijk) (du ijk) e (h ijk) (ig ijk) (Rsum n (fun l => I0 l * u l)) (p ijk) (r ijk) rc (u0 ijk)))
    u (fun _ => True)
    (fun ijk lmn => GenJacPhi.add_B_out_schur_B (GenJacPhi.mk att (G ijk) (fun a => D1 a ijk lmn) (fun c => D2 c ijk lmn) (ap ijk) (I0 lmn) (dap ijk) (dh ijk)
       (dp ijk) (dr ijk) e (h ijk) (ig ijk) (p ijk) (r ijk) rc))) /\
  (forall E, GenEqPhi1.add_out_schur_F E = GenEqPhi1.out_schur_F E + GenEqPhi1.Att_Con_Num E * GenEqPhi1.interp E) /\
  (forall E, GenEqPhi2.add_out_schur_F E = GenEqPhi2.out_schur_F E + GenEqPhi2.Att_Con_Num E * GenEqPhi2.interp E) /\
  (forall E, GenJacPhi.E_out_schur_Et E = GenJacPhi.B_out_schur_B E /\ GenJacPhi.add_E_out_schur_Et E = GenJacPhi.add_B_out_schur_B E).
Proof. exact (conj phi1_continuity (conj phi2_continuity (conj phi1_jacobian (conj phi2_jacobian (conj (proj1 phi_add) (conj (proj2 phi_add) jac_phi_E)))))). Qed.
Print Assumptions C101_phi_equation.
(** rho0 = 1 + x, phi = r^2/2, W = (-y, x, 0) at (1, 2, 3): all hypotheses hold and the residual is 5 *)
Example C101_ex : exists s x g dW dbeta dig flux',
  star_at s x (GenEqPhi1.psi ex_env) (GenEqPhi1.alphaPsi ex_env) (GenEqPhi1.rho0 ex_env) (GenEqPhi1.enthalpy ex_env) (GenEqPhi1.u0 ex_env) (GenEqPhi1.dpsi ex_env)
    (GenEqPhi1.dalphaPsi ex_env) (GenEqPhi1.drho0 ex_env) (GenEqPhi1.denthalpy ex_env) (GenEqPhi1.du0 ex_env) (GenEqPhi1.dphi ex_env) (GenEqPhi1.W ex_env) (GenEqPhi1.beta ex_env)
    (sy (GenEqPhi1.ddphi ex_env)) (sy (GenEqPhi1.igConf ex_env)) dW dbeta dig /\
  inverse3 g (sy (GenEqPhi1.igConf ex_env)) /\ compat_inv (sy (GenEqPhi1.igConf ex_env)) dig (syl (GenEqPhi1.ChrisConf ex_env)) /\ sum3 (fun i => dW i i) = 0 /\
  GenEqPhi1.alphaPsi ex_env / GenEqPhi1.psi ex_env * GenEqPhi1.trK ex_env
   = diverg (PG g (sy (GenEqPhi1.igConf ex_env)) (syl (GenEqPhi1.ChrisConf ex_env)) (GenEqPhi1.psi ex_env) (GenEqPhi1.dpsi ex_env)) (GenEqPhi1.beta ex_env) (fun i => dbeta i i) /\
  (forall i, (i < 3)%nat -> partial (mass_flux s i) x i (flux' i)) /\
  GenEqPhi1.out_schur_F ex_env = 5 /\ GenEqPhi2.out_schur_F ex_env2 = 5.
Proof. exact ex_phi. Qed.

(** C102 (partial). The surface condition in its first form is psi^4 h times the projection of the fluid velocity in the corotating
    frame on the density gradient, so it vanishes exactly when the surface is not crossed, and its matrix is the derivative of the
    residual; in the third form the matrix is the derivative of the residual where the conformal metric is flat.  Missing: the third form
    elsewhere (refuted below). *)
Theorem C102_phi_surface_partial :
  (forall E : GenBcPhi1.env, GenBcPhi1.psi E <> 0 -> GenBcPhi1.enthalpy E <> 0 ->
  GenBcPhi1.outer_out_schur_F E = GenBcPhi1.psi E ^ 4 * GenBcPhi1.enthalpy E *
    sum3 (fun i => GenBcPhi1.drho0 E i *
      ((sum3 (fun j => sy (GenBcPhi1.igConf E) i j * GenBcPhi1.dphi E j) / GenBcPhi1.psi E ^ 4 + GenBcPhi1.W E i) / GenBcPhi1.enthalpy E
        - GenBcPhi1.u0 E * GenBcPhi1.beta E i))) /\
  (forall n D1 W beta dr h ig p u0 u,
  jacobian n
    (fun u ijk => GenBcPhi1.outer_out_schur_F (GenBcPhi1.mk (W ijk) (beta ijk) (fun a => lin n (D1 a) u ijk) (dr ijk) (h ijk) (ig ijk) (p ijk) (u0 ijk)))
    u (fun _ => True)
    (fun ijk lmn => GenJacBcPhi1.outer_B_out_schur_B (GenJacBcPhi1.mk (fun a => D1 a ijk lmn) (dr ijk) (ig ijk)))) /\
  (forall n D1 W beta X g p u0 u,
  (forall ijk i j, sy (g ijk) i j = delta i j) ->
  jacobian n
    (fun u ijk => GenBcPhi3.outer_out_schur_F (GenBcPhi3.mk (W ijk) (beta ijk) (X ijk) (fun a => lin n (D1 a) u ijk) (g ijk) (p ijk) (u0 ijk)))
    u (fun _ => True)
    (fun ijk lmn => GenJacBcPhi3.outer_B_out_schur_B (GenJacBcPhi3.mk (fun a => D1 a ijk lmn) (X ijk) (g ijk)))) /\
  (forall E, GenJacBcPhi1.outer_E_out_schur_Et E = GenJacBcPhi1.outer_B_out_schur_B E) /\
  (forall E, GenJacBcPhi3.outer_E_out_schur_Et E = GenJacBcPhi3.outer_B_out_schur_B E).
Proof. exact (conj bc1_flux (conj bc1_jacobian (conj bc3_jacobian_flat jac_bc_phi_E))). Qed.
Print Assumptions C102_phi_surface_partial.
Example C102_ex : GenBcPhi1.outer_out_schur_F (GenBcPhi1.mk (fun _ => 1) (fun i => delta i 0) (fun _ => 2) (fun i => delta i 0) 3 delta 1 (1/2)) = 2 + 1 - 3 / 2 /\
  GenJacBcPhi3.outer_B_out_schur_B (GenJacBcPhi3.mk (fun _ => 5) (fun i => delta i 0) delta) = 5 /\ (forall i j, sy delta i j = delta i j).
Proof.
  split; [cbv -[Rplus Rminus Rmult Rdiv Ropp Rinv pow IZR]; field|]. split.
  - cbv -[Rplus Rminus Rmult Rdiv Ropp Rinv pow IZR Rpower]. match goal with |- context [Rpower ?a _] => replace a with 1 by ring end. rewrite Rpower_1. ring.
  - intros i j. unfold sy, delta. destruct (Nat.leb i j); [reflexivity|]. rewrite Nat.eqb_sym. reflexivity.
Qed.

(** C102 (refuted part). For a positive definite conformal metric that is not flat the matrix of the third form is not the derivative of its
    residual; and at an inner boundary of a star both forms store a zero residual and zero rows. *)
Theorem C102_phi_surface_refuted :
  (exists n D1 W beta X g p u0 u,
  (forall i j, g i j = g j i) /\ (forall v : nat -> R, (exists i, (i < 3)%nat /\ v i <> 0) -> 0 < sum3 (fun i => sum3 (fun j => g i j * v i * v j))) /\
  ~ jacobian n
    (fun u ijk => GenBcPhi3.outer_out_schur_F (GenBcPhi3.mk (W ijk) (beta ijk) X (fun a => lin n (D1 a) u ijk) g (p ijk) (u0 ijk)))
    u (fun _ => True)
    (fun ijk lmn => GenJacBcPhi3.outer_B_out_schur_B (GenJacBcPhi3.mk (fun a => D1 a ijk lmn) X g))) /\
  (forall E, GenBcPhi1.inner_out_schur_F E = 0) /\ (forall E, GenBcPhi3.inner_out_schur_F E = 0) /\
  (forall E, GenJacBcPhi1.inner_B_out_schur_B E = 0 /\ GenJacBcPhi1.inner_E_out_schur_Et E = 0) /\
  (forall E, GenJacBcPhi3.inner_B_out_schur_B E = 0 /\ GenJacBcPhi3.inner_E_out_schur_Et E = 0).
Proof. exact (conj bc3_not_jacobian bc_inner_zero). Qed.
Print Assumptions C102_phi_surface_refuted.
