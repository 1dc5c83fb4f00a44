(** Props_Xcts.v - property theorems C96-C100: the XCTS equations, their Jacobians and boundary conditions, ADM constraints. *)
From Verif Require Import RealBase TensorSpec RicciFinal XctsSpec ShiftSpec AdmSpec.
From Verif Require Import XctsProofs ShiftProofs ShiftRes ShiftFinal XctsBc AdmConf AdmGen AdmFinal XctsFinal.
From Verif Require GenEqPsi GenJacPsi GenEqAlphaPsi GenJacAlphaPsi GenAConfIJ GenAConfIJ2 GenJacB0 GenJacB1 GenJacB2.
From Verif Require GenFlatJacB0 GenFlatJacB1 GenFlatJacB2.
From Verif Require GenBcPsi GenJacBcPsi GenBcAlphaPsi GenJacBcAlphaPsi GenBc2AlphaPsi GenJacBc2AlphaPsi.
From Verif Require GenBcB0 GenBcB1 GenBcB2 GenJacBcB0 GenJacBcB1 GenJacBcB2.
From Verif Require GenKDD GenKUU GenKUU2 GenAdmG GenHamMom GenHamMom2.

(** C96. For all field values at a node with psi <> 0 the residual of the psi equation is the Hamiltonian constraint
    (with [Lap] the covariant Laplacian of the conformal metric), and for every number of nodes, every differentiation
    matrices and every nodal values of psi the entry the Jacobian code stores at (ijk, lmn) is the derivative of the
    residual at ijk with respect to psi at lmn; the block coupling to the interface points has the same entries. *)
Theorem C96_psi_equation :
  (forall E : GenEqPsi.env, GenEqPsi.psi E <> 0 ->
    GenEqPsi.out_schur_F E =
    ham (Lap (sy (GenEqPsi.igConf E)) (syl (GenEqPsi.ChrisConf E)) (GenEqPsi.dpsi E) (sy (GenEqPsi.ddpsi E)))
        (GenEqPsi.trRicciConf E) (GenEqPsi.trK E) (GenEqPsi.AConfIJ2 E) (GenEqPsi.EConfC E) (GenEqPsi.EConfP E) (GenEqPsi.psi E)) /\
  (forall n D1 D2 A2 C P K Rs G ig u,
    jacobian n
      (fun u ijk => GenEqPsi.out_schur_F (GenEqPsi.mk (A2 ijk) (G ijk) (C ijk) (P ijk)
         (fun a b => lin n (D2 (ax2 a b)) u ijk) (fun a => lin n (D1 a) u ijk) (ig ijk) (u ijk) (K ijk) (Rs ijk)))
      u (fun ijk => u ijk <> 0)
      (fun ijk lmn => GenJacPsi.B_out_schur_B (GenJacPsi.mk (A2 ijk) (G ijk) (C ijk) (P ijk)
         (fun a => D1 a ijk lmn) (fun c => D2 c ijk lmn) (ig ijk) (krd ijk lmn) (u ijk) (K ijk) (Rs ijk)))) /\
  (forall E, GenJacPsi.E_out_schur_Et E = GenJacPsi.B_out_schur_B E).
Proof. exact (conj psi_formula (conj psi_jacobian jac_psi_E)). Qed.
Print Assumptions C96_psi_equation.
Example C96_ex :
  GenEqPsi.out_schur_F (GenEqPsi.mk 128 (fun _ _ _ => 1) 1 0 (fun _ _ => 5) (fun _ => 1) delta 2 3 8) = 6 - 2 - 24 + 1 / 8 /\
  GenJacPsi.B_out_schur_B (GenJacPsi.mk 128 (fun _ _ _ => 1) 1 0 (fun _ => 1) (fun _ => 5) delta 1 2 3 8) = 6 - (1 + 60 + 7 / 16).
Proof. cbv -[Rplus Rminus Rmult Rdiv Ropp Rinv pow IZR PI]. split; field. Qed.

(** C97. The same for the lapse equation: its residual is the lapse equation of the XCTS system, its matrix the
    derivative of the residual with respect to the nodal values of alpha psi. *)
Theorem C97_lapse_equation :
  (forall E : GenEqAlphaPsi.env, GenEqAlphaPsi.psi E <> 0 ->
    GenEqAlphaPsi.out_schur_F E =
    lapse (Lap (sy (GenEqAlphaPsi.igConf E)) (syl (GenEqAlphaPsi.ChrisConf E)) (GenEqAlphaPsi.dalphaPsi E) (sy (GenEqAlphaPsi.ddalphaPsi E)))
        (GenEqAlphaPsi.trRicciConf E) (GenEqAlphaPsi.trK E) (GenEqAlphaPsi.AConfIJ2 E) (GenEqAlphaPsi.SConfC E) (GenEqAlphaPsi.EConfP E)
        (GenEqAlphaPsi.SConfP E) (GenEqAlphaPsi.psi E) (sum3 (fun i => GenEqAlphaPsi.beta E i * GenEqAlphaPsi.dtrK E i)) (GenEqAlphaPsi.alphaPsi E)) /\
  (forall n D1 D2 A2 C P S K Rs psi G ig beta dK u,
    jacobian n
      (fun u ijk => GenEqAlphaPsi.out_schur_F (GenEqAlphaPsi.mk (A2 ijk) (G ijk) (P ijk) (C ijk) (S ijk) (u ijk) (beta ijk)
         (fun a => lin n (D1 a) u ijk) (fun a b => lin n (D2 (ax2 a b)) u ijk) (dK ijk) (ig ijk) (psi ijk) (K ijk) (Rs ijk)))
      u (fun ijk => psi ijk <> 0)
      (fun ijk lmn => GenJacAlphaPsi.B_out_schur_B (GenJacAlphaPsi.mk (A2 ijk) (G ijk) (P ijk)
         (fun a => D1 a ijk lmn) (fun c => D2 c ijk lmn) (C ijk) (S ijk) (ig ijk) (krd ijk lmn) (psi ijk) (K ijk) (Rs ijk)))) /\
  (forall E, GenJacAlphaPsi.E_out_schur_Et E = GenJacAlphaPsi.B_out_schur_B E).
Proof. exact (conj ap_formula (conj ap_jacobian jac_ap_E)). Qed.
Print Assumptions C97_lapse_equation.
Example C97_ex :
  GenEqAlphaPsi.out_schur_F (GenEqAlphaPsi.mk 256 (fun _ _ _ => 1) 0 1 0 2 (fun _ => 1) (fun _ => 1) (fun _ _ => 5) (fun _ => 2) delta 2 3 8) = 6 - 2 * (7 / 8 + 60 + 1) - 192.
Proof. cbv -[Rplus Rminus Rmult Rdiv Ropp Rinv pow IZR PI]. field. Qed.

(** C98 (partial). For all node data of one metric and every shift V with derivatives dV, ddV: A^ij is psi^7/(2 alpha psi) times the
    conformal Killing form of the shift (SCTT: that form itself), the stored A_ij A^ij is its square, the three shift
    residuals are the momentum constraint, that is JC (D_j(L beta)^ij - (L beta)^ij d_j ln(alpha psi/psi^7)) - source, and the
    stored Jacobian entry of component i is the derivative of the i-th residual when the i-th component changes by t k, its
    first derivatives by t j1 and its second ones by t j2; the flat-space Jacobian is the same operator with zero connection
    and Ricci tensor.  Missing: the residual differentiates (L beta)^ij spectrally while the Jacobian uses the second
    derivatives of beta; on the nodal values these agree only up to truncation, so the statement is about jets. *)
Theorem C98_shift_equation_partial :
  (forall (E : GenAConfIJ.env) old i j,
    inverse3 (sy (GenAConfIJ.gConf E)) (sy (GenAConfIJ.igConf E)) -> (i <= j)%nat -> (j < 3)%nat -> GenAConfIJ.alphaPsi E <> 0 ->
    GenAConfIJ.store__LBij E old i j = LV (sy (GenAConfIJ.igConf E)) (syl (GenAConfIJ.ChrisConf E)) (GenAConfIJ.beta E) (GenAConfIJ.dbeta E) i j /\
    GenAConfIJ.store_AConfIJ E old i j = GenAConfIJ.psi E ^ 7 / (2 * GenAConfIJ.alphaPsi E) *
      LV (sy (GenAConfIJ.igConf E)) (syl (GenAConfIJ.ChrisConf E)) (GenAConfIJ.beta E) (GenAConfIJ.dbeta E) i j) /\
  (forall (E : GenAConfIJ.env) old, GenAConfIJ.out_AConfIJ2 E = square2 (sy (GenAConfIJ.gConf E)) (sy (GenAConfIJ.store_AConfIJ E old))) /\
  (forall (E : GenAConfIJ2.env) old i j,
    inverse3 (sy (GenAConfIJ2.gConf E)) (sy (GenAConfIJ2.igConf E)) -> (i <= j)%nat -> (j < 3)%nat ->
    GenAConfIJ2.store_AConfIJ E old i j = LV (sy (GenAConfIJ2.igConf E)) (syl (GenAConfIJ2.ChrisConf E)) (GenAConfIJ2.beta E) (GenAConfIJ2.dbeta E) i j) /\
  (forall d o1 o2 V dV ddV, one_metric d -> (forall i a b, ddV i a b = ddV i b a) ->
    let op := shift_op (sy (ig_ d)) (syl (G_ d)) (syld (dG_ d)) (sy (Ric_ d)) (dln (psi_ d) (ap_ d) (dpsi_ d) (dap_ d)) V dV ddV in
    let src := fun i => 4 / 3 * ap_ d * JC_ d * sum3 (fun j => sy (ig_ d) i j * dK_ d j) / psi_ d + 16 * PI * ap_ d * JP_ d i / psi_ d ^ 3 in
    shift_res0 d o1 o2 V dV ddV = JC_ d * op 0%nat - src 0%nat /\
    shift_res1 d o1 o2 V dV ddV = JC_ d * op 1%nat - src 1%nat /\
    shift_res2 d o1 o2 V dV ddV = JC_ d * op 2%nat - src 2%nat) /\
  (forall d o1 o2 V dV ddV j1 j2 k, one_metric d -> (forall i a b, ddV i a b = ddV i b a) ->
    derivable_pt_lim (fun t => shift_res0 d o1 o2 (upd1 0 k V t) (upd2 0 j1 dV t) (upd3 0 j2 ddV t)) 0 (shift_jac0 d j1 j2 k) /\
    derivable_pt_lim (fun t => shift_res1 d o1 o2 (upd1 1 k V t) (upd2 1 j1 dV t) (upd3 1 j2 ddV t)) 0 (shift_jac1 d j1 j2 k) /\
    derivable_pt_lim (fun t => shift_res2 d o1 o2 (upd1 2 k V t) (upd2 2 j1 dV t) (upd3 2 j2 ddV t)) 0 (shift_jac2 d j1 j2 k)) /\
  (forall E, GenJacB0.E_out_schur_Et E = GenJacB0.B_out_schur_B E) /\
  (forall E, GenJacB1.E_out_schur_Et E = GenJacB1.B_out_schur_B E) /\
  (forall E, GenJacB2.E_out_schur_Et E = GenJacB2.B_out_schur_B E) /\
  (let flat ig psi ap dpsi dap V dV ddV := shift_op ig (fun _ _ _ => 0) (fun _ _ _ _ => 0) (fun _ _ => 0) (dln psi ap dpsi dap) V dV ddV in
   (forall E, GenFlatJacB0.B_out_schur_B E = GenFlatJacB0.JConfC E * flat (sy (GenFlatJacB0.igConf E)) (GenFlatJacB0.psi E) (GenFlatJacB0.alphaPsi E)
      (GenFlatJacB0.dpsi E) (GenFlatJacB0.dalphaPsi E) (fun _ => 0) (fun k a => delta k 0 * GenFlatJacB0.J1 E a) (fun k a b => delta k 0 * GenFlatJacB0.J2 E (ax2 a b)) 0%nat
      /\ GenFlatJacB0.E_out_schur_Et E = GenFlatJacB0.B_out_schur_B E) /\
   (forall E, GenFlatJacB1.B_out_schur_B E = GenFlatJacB1.JConfC E * flat (sy (GenFlatJacB1.igConf E)) (GenFlatJacB1.psi E) (GenFlatJacB1.alphaPsi E)
      (GenFlatJacB1.dpsi E) (GenFlatJacB1.dalphaPsi E) (fun _ => 0) (fun k a => delta k 1 * GenFlatJacB1.J1 E a) (fun k a b => delta k 1 * GenFlatJacB1.J2 E (ax2 a b)) 1%nat
      /\ GenFlatJacB1.E_out_schur_Et E = GenFlatJacB1.B_out_schur_B E) /\
   (forall E, GenFlatJacB2.B_out_schur_B E = GenFlatJacB2.JConfC E * flat (sy (GenFlatJacB2.igConf E)) (GenFlatJacB2.psi E) (GenFlatJacB2.alphaPsi E)
      (GenFlatJacB2.dpsi E) (GenFlatJacB2.dalphaPsi E) (fun _ => 0) (fun k a => delta k 2 * GenFlatJacB2.J1 E a) (fun k a b => delta k 2 * GenFlatJacB2.J2 E (ax2 a b)) 2%nat
      /\ GenFlatJacB2.E_out_schur_Et E = GenFlatJacB2.B_out_schur_B E)).
Proof.
  exact (conj A_formula (conj A2_formula (conj A_sctt (conj shift_residuals (conj shift_jacobians (conj jac_b0_E (conj jac_b1_E (conj jac_b2_E
          (conj flat_b0 (conj flat_b1 flat_b2)))))))))).
Qed.
Print Assumptions C98_shift_equation_partial.
Example C98_ex : one_metric ex_d /\ shift_jac0 ex_d (fun _ => 1) (fun _ => 1) 1 <> 0.
Proof. exact ex_d_ok. Qed.

(** C99. Boundary residuals of psi, alpha psi and the shift: the outer ones vanish exactly at psi = 1, alpha psi = 1, beta = the boost
    velocity; the inner one of psi is psi^6/4 times the outgoing expansion of the excision surface with unit normal in
    the physical metric psi^4 g, so it vanishes exactly on an apparent horizon; the inner ones of alpha psi and the shift vanish at
    the prescribed lapse (or at vanishing normal derivative) and shift; and each stored boundary Jacobian entry is the derivative of the
    boundary residual with respect to the nodal value. *)
Theorem C99_boundary_conditions :
  (forall (E : GenBcPsi.env) ig, GenBcPsi.psi E <> 0 -> inverse3 (sy (GenBcPsi.gConf E)) (sy ig) ->
    sum3 (fun i => sum3 (fun j => sy (GenBcPsi.gConf E) i j * GenBcPsi.bh_sConf E i * GenBcPsi.bh_sConf E j)) = 1 ->
    GenBcPsi.inner_out_schur_F E = GenBcPsi.psi E ^ 6 / 4 *
     Theta (sy (GenBcPsi.gConf E)) (sy ig) (syl (GenBcPsi.ChrisConf E)) (sy (GenBcPsi.AConfIJ E)) (GenBcPsi.psi E) (GenBcPsi.dpsi E) (GenBcPsi.trK E)
       (GenBcPsi.bh_sConf E) (GenBcPsi.dbh_sConf E)) /\
  (forall E, GenBcPsi.outer_out_schur_F E = 0 <-> GenBcPsi.psi E = 1) /\
  (forall E, GenBcAlphaPsi.outer_out_schur_F E = 0 <-> GenBcAlphaPsi.alphaPsi E = 1) /\
  (forall E, GenBcAlphaPsi.psi E <> 0 -> (GenBcAlphaPsi.inner_out_schur_F E = 0 <-> GenBcAlphaPsi.alphaPsi E / GenBcAlphaPsi.psi E = GenBcAlphaPsi.ibc_alpha E)) /\
  (forall E, GenBc2AlphaPsi.outer_out_schur_F E = 0 <-> GenBc2AlphaPsi.alphaPsi E = 1) /\
  (forall E, GenBc2AlphaPsi.inner_out_schur_F E = sum3 (fun i => GenBc2AlphaPsi.bh_sConf E i * GenBc2AlphaPsi.dalphaPsi E i)) /\
  (forall E, (GenBcB0.outer_out_schur_F E = 0 <-> GenBcB0.B0 E 0%nat = GenBcB0.v0_boost E) /\
             (GenBcB0.inner_out_schur_F E = 0 <-> GenBcB0.B0 E 0%nat + GenBcB0.B1 E 0%nat = GenBcB0.ibc_beta E 0%nat)) /\
  (forall E, (GenBcB1.outer_out_schur_F E = 0 <-> GenBcB1.B0 E 1%nat = GenBcB1.v1_boost E) /\
             (GenBcB1.inner_out_schur_F E = 0 <-> GenBcB1.B0 E 1%nat + GenBcB1.B1 E 1%nat = GenBcB1.ibc_beta E 1%nat)) /\
  (forall E, (GenBcB2.outer_out_schur_F E = 0 <-> GenBcB2.B0 E 2%nat = GenBcB2.v2_boost E) /\
             (GenBcB2.inner_out_schur_F E = 0 <-> GenBcB2.B0 E 2%nat + GenBcB2.B1 E 2%nat = GenBcB2.ibc_beta E 2%nat)).
Proof. exact (conj horizon bc_values). Qed.
Print Assumptions C99_boundary_conditions.
Theorem C99_boundary_jacobians : forall n (D1 : nat -> nat -> nat -> R) (K psi ibca v0 : nodal) A g G s ibcb B1 ds u,
  let yes := fun _ : nat => True in
  (* psi *)
  (let res u i := GenBcPsi.mk (A i) (G i) (s i) (ds i) (fun a => lin n (D1 a) u i) (g i) (u i) (K i) in
   let jac i l := GenJacBcPsi.mk (G i) (fun a => D1 a i l) (s i) (ds i) (fun a => lin n (D1 a) u i) (krd i l) (u i) (K i) in
   jacobian n (fun u i => GenBcPsi.outer_out_schur_F (res u i)) u yes (fun i l => GenJacBcPsi.outer_B_out_schur_B (jac i l)) /\
   jacobian n (fun u i => GenBcPsi.inner_out_schur_F (res u i)) u (fun i => u i <> 0) (fun i l => GenJacBcPsi.inner_B_out_schur_B (jac i l)) /\
   (forall i l, GenJacBcPsi.inner_E_out_schur_Et (jac i l) = GenJacBcPsi.inner_B_out_schur_B (jac i l)) /\
   (forall i l, i <> l -> GenJacBcPsi.outer_E_out_schur_Et (jac i l) = GenJacBcPsi.outer_B_out_schur_B (jac i l))) /\
  (* alpha psi *)
  (let res u i := GenBcAlphaPsi.mk (u i) (ibca i) (psi i) in
   let jac i l := GenJacBcAlphaPsi.mk (krd i l) in
   jacobian n (fun u i => GenBcAlphaPsi.outer_out_schur_F (res u i)) u yes (fun i l => GenJacBcAlphaPsi.outer_B_out_schur_B (jac i l)) /\
   jacobian n (fun u i => GenBcAlphaPsi.inner_out_schur_F (res u i)) u yes (fun i l => GenJacBcAlphaPsi.inner_B_out_schur_B (jac i l))) /\
  (let res u i := GenBc2AlphaPsi.mk (u i) (s i) (fun a => lin n (D1 a) u i) in
   let jac i l := GenJacBc2AlphaPsi.mk (fun a => D1 a i l) (s i) (krd i l) in
   jacobian n (fun u i => GenBc2AlphaPsi.outer_out_schur_F (res u i)) u yes (fun i l => GenJacBc2AlphaPsi.outer_B_out_schur_B (jac i l)) /\
   jacobian n (fun u i => GenBc2AlphaPsi.inner_out_schur_F (res u i)) u yes (fun i l => GenJacBc2AlphaPsi.inner_B_out_schur_B (jac i l))) /\
  (* shift *)
  (let res u i := GenBcB0.mk (fun _ => u i) (B1 i) (ibcb i) (v0 i) in
   jacobian n (fun u i => GenBcB0.outer_out_schur_F (res u i)) u yes (fun i l => GenJacBcB0.outer_B_out_schur_B (GenJacBcB0.mk (krd i l))) /\
   jacobian n (fun u i => GenBcB0.inner_out_schur_F (res u i)) u yes (fun i l => GenJacBcB0.inner_B_out_schur_B (GenJacBcB0.mk (krd i l)))) /\
  (let res u i := GenBcB1.mk (fun _ => u i) (B1 i) (ibcb i) (v0 i) in
   jacobian n (fun u i => GenBcB1.outer_out_schur_F (res u i)) u yes (fun i l => GenJacBcB1.outer_B_out_schur_B (GenJacBcB1.mk (krd i l))) /\
   jacobian n (fun u i => GenBcB1.inner_out_schur_F (res u i)) u yes (fun i l => GenJacBcB1.inner_B_out_schur_B (GenJacBcB1.mk (krd i l)))) /\
  (let res u i := GenBcB2.mk (fun _ => u i) (B1 i) (ibcb i) (v0 i) in
   jacobian n (fun u i => GenBcB2.outer_out_schur_F (res u i)) u yes (fun i l => GenJacBcB2.outer_B_out_schur_B (GenJacBcB2.mk (krd i l))) /\
   jacobian n (fun u i => GenBcB2.inner_out_schur_F (res u i)) u yes (fun i l => GenJacBcB2.inner_B_out_schur_B (GenJacBcB2.mk (krd i l)))).
Proof. exact bc_jacobians. Qed.
Print Assumptions C99_boundary_jacobians.
(** a sphere of radius 1/2 around the puncture of psi = 1 + 1/(2r) in flat space is a horizon: at (1/2,0,0) *)
Example C99_ex : let E := GenBcPsi.mk (fun _ _ => 0) (fun _ _ _ => 0) (fun i => delta i 0) (fun i a => if Nat.eqb i 0 then 0 else 2 * delta i a)
    (fun i => -2 * delta i 0) delta 2 0 in
  sum3 (fun i => sum3 (fun j => sy (GenBcPsi.gConf E) i j * GenBcPsi.bh_sConf E i * GenBcPsi.bh_sConf E j)) = 1 /\ GenBcPsi.inner_out_schur_F E = 0.
Proof. cbv -[Rplus Rminus Rmult Rdiv Ropp Rinv pow IZR PI]. split; field. Qed.

(** C100. For all conformal data of one metric with trace-free A^ij, psi and alpha psi non-zero: the stored physical metric is psi^4 g, K_ij and K^ij belong
    together and have trace K; the Hamiltonian constraint the code evaluates from the physical metric, its Christoffel symbols, Ricci tensor and
    K^ij is R - K_ij K^ij + K^2 - 16 pi rho and equals -8/psi^5 times the psi residual, the momentum constraint D_j(K^ij - g^ij K) - 8 pi j^i equals the
    shift residual over 2 alpha psi psi^3 -- so the equations are solved exactly if the constraints vanish; the evaluation through the conformal
    identities gives the same numbers if the sources are not rescaled. *)
Theorem C100_adm_constraints :
  (forall (E : GenAdmG.env) old i j, (i < 3)%nat -> (j < 3)%nat -> sy (GenAdmG.store_adm_g E old) i j = GenAdmG.psi E ^ 4 * sy (GenAdmG.gConf E) i j) /\
  (forall (E : GenHamMom2.env), GenHamMom2.psi E <> 0 ->
    GenHamMom2.out_ham E = HamConstraint (GenHamMom2.EConfC E) (sy (GenHamMom2.adm_g E)) (sy (GenHamMom2.adm_ig E))
      (sy (RicciOf (syl (GenHamMom2.Gamma E)) (syld (GenHamMom2.dGamma E)))) (sy (GenHamMom2.adm_KIJ E)) (GenHamMom2.trK E) (GenHamMom2.EConfP E / GenHamMom2.psi E ^ 6)) /\
  (forall (E : GenHamMom2.env) old i, GenHamMom2.psi E <> 0 -> (i < 3)%nat ->
    GenHamMom2.store_mom E old i = MomConstraint (GenHamMom2.JConfC E) (sy (GenHamMom2.adm_ig E)) (syl (GenHamMom2.Gamma E))
      (sy (GenHamMom2.adm_KIJ E)) (syd (GenHamMom2.dadm_KIJ E)) (GenHamMom2.dtrK E) (fun i => GenHamMom2.JConfP E i / GenHamMom2.psi E ^ 6) i) /\
  (forall c, conf_ok c -> forall E, physical_of c E -> GenHamMom2.out_ham E = - 8 / cpsi c ^ 5 * eq_psi c) /\
  (forall c, conf_ok c -> forall E, physical_of c E -> forall old i, (i < 3)%nat -> GenHamMom2.store_mom E old i = eq_beta c i / (2 * cap c * cpsi c ^ 3)) /\
  (forall c E old, conf_ok c -> physical_of c E ->
    (eq_psi c = 0 <-> GenHamMom2.out_ham E = 0) /\
    ((forall i, (i < 3)%nat -> eq_beta c i = 0) <-> (forall i, (i < 3)%nat -> GenHamMom2.store_mom E old i = 0))) /\
  (forall c, conf_ok c -> cEC c = 1 -> GenHamMom.out_ham (identities_env c) = - 8 / cpsi c ^ 5 * eq_psi c) /\
  (forall c, conf_ok c -> forall old i, (i < 3)%nat -> cJC c = 1 -> GenHamMom.store_mom (identities_env c) old i = eq_beta c i / (2 * cap c * cpsi c ^ 3)).
Proof.
  exact (conj admg_formula (conj ham2_formula (conj mom2_formula (conj scratch_ham (conj scratch_mom (conj solved (conj identities_ham identities_mom))))))).
Qed.
Print Assumptions C100_adm_constraints.
Theorem C100_extrinsic_curvature : forall (E : GenKDD.env) (E' : GenKUU.env) (E2 : GenKUU2.env) o o' o2,
  GenKDD.psi E <> 0 -> GenKUU.psi E' = GenKDD.psi E -> GenKUU2.psi E2 = GenKDD.psi E ->
  inverse3 (sy (GenKUU.igConf E')) (sy (GenKDD.gConf E)) -> inverse3 (sy (GenKDD.gConf E)) (sy (GenKUU.igConf E')) ->
  (forall i j, GenKUU2.igConf E2 i j = GenKUU.igConf E' i j) ->
  (forall i j, GenKUU.AConfIJ E' i j = GenKDD.AConfIJ E i j) -> GenKUU.trK E' = GenKDD.trK E ->
  (forall i j, GenKUU2.adm_Kij E2 i j = GenKDD.store_adm_Kij E o i j) ->
  (forall i j, (i < 3)%nat -> (j < 3)%nat -> sy (GenKUU2.store_adm_KIJ E2 o2) i j = sy (GenKUU.store_adm_KIJ E' o') i j) /\
  (sum3 (fun i => sum3 (fun j => sy (GenKDD.gConf E) i j * sy (GenKDD.AConfIJ E) i j)) = 0 ->
   sum3 (fun i => sum3 (fun j => Pg (sy (GenKDD.gConf E)) (GenKDD.psi E) i j * sy (GenKUU.store_adm_KIJ E' o') i j)) = GenKDD.trK E).
Proof. exact raise_K. Qed.
Print Assumptions C100_extrinsic_curvature.
Example C100_ex : conf_ok ex_c /\ physical_of ex_c (phys_env ex_c) /\ eq_psi ex_c <> 0.
Proof. exact (conj (proj1 ex_c_ok) (conj (physical_exists ex_c (proj1 ex_c_ok)) (proj2 ex_c_ok))). Qed.
