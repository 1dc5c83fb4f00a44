(** Props_Fluid.v - property theorems C103-C106: matter sources, Euler first integral, force balance, spin and inspiral fields. *)
From Verif Require Import RealBase TensorSpec RicciFinal XctsSpec XctsProofs PhiSpec FluidSpec FluidModel FluidProofs FluidFinal FluidExamples.
From Verif Require GenTijE GenTijJ GenTijS GenU0 GenEnthalpy GenMass GenEulerC GenGamma GenGtilda.

(** C103. At every node with positive psi, alpha psi and enthalpy, conformal metric gConf with inverse igConf and gConf semi-definite, for every
    shift: the stored u^0 makes the four-velocity with h u_i = d_i phi + W_i a future unit vector of the spacetime metric
    (alpha, beta, psi^4 gConf).  For every u^0 and EoS values the stored EConf, JConf and SConf are psi^6 times the energy density,
    momentum density and spatial trace of the perfect-fluid tensor rho0 h u_a u_b + p g_ab seen by the normal observer.  When
    p = rho0 (h - 1 - e0) the rescaled sources are the sources times the stored scale factor. *)
Theorem C103_matter_sources :
  (forall E be, inverse3 (sy (GenU0.gConf E)) (sy (GenU0.igConf E)) -> semipos (sy (GenU0.gConf E)) ->
    0 < GenU0.psi E -> 0 < GenU0.alphaPsi E -> 0 < GenU0.enthalpy E ->
    let al := GenU0.alphaPsi E / GenU0.psi E in
    let g := g4 al be (phys (GenU0.psi E) (sy (GenU0.gConf E))) in
    let u := vel4 (iphys (GenU0.psi E) (sy (GenU0.igConf E))) (GenU0.dphi E) (GenU0.W E) be (GenU0.enthalpy E) (GenU0.out_u0 E) in
    dot4 g u u = - 1 /\ 0 < GenU0.out_u0 E) /\
  (forall E g ig dphi W be, inverse3 (sy g) (sy ig) -> GenTijE.psi E <> 0 -> GenTijE.alphaPsi E <> 0 -> GenTijE.enthalpy E <> 0 ->
    let al := GenTijE.alphaPsi E / GenTijE.psi E in let gm := phys (GenTijE.psi E) (sy g) in
    let u := vel4 (iphys (GenTijE.psi E) (sy ig)) dphi W be (GenTijE.enthalpy E) (GenTijE.u0 E) in
    GenTijE.out_EConf E = GenTijE.psi E ^ 6 * energy4 (T4 (g4 al be gm) (GenTijE.rho0 E) (GenTijE.enthalpy E) (GenTijE.p E) u) al be) /\
  (forall E g be i, inverse3 (sy g) (sy (GenTijJ.igConf E)) -> GenTijJ.psi E <> 0 -> GenTijJ.alphaPsi E <> 0 -> GenTijJ.enthalpy E <> 0 -> (i < 3)%nat ->
    let al := GenTijJ.alphaPsi E / GenTijJ.psi E in let gm := phys (GenTijJ.psi E) (sy g) in let igm := iphys (GenTijJ.psi E) (sy (GenTijJ.igConf E)) in
    let u := vel4 igm (GenTijJ.dphi E) (GenTijJ.W E) be (GenTijJ.enthalpy E) (GenTijJ.u0 E) in
    forall old, GenTijJ.store_JConf E old i = GenTijJ.psi E ^ 6 * momentum4 igm (T4 (g4 al be gm) (GenTijJ.rho0 E) (GenTijJ.enthalpy E) (GenTijJ.p E) u) al be i) /\
  (forall E al be, inverse3 (sy (GenTijS.gConf E)) (sy (GenTijS.igConf E)) -> GenTijS.psi E <> 0 -> GenTijS.enthalpy E <> 0 -> al <> 0 ->
    forall u0,
    let gm := phys (GenTijS.psi E) (sy (GenTijS.gConf E)) in let igm := iphys (GenTijS.psi E) (sy (GenTijS.igConf E)) in
    let u := vel4 igm (GenTijS.dphi E) (GenTijS.W E) be (GenTijS.enthalpy E) u0 in
    GenTijS.out_SConf E = GenTijS.psi E ^ 6 * stress4 igm (T4 (g4 al be gm) (GenTijS.rho0 E) (GenTijS.enthalpy E) (GenTijS.p E) u)) /\
  (forall E, GenTijE.p E = GenTijE.rho0 E * (GenTijE.enthalpy E - 1 - GenTijE.e0 E) -> GenTijE.out_EConfP E = GenTijE.out_EConfC E * GenTijE.out_EConf E) /\
  (forall E old oldP i, (i < 3)%nat -> GenTijJ.p E = GenTijJ.rho0 E * (GenTijJ.enthalpy E - 1 - GenTijJ.e0 E) ->
     GenTijJ.store_JConfP E oldP i = GenTijJ.out_JConfC E * GenTijJ.store_JConf E old i) /\
  (forall E, GenTijS.p E = GenTijS.rho0 E * (GenTijS.enthalpy E - 1 - GenTijS.e0 E) -> GenTijS.out_SConfP E = GenTijS.out_SConfC E * GenTijS.out_SConf E).
Proof. exact (conj u0_normalised (conj source_E (conj source_J (conj source_S rescaled)))). Qed.
Print Assumptions C103_matter_sources.
(** flat space, h = 4, d phi = (3, 0, 0): u^0 = 5/4, and with rho0 = 1, p = 1, e0 = 2: E = 4*25/16 - 1, J^0 = 15/4, S = 9/4 + 3 *)
Example C103_ex : inverse3 (sy delta) (sy delta) /\ semipos (sy delta) /\
  GenU0.out_u0 (GenU0.mk (fun _ => 0) 1 (fun i => 3 * delta i 0) 4 delta delta 1) = 5 / 4 /\
  GenTijE.out_EConf (GenTijE.mk 1 2 4 1 1 1 (5 / 4)) = 4 * 25 / 16 - 1 /\
  GenTijJ.store_JConf (GenTijJ.mk (fun _ => 0) 1 (fun i => 3 * delta i 0) 2 4 delta 1 1 1 (5 / 4)) (fun _ => 0) 0%nat = 15 / 4 /\
  GenTijS.out_SConf (GenTijS.mk (fun _ => 0) (fun i => 3 * delta i 0) 2 4 delta delta 1 1 1) = 9 / 4 + 3 /\
  1 = 1 * (4 - 1 - 2).
Proof. exact ex_sources. Qed.

(** C104 (partial). At every node with positive psi and alpha psi and a semi-definite conformal metric with its inverse: the current Euler
    constant is - (h/u^0 + V^i d_i phi), V^i = u^i/u^0.  The enthalpy computed from a constant C is positive where its radicands are, and has
    C as its Euler constant when C <= beta^i d_i phi; from the constant of a field h > 0 with |W^i P_i| <= (alpha h u^0)^2,
    P_i = d_i phi + psi^4 g_ij W^j, it gives h back; where a radicand is negative 1 is stored.  The baryonic mass integrand is
    rho0(h) u^0 alpha psi^6 for that h and the normalised u^0 where h > 1, and 0 where there is no matter, and psi^6 times the conformal volume
    element is the physical one.  Missing: constants above beta^i d_i phi (refuted below). *)
Theorem C104_euler_integral_partial :
  (forall E : GenEulerC.env, GenEulerC.psi E <> 0 -> GenEulerC.enthalpy E <> 0 -> GenEulerC.u0 E <> 0 ->
    GenEulerC.Euler_C E =
     - (GenEulerC.enthalpy E / GenEulerC.u0 E
        + sum3 (fun i => vel4 (iphys (GenEulerC.psi E) (sy (GenEulerC.igConf E))) (GenEulerC.dphi E) (GenEulerC.W E) (GenEulerC.beta E) (GenEulerC.enthalpy E) (GenEulerC.u0 E) (S i)
                           / GenEulerC.u0 E * GenEulerC.dphi E i))) /\
  (forall psi ap dphi W beta gC igC, inverse3 (sy gC) (sy igC) -> semipos (sy gC) -> 0 < psi -> 0 < ap ->
    let al := ap / psi in
    let Bd := sum3 (fun i => beta i * dphi i) in
    let P i := dphi i + psi ^ 4 * sum3 (fun j => sy gC i j * W j) in
    let ent C := GenEnthalpy.mk C W ap beta dphi gC igC psi in
    let u0 h := GenU0.out_u0 (GenU0.mk W ap dphi h gC igC psi) in
    let euler h := GenEulerC.Euler_C (GenEulerC.mk W beta dphi h igC psi (u0 h)) in
    let mass rho_of C := mass_integrand rho_of (GenMass.mk C W ap beta dphi gC igC psi) in
    (forall C, 0 <= disc_ent (ent C) -> 0 < GenEnthalpy.h2 (ent C) -> 0 < enthalpy_new (ent C) /\ (C <= Bd -> euler (enthalpy_new (ent C)) = C)) /\
    (forall h, 0 < h -> Rabs (sum3 (fun i => W i * P i)) <= (al * h * u0 h) ^ 2 -> enthalpy_new (ent (euler h)) = h) /\
    (forall C, disc_ent (ent C) < 0 \/ GenEnthalpy.h2 (ent C) < 0 -> enthalpy_new (ent C) = 1) /\
    (forall C rho_of, 0 <= disc_ent (ent C) -> 0 < GenEnthalpy.h2 (ent C) -> 1 + ROUND_OFF_ERR <= enthalpy_new (ent C) ->
       mass rho_of C = rho_of (enthalpy_new (ent C)) * u0 (enthalpy_new (ent C)) * al * psi ^ 6) /\
    (forall C rho_of, disc_ent (ent C) < 0 \/ GenEnthalpy.h2 (ent C) < 0 \/ enthalpy_new (ent C) < 1 + ROUND_OFF_ERR /\ enthalpy_new (ent C) <> 1 - ROUND_OFF_ERR ->
       mass rho_of C = 0)) /\
  (forall psi g, 0 < psi -> 0 <= det3s g -> psi ^ 6 * sqrt (det3s g) = sqrt (det3s (phys psi g))).
Proof. exact (conj euler_meaning (conj euler_all volume)). Qed.
Print Assumptions C104_euler_integral_partial.
(** flat space, d phi = (3, 0, 0), C = -5: h = 4; C = -1: no matter *)
Example C104_ex : let dphi i := 3 * delta i 0 in let Z (_ : nat) := 0 in let E C := GenEnthalpy.mk C Z 1 Z dphi delta delta 1 in
  0 <= disc_ent (E (- 5)) /\ 0 < GenEnthalpy.h2 (E (- 5)) /\ - 5 <= sum3 (fun i => Z i * dphi i) /\ enthalpy_new (E (- 5)) = 4 /\
  GenEnthalpy.h2 (E (- 1)) < 0 /\ Rabs (sum3 (fun i => Z i * (dphi i + 1 ^ 4 * sum3 (fun j => sy delta i j * Z j)))) <= (1 / 1 * 4 * (5 / 4)) ^ 2.
Proof. exact ex_euler. Qed.

(** C104 (refuted part). For a constant above beta^i d_i phi the enthalpy stored does not have that Euler constant. *)
Theorem C104_euler_integral_refuted : exists psi ap dphi W beta gC igC C,
  inverse3 (sy gC) (sy igC) /\ semipos (sy gC) /\ 0 < psi /\ 0 < ap /\
  let h := enthalpy_new (GenEnthalpy.mk C W ap beta dphi gC igC psi) in
  0 <= disc_ent (GenEnthalpy.mk C W ap beta dphi gC igC psi) /\ 0 < GenEnthalpy.h2 (GenEnthalpy.mk C W ap beta dphi gC igC psi) /\
  GenEulerC.Euler_C (GenEulerC.mk W beta dphi h igC psi (GenU0.out_u0 (GenU0.mk W ap dphi h gC igC psi))) <> C.
Proof. exact euler_not. Qed.
Print Assumptions C104_euler_integral_refuted.

(** C105 (partial). Along every line through the star's centre on which the fields are differentiable, the Euler constant is the same
    non-zero C, beta = B0 + B1 with the inspiral B1, and no infall velocity acts along z (v_r (z - z_CM) = 0): the value handed to the root
    finder, d Gtilda/Gtilda + 2 d ln Gamma, is -2 d ln h at the centre, so its zeros are exactly the parameters for which the enthalpy is
    stationary there along the line.  Missing: v_r (z - z_CM) <> 0 (refuted below). *)
Theorem C105_force_balance_partial :
  forall (psi ap h : R -> R) (dphi W beta B0 x : R -> nat -> R) (gC igC : R -> nat -> nat -> R) Om Vr D CM C d dh dgt dG,
  let u0 t := GenU0.out_u0 (GenU0.mk (W t) (ap t) (dphi t) (h t) (gC t) (igC t) (psi t)) in
  let t4 t i := W t i / (h t * u0 t) + beta t i in
  0 < d -> C <> 0 ->
  (forall t, Rabs t < d ->
     inverse3 (sy (gC t)) (sy (igC t)) /\ semipos (sy (gC t)) /\ 0 < psi t /\ 0 < ap t /\ 0 < h t /\
     (forall i, (i < 3)%nat -> beta t i = B0 t i + B1_inspiral Om Vr D CM (x t) i) /\ Vr * (x t 2%nat - CM 2%nat) = 0 /\
     0 < (ap t / psi t) ^ 2 - psi t ^ 4 * sum3 (fun i => sum3 (fun j => sy (gC t) i j * t4 t i * t4 t j)) /\
     GenEulerC.Euler_C (GenEulerC.mk (W t) (beta t) (dphi t) (h t) (igC t) (psi t) (u0 t)) = C) ->
  let gt t := GenGtilda.Gtilda (GenGtilda.mk (B0 t) D Om Vr (W t) (ap t) (h t) (gC t) (psi t) (u0 t) (x t 0%nat) (CM 0%nat) (x t 1%nat) (CM 1%nat)) in
  let G t := GenGamma.G (GenGamma.mk (W t) (ap t) (beta t) (dphi t) (h t) (gC t) (psi t) (u0 t)) in
  derivable_pt_lim h 0 dh -> derivable_pt_lim gt 0 dgt -> derivable_pt_lim G 0 dG ->
  force_residual dgt (gt 0) (dLnGamma dG (G 0)) = - 2 * (dh / h 0) /\
  (force_residual dgt (gt 0) (dLnGamma dG (G 0)) = 0 <-> dh = 0).
Proof. exact force_balance'. Qed.
Print Assumptions C105_force_balance_partial.
(** fluid at rest for the normal observers: phi = 0, W = 0, flat conformal metric, lapse 1 + t/2 on the x axis, Omega = 1/2: h = 1/(1 + t/2), Gtilda = 1 + t *)
Example C105_ex : exists (psi ap h : R -> R) (dphi W beta B0 x : R -> nat -> R) (gC igC : R -> nat -> nat -> R) Om Vr D CM C d dh dgt dG,
  let u0 t := GenU0.out_u0 (GenU0.mk (W t) (ap t) (dphi t) (h t) (gC t) (igC t) (psi t)) in
  let t4 t i := W t i / (h t * u0 t) + beta t i in
  0 < d /\ C <> 0 /\
  (forall t, Rabs t < d ->
     inverse3 (sy (gC t)) (sy (igC t)) /\ semipos (sy (gC t)) /\ 0 < psi t /\ 0 < ap t /\ 0 < h t /\
     (forall i, (i < 3)%nat -> beta t i = B0 t i + B1_inspiral Om Vr D CM (x t) i) /\ Vr * (x t 2%nat - CM 2%nat) = 0 /\
     0 < (ap t / psi t) ^ 2 - psi t ^ 4 * sum3 (fun i => sum3 (fun j => sy (gC t) i j * t4 t i * t4 t j)) /\
     GenEulerC.Euler_C (GenEulerC.mk (W t) (beta t) (dphi t) (h t) (igC t) (psi t) (u0 t)) = C) /\
  let gt t := GenGtilda.Gtilda (GenGtilda.mk (B0 t) D Om Vr (W t) (ap t) (h t) (gC t) (psi t) (u0 t) (x t 0%nat) (CM 0%nat) (x t 1%nat) (CM 1%nat)) in
  let G t := GenGamma.G (GenGamma.mk (W t) (ap t) (beta t) (dphi t) (h t) (gC t) (psi t) (u0 t)) in
  derivable_pt_lim h 0 dh /\ derivable_pt_lim gt 0 dgt /\ derivable_pt_lim G 0 dG /\ Om <> 0.
Proof. exact ex_force. Qed.

(** C105 (refuted part). With an infall velocity off the orbital plane Gtilda is not alpha^2 - |W/(h u0) + beta|^2 for the shift
    beta = B0 + B1 the rest of the code uses: the routine leaves out the z component of B1. *)
Theorem C105_force_balance_refuted : exists psi ap h u0 W B0 gC Om Vr D CM x,
  0 < psi /\ 0 < ap /\ 0 < h /\ 0 < u0 /\ 0 < D /\
  let beta i := B0 i + B1_inspiral Om Vr D CM x i in
  let t i := W i / (h * u0) + beta i in
  GenGtilda.Gtilda (GenGtilda.mk B0 D Om Vr W ap h gC psi u0 (x 0%nat) (CM 0%nat) (x 1%nat) (CM 1%nat))
    <> (ap / psi) ^ 2 - psi ^ 4 * sum3 (fun i => sum3 (fun j => sy gC i j * t i * t j)).
Proof. exact gtilda_z. Qed.
Print Assumptions C105_force_balance_refuted.

(** C106. The spin vector is Omega x (r - r_centre), with antisymmetric derivatives, so d_i W^i = 0 as C101 asks.  The inspiral
    field is Omega z x (r - r_CM) + v_r (r - r_CM)/D; the first and second derivatives stored for it are its derivatives, and it is a conformal
    Killing vector of the flat metric.  A relaxed update lies between old and new value, keeps a fixed point and is the new value at weight 1
    or without old value; the orbital parameter update also, and a relative change of more than 10 percent is reduced tenfold. *)
Theorem C106_spin_and_inspiral :
  (forall Om C x, (forall i, (i < 3)%nat -> W_spin Om C x i = cross Om (fun k => x k - C k) i) /\
    exists dW, (forall i a, (i < 3)%nat -> (a < 3)%nat -> partial (fun y => W_spin Om C y i) x a (dW i a)) /\
               (forall i a, (i < 3)%nat -> (a < 3)%nat -> dW i a = - dW a i) /\ sum3 (fun i => dW i i) = 0) /\
  (forall Om Vr D CM x,
    (forall i, (i < 3)%nat -> B1_inspiral Om Vr D CM x i = cross (fun k => Om * delta k 2) (fun k => x k - CM k) i + Vr / D * (x i - CM i)) /\
    (forall i a, (i < 3)%nat -> (a < 3)%nat -> partial (fun y => B1_inspiral Om Vr D CM y i) x a (dB1_inspiral Om Vr D i a)) /\
    (forall i a b, (i < 3)%nat -> (a < 3)%nat -> (b < 3)%nat -> partial (fun y => dB1_inspiral Om Vr D i a) x b (ddB1_inspiral i a b)) /\
    (forall i a, (i < 3)%nat -> (a < 3)%nat ->
       dB1_inspiral Om Vr D i a + dB1_inspiral Om Vr D a i - 2 / 3 * delta i a * sum3 (fun k => dB1_inspiral Om Vr D k k) = 0)) /\
  (forall w old new, 0 <= w <= 1 -> Rmin old new <= relax_update w (Some old) new <= Rmax old new) /\
  (forall w x, relax_update w (Some x) x = x) /\ (forall old new, relax_update 1 (Some old) new = new) /\ (forall w new, relax_update w None new = new) /\
  (forall w old new, 0 <= w <= 1 -> Rmin old new <= force_update w old new <= Rmax old new) /\
  (forall w x, x <> 0 -> force_update w x x = x) /\
  (forall w old new, 0 <= w <= 1 -> old <> 0 -> Rabs (new - old) > Rabs old / 10 -> Rabs (force_update w old new - old) = w / 10 * Rabs (new - old)).
Proof. exact (conj W_spin_cross (conj B1_properties relax_ok)). Qed.
Print Assumptions C106_spin_and_inspiral.
Example C106_ex : W_spin (fun i => 2 * delta i 2) (fun _ => 1) (fun i => INR i) 0%nat = 0 /\ W_spin (fun i => 2 * delta i 2) (fun _ => 1) (fun i => INR i) 1%nat = - 2 /\
  B1_inspiral 2 (1/2) 4 (fun _ => 0) (fun i => INR i) 0%nat = - 2 /\ relax_update (1/4) (Some 4) 8 = 5 /\ force_update (1/2) 4 8 = 4 + 4 / 20.
Proof. exact ex_spin. Qed.
