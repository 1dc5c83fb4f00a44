(** FluidFinal.v - the stored matter sources, the Euler first integral and the force balance. *)
From Verif Require Import RealBase TensorSpec RicciFinal XctsSpec XctsProofs FluidSpec FluidModel FluidProofs PhiSpec.
From Verif Require GenTijE GenTijJ GenTijS GenU0 GenEnthalpy GenMass GenEulerC GenGamma GenGtilda GenEqPsi.

Definition phys (psi : R) (g : nat -> nat -> R) (i j : nat) : R := psi ^ 4 * g i j.
Definition iphys (psi : R) (ig : nat -> nat -> R) (i j : nat) : R := ig i j / psi ^ 4.

Ltac cb := cbv -[Rplus Rminus Rmult Rdiv Ropp Rinv pow IZR sqrt Rpower].

(** ** four-velocity *)
Lemma u0_P2 : forall E, GenU0.P2 E = P2q (sy (GenU0.gConf E)) (sy (GenU0.igConf E)) (GenU0.psi E) (GenU0.dphi E) (GenU0.W E).
Proof. intros [W ap dphi h g ig p]. cb. generalize (/ (p ^ 4)). intros. ring. Qed.
Lemma P2_pos g ig psi dphi W : (forall i j, g i j = g j i) -> inverse3 g ig -> semipos g -> psi <> 0 -> 0 <= P2q g ig psi dphi W.
Proof.
  intros Sg Inv Pos Hp. rewrite <- (P2_up g ig Sg Inv psi dphi W Hp).
  set (V := fun i => sum3 (fun k => ig i k / psi ^ 4 * dphi k) + W i).
  change (0 <= sum3 (fun i => sum3 (fun j => psi ^ 4 * g i j * V i * V j))).
  replace (sum3 (fun i => sum3 (fun j => psi ^ 4 * g i j * V i * V j))) with (psi ^ 4 * sum3 (fun i => sum3 (fun j => g i j * V i * V j))) by (unfold sum3; ring).
  apply Rmult_le_pos; [|apply Pos]. replace (psi ^ 4) with ((psi ^ 2) ^ 2) by ring. apply pow2_ge_0.
Qed.
Lemma u0_normalised : forall E be, inverse3 (sy (GenU0.gConf E)) (sy (GenU0.igConf E)) -> semipos (sy (GenU0.gConf E)) ->
  0 < GenU0.psi E -> 0 < GenU0.alphaPsi E -> 0 < GenU0.enthalpy E ->
  let al := GenU0.alphaPsi E / GenU0.psi E in
  let g := g4 al be (phys (GenU0.psi E) (sy (GenU0.gConf E))) in
  let u := vel4 (iphys (GenU0.psi E) (sy (GenU0.igConf E))) (GenU0.dphi E) (GenU0.W E) be (GenU0.enthalpy E) (GenU0.out_u0 E) in
  dot4 g u u = - 1 /\ 0 < GenU0.out_u0 E.
Proof.
  intros E be Inv Pos Hp Ha Hh al g u.
  assert (Hal : 0 < al) by (apply Rdiv_lt_0_compat; assumption).
  assert (Q : 0 <= P2q (sy (GenU0.gConf E)) (sy (GenU0.igConf E)) (GenU0.psi E) (GenU0.dphi E) (GenU0.W E))
    by (apply P2_pos; try assumption; [apply sy_sym|lra]).
  assert (HU : GenU0.out_u0 E = sqrt (GenU0.P2 E + GenU0.enthalpy E ^ 2) / (al * GenU0.enthalpy E)) by reflexivity.
  rewrite u0_P2 in HU. split.
  - unfold g, u, phys, iphys. rewrite vel_norm; try assumption; try apply sy_sym; try lra.
    rewrite HU. set (P := P2q _ _ _ _ _) in *. set (h := GenU0.enthalpy E) in *.
    replace ((al * (sqrt (P + h ^ 2) / (al * h))) ^ 2) with ((sqrt (P + h ^ 2)) ^ 2 / h ^ 2) by (field; lra).
    rewrite pow2_sqrt by nra. field. lra.
  - rewrite HU. apply Rdiv_lt_0_compat; [apply sqrt_lt_R0; nra|nra].
Qed.

(** ** sources *)
Lemma source_E : forall E g ig dphi W be, inverse3 (sy g) (sy ig) -> GenTijE.psi E <> 0 -> GenTijE.alphaPsi E <> 0 -> GenTijE.enthalpy E <> 0 ->
  let al := GenTijE.alphaPsi E / GenTijE.psi E in let gm := phys (GenTijE.psi E) (sy g) in
  let u := vel4 (iphys (GenTijE.psi E) (sy ig)) dphi W be (GenTijE.enthalpy E) (GenTijE.u0 E) in
  GenTijE.out_EConf E = GenTijE.psi E ^ 6 * energy4 (T4 (g4 al be gm) (GenTijE.rho0 E) (GenTijE.enthalpy E) (GenTijE.p E) u) al be.
Proof.
  intros E g ig dphi W be Inv Hp Ha Hh al gm u.
  assert (Hal : al <> 0) by (unfold al, Rdiv; apply Rmult_integral_contrapositive_currified; [assumption|apply Rinv_neq_0_compat, Hp]).
  unfold u, gm, phys, iphys. rewrite (energy_u (sy g) (sy ig) (sy_sym _)) by assumption. unfold al. clear. destruct E. cb. ring.
Qed.
Lemma source_J : forall E g be i, inverse3 (sy g) (sy (GenTijJ.igConf E)) -> GenTijJ.psi E <> 0 -> GenTijJ.alphaPsi E <> 0 -> GenTijJ.enthalpy E <> 0 -> (i < 3)%nat ->
  let al := GenTijJ.alphaPsi E / GenTijJ.psi E in let gm := phys (GenTijJ.psi E) (sy g) in let igm := iphys (GenTijJ.psi E) (sy (GenTijJ.igConf E)) in
  let u := vel4 igm (GenTijJ.dphi E) (GenTijJ.W E) be (GenTijJ.enthalpy E) (GenTijJ.u0 E) in
  forall old, GenTijJ.store_JConf E old i = GenTijJ.psi E ^ 6 * momentum4 igm (T4 (g4 al be gm) (GenTijJ.rho0 E) (GenTijJ.enthalpy E) (GenTijJ.p E) u) al be i.
Proof.
  intros E g be i Inv Hp Ha Hh Hi al gm igm u old.
  assert (Hal : al <> 0) by (unfold al, Rdiv; apply Rmult_integral_contrapositive_currified; [assumption|apply Rinv_neq_0_compat, Hp]).
  unfold u, gm, igm, phys, iphys. rewrite (momentum_u (sy g) (sy (GenTijJ.igConf E)) (sy_sym _) (sy_sym _) Inv) by assumption. unfold al. clear - Hi. destruct E.
  idx i; cb; unfold Rdiv; generalize (/ psi ^ 4); intros; ring.
Qed.
Lemma source_S : forall E al be, inverse3 (sy (GenTijS.gConf E)) (sy (GenTijS.igConf E)) -> GenTijS.psi E <> 0 -> GenTijS.enthalpy E <> 0 -> al <> 0 ->
  forall u0,
  let gm := phys (GenTijS.psi E) (sy (GenTijS.gConf E)) in let igm := iphys (GenTijS.psi E) (sy (GenTijS.igConf E)) in
  let u := vel4 igm (GenTijS.dphi E) (GenTijS.W E) be (GenTijS.enthalpy E) u0 in
  GenTijS.out_SConf E = GenTijS.psi E ^ 6 * stress4 igm (T4 (g4 al be gm) (GenTijS.rho0 E) (GenTijS.enthalpy E) (GenTijS.p E) u).
Proof.
  intros E al be Inv Hp Hh Hal u0 gm igm u.
  unfold u, gm, igm, phys, iphys. rewrite (stress_u (sy (GenTijS.gConf E)) (sy (GenTijS.igConf E)) (sy_sym _) (sy_sym _) Inv) by assumption. clear. destruct E.
  cb. unfold Rdiv. generalize (/ psi ^ 4); intros; ring.
Qed.

(** the rescaled sources, for pressure and internal energy of one fluid element *)
Lemma rescaled :
  (forall E, GenTijE.p E = GenTijE.rho0 E * (GenTijE.enthalpy E - 1 - GenTijE.e0 E) -> GenTijE.out_EConfP E = GenTijE.out_EConfC E * GenTijE.out_EConf E) /\
  (forall E old oldP i, (i < 3)%nat -> GenTijJ.p E = GenTijJ.rho0 E * (GenTijJ.enthalpy E - 1 - GenTijJ.e0 E) ->
     GenTijJ.store_JConfP E oldP i = GenTijJ.out_JConfC E * GenTijJ.store_JConf E old i) /\
  (forall E, GenTijS.p E = GenTijS.rho0 E * (GenTijS.enthalpy E - 1 - GenTijS.e0 E) -> GenTijS.out_SConfP E = GenTijS.out_SConfC E * GenTijS.out_SConf E).
Proof.
  split; [|split].
  - intros [ap e0 h p psi r u0] H. cbn in H. subst p. cb. ring.
  - intros [W ap dphi e0 h ig p psi r u0] old oldP i Hi H. cbn in H. subst p. idx i; cb; unfold Rdiv; generalize (/ psi ^ 4); intros; ring.
  - intros [W dphi e0 h g ig p psi r] H. cbn in H. subst p. cb. unfold Rdiv. generalize (/ psi ^ 4). intros. ring.
Qed.

(** ** Euler first integral *)
Section Euler.
  (** one node: metric, velocity potential, spin, lapse and shift *)
  Variables (psi ap : R) (dphi W beta : nat -> R) (gC igC : nat -> nat -> R).
  Notation g := (sy gC). Notation ig := (sy igC).
  Hypothesis Inv : inverse3 g ig.
  Hypothesis Pos : semipos g.
  Hypothesis Hp : 0 < psi.
  Hypothesis Ha : 0 < ap.
  Notation al := (ap / psi).
  Notation P2 := (P2q g ig psi dphi W).
  Definition uWq : R := sum3 (fun i => W i * dphi i) + psi ^ 4 * sum3 (fun i => sum3 (fun j => g i j * W i * W j)).
  Definition Bd : R := sum3 (fun i => beta i * dphi i).
  Definition env_ent C := GenEnthalpy.mk C W ap beta dphi gC igC psi.
  Definition u0_of h := GenU0.out_u0 (GenU0.mk W ap dphi h gC igC psi).
  Definition Euler_of h := GenEulerC.Euler_C (GenEulerC.mk W beta dphi h igC psi (u0_of h)).

  Lemma al_pos : 0 < al. Proof. apply Rdiv_lt_0_compat; assumption. Qed.
  Lemma ent_parts C : GenEnthalpy.alpha (env_ent C) = al /\ GenEnthalpy.P2 (env_ent C) = P2 /\ GenEnthalpy.uW (env_ent C) = uWq /\ GenEnthalpy.Bdphi (env_ent C) = Bd.
  Proof. unfold env_ent, P2q, uWq, Bd. repeat split; cb; unfold Rdiv; generalize (/ psi ^ 4); intros; ring. Qed.
  Lemma ent_L2 C : GenEnthalpy.L2 (env_ent C) = (2 * al ^ 2 * uWq + (Bd - C) ^ 2 + sqrt (- 4 * al ^ 4 * uWq ^ 2 + (2 * al ^ 2 * uWq + (Bd - C) ^ 2) ^ 2)) / (2 * al ^ 2) /\
    disc_ent (env_ent C) = - 4 * al ^ 4 * uWq ^ 2 + (2 * al ^ 2 * uWq + (Bd - C) ^ 2) ^ 2.
  Proof.
    destruct (ent_parts C) as (A & B & D & F). pose proof al_pos.
    unfold GenEnthalpy.L2, disc_ent, GenEnthalpy.b. rewrite A, D, F. cbn [env_ent GenEnthalpy.Euler_C]. split; [|reflexivity].
    field. split; lra.
  Qed.

  Lemma psi_ne : psi <> 0. Proof. lra. Qed.
  Lemma P2_nonneg : 0 <= P2. Proof. apply P2_pos; try assumption; [apply sy_sym|lra]. Qed.
  Lemma u0_of_val h : u0_of h = sqrt (P2 + h ^ 2) / (al * h).
  Proof. unfold u0_of. change (GenU0.out_u0 ?E) with (sqrt (GenU0.P2 E + GenU0.enthalpy E ^ 2) / (GenU0.alpha E * GenU0.enthalpy E)). rewrite u0_P2. reflexivity. Qed.
  Lemma Euler_of_val h : 0 < h -> Euler_of h = Bd - al * (h ^ 2 + P2 - uWq) / sqrt (P2 + h ^ 2).
  Proof.
    intros Hh. pose proof P2_nonneg as Q. pose proof al_pos as Hal.
    assert (HL : 0 < sqrt (P2 + h ^ 2)) by (apply sqrt_lt_R0; nra).
    unfold Euler_of.
    transitivity ((- (P2 - uWq) - h ^ 2 + h * u0_of h * Bd) / (h * u0_of h)).
    - unfold P2q, uWq, Bd. generalize (u0_of h). intros u. cb. unfold Rdiv. generalize (/ (psi ^ 4)) (/ (h * u)). intros. ring.
    - rewrite u0_of_val. generalize dependent P2. intros P _ HL. field. repeat split; lra.
  Qed.

  (** the larger root *)
  Lemma L2_root C : 0 <= disc_ent (env_ent C) ->
    let L := GenEnthalpy.L2 (env_ent C) in al ^ 2 * (L - uWq) ^ 2 = (Bd - C) ^ 2 * L /\ 0 <= L - uWq.
  Proof.
    intros Hd L. destruct (ent_L2 C) as [EL ED]. fold L in EL. rewrite ED in Hd. pose proof al_pos as Hal.
    set (q := Bd - C) in *. set (w := uWq) in *. set (a := al) in *. set (D := - 4 * a ^ 4 * w ^ 2 + (2 * a ^ 2 * w + q ^ 2) ^ 2) in *.
    assert (Hs : sqrt D ^ 2 = D) by (apply pow2_sqrt, Hd). pose proof (sqrt_pos D) as Hs0. set (r := sqrt D) in *.
    assert (EL' : 2 * a ^ 2 * L = 2 * a ^ 2 * w + q ^ 2 + r) by (rewrite EL; field; lra).
    assert (Ha2 : 0 < a ^ 2) by (apply pow_lt, Hal).
    split.
    - assert (Hr : r = 2 * a ^ 2 * L - (2 * a ^ 2 * w + q ^ 2)) by lra. rewrite Hr in Hs. unfold D in Hs.
      assert (X : 4 * a ^ 2 * (a ^ 2 * (L - w) ^ 2 - q ^ 2 * L) = 0) by (replace (4 * a ^ 2 * (a ^ 2 * (L - w) ^ 2 - q ^ 2 * L)) with ((2 * a ^ 2 * L - (2 * a ^ 2 * w + q ^ 2)) ^ 2 - (- 4 * a ^ 4 * w ^ 2 + (2 * a ^ 2 * w + q ^ 2) ^ 2)) by ring; lra).
      apply Rmult_integral in X. destruct X as [X|X]; nra.
    - pose proof (pow2_ge_0 q). nra.
  Qed.

  Lemma finite_ent_iff C : finite_ent (env_ent C) = true <-> 0 <= disc_ent (env_ent C) /\ 0 <= GenEnthalpy.h2 (env_ent C).
  Proof.
    unfold finite_ent. change (GenEnthalpy.psi (env_ent C)) with psi. change (GenEnthalpy.alphaPsi (env_ent C)) with ap.
    destruct (Req_EM_T psi 0); [lra|]. destruct (Req_EM_T ap 0); [lra|]. cbn [negb andb].
    destruct (Rle_dec 0 (disc_ent (env_ent C))), (Rle_dec 0 (GenEnthalpy.h2 (env_ent C))); cbn; intuition congruence.
  Qed.

  Lemma euler_roundtrip C : 0 <= disc_ent (env_ent C) -> 0 < GenEnthalpy.h2 (env_ent C) ->
    0 < enthalpy_new (env_ent C) /\ Euler_of (enthalpy_new (env_ent C)) = Bd - Rabs (Bd - C).
  Proof.
    intros Hd Hh2. pose proof al_pos as Hal.
    assert (F : finite_ent (env_ent C) = true) by (apply finite_ent_iff; split; [exact Hd|lra]).
    unfold enthalpy_new. rewrite F. change (GenEnthalpy.h (env_ent C)) with (sqrt (GenEnthalpy.h2 (env_ent C))).
    set (h := sqrt (GenEnthalpy.h2 (env_ent C))).
    assert (Hh : 0 < h) by (apply sqrt_lt_R0, Hh2). split; [exact Hh|].
    assert (Hh' : h ^ 2 = GenEnthalpy.L2 (env_ent C) - P2).
    { unfold h. rewrite pow2_sqrt by lra. unfold GenEnthalpy.h2. destruct (ent_parts C) as (_ & -> & _). reflexivity. }
    destruct (L2_root C Hd) as [R1 R2]. cbv zeta in R1, R2. set (L := GenEnthalpy.L2 (env_ent C)) in *.
    rewrite Euler_of_val by exact Hh.
    assert (E1 : P2 + h ^ 2 = L) by lra. assert (E2 : h ^ 2 + P2 = L) by lra. rewrite E1, E2.
    assert (HL : 0 < L) by (pose proof P2_nonneg; nra).
    assert (HsL : 0 < sqrt L) by (apply sqrt_lt_R0, HL).
    assert (Key : al * (L - uWq) = Rabs (Bd - C) * sqrt L).
    { apply Rsqr_inj; [apply Rmult_le_pos; lra|apply Rmult_le_pos; [apply Rabs_pos|lra]|].
      rewrite !Rsqr_pow2, !Rpow_mult_distr, pow2_sqrt, pow2_abs by lra. exact R1. }
    rewrite Key. field. lra.
  Qed.

  Lemma euler_fixed h : 0 < h -> Rabs uWq <= h ^ 2 + P2 -> enthalpy_new (env_ent (Euler_of h)) = h.
  Proof.
    intros Hh Hw. pose proof al_pos as Hal. pose proof P2_nonneg as HP.
    set (L := h ^ 2 + P2) in *. assert (HL : 0 < L) by (unfold L; nra).
    assert (HsL : 0 < sqrt L) by (apply sqrt_lt_R0, HL).
    assert (Hs2 : sqrt L ^ 2 = L) by (apply pow2_sqrt; lra).
    set (C := Euler_of h).
    assert (q2 : (Bd - C) ^ 2 = al ^ 2 * (L - uWq) ^ 2 / L).
    { unfold C. rewrite Euler_of_val by exact Hh. replace (P2 + h ^ 2) with L by (unfold L; ring). replace (h ^ 2 + P2) with L by reflexivity.
      rewrite <- Hs2 at 4. field. lra. }
    destruct (ent_L2 C) as [EL ED].
    assert (W1 : - L <= uWq <= L) by (revert Hw; unfold Rabs; destruct (Rcase_abs uWq); lra).
    assert (HD : - 4 * al ^ 4 * uWq ^ 2 + (2 * al ^ 2 * uWq + (Bd - C) ^ 2) ^ 2 = (al ^ 2 * (L ^ 2 - uWq ^ 2) / L) ^ 2).
    { rewrite q2. field. lra. }
    assert (Hr : 0 <= al ^ 2 * (L ^ 2 - uWq ^ 2) / L).
    { apply Rmult_le_pos; [|left; apply Rinv_0_lt_compat, HL]. apply Rmult_le_pos; [apply pow2_ge_0|nra]. }
    rewrite HD in EL, ED. rewrite sqrt_pow2 in EL by exact Hr. rewrite q2 in EL.
    assert (EL' : GenEnthalpy.L2 (env_ent C) = L) by (rewrite EL; field; split; lra).
    assert (Eh2 : GenEnthalpy.h2 (env_ent C) = h ^ 2).
    { unfold GenEnthalpy.h2. destruct (ent_parts C) as (_ & -> & _). rewrite EL'. unfold L. ring. }
    assert (F : finite_ent (env_ent C) = true).
    { apply finite_ent_iff. rewrite ED, Eh2. split; apply pow2_ge_0. }
    unfold enthalpy_new. rewrite F. change (GenEnthalpy.h (env_ent C)) with (sqrt (GenEnthalpy.h2 (env_ent C))). rewrite Eh2. apply sqrt_pow2. lra.
  Qed.

  Lemma enthalpy_fallback C : disc_ent (env_ent C) < 0 \/ GenEnthalpy.h2 (env_ent C) < 0 -> enthalpy_new (env_ent C) = 1.
  Proof.
    intros H. unfold enthalpy_new. destruct (finite_ent (env_ent C)) eqn:F; [|reflexivity]. apply finite_ent_iff in F. lra.
  Qed.

  (** baryonic mass: the same enthalpy, the normalised u0, the physical volume element *)
  Definition env_mass C := GenMass.mk C W ap beta dphi gC igC psi.
  Lemma mass_formula C rho_of : 0 <= disc_ent (env_ent C) -> 1 + ROUND_OFF_ERR <= enthalpy_new (env_ent C) -> 0 < GenEnthalpy.h2 (env_ent C) ->
    mass_integrand rho_of (env_mass C) = rho_of (enthalpy_new (env_ent C)) * u0_of (enthalpy_new (env_ent C)) * al * psi ^ 6.
  Proof.
    intros Hd H1 H2. assert (F : finite_ent (env_ent C) = true) by (apply finite_ent_iff; split; lra).
    assert (F' : finite_mass (env_mass C) = finite_ent (env_ent C)) by reflexivity.
    unfold enthalpy_new in *. rewrite F in H1 |- *.
    unfold mass_integrand. rewrite F', F. cbn [negb orb]. change (GenMass.h (env_mass C)) with (GenEnthalpy.h (env_ent C)).
    destruct (LSSEQL (GenEnthalpy.h (env_ent C)) 1) eqn:E; [apply LSSEQL_iff in E; lra|].
    change (GenMass.alpha (env_mass C)) with al. change (GenMass.psi6 (env_mass C)) with (psi ^ 6).
    change (GenMass.u0 (env_mass C)) with (sqrt (GenEnthalpy.L2 (env_ent C)) / (al * GenEnthalpy.h (env_ent C))).
    rewrite u0_of_val. do 3 f_equal. f_equal. f_equal. change (GenEnthalpy.h (env_ent C)) with (sqrt (GenEnthalpy.h2 (env_ent C))).
    rewrite pow2_sqrt by lra. unfold GenEnthalpy.h2. destruct (ent_parts C) as (_ & -> & _). ring.
  Qed.
  Lemma mass_vacuum C rho_of : disc_ent (env_ent C) < 0 \/ GenEnthalpy.h2 (env_ent C) < 0 \/ enthalpy_new (env_ent C) < 1 - ROUND_OFF_ERR \/
      1 - ROUND_OFF_ERR < enthalpy_new (env_ent C) < 1 + ROUND_OFF_ERR ->
    mass_integrand rho_of (env_mass C) = 0.
  Proof.
    intros H. assert (F' : finite_mass (env_mass C) = finite_ent (env_ent C)) by reflexivity.
    unfold mass_integrand, enthalpy_new in *. rewrite F'. destruct (finite_ent (env_ent C)) eqn:F; cbn [negb orb]; [|ring].
    apply finite_ent_iff in F. change (GenMass.h (env_mass C)) with (GenEnthalpy.h (env_ent C)).
    replace (LSSEQL (GenEnthalpy.h (env_ent C)) 1) with true; [ring|]. symmetry. apply LSSEQL_iff. pose proof ROE_pos. lra.
  Qed.

  (** ** force balance *)
  Definition env_gam h := GenGamma.mk W ap beta dphi h gC psi (u0_of h).
  Definition t2q h : R := let t i := W i / (h * u0_of h) + beta i in psi ^ 4 * sum3 (fun i => sum3 (fun j => g i j * t i * t j)).
  Lemma Rpower_mhalf x : 0 < x -> Rpower x (- (1 / 2)) = / sqrt x.
  Proof. intros H. rewrite Rpower_Ropp. f_equal. replace (1 / 2) with (/ 2) by lra. apply Rpower_sqrt, H. Qed.
  Lemma gamma_identity h : 0 < h -> 0 < al ^ 2 - t2q h ->
    - Euler_of h = h * sqrt (al ^ 2 - t2q h) * GenGamma.G (env_gam h).
  Proof.
    intros Hh Ht. pose proof al_pos as Hal. pose proof P2_nonneg as HP.
    assert (HL : 0 < sqrt (P2 + h ^ 2)) by (apply sqrt_lt_R0; nra).
    assert (Hs2 : sqrt (P2 + h ^ 2) ^ 2 = P2 + h ^ 2) by (apply pow2_sqrt; nra).
    assert (Hu : 0 < u0_of h) by (rewrite u0_of_val; apply Rdiv_lt_0_compat; nra).
    assert (Et : GenGamma.t2 (env_gam h) = t2q h).
    { unfold env_gam, t2q. generalize (u0_of h). intros u. cb. unfold Rdiv. generalize (/ (h * u)). intros. ring. }
    unfold GenGamma.G. change (GenGamma.alpha2 (env_gam h)) with (al ^ 2). change (GenGamma.alpha (env_gam h)) with al.
    change (GenGamma.u0 (env_gam h)) with (u0_of h). rewrite Et.
    assert (Ha2 : 0 < al ^ 2) by (apply pow_lt, Hal).
    rewrite Rpower_mhalf by (apply Rdiv_lt_0_compat; assumption).
    rewrite sqrt_div by lra. rewrite sqrt_pow2 by lra.
    assert (Ev : al ^ 2 * h * u0_of h * GenGamma.v (env_gam h) = Bd + uWq / (h * u0_of h)).
    { unfold env_gam, Bd, uWq. generalize dependent (u0_of h). intros u. intros. cb. field. repeat split; lra. }
    assert (HsT : 0 < sqrt (al ^ 2 - t2q h)) by (apply sqrt_lt_R0, Ht).
    transitivity (al ^ 2 * h * u0_of h * (1 - GenGamma.v (env_gam h))).
    - rewrite Rmult_minus_distr_l, Ev, Euler_of_val by exact Hh. rewrite u0_of_val.
      assert (X : al ^ 2 * h * (sqrt (P2 + h ^ 2) / (al * h)) * 1 = al * sqrt (P2 + h ^ 2)) by (field; lra). rewrite X.
      assert (Y : uWq / (h * (sqrt (P2 + h ^ 2) / (al * h))) = al * uWq / sqrt (P2 + h ^ 2)) by (field; repeat split; lra). rewrite Y.
      set (r := sqrt (P2 + h ^ 2)) in *. replace (h ^ 2 + P2) with (r ^ 2) by (rewrite Hs2; ring). field. split; lra.
    - field. lra.
  Qed.
End Euler.

(** ** force balance along a line through the centre *)
Lemma const_derive f c d : 0 < d -> (forall t, Rabs t < d -> f t = c) -> derivable_pt_lim f 0 0.
Proof.
  intros Hd H e He. exists (mkposreal d Hd). intros x Hx Hl. cbn in Hl. rewrite Rplus_0_l.
  rewrite (H x Hl), (H 0) by (rewrite Rabs_R0; exact Hd). replace ((c - c) / x - 0) with 0 by (field; exact Hx). rewrite Rabs_R0. exact He.
Qed.
Lemma log_balance (h gt G : R -> R) C d dh dgt dG : 0 < d -> C <> 0 ->
  (forall t, Rabs t < d -> 0 < gt t /\ - C = h t * sqrt (gt t) * G t) ->
  derivable_pt_lim h 0 dh -> derivable_pt_lim gt 0 dgt -> derivable_pt_lim G 0 dG ->
  force_residual dgt (gt 0) (dLnGamma dG (G 0)) = - 2 * (dh / h 0).
Proof.
  intros Hd HC H Dh Dg DG.
  assert (Z : Rabs 0 < d) by (rewrite Rabs_R0; exact Hd). destruct (H 0 Z) as [P0 E0].
  assert (D0 : derivable_pt_lim (fun t => (h t * h t) * (gt t * (G t * G t))) 0 0).
  { apply (const_derive _ (C ^ 2) d Hd). intros t Ht. destruct (H t Ht) as [P E].
    assert (S : sqrt (gt t) ^ 2 = gt t) by (apply pow2_sqrt; lra).
    transitivity ((h t * sqrt (gt t) * G t) ^ 2); [rewrite <- S at 1; ring|]. rewrite <- E. ring. }
  pose proof (derivable_pt_lim_mult _ _ _ _ _ (derivable_pt_lim_mult _ _ _ _ _ Dh Dh) (derivable_pt_lim_mult _ _ _ _ _ Dg (derivable_pt_lim_mult _ _ _ _ _ DG DG))) as D1.
  pose proof (uniqueness_limite _ _ _ _ D0 D1) as U. unfold mult_fct in U.
  assert (Hh0 : h 0 <> 0) by (intros X; rewrite X in E0; lra). assert (HG0 : G 0 <> 0) by (intros X; rewrite X in E0; lra).
  unfold force_residual, dLnGamma.
  assert (X : h 0 ^ 2 * gt 0 * G 0 ^ 2 * (dgt / gt 0 + 2 * (dG / G 0) + 2 * (dh / h 0)) = 0).
  { transitivity ((dh * h 0 + h 0 * dh) * (gt 0 * (G 0 * G 0)) + h 0 * h 0 * (dgt * (G 0 * G 0) + gt 0 * (dG * G 0 + G 0 * dG))).
    - field. repeat split; lra.
    - symmetry. exact U. }
  apply Rmult_integral in X. destruct X as [X|X]; [|lra].
  exfalso. revert X. repeat apply Rmult_integral_contrapositive_currified; try apply pow_nonzero; lra.
Qed.

Definition env_gt (psi ap h u0 : R) (W B0 : nat -> R) (gC : nat -> nat -> R) Om Vr D (CM x : nat -> R) :=
  GenGtilda.mk B0 D Om Vr W ap h gC psi u0 (x 0%nat) (CM 0%nat) (x 1%nat) (CM 1%nat).
Lemma gtilda_formula psi ap dphi W beta gC igC h B0 Om Vr D CM x :
  (forall i, (i < 3)%nat -> beta i = B0 i + B1_inspiral Om Vr D CM x i) -> Vr * (x 2%nat - CM 2%nat) = 0 ->
  GenGtilda.Gtilda (env_gt psi ap h (u0_of psi ap dphi W gC igC h) W B0 gC Om Vr D CM x) = (ap / psi) ^ 2 - t2q psi ap dphi W beta gC igC h.
Proof.
  intros Hb Hz. unfold t2q, env_gt. cbv zeta. generalize (u0_of psi ap dphi W gC igC h). intros u.
  unfold sum3. rewrite !Hb by lia. cbn [B1_inspiral]. rewrite Hz. unfold GenGtilda.Gtilda, GenGtilda.t2.
  cb. unfold Rdiv. generalize (/ (h * u)) (/ D) (/ psi). intros. ring.
Qed.

(** the nodes along a line: everything the two routines read, as functions of the coordinate along it *)
Lemma force_balance : forall (psi ap h : R -> R) (dphi W beta B0 x : R -> nat -> R) (gC igC : R -> nat -> nat -> R) Om Vr D CM C d dh dgt dG,
  0 < d -> C <> 0 ->
  (forall t, Rabs t < d ->
     inverse3 (sy (gC t)) (sy (igC t)) /\ semipos (sy (gC t)) /\ 0 < psi t /\ 0 < ap t /\ 0 < h t /\
     (forall i, (i < 3)%nat -> beta t i = B0 t i + B1_inspiral Om Vr D CM (x t) i) /\ Vr * (x t 2%nat - CM 2%nat) = 0 /\
     0 < (ap t / psi t) ^ 2 - t2q (psi t) (ap t) (dphi t) (W t) (beta t) (gC t) (igC t) (h t) /\
     Euler_of (psi t) (ap t) (dphi t) (W t) (beta t) (gC t) (igC t) (h t) = C) ->
  let u0 t := u0_of (psi t) (ap t) (dphi t) (W t) (gC t) (igC t) (h t) in
  let gt t := GenGtilda.Gtilda (env_gt (psi t) (ap t) (h t) (u0 t) (W t) (B0 t) (gC t) Om Vr D CM (x t)) in
  let G t := GenGamma.G (GenGamma.mk (W t) (ap t) (beta t) (dphi t) (h t) (gC t) (psi t) (u0 t)) in
  derivable_pt_lim h 0 dh -> derivable_pt_lim gt 0 dgt -> derivable_pt_lim G 0 dG ->
  force_residual dgt (gt 0) (dLnGamma dG (G 0)) = - 2 * (dh / h 0).
Proof.
  intros psi ap h dphi W beta B0 x gC igC Om Vr D CM C d dh dgt dG Hd HC H u0 gt G Dh Dg DG.
  apply (log_balance h gt G C d dh dgt dG Hd HC); try assumption.
  intros t Ht. destruct (H t Ht) as (Inv & Pos & Hp & Ha & Hh & Hb & Hz & Hg & HE).
  assert (E : gt t = (ap t / psi t) ^ 2 - t2q (psi t) (ap t) (dphi t) (W t) (beta t) (gC t) (igC t) (h t)) by (apply gtilda_formula; assumption).
  rewrite E. split; [exact Hg|]. rewrite <- HE. apply gamma_identity; assumption.
Qed.
(** with an infall velocity the force balance routine drops the z component of the velocity field *)
Lemma gtilda_z : exists psi ap h u0 W B0 gC Om Vr D CM x,
  0 < psi /\ 0 < ap /\ 0 < h /\ 0 < u0 /\ 0 < D /\
  let beta i := B0 i + B1_inspiral Om Vr D CM x i in
  let t i := W i / (h * u0) + beta i in
  GenGtilda.Gtilda (env_gt psi ap h u0 W B0 gC Om Vr D CM x) <> (ap / psi) ^ 2 - psi ^ 4 * sum3 (fun i => sum3 (fun j => sy gC i j * t i * t j)).
Proof.
  exists 1, 1, 1, 1, (fun _ => 0), (fun _ => 0), delta, 0, (1/2), 1, (fun _ => 0), (fun i => delta i 2).
  repeat split; try lra. cb. lra.
Qed.

(** ** spin vector and inspiral velocity field *)
Lemma affine_d f d : (forall t, f t = f 0 + t * d) -> derivable_pt_lim f 0 d.
Proof.
  intros H e He. exists (mkposreal 1 Rlt_0_1). intros x Hx _. rewrite Rplus_0_l, (H x).
  replace ((f 0 + x * d - f 0) / x - d) with 0 by (field; exact Hx). rewrite Rabs_R0. exact He.
Qed.
Lemma W_spin_cross Om C x : (forall i, (i < 3)%nat -> W_spin Om C x i = cross Om (fun k => x k - C k) i) /\
  exists dW, (forall i a, (i < 3)%nat -> (a < 3)%nat -> partial (fun y => W_spin Om C y i) x a (dW i a)) /\
             (forall i a, (i < 3)%nat -> (a < 3)%nat -> dW i a = - dW a i) /\ sum3 (fun i => dW i i) = 0.
Proof.
  split; [intros i Hi; idx i; unfold cross, W_spin; cbn; ring|].
  exists (fun i a => match i, a with O, S O => - Om 2%nat | O, S (S O) => Om 1%nat | S O, O => Om 2%nat | S O, S (S O) => - Om 0%nat | S (S O), O => - Om 1%nat | S (S O), S O => Om 0%nat | _, _ => 0 end).
  split; [|split].
  - intros i a Hi Ha. apply affine_d. intros t. idx i; idx a; cb; ring.
  - intros i a Hi Ha. idx i; idx a; ring.
  - unfold sum3. ring.
Qed.
Lemma B1_properties Om Vr D CM x : 
  (forall i, (i < 3)%nat -> B1_inspiral Om Vr D CM x i = cross (fun k => Om * delta k 2) (fun k => x k - CM k) i + Vr / D * (x i - CM i)) /\
  (forall i a, (i < 3)%nat -> (a < 3)%nat -> partial (fun y => B1_inspiral Om Vr D CM y i) x a (dB1_inspiral Om Vr D i a)) /\
  (forall i a b, (i < 3)%nat -> (a < 3)%nat -> (b < 3)%nat -> partial (fun y => dB1_inspiral Om Vr D i a) x b (ddB1_inspiral i a b)) /\
  (forall i a, (i < 3)%nat -> (a < 3)%nat ->
     dB1_inspiral Om Vr D i a + dB1_inspiral Om Vr D a i - 2 / 3 * delta i a * sum3 (fun k => dB1_inspiral Om Vr D k k) = 0).
Proof.
  split; [|split; [|split]].
  - intros i Hi. idx i; unfold cross, delta, Rdiv; cbn; unfold Rdiv; ring.
  - intros i a Hi Ha. apply affine_d. intros t. idx i; idx a; cb; unfold Rdiv; ring.
  - intros i a b Hi Ha Hb. apply affine_d. intros t. cbv [ddB1_inspiral]. ring.
  - intros i a Hi Ha. idx i; idx a; unfold sum3, delta, dB1_inspiral; cbn -[Rdiv]; unfold Rdiv; generalize (/ D); intros; field.
Qed.

Lemma volume psi g : 0 < psi -> 0 <= det3s g -> psi ^ 6 * sqrt (det3s g) = sqrt (det3s (phys psi g)).
Proof.
  intros Hp Hg. replace (det3s (phys psi g)) with ((psi ^ 6) ^ 2 * det3s g) by (unfold det3s, phys; ring).
  rewrite sqrt_mult by (try apply pow2_ge_0; assumption). rewrite sqrt_pow2; [reflexivity|]. left. apply pow_lt, Hp.
Qed.

(** ** meaning of the Euler constant: C = - (h/u^0 + V^i d_i phi), V^i = u^i/u^0 *)
Lemma euler_meaning : forall E : GenEulerC.env, GenEulerC.psi E <> 0 -> GenEulerC.enthalpy E <> 0 -> GenEulerC.u0 E <> 0 ->
  GenEulerC.Euler_C E =
   - (GenEulerC.enthalpy E / GenEulerC.u0 E
      + sum3 (fun i => vel4 (iphys (GenEulerC.psi E) (sy (GenEulerC.igConf E))) (GenEulerC.dphi E) (GenEulerC.W E) (GenEulerC.beta E) (GenEulerC.enthalpy E) (GenEulerC.u0 E) (S i)
                         / GenEulerC.u0 E * GenEulerC.dphi E i)).
Proof. intros [W beta dphi h ig p u0]. cbn [GenEulerC.psi GenEulerC.enthalpy GenEulerC.u0]. intros Hp Hh Hu. cb. field. repeat split; assumption. Qed.

Lemma relax_ok : (forall w old new, 0 <= w <= 1 -> Rmin old new <= relax_update w (Some old) new <= Rmax old new) /\
  (forall w x, relax_update w (Some x) x = x) /\ (forall old new, relax_update 1 (Some old) new = new) /\ (forall w new, relax_update w None new = new) /\
  (forall w old new, 0 <= w <= 1 -> Rmin old new <= force_update w old new <= Rmax old new) /\
  (forall w x, x <> 0 -> force_update w x x = x) /\
  (forall w old new, 0 <= w <= 1 -> old <> 0 -> Rabs (new - old) > Rabs old / 10 -> Rabs (force_update w old new - old) = w / 10 * Rabs (new - old)).
Proof.
  assert (M : forall w o n, 0 <= w <= 1 -> Rmin o n <= w * n + (1 - w) * o <= Rmax o n).
  { intros w o n Hw. unfold Rmin, Rmax. destruct (Rle_dec o n); nra. }
  split; [intros; apply M; assumption|]. split; [intros; cbn; ring|]. split; [intros; cbn; ring|]. split; [reflexivity|].
  split; [|split].
  - intros w o n Hw. unfold force_update. destruct (Rlt_dec _ _); apply M; lra.
  - intros w x Hx. unfold force_update. destruct (Rlt_dec _ _); ring.
  - intros w o n Hw Ho H. unfold force_update.
    assert (X : 1 - n / o = - ((n - o) / o)) by (field; exact Ho).
    rewrite X, Rabs_Ropp. replace (Rabs ((n - o) / o)) with (Rabs (n - o) * / Rabs o) by (unfold Rdiv; rewrite Rabs_mult, Rabs_inv; reflexivity).
    pose proof (Rabs_pos_lt o Ho) as Po.
    destruct (Rlt_dec (1 / 10) (Rabs (n - o) * / Rabs o)) as [L|L].
    + replace (w * (1 / 10) * n + (1 - w * (1 / 10)) * o - o) with (w / 10 * (n - o)) by field. rewrite Rabs_mult, (Rabs_pos_eq (w / 10)) by lra. reflexivity.
    + exfalso. apply L. apply Rmult_lt_reg_r with (Rabs o); [exact Po|]. rewrite Rmult_assoc, Rinv_l by lra. lra.
Qed.
