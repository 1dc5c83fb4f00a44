(** Props_Obs.v - the integrands of the global quantities: ADM momenta, masses, Komar mass, spins, centre.
    A [conf] is all conformal data of one node (metric, inverse, connection, psi, A^ij, K and derivatives); [conf_ok] says that they belong together
    (AdmFinal.v). gam/igam/Gam, Ku/Kd are the physical metric psi^4 g, its inverse, its connection and the extrinsic curvature (ObsSpec.v). *)
From Verif Require Import RealBase TensorSpec TensorProofs XctsSpec ShiftSpec AdmSpec AdmFinal ObsSpec ObsProofs ObsGauss ObsVol ObsMass ObsKomar ObsNormal.
From Verif Require GenObsP GenObsJ GenObsPR GenObsPC GenObsJC GenObsPO GenObsJO GenObsSC GenObsSA GenObsMS2 GenObsMI GenObsMC GenObsK GenObsRc.

(** C129. Every surface integrand of the ADM linear momentum (default, constraint and Rashti methods) is (K_ij - K gamma_ij) n^j and every
    surface integrand of the angular momentum (default, constraint) is the cross product of the position with it. *)
Theorem C129_surface_momenta : forall (c : conf) (n : nat -> R), cpsi c <> 0 ->
  (forall old i, (i < 3)%nat ->
    let momentum := sum3 (fun j => (Kd c i j - cK c * gam c i j) * n j) in
    GenObsP.store_obs__Pn (GenObsP.mk (cA c) (cg c) n (cpsi c) (cK c)) old i = momentum /\
    GenObsPC.store_obs__Ps (envPC c n) old i = momentum /\
    GenObsPR.store_obs__Pin (envPR c n) old i = momentum) /\
  (forall xi old i, (i < 3)%nat ->
    GenObsJ.store_obs__Jn (GenObsJ.mk (cA c) (cg c) n (cpsi c) (cK c) xi) old i
    = cross xi (fun k => sum3 (fun j => (Kd c k j - cK c * gam c k j) * n j)) i) /\
  (forall x x0 old i, (i < 3)%nat ->
    GenObsJC.store_obs__Js (envJC c n x x0) old i
    = cross (fun l => x l - x0 l) (fun k => sum3 (fun j => (Kd c k j - cK c * gam c k j) * n j)) i).
Proof.
  exact (fun c n Hp => conj (fun old i Hi => conj (P_default c n Hp old i Hi) (conj (P_constraint c n Hp old i Hi) (P_rashti c n Hp old i Hi)))
    (conj (fun xi old i Hi => J_default c n Hp xi old i Hi) (fun x x0 old i Hi => J_constraint c n Hp x x0 old i Hi))).
Qed.
Print Assumptions C129_surface_momenta.
Definition ex2 : conf := ex_flat 2 (fun i => delta i 0) (fun _ _ => 1) 6.
Example C129_ex : cpsi ex2 <> 0 /\ GenObsP.store_obs__Pn (GenObsP.mk (cA ex2) (cg ex2) (fun i => delta i 0) (cpsi ex2) (cK ex2)) (fun _ => 0) 0%nat = 1 / 4 - 64
  /\ GenObsJ.store_obs__Jn (GenObsJ.mk (cA ex2) (cg ex2) (fun i => delta i 0) (cpsi ex2) (cK ex2) (fun i => 3 * delta i 1)) (fun _ => 0) 2%nat = 3 * (64 - 1 / 4).
Proof. cbv -[Rplus Rminus Rmult Rdiv Ropp Rinv pow IZR PI]. repeat split; lra. Qed.

(** C130. Gauss: the flux through a surface element of the current (K^i_j - delta^i_j K) phi^j, phi a translation e_d or a rotation about x0 (e_d x (x - x0)), is the
    surface integrand of the d-th momentum, and the volume integrand is the divergence of the same current in the same physical metric: always for
    the Rashti momentum, and for the constraint versions of P and J wherever the vacuum momentum constraint holds. *)
Theorem C130_gauss : forall (c : conf), conf_ok c ->
  let current := cur (gam c) (Ku c) (cK c) in
  let div phi dphi := DivV (Gam c) (current phi) (dcur (gam c) (dgam c) (Ku c) (dKu c) (cK c) (cdK c) phi dphi) in
  (forall phi n, dot (gam c) (current phi) n = sum3 (fun i => sum3 (fun j => (Kd c i j - cK c * gam c i j) * phi i * n j))) /\
  (forall n old d, (d < 3)%nat -> dot (gam c) (current (trans d)) n = GenObsPR.store_obs__Pin (envPR c n) old d) /\
  (forall n x x0 old d, (d < 3)%nat -> dot (gam c) (current (rot (fun l => x l - x0 l) d)) n = GenObsJC.store_obs__Js (envJC c n x x0) old d) /\
  (forall n old d, (d < 3)%nat -> GenObsPR.store_obs__DPi (envPR c n) old d = div (trans d) (dtrans d)) /\
  ((forall k, (k < 3)%nat -> mom_vac c k = 0) -> forall n x x0 old d, (d < 3)%nat ->
    GenObsPC.store_obs__Pv (envPC c n) old d = div (trans d) (dtrans d) /\
    GenObsJC.store_obs__Jv (envJC c n x x0) old d = div (rot (fun l => x l - x0 l) d) (drot d)).
Proof.
  intros c OK. cbv zeta. assert (Hp : cpsi c <> 0) by (destruct OK as (_ & _ & _ & _ & _ & H & _); exact H).
  split; [exact (flux_cur c OK)|]. split; [|split; [|split]].
  - intros n old d Hd. rewrite (flux_cur c OK); unfold envPR; rewrite (P_rashti c n Hp old d Hd). unfold momd. generalize (Kd c) (gam c). intros k g. unfold trans, delta, sum3. idx d; cbn [Nat.eqb]; ring.
  - intros n x x0 old d Hd. rewrite (flux_cur c OK); unfold envJC; rewrite (J_constraint c n Hp x x0 old d Hd). unfold momd. generalize (Kd c) (gam c). intros k g. unfold rot, cross, sum3. idx d; cbn [eps]; ring.
  - intros n old d Hd. exact (PR_div c n OK old d Hd).
  - intros Hm n x x0 old d Hd. exact (conj (PC_div c n OK old d Hd Hm) (JC_div c n x x0 OK old d Hd Hm)).
Qed.
Print Assumptions C130_gauss.
Example C130_ex : conf_ok ex2 /\ (forall k, (k < 3)%nat -> mom_vac ex2 k = 0) /\ GenObsPR.store_obs__DPi (envPR ex2 (fun _ => 0)) (fun _ => 0) 0%nat = - 12
  /\ GenObsJC.store_obs__Jv (envJC ex2 (fun _ => 0) (fun i => delta i 1) (fun _ => 0)) (fun _ => 0) 2%nat = 12.
Proof.
  split; [apply ex_flat_ok; lra|]. split; [intros; apply ex_flat_vac; [lra|assumption]|]. split.
  - cbv -[Rplus Rminus Rmult Rdiv Ropp Rinv pow IZR PI]. field.
  - cbv -[Rplus Rminus Rmult Rdiv Ropp Rinv pow IZR PI]. field.
Qed.

(** C131. ADM mass: the surface form is n^i gamma^jk (d_k gamma_ij - d_i gamma_jk) of the physical metric; in the conformal form the surface integrand is
    -1/2pi times the flux of the gradient of psi in the conformal metric and the volume integrand -1/2pi times its divergence plus the Hamiltonian constraint's residual, so that
    the two match wherever the constraint holds; the isotropic form integrates flux and divergence themselves. *)
Theorem C131_adm_mass : forall (c : conf) (n : nat -> R), conf_ok c ->
  let grad i := sum3 (fun j => sy (cig c) i j * cdpsi c j) in
  let dgrad i k := sum3 (fun j => syd (cdig c) i j k * cdpsi c j + sy (cig c) i j * sy (cddpsi c) j k) in
  let flux := dot (sy (cg c)) grad n in
  let div := DivV (syl (cG c)) grad dgrad in
  GenObsMS2.out_ADM_mass_integrand_S (GenObsMS2.mk (cdg c) (cdpsi c) (cig c) n (cpsi c))
    = sum3 (fun i => n i * sum3 (fun j => sum3 (fun k => igam c j k * (dgam c i j k - dgam c j k i)))) /\
  GenObsMC.out_obs__Ms (envMC c n) = - flux / (2 * PI) /\
  GenObsMC.v_out_obs__Mv (envMC c n) = - div / (2 * PI)
     + ham (Lap (sy (cig c)) (syl (cG c)) (cdpsi c) (sy (cddpsi c))) (R_sc c) (cK c) (A_sq c) 1 (cEP c) (cpsi c) / (2 * PI) /\
  (forall att, GenObsMI.out_ADM_mass_integrand_S (GenObsMI.mk (cG c) att (cddpsi c) (cdpsi c) (cig c) n) = flux /\
    GenObsMI.v_out_ADM_mass_integrand_V (GenObsMI.mk (cG c) att (cddpsi c) (cdpsi c) (cig c) n) = div * att).
Proof.
  intros c n OK. cbv zeta. split; [exact (mass_S2 c n OK)|]. split; [exact (MC_surf c n OK)|]. split.
  - rewrite (MC_vol c n OK). pose proof (div_grad c OK) as D. unfold gradpsi, dgradpsi in D. rewrite D. reflexivity.
  - intros att. exact (conj (MI_surf c n OK att) (MI_vol c n OK att)).
Qed.
Print Assumptions C131_adm_mass.
Example C131_ex : conf_ok ex2 /\ GenObsMI.v_out_ADM_mass_integrand_V (GenObsMI.mk (cG ex2) 1 (cddpsi ex2) (cdpsi ex2) (cig ex2) (fun _ => 0)) = 3.
Proof. split; [apply ex_flat_ok; lra|]. cbv -[Rplus Rminus Rmult Rdiv Ropp Rinv pow IZR PI]. ring. Qed.

(** C132. Komar mass: the surface integrand is the flux of D^i alpha - K^i_j beta^j, the volume integrand alpha (rho + S) - 2 j_i beta^i, and where the
    Hamiltonian, momentum and lapse equations hold and the shift is Killing up to alpha K_ij, 4 pi times the latter is the divergence of the former: surface over 4 pi and
    volume parts are interchangeable. *)
Theorem C132_komar : forall (c : conf) (q : gauge) (n : nat -> R), conf_ok c ->
  (GenObsK.out_obs_komar_mass__s (envK c q n) = sum3 (fun i => (dalp c q i - sum3 (fun j => Kd c i j * gbeta q j)) * n i)) /\
  (GenObsK.v_out_obs_komar_mass__v (envK c q n)
     = alp c * ((cEP c + gS q) / cpsi c ^ 6) - 2 * dot (gam c) (fun i => cJP c i / cpsi c ^ 6) (gbeta q)) /\
  (ham_res c = 0 -> lapse_res c q = 0 -> (forall i, (i < 3)%nat -> mom_res c i = 0) ->
   (forall i j, (i < 3)%nat -> (j < 3)%nat -> (Dbeta c q i j + Dbeta c q j i) / 2 = alp c * Kd c i j) ->
   Lap (igam c) (Gam c) (dalp c q) (ddalp c q) - DivV (Gam c) (Kbeta c q) (dKbeta c q) = 4 * PI * GenObsK.v_out_obs_komar_mass__v (envK c q n)).
Proof. exact (fun c q n OK => conj (komar_surf c q n OK) (conj (komar_vol c q n OK) (komar_div c q n OK))). Qed.
Print Assumptions C132_komar.
Definition exK : conf := ex_flat 1 (fun _ => 0) (fun i j => - (1 / 4) * delta i 0 * delta j 0) 0.
Definition exq : gauge := mkgauge (fun _ => 1) (fun i j => (7 / 4 + 4 * PI) * delta i 0 * delta j 0) (fun _ => 0) exA 1.
Example C132_ex : conf_ok exK /\ ham_res exK = 0 /\ lapse_res exK exq = 0 /\ (forall i, (i < 3)%nat -> mom_res exK i = 0) /\
  (forall i j, (i < 3)%nat -> (j < 3)%nat -> (Dbeta exK exq i j + Dbeta exK exq j i) / 2 = alp exK * Kd exK i j) /\
  GenObsK.v_out_obs_komar_mass__v (envK exK exq (fun _ => 0)) = 1.
Proof.
  split; [apply ex_flat_ok; lra|]. split; [cbv -[Rplus Rminus Rmult Rdiv Ropp Rinv pow IZR PI]; field|].
  split; [cbv -[Rplus Rminus Rmult Rdiv Ropp Rinv pow IZR PI]; field|]. split; [|split].
  - intros i Hi. idx i; cbv -[Rplus Rminus Rmult Rdiv Ropp Rinv pow IZR PI]; field.
  - intros i j Hi Hj. idx i; idx j; cbv -[Rplus Rminus Rmult Rdiv Ropp Rinv pow IZR PI]; field.
  - cbv -[Rplus Rminus Rmult Rdiv Ropp Rinv pow IZR PI]. field.
Qed.

(** C133. Spin and centre: the Campanelli spin integrand is the cross product of the position with (K_ij - K gamma_ij/3) n^j, the approximate-Killing-vector spin
    integrand is (K_ij - K gamma_ij/3) phi^i n^j, which is K_ij phi^i n^j for a field phi tangent to the surface; the integrand of a star's centre is the divergence of
    the gradient of psi times the coordinate distance. *)
Theorem C133_spin_centre : forall (c : conf) (n : nat -> R), conf_ok c ->
  (forall xi old i, (i < 3)%nat -> GenObsSC.store_SPIN_integrand (GenObsSC.mk (cA c) (cg c) n (cpsi c) xi) old i
     = cross xi (fun k => sum3 (fun j => (Kd c k j - cK c / 3 * gam c k j) * n j)) i) /\
  (forall phi old d, (d < 3)%nat ->
     let spin := GenObsSA.store_SPIN_integrand (GenObsSA.mk (cA c) (phi 0%nat) (phi 1%nat) (phi 2%nat) (cg c) n (cpsi c)) old d in
     spin = sum3 (fun k => sum3 (fun j => (Kd c k j - cK c / 3 * gam c k j) * phi d k * n j)) /\
     (dot (gam c) (phi d) n = 0 -> spin = sum3 (fun k => sum3 (fun j => Kd c k j * phi d k * n j)))) /\
  (forall x xc : nat -> R, let E := GenObsRc.mk (cG c) (cddpsi c) (cdpsi c) (cig c) (x 0%nat) (xc 0%nat) (x 1%nat) (xc 1%nat) (x 2%nat) (xc 2%nat) in
     let lap := Lap (sy (cig c)) (syl (cG c)) (cdpsi c) (sy (cddpsi c)) in
     GenObsRc.out_Rc_integrandx E = lap * (x 0%nat - xc 0%nat) /\ GenObsRc.out_Rc_integrandy E = lap * (x 1%nat - xc 1%nat) /\
     GenObsRc.out_Rc_integrandz E = lap * (x 2%nat - xc 2%nat)).
Proof.
  intros c n OK. split; [exact (SC_formula c n OK)|]. split.
  - intros phi old d Hd. exact (conj (SA_formula c n OK phi old d Hd) (SA_killing c n OK phi old d Hd)).
  - intros x xc. cbv zeta. rewrite <- (div_grad c OK).
    exact (conj (Rc_formula c OK x xc 0%nat ltac:(lia)) (conj (Rc_formula c OK x xc 1%nat ltac:(lia)) (Rc_formula c OK x xc 2%nat ltac:(lia)))).
Qed.
Print Assumptions C133_spin_centre.
Example C133_ex : conf_ok ex2 /\ dot (gam ex2) (fun i => 5 * delta i 1) (fun i => delta i 0) = 0 /\
  GenObsSC.store_SPIN_integrand (GenObsSC.mk (cA ex2) (cg ex2) (fun i => delta i 0) (cpsi ex2) (fun i => 3 * delta i 1)) (fun _ => 0) 2%nat = - 3 / 4.
Proof. split; [apply ex_flat_ok; lra|]. cbv -[Rplus Rminus Rmult Rdiv Ropp Rinv pow IZR PI]. split; field. Qed.

(** C134. The Ossokine form of the momentum: the surface integrand is the physical flux of P^ij = psi^10 (K^ij - gamma^ij K), and where the vacuum momentum constraint
    holds the volume integrand -G^i is the coordinate (flat) divergence of P^ij times the attenuation factor; J of this form is the cross product of the position with A^ij n_j. *)
Theorem C134_ossokine : forall (c : conf) (n : nat -> R), conf_ok c ->
  let P i j := cpsi c ^ 10 * (Ku c i j - igam c i j * cK c) in
  (forall att old i, (i < 3)%nat -> GenObsPO.store_obs__P (envPO c n att) old i = dot (gam c) (P i) n) /\
  (forall att old i, (i < 3)%nat -> (forall k, (k < 3)%nat -> mom_vac c k = 0) ->
     GenObsPO.store_obs__G (envPO c n att) old i = - att * sum3 (fun j => dPos c i j j)) /\
  (forall xi old i, (i < 3)%nat -> GenObsJO.store_obs__Jn (GenObsJO.mk (cA c) (cg c) n (cpsi c) xi) old i
     = cross xi (fun k => dot (gam c) (sy (cA c) k) n) i).
Proof.
  intros c n OK. cbv zeta. split; [exact (PO_surf c n OK)|]. split; [|exact (JO_formula c n)].
  intros att old i Hi Hm. pose proof (PO_div c n OK old i Hi) as X. rewrite (Hm i Hi) in X. rewrite (PO_vol c n OK att old i Hi). rewrite (PO_vol c n OK 1 old i Hi) in X. rewrite X. ring.
Qed.
Print Assumptions C134_ossokine.
Example C134_ex : conf_ok ex2 /\ (forall k, (k < 3)%nat -> mom_vac ex2 k = 0) /\ GenObsPO.store_obs__P (envPO ex2 (fun i => delta i 0) 1) (fun _ => 0) 0%nat = 16 - 4096.
Proof. split; [apply ex_flat_ok; lra|]. split; [intros; apply ex_flat_vac; [lra|assumption]|]. cbv -[Rplus Rminus Rmult Rdiv Ropp Rinv pow IZR PI]. field. Qed.
(** But both parts are integrated with the physical metric, and there -G^i is not the divergence: surface and volume do not fit together. *)
Theorem C134_ossokine_refuted : ~ (forall c i, (i < 3)%nat -> conf_ok c -> (forall k, (k < 3)%nat -> mom_vac c k = 0) ->
  DivV (Gam c) (Pos c i) (dPos c i) = - GenObsPO.store_obs__G (envPO c (fun _ => 0) 1) (fun _ => 0) i).
Proof. intros H. destruct ossokine_refuted as (c & i & Hi & OK & Hm & N). exact (N (H c i Hi OK Hm)). Qed.
Print Assumptions C134_ossokine_refuted.

(** C135. The normals of the surface integrals have length one in the metric they are made for, and for a flat conformal metric they are orthogonal to every vector tangent to
    the surface c = const. *)
Theorem C135_normals :
  (forall g psi dc, 0 < norm2 (psi ^ 2 * psi ^ 2) g dc -> dot (fun i j => psi ^ 4 * sy g i j) (n_physical g psi dc) (n_physical g psi dc) = 1) /\
  (forall g dc, 0 < norm2 1 g dc -> dot (sy g) (n_conformal g dc) (n_conformal g dc) = 1) /\
  (forall psi dc t, sum3 (fun i => dc i * t i) = 0 -> dot (fun i j => psi ^ 4 * sy delta i j) (n_physical delta psi dc) t = 0) /\
  (forall dc t, sum3 (fun i => dc i * t i) = 0 -> dot (sy delta) (n_conformal delta dc) t = 0).
Proof. exact (conj n_physical_unit (conj n_conformal_unit (conj n_physical_ortho n_conformal_ortho))). Qed.
Print Assumptions C135_normals.
Example C135_ex : 0 < norm2 (2 ^ 2 * 2 ^ 2) delta (fun _ => 1) /\ n_physical delta 2 (fun i => 3 * delta i 0) 0%nat = 1 / 4.
Proof.
  split; [unfold norm2, delta; cbn; lra|]. unfold n_physical. replace (norm2 _ _ _) with (12 * 12) by (unfold norm2, delta; cbn; ring).
  rewrite sqrt_square by lra. unfold delta. cbn. field.
Qed.
(** For other metrics (Kerr-Schild free data) they are not normal to the surface: the index of dc is never raised. *)
Theorem C135_normals_refuted : ~ (forall (g : nat -> nat -> R) (dc t : nat -> R), (forall v, sum3 (fun i => v i ^ 2) <> 0 -> 0 < norm2 1 g v) ->
  sum3 (fun i => dc i * t i) = 0 -> dot (sy g) (n_conformal g dc) t = 0 /\ dot (fun i j => 1 ^ 4 * sy g i j) (n_physical g 1 dc) t = 0).
Proof. intros H. destruct n_not_normal as (g & dc & t & Pd & T & N & _). exact (N (proj1 (H g dc t Pd T))). Qed.
Print Assumptions C135_normals_refuted.
