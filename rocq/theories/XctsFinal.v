(** XctsFinal.v - expansion of a surface in the physical geometry, raising and trace of K, and the
    concrete data of the examples. *)
From Verif Require Import RealBase TensorSpec TensorProofs RicciProofs RicciFinal XctsSpec ShiftSpec XctsProofs ShiftProofs ShiftFinal XctsBc AdmSpec AdmConf AdmGen AdmFinal.
From Verif Require GenBcPsi GenKDD GenKUU GenKUU2 GenAdmG GenHamMom GenHamMom2.

(** Outgoing null expansion of the surface with physical unit normal S^i = s^i/psi^2: D_i S^i + K_ij S^i S^j - K in the
    geometry of psi^4 g *)
Definition Theta (g ig : nat -> nat -> R) (G : nat -> nat -> nat -> R) (A : nat -> nat -> R) (psi : R) (dpsi : nat -> R) (K : R)
    (s : nat -> R) (ds : nat -> nat -> R) : R :=
  let S := fun i => s i / psi ^ 2 in
  let dS := fun i a => ds i a / psi ^ 2 - 2 * s i * dpsi a / psi ^ 3 in
  sum3 (fun i => dS i i) + sum3 (fun i => sum3 (fun j => PG g ig G psi dpsi i i j * S j))
  + sum3 (fun i => sum3 (fun j => Kdn g psi A K i j * S i * S j)) - K.

Lemma horizon : forall (E : GenBcPsi.env) ig, GenBcPsi.psi E <> 0 -> inverse3 (sy (GenBcPsi.gConf E)) (sy ig) ->
  sum3 (fun i => sum3 (fun j => sy (GenBcPsi.gConf E) i j * GenBcPsi.bh_sConf E i * GenBcPsi.bh_sConf E j)) = 1 ->
  GenBcPsi.inner_out_schur_F E = GenBcPsi.psi E ^ 6 / 4 *
   Theta (sy (GenBcPsi.gConf E)) (sy ig) (syl (GenBcPsi.ChrisConf E)) (sy (GenBcPsi.AConfIJ E)) (GenBcPsi.psi E) (GenBcPsi.dpsi E) (GenBcPsi.trK E)
     (GenBcPsi.bh_sConf E) (GenBcPsi.dbh_sConf E).
Proof.
  intros E ig Hp Hi U. rewrite bc_psi_expansion by exact Hp. f_equal. unfold expansion, Theta.
  set (p := GenBcPsi.psi E) in *. set (g := sy (GenBcPsi.gConf E)) in *. set (G := syl (GenBcPsi.ChrisConf E)). set (A := sy (GenBcPsi.AConfIJ E)).
  set (K := GenBcPsi.trK E). set (s := GenBcPsi.bh_sConf E) in *. set (ds := GenBcPsi.dbh_sConf E). set (dp := GenBcPsi.dpsi E).
  assert (X : sum3 (fun i => sum3 (fun j => PG g (sy ig) G p dp i i j * (s j / p ^ 2)))
     = sum3 (fun i => sum3 (fun j => G i i j * (s j / p ^ 2))) + 6 * sum3 (fun j => dp j / p * (s j / p ^ 2))).
  { transitivity (sum3 (fun i => sum3 (fun j => G i i j * (s j / p ^ 2))) + sum3 (fun j => sum3 (fun c => Cp g (sy ig) p dp c c j) * (s j / p ^ 2))).
    - unfold PG, sum3. ring.
    - rewrite (sum3_ext (fun j => sum3 _ * _) (fun j => 6 * (dp j / p) * (s j / p ^ 2))); [unfold sum3; ring|].
      intros j Hj. rewrite (C_tr g (sy ig) p dp (sy_sym _) Hi j Hj). reflexivity. }
  rewrite X.
  assert (Y : sum3 (fun i => sum3 (fun j => Kdn g p A K i j * (s i / p ^ 2) * (s j / p ^ 2)))
    = sum3 (fun i => sum3 (fun j => A i j / p ^ 10 * lower (fun a b => p ^ 4 * g a b) (fun i => s i / p ^ 2) i * lower (fun a b => p ^ 4 * g a b) (fun i => s i / p ^ 2) j)) + K / 3 * 1).
  { rewrite <- U. unfold Kdn, lower.
    assert (Sg : forall a b, g a b = g b a) by apply sy_sym.
    unfold sum3. rewrite (Sg 1%nat 0%nat), (Sg 2%nat 0%nat), (Sg 2%nat 1%nat). field. exact Hp. }
  rewrite Y. ring.
Qed.

(** raising the stored K_ij gives the stored K^ij, and its trace is K *)
Lemma raise_K : forall (E : GenKDD.env) (E' : GenKUU.env) (E2 : GenKUU2.env) o o' o2,
  GenKDD.psi E <> 0 -> GenKUU.psi E' = GenKDD.psi E -> GenKUU2.psi E2 = GenKDD.psi E ->
  inverse3 (sy (GenKUU.igConf E')) (sy (GenKDD.gConf E)) -> inverse3 (sy (GenKDD.gConf E)) (sy (GenKUU.igConf E')) ->
  (forall i j, GenKUU2.igConf E2 i j = GenKUU.igConf E' i j) ->
  (forall i j, GenKUU.AConfIJ E' i j = GenKDD.AConfIJ E i j) -> GenKUU.trK E' = GenKDD.trK E ->
  (forall i j, GenKUU2.adm_Kij E2 i j = GenKDD.store_adm_Kij E o i j) ->
  (forall i j, (i < 3)%nat -> (j < 3)%nat -> sy (GenKUU2.store_adm_KIJ E2 o2) i j = sy (GenKUU.store_adm_KIJ E' o') i j) /\
  (sum3 (fun i => sum3 (fun j => sy (GenKDD.gConf E) i j * sy (GenKDD.AConfIJ E) i j)) = 0 ->
   sum3 (fun i => sum3 (fun j => Pg (sy (GenKDD.gConf E)) (GenKDD.psi E) i j * sy (GenKUU.store_adm_KIJ E' o') i j)) = GenKDD.trK E).
Proof.
  intros E E' E2 o o' o2 Hp P1 P2 I1 I2 Hig HA HK HKd.
  assert (SA : forall i j, sy (GenKUU.AConfIJ E') i j = sy (GenKDD.AConfIJ E) i j) by (intros; unfold sy; destruct (Nat.leb i j); apply HA).
  assert (Si : forall i j, sy (GenKUU2.igConf E2) i j = sy (GenKUU.igConf E') i j) by (intros; unfold sy; destruct (Nat.leb i j); apply Hig).
  assert (SK : forall i j, sy (GenKUU2.adm_Kij E2) i j = sy (GenKDD.store_adm_Kij E o) i j) by (intros; unfold sy; destruct (Nat.leb i j); apply HKd).
  assert (KU : forall i j, (i < 3)%nat -> (j < 3)%nat -> sy (GenKUU.store_adm_KIJ E' o') i j = sy (GenKDD.AConfIJ E) i j / GenKDD.psi E ^ 10 + sy (GenKUU.igConf E') i j * GenKDD.trK E / (3 * GenKDD.psi E ^ 4)).
  { intros i j Hi Hj. rewrite kuu_formula by (auto; rewrite P1; exact Hp). unfold Kup. rewrite SA, P1, HK. reflexivity. }
  set (p := GenKDD.psi E) in *. set (ig := sy (GenKUU.igConf E')) in *. set (g := sy (GenKDD.gConf E)) in *. set (A := sy (GenKDD.AConfIJ E)) in *.
  assert (Sg : forall a b, g a b = g b a) by apply sy_sym. assert (Sig : forall a b, ig a b = ig b a) by apply sy_sym.
  split.
  - intros i j Hi Hj. rewrite KU by assumption. rewrite kuu2_formula by (auto; rewrite P2; exact Hp). rewrite P2. unfold Pig.
    rewrite (sum3_ext _ (fun l => sum3 (fun m => ig i l / p ^ 4 * (ig j m / p ^ 4) * Kdn g p A (GenKDD.trK E) l m)))
      by (intros; apply sum3_ext; intros; rewrite !Si, SK, kdd_formula by auto; reflexivity).
    transitivity (sum3 (fun a => sum3 (fun b => sum3 (fun l => ig i l * g l a) * sum3 (fun m => ig j m * g m b) * A a b)) / p ^ 10
       + sum3 (fun m => sum3 (fun l => ig i l * g l m) * ig m j) * GenKDD.trK E / (3 * p ^ 4)).
    { unfold Kdn. unfold sum3. rewrite (Sig 0%nat j), (Sig 1%nat j), (Sig 2%nat j). field. exact Hp. }
    f_equal; f_equal.
    + rewrite (sum3_ext _ (fun a => sum3 (fun b => delta i a * delta j b * A a b))) by (intros; apply sum3_ext; intros; rewrite !I1 by assumption; reflexivity).
      unfold sum3, delta. idx i; idx j; cbn [Nat.eqb]; ring.
    + rewrite (sum3_ext _ (fun m => delta i m * ig m j)) by (intros; rewrite I1 by assumption; reflexivity).
      unfold sum3, delta. idx i; cbn [Nat.eqb]; ring.
  - intros T.
    rewrite (sum3_ext _ (fun i => sum3 (fun j => p ^ 4 * g i j * (A i j / p ^ 10 + ig i j * GenKDD.trK E / (3 * p ^ 4)))))
      by (intros; apply sum3_ext; intros; rewrite KU by assumption; reflexivity).
    transitivity (sum3 (fun i => sum3 (fun j => g i j * A i j)) / p ^ 6 + sum3 (fun i => sum3 (fun j => g i j * ig j i)) * GenKDD.trK E / 3).
    { unfold sum3. rewrite (Sig 1%nat 0%nat), (Sig 2%nat 0%nat), (Sig 2%nat 1%nat). field. exact Hp. }
    rewrite T. rewrite (sum3_ext _ (fun i => delta i i)) by (intros; apply I2; assumption).
    unfold sum3, delta; cbn [Nat.eqb]. field. exact Hp.
Qed.

(** solved equations: both ways of evaluating the constraints give zero *)
Lemma solved : forall c E old, conf_ok c -> physical_of c E ->
  (eq_psi c = 0 <-> GenHamMom2.out_ham E = 0) /\
  ((forall i, (i < 3)%nat -> eq_beta c i = 0) <-> (forall i, (i < 3)%nat -> GenHamMom2.store_mom E old i = 0)).
Proof.
  intros c E old OK PE.
  assert (Hp : cpsi c <> 0) by (destruct OK as (_ & _ & _ & _ & _ & H & _); exact H).
  assert (Ha : cap c <> 0) by (destruct OK as (_ & _ & _ & _ & _ & _ & H); exact H).
  assert (H5 : cpsi c ^ 5 <> 0) by (apply pow_nonzero, Hp). assert (H3 : cpsi c ^ 3 <> 0) by (apply pow_nonzero, Hp).
  split.
  - rewrite (scratch_ham c OK E PE). split; intros H.
    + rewrite H. ring.
    + apply (Rmult_eq_reg_l (-8 / cpsi c ^ 5)); [rewrite H; ring|].
      unfold Rdiv. apply Rmult_integral_contrapositive_currified; [lra|apply Rinv_neq_0_compat, H5].
  - split; intros H i Hi.
    + rewrite (scratch_mom c OK E PE old i Hi), (H i Hi). unfold Rdiv; ring.
    + specialize (H i Hi). rewrite (scratch_mom c OK E PE old i Hi) in H.
      apply (Rmult_eq_reg_r (/ (2 * cap c * cpsi c ^ 3))); [unfold Rdiv in H; rewrite H; ring|].
      apply Rinv_neq_0_compat. repeat apply Rmult_integral_contrapositive_currified; auto; lra.
Qed.

(** ** examples *)
(** conformal data over the non-flat metric of Props_Tensor *)
Definition ex_c : conf :=
  mkconf ex_g ex_ig ex_dg (dinverse (sy ex_ig) (syd ex_dg)) (Christoffel (sy ex_ig) (syd ex_dg)) (fun _ _ _ _ => 0)
    2 (fun i => if Nat.eqb i 0 then 1 else 3) (fun _ _ => 1) 5
    (fun i j => match i, j with 0%nat, 0%nat => 1 | 0%nat, 1%nat => -1 | _, _ => 0 end) (fun _ _ _ => 1) 3 (fun _ => 1) 1 1 1 (fun _ => 1).
Lemma dinverse_ok g ig dg : inverse3 g ig -> forall i j l, (i < 3)%nat -> (j < 3)%nat ->
  sum3 (fun m => dg i m l * ig m j + g i m * dinverse ig dg m j l) = 0.
Proof.
  intros H i j l Hi Hj. unfold dinverse.
  transitivity (sum3 (fun m => dg i m l * ig m j) - sum3 (fun a => sum3 (fun m => g i m * ig m a) * sum3 (fun b => dg a b l * ig b j))).
  - unfold sum3. ring.
  - rewrite (sum3_ext (fun a => sum3 _ * _) (fun a => delta i a * sum3 (fun b => dg a b l * ig b j))) by (intros; rewrite H by assumption; reflexivity).
    unfold sum3, delta. idx i; cbn [Nat.eqb]; ring.
Qed.
Lemma chris_sy ig dg k i j : (forall a b c, dg a b c = dg b a c) -> Christoffel ig dg k i j = Christoffel ig dg k j i.
Proof. intros H. unfold Christoffel, sum3. rewrite !(H i j). ring. Qed.
Lemma dinverse_sym ig dg i j k : (forall a b, ig a b = ig b a) -> (forall a b c, dg a b c = dg b a c) -> dinverse ig dg i j k = dinverse ig dg j i k.
Proof.
  intros H H'. unfold dinverse, sum3. rewrite (H i 0%nat), (H i 1%nat), (H i 2%nat), (H j 0%nat), (H j 1%nat), (H j 2%nat), (H' 1%nat 0%nat), (H' 2%nat 0%nat), (H' 2%nat 1%nat). ring.
Qed.
Lemma ex_c_ok : conf_ok ex_c /\ eq_psi ex_c <> 0.
Proof.
  destruct ex_inverse as [H H']. split.
  - unfold conf_ok. cbn [ex_c cg cig cdg cdig cG cpsi cap cA].
    split; [exact H|]. split; [exact H'|]. split; [|split; [|split]].
    + intros i j l Hi Hj Hl. rewrite <- (dinverse_ok (sy ex_g) (sy ex_ig) (syd ex_dg) H i j l Hi Hj).
      apply sum3_ext. intros m Hm. f_equal. f_equal. unfold syd at 1. destruct (Nat.leb m j); [reflexivity|].
      apply dinverse_sym; [apply sy_sym|apply syd_sym].
    + intros k i j _ _ _. unfold syl. destruct (Nat.leb i j); [reflexivity|]. apply chris_sy, syd_sym.
    + unfold sum3, sy, ex_g; cbn [Nat.leb]. ring.
    + split; lra.
  - unfold eq_psi. rewrite psi_formula by (cbn; lra). unfold ham.
    cbn [GenEqPsi.igConf GenEqPsi.ChrisConf GenEqPsi.dpsi GenEqPsi.ddpsi GenEqPsi.trRicciConf GenEqPsi.trK GenEqPsi.AConfIJ2 GenEqPsi.EConfC GenEqPsi.EConfP GenEqPsi.psi ex_c].
    unfold R_sc, A_sq. cbv -[Rplus Rminus Rmult Rdiv Ropp Rinv pow IZR PI not]. intros X.
    pose proof PI_RGT_0. pose proof PI_4. field_simplify in X. lra.
Qed.

(** the physical data exist for all conformal data *)
Definition phys_env (c : conf) : GenHamMom2.env :=
  let pig := Pig (sy (cig c)) (cpsi c) in
  GenHamMom2.mk (cEC c) (cEP c) (GenChris.store_Chris (GenChris.mk (dPg (sy (cg c)) (syd (cdg c)) (cpsi c) (cdpsi c)) pig) (fun _ _ _ => 0))
   (cJC c) (cJP c) (GenKUU.store_adm_KIJ (GenKUU.mk (cA c) (cig c) (cpsi c) (cK c)) (fun _ _ => 0))
   (GenAdmG.store_adm_g (GenAdmG.mk (cg c) (cpsi c)) (fun _ _ => 0)) pig
   (dPG (sy (cg c)) (sy (cig c)) (syd (cdg c)) (syd (cdig c)) (syld (cdG c)) (cpsi c) (cdpsi c) (sy (cddpsi c)))
   (dKup (sy (cig c)) (syd (cdig c)) (cpsi c) (cdpsi c) (sy (cA c)) (syd (cdA c)) (cK c) (cdK c)) (cdK c) (cpsi c) (cK c).
Lemma physical_exists : forall c, conf_ok c -> physical_of c (phys_env c).
Proof.
  intros c OK. exists (fun _ _ => 0), (fun _ _ => 0), (fun _ _ _ => 0).
  destruct (Pg_inverse c OK) as [P1 P2].
  assert (Q : forall i j, sy (Pig (sy (cig c)) (cpsi c)) i j = Pig (sy (cig c)) (cpsi c) i j).
  { intros i j. unfold sy at 1. destruct (Nat.leb i j); [reflexivity|]. unfold Pig. rewrite (sy_sym _ i j). reflexivity. }
  repeat split; try reflexivity.
  - intros i j Hi Hj. cbn [phys_env GenHamMom2.adm_g GenHamMom2.adm_ig]. rewrite <- (P1 i j Hi Hj). apply sum3_ext. intros m Hm. rewrite admg_formula, Q by assumption. reflexivity.
  - intros i j Hi Hj. cbn [phys_env GenHamMom2.adm_g GenHamMom2.adm_ig]. rewrite <- (P2 i j Hi Hj). apply sum3_ext. intros m Hm. rewrite admg_formula, Q by assumption. reflexivity.
Qed.

Lemma shift_residuals : forall d o1 o2 V dV ddV, one_metric d -> (forall i a b, ddV i a b = ddV i b a) ->
    let op := shift_op (sy (ig_ d)) (syl (G_ d)) (syld (dG_ d)) (sy (Ric_ d)) (dln (psi_ d) (ap_ d) (dpsi_ d) (dap_ d)) V dV ddV in
    let src := fun i => 4 / 3 * ap_ d * JC_ d * sum3 (fun j => sy (ig_ d) i j * dK_ d j) / psi_ d + 16 * PI * ap_ d * JP_ d i / psi_ d ^ 3 in
    shift_res0 d o1 o2 V dV ddV = JC_ d * op 0%nat - src 0%nat /\
    shift_res1 d o1 o2 V dV ddV = JC_ d * op 1%nat - src 1%nat /\
    shift_res2 d o1 o2 V dV ddV = JC_ d * op 2%nat - src 2%nat.
Proof. intros d o1 o2 V dV ddV H S. destruct (shift_res d o1 o2 V dV ddV H S) as (-> & -> & ->). cbv zeta. repeat split; ring. Qed.

Lemma bc_values :
  (forall E, GenBcPsi.outer_out_schur_F E = 0 <-> GenBcPsi.psi E = 1) /\
  (forall E, GenBcAlphaPsi.outer_out_schur_F E = 0 <-> GenBcAlphaPsi.alphaPsi E = 1) /\
  (forall E, GenBcAlphaPsi.psi E <> 0 -> (GenBcAlphaPsi.inner_out_schur_F E = 0 <-> GenBcAlphaPsi.alphaPsi E / GenBcAlphaPsi.psi E = GenBcAlphaPsi.ibc_alpha E)) /\
  (forall E, GenBc2AlphaPsi.outer_out_schur_F E = 0 <-> GenBc2AlphaPsi.alphaPsi E = 1) /\
  (forall E, GenBc2AlphaPsi.inner_out_schur_F E = sum3 (fun i => GenBc2AlphaPsi.bh_sConf E i * GenBc2AlphaPsi.dalphaPsi E i)) /\
  (forall E, (GenBcB0.outer_out_schur_F E = 0 <-> GenBcB0.B0 E 0%nat = GenBcB0.v0_boost E) /\
             (GenBcB0.inner_out_schur_F E = 0 <-> GenBcB0.B0 E 0%nat + GenBcB0.B1 E 0%nat = GenBcB0.ibc_beta E 0%nat)) /\
  (forall E, (GenBcB1.outer_out_schur_F E = 0 <-> GenBcB1.B0 E 1%nat = GenBcB1.v1_boost E) /\
             (GenBcB1.inner_out_schur_F E = 0 <-> GenBcB1.B0 E 1%nat + GenBcB1.B1 E 1%nat = GenBcB1.ibc_beta E 1%nat)) /\
  (forall E, (GenBcB2.outer_out_schur_F E = 0 <-> GenBcB2.B0 E 2%nat = GenBcB2.v2_boost E) /\
             (GenBcB2.inner_out_schur_F E = 0 <-> GenBcB2.B0 E 2%nat + GenBcB2.B1 E 2%nat = GenBcB2.ibc_beta E 2%nat)).
Proof.
  split; [intros [? ? ? ? ? ? p ?]; cbv -[Rplus Rminus Rmult Rdiv Ropp Rinv IZR]; split; lra|].
  split; [intros [a b p]; cbv -[Rplus Rminus Rmult Rdiv Ropp Rinv IZR]; split; lra|].
  split.
  { intros [a b p]; cbv -[Rplus Rminus Rmult Rdiv Ropp Rinv IZR not]. intros H. split; intros X.
    - replace a with (b * p) by lra. field. assumption.
    - subst b. field. assumption. }
  split; [intros [a b p]; cbv -[Rplus Rminus Rmult Rdiv Ropp Rinv IZR]; split; lra|].
  split; [intros [a b p]; cbv -[Rplus Rminus Rmult Rdiv Ropp Rinv IZR]; reflexivity|].
  split; [|split]; intros [a b c d]; cbv -[Rplus Rminus Rmult Rdiv Ropp Rinv IZR]; split; split; lra.
Qed.

Lemma bc_jacobians : forall n (D1 : nat -> nat -> nat -> R) (K psi ibca v0 : nodal) A g G s ibcb B1 ds u,
  let yes := fun _ : nat => True in
  (let res u i := GenBcPsi.mk (A i) (G i) (s i) (ds i) (fun a => lin n (D1 a) u i) (g i) (u i) (K i) in
   let jac i l := GenJacBcPsi.mk (G i) (fun a => D1 a i l) (s i) (ds i) (fun a => lin n (D1 a) u i) (krd i l) (u i) (K i) in
   jacobian n (fun u i => GenBcPsi.outer_out_schur_F (res u i)) u yes (fun i l => GenJacBcPsi.outer_B_out_schur_B (jac i l)) /\
   jacobian n (fun u i => GenBcPsi.inner_out_schur_F (res u i)) u (fun i => u i <> 0) (fun i l => GenJacBcPsi.inner_B_out_schur_B (jac i l)) /\
   (forall i l, GenJacBcPsi.inner_E_out_schur_Et (jac i l) = GenJacBcPsi.inner_B_out_schur_B (jac i l)) /\
   (forall i l, i <> l -> GenJacBcPsi.outer_E_out_schur_Et (jac i l) = GenJacBcPsi.outer_B_out_schur_B (jac i l))) /\
  (let res u i := GenBcAlphaPsi.mk (u i) (ibca i) (psi i) in
   let jac i l := GenJacBcAlphaPsi.mk (krd i l) in
   jacobian n (fun u i => GenBcAlphaPsi.outer_out_schur_F (res u i)) u yes (fun i l => GenJacBcAlphaPsi.outer_B_out_schur_B (jac i l)) /\
   jacobian n (fun u i => GenBcAlphaPsi.inner_out_schur_F (res u i)) u yes (fun i l => GenJacBcAlphaPsi.inner_B_out_schur_B (jac i l))) /\
  (let res u i := GenBc2AlphaPsi.mk (u i) (s i) (fun a => lin n (D1 a) u i) in
   let jac i l := GenJacBc2AlphaPsi.mk (fun a => D1 a i l) (s i) (krd i l) in
   jacobian n (fun u i => GenBc2AlphaPsi.outer_out_schur_F (res u i)) u yes (fun i l => GenJacBc2AlphaPsi.outer_B_out_schur_B (jac i l)) /\
   jacobian n (fun u i => GenBc2AlphaPsi.inner_out_schur_F (res u i)) u yes (fun i l => GenJacBc2AlphaPsi.inner_B_out_schur_B (jac i l))) /\
  (let res u i := GenBcB0.mk (fun _ => u i) (B1 i) (ibcb i) (v0 i) in
   jacobian n (fun u i => GenBcB0.outer_out_schur_F (res u i)) u yes (fun i l => GenJacBcB0.outer_B_out_schur_B (GenJacBcB0.mk (krd i l))) /\
   jacobian n (fun u i => GenBcB0.inner_out_schur_F (res u i)) u yes (fun i l => GenJacBcB0.inner_B_out_schur_B (GenJacBcB0.mk (krd i l)))) /\
  (let res u i := GenBcB1.mk (fun _ => u i) (B1 i) (ibcb i) (v0 i) in
   jacobian n (fun u i => GenBcB1.outer_out_schur_F (res u i)) u yes (fun i l => GenJacBcB1.outer_B_out_schur_B (GenJacBcB1.mk (krd i l))) /\
   jacobian n (fun u i => GenBcB1.inner_out_schur_F (res u i)) u yes (fun i l => GenJacBcB1.inner_B_out_schur_B (GenJacBcB1.mk (krd i l)))) /\
  (let res u i := GenBcB2.mk (fun _ => u i) (B1 i) (ibcb i) (v0 i) in
   jacobian n (fun u i => GenBcB2.outer_out_schur_F (res u i)) u yes (fun i l => GenJacBcB2.outer_B_out_schur_B (GenJacBcB2.mk (krd i l))) /\
   jacobian n (fun u i => GenBcB2.inner_out_schur_F (res u i)) u yes (fun i l => GenJacBcB2.inner_B_out_schur_B (GenJacBcB2.mk (krd i l)))).
Proof.
  intros n D1 K psi ibca v0 A g G s ibcb B1 ds u. cbv zeta. repeat apply conj; intros.
  - apply (bc_psi_outer n D1 K A g G s ds u).
  - apply (bc_psi_inner n D1 K A g G s ds u).
  - apply (bc_psi_E n D1 K G s ds u i l).
  - apply (bc_psi_E n D1 K G s ds u i l). assumption.
  - apply bc_ap_outer.
  - apply bc_ap_inner.
  - apply bc2_ap_outer.
  - apply bc2_ap_inner.
  - apply bc_b0_outer.
  - apply bc_b0_inner.
  - apply bc_b1_outer.
  - apply bc_b1_inner.
  - apply bc_b2_outer.
  - apply bc_b2_inner.
Qed.

(** node data of a curved metric: g = delta at the node with the connection derivatives of Props_Tensor's example *)
Definition ex_d : data :=
  mkdata delta delta (fun _ _ _ => 0) (fun _ _ _ => 0) (fun k i j l => if Nat.leb i j then GenRicci.dChris ex_E k i j l else 0)
    (fun a b => RicciOf (fun _ _ _ => 0) (syld (GenRicci.dChris ex_E)) b a) 2 3 (fun _ => 1) (fun _ => 1) (fun _ => 1) 1 (fun _ => 1).
Lemma ex_d_ok : one_metric ex_d /\ shift_jac0 ex_d (fun _ => 1) (fun _ => 1) 1 <> 0.
Proof.
  split.
  - unfold one_metric. cbn [ex_d g_ ig_ dig_ G_ dG_ Ric_ psi_ ap_]. repeat split; try lra.
    + intros i j Hi Hj. idx i; idx j; cbv -[Rplus Rminus Rmult Ropp Rinv IZR]; ring.
    + intros i j k Hi Hj Hk. idx i; idx j; idx k; cbv -[Rplus Rminus Rmult Ropp Rinv IZR]; ring.
    + intros a b Ha Hb. idx a; idx b; cbv -[Rplus Rminus Rmult Ropp Rinv IZR]; ring.
  - unfold shift_jac0. rewrite jac_b0_formula. cbv -[Rplus Rminus Rmult Rdiv Ropp Rinv IZR not]. lra.
Qed.
