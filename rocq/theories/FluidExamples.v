(** FluidExamples.v - packaging and concrete cases for Props_Fluid.v. *)
From Verif Require Import RealBase TensorSpec RicciFinal XctsSpec XctsProofs PhiSpec FluidSpec FluidModel FluidProofs FluidFinal.
From Verif Require GenTijE GenTijJ GenTijS GenU0 GenEnthalpy GenMass GenEulerC GenGamma GenGtilda.

Lemma euler_all : forall psi ap dphi W beta gC igC, inverse3 (sy gC) (sy igC) -> semipos (sy gC) -> 0 < psi -> 0 < ap ->
    let al := ap / psi in
    let Bd := sum3 (fun i => beta i * dphi i) in
    let P i := dphi i + psi ^ 4 * sum3 (fun j => sy gC i j * W j) in
    let ent C := GenEnthalpy.mk C W ap beta dphi gC igC psi in
    let u0 h := GenU0.out_u0 (GenU0.mk W ap dphi h gC igC psi) in
    let euler h := GenEulerC.Euler_C (GenEulerC.mk W beta dphi h igC psi (u0 h)) in
    let mass rho_of C := mass_integrand rho_of (GenMass.mk C W ap beta dphi gC igC psi) in
    (forall C, 0 <= disc_ent (ent C) -> 0 < GenEnthalpy.h2 (ent C) -> 0 < enthalpy_new (ent C) /\ (C <= Bd -> euler (enthalpy_new (ent C)) = C)) /\
    (forall h, 0 < h -> Rabs (sum3 (fun i => W i * P i)) <= (al * h * u0 h) ^ 2 -> enthalpy_new (ent (euler h)) = h) /\
    (forall C, disc_ent (ent C) < 0 \/ GenEnthalpy.h2 (ent C) < 0 -> enthalpy_new (ent C) = 1) /\
    (forall C rho_of, 0 <= disc_ent (ent C) -> 0 < GenEnthalpy.h2 (ent C) -> 1 + ROUND_OFF_ERR <= enthalpy_new (ent C) ->
       mass rho_of C = rho_of (enthalpy_new (ent C)) * u0 (enthalpy_new (ent C)) * al * psi ^ 6) /\
    (forall C rho_of, disc_ent (ent C) < 0 \/ GenEnthalpy.h2 (ent C) < 0 \/ enthalpy_new (ent C) < 1 + ROUND_OFF_ERR /\ enthalpy_new (ent C) <> 1 - ROUND_OFF_ERR ->
       mass rho_of C = 0).
Proof.
  intros psi ap dphi W beta gC igC Inv Pos Hp Ha al Bd P ent u0 euler mass.
  split; [|split; [|split; [|split]]].
  - intros C H1 H2. destruct (euler_roundtrip psi ap dphi W beta gC igC Inv Pos Hp Ha C H1 H2) as [A B]. split; [exact A|].
    intros HC. unfold Bd in HC. unfold euler, u0, ent. unfold Euler_of, u0_of, env_ent in B. rewrite B. unfold FluidFinal.Bd. rewrite Rabs_pos_eq by lra. ring.
  - intros h Hh H. apply (euler_fixed psi ap dphi W beta gC igC Inv Pos Hp Ha h Hh).
    pose proof (P2_nonneg psi dphi W gC igC Inv Pos Hp) as Q.
    pose proof (u0_of_val psi ap dphi W gC igC h) as U. unfold u0_of in U. unfold u0 in H. rewrite U in H.
    assert (Hal : 0 < al) by (apply Rdiv_lt_0_compat; assumption).
    replace (al * h * (sqrt (P2q (sy gC) (sy igC) psi dphi W + h ^ 2) / (ap / psi * h))) with (sqrt (P2q (sy gC) (sy igC) psi dphi W + h ^ 2)) in H
      by (unfold al; field; repeat split; lra).
    rewrite pow2_sqrt in H by nra. replace (sum3 (fun i => W i * P i)) with (uWq psi dphi W gC) in H by (unfold uWq, P, sum3; ring). lra.
  - intros C H. apply (enthalpy_fallback psi ap dphi W beta gC igC Hp Ha C H).
  - intros C r H1 H2 H3. apply (mass_formula psi ap dphi W beta gC igC Hp Ha C r H1 H3 H2).
  - intros C r H. apply (mass_vacuum psi ap dphi W beta gC igC Hp Ha C r). unfold ent, env_ent in *. destruct H as [H|[H|H]]; [tauto|tauto|]. right. right.
    destruct (Rlt_dec (enthalpy_new (GenEnthalpy.mk C W ap beta dphi gC igC psi)) (1 - ROUND_OFF_ERR)); [tauto|]. right. lra.
Qed.

Lemma delta_inv : inverse3 (sy delta) (sy delta).
Proof. intros i j Hi Hj. idx i; idx j; cb; lra. Qed.
Lemma delta_pos : semipos (sy delta).
Proof. intros v. cb. pose proof (pow2_ge_0 (v 0%nat)); pose proof (pow2_ge_0 (v 1%nat)); pose proof (pow2_ge_0 (v 2%nat)). nra. Qed.
Lemma sqrt_val x y : 0 <= y -> x = y ^ 2 -> sqrt x = y.
Proof. intros H ->. apply sqrt_pow2, H. Qed.

Lemma ex_sources : inverse3 (sy delta) (sy delta) /\ semipos (sy delta) /\
  GenU0.out_u0 (GenU0.mk (fun _ => 0) 1 (fun i => 3 * delta i 0) 4 delta delta 1) = 5 / 4 /\
  GenTijE.out_EConf (GenTijE.mk 1 2 4 1 1 1 (5 / 4)) = 4 * 25 / 16 - 1 /\
  GenTijJ.store_JConf (GenTijJ.mk (fun _ => 0) 1 (fun i => 3 * delta i 0) 2 4 delta 1 1 1 (5 / 4)) (fun _ => 0) 0%nat = 15 / 4 /\
  GenTijS.out_SConf (GenTijS.mk (fun _ => 0) (fun i => 3 * delta i 0) 2 4 delta delta 1 1 1) = 9 / 4 + 3 /\
  1 = 1 * (4 - 1 - 2).
Proof.
  split; [exact delta_inv|]. split; [exact delta_pos|]. repeat split; try (cb; field).
  cb. match goal with |- context [sqrt ?x] => rewrite (sqrt_val x 5) end; [field|lra|field].
Qed.
Lemma ex_euler : let dphi i := 3 * delta i 0 in let Z (_ : nat) := 0 in let E C := GenEnthalpy.mk C Z 1 Z dphi delta delta 1 in
  0 <= disc_ent (E (- 5)) /\ 0 < GenEnthalpy.h2 (E (- 5)) /\ - 5 <= sum3 (fun i => Z i * dphi i) /\ enthalpy_new (E (- 5)) = 4 /\
  GenEnthalpy.h2 (E (- 1)) < 0 /\ Rabs (sum3 (fun i => Z i * (dphi i + 1 ^ 4 * sum3 (fun j => sy delta i j * Z j)))) <= (1 / 1 * 4 * (5 / 4)) ^ 2.
Proof.
  intros dphi Z E.
  assert (A : 0 <= disc_ent (E (- 5))) by (replace (disc_ent _) with 625 by (cb; field); lra).
  assert (B : GenEnthalpy.h2 (E (- 5)) = 16) by (cb; match goal with |- context [sqrt ?x] => rewrite (sqrt_val x 25) end; [field|lra|field]).
  assert (B' : GenEnthalpy.h2 (E (- 1)) = - 8) by (cb; match goal with |- context [sqrt ?x] => rewrite (sqrt_val x 1) end; [field|lra|field]).
  split; [exact A|]. split; [lra|]. split; [unfold sum3, Z; lra|]. split; [|split; [lra|]].
  - unfold enthalpy_new. replace (finite_ent (E (-5))) with true; [change (GenEnthalpy.h ?e) with (sqrt (GenEnthalpy.h2 e)); rewrite B; apply sqrt_val; lra|].
    symmetry. apply (finite_ent_iff 1 1 dphi Z Z delta delta); [lra|lra|]. unfold env_ent. fold (E (-5)). rewrite B. split; [exact A|lra].
  - replace (sum3 _) with 0 by (cb; ring). rewrite Rabs_R0. lra.
Qed.
Lemma euler_not : exists psi ap dphi W beta gC igC C,
  inverse3 (sy gC) (sy igC) /\ semipos (sy gC) /\ 0 < psi /\ 0 < ap /\
  let h := enthalpy_new (GenEnthalpy.mk C W ap beta dphi gC igC psi) in
  0 <= disc_ent (GenEnthalpy.mk C W ap beta dphi gC igC psi) /\ 0 < GenEnthalpy.h2 (GenEnthalpy.mk C W ap beta dphi gC igC psi) /\
  GenEulerC.Euler_C (GenEulerC.mk W beta dphi h igC psi (GenU0.out_u0 (GenU0.mk W ap dphi h gC igC psi))) <> C.
Proof.
  set (Z := fun _ : nat => 0). exists 1, 1, Z, Z, Z, delta, delta, 2.
  assert (A : 0 <= disc_ent (env_ent 1 1 Z Z Z delta delta 2)) by (replace (disc_ent _) with 16 by (cb; field); lra).
  assert (B : GenEnthalpy.h2 (env_ent 1 1 Z Z Z delta delta 2) = 4) by (cb; match goal with |- context [sqrt ?x] => rewrite (sqrt_val x 4) end; [field|lra|field]).
  split; [exact delta_inv|]. split; [exact delta_pos|]. split; [lra|]. split; [lra|]. split; [exact A|]. split; [unfold env_ent in B; lra|].
  destruct (euler_roundtrip 1 1 Z Z Z delta delta delta_inv delta_pos Rlt_0_1 Rlt_0_1 2 A) as [_ D]; [lra|].
  unfold Euler_of, u0_of, env_ent in D. rewrite D. unfold Bd, sum3, Z. rewrite Rabs_left by lra. lra.
Qed.

Lemma force_balance' : forall (psi ap h : R -> R) (dphi W beta B0 x : R -> nat -> R) (gC igC : R -> nat -> nat -> R) Om Vr D CM C d dh dgt dG,
  let u0 t := GenU0.out_u0 (GenU0.mk (W t) (ap t) (dphi t) (h t) (gC t) (igC t) (psi t)) in
  let t4 t i := W t i / (h t * u0 t) + beta t i in
  0 < d -> C <> 0 ->
  (forall t, Rabs t < d ->
     inverse3 (sy (gC t)) (sy (igC t)) /\ semipos (sy (gC t)) /\ 0 < psi t /\ 0 < ap t /\ 0 < h t /\
     (forall i, (i < 3)%nat -> beta t i = B0 t i + B1_inspiral Om Vr D CM (x t) i) /\ Vr * (x t 2%nat - CM 2%nat) = 0 /\
     0 < (ap t / psi t) ^ 2 - psi t ^ 4 * sum3 (fun i => sum3 (fun j => sy (gC t) i j * t4 t i * t4 t j)) /\
     GenEulerC.Euler_C (GenEulerC.mk (W t) (beta t) (dphi t) (h t) (igC t) (psi t) (u0 t)) = C) ->
  let gt t := GenGtilda.Gtilda (GenGtilda.mk (B0 t) D Om Vr (W t) (ap t) (h t) (gC t) (psi t) (u0 t) (x t 0%nat) (CM 0%nat) (x t 1%nat) (CM 1%nat)) in
  let G t := GenGamma.G (GenGamma.mk (W t) (ap t) (beta t) (dphi t) (h t) (gC t) (psi t) (u0 t)) in
  derivable_pt_lim h 0 dh -> derivable_pt_lim gt 0 dgt -> derivable_pt_lim G 0 dG ->
  force_residual dgt (gt 0) (dLnGamma dG (G 0)) = - 2 * (dh / h 0) /\
  (force_residual dgt (gt 0) (dLnGamma dG (G 0)) = 0 <-> dh = 0).
Proof.
  intros psi ap h dphi W beta B0 x gC igC Om Vr D CM C d dh dgt dG u0 t4 Hd HC H gt G D1 D2 D3.
  assert (E : force_residual dgt (gt 0) (dLnGamma dG (G 0)) = - 2 * (dh / h 0)).
  { apply (force_balance psi ap h dphi W beta B0 x gC igC Om Vr D CM C d dh dgt dG Hd HC H D1 D2 D3). }
  split; [exact E|]. rewrite E. destruct (H 0) as (_ & _ & _ & _ & Hh & _); [rewrite Rabs_R0; exact Hd|].
  split; intros X.
  - apply Rmult_integral in X. destruct X as [X|X]; [lra|]. apply Rmult_integral in X. destruct X as [X|X]; [exact X|]. apply Rinv_neq_0_compat in X; [destruct X|lra].
  - rewrite X. unfold Rdiv. ring.
Qed.

Lemma ex_spin : W_spin (fun i => 2 * delta i 2) (fun _ => 1) (fun i => INR i) 0%nat = 0 /\ W_spin (fun i => 2 * delta i 2) (fun _ => 1) (fun i => INR i) 1%nat = - 2 /\
  B1_inspiral 2 (1/2) 4 (fun _ => 0) (fun i => INR i) 0%nat = - 2 /\ relax_update (1/4) (Some 4) 8 = 5 /\ force_update (1/2) 4 8 = 4 + 4 / 20.
Proof.
  split; [cbn; ring|]. split; [cbn; ring|]. split; [cbn; field|]. split; [cbn; field|].
  unfold force_update. replace (1 - 8 / 4) with (-1) by field. rewrite Rabs_left by lra. destruct (Rlt_dec _ _) as [|N]; [field|lra].
Qed.

Lemma derivable_pt_lim_local f g x0 d l : 0 < d -> (forall t, Rabs (t - x0) < d -> f t = g t) -> derivable_pt_lim f x0 l -> derivable_pt_lim g x0 l.
Proof.
  intros Hd H D e He. destruct (D e He) as [k K]. assert (Hm : 0 < Rmin k d) by (apply Rmin_glb_lt; [apply cond_pos|exact Hd]).
  exists (mkposreal _ Hm). intros y Hy Hy'. cbn in Hy'.
  rewrite <- (H (x0 + y)), <- (H x0); [apply K; [exact Hy|]| |].
  - eapply Rlt_le_trans; [exact Hy'|apply Rmin_l].
  - rewrite Rminus_eq_0, Rabs_R0. exact Hd.
  - replace (x0 + y - x0) with y by ring. eapply Rlt_le_trans; [exact Hy'|apply Rmin_r].
Qed.
Lemma ex_force : exists (psi ap h : R -> R) (dphi W beta B0 x : R -> nat -> R) (gC igC : R -> nat -> nat -> R) Om Vr D CM C d dh dgt dG,
  let u0 t := GenU0.out_u0 (GenU0.mk (W t) (ap t) (dphi t) (h t) (gC t) (igC t) (psi t)) in
  let t4 t i := W t i / (h t * u0 t) + beta t i in
  0 < d /\ C <> 0 /\
  (forall t, Rabs t < d ->
     inverse3 (sy (gC t)) (sy (igC t)) /\ semipos (sy (gC t)) /\ 0 < psi t /\ 0 < ap t /\ 0 < h t /\
     (forall i, (i < 3)%nat -> beta t i = B0 t i + B1_inspiral Om Vr D CM (x t) i) /\ Vr * (x t 2%nat - CM 2%nat) = 0 /\
     0 < (ap t / psi t) ^ 2 - psi t ^ 4 * sum3 (fun i => sum3 (fun j => sy (gC t) i j * t4 t i * t4 t j)) /\
     GenEulerC.Euler_C (GenEulerC.mk (W t) (beta t) (dphi t) (h t) (igC t) (psi t) (u0 t)) = C) /\
  let gt t := GenGtilda.Gtilda (GenGtilda.mk (B0 t) D Om Vr (W t) (ap t) (h t) (gC t) (psi t) (u0 t) (x t 0%nat) (CM 0%nat) (x t 1%nat) (CM 1%nat)) in
  let G t := GenGamma.G (GenGamma.mk (W t) (ap t) (beta t) (dphi t) (h t) (gC t) (psi t) (u0 t)) in
  derivable_pt_lim h 0 dh /\ derivable_pt_lim gt 0 dgt /\ derivable_pt_lim G 0 dG /\ Om <> 0.
Proof.
  set (Z := fun _ : nat => 0).
  set (beta := fun (t : R) (i : nat) => 0 + B1_inspiral (1/2) 0 1 Z (fun k => t * delta k 0) i).
  exists (fun _ => 1), (fun t => 1 + t / 2), (fun t => / (1 + t / 2)), (fun _ => Z), (fun _ => Z), beta, (fun _ => Z), (fun t k => t * delta k 0),
    (fun _ => delta), (fun _ => delta), (1/2), 0, 1, Z, (-1), (1/2), (- (1/2)), 1, 0. intros u0 t4.
  assert (Q : forall t, Rabs t < 1/2 -> 3/4 < 1 + t / 2 /\ 1/2 < 1 + t).
  { intros t Ht. apply Rabs_def2 in Ht. lra. }
  assert (Pt : forall t, (1 + t / 2) ^ 2 - 1 ^ 4 * sum3 (fun i => sum3 (fun j => sy delta i j * beta t i * beta t j)) = 1 + t).
  { intros t. unfold beta, Z. cb. field. }
  assert (T4 : forall t i, t4 t i = beta t i) by (intros t i; unfold t4, Z, Rdiv; ring).
  assert (Eu : forall t, Rabs t < 1/2 -> GenEulerC.Euler_C (GenEulerC.mk Z (beta t) Z (/ (1 + t / 2)) delta 1 (u0 t)) = -1).
  { intros t Ht. destruct (Q t Ht) as [Q1 Q2]. assert (Hi : 0 < / (1 + t / 2)) by (apply Rinv_0_lt_compat; lra).
    pose proof (Euler_of_val 1 (1 + t / 2) Z Z (beta t) delta delta delta_inv delta_pos Rlt_0_1 ltac:(lra) (/ (1 + t / 2)) Hi) as E.
    unfold Euler_of, u0_of in E. unfold u0. rewrite E.
    replace (P2q (sy delta) (sy delta) 1 Z Z) with 0 by (unfold P2q, Z; cb; field).
    replace (uWq 1 Z Z delta) with 0 by (unfold uWq, Z; cb; ring). replace (Bd Z (beta t)) with 0 by (unfold Bd, Z, sum3; ring).
    rewrite Rplus_0_l, sqrt_pow2 by lra. field. lra. }
  assert (TQ : forall t, ((1 + t / 2) / 1) ^ 2 - t2q 1 (1 + t / 2) Z Z (beta t) delta delta (/ (1 + t / 2)) = 1 + t).
  { intros t. etransitivity; [|apply Pt]. unfold t2q. replace (((1 + t / 2) / 1) ^ 2) with ((1 + t / 2) ^ 2) by field. f_equal. f_equal. cbv zeta.
    unfold sum3, Z, Rdiv. rewrite !Rmult_0_l, !Rplus_0_l. reflexivity. }
  assert (GT : forall t, GenGtilda.Gtilda (GenGtilda.mk Z 1 (1/2) 0 Z (1 + t / 2) (/ (1 + t / 2)) delta 1 (u0 t) (t * delta 0 0) (Z 0%nat) (t * delta 1 0) (Z 1%nat)) = 1 + t).
  { intros t. pose proof (gtilda_formula 1 (1 + t / 2) Z Z (beta t) delta delta (/ (1 + t / 2)) Z (1/2) 0 1 Z (fun k => t * delta k 0) ltac:(reflexivity) ltac:(ring)) as E.
    unfold env_gt, u0_of in E. unfold u0. rewrite E. apply TQ. }
  split; [lra|]. split; [lra|]. split; [|split; [|split; [|split]]].
  - intros t Ht. destruct (Q t Ht) as [Q1 Q2]. split; [exact delta_inv|]. split; [exact delta_pos|]. split; [lra|]. split; [lra|].
    split; [apply Rinv_0_lt_compat; lra|]. split; [reflexivity|]. split; [ring|]. split; [|apply Eu, Ht].
    replace (sum3 (fun i => sum3 (fun j => sy delta i j * t4 t i * t4 t j))) with (sum3 (fun i => sum3 (fun j => sy delta i j * beta t i * beta t j))) by (unfold sum3; rewrite !T4; reflexivity).
    replace ((1 + t / 2) / 1) with (1 + t / 2) by field. rewrite Pt. lra.
  - assert (A : derivable_pt_lim (fun t => 1 + t / 2) 0 (1/2)) by (apply affine_d; intros t; field).
    pose proof (derivable_pt_lim_div (fun _ => 1) (fun t => 1 + t / 2) 0 0 (1/2) (derivable_pt_lim_const 1 0) A ltac:(lra)) as B. unfold div_fct in B.
    apply (derivable_pt_lim_ext (fun t => 1 / (1 + t / 2))); [intros t; unfold Rdiv; ring|].
    match type of B with derivable_pt_lim _ _ ?v => replace (- (1/2)) with v end; [exact B|]. unfold Rsqr. field.
  - apply (derivable_pt_lim_ext (fun t => 1 + t)); [intros t; symmetry; apply GT|]. apply affine_d. intros t. ring.
  - apply (derivable_pt_lim_local (fun t => (1 + t / 2) / sqrt (1 + t)) _ 0 (1/2)); [lra| |].
    + intros t Ht. rewrite Rminus_0_r in Ht. destruct (Q t Ht) as [Q1 Q2]. symmetry.
      assert (Hi : 0 < / (1 + t / 2)) by (apply Rinv_0_lt_compat; lra).
      pose proof (gamma_identity 1 (1 + t / 2) Z Z (beta t) delta delta delta_inv delta_pos Rlt_0_1 ltac:(lra) (/ (1 + t / 2)) Hi) as E.
      rewrite TQ in E. specialize (E ltac:(lra)). pose proof (Eu t Ht) as X. unfold u0 in X. unfold Euler_of, u0_of, env_gam, u0_of in E. rewrite X in E. unfold u0.
      assert (S0 : 0 < sqrt (1 + t)) by (apply sqrt_lt_R0; lra).
      match goal with |- ?a = _ => set (GG := a) in * end. replace (- -1) with 1 in E by ring.
      match type of E with 1 = ?a * GG => assert (E' : 1 = a * GG) by exact E end.
      apply Rmult_eq_reg_l with (/ (1 + t / 2) * sqrt (1 + t)); [rewrite <- E; field; lra|].
      apply Rgt_not_eq, Rmult_lt_0_compat; assumption.
    + assert (A : derivable_pt_lim (fun t => 1 + t / 2) 0 (1/2)) by (apply affine_d; intros t; field).
      assert (B : derivable_pt_lim (fun t => 1 + t) 0 1) by (apply affine_d; intros t; ring).
      pose proof (derivable_pt_lim_comp (fun t => 1 + t) sqrt 0 1 (/ (2 * sqrt (1 + 0))) B (derivable_pt_lim_sqrt (1 + 0) ltac:(lra))) as F. unfold comp in F.
      assert (S1 : sqrt (1 + 0) = 1) by (rewrite Rplus_0_r; exact sqrt_1).
      pose proof (derivable_pt_lim_div (fun t => 1 + t / 2) (fun t => sqrt (1 + t)) 0 _ _ A F ltac:(intros X; cbv beta in X; lra)) as H. unfold div_fct in H.
      rewrite S1 in H. match type of H with derivable_pt_lim _ _ ?v => replace 0 with v at 2 end; [exact H|]. unfold Rsqr. field.
  - lra.
Qed.
