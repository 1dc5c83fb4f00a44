(** KsRefute.v - where the third derivative of the metric is wrong; BH surface and start-off values. *)
From Coq Require Import Reals Lra Lia Psatz Bool.
From Verif Require Import RealBase CubedModel GenKsX GenKsR GenKsH GenKsK GenKsG KsSpec KsModel KsDR KsDH KsDG KsProofs KsClosed KsMetric KsSplit KsFinal.
Local Open Scope R_scope.

Lemma rates P x y z : resting_hole P -> pphiy P = 0 -> pphiz P = 0 ->
  let f := ks_set_args P x y z in
  fX f = x /\ fY f = y /\ fZ f = z /\ fdX0 f = 1 /\ fdX1 f = 0 /\ fdX2 f = 0 /\ fdY0 f = 0 /\ fdY1 f = 1 /\ fdY2 f = 0 /\
  fdZ0 f = 0 /\ fdZ1 f = 0 /\ fdZ2 f = 1.
Proof.
  intros (B & E1 & E2 & E3) F1 F2 f. destruct (s_facts _ B) as [S1 _].
  unfold f, ks_set_args. cbn [fX fY fZ fdX0 fdX1 fdX2 fdY0 fdY1 fdY2 fdZ0 fdZ1 fdZ2].
  repeat split; match goal with |- ?a _ _ = _ => unfold a end; cbn [fx fy fz];
   rewrite ?E1, ?E2, ?E3, ?F1, ?F2, ?cos_0, ?sin_0; revert B S1; generalize (sqrt (1 - pB2 P)) (pB2 P); intros s b B S1; clear - B S1;
   (field; repeat split; try lra; match goal with |- ?e <> 0 => replace e with (b * s) by ring end;
    apply Rmult_integral_contrapositive_currified; lra).
Qed.
(** dR/dx > 0 where x > 0, for such a hole *)
Lemma dR_pos P f : 0 < phs P -> 0 < cw1 P f -> 0 < cw2 P f -> 
  fdX0 f = 1 -> fdX1 f = 0 -> fdY0 f = 0 -> fdY1 f = 1 -> fdZ0 f = 0 -> fdZ1 f = 0 ->
  0 < fX f -> 0 < fY f -> 0 < ks_dR_D0 P f /\ 0 < ks_dR_D1 P f.
Proof.
  intros Hh W1 W2 A1 A2 A3 A4 A5 A6 Hx Hy. unfold ks_dR_D0, ks_dR_D1. rewrite A1, A2, A3, A4, A5, A6.
  change (sqrt (((4 * ((pa P) ^ 2)) * ((fZ f) ^ 2)) + (((((- ((pa P) ^ 2)) + ((fX f) ^ 2)) + ((fY f) ^ 2)) + ((fZ f) ^ 2)) ^ 2))) with (sqrt (cw1 P f)).
  assert (S : 0 < sqrt (cw1 P f)) by (apply sqrt_lt_R0; auto).
  assert (S' : 0 < sqrt (cw2 P f)) by (apply sqrt_lt_R0; auto).
  change (sqrt (((((- ((pa P) ^ 2)) + ((fX f) ^ 2)) + ((fY f) ^ 2)) + ((fZ f) ^ 2)) + sqrt (cw1 P f))) with (sqrt (cw2 P f)).
  unfold cw2 in W2. revert S S' W2. generalize (sqrt (cw1 P f)) (sqrt (cw2 P f)). intros w v S S' W2.
  split; (match goal with |- 0 < ?e => match e with context [phs P * _] => idtac end end).
  - match goal with |- 0 < ?e => replace e with (phs P * fX f * ((- pa P ^ 2 + fX f ^ 2 + fY f ^ 2 + fZ f ^ 2) + w) / (w * v)) by (field; lra) end.
    apply Rdiv_lt_0_compat; [|apply Rmult_lt_0_compat; auto]. apply Rmult_lt_0_compat; [apply Rmult_lt_0_compat; auto|exact W2].
  - match goal with |- 0 < ?e => replace e with (phs P * fY f * ((- pa P ^ 2 + fX f ^ 2 + fY f ^ 2 + fZ f ^ 2) + w) / (w * v)) by (field; lra) end.
    apply Rdiv_lt_0_compat; [|apply Rmult_lt_0_compat; auto]. apply Rmult_lt_0_compat; [apply Rmult_lt_0_compat; auto|exact W2].
Qed.

Theorem third_wrong hs M a c P ctr q : ks_set_params hs M a (v3 0 0 c) (v3 0 0 0) = Some P ->
  0 < hs -> hs ^ 2 = 1 / 2 -> ROUND_OFF_ERR <= c -> 0 < M -> a <> 0 ->
  ctr 0%nat < q 0%nat -> ctr 1%nat < q 1%nat -> ctr 2%nat < q 2%nat ->
  ~ derivable_pt_lim (fun s => ks_ddmetric P ctr (moved q 2 s) 2 2 0 1) (q 2%nat) (ks_dddmetric P ctr q 2 2 0 1 2).
Proof.
  intros H Hh Hh2 Hc HM Ha Q0 Q1 Q2. pose proof ROE_pos as RO.
  assert (D0 : dot (v3 0 0 0) (v3 0 0 0) = 0) by (unfold dot; cbn [v3]; ring).
  assert (U : usable hs (v3 0 0 0)) by (unfold usable; rewrite D0; repeat split; auto; lra).
  destruct (usable_good _ _ _ _ _ _ H U) as (G & EB & EM & Ea & RE & _). destruct (RE D0) as [RH _]. clear RE.
  (* angles *)
  assert (AN : pphiy P = 0 /\ pphiz P = 0).
  { revert H. unfold ks_set_params, Pow2. cbn [v3].
    replace (0 * 0 + 0 * 0 + c * c) with (c * c) by ring. rewrite (sqrt_square c) by lra.
    destruct (negb (LSSEQL c 1)); [discriminate|]. rewrite !Rmult_0_r, !Rplus_0_r, EQL_refl.
    assert (EC : EQL c 0 = false) by (apply EQL_false; rewrite Rminus_0_r, Rabs_pos_eq; lra).
    rewrite EC. cbn [negb]. intros H. apply (f_equal (fun o => match o with Some x => x | None => P end)) in H. subst P. cbn [pphiy pphiz].
    unfold arctan. rewrite EQL_refl. split; auto. replace (c / c) with 1 by (field; lra). apply acos_1. }
  destruct AN as [A1 A2].
  set (f := ks_node P ctr q).
  destruct (rates P (q 0%nat - ctr 0%nat) (q 1%nat - ctr 1%nat) (q 2%nat - ctr 2%nat) RH A1 A2)
    as (X & Y & Z & X0 & X1 & X2 & Y0 & Y1 & Y2 & Z0 & Z1 & Z2).
  change (ks_set_args P (q 0%nat - ctr 0%nat) (q 1%nat - ctr 1%nat) (q 2%nat - ctr 2%nat)) with f in *.
  assert (ND : ~ on_disk (pa P) (posv f)).
  { intros [E _]. unfold posv in E. cbn [v3] in E. rewrite Z in E. lra. }
  assert (ND' : ~ on_disk a (hole_position (pphiy P) (pphiz P) (v3 0 0 0) (fun i => q i - ctr i))).
  { intros D. apply ND. rewrite Ea. eapply disk_ext; [|exact D]. intros n Hn.
    unfold f. rewrite (node_pos P ctr q (proj1 G) n Hn). unfold hpos. change (fun i0 => q i0 - ctr i0) with (sub q ctr).
    apply pos_extv; auto. intros j Hj. symmetry. auto. }
  destruct (off_disk_pos _ _ ND) as [W1 W2].
  assert (HS : 0 < phs P) by apply G.
  destruct (dR_pos P f HS W1 W2 X0 X1 Y0 Y1 Z0 Z1) as [R0 R1]; [rewrite X; lra|rewrite Y; lra|].
  assert (RP : 0 < fR f) by (change (0 < phs P * sqrt (cw2 P f)); apply Rmult_lt_0_compat; auto; apply sqrt_lt_R0; auto).
  assert (ZP : 0 < fZ f) by (rewrite Z; lra).
  assert (BUG : 0 < ksbug P f 0 1 2).
  { unfold ksbug. cbn [Nat.eqb orb]. rewrite Z0, Z1, Z2, EM, Ea, (proj1 (proj2 G)).
    assert (QP : 0 < ksq P f).
    { unfold ksq. pose proof (pow2_ge_0 (pa P)). pose proof (pow2_ge_0 (fZ f)). assert (0 < fR f ^ 4) by (apply pow_lt; auto). nra. }
    apply Rdiv_lt_0_compat; [|apply pow_lt; exact QP].
    replace (ks_dR_D0 P f * ks_dR_D1 P f * 1 + ks_dR_D0 P f * ks_dR_D2 P f * 0 + ks_dR_D1 P f * ks_dR_D2 P f * 0) with (ks_dR_D0 P f * ks_dR_D1 P f) by ring.
    assert (0 < a ^ 4). { replace (a ^ 4) with ((a ^ 2) ^ 2) by ring. apply pow2_gt_0. apply Rgt_not_eq. apply pow2_gt_0. exact Ha. }
    assert (0 < fR f ^ 5) by (apply pow_lt; auto). assert (0 < fZ f ^ 3) by (apply pow_lt; auto).
    assert (0 < ks_dR_D0 P f * ks_dR_D1 P f) by (apply Rmult_lt_0_compat; auto). clear - H0 H1 H2 H3 HM.
    revert H0 H1 H2 H3. generalize (a ^ 4) (fR f ^ 5) (fZ f ^ 3) (ks_dR_D0 P f * ks_dR_D1 P f). intros.
    repeat apply Rmult_lt_0_compat; auto; lra. }
  assert (K2 : kvec P f 2 = fZ f / fR f).
  { destruct (covector_resting P f RH) as [_ K]. rewrite (K 2%nat) by lia. unfold boostv.
    destruct RH as (_ & B1 & B2 & B3). rewrite B1, B2, B3, lab_space_rest by lia. rewrite A1, A2.
    unfold rotz, roty, Kvec. cbn [v3]. rewrite cos_0, sin_0. unfold ks_K2. ring. }
  assert (KP : 0 < kvec P f 2) by (rewrite K2; apply Rdiv_lt_0_compat; auto).
  intros L. pose proof (metric_derivatives _ _ _ _ _ _ H U ctr q ND' 2%nat 2%nat 2%nat (le_n _) ltac:(lia) ltac:(lia)) as (_ & _ & T).
  specialize (T 0%nat 1%nat ltac:(lia) ltac:(lia)). fold f in T. cbn [Nat.min Nat.max] in T.
  pose proof (uniqueness_limite _ _ _ _ L T) as E.
  assert (0 < 2 * ksbug P f 0 1 2 * kvec P f 2 * kvec P f 2).
  { clear - BUG KP. revert BUG KP. generalize (ksbug P f 0 1 2) (kvec P f 2). intros. repeat apply Rmult_lt_0_compat; auto; lra. }
  lra.
Qed.
Theorem third_ok hs M a chi V P : ks_set_params hs M a chi V = Some P -> usable hs V ->
  forall ctr q, ~ on_disk a (hole_position (pphiy P) (pphiz P) V (fun i => q i - ctr i)) ->
  forall i j k l m, (i <= j)%nat -> (j < 3)%nat -> (k < 3)%nat -> (l < 3)%nat -> (m < 3)%nat -> k = l \/ k = m \/ l = m ->
   derivable_pt_lim (fun s => ks_ddmetric P ctr (moved q k s) i j l m) (q k) (ks_dddmetric P ctr q i j l m k).
Proof.
  intros H U ctr q ND i j k l m Hi Hj Hk Hl Hm E.
  destruct (metric_derivatives _ _ _ _ _ _ H U ctr q ND i j k Hi Hj Hk) as (_ & _ & T). specialize (T l m Hl Hm).
  replace (ksbug P (ks_node P ctr q) (Nat.min l m) (Nat.max l m) k) with 0 in T.
  - rewrite Rmult_0_r, !Rmult_0_l, Rplus_0_r in T. exact T.
  - unfold ksbug. destruct l as [|[|[|l]]]; try lia; destruct m as [|[|[|m]]]; try lia; destruct k as [|[|[|k]]]; try lia; cbn [Nat.min Nat.max Nat.eqb orb]; try reflexivity; exfalso; lia.
Qed.

(** ** horizon *)
Lemma surface_value M a : 0 < M -> kerr_Delta M a (bh_surface_R M a) = 2 * a ^ 2.
Proof.
  intros HM. unfold kerr_Delta, bh_surface_R, Pow2. pose proof (sqrt_sqrt (M * M + a * a) ltac:(nra)). nra.
Qed.
Theorem surface_wrong M a : 0 < M -> (kerr_Delta M a (bh_surface_R M a) = 0 <-> a = 0).
Proof. intros HM. rewrite surface_value by auto. split; intros; nra. Qed.
Theorem surface_eq_zero P Rs th ph rr : 0 < phs P -> phs P ^ 2 = 1 / 2 -> 0 < Rs ->
  let x := v3 (rr * sin th * cos ph) (rr * sin th * sin ph) (rr * cos th) in
  moving_hole P \/ resting_hole P ->
  (bh_surface_eq P Rs th ph rr = 0 <-> kerr_radius (pa P) (hole_position (pphiy P) (pphiz P) (boostv P) x) Rs).
Proof.
  intros Hh Hh2 HR x MH. unfold bh_surface_eq. set (f := ks_set_args P _ _ _).
  assert (E : eq3 (posv f) (hole_position (pphiy P) (pphiz P) (boostv P) x)).
  { intros i Hi. destruct MH; [apply position_moving|apply position_resting]; auto. }
  assert (E' : eq3 (hole_position (pphiy P) (pphiz P) (boostv P) x) (posv f)) by (intros i Hi; symmetry; auto).
  assert (FR : fR f = phs P * sqrt (cw2 P f)) by reflexivity.
  split.
  - intros H. assert (R0 : fR f = Rs) by lra.
    assert (ND : ~ on_disk (pa P) (posv f)).
    { intros [Z D]. unfold posv in Z, D. cbn [v3] in Z, D.
      assert (cw2 P f <= 0).
      { unfold cw2, cw1. rewrite Z. replace (4 * pa P ^ 2 * 0 ^ 2 + (- pa P ^ 2 + fX f ^ 2 + fY f ^ 2 + 0 ^ 2) ^ 2) with ((pa P ^ 2 - fX f ^ 2 - fY f ^ 2)²) by (unfold Rsqr; ring).
        rewrite sqrt_Rsqr by lra. lra. }
      rewrite sqrt_neg_0 in FR by auto. nra. }
    destruct (code_radius P f ND) as [A B]. rewrite hs_sqrt2, Rmult_1_l in B by auto.
    change (ks_R P f) with (fR f) in B. rewrite <- B, R0 in A. eapply radius_ext; [|exact A]. exact E.
  - intros K. apply (radius_ext _ _ _ _ E') in K. pose proof (radius_off_disk _ _ _ K) as ND.
    destruct (code_radius P f ND) as [A B]. rewrite hs_sqrt2, Rmult_1_l in B by auto.
    change (ks_R P f) with (fR f) in B. rewrite B. rewrite (radius_unique _ _ _ _ K A). ring.
Qed.

(** ** start-off values *)
Definition cnorm (chi : vec) : R := sqrt (dot chi chi).
Theorem start_general irr chi : 0 < irr -> cnorm chi <= 1 ->
  exists m a r, bh_start_general irr chi = Some (m, a, r) /\ irr <= m /\
    m ^ 2 = irr ^ 2 + (a * m) ^ 2 / (4 * irr ^ 2) /\ a = cnorm chi * m /\ a <= m /\
    kerr_Delta m a r = 0 /\ m <= r /\ r ^ 2 + a ^ 2 = 4 * irr ^ 2.
Proof.
  intros Hi Hc. unfold bh_start_general, Pow2.
  change (sqrt (chi 0%nat * chi 0%nat + chi 1%nat * chi 1%nat + chi 2%nat * chi 2%nat)) with (cnorm chi).
  assert (C0 : 0 <= cnorm chi) by apply sqrt_pos. set (c := cnorm chi) in *. clearbody c.
  destruct (GRT c 1) eqn:G; [apply GRT_iff in G; pose proof ROE_pos; lra|].
  destruct (ltR_spec (1 - c * c) 0); [nra|].
  set (s := sqrt (1 - c * c)). assert (S0 : 0 <= s) by apply sqrt_pos.
  assert (SS : s * s = 1 - c * c) by (apply sqrt_sqrt; lra).
  assert (S1 : s <= 1) by nra. clearbody s.
  assert (Q0 : 0 <= 2 / (1 + s)) by (apply Rlt_le, Rdiv_lt_0_compat; lra).
  set (w := sqrt (2 / (1 + s))). assert (W0 : 0 <= w) by apply sqrt_pos.
  assert (WW : w * w = 2 / (1 + s)) by (apply sqrt_sqrt; lra). clearbody w.
  assert (WS : w * w * (1 + s) = 2) by (rewrite WW; field; lra).
  assert (W1 : 1 <= w) by nra.
  exists (irr * w), (c * (irr * w)), (irr * w * (1 + s)). split; [reflexivity|].
  assert (I2 : 0 < irr ^ 2) by (apply pow_lt; auto).
  assert (W4 : w * w * w * w * (c * c) = 4 * (w * w) - 4).
  { replace (c * c) with ((1 - s) * (1 + s)) by lra.
    replace (w * w * w * w * ((1 - s) * (1 + s))) with (w * w * (1 - s) * (w * w * (1 + s))) by ring. rewrite WS.
    replace (w * w * (1 - s) * 2) with (2 * (2 * (w * w) - w * w * (1 + s))) by ring. rewrite WS. ring. }
  assert (CW : w * w * (c * c) = 2 * (1 - s)).
  { replace (c * c) with ((1 - s) * (1 + s)) by lra. replace (w * w * ((1 - s) * (1 + s))) with (w * w * (1 + s) * (1 - s)) by ring. rewrite WS. ring. }
  split; [nra|]. split; [|split; [reflexivity|split; [|split; [|split]]]].
  - replace ((c * (irr * w) * (irr * w)) ^ 2) with (irr ^ 4 * (w * w * w * w * (c * c))) by ring. rewrite W4.
    field. lra.
  - assert (0 < irr * w) by (apply Rmult_lt_0_compat; lra); nra.
  - unfold kerr_Delta.
    replace ((irr * w * (1 + s)) ^ 2 - 2 * (irr * w) * (irr * w * (1 + s)) + (c * (irr * w)) ^ 2) with (irr ^ 2 * (w * w) * (s * s + c * c - 1)) by ring.
    rewrite SS. ring.
  - assert (0 < irr * w) by (apply Rmult_lt_0_compat; lra); nra.
  - replace ((irr * w * (1 + s)) ^ 2 + (c * (irr * w)) ^ 2) with (irr ^ 2 * ((w * w * (1 + s)) * (1 + s) + w * w * (c * c))) by ring.
    rewrite WS, CW. ring.
Qed.
(** the "close" start-off stores the irreducible mass under the name of the Christodoulou mass *)
Theorem start_close irr chi : 0 < irr -> cnorm chi <= 1 ->
  exists m a r, bh_start_close irr chi = Some (m, a, r) /\ m = irr /\ r = 3 / 2 * irr /\
    (cnorm chi <> 0 -> cnorm chi * m < a) /\ (cnorm chi = 9 / 10 -> m < a).
Proof.
  intros Hi Hc. unfold bh_start_close, Pow2.
  change (sqrt (chi 0%nat * chi 0%nat + chi 1%nat * chi 1%nat + chi 2%nat * chi 2%nat)) with (cnorm chi).
  assert (C0 : 0 <= cnorm chi) by apply sqrt_pos. set (c := cnorm chi) in *. clearbody c.
  destruct (GRT c 1) eqn:G; [apply GRT_iff in G; pose proof ROE_pos; lra|].
  destruct (ltR_spec (1 - c * c) 0); [nra|].
  set (s := sqrt (1 - c * c)). assert (S0 : 0 <= s) by apply sqrt_pos.
  assert (SS : s * s = 1 - c * c) by (apply sqrt_sqrt; lra).
  clearbody s.
  assert (Q0 : 0 <= 2 / (1 + s)) by (apply Rlt_le, Rdiv_lt_0_compat; lra).
  set (w := sqrt (2 / (1 + s))). assert (W0 : 0 <= w) by apply sqrt_pos.
  assert (WW : w * w = 2 / (1 + s)) by (apply sqrt_sqrt; lra). clearbody w.
  assert (WS : w * w * (1 + s) = 2) by (rewrite WW; field; lra).
  do 3 eexists. split; [reflexivity|]. split; [reflexivity|]. split; [reflexivity|]. split.
  - intros Hn. assert (s < 1) by nra. assert (1 < w) by (destruct (Rle_lt_dec w 1); [exfalso; assert (w * w <= 1) by nra; nra|auto]). assert (0 < c) by lra.
    replace (c * (irr * w)) with (c * irr * w) by ring. assert (0 < c * irr) by nra. nra.
  - intros E. rewrite E in *. assert (s < 436 / 1000) by nra. assert (118 / 100 < w) by (destruct (Rle_lt_dec w (118 / 100)); [exfalso; assert (w * w <= 118 / 100 * (118 / 100)) by nra; nra|auto]). nra.
Qed.
