From Verif Require Import RealBase CubedModel CubedSpec CubedProofs CubedJac.
Open Scope R_scope.

Definition Jab (sg : R) (m k l : nat) (x : v3) : R :=
  (sg * (kd (Nat.eqb m l) - get x m * kd (Nat.eqb k l) / get x k)) / get x k.

Lemma det_side s i j k sg x al be ga : sip s = (i, j, k, sg) -> get x k <> 0 ->
  det3 (fun q l => match q with qa => Jab sg i k l x | qb => Jab sg j k l x
        | qc => al * kd (Nat.eqb k l) + be * Jab sg i k l x + ga * Jab sg j k l x end) = sg * al / (get x k * get x k).
Proof.
  destruct x as [[x0 x1] x2].
  destruct s; cbn [sip]; intros E; inversion E; subst; cbn [get]; intros N; unfold det3, Jab, kd; cbn; field; exact N.
Qed.

Lemma point_rel P h X Y i j k sg : sip (cs_side P) = (i, j, k, sg) ->
  get (relp P (point (cs_side P) (cs_c P) h X Y)) k = sg * h.
Proof.
  intros Es. unfold relp, point, vadd, vscale, ray. destruct (cs_c P) as [[c0 c1] c2].
  destruct (cs_side P); inversion Es; subst; cbn; ring.
Qed.

Theorem jac_det P n X Y Z h1 h2 h :
  jn_X n = (X, Y, Z) -> jn_x n = point (cs_side P) (cs_c P) h X Y ->
  inner P X Y h1 -> outer P X Y h2 -> 0 < h1 < h2 -> 0 < h -> height P h1 h2 Z h -> surfaces_ok P n ->
  exists J, (forall q l, (l < 3)%nat -> JT P n q l = Some (J q l)) /\
    (outermost P -> det3 J * ((h * h) * (h * h * (/ h1 - / h2))) = 1) /\
    (~ outermost P -> det3 J * ((h * h) * (h2 - h1)) = 1).
Proof.
  intros EX Ex H1 H2 [A B] C H SO.
  destruct (sip (cs_side P)) as [[[i j] k] sg] eqn:Es.
  pose proof (sip_sgn _ _ _ _ _ Es) as Esg.
  pose proof (point_rel P h X Y i j k sg Es) as Ek. rewrite <- Ex in Ek.
  assert (Sq : sg * sg = 1) by (subst sg; apply sgn_sq).
  assert (Sn : sg <> 0) by (subst sg; apply sgn_nz).
  set (rx := relp P (jn_x n)) in *.
  assert (N : get rx k <> 0) by (rewrite Ek; apply Rmult_integral_contrapositive_currified; lra).
  set (ja := fun l => Jab sg i k l rx). set (jb := fun l => Jab sg j k l rx).
  pose proof (dist1_pos X Y) as Dp. set (d := dist1 X Y) in *.
  pose proof (dist1_sq X Y) as Dsq. fold d in Dsq.
  assert (D3 : Power3 d <> 0) by (unfold Power3, Pow2; apply Rgt_not_eq; repeat apply Rmult_lt_0_compat; auto).
  assert (MAIN : exists al be ga, (forall l, JT P n qc l = Some (al * kd (Nat.eqb k l) + be * ja l + ga * jb l)) /\
     (is_out (cs_ty P) = true -> sg * al * (h * h * (/ h1 - / h2)) = 1) /\ (is_out (cs_ty P) = false -> sg * al * (h2 - h1) = 1)).
  2:{ destruct MAIN as (al & be & ga & Q & O1 & O2).
      exists (fun q l => match q with qa => ja l | qb => jb l | qc => al * kd (Nat.eqb k l) + be * ja l + ga * jb l end).
      split.
      - intros [] l _; [| |apply Q]; unfold JT; rewrite Es; fold (relp P (jn_x n)); fold rx; apply jt_ab_some; auto.
      - assert (DT : det3 (fun q l => match q with qa => ja l | qb => jb l | qc => al * kd (Nat.eqb k l) + be * ja l + ga * jb l end) = sg * al / (h * h)).
        { unfold ja, jb. rewrite (det_side _ _ _ _ _ rx al be ga Es N). rewrite Ek.
          replace (sg * h * (sg * h)) with (sg * sg * (h * h)) by ring. rewrite Sq, Rmult_1_l. reflexivity. }
        rewrite DT. split; intros U.
        + apply is_out_iff in U. specialize (O1 U). rewrite <- O1. field. lra.
        + destruct (is_out (cs_ty P)) eqn:W; [apply is_out_iff in W; contradiction|]. specialize (O2 eq_refl). rewrite <- O2. field. lra. }
  assert (HZ : frac P h1 h2 h = Z) by (apply frac_hgt; auto).
  assert (R12 : 0 < 1 - h1 / h2).
  { replace (1 - h1 / h2) with ((h2 - h1) * / h2) by (field; lra). apply Rmult_lt_0_compat; [lra|]. apply Rinv_0_lt_compat; lra. }
  assert (LD : sg * h2 - sg * h1 <> 0).
  { replace (sg * h2 - sg * h1) with (sg * (h2 - h1)) by ring. apply Rmult_integral_contrapositive_currified; lra. }
  assert (SINV : / sg = sg) by (apply (Rmult_eq_reg_l sg); auto; rewrite Rinv_r by auto; lra).
  unfold JT. rewrite Es. fold (relp P (jn_x n)). fold rx. rewrite EX. cbn [get].
  rewrite d_eq. fold d. replace (1 + Pow2 X + Pow2 Y) with (d * d) by (rewrite Dsq; reflexivity).
  unfold surfaces_ok in SO. rewrite EX in SO. cbn [get] in SO. cbv zeta in SO.
  unfold inner in H1. unfold outer in H2. fold d in H1, H2.
  destruct (cs_ty P) eqn:T; cbn [is_out]; unfold frac in HZ; rewrite T in HZ; cbn [is_out] in HZ.
  - (* OB *)
    destruct SO as [S1 S2].
    set (xc1 := sg * (if unset (cs_xc1 P) then jn_R1 n / d else cs_xc1 P)).
    set (xc2 := sg * (if unset (cs_xc2 P) then jn_R2 n / d else cs_xc2 P)).
    assert (E1 : xc1 = sg * h1).
    { unfold xc1. destruct H1 as [[U ->]|[U F]].
      - rewrite (proj2 (unset_false _) U). reflexivity.
      - rewrite (proj2 (unset_true _) U). destruct (S1 U) as [F' _]. rewrite F' in F. injection F as F. rewrite F. field. lra. }
    assert (E2 : xc2 = sg * h2).
    { unfold xc2. destruct H2 as [[U ->]|[U F]].
      - rewrite (proj2 (unset_false _) U). reflexivity.
      - rewrite (proj2 (unset_true _) U). destruct (S2 U) as [F' _]. rewrite F' in F. injection F as F. rewrite F. field. lra. }
    set (e1 := if unset (cs_xc1 P) then sg * (jn_R1a n / d - jn_R1 n * X / Power3 d) else 0).
    set (f1 := if unset (cs_xc1 P) then sg * (jn_R1b n / d - jn_R1 n * Y / Power3 d) else 0).
    set (e2 := if unset (cs_xc2 P) then sg * (jn_R2a n / d - jn_R2 n * X / Power3 d) else 0).
    set (f2 := if unset (cs_xc2 P) then sg * (jn_R2b n / d - jn_R2 n * Y / Power3 d) else 0).
    set (D := sg * h2 - sg * h1) in *.
    exists (/ D), (- e1 / D - (get rx k - xc1) * (e2 - e1) / (D * D)), (- f1 / D - (get rx k - xc1) * (f2 - f1) / (D * D)).
    split; [|split; [discriminate|intros _; replace (h2 - h1) with (sg * D) by (unfold D; replace (sg * (sg * h2 - sg * h1)) with (sg * sg * (h2 - h1)) by ring; rewrite Sq; ring); replace (sg * / D * (sg * D)) with (sg * sg) by (field; exact LD); exact Sq]].
    intros l. rewrite !jt_ab_some by auto. cbn [fbind]. fold (Jab sg i k l rx) (Jab sg j k l rx). fold (ja l) (jb l).
    fold xc1 xc2. rewrite (fdiv_some _ (xc2 - xc1)) by (rewrite E1, E2; auto). cbn [fbind]. rewrite fdiv_some by (rewrite E1, E2; auto).
    f_equal. replace (xc2 - xc1) with D by (rewrite E1, E2; reflexivity).
    unfold e1, e2, f1, f2, dR_dx. clearbody D d xc1 xc2. clear - LD Dp D3.
    destruct (unset (cs_xc1 P)), (unset (cs_xc2 P)); field; repeat split; auto; lra.
  - (* OT_SCS *)
    destruct SO as (S2 & S1 & _).
    destruct H1 as [U H1]. rewrite S1 in H1. injection H1 as H1. rewrite S2 in H2. injection H2 as H2.
    assert (F2 : jn_R2 n <> 0) by (rewrite H2; apply Rmult_integral_contrapositive_currified; lra).
    assert (Q : jn_R1 n / jn_R2 n = h1 / h2) by (rewrite H1, H2; field; split; lra).
    set (e0 := if unset (cs_xc1 P) then 0 else cs_xc1 P / d).
    exists (sg * h1 / (get rx k * get rx k * (1 - h1 / h2))),
      ((- (sg * (e0 * X / d - jn_R1 n * X / Power3 d)) / get rx k - Z * (- (e0 * X) / jn_R2 n)) / (1 - h1 / h2)),
      ((- (sg * (e0 * Y / d - jn_R1 n * Y / Power3 d)) / get rx k - Z * (- (e0 * Y) / jn_R2 n)) / (1 - h1 / h2)).
    split; [|split; [intros _|discriminate]].
    + intros l. rewrite !jt_ab_some by auto. cbn [fbind]. fold (Jab sg i k l rx) (Jab sg j k l rx). fold (ja l) (jb l).
      rewrite !(fdiv_some _ _ F2). cbn [fbind]. rewrite (fdiv_some _ _ F2). cbn [fbind].
      rewrite (fdiv_some _ _ N). cbn [fbind]. rewrite (fdiv_some _ _ N). cbn [fbind].
      rewrite Q. rewrite fdiv_some by lra. f_equal.
      replace (sg * jn_R1 n / d) with (sg * h1) by (rewrite H1; field; lra).
      unfold e0. set (r := 1 - h1 / h2) in *. clearbody r d. clear - N Dp D3 F2 R12. set (rk := get rx k) in *. clearbody rk.
      destruct (unset (cs_xc1 P)); field; repeat split; auto; lra.
    + rewrite Ek. replace (sg * h * (sg * h)) with (sg * sg * (h * h)) by ring.
      replace (sg * (sg * h1 / (sg * sg * (h * h) * (1 - h1 / h2))) * (h * h * (/ h1 - / h2))) with (sg * sg / (sg * sg)) by (field; repeat split; try lra; auto).
      rewrite Sq. field.
  - (* NS *)
    destruct SO as [F' _]. rewrite F' in H2. injection H2 as H2.
    assert (E1 : cs_xc1 P = sg * h1) by (rewrite H1, Esg; reflexivity).
    assert (E2 : sg * jn_R2 n / d = sg * h2) by (rewrite H2; field; lra).
    set (D := sg * h2 - sg * h1) in *.
    set (e2 := sg * (jn_R2a n / d - jn_R2 n * X / Power3 d)). set (f2 := sg * (jn_R2b n / d - jn_R2 n * Y / Power3 d)).
    exists (/ D), (- (get rx k - sg * h1) * e2 / (D * D)), (- (get rx k - sg * h1) * f2 / (D * D)).
    split; [|split; [discriminate|intros _; replace (h2 - h1) with (sg * D) by (unfold D; replace (sg * (sg * h2 - sg * h1)) with (sg * sg * (h2 - h1)) by ring; rewrite Sq; ring); replace (sg * / D * (sg * D)) with (sg * sg) by (field; exact LD); exact Sq]].
    intros l. rewrite !jt_ab_some by auto. cbn [fbind]. fold (Jab sg i k l rx) (Jab sg j k l rx). fold (ja l) (jb l).
    rewrite E2, E1. fold D. rewrite (fdiv_some _ D) by auto. cbn [fbind]. rewrite fdiv_some by auto.
    f_equal. unfold e2, f2, dR_dx. clearbody D d. clear - LD Dp D3. field. repeat split; auto; lra.
  - (* SR *)
    destruct SO as [F' _]. rewrite F' in H1. injection H1 as H1.
    assert (E2 : cs_xc2 P = sg * h2) by (rewrite H2, Esg; reflexivity).
    assert (E1 : sg * jn_R1 n / d = sg * h1) by (rewrite H1; field; lra).
    set (D := sg * h2 - sg * h1) in *.
    set (e1 := sg * (jn_R1a n / d - jn_R1 n * X / Power3 d)). set (f1 := sg * (jn_R1b n / d - jn_R1 n * Y / Power3 d)).
    exists (/ D), (- e1 / D + (get rx k - sg * h1) * e1 / (D * D)), (- f1 / D + (get rx k - sg * h1) * f1 / (D * D)).
    split; [|split; [discriminate|intros _; replace (h2 - h1) with (sg * D) by (unfold D; replace (sg * (sg * h2 - sg * h1)) with (sg * sg * (h2 - h1)) by ring; rewrite Sq; ring); replace (sg * / D * (sg * D)) with (sg * sg) by (field; exact LD); exact Sq]].
    intros l. rewrite !jt_ab_some by auto. cbn [fbind]. fold (Jab sg i k l rx) (Jab sg j k l rx). fold (ja l) (jb l).
    rewrite E2, E1. fold D. rewrite (fdiv_some _ D) by auto. cbn [fbind]. rewrite fdiv_some by auto.
    f_equal. unfold e1, f1, dR_dx. clearbody D d. clear - LD Dp D3. field. repeat split; auto; lra.
  - (* OT1 *)
    assert (E1 : cs_xc1 P = sg * h1) by (rewrite H1, Esg; reflexivity).
    assert (F2 : cs_R2 P <> 0) by (rewrite H2; apply Rmult_integral_contrapositive_currified; lra).
    assert (Q : sg * d * cs_xc1 P / cs_R2 P = h1 / h2).
    { rewrite E1, H2. replace (sg * d * (sg * h1)) with (sg * sg * (d * h1)) by ring. rewrite Sq. field. split; lra. }
    assert (N2 : Pow2 (get rx k) <> 0) by (unfold Pow2; apply Rmult_integral_contrapositive_currified; auto).
    exists (sg * h1 / (get rx k * get rx k * (1 - h1 / h2))),
      (- Z * (X / d * (- sg * cs_xc1 P / cs_R2 P)) / (1 - h1 / h2)), (- Z * (Y / d * (- sg * cs_xc1 P / cs_R2 P)) / (1 - h1 / h2)).
    split; [|split; [intros _|discriminate]].
    + intros l. rewrite !jt_ab_some by auto. cbn [fbind]. fold (Jab sg i k l rx) (Jab sg j k l rx). fold (ja l) (jb l).
      rewrite !(fdiv_some _ _ F2). cbn [fbind]. rewrite (fdiv_some _ _ N2). cbn [fbind].
      rewrite Q. rewrite fdiv_some by lra. f_equal. rewrite E1. unfold Pow2.
      set (r := 1 - h1 / h2) in *. clearbody r d. clear - N Dp D3 F2 R12. set (rk := get rx k) in *. clearbody rk.
      field; repeat split; auto; lra.
    + rewrite Ek. replace (sg * h * (sg * h)) with (sg * sg * (h * h)) by ring.
      replace (sg * (sg * h1 / (sg * sg * (h * h) * (1 - h1 / h2))) * (h * h * (/ h1 - / h2))) with (sg * sg / (sg * sg)) by (field; repeat split; try lra; auto).
      rewrite Sq. field.
  - (* OT2 *)
    assert (F2 : cs_R2 P <> 0) by (rewrite H2; apply Rmult_integral_contrapositive_currified; lra).
    assert (Q : cs_R1 P / cs_R2 P = h1 / h2) by (rewrite H1, H2; field; split; lra).
    exists (sg * h1 / (get rx k * get rx k * (1 - h1 / h2))),
      (X / (d * d) * sg * h1 / ((1 - h1 / h2) * get rx k)), (Y / (d * d) * sg * h1 / ((1 - h1 / h2) * get rx k)).
    split; [|split; [intros _|discriminate]].
    + intros l. rewrite !jt_ab_some by auto. cbn [fbind]. fold (Jab sg i k l rx) (Jab sg j k l rx). fold (ja l) (jb l).
      rewrite (fdiv_some _ _ F2). cbn [fbind]. rewrite (fdiv_some _ _ N). cbn [fbind].
      rewrite Q. rewrite fdiv_some by (repeat apply Rmult_integral_contrapositive_currified; auto; lra). f_equal. rewrite H1.
      set (r := 1 - h1 / h2) in *. clearbody r d. clear - N Dp D3 F2 R12. set (rk := get rx k) in *. clearbody rk.
      field; repeat split; auto; lra.
    + rewrite Ek. replace (sg * h * (sg * h)) with (sg * sg * (h * h)) by ring.
      replace (sg * (sg * h1 / (sg * sg * (h * h) * (1 - h1 / h2))) * (h * h * (/ h1 - / h2))) with (sg * sg / (sg * sg)) by (field; repeat split; try lra; auto).
      rewrite Sq. field.
Qed.
