From Verif Require Import RealBase CubedModel CubedSpec CubedProofs.
Open Scope R_scope.

Lemma angle_unique a b : 0 <= a < 2 * PI -> 0 <= b < 2 * PI -> cos a = cos b -> sin a = sin b -> a = b.
Proof.
  assert (W : forall a b, 0 <= a < 2 * PI -> 0 <= b < 2 * PI -> cos a = cos b -> sin a = sin b -> ~ b < a).
  { clear. intros a b A B C S L.
    assert (E : cos (a - b) = 1). { rewrite cos_minus, C, S. pose proof (sin2_cos2 b) as Q. unfold Rsqr in Q. lra. }
    assert (H : 0 < sin ((a - b) / 2)) by (apply sin_gt_0; lra).
    replace (a - b) with (2 * ((a - b) / 2)) in E by field. rewrite cos_2a_sin in E. nra. }
  intros A B C S. destruct (Rtotal_order a b) as [L|[E|L]]; auto; exfalso.
  - apply (W b a); auto.
  - apply (W a b); auto.
Qed.
Lemma atan_pos z : 0 < z -> 0 < atan z < PI / 2.
Proof.
  intros Z. pose proof (atan_bound z) as [_ U]. split; auto. rewrite <- atan_0. apply atan_increasing. auto.
Qed.
Definition hyp (x y : R) : R := sqrt (x * x + y * y).
Lemma hyp_pos x y : x <> 0 \/ y <> 0 -> 0 < hyp x y.
Proof. intros H. apply sqrt_lt_R0. destruct H; nra. Qed.
Lemma hyp_sqrt x y : 0 < x -> sqrt (1 + (y / x)²) = hyp x y / x.
Proof.
  intros X. unfold hyp, Rsqr. replace (1 + y / x * (y / x)) with ((x * x + y * y) * / (x * x)) by (field; lra).
  rewrite sqrt_mult_alt by nra. rewrite <- inv_sqrt_depr by nra. rewrite sqrt_square by lra. reflexivity.
Qed.
Lemma cos_at x y : 0 < x -> cos (atan (y / x)) = x / hyp x y.
Proof. intros X. rewrite cos_atan, hyp_sqrt by auto. assert (0 < hyp x y) by (apply hyp_pos; left; lra). field. split; lra. Qed.
Lemma sin_at x y : 0 < x -> sin (atan (y / x)) = y / hyp x y.
Proof. intros X. rewrite sin_atan, hyp_sqrt by auto. assert (0 < hyp x y) by (apply hyp_pos; left; lra). field. split; lra. Qed.
Lemma hyp_opp_l x y : hyp (- x) y = hyp x y. Proof. unfold hyp. f_equal. ring. Qed.
Lemma hyp_opp_r x y : hyp x (- y) = hyp x y. Proof. unfold hyp. f_equal. ring. Qed.
Lemma cos_3PI2' : cos (3 * PI / 2) = 0.
Proof. replace (3 * PI / 2) with (3 * (PI / 2)) by field. apply cos_3PI2. Qed.
Lemma sin_3PI2' : sin (3 * PI / 2) = -1.
Proof. replace (3 * PI / 2) with (3 * (PI / 2)) by field. apply sin_3PI2. Qed.

Theorem arctan_ok y x : not_tiny x -> not_tiny y -> (x <> 0 \/ y <> 0) ->
  0 <= arctan y x < 2 * PI /\ hyp x y * cos (arctan y x) = x /\ hyp x y * sin (arctan y x) = y.
Proof.
  intros Tx Ty N. pose proof ROE_pos as RO. pose proof PI_RGT_0 as PP. pose proof (hyp_pos x y N) as HP. unfold arctan.
  assert (Z : forall z, not_tiny z -> EQL z 0 = true -> z = 0).
  { intros z [E|L] Q; auto. apply EQL_iff in Q. rewrite Rminus_0_r in Q. lra. }
  assert (Z' : forall z, EQL z 0 = false -> z <> 0).
  { intros z Q E. subst. rewrite EQL_refl in Q. discriminate. }
  destruct (EQL x 0) eqn:Ex.
  - apply Z in Ex; auto. subst x. destruct (EQL y 0) eqn:Ey; [apply Z in Ey; auto; subst; lra|]. apply Z' in Ey.
    assert (Hy : hyp 0 y = Rabs y).
    { unfold hyp. replace (0 * 0 + y * y) with (y²) by (unfold Rsqr; ring). apply sqrt_Rsqr_abs. }
    rewrite Hy. destruct (ltR_spec 0 y).
    + rewrite cos_PI2, sin_PI2, Rabs_pos_eq by lra. repeat split; lra.
    + rewrite cos_3PI2', sin_3PI2', Rabs_left by lra. repeat split; lra.
  - apply Z' in Ex. destruct (ltR_spec 0 x) as [Px|Px].
    + destruct (EQL y 0) eqn:Ey.
      * apply Z in Ey; auto. subst y.
        assert (Hx : hyp x 0 = x) by (unfold hyp; replace (x * x + 0 * 0) with (x * x) by ring; apply sqrt_square; lra).
        rewrite Hx, cos_0, sin_0. repeat split; lra.
      * apply Z' in Ey. destruct (ltR_spec 0 y) as [Py|Py].
        -- pose proof (atan_pos (y / x) (Rdiv_lt_0_compat _ _ Py Px)). rewrite cos_at, sin_at by auto.
           repeat split; try lra; field; lra.
        -- assert (0 < - y / x) by (apply Rdiv_lt_0_compat; lra). pose proof (atan_pos (- y / x) H).
           rewrite cos_minus, sin_minus, cos_2PI, sin_2PI, cos_at, sin_at, hyp_opp_r by auto.
           repeat split; try lra; field; lra.
    + destruct (EQL y 0) eqn:Ey.
      * apply Z in Ey; auto. subst y.
        assert (Hx : hyp x 0 = - x).
        { unfold hyp. replace (x * x + 0 * 0) with ((- x) * (- x)) by ring. apply sqrt_square. lra. }
        rewrite Hx, cos_PI, sin_PI. repeat split; lra.
      * apply Z' in Ey. assert (Px' : 0 < - x) by lra. destruct (ltR_spec 0 y) as [Py|Py].
        -- pose proof (atan_pos (y / - x) (Rdiv_lt_0_compat _ _ Py Px')).
           rewrite cos_minus, sin_minus, cos_PI, sin_PI, cos_at, sin_at, hyp_opp_l by auto.
           repeat split; try lra; field; lra.
        -- assert (0 < - y / - x) by (apply Rdiv_lt_0_compat; lra). pose proof (atan_pos (- y / - x) H).
           rewrite cos_plus, sin_plus, cos_PI, sin_PI, cos_at, sin_at, hyp_opp_l, hyp_opp_r by auto.
           repeat split; try lra; field; lra.
Qed.

Lemma one_not_tiny : not_tiny 1. Proof. right. rewrite Rabs_R1. unfold ROUND_OFF_ERR. lra. Qed.
Lemma mone_not_tiny : not_tiny (-1). Proof. right. rewrite Rabs_left by lra. unfold ROUND_OFF_ERR. lra. Qed.

Lemma vnorm_ray s X Y : vnorm (ray s X Y) = dist1 X Y.
Proof.
  unfold vnorm, dist1, vdot, ray, vadd, vscale. f_equal. destruct s; cbn; ring.
Qed.

(** acos of a component over the norm, arctan of the two others *)
Lemma polar x y z : not_tiny x -> not_tiny y -> vnorm (x, y, z) <> 0 ->
  let th := acos (z / vnorm (x, y, z)) in let ph := arctan y x in
  0 <= th <= PI /\ 0 <= ph < 2 * PI /\ dir_of th ph = vscale (/ vnorm (x, y, z)) (x, y, z).
Proof.
  intros Tx Ty N th ph. set (d := vnorm (x, y, z)) in *.
  assert (Dp : 0 < d) by (pose proof (sqrt_pos (vdot (x, y, z) (x, y, z))) as Q; fold (vnorm (x, y, z)) d in Q; lra).
  assert (Dq : d * d = x * x + y * y + z * z).
  { unfold d, vnorm, vdot. cbn. rewrite sqrt_sqrt; nra. }
  assert (Bd : -1 <= z / d <= 1).
  { split.
    - apply (Rmult_le_reg_r d); auto. replace (z / d * d) with z by (field; lra). nra.
    - apply (Rmult_le_reg_r d); auto. replace (z / d * d) with z by (field; lra). nra. }
  split; [apply acos_bound|].
  assert (Es : sin th = hyp x y / d).
  { unfold th. rewrite sin_acos by auto. unfold hyp.
    assert (Hd : / d = sqrt (/ (d * d))). { rewrite <- inv_sqrt_depr by nra. rewrite sqrt_square by lra. reflexivity. }
    unfold Rdiv at 2. rewrite Hd. rewrite <- sqrt_mult_alt by nra. f_equal. unfold Rsqr.
    replace (1 - z / d * (z / d)) with ((d * d - z * z) * / (d * d)) by (field; lra). rewrite Dq. f_equal. ring. }
  assert (Ec : cos th = z / d) by (apply cos_acos; auto).
  destruct (Req_dec x 0) as [X0|X0]; [destruct (Req_dec y 0) as [Y0|Y0]|].
  - subst x y. assert (Hh : hyp 0 0 = 0) by (unfold hyp; replace (0 * 0 + 0 * 0) with 0 by ring; apply sqrt_0).
    assert (P0 : ph = 0) by (unfold ph, arctan; rewrite !EQL_refl; reflexivity). pose proof PI_RGT_0.
    rewrite P0. split; [lra|]. unfold dir_of. rewrite Es, Ec, Hh. unfold vscale. cbn. f_equal; [f_equal|]; field; lra.
  - destruct (arctan_ok y x Tx Ty (or_intror Y0)) as (B & C & S). fold ph in B, C, S. split; auto.
    unfold dir_of. rewrite Es, Ec. unfold vscale. cbn [get]. f_equal; [f_equal|].
    + replace (hyp x y / d * cos ph) with (hyp x y * cos ph / d) by (field; lra). rewrite C. field. lra.
    + replace (hyp x y / d * sin ph) with (hyp x y * sin ph / d) by (field; lra). rewrite S. field. lra.
    + field. lra.
  - destruct (arctan_ok y x Tx Ty (or_introl X0)) as (B & C & S). fold ph in B, C, S. split; auto.
    unfold dir_of. rewrite Es, Ec. unfold vscale. cbn [get]. f_equal; [f_equal|].
    + replace (hyp x y / d * cos ph) with (hyp x y * cos ph / d) by (field; lra). rewrite C. field. lra.
    + replace (hyp x y / d * sin ph) with (hyp x y * sin ph / d) by (field; lra). rewrite S. field. lra.
    + field. lra.
Qed.

Lemma ray_eq s X Y : ray s X Y = match s with UP => (X, Y, 1) | DOWN => (Y, X, -1) | LEFT => (X, -1, Y) | RIGHT => (Y, 1, X)
  | BACK => (-1, Y, X) | FRONT => (1, X, Y) end.
Proof. unfold ray, vadd, vscale. destruct s; cbn; f_equal; try (f_equal; ring); ring. Qed.

Theorem theta_phi_ok X Y Z s : not_tiny X -> not_tiny Y ->
  let '(th, ph) := theta_phi_of_XY_CS (X, Y, Z) s in
  0 <= th <= PI /\ 0 <= ph < 2 * PI /\ dir_of th ph = vscale (/ vnorm (ray s X Y)) (ray s X Y).
Proof.
  intros TX TY. unfold theta_phi_of_XY_CS. cbn [get]. rewrite d_eq.
  pose proof one_not_tiny as T1. pose proof mone_not_tiny as T2. pose proof (dist1_pos X Y) as D.
  pose proof (vnorm_ray s X Y) as V. rewrite ray_eq in V |- *.
  destruct s; rewrite <- V in D |- *; apply polar; auto; lra.
Qed.

(** signs of a quadrant *)
Theorem signum_ok phi : 0 <= phi < 2 * PI - ROUND_OFF_ERR ->
  phi <> ROUND_OFF_ERR -> phi <> PI / 2 - ROUND_OFF_ERR -> phi <> PI / 2 + ROUND_OFF_ERR -> phi <> PI - ROUND_OFF_ERR ->
  phi <> PI + ROUND_OFF_ERR -> phi <> 3 * PI / 2 - ROUND_OFF_ERR -> phi <> 3 * PI / 2 + ROUND_OFF_ERR ->
  exists ys xs, arctan_argument_signum phi = Some (ys, xs) /\ (ys = 1 \/ ys = -1) /\ (xs = 1 \/ xs = -1) /\
    (ROUND_OFF_ERR <= Rabs (phi - PI / 2) -> ROUND_OFF_ERR <= Rabs (phi - 3 * PI / 2) -> 0 <= xs * cos phi) /\
    (ROUND_OFF_ERR <= Rabs (phi - PI) -> 0 <= ys * sin phi).
Proof.
  intros [L U] n1 n2 n3 n4 n5 n6 n7. unfold arctan_argument_signum. pose proof ROE_pos as RO. pose proof PI_RGT_0 as PP.
  assert (P3 : 3 < PI) by (pose proof PI2_3_2; lra). assert (RS : ROUND_OFF_ERR < / 10) by (unfold ROUND_OFF_ERR; lra).
  destruct (ltR_spec phi 0); [lra|]. destruct (leR_spec (2 * PI) phi); [lra|]. cbn [orb].
  assert (A : forall x y, GRTEQL x y = true <-> y - ROUND_OFF_ERR < x /\ x <> y + ROUND_OFF_ERR) by (intros; apply GRTEQL_iff).
  assert (B : forall x y, LSSEQL x y = true <-> x < y + ROUND_OFF_ERR /\ x <> y - ROUND_OFF_ERR) by (intros; apply LSSEQL_iff).
  assert (A0 : GRTEQL phi 0 = true) by (apply A; lra). rewrite A0. cbn [andb].
  destruct (LSSEQL phi (PI / 2)) eqn:E1.
  { apply B in E1. exists 1, 1. repeat split; auto.
    - intros Q _. assert (phi <= PI / 2). { unfold Rabs in Q. destruct (Rcase_abs (phi - PI / 2)); lra. }
      rewrite Rmult_1_l. apply cos_ge_0; lra.
    - intros _. rewrite Rmult_1_l. apply sin_ge_0; lra. }
  assert (F1 : PI / 2 + ROUND_OFF_ERR <= phi).
  { destruct (Rle_dec (PI / 2 + ROUND_OFF_ERR) phi); auto. assert (LSSEQL phi (PI / 2) = true) by (apply B; lra). congruence. }
  assert (A1 : GRTEQL phi (PI / 2) = true) by (apply A; lra). rewrite A1. cbn [andb].
  destruct (LSSEQL phi PI) eqn:E2.
  { apply B in E2. exists 1, (-1). repeat split; auto.
    - intros _ _. assert (cos phi <= 0) by (apply cos_le_0; lra). lra.
    - intros Q. assert (phi <= PI). { unfold Rabs in Q. destruct (Rcase_abs (phi - PI)); lra. }
      rewrite Rmult_1_l. apply sin_ge_0; lra. }
  assert (F2 : PI + ROUND_OFF_ERR <= phi).
  { destruct (Rle_dec (PI + ROUND_OFF_ERR) phi); auto. assert (LSSEQL phi PI = true) by (apply B; lra). congruence. }
  assert (A2 : GRTEQL phi PI = true) by (apply A; lra). rewrite A2. cbn [andb].
  assert (SN : forall y, PI <= y <= 2 * PI -> sin y <= 0).
  { intros y Y. replace y with (PI + (y - PI)) by ring. rewrite sin_plus, sin_PI, cos_PI.
    assert (0 <= sin (y - PI)) by (apply sin_ge_0; lra). lra. }
  destruct (LSSEQL phi (3 * PI / 2)) eqn:E3.
  { apply B in E3. exists (-1), (-1). repeat split; auto.
    - intros _ Q. assert (phi <= 3 * PI / 2). { unfold Rabs in Q. destruct (Rcase_abs (phi - 3 * PI / 2)); lra. }
      assert (cos phi <= 0) by (apply cos_le_0; lra). lra.
    - intros _. pose proof (SN phi). lra. }
  assert (F3 : 3 * PI / 2 + ROUND_OFF_ERR <= phi).
  { destruct (Rle_dec (3 * PI / 2 + ROUND_OFF_ERR) phi); auto. assert (LSSEQL phi (3 * PI / 2) = true) by (apply B; lra). congruence. }
  assert (A3 : GRTEQL phi (3 * PI / 2) = true) by (apply A; lra). rewrite A3. cbn [andb].
  assert (A4 : LSS phi (2 * PI) = true) by (apply LSS_iff; lra). rewrite A4.
  exists (-1), 1. repeat split; auto.
  - intros _ _. assert (0 <= cos phi). { replace phi with (2 * PI - (2 * PI - phi)) by ring. rewrite cos_minus, cos_2PI, sin_2PI.
      assert (0 <= cos (2 * PI - phi)) by (apply cos_ge_0; lra). lra. } lra.
  - intros _. pose proof (SN phi). lra.
Qed.
