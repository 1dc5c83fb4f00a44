(** CubedFind.v - C84: the patch and the coordinates of a direction (theta, phi). *)
From Verif Require Import RealBase CubedModel CubedSpec CubedProofs CubedJac CubedDet CubedAngles CubedFinal.
Open Scope R_scope.

Lemma off_axes_signs phi : 0 <= phi < 2 * PI -> off_axes phi ->
  exists ys xs, arctan_argument_signum phi = Some (ys, xs) /\ (ys = 1 \/ ys = -1) /\ (xs = 1 \/ xs = -1) /\
   0 <= xs * cos phi /\ 0 <= ys * sin phi /\ cos phi <> 0 /\ sin phi <> 0.
Proof.
  intros B O. pose proof (O 0%nat ltac:(lia)) as O0. pose proof (O 1%nat ltac:(lia)) as O1. pose proof (O 2%nat ltac:(lia)) as O2.
  pose proof (O 3%nat ltac:(lia)) as O3. pose proof (O 4%nat ltac:(lia)) as O4. cbn [INR] in *. pose proof ROE_pos as RO. pose proof PI_RGT_0 as PP.
  replace (phi - 0 * (PI / 2)) with phi in O0 by ring. replace (phi - 1 * (PI / 2)) with (phi - PI / 2) in O1 by ring.
  replace (phi - (1 + 1) * (PI / 2)) with (phi - PI) in O2 by field. replace (phi - (1 + 1 + 1) * (PI / 2)) with (phi - 3 * PI / 2) in O3 by field.
  replace (phi - (1 + 1 + 1 + 1) * (PI / 2)) with (phi - 2 * PI) in O4 by field.
  rewrite Rabs_right in O0 by lra. rewrite Rabs_left in O4 by lra.
  assert (N : forall a, ROUND_OFF_ERR < Rabs (phi - a) -> phi <> a - ROUND_OFF_ERR /\ phi <> a + ROUND_OFF_ERR /\ phi <> a).
  { intros a Q. unfold Rabs in Q. destruct (Rcase_abs (phi - a)); lra. }
  pose proof (N _ O1). pose proof (N _ O2). pose proof (N _ O3).
  destruct (signum_ok phi) as (ys & xs & E & Y & X & C & S); try lra.
  exists ys, xs. split; auto. split; auto. split; auto. split; [apply C; lra|]. split; [apply S; lra|].
  assert (P2 : 0 < PI / 2) by lra.
  destruct (Rlt_dec phi (PI / 2)).
  { split; [assert (0 < cos phi) by (apply cos_gt_0; lra)|assert (0 < sin phi) by (apply sin_gt_0; lra)]; lra. }
  destruct (Rlt_dec phi PI).
  { split; [assert (cos phi < 0) by (apply cos_lt_0; lra)|assert (0 < sin phi) by (apply sin_gt_0; lra)]; lra. }
  destruct (Rlt_dec phi (3 * PI / 2)).
  { split; [assert (cos phi < 0) by (apply cos_lt_0; lra)|assert (sin phi < 0) by (apply sin_lt_0; lra)]; lra. }
  split; [|assert (sin phi < 0) by (apply sin_lt_0; lra); lra].
  assert (0 < cos phi); [|lra]. replace phi with (2 * PI - (2 * PI - phi)) by ring. rewrite cos_minus, cos_2PI, sin_2PI.
  assert (0 < cos (2 * PI - phi)) by (apply cos_gt_0; lra). lra.
Qed.

Lemma sq_abs a b : a * a = b * b -> Rabs a = Rabs b.
Proof. intros H. apply Rsqr_eq_abs_0. exact H. Qed.
Lemma quot_nonneg a b : 0 <= a -> 0 < b -> 0 <= a / b.
Proof. intros A B. apply Rmult_le_pos; auto. left. apply Rinv_0_lt_compat. auto. Qed.
Lemma sin_sq x : sin x * sin x = 1 - cos x * cos x.
Proof. pose proof (sin2_cos2 x) as Q. unfold Rsqr in Q. lra. Qed.
Lemma dir_comp th ph t s X Y : dir_of th ph = vscale t (ray s X Y) ->
  sin th * cos ph = t * get (ray s X Y) 0 /\ sin th * sin ph = t * get (ray s X Y) 1 /\ cos th = t * get (ray s X Y) 2.
Proof. unfold dir_of, vscale. intros H. apply v3_inj in H. exact H. Qed.

Lemma find_ab_ok s th ph t X Y : 0 < sin th -> cos th <> 0 -> sin ph <> 0 -> cos ph <> 0 -> 0 < t ->
  dir_of th ph = vscale t (ray s X Y) -> exists a b, find_ab s th ph = Some (a, b) /\ Rabs a = Rabs X /\ Rabs b = Rabs Y.
Proof.
  intros S C SP CP T D. apply dir_comp in D. rewrite ray_eq in D.
  set (tt := sin ph / cos ph). set (w := 1 + tt * tt).
  assert (W : w = / (cos ph * cos ph)).
  { unfold w, tt. pose proof (sin_sq ph) as Q.
    replace (1 + sin ph / cos ph * (sin ph / cos ph)) with ((cos ph * cos ph + sin ph * sin ph) / (cos ph * cos ph)) by (field; auto).
    rewrite Q. field. auto. }
  assert (SS := sin_sq th). assert (SSP := sin_sq ph).
  assert (c2 : 0 < cos th * cos th) by nra. assert (p2 : 0 < cos ph * cos ph) by nra. assert (s2 : 0 < sin ph * sin ph) by nra.
  assert (Wp : 0 < w) by (rewrite W; apply Rinv_0_lt_compat; auto). assert (S2 : 0 < sin th * sin th) by nra.
  assert (TN : tt <> 0). { unfold tt, Rdiv. apply Rmult_integral_contrapositive_currified; auto. apply Rinv_neq_0_compat; auto. }
  assert (T2 : 0 < tt * tt) by nra.
  unfold find_ab. rewrite fdiv_some by auto. cbn [fbind]. unfold Pow2. fold tt.
  replace (1 - cos th * cos th) with (sin th * sin th) by lra.
  replace (cos th * cos th + cos th * cos th * (tt * tt)) with (cos th * cos th * w) by (unfold w; ring).
  change (1 + tt * tt) with w.
  assert (M1 : 0 < cos th * cos th * w) by (apply Rmult_lt_0_compat; auto).
  assert (M2 : 0 < sin th * sin th * (tt * tt)) by (apply Rmult_lt_0_compat; auto).
  destruct s; cbn [get] in D; destruct D as (D0 & D1 & D2); rewrite ?fdiv_some by lra; cbn [fbind]; do 2 eexists; (split; [reflexivity|]);
  split; apply sq_abs; try replace (tt * sqrt (sin th * sin th / (cos th * cos th * w)) * (tt * sqrt (sin th * sin th / (cos th * cos th * w))))
     with (tt * tt * (sqrt (sin th * sin th / (cos th * cos th * w)) * sqrt (sin th * sin th / (cos th * cos th * w)))) by ring;
  rewrite ?sqrt_sqrt by (apply quot_nonneg; lra).
  - rewrite W. assert (t = cos th) by lra. subst t. replace X with (sin th * cos ph / cos th) by (rewrite D0; field; auto). field. auto.
  - rewrite W. assert (t = cos th) by lra. subst t. replace Y with (sin th * sin ph / cos th) by (rewrite D1; field; auto). unfold tt. field. auto.
  - rewrite W. assert (E : t = - cos th) by lra. replace X with (sin th * sin ph / t) by (rewrite D1; field; lra). rewrite E. unfold tt. field. auto.
  - rewrite W. assert (E : t = - cos th) by lra. replace Y with (sin th * cos ph / t) by (rewrite D0; field; lra). rewrite E. field. auto.
  - assert (E : t = - (sin th * sin ph)) by lra. replace X with (sin th * cos ph / t) by (rewrite D0; field; lra). rewrite E. unfold tt. field. repeat split; auto; lra.
  - assert (E : t = - (sin th * sin ph)) by lra. replace Y with (cos th / t) by (rewrite D2; field; lra). rewrite E, W. unfold tt. field. repeat split; auto; lra.
  - assert (E : t = sin th * sin ph) by lra. replace X with (cos th / t) by (rewrite D2; field; lra). rewrite E, W. unfold tt. field. repeat split; auto; lra.
  - assert (E : t = sin th * sin ph) by lra. replace Y with (sin th * cos ph / t) by (rewrite D0; field; lra). rewrite E. unfold tt. field. repeat split; auto; lra.
  - assert (E : t = - (sin th * cos ph)) by lra. replace X with (cos th / t) by (rewrite D2; field; lra). rewrite E, W. field. repeat split; auto; lra.
  - assert (E : t = - (sin th * cos ph)) by lra. replace Y with (sin th * sin ph / t) by (rewrite D1; field; lra). rewrite E. unfold tt. field. repeat split; auto; lra.
  - assert (E : t = sin th * cos ph) by lra. replace X with (sin th * sin ph / t) by (rewrite D1; field; lra). rewrite E. unfold tt. field. repeat split; auto; lra.
  - assert (E : t = sin th * cos ph) by lra. replace Y with (cos th / t) by (rewrite D2; field; lra). rewrite E, W. field. repeat split; auto; lra.
Qed.

Lemma sgn_abs e u k x : (e = 1 \/ e = -1) -> 0 <= e * u -> u <> 0 -> 0 < k -> u = k * x -> Rabs x * e = x.
Proof.
  intros E P N K U. subst u. unfold Rabs. destruct (Rcase_abs x); destruct E; subst e; nra.
Qed.
Lemma cs_sign c : c <> 0 -> let e := if ltR 0 c then 1 else -1 in (e = 1 \/ e = -1) /\ 0 <= e * c.
Proof. intros N. cbv zeta. destruct (ltR_spec 0 c); split; auto; lra. Qed.
Lemma find_signs_ok s th ph t X Y : 0 <= ph < 2 * PI -> off_axes ph -> 0 < sin th -> cos th <> 0 -> 0 < t ->
  dir_of th ph = vscale t (ray s X Y) -> exists sa sb, find_signs s th ph = Some (sa, sb) /\ Rabs X * sa = X /\ Rabs Y * sb = Y.
Proof.
  intros B O S C T D. destruct (off_axes_signs ph B O) as (ys & xs & E & Ey & Ex & Cx & Cy & Nx & Ny).
  apply dir_comp in D. rewrite ray_eq in D. unfold find_signs. rewrite E. cbn [fbind].
  destruct (cs_sign (cos th) C) as [Ec Cc]. set (e := if ltR 0 (cos th) then 1 else -1) in *. cbv zeta in *.
  assert (K : 0 < t / sin th) by (apply Rdiv_lt_0_compat; auto).
  destruct s; cbn [get] in D; destruct D as (D0 & D1 & D2); do 2 eexists; (split; [reflexivity|]); split.
  1,5: apply (sgn_abs xs (cos ph) (t / sin th)); auto; apply Rmult_eq_reg_l with (sin th); [rewrite D0; field|]; lra.
  1,8: apply (sgn_abs ys (sin ph) (t / sin th)); auto; apply Rmult_eq_reg_l with (sin th); [rewrite D1; field|]; lra.
  1: apply (sgn_abs ys (sin ph) (t / sin th)); auto; apply Rmult_eq_reg_l with (sin th); [rewrite D1; field|]; lra.
  1: apply (sgn_abs xs (cos ph) (t / sin th)); auto; apply Rmult_eq_reg_l with (sin th); [rewrite D0; field|]; lra.
  1: apply (sgn_abs e (cos th) t); auto.
  1: apply (sgn_abs e (cos th) t); auto.
  1: apply (sgn_abs xs (cos ph) (t / sin th)); auto; apply Rmult_eq_reg_l with (sin th); [rewrite D0; field|]; lra.
  1: apply (sgn_abs e (cos th) t); auto.
  1: apply (sgn_abs ys (sin ph) (t / sin th)); auto; apply Rmult_eq_reg_l with (sin th); [rewrite D1; field|]; lra.
  1: apply (sgn_abs e (cos th) t); auto.
Qed.

Lemma rs_vnorm v : root_square3 v zero3 = vnorm v.
Proof. destruct v as [[a b] c]. unfold root_square3, vnorm, vdot, Pow2, zero3. cbn. f_equal. ring. Qed.
Lemma vnorm_scale h v : 0 <= h -> vnorm (vscale h v) = h * vnorm v.
Proof.
  intros H. destruct v as [[a b] c]. unfold vnorm, vdot, vscale. cbn.
  replace (h * a * (h * a) + h * b * (h * b) + h * c * (h * c)) with (h * h * (a * a + b * b + c * c)) by ring.
  rewrite sqrt_mult by nra. rewrite sqrt_square by auto. reflexivity.
Qed.
Lemma vnorm_dir th ph : vnorm (dir_of th ph) = 1.
Proof.
  unfold vnorm, vdot, dir_of. cbn. replace (_ + _ + _) with (sin th * sin th * (cos ph * cos ph + sin ph * sin ph) + cos th * cos th) by ring.
  rewrite (sin_sq ph), (sin_sq th). replace (_ + _) with 1 by ring. apply sqrt_1.
Qed.
Lemma dir_scale th ph t v : 0 < t -> dir_of th ph = vscale t v -> t = / vnorm v.
Proof.
  intros T E. assert (Q : t * vnorm v = 1). { rewrite <- vnorm_scale by lra. rewrite <- E. apply vnorm_dir. }
  apply Rmult_eq_reg_r with (vnorm v). 2: intros Z; rewrite Z in Q; lra. rewrite Rinv_l; auto. intros Z; rewrite Z in Q; lra.
Qed.
Lemma dir_unique th ph th' ph' : 0 <= th <= PI -> 0 <= th' <= PI -> 0 <= ph < 2 * PI -> 0 <= ph' < 2 * PI -> 0 < sin th ->
  dir_of th ph = dir_of th' ph' -> th = th' /\ ph = ph'.
Proof.
  intros A B C D S E. unfold dir_of in E. apply v3_inj in E. destruct E as (E0 & E1 & E2).
  assert (T : th = th') by (rewrite <- (acos_cos th), <- (acos_cos th') by lra; rewrite E2; reflexivity). subst th'. split; auto.
  apply angle_unique; auto; apply Rmult_eq_reg_l with (sin th); auto; lra.
Qed.

(** the point of the patch, seen from the centre *)
Lemma find_ok_true P th ph Z X Y h1 h2 h t : 0 < th < PI -> 0 <= ph < 2 * PI -> 0 < t ->
  dir_of th ph = vscale t (ray (cs_side P) X Y) ->
  inner P X Y h1 -> outer P X Y h2 -> 0 < h1 < h2 -> 0 < h -> height P h1 h2 Z h -> clean3 (X, Y, Z) (cs_min P) (cs_max P) ->
  ROUND_OFF_ERR <= Rabs (h * get (ray (cs_side P) X Y) 0) -> ROUND_OFF_ERR <= Rabs (h * get (ray (cs_side P) X Y) 1) ->
  find_ok (cs_c P) th ph P (X, Y, Z) = true.
Proof.
  intros A B T D H1 H2 L Hp Hh K N0 N1. unfold find_ok. unfold x_of_X. rewrite (to_cart P X Y Z h1 h2 h 1) by auto.
  set (v := (_, _, _)). assert (V : v = vscale h (ray (cs_side P) X Y)).
  { unfold v, point, vadd, vscale. destruct (cs_c P) as [[c0 c1] c2]. destruct (ray (cs_side P) X Y) as [[r0 r1] r2]. cbn. f_equal; [f_equal|]; ring. }
  rewrite V. rewrite rs_vnorm. pose proof (dist1_pos X Y) as DP. pose proof (vnorm_ray (cs_side P) X Y) as VR.
  set (r := ray (cs_side P) X Y) in *. assert (VP : 0 < vnorm (vscale h r)). { rewrite vnorm_scale by lra. rewrite VR. apply Rmult_lt_0_compat; auto. }
  rewrite fdiv_some by lra.
  destruct (polar (h * get r 0) (h * get r 1) (h * get r 2)) as (Ta & Tb & Td).
  { right; auto. } { right; auto. } { intros Q. change (vnorm (vscale h r) = 0) in Q. lra. }
  change (h * get r 0, h * get r 1, h * get r 2) with (vscale h r) in Td, Ta.
  assert (E : dir_of th ph = dir_of (acos (h * get r 2 / vnorm (vscale h r))) (arctan (h * get r 1) (h * get r 0))).
  { rewrite Td, D. rewrite (dir_scale th ph t r T D). rewrite vnorm_scale by lra. unfold vscale. cbn [get].
    assert (vnorm r <> 0) by lra. f_equal; [f_equal|]; field; lra. }
  destruct (dir_unique th ph _ _ ltac:(lra) Ta B Tb (sin_gt_0 th (proj1 A) (proj2 A)) E) as [E1 E2].
  unfold vscale at 1 3 4. cbn [get]. rewrite <- E1, <- E2, !EQL_refl. reflexivity.
Qed.

Theorem find_sound : forall Z center th ph ps i X, find_XYZ_and_patch_of_theta_phi_CS Z center th ph ps = Some (i, X) ->
  exists P x, nth_error ps i = Some P /\ get X 2 = Z /\ x_of_X X (CS P) = (true, Some x) /\
    let v := vadd x (vscale (-1) center) in
    (not_tiny (get v 0) -> not_tiny (get v 1) ->
     exists th' ph', 0 <= th' <= PI /\ 0 <= ph' < 2 * PI /\ vscale (/ vnorm v) v = dir_of th' ph' /\ Rabs (th' - th) < ROUND_OFF_ERR /\ Rabs (ph' - ph) < ROUND_OFF_ERR).
Proof.
  intros Z center th ph ps i X. unfold find_XYZ_and_patch_of_theta_phi_CS.
  assert (G : forall ps k, find_XYZ_loop Z center th ph ps k = Some (i, X) -> (k <= i)%nat /\
     exists P, nth_error ps (i - k) = Some P /\ get X 2 = Z /\ find_ok center th ph P X = true).
  { induction ps0 as [|P ps0 IH]; intros k H; cbn [find_XYZ_loop] in H; [discriminate|].
    destruct (find_signs (cs_side P) th ph) as [[sa sb]|]; [|discriminate]. cbn [fbind] in H.
    assert (Next : find_XYZ_loop Z center th ph ps0 (S k) = Some (i, X) -> (k <= i)%nat /\
     exists P', nth_error (P :: ps0) (i - k) = Some P' /\ get X 2 = Z /\ find_ok center th ph P' X = true).
    { intros Q. destruct (IH _ Q) as [L (P' & N & R)]. split; [lia|]. exists P'. split; auto. replace (i - k)%nat with (S (i - S k)) by lia. exact N. }
    destruct (find_ab (cs_side P) th ph) as [[a b]|]; auto.
    destruct (find_ok center th ph P (Rabs a * sa, Rabs b * sb, Z)) eqn:F; auto. injection H as <- <-.
    split; auto. exists P. rewrite Nat.sub_diag. auto. }
  intros H. destruct (G ps 0%nat H) as [_ (P & N & Ez & F)]. rewrite Nat.sub_0_r in N.
  unfold find_ok in F. destruct (x_of_X X (CS P)) as [ins [x|]] eqn:E; [|discriminate].
  exists P, x. split; auto. split; auto. set (v := (_, _, _)) in F. rewrite rs_vnorm in F.
  assert (V : vadd x (vscale (-1) center) = v). { unfold v, vadd, vscale. cbn [get]. destruct x as [[a b] c]. cbn [get]. f_equal; [f_equal|]; ring. }
  cbv zeta. rewrite V. destruct (fdiv (get v 2) (vnorm v)) as [w|] eqn:W; [|discriminate].
  rewrite !andb_true_iff in F. destruct F as ((F1 & F2) & ->). split; auto. intros T0 T1.
  apply fdiv_nz in W. destruct W as [Wn ->].
  destruct v as [[v0 v1] v2]. cbn [get] in *. destruct (polar v0 v1 v2 T0 T1 Wn) as (A & B & C).
  exists (acos (v2 / vnorm (v0, v1, v2))), (arctan v1 v0). rewrite C. apply EQL_iff in F1, F2. auto.
Qed.

Theorem find_complete : forall Z th ph ps P X Y h1 h2 h t,
  0 < th < PI -> cos th <> 0 -> 0 <= ph < 2 * PI -> off_axes ph -> In P ps ->
  0 < t -> dir_of th ph = vscale t (ray (cs_side P) X Y) ->
  inner P X Y h1 -> outer P X Y h2 -> 0 < h1 < h2 -> 0 < h -> height P h1 h2 Z h -> clean3 (X, Y, Z) (cs_min P) (cs_max P) ->
  ROUND_OFF_ERR <= Rabs (h * get (ray (cs_side P) X Y) 0) -> ROUND_OFF_ERR <= Rabs (h * get (ray (cs_side P) X Y) 1) ->
  exists i X', find_XYZ_and_patch_of_theta_phi_CS Z (cs_c P) th ph ps = Some (i, X') /\
    (nth_error ps i = Some P -> X' = (X, Y, Z)) /\ (forall j, nth_error ps j = Some P -> (i <= j)%nat).
Proof.
  intros Z th ph ps P X Y h1 h2 h t A C B O I T D H1 H2 L Hp Hh K N0 N1.
  assert (S : 0 < sin th) by (apply sin_gt_0; lra).
  destruct (off_axes_signs ph B O) as (ys & xs & Es & _ & _ & _ & _ & Nx & Ny).
  assert (XY : exists sa sb a b, find_signs (cs_side P) th ph = Some (sa, sb) /\ find_ab (cs_side P) th ph = Some (a, b) /\ Rabs a * sa = X /\ Rabs b * sb = Y).
  { destruct (find_signs_ok (cs_side P) th ph t X Y) as (sa & sb & Q & QX & QY); auto.
    destruct (find_ab_ok (cs_side P) th ph t X Y) as (a & b & R & RX & RY); auto. exists sa, sb, a, b. rewrite RX, RY. auto. }
  destruct XY as (sa & sb & a & b & Q & R & EX & EY).
  pose proof (find_ok_true P th ph Z X Y h1 h2 h t A B T D H1 H2 L Hp Hh K N0 N1) as F.
  unfold find_XYZ_and_patch_of_theta_phi_CS.
  assert (G : forall qs k, In P qs -> exists i X', find_XYZ_loop Z (cs_c P) th ph qs k = Some (i, X') /\ (k <= i)%nat /\
     (nth_error qs (i - k) = Some P -> X' = (X, Y, Z)) /\ (forall j, nth_error qs j = Some P -> (i - k <= j)%nat)).
  { induction qs as [|P' qs IH]; intros k J; [destruct J|]. cbn [find_XYZ_loop].
    assert (FS : exists z, find_signs (cs_side P') th ph = Some z) by (unfold find_signs; rewrite Es; cbn [fbind]; eauto).
    destruct FS as [[sa' sb'] FS].
    assert (Next : (nth_error (P' :: qs) 0 <> Some P) -> exists i X', find_XYZ_loop Z (cs_c P) th ph qs (Datatypes.S k) = Some (i, X') /\ (k <= i)%nat /\
     (nth_error (P' :: qs) (i - k) = Some P -> X' = (X, Y, Z)) /\ (forall j, nth_error (P' :: qs) j = Some P -> (i - k <= j)%nat)).
    { intros NP. destruct J as [->|J]; [contradiction NP; reflexivity|]. destruct (IH (Datatypes.S k) J) as (i & X' & E & Li & E1 & E2). exists i, X'. split; auto. split; [lia|].
      replace (i - k)%nat with (Datatypes.S (i - Datatypes.S k)) by lia. split; [exact E1|]. intros [|j] Ej; [contradiction|]. cbn in Ej. apply E2 in Ej. lia. }
    assert (Hd : nth_error (P' :: qs) 0 = Some P -> P' = P) by (cbn; congruence).
    destruct (find_ab (cs_side P') th ph) as [[a' b']|] eqn:FA.
    - destruct (find_ok (cs_c P) th ph P' (Rabs a' * sa', Rabs b' * sb', Z)) eqn:FO.
      + exists k, (Rabs a' * sa', Rabs b' * sb', Z). rewrite FS. cbn [fbind]. rewrite FO. split; auto. split; auto. rewrite Nat.sub_diag. split; [|intros; lia].
        intros E. apply Hd in E. subst P'. rewrite Q in FS. injection FS as <- <-. rewrite R in FA. injection FA as <- <-. rewrite EX, EY. reflexivity.
      + destruct Next as (i & X' & E & Rest).
        { intros E. apply Hd in E. subst P'. rewrite Q in FS. injection FS as <- <-. rewrite R in FA. injection FA as <- <-. rewrite EX, EY in FO. congruence. }
        exists i, X'. rewrite FS. cbn [fbind]. rewrite FO. auto.
    - destruct Next as (i & X' & E & Rest).
      { intros E. apply Hd in E. subst P'. congruence. }
      exists i, X'. rewrite FS. cbn [fbind]. auto. }
  destruct (G ps 0%nat I) as (i & X' & E & _ & E1 & E2). rewrite Nat.sub_0_r in *. exists i, X'. auto.
Qed.

Theorem c84_refuted :
  (forall y x, 0 < Rabs y < ROUND_OFF_ERR -> ROUND_OFF_ERR <= x -> sin (arctan y x) = 0 /\ hyp x y * sin (arctan y x) <> y) /\
  (forall phi, 2 * PI - ROUND_OFF_ERR <= phi < 2 * PI -> arctan_argument_signum phi = None) /\
  arctan_argument_signum ROUND_OFF_ERR = None.
Proof.
  pose proof ROE_pos as RO. pose proof PI_RGT_0 as PP. assert (P3 : 3 < PI) by (pose proof PI2_3_2; lra).
  assert (RS : ROUND_OFF_ERR < / 10) by (unfold ROUND_OFF_ERR; lra).
  assert (NG : forall x y, x <= y - ROUND_OFF_ERR \/ x = y + ROUND_OFF_ERR -> GRTEQL x y = false).
  { intros x y H. destruct (GRTEQL x y) eqn:E; auto. apply GRTEQL_iff in E. lra. }
  assert (NL : forall x y, y + ROUND_OFF_ERR <= x -> LSSEQL x y = false).
  { intros x y H. destruct (LSSEQL x y) eqn:E; auto. apply LSSEQL_iff in E. lra. }
  split; [|split].
  - intros y x [Y1 Y2] X. assert (E : arctan y x = 0).
    { unfold arctan. assert (EQL x 0 = false) as ->. { apply EQL_false. rewrite Rminus_0_r, Rabs_right; lra. }
      destruct (ltR_spec 0 x); [|lra]. assert (EQL y 0 = true) as ->; auto. apply EQL_iff. rewrite Rminus_0_r. auto. }
    rewrite E, sin_0. split; auto. rewrite Rmult_0_r. intros Q. rewrite <- Q, Rabs_R0 in Y1. lra.
  - intros phi B. unfold arctan_argument_signum. destruct (ltR_spec phi 0); [lra|]. destruct (leR_spec (2 * PI) phi); [lra|]. cbn [orb].
    rewrite (NL phi (PI / 2)), (NL phi PI), (NL phi (3 * PI / 2)) by lra. rewrite !andb_false_r.
    assert (LSS phi (2 * PI) = false) as ->. { unfold LSS. destruct (ltR_spec phi (2 * PI - ROUND_OFF_ERR)); auto. lra. } rewrite andb_false_r. reflexivity.
  - unfold arctan_argument_signum. destruct (ltR_spec ROUND_OFF_ERR 0); [lra|]. destruct (leR_spec (2 * PI) ROUND_OFF_ERR); [lra|]. cbn [orb].
    rewrite !NG by lra. reflexivity.
Qed.
(** the direction (1/2, 1/2, 1) in the shell of radii 1 and 2 *)
Theorem c84_example : exists th ph X Y h i X', off_axes ph /\ cos th <> 0 /\ dir_of th ph = vscale (/ vnorm (ray UP X Y)) (ray UP X Y) /\
  clean3 (X, Y, 0) (cs_min ex_shell) (cs_max ex_shell) /\ x_of_X (X, Y, 0) (CS ex_shell) = (true, Some (point UP (0, 0, 0) h X Y)) /\
  find_XYZ_and_patch_of_theta_phi_CS 0 (0, 0, 0) th ph [ex_shell] = Some (i, X').
Proof.
  set (X := 1 / 2). set (Y := 1 / 2). pose proof (dist1_pos X Y) as D. pose proof (vnorm_ray UP X Y) as V.
  assert (D2 : dist1 X Y < 2). { assert (dist1 X Y * dist1 X Y = 3 / 2) by (rewrite dist1_sq; unfold X, Y; field). nra. }
  set (th := acos (1 / dist1 X Y)). assert (B1 : 0 < 1 / dist1 X Y < 1).
  { split; [apply Rdiv_lt_0_compat; lra|]. apply Rmult_lt_reg_r with (dist1 X Y); auto. unfold Rdiv. rewrite Rmult_assoc, Rinv_l by lra.
    assert (1 < dist1 X Y). { assert (dist1 X Y * dist1 X Y = 3 / 2) by (rewrite dist1_sq; unfold X, Y; field). nra. } lra. }
  assert (PI3 : 3 < PI) by (pose proof PI2_3_2; lra). pose proof ROE_pos as RO. assert (RS : ROUND_OFF_ERR < / 10) by (unfold ROUND_OFF_ERR; lra).
  assert (C : cos th = 1 / dist1 X Y) by (apply cos_acos; lra).
  assert (TB : 0 < th < PI).
  { pose proof (acos_bound (1 / dist1 X Y)) as Q. fold th in Q. split.
    - destruct (Req_dec th 0) as [E|]; [rewrite E, cos_0 in C; lra|lra].
    - destruct (Req_dec th PI) as [E|]; [rewrite E, cos_PI in C; lra|lra]. }
  assert (S : sin th = sqrt (1 / 2) / dist1 X Y).
  { assert (Q : sin th * sin th = (sqrt (1 / 2) / dist1 X Y) * (sqrt (1 / 2) / dist1 X Y)).
    { rewrite sin_sq, C. replace (sqrt (1 / 2) / dist1 X Y * (sqrt (1 / 2) / dist1 X Y)) with (sqrt (1 / 2) * sqrt (1 / 2) / (dist1 X Y * dist1 X Y)) by (field; lra).
      rewrite sqrt_sqrt by lra. replace (1 / dist1 X Y * (1 / dist1 X Y)) with (1 / (dist1 X Y * dist1 X Y)) by (field; lra). rewrite dist1_sq. unfold X, Y. field. }
    assert (0 < sin th) by (apply sin_gt_0; lra). assert (0 < sqrt (1 / 2) / dist1 X Y) by (apply Rdiv_lt_0_compat; auto; apply sqrt_lt_R0; lra). nra. }
  assert (Q2 : sqrt (1 / 2) * (1 / sqrt 2) = 1 / 2).
  { assert (0 < sqrt 2) by (apply sqrt_lt_R0; lra). replace (1 / 2) with (/ 2) at 1 by field. rewrite <- inv_sqrt_depr by lra.
    replace (/ sqrt 2 * (1 / sqrt 2)) with (/ (sqrt 2 * sqrt 2)) by (field; lra). rewrite sqrt_sqrt by lra. field. }
  assert (Dir : dir_of th (PI / 4) = vscale (/ vnorm (ray UP X Y)) (ray UP X Y)).
  { rewrite V, ray_eq. unfold dir_of, vscale. cbn [get]. rewrite S, C, cos_PI4, sin_PI4.
    replace (sqrt (1 / 2) / dist1 X Y * (1 / sqrt 2)) with (sqrt (1 / 2) * (1 / sqrt 2) / dist1 X Y) by (unfold Rdiv; ring).
    rewrite Q2. change (1 / 2) with X at 1. change (1 / 2) with Y at 1. generalize D. generalize (dist1 X Y). intros dd Dd.
    apply f_equal2; [apply f_equal2|]; unfold X, Y; field; lra. }
  assert (OA : off_axes (PI / 4)).
  { intros k K. unfold Rabs. destruct k as [|[|[|[|[|]]]]]; try lia; cbn [INR]; destruct (Rcase_abs _); lra. }
  assert (I1 : inner ex_shell X Y (1 / dist1 X Y)) by (cbn; field; lra).
  assert (I2 : outer ex_shell X Y (2 / dist1 X Y)) by (cbn; field; lra).
  assert (L : 0 < 1 / dist1 X Y < 2 / dist1 X Y) by (split; [lra|]; apply Rmult_lt_compat_r; [apply Rinv_0_lt_compat|]; lra).
  assert (Hh : height ex_shell (1 / dist1 X Y) (2 / dist1 X Y) 0 (1 / dist1 X Y)) by (split; [intros _; ring|intros N; exfalso; apply N; exact I]).
  assert (K : clean3 (X, Y, 0) (cs_min ex_shell) (cs_max ex_shell)).
  { intros i Li. unfold clean, ROUND_OFF_ERR, X, Y. destruct i as [|[|[|]]]; try lia; cbn; (split; [lra|]); split; auto; right; lra. }
  assert (Big : / 1000000000000 <= Rabs (1 / dist1 X Y * (1 / 2))).
  { rewrite Rabs_right by lra. assert (1 / 2 < 1 / dist1 X Y); [|lra]. apply Rmult_lt_compat_l; [lra|]. apply Rinv_lt_contravar; lra. }
  destruct (find_complete 0 th (PI / 4) [ex_shell] ex_shell X Y (1 / dist1 X Y) (2 / dist1 X Y) (1 / dist1 X Y) (/ vnorm (ray UP X Y))) as (i & X' & E & _); auto; try lra.
  { left; auto. } { rewrite V. apply Rinv_0_lt_compat; auto. }
  { cbn [cs_side ex_shell]. rewrite ray_eq. exact Big. } { cbn [cs_side ex_shell]. rewrite ray_eq. exact Big. }
  exists th, (PI / 4), X, Y, (1 / dist1 X Y), i, X'. repeat split; auto; try lra; try apply K; auto.
  unfold x_of_X. apply (to_cart ex_shell X Y 0 (1 / dist1 X Y) (2 / dist1 X Y) (1 / dist1 X Y) 1); auto. lra.
Qed.
