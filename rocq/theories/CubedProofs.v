From Verif Require Import RealBase CubedModel CubedSpec.
Open Scope R_scope.

Lemma dist1_pos X Y : 0 < dist1 X Y.
Proof. apply sqrt_lt_R0. nra. Qed.
Lemma dist1_sq X Y : dist1 X Y * dist1 X Y = 1 + X * X + Y * Y.
Proof. apply sqrt_sqrt. nra. Qed.
Lemma unset_true x : unset x = true <-> x = DBL_MAX.
Proof. unfold unset. destruct (Req_EM_T x DBL_MAX); split; intros; auto; discriminate. Qed.
Lemma unset_false x : unset x = false <-> x <> DBL_MAX.
Proof. unfold unset. destruct (Req_EM_T x DBL_MAX); split; intros; auto; try discriminate; contradiction. Qed.
Lemma sgn_sq s : sgn s * sgn s = 1.
Proof. destruct s; cbn; lra. Qed.
Lemma sgn_nz s : sgn s <> 0.
Proof. destruct s; cbn; lra. Qed.
Lemma is_out_iff P : is_out (cs_ty P) = true <-> outermost P.
Proof. unfold outermost. destruct (cs_ty P); cbn; intuition discriminate. Qed.

Lemma some3 (a b c a' b' c' : R) : a = a' -> b = b' -> c = c' -> Some (a, b, c) = Some (a', b', c').
Proof. intros -> -> ->. reflexivity. Qed.
Lemma lin_ends_ok P X Y h1 h2 : is_out (cs_ty P) = false -> inner P X Y h1 -> outer P X Y h2 ->
  lin_ends P (sgn (cs_side P)) (dist1 X Y) X Y = Some (sgn (cs_side P) * h1, sgn (cs_side P) * h2).
Proof.
  intros E H1 H2. pose proof (dist1_pos X Y) as D.
  unfold lin_ends, inner, outer, flat_or_surf in *. destruct (cs_ty P); try discriminate.
  - destruct H1 as [[U ->]|[U F]]; destruct H2 as [[V ->]|[V G]].
    + rewrite (proj2 (unset_false _) U), (proj2 (unset_false _) V). reflexivity.
    + rewrite (proj2 (unset_false _) U), (proj2 (unset_true _) V), G. cbn. do 3 f_equal. field. lra.
    + rewrite (proj2 (unset_true _) U), (proj2 (unset_false _) V), F. cbn. do 3 f_equal. field. lra.
    + rewrite (proj2 (unset_true _) U), (proj2 (unset_true _) V), F, G. cbn. do 2 f_equal; field; lra.
  - rewrite H1, H2. cbn. do 2 f_equal. field. lra.
  - rewrite H1, H2. cbn. do 2 f_equal. field. lra.
Qed.
Lemma out_ends_ok P X Y h1 h2 : is_out (cs_ty P) = true -> inner P X Y h1 -> outer P X Y h2 -> h1 <> 0 -> h2 <> 0 ->
  out_ends P (sgn (cs_side P)) (dist1 X Y) X Y = Some (sgn (cs_side P) * h1, 1 - h1 / h2).
Proof.
  intros E H1 H2 N1 N2. pose proof (dist1_pos X Y) as D. pose proof (sgn_sq (cs_side P)) as Q.
  assert (N : h2 * dist1 X Y <> 0) by (apply Rmult_integral_contrapositive_currified; lra).
  unfold out_ends, inner, outer in *. destruct (cs_ty P); try discriminate.
  - destruct H1 as [U F]. rewrite F, H2. cbn. rewrite fdiv_some by auto. cbn. do 2 f_equal.
    + f_equal. destruct (unset (cs_xc1 P)) eqn:V.
      * field. lra.
      * apply unset_false in V. rewrite (U V). reflexivity.
    + field. split; lra.
  - rewrite H1, H2. rewrite fdiv_some by auto. cbn. do 2 f_equal.
    replace (sgn (cs_side P) * dist1 X Y * (sgn (cs_side P) * h1)) with (dist1 X Y * (sgn (cs_side P) * sgn (cs_side P) * h1)) by ring.
    rewrite Q. field. split; lra.
  - rewrite H1, H2. rewrite fdiv_some by auto. cbn. do 2 f_equal; field; try split; lra.
Qed.

Lemma d_eq X Y : sqrt (1 + Pow2 X + Pow2 Y) = dist1 X Y.
Proof. reflexivity. Qed.

Lemma sip_sgn s a b c g : sip s = (a, b, c, g) -> g = sgn s.
Proof. destruct s; cbn; intros E; inversion E; reflexivity. Qed.

(** The height that the code computes. *)
Definition hgt (P : cs_patch) (h1 h2 Z : R) : R :=
  if is_out (cs_ty P) then h1 / (1 - (1 - h1 / h2) * Z) else h1 + (h2 - h1) * Z.
Lemma hgt_unique P h1 h2 Z h : 0 < h1 -> 0 < h2 -> 0 < h -> height P h1 h2 Z h ->
  h = hgt P h1 h2 Z /\ (is_out (cs_ty P) = true -> 1 - (1 - h1 / h2) * Z <> 0).
Proof.
  intros A B C [O L]. unfold hgt. destruct (is_out (cs_ty P)) eqn:E.
  - apply is_out_iff in E. specialize (O E).
    assert (Q : 1 - (1 - h1 / h2) * Z = h1 * / h). { rewrite O. field. lra. }
    assert (0 < h1 * / h). { apply Rmult_lt_0_compat; auto. apply Rinv_0_lt_compat; auto. }
    split; [|intros _; lra]. rewrite Q. field. split; lra.
  - assert (N : ~ outermost P) by (intros N; apply is_out_iff in N; congruence).
    specialize (L N). split; [lra|discriminate].
Qed.

Lemma forward P X Y Z h1 h2 h : inner P X Y h1 -> outer P X Y h2 -> 0 < h1 -> 0 < h2 -> 0 < h -> height P h1 h2 Z h ->
  x_of_X_CS0 P (X, Y, Z) = Some (point (cs_side P) (cs_c P) h X Y).
Proof.
  intros H1 H2 A B C H. destruct (hgt_unique P h1 h2 Z h A B C H) as [Eh Nz].
  unfold x_of_X_CS0. cbn [get fst snd].
  destruct (sip (cs_side P)) as [[[a b] c] g] eqn:Es. pose proof (sip_sgn _ _ _ _ _ Es) as ->.
  rewrite d_eq. unfold hgt in Eh.
  assert (Q : (if is_out (cs_ty P)
     then (let? (x1, ratio) := out_ends P (sgn (cs_side P)) (dist1 X Y) X Y in fdiv x1 (1 - ratio * Z))
     else (let? (x1, x2) := lin_ends P (sgn (cs_side P)) (dist1 X Y) X Y in Some (x1 + (x2 - x1) * Z)))
     = Some (sgn (cs_side P) * h)).
  { destruct (is_out (cs_ty P)) eqn:E.
    - rewrite (out_ends_ok P X Y h1 h2) by (auto; lra). cbn [fbind]. rewrite fdiv_some by auto.
      f_equal. rewrite Eh. unfold Rdiv. ring.
    - rewrite (lin_ends_ok P X Y h1 h2) by auto. cbn [fbind]. f_equal. rewrite Eh. ring. }
  rewrite Q. cbn [fbind]. destruct (cs_c P) as [[c0 c1] c2].
  unfold point, vadd, vscale, ray. destruct (cs_side P); inversion Es; subst a b c; cbn; apply some3; ring.
Qed.

(** and backward *)
Definition frac (P : cs_patch) (h1 h2 h : R) : R :=
  if is_out (cs_ty P) then (1 - h1 / h) / (1 - h1 / h2) else (h - h1) / (h2 - h1).
Lemma frac_hgt P h1 h2 Z h : 0 < h1 -> h1 < h2 -> 0 < h -> (frac P h1 h2 h = Z <-> height P h1 h2 Z h).
Proof.
  intros A B C. unfold frac, height. destruct (is_out (cs_ty P)) eqn:E.
  - assert (Q : 0 < 1 - h1 / h2).
    { replace (1 - h1 / h2) with ((h2 - h1) * / h2) by (field; lra).
      apply Rmult_lt_0_compat; [lra|]. apply Rinv_0_lt_compat; lra. }
    split.
    + intros <-. split; [intros _|intros N; exfalso; apply N; apply is_out_iff; auto].
      field. repeat split; try lra.
    + intros [O _]. apply is_out_iff in E. specialize (O E).
      assert (h1 / h = 1 - Z + Z * (h1 / h2)).
      { unfold Rdiv at 1. rewrite O. field. lra. }
      rewrite H. field. repeat split; lra.
  - assert (N : ~ outermost P) by (intros N; apply is_out_iff in N; congruence).
    split.
    + intros <-. split; [intros M; contradiction|intros _]. field. lra.
    + intros [_ L]. rewrite (L N). field. lra.
Qed.

Lemma backward P X Y h1 h2 h : inner P X Y h1 -> outer P X Y h2 -> 0 < h1 -> h1 < h2 -> 0 < h ->
  X_raw P (point (cs_side P) (cs_c P) h X Y) = Some (X, Y, frac P h1 h2 h).
Proof.
  intros H1 H2 A B C. pose proof (sgn_sq (cs_side P)) as SQ. pose proof (sgn_nz (cs_side P)) as SN.
  unfold X_raw. destruct (sip (cs_side P)) as [[[i j] k] g] eqn:Es. pose proof (sip_sgn _ _ _ _ _ Es) as ->.
  set (p := point _ _ _ _ _).
  set (x := (get p 0 - get (cs_c P) 0, get p 1 - get (cs_c P) 1, get p 2 - get (cs_c P) 2)).
  assert (G : get x i = h * X /\ get x j = h * Y /\ get x k = sgn (cs_side P) * h).
  { unfold x, p. destruct (cs_c P) as [[c0 c1] c2]. unfold point, vadd, vscale, ray.
    destruct (cs_side P); inversion Es; subst i j k; cbn; repeat split; ring. }
  destruct G as (-> & -> & ->).
  assert (N : sgn (cs_side P) * h <> 0) by (apply Rmult_integral_contrapositive_currified; lra).
  rewrite !fdiv_some by auto. cbn [fbind].
  replace (sgn (cs_side P) * (h * X) / (sgn (cs_side P) * h)) with X by (field; lra).
  replace (sgn (cs_side P) * (h * Y) / (sgn (cs_side P) * h)) with Y by (field; lra).
  rewrite d_eq. unfold frac. destruct (is_out (cs_ty P)) eqn:E.
  - rewrite (out_ends_ok P X Y h1 h2) by (auto; lra). cbn [fbind]. rewrite fdiv_some by auto. cbn [fbind].
    rewrite fdiv_some.
    + cbn. do 3 f_equal. field. lra.
    + replace (1 - h1 / h2) with ((h2 - h1) * / h2) by (field; lra).
      apply Rmult_integral_contrapositive_currified; [lra|]. apply Rinv_neq_0_compat; lra.
  - rewrite (lin_ends_ok P X Y h1 h2) by auto. cbn [fbind]. rewrite fdiv_some.
    + cbn. do 2 f_equal. field. split; [lra|]. intros Q.
      assert (Z0 : sgn (cs_side P) * (h2 - h1) = 0) by lra. apply Rmult_integral in Z0. lra.
    + replace (sgn (cs_side P) * h2 - sgn (cs_side P) * h1) with (sgn (cs_side P) * (h2 - h1)) by ring.
      apply Rmult_integral_contrapositive_currified; lra.
Qed.

Lemma adjust_clean x mn mx : clean x mn mx -> adjust x mn mx = x.
Proof.
  intros ((L & U) & [->|A] & [E|B]); unfold adjust; pose proof ROE_pos as R.
  - subst. rewrite EQL_refl, EQL_refl. reflexivity.
  - destruct (EQL mn mx) eqn:Q.
    + apply EQL_iff in Q. apply Rabs_def2 in Q. lra.
    + rewrite EQL_refl. reflexivity.
  - subst. rewrite EQL_refl. destruct (EQL mx mn) eqn:Q; auto.
    apply EQL_iff in Q. apply Rabs_def2 in Q. lra.
  - destruct (EQL x mx) eqn:Q.
    + apply EQL_iff in Q. apply Rabs_def2 in Q. lra.
    + destruct (EQL x mn) eqn:Q'; auto. apply EQL_iff in Q'. apply Rabs_def2 in Q'. lra.
Qed.
Lemma clamp_in x mn mx : mn <= x <= mx -> clampC x mn mx = x.
Proof.
  intros [L U]. unfold clampC. destruct (ltR_spec mx x); [lra|]. destruct (ltR_spec x mn); [lra|]. reflexivity.
Qed.
Lemma clamp_range x mn mx : mn <= mx -> mn <= clampC x mn mx <= mx.
Proof.
  intros L. unfold clampC. destruct (ltR_spec mx x).
  - destruct (ltR_spec mx mn); lra.
  - destruct (ltR_spec x mn); lra.
Qed.
Lemma rs_refl v : root_square3 v v = 0.
Proof.
  unfold root_square3, Pow2. replace (0 + _ + _ + _) with 0 by ring. apply sqrt_0.
Qed.
Lemma rs_nonneg v w : 0 <= root_square3 v w.
Proof. apply sqrt_pos. Qed.

Lemma lsseql_in x y e : 0 < e -> x <= y -> x <> y - e -> LSSEQL_coord x y e = true.
Proof.
  intros E L N. unfold LSSEQL_coord, LSS_coord, EQL_coord.
  destruct (ltR_spec x (y - e)); cbn; auto. destruct (ltR_spec x (y + e)); [|lra]. destruct (ltR_spec (y - e) x); cbn; auto. lra.
Qed.
Lemma grteql_in x y e : 0 < e -> y <= x -> x <> y + e -> GRTEQL_coord x y e = true.
Proof.
  intros E L N. unfold GRTEQL_coord, GRT_coord, EQL_coord.
  destruct (ltR_spec (y + e) x); cbn; auto. destruct (ltR_spec x (y + e)); [|lra]. destruct (ltR_spec (y - e) x); cbn; auto. lra.
Qed.
Lemma lsseql_inv x y e : 0 < e -> LSSEQL_coord x y e = true -> x < y + e.
Proof.
  intros E. unfold LSSEQL_coord, LSS_coord, EQL_coord.
  destruct (ltR_spec x (y - e)); cbn; [intros; lra|]. destruct (ltR_spec x (y + e)); cbn; [auto|discriminate].
Qed.
Lemma grteql_inv x y e : 0 < e -> GRTEQL_coord x y e = true -> y - e < x.
Proof.
  intros E. unfold GRTEQL_coord, GRT_coord, EQL_coord.
  destruct (ltR_spec (y + e) x); cbn; [intros; lra|]. destruct (ltR_spec x (y + e)); cbn; [|discriminate].
  destruct (ltR_spec (y - e) x); cbn; [auto|discriminate].
Qed.
Lemma inside_in X mn mx e : 0 < e -> clean3 X mn mx -> off_tol3 X mn mx e -> IsInside X mn mx e = true.
Proof.
  intros E C O. unfold IsInside.
  destruct (C 0%nat) as (I0 & _); [lia|]. destruct (C 1%nat) as (I1 & _); [lia|]. destruct (C 2%nat) as (I2 & _); [lia|].
  destruct (O 0%nat) as (A0 & B0); [lia|]. destruct (O 1%nat) as (A1 & B1); [lia|]. destruct (O 2%nat) as (A2 & B2); [lia|].
  rewrite !lsseql_in, !grteql_in by (auto; lra). reflexivity.
Qed.
Lemma inside_inv X mn mx e : 0 < e -> IsInside X mn mx e = true -> near_box X mn mx e.
Proof.
  intros E H. unfold IsInside in H. rewrite !andb_true_iff in H. destruct H as (((((A & B) & C) & D) & F) & G).
  apply lsseql_inv in A; auto. apply lsseql_inv in C; auto. apply lsseql_inv in F; auto.
  apply grteql_inv in B; auto. apply grteql_inv in D; auto. apply grteql_inv in G; auto.
  intros i Hi. destruct i as [|[|[|]]]; try lia; lra.
Qed.
Lemma adjust3_clean X mn mx : clean3 X mn mx -> adjust3 X mn mx = X.
Proof.
  intros C. unfold adjust3. rewrite !adjust_clean by (apply C; lia). destruct X as [[a b] c]. reflexivity.
Qed.
Lemma clamp2_clean P X : clean3 X (cs_min P) (cs_max P) -> clamp2 P X = X.
Proof.
  intros C. unfold clamp2. rewrite clamp_in by (apply (C 2%nat); lia). destruct X as [[a b] c]. reflexivity.
Qed.

Lemma eql_0 : EQL 0 0 = true. Proof. apply EQL_refl. Qed.
Lemma eps_pos : 0 < EPS_coord_general. Proof. unfold EPS_coord_general; lra. Qed.

Theorem to_cart P X Y Z h1 h2 h pf :
  inner P X Y h1 -> outer P X Y h2 -> 0 < h1 < h2 -> 0 < h -> height P h1 h2 Z h ->
  clean3 (X, Y, Z) (cs_min P) (cs_max P) ->
  x_of_X_precision (X, Y, Z) (CS P) pf = (true, Some (point (cs_side P) (cs_c P) h X Y)).
Proof.
  intros H1 H2 [A B] C H K. cbn [x_of_X_precision]. unfold x_of_X_CS.
  rewrite (forward P X Y Z h1 h2 h) by (auto; lra). unfold X_of_x_CS_nochk, X_adj.
  rewrite (backward P X Y h1 h2 h) by auto. cbn [fbind].
  apply (frac_hgt P h1 h2 Z h) in H; auto. rewrite H. rewrite adjust3_clean, clamp2_clean by auto.
  rewrite rs_refl, eql_0. reflexivity.
Qed.

Theorem to_patch P X Y Z h1 h2 h pf :
  inner P X Y h1 -> outer P X Y h2 -> 0 < h1 < h2 -> 0 < h -> height P h1 h2 Z h -> 0 < pf ->
  clean3 (X, Y, Z) (cs_min P) (cs_max P) -> off_tol3 (X, Y, Z) (cs_min P) (cs_max P) (EPS_coord_general * pf) ->
  X_of_x_precision (point (cs_side P) (cs_c P) h X Y) (CS P) pf = (true, Some (X, Y, Z)).
Proof.
  intros H1 H2 [A B] C H Pf K O. cbn [X_of_x_precision]. unfold X_of_x_CS, X_adj.
  rewrite (backward P X Y h1 h2 h) by auto. cbn [fbind]. pose proof H as H'.
  apply (frac_hgt P h1 h2 Z h) in H; auto. rewrite H. rewrite adjust3_clean by auto.
  pose proof eps_pos. rewrite inside_in by (auto; apply Rmult_lt_0_compat; auto).
  rewrite (forward P X Y Z h1 h2 h) by (auto; lra). cbv zeta. rewrite rs_refl.
  replace (0 / _) with 0 by (unfold Rdiv; ring). rewrite eql_0, clamp2_clean by auto. reflexivity.
Qed.

Theorem to_patch_sound P x pf X : 0 < pf -> get (cs_min P) 2 <= get (cs_max P) 2 ->
  X_of_x_precision x (CS P) pf = (true, Some X) ->
  near_box X (cs_min P) (cs_max P) (EPS_coord_general * pf) /\
  get (cs_min P) 2 <= get X 2 <= get (cs_max P) 2 /\
  exists Z x', Rabs (Z - get X 2) < EPS_coord_general * pf /\
    (get (cs_min P) 2 <= Z <= get (cs_max P) 2 -> Z = get X 2) /\
    snd (x_of_X_precision (get X 0, get X 1, Z) (CS P) pf) = Some x' /\
    root_square3 x x' < ROUND_OFF_ERR * Rmax 1 (Rmax (root_square3 x zero3) (root_square3 x' zero3)).
Proof.
  intros Pf ML. cbn [X_of_x_precision]. unfold X_of_x_CS.
  destruct (X_adj P x) as [X'|]; [|discriminate].
  destruct (IsInside X' (cs_min P) (cs_max P) (EPS_coord_general * pf)) eqn:I; [|discriminate].
  destruct (x_of_X_CS0 P X') as [xt|] eqn:F; [|discriminate]. cbv zeta.
  set (sc := if ltR _ 1 then 1 else _). destruct (EQL (root_square3 x xt / sc) 0) eqn:Q; [|discriminate].
  intros E. inversion E; subst X. clear E.
  pose proof eps_pos as Ep. assert (0 < EPS_coord_general * pf) as Eq by (apply Rmult_lt_0_compat; auto).
  apply inside_inv in I; auto.
  pose proof (clamp_range (get X' 2) (get (cs_min P) 2) (get (cs_max P) 2) ML) as CR.
  destruct (I 2%nat) as (I2a & I2b); [lia|].
  assert (CL : Rabs (get X' 2 - clampC (get X' 2) (get (cs_min P) 2) (get (cs_max P) 2)) < EPS_coord_general * pf).
  { unfold clampC. destruct (ltR_spec (get (cs_max P) 2) (get X' 2)).
    - destruct (ltR_spec (get (cs_max P) 2) (get (cs_min P) 2)); [lra|]. apply Rabs_def1; lra.
    - destruct (ltR_spec (get X' 2) (get (cs_min P) 2)); apply Rabs_def1; lra. }
  split; [|split].
  - intros i Hi. destruct i as [|[|[|]]]; try lia; cbn [clamp2 get].
    + apply (I 0%nat); lia.
    + apply (I 1%nat); lia.
    + unfold clamp2. cbn. lra.
  - unfold clamp2. cbn. exact CR.
  - exists (get X' 2), xt. split; [exact CL|]. split; [|split].
    + intros R. unfold clamp2. cbn. rewrite clamp_in; auto.
    + unfold clamp2. cbn [get]. cbn [x_of_X_precision]. unfold x_of_X_CS.
      replace (get X' 0, get X' 1, get X' 2) with X' by (destruct X' as [[? ?] ?]; reflexivity).
      rewrite F. destruct (X_of_x_CS_nochk P xt); reflexivity.
    + apply EQL_iff in Q. rewrite Rminus_0_r in Q.
      assert (S1 : 1 <= sc /\ sc <= Rmax 1 (Rmax (root_square3 x zero3) (root_square3 xt zero3))).
      { unfold sc. set (m := MaxMag_d _ _).
        assert (M : m <= Rmax (root_square3 x zero3) (root_square3 xt zero3)).
        { unfold m, MaxMag_d. rewrite !ABSd_Rabs. rewrite !Rabs_pos_eq by apply rs_nonneg.
          destruct (ltR_spec (root_square3 xt zero3) (root_square3 x zero3)); [apply Rmax_l|apply Rmax_r]. }
        destruct (ltR_spec m 1); split; try lra.
        - apply Rmax_l.
        - eapply Rle_trans; [exact M|]. apply Rmax_r. }
      destruct S1 as [S1 S2].
      assert (Rabs (root_square3 x xt / sc) = root_square3 x xt / sc).
      { apply Rabs_pos_eq. apply Rmult_le_pos; [apply rs_nonneg|]. left. apply Rinv_0_lt_compat. lra. }
      rewrite H in Q. apply (Rmult_lt_compat_r sc) in Q; [|lra].
      replace (root_square3 x xt / sc * sc) with (root_square3 x xt) in Q by (field; lra).
      pose proof ROE_pos. nra.
Qed.
