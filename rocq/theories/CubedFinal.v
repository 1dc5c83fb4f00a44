(** CubedFinal.v - the statements of C81-C85 about patch coordinates. *)
From Verif Require Import RealBase CubedModel CubedSpec CubedProofs CubedJac CubedDet CubedAngles.
Open Scope R_scope.

(** * C81 *)
Lemma adjust_close x mn mx : Rabs (adjust x mn mx - x) < 2 * ROUND_OFF_ERR.
Proof.
  pose proof ROE_pos. unfold adjust. destruct (EQL x mx) eqn:E.
  - apply EQL_iff in E. destruct (EQL mx mn) eqn:F.
    + apply EQL_iff in F. apply Rabs_def2 in E, F. apply Rabs_def1; lra.
    + apply Rabs_def2 in E. apply Rabs_def1; lra.
  - destruct (EQL x mn) eqn:F.
    + apply EQL_iff in F. apply Rabs_def2 in F. apply Rabs_def1; lra.
    + apply Rabs_def1; lra.
Qed.
Lemma eql_no x y : x <= y - / 1000000000000 \/ y + / 1000000000000 <= x -> EQL x y = false.
Proof.
  intros H. unfold EQL, ROUND_OFF_ERR. destruct (ltR_spec x (y + / 1000000000000)); cbn; auto. destruct (ltR_spec (y - / 1000000000000) x); auto. lra.
Qed.
Lemma adjust_id x mn mx : x <= mx - / 1000000000000 \/ mx + / 1000000000000 <= x -> x <= mn - / 1000000000000 \/ mn + / 1000000000000 <= x -> adjust x mn mx = x.
Proof. intros A B. unfold adjust. rewrite (eql_no x mx A), (eql_no x mn B). reflexivity. Qed.
Lemma adjust_ends x mn mx : mn <= x <= mx -> mn + 2 * ROUND_OFF_ERR < mx ->
  (mx - ROUND_OFF_ERR < x -> adjust x mn mx = mx) /\ (x < mn + ROUND_OFF_ERR -> adjust x mn mx = mn).
Proof.
  intros I W. unfold adjust. pose proof ROE_pos. split; intros Q.
  - assert (EQL x mx = true) as -> by (apply EQL_iff; apply Rabs_def1; lra).
    assert (EQL mx mn = false) as ->; auto. apply EQL_false. rewrite Rabs_right; lra.
  - assert (EQL x mx = false) as -> by (apply EQL_false; rewrite Rabs_left; lra).
    assert (EQL x mn = true) as ->; auto. apply EQL_iff. apply Rabs_def1; lra.
Qed.
Lemma inside_in' X mn mx e : 0 < e -> (forall i, (i < 3)%nat -> get mn i <= get X i <= get mx i) -> off_tol3 X mn mx e -> IsInside X mn mx e = true.
Proof.
  intros E C O. unfold IsInside.
  pose proof (C 0%nat ltac:(lia)) as I0. pose proof (C 1%nat ltac:(lia)) as I1. pose proof (C 2%nat ltac:(lia)) as I2.
  destruct (O 0%nat) as (A0 & B0); [lia|]. destruct (O 1%nat) as (A1 & B1); [lia|]. destruct (O 2%nat) as (A2 & B2); [lia|].
  rewrite !lsseql_in, !grteql_in by (auto; lra). reflexivity.
Qed.
Lemma inside_hole X mn mx e i : (i < 3)%nat -> 0 < e -> get X i = get mx i - e \/ get X i = get mn i + e -> IsInside X mn mx e = false.
Proof.
  intros L E H. destruct (IsInside X mn mx e) eqn:Q; auto. unfold IsInside in Q. rewrite !andb_true_iff in Q.
  assert (A : forall x y, x = y - e -> LSSEQL_coord x y e = false).
  { intros x y ->. unfold LSSEQL_coord, LSS_coord, EQL_coord. destruct (ltR_spec (y - e) (y - e)); [lra|].
    cbn. destruct (ltR_spec (y - e) (y + e)); cbn; auto. }
  assert (B : forall x y, x = y + e -> GRTEQL_coord x y e = false).
  { intros x y ->. unfold GRTEQL_coord, GRT_coord, EQL_coord. destruct (ltR_spec (y + e) (y + e)); [lra|]. reflexivity. }
  destruct Q as (((((A0 & B0) & A1) & B1) & A2) & B2).
  destruct i as [|[|[|]]]; try lia; destruct H as [H|H];
    (rewrite (A _ _ H) in *; discriminate) || (rewrite (B _ _ H) in *; discriminate).
Qed.
Theorem cart_box : forall mn mx x pf,
  ((forall i, (i < 3)%nat -> get mn i <= get x i <= get mx i) -> off_tol3 x mn mx EPS_coord_general ->
     x_of_X_precision x (CART mn mx) pf = (true, Some x) /\
     exists X, X_of_x_precision x (CART mn mx) pf = (true, Some X) /\
       (clean3 x mn mx -> X = x) /\ (forall i, (i < 3)%nat -> Rabs (get X i - get x i) < 2 * ROUND_OFF_ERR) /\
       (forall i, (i < 3)%nat -> get mn i + 2 * ROUND_OFF_ERR < get mx i ->
          (get mx i - ROUND_OFF_ERR < get x i -> get X i = get mx i) /\ (get x i < get mn i + ROUND_OFF_ERR -> get X i = get mn i))) /\
  (fst (X_of_x_precision x (CART mn mx) pf) = true -> near_box x mn mx EPS_coord_general) /\
  (fst (x_of_X_precision x (CART mn mx) pf) = true -> near_box x mn mx EPS_coord_general).
Proof.
  intros mn mx x pf. pose proof eps_pos. cbn [X_of_x_precision x_of_X_precision]. split; [|split].
  - intros I O. rewrite inside_in' by auto. split; auto. exists (adjust3 x mn mx). split; auto. split.
    + apply adjust3_clean.
    + split.
      * intros i L. unfold adjust3. destruct i as [|[|[|]]]; try lia; cbn [get]; apply adjust_close.
      * intros i L W. specialize (I i L).
        assert (G : get (adjust3 x mn mx) i = adjust (get x i) (get mn i) (get mx i)) by (unfold adjust3; destruct i as [|[|[|]]]; try lia; reflexivity).
        rewrite G. apply adjust_ends; auto.
  - destruct (IsInside x mn mx EPS_coord_general) eqn:Q; [|discriminate]. intros _. apply inside_inv; auto.
  - cbn. intros Q. apply inside_inv; auto.
Qed.

(** The example patch: the outermost shell between the spheres of radius 1 and 2, side UP. *)
Definition ex_shell : cs_patch :=
  {| cs_side := UP; cs_ty := OT_T2_CS; cs_c := (0, 0, 0); cs_xc1 := 0; cs_xc2 := 0; cs_R1 := 1; cs_R2 := 2;
     cs_R1f := fun _ _ => None; cs_R2f := fun _ _ => None; cs_min := (-1, -1, 0); cs_max := (1, 1, 1) |}.
Lemma dist00 : dist1 0 0 = 1.
Proof. unfold dist1. replace (1 + 0 * 0 + 0 * 0) with 1 by ring. apply sqrt_1. Qed.
Lemma ex_inner h : inner ex_shell 0 0 h <-> h = 1.
Proof. cbn. rewrite dist00. split; intros; lra. Qed.
Lemma ex_outer h : outer ex_shell 0 0 h <-> h = 2.
Proof. cbn. rewrite dist00. split; intros; lra. Qed.
Lemma ex_point h : point UP (0, 0, 0) h 0 0 = (0, 0, h).
Proof. unfold point, ray, vadd, vscale. cbn. f_equal; [f_equal|]; ring. Qed.
Definition far : R := 2 / (1 - 5 / 1000000000).
Lemma far_eq : / far = 1 / 2 - 5 / 2000000000.
Proof. unfold far. field. Qed.
Lemma far_gt : 2 + 9 / 1000000000 < far.
Proof. unfold far. apply Rmult_lt_reg_r with (1 - 5 / 1000000000); [lra|]. unfold Rdiv. rewrite Rmult_assoc, Rinv_l by lra. lra. Qed.
Lemma ex_fwd Z h : 0 < h -> / h = (1 - Z) + Z * / 2 -> x_of_X_CS0 ex_shell (0, 0, Z) = Some (0, 0, h).
Proof.
  intros P E. rewrite (forward ex_shell 0 0 Z 1 2 h); try (apply ex_inner; auto); try (apply ex_outer; auto); try lra.
  - cbn [cs_side cs_c ex_shell]. rewrite ex_point. reflexivity.
  - split; [intros _|intros N; exfalso; apply N; exact I]. rewrite E, Rinv_1. ring.
Qed.
Lemma ex_bwd h : 0 < h -> X_raw ex_shell (0, 0, h) = Some (0, 0, (1 - / h) * 2).
Proof.
  intros P. rewrite <- ex_point. change (point UP (0, 0, 0) h 0 0) with (point (cs_side ex_shell) (cs_c ex_shell) h 0 0).
  rewrite (backward ex_shell 0 0 1 2 h); try (apply ex_inner; auto); try (apply ex_outer; auto); try lra.
  unfold frac. cbn [is_out cs_ty ex_shell]. apply some3; auto. field. lra.
Qed.
Lemma ex_clean Z : 0 <= Z <= 1 -> (Z = 0 \/ / 1000 <= Z) -> (Z = 1 \/ Z <= 1 - / 1000) -> clean3 (0, 0, Z) (cs_min ex_shell) (cs_max ex_shell).
Proof.
  intros H A B i L. unfold clean, ROUND_OFF_ERR. destruct i as [|[|[|]]]; try lia; cbn; (split; [lra|]); split.
  - right; lra. - right; lra. - right; lra. - right; lra.
  - destruct A; [left|right]; lra. - destruct B; [left|right]; lra.
Qed.
Lemma ex_shell_to Z h : 0 <= Z <= 1 -> (Z = 0 \/ / 1000 <= Z) -> (Z = 1 \/ Z <= 1 - / 1000) -> 0 < h -> / h = (1 - Z) + Z * / 2 ->
  x_of_X (0, 0, Z) (CS ex_shell) = (true, Some (0, 0, h)) /\ X_of_x (0, 0, h) (CS ex_shell) = (true, Some (0, 0, Z)).
Proof.
  intros A B C D E.
  assert (I1 : inner ex_shell 0 0 1) by (apply ex_inner; auto). assert (I2 : outer ex_shell 0 0 2) by (apply ex_outer; auto).
  assert (H : height ex_shell 1 2 Z h). { split; [intros _; rewrite E, Rinv_1; ring|intros N; exfalso; apply N; exact I]. }
  pose proof (ex_clean Z A B C) as K. split.
  - unfold x_of_X. rewrite (to_cart ex_shell 0 0 Z 1 2 h 1) by (auto; lra). cbn [cs_side cs_c ex_shell]. rewrite ex_point. reflexivity.
  - unfold X_of_x. rewrite <- ex_point. change (point UP (0, 0, 0) h 0 0) with (point (cs_side ex_shell) (cs_c ex_shell) h 0 0).
    apply (to_patch ex_shell 0 0 Z 1 2 h 1); auto; try lra.
    intros i L. unfold off_tol, EPS_coord_general. destruct i as [|[|[|]]]; try lia; cbn; lra.
Qed.
Theorem c81_clamp_refuted : exists p x X x',
  X_of_x x p = (true, Some X) /\ x_of_X X p = (true, Some x') /\ / 200000000 < root_square3 x x'.
Proof.
  pose proof far_gt as G. exists (CS ex_shell), (0, 0, far), (0, 0, 1), (0, 0, 2).
  assert (Q : (1 - / far) * 2 = 1 + 5 / 1000000000) by (rewrite far_eq; lra).
  split; [|split].
  - unfold X_of_x. cbn [X_of_x_precision]. unfold X_of_x_CS, X_adj. rewrite ex_bwd by lra. rewrite Q. cbn [fbind].
    assert (A : adjust3 (0, 0, 1 + 5 / 1000000000) (cs_min ex_shell) (cs_max ex_shell) = (0, 0, 1 + 5 / 1000000000)).
    { unfold adjust3. cbn [get cs_min cs_max ex_shell]. rewrite !adjust_id by lra. reflexivity. }
    rewrite A.
    assert (B : IsInside (0, 0, 1 + 5 / 1000000000) (cs_min ex_shell) (cs_max ex_shell) (EPS_coord_general * 1) = true).
    { unfold IsInside, LSSEQL_coord, GRTEQL_coord, LSS_coord, GRT_coord, EQL_coord, EPS_coord_general, ltR. cbn [get cs_min cs_max ex_shell].
      repeat (destruct (Rlt_dec _ _); try lra); cbn; auto. }
    rewrite B. rewrite (ex_fwd _ far); [|lra|rewrite far_eq; lra]. cbv zeta. rewrite rs_refl.
    replace (0 / _) with 0 by (unfold Rdiv; ring). rewrite eql_0. unfold clamp2, clampC. cbn [get cs_min cs_max ex_shell].
    destruct (ltR_spec 1 (1 + 5 / 1000000000)); [|lra]. destruct (ltR_spec 1 0); [lra|]. reflexivity.
  - apply ex_shell_to; lra.
  - unfold root_square3, Pow2. cbn [get]. replace (0 + _ + _ + _) with (Rsqr (far - 2)) by (unfold Rsqr; ring). rewrite sqrt_Rsqr by lra. lra.
Qed.
Theorem c81_hole_refuted : (forall mn mx x pf i, (i < 3)%nat -> get x i = get mx i - / 100000000 \/ get x i = get mn i + / 100000000 ->
    fst (X_of_x_precision x (CART mn mx) pf) = false) /\
  exists mn mx x, (forall i, (i < 3)%nat -> get mn i < get x i < get mx i) /\ x_in_which_patch x [CART mn mx] = None.
Proof.
  pose proof eps_pos.
  assert (H1 : forall mn mx x pf i, (i < 3)%nat -> get x i = get mx i - / 100000000 \/ get x i = get mn i + / 100000000 ->
    fst (X_of_x_precision x (CART mn mx) pf) = false).
  { intros mn mx x pf i L E. cbn [X_of_x_precision]. rewrite (inside_hole x mn mx EPS_coord_general i); auto. }
  split; auto. exists (0, 0, 0), (1, 1, 1), (1 / 2, 1 / 2, 1 - / 100000000). split.
  - intros i L. destruct i as [|[|[|]]]; try lia; cbn; lra.
  - unfold x_in_which_patch, first_such, X_of_x. rewrite (H1 _ _ _ _ 2%nat); auto.
Qed.

(** * C82 *)
Lemma pt_eq s c h X Y : point s c h X Y = match s with
  | UP => (get c 0 + h * X, get c 1 + h * Y, get c 2 + h) | DOWN => (get c 0 + h * Y, get c 1 + h * X, get c 2 - h)
  | LEFT => (get c 0 + h * X, get c 1 - h, get c 2 + h * Y) | RIGHT => (get c 0 + h * Y, get c 1 + h, get c 2 + h * X)
  | BACK => (get c 0 - h, get c 1 + h * Y, get c 2 + h * X) | FRONT => (get c 0 + h, get c 1 + h * X, get c 2 + h * Y) end.
Proof. unfold point. rewrite ray_eq. destruct c as [[c0 c1] c2]. destruct s; unfold vadd, vscale; cbn; f_equal; try (f_equal; ring); ring. Qed.
Lemma div_le1 a h : 0 < h -> Rabs a <= h -> Rabs (a / h) <= 1.
Proof.
  intros H A. unfold Rdiv. rewrite Rabs_mult, (Rabs_right (/ h)) by (left; apply Rinv_0_lt_compat; auto).
  apply Rmult_le_reg_r with h; auto. rewrite Rmult_assoc, Rinv_l by lra. lra.
Qed.
Theorem six_cover : forall c v : v3, v <> c -> exists s h X Y, 0 < h /\ Rabs X <= 1 /\ Rabs Y <= 1 /\ v = point s c h X Y.
Proof.
  intros [[c0 c1] c2] [[v0 v1] v2] N.
  assert (M : Rabs (v0 - c0) <> 0 \/ Rabs (v1 - c1) <> 0 \/ Rabs (v2 - c2) <> 0).
  { destruct (Req_dec v0 c0) as [->|]; [|left; apply Rabs_no_R0; lra]. destruct (Req_dec v1 c1) as [->|]; [|right; left; apply Rabs_no_R0; lra].
    destruct (Req_dec v2 c2) as [->|]; [contradiction N; reflexivity|right; right; apply Rabs_no_R0; lra]. }
  pose proof (Rabs_pos (v0 - c0)). pose proof (Rabs_pos (v1 - c1)). pose proof (Rabs_pos (v2 - c2)).
  assert (T : forall a b d, Rabs b <= Rabs a -> Rabs d <= Rabs a -> Rabs a <> 0 ->
     exists h X Y, 0 < h /\ Rabs X <= 1 /\ Rabs Y <= 1 /\ (a = h \/ a = - h) /\ b = h * X /\ d = h * Y).
  { intros a b d B D Z. pose proof (Rabs_pos a). exists (Rabs a), (b / Rabs a), (d / Rabs a). repeat split.
    - lra. - apply div_le1; lra. - apply div_le1; lra.
    - unfold Rabs. destruct (Rcase_abs a); [right|left]; lra.
    - field; auto. - field; auto. }
  destruct (Rle_dec (Rabs (v0 - c0)) (Rabs (v2 - c2))) as [A|A].
  - destruct (Rle_dec (Rabs (v1 - c1)) (Rabs (v2 - c2))) as [B|B].
    + destruct (T (v2 - c2) (v0 - c0) (v1 - c1)) as (h & X & Y & Hpos & HX & HY & Hs & E0 & E1); auto; try lra.
      destruct Hs; [exists UP, h, X, Y|exists DOWN, h, Y, X]; rewrite pt_eq; cbn; repeat split; auto; f_equal; try f_equal; lra.
    + destruct (T (v1 - c1) (v0 - c0) (v2 - c2)) as (h & X & Y & Hpos & HX & HY & Hs & E0 & E1); auto; try lra.
      destruct Hs; [exists RIGHT, h, Y, X|exists LEFT, h, X, Y]; rewrite pt_eq; cbn; repeat split; auto; f_equal; try f_equal; lra.
  - destruct (Rle_dec (Rabs (v1 - c1)) (Rabs (v0 - c0))) as [B|B].
    + destruct (T (v0 - c0) (v1 - c1) (v2 - c2)) as (h & X & Y & Hpos & HX & HY & Hs & E0 & E1); auto; try lra.
      destruct Hs; [exists FRONT, h, X, Y|exists BACK, h, Y, X]; rewrite pt_eq; cbn; repeat split; auto; f_equal; try f_equal; lra.
    + destruct (T (v1 - c1) (v0 - c0) (v2 - c2)) as (h & X & Y & Hpos & HX & HY & Hs & E0 & E1); auto; try lra.
      destruct Hs; [exists RIGHT, h, Y, X|exists LEFT, h, X, Y]; rewrite pt_eq; cbn; repeat split; auto; f_equal; try f_equal; lra.
Qed.
Lemma v3_inj (a b c a' b' c' : R) : (a, b, c) = (a', b', c') -> a = a' /\ b = b' /\ c = c'.
Proof. intros H. injection H. auto. Qed.
Lemma abs_le1 x : Rabs x <= 1 -> -1 <= x <= 1.
Proof. intros H. unfold Rabs in H. destruct (Rcase_abs x); lra. Qed.
Lemma pm1 x : x = 1 \/ x = -1 -> Rabs x = 1.
Proof. intros [->| ->]; [apply Rabs_R1|rewrite Rabs_left; lra]. Qed.
Theorem six_unique : forall s s' c h h' X Y X' Y', 0 < h -> 0 < h' -> Rabs X <= 1 -> Rabs Y <= 1 -> Rabs X' <= 1 -> Rabs Y' <= 1 ->
  point s c h X Y = point s' c h' X' Y' ->
  h = h' /\ (s = s' -> X = X' /\ Y = Y') /\ (s <> s' -> (Rabs X = 1 \/ Rabs Y = 1) /\ (Rabs X' = 1 \/ Rabs Y' = 1)).
Proof.
  intros s s' [[c0 c1] c2] h h' X Y X' Y' H H' A B A' B' E. rewrite !pt_eq in E. cbn [get] in E.
  apply abs_le1 in A. apply abs_le1 in B. apply abs_le1 in A'. apply abs_le1 in B'.
  assert (hx : - h <= h * X <= h) by nra. assert (hy : - h <= h * Y <= h) by nra.
  assert (hx' : - h' <= h' * X' <= h') by nra. assert (hy' : - h' <= h' * Y' <= h') by nra.
  assert (One : forall h z, 0 < h -> h * z = h -> Rabs z = 1) by (intros k z K Q; apply pm1; left; nra).
  assert (Mone : forall h z, 0 < h -> h * z = - h -> Rabs z = 1) by (intros k z K Q; apply pm1; right; nra).
  destruct s, s'; apply v3_inj in E; destruct E as (E0 & E1 & E2);
  (assert (Q : h = h') by lra; split; [exact Q|]; split; [intros; try discriminate|intros; try contradiction];
   try (subst h'; split; apply Rmult_eq_reg_l with h; lra);
   try (exfalso; lra);
   split; first [left; apply One with h; lra | left; apply Mone with h; lra | right; apply One with h; lra | right; apply Mone with h; lra
                |left; apply One with h'; lra | left; apply Mone with h'; lra | right; apply One with h'; lra | right; apply Mone with h'; lra]).
Qed.
Theorem right_handed : forall s, vcross (axisX s) (axisY s) = normal s /\ vdot (axisX s) (axisY s) = 0 /\
  vdot (axisX s) (axisX s) = 1 /\ vdot (axisY s) (axisY s) = 1 /\ vdot (normal s) (normal s) = 1.
Proof. intros s. destruct s; unfold vcross, vdot; cbn; repeat split; try ring; repeat (apply f_equal2; try ring). Qed.

Lemma first_such_some {A} (t : A -> bool) l i : first_such t l = Some i <->
  (exists p, nth_error l i = Some p /\ t p = true) /\ forall j p, (j < i)%nat -> nth_error l j = Some p -> t p = false.
Proof.
  revert i. induction l as [|a l IH]; intros i; cbn.
  - split; [discriminate|]. intros [(p & E & _) _]. destruct i; discriminate.
  - destruct (t a) eqn:T.
    + split.
      * intros E. injection E as <-. split; [exists a; auto|]. intros; lia.
      * intros [(p & E & Tp) N]. destruct i; auto. specialize (N 0%nat a). rewrite T in N. discriminate N; auto; lia.
    + destruct (first_such t l) as [n|] eqn:F.
      * pose proof (proj1 (IH n) eq_refl) as [(p & E & Tp) N]. split.
        { intros Q. injection Q as <-. split; [exists p; auto|]. intros [|j] q L Eq; cbn in Eq; [congruence|]. apply (N j); auto; lia. }
        { intros [(q & Eq & Tq) M]. destruct i; [cbn in Eq; congruence|]. cbn in Eq. f_equal. f_equal.
          enough (Some n = Some i) by congruence. apply IH. split; [eauto|]. intros j r L. apply (M (S j)); lia. }
      * split; [discriminate|]. intros [(q & Eq & Tq) M]. destruct i; [cbn in Eq; congruence|]. cbn in Eq.
        enough (None = Some i) by discriminate. apply IH. split; [eauto|]. intros j r L. apply (M (S j)); lia.
Qed.
Lemma first_such_none {A} (t : A -> bool) l : first_such t l = None <-> forall p, In p l -> t p = false.
Proof.
  induction l as [|a l IH]; cbn; [intuition|]. destruct (t a) eqn:T.
  - split; [discriminate|]. intros H. specialize (H a (or_introl eq_refl)). congruence.
  - destruct (first_such t l); split; try discriminate; intros H.
    + exfalso. enough (Some n = None) by discriminate. apply IH. auto.
    + intros p [<-|Hp]; auto. apply IH; auto.
    + auto.
Qed.
Theorem which_patch : forall x ps,
  (forall i, x_in_which_patch x ps = Some i <->
     (exists p, nth_error ps i = Some p /\ fst (X_of_x x p) = true) /\
     forall j p, (j < i)%nat -> nth_error ps j = Some p -> fst (X_of_x x p) = false) /\
  (x_in_which_patch x ps = None <-> forall p, In p ps -> fst (X_of_x x p) = false) /\
  (forall X i, X_in_which_patch X ps = Some i <->
     (exists p, nth_error ps i = Some p /\ fst (x_of_X X p) = true) /\
     forall j p, (j < i)%nat -> nth_error ps j = Some p -> fst (x_of_X X p) = false) /\
  (forall X, X_in_which_patch X ps = None <-> forall p, In p ps -> fst (x_of_X X p) = false).
Proof.
  intros x ps. split; [intros i; apply first_such_some|]. split; [apply first_such_none|].
  split; [intros X i; apply first_such_some|]. intros X. apply first_such_none.
Qed.
(** Six patches around one centre: every point they describe is found. *)
Theorem six_find : forall ps (c x : v3), x <> c ->
  (forall s X Y h, Rabs X <= 1 -> Rabs Y <= 1 -> 0 < h -> x = point s c h X Y ->
     exists P h1 h2 Z, In (CS P) ps /\ cs_side P = s /\ cs_c P = c /\ inner P X Y h1 /\ outer P X Y h2 /\ 0 < h1 < h2 /\
       height P h1 h2 Z h /\ clean3 (X, Y, Z) (cs_min P) (cs_max P) /\ off_tol3 (X, Y, Z) (cs_min P) (cs_max P) EPS_coord_general) ->
  exists i p X, x_in_which_patch x ps = Some i /\ nth_error ps i = Some p /\ X_of_x x p = (true, Some X).
Proof.
  intros ps c x N H. destruct (six_cover c x N) as (s & h & X & Y & Ph & AX & AY & E).
  destruct (H s X Y h AX AY Ph E) as (P & h1 & h2 & Z & I & Es & Ec & H1 & H2 & L & Hh & K & O).
  assert (T : X_of_x x (CS P) = (true, Some (X, Y, Z))).
  { rewrite E, <- Es, <- Ec. unfold X_of_x. apply (to_patch P X Y Z h1 h2 h 1); auto; try lra. rewrite Rmult_1_r. auto. }
  destruct (x_in_which_patch x ps) as [i|] eqn:W.
  - pose proof (proj1 (proj1 (which_patch x ps) i) W) as [(p & Np & Tp) _].
    destruct p as [mn mx|P'].
    + unfold X_of_x, X_of_x_precision in *. exists i, (CART mn mx). destruct (IsInside x mn mx EPS_coord_general); [|discriminate]. eauto.
    + exists i, (CS P'). unfold X_of_x, X_of_x_precision in *. unfold X_of_x_CS in *. destruct (X_adj P' x); [|discriminate].
      destruct (IsInside _ _ _ _); [|discriminate]. destruct (x_of_X_CS0 P' v); [|discriminate]. cbv zeta in *.
      destruct (EQL _ _); [|discriminate]. eauto.
  - exfalso. pose proof (proj1 (proj1 (proj2 (which_patch x ps))) W _ I) as F. rewrite T in F. discriminate.
Qed.
Theorem c82_box_refuted : exists P X, get (cs_max P) 0 < get X 0 /\ fst (x_of_X X (CS P)) = true /\ X_in_which_patch X [CS P] = Some 0%nat.
Proof.
  exists ex_shell, (5, 0, 0).
  assert (D : 0 < dist1 5 0) by apply dist1_pos.
  assert (Q : fst (x_of_X (5, 0, 0) (CS ex_shell)) = true).
  { unfold x_of_X. cbn [x_of_X_precision]. unfold x_of_X_CS.
    assert (I1 : inner ex_shell 5 0 (1 / dist1 5 0)) by (cbn; field; lra).
    assert (I2 : outer ex_shell 5 0 (2 / dist1 5 0)) by (cbn; field; lra).
    assert (P1 : 0 < 1 / dist1 5 0) by (apply Rdiv_lt_0_compat; lra).
    assert (P2 : 1 / dist1 5 0 < 2 / dist1 5 0) by (apply Rmult_lt_compat_r; [apply Rinv_0_lt_compat|]; lra).
    assert (Hh : height ex_shell (1 / dist1 5 0) (2 / dist1 5 0) 0 (1 / dist1 5 0)).
    { split; [intros _; ring|intros N; exfalso; apply N; exact I]. }
    rewrite (forward ex_shell 5 0 0 (1 / dist1 5 0) (2 / dist1 5 0) (1 / dist1 5 0)) by (auto; lra).
    unfold X_of_x_CS_nochk, X_adj. rewrite (backward ex_shell 5 0 (1 / dist1 5 0) (2 / dist1 5 0)) by auto.
    apply (frac_hgt ex_shell) in Hh; auto. rewrite Hh. cbn [fbind].
    assert (A : adjust3 (5, 0, 0) (cs_min ex_shell) (cs_max ex_shell) = (5, 0, 0)).
    { unfold adjust3. cbn [get cs_min cs_max ex_shell]. rewrite (adjust_id 5), (adjust_id 0 (-1) 1) by lra.
      rewrite adjust_clean; auto. unfold clean, ROUND_OFF_ERR. split; [lra|]. split; [left; auto|right; lra]. }
    rewrite A. unfold clamp2, clampC. cbn [get cs_min cs_max ex_shell]. destruct (ltR_spec 1 0); [lra|]. destruct (ltR_spec 0 0); [lra|].
    rewrite rs_refl, eql_0. reflexivity. }
  split; [cbn; lra|]. split; auto. unfold X_in_which_patch, first_such. rewrite Q. reflexivity.
Qed.
Lemma clampC_range x mn mx : mn <= mx -> mn <= clampC x mn mx <= mx.
Proof. exact (clamp_range x mn mx). Qed.
Lemma rs_comp2 v w : Rabs (get v 2 - get w 2) <= root_square3 v w.
Proof.
  unfold root_square3, Pow2. rewrite <- sqrt_Rsqr_abs. apply sqrt_le_1_alt. unfold Rsqr.
  pose proof (Rle_0_sqr (get v 0 - get w 0)). pose proof (Rle_0_sqr (get v 1 - get w 1)). unfold Rsqr in *. lra.
Qed.
Theorem third_checked : forall P X pf, get (cs_min P) 2 <= get (cs_max P) 2 -> fst (x_of_X_precision X (CS P) pf) = true ->
  get (cs_min P) 2 - ROUND_OFF_ERR < get X 2 < get (cs_max P) 2 + ROUND_OFF_ERR.
Proof.
  intros P X pf L. cbn [x_of_X_precision]. unfold x_of_X_CS. destruct (x_of_X_CS0 P X) as [x|]; [|discriminate].
  unfold X_of_x_CS_nochk. destruct (X_adj P x) as [X'|]; [|discriminate]. cbn [fbind fst]. intros E. apply EQL_iff in E.
  rewrite Rminus_0_r, Rabs_right in E by (apply Rle_ge, rs_nonneg). pose proof (rs_comp2 X (clamp2 P X')) as Q.
  unfold clamp2 in Q at 1. cbn [get] in Q. pose proof (clamp_range (get X' 2) _ _ L) as C. apply Rle_lt_trans with (r3 := ROUND_OFF_ERR) in Q; auto.
  apply Rabs_def2 in Q. lra.
Qed.
