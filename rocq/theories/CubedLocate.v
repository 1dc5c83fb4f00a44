(** CubedLocate.v - C85: the node at a point, and the patch nearest to a point. *)
From Verif Require Import RealBase CubedModel CubedSpec CubedProofs CubedAngles CubedFinal CubedFind.
Open Scope R_scope.

Lemma rs_dist x y : root_square3 x y = vnorm (vadd x (vscale (-1) y)).
Proof. destruct x as [[x0 x1] x2], y as [[y0 y1] y2]. unfold root_square3, vnorm, vdot, vadd, vscale, Pow2. cbn. f_equal. ring. Qed.
Definition eps : R := / 100000000.
Lemma accept_iff nrm res : LSSEQL_coord nrm res EPS_coord_general = true <-> nrm < res + eps /\ nrm <> res - eps.
Proof.
  unfold LSSEQL_coord, LSS_coord, EQL_coord. change EPS_coord_general with eps. assert (0 < eps) by (unfold eps; lra).
  destruct (ltR_spec nrm (res - eps)), (ltR_spec nrm (res + eps)), (ltR_spec (res - eps) nrm); cbn; split; intros Q; try discriminate; try destruct Q; try (split; lra); auto; lra.
Qed.
(** the tolerance used at the start *)
Definition res0 (x : v3) : R := if GRT (EPS_collocation * root_square3 x zero3) EPS_collocation then EPS_collocation * root_square3 x zero3 else EPS_collocation.
Lemma res0_small x : vnorm x <= 1 + / 10000 -> res0 x = eps.
Proof.
  intros H. unfold res0. rewrite rs_vnorm. change EPS_collocation with eps. destruct (GRT (eps * vnorm x) eps) eqn:E; auto.
  apply GRT_iff in E. unfold eps, ROUND_OFF_ERR in E. lra.
Qed.
Lemma res0_big x : 1 + / 10000 < vnorm x -> res0 x = eps * vnorm x.
Proof.
  intros H. unfold res0. rewrite rs_vnorm. change EPS_collocation with eps. destruct (GRT (eps * vnorm x) eps) eqn:E; auto.
  assert (GRT (eps * vnorm x) eps = true) by (apply GRT_iff; unfold eps, ROUND_OFF_ERR; lra). congruence.
Qed.

(** a node at the point itself is refused when |x| <= 1.0001 *)
Theorem node_refuted : forall x nodes, vnorm x <= 1 + / 10000 ->
  (forall y, In y nodes -> y = x \/ 2 / 100000000 <= vnorm (vadd x (vscale (-1) y))) -> find_node x nodes = None.
Proof.
  intros x nodes H N. unfold find_node. cbv zeta. fold (res0 x). rewrite (res0_small x H).
  generalize 0%nat as i. induction nodes as [|y nodes IH]; intros i; auto. cbn [find_node_loop].
  destruct (LSSEQL_coord (root_square3 x y) eps EPS_coord_general) eqn:E.
  - apply accept_iff in E. destruct (N y (or_introl eq_refl)) as [->|Q]; [rewrite rs_refl in E; lra|]. rewrite rs_dist in E. unfold eps in E. lra.
  - apply IH. intros z Z. apply N. right; auto.
Qed.

Lemma loop_spec x : forall nodes i res v, eps < res \/ res = 0 ->
  (forall y, In y nodes -> y = x \/ res + eps <= root_square3 x y) ->
  match find_node_loop x nodes i res v with
  | Some j => (nth_error nodes (j - i) = Some x /\ (i <= j)%nat /\ forall k, nth_error nodes k = Some x -> (k <= j - i)%nat) \/ v = Some j /\ forall k, nth_error nodes k <> Some x
  | None => v = None /\ forall k, nth_error nodes k <> Some x
  end.
Proof.
  assert (Ep : 0 < eps) by (unfold eps; lra).
  induction nodes as [|y nodes IH]; intros i res v R N; cbn [find_node_loop].
  - assert (Z : forall k, nth_error (@nil v3) k <> Some x) by (intros [|k]; discriminate). destruct v; auto.
  - destruct (LSSEQL_coord (root_square3 x y) res EPS_coord_general) eqn:E.
    + apply accept_iff in E. destruct (N y (or_introl eq_refl)) as [->|Q]; [|lra]. rewrite rs_refl.
      specialize (IH (S i) 0 (Some i) (or_intror eq_refl)).
      assert (N' : forall y, In y nodes -> y = x \/ 0 + eps <= root_square3 x y).
      { intros z Z. destruct (N z (or_intror Z)); [auto|right; lra]. }
      specialize (IH N'). destruct (find_node_loop x nodes (S i) 0 (Some i)) as [j|]; [|destruct IH; discriminate].
      left. destruct IH as [(A & L & M)|[A M]].
      * replace (j - i)%nat with (S (j - S i)) by lia. split; auto. split; [lia|]. intros [|k] K; [lia|]. cbn in K. apply M in K. lia.
      * injection A as ->. rewrite Nat.sub_diag. split; auto. split; auto. intros [|k] K; [lia|]. cbn in K. contradiction (M k K).
    + assert (Ny : y <> x). { intros ->. rewrite rs_refl in E. assert (LSSEQL_coord 0 res EPS_coord_general = true) by (apply accept_iff; destruct R; split; lra). congruence. }
      assert (N' : forall y, In y nodes -> y = x \/ res + eps <= root_square3 x y) by (intros z Z; apply N; right; auto).
      specialize (IH (S i) res v R N'). destruct (find_node_loop x nodes (S i) res v) as [j|].
      * destruct IH as [(A & L & M)|[A M]].
        { left. replace (j - i)%nat with (S (j - S i)) by lia. split; auto. split; [lia|]. intros [|k] K; cbn in K; [congruence|]. apply M in K. lia. }
        { right. split; auto. intros [|k]; cbn; [congruence|apply M]. }
      * destruct IH as [A M]. split; auto. intros [|k]; cbn; [congruence|apply M].
Qed.
Theorem node_found : forall x nodes, 1 + / 10000 < vnorm x ->
  (forall y, In y nodes -> y = x \/ / 100000000 * (1 + vnorm x) <= vnorm (vadd x (vscale (-1) y))) ->
  match find_node x nodes with
  | Some i => nth_error nodes i = Some x /\ forall k, nth_error nodes k = Some x -> (k <= i)%nat
  | None => ~ In x nodes
  end.
Proof.
  intros x nodes H N. unfold find_node. cbv zeta. fold (res0 x). rewrite (res0_big x H).
  pose proof (loop_spec x nodes 0 (eps * vnorm x) None) as L.
  assert (R : eps < eps * vnorm x) by (unfold eps; lra). specialize (L (or_introl R)).
  assert (N' : forall y, In y nodes -> y = x \/ eps * vnorm x + eps <= root_square3 x y).
  { intros y Y. destruct (N y Y) as [|Q]; auto. right. rewrite rs_dist. unfold eps. lra. }
  specialize (L N'). destruct (find_node_loop x nodes 0 (eps * vnorm x) None) as [j|].
  - destruct L as [(A & _ & M)|[A _]]; [|discriminate]. rewrite Nat.sub_0_r in *. auto.
  - destruct L as [_ M]. intros I. apply In_nth_error in I. destruct I as [k K]. exact (M k K).
Qed.
(** what is returned is near, but the tolerance grows with every node accepted *)
Theorem node_near : forall x nodes i, find_node x nodes = Some i ->
  exists y, nth_error nodes i = Some y /\ vnorm (vadd x (vscale (-1) y)) < / 100000000 * (Rmax (1 + / 10000) (vnorm x) + INR (S i)).
Proof.
  intros x nodes i. unfold find_node. cbv zeta. fold (res0 x).
  assert (G : forall nodes k res v, find_node_loop x nodes k res v = Some i ->
     v = Some i \/ ((k <= i)%nat /\ exists y, nth_error nodes (i - k) = Some y /\ root_square3 x y < res + eps * INR (S i - k))).
  { induction nodes0 as [|y nodes0 IH]; intros k res v H; cbn [find_node_loop] in H; [auto|].
    destruct (LSSEQL_coord (root_square3 x y) res EPS_coord_general) eqn:E.
    - apply accept_iff in E. destruct (IH _ _ _ H) as [Q|(L & z & Z & D)].
      + injection Q as ->. right. split; auto. exists y. rewrite Nat.sub_diag. replace (S i - i)%nat with 1%nat by lia. cbn. split; auto. lra.
      + right. split; [lia|]. exists z. replace (i - k)%nat with (S (i - S k)) by lia. split; auto.
        replace (S i - k)%nat with (S (S i - S k)) by lia. rewrite S_INR. lra.
    - destruct (IH _ _ _ H) as [Q|(L & z & Z & D)]; auto. right. split; [lia|]. exists z. replace (i - k)%nat with (S (i - S k)) by lia. split; auto.
      replace (S i - k)%nat with (S (S i - S k)) by lia. rewrite S_INR. unfold eps in *. lra. }
  intros H. destruct (G _ _ _ _ H) as [Q|(_ & y & Y & D)]; [discriminate|]. rewrite Nat.sub_0_r in *. exists y. split; auto. rewrite <- rs_dist.
  assert (R : res0 x <= eps * Rmax (1 + / 10000) (vnorm x)).
  { destruct (Rle_dec (vnorm x) (1 + / 10000)).
    - rewrite res0_small by auto. rewrite Rmax_left by lra. unfold eps. lra.
    - rewrite res0_big by lra. rewrite Rmax_right by lra. lra. }
  change (/ 100000000) with eps. rewrite Rmult_plus_distr_l. lra.
Qed.
Lemma rs_z z : root_square3 (0, 0, 2) (0, 0, 2 + z) = Rabs z.
Proof. unfold root_square3, Pow2. cbn [get]. replace (0 + _ + _ + _) with (Rsqr z) by (unfold Rsqr; ring). apply sqrt_Rsqr_abs. Qed.
Theorem node_nearest_refuted : exists x y, y <> x /\ find_node x [x; y] = Some 1%nat.
Proof.
  exists (0, 0, 2), (0, 0, 2 + / 200000000). split; [intros E; injection E; lra|].
  unfold find_node. cbv zeta. fold (res0 (0, 0, 2)).
  assert (V : vnorm (0, 0, 2) = 2). { unfold vnorm, vdot. cbn [get]. replace (_ + _ + _) with (2 * 2) by ring. apply sqrt_square. lra. }
  rewrite res0_big by lra. rewrite V. cbn [find_node_loop]. rewrite rs_refl.
  assert (LSSEQL_coord 0 (eps * 2) EPS_coord_general = true) as -> by (apply accept_iff; unfold eps; lra).
  rewrite rs_z, Rabs_right by lra.
  assert (LSSEQL_coord (/ 200000000) 0 EPS_coord_general = true) as -> by (apply accept_iff; unfold eps; lra). reflexivity.
Qed.

(** * the nearest patch *)
Lemma clampC_clip x mn mx : mn <= mx -> clampC x mn mx = clip x mn mx.
Proof.
  intros L. unfold clampC, clip. destruct (ltR_spec mx x).
  - rewrite Rmin_left by lra. rewrite Rmax_right by lra. destruct (ltR_spec mx mn); [lra|]. reflexivity.
  - rewrite Rmin_right by lra. destruct (ltR_spec x mn); [rewrite Rmax_left|rewrite Rmax_right]; lra.
Qed.
Lemma clamp3_clip p X : box_ok p -> clamp3 X (pmin p) (pmax p) = clip3 X (pmin p) (pmax p).
Proof. intros B. unfold clamp3, clip3. rewrite !clampC_clip by (apply B; lia). reflexivity. Qed.
Lemma inside_iff X mn mx e : 0 < e -> (forall i, (i < 3)%nat -> get mn i <= get mx i) -> IsInside X mn mx e = true <-> near_box X mn mx e /\ off_tol3 X mn mx e.
Proof.
  intros E B. split.
  - intros H. split; [apply inside_inv; auto|]. intros i L. split; intros Q; rewrite (inside_hole X mn mx e i) in H; auto; discriminate.
  - intros [N O]. unfold IsInside.
    assert (A : forall x y, x < y + e -> x <> y - e -> LSSEQL_coord x y e = true).
    { intros x y A1 A2. unfold LSSEQL_coord, LSS_coord, EQL_coord. destruct (ltR_spec x (y - e)); auto. destruct (ltR_spec x (y + e)); [|lra]. destruct (ltR_spec (y - e) x); auto. lra. }
    assert (C : forall x y, y - e < x -> x <> y + e -> GRTEQL_coord x y e = true).
    { intros x y A1 A2. unfold GRTEQL_coord, GRT_coord, EQL_coord. destruct (ltR_spec (y + e) x); auto. destruct (ltR_spec x (y + e)); [|lra]. destruct (ltR_spec (y - e) x); auto. }
    destruct (O 0%nat) as (A0 & B0); [lia|]. destruct (O 1%nat) as (A1 & B1); [lia|]. destruct (O 2%nat) as (A2 & B2); [lia|].
    pose proof (N 0%nat ltac:(lia)). pose proof (N 1%nat ltac:(lia)). pose proof (N 2%nat ltac:(lia)).
    rewrite !A, !C by (auto; lra). reflexivity.
Qed.
Lemma force_dx_iff x p dx : box_ok p -> force_dx x p = Some dx <-> reaches x p dx.
Proof.
  intros B. unfold force_dx, reaches.
  assert (E7 : EPS_coord_general * 10 = / 10000000) by (unfold EPS_coord_general; lra). rewrite E7.
  assert (Ep : 0 < / 10000000) by lra.
  split.
  - destruct (snd (X_of_x x p)) as [X|] eqn:E; [|discriminate]. cbn [fbind].
    destruct (IsInside X (pmin p) (pmax p) (/ 10000000)) eqn:I; [|discriminate]. apply inside_iff in I; auto. destruct I as [I O].
    rewrite clamp3_clip by auto. destruct (snd (x_of_X _ p)) as [x'|] eqn:E'; [|discriminate]. cbn [fbind]. intros Q. injection Q as <-.
    exists X, x'. repeat split; auto; try apply I; try apply O; auto. unfold L2_norm3. rewrite rs_dist. reflexivity.
  - intros (X & x' & -> & I & O & E' & ->). cbn [fbind]. rewrite (proj2 (inside_iff X _ _ _ Ep B) (conj I O)). rewrite clamp3_clip, E' by auto. cbn [fbind].
    unfold L2_norm3. rewrite rs_dist. reflexivity.
Qed.
Lemma force_loop_spec x : forall ps k best, (forall p, In p ps -> box_ok p) ->
  match force_loop x ps k best with
  | None => best = None /\ forall p dx, In p ps -> ~ reaches x p dx
  | Some (i, m) =>
      ((k <= i)%nat /\ (exists p, nth_error ps (i - k) = Some p /\ reaches x p m) /\
       (match best with Some (_, b) => m < b | None => True end) /\
       (forall j p dx, nth_error ps j = Some p -> reaches x p dx -> m <= dx /\ ((j < i - k)%nat -> m < dx))) \/
      (best = Some (i, m) /\ forall p dx, In p ps -> reaches x p dx -> m <= dx)
  end.
Proof.
  induction ps as [|p ps IH]; intros k best B; cbn [force_loop].
  - destruct best as [[i m]|]; [right|]; split; auto; intros ? ? [].
  - assert (Bp : box_ok p) by (apply B; left; auto). assert (B' : forall p, In p ps -> box_ok p) by (intros; apply B; right; auto).
    destruct (force_dx x p) as [d|] eqn:F.
    + apply force_dx_iff in F; auto.
      assert (U : forall dx, reaches x p dx -> dx = d). { intros dx Q. apply force_dx_iff in Q, F; auto. congruence. }
      set (nb := match best with None => Some (k, d) | Some (_, m) => if ltR d m then Some (k, d) else best end).
      specialize (IH (S k) nb B'). destruct (force_loop x ps (S k) nb) as [[i m]|].
      * destruct IH as [(L & (q & Q & R) & Lb & M)|[E M]].
        { assert (md : m < d /\ match best with Some (_, b) => m < b | None => True end).
          { destruct best as [[i0 b]|]; unfold nb in Lb; [|auto]. destruct (ltR_spec d b); split; lra. }
          left. split; [lia|]. split; [exists q; replace (i - k)%nat with (S (i - S k)) by lia; auto|]. split; [tauto|].
          intros [|j] p' dx Hj Hr; cbn in Hj.
          - injection Hj as <-. rewrite (U _ Hr). split; intros; lra.
          - destruct (M j p' dx Hj Hr). split; auto. intros; apply H0; lia. }
        { assert (C : (i = k /\ m = d /\ match best with Some (_, b) => d < b | None => True end) \/ (best = Some (i, m) /\ m <= d)).
          { unfold nb in E. destruct best as [[i0 b]|]; [|injection E as <- <-; auto]. destruct (ltR_spec d b); injection E as <- <-; [left|right]; auto. split; auto. lra. }
          destruct C as [(-> & -> & Lb)|[Eb Lb]].
          - left. split; auto. rewrite Nat.sub_diag. split; [exists p; auto|]. split; auto. intros [|j] p' dx Hj Hr; cbn in Hj.
            + injection Hj as <-. rewrite (U _ Hr). split; intros; [lra|lia].
            + split; [|intros; lia]. apply (M p'); auto. eapply nth_error_In; eauto.
          - right. split; auto. intros p' dx [<-|I'] Hr; [rewrite (U _ Hr); auto|]. apply (M p'); auto. }
      * destruct IH as [E _]. unfold nb in E. destruct best as [[? ?]|]; [destruct (ltR d r)|]; discriminate.
    + assert (U : forall dx, ~ reaches x p dx). { intros dx Q. apply force_dx_iff in Q; auto. congruence. }
      specialize (IH (S k) best B'). destruct (force_loop x ps (S k) best) as [[i m]|].
      * destruct IH as [(L & (q & Q & R) & Lb & M)|[E M]].
        { left. split; [lia|]. split; [exists q; replace (i - k)%nat with (S (i - S k)) by lia; auto|]. split; auto.
          intros [|j] p' dx Hj Hr; cbn in Hj; [injection Hj as <-; contradiction (U _ Hr)|]. destruct (M j p' dx Hj Hr). split; auto. intros; apply H0; lia. }
        { right. split; auto. intros p' dx [<-|I'] Hr; [contradiction (U _ Hr)|]. apply (M p'); auto. }
      * destruct IH as [E M]. split; auto. intros p' dx [<-|I']; auto.
Qed.
Theorem force_ok : forall x ps, (forall p, In p ps -> box_ok p) ->
  match x_in_which_patch_force x ps with
  | Some (i, X) => exists p dx X0, nth_error ps i = Some p /\ reaches x p dx /\ snd (X_of_x x p) = Some X0 /\ X = Some (clip3 X0 (pmin p) (pmax p)) /\
      (forall j q dx', nth_error ps j = Some q -> reaches x q dx' -> dx <= dx' /\ ((j < i)%nat -> dx < dx'))
  | None => forall p dx, In p ps -> ~ reaches x p dx
  end.
Proof.
  intros x ps B. unfold x_in_which_patch_force. pose proof (force_loop_spec x ps 0 None B) as L.
  destruct (force_loop x ps 0 None) as [[i m]|].
  - destruct L as [(_ & (p & N & R) & _ & M)|[E _]]; [|discriminate]. rewrite Nat.sub_0_r in *.
    pose proof R as (X0 & x' & E & _). exists p, m, X0. split; auto. split; auto. split; auto. split; [|exact M].
    rewrite (nth_error_nth _ _ _ N), E. cbn [fbind]. rewrite clamp3_clip; auto. apply B. eapply nth_error_In; eauto.
  - apply L.
Qed.
(** clipped to the box *)
Lemma clip3_box p X : box_ok p -> forall i, (i < 3)%nat -> get (pmin p) i <= get (clip3 X (pmin p) (pmax p)) i <= get (pmax p) i.
Proof.
  intros B i L. pose proof (B i L) as Q. unfold clip3, clip. destruct i as [|[|[|]]]; try lia; cbn [get];
  (split; [apply Rmax_l|apply Rmax_lub; [exact Q|apply Rmin_l]]).
Qed.
(** a concrete case: two boxes, a point 5e-8 outside the first and 9e-8 outside the second *)
Theorem force_ex : exists x ps, (forall p, In p ps -> box_ok p) /\ x_in_which_patch x ps = None /\ exists X, x_in_which_patch_force x ps = Some (0%nat, Some X).
Proof.
  set (x := (1 / 2, 1 / 2, 1 + / 20000000) : v3). set (p := CART (0, 0, 0) (1, 1, 1)).
  assert (Bp : box_ok p) by (intros i L; destruct i as [|[|[|]]]; try lia; cbn; lra).
  assert (Iin : IsInside x (0, 0, 0) (1, 1, 1) EPS_coord_general = false).
  { destruct (IsInside x _ _ _) eqn:E; auto. apply inside_inv in E; [|apply eps_pos]. specialize (E 2%nat ltac:(lia)). cbn in E. unfold EPS_coord_general in E. lra. }
  exists x, [p]. split; [intros q [<-|[]]; auto|]. split.
  - unfold x_in_which_patch, first_such, X_of_x, p, X_of_x_precision. rewrite Iin. reflexivity.
  - pose proof (force_ok x [p]) as F. destruct (x_in_which_patch_force x [p]) as [[i X]|].
    + destruct F as (q & dx & X0 & N & _ & _ & -> & _); [intros q [<-|[]]; auto|]. destruct i as [|[|]]; try discriminate. eauto.
    + exfalso. refine (F _ p _ (or_introl eq_refl) _); [intros q [<-|[]]; auto|]. exists x. unfold p at 1, X_of_x, X_of_x_precision. rewrite Iin. cbn [snd].
      eexists. split; [reflexivity|]. repeat split; try reflexivity.
      * intros. destruct i as [|[|[|]]]; try lia; cbn; lra.
      * intros. destruct i as [|[|[|]]]; try lia; cbn; lra.
      * intros. destruct i as [|[|[|]]]; try lia; cbn; lra.
      * intros. destruct i as [|[|[|]]]; try lia; cbn; lra.
Qed.
Theorem node_ex : find_node (0, 0, 2) [(0, 0, 1); (0, 0, 2); (0, 0, 3)] = Some 1%nat.
Proof.
  assert (V : vnorm (0, 0, 2) = 2). { unfold vnorm, vdot. cbn [get]. replace (_ + _ + _) with (2 * 2) by ring. apply sqrt_square. lra. }
  pose proof (node_found (0, 0, 2) [(0, 0, 1); (0, 0, 2); (0, 0, 3)]) as N. rewrite V in N. specialize (N ltac:(lra)).
  assert (D1 : vnorm (vadd (0, 0, 2) (vscale (-1) (0, 0, 1))) = 1).
  { rewrite <- rs_dist. replace (0, 0, 1) with (0, 0, 2 + -1) by (f_equal; ring). rewrite rs_z. rewrite Rabs_left; lra. }
  assert (D3 : vnorm (vadd (0, 0, 2) (vscale (-1) (0, 0, 3))) = 1).
  { rewrite <- rs_dist. replace (0, 0, 3) with (0, 0, 2 + 1) by (f_equal; ring). rewrite rs_z. rewrite Rabs_right; lra. }
  destruct (find_node (0, 0, 2) _) as [i|].
  - destruct N as [E _].
    + intros y [<-|[<-|[<-|[]]]]; [right; rewrite D1; lra|left; auto|right; rewrite D3; lra].
    + destruct i as [|[|[|[|]]]]; cbn in E; auto; try discriminate; injection E; intros; exfalso; lra.
  - exfalso. apply N; [|right; left; auto]. intros y [<-|[<-|[<-|[]]]]; [right; rewrite D1; lra|left; auto|right; rewrite D3; lra].
Qed.
(** with an exact node k, what is returned is node k or a later one within 1e-8 per node passed *)
Theorem node_exact : forall x nodes k, 1 + / 10000 < vnorm x -> nth_error nodes k = Some x ->
  (forall y, In y nodes -> vnorm (vadd x (vscale (-1) y)) <> / 100000000) ->
  exists i y, find_node x nodes = Some i /\ (k <= i)%nat /\ nth_error nodes i = Some y /\ vnorm (vadd x (vscale (-1) y)) <= / 100000000 * INR (i - k).
Proof.
  intros x nodes k H K N. unfold find_node. cbv zeta. fold (res0 x). rewrite (res0_big x H). assert (Ep : 0 < eps) by (unfold eps; lra).
  assert (Q1 : forall l i res v, (exists m, v = Some m) -> exists j, find_node_loop x l i res v = Some j).
  { induction l as [|y l IH]; intros i res v V; cbn [find_node_loop]; auto. destruct (LSSEQL_coord _ _ _); apply IH; eauto. }
  assert (Q2 : forall l i res v j, find_node_loop x l i res v = Some j -> v = Some j \/
     ((i <= j)%nat /\ exists y, nth_error l (j - i) = Some y /\ root_square3 x y < res + eps * INR (S j - i))).
  { induction l as [|y l IH]; intros i res v j E; cbn [find_node_loop] in E; auto.
    destruct (LSSEQL_coord (root_square3 x y) res EPS_coord_general) eqn:A.
    - apply accept_iff in A. destruct (IH _ _ _ _ E) as [V|(L & z & Z & D)].
      + injection V as ->. right. split; auto. exists y. rewrite Nat.sub_diag. replace (S j - j)%nat with 1%nat by lia. cbn. split; auto. lra.
      + right. split; [lia|]. exists z. replace (j - i)%nat with (S (j - S i)) by lia. split; auto. replace (S j - i)%nat with (S (S j - S i)) by lia. rewrite S_INR. lra.
    - destruct (IH _ _ _ _ E) as [V|(L & z & Z & D)]; auto. right. split; [lia|]. exists z. replace (j - i)%nat with (S (j - S i)) by lia. split; auto.
      replace (S j - i)%nat with (S (S j - S i)) by lia. rewrite S_INR. unfold eps in *. lra. }
  assert (G : forall l m i res v, nth_error l m = Some x -> (forall y, In y l -> root_square3 x y <> eps) -> 0 <= res -> res <> eps ->
     exists j y, find_node_loop x l i res v = Some j /\ (i + m <= j)%nat /\ nth_error l (j - i) = Some y /\ root_square3 x y <= eps * INR (j - i - m)).
  { induction l as [|y l IH]; intros m i res v M Nn R0 R1; [destruct m; discriminate|]. cbn [find_node_loop].
    destruct m as [|m]; cbn in M.
    - injection M as ->. rewrite rs_refl. assert (LSSEQL_coord 0 res EPS_coord_general = true) as -> by (apply accept_iff; lra).
      destruct (Q1 l (S i) 0 (Some i)) as [j J]; [eauto|]. exists j. destruct (Q2 _ _ _ _ _ J) as [V|(L & z & Z & D)].
      + injection V as ->. exists x. rewrite Nat.sub_diag. repeat split; auto; [lia|]. rewrite rs_refl. cbn. lra.
      + exists z. repeat split; auto; [lia| |].
        * replace (j - i)%nat with (S (j - S i)) by lia. exact Z.
        * replace (j - i - 0)%nat with (S j - S i)%nat by lia. lra.
    - assert (Nl : forall z, In z l -> root_square3 x z <> eps) by (intros; apply Nn; right; auto).
      assert (Step : forall res' v', 0 <= res' -> res' <> eps -> exists j y', find_node_loop x l (S i) res' v' = Some j /\ (i + S m <= j)%nat /\ nth_error (y :: l) (j - i) = Some y' /\ root_square3 x y' <= eps * INR (j - i - S m)).
      { intros res' v' A B. destruct (IH m (S i) res' v' M Nl A B) as (j & z & J & L & Z & D). exists j, z. repeat split; auto; [lia| |].
        - replace (j - i)%nat with (S (j - S i)) by lia. exact Z.
        - replace (j - i - S m)%nat with (j - S i - m)%nat by lia. exact D. }
      destruct (LSSEQL_coord _ _ _); apply Step; auto; [apply rs_nonneg|apply Nn; left; auto]. }
  destruct (G nodes k 0%nat (eps * vnorm x) None K) as (j & y & J & L & Y & D).
  - intros y Y. rewrite rs_dist. apply N; auto.
  - unfold eps. lra. - unfold eps. lra.
  - rewrite Nat.sub_0_r in *. exists j, y. repeat split; auto. rewrite <- rs_dist. exact D.
Qed.
