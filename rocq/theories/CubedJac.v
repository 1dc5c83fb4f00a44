From Verif Require Import RealBase CubedModel CubedSpec CubedProofs.
Open Scope R_scope.

Lemma dlim_ext f g x l : derivable_pt_lim f x l -> (exists dl, 0 < dl /\ forall t, Rabs (t - x) < dl -> g t = f t) -> derivable_pt_lim g x l.
Proof.
  intros D (dl & Hd & E) e He. destruct (D e He) as [d2 H2].
  assert (Hm : 0 < Rmin dl d2) by (apply Rmin_pos; [auto|apply cond_pos]).
  exists (mkposreal _ Hm). cbn. intros h Hh Hl.
  rewrite !E.
  - apply H2; auto. eapply Rlt_le_trans; [exact Hl|]. apply Rmin_r.
  - rewrite Rminus_diag_eq, Rabs_R0; auto.
  - replace (x + h - x) with h by ring. eapply Rlt_le_trans; [exact Hl|]. apply Rmin_l.
Qed.
Lemma dlim_cont f x l e : derivable_pt_lim f x l -> 0 < e -> exists dl, 0 < dl /\ forall t, Rabs (t - x) < dl -> Rabs (f t - f x) < e.
Proof.
  intros D He. destruct (D 1 Rlt_0_1) as [d1 H1].
  set (K := Rabs l + 1). assert (HK : 0 < K) by (unfold K; pose proof (Rabs_pos l); lra).
  exists (Rmin d1 (e / K)). split.
  { apply Rmin_pos; [apply cond_pos|]. apply Rdiv_lt_0_compat; auto. }
  intros t Ht. destruct (Req_dec t x) as [->|N].
  { rewrite Rminus_diag_eq, Rabs_R0; auto. }
  assert (Hh : t - x <> 0) by lra.
  specialize (H1 (t - x) Hh (Rlt_le_trans _ _ _ Ht (Rmin_l _ _))).
  replace (x + (t - x)) with t in H1 by ring.
  assert (Q : f t - f x = ((f t - f x) / (t - x) - l) * (t - x) + l * (t - x)) by (field; auto).
  rewrite Q. eapply Rle_lt_trans; [apply Rabs_triang|]. rewrite !Rabs_mult.
  assert (T : Rabs (t - x) < e / K) by (eapply Rlt_le_trans; [exact Ht|apply Rmin_r]).
  assert (0 < Rabs (t - x)) by (apply Rabs_pos_lt; auto).
  assert (K * Rabs (t - x) < e).
  { apply (Rmult_lt_compat_l K) in T; auto. replace (K * (e / K)) with e in T by (field; lra). exact T. }
  unfold K in *. nra.
Qed.
Lemma dlim_nz f x l : derivable_pt_lim f x l -> f x <> 0 -> exists dl, 0 < dl /\ forall t, Rabs (t - x) < dl -> f t <> 0.
Proof.
  intros D N. destruct (dlim_cont f x l (Rabs (f x)) D) as (dl & A & B); [apply Rabs_pos_lt; auto|].
  exists dl. split; auto. intros t Ht Z. specialize (B t Ht). rewrite Z in B.
  replace (0 - f x) with (- f x) in B by ring. rewrite Rabs_Ropp in B. lra.
Qed.

(** Chain rule for a surface along a curve. *)
Lemma surf_chain F X Y r p q (u v : R -> R) u' v' : surf_diff F X Y r p q ->
  derivable_pt_lim u 0 u' -> derivable_pt_lim v 0 v' -> u 0 = X -> v 0 = Y ->
  exists w, (exists dl, 0 < dl /\ forall t, Rabs t < dl -> F (u t) (v t) = Some (w t)) /\ w 0 = r /\
    derivable_pt_lim w 0 (p * u' + q * v').
Proof.
  intros [F0 D] Du Dv U0 V0.
  exists (fun t => match F (u t) (v t) with Some a => a | None => 0 end).
  split; [|split].
  - destruct (D 1 Rlt_0_1) as (d0 & P0 & H0).
    destruct (dlim_cont u 0 u' d0 Du P0) as (d1 & P1 & H1).
    destruct (dlim_cont v 0 v' d0 Dv P0) as (d2 & P2 & H2).
    exists (Rmin d1 d2). split; [apply Rmin_pos; auto|]. intros t Ht.
    assert (T1 : Rabs (t - 0) < d1) by (rewrite Rminus_0_r; eapply Rlt_le_trans; [exact Ht|apply Rmin_l]).
    assert (T2 : Rabs (t - 0) < d2) by (rewrite Rminus_0_r; eapply Rlt_le_trans; [exact Ht|apply Rmin_r]).
    specialize (H1 t T1). specialize (H2 t T2). rewrite U0 in H1. rewrite V0 in H2.
    destruct (H0 _ _ H1 H2) as (w & E & _). replace (X + (u t - X)) with (u t) in E by ring.
    replace (Y + (v t - Y)) with (v t) in E by ring. rewrite E. reflexivity.
  - rewrite U0, V0, F0. reflexivity.
  - intros e He.
    set (K := Rabs u' + Rabs v' + 2). set (M := Rabs p + Rabs q + 1).
    assert (HK : 0 < K) by (unfold K; pose proof (Rabs_pos u'); pose proof (Rabs_pos v'); lra).
    assert (HM : 0 < M) by (unfold M; pose proof (Rabs_pos p); pose proof (Rabs_pos q); lra).
    assert (E1 : 0 < e / (2 * K)) by (apply Rdiv_lt_0_compat; lra).
    assert (E2 : 0 < Rmin 1 (e / (2 * M))) by (apply Rmin_pos; [lra|apply Rdiv_lt_0_compat; lra]).
    destruct (D _ E1) as (d0 & P0 & H0).
    destruct (dlim_cont u 0 u' d0 Du P0) as (d1 & P1 & H1).
    destruct (dlim_cont v 0 v' d0 Dv P0) as (d2 & P2 & H2).
    destruct (Du _ E2) as [d3 H3]. destruct (Dv _ E2) as [d4 H4].
    assert (Hd : 0 < Rmin (Rmin d1 d2) (Rmin d3 d4)).
    { repeat apply Rmin_pos; auto; apply cond_pos. }
    exists (mkposreal _ Hd). cbn. intros h Nh Hh. rewrite Rplus_0_l.
    assert (T1 : Rabs (h - 0) < d1).
    { rewrite Rminus_0_r. eapply Rlt_le_trans; [exact Hh|]. eapply Rle_trans; [apply Rmin_l|apply Rmin_l]. }
    assert (T2 : Rabs (h - 0) < d2).
    { rewrite Rminus_0_r. eapply Rlt_le_trans; [exact Hh|]. eapply Rle_trans; [apply Rmin_l|apply Rmin_r]. }
    assert (T3 : Rabs h < d3).
    { eapply Rlt_le_trans; [exact Hh|]. eapply Rle_trans; [apply Rmin_r|apply Rmin_l]. }
    assert (T4 : Rabs h < d4).
    { eapply Rlt_le_trans; [exact Hh|]. eapply Rle_trans; [apply Rmin_r|apply Rmin_r]. }
    specialize (H1 h T1). specialize (H2 h T2). specialize (H3 h Nh T3). specialize (H4 h Nh T4).
    rewrite Rplus_0_l in H3, H4. rewrite U0 in H1, H3. rewrite V0 in H2, H4.
    destruct (H0 _ _ H1 H2) as (w & E & B).
    replace (X + (u h - X)) with (u h) in E by ring. replace (Y + (v h - Y)) with (v h) in E by ring.
    rewrite E, U0, V0, F0.
    set (a := (u h - X) / h - u') in *. set (b := (v h - Y) / h - v') in *.
    assert (Ua : u h - X = h * (u' + a)) by (unfold a; field; auto).
    assert (Vb : v h - Y = h * (v' + b)) by (unfold b; field; auto).
    rewrite Ua, Vb in B.
    replace ((w - r) / h - (p * u' + q * v')) with ((w - r - p * (h * (u' + a)) - q * (h * (v' + b))) / h + (p * a + q * b)) by (field; auto).
    eapply Rle_lt_trans; [apply Rabs_triang|].
    assert (A1 : Rabs a < 1) by (eapply Rlt_le_trans; [exact H3|apply Rmin_l]).
    assert (B1 : Rabs b < 1) by (eapply Rlt_le_trans; [exact H4|apply Rmin_l]).
    assert (A2 : Rabs a < e / (2 * M)) by (eapply Rlt_le_trans; [exact H3|apply Rmin_r]).
    assert (B2 : Rabs b < e / (2 * M)) by (eapply Rlt_le_trans; [exact H4|apply Rmin_r]).
    assert (Hpos : 0 < Rabs h) by (apply Rabs_pos_lt; auto).
    assert (P1' : Rabs ((w - r - p * (h * (u' + a)) - q * (h * (v' + b))) / h) <= e / 2).
    { unfold Rdiv at 1. rewrite Rabs_mult, Rabs_inv.
      assert (Rabs (h * (u' + a)) + Rabs (h * (v' + b)) <= Rabs h * K).
      { rewrite !Rabs_mult. pose proof (Rabs_triang u' a). pose proof (Rabs_triang v' b). unfold K. nra. }
      apply (Rmult_le_reg_r (Rabs h)); auto. rewrite Rmult_assoc, Rinv_l, Rmult_1_r by lra.
      eapply Rle_trans; [exact B|].
      apply Rle_trans with (e / (2 * K) * (Rabs h * K)).
      - apply Rmult_le_compat_l; lra.
      - right. field. lra. }
    assert (P2' : Rabs (p * a + q * b) < e / 2).
    { eapply Rle_lt_trans; [apply Rabs_triang|]. rewrite !Rabs_mult.
      assert (G : M * (e / (2 * M)) = e / 2) by (field; lra).
      clear - G A2 B2. set (z := e / (2 * M)) in *. clearbody z. unfold M in G.
      pose proof (Rabs_pos p). pose proof (Rabs_pos q). pose proof (Rabs_pos a).
      assert (Rabs p * Rabs a <= Rabs p * z) by (apply Rmult_le_compat_l; lra).
      assert (Rabs q * Rabs b <= Rabs q * z) by (apply Rmult_le_compat_l; lra).
      lra. }
    lra.
Qed.

(** Quotients *)
Lemma dlim_quot f g f' g' : derivable_pt_lim f 0 f' -> derivable_pt_lim g 0 g' -> g 0 <> 0 ->
  derivable_pt_lim (fun t => f t / g t) 0 ((f' * g 0 - g' * f 0) / (g 0 * g 0)).
Proof. intros. apply (derivable_pt_lim_div f g 0 f' g'); auto. Qed.
Lemma dlim_const c : derivable_pt_lim (fun _ => c) 0 0.
Proof. apply derivable_pt_lim_const. Qed.
Lemma dlim_plus f g f' g' : derivable_pt_lim f 0 f' -> derivable_pt_lim g 0 g' -> derivable_pt_lim (fun t => f t + g t) 0 (f' + g').
Proof. intros. apply (derivable_pt_lim_plus f g); auto. Qed.
Lemma dlim_minus f g f' g' : derivable_pt_lim f 0 f' -> derivable_pt_lim g 0 g' -> derivable_pt_lim (fun t => f t - g t) 0 (f' - g').
Proof. intros. apply (derivable_pt_lim_minus f g); auto. Qed.
Lemma dlim_mult f g f' g' : derivable_pt_lim f 0 f' -> derivable_pt_lim g 0 g' -> derivable_pt_lim (fun t => f t * g t) 0 (f' * g 0 + f 0 * g').
Proof. intros. apply (derivable_pt_lim_mult f g); auto. Qed.
Lemma dlim_scal c f f' : derivable_pt_lim f 0 f' -> derivable_pt_lim (fun t => c * f t) 0 (c * f').
Proof. intros. apply (derivable_pt_lim_scal f c); auto. Qed.
Lemma dlim_eq f x a b : derivable_pt_lim f x a -> a = b -> derivable_pt_lim f x b.
Proof. intros ? <-. auto. Qed.

Lemma dlim_dist (u v : R -> R) u' v' : derivable_pt_lim u 0 u' -> derivable_pt_lim v 0 v' ->
  derivable_pt_lim (fun t => dist1 (u t) (v t)) 0 ((u 0 * u' + v 0 * v') / dist1 (u 0) (v 0)).
Proof.
  intros Du Dv. unfold dist1.
  set (g := fun t => 1 + u t * u t + v t * v t).
  assert (Dg : derivable_pt_lim g 0 (2 * (u 0 * u' + v 0 * v'))).
  { unfold g. eapply dlim_eq.
    - apply dlim_plus; [apply dlim_plus; [apply dlim_const|apply dlim_mult; eassumption]|apply dlim_mult; eassumption].
    - ring. }
  assert (G : 0 < g 0) by (unfold g; nra).
  pose proof (derivable_pt_lim_sqrt (g 0) G) as Ds.
  pose proof (derivable_pt_lim_comp g sqrt 0 _ _ Dg Ds) as C.
  eapply dlim_eq; [exact C|]. unfold g. pose proof (sqrt_lt_R0 _ G). unfold g in *. field. lra.
Qed.

(** the moved point *)
Definition relp (P : cs_patch) (x : v3) : v3 :=
  (get x 0 - get (cs_c P) 0, get x 1 - get (cs_c P) 1, get x 2 - get (cs_c P) 2).
Lemma rel_move P x l t m : (l < 3)%nat -> (m < 3)%nat -> get (relp P (move x l t)) m = get (relp P x) m + kd (Nat.eqb m l) * t.
Proof.
  intros L M. destruct x as [[a b] c]. unfold relp, move.
  destruct l as [|[|[|]]]; try lia; destruct m as [|[|[|]]]; try lia; cbn; ring.
Qed.
Lemma dlim_rel P x l m : (l < 3)%nat -> (m < 3)%nat ->
  derivable_pt_lim (fun t => get (relp P (move x l t)) m) 0 (kd (Nat.eqb m l)).
Proof.
  intros L M. apply (dlim_ext (fun t => get (relp P x) m + kd (Nat.eqb m l) * t)).
  - eapply dlim_eq; [apply dlim_plus; [apply dlim_const|apply dlim_scal; apply derivable_pt_lim_id]|]. ring.
  - exists 1. split; [lra|]. intros. apply rel_move; auto.
Qed.
Lemma move0 x l : (l < 3)%nat -> move x l 0 = x.
Proof. intros L. destruct x as [[a b] c]. destruct l as [|[|[|]]]; try lia; unfold move; cbn; rewrite Rplus_0_r; reflexivity. Qed.

Lemma sip_lt s i j k g : sip s = (i, j, k, g) -> (i < 3)%nat /\ (j < 3)%nat /\ (k < 3)%nat /\ i <> k /\ j <> k /\ i <> j /\ g * g = 1.
Proof. destruct s; cbn; intros E; inversion E; repeat split; try lia; lra. Qed.

Lemma jt_ab_some sg m k l x : get x k <> 0 ->
  JT_ab sg m k l x = Some ((sg * (kd (Nat.eqb m l) - get x m * kd (Nat.eqb k l) / get x k)) / get x k).
Proof. intros N. unfold JT_ab. rewrite fdiv_some by auto. cbn [fbind]. rewrite fdiv_some by auto. reflexivity. Qed.

(** X and Y along the moved point *)
Lemma dlim_XY P x l m k sg : (l < 3)%nat -> (m < 3)%nat -> (k < 3)%nat -> get (relp P x) k <> 0 ->
  derivable_pt_lim (fun t => sg * get (relp P (move x l t)) m / get (relp P (move x l t)) k) 0
    ((sg * (kd (Nat.eqb m l) - get (relp P x) m * kd (Nat.eqb k l) / get (relp P x) k)) / get (relp P x) k).
Proof.
  intros L M K N. eapply dlim_eq.
  - apply dlim_quot.
    + apply dlim_scal. apply dlim_rel; auto.
    + apply dlim_rel; auto.
    + rewrite move0; auto.
  - cbv beta. rewrite !move0 by auto. field. auto.
Qed.

Lemma near0_and p q : near0 p -> near0 q -> near0 (fun t => p t /\ q t).
Proof.
  intros (a & A & A') (b & B & B'). exists (Rmin a b). split; [apply Rmin_pos; auto|]. intros t T. split.
  - apply A'. eapply Rlt_le_trans; [exact T|apply Rmin_l].
  - apply B'. eapply Rlt_le_trans; [exact T|apply Rmin_r].
Qed.
Lemma near0_impl (p q : R -> Prop) : (forall t, p t -> q t) -> near0 p -> near0 q.
Proof. intros I (a & A & H). exists a. split; auto. Qed.
Lemma near0_nz f f' : derivable_pt_lim f 0 f' -> f 0 <> 0 -> near0 (fun t => f t <> 0).
Proof.
  intros D N. destruct (dlim_nz f 0 f' D N) as (dl & A & B). exists dl. split; auto. intros t T. apply B. rewrite Rminus_0_r. auto.
Qed.
Lemma near0_true (p : R -> Prop) : (forall t, p t) -> near0 p.
Proof. intros H. exists 1. split; [lra|auto]. Qed.
Lemma near0_at p : near0 p -> p 0.
Proof. intros (a & A & H). apply H. rewrite Rabs_R0. auto. Qed.

Section MOVED.
  Variables (P : cs_patch) (x : v3) (l i j k : nat) (sg : R).
  Hypotheses (Hl : (l < 3)%nat) (Es : sip (cs_side P) = (i, j, k, sg)) (N : get (relp P x) k <> 0).
  Let y m t := get (relp P (move x l t)) m.
  Let u t := sg * y i t / y k t.
  Let v t := sg * y j t / y k t.
  Let Ja := (sg * (kd (Nat.eqb i l) - get (relp P x) i * kd (Nat.eqb k l) / get (relp P x) k)) / get (relp P x) k.
  Let Jb := (sg * (kd (Nat.eqb j l) - get (relp P x) j * kd (Nat.eqb k l) / get (relp P x) k)) / get (relp P x) k.
  Let X0 := sg * get (relp P x) i / get (relp P x) k.
  Let Y0 := sg * get (relp P x) j / get (relp P x) k.
  Let xk := get (relp P x) k.
  Let kl := kd (Nat.eqb k l).

  Lemma mv_u : derivable_pt_lim u 0 Ja.
  Proof. destruct (sip_lt _ _ _ _ _ Es) as (? & ? & ? & _). apply dlim_XY; auto. Qed.
  Lemma mv_v : derivable_pt_lim v 0 Jb.
  Proof. destruct (sip_lt _ _ _ _ _ Es) as (? & ? & ? & _). apply dlim_XY; auto. Qed.
  Lemma mv_k : derivable_pt_lim (y k) 0 kl.
  Proof. destruct (sip_lt _ _ _ _ _ Es) as (? & ? & ? & _). apply dlim_rel; auto. Qed.
  Lemma mv_u0 : u 0 = X0. Proof. unfold u, y. rewrite move0; auto. Qed.
  Lemma mv_v0 : v 0 = Y0. Proof. unfold v, y. rewrite move0; auto. Qed.
  Lemma mv_k0 : y k 0 = xk. Proof. unfold y. rewrite move0; auto. Qed.
  Lemma mv_nz : near0 (fun t => y k t <> 0).
  Proof. apply (near0_nz _ kl); [apply mv_k|]. rewrite mv_k0. auto. Qed.

  Definition has_deriv (Jc : R) : Prop :=
    exists f, near0 (fun t => X_raw P (move x l t) = Some (f t)) /\
      derivable_pt_lim (fun t => comp qa (f t)) 0 Ja /\ derivable_pt_lim (fun t => comp qb (f t)) 0 Jb /\
      derivable_pt_lim (fun t => comp qc (f t)) 0 Jc.

  Lemma lin_case A A' B B' : is_out (cs_ty P) = false ->
    near0 (fun t => lin_ends P sg (dist1 (u t) (v t)) (u t) (v t) = Some (A t, B t)) ->
    derivable_pt_lim A 0 A' -> derivable_pt_lim B 0 B' -> B 0 - A 0 <> 0 ->
    has_deriv (((kl - A') * (B 0 - A 0) - (B' - A') * (xk - A 0)) / ((B 0 - A 0) * (B 0 - A 0))).
  Proof.
    intros O E DA DB Nz.
    exists (fun t => (u t, v t, (y k t - A t) / (B t - A t))). split; [|split; [|split]].
    - assert (NB : near0 (fun t => B t - A t <> 0)) by (apply (near0_nz _ (B' - A')); [apply dlim_minus; auto|auto]).
      apply (near0_impl (fun t => (y k t <> 0 /\ lin_ends P sg (dist1 (u t) (v t)) (u t) (v t) = Some (A t, B t)) /\ B t - A t <> 0)).
      2:{ apply near0_and; auto. apply near0_and; auto. apply mv_nz. }
      intros t ((H1 & H2) & H3). unfold X_raw. rewrite Es. fold (relp P (move x l t)).
      rewrite !fdiv_some by exact H1. cbn [fbind]. rewrite O, d_eq. unfold u, v, y in H2. rewrite H2. cbn [fbind].
      rewrite fdiv_some by auto. reflexivity.
    - cbn. apply mv_u.
    - cbn. apply mv_v.
    - cbn. eapply dlim_eq.
      + apply dlim_quot; [apply dlim_minus; [apply mv_k|exact DA]|apply dlim_minus; [exact DB|exact DA]|exact Nz].
      + cbv beta. unfold y. rewrite move0 by auto. reflexivity.
  Qed.
  Lemma out_case A A' B B' : is_out (cs_ty P) = true ->
    near0 (fun t => out_ends P sg (dist1 (u t) (v t)) (u t) (v t) = Some (A t, B t)) ->
    derivable_pt_lim A 0 A' -> derivable_pt_lim B 0 B' -> B 0 <> 0 ->
    has_deriv ((- (A' * xk - kl * A 0) / (xk * xk) * B 0 - B' * (1 - A 0 / xk)) / (B 0 * B 0)).
  Proof.
    intros O E DA DB Nz.
    exists (fun t => (u t, v t, (1 - A t / y k t) / B t)). split; [|split; [|split]].
    - assert (NB : near0 (fun t => B t <> 0)) by (apply (near0_nz _ B'); auto).
      apply (near0_impl (fun t => (y k t <> 0 /\ out_ends P sg (dist1 (u t) (v t)) (u t) (v t) = Some (A t, B t)) /\ B t <> 0)).
      2:{ apply near0_and; auto. apply near0_and; auto. apply mv_nz. }
      intros t ((H1 & H2) & H3). unfold X_raw. rewrite Es. fold (relp P (move x l t)).
      rewrite !fdiv_some by exact H1. cbn [fbind]. rewrite O, d_eq. unfold u, v, y in H2. rewrite H2. cbn [fbind].
      rewrite (fdiv_some (A t)) by exact H1. cbn [fbind]. rewrite fdiv_some by auto. reflexivity.
    - cbn. apply mv_u.
    - cbn. apply mv_v.
    - cbn. eapply dlim_eq.
      + apply dlim_quot; [apply dlim_minus; [apply dlim_const|apply dlim_quot; [exact DA|apply mv_k|unfold y; rewrite move0; auto]]|exact DB|exact Nz].
      + cbv beta. unfold y. rewrite move0 by auto. fold xk. field. split; auto.
  Qed.
  Lemma mv_dist : derivable_pt_lim (fun t => dist1 (u t) (v t)) 0 ((X0 * Ja + Y0 * Jb) / dist1 X0 Y0).
  Proof.
    eapply dlim_eq; [apply dlim_dist; [apply mv_u|apply mv_v]|]. rewrite mv_u0, mv_v0. reflexivity.
  Qed.
  (** surface over d *)
  Lemma mv_surf F r p q : surf_diff F X0 Y0 r p q ->
    exists A, near0 (fun t => F (u t) (v t) = Some (A t * dist1 (u t) (v t))) /\ A 0 = r / dist1 X0 Y0 /\
      derivable_pt_lim A 0 ((p * Ja + q * Jb) / dist1 X0 Y0 - r * (X0 * Ja + Y0 * Jb) / Power3 (dist1 X0 Y0)).
  Proof.
    intros S. destruct (surf_chain F X0 Y0 r p q u v Ja Jb S mv_u mv_v mv_u0 mv_v0) as (w & W & W0 & Dw).
    exists (fun t => w t / dist1 (u t) (v t)). split; [|split].
    - apply (near0_impl (fun t => F (u t) (v t) = Some (w t))); [|exact W]. intros t ->. f_equal.
      pose proof (dist1_pos (u t) (v t)). field. lra.
    - rewrite W0, mv_u0, mv_v0. reflexivity.
    - pose proof (dist1_pos X0 Y0) as D. eapply dlim_eq.
      + apply dlim_quot; [exact Dw|exact mv_dist|rewrite mv_u0, mv_v0; lra].
      + cbv beta. rewrite mv_u0, mv_v0, W0. unfold Power3, Pow2. field. lra.
  Qed.
End MOVED.

Lemma obs_if (b : bool) (x y : R) : (if b then Some x else Some y) = Some (if b then x else y).
Proof. destruct b; reflexivity. Qed.

Lemma flat_surf_case P x l i j k sg xc Rf r p q :
  (l < 3)%nat -> sip (cs_side P) = (i, j, k, sg) -> get (relp P x) k <> 0 ->
  (xc = DBL_MAX -> surf_diff Rf (sg * get (relp P x) i / get (relp P x) k) (sg * get (relp P x) j / get (relp P x) k) r p q) ->
  let X0 := sg * get (relp P x) i / get (relp P x) k in
  let Y0 := sg * get (relp P x) j / get (relp P x) k in
  let Ja := (sg * (kd (Nat.eqb i l) - get (relp P x) i * kd (Nat.eqb k l) / get (relp P x) k)) / get (relp P x) k in
  let Jb := (sg * (kd (Nat.eqb j l) - get (relp P x) j * kd (Nat.eqb k l) / get (relp P x) k)) / get (relp P x) k in
  let u t := sg * get (relp P (move x l t)) i / get (relp P (move x l t)) k in
  let v t := sg * get (relp P (move x l t)) j / get (relp P (move x l t)) k in
  exists A, near0 (fun t => flat_or_surf xc Rf (u t) (v t) (dist1 (u t) (v t)) = Some (A t)) /\
    A 0 = (if unset xc then r / dist1 X0 Y0 else xc) /\
    derivable_pt_lim A 0 (if unset xc then dR_dx p q Ja Jb / dist1 X0 Y0 - r * (X0 * Ja + Y0 * Jb) / Power3 (dist1 X0 Y0) else 0).
Proof.
  intros Hl Es N H X0 Y0 Ja Jb u v. destruct (unset xc) eqn:U.
  - apply unset_true in U. destruct (mv_surf P x l i j k sg Hl Es N Rf r p q (H U)) as (A & B & C & D).
    exists A. split; [|split].
    + apply (near0_impl (fun t => Rf (u t) (v t) = Some (A t * dist1 (u t) (v t)))); [|exact B].
      intros t E. unfold flat_or_surf. rewrite (proj2 (unset_true _) U). rewrite E. cbn [fbind].
      f_equal. pose proof (dist1_pos (u t) (v t)). field. lra.
    + exact C.
    + exact D.
  - exists (fun _ => xc). split; [|split].
    + apply near0_true. intros t. unfold flat_or_surf. rewrite U. reflexivity.
    + reflexivity.
    + apply dlim_const.
Qed.

Lemma fdiv_nz a b c : fdiv a b = Some c -> b <> 0 /\ c = a / b.
Proof. unfold fdiv. destruct (Req_EM_T b 0); intros E; inversion E. auto. Qed.

Theorem jacobian P n l q X : (l < 3)%nat -> jn_X n = X -> X_raw P (jn_x n) = Some X -> surfaces_ok P n ->
  exists J, JT P n q l = Some J /\
  exists f, near0 (fun t => X_raw P (move (jn_x n) l t) = Some (f t)) /\ derivable_pt_lim (fun t => comp q (f t)) 0 J.
Proof.
  intros Hl EX HX SO. set (x := jn_x n) in *.
  pose proof HX as HX0. unfold X_raw in HX0.
  destruct (sip (cs_side P)) as [[[i j] k] sg] eqn:Es.
  destruct (sip_lt _ _ _ _ _ Es) as (Hi & Hj & Hk & _ & _ & _ & Sq).
  fold (relp P x) in HX0.
  destruct (Req_EM_T (get (relp P x) k) 0) as [Z|N].
  { unfold fdiv at 1 in HX0. destruct (Req_EM_T (get (relp P x) k) 0); [discriminate|contradiction]. }
  rewrite !(fdiv_some _ _ N) in HX0. cbn [fbind] in HX0. rewrite d_eq in HX0.
  set (X0 := sg * get (relp P x) i / get (relp P x) k) in *.
  set (Y0 := sg * get (relp P x) j / get (relp P x) k) in *.
  match type of HX0 with (let? _ := ?e in _) = _ => destruct e as [Z0|] eqn:EZ; [|discriminate] end.
  cbn [fbind] in HX0. assert (HXX : X = (X0, Y0, Z0)) by congruence. clear HX0.
  pose proof (dist1_pos X0 Y0) as Dp.
  set (Ja := (sg * (kd (Nat.eqb i l) - get (relp P x) i * kd (Nat.eqb k l) / get (relp P x) k)) / get (relp P x) k).
  set (Jb := (sg * (kd (Nat.eqb j l) - get (relp P x) j * kd (Nat.eqb k l) / get (relp P x) k)) / get (relp P x) k).
  assert (EJa : JT P n qa l = Some Ja) by (unfold JT; rewrite Es; fold x; fold (relp P x); apply jt_ab_some; auto).
  assert (EJb : JT P n qb l = Some Jb) by (unfold JT; rewrite Es; fold x; fold (relp P x); apply jt_ab_some; auto).
  assert (MAIN : exists Jc, JT P n qc l = Some Jc /\ has_deriv P x l i j k sg Jc).
  2:{ destruct MAIN as (Jc & E & f & F & Da & Db & Dc). destruct q.
      - exists Ja. split; [exact EJa|]. exists f. split; auto.
      - exists Jb. split; [exact EJb|]. exists f. split; auto.
      - exists Jc. split; [exact E|]. exists f. split; auto. }
  assert (D2 : sqrt (1 + Pow2 (get (jn_X n) 0) + Pow2 (get (jn_X n) 1)) = dist1 X0 Y0) by (rewrite EX, HXX; reflexivity).
  unfold JT. rewrite Es. fold x. fold (relp P x). rewrite !jt_ab_some by auto. cbn [fbind]. fold Ja Jb.
  rewrite D2. rewrite EX, HXX in *. cbn [get]. unfold surfaces_ok in SO. rewrite EX in SO. cbn [get] in SO. cbv zeta in SO |- *.
  set (xk := get (relp P x) k) in *. set (d := dist1 X0 Y0) in *. set (kl := kd (Nat.eqb k l)).
  destruct (cs_ty P) eqn:T; cbn [is_out] in EZ.
  - (* OB *)
    destruct SO as [S1 S2].
    destruct (flat_surf_case P x l i j k sg (cs_xc1 P) (cs_R1f P) _ _ _ Hl Es N S1) as (A & EA & A0 & DA).
    destruct (flat_surf_case P x l i j k sg (cs_xc2 P) (cs_R2f P) _ _ _ Hl Es N S2) as (B & EB & B0 & DB).
    fold xk in A0, DA, B0, DB. fold X0 Y0 Ja Jb d in A0, DA, B0, DB.
    assert (LE : near0 (fun t => lin_ends P sg (dist1 (sg * get (relp P (move x l t)) i / get (relp P (move x l t)) k)
        (sg * get (relp P (move x l t)) j / get (relp P (move x l t)) k)) (sg * get (relp P (move x l t)) i / get (relp P (move x l t)) k)
        (sg * get (relp P (move x l t)) j / get (relp P (move x l t)) k) = Some (sg * A t, sg * B t))).
    { eapply near0_impl; [|exact (near0_and _ _ EA EB)]. intros t [E1 E2]. unfold lin_ends. rewrite T, E1. cbn [fbind]. rewrite E2. reflexivity. }
    pose proof (near0_at _ LE) as L0. cbv beta in L0. rewrite !(move0 x l Hl) in L0. fold xk X0 Y0 d in L0. rewrite L0 in EZ. cbn [fbind] in EZ.
    destruct (fdiv_nz _ _ _ EZ) as [NZ _].
    rewrite A0, B0 in NZ. 
    pose proof (lin_case P x l i j k sg Hl Es N (fun t => sg * A t) _ (fun t => sg * B t) _ (ltac:(rewrite T; reflexivity)) LE (dlim_scal sg _ _ DA) (dlim_scal sg _ _ DB)) as C.
    cbv beta in C. rewrite A0, B0 in C. specialize (C NZ).
    rewrite (fdiv_some _ _ NZ). cbn [fbind]. rewrite (fdiv_some _ _ NZ).
    eexists. split; [reflexivity|]. fold xk kl in C.
    match type of C with has_deriv _ _ _ _ _ _ _ ?a => match goal with |- has_deriv _ _ _ _ _ _ _ ?b => replace b with a; [exact C|] end end.
    field. exact NZ.
  - (* OT_SCS *)
    destruct SO as (S2 & S1 & dl & Pdl & SD).
    assert (F2 : jn_R2 n <> 0).
    { unfold out_ends in EZ. rewrite T, S1, S2 in EZ. cbn [fbind] in EZ.
      destruct (fdiv (jn_R1 n) (jn_R2 n)) eqn:Q; [|discriminate]. apply fdiv_nz in Q. tauto. }
    set (u := fun t => sg * get (relp P (move x l t)) i / get (relp P (move x l t)) k).
    set (v := fun t => sg * get (relp P (move x l t)) j / get (relp P (move x l t)) k).
    pose proof (mv_u P x l i j k sg Hl Es N) as Du. pose proof (mv_v P x l i j k sg Hl Es N) as Dv.
    pose proof (mv_u0 P x l i k sg Hl) as U0. pose proof (mv_v0 P x l j k sg Hl) as V0.
    pose proof (mv_dist P x l i j k sg Hl Es N) as Dd. cbv beta in Du, Dv, U0, V0, Dd. fold xk in Du, Dv, U0, V0, Dd. fold u v X0 Y0 Ja Jb d in Du, Dv, U0, V0, Dd.
    assert (NU : near0 (fun t => Rabs (u t - X0) < dl /\ Rabs (v t - Y0) < dl)).
    { apply near0_and.
      - destruct (dlim_cont u 0 _ dl Du Pdl) as (e & Pe & He). exists e. split; auto. intros t Ht. change (u 0) with (sg * get (relp P (move x l 0)) i / get (relp P (move x l 0)) k) in He. rewrite U0 in He. apply He. rewrite Rminus_0_r; auto.
      - destruct (dlim_cont v 0 _ dl Dv Pdl) as (e & Pe & He). exists e. split; auto. intros t Ht. change (v 0) with (sg * get (relp P (move x l 0)) j / get (relp P (move x l 0)) k) in He. rewrite V0 in He. apply He. rewrite Rminus_0_r; auto. }
    destruct (unset (cs_xc1 P)) eqn:U.
    + apply unset_true in U.
      assert (LE : near0 (fun t => out_ends P sg (dist1 (u t) (v t)) (u t) (v t) = Some (sg * (jn_R1 n / dist1 (u t) (v t)), 1 - jn_R1 n / jn_R2 n))).
      { eapply near0_impl; [|exact NU]. intros t [E1 E2]. destruct (SD _ _ E1 E2) as (Q2 & Q1 & _).
        unfold out_ends. rewrite T, (Q1 U), Q2. cbn [fbind]. rewrite fdiv_some by auto. cbn [fbind].
        rewrite (proj2 (unset_true _) U). reflexivity. }
      pose proof (near0_at _ LE) as L0. cbv beta in L0.
      change (u 0) with (sg * get (relp P (move x l 0)) i / get (relp P (move x l 0)) k) in L0.
      change (v 0) with (sg * get (relp P (move x l 0)) j / get (relp P (move x l 0)) k) in L0.
      rewrite U0, V0 in L0. fold d in L0. rewrite L0 in EZ. cbn [fbind] in EZ.
      rewrite (fdiv_some _ _ N) in EZ. cbn [fbind] in EZ.
      destruct (fdiv_nz _ _ _ EZ) as [NZ EZ0].
      assert (DA : derivable_pt_lim (fun t => sg * (jn_R1 n / dist1 (u t) (v t))) 0 (sg * ((0 * d - ((X0 * Ja + Y0 * Jb) / d) * jn_R1 n) / (d * d)))).
      { apply dlim_scal. eapply dlim_eq; [apply dlim_quot; [apply dlim_const|exact Dd|]|].
        - change (u 0) with (sg * get (relp P (move x l 0)) i / get (relp P (move x l 0)) k).
          change (v 0) with (sg * get (relp P (move x l 0)) j / get (relp P (move x l 0)) k). rewrite U0, V0. fold d. lra.
        - cbv beta. change (u 0) with (sg * get (relp P (move x l 0)) i / get (relp P (move x l 0)) k).
          change (v 0) with (sg * get (relp P (move x l 0)) j / get (relp P (move x l 0)) k). rewrite U0, V0. fold d. reflexivity. }
      pose proof (out_case P x l i j k sg Hl Es N _ _ (fun _ => 1 - jn_R1 n / jn_R2 n) 0 (ltac:(rewrite T; reflexivity)) LE DA (dlim_const _) NZ) as C.
      cbv beta in C. change (u 0) with (sg * get (relp P (move x l 0)) i / get (relp P (move x l 0)) k) in C.
      change (v 0) with (sg * get (relp P (move x l 0)) j / get (relp P (move x l 0)) k) in C. rewrite U0, V0 in C. fold d xk kl in C.
      rewrite !(fdiv_some _ _ F2). cbn [fbind]. rewrite (fdiv_some _ _ F2). cbn [fbind].
      rewrite (fdiv_some _ _ N). cbn [fbind]. rewrite (fdiv_some _ _ N). cbn [fbind]. rewrite (fdiv_some _ _ NZ).
      eexists. split; [reflexivity|].
      match type of C with has_deriv _ _ _ _ _ _ _ ?a => match goal with |- has_deriv _ _ _ _ _ _ _ ?b => replace b with a; [exact C|] end end.
      unfold Power3, Pow2. field. repeat split; try lra; auto. intros Q. apply NZ. field_simplify_eq; lra.
    + apply unset_false in U.
      assert (R1e : jn_R1 n = cs_xc1 P * d).
      { destruct (SD X0 Y0) as (_ & _ & Q); [rewrite Rminus_diag_eq, Rabs_R0; auto|rewrite Rminus_diag_eq, Rabs_R0; auto|].
        specialize (Q U). rewrite S1 in Q. injection Q as Q. exact Q. }
      assert (LE : near0 (fun t => out_ends P sg (dist1 (u t) (v t)) (u t) (v t) = Some (sg * cs_xc1 P, 1 - cs_xc1 P / jn_R2 n * dist1 (u t) (v t)))).
      { eapply near0_impl; [|exact NU]. intros t [E1 E2]. destruct (SD _ _ E1 E2) as (Q2 & _ & Q1).
        unfold out_ends. rewrite T, (Q1 U), Q2. cbn [fbind]. rewrite fdiv_some by auto. cbn [fbind].
        rewrite (proj2 (unset_false _) U). do 3 f_equal. field. auto. }
      pose proof (near0_at _ LE) as L0. cbv beta in L0.
      change (u 0) with (sg * get (relp P (move x l 0)) i / get (relp P (move x l 0)) k) in L0.
      change (v 0) with (sg * get (relp P (move x l 0)) j / get (relp P (move x l 0)) k) in L0.
      rewrite U0, V0 in L0. fold d in L0. rewrite L0 in EZ. cbn [fbind] in EZ.
      rewrite (fdiv_some _ _ N) in EZ. cbn [fbind] in EZ.
      destruct (fdiv_nz _ _ _ EZ) as [NZ EZ0].
      pose proof (dlim_minus _ _ _ _ (dlim_const 1) (dlim_scal (cs_xc1 P / jn_R2 n) _ _ Dd)) as DB.
      pose proof (out_case P x l i j k sg Hl Es N (fun _ => sg * cs_xc1 P) 0 _ _ (ltac:(rewrite T; reflexivity)) LE (dlim_const _) DB) as C.
      cbv beta in C. change (u 0) with (sg * get (relp P (move x l 0)) i / get (relp P (move x l 0)) k) in C.
      change (v 0) with (sg * get (relp P (move x l 0)) j / get (relp P (move x l 0)) k) in C. rewrite U0, V0 in C. fold d xk kl in C.
      specialize (C NZ).
      rewrite !(fdiv_some _ _ F2). cbn [fbind]. rewrite (fdiv_some _ _ F2). cbn [fbind].
      rewrite (fdiv_some _ _ N). cbn [fbind]. rewrite (fdiv_some _ _ N). cbn [fbind]. rewrite R1e.
      replace (1 - cs_xc1 P * d / jn_R2 n) with (1 - cs_xc1 P / jn_R2 n * d) by (field; auto).
      rewrite (fdiv_some _ _ NZ). rewrite EZ0.
      eexists. split; [reflexivity|].
      match type of C with has_deriv _ _ _ _ _ _ _ ?a => match goal with |- has_deriv _ _ _ _ _ _ _ ?b => replace b with a; [exact C|] end end.
      unfold Power3, Pow2. field. repeat split; try lra; auto. intros Q. apply NZ. field_simplify_eq; lra.
  - (* NS *)
    destruct (mv_surf P x l i j k sg Hl Es N (cs_R2f P) _ _ _ SO) as (B & EB & B0 & DB).
    fold xk in B0, DB. fold X0 Y0 Ja Jb d in B0, DB.
    assert (LE : near0 (fun t => lin_ends P sg (dist1 (sg * get (relp P (move x l t)) i / get (relp P (move x l t)) k)
        (sg * get (relp P (move x l t)) j / get (relp P (move x l t)) k)) (sg * get (relp P (move x l t)) i / get (relp P (move x l t)) k)
        (sg * get (relp P (move x l t)) j / get (relp P (move x l t)) k) = Some (cs_xc1 P, sg * B t))).
    { eapply near0_impl; [|exact EB]. intros t E1. unfold lin_ends. rewrite T, E1. cbn [fbind].
      set (dd := dist1 _ _). pose proof (dist1_pos (sg * get (relp P (move x l t)) i / get (relp P (move x l t)) k) (sg * get (relp P (move x l t)) j / get (relp P (move x l t)) k)) as Q. fold dd in Q.
      do 2 f_equal. field. lra. }
    pose proof (near0_at _ LE) as L0. cbv beta in L0. rewrite !(move0 x l Hl) in L0. fold xk X0 Y0 d in L0. rewrite L0 in EZ. cbn [fbind] in EZ.
    destruct (fdiv_nz _ _ _ EZ) as [NZ _]. rewrite B0 in NZ.
    pose proof (lin_case P x l i j k sg Hl Es N (fun t => cs_xc1 P) _ (fun t => sg * B t) _ (ltac:(rewrite T; reflexivity)) LE (dlim_const _) (dlim_scal sg _ _ DB)) as C.
    cbv beta in C. rewrite B0 in C. specialize (C NZ).
    replace (sg * jn_R2 n / d) with (sg * (jn_R2 n / d)) by (field; lra).
    rewrite (fdiv_some _ _ NZ). cbn [fbind]. rewrite (fdiv_some _ _ NZ).
    eexists. split; [reflexivity|]. fold xk kl in C.
    match type of C with has_deriv _ _ _ _ _ _ _ ?a => match goal with |- has_deriv _ _ _ _ _ _ _ ?b => replace b with a; [exact C|] end end.
    unfold dR_dx. clear - NZ Dp. set (b1 := sg * (jn_R2 n / d)) in *. clearbody b1 d. field. repeat split; try exact NZ; try lra.
    unfold Power3, Pow2. apply Rgt_not_eq. repeat apply Rmult_lt_0_compat; auto.
  - (* SR *)
    destruct (mv_surf P x l i j k sg Hl Es N (cs_R1f P) _ _ _ SO) as (A & EA & A0 & DA).
    fold xk in A0, DA. fold X0 Y0 Ja Jb d in A0, DA.
    assert (LE : near0 (fun t => lin_ends P sg (dist1 (sg * get (relp P (move x l t)) i / get (relp P (move x l t)) k)
        (sg * get (relp P (move x l t)) j / get (relp P (move x l t)) k)) (sg * get (relp P (move x l t)) i / get (relp P (move x l t)) k)
        (sg * get (relp P (move x l t)) j / get (relp P (move x l t)) k) = Some (sg * A t, cs_xc2 P))).
    { eapply near0_impl; [|exact EA]. intros t E1. unfold lin_ends. rewrite T, E1. cbn [fbind].
      set (dd := dist1 _ _). pose proof (dist1_pos (sg * get (relp P (move x l t)) i / get (relp P (move x l t)) k) (sg * get (relp P (move x l t)) j / get (relp P (move x l t)) k)) as Q. fold dd in Q.
      do 2 f_equal. field. lra. }
    pose proof (near0_at _ LE) as L0. cbv beta in L0. rewrite !(move0 x l Hl) in L0. fold xk X0 Y0 d in L0. rewrite L0 in EZ. cbn [fbind] in EZ.
    destruct (fdiv_nz _ _ _ EZ) as [NZ _]. rewrite A0 in NZ.
    pose proof (lin_case P x l i j k sg Hl Es N (fun t => sg * A t) _ (fun t => cs_xc2 P) _ (ltac:(rewrite T; reflexivity)) LE (dlim_scal sg _ _ DA) (dlim_const _)) as C.
    cbv beta in C. rewrite A0 in C. specialize (C NZ).
    replace (sg * jn_R1 n / d) with (sg * (jn_R1 n / d)) by (field; lra).
    rewrite (fdiv_some _ _ NZ). cbn [fbind]. rewrite (fdiv_some _ _ NZ).
    eexists. split; [reflexivity|]. fold xk kl in C.
    match type of C with has_deriv _ _ _ _ _ _ _ ?a => match goal with |- has_deriv _ _ _ _ _ _ _ ?b => replace b with a; [exact C|] end end.
    unfold dR_dx. clear - NZ Dp. set (b1 := sg * (jn_R1 n / d)) in *. clearbody b1 d. field. repeat split; try exact NZ; try lra.
    unfold Power3, Pow2. apply Rgt_not_eq. repeat apply Rmult_lt_0_compat; auto.
  - (* OT1 *)
    assert (F2 : cs_R2 P <> 0).
    { unfold out_ends in EZ. rewrite T in EZ. destruct (fdiv (sg * d * cs_xc1 P) (cs_R2 P)) eqn:Q; [|discriminate]. apply fdiv_nz in Q. tauto. }
    set (u := fun t => sg * get (relp P (move x l t)) i / get (relp P (move x l t)) k).
    set (v := fun t => sg * get (relp P (move x l t)) j / get (relp P (move x l t)) k).
    pose proof (mv_u0 P x l i k sg Hl) as U0. pose proof (mv_v0 P x l j k sg Hl) as V0.
    pose proof (mv_dist P x l i j k sg Hl Es N) as Dd. cbv beta in U0, V0, Dd. fold xk in U0, V0, Dd. fold u v X0 Y0 Ja Jb d in U0, V0, Dd.
    assert (LE : near0 (fun t => out_ends P sg (dist1 (u t) (v t)) (u t) (v t) = Some (cs_xc1 P, 1 - sg * cs_xc1 P / cs_R2 P * dist1 (u t) (v t)))).
    { apply near0_true. intros t. unfold out_ends. rewrite T, fdiv_some by auto. cbn [fbind]. do 3 f_equal. field. auto. }
    pose proof (near0_at _ LE) as L0. cbv beta in L0.
    change (u 0) with (sg * get (relp P (move x l 0)) i / get (relp P (move x l 0)) k) in L0.
    change (v 0) with (sg * get (relp P (move x l 0)) j / get (relp P (move x l 0)) k) in L0.
    rewrite U0, V0 in L0. fold d in L0. rewrite L0 in EZ. cbn [fbind] in EZ.
    rewrite (fdiv_some _ _ N) in EZ. cbn [fbind] in EZ.
    destruct (fdiv_nz _ _ _ EZ) as [NZ EZ0].
    pose proof (dlim_minus _ _ _ _ (dlim_const 1) (dlim_scal (sg * cs_xc1 P / cs_R2 P) _ _ Dd)) as DB.
    pose proof (out_case P x l i j k sg Hl Es N (fun _ => cs_xc1 P) 0 _ _ (ltac:(rewrite T; reflexivity)) LE (dlim_const _) DB) as C.
    cbv beta in C. change (u 0) with (sg * get (relp P (move x l 0)) i / get (relp P (move x l 0)) k) in C.
    change (v 0) with (sg * get (relp P (move x l 0)) j / get (relp P (move x l 0)) k) in C. rewrite U0, V0 in C. fold d xk kl in C.
    specialize (C NZ).
    rewrite !(fdiv_some _ _ F2). cbn [fbind].
    assert (N2 : Pow2 xk <> 0) by (unfold Pow2; apply Rmult_integral_contrapositive_currified; auto).
    rewrite (fdiv_some _ _ N2). cbn [fbind].
    replace (1 - sg * d * cs_xc1 P / cs_R2 P) with (1 - sg * cs_xc1 P / cs_R2 P * d) by (field; auto).
    rewrite (fdiv_some _ _ NZ). rewrite EZ0.
    eexists. split; [reflexivity|].
    match type of C with has_deriv _ _ _ _ _ _ _ ?a => match goal with |- has_deriv _ _ _ _ _ _ _ ?b => replace b with a; [exact C|] end end.
    unfold Pow2. field. repeat split; try lra; auto. intros Q. apply NZ. field_simplify_eq; lra.
  - (* OT2 *)
    assert (F2 : cs_R2 P <> 0).
    { unfold out_ends in EZ. rewrite T in EZ. destruct (fdiv (cs_R1 P) (cs_R2 P)) eqn:Q; [|discriminate]. apply fdiv_nz in Q. tauto. }
    set (u := fun t => sg * get (relp P (move x l t)) i / get (relp P (move x l t)) k).
    set (v := fun t => sg * get (relp P (move x l t)) j / get (relp P (move x l t)) k).
    pose proof (mv_u0 P x l i k sg Hl) as U0. pose proof (mv_v0 P x l j k sg Hl) as V0.
    pose proof (mv_dist P x l i j k sg Hl Es N) as Dd. cbv beta in U0, V0, Dd. fold xk in U0, V0, Dd. fold u v X0 Y0 Ja Jb d in U0, V0, Dd.
    assert (LE : near0 (fun t => out_ends P sg (dist1 (u t) (v t)) (u t) (v t) = Some (sg * cs_R1 P / dist1 (u t) (v t), 1 - cs_R1 P / cs_R2 P))).
    { apply near0_true. intros t. unfold out_ends. rewrite T, fdiv_some by auto. reflexivity. }
    pose proof (near0_at _ LE) as L0. cbv beta in L0.
    change (u 0) with (sg * get (relp P (move x l 0)) i / get (relp P (move x l 0)) k) in L0.
    change (v 0) with (sg * get (relp P (move x l 0)) j / get (relp P (move x l 0)) k) in L0.
    rewrite U0, V0 in L0. fold d in L0. rewrite L0 in EZ. cbn [fbind] in EZ.
    rewrite (fdiv_some _ _ N) in EZ. cbn [fbind] in EZ.
    destruct (fdiv_nz _ _ _ EZ) as [NZ EZ0].
    assert (DA : derivable_pt_lim (fun t => sg * cs_R1 P / dist1 (u t) (v t)) 0 ((0 * d - ((X0 * Ja + Y0 * Jb) / d) * (sg * cs_R1 P)) / (d * d))).
    { eapply dlim_eq; [apply dlim_quot; [apply dlim_const|exact Dd|]|].
      - change (u 0) with (sg * get (relp P (move x l 0)) i / get (relp P (move x l 0)) k).
        change (v 0) with (sg * get (relp P (move x l 0)) j / get (relp P (move x l 0)) k). rewrite U0, V0. fold d. lra.
      - cbv beta. change (u 0) with (sg * get (relp P (move x l 0)) i / get (relp P (move x l 0)) k).
        change (v 0) with (sg * get (relp P (move x l 0)) j / get (relp P (move x l 0)) k). rewrite U0, V0. fold d. reflexivity. }
    pose proof (out_case P x l i j k sg Hl Es N _ _ (fun _ => 1 - cs_R1 P / cs_R2 P) 0 (ltac:(rewrite T; reflexivity)) LE DA (dlim_const _) NZ) as C.
    cbv beta in C. change (u 0) with (sg * get (relp P (move x l 0)) i / get (relp P (move x l 0)) k) in C.
    change (v 0) with (sg * get (relp P (move x l 0)) j / get (relp P (move x l 0)) k) in C. rewrite U0, V0 in C. fold d xk kl in C.
    rewrite (fdiv_some _ _ F2). cbn [fbind]. rewrite (fdiv_some _ _ N). cbn [fbind].
    assert (N3 : (1 - cs_R1 P / cs_R2 P) * xk * d <> 0) by (repeat apply Rmult_integral_contrapositive_currified; auto; lra).
    rewrite (fdiv_some _ _ N3). replace (1 + Pow2 X0 + Pow2 Y0) with (d * d) by (unfold d; rewrite dist1_sq; reflexivity).
    eexists. split; [reflexivity|].
    match type of C with has_deriv _ _ _ _ _ _ _ ?a => match goal with |- has_deriv _ _ _ _ _ _ _ ?b => replace b with a; [exact C|] end end.
    field. repeat split; try lra; auto. intros Q. apply NZ. field_simplify_eq; lra.
Qed.
