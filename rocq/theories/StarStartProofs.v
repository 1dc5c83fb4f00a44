(** StarStartProofs.v - proofs about StarStart.v *)
From Coq Require Import Reals Lra Lia Psatz FunctionalExtensionality.
From Coquelicot Require Import Coquelicot.
From Verif Require Import RealBase StarStart.
From Verif Require ControlModel.
Open Scope R_scope.
(** derivative of F at p along the line through p with direction v *)
Definition slope (F : pt -> R) (p v : pt) (l : R) : Prop := derivable_pt_lim (fun t => F (fun i => p i + t*v i)) 0 l.
(** the i-th unit vector *)
Definition unitv (i j : nat) : R := if Nat.eqb i j then 1 else 0.
Definition dot (u v : pt) : R := u 0%nat*v 0%nat + u 1%nat*v 1%nat + u 2%nat*v 2%nat.

Lemma dist_nonneg c x : 0 <= dist c x.
Proof. apply sqrt_pos. Qed.
Lemma dist_sq c x : dist c x * dist c x = Pow2 (x 0%nat - c 0%nat) + Pow2 (x 1%nat - c 1%nat) + Pow2 (x 2%nat - c 2%nat).
Proof. apply sqrt_sqrt. unfold Pow2. repeat apply Rplus_le_le_0_compat; apply Rle_0_sqr. Qed.
Lemma dist_slope c p v : 0 < dist c p -> slope (dist c) p v (dot v (fun i => p i - c i) / dist c p).
Proof.
  intros H. unfold slope, dist. apply is_derive_Reals. unfold Pow2. pose proof (dist_sq c p) as Q. unfold Pow2 in Q.
  assert (P : 0 < (p 0%nat - c 0%nat) * (p 0%nat - c 0%nat) + (p 1%nat - c 1%nat) * (p 1%nat - c 1%nat) + (p 2%nat - c 2%nat) * (p 2%nat - c 2%nat)) by nra.
  auto_derive.
  - rewrite !Rmult_0_l, !Rplus_0_r. exact P.
  - rewrite !Rmult_0_l, !Rplus_0_r. unfold dist, Pow2, dot in *. set (s := sqrt _) in *. 
    assert (0 < s) by exact H. unfold Rminus in *. fold s. field. lra.
Qed.
Lemma slope_comp (f : R -> R) f' c p v : 0 < dist c p -> derivable_pt_lim f (dist c p) f' ->
  slope (fun x => f (dist c x)) p v (f' * (dot v (fun i => p i - c i) / dist c p)).
Proof.
  intros H D. unfold slope.
  pose proof (derivable_pt_lim_comp (fun t => dist c (fun i => p i + t*v i)) f 0 _ f' (dist_slope c p v H)) as C.
  apply C. replace (dist c (fun i => p i + 0*v i)) with (dist c p); [exact D|].
  unfold dist. f_equal. rewrite !Rmult_0_l, !Rplus_0_r. reflexivity.
Qed.
Lemma slope_ext F G p v l : (forall x, F x = G x) -> slope F p v l -> slope G p v l.
Proof. intros E H e He. destruct (H e He) as [d D]. exists d. intros h h0 hd. rewrite <- !E. apply D; assumption. Qed.
Lemma slope_eq F p v l m : slope F p v l -> l = m -> slope F p v m.
Proof. intros H <-. exact H. Qed.

(** ** outside *)
Lemma out_alphaPsi_eq M c x : 0 < dist c x -> dist c x <> - M/2 -> out_alphaPsi M c x = 1 - 1/2*M/dist c x.
Proof. intros H N. unfold out_alphaPsi, out_psi. cbv zeta. field. split; [lra|]. intros E. apply N. lra. Qed.
Definition K (M : R) (c x : pt) (i : nat) : R := - (1/2)*M*(x i - c i)/(dist c x)^3.
Lemma psi_slope M c p v : 0 < dist c p -> slope (out_psi M c) p v (dot v (K M c p)).
Proof.
  intros H. eapply slope_eq; [apply (slope_comp (fun r => 1 + 1/2*M/r) (- (1/2)*M/(dist c p)^2) c p v H)|].
  - apply is_derive_Reals. auto_derive; [lra|field; lra].
  - unfold dot, K. field. lra.
Qed.
Lemma K_slope M c p i : 0 < dist c p -> (i < 3)%nat ->
  slope (fun x => K M c x i) p (unitv i) (- (1/2)*M*(1/(dist c p)^3 - 3*(p i - c i)^2/(dist c p)^5)).
Proof.
  intros H Hi. unfold K, slope. 
  assert (D : derivable_pt_lim (fun t => - (1/2)*M*(p i + t*unitv i i - c i)) 0 (- (1/2)*M)).
  { apply is_derive_Reals. unfold unitv. rewrite Nat.eqb_refl. auto_derive; [trivial|ring]. }
  assert (D2 : slope (fun x => (dist c x)^3) p (unitv i) (3*(dist c p)^2*((p i - c i)/dist c p))).
  { eapply slope_eq; [apply (slope_comp (fun r => r^3) (3*(dist c p)^2) c p _ H)|].
    - apply is_derive_Reals. auto_derive; [trivial|ring].
    - f_equal. f_equal. unfold dot, unitv. destruct i as [|[|[|i]]]; [..|lia]; cbn [Nat.eqb]; ring. }
  assert (E0 : dist c (fun j => p j + 0*unitv i j) = dist c p) by (unfold dist; f_equal; rewrite !Rmult_0_l, !Rplus_0_r; reflexivity).
  pose proof (derivable_pt_lim_div _ _ 0 _ _ D D2) as Q. cbv beta in Q. rewrite E0 in Q.
  assert (N : dist c p ^ 3 <> 0) by (apply pow_nonzero; lra). specialize (Q N).
  replace (- (1/2)*M*(1/(dist c p)^3 - 3*(p i - c i)^2/(dist c p)^5)) with
    ((- (1/2)*M*dist c p^3 - 3*(dist c p)^2*((p i - c i)/dist c p) * (- (1/2)*M*(p i + 0*unitv i i - c i)))/Rsqr (dist c p^3)); [exact Q|].
  unfold Rsqr. field. lra.
Qed.
Lemma K_div M c p : 0 < dist c p ->
  (- (1/2)*M*(1/(dist c p)^3 - 3*(p 0%nat - c 0%nat)^2/(dist c p)^5)) + (- (1/2)*M*(1/(dist c p)^3 - 3*(p 1%nat - c 1%nat)^2/(dist c p)^5)) +
  (- (1/2)*M*(1/(dist c p)^3 - 3*(p 2%nat - c 2%nat)^2/(dist c p)^5)) = 0.
Proof.
  intros H. pose proof (dist_sq c p) as Q. unfold Pow2 in Q. set (r := dist c p) in *.
  set (a := p 0%nat - c 0%nat) in *. set (b := p 1%nat - c 1%nat) in *. set (d := p 2%nat - c 2%nat) in *.
  transitivity (- (1/2)*M*(3/r^3 - 3*(a*a + b*b + d*d)/r^5)); [field; lra|]. rewrite <- Q. field. lra.
Qed.
(** a function with gradient G has Laplacian zero at p *)
Definition harmonic_at (F : pt -> R) (p : pt) : Prop :=
  exists (G : pt -> nat -> R) (a : nat -> R), (exists d, 0 < d /\ forall x, (forall i, (i < 3)%nat -> Rabs (x i - p i) < d) -> forall v, slope F x v (dot v (G x))) /\
    (forall i, (i < 3)%nat -> slope (fun x => G x i) p (unitv i) (a i)) /\ a 0%nat + a 1%nat + a 2%nat = 0.
Lemma dist_pos_iff c x : 0 < dist c x <-> ~ (x 0%nat = c 0%nat /\ x 1%nat = c 1%nat /\ x 2%nat = c 2%nat).
Proof.
  pose proof (dist_sq c x) as Q. pose proof (dist_nonneg c x) as N. unfold Pow2 in Q. split.
  - intros H (A & B & C). rewrite A, B, C in Q. nra.
  - intros H. destruct (Rle_lt_or_eq_dec 0 _ N) as [L|E]; [exact L|]. exfalso. apply H. rewrite <- E, Rmult_0_l in Q.
    pose proof (Rle_0_sqr (x 0%nat - c 0%nat)) as A. pose proof (Rle_0_sqr (x 1%nat - c 1%nat)) as B. pose proof (Rle_0_sqr (x 2%nat - c 2%nat)) as C. unfold Rsqr in *.
    split; [|split]; apply Rminus_diag_uniq, Rsqr_0_uniq; unfold Rsqr; lra.
Qed.
Lemma near c p : 0 < dist c p -> exists d, 0 < d /\ forall x, (forall i, (i < 3)%nat -> Rabs (x i - p i) < d) -> 0 < dist c x.
Proof.
  intros H. apply dist_pos_iff in H. 
  assert (X : exists i, (i < 3)%nat /\ p i <> c i).
  { destruct (Req_dec (p 0%nat) (c 0%nat)) as [A|A]; [|exists 0%nat; auto]. destruct (Req_dec (p 1%nat) (c 1%nat)) as [B|B]; [|exists 1%nat; auto].
    destruct (Req_dec (p 2%nat) (c 2%nat)) as [C|C]; [tauto|exists 2%nat; auto]. }
  destruct X as (i & Hi & X). exists (Rabs (p i - c i)). split; [apply Rabs_pos_lt; lra|]. intros x N. apply dist_pos_iff. intros (A & B & C).
  specialize (N i Hi). assert (E : x i = c i) by (destruct i as [|[|[|i]]]; [assumption..|lia]). rewrite E, <- Rabs_Ropp in N.
  replace (- (c i - p i)) with (p i - c i) in N by ring. lra.
Qed.
Lemma psi_harmonic M c p : 0 < dist c p -> harmonic_at (out_psi M c) p.
Proof.
  intros H. exists (K M c), (fun i => - (1/2)*M*(1/(dist c p)^3 - 3*(p i - c i)^2/(dist c p)^5)). split; [|split].
  - destruct (near c p H) as (d & Hd & N). exists d. split; [exact Hd|]. intros x Hx v. apply psi_slope. apply N. exact Hx.
  - intros i Hi. apply K_slope; assumption.
  - apply K_div; exact H.
Qed.
(** where M >= 0, alphaPsi is the psi of mass - M *)
Lemma alphaPsi_harmonic M c p : 0 <= M -> 0 < dist c p -> harmonic_at (out_alphaPsi M c) p.
Proof.
  intros HM H. destruct (psi_harmonic (-M) c p H) as (G & a & (d & Hd & S) & S2 & Z). exists G, a. split; [|auto].
  destruct (near c p H) as (d' & Hd' & N). exists (Rmin d d'). split; [apply Rmin_glb_lt; assumption|]. intros x Hx v.
  assert (Hx1 : forall i, (i < 3)%nat -> Rabs (x i - p i) < d) by (intros i Hi; eapply Rlt_le_trans; [apply Hx; exact Hi|apply Rmin_l]).
  assert (Hx2 : forall i, (i < 3)%nat -> Rabs (x i - p i) < d') by (intros i Hi; eapply Rlt_le_trans; [apply Hx; exact Hi|apply Rmin_r]).
  specialize (S x Hx1 v). pose proof (N x Hx2) as P. intros e He. destruct (S e He) as [dd D]. 
  (* near x both functions agree *)
  destruct (near c x P) as (d3 & Hd3 & N3).
  pose (B := 1 + Rabs (v 0%nat) + Rabs (v 1%nat) + Rabs (v 2%nat)).
  pose proof (Rabs_pos (v 0%nat)). pose proof (Rabs_pos (v 1%nat)). pose proof (Rabs_pos (v 2%nat)).
  assert (HB : 0 < B) by (unfold B; lra).
  assert (Hm : 0 < Rmin dd (d3/B)) by (apply Rmin_glb_lt; [apply cond_pos|apply Rdiv_lt_0_compat; assumption]).
  exists (mkposreal _ Hm). intros h h0 hd. cbn [pos] in hd.
  assert (hd1 : Rabs h < dd) by (eapply Rlt_le_trans; [exact hd|apply Rmin_l]).
  assert (hd2 : Rabs h < d3/B) by (eapply Rlt_le_trans; [exact hd|apply Rmin_r]).
  specialize (D h h0 hd1).
  assert (A : forall t, Rabs t < d3/B -> out_alphaPsi M c (fun i => x i + t*v i) = out_psi (-M) c (fun i => x i + t*v i)).
  { intros t Ht. assert (Pt : 0 < dist c (fun i => x i + t*v i)).
    { apply N3. intros i Hi. replace (x i + t*v i - x i) with (t*v i) by ring. rewrite Rabs_mult.
      assert (Rabs (v i) <= B) by (unfold B; destruct i as [|[|[|i]]]; [lra..|lia]).
      apply Rle_lt_trans with (Rabs t*B); [apply Rmult_le_compat_l; [apply Rabs_pos|assumption]|].
      apply Rlt_le_trans with (d3/B*B); [apply Rmult_lt_compat_r; assumption|]. right. field. lra. }
    rewrite out_alphaPsi_eq by (try exact Pt; lra). unfold out_psi. field. lra. }
  rewrite !A; [exact D| |].
  - rewrite Rabs_R0. apply Rdiv_lt_0_compat; assumption.
  - rewrite Rplus_0_l. exact hd2.
Qed.
(** Schwarzschild: with the areal radius r psi^2 the lapse is sqrt(1 - 2M/R) *)
Lemma lapse_schwarzschild M c x : 0 <= M -> M/2 <= dist c x -> 0 < dist c x ->
  out_alphaPsi M c x / out_psi M c x = sqrt (1 - 2*M/(dist c x * (out_psi M c x)^2)).
Proof.
  intros HM Hr H. rewrite out_alphaPsi_eq by lra. unfold out_psi. set (r := dist c x) in *.
  assert (P : 0 < 1 + 1/2*M/r). { apply Rplus_lt_le_0_compat; [lra|]. apply Rmult_le_pos; [nra|]. left. apply Rinv_0_lt_compat. exact H. }
  assert (Q : 0 <= 1 - 1/2*M/r). { apply Rmult_le_reg_r with r; [exact H|]. replace ((1 - 1/2*M/r)*r) with (r - M/2) by (field; lra). lra. }
  assert (N : 0 < r + M/2) by lra.
  symmetry. apply sqrt_lem_1.
  - replace (1 - 2*M/(r*(1 + 1/2*M/r)^2)) with (Rsqr ((1 - 1/2*M/r)/(1 + 1/2*M/r))); [apply Rle_0_sqr|]. unfold Rsqr. field. lra.
  - apply Rmult_le_pos; [exact Q|]. left. apply Rinv_0_lt_compat. exact P.
  - field. lra.
Qed.

(** ** inside *)
Lemma bernoulli ps hs eos M Rs Omega y c Om x : let s := tov_in ps hs eos M Rs Omega y c Om x in
  i_h s <> 0 -> i_psi s <> 0 -> i_h s * (i_alphaPsi s / i_psi s) = sqrt (1 - 2*M/Rs).
Proof. cbv zeta. cbn [tov_in i_h i_psi i_alphaPsi]. intros H P. field. auto. Qed.
Lemma surface_match ps hs eos M Rs Omega y c Om x : 0 <= M -> M/2 <= dist c x -> 0 < dist c x ->
  hs (dist c x) = 1 -> ps (dist c x) = 1 + M/(2*dist c x) -> Rs = dist c x * (ps (dist c x))^2 ->
  let s := tov_in ps hs eos M Rs Omega y c Om x in i_psi s = out_psi M c x /\ i_alphaPsi s = out_alphaPsi M c x.
Proof.
  intros HM Hr H Hh Hp HR. cbv zeta. cbn [tov_in i_psi i_alphaPsi].
  assert (E : ps (dist c x) = out_psi M c x) by (unfold out_psi; rewrite Hp; field; lra). split; [exact E|].
  assert (P : 0 < out_psi M c x). { unfold out_psi. apply Rplus_lt_le_0_compat; [lra|]. apply Rmult_le_pos; [nra|]. left. apply Rinv_0_lt_compat. exact H. }
  rewrite HR, Hh, E, <- lapse_schwarzschild by assumption. field. lra.
Qed.
(** the potential: the x component of the centre's orbital velocity Omega x (c - CM); the spin part: a rotation about the centre *)
Lemma phi_slope ps hs eos M Rs Omega y c Om p v :
  slope (fun x => i_phi (tov_in ps hs eos M Rs Omega y c Om x)) p v (v 0%nat * (- Omega*(c 1%nat - y))).
Proof. unfold slope. cbn [tov_in i_phi]. apply is_derive_Reals. auto_derive; [trivial|ring]. Qed.
Lemma spin_rotation ps hs eos M Rs Omega y c Om x : let w := i_W (tov_in ps hs eos M Rs Omega y c Om x) in
  dot w Om = 0 /\ dot w (fun i => x i - c i) = 0 /\
  dot w w = dot Om Om * dot (fun i => x i - c i) (fun i => x i - c i) - (dot Om (fun i => x i - c i))^2 /\
  (forall i, (i < 3)%nat -> w i = match i with
     | 0%nat => Om 1%nat*(x 2%nat - c 2%nat) - Om 2%nat*(x 1%nat - c 1%nat)
     | 1%nat => Om 2%nat*(x 0%nat - c 0%nat) - Om 0%nat*(x 2%nat - c 2%nat)
     | _ => Om 0%nat*(x 1%nat - c 1%nat) - Om 1%nat*(x 0%nat - c 0%nat) end).
Proof.
  cbv zeta. cbn [tov_in i_W]. unfold dot, ControlModel.W_spin. split; [ring|]. split; [ring|]. split; [ring|].
  intros i Hi. destruct i as [|[|[|i]]]; [reflexivity..|lia].
Qed.

(** ** centring *)
Lemma where_spec tol c f ok res : sqrt tol > 0 -> (ok = true -> where_dh0 tol c f ok res = f) /\
  (ok = false -> res < sqrt tol - ROUND_OFF_ERR -> where_dh0 tol c f ok res = f) /\
  (ok = false -> sqrt tol - ROUND_OFF_ERR <= res -> where_dh0 tol c f ok res = c).
Proof.
  intros _. unfold where_dh0, LSS. split; [intros ->; reflexivity|]. split; intros -> H; cbn [orb]; destruct (ltR_spec res (sqrt tol - ROUND_OFF_ERR)); try reflexivity; lra.
Qed.
Lemma no_shift_iff d : no_shift d = true <-> Rabs (d 0%nat) < ROUND_OFF_ERR /\ Rabs (d 1%nat) < ROUND_OFF_ERR /\ Rabs (d 2%nat) < ROUND_OFF_ERR.
Proof. unfold no_shift. rewrite !andb_true_iff, !EQL_iff, !Rminus_0_r. tauto. Qed.
Lemma no_shift_false d : no_shift d = false <-> exists i, (i < 3)%nat /\ ROUND_OFF_ERR <= Rabs (d i).
Proof.
  rewrite <- not_true_iff_false, no_shift_iff. split.
  - intros H. destruct (Rlt_dec (Rabs (d 0%nat)) ROUND_OFF_ERR) as [A|A]; [|exists 0%nat; split; [lia|lra]].
    destruct (Rlt_dec (Rabs (d 1%nat)) ROUND_OFF_ERR) as [B|B]; [|exists 1%nat; split; [lia|lra]].
    destruct (Rlt_dec (Rabs (d 2%nat)) ROUND_OFF_ERR) as [C|C]; [tauto|exists 2%nat; split; [lia|lra]].
  - intros (i & Hi & H) (A & B & C). destruct i as [|[|[|i]]]; [lra..|lia].
Qed.
Lemma slope_minus F G p v a b : slope F p v a -> slope G p v b -> slope (fun x => F x - G x) p v (a - b).
Proof. intros A B. exact (derivable_pt_lim_minus _ _ 0 _ _ A B). Qed.
Lemma slope_plus F G p v a b : slope F p v a -> slope G p v b -> slope (fun x => F x + G x) p v (a + b).
Proof. intros A B. exact (derivable_pt_lim_plus _ _ 0 _ _ A B). Qed.
Lemma slope_scal k F p v a : slope F p v a -> slope (fun x => k * F x) p v (k * a).
Proof. intros A. exact (derivable_pt_lim_scal _ k 0 _ A). Qed.
Lemma taylor_ok W c Rc dh h p dp : (exists i, (i < 3)%nat /\ ROUND_OFF_ERR <= Rabs (Rc i - c i)) ->
  (forall v, slope h p v (dot v dp)) -> forall v, slope (taylor W c Rc dh h) p v (dot v (fun i => dp i - W*dh i)).
Proof.
  intros S H v. apply no_shift_false in S.
  eapply slope_eq; [apply (slope_ext (fun x => h x - W*dot dh (fun i => x i - c i)))|].
  - intros x. unfold taylor. rewrite S. reflexivity.
  - apply slope_minus; [apply H|]. apply slope_scal.
    instantiate (1 := dot v dh). unfold slope, dot. apply is_derive_Reals. auto_derive; [trivial|ring].
  - unfold dot. ring.
Qed.
Lemma taylor_value W c Rc dh h : taylor W c Rc dh h c = h c.
Proof. unfold taylor. destruct (no_shift _); [reflexivity|ring]. Qed.
Lemma idle W c Rc dh h fd x : (forall i, (i < 3)%nat -> Rabs (Rc i - c i) < ROUND_OFF_ERR) -> taylor W c Rc dh h x = h x /\ drawn W c Rc fd h x = h x.
Proof.
  intros H. assert (S : no_shift (fun i => Rc i - c i) = true) by (apply no_shift_iff; repeat split; apply H; lia).
  unfold taylor, drawn. cbv zeta. rewrite S. auto.
Qed.
Lemma slope_shift h d p v l : slope h (fun i => p i + d i) v l -> slope (fun x => h (fun i => x i + d i)) p v l.
Proof.
  intros H. unfold slope in *. intros e He. destruct (H e He) as [q Q]. exists q. intros t t0 tq. specialize (Q t t0 tq).
  assert (E : forall s, (fun i => p i + d i + s*v i) = (fun i => p i + s*v i + d i)).
  { intros s. apply FunctionalExtensionality.functional_extensionality. intros i. ring. }
  rewrite !E in Q. exact Q.
Qed.
Lemma drawn_ok W c Rc h dc dR : (exists i, (i < 3)%nat /\ ROUND_OFF_ERR <= Rabs (Rc i - c i)) ->
  (forall v, slope h c v (dot v dc)) -> (forall v, slope h Rc v (dot v dR)) ->
  forall v, slope (drawn W c Rc (fun _ => true) h) c v (dot v (fun i => (1-W)*dc i + W*dR i)).
Proof.
  intros S Hc HR v. apply no_shift_false in S.
  eapply slope_eq; [apply (slope_ext (fun x => (1-W)*h x + W*h (fun i => x i + (Rc i - c i))))|].
  - intros x. unfold drawn. cbv zeta. rewrite S. reflexivity.
  - apply slope_plus; [apply slope_scal, Hc|]. apply slope_scal. apply slope_shift.
    assert (E : (fun i => c i + (Rc i - c i)) = Rc) by (apply FunctionalExtensionality.functional_extensionality; intros i; ring).
    rewrite E. apply HR.
  - unfold dot. ring.
Qed.
Lemma drawn_full c Rc h : (exists i, (i < 3)%nat /\ ROUND_OFF_ERR <= Rabs (Rc i - c i)) -> forall x, drawn 1 c Rc (fun _ => true) h x = h (fun i => x i + (Rc i - c i)).
Proof. intros S x. apply no_shift_false in S. unfold drawn. cbv zeta. rewrite S. ring. Qed.
Lemma drawn_away W c Rc h fd x : fd (fun i => x i + (Rc i - c i)) = false -> drawn W c Rc fd h x = h x.
Proof. intros F. unfold drawn. cbv zeta. rewrite F. destruct (no_shift _); reflexivity. Qed.
