(** PoissonProofs.v - loops, residual and Jacobian of Poisson0. *)
From Verif Require Import RealBase XctsSpec XctsProofs PoissonModel.
From Coq Require Import Permutation.
From Coquelicot Require Import Coquelicot.
Open Scope R_scope.

(** ** loops *)
Lemma for_ind {S} (I : nat -> S -> Prop) lo hi body s : (lo <= hi)%nat -> I lo s ->
  (forall i s, (lo <= i < hi)%nat -> I i s -> I (Datatypes.S i) (body i s)) -> I hi (for_ lo hi body s).
Proof.
  intros L H0 Hs. unfold for_.
  assert (Q : forall n a s, (lo <= a)%nat -> (a + n <= hi)%nat -> I a s -> I (a + n)%nat (fold_left (fun s i => body i s) (seq a n) s)).
  { induction n; cbn; intros a s1 La Lh Ha. { rewrite Nat.add_0_r; exact Ha. }
    replace (a + Datatypes.S n)%nat with (Datatypes.S a + n)%nat by lia. apply IHn; try lia. apply Hs; [lia|exact Ha]. }
  replace hi with (lo + (hi - lo))%nat at 1 by lia. apply Q; auto. lia.
Qed.

Lemma for_wr (g : nat -> R) lo hi F : (lo <= hi)%nat -> forall i,
  for_ lo hi (fun i F => wr F i (g i)) F i = if (Nat.leb lo i && Nat.ltb i hi)%bool then g i else F i.
Proof.
  intros L. apply (for_ind (fun h F' => forall i, F' i = if (Nat.leb lo i && Nat.ltb i h)%bool then g i else F i)); auto.
  - intros i. destruct (Nat.leb_spec lo i), (Nat.ltb_spec i lo); cbn; try reflexivity; lia.
  - intros j s Hj IH i. unfold wr. destruct (Nat.eqb_spec i j).
    + subst. destruct (Nat.leb_spec lo j), (Nat.ltb_spec j (Datatypes.S j)); cbn; try reflexivity; lia.
    + rewrite IH. destruct (Nat.leb_spec lo i), (Nat.ltb_spec i j), (Nat.ltb_spec i (Datatypes.S j)); cbn; try reflexivity; lia.
Qed.

Definition box (a0 a1 b0 b1 i j : nat) : bool := (Nat.leb a0 i && Nat.ltb i a1 && (Nat.leb b0 j && Nat.ltb j b1))%bool.
Lemma boxP a0 a1 b0 b1 i j : Bool.reflect ((a0 <= i < a1)%nat /\ (b0 <= j < b1)%nat) (box a0 a1 b0 b1 i j).
Proof.
  apply Bool.iff_reflect. unfold box. rewrite !Bool.andb_true_iff, !Nat.leb_le, !Nat.ltb_lt. lia.
Qed.
Ltac bx := repeat match goal with |- context[box ?a ?b ?c ?d ?i ?j] => destruct (boxP a b c d i j) end.

(** a double loop writing A[ri i j][rj i j]; here row i and column j *)
Lemma for2_wr2 (g : nat -> nat -> R) a0 a1 b0 b1 A : (a0 <= a1)%nat -> (b0 <= b1)%nat -> forall i j,
  for_ a0 a1 (fun i A => for_ b0 b1 (fun j A => wr2 A i j (g i j)) A) A i j = if box a0 a1 b0 b1 i j then g i j else A i j.
Proof.
  intros La Lb. apply (for_ind (fun h A' => forall i j, A' i j = if box a0 h b0 b1 i j then g i j else A i j)); auto.
  - intros i j. bx; try reflexivity; lia.
  - intros r s Hr IH.
    assert (Q : forall i j, for_ b0 b1 (fun j A => wr2 A r j (g r j)) s i j = if (Nat.eqb i r && (Nat.leb b0 j && Nat.ltb j b1))%bool then g i j else s i j).
    1: apply (for_ind (fun h A' => forall i j, A' i j = if (Nat.eqb i r && (Nat.leb b0 j && Nat.ltb j h))%bool then g i j else s i j)); [exact Lb| |].
    3: { intros i j. rewrite Q, IH. bx; destruct (Nat.eqb_spec i r), (Nat.leb_spec b0 j), (Nat.ltb_spec j b1); cbn; try reflexivity; lia. }
    + intros i j. destruct (Nat.eqb_spec i r), (Nat.leb_spec b0 j), (Nat.ltb_spec j b0); cbn; try reflexivity; lia.
    + intros c t Hc IHc i j. unfold wr2. rewrite IHc.
      destruct (Nat.eqb_spec i r), (Nat.eqb_spec j c); subst; cbn [andb];
        repeat match goal with |- context[Nat.leb ?a ?b] => destruct (Nat.leb_spec a b) | |- context[Nat.ltb ?a ?b] => destruct (Nat.ltb_spec a b) end;
        cbn [andb]; try reflexivity; lia.
Qed.
(** the same writing A[j-b0][i] *)
Lemma for2_wr2_tr (g : nat -> nat -> R) a0 a1 b0 b1 A : (a0 <= a1)%nat -> (b0 <= b1)%nat -> forall k i,
  for_ a0 a1 (fun i A => for_ b0 b1 (fun j A => wr2 A (j - b0) i (g i j)) A) A k i = if box a0 a1 0 (b1 - b0) i k then g i (b0 + k)%nat else A k i.
Proof.
  intros La Lb. apply (for_ind (fun h A' => forall k i, A' k i = if box a0 h 0 (b1 - b0) i k then g i (b0 + k)%nat else A k i)); auto.
  - intros k i. bx; try reflexivity; lia.
  - intros r s Hr IH.
    assert (Q : forall k i, for_ b0 b1 (fun j A => wr2 A (j - b0) r (g r j)) s k i = if (Nat.eqb i r && Nat.ltb k (b1 - b0))%bool then g i (b0 + k)%nat else s k i).
    1: apply (for_ind (fun h A' => forall k i, A' k i = if (Nat.eqb i r && Nat.ltb k (h - b0))%bool then g i (b0 + k)%nat else s k i)); [exact Lb| |].
    3: { intros k i. rewrite Q, IH. bx; destruct (Nat.eqb_spec i r), (Nat.ltb_spec k (b1 - b0)); cbn; try reflexivity; lia. }
    + intros k i. destruct (Nat.eqb_spec i r), (Nat.ltb_spec k (b0 - b0)); cbn; try reflexivity; lia.
    + intros c t Hc IHc k i. unfold wr2. rewrite IHc.
      destruct (Nat.eqb_spec i r), (Nat.eqb_spec k (c - b0)); subst; cbn [andb];
        repeat match goal with |- context[Nat.ltb ?a ?b] => destruct (Nat.ltb_spec a b) end;
        cbn [andb]; try reflexivity; try lia.
      all: f_equal; lia.
Qed.

Lemma fold_wr (g : nat -> R) (m : nat -> nat) l F i :
  (forall n n', In n l -> In n' l -> m n = m n' -> g n = g n') ->
  (forall n, In n l -> m n = i -> fold_left (fun F n => wr F (m n) (g n)) l F i = g n) /\
  ((forall n, In n l -> m n <> i) -> fold_left (fun F n => wr F (m n) (g n)) l F i = F i).
Proof.
  induction l as [|a l IH] in F |- *; cbn; intros U.
  - split; [tauto|reflexivity].
  - specialize (IH (wr F (m a) (g a)) (fun n n' H H' => U n n' (or_intror H) (or_intror H'))). destruct IH as [I1 I2]. split.
    + intros n H E. destruct (in_dec Nat.eq_dec i (List.map m l)) as [Y|N].
      * apply in_map_iff in Y. destruct Y as [n' [E' Y]]. rewrite (I1 n' Y E'). apply U; auto. congruence.
      * rewrite I2 by (intros n' Hn' E'; apply N, in_map_iff; eauto).
        destruct H as [->|H]; [|destruct N; apply in_map_iff; eauto]. unfold wr. rewrite E, Nat.eqb_refl. reflexivity.
    + intros H. rewrite I2 by auto. unfold wr. destruct (Nat.eqb_spec i (m a)); auto. subst. destruct (H a); auto.
Qed.

(** ** the maps of the Schur structure *)
Definition layout (P : ppatch) (S : schur) (bcs : list (list nat)) : Prop :=
  (Oi S <= NS S)%nat /\ (NS S + NI S = nn P)%nat /\
  (forall i, (i < nn P)%nat -> (inv_ S i < nn P)%nat) /\
  (forall i, (i < NS S)%nat -> map_ S (inv_ S i) = i) /\
  (forall i, (Oi S <= i < NS S)%nat -> In (inv_ S i) (concat bcs)) /\
  (forall n, In n (concat bcs) -> exists i, (Oi S <= i < NS S)%nat /\ n = inv_ S i) /\
  ((Oi S < NS S)%nat -> outerB P = true \/ innerB P = true).

Lemma fold_concat {A B} (f : A -> B -> A) ll a : fold_left (fun a l => fold_left f l a) ll a = fold_left f (concat ll) a.
Proof. induction ll as [|l ll IH] in a |- *; cbn; [reflexivity|]. rewrite fold_left_app. apply IH. Qed.

Lemma eq_alpha_val P S axx ayy azz F i : eq_alpha P S axx ayy azz F i =
  if Nat.ltb i (Oi S) then axx (inv_ S i) + ayy (inv_ S i) + azz (inv_ S i) + 3 * Rpower (q2 (xyz P (inv_ S i))) (- (5 / 2)) else F i.
Proof. unfold eq_alpha. rewrite (for_wr (fun i => _ (inv_ S i) + _ (inv_ S i) + _ (inv_ S i) + 3 * Rpower (q2 (xyz P (inv_ S i))) (- (5/2)))) by lia. reflexivity. Qed.

Lemma make_f_val P S bcs axx ayy azz u : layout P S bcs -> forall i, (i < NS S)%nat ->
  make_f P S bcs axx ayy azz u i =
  let n := inv_ S i in
  if Nat.ltb i (Oi S) then axx n + ayy n + azz n + 3 * Rpower (q2 (xyz P n)) (- (5 / 2)) else u n - Rpower (q2 (xyz P n)) (- (1 / 2)).
Proof.
  intros (L1 & L2 & L3 & L4 & L5 & L6 & L7) i Hi. unfold make_f. cbv zeta.
  set (g := fun n => u n - Rpower (q2 (xyz P n)) (- (1 / 2))).
  assert (E : (Oi S < NS S)%nat -> forall F, fold_left (fun F bc => bc_alpha P S bc u F) bcs F =
            fold_left (fun F n => wr F (map_ S n) (g n)) (concat bcs) F).
  { intros L F. rewrite <- fold_concat. unfold bc_alpha. destruct (L7 L) as [Q|Q]; rewrite Q; [reflexivity|].
    destruct (outerB P); reflexivity. }
  assert (U : forall n n', In n (concat bcs) -> In n' (concat bcs) -> map_ S n = map_ S n' -> g n = g n').
  { intros n n' H H' Q. apply L6 in H. apply L6 in H'. destruct H as [a [? ->]], H' as [b [? ->]].
    rewrite !L4 in Q by lia. subst; reflexivity. }
  destruct (Nat.ltb_spec i (Oi S)) as [Hlt|Hge].
  - assert (V : eq_alpha P S axx ayy azz (fun _ => 0) i = axx (inv_ S i) + ayy (inv_ S i) + azz (inv_ S i) + 3 * Rpower (q2 (xyz P (inv_ S i))) (- (5 / 2))).
    { rewrite eq_alpha_val. destruct (Nat.ltb_spec i (Oi S)); [reflexivity|lia]. }
    destruct (Nat.eq_dec (Oi S) (NS S)) as [Q|Q].
    + assert (concat bcs = []) as Z. { destruct (concat bcs) as [|n l]; [reflexivity|]. destruct (L6 n (or_introl eq_refl)) as [a [? _]]. lia. }
      assert (Y : forall F, fold_left (fun F bc => bc_alpha P S bc u F) bcs F = F).
      { clear - Z. induction bcs as [|b bcs IH]; intros F; [reflexivity|]. cbn in Z. apply app_eq_nil in Z. destruct Z as [-> Z].
        cbn. rewrite IH by exact Z. unfold bc_alpha. destruct (outerB P), (innerB P); reflexivity. }
      rewrite Y. exact V.
    + rewrite E by lia. destruct (fold_wr g (map_ S) (concat bcs) (eq_alpha P S axx ayy azz (fun _ => 0)) i U) as [_ H].
      rewrite H; [exact V|]. intros n Hn Hm. apply L6 in Hn. destruct Hn as [a [Ha ->]]. rewrite L4 in Hm by lia. lia.
  - rewrite E by lia. destruct (fold_wr g (map_ S) (concat bcs) (eq_alpha P S axx ayy azz (fun _ => 0)) i U) as [H _].
    apply (H (inv_ S i)); [apply L5; lia|apply L4; lia].
Qed.

(** ** the analytic solution *)
Lemma q2_pos p : 0 < q2 p.
Proof. destruct p as [[x y] z]. unfold q2. pose proof (pow2_ge_0 x); pose proof (pow2_ge_0 y); pose proof (pow2_ge_0 z). lra. Qed.
Lemma Rpower_half q n : 0 < q -> Rpower q (- (INR n / 2)) = / sqrt q ^ n.
Proof.
  intros H. rewrite Rpower_Ropp. f_equal. rewrite <- Rpower_pow by (apply sqrt_lt_R0, H).
  rewrite <- Rpower_sqrt by exact H. rewrite Rpower_mult. f_equal. field.
Qed.
Lemma pow52 q : 0 < q -> Rpower q (- (5 / 2)) = / sqrt q ^ 5.
Proof. intros H. rewrite <- (Rpower_half q 5 H). f_equal. cbn. lra. Qed.
Lemma pow12 q : 0 < q -> Rpower q (- (1 / 2)) = / sqrt q.
Proof. intros H. replace (/ sqrt q) with (/ sqrt q ^ 1) by (f_equal; ring). rewrite <- (Rpower_half q 1 H). f_equal. Qed.

(** d is the second derivative of h at a *)
Definition second (h : R -> R) (a d : R) : Prop :=
  exists g, (forall t, derivable_pt_lim h t (g t)) /\ derivable_pt_lim g a d.

Lemma d1 c : 0 < c -> forall t, derivable_pt_lim (fun s => 1 / sqrt (s ^ 2 + c)) t (- t / sqrt (t ^ 2 + c) ^ 3).
Proof.
  intros Hc t. apply is_derive_Reals. pose proof (pow2_ge_0 t). assert (0 < t ^ 2 + c) as P by lra.
  pose proof (sqrt_lt_R0 _ P) as Q. auto_derive;
    replace (t * (t * 1) + c) with (t ^ 2 + c) by ring; set (q := sqrt (t ^ 2 + c)) in *.
  - repeat split; lra.
  - field; lra.
Qed.
Lemma d2 c : 0 < c -> forall t, derivable_pt_lim (fun s => - s / sqrt (s ^ 2 + c) ^ 3) t
  (- 1 / sqrt (t ^ 2 + c) ^ 3 + 3 * t ^ 2 / sqrt (t ^ 2 + c) ^ 5).
Proof.
  intros Hc t. apply is_derive_Reals. pose proof (pow2_ge_0 t). assert (0 < t ^ 2 + c) as P by lra.
  pose proof (sqrt_lt_R0 _ P) as Q. auto_derive;
    replace (t * (t * 1) + c) with (t ^ 2 + c) by ring; set (q := sqrt (t ^ 2 + c)) in *.
  - repeat split; try lra. repeat apply Rmult_integral_contrapositive_currified; lra.
  - field; lra.
Qed.
Lemma second_val c t d : 0 < c -> second (fun s => 1 / sqrt (s ^ 2 + c)) t d ->
  d = - 1 / sqrt (t ^ 2 + c) ^ 3 + 3 * t ^ 2 / sqrt (t ^ 2 + c) ^ 5.
Proof.
  intros Hc [g [G1 G2]]. apply (uniqueness_limite g t); [exact G2|].
  apply is_derive_Reals. apply (is_derive_ext (fun s => - s / sqrt (s ^ 2 + c) ^ 3)).
  - intros s. symmetry. eapply uniqueness_limite; [apply G1|]. apply d1, Hc.
  - apply is_derive_Reals, d2, Hc.
Qed.
Lemma second_ex c t : 0 < c -> second (fun s => 1 / sqrt (s ^ 2 + c)) t (- 1 / sqrt (t ^ 2 + c) ^ 3 + 3 * t ^ 2 / sqrt (t ^ 2 + c) ^ 5).
Proof. intros Hc. exists (fun t => - t / sqrt (t ^ 2 + c) ^ 3). split; [apply d1, Hc|apply d2, Hc]. Qed.

Lemma second_ext h h' t d : (forall s, h s = h' s) -> second h t d -> second h' t d.
Proof.
  intros E [g [G1 G2]]. exists g. split; [|exact G2]. intros s. apply is_derive_Reals.
  apply (is_derive_ext h); [exact E|]. apply is_derive_Reals, G1.
Qed.

Lemma laplace x y z a b c :
  second (fun s => alpha_real (s, y, z)) x a -> second (fun s => alpha_real (x, s, z)) y b -> second (fun s => alpha_real (x, y, s)) z c ->
  a + b + c + 3 * Rpower (q2 (x, y, z)) (- (5 / 2)) = 0.
Proof.
  intros Ha Hb Hc.
  pose proof (pow2_ge_0 x); pose proof (pow2_ge_0 y); pose proof (pow2_ge_0 z).
  apply (second_ext _ (fun s => 1 / sqrt (s ^ 2 + (y ^ 2 + z ^ 2 + 1)))) in Ha; [|intros s; unfold alpha_real; do 2 f_equal; ring].
  apply (second_ext _ (fun s => 1 / sqrt (s ^ 2 + (x ^ 2 + z ^ 2 + 1)))) in Hb; [|intros s; unfold alpha_real; do 2 f_equal; ring].
  apply (second_ext _ (fun s => 1 / sqrt (s ^ 2 + (x ^ 2 + y ^ 2 + 1)))) in Hc; [|intros s; unfold alpha_real; do 2 f_equal; ring].
  apply second_val in Ha; [|lra]. apply second_val in Hb; [|lra]. apply second_val in Hc; [|lra].
  replace (x ^ 2 + (y ^ 2 + z ^ 2 + 1)) with (q2 (x, y, z)) in Ha by (unfold q2; ring).
  replace (y ^ 2 + (x ^ 2 + z ^ 2 + 1)) with (q2 (x, y, z)) in Hb by (unfold q2; ring).
  replace (z ^ 2 + (x ^ 2 + y ^ 2 + 1)) with (q2 (x, y, z)) in Hc by (unfold q2; ring).
  pose proof (q2_pos (x, y, z)) as P. rewrite pow52 by exact P.
  assert (E : sqrt (q2 (x, y, z)) ^ 2 = x ^ 2 + y ^ 2 + z ^ 2 + 1) by (apply pow2_sqrt; lra).
  pose proof (sqrt_lt_R0 _ P) as Q. set (q := sqrt (q2 (x, y, z))) in *.
  subst a b c.
  replace (-1 / q ^ 3 + 3 * x ^ 2 / q ^ 5 + (-1 / q ^ 3 + 3 * y ^ 2 / q ^ 5) + (-1 / q ^ 3 + 3 * z ^ 2 / q ^ 5) + 3 * / q ^ 5)
    with (3 * (x ^ 2 + y ^ 2 + z ^ 2 + 1 - q ^ 2) / q ^ 5) by (field; lra).
  rewrite E. field. lra.
Qed.
Lemma second_alpha x y z :
  (exists d, second (fun s => alpha_real (s, y, z)) x d) /\ (exists d, second (fun s => alpha_real (x, s, z)) y d) /\ (exists d, second (fun s => alpha_real (x, y, s)) z d).
Proof.
  pose proof (pow2_ge_0 x); pose proof (pow2_ge_0 y); pose proof (pow2_ge_0 z).
  split; [|split].
  - eexists. eapply second_ext; [|apply (second_ex (y ^ 2 + z ^ 2 + 1)); lra]. intros s; unfold alpha_real; do 2 f_equal; ring.
  - eexists. eapply second_ext; [|apply (second_ex (x ^ 2 + z ^ 2 + 1)); lra]. intros s; unfold alpha_real; do 2 f_equal; ring.
  - eexists. eapply second_ext; [|apply (second_ex (x ^ 2 + y ^ 2 + 1)); lra]. intros s; unfold alpha_real; do 2 f_equal; ring.
Qed.

(** ** the Jacobian *)
Lemma jac_val P S J2 : (Oi S <= NS S)%nat -> (NS S + NI S = nn P)%nat -> ((Oi S < NS S)%nat -> outerB P = true \/ innerB P = true) ->
  let '(B, Et) := making_B_and_E P S J2 in
  let e i l := if Nat.ltb i (Oi S) then J2 0%nat (inv_ S i) l + J2 3%nat (inv_ S i) l + J2 5%nat (inv_ S i) l else krd (inv_ S i) l in
  let e' i l := if Nat.ltb i (Oi S) then J2 0%nat (inv_ S i) l + J2 3%nat (inv_ S i) l + J2 5%nat (inv_ S i) l else 0 in
  (forall i j, (i < NS S)%nat -> (j < NS S)%nat -> B i j = e i (inv_ S j)) /\
  (forall k i, (i < NS S)%nat -> (k < NI S)%nat -> Et k i = e' i (inv_ S (NS S + k))).
Proof.
  intros L1 L2 L7.
  set (ent := fun i l => J2 0%nat (inv_ S i) l + J2 3%nat (inv_ S i) l + J2 5%nat (inv_ S i) l).
  assert (PB := fun A => for2_wr2 (fun i j => ent i (inv_ S j)) 0 (Oi S) 0 (NS S) A (Nat.le_0_l _) (Nat.le_0_l _)).
  assert (PE := fun A => for2_wr2_tr (fun i j => ent i (inv_ S j)) 0 (Oi S) (NS S) (nn P) A (Nat.le_0_l _) ltac:(lia)).
  assert (QB := fun A => for2_wr2 (fun i j => krd (inv_ S i) (inv_ S j)) (Oi S) (NS S) 0 (NS S) A L1 (Nat.le_0_l _)).
  assert (QE := fun A => for2_wr2_tr (fun i j => 0) (Oi S) (NS S) (NS S) (nn P) A L1 ltac:(lia)).
  unfold making_B_and_E, jacobian_eq_alpha.
  assert (W : forall BE, (Oi S < NS S)%nat -> jacobian_bc_alpha P S BE =
    let '(B, Et) := BE in
    (for_ (Oi S) (NS S) (fun i B => for_ 0 (NS S) (fun j B => wr2 B i j (krd (inv_ S i) (inv_ S j))) B) B,
     if Nat.eqb (NI S) 0 then Et else for_ (Oi S) (NS S) (fun i Et => for_ (NS S) (nn P) (fun k Et => wr2 Et (k - NS S) i 0) Et) Et)).
  { intros [B Et] H. unfold jacobian_bc_alpha. destruct (L7 H) as [->| ->]; [reflexivity|destruct (outerB P); reflexivity]. }
  destruct (Nat.eq_dec (Oi S) (NS S)) as [Q|Q].
  - assert (W' : forall BE : (nat -> nat -> R) * (nat -> nat -> R),
        jacobian_bc_alpha P S BE = BE).
    { intros [B Et]. unfold jacobian_bc_alpha, for_. rewrite Q, Nat.sub_diag. cbn. destruct (NI S); cbn; destruct (outerB P), (innerB P); reflexivity. }
    rewrite W'. cbv zeta beta. split.
    + intros i j Hi Hj. etransitivity; [apply PB|]. bx; [|lia]. destruct (Nat.ltb_spec i (Oi S)); [reflexivity|lia].
    + intros k i Hi Hk. destruct (Nat.eqb_spec (NI S) 0); [lia|]. etransitivity; [apply PE|]. bx; [|lia]. destruct (Nat.ltb_spec i (Oi S)); [reflexivity|lia].
  - rewrite W by lia. cbv zeta beta. split.
    + intros i j Hi Hj. etransitivity; [apply QB|]. etransitivity; [|reflexivity]. bx.
      * destruct (Nat.ltb_spec i (Oi S)); [lia|reflexivity].
      * etransitivity; [apply PB|]. bx; [|lia]. destruct (Nat.ltb_spec i (Oi S)); [reflexivity|lia].
    + intros k i Hi Hk. destruct (Nat.eqb_spec (NI S) 0); [lia|]. etransitivity; [apply QE|]. bx.
      * destruct (Nat.ltb_spec i (Oi S)); [lia|reflexivity].
      * etransitivity; [apply PE|]. bx; [|lia]. destruct (Nat.ltb_spec i (Oi S)); [reflexivity|lia].
Qed.

Lemma affine_deriv (f : R -> R) a b : (forall t, f t = a + t * b) -> derivable_pt_lim f 0 b.
Proof.
  intros H. apply is_derive_Reals. apply (is_derive_ext (fun t => a + t * b)); [intros; symmetry; apply H|].
  auto_derive; [exact I|ring].
Qed.

Lemma jac_thm P S bcs D u : layout P S bcs -> (forall i j, (i < nn P)%nat -> (j < nn P)%nat -> inv_ S i = inv_ S j -> i = j) ->
  let F v := make_f P S bcs (lin (nn P) (D 0%nat) v) (lin (nn P) (D 3%nat) v) (lin (nn P) (D 5%nat) v) v in
  let '(B, Et) := making_B_and_E P S D in
  (forall i j, (i < NS S)%nat -> (j < NS S)%nat -> derivable_pt_lim (fun t => F (bump u (inv_ S j) t) i) 0 (B i j)) /\
  (forall k i, (i < NS S)%nat -> (k < NI S)%nat -> derivable_pt_lim (fun t => F (bump u (inv_ S (NS S + k)) t) i) 0 (Et k i)).
Proof.
  intros HL INJ F. pose proof HL as (L1 & L2 & L3 & L4 & L5 & L6 & L7).
  pose proof (jac_val P S D L1 L2 L7) as V. destruct (making_B_and_E P S D) as [B Et]. destruct V as [VB VE].
  assert (G : forall i l, (i < NS S)%nat -> (l < nn P)%nat -> derivable_pt_lim (fun t => F (bump u (inv_ S l) t) i) 0
      (if Nat.ltb i (Oi S) then D 0%nat (inv_ S i) (inv_ S l) + D 3%nat (inv_ S i) (inv_ S l) + D 5%nat (inv_ S i) (inv_ S l) else krd (inv_ S i) (inv_ S l))).
  { intros i l Hi Hl. apply affine_deriv with (a := F u i). intros t. unfold F. rewrite !(make_f_val P S bcs) by assumption. cbv zeta.
    destruct (Nat.ltb i (Oi S)).
    - rewrite !lin_bump by (apply L3; exact Hl). ring.
    - rewrite bump_krd. ring. }
  split.
  - intros i j Hi Hj. rewrite VB by assumption. apply G; [assumption|lia].
  - intros k i Hi Hk. rewrite VE by assumption. specialize (G i (NS S + k)%nat Hi ltac:(lia)).
    destruct (Nat.ltb i (Oi S)); [exact G|]. replace (krd (inv_ S i) (inv_ S (NS S + k))) with 0 in G; [exact G|].
    unfold krd. destruct (Nat.eqb_spec (inv_ S i) (inv_ S (NS S + k))) as [E|]; [|reflexivity]. apply INJ in E; lia.
Qed.

(** ** Newton step: the residual is affine *)
Definition lsum (l : list R) : R := fold_right Rplus 0 l.
Lemma lsum_app a b : lsum (a ++ b) = lsum a + lsum b.
Proof. induction a; unfold lsum in *; cbn [fold_right List.app] in *; [lra|rewrite IHa; lra]. Qed.
Lemma Rsum_lsum n f : Rsum n f = lsum (List.map f (seq 0 n)).
Proof. induction n; [reflexivity|]. rewrite seq_S, List.map_app, lsum_app, <- IHn. unfold lsum. cbn. lra. Qed.
Lemma lsum_perm l l' : Permutation l l' -> lsum l = lsum l'.
Proof. unfold lsum. induction 1; cbn [fold_right]; lra. Qed.
Lemma Rsum_inj n (p : nat -> nat) f : (forall i, (i < n)%nat -> (p i < n)%nat) ->
  (forall i j, (i < n)%nat -> (j < n)%nat -> p i = p j -> i = j) -> Rsum n f = Rsum n (fun i => f (p i)).
Proof.
  intros Hb Hi. rewrite !Rsum_lsum. rewrite <- (List.map_map p f). apply lsum_perm, Permutation_map, Permutation_sym.
  apply NoDup_Permutation_bis.
  - assert (ND : forall l, NoDup l -> (forall i, In i l -> (i < n)%nat) -> NoDup (List.map p l)).
    { induction 1; cbn; intros H1; constructor.
      - rewrite in_map_iff. intros [y [E Hy]]. apply Hi in E; [subst; contradiction| |]; apply H1; auto.
      - apply IHNoDup. auto. }
    apply ND; [apply seq_NoDup|]. intros i H. apply in_seq in H. lia.
  - rewrite List.map_length, !seq_length. lia.
  - intros x H. apply in_map_iff in H. destruct H as [i [<- H]]. apply in_seq in H. apply in_seq. specialize (Hb i). lia.
Qed.

Lemma lin_add n M u d i : lin n M (fun l => u l + d l) i = lin n M u i + lin n M d i.
Proof. unfold lin. rewrite <- Rsum_plus. apply Rsum_ext. intros; ring. Qed.

Lemma newton_thm P S bcs D u d : layout P S bcs -> (forall i j, (i < nn P)%nat -> (j < nn P)%nat -> inv_ S i = inv_ S j -> i = j) ->
  let F v := make_f P S bcs (lin (nn P) (D 0%nat) v) (lin (nn P) (D 3%nat) v) (lin (nn P) (D 5%nat) v) v in
  let '(B, Et) := making_B_and_E P S D in
  forall i, (i < NS S)%nat -> F (fun n => u n + d n) i =
    F u i + Rsum (NS S) (fun j => B i j * d (inv_ S j)) + Rsum (NI S) (fun k => Et k i * d (inv_ S (NS S + k)%nat)).
Proof.
  intros HL INJ F. pose proof HL as (L1 & L2 & L3 & L4 & L5 & L6 & L7).
  pose proof (jac_val P S D L1 L2 L7) as V. destruct (making_B_and_E P S D) as [B Et]. destruct V as [VB VE].
  intros i Hi.
  set (n := inv_ S i). set (e := fun l => if Nat.ltb i (Oi S) then D 0%nat n l + D 3%nat n l + D 5%nat n l else krd n l).
  assert (E1 : F (fun n => u n + d n) i = F u i + Rsum (nn P) (fun l => e l * d l)).
  { unfold F. rewrite !(make_f_val P S bcs) by assumption. cbv zeta. unfold e. fold n. destruct (Nat.ltb i (Oi S)).
    - rewrite !lin_add.
      rewrite (Rsum_ext _ (fun l => (D 0%nat n l + D 3%nat n l + D 5%nat n l) * d l) (fun l => D 0%nat n l * d l + D 3%nat n l * d l + D 5%nat n l * d l)) by (intros; ring).
      rewrite !Rsum_plus. unfold lin. ring.
    - rewrite (Rsum_single (nn P) n); [unfold krd; rewrite Nat.eqb_refl; ring|apply L3; lia|].
      intros l _ Hl. unfold krd. destruct (Nat.eqb_spec n l); [congruence|ring]. }
  rewrite E1. rewrite (Rsum_inj (nn P) (inv_ S)) by assumption. rewrite <- L2, Rsum_app.
  rewrite Rplus_assoc. f_equal. f_equal; apply Rsum_ext.
  - intros j Hj. rewrite VB by assumption. reflexivity.
  - intros k Hk. rewrite VE by assumption. unfold e. destruct (Nat.ltb i (Oi S)); [reflexivity|]. f_equal.
    unfold krd. destruct (Nat.eqb_spec n (inv_ S (NS S + k))) as [E|]; [|reflexivity]. apply INJ in E; lia.
Qed.
