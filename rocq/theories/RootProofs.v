(** RootProofs.v - proofs about the root finders. *)
From Verif Require Import RealBase RootModel.
Open Scope R_scope.

Definition between (a b x : R) : Prop := Rmin a b <= x <= Rmax a b.

Lemma between_iff a b x : between a b x <-> (a <= x <= b \/ b <= x <= a).
Proof.
  unfold between, Rmin, Rmax. destruct (Rle_dec a b); split; intros H; try lra.
Qed.

(** Clamping makes a function continuous on an interval globally continuous. *)
Definition clamp (lo hi x : R) : R := Rmax lo (Rmin hi x).
Lemma clamp_in lo hi x : lo <= hi -> lo <= clamp lo hi x <= hi.
Proof. unfold clamp, Rmax, Rmin. intros. destruct (Rle_dec hi x), (Rle_dec lo _); lra. Qed.
Lemma clamp_id lo hi x : lo <= x <= hi -> clamp lo hi x = x.
Proof. unfold clamp, Rmax, Rmin. intros. destruct (Rle_dec hi x), (Rle_dec lo _); lra. Qed.
Lemma clamp_lip lo hi x y : Rabs (clamp lo hi x - clamp lo hi y) <= Rabs (x - y).
Proof.
  unfold clamp, Rmax, Rmin.
  destruct (Rle_dec hi x), (Rle_dec lo _), (Rle_dec hi y), (Rle_dec lo _);
  unfold Rabs; repeat destruct (Rcase_abs _); lra.
Qed.
Lemma clamp_cont lo hi x : continuity_pt (clamp lo hi) x.
Proof.
  intros e He. exists e. split; [exact He|]. intros y [_ H].
  unfold dist in *; simpl in *. unfold R_dist in *.
  eapply Rle_lt_trans; [apply clamp_lip|exact H].
Qed.

Lemma ivt_any (F : R -> R) lo hi u v :
  lo <= hi -> (forall x, lo <= x <= hi -> continuity_pt F x) ->
  lo <= u <= hi -> lo <= v <= hi -> F u * F v <= 0 ->
  exists r, between u v r /\ F r = 0.
Proof.
  intros L C Hu Hv S.
  assert (G : forall u v, u <= v -> lo <= u <= hi -> lo <= v <= hi -> F u * F v <= 0 ->
              exists r, u <= r <= v /\ F r = 0).
  { clear u v Hu Hv S. intros u v UV Hu Hv S.
    pose (G := fun x => F (clamp lo hi x)).
    assert (CG : continuity G).
    { intros x. unfold G. apply (continuity_pt_comp (clamp lo hi) F); [apply clamp_cont|].
      apply C. apply clamp_in; exact L. }
    destruct (IVT_cor G u v CG UV) as [z [Hz E]].
    - unfold G. rewrite !clamp_id by assumption. exact S.
    - exists z. split; [exact Hz|]. unfold G in E. rewrite clamp_id in E; [exact E|lra]. }
  destruct (Rle_dec u v) as [H|H].
  - destruct (G u v H Hu Hv S) as [r [A B]]. exists r. split; [apply between_iff; lra|exact B].
  - destruct (G v u) as [r [A B]]; try lra. exists r. split; [apply between_iff; lra|exact B].
Qed.

Lemma LSS_iff x y : LSS x y = true <-> x < y - ROUND_OFF_ERR.
Proof. unfold LSS. destruct (ltR_spec x (y - ROUND_OFF_ERR)); split; intros; try discriminate; auto; contradiction. Qed.
Lemma LSS_false x y : LSS x y = false <-> y - ROUND_OFF_ERR <= x.
Proof. unfold LSS. destruct (ltR_spec x (y - ROUND_OFF_ERR)); split; intros; try discriminate; auto; lra. Qed.

Section B.
Variables (f : R -> option R) (stops : R -> bool) (TOL : R).

(** Enough iterations to meet the tolerance. *)
Lemma bisect_honest (F : R -> R) lo hi :
  lo <= hi ->
  (forall x, lo <= x <= hi -> f x = Some (F x)) ->
  (forall x, lo <= x <= hi -> continuity_pt F x) ->
  forall left i intr a b x res r W,
  lo <= a <= hi -> lo <= b <= hi -> F a * F b <= 0 -> (1 <= i)%nat ->
  Rabs (b - a) = W / 2 ^ (i - 1) ->
  bisect_loop f stops TOL left i intr a b (Some (F a)) x res = r -> b_status r = OK ->
  lo <= b_x r <= hi /\ b_residual r = Val (Some (F (b_x r))) /\
  (i <= b_steps r < left + i)%nat /\
  (exists root, lo <= root <= hi /\ F root = 0 /\ Rabs (b_x r - root) <= W / 2 ^ b_steps r) /\
  (Rabs (F (b_x r)) < ROUND_OFF_ERR \/ W / 2 ^ b_steps r < TOL - ROUND_OFF_ERR).
Proof.
  intros L Fin C. induction left as [|left IH]; intros i intr a b x res r W Ha Hb Sg Hi HW E St.
  - simpl in E. subst r. discriminate.
  - cbn [bisect_loop] in E. cbv zeta in E.
    assert (Hp : lo <= a + / 2 * (b - a) <= hi) by lra.
    set (d := / 2 * (b - a)) in *. set (p := a + d) in *.
    destruct (intr || stops p); [subst r; discriminate|].
    rewrite (Fin p Hp) in E.
    assert (Hd : Rabs d = W / 2 ^ i).
    { unfold d. rewrite Rabs_mult, (Rabs_right (/ 2)) by lra. rewrite HW.
      replace i with (S (i - 1)) at 2 by lia. cbn [pow]. field. apply pow_nonzero; lra. }
    destruct (EQL (F p) 0 || LSS (Rabs d) TOL) eqn:T.
    + subst r. cbn [b_x b_residual b_steps b_status] in *.
      split; [exact Hp|]. split; [reflexivity|]. split; [lia|]. split.
      * destruct (ivt_any F lo hi a b L C Ha Hb Sg) as [root [Hr R0]].
        exists root. apply between_iff in Hr. split; [lra|]. split; [exact R0|].
        rewrite <- Hd. unfold p, d. destruct Hr; unfold Rabs; repeat destruct (Rcase_abs _); lra.
      * apply orb_true_iff in T. destruct T as [T|T].
        -- left. apply EQL_iff in T. rewrite Rminus_0_r in T. exact T.
        -- right. apply LSS_iff in T. rewrite <- Hd. exact T.
    + assert (HW' : Rabs d = W / 2 ^ (S i - 1)) by (replace (S i - 1)%nat with i by lia; exact Hd).
      cbn [prod_pos] in E. destruct (ltR_spec 0 (F a * F p)) as [P|P].
      * assert (S' : F p * F b <= 0) by nra.
        specialize (IH (S i) false p b x (Val (Some (F p))) r W Hp Hb S' ltac:(lia)).
        replace (b - p) with d in IH by (unfold p, d; lra).
        destruct (IH HW' E St) as (I1 & I2 & I3 & I4 & I5). repeat (split; try assumption); lia.
      * specialize (IH (S i) false a p x (Val (Some (F p))) r W Ha Hp ltac:(lra) ltac:(lia)).
        replace (p - a) with d in IH by (unfold p; lra).
        destruct (IH HW' E St) as (I1 & I2 & I3 & I4 & I5). repeat (split; try assumption); lia.
Qed.

Lemma bisect_statuses left : forall i intr a b FA x res r,
  bisect_loop f stops TOL left i intr a b FA x res = r ->
  (b_status r = OK \/ b_x r = x) /\
  (b_status r = OK \/ b_status r = MAX_ITER \/ b_status r = INTERRUPTED \/ b_status r = ABNORMAL) /\
  (b_status r = ABNORMAL -> b_residual r = Val None).
Proof.
  induction left as [|left IH]; intros i intr a b FA x res r E; cbn [bisect_loop] in E; cbv zeta in E.
  - subst r. cbn. intuition congruence.
  - destruct (intr || stops _); [subst r; cbn; intuition congruence|].
    destruct (f _) eqn:FP; [|subst r; cbn; intuition congruence].
    destruct (EQL _ 0 || _); [subst r; cbn; intuition congruence|].
    destruct (prod_pos FA _); eapply IH; exact E.
Qed.

Lemma bisect_interrupted lo hi left : forall i intr a b FA x res r,
  lo <= a <= hi -> lo <= b <= hi -> intr = false ->
  bisect_loop f stops TOL left i intr a b FA x res = r ->
  b_status r = INTERRUPTED -> exists p, lo <= p <= hi /\ stops p = true.
Proof.
  induction left as [|left IH]; intros i intr a b FA x res r Ha Hb Hi E St;
    cbn [bisect_loop] in E; cbv zeta in E.
  - subst r; discriminate.
  - set (p := a + / 2 * (b - a)) in *. assert (Hp : lo <= p <= hi) by (unfold p; lra).
    subst intr. cbn [orb] in E. destruct (stops p) eqn:Sp.
    + exists p; auto.
    + destruct (f p) eqn:FP; [|subst r; discriminate].
      destruct (EQL _ 0 || _); [subst r; discriminate|].
      destruct (prod_pos FA _); eapply (IH (S i) false); try exact E; auto.
Qed.

(** With finite values and no interruption the loop ends with success or with the iteration
    limit, and the latter only when the bracket is still wider than the tolerance. *)
Lemma bisect_ends lo hi (F : R -> R) :
  (forall x, lo <= x <= hi -> f x = Some (F x)) ->
  (forall x, lo <= x <= hi -> stops x = false) ->
  forall left i intr a b FA x res r W,
  lo <= a <= hi -> lo <= b <= hi -> (1 <= i)%nat -> intr = false ->
  Rabs (b - a) = W / 2 ^ (i - 1) ->
  bisect_loop f stops TOL left i intr a b FA x res = r ->
  b_status r = OK \/
  (b_status r = MAX_ITER /\ b_steps r = (left + i - 1)%nat /\
   ((1 <= left)%nat -> TOL - ROUND_OFF_ERR <= W / 2 ^ b_steps r)).
Proof.
  intros Fin NS. induction left as [|left IH]; intros i intr a b FA x res r W Ha Hb Hi Hn HW E;
    cbn [bisect_loop] in E; cbv zeta in E.
  - subst r. right. cbn [b_status b_steps]. split; [reflexivity|]. split; [lia|lia].
  - set (d := / 2 * (b - a)) in *. set (p := a + d) in *.
    assert (Hp : lo <= p <= hi) by (unfold p, d; lra).
    rewrite Hn, (NS p Hp), (Fin p Hp) in E. cbn [orb] in E.
    assert (Hd : Rabs d = W / 2 ^ i).
    { unfold d. rewrite Rabs_mult, (Rabs_right (/ 2)) by lra. rewrite HW.
      replace i with (S (i - 1)) at 2 by lia. cbn [pow]. field. apply pow_nonzero; lra. }
    destruct (EQL (F p) 0 || LSS (Rabs d) TOL) eqn:T; [left; subst r; reflexivity|].
    apply orb_false_iff in T. destruct T as [_ T]. apply LSS_false in T.
    assert (HW' : Rabs d = W / 2 ^ (S i - 1)) by (replace (S i - 1)%nat with i by lia; exact Hd).
    assert (G : b_status r = OK \/
        (b_status r = MAX_ITER /\ b_steps r = (left + S i - 1)%nat /\
         ((1 <= left)%nat -> TOL - ROUND_OFF_ERR <= W / 2 ^ b_steps r))).
    { destruct (prod_pos FA (Some (F p))).
      - eapply (IH (S i) false p b _ x _ r W); try exact E; auto; try lia.
        replace (b - p) with d by (unfold p, d; lra). exact HW'.
      - eapply (IH (S i) false a p _ x _ r W); try exact E; auto; try lia.
        replace (p - a) with d by (unfold p; lra). exact HW'. }
    destruct G as [G|(G1 & G2 & G3)]; [left; exact G|right]. split; [exact G1|].
    split; [lia|]. intros _. destruct left as [|left].
    + replace (b_steps r) with i by lia. rewrite <- Hd. exact T.
    + apply G3. lia.
Qed.
End B.

(** ** The property *)
Theorem bisect_refuses n f stops A B TOL M :
  bisect n f stops A B TOL M = None <->
  (n <> 1%nat \/ exists u v, f A = Some u /\ f B = Some v /\ 0 < u * v).
Proof.
  unfold bisect. destruct (Nat.eqb_spec n 1) as [->|N]; cbn [negb].
  - destruct (f A) as [u|], (f B) as [v|]; cbn [prod_pos]; try (split; [discriminate|
      intros [H|(p & q & H1 & H2 & _)]; [congruence|discriminate]]).
    destruct (ltR_spec 0 (u * v)) as [P|P]; split; intros H; try discriminate; auto.
    + right. exists u, v. auto.
    + exfalso. destruct H as [H|(p & q & H1 & H2 & H3)]; [congruence|].
      injection H1 as <-. injection H2 as <-. contradiction.
  - split; auto.
Qed.

Theorem bisect_ok f stops F A B TOL M r :
  (forall x, between A B x -> f x = Some (F x) /\ continuity_pt F x) ->
  bisect 1 f stops A B TOL M = Some r -> b_status r = OK ->
  between A B (b_x r) /\ b_residual r = Val (Some (F (b_x r))) /\
  (1 <= b_steps r <= M)%nat /\
  (exists root, between A B root /\ F root = 0 /\ Rabs (b_x r - root) <= Rabs (B - A) / 2 ^ b_steps r) /\
  (Rabs (F (b_x r)) < ROUND_OFF_ERR \/ Rabs (B - A) / 2 ^ b_steps r < TOL - ROUND_OFF_ERR).
Proof.
  intros C E St. unfold between in *.
  assert (HA : Rmin A B <= A <= Rmax A B) by (unfold Rmin, Rmax; destruct (Rle_dec A B); lra).
  assert (HB : Rmin A B <= B <= Rmax A B) by (unfold Rmin, Rmax; destruct (Rle_dec A B); lra).
  unfold bisect in E. cbn [Nat.eqb negb] in E.
  rewrite (proj1 (C A HA)), (proj1 (C B HB)) in E. cbn [prod_pos] in E.
  destruct (ltR_spec 0 (F A * F B)) as [P|P]; [discriminate|].
  injection E as E.
  destruct (bisect_honest f stops TOL F (Rmin A B) (Rmax A B)
     ltac:(lra) (fun x H => proj1 (C x H)) (fun x H => proj2 (C x H))
     M 1 (stops A) A B 0 Unset r (Rabs (B - A)) HA HB ltac:(lra) ltac:(lia)
     ltac:(simpl; lra) E St) as (I1 & I2 & I3 & I4 & I5).
  repeat (split; try assumption); lia.
Qed.

Theorem bisect_terminates f stops F A B TOL M :
  (forall x, between A B x -> f x = Some (F x) /\ stops x = false) ->
  F A * F B <= 0 -> (1 <= M)%nat -> Rabs (B - A) / 2 ^ M < TOL - ROUND_OFF_ERR ->
  exists r, bisect 1 f stops A B TOL M = Some r /\ b_status r = OK.
Proof.
  intros C Sg HM HT. unfold between in *.
  assert (HA : Rmin A B <= A <= Rmax A B) by (unfold Rmin, Rmax; destruct (Rle_dec A B); lra).
  assert (HB : Rmin A B <= B <= Rmax A B) by (unfold Rmin, Rmax; destruct (Rle_dec A B); lra).
  unfold bisect. cbn [Nat.eqb negb].
  rewrite (proj1 (C A HA)), (proj1 (C B HB)). cbn [prod_pos].
  destruct (ltR_spec 0 (F A * F B)) as [P|P]; [lra|].
  eexists. split; [reflexivity|].
  destruct (bisect_ends f stops TOL (Rmin A B) (Rmax A B) F
     (fun x H => proj1 (C x H)) (fun x H => proj2 (C x H)) M 1 (stops A) A B (Some (F A)) 0 Unset
     _ (Rabs (B - A)) HA HB ltac:(lia) (proj2 (C A HA)) ltac:(simpl; lra) eq_refl)
     as [G|(G1 & G2 & G3)]; [exact G|].
  exfalso. specialize (G3 HM). rewrite G2 in G3. replace (M + 1 - 1)%nat with M in G3 by lia. lra.
Qed.

Theorem bisect_other f stops A B TOL M r :
  bisect 1 f stops A B TOL M = Some r -> b_status r <> OK ->
  b_x r = 0 /\
  (b_status r = MAX_ITER \/ b_status r = INTERRUPTED \/ b_status r = ABNORMAL) /\
  (b_status r = ABNORMAL -> b_residual r = Val None) /\
  (b_status r = INTERRUPTED -> exists p, between A B p /\ stops p = true).
Proof.
  intros E St. unfold bisect in E. cbn [Nat.eqb negb] in E.
  destruct (prod_pos _ _); [discriminate|]. injection E as E.
  destruct (bisect_statuses _ _ _ _ _ _ _ _ _ _ _ _ E) as (H1 & H2 & H3).
  split; [tauto|]. split; [tauto|]. split; [exact H3|]. intros H.
  assert (HA : Rmin A B <= A <= Rmax A B) by (unfold Rmin, Rmax; destruct (Rle_dec A B); lra).
  assert (HB : Rmin A B <= B <= Rmax A B) by (unfold Rmin, Rmax; destruct (Rle_dec A B); lra).
  destruct (stops A) eqn:SA; [exists A; split; [exact HA|exact SA]|].
  eapply (bisect_interrupted f stops TOL (Rmin A B) (Rmax A B)); try exact E; auto.
Qed.
