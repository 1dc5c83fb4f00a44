From Verif Require Import RealBase PrecondModel.

(** x solves the n by n system a x = b *)
Definition solves (n : nat) (a : mat) (b x : vec) : Prop :=
  forall i, (i < n)%nat -> Rsum n (fun j => a i j * x j) = b i.
(** the sparse solver does its job on M: every right-hand side *)
Definition solver_ok (solve : mat -> vec -> vec) (n : nat) (M : mat) : Prop :=
  forall e, solves n M e (solve M e).

Lemma inner_loop n i (g : nat -> mat -> R) : forall a, 
  (forall j a1 a2, (forall k, a1 k j = a2 k j) -> g j a1 = g j a2) ->
  forall m, (m <= n)%nat -> forall r c,
  loop m (fun j a => upd2 a i j (g j a)) a r c = if (Nat.eqb r i && Nat.ltb c m)%bool then g c a else a r c.
Proof.
  intros a Hg. induction m; intros Hm r c; cbn [loop].
  - replace (c <? 0)%nat with false by (symmetry; apply Nat.ltb_ge; lia). rewrite andb_false_r. reflexivity.
  - unfold upd2 at 1. destruct (Nat.eqb_spec r i), (Nat.eqb_spec c m); cbn [andb].
    + subst. rewrite (proj2 (Nat.ltb_lt m (S m))) by lia. apply Hg. intros k. rewrite IHm by lia.
      rewrite Nat.ltb_irrefl, andb_false_r. reflexivity.
    + rewrite IHm by lia. rewrite (proj2 (Nat.eqb_eq r i)) by auto. cbn [andb].
      destruct (Nat.ltb_spec c m), (Nat.ltb_spec c (S m)); auto; lia.
    + rewrite IHm by lia. apply Nat.eqb_neq in n0. rewrite n0. reflexivity.
    + rewrite IHm by lia. apply Nat.eqb_neq in n0. rewrite n0. reflexivity.
Qed.

Lemma invert_col (solve : mat -> vec -> vec) n M : forall m, (m <= n)%nat ->
  let st := loop m (fun c '(inv, ej) =>
        let ej1 := upd ej c 1 in
        let x := solve M ej1 in
        (loop n (fun r inv => upd2 inv r c (x r)) inv, upd ej1 c 0))
      (fun _ _ => 0, fun _ => 0) in
  (forall k, snd st k = 0) /\
  forall c, (c < m)%nat -> exists e, (forall k, e k = if Nat.eqb k c then 1 else 0) /\
     forall r, (r < n)%nat -> fst st r c = solve M e r.
Proof.
  induction m; intros Hm; cbn [loop]. { split; [reflexivity|lia]. }
  destruct (loop m _ _) as [inv ej] eqn:E. specialize (IHm ltac:(lia)). cbn [fst snd] in *.
  destruct IHm as [Z I]. split.
  - intros k. unfold upd. destruct (Nat.eqb k m); auto.
  - intros c Hc.
    assert (W : forall x q r c', (q <= n)%nat -> loop q (fun r0 inv0 => upd2 inv0 r0 m (x r0)) inv r c' =
       if (Nat.ltb r q && Nat.eqb c' m)%bool then x r else inv r c').
    { intros x q. induction q; intros r c' Hq; cbn [loop].
      - replace (r <? 0)%nat with false by (symmetry; apply Nat.ltb_ge; lia). reflexivity.
      - unfold upd2 at 1. rewrite IHq by lia. destruct (Nat.eqb_spec r q), (Nat.eqb_spec c' m); cbn [andb]; subst;
        rewrite ?andb_false_r, ?andb_true_r; auto.
        + rewrite (proj2 (Nat.ltb_lt q (S q))) by lia. reflexivity.
        + destruct (Nat.ltb_spec r q), (Nat.ltb_spec r (S q)); auto; lia. }
    destruct (Nat.eq_dec c m) as [->|Hne].
    + exists (upd ej m 1). split.
      * intros k. unfold upd. destruct (Nat.eqb k m); auto.
      * intros r Hr. rewrite W by lia. rewrite (proj2 (Nat.ltb_lt r n)), Nat.eqb_refl by lia. reflexivity.
    + destruct (I c ltac:(lia)) as (e & He & Hr). exists e. split; auto.
      intros r Hrn. rewrite W by lia. rewrite (proj2 (Nat.eqb_neq c m)) by lia. rewrite andb_false_r. auto.
Qed.

Lemma invert_right solve n M : solver_ok solve n M ->
  forall i c, (i < n)%nat -> (c < n)%nat ->
  Rsum n (fun k => M i k * invert_matrix solve n M k c) = if Nat.eqb i c then 1 else 0.
Proof.
  intros Hs i c Hi Hc. unfold invert_matrix.
  destruct (invert_col solve n M n (le_n n)) as [_ I]. destruct (I c Hc) as (e & He & Hr).
  rewrite <- He, <- (Hs e i Hi). apply Rsum_ext. intros k Hk. rewrite Hr by auto. reflexivity.
Qed.

(** The inverse of a lower triangular matrix is lower triangular with the inverse diagonal. *)
Lemma lower_inverse n L X :
  (forall i j, (i < j)%nat -> L i j = 0) -> (forall i, (i < n)%nat -> L i i <> 0) ->
  (forall i c, (i < n)%nat -> (c < n)%nat -> Rsum n (fun k => L i k * X k c) = if Nat.eqb i c then 1 else 0) ->
  forall c, (c < n)%nat -> (forall i, (i < c)%nat -> X i c = 0) /\ L c c * X c c = 1.
Proof.
  intros HL HD HX c Hc.
  assert (cut : forall i, (i < n)%nat -> (forall k, (k < i)%nat -> L i k * X k c = 0) ->
     Rsum n (fun k => L i k * X k c) = L i i * X i c).
  { intros i Hi Hk. apply (Rsum_single n i (fun k => L i k * X k c)); auto.
    intros k Hkn Hne. destruct (Nat.lt_ge_cases k i); auto. rewrite HL by lia. ring. }
  assert (Z : forall i, (i < c)%nat -> X i c = 0).
  { induction i using lt_wf_ind. intros Hi.
    pose proof (HX i c ltac:(lia) Hc) as E. rewrite cut in E; [|lia|].
    - rewrite (proj2 (Nat.eqb_neq i c)) in E by lia.
      apply Rmult_integral in E as [E|E]; auto. exfalso; apply (HD i); auto; lia.
    - intros k Hk. rewrite H by lia. ring. }
  split; auto.
  pose proof (HX c c Hc Hc) as E. rewrite cut in E; auto. rewrite Nat.eqb_refl in E. exact E.
  intros k Hk. rewrite Z by lia. ring.
Qed.

(** One in-place sweep with a lower triangular matrix with non-zero diagonal. *)
Lemma sweep_rows n X : (forall i j, (i < j)%nat -> (j < n)%nat -> X i j = 0) ->
  forall a b m, (m <= n)%nat ->
  let st := loop m (fun i '(a, b) =>
     let a' := loop n (fun j a => upd2 a i j (Rsum n (fun k => X i k * a k j))) a in
     let b_new := Rsum n (fun k => X i k * b k) in
     (a', upd b i b_new)) (a, b) in
  (forall i, (m <= i)%nat -> (forall j, fst st i j = a i j) /\ snd st i = b i) /\
  (forall i, (i < m)%nat -> 
     (forall j, (j < n)%nat -> fst st i j = Rsum i (fun k => X i k * fst st k j) + X i i * a i j) /\
     snd st i = Rsum i (fun k => X i k * snd st k) + X i i * b i).
Proof.
  intros HX a b. induction m; intros Hm; cbn [loop].
  { cbn. split; [auto|lia]. }
  destruct (loop m _ (a,b)) as [a1 b1] eqn:E. specialize (IHm ltac:(lia)). cbn [fst snd] in *.
  destruct IHm as [U D].
  set (a2 := loop n (fun j a => upd2 a m j (Rsum n (fun k => X m k * a k j))) a1).
  assert (A2 : forall r c, a2 r c = if (Nat.eqb r m && Nat.ltb c n)%bool then Rsum n (fun k => X m k * a1 k c) else a1 r c).
  { intros. unfold a2. apply (inner_loop n m (fun j a => Rsum n (fun k => X m k * a k j))); auto.
    intros j p q Hpq. apply Rsum_ext. intros. rewrite Hpq. reflexivity. }
  assert (SPLIT : forall f : nat -> R, Rsum n (fun k => X m k * f k) = Rsum m (fun k => X m k * f k) + X m m * f m).
  { intros f. replace n with (S m + (n - S m))%nat at 1 by lia. rewrite Rsum_app. cbn [Rsum].
    rewrite (Rsum_zero (n - S m)); [ring|]. intros. rewrite HX by lia. ring. }
  split.
  - intros i Hi. split.
    + intros j. rewrite A2. rewrite (proj2 (Nat.eqb_neq i m)) by lia. cbn. apply U. lia.
    + unfold upd. rewrite (proj2 (Nat.eqb_neq i m)) by lia. apply U. lia.
  - intros i Hi. 
    assert (low : forall k j, (k < m)%nat -> a2 k j = a1 k j).
    { intros. rewrite A2. rewrite (proj2 (Nat.eqb_neq k m)) by lia. reflexivity. }
    assert (lowb : forall k v, (k < m)%nat -> upd b1 m v k = b1 k).
    { intros. unfold upd. rewrite (proj2 (Nat.eqb_neq k m)) by lia. reflexivity. }
    destruct (Nat.eq_dec i m) as [->|Hne].
    + destruct (U m (le_n m)) as [Ua Ub]. split.
      * intros j Hj. rewrite A2. rewrite Nat.eqb_refl, (proj2 (Nat.ltb_lt j n)) by lia. cbn [andb].
        rewrite SPLIT, Ua. f_equal. apply Rsum_ext. intros. rewrite low by lia. reflexivity.
      * unfold upd at 1. rewrite Nat.eqb_refl, SPLIT, Ub. f_equal. apply Rsum_ext. intros. rewrite lowb by lia. reflexivity.
    + destruct (D i ltac:(lia)) as [Da Db]. split.
      * intros j Hj. rewrite low by lia. rewrite Da by lia. f_equal. apply Rsum_ext. intros. rewrite low by lia. reflexivity.
      * rewrite lowb by lia. rewrite Db. f_equal. apply Rsum_ext. intros. rewrite lowb by lia. reflexivity.
Qed.

Lemma sweep_equiv n X a b : (forall i j, (i < j)%nat -> (j < n)%nat -> X i j = 0) ->
  (forall i, (i < n)%nat -> X i i <> 0) ->
  let '(a', b') := GS_sweep n X a b in
  forall x, solves n a b x <-> solves n a' b' x.
Proof.
  intros HX HD.
  pose proof (sweep_rows n X HX a b n (le_n n)) as [_ H].
  change (loop n _ (a,b)) with (GS_sweep n X a b) in H.
  destruct (GS_sweep n X a b) as [a' b']. cbn [fst snd] in H. intros x.
  assert (row : forall i, (i < n)%nat -> Rsum n (fun j => a' i j * x j) - b' i =
     Rsum i (fun k => X i k * (Rsum n (fun j => a' k j * x j) - b' k)) + X i i * (Rsum n (fun j => a i j * x j) - b i)).
  { intros i Hi. destruct (H i Hi) as [Ha Hb]. rewrite Hb.
    transitivity (Rsum n (fun j => Rsum i (fun k => X i k * a' k j * x j) + X i i * (a i j * x j)) - (Rsum i (fun k => X i k * b' k) + X i i * b i)).
    { f_equal. apply Rsum_ext. intros j Hj. rewrite Ha by auto. rewrite Rmult_plus_distr_r, <- Rsum_scal_r. f_equal; ring. }
    rewrite Rsum_plus, Rsum_scal, Rsum_exchange.
    transitivity (Rsum i (fun k => X i k * Rsum n (fun j => a' k j * x j)) - Rsum i (fun k => X i k * b' k) + X i i * (Rsum n (fun j => a i j * x j) - b i)).
    { assert (Q : Rsum i (fun j => Rsum n (fun i0 => X i j * a' j i0 * x i0)) = Rsum i (fun k => X i k * Rsum n (fun j => a' k j * x j))).
      { apply Rsum_ext. intros k Hk. rewrite <- Rsum_scal. apply Rsum_ext. intros; ring. }
      rewrite Q. ring. }
    rewrite <- Rsum_minus. f_equal. apply Rsum_ext. intros. ring. }
  split; intros S i Hi.
  - induction i using lt_wf_ind. specialize (row i Hi). rewrite (Rsum_zero i) in row.
    + rewrite (S i Hi) in row. lra.
    + intros k Hk. rewrite H0 by lia. ring.
  - specialize (row i Hi). rewrite (S i Hi), (Rsum_zero i) in row.
    + assert (E : X i i * (Rsum n (fun j => a i j * x j) - b i) = 0) by lra.
      apply Rmult_integral in E as [E|E]; [exfalso; apply (HD i); auto|lra].
    + intros k Hk. rewrite (S k) by lia. ring.
Qed.

Lemma precondition_equiv solve n a b :
  (forall i, (i < n)%nat -> a i i <> 0) -> solver_ok solve n (lower a) ->
  let '(a', b') := precondition solve n a b in forall x, solves n a b x <-> solves n a' b' x.
Proof.
  intros HD HS. unfold precondition. 
  assert (LI := lower_inverse n (lower a) (invert_matrix solve n (lower a))).
  assert (D2 : forall i, (i < n)%nat -> lower a i i <> 0) by (intros; unfold lower; rewrite Nat.leb_refl; auto).
  assert (U2 : forall i j, (i < j)%nat -> lower a i j = 0).
  { intros. unfold lower. rewrite (proj2 (Nat.leb_gt j i)) by lia. reflexivity. }
  specialize (LI U2 D2 (invert_right solve n (lower a) HS)).
  apply sweep_equiv.
  - intros i j Hij Hj. apply (LI j Hj). auto.
  - intros i Hi E. destruct (LI i Hi) as [_ K]. rewrite E in K. lra.
Qed.

Lemma invert_left solve n M : solver_ok solve n M -> 
  forall N, (forall i j, (i < n)%nat -> (j < n)%nat -> Rsum n (fun k => N i k * M k j) = if Nat.eqb i j then 1 else 0) ->
  forall i j, (i < n)%nat -> (j < n)%nat -> invert_matrix solve n M i j = N i j.
Proof.
  intros Hs N HN i j Hi Hj.
  pose proof (invert_right solve n M Hs) as HR. set (X := invert_matrix solve n M) in *.
  transitivity (Rsum n (fun k => (Rsum n (fun l => N i l * M l k)) * X k j)).
  { rewrite (Rsum_single n i (fun k => Rsum n (fun l => N i l * M l k) * X k j)); auto.
    - rewrite HN by auto. rewrite Nat.eqb_refl. ring.
    - intros k Hk Hne. rewrite HN by auto. rewrite (proj2 (Nat.eqb_neq i k)) by auto. ring. }
  transitivity (Rsum n (fun l => N i l * Rsum n (fun k => M l k * X k j))).
  { transitivity (Rsum n (fun k => Rsum n (fun l => N i l * M l k * X k j))).
    { apply Rsum_ext. intros. rewrite Rsum_scal_r. reflexivity. }
    rewrite Rsum_exchange. apply Rsum_ext. intros. rewrite <- Rsum_scal. apply Rsum_ext. intros. ring. }
  rewrite (Rsum_single n j (fun l => N i l * Rsum n (fun k => M l k * X k j))); auto.
  - rewrite HR by auto. rewrite Nat.eqb_refl. ring.
  - intros k Hk Hne. rewrite HR by auto. rewrite (proj2 (Nat.eqb_neq k j)) by auto. ring.
Qed.

(** witness: a = [[2,0],[1,1]], the lower part is a itself, so L^-1 a would be the identity *)
Definition wit_a : mat := fun i j => match i, j with 0%nat, 0%nat => 2 | 1%nat, 0%nat => 1 | 1%nat, 1%nat => 1 | _, _ => 0 end.
Definition wit_solve (M : mat) (e : vec) : vec :=
  fun i => match i with O => e O / M O O | _ => (e 1%nat - M 1%nat O * (e O / M O O)) / M 1%nat 1%nat end.
Lemma wit_ok : solver_ok wit_solve 2 (lower wit_a).
Proof. intros e i Hi. destruct i as [|[|i]]; [| |lia]; cbn; field. Qed.
Lemma wit_not : fst (precondition wit_solve 2 wit_a (fun _ => 1)) 1%nat 0%nat = /2.
Proof. unfold precondition, GS_sweep, invert_matrix. cbn. field. Qed.
Lemma wit_lower : forall i j, (i < 2)%nat -> (j < 2)%nat -> lower wit_a i j = wit_a i j.
Proof. intros i j Hi Hj. destruct i as [|[|i]], j as [|[|j]]; try lia; reflexivity. Qed.
Lemma wit_ex : (forall i, (i < 2)%nat -> wit_a i i <> 0) /\ solver_ok wit_solve 2 (lower wit_a) /\
  solves 2 wit_a (fun i => INR i + 2) (fun i => match i with O => 1 | _ => 2 end).
Proof.
  split; [|split; [exact wit_ok|]].
  - intros i Hi. destruct i as [|[|i]]; try lia; cbn; lra.
  - intros i Hi. destruct i as [|[|i]]; try lia; cbn; lra.
Qed.
