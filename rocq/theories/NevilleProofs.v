(** NevilleProofs.v - Neville's scheme evaluates the interpolating polynomial. *)
From Verif Require Import RealBase SpectralSpec SpectralProofs PolyLib Interp1Model.
From Verif Require Base.
Import Base(outcome, Ok, Abort, UB, obind).
Open Scope R_scope.

Definition inj_below (N : nat) (x : nat -> R) : Prop := forall i j, (i < N)%nat -> (j < N)%nat -> x i = x j -> i = j.
Lemma neville_poly x f : forall j i, (j <= i)%nat -> inj_below (S i) x -> exists P, ispoly (S j) P /\
  (forall k, (i - j <= k <= i)%nat -> P (x k) = f k) /\ forall h, neville_q x f h j i = Some (P h).
Proof.
  induction j; intros i Hj Hd.
  - exists (fun _ => f i). split; [apply ispoly_const|]. split; [intros k Hk; f_equal; lia|reflexivity].
  - destruct (IHj i ltac:(lia) Hd) as (A & HA & VA & QA).
    destruct (IHj (i-1)%nat ltac:(lia)) as (B & HB & VB & QB). { intros a b Ha Hb. apply Hd; lia. }
    assert (NE : x i - x (i - S j)%nat <> 0). { intros E. assert (i = i - S j)%nat by (apply Hd; try lia; lra). lia. }
    exists (fun y => ((y - x (i - S j)%nat) * A y - (y - x i) * B y) / (x i - x (i - S j)%nat)). split; [|split].
    + apply (ispoly_ext _ (fun y => / (x i - x (i - S j)%nat) * ((y - x (i - S j)%nat) * A y - (y - x i) * B y))); [intros; unfold Rdiv; ring|].
      apply ispoly_scal. apply ispoly_minus; apply ispoly_lin; auto.
    + intros k Hk. destruct (Nat.eq_dec k i) as [->|N1].
      * rewrite VA by lia. field. auto.
      * rewrite (VB k) by lia. destruct (Nat.eq_dec k (i - S j)) as [->|N2]; [field; auto|].
        rewrite (VA k) by lia. field. auto.
    + intros h. cbn [neville_q]. rewrite QA, QB. cbn [fbind]. rewrite fdiv_some by auto. reflexivity.
Qed.
Lemma neville_full x f N : (1 <= N)%nat -> inj_below N x -> exists p, length p = N /\
  (forall k, (k < N)%nat -> peval p (x k) = f k) /\ forall h, neville_q x f h (N-1) (N-1) = Some (peval p h).
Proof.
  intros HN Hd. destruct (neville_poly x f (N-1) (N-1) ltac:(lia)) as (P & HP & V & Q). { replace (S (N-1)) with N by lia. exact Hd. }
  replace (S (N-1)) with N in HP by lia. destruct HP as (p & Hl & Hp). exists p. split; auto. split.
  - intros k Hk. rewrite <- Hp. apply V. lia.
  - intros h. rewrite <- Hp. apply Q.
Qed.
Lemma neville_plain x f N mx : neville_subsamples N mx = false -> (1 <= N)%nat -> inj_below N x -> exists p, length p = N /\
  (forall k, (k < N)%nat -> peval p (x k) = f k) /\ forall h, interpolation_Neville_1d x f N mx h = Ok (Some (peval p h)).
Proof.
  intros E HN Hd. destruct (neville_full x f N HN Hd) as (p & Hl & V & Q). exists p. split; auto. split; auto.
  intros h. unfold interpolation_Neville_1d. rewrite E. destruct N as [|m]; [lia|]. specialize (Q h). replace (S m - 1)%nat with m in Q by lia. rewrite Q. reflexivity.
Qed.
Lemma poly_same N p q (x : nat -> R) : inj_below N x -> (length p <= N)%nat -> (length q <= N)%nat ->
  (forall k, (k < N)%nat -> peval p (x k) = peval q (x k)) -> forall y, peval p y = peval q y.
Proof. intros Hd Hp Hq H. apply (ispoly_unique N _ _ x); auto; apply ispoly_peval; auto. Qed.
(** ** subsampling *)
Definition sub_index (N mx i : nat) : nat := if Nat.eqb i (mx - 1) then (mx - 1)%nat else if Nat.eqb i 0 then 0%nat else (i * (N / mx))%nat.
Lemma sub_at y N mx i : sub_array y N mx i = y (sub_index N mx i).
Proof. unfold sub_array, sub_index. destruct (Nat.eqb i (mx-1)); auto. destruct (Nat.eqb i 0); auto. Qed.
Lemma sub_facts N mx : neville_subsamples N mx = true -> (1 <= mx < N)%nat /\ (10 < N)%nat /\ (1 <= N / mx)%nat /\ (mx * (N / mx) <= N)%nat.
Proof.
  unfold neville_subsamples. intros H. apply andb_prop in H. destruct H as [H H3]. apply andb_prop in H. destruct H as [H1 H2].
  apply Nat.ltb_lt in H2, H3. apply negb_true_iff, Nat.eqb_neq in H1.
  repeat split; try lia. apply Nat.div_le_lower_bound; lia. apply Nat.mul_div_le. lia.
Qed.
Lemma sub_lt N mx i : neville_subsamples N mx = true -> (i < mx)%nat -> (sub_index N mx i < N)%nat.
Proof.
  intros H Hi. destruct (sub_facts N mx H) as (F1 & F2 & F3 & F4). unfold sub_index. destruct (Nat.eqb_spec i (mx-1)); [lia|].
  destruct (Nat.eqb_spec i 0); [lia|]. nia.
Qed.
Lemma sub_inj N mx i j : neville_subsamples N mx = true -> (N / mx = 1 \/ (mx - 1) mod (N / mx) <> 0)%nat -> (i < mx)%nat -> (j < mx)%nat ->
  sub_index N mx i = sub_index N mx j -> i = j.
Proof.
  intros H Hs Hi Hj. destruct (sub_facts N mx H) as (F1 & F2 & F3 & F4). set (s := (N / mx)%nat) in *.
  assert (X : forall a, (a < mx)%nat -> a <> (mx - 1)%nat -> a <> O -> (a * s)%nat <> (mx - 1)%nat).
  { intros a Ha Ha1 Ha0 E. destruct Hs as [Hs|Hs]; [rewrite Hs in E; lia|]. apply Hs. rewrite <- E. apply Nat.mod_mul. lia. }
  unfold sub_index. fold s. destruct (Nat.eqb_spec i (mx-1)), (Nat.eqb_spec j (mx-1)), (Nat.eqb_spec i 0), (Nat.eqb_spec j 0); try lia; intros E.
  - exfalso. apply (X j); auto.
  - exfalso. apply (X i); auto.
  - nia.
Qed.
Lemma neville_sub x f N mx : neville_subsamples N mx = true -> (N / mx = 1 \/ (mx - 1) mod (N / mx) <> 0)%nat -> inj_below N x ->
  exists p, length p = mx /\ (forall k, (k < mx)%nat -> (sub_index N mx k < N)%nat /\ peval p (x (sub_index N mx k)) = f (sub_index N mx k)) /\
    forall h, interpolation_Neville_1d x f N mx h = Ok (Some (peval p h)).
Proof.
  intros E Hs Hd. destruct (sub_facts N mx E) as (F1 & F2 & F3 & F4).
  destruct (neville_full (sub_array x N mx) (sub_array f N mx) mx ltac:(lia)) as (p & Hl & V & Q).
  { intros i j Hi Hj C. rewrite !sub_at in C. apply (sub_inj N mx); auto. apply Hd; auto using sub_lt. }
  exists p. split; auto. split.
  - intros k Hk. split; [apply sub_lt; auto|]. specialize (V k Hk). rewrite !sub_at in V. exact V.
  - intros h. unfold interpolation_Neville_1d. rewrite E. destruct mx as [|m]; [lia|]. specialize (Q h). replace (S m - 1)%nat with m in Q by lia. rewrite Q. reflexivity.
Qed.
Lemma neville_none_up x f h i : forall k j, (k <= j)%nat -> neville_q x f h k i = None -> neville_q x f h j i = None.
Proof. induction 1; auto. intros H0. cbn [neville_q]. rewrite IHle by auto. reflexivity. Qed.
Lemma neville_dup x f h i j : (j < i)%nat -> x i = x j -> neville_q x f h i i = None.
Proof.
  intros Hj E. apply (neville_none_up x f h i (i - j)); [lia|]. destruct (i - j)%nat as [|k] eqn:EK; [lia|]. cbn [neville_q].
  destruct (neville_q x f h k i); auto. destruct (neville_q x f h k (i-1)); auto. cbn [fbind].
  replace (i - S k)%nat with j by lia. unfold fdiv. destruct (Req_EM_T (x i - x j) 0); [reflexivity|]. exfalso; lra.
Qed.
Lemma neville_sub_bad x f N mx h : neville_subsamples N mx = true -> (2 <= mx)%nat -> (2 <= N / mx)%nat -> ((mx - 1) mod (N / mx) = 0)%nat ->
  interpolation_Neville_1d x f N mx h = Ok None.
Proof.
  intros E Hm Hs Hmod. unfold interpolation_Neville_1d. rewrite E. destruct mx as [|m]; [lia|].
  set (s := (N / S m)%nat) in *. replace (S m - 1)%nat with m in Hmod by lia.
  assert (Em : m = (s * (m / s))%nat) by (apply Nat.div_exact; lia). set (i := (m / s)%nat) in *.
  assert (i < m)%nat by nia. assert (0 < i)%nat by nia.
  rewrite (neville_dup _ _ _ m i); auto. rewrite !sub_at. unfold sub_index. fold s. replace (S m - 1)%nat with m by lia.
  rewrite Nat.eqb_refl. destruct (Nat.eqb_spec i m); [lia|]. destruct (Nat.eqb_spec i 0); [lia|]. f_equal. lia.
Qed.
