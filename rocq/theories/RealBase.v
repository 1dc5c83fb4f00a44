(** RealBase.v - real arithmetic of the numeric part of the model.
    SIMPLIFICATION (all numeric files): a C [double] is an exact real number; rounding and
    overflow are not modelled.  A division by zero (IEEE inf or nan) is kept visible: it
    is [None], "no finite number". *)
From Coq Require Export Reals Lra Psatz.
From Coq Require Export List Arith Lia Bool.
Export ListNotations.
Open Scope R_scope.

(** Src/Main/Core/core_lib.h:27  ROUND_OFF_ERR (1E-12) *)
Definition ROUND_OFF_ERR : R := / 1000000000000.
Definition ltR (x y : R) : bool := if Rlt_dec x y then true else false.
Definition leR (x y : R) : bool := if Rle_dec x y then true else false.
(** core_lib.h:28 *) Definition LSS (x y : R) : bool := ltR x (y - ROUND_OFF_ERR).
(** core_lib.h:29 *) Definition GRT (x y : R) : bool := ltR (y + ROUND_OFF_ERR) x.
(** core_lib.h:30 *) Definition EQL (x y : R) : bool := ltR x (y + ROUND_OFF_ERR) && ltR (y - ROUND_OFF_ERR) x.
(** core_lib.h:31 *) Definition LSSEQL (x y : R) : bool := LSS x y || EQL x y.
(** core_lib.h:32 *) Definition GRTEQL (x y : R) : bool := GRT x y || EQL x y.

(** maths_general_lib.h:6 Pow2 *)
Definition Pow2 (x : R) : R := x * x.
(** maths_general_lib.h:13 ABSd *)
Definition ABSd (x : R) : R := if Rgt_dec x 0 then x else - x.

(** IEEE division: a zero divisor gives no finite number. *)
Definition fdiv (x y : R) : option R := if Req_EM_T y 0 then None else Some (x / y).
Definition fbind {A B} (x : option A) (f : A -> option B) : option B :=
  match x with Some a => f a | None => None end.
Notation "'let?' x := e 'in' f" := (fbind e (fun x => f))
  (at level 200, x pattern, e at level 100, f at level 200, right associativity).

(** A C loop [sum = 0; for (i = 0; i < n; i++) sum += f(i);] *)
Fixpoint Rsum (n : nat) (f : nat -> R) : R :=
  match n with O => 0 | S m => Rsum m f + f m end.

Lemma ltR_spec x y : reflect (x < y) (ltR x y).
Proof. unfold ltR; destruct (Rlt_dec x y); constructor; assumption. Qed.
Lemma leR_spec x y : reflect (x <= y) (leR x y).
Proof. unfold leR; destruct (Rle_dec x y); constructor; assumption. Qed.
Lemma ROE_pos : 0 < ROUND_OFF_ERR.
Proof. unfold ROUND_OFF_ERR; lra. Qed.
Lemma EQL_iff x y : EQL x y = true <-> Rabs (x - y) < ROUND_OFF_ERR.
Proof.
  unfold EQL. rewrite andb_true_iff.
  destruct (ltR_spec x (y + ROUND_OFF_ERR)), (ltR_spec (y - ROUND_OFF_ERR) x);
  split; intros H; try (destruct H); try discriminate; try (split; reflexivity).
  - apply Rabs_def1; lra.
  - apply Rabs_def2 in H. lra.
  - apply Rabs_def2 in H. lra.
  - apply Rabs_def2 in H. lra.
Qed.
Lemma EQL_false x y : EQL x y = false <-> ROUND_OFF_ERR <= Rabs (x - y).
Proof.
  pose proof (EQL_iff x y). destruct (EQL x y).
  - split; [discriminate|]. intros. destruct H. specialize (H eq_refl). lra.
  - split; auto. intros _. destruct (Rlt_dec (Rabs (x - y)) ROUND_OFF_ERR); [|lra].
    apply H in r. discriminate.
Qed.
Lemma EQL_refl x : EQL x x = true.
Proof. apply EQL_iff. rewrite Rminus_diag_eq, Rabs_R0 by reflexivity. apply ROE_pos. Qed.
Lemma LSS_iff x y : LSS x y = true <-> x < y - ROUND_OFF_ERR.
Proof. unfold LSS. destruct (ltR_spec x (y - ROUND_OFF_ERR)); split; intros; auto; try discriminate; lra. Qed.
Lemma GRT_iff x y : GRT x y = true <-> y + ROUND_OFF_ERR < x.
Proof. unfold GRT. destruct (ltR_spec (y + ROUND_OFF_ERR) x); split; intros; auto; try discriminate; lra. Qed.
Lemma LSSEQL_iff x y : LSSEQL x y = true <-> x < y + ROUND_OFF_ERR /\ x <> y - ROUND_OFF_ERR.
Proof.
  unfold LSSEQL, LSS, EQL. pose proof ROE_pos.
  destruct (ltR_spec x (y - ROUND_OFF_ERR)), (ltR_spec x (y + ROUND_OFF_ERR)), (ltR_spec (y - ROUND_OFF_ERR) x);
   cbn; split; intros Hx; try discriminate; try (destruct Hx); try (split; lra); try reflexivity; lra.
Qed.
Lemma GRTEQL_iff x y : GRTEQL x y = true <-> y - ROUND_OFF_ERR < x /\ x <> y + ROUND_OFF_ERR.
Proof.
  unfold GRTEQL, GRT, EQL. pose proof ROE_pos.
  destruct (ltR_spec (y + ROUND_OFF_ERR) x), (ltR_spec x (y + ROUND_OFF_ERR)), (ltR_spec (y - ROUND_OFF_ERR) x);
   cbn; split; intros Hx; try discriminate; try (destruct Hx); try (split; lra); try reflexivity; lra.
Qed.
Lemma ABSd_Rabs x : ABSd x = Rabs x.
Proof. unfold ABSd. destruct (Rgt_dec x 0); unfold Rabs; destruct (Rcase_abs x); lra. Qed.
Lemma fdiv_some x y : y <> 0 -> fdiv x y = Some (x / y).
Proof. intros; unfold fdiv; destruct (Req_EM_T y 0); congruence. Qed.
Lemma fdiv_none x : fdiv x 0 = None.
Proof. unfold fdiv; destruct (Req_EM_T 0 0); congruence. Qed.

Lemma Rsum_ext n f g : (forall i, (i < n)%nat -> f i = g i) -> Rsum n f = Rsum n g.
Proof. induction n; intros; cbn; auto. rewrite IHn, H by (intros; auto with arith). reflexivity. Qed.
Lemma Rsum_plus n f g : Rsum n (fun i => f i + g i) = Rsum n f + Rsum n g.
Proof. induction n; cbn; lra. Qed.
Lemma Rsum_minus n f g : Rsum n (fun i => f i - g i) = Rsum n f - Rsum n g.
Proof. induction n; cbn; lra. Qed.
Lemma Rsum_scal n c f : Rsum n (fun i => c * f i) = c * Rsum n f.
Proof. induction n; cbn; lra. Qed.
Lemma Rsum_scal_r n c f : Rsum n (fun i => f i * c) = Rsum n f * c.
Proof. induction n; cbn; lra. Qed.
Lemma Rsum_zero n f : (forall i, (i < n)%nat -> f i = 0) -> Rsum n f = 0.
Proof. induction n; intros; cbn; auto. rewrite IHn, H by (intros; auto with arith). lra. Qed.
Lemma Rsum_const n c : Rsum n (fun _ => c) = INR n * c.
Proof. induction n. - cbn; lra. - rewrite S_INR. cbn [Rsum]. rewrite IHn. lra. Qed.
Lemma Rsum_S_l n f : Rsum (S n) f = f O + Rsum n (fun i => f (S i)).
Proof. induction n. - cbn; lra. - cbn [Rsum] in *. rewrite IHn. lra. Qed.
Lemma Rsum_app n m f : Rsum (n + m) f = Rsum n f + Rsum m (fun i => f (n + i)%nat).
Proof. induction m. - rewrite Nat.add_0_r; cbn; lra. - rewrite Nat.add_succ_r. cbn. rewrite IHm. lra. Qed.
Lemma Rsum_exchange n m (f : nat -> nat -> R) :
  Rsum n (fun i => Rsum m (fun j => f i j)) = Rsum m (fun j => Rsum n (fun i => f i j)).
Proof.
  induction n; cbn. - symmetry; apply Rsum_zero; auto.
  - rewrite IHn, <- Rsum_plus. reflexivity.
Qed.
Lemma Rsum_single n k f : (k < n)%nat -> (forall i, (i < n)%nat -> i <> k -> f i = 0) -> Rsum n f = f k.
Proof.
  induction n; intros Hk H; [lia|]. cbn. destruct (Nat.eq_dec k n).
  - subst. rewrite Rsum_zero; [lra|]. intros. apply H; lia.
  - rewrite IHn; [|lia|intros; apply H; lia]. rewrite (H n); [lra|lia|lia].
Qed.
Lemma Rsum_le n f g : (forall i, (i < n)%nat -> f i <= g i) -> Rsum n f <= Rsum n g.
Proof. induction n; intros; cbn; [lra|]. apply Rplus_le_compat; auto. Qed.
Lemma Rsum_nonneg n f : (forall i, (i < n)%nat -> 0 <= f i) -> 0 <= Rsum n f.
Proof. intros. rewrite <- (Rsum_zero n (fun _ => 0)) by auto. apply Rsum_le; auto. Qed.
Lemma Rsum_rev n : forall f, Rsum n f = Rsum n (fun i => f (n - 1 - i)%nat).
Proof.
  induction n; intros; auto. rewrite Rsum_S_l. cbn [Rsum].
  rewrite (IHn (fun i => f (S i))).
  replace (S n - 1 - n)%nat with O by lia. rewrite Rplus_comm. f_equal.
  apply Rsum_ext. intros. f_equal. lia.
Qed.
