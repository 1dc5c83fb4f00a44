(** Props_Norm.v - C169: the norms. *)
From Verif Require Import RealBase NormModel NormProofs.
From Verif Require Base.
Import Base(outcome, Ok, Abort, UB).
From Coq Require Import Reals Lra Lia.
Open Scope R_scope.
(** C169. The norms of v2 - v1 over n entries; [val a i]: entry i, 0 for the null pointer.  root_square, the L2 and the L1 norm are metrics on arrays (compared on their first n entries), and the values are the
    documented ones. *)
Theorem C169_values : forall n a b, let val (x : arr) i := match x with Some v => v i | None => 0 end in
  let total f := fold_right (fun i s => f i + s) 0 (seq 0 n) in
  root_square n a b = sqrt (total (fun i => (val a i - val b i) * (val a i - val b i))) /\
  ((0 < n)%nat -> L2_norm n a b = Some (sqrt (total (fun i => (val a i - val b i) * (val a i - val b i))) / sqrt (INR n)) /\
                  L1_norm n a b = Some (total (fun i => Rabs (val a i - val b i)) / INR n)).
Proof.
  intros n a b val total. assert (T : forall f, sum_to n f = total f).
  { intros f. unfold total. induction n as [|k IH]; [reflexivity|]. rewrite seq_S, fold_right_app. cbn [sum_to fold_right Nat.add]. rewrite IH.
    generalize (seq 0 k). intros l. induction l as [|x l IL]; cbn [fold_right]; [lra|]. rewrite <- IL. lra. }
  assert (Q : root_square n a b = sqrt (total (fun i => (val a i - val b i) * (val a i - val b i)))) by (rewrite <- T; apply rs_val).
  split; [exact Q|]. intros N. rewrite <- Q, <- T. split; [destruct n; [lia|reflexivity]|apply l1_val, N].
Qed.
Print Assumptions C169_values.
Theorem C169_metric : forall n a b c, let val (x : arr) i := match x with Some v => v i | None => 0 end in let agree := forall i, (i < n)%nat -> val a i = val b i in
  (0 <= root_square n a b /\ (root_square n a b = 0 <-> agree) /\ root_square n a b = root_square n b a /\ root_square n a c <= root_square n a b + root_square n b c) /\
  ((0 < n)%nat -> forall x y z, L2_norm n a b = Some x -> L2_norm n b c = Some y -> L2_norm n a c = Some z ->
     0 <= x /\ (x = 0 <-> agree) /\ L2_norm n b a = Some x /\ z <= x + y) /\
  ((0 < n)%nat -> forall x y z, L1_norm n a b = Some x -> L1_norm n b c = Some y -> L1_norm n a c = Some z ->
     0 <= x /\ (x = 0 <-> agree) /\ L1_norm n b a = Some x /\ z <= x + y).
Proof.
  intros n a b c val agree. split; [|split].
  - split; [apply rs_pos|]. split; [apply rs_zero|]. split; [apply rs_sym|apply rs_tri].
  - intros N x y z A B C. assert (S2 : 0 < / sqrt (INR n)) by (apply Rinv_0_lt_compat, sqrt_lt_R0, inr_pos, N).
    assert (E : L2_norm n b a = L2_norm n a b) by (destruct n; [lia|]; unfold L2_norm; rewrite rs_sym; reflexivity).
    rewrite E. apply l2_val in B; [|exact N]. apply l2_val in C; [|exact N]. pose proof A as A0. apply l2_val in A; [|exact N]. subst x y z. unfold Rdiv.
    split; [apply Rmult_le_pos; [apply rs_pos|lra]|]. split; [|split; [exact A0|]].
    + transitivity (root_square n a b = 0); [|apply rs_zero]. split; intros H; [|rewrite H; ring]. apply Rmult_integral in H. destruct H; [assumption|lra].
    + rewrite <- Rmult_plus_distr_r. apply Rmult_le_compat_r; [lra|apply rs_tri].
  - intros N x y z A B C. split; [apply (l1_pos n a b x A)|]. split.
    + transitivity (L1_norm n a b = Some 0); [|apply l1_zero, N]. rewrite A. split; congruence.
    + split; [rewrite l1_sym; exact A|]. apply (l1_tri n a b c z x y N C A B).
Qed.
Print Assumptions C169_metric.
(** the maximum of the magnitudes is found, and |mean| <= root mean square <= maximum; the scalar product is bounded by the lengths *)
Theorem C169_order : forall n v, (forall m, L_inf n v = Ok m <-> exists w, v = Some w /\ (exists i, (i < n)%nat /\ Rabs (w i) = m) /\ (forall i, (i < n)%nat -> Rabs (w i) <= m)) /\
  ((0 < n)%nat -> forall b x y, L1_norm n v b = Some x -> L2_norm n v b = Some y -> x <= y) /\
  (forall w m y, v = Some w -> L_inf n v = Ok m -> L2_norm n v None = Some y -> y <= m) /\
  (forall a b, Rabs (dot n a b) <= root_square n (Some a) None * root_square n (Some b) None) /\ (forall a b, MaxMag_d a b = Rmax (Rabs a) (Rabs b)).
Proof.
  intros n v. split; [intros m; apply linf_ok|]. split; [intros N b x y; apply l1_l2, N|]. split; [intros w m y -> A B; apply (linf_l2 n w m y A B)|]. split; [intros a b; apply dot_le|apply maxmag].
Qed.
Print Assumptions C169_order.
(** no entries: the maximum stops the program; the L2 norm is 0/0 even of two null pointers, while the L1 norm of these is 0 *)
Theorem C169_empty : forall v a b, L_inf 0 v = Abort /\ (forall n, L_inf n None = Abort) /\ L2_norm 0 a b = None /\ (L1_norm 0 a b = None <-> a <> None \/ b <> None) /\ root_square 0 a b = 0.
Proof.
  intros v a b. split; [destruct v; reflexivity|]. split; [destruct n; reflexivity|]. split; [reflexivity|]. split; [|destruct a, b; cbn; rewrite ?sqrt_0; reflexivity].
  destruct a, b; cbn; (split; [intros E; try discriminate|intros [H|H]; try congruence; try reflexivity]); try (left; discriminate); try (right; discriminate).
Qed.
Print Assumptions C169_empty.
Example C169_ex : let v := fun i : nat => match i with O => 3 | _ => -4 end in root_square 2 (Some v) None = 5 /\ L1_norm 2 (Some v) None = Some ((0 + Rabs 3 + Rabs (-4)) / INR 2) /\ (exists m, L_inf 2 (Some v) = Ok m /\ m = 4).
Proof.
  cbv zeta. split; [|split; [reflexivity|]].
  - cbn [root_square sum_to]. unfold Pow2. replace (0 + 3 * 3 + -4 * -4) with (5 * 5) by ring. apply sqrt_square. lra.
  - exists 4. split; [|reflexivity]. apply linf_ok. eexists. split; [reflexivity|]. split.
    + exists 1%nat. split; [lia|]. cbn. rewrite Rabs_left; lra.
    + intros [|[|i]] H; cbn; [rewrite Rabs_right; lra|rewrite Rabs_left; lra|lia].
Qed.
