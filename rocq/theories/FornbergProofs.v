(** FornbergProofs.v - the finite-difference weights are exact on polynomials. *)
From Verif Require Import RealBase SpectralSpec SpectralDeriv SpectralProofs PolyLib Interp1Model Interp1Spec.
From Verif Require Base.
Import Base(outcome, Ok, Abort, UB, obind).
Open Scope R_scope.

Section Weights.
  Variable a : nat -> R.
  Variable K : nat.
  Hypothesis inj : forall i j, (i <= K)%nat -> (j <= K)%nat -> a i = a j -> i = j.
  (** the product of the differences *)
  Fixpoint P (n : nat) (y : R) : R := match n with O => 1 | S k => P k y * (y - a k) end.
  Lemma P_fold n y : fold_left (fun c v => c * (y - a v)) (seq 0 n) 1 = P n y.
  Proof. induction n; [reflexivity|]. rewrite seq_S, fold_left_app, IHn. reflexivity. Qed.
  Lemma P_nz n : (n <= K)%nat -> P n (a n) <> 0.
  Proof.
    intros Hn. assert (G : forall k, (k <= n)%nat -> P k (a n) <> 0).
    { induction k; intros Hk; [cbn; lra|]. cbn. apply Rmult_integral_contrapositive. split; [apply IHk; lia|].
      intros E. assert (n = k) by (apply inj; [lia|lia|lra]). lia. }
    apply G; lia.
  Qed.
  Fixpoint DW (n v m : nat) (y : R) : R :=
    match n with
    | O => match m with O => 1 | _ => 0 end
    | S p => if Nat.ltb v n then ((a n - y) * DW p v m y - (match m with O => 0 | S j => INR m * DW p v j y end)) / (a n - a v)
             else P p (a p) / P n (a n) * ((match m with O => 0 | S j => INR m * DW p p j y end) - (a p - y) * DW p p m y)
    end.
  Lemma dl_ok y n : (n <= K)%nat -> exists d, dl a y n = Some (d, P n (a n)) /\ forall m v, (v <= n)%nat -> d m v = DW n v m y.
  Proof.
    induction n; intros Hn.
    - eexists. split; [reflexivity|]. intros m v _. reflexivity.
    - destruct (IHn ltac:(lia)) as (d & E & H). cbn [dl]. rewrite E. cbn [fbind].
      assert (F : forallb (fun v => if Req_EM_T (a (S n) - a v) 0 then false else true) (seq 0 (S n)) = true).
      { apply forallb_forall. intros v Hv. apply in_seq in Hv. destruct (Req_EM_T (a (S n) - a v) 0) as [Z|]; auto.
        assert (S n = v) by (apply inj; [lia|lia|lra]). lia. }
      rewrite F. rewrite P_fold. eexists. split; [reflexivity|]. intros m v Hv. cbn [DW].
      destruct (Nat.ltb_spec v (S n)) as [L|L].
      + rewrite H by lia. destruct m; [reflexivity|]. rewrite H by lia. reflexivity.
      + rewrite H by lia. destruct m; [reflexivity|]. rewrite H by lia. reflexivity.
  Qed.
  Lemma jet_ext D E : (forall k y, D k y = E k y) -> jet D -> jet E.
  Proof. intros H J k y. rewrite <- H. apply (dlim_ext (D k)); [intros; apply H|apply J]. Qed.
  Lemma DW_jet n : forall v, jet (DW n v).
  Proof.
    induction n; intros v. { apply jet_const. }
    destruct (Nat.ltb v (S n)) eqn:L.
    - eapply jet_ext; [|apply (jet_scal (- / (a (S n) - a v)) _ (jet_lin (a (S n)) _ (IHn v)))].
      intros k y. cbn [DW]. rewrite L. unfold Rdiv. destruct k; [cbn [INR]; ring|]. replace (S k - 1)%nat with k by lia. ring.
    - eapply jet_ext; [|apply (jet_scal (P n (a n) / P (S n) (a (S n))) _ (jet_lin (a n) _ (IHn n)))].
      intros k y. cbn [DW]. rewrite L. destruct k; [cbn [INR]; ring|]. replace (S k - 1)%nat with k by lia. ring.
  Qed.
  Lemma DW_poly n : forall v, ispoly (S n) (DW n v 0).
  Proof.
    induction n; intros v. { apply ispoly_cst; lia. }
    destruct (Nat.ltb v (S n)) eqn:L.
    - eapply ispoly_ext; [|apply (ispoly_scal _ (- / (a (S n) - a v)) _ (ispoly_lin _ (a (S n)) _ (IHn v)))].
      intros y. cbn [DW]. rewrite L. unfold Rdiv. ring.
    - eapply ispoly_ext; [|apply (ispoly_scal _ (P n (a n) / P (S n) (a (S n))) _ (ispoly_lin _ (a n) _ (IHn n)))].
      intros y. cbn [DW]. rewrite L. ring.
  Qed.
  Lemma DW_diag n y : (n <= K)%nat -> DW n n 0 y * P n (a n) = P n y.
  Proof.
    revert y. induction n; intros y Hn. { cbn. ring. }
    cbn [DW]. rewrite Nat.ltb_irrefl. pose proof (P_nz (S n) Hn) as Z. pose proof (P_nz n ltac:(lia)) as Z1.
    transitivity ((y - a n) * (DW n n 0 y * P n (a n))). { field. exact Z. }
    rewrite IHn by lia. cbn [P]. ring.
  Qed.
  Lemma P_root n u : (u < n)%nat -> P n (a u) = 0.
  Proof. induction n; intros Hu; [lia|]. cbn. destruct (Nat.eq_dec u n) as [->|]; [ring|]. rewrite IHn by lia. ring. Qed.
  Lemma DW_delta n : (n <= K)%nat -> forall u v, (u <= n)%nat -> (v <= n)%nat -> DW n v 0 (a u) = if Nat.eqb u v then 1 else 0.
  Proof.
    induction n; intros Hn u v Hu Hv. { replace u with O by lia. replace v with O by lia. reflexivity. }
    destruct (Nat.eq_dec v (S n)) as [->|Nv].
    - pose proof (DW_diag (S n) (a u) Hn) as D. pose proof (P_nz (S n) Hn) as Z. destruct (Nat.eqb_spec u (S n)) as [->|].
      + apply (Rmult_eq_reg_r (P (S n) (a (S n)))); auto. lra.
      + apply (Rmult_eq_reg_r (P (S n) (a (S n)))); auto. rewrite D, P_root by lia. ring.
    - cbn [DW]. destruct (Nat.ltb_spec v (S n)); [|lia].
      assert (Z : a (S n) - a v <> 0) by (intros E; assert (S n = v) by (apply inj; [lia|lia|lra]); lia).
      destruct (Nat.eq_dec u (S n)) as [->|Nu].
      + destruct (Nat.eqb_spec (S n) v); [lia|]. unfold Rdiv. ring.
      + rewrite IHn by lia. destruct (Nat.eqb_spec u v) as [->|]; field; exact Z.
  Qed.
  Lemma weights_exact f D : ispoly (S K) f -> jet D -> (forall y, D O y = f y) -> forall m y, Rsum (S K) (fun v => f (a v) * DW K v m y) = D m y.
  Proof.
    intros Hf HD H0. apply (jet_unique (fun m y => Rsum (S K) (fun v => f (a v) * DW K v m y)) D); auto.
    - apply (jet_sum (S K) (fun v m y => f (a v) * DW K v m y)). intros v _. apply jet_scal, DW_jet.
    - intros y. rewrite H0. revert y.
      apply (ispoly_unique (S K) _ _ a); auto.
      + apply (ispoly_sum (S K) (S K) (fun v y => f (a v) * DW K v 0 y)). intros v _. apply ispoly_scal, DW_poly.
      + intros i j Hi Hj. apply inj; lia.
      + intros i Hi. rewrite (Rsum_ext _ _ (fun v => if Nat.eqb i v then f (a v) else 0)).
        2:{ intros v Hv. rewrite (DW_delta K) by lia. destruct (Nat.eqb i v); ring. }
        rewrite (Rsum_single (S K) i); [rewrite Nat.eqb_refl; reflexivity|lia|]. intros v _ Nv. destruct (Nat.eqb_spec i v); [congruence|reflexivity].
  Qed.
End Weights.

(** the stencil *)
Lemma fd_segment_range x x0 left i : (i <= fd_segment x x0 i left <= i + left)%nat.
Proof. revert i. induction left; intros i; cbn; [lia|]. destruct (_ && _); [lia|]. pose proof (IHleft (S i)). lia. Qed.
Lemma fd_segment_in x x0 left i : x i <= x0 <= x (i + left)%nat -> (1 <= left)%nat ->
  let k := fd_segment x x0 i left in (i <= k < i + left)%nat /\ x k <= x0 <= x (S k).
Proof.
  revert i. induction left; intros i H Hl; [lia|]. cbn [fd_segment].
  destruct (leR_spec (x i) x0) as [A|A]; [|lra]. destruct (leR_spec x0 (x (S i))) as [B|B]; cbn [andb].
  - cbv zeta. split; [lia|lra].
  - destruct left as [|left]. { replace (i + 1)%nat with (S i) in H by lia. lra. }
    destruct (IHleft (S i) ltac:(replace (S i + S left)%nat with (i + S (S left))%nat by lia; lra) ltac:(lia)) as [C E]. cbv zeta. split; [lia|exact E].
Qed.
Lemma fd_offset_range k N Nx : (N + 1 < Nx)%nat -> (fd_offset k N Nx + N < Nx)%nat.
Proof. intros H. unfold fd_offset. pose proof (Nat.le_min_r (k - N/2) (Nx - 1 - N)). lia. Qed.
Lemma fd_offset_in k N Nx : (N + 1 < Nx)%nat -> (k + 1 < Nx)%nat -> (1 <= N)%nat -> (fd_offset k N Nx <= k /\ k + 1 <= fd_offset k N Nx + N)%nat.
Proof.
  intros H1 H2 H3. unfold fd_offset. assert (N / 2 < N)%nat by (apply Nat.div_lt; lia).
  destruct (Nat.min_spec (k - N/2) (Nx - 1 - N)) as [[A ->]|[A ->]]; lia.
Qed.
