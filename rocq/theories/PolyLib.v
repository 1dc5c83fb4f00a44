(** PolyLib.v - polynomials of bounded degree as functions: division by a root, uniqueness, jets of derivatives. *)
From Verif Require Import RealBase TrigSums SpectralSpec ChebProofs SpectralProofs SpectralDeriv.
Open Scope R_scope.

Lemma ispoly_cst m c : (1 <= m)%nat -> ispoly m (fun _ => c).
Proof. intros. apply (ispoly_mono 1); auto. apply ispoly_const. Qed.
Lemma ispoly_lin m a f : ispoly m f -> ispoly (S m) (fun y => (y - a) * f y).
Proof.
  intros H. apply (ispoly_ext _ (fun y => y * f y + (- a) * f y)); [intros; ring|].
  apply ispoly_plus; [apply ispoly_x; auto|]. apply ispoly_S. apply ispoly_scal; auto.
Qed.
Lemma ispoly_minus m f g : ispoly m f -> ispoly m g -> ispoly m (fun y => f y - g y).
Proof. intros. apply (ispoly_ext _ (fun y => f y + (-1) * g y)); [intros; ring|]. apply ispoly_plus; auto. apply ispoly_scal; auto. Qed.
Lemma ispoly_peval p m : (length p <= m)%nat -> ispoly m (peval p).
Proof. intros H. apply (ispoly_mono (length p)); auto. exists p; auto. Qed.
Lemma ispoly_0 f : ispoly 0 f -> forall y, f y = 0.
Proof. intros (p & Hl & Hp) y. rewrite Hp. destruct p; [reflexivity|discriminate]. Qed.
(** division by y - a *)
Lemma ispoly_quot m f a : ispoly (S m) f -> exists g, ispoly m g /\ forall y, f y = f a + (y - a) * g y.
Proof.
  intros (p & Hl & Hp). revert m f Hl Hp. induction p as [|c q IH]; intros m f Hl Hp; [discriminate|].
  cbn in Hl. destruct m as [|m].
  - exists (fun _ => 0). split; [apply ispoly_zero|]. intros y. rewrite !Hp. destruct q; [|discriminate]. cbn. ring.
  - destruct (IH m (peval q)) as (g & Hg & E); [lia|auto|]. exists (fun y => peval q a + y * g y). split.
    + apply ispoly_plus; [apply ispoly_cst; lia|apply ispoly_x; auto].
    + intros y. rewrite !Hp. cbn. rewrite (E y). ring.
Qed.
(** a polynomial of degree < m with m distinct roots vanishes *)
Lemma ispoly_roots m : forall f (x : nat -> R), ispoly m f -> (forall i j, (i < m)%nat -> (j < m)%nat -> x i = x j -> i = j) ->
  (forall i, (i < m)%nat -> f (x i) = 0) -> forall y, f y = 0.
Proof.
  induction m; intros f x Hf Hd Hz y; [apply ispoly_0; auto|].
  destruct (ispoly_quot m f (x m) Hf) as (g & Hg & E). rewrite E, (Hz m) by lia.
  assert (G : forall y, g y = 0).
  { apply (IHm g x); auto. intros i Hi. pose proof (E (x i)) as Ei. rewrite (Hz i), (Hz m) in Ei by lia.
    assert (x i <> x m) by (intros C; apply Hd in C; lia).
    assert (D : (x i - x m) * g (x i) = 0) by lra. apply Rmult_integral in D. destruct D; [exfalso; lra|auto]. }
  rewrite G. ring.
Qed.
Lemma ispoly_unique m f g (x : nat -> R) : ispoly m f -> ispoly m g -> (forall i j, (i < m)%nat -> (j < m)%nat -> x i = x j -> i = j) ->
  (forall i, (i < m)%nat -> f (x i) = g (x i)) -> forall y, f y = g y.
Proof.
  intros Hf Hg Hd H y. assert (f y - g y = 0); [|lra]. apply (ispoly_roots m (fun y => f y - g y) x); auto; [apply ispoly_minus; auto|].
  intros; rewrite H; auto; ring.
Qed.
(** polynomials that agree outside finitely many points agree *)
Lemma ispoly_agree2 m f g a b : ispoly m f -> ispoly m g -> (forall y, y <> a -> y <> b -> f y = g y) -> forall y, f y = g y.
Proof.
  intros Hf Hg H. apply (ispoly_unique m f g (fun i => Rmax a b + 1 + INR i)); auto.
  - intros i j _ _ E. apply INR_eq. lra.
  - intros i _. pose proof (Rmax_l a b). pose proof (Rmax_r a b). pose proof (pos_INR i). apply H; lra.
Qed.
(** derivatives *)
Lemma ispoly_deriv m f : ispoly (S m) f -> exists f', ispoly m f' /\ forall y, derivable_pt_lim f y (f' y).
Proof.
  intros (p & Hl & Hp). revert m f Hl Hp. induction p as [|c q IH]; intros m f Hl Hp; [discriminate|]. cbn in Hl.
  destruct m as [|m].
  - exists (fun _ => 0). split; [apply ispoly_zero|]. intros y. apply (dlim_ext (fun _ => c)).
    { intros. rewrite Hp. destruct q; [|discriminate]. cbn. ring. } apply derivable_pt_lim_const.
  - destruct (IH m (peval q)) as (g & Hg & E); [lia|auto|]. exists (fun y => peval q y + y * g y). split.
    + apply ispoly_plus; [apply ispoly_peval; lia|apply ispoly_x; auto].
    + intros y. apply (dlim_ext (fun y => c + y * peval q y)). { intros; rewrite Hp; reflexivity. }
      pose proof (derivable_pt_lim_plus (fun _ => c) (fun y => y * peval q y) y 0 (1 * peval q y + y * g y) (derivable_pt_lim_const c y)
        (derivable_pt_lim_mult (fun y => y) (peval q) y 1 (g y) (derivable_pt_lim_id y) (E y))) as D.
      replace (peval q y + y * g y) with (0 + (1 * peval q y + y * g y)) by ring. exact D.
Qed.
(** the quotient at the point is the derivative *)
Lemma quot_deriv f g a m : (forall y, f y = f a + (y - a) * g y) -> ispoly m g -> derivable_pt_lim f a (g a).
Proof.
  intros E Hg. assert (HS : ispoly (S m) g) by (apply ispoly_S; auto). destruct (ispoly_deriv m g HS) as (g' & _ & Dg).
  apply (dlim_ext (fun y => f a + (y - a) * g y)). { intros; symmetry; apply E. }
  pose proof (derivable_pt_lim_plus (fun _ => f a) (fun y => (y - a) * g y) a 0 _ (derivable_pt_lim_const (f a) a)
   (derivable_pt_lim_mult (fun y => y - a) g a (1 - 0) (g' a)
     (derivable_pt_lim_minus (fun y => y) (fun _ => a) a 1 0 (derivable_pt_lim_id a) (derivable_pt_lim_const a a)) (Dg a))) as D.
  replace (g a) with (0 + ((1 - 0) * g a + (a - a) * g' a)) by ring. exact D.
Qed.
(** jets: all derivatives *)
Definition jet (D : nat -> R -> R) : Prop := forall k y, derivable_pt_lim (D k) y (D (S k) y).
Lemma jet_unique D E : jet D -> jet E -> (forall y, D O y = E O y) -> forall k y, D k y = E k y.
Proof.
  intros HD HE H0. induction k; auto. intros y. apply (uniqueness_limite (D k) y); [apply HD|]. apply (dlim_ext (E k)); [intros; symmetry; apply IHk|apply HE].
Qed.
Lemma jet_scal c D : jet D -> jet (fun k y => c * D k y).
Proof. intros H k y. apply (derivable_pt_lim_scal (D k)). apply H. Qed.
Lemma jet_plus D E : jet D -> jet E -> jet (fun k y => D k y + E k y).
Proof. intros H1 H2 k y. apply (derivable_pt_lim_plus (D k) (E k)); auto. Qed.
Lemma jet_sum n (D : nat -> nat -> R -> R) : (forall v, (v < n)%nat -> jet (D v)) -> jet (fun k y => Rsum n (fun v => D v k y)).
Proof. intros H k y. apply (dlim_sum n (fun v => D v k)). intros v Hv. apply H; auto. Qed.
Lemma jet_lin a D : jet D -> jet (fun k y => (y - a) * D k y + INR k * D (k-1)%nat y).
Proof.
  intros H k y.
  assert (D1 : derivable_pt_lim (fun y => (y - a) * D k y) y ((1 - 0) * D k y + (y - a) * D (S k) y)).
  { apply (derivable_pt_lim_mult (fun y => y - a) (D k)); [|apply H].
    apply (derivable_pt_lim_minus (fun y => y) (fun _ => a)); [apply derivable_pt_lim_id|apply derivable_pt_lim_const]. }
  assert (D2 : derivable_pt_lim (fun y => INR k * D (k-1)%nat y) y (INR k * D k y)).
  { destruct k as [|k]. { apply (dlim_ext (fun _ => 0)); [intros; cbn; ring|]. cbn. rewrite Rmult_0_l. apply derivable_pt_lim_const. }
    replace (S k - 1)%nat with k by lia. apply (derivable_pt_lim_scal (D k)). apply H. }
  replace ((y - a) * D (S k) y + INR (S k) * D (S k - 1)%nat y) with ((1 - 0) * D k y + (y - a) * D (S k) y + INR k * D k y).
  2:{ rewrite S_INR. replace (S k - 1)%nat with k by lia. ring. }
  apply (derivable_pt_lim_plus _ _ y _ _ D1 D2).
Qed.
Lemma jet_const c : jet (fun k _ => match k with O => c | _ => 0 end).
Proof. intros k y. destruct k; apply derivable_pt_lim_const. Qed.
Lemma ispoly_jet m f : ispoly m f -> exists D, jet D /\ forall y, D O y = f y.
Proof.
  intros (p & Hl & Hp). revert m f Hl Hp. induction p as [|c q IH]; intros m f Hl Hp.
  - exists (fun k _ => match k with O => 0 | _ => 0 end). split; [apply jet_const|]. intros; rewrite Hp; reflexivity.
  - destruct (IH (length q) (peval q)) as (D & HD & E); auto.
    exists (fun k y => (match k with O => c | _ => 0 end) + ((y - 0) * D k y + INR k * D (k-1)%nat y)). split.
    + apply jet_plus; [apply jet_const|apply jet_lin; auto].
    + intros y. rewrite Hp. cbn. rewrite E. ring.
Qed.
