(** FillerProofs2.v - black hole fillers, smoothers and radial derivatives *)
From Coq Require Import Reals Lra Lia ZArith Psatz.
From Coquelicot Require Import Coquelicot.
From Verif Require Import RealBase SpectralModel ChebProofs FillerModel FillerSpec FillerProofs.
From Verif Require Base.
Open Scope R_scope.

(** ** exponential fillers *)
Lemma C0_continuous (r0 : R) (u : R -> R) : 0 < r0 -> continuity_pt u r0 ->
  continuity_pt (glued r0 (bh_expmr_C0 r0 (u r0)) u) r0.
Proof.
  intros H0 Hu. apply glue_cont; auto.
  - unfold bh_expmr_C0. replace (BH_Att * Rabs (r0-r0) / r0) with 0. rewrite exp_0; ring.
    replace (r0-r0) with 0 by ring. rewrite Rabs_R0. field. lra.
  - unfold bh_expmr_C0. 
    apply continuity_pt_mult; [apply continuity_pt_const; intros ? ?; reflexivity|].
    apply (continuity_pt_comp (fun r => BH_Att * Rabs (r-r0) / r0) exp).
    + unfold Rdiv. apply continuity_pt_mult; [|apply continuity_pt_const; intros ? ?; reflexivity].
      apply continuity_pt_mult; [apply continuity_pt_const; intros ? ?; reflexivity|].
      apply (continuity_pt_comp (fun r => r - r0) Rabs); [|apply Rcontinuity_abs].
      apply continuity_pt_minus; [apply continuity_pt_id|apply continuity_pt_const; intros ? ?; reflexivity].
    + apply derivable_continuous_pt, derivable_pt_exp.
Qed.
Lemma C0_value (r0 fr0 r : R) : 0 < r0 -> r <= r0 -> bh_expmr_C0 r0 fr0 r = fr0 * exp ((r0 - r)/r0).
Proof.
  intros H0 Hr. unfold bh_expmr_C0, BH_Att. rewrite Rabs_left1 by lra. f_equal. f_equal. field. lra.
Qed.
Lemma C1_value (r0 fr0 d r : R) : 0 < r0 -> r <= r0 ->
  bh_r_expmr_C1 r0 fr0 d r = (2*fr0 - d*r0 + (d - fr0/r0)*r) * exp ((r0 - r)/r0).
Proof.
  intros H0 Hr. unfold bh_r_expmr_C1, BH_Att. rewrite Rabs_left1 by lra. f_equal; [field; lra|f_equal; field; lra].
Qed.
Lemma one_sided_left (G u : R -> R) x d e : (forall y, y <= x -> G y = u y) ->
  derivable_pt_lim G x d -> derivable_pt_lim u x e -> d = e.
Proof.
  intros E HG Hu. destruct (Req_dec d e) as [|N]; [assumption|exfalso].
  assert (0 < Rabs (d - e)/2) as P by (assert (0 < Rabs (d-e)) by (apply Rabs_pos_lt; lra); lra).
  destruct (HG _ P) as [d1 H1], (Hu _ P) as [d2 H2].
  set (h := - (Rmin d1 d2)/2). pose proof (cond_pos d1). pose proof (cond_pos d2).
  assert (0 < Rmin d1 d2) by (apply Rmin_glb_lt; assumption).
  assert (h < 0) by (unfold h; lra).
  assert (Rabs h < Rmin d1 d2) by (rewrite Rabs_left by lra; unfold h; lra).
  assert (Rmin d1 d2 <= d1) by apply Rmin_l. assert (Rmin d1 d2 <= d2) by apply Rmin_r.
  assert (A1 := H1 h ltac:(lra) ltac:(lra)). assert (A2 := H2 h ltac:(lra) ltac:(lra)).
  rewrite !E in A1 by lra. set (q := (u (x+h) - u x)/h) in *.
  replace (d - e) with ((q - e) - (q - d)) in * by ring.
  pose proof (Rabs_triang (q-e) (-(q-d))) as TR. rewrite Rabs_Ropp in TR.
  replace ((q - e) + - (q - d)) with ((q-e) - (q-d)) in TR by ring. lra.
Qed.
Lemma one_sided_right (G u : R -> R) x d e : (forall y, x <= y -> G y = u y) ->
  derivable_pt_lim G x d -> derivable_pt_lim u x e -> d = e.
Proof.
  intros E HG Hu. destruct (Req_dec d e) as [|N]; [assumption|exfalso].
  assert (0 < Rabs (d - e)/2) as P by (assert (0 < Rabs (d-e)) by (apply Rabs_pos_lt; lra); lra).
  destruct (HG _ P) as [d1 H1], (Hu _ P) as [d2 H2].
  set (h := (Rmin d1 d2)/2). pose proof (cond_pos d1). pose proof (cond_pos d2).
  assert (0 < Rmin d1 d2) by (apply Rmin_glb_lt; assumption).
  assert (0 < h) by (unfold h; lra).
  assert (Rabs h < Rmin d1 d2) by (rewrite Rabs_right by lra; unfold h; lra).
  assert (Rmin d1 d2 <= d1) by apply Rmin_l. assert (Rmin d1 d2 <= d2) by apply Rmin_r.
  assert (A1 := H1 h ltac:(lra) ltac:(lra)). assert (A2 := H2 h ltac:(lra) ltac:(lra)).
  rewrite !E in A1 by lra. set (q := (u (x+h) - u x)/h) in *.
  replace (d - e) with ((q - e) - (q - d)) in * by ring.
  pose proof (Rabs_triang (q-e) (-(q-d))) as TR. rewrite Rabs_Ropp in TR.
  replace ((q - e) + - (q - d)) with ((q-e) - (q-d)) in TR by ring. lra.
Qed.
Lemma C1_inner_slope (r0 fr0 d : R) : 0 < r0 ->
  derivable_pt_lim (fun r => (2*fr0 - d*r0 + (d - fr0/r0)*r) * exp ((r0 - r)/r0)) r0 (d - 2*fr0/r0).
Proof.
  intros H0. apply is_derive_Reals. auto_derive; [trivial|].
  replace ((r0 + - r0) * / r0) with 0 by (field; lra). rewrite exp_0. field. lra.
Qed.
Lemma C1_kink (r0 : R) (u u' : R -> R) : 0 < r0 -> derivable_pt_lim u r0 (u' r0) -> u r0 <> 0 ->
  forall d, ~ derivable_pt_lim (glued r0 (bh_r_expmr_C1 r0 (u r0) (u' r0)) u) r0 d.
Proof.
  intros H0 Hu Hn d HG.
  assert (d = u' r0) as E1.
  { eapply one_sided_right; [|exact HG|exact Hu]. intros y Hy. destruct (Req_dec y r0).
    - subst y. rewrite glued_left by lra. rewrite C1_value by lra. replace ((r0-r0)/r0) with 0 by (field; lra). rewrite exp_0. field. lra.
    - rewrite glued_right by lra. reflexivity. }
  assert (d = u' r0 - 2*u r0/r0) as E2.
  { eapply one_sided_left; [|exact HG|apply C1_inner_slope; exact H0]. intros y Hy.
    rewrite glued_left by lra. apply C1_value; lra. }
  assert (2*u r0/r0 = 0) by lra. assert (u r0 = (2*u r0/r0) * (r0/2)) by (field; lra). rewrite H in H1. lra.
Qed.
(** the documented formula, without the absolute value, does join smoothly *)
Lemma C1_documented (r0 : R) (u u' : R -> R) : 0 < r0 -> derivable_pt_lim u r0 (u' r0) ->
  derivable_pt_lim (glued r0 (fun r => (2*u r0 - u' r0*r0 + (u' r0 - u r0/r0)*r) * exp ((r - r0)/r0)) u) r0 (u' r0).
Proof.
  intros H0 Hu. apply glue_lim; [|apply is_derive_Reals; auto_derive; [trivial|]|exact Hu].
  - replace ((r0-r0)/r0) with 0 by (field; lra). rewrite exp_0. field. lra.
  - replace ((r0 + - r0) * / r0) with 0 by (field; lra). rewrite exp_0. field. lra.
Qed.

(** ** Chebyshev filler *)
Definition cpoly (f0 f1 d dd R_ r : R) : R :=
  Rsum 6 (fun i => cheb_a f0 f1 d dd R_ i * T i (2*r/R_ - 1)).
Lemma cheb_fill_poly f0 f1 d dd R_ r : good (2*r/R_ - 1) -> cheb_fill f0 f1 d dd R_ r = cpoly f0 f1 d dd R_ r.
Proof. intros H. unfold cheb_fill, cpoly, Rsum. rewrite !Cheb_Tn_T by exact H. reflexivity. Qed.
(** monomial form *)
Definition mono (f0 f1 d dd R_ r : R) : R :=
  let s := r/R_ in let D := d*R_ in let E := dd*R_^2 in let J := f1 - f0 in
  f0 + (3/2*E - 6*D + 10*J)*s^2 + (-4*E + 14*D - 20*J)*s^3 + (7/2*E - 11*D + 15*J)*s^4 + (-E + 3*D - 4*J)*s^5.
Lemma cpoly_mono f0 f1 d dd R_ r : 0 < R_ -> cpoly f0 f1 d dd R_ r = mono f0 f1 d dd R_ r.
Proof. intros H. unfold cpoly, mono, T. cbn [Rsum TT fst cheb_a]. field. lra. Qed.
Definition mono1 (f0 f1 d dd R_ r : R) : R :=
  let s := r/R_ in let D := d*R_ in let E := dd*R_^2 in let J := f1 - f0 in
  (2*(3/2*E - 6*D + 10*J)*s + 3*(-4*E + 14*D - 20*J)*s^2 + 4*(7/2*E - 11*D + 15*J)*s^3 + 5*(-E + 3*D - 4*J)*s^4)/R_.
Definition mono2 (f0 f1 d dd R_ r : R) : R :=
  let s := r/R_ in let D := d*R_ in let E := dd*R_^2 in let J := f1 - f0 in
  (2*(3/2*E - 6*D + 10*J) + 6*(-4*E + 14*D - 20*J)*s + 12*(7/2*E - 11*D + 15*J)*s^2 + 20*(-E + 3*D - 4*J)*s^3)/R_/R_.
Lemma mono_d f0 f1 d dd R_ r : 0 < R_ -> derivable_pt_lim (mono f0 f1 d dd R_) r (mono1 f0 f1 d dd R_ r).
Proof. intros H. apply is_derive_Reals. unfold mono, mono1. cbv zeta. auto_derive; [trivial|]. field. lra. Qed.
Lemma mono_d2 f0 f1 d dd R_ r : 0 < R_ -> derivable_pt_lim (mono1 f0 f1 d dd R_) r (mono2 f0 f1 d dd R_ r).
Proof. intros H. apply is_derive_Reals. unfold mono1, mono2. cbv zeta. auto_derive; [trivial|]. field. lra. Qed.
Lemma mono_d3 f0 f1 d dd R_ : 0 < R_ -> derivable_pt_lim (mono2 f0 f1 d dd R_) R_ 0.
Proof.
  intros H. apply is_derive_Reals. unfold mono2. cbv zeta. auto_derive; [trivial|].
  field. lra.
Qed.
Definition lip (P : R -> R) := exists p0 p1 p2 p3 p4 p5, forall r, P r = p0 + p1*r + p2*r^2 + p3*r^3 + p4*r^4 + p5*r^5.
Lemma mono_deg f0 f1 d dd R_ : 0 < R_ -> lip (mono f0 f1 d dd R_).
Proof.
  intros H. unfold mono. cbv zeta.
  exists f0, 0, ((3/2*(dd*R_^2) - 6*(d*R_) + 10*(f1-f0))/R_^2), ((-4*(dd*R_^2) + 14*(d*R_) - 20*(f1-f0))/R_^3),
    ((7/2*(dd*R_^2) - 11*(d*R_) + 15*(f1-f0))/R_^4), ((-(dd*R_^2) + 3*(d*R_) - 4*(f1-f0))/R_^5).
  intros r. field. lra.
Qed.
(** Everything about the filler in one statement. *)
Lemma cheb_fill_ok f0 f1 d dd R_ : 0 < R_ -> exists P P' P'',
  lip P /\ (forall r, good (2*r/R_ - 1) -> cheb_fill f0 f1 d dd R_ r = P r) /\
  (forall r, derivable_pt_lim P r (P' r)) /\ (forall r, derivable_pt_lim P' r (P'' r)) /\
  P 0 = f0 /\ P' 0 = 0 /\ P R_ = f1 /\ P' R_ = d /\ P'' R_ = dd /\ derivable_pt_lim P'' R_ 0.
Proof.
  intros H. exists (mono f0 f1 d dd R_), (mono1 f0 f1 d dd R_), (mono2 f0 f1 d dd R_). repeat split.
  - apply mono_deg; exact H.
  - intros r Hr. rewrite cheb_fill_poly by exact Hr. apply cpoly_mono; exact H.
  - intros; apply mono_d; exact H.
  - intros; apply mono_d2; exact H.
  - unfold mono. cbv zeta. field. lra.
  - unfold mono1. cbv zeta. field. lra.
  - unfold mono. cbv zeta. field. lra.
  - unfold mono1. cbv zeta. field. lra.
  - unfold mono2. cbv zeta. field. lra.
  - apply mono_d3; exact H.
Qed.
(** with the outer field: C2 across the surface *)
Lemma inner_join2 (r0 dd : R) (u u' g g' : R -> R) : 0 < r0 ->
  diff u u' -> derivable_pt_lim u' r0 dd -> (forall r, derivable_pt_lim g r (g' r)) ->
  g r0 = u r0 -> g' r0 = u' r0 -> derivable_pt_lim g' r0 dd ->
  C2_at (glued r0 g u) r0 (u' r0) dd.
Proof.
  intros H0 Hu Hu' Hg E E' Hg'. exists (glued r0 g' u'). repeat split.
  - intros r Hr. destruct (Rtotal_order r r0) as [L|[L|L]].
    + rewrite glued_left by lra. apply glue_lim_left; [lra|apply Hg].
    + subst r. rewrite glued_left by lra. apply glue_lim; [exact E|apply Hg|rewrite E'; apply Hu; lra].
    + rewrite glued_right by lra. apply glue_lim_right; [lra|apply Hu; lra].
  - rewrite glued_left by lra. exact E'.
  - apply glue_lim; [exact E'|exact Hg'|exact Hu'].
Qed.
Lemma cheb_join (r0 dd f0 : R) (u u' : R -> R) : 0 < r0 -> diff u u' -> derivable_pt_lim u' r0 dd ->
  exists P, (forall r, good (2*r/r0 - 1) -> cheb_fill f0 (u r0) (u' r0) dd r0 r = P r) /\
    P 0 = f0 /\ C2_at (glued r0 P u) r0 (u' r0) dd.
Proof.
  intros H0 Hu Hu'. destruct (cheb_fill_ok f0 (u r0) (u' r0) dd r0 H0) as (P & P' & P'' & _ & HP & D1 & D2' & E0 & _ & E1 & E2 & E3 & _).
  exists P. repeat split; auto. apply (inner_join2 r0 dd u u' P P'); auto. rewrite <- E3. apply D2'.
Qed.
Lemma good_nodes r0 r : 0 < r0 -> 0 <= r <= r0 -> (r = 0 \/ ROUND_OFF_ERR * r0 <= 2*r) -> (r = r0 \/ ROUND_OFF_ERR * r0 <= 2*(r0 - r)) ->
  good (2*r/r0 - 1).
Proof.
  intros H0 [A B] C D. unfold good.
  assert (2*r/r0 - 1 - 1 = - (2*(r0-r)/r0)) as E1 by (field; lra).
  assert (2*r/r0 - 1 - -1 = 2*r/r0) as E2 by (field; lra).
  assert (0 <= 2*r/r0) by (apply Rmult_le_pos; [lra|left; apply Rinv_0_lt_compat; lra]).
  assert (0 <= 2*(r0-r)/r0) by (apply Rmult_le_pos; [lra|left; apply Rinv_0_lt_compat; lra]).
  rewrite E1, E2. split; [lra|]. rewrite Rabs_Ropp, !Rabs_right by lra. split.
  - destruct D as [->|D]; [left; field; lra|right]. apply Rmult_le_reg_r with r0; [lra|]. unfold Rdiv. rewrite Rmult_assoc, Rinv_l by lra. lra.
  - destruct C as [->|C]; [left; field; lra|right]. apply Rmult_le_reg_r with r0; [lra|]. unfold Rdiv. rewrite Rmult_assoc, Rinv_l by lra. lra.
Qed.
Lemma clamped_ok f0 f1 d dd R_ r : 0 < R_ -> R_ <= r -> cheb_fill_clamped f0 f1 d dd R_ r = f1.
Proof.
  intros H Hr. unfold cheb_fill_clamped. 
  assert ((if Rgt_dec r R_ then R_ else r) = R_) as -> by (destruct (Rgt_dec r R_); lra).
  rewrite cheb_fill_poly. rewrite cpoly_mono by exact H. unfold mono. cbv zeta. field. lra.
  apply good_nodes; try lra. right. pose proof ROE_pos. unfold ROUND_OFF_ERR. nra.
Qed.
Lemma clamped_in f0 f1 d dd R_ r : r <= R_ -> cheb_fill_clamped f0 f1 d dd R_ r = cheb_fill f0 f1 d dd R_ r.
Proof. intros H. unfold cheb_fill_clamped. destruct (Rgt_dec r R_); [lra|reflexivity]. Qed.

(** ** smoothers *)
Definition sx (r rmax rmin : R) := (2*r-rmax-rmin)/(rmax-rmin).
Definition sm1 r rmax rmin := 2/(rmax-rmin) * (315/256 * (1 - (sx r rmax rmin)^2)^4).
Definition sm2 r rmax rmin := (2/(rmax-rmin))^2 * (315/256 * (-8*sx r rmax rmin) * (1 - (sx r rmax rmin)^2)^3).
Definition sm3 r rmax rmin := (2/(rmax-rmin))^3 * (315/256 * (-8) * (1 - (sx r rmax rmin)^2)^2 * (1 - 7*(sx r rmax rmin)^2)).
Definition sm4 r rmax rmin := (2/(rmax-rmin))^4 * (315/256 * (16 * sx r rmax rmin) * (1 - (sx r rmax rmin)^2) * (9 - 21*(sx r rmax rmin)^2)).
Lemma sm_d r rmax rmin : rmin < rmax -> derivable_pt_lim (fun r => poly_smoother r rmax rmin) r (sm1 r rmax rmin).
Proof. intros H. apply is_derive_Reals. unfold poly_smoother, sm1, sx. cbv zeta. auto_derive; [trivial|]. field. lra. Qed.
Lemma sm_d2 r rmax rmin : rmin < rmax -> derivable_pt_lim (fun r => sm1 r rmax rmin) r (sm2 r rmax rmin).
Proof. intros H. apply is_derive_Reals. unfold sm1, sm2, sx. cbv zeta. auto_derive; [trivial|]. field. lra. Qed.
Lemma sm_d3 r rmax rmin : rmin < rmax -> derivable_pt_lim (fun r => sm2 r rmax rmin) r (sm3 r rmax rmin).
Proof. intros H. apply is_derive_Reals. unfold sm2, sm3, sx. cbv zeta. auto_derive; [trivial|]. field. lra. Qed.
Lemma sm_d4 r rmax rmin : rmin < rmax -> derivable_pt_lim (fun r => sm3 r rmax rmin) r (sm4 r rmax rmin).
Proof. intros H. apply is_derive_Reals. unfold sm3, sm4, sx. cbv zeta. auto_derive; [trivial|]. field. lra. Qed.
Lemma sx_max a b : b < a -> sx a a b = 1. Proof. intros; unfold sx; field; lra. Qed.
Lemma sx_min a b : b < a -> sx b a b = -1. Proof. intros; unfold sx; field; lra. Qed.

(** monotone between rmin and rmax, hence in [0,1] *)
Lemma poly_mono rmax rmin r s : rmin < rmax -> r <= s -> poly_smoother r rmax rmin <= poly_smoother s rmax rmin.
Proof.
  intros H Hr. destruct (Req_dec r s) as [->|N]; [apply Rle_refl|].
  assert (r < s) as L by lra.
  destruct (MVT_cor2 (fun r => poly_smoother r rmax rmin) (fun r => sm1 r rmax rmin) r s L) as [c [E Hc]].
  - intros; apply sm_d; exact H.
  - assert (0 <= sm1 c rmax rmin).
    { unfold sm1. apply Rmult_le_pos; [left; apply Rdiv_lt_0_compat; lra|].
      apply Rmult_le_pos; [lra|]. replace 4%nat with (2*2)%nat by lia. rewrite pow_mult. apply pow2_ge_0. }
    assert (0 <= sm1 c rmax rmin * (s - r)) by (apply Rmult_le_pos; lra). lra.
Qed.
Lemma poly_max a b : b < a -> poly_smoother a a b = 1.
Proof. intros. unfold poly_smoother. fold (sx a a b). rewrite sx_max by assumption. field. Qed.
Lemma poly_min a b : b < a -> poly_smoother b a b = 0.
Proof. intros. unfold poly_smoother. fold (sx b a b). rewrite sx_min by assumption. field. Qed.
Lemma smoother_range rmax rmin r : rmin < rmax -> 0 <= smoother r rmax rmin <= 1.
Proof.
  intros H. unfold smoother. destruct (Rge_dec r rmax); [lra|]. destruct (Rle_dec r rmin); [lra|].
  pose proof (poly_mono rmax rmin rmin r H ltac:(lra)). pose proof (poly_mono rmax rmin r rmax H ltac:(lra)).
  rewrite poly_min, poly_max in * by assumption. lra.
Qed.
Lemma smoother_mono rmax rmin r s : rmin < rmax -> r <= s -> smoother r rmax rmin <= smoother s rmax rmin.
Proof.
  intros H Hr. pose proof (smoother_range rmax rmin r H) as A. pose proof (smoother_range rmax rmin s H) as B.
  unfold smoother in *. destruct (Rge_dec s rmax); [lra|]. destruct (Rge_dec r rmax); [lra|].
  destruct (Rle_dec r rmin); destruct (Rle_dec s rmin); try lra. apply poly_mono; assumption.
Qed.
(** complement symmetry *)
Lemma smoother_sym rmax rmin r : rmin < rmax -> smoother (rmax + rmin - r) rmax rmin = 1 - smoother r rmax rmin.
Proof.
  intros H. unfold smoother.
  destruct (Rge_dec (rmax+rmin-r) rmax), (Rge_dec r rmax), (Rle_dec r rmin), (Rle_dec (rmax+rmin-r) rmin); try lra.
  unfold poly_smoother. field. lra.
Qed.
(** four continuous derivatives at both ends: gluing with the constants *)
Lemma glue3 (a b : R) (f : R -> R) (f' : R -> R) c d : b < a ->
  (forall r, derivable_pt_lim f r (f' r)) -> f b = c -> f a = d -> f' b = 0 -> f' a = 0 ->
  forall r, derivable_pt_lim (fun r => if Rge_dec r a then d else if Rle_dec r b then c else f r) r
    (if Rge_dec r a then 0 else if Rle_dec r b then 0 else f' r).
Proof.
  intros H Hf Eb Ea Eb' Ea' r.
  apply (derivable_ext (glued a (glued b (fun _ => c) f) (fun _ => d))).
  { intros y. unfold glued. destruct (Rle_dec y a), (Rge_dec y a); try lra; destruct (Rle_dec y b); try lra. 
    assert (E : y = a) by lra; rewrite E; exact Ea. }
  assert (K : forall c r, derivable_pt_lim (fun _ : R => c) r 0) by (intros; apply derivable_pt_lim_const).
  destruct (Rge_dec r a).
  - destruct (Req_dec r a) as [->|].
    + apply glue_lim; [rewrite glued_right by lra; exact Ea| |apply K].
      apply glue_lim_right; [lra|]. rewrite <- Ea'. apply Hf.
    + apply glue_lim_right; [lra|apply K].
  - apply glue_lim_left; [lra|]. destruct (Rle_dec r b).
    + destruct (Req_dec r b) as [->|].
      * apply glue_lim; [symmetry; exact Eb|apply K|rewrite <- Eb'; apply Hf].
      * apply glue_lim_left; [lra|apply K].
    + apply glue_lim_right; [lra|apply Hf].
Qed.
Lemma smoother_C4 rmax rmin : rmin < rmax ->
  exists s1 s2 s3 s4, (forall r, derivable_pt_lim (fun r => smoother r rmax rmin) r (s1 r)) /\
    (forall r, derivable_pt_lim s1 r (s2 r)) /\ (forall r, derivable_pt_lim s2 r (s3 r)) /\ (forall r, derivable_pt_lim s3 r (s4 r)) /\
    (forall r, r <= rmin \/ rmax <= r -> s1 r = 0 /\ s2 r = 0 /\ s3 r = 0 /\ s4 r = 0).
Proof.
  intros H.
  exists (fun r => if Rge_dec r rmax then 0 else if Rle_dec r rmin then 0 else sm1 r rmax rmin),
    (fun r => if Rge_dec r rmax then 0 else if Rle_dec r rmin then 0 else sm2 r rmax rmin),
    (fun r => if Rge_dec r rmax then 0 else if Rle_dec r rmin then 0 else sm3 r rmax rmin),
    (fun r => if Rge_dec r rmax then 0 else if Rle_dec r rmin then 0 else sm4 r rmax rmin).
  pose proof (sx_max rmax rmin H) as X1. pose proof (sx_min rmax rmin H) as X0.
  repeat split.
  1: apply (glue3 rmax rmin (fun r => poly_smoother r rmax rmin) (fun r => sm1 r rmax rmin) 0 1 H); [intros; apply sm_d; exact H|apply poly_min; exact H|apply poly_max; exact H| |].
  3: apply (glue3 rmax rmin (fun r => sm1 r rmax rmin) (fun r => sm2 r rmax rmin) 0 0 H); [intros; apply sm_d2; exact H| | | |].
  7: apply (glue3 rmax rmin (fun r => sm2 r rmax rmin) (fun r => sm3 r rmax rmin) 0 0 H); [intros; apply sm_d3; exact H| | | |].
  11: apply (glue3 rmax rmin (fun r => sm3 r rmax rmin) (fun r => sm4 r rmax rmin) 0 0 H); [intros; apply sm_d4; exact H| | | |].
  1-14: unfold sm1, sm2, sm3, sm4; rewrite ?X1, ?X0; ring.
  all: destruct (Rge_dec r rmax); destruct (Rle_dec r rmin); try reflexivity; lra.
Qed.

(** polynomial5 and polynomial7 as polynomials of y = (r - rmin)/(rmax - rmin) *)
Lemma poly5_y r a b : b < a -> let y := (r - b)/(a - b) in polynomial5 r a b = 6*y^5 - 15*y^4 + 10*y^3.
Proof. intros H y. unfold y, polynomial5. field. lra. Qed.
Lemma poly7_y r a b : b < a -> let y := (r - b)/(a - b) in polynomial7 r a b = -20*y^7 + 70*y^6 - 84*y^5 + 35*y^4.
Proof. intros H y. unfold y, polynomial7. field. lra. Qed.
Lemma poly5_ok a b : b < a -> exists p1 p2,
  (forall r, derivable_pt_lim (fun r => polynomial5 r a b) r (p1 r)) /\ (forall r, derivable_pt_lim p1 r (p2 r)) /\
  polynomial5 b a b = 0 /\ p1 b = 0 /\ p2 b = 0 /\ polynomial5 a a b = 1 /\ p1 a = 0 /\ p2 a = 0.
Proof.
  intros H.
  exists (fun r => let y := (r-b)/(a-b) in (30*y^4 - 60*y^3 + 30*y^2)/(a-b)),
         (fun r => let y := (r-b)/(a-b) in (120*y^3 - 180*y^2 + 60*y)/(a-b)/(a-b)).
  cbv zeta. repeat split.
  - intros r. apply (derivable_ext (fun r => 6*((r-b)/(a-b))^5 - 15*((r-b)/(a-b))^4 + 10*((r-b)/(a-b))^3)).
    intros; symmetry; apply poly5_y; exact H. apply is_derive_Reals. auto_derive; [trivial|]. field. lra.
  - intros r. apply is_derive_Reals. auto_derive; [trivial|]. field. lra.
  - rewrite poly5_y by exact H. field. lra.
  - field. lra. - field. lra.
  - rewrite poly5_y by exact H. field. lra.
  - field. lra. - field. lra.
Qed.
Lemma poly7_ok a b : b < a -> exists p1 p2 p3,
  (forall r, derivable_pt_lim (fun r => polynomial7 r a b) r (p1 r)) /\ (forall r, derivable_pt_lim p1 r (p2 r)) /\
  (forall r, derivable_pt_lim p2 r (p3 r)) /\
  polynomial7 b a b = 0 /\ p1 b = 0 /\ p2 b = 0 /\ p3 b = 0 /\ polynomial7 a a b = 1 /\ p1 a = 0 /\ p2 a = 0 /\ p3 a = 0.
Proof.
  intros H.
  exists (fun r => let y := (r-b)/(a-b) in (-140*y^6 + 420*y^5 - 420*y^4 + 140*y^3)/(a-b)),
         (fun r => let y := (r-b)/(a-b) in (-840*y^5 + 2100*y^4 - 1680*y^3 + 420*y^2)/(a-b)/(a-b)),
         (fun r => let y := (r-b)/(a-b) in (-4200*y^4 + 8400*y^3 - 5040*y^2 + 840*y)/(a-b)/(a-b)/(a-b)).
  cbv zeta. repeat split.
  - intros r. apply (derivable_ext (fun r => -20*((r-b)/(a-b))^7 + 70*((r-b)/(a-b))^6 - 84*((r-b)/(a-b))^5 + 35*((r-b)/(a-b))^4)).
    intros; symmetry; apply poly7_y; exact H. apply is_derive_Reals. auto_derive; [trivial|]. field. lra.
  - intros r. apply is_derive_Reals. auto_derive; [trivial|]. field. lra.
  - intros r. apply is_derive_Reals. auto_derive; [trivial|]. field. lra.
  - rewrite poly7_y by exact H. field. lra.
  - field. lra. - field. lra. - field. lra.
  - rewrite poly7_y by exact H. field. lra.
  - field. lra. - field. lra. - field. lra.
Qed.

(** ** radial derivatives *)
Lemma shift_lim (f : R -> R) x d : derivable_pt_lim (fun t => f (x + t)) 0 d -> derivable_pt_lim f x d.
Proof.
  intros H eps He. destruct (H eps He) as [dl Hd]. exists dl. intros h Hh Hl. specialize (Hd h Hh Hl).
  rewrite Rplus_0_l, Rplus_0_r in Hd. exact Hd.
Qed.
Lemma radial1 (F : point -> R) dF (c N : point) r : has_gradient F dF -> 
  (forall p q, (forall i, p i = q i) -> F p = F q) ->
  derivable_pt_lim (fun r => F (along c N r)) r (dfdr_of N (fun i => dF i (along c N r))).
Proof.
  intros H Hext. apply shift_lim. unfold dfdr_of.
  apply (derivable_ext (fun t => F (along (along c N r) N t))); [|apply H].
  intros t. apply Hext. intros i. unfold along. ring.
Qed.
Lemma IJ_sym i j : (i < 3)%nat -> (j < 3)%nat -> IJsymm3 i j = IJsymm3 j i.
Proof.
  intros Hi Hj. destruct i as [|[|[|i]]]; destruct j as [|[|[|j]]]; try lia; reflexivity.
Qed.
Lemma IJ_inj i j k l : (i <= j < 3)%nat -> (k <= l < 3)%nat -> IJsymm3 i j = IJsymm3 k l -> i = k /\ j = l.
Proof.
  intros Hi Hj. destruct i as [|[|[|i]]]; destruct j as [|[|[|j]]]; try lia;
  destruct k as [|[|[|k]]]; destruct l as [|[|[|l]]]; try lia; cbn; intros E; try discriminate; split; reflexivity.
Qed.
Lemma radial2 (F : point -> R) dF ddF (c N : point) (r0 : R) : 0 < r0 ->
  N 0%nat ^2 + N 1%nat ^2 + N 2%nat ^2 = 1 ->
  has_gradient F dF -> (forall i, has_gradient (dF i) (fun j => ddF (IJsymm3 i j))) ->
  (forall p q, (forall i, p i = q i) -> F p = F q) -> (forall k p q, (forall i, p i = q i) -> dF k p = dF k q) ->
  (forall r, derivable_pt_lim (fun r => F (along c N r)) r (dfdr_of N (fun i => dF i (along c N r)))) /\
  derivable_pt_lim (fun r => dfdr_of N (fun i => dF i (along c N r))) r0
    (ddfddr_of N (fun i => r0 * N i) (fun i => dF i (along c N r0)) (fun k => ddF k (along c N r0)) r0).
Proof.
  intros H0 HN HF HdF EF EdF. split; [intros; apply radial1; assumption|].
  assert (K : forall i, derivable_pt_lim (fun r => dF i (along c N r)) r0
     (dfdr_of N (fun j => ddF (IJsymm3 i j) (along c N r0)))).
  { intros i. apply (radial1 (dF i) (fun j => ddF (IJsymm3 i j)) c N r0); [apply HdF|apply EdF]. }
  set (p := along c N r0) in *.
  assert (E : ddfddr_of N (fun i => r0 * N i) (fun i => dF i p) (fun k => ddF k p) r0 =
     N 0%nat * dfdr_of N (fun j => ddF (IJsymm3 0 j) p) + N 1%nat * dfdr_of N (fun j => ddF (IJsymm3 1 j) p)
     + N 2%nat * dfdr_of N (fun j => ddF (IJsymm3 2 j) p)).
  { unfold ddfddr_of, dfdr_of. cbn [Rsum Nat.eqb].
    assert (EN : N 2%nat ^2 = 1 - N 0%nat ^2 - N 1%nat ^2) by lra.
    match goal with |- ?L = ?R => replace L with (R + (1 - (N 0%nat ^2 + N 1%nat ^2 + N 2%nat ^2)) * (N 0%nat * dF 0%nat p + N 1%nat * dF 1%nat p + N 2%nat * dF 2%nat p) / r0) end.
    rewrite HN. field. lra. field. lra. }
  rewrite E. unfold dfdr_of at 1.
  apply derivable_pt_lim_plus; [apply derivable_pt_lim_plus|]; apply (derivable_pt_lim_scal); apply K.
Qed.
