(** FillerProofs.v - proofs about the extrapolations of FillerModel.v *)
From Coq Require Import Reals Lra Lia ZArith Psatz.
From Coquelicot Require Import Coquelicot.
From Verif Require Import RealBase SpectralModel ChebProofs FillerModel FillerSpec.
From Verif Require Base.
Import Base(outcome, Ok, Abort, UB, obind).
Open Scope R_scope.

(** ** glueing *)
Lemma glued_left r0 u f r : r <= r0 -> glued r0 u f r = u r.
Proof. intros; unfold glued; destruct (Rle_dec r r0); [reflexivity|lra]. Qed.
Lemma glued_right r0 u f r : r0 < r -> glued r0 u f r = f r.
Proof. intros; unfold glued; destruct (Rle_dec r r0); [lra|reflexivity]. Qed.

Lemma lim_local (f g : R -> R) x d e : 0 < e -> (forall y, Rabs (y - x) < e -> f y = g y) ->
  derivable_pt_lim f x d -> derivable_pt_lim g x d.
Proof.
  intros He Heq H eps Heps. destruct (H eps Heps) as [dl Hd].
  assert (0 < Rmin dl e) as Hm by (apply Rmin_glb_lt; [apply (cond_pos dl)|exact He]).
  exists (mkposreal _ Hm). intros h Hh Hlt; cbn in Hlt.
  rewrite <- !Heq. apply Hd; [exact Hh|]. eapply Rlt_le_trans; [exact Hlt|apply Rmin_l].
  replace (x - x) with 0 by ring; rewrite Rabs_R0; exact He.
  replace (x + h - x) with h by ring. eapply Rlt_le_trans; [exact Hlt|apply Rmin_r].
Qed.
Lemma glue_lim r0 u f d : u r0 = f r0 -> derivable_pt_lim u r0 d -> derivable_pt_lim f r0 d ->
  derivable_pt_lim (glued r0 u f) r0 d.
Proof.
  intros E Hu Hf eps Heps. destruct (Hu eps Heps) as [d1 H1], (Hf eps Heps) as [d2 H2].
  assert (0 < Rmin d1 d2) as Hm by (apply Rmin_glb_lt; [apply (cond_pos d1)|apply (cond_pos d2)]).
  exists (mkposreal _ Hm). intros h Hh Hlt; cbn in Hlt.
  rewrite (glued_left r0 u f r0) by lra.
  destruct (Rle_dec h 0).
  - rewrite glued_left by lra. apply H1; [exact Hh|]. eapply Rlt_le_trans; [exact Hlt|apply Rmin_l].
  - rewrite glued_right, E by lra. apply H2; [exact Hh|]. eapply Rlt_le_trans; [exact Hlt|apply Rmin_r].
Qed.
Lemma glue_lim_left r0 u f r d : r < r0 -> derivable_pt_lim u r d -> derivable_pt_lim (glued r0 u f) r d.
Proof.
  intros Hr. apply lim_local with (e := r0 - r); [lra|]. intros y Hy. apply Rabs_def2 in Hy. rewrite glued_left; [reflexivity|lra].
Qed.
Lemma glue_lim_right r0 u f r d : r0 < r -> derivable_pt_lim f r d -> derivable_pt_lim (glued r0 u f) r d.
Proof.
  intros Hr. apply lim_local with (e := r - r0); [lra|]. intros y Hy. apply Rabs_def2 in Hy. rewrite glued_right; [reflexivity|lra].
Qed.
Lemma glue_cont r0 u f : u r0 = f r0 -> continuity_pt u r0 -> continuity_pt f r0 -> continuity_pt (glued r0 u f) r0.
Proof.
  intros E Hu Hf eps Heps. destruct (Hu eps Heps) as [d1 [P1 H1]], (Hf eps Heps) as [d2 [P2 H2]].
  exists (Rmin d1 d2). split; [apply Rmin_glb_lt; assumption|]. intros x [Dx Hx]. cbn in *. unfold R_dist in *.
  rewrite (glued_left r0 u f r0) by lra.
  destruct (Rle_dec x r0).
  - rewrite glued_left by lra. apply H1. split; [exact Dx|]. cbn. unfold R_dist. eapply Rlt_le_trans; [exact Hx|apply Rmin_l].
  - rewrite glued_right, E by lra. apply H2. split; [exact Dx|]. cbn. unfold R_dist. eapply Rlt_le_trans; [exact Hx|apply Rmin_r].
Qed.
Lemma glue_ext r0 u f g r : (forall y, r0 <= y -> f y = g y) -> glued r0 u f r = glued r0 u g r.
Proof. intros H. unfold glued. destruct (Rle_dec r r0); [reflexivity|apply H; lra]. Qed.
Lemma derivable_ext (f g : R -> R) x d : (forall y, f y = g y) -> derivable_pt_lim f x d -> derivable_pt_lim g x d.
Proof. intros H. apply lim_local with (e := 1); [lra|auto]. Qed.

(** the general join: [g] is a smooth continuation of [f] with the right data at r0. *)
Lemma join2 (r0 dd : R) (u u' f g g' : R -> R) : 0 < r0 ->
  diff u u' -> derivable_pt_lim u' r0 dd ->
  (forall y, r0 <= y -> f y = g y) -> (forall r, r0 <= r -> derivable_pt_lim g r (g' r)) ->
  g r0 = u r0 -> g' r0 = u' r0 -> derivable_pt_lim g' r0 dd ->
  C2_at (glued r0 u f) r0 (u' r0) dd.
Proof.
  intros H0 Hu Hu' Hf Hg E E' Hg'. exists (glued r0 u' g'). repeat split.
  - intros r Hr. apply (derivable_ext (glued r0 u g)); [intros; symmetry; apply glue_ext; exact Hf|].
    destruct (Rtotal_order r r0) as [L|[L|L]].
    + rewrite glued_left by lra. apply glue_lim_left; [lra|apply Hu; exact Hr].
    + subst r. rewrite glued_left by lra. apply glue_lim; [symmetry; exact E|apply Hu; lra|rewrite <- E'; apply Hg; lra].
    + rewrite glued_right by lra. apply glue_lim_right; [lra|apply Hg; lra].
  - rewrite glued_left by lra. reflexivity.
  - apply glue_lim; [symmetry; exact E'|exact Hu'|exact Hg'].
Qed.
Lemma join1 (r0 : R) (u u' f g g' : R -> R) : 0 < r0 ->
  diff u u' -> continuity_pt u' r0 ->
  (forall y, r0 <= y -> f y = g y) -> (forall r, r0 <= r -> derivable_pt_lim g r (g' r)) ->
  g r0 = u r0 -> g' r0 = u' r0 -> continuity_pt g' r0 ->
  C1_at (glued r0 u f) r0 (u' r0).
Proof.
  intros H0 Hu Hu' Hf Hg E E' Hg'. exists (glued r0 u' g'). repeat split.
  - intros r Hr. apply (derivable_ext (glued r0 u g)); [intros; symmetry; apply glue_ext; exact Hf|].
    destruct (Rtotal_order r r0) as [L|[L|L]].
    + rewrite glued_left by lra. apply glue_lim_left; [lra|apply Hu; exact Hr].
    + subst r. rewrite glued_left by lra. apply glue_lim; [symmetry; exact E|apply Hu; lra|rewrite <- E'; apply Hg; lra].
    + rewrite glued_right by lra. apply glue_lim_right; [lra|apply Hg; lra].
  - rewrite glued_left by lra. reflexivity.
  - apply glue_cont; [symmetry; exact E'|exact Hu'|exact Hg'].
Qed.
Lemma der_cont f x d : derivable_pt_lim f x d -> continuity_pt f x.
Proof. intros H. apply derivable_continuous_pt. exists d. exact H. Qed.

(** ** the family (a + b/r + c/r^2) exp(-k (r - r0)) *)
Definition fam (a b c k r0 r : R) : R := (a + b/r + c/(r*r)) * exp (-k*(r-r0)).
Definition fam1 (a b c k r0 r : R) : R := (- b/(r*r) - 2*c/(r*r*r) - k*(a + b/r + c/(r*r))) * exp (-k*(r-r0)).
Definition fam2 (a b c k r0 r : R) : R :=
  (2*b/(r*r*r) + 6*c/(r*r*r*r) + 2*k*(b/(r*r) + 2*c/(r*r*r)) + k*k*(a + b/r + c/(r*r))) * exp (-k*(r-r0)).
Lemma fam_d a b c k r0 r : r <> 0 -> derivable_pt_lim (fam a b c k r0) r (fam1 a b c k r0 r).
Proof.
  intros Hr. apply is_derive_Reals. unfold fam, fam1. auto_derive; [repeat split; nra|].
  replace (r + - r0) with (r - r0) by ring. field; nra.
Qed.
Lemma fam_d2 a b c k r0 r : r <> 0 -> derivable_pt_lim (fam1 a b c k r0) r (fam2 a b c k r0 r).
Proof.
  intros Hr. apply is_derive_Reals. unfold fam1, fam2. auto_derive; [repeat split; try nra|].
  - assert (r*r <> 0) by nra. apply Rmult_integral_contrapositive_currified; assumption.
  - replace (r + - r0) with (r - r0) by ring. field; nra.
Qed.
Lemma exp00 k r : exp (-k*(r-r)) = 1.
Proof. replace (-k*(r-r)) with 0 by ring. apply exp_0. Qed.
Lemma fam_join2 (r0 dd a b c k : R) (u u' f : R -> R) : 0 < r0 -> diff u u' -> derivable_pt_lim u' r0 dd ->
  (forall y, r0 <= y -> f y = fam a b c k r0 y) ->
  fam a b c k r0 r0 = u r0 -> fam1 a b c k r0 r0 = u' r0 -> fam2 a b c k r0 r0 = dd ->
  C2_at (glued r0 u f) r0 (u' r0) dd.
Proof.
  intros H0 Hu Hu' Hf E E' E''. apply (join2 r0 dd u u' f (fam a b c k r0) (fam1 a b c k r0)); auto.
  - intros r Hr. apply fam_d; lra.
  - rewrite <- E''. apply fam_d2; lra.
Qed.
Lemma fam_join1 (r0 a b c k : R) (u u' f : R -> R) : 0 < r0 -> diff u u' -> continuity_pt u' r0 ->
  (forall y, r0 <= y -> f y = fam a b c k r0 y) ->
  fam a b c k r0 r0 = u r0 -> fam1 a b c k r0 r0 = u' r0 ->
  C1_at (glued r0 u f) r0 (u' r0).
Proof.
  intros H0 Hu Hu' Hf E E'. apply (join1 r0 u u' f (fam a b c k r0) (fam1 a b c k r0)); auto.
  - intros r Hr. apply fam_d; lra.
  - eapply der_cont. apply fam_d2; lra.
Qed.

Section Joins.
  Variables (r0 dd : R) (u u' : R -> R).
  Hypotheses (H0 : 0 < r0) (Hu : diff u u').
  Lemma poly2_join : derivable_pt_lim u' r0 dd -> C2_at (glued r0 u (st_poly2 r0 (u r0) (u' r0) dd)) r0 (u' r0) dd.
  Proof.
    intros H2. apply (join2 r0 dd u u' _ (st_poly2 r0 (u r0) (u' r0) dd) (fun r => u' r0 - dd*r0 + dd*r)); auto.
    - intros r _. apply is_derive_Reals. unfold st_poly2. auto_derive; [trivial|]. field.
    - unfold st_poly2. field.
    - ring.
    - apply is_derive_Reals. auto_derive; [trivial|ring].
  Qed.
  Lemma inverse_r2_join : derivable_pt_lim u' r0 dd -> C2_at (glued r0 u (st_inverse_r2 r0 (u r0) (u' r0) dd)) r0 (u' r0) dd.
  Proof.
    intros H2. eapply (fam_join2 r0 dd _ _ _ 0); auto.
    - intros y Hy. unfold st_inverse_r2, fam. replace (-0*(y-r0)) with 0 by ring. rewrite exp_0, Rmult_1_r. reflexivity.
    - unfold fam. rewrite exp00. field. lra.
    - unfold fam1. rewrite exp00. field. lra.
    - unfold fam2. rewrite exp00. field. lra.
  Qed.
  Lemma inverse_r2_expmr_join : derivable_pt_lim u' r0 dd -> C2_at (glued r0 u (st_inverse_r2_expmr r0 (u r0) (u' r0) dd)) r0 (u' r0) dd.
  Proof.
    intros H2. set (fr0 := u r0). set (d := u' r0). set (A := Att1).
    apply (fam_join2 r0 dd (((2 + 4*A + A*A)*fr0 + r0*(2*(2 + A)*d + dd*r0))/2)
      (-(r0*(3*A*fr0 + (A*A)*fr0 + 3*d*r0 + 2*A*d*r0 + dd*(r0*r0))))
      (((r0*r0)*((A*A)*fr0 + r0*(2*d + dd*r0) + 2*A*(fr0 + d*r0)))/2) (A/r0)); auto.
    - intros y Hy. unfold st_inverse_r2_expmr, fam. fold A.
      replace (-A*y/r0) with (-A + -(A/r0)*(y-r0)) by (field; lra). rewrite exp_plus, exp_Ropp.
      pose proof (exp_pos A). field. repeat split; lra.
    - unfold fam. rewrite exp00. fold fr0. field. lra.
    - unfold fam1. rewrite exp00. fold d. field. lra.
    - unfold fam2. rewrite exp00. field. lra.
  Qed.
  Lemma inverse_r2_expmAr_join : derivable_pt_lim u' r0 dd -> C2_at (glued r0 u (st_inverse_r2_expmAr r0 (u r0) (u' r0) dd)) r0 (u' r0) dd.
  Proof.
    intros H2. eapply (fam_join2 r0 dd _ _ _ Att0); auto.
    - intros y Hy. unfold st_inverse_r2_expmAr, fam. rewrite (Rabs_right (y-r0)) by lra. reflexivity.
    - unfold fam. rewrite exp00. field. lra.
    - unfold fam1. rewrite exp00. field. lra.
    - unfold fam2. rewrite exp00. field. lra.
  Qed.
  Lemma inverse_r_expmAr_join : continuity_pt u' r0 -> C1_at (glued r0 u (st_inverse_r_expmAr r0 (u r0) (u' r0))) r0 (u' r0).
  Proof.
    intros H2. eapply (fam_join1 r0 _ _ 0 Att0); auto.
    - intros y Hy. unfold st_inverse_r_expmAr, fam. rewrite (Rabs_right (y-r0)) by lra.
      unfold Rdiv at 3. rewrite Rmult_0_l, Rplus_0_r. reflexivity.
    - unfold fam. rewrite exp00. field. lra.
    - unfold fam1. rewrite exp00. field. lra.
  Qed.
  Lemma inverse_r_expmr_join : continuity_pt u' r0 -> C1_at (glued r0 u (st_inverse_r_expmr r0 (u r0) (u' r0))) r0 (u' r0).
  Proof.
    intros H2. set (fr0 := u r0). set (d := u' r0). set (A := Att1).
    apply (fam_join1 r0 (fr0 + A*fr0 + d*r0) (-(r0*(A*fr0 + d*r0))) 0 (A/r0)); auto.
    - intros y Hy. unfold st_inverse_r_expmr, fam. fold A.
      replace (-A*y/r0) with (-A + -(A/r0)*(y-r0)) by (field; lra). rewrite exp_plus, exp_Ropp.
      pose proof (exp_pos A). field. repeat split; lra.
    - unfold fam. rewrite exp00. fold fr0. field. lra.
    - unfold fam1. rewrite exp00. fold d. field. lra.
  Qed.
  Lemma exp2_join : derivable_pt_lim u' r0 dd -> ROUND_OFF_ERR <= Rabs (u' r0) -> ROUND_OFF_ERR <= Rabs dd ->
    exists f, (forall r, st_exp2 r0 (u r0) (u' r0) dd r = Ok (f r)) /\ C2_at (glued r0 u f) r0 (u' r0) dd.
  Proof.
    intros H2 N1 N2. pose proof ROE_pos.
    assert (u' r0 <> 0) by (intros E; rewrite E, Rabs_R0 in N1; lra).
    assert (dd <> 0) by (intros E; rewrite E, Rabs_R0 in N2; lra).
    exists (fun r => -((u' r0)^2/dd) + u r0 + (u' r0)^2/(dd*exp (dd*r0/u' r0)) * exp (dd/u' r0*r)).
    split.
    - intros r. unfold st_exp2.
      replace (EQL dd 0) with false by (symmetry; apply EQL_false; rewrite Rminus_0_r; exact N2).
      replace (EQL (u' r0) 0) with false by (symmetry; apply EQL_false; rewrite Rminus_0_r; exact N1).
      reflexivity.
    - pose proof (exp_pos (dd*r0/u' r0)).
      assert (exp (dd/u' r0*r0) = exp (dd*r0/u' r0)) as EE by (f_equal; field; assumption).
      apply (join2 r0 dd u u' _ (fun r => -((u' r0)^2/dd) + u r0 + (u' r0)^2/(dd*exp (dd*r0/u' r0)) * exp (dd/u' r0*r))
        (fun r => (u' r0)/exp (dd*r0/u' r0) * exp (dd/u' r0*r))); auto.
      + intros r _. apply is_derive_Reals. auto_derive; [trivial|]. field. repeat split; lra.
      + rewrite EE. field. split; lra.
      + rewrite EE. field. lra.
      + apply is_derive_Reals. auto_derive; [trivial|]. rewrite EE. field. split; lra.
  Qed.
  Lemma expmr_join : continuity_pt (glued r0 u (st_expmr r0 (u r0))) r0.
  Proof.
    apply glue_cont.
    - unfold st_expmr. replace (-(1/10)*(r0-r0)) with 0 by ring. rewrite exp_0. ring.
    - eapply der_cont. apply Hu; lra.
    - eapply der_cont. apply is_derive_Reals. unfold st_expmr. auto_derive; [trivial|reflexivity].
  Qed.
End Joins.
Lemma exp2_aborts r0 fr0 d dd r : Rabs d < ROUND_OFF_ERR \/ Rabs dd < ROUND_OFF_ERR -> st_exp2 r0 fr0 d dd r = Abort.
Proof.
  intros H. unfold st_exp2. destruct H as [H|H].
  - replace (EQL d 0) with true by (symmetry; apply EQL_iff; rewrite Rminus_0_r; exact H). rewrite Bool.orb_true_r. reflexivity.
  - replace (EQL dd 0) with true by (symmetry; apply EQL_iff; rewrite Rminus_0_r; exact H). reflexivity.
Qed.
