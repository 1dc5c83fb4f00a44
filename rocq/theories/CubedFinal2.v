(** CubedFinal2.v - C83 (limit of the Jacobian), C84 (angles) and C85 (node search, forced location). *)
From Verif Require Import RealBase CubedModel CubedSpec CubedProofs CubedJac CubedDet CubedAngles CubedFinal.
Open Scope R_scope.

(** * C83 *)
Definition ex_tilt : cs_patch :=
  {| cs_side := UP; cs_ty := OT_T_SCS; cs_c := (0, 0, 0); cs_xc1 := DBL_MAX; cs_xc2 := 0; cs_R1 := 0; cs_R2 := 0;
     cs_R1f := fun X _ => Some (1 + X); cs_R2f := fun _ _ => Some 4; cs_min := (-1, -1, 0); cs_max := (1, 1, 1) |}.
Definition ex_node : jnode := {| jn_x := (0, 0, 2); jn_X := (0, 0, 2 / 3); jn_R1 := 1; jn_R2 := 4; jn_R1a := 1; jn_R1b := 0; jn_R2a := 0; jn_R2b := 0 |}.
Lemma ex_tilt_raw t : t <> 6 -> X_raw ex_tilt (t, 0, 2) = Some (t / 2, 0, (1 - (1 + t / 2) / (2 * dist1 (t / 2) 0)) / (1 - (1 + t / 2) / 4)).
Proof.
  intros N. unfold X_raw. cbn [cs_side cs_c ex_tilt sip get]. replace (2 - 0) with 2 by ring. rewrite !fdiv_some by lra. cbn [fbind].
  replace (1 * (t - 0) / 2) with (t / 2) by field. replace (1 * (0 - 0) / 2) with 0 by field. rewrite d_eq.
  unfold out_ends. cbn [is_out cs_ty cs_R1f cs_R2f cs_xc1 ex_tilt fbind]. rewrite fdiv_some by lra. cbn [fbind].
  rewrite (proj2 (unset_true DBL_MAX) eq_refl). rewrite fdiv_some by lra. cbn [fbind].
  rewrite fdiv_some by lra. cbn [fbind]. pose proof (dist1_pos (t / 2) 0). apply some3; auto.
  field. split; [|lra]. lra.
Qed.
Lemma dl_lin a b : derivable_pt_lim (fun t => a + t / b) 0 (/ b).
Proof.
  apply dlim_ext with (fun t => a + / b * t).
  - apply dlim_eq with (0 + / b * 1); [|ring]. apply dlim_plus; [apply dlim_const|]. apply dlim_scal. apply derivable_pt_lim_id.
  - exists 1. split; [lra|]. intros. unfold Rdiv. ring.
Qed.
Theorem c83_limit_refuted : exists P n f,
  X_raw P (jn_x n) = Some (jn_X n) /\ surf_diff (cs_R1f P) (get (jn_X n) 0) (get (jn_X n) 1) (jn_R1 n) (jn_R1a n) (jn_R1b n) /\
  surf_diff (cs_R2f P) (get (jn_X n) 0) (get (jn_X n) 1) (jn_R2 n) (jn_R2a n) (jn_R2b n) /\
  JT P n qc 0 = Some 0 /\ near0 (fun t => X_raw P (move (jn_x n) 0 t) = Some (f t)) /\ derivable_pt_lim (fun t => comp qc (f t)) 0 (- (2 / 9)).
Proof.
  exists ex_tilt, ex_node, (fun t => (t / 2, 0, (1 - (1 + t / 2) / (2 * dist1 (t / 2) 0)) / (1 - (1 + t / 2) / 4))).
  split; [|split; [|split; [|split; [|split]]]].
  - cbn [jn_x jn_X ex_node]. rewrite ex_tilt_raw by lra. replace (0 / 2) with 0 by field. rewrite dist00. apply some3; field.
  - split; [cbn; f_equal; ring|]. intros e E. exists 1. split; [lra|]. intros h k Hh Hk. exists (1 + (0 + h)). split; [reflexivity|].
    replace (_ - _ - _ - _) with 0 by (cbn; ring). rewrite Rabs_R0. pose proof (Rabs_pos h). pose proof (Rabs_pos k). nra.
  - split; [reflexivity|]. intros e E. exists 1. split; [lra|]. intros h k Hh Hk. exists 4. split; [reflexivity|].
    replace (_ - _ - _ - _) with 0 by (cbn; ring). rewrite Rabs_R0. pose proof (Rabs_pos h). pose proof (Rabs_pos k). nra.
  - unfold JT, JT_ab. cbn [cs_side cs_ty cs_c cs_xc1 ex_tilt ex_node sip jn_x jn_X jn_R1 jn_R2 jn_R1a jn_R1b get kd Nat.eqb].
    replace (2 - 0) with 2 by ring. rewrite !fdiv_some by lra. cbn [fbind]. rewrite !fdiv_some by lra. cbn [fbind].
    rewrite (proj2 (unset_true DBL_MAX) eq_refl). rewrite fdiv_some by lra. cbn [fbind]. rewrite fdiv_some by lra. cbn [fbind].
    rewrite fdiv_some by lra. rewrite d_eq, dist00. f_equal.
    unfold Power3, Pow2. field.
  - exists 1. split; [lra|]. intros t T. unfold move. cbn [jn_x ex_node put get]. rewrite Rplus_0_l. apply ex_tilt_raw.
    apply Rabs_def2 in T. lra.
  - cbn [comp get]. 
    assert (D : derivable_pt_lim (fun t => dist1 (t / 2) 0) 0 0).
    { apply dlim_eq with ((0 / 2 * / 2 + 0 * 0) / dist1 (0 / 2) 0).
      - apply (dlim_dist (fun t => t / 2) (fun _ => 0)); [|apply dlim_const].
        apply dlim_ext with (fun t => 0 + t / 2); [apply dl_lin|]. exists 1. split; [lra|]. intros. ring.
      - replace (0 / 2) with 0 by field. rewrite dist00. field. }
    assert (Z : dist1 (0 / 2) 0 = 1) by (replace (0 / 2) with 0 by field; apply dist00).
    eapply dlim_eq.
    + apply (dlim_quot (fun t => 1 - (1 + t / 2) / (2 * dist1 (t / 2) 0)) (fun t => 1 - (1 + t / 2) / 4)).
      * apply dlim_minus; [apply dlim_const|]. apply (dlim_quot (fun t => 1 + t / 2) (fun t => 2 * dist1 (t / 2) 0)).
        { apply dl_lin. } { apply dlim_scal. exact D. } { rewrite Z. lra. }
      * apply dlim_minus; [apply dlim_const|]. apply (dlim_quot (fun t => 1 + t / 2) (fun t => 4)); [apply dl_lin|apply dlim_const|lra].
      * lra.
    + cbn beta. rewrite Z. field.
Qed.
Theorem c83_raw : forall P X Y Z h1 h2 h, inner P X Y h1 -> outer P X Y h2 -> 0 < h1 < h2 -> 0 < h -> height P h1 h2 Z h ->
  X_raw P (point (cs_side P) (cs_c P) h X Y) = Some (X, Y, Z).
Proof.
  intros P X Y Z h1 h2 h A B [C D] E F. rewrite (backward P X Y h1 h2 h) by auto. apply (frac_hgt P h1 h2 Z h) in F; auto. rewrite F. reflexivity.
Qed.
(** a shell between the surface R1 = 1 + X and the plane x_c = 3 *)
Definition ex_bump : cs_patch :=
  {| cs_side := FRONT; cs_ty := SR_T_CS; cs_c := (0, 0, 0); cs_xc1 := 0; cs_xc2 := 3; cs_R1 := 0; cs_R2 := 0;
     cs_R1f := fun X _ => Some (1 + X); cs_R2f := fun _ _ => None; cs_min := (-1, -1, 0); cs_max := (1, 1, 1) |}.
Theorem c83_example : exists P n, surfaces_ok P n /\ cs_ty P = SR_T_CS /\ X_raw P (jn_x n) = Some (jn_X n) /\ jn_R1a n = 1.
Proof.
  exists ex_bump, {| jn_x := (2, 0, 0); jn_X := (0, 0, 1 / 2); jn_R1 := 1; jn_R2 := 0; jn_R1a := 1; jn_R1b := 0; jn_R2a := 0; jn_R2b := 0 |}.
  split; [|split; [reflexivity|split; [|reflexivity]]].
  - cbn. split; [f_equal; ring|]. intros e E. exists 1. split; [lra|]. intros h k Hh Hk. exists (1 + (0 + h)). split; [reflexivity|].
    replace (_ - _ - _ - _) with 0 by ring. rewrite Rabs_R0. pose proof (Rabs_pos h). pose proof (Rabs_pos k). nra.
  - cbn [jn_x jn_X]. replace (2, 0, 0) with (point (cs_side ex_bump) (cs_c ex_bump) 2 0 0).
    + apply (c83_raw ex_bump 0 0 (1 / 2) 1 3 2); try lra.
      * cbn. rewrite dist00. f_equal. ring.
      * cbn. ring.
      * split; [intros []|intros _]. field.
    + rewrite pt_eq. cbn. f_equal; [f_equal|]; ring.
Qed.
