From Verif Require Import RealBase LinAlg3Model LinAlg3Spec LinAlg3Proofs BssnModel.

Lemma det_scale c m : Matrix_Determinant_3x3_Symmetric (scale_sym c m) = c ^ 3 * Matrix_Determinant_3x3_Symmetric m.
Proof. destruct m. unfold Matrix_Determinant_3x3_Symmetric, Matrix_Determinant_3x3, scale_sym; cbn. ring. Qed.

Lemma powr_pos x y : 0 < x -> powr x y = Some (Rpower x y).
Proof. intros; unfold powr. destruct (Rlt_dec 0 x); [reflexivity|lra]. Qed.
Lemma powr_nonpos x y : x <= 0 -> powr x y = None.
Proof. intros; unfold powr. destruct (Rlt_dec 0 x); [lra|reflexivity]. Qed.

Lemma pd_scale c m : 0 < c -> positive_definite m -> positive_definite (scale_sym c m).
Proof.
  intros Hc H v Hv. specialize (H v Hv).
  replace (quad (scale_sym c m) v) with (c * quad m v).
  - apply Rmult_lt_0_compat; assumption.
  - destruct m. unfold quad, scale_sym; cbn. ring.
Qed.

Lemma root12 x : 0 < x -> (Rpower x (1/12)) ^ 12 = x.
Proof.
  intros H. rewrite <- Rpower_pow by apply exp_pos. rewrite Rpower_mult.
  replace (1/12 * INR 12) with 1 by (cbn; lra). apply Rpower_1, H.
Qed.
Lemma root3 x : 0 < x -> (Rpower x (-(1/3))) ^ 3 = / x.
Proof.
  intros H. rewrite <- Rpower_pow by apply exp_pos. rewrite Rpower_mult.
  replace (-(1/3) * INR 3) with (- (1)) by (cbn; lra). rewrite Rpower_Ropp, Rpower_1; auto.
Qed.
Lemma psim4_psi x : 0 < x -> Rpower x (-(1/3)) * (Rpower x (1/12)) ^ 4 = 1.
Proof.
  intros H. rewrite <- Rpower_pow by apply exp_pos. rewrite Rpower_mult, <- Rpower_plus.
  replace (- (1 / 3) + 1 / 12 * INR 4) with 0 by (cbn; lra). apply Rpower_O, H.
Qed.

(** the scaled metric *)
Theorem bssn_ok : forall g, positive_definite g -> forall bg bi bp,
  exists gt ig psi,
    scale_to_BSSN_metric_3d g bg bi bp =
      Some (if bg then Some gt else None, if bi then Some ig else None, if bp then Some psi else None) /\
    0 < psi /\ psi ^ 12 = Matrix_Determinant_3x3_Symmetric g /\
    g = scale_sym (psi ^ 4) gt /\
    Matrix_Determinant_3x3_Symmetric gt = 1 /\
    positive_definite gt /\
    inverse_of (full ig) (full gt).
Proof.
  intros g Hp bg bi bp. destruct (pd_nonzero g Hp) as [H0 Hd].
  set (d := Matrix_Determinant_3x3_Symmetric g) in *.
  set (c := Rpower d (-(1/3))). set (psi := Rpower d (1/12)).
  assert (Hc : 0 < c) by apply exp_pos.
  destruct (inverse_pd (scale_sym c g) (pd_scale c g Hc Hp)) as [ig [Ei Hi]].
  exists (scale_sym c g), ig, psi.
  split; [|split; [|split; [|split; [|split; [|split]]]]].
  - unfold scale_to_BSSN_metric_3d. fold d. rewrite !powr_pos by assumption. cbn [fbind].
    fold c psi. destruct bi; cbn [fbind]; [rewrite Ei|]; cbn [fbind]; reflexivity.
  - apply exp_pos.
  - apply root12, Hd.
  - assert (P : c * psi ^ 4 = 1) by (apply psim4_psi, Hd).
    destruct g as [a b e f h i]. unfold scale_sym; cbn [s00 s01 s02 s11 s12 s22].
    f_equal; rewrite Rmult_assoc, P; ring.
  - rewrite det_scale. fold d. unfold c. rewrite root3 by exact Hd. apply Rinv_l. lra.
  - apply pd_scale; assumption.
  - exact Hi.
Qed.

Theorem bssn_det_nonpos : forall g bg bi bp, Matrix_Determinant_3x3_Symmetric g <= 0 ->
  scale_to_BSSN_metric_3d g bg bi bp = None.
Proof. intros. unfold scale_to_BSSN_metric_3d. rewrite powr_nonpos by assumption. reflexivity. Qed.

(** positive determinant with a vanishing first diagonal component: the inverse macro divides by zero *)
Theorem bssn_s00_zero : forall g bg bp, s00 g = 0 ->
  scale_to_BSSN_metric_3d g bg true bp = None.
Proof.
  intros g bg bp H. unfold scale_to_BSSN_metric_3d.
  destruct (powr _ (-(1/3))) as [c|]; [|reflexivity]. cbn [fbind].
  destruct (powr _ (1/12)); [|reflexivity]. cbn [fbind].
  destruct g as [a b d e f h]; cbn in H; subst a. unfold scale_sym; cbn [s00 s01 s02 s11 s12 s22].
  unfold Matrix_Inverse_3x3_Symmetric.
  destruct (fdiv (e * c * (h * c) - _) _); [|reflexivity]. cbn [fbind].
  destruct (fdiv (- (b * c) * _ + _) _); [|reflexivity]. cbn [fbind].
  destruct (fdiv (b * c * (f * c) - _) _); [|reflexivity]. cbn [fbind].
  match goal with |- context [fdiv ?x ?y] => replace y with 0 by ring end.
  unfold fdiv at 1. destruct (Req_EM_T 0 0); [reflexivity|congruence].
Qed.
