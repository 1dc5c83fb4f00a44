(** LinAlg3Final.v - the collected statements behind Props_LinAlg3.v. *)
From Verif Require Import RealBase LinAlg3Model LinAlg3Spec LinAlg3Proofs.

Lemma inverse_det m : Matrix_Determinant_3x3 m <> 0 -> invertible m.
Proof.
  intros H. destruct m as [a b c d e f g h k]. unfold Matrix_Determinant_3x3 in H; cbn in H.
  set (D := a*e*k - a*f*h - b*d*k + b*f*g + c*d*h - c*e*g) in *.
  exists (M3 ((e*k-f*h)/D) ((c*h-b*k)/D) ((b*f-c*e)/D)
             ((f*g-d*k)/D) ((a*k-c*g)/D) ((c*d-a*f)/D)
             ((d*h-e*g)/D) ((b*g-a*h)/D) ((a*e-b*d)/D)).
  intros i j Hi Hj.
  destruct i as [|[|[|i]]]; try lia; destruct j as [|[|[|j]]]; try lia;
    cbn; split; unfold D in *; field; exact H.
Qed.
Lemma general_some m i : MLA_COMPUTE_INVERSE_3x3_GENERAL m = Some i -> inverse_of i m.
Proof.
  intros H.
  destruct (Req_EM_T (a00 m) 0) as [E|E]. { rewrite inverse_general_none in H by auto. discriminate. }
  destruct (Req_EM_T (Matrix_Determinant_3x3 m) 0) as [D|D]. { rewrite inverse_general_det0 in H by auto. discriminate. }
  destruct (inverse_general m E D) as (i' & H1 & H2). rewrite H in H1. injection H1 as ->. exact H2.
Qed.
Lemma inverse_all :
  (forall m, a00 m <> 0 -> invertible m -> exists i, MLA_COMPUTE_INVERSE_3x3_GENERAL m = Some i /\ inverse_of i m) /\
  (forall m, Matrix_Determinant_3x3 m <> 0 <-> invertible m) /\
  (forall m i, MLA_COMPUTE_INVERSE_3x3_GENERAL m = Some i -> inverse_of i m) /\
  (forall s, s00 s <> 0 -> invertible (full s) -> exists i, Matrix_Inverse_3x3_Symmetric s = Some i /\ inverse_of (full i) (full s)) /\
  (forall s, Matrix_Determinant_3x3_Symmetric s = Matrix_Determinant_3x3 (full s)) /\
  (forall s, positive_definite s -> 0 < Matrix_Determinant_3x3_Symmetric s /\
      exists i, Matrix_Inverse_3x3_Symmetric s = Some i /\ inverse_of (full i) (full s)).
Proof.
  split; [|split; [|split; [|split; [|split]]]].
  - intros. apply inverse_general; auto. apply det_unit; auto.
  - intros; split. apply inverse_det. apply det_unit.
  - exact general_some.
  - intros. apply inverse_sym; auto. apply (det_unit (full s)); auto.
  - reflexivity.
  - intros. split. apply pd_nonzero; auto. apply inverse_pd; auto.
Qed.
Lemma inverse_refuted :
  (forall m, a00 m = 0 -> MLA_COMPUTE_INVERSE_3x3_GENERAL m = None) /\ (exists m, a00 m = 0 /\ invertible m).
Proof.
  split. exact inverse_general_none.
  exists (M3 0 1 0 0 0 1 1 0 0). split. reflexivity. apply inverse_det. unfold Matrix_Determinant_3x3; cbn. lra.
Qed.
Lemma ex_pd : positive_definite (S3 2 1 0 2 1 2).
Proof.
  intros x (i & Hi & Hx). unfold quad; cbn.
  assert (P : 0 < Rsqr (x i)) by (apply Rsqr_pos_lt; auto).
  pose proof (Rle_0_sqr (x 0%nat)). pose proof (Rle_0_sqr (x 1%nat)). pose proof (Rle_0_sqr (x 2%nat)).
  pose proof (Rle_0_sqr (x 0%nat + x 1%nat)). pose proof (Rle_0_sqr (x 1%nat + x 2%nat)).
  pose proof (Rle_0_sqr (2 * x 0%nat + x 1%nat)). pose proof (Rle_0_sqr (2 * x 2%nat + x 1%nat)).
  unfold Rsqr in *. destruct i as [|[|[|i]]]; try lia; lra.
Qed.
Lemma ex_inv : invertible (M3 1 2 0 0 1 0 3 0 1) /\ a00 (M3 1 2 0 0 1 0 3 0 1) <> 0.
Proof. split; [apply inverse_det; unfold Matrix_Determinant_3x3|]; cbn; lra. Qed.
Lemma boost_all : forall Bx By Bz, let B2 := Bx*Bx+By*By+Bz*Bz in
  B2 < 1 -> (B2 = 0 \/ ROUND_OFF_ERR <= B2) ->
  (forall i v, exists w, boost_transformation Bx By Bz B2 i v = Some w /\ interval w = interval v) /\
  (forall i j v w, (i = 1 <-> j <> 1)%Z -> boost_transformation Bx By Bz B2 i v = Some w -> boost_transformation Bx By Bz B2 j w = Some v) /\
  (forall i, i <> 1%Z -> exists t, boost_transformation Bx By Bz B2 i (V4 1 Bx By Bz) = Some (V4 t 0 0 0) /\ 0 < t) /\
  (B2 = 0 -> forall i v, boost_transformation Bx By Bz B2 i v = Some v).
Proof.
  intros. split; [|split; [|split]].
  - intros; apply boost_step; auto.
  - intros. eapply boost_inverse; eauto.
  - intros; apply boost_to_rest; auto.
  - intros E i v. rewrite E. apply boost_identity. exact E.
Qed.
Lemma ex_boost : let B2 := (3/5)*(3/5) + 0*0 + 0*0 in B2 < 1 /\ ROUND_OFF_ERR <= B2.
Proof. cbv zeta; unfold ROUND_OFF_ERR; lra. Qed.
Lemma ex_slow : let B2 := (/10000000)*(/10000000) + 0*0 + 0*0 in 0 < B2 < ROUND_OFF_ERR.
Proof. cbv zeta; unfold ROUND_OFF_ERR; lra. Qed.
Lemma rotation_all :
  (forall Rx Ry Rz a v w c, let T := rotation_transformation Rx Ry Rz a in
     u0 (T v) = u0 v /\ dot3 (T v) (T w) = dot3 v w /\ triple (T v) (T w) (T c) = triple v w c) /\
  (forall phi, rotation_transformation 0 0 phi 1 (V4 0 1 0 0) = V4 0 (cos phi) (sin phi) 0 /\
     rotation_transformation phi 0 0 1 (V4 0 0 1 0) = V4 0 0 (cos phi) (sin phi) /\
     rotation_transformation 0 phi 0 1 (V4 0 0 0 1) = V4 0 (sin phi) 0 (cos phi)) /\
  (forall x y z v, rotation_transformation x y z 1 v =
     rotation_transformation 0 0 z 1 (rotation_transformation 0 y 0 1 (rotation_transformation x 0 0 1 v))) /\
  (forall x y z v a b, (a = 1 <-> b <> 1)%Z ->
     rotation_transformation 0 0 z b (rotation_transformation 0 0 z a v) = v /\
     rotation_transformation 0 y 0 b (rotation_transformation 0 y 0 a v) = v /\
     rotation_transformation x 0 0 b (rotation_transformation x 0 0 a v) = v).
Proof. exact (conj rotation_isometry (conj rotation_sense (conj rotation_order rotation_undo))). Qed.
Lemma ex_flags : exists v w : Z, (v = 1 <-> w <> 1)%Z.
Proof. exists 1%Z, 0%Z; lia. Qed.
Lemma sphe_cart_all :
  (forall (r th ph : R -> R) t0 r' th' ph',
     derivable_pt_lim r t0 r' -> derivable_pt_lim th t0 th' -> derivable_pt_lim ph t0 ph' ->
     exists w, spheNcart_transformation (r t0) (th t0) (ph t0) false true (V3 r' th' ph') = Some (Some w) /\
      derivable_pt_lim (fun t => r t * sin (th t) * cos (ph t)) t0 (w0 w) /\
      derivable_pt_lim (fun t => r t * sin (th t) * sin (ph t)) t0 (w1 w) /\
      derivable_pt_lim (fun t => r t * cos (th t)) t0 (w2 w)) /\
  (forall r th ph v, r <> 0 -> sin th <> 0 -> cos ph <> 0 ->
     exists w, spheNcart_transformation r th ph true false v = Some (Some w) /\
               spheNcart_transformation r th ph false true w = Some (Some v) /\
     exists z, spheNcart_transformation r th ph false true v = Some (Some z) /\
               spheNcart_transformation r th ph true false z = Some (Some v)) /\
  (forall r th ph v, spheNcart_transformation r th ph false false v = None).
Proof. split. exact s2c_is_velocity. split. exact c2s_inverse. reflexivity. Qed.
Lemma yz_plane :
  (forall r th ph v s, cos ph = 0 -> spheNcart_transformation r th ph true s v = Some None) /\
  (forall r th ph, r <> 0 -> sin th <> 0 -> invertible (dc_ds r th ph)).
Proof.
  split. exact c2s_fails. intros. apply inverse_det. rewrite det_dc_ds.
  repeat apply Rmult_integral_contrapositive_currified; auto.
Qed.
Lemma ex_sphe : 1 <> 0 /\ sin (PI/2) <> 0 /\ cos 0 <> 0 /\ cos (PI/2) = 0.
Proof. rewrite sin_PI2, cos_0, cos_PI2. lra. Qed.
