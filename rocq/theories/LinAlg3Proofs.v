From Verif Require Import RealBase LinAlg3Model LinAlg3Spec.

Ltac d3 i := destruct i as [|[|[|i]]]; [| | |exfalso; lia].

Lemma det_factor m : (a00 m*a11 m - a01 m*a10 m)*(a00 m*a22 m - a02 m*a20 m) - (a00 m*a12 m - a02 m*a10 m)*(a00 m*a21 m - a01 m*a20 m) = a00 m * Matrix_Determinant_3x3 m.
Proof. unfold Matrix_Determinant_3x3. ring. Qed.

Lemma det_unit m : invertible m -> Matrix_Determinant_3x3 m <> 0.
Proof.
  intros [n H] E.
  pose proof (fun i j a b => proj1 (H i j a b)) as K.
  assert (Hn : Matrix_Determinant_3x3 m * Matrix_Determinant_3x3 n = 1).
  { destruct m as [a b c d e f g h k], n as [a' b' c' d' e' f' g' h' k'].
    unfold Matrix_Determinant_3x3; cbn.
    pose proof (K 0 0 ltac:(lia) ltac:(lia))%nat as E00. pose proof (K 0 1 ltac:(lia) ltac:(lia))%nat as E01. pose proof (K 0 2 ltac:(lia) ltac:(lia))%nat as E02.
    pose proof (K 1 0 ltac:(lia) ltac:(lia))%nat as E10. pose proof (K 1 1 ltac:(lia) ltac:(lia))%nat as E11. pose proof (K 1 2 ltac:(lia) ltac:(lia))%nat as E12.
    pose proof (K 2 0 ltac:(lia) ltac:(lia))%nat as E20. pose proof (K 2 1 ltac:(lia) ltac:(lia))%nat as E21. pose proof (K 2 2 ltac:(lia) ltac:(lia))%nat as E22.
    cbn in *. unfold delta in *; cbn in *.
    rewrite Rplus_0_l in *.
    transitivity ((a * a' + b * d' + c * g') * ((d * b' + e * e' + f * h') * (g * c' + h * f' + k * k') - (d * c' + e * f' + f * k') * (g * b' + h * e' + k * h'))
      - (a * b' + b * e' + c * h') * ((d * a' + e * d' + f * g') * (g * c' + h * f' + k * k') - (d * c' + e * f' + f * k') * (g * a' + h * d' + k * g'))
      + (a * c' + b * f' + c * k') * ((d * a' + e * d' + f * g') * (g * b' + h * e' + k * h') - (d * b' + e * e' + f * h') * (g * a' + h * d' + k * g'))).
    ring. rewrite E00, E01, E02, E10, E11, E12, E20, E21, E22. ring. }
  rewrite E in Hn. lra.
Qed.

Lemma inverse_general m : a00 m <> 0 -> Matrix_Determinant_3x3 m <> 0 ->
  exists i, MLA_COMPUTE_INVERSE_3x3_GENERAL m = Some i /\ inverse_of i m.
Proof.
  intros Ha Hd.
  pose proof (det_factor m) as F.
  assert (Hp : (a00 m*a11 m - a01 m*a10 m)*(a00 m*a22 m - a02 m*a20 m) - (a00 m*a12 m - a02 m*a10 m)*(a00 m*a21 m - a01 m*a20 m) <> 0).
  { rewrite F. apply Rmult_integral_contrapositive_currified; auto. }
  destruct m as [p00 p01 p02 p10 p11 p12 p20 p21 p22]. unfold Matrix_Determinant_3x3 in *. cbn in *.
  rewrite !fdiv_some by assumption. cbn.
  eexists; split; [reflexivity|].
  intros i j Hi Hj. d3 i; d3 j; cbn; unfold delta; cbn; split; field; auto.
Qed.

Lemma inverse_general_none m : a00 m = 0 -> MLA_COMPUTE_INVERSE_3x3_GENERAL m = None.
Proof.
  destruct m as [p00 p01 p02 p10 p11 p12 p20 p21 p22]; cbn. intros ->.
  destruct (fdiv (p11 * p22 - p12 * p21) _); cbn; auto.
  destruct (fdiv (-p01 * p22 + p02 * p21) _); cbn; auto.
  destruct (fdiv (p01 * p12 - p02 * p11) _); cbn; auto.
  destruct (fdiv (-p10 * p22 + p12 * p20) _); cbn; auto.
  replace ((0 * p11 - p01 * p10) * (0 * p22 - p02 * p20) - (0 * p12 - p02 * p10) * (0 * p21 - p01 * p20)) with 0 by ring.
  rewrite fdiv_none. reflexivity.
Qed.

Lemma inverse_general_det0 m : Matrix_Determinant_3x3 m = 0 -> MLA_COMPUTE_INVERSE_3x3_GENERAL m = None.
Proof.
  destruct m as [p00 p01 p02 p10 p11 p12 p20 p21 p22]; unfold Matrix_Determinant_3x3; cbn. intros ->.
  rewrite fdiv_none. reflexivity.
Qed.

Lemma inverse_sym s : s00 s <> 0 -> Matrix_Determinant_3x3_Symmetric s <> 0 ->
  exists i, Matrix_Inverse_3x3_Symmetric s = Some i /\ inverse_of (full i) (full s).
Proof.
  intros Ha Hd.
  pose proof (det_factor (full s)) as F.
  unfold Matrix_Determinant_3x3_Symmetric in Hd.
  change (M3 (s00 s) (s01 s) (s02 s) (s01 s) (s11 s) (s12 s) (s02 s) (s12 s) (s22 s)) with (full s) in Hd.
  assert (Hp : a00 (full s) * Matrix_Determinant_3x3 (full s) <> 0).
  { apply Rmult_integral_contrapositive_currified; auto. }
  rewrite <- F in Hp. clear F.
  destruct s as [p00 p01 p02 p11 p12 p22]. unfold Matrix_Determinant_3x3 in *. cbn in *.
  rewrite !fdiv_some by assumption. cbn.
  eexists; split; [reflexivity|].
  intros i j Hi Hj. d3 i; d3 j; cbn; unfold delta; cbn; split; field; auto.
Qed.

Lemma pd_nonzero s : positive_definite s -> 0 < s00 s /\ 0 < Matrix_Determinant_3x3_Symmetric s.
Proof.
  intros H. destruct s as [a b c d e f].
  set (s := S3 a b c d e f) in *.
  assert (A : 0 < a).
  { specialize (H (fun i => match i with O => 1 | _ => 0 end)).
    unfold quad in H; cbn in H. assert (0 < a); [|lra].
    match type of H with _ -> 0 < ?x => replace x with a in H by ring end. apply H. exists O; split; [lia|lra]. }
  assert (B : 0 < a*d - b*b).
  { specialize (H (fun i => match i with O => - b | 1%nat => a | _ => 0 end)).
    unfold quad in H; cbn in H.
    match type of H with _ -> 0 < ?x => replace x with (a*(a*d - b*b)) in H by ring end.
    assert (0 < a * (a*d - b*b)) by (apply H; exists 1%nat; split; [lia|lra]). nra. }
  split; [exact A|].
  unfold Matrix_Determinant_3x3_Symmetric, Matrix_Determinant_3x3; cbn.
  specialize (H (fun i => match i with O => b*e - c*d | 1%nat => b*c - a*e | _ => a*d-b*b end)).
  unfold quad in H; cbn in H.
  match type of H with _ -> 0 < ?x => replace x with
   ((a*d - b*b) * (a * d * f - a * e * e - b * b * f + b * e * c + c * b * e - c * d * c)) in H by ring end.
  assert (K : 0 < (a*d - b*b) * (a * d * f - a * e * e - b * b * f + b * e * c + c * b * e - c * d * c)).
  { apply H. exists 2%nat; split; [lia|lra]. }
  nra.
Qed.

Lemma inverse_pd s : positive_definite s ->
  exists i, Matrix_Inverse_3x3_Symmetric s = Some i /\ inverse_of (full i) (full s).
Proof. intros H; apply pd_nonzero in H as [? ?]. apply inverse_sym; lra. Qed.

(** ** boost *)
Definition sg (inverse : Z) : R := if Z.eqb inverse 1 then -1 else 1.
Lemma sg2 i : sg i * sg i = 1. Proof. unfold sg; destruct (Z.eqb i 1); lra. Qed.

Lemma boost_form Bx By Bz i v :
  let B2 := Bx*Bx+By*By+Bz*Bz in
  B2 < 1 -> ROUND_OFF_ERR <= B2 ->
  let s := sg i in let g := / sqrt (1 - B2) in let k := (g - 1) / B2 in
  let p := s * (Bx * u1 v + By * u2 v + Bz * u3 v) in
  boost_transformation Bx By Bz B2 i v =
   Some (V4 (g * (u0 v - p)) (u1 v + s * Bx * (k * p - g * u0 v)) (u2 v + s * By * (k * p - g * u0 v)) (u3 v + s * Bz * (k * p - g * u0 v))).
Proof.
  intros B2 H1 H2 s g k p. unfold boost_transformation.
  pose proof ROE_pos as RP.
  destruct (ltR_spec (1 - B2) 0); [lra|].
  assert (Hs : 0 < sqrt (1 - B2)) by (apply sqrt_lt_R0; lra).
  rewrite fdiv_some by lra. cbn [fbind].
  assert (E : EQL B2 0 = false). { apply EQL_false. rewrite Rminus_0_r, Rabs_pos_eq; lra. }
  rewrite E. rewrite !fdiv_some by lra. cbn [fbind].
  destruct v as [v0 v1 v2 v3]. cbn [u0 u1 u2 u3] in *.
  fold (sg i).
  assert (Hg : 1 / sqrt (1 - B2) = g) by (unfold g; field; lra).
  rewrite !Hg.
  assert (B2 <> 0) by lra.
  pose proof (sg2 i) as S2. fold s in S2. fold s.
  f_equal. f_equal; unfold k, p, Pow2; try (field; auto).
Qed.

Lemma gamma_facts b : 0 <= b < 1 -> let g := / sqrt (1 - b) in 0 < g /\ g*g*(1-b) = 1.
Proof.
  intros. assert (Hs : 0 < sqrt (1 - b)) by (apply sqrt_lt_R0; lra).
  split. apply Rinv_0_lt_compat; auto.
  unfold g. rewrite <- (sqrt_sqrt (1-b)) at 3 by lra. field. lra.
Qed.

Lemma boost_identity Bx By Bz i v :
  Bx*Bx+By*By+Bz*Bz = 0 -> boost_transformation Bx By Bz 0 i v = Some v.
Proof.
  intros H. assert (Bx = 0 /\ By = 0 /\ Bz = 0) as (-> & -> & ->) by (repeat split; nra).
  unfold boost_transformation. destruct (ltR_spec (1 - 0) 0); [lra|].
  rewrite Rminus_0_r, sqrt_1. rewrite fdiv_some by lra. cbn [fbind].
  rewrite EQL_refl. cbn [fbind]. destruct v as [v0 v1 v2 v3].
  f_equal. fold (sg i). f_equal; field.
Qed.

(** What the theorem needs about one boost, as an algebraic fact. *)
Lemma boost_step Bx By Bz i v :
  let B2 := Bx*Bx+By*By+Bz*Bz in
  B2 < 1 -> (B2 = 0 \/ ROUND_OFF_ERR <= B2) ->
  exists w, boost_transformation Bx By Bz B2 i v = Some w /\ interval w = interval v.
Proof.
  intros B2 H1 [H2|H2].
  - rewrite H2. exists v; split; auto. apply boost_identity; auto.
  - pose proof ROE_pos as RP. rewrite boost_form by (fold B2; auto).
    eexists; split; [reflexivity|].
    fold B2. destruct (gamma_facts B2 ltac:(lra)) as [G1 G2]. set (g := / sqrt (1 - B2)) in *.
    unfold interval; destruct v as [v0 v1 v2 v3]; cbn [u0 u1 u2 u3].
    pose proof (sg2 i) as S2. set (s := sg i) in *.
    set (q := Bx * v1 + By * v2 + Bz * v3).
    set (k := (g - 1)/B2).
    assert (Hk : k * B2 = g - 1) by (unfold k; field; lra).
    set (m := k * (s * q) - g * v0).
    transitivity (- (g * (v0 - s*q))^2 + v1^2 + v2^2 + v3^2 + 2 * s * q * m + (s*s) * B2 * m^2).
    { unfold q, B2. ring. }
    rewrite S2.
    assert (Hm : B2 * m^2 + 2 * s * q * m = g^2 * (v0 - s*q)^2 - v0^2).
    { assert (Hb : B2 * m = (g-1) * (s*q) - g * B2 * v0) by (unfold m; rewrite <- Hk; ring).
      apply (Rmult_eq_reg_l B2); [|lra].
      transitivity ((B2*m)^2 + 2*(s*q)*(B2*m)). ring. rewrite Hb.
      assert (G3 : g*g*B2 = g*g - 1) by lra.
      transitivity ((g*g-1)*(s*q)^2 - 2*g*(s*q)*v0*(g*B2) + (g*g*B2)*B2*v0^2). ring.
      rewrite <- G3. 
      transitivity (g*g*B2*(s*q)^2 - 2*(g*g*B2)*(s*q)*v0 + (g*g*B2)*v0^2 - B2*v0^2); [|ring].
      replace (g*g*B2*B2*v0^2) with ((g*g-1)*B2*v0^2) by (rewrite <- G3; ring).
      ring. }
    nra.
Qed.

Lemma boost_inverse Bx By Bz v :
  let B2 := Bx*Bx+By*By+Bz*Bz in
  B2 < 1 -> (B2 = 0 \/ ROUND_OFF_ERR <= B2) ->
  forall i j w, (i = 1 <-> j <> 1)%Z ->
  boost_transformation Bx By Bz B2 i v = Some w -> boost_transformation Bx By Bz B2 j w = Some v.
Proof.
  intros B2 H1 [H2|H2] i j w Hij.
  - rewrite H2. rewrite !boost_identity by auto. congruence.
  - pose proof ROE_pos as RP. rewrite !boost_form by (fold B2; auto). fold B2.
    destruct (gamma_facts B2 ltac:(lra)) as [G1 G2]. set (g := / sqrt (1 - B2)) in *.
    intros E; injection E as <-. destruct v as [v0 v1 v2 v3]; cbn [u0 u1 u2 u3].
    assert (Sj : sg j = - sg i).
    { unfold sg. destruct (Z.eqb_spec i 1), (Z.eqb_spec j 1); try lra; exfalso; tauto. }
    rewrite Sj. pose proof (sg2 i) as S2. set (s := sg i) in *.
    set (k := (g - 1)/B2). 
    assert (Hk : k * B2 = g - 1) by (unfold k; field; lra).
    set (p := s * (Bx*v1+By*v2+Bz*v3)).
    set (m := k * p - g * v0).
    assert (P' : - s * (Bx * (v1 + s*Bx*m) + By * (v2 + s*By*m) + Bz * (v3 + s*Bz*m)) = - p - B2 * m).
    { unfold p. replace (- s * (Bx * (v1 + s*Bx*m) + By * (v2 + s*By*m) + Bz * (v3 + s*Bz*m))) with
        (- (s * (Bx*v1+By*v2+Bz*v3)) - (s*s) * (B2) * m) by (unfold B2; ring). rewrite S2. ring. }
    rewrite P'.
    assert (Bm : B2 * m = (g-1) * p - g * B2 * v0) by (unfold m; rewrite <- Hk; ring).
    assert (G3 : g*g*B2 = g*g - 1) by lra.
    assert (T : g * (g * (v0 - p) - (- p - B2 * m)) = v0).
    { rewrite Bm. transitivity (g*g*v0 - g*g*B2*v0). ring. rewrite G3. ring. }
    assert (K : k * (- p - B2 * m) - g * (g * (v0 - p)) = m).
    { apply (Rmult_eq_reg_l B2); [|lra].
      transitivity ((k*B2)*(-p - B2*m) - (g*g*B2)*(v0 - p)). ring.
      rewrite Hk, G3, Bm. replace (g * B2 * v0) with (g*B2*v0) by ring.
      transitivity ((g-1)*p*(1 - g) - p * (g-1) + (g-1)*(g*B2*v0) + (g*g-1)*p - (g*g-1)*v0 - (1-g)*0). ring_simplify.
      { ring. }
      replace ((g*g-1)*v0) with (g*g*B2*v0) by (rewrite G3; ring). ring. }
    rewrite T, K. f_equal. f_equal; ring_simplify; try ring.
    all: cbn; try (unfold p; ring).
Qed.

Lemma boost_to_rest Bx By Bz i :
  let B2 := Bx*Bx+By*By+Bz*Bz in
  B2 < 1 -> (B2 = 0 \/ ROUND_OFF_ERR <= B2) -> i <> 1%Z ->
  exists t, boost_transformation Bx By Bz B2 i (V4 1 Bx By Bz) = Some (V4 t 0 0 0) /\ 0 < t.
Proof.
  intros B2 H1 [H2|H2] Hi.
  - assert (Bx = 0 /\ By = 0 /\ Bz = 0) as (-> & -> & ->) by (unfold B2 in H2; repeat split; nra).
    rewrite H2, boost_identity by lra. exists 1. split; [reflexivity|lra].
  - pose proof ROE_pos as RP. rewrite boost_form by (fold B2; auto). fold B2.
    destruct (gamma_facts B2 ltac:(lra)) as [G1 G2]. set (g := / sqrt (1 - B2)) in *.
    cbn [u0 u1 u2 u3]. assert (sg i = 1) as -> by (unfold sg; destruct (Z.eqb_spec i 1); tauto).
    assert (P : 1 * (Bx * Bx + By * By + Bz * Bz) = B2) by (unfold B2; ring). rewrite P.
    assert (K : (g - 1)/B2 * B2 - g * 1 = -1) by (field; lra). rewrite K.
    exists (g * (1 - B2)). split; [f_equal; f_equal; ring|]. apply Rmult_lt_0_compat; lra.
Qed.

Lemma boost_superluminal Bx By Bz B2 i v : 1 <= B2 -> boost_transformation Bx By Bz B2 i v = None.
Proof.
  intros. unfold boost_transformation. destruct (ltR_spec (1 - B2) 0); auto.
  assert (1 - B2 = 0) as -> by lra. rewrite sqrt_0, fdiv_none. reflexivity.
Qed.

Lemma boost_slow Bx By Bz i :
  let B2 := Bx*Bx+By*By+Bz*Bz in
  0 < B2 < ROUND_OFF_ERR -> exists v w, boost_transformation Bx By Bz B2 i v = Some w /\ interval w <> interval v.
Proof.
  intros B2 [H1 H2].
  assert (Hlt : ROUND_OFF_ERR < 1) by (unfold ROUND_OFF_ERR; lra).
  exists (V4 0 Bx By Bz). unfold boost_transformation.
  destruct (ltR_spec (1 - B2) 0); [lra|].
  destruct (gamma_facts B2 ltac:(lra)) as [G1 G2]. set (g := / sqrt (1 - B2)) in *.
  assert (Hs : 0 < sqrt (1 - B2)) by (apply sqrt_lt_R0; lra).
  rewrite fdiv_some by lra. cbn [fbind].
  assert (E : EQL B2 0 = true). { apply EQL_iff. rewrite Rminus_0_r, Rabs_pos_eq; lra. }
  rewrite E. cbn [fbind]. eexists; split; [reflexivity|].
  assert (Hg : 1 / sqrt (1 - B2) = g) by (unfold g; field; lra). rewrite !Hg.
  fold (sg i). pose proof (sg2 i) as S2. set (s := sg i) in *.
  unfold interval; cbn [u0 u1 u2 u3]. intros K.
  assert (X : (s*s)*(g*g)*(B2*B2) = 0) by (unfold B2; nra). rewrite S2 in X.
  assert (0 < g*g*(B2*B2)) by (apply Rmult_lt_0_compat; nra). nra.
Qed.

(** ** rotation *)
Lemma sc2 x : sin x * sin x + cos x * cos x = 1.
Proof. apply sin2_cos2. Qed.

Lemma rotation_isometry Rx Ry Rz a v w c :
  let T := rotation_transformation Rx Ry Rz a in
  u0 (T v) = u0 v /\ dot3 (T v) (T w) = dot3 v w /\ triple (T v) (T w) (T c) = triple v w c.
Proof.
  cbv zeta. unfold rotation_transformation. destruct v as [v0 v1 v2 v3], w as [b0 b1 b2 b3], c as [c0 c1 c2 c3].
  set (s := if (a =? 1)%Z then 1 else -1).
  unfold dot3, triple; cbn [u0 u1 u2 u3].
  pose proof (sc2 (s*Rx)) as X. pose proof (sc2 (s*Ry)) as Y. pose proof (sc2 (s*Rz)) as Z.
  set (sx := sin (s*Rx)) in *. set (cx := cos (s*Rx)) in *.
  set (sy := sin (s*Ry)) in *. set (cy := cos (s*Ry)) in *.
  set (sz := sin (s*Rz)) in *. set (cz := cos (s*Rz)) in *.
  clearbody sx cx sy cy sz cz.
  assert (X' : cx*cx = 1 - sx*sx) by lra. assert (Y' : cy*cy = 1 - sy*sy) by lra. assert (Z' : cz*cz = 1 - sz*sz) by lra.
  split; [reflexivity|].
  (* one factor at a time *)
  assert (DZ : forall p1 p2 q1 q2, (cz*p1 + -sz*p2)*(cz*q1 + -sz*q2) + (sz*p1+cz*p2)*(sz*q1+cz*q2) = p1*q1+p2*q2).
  { intros. transitivity ((cz*cz + sz*sz)*(p1*q1+p2*q2)). ring. rewrite Z'. ring. }
  assert (DX : forall p1 p2 q1 q2, (cx*p1 + -sx*p2)*(cx*q1 + -sx*q2) + (sx*p1+cx*p2)*(sx*q1+cx*q2) = p1*q1+p2*q2).
  { intros. transitivity ((cx*cx + sx*sx)*(p1*q1+p2*q2)). ring. rewrite X'. ring. }
  assert (DY : forall p1 p2 q1 q2, (cy*p1 + sy*p2)*(cy*q1 + sy*q2) + (-sy*p1+cy*p2)*(-sy*q1+cy*q2) = p1*q1+p2*q2).
  { intros. transitivity ((cy*cy + sy*sy)*(p1*q1+p2*q2)). ring. rewrite Y'. ring. }
  split.
  - rewrite DZ. 
    rewrite (Rplus_comm (_ * _) ((cx * v2 + - sx * v3) * (cx * b2 + - sx * b3))), Rplus_assoc, DY.
    rewrite (Rplus_comm (v1 * b1)), <- Rplus_assoc, DX. ring.
  - set (A2 := cx * v2 + - sx * v3). set (A3 := sx * v2 + cx * v3).
    set (B2 := cx * b2 + - sx * b3). set (B3 := sx * b2 + cx * b3).
    set (C2 := cx * c2 + - sx * c3). set (C3 := sx * c2 + cx * c3).
    transitivity ((cz*cz+sz*sz)*(cy*cy+sy*sy)*(v1 * (B2 * C3 - B3 * C2) + A2 * (B3 * c1 - b1 * C3) + A3 * (b1 * C2 - B2 * c1))).
    { ring. }
    rewrite Z', Y'.
    transitivity (((cx*cx+sx*sx) * (v1 * (b2 * c3 - b3 * c2)) + (cx*cx+sx*sx) * (v2 * (b3 * c1 - b1 * c3) + v3 * (b1 * c2 - b2 * c1)))).
    { unfold A2, A3, B2, B3, C2, C3. ring. }
    rewrite X'. ring.
Qed.

Lemma rotation_sense phi :
  rotation_transformation 0 0 phi 1 (V4 0 1 0 0) = V4 0 (cos phi) (sin phi) 0 /\
  rotation_transformation phi 0 0 1 (V4 0 0 1 0) = V4 0 0 (cos phi) (sin phi) /\
  rotation_transformation 0 phi 0 1 (V4 0 0 0 1) = V4 0 (sin phi) 0 (cos phi).
Proof.
  unfold rotation_transformation; cbn. rewrite !Rmult_1_l, sin_0, cos_0. repeat split; f_equal; ring.
Qed.

Lemma rotation_order x y z v :
  rotation_transformation x y z 1 v =
  rotation_transformation 0 0 z 1 (rotation_transformation 0 y 0 1 (rotation_transformation x 0 0 1 v)).
Proof.
  unfold rotation_transformation; destruct v; cbn. rewrite ?Rmult_1_l, ?Rmult_0_r, ?sin_0, ?cos_0.
  f_equal; ring.
Qed.

Lemma rotation_undo x y z v a b : (a = 1 <-> b <> 1)%Z ->
  rotation_transformation 0 0 z b (rotation_transformation 0 0 z a v) = v /\
  rotation_transformation 0 y 0 b (rotation_transformation 0 y 0 a v) = v /\
  rotation_transformation x 0 0 b (rotation_transformation x 0 0 a v) = v.
Proof.
  intros Hab. unfold rotation_transformation; destruct v as [v0 v1 v2 v3]; cbn [u0 u1 u2 u3].
  assert (E : (if (b =? 1)%Z then 1 else -1) = - (if (a =? 1)%Z then 1 else -1)).
  { destruct (Z.eqb_spec a 1), (Z.eqb_spec b 1); try lra; exfalso; tauto. }
  rewrite E. set (s := if (a =? 1)%Z then 1 else -1).
  rewrite !Rmult_0_r, sin_0, cos_0.
  pose proof (sc2 (s*x)) as X. pose proof (sc2 (s*y)) as Y. pose proof (sc2 (s*z)) as Z.
  rewrite !Ropp_mult_distr_l_reverse, !sin_neg, !cos_neg.
  set (sx := sin (s*x)) in *. set (cx := cos (s*x)) in *.
  set (sy := sin (s*y)) in *. set (cy := cos (s*y)) in *.
  set (sz := sin (s*z)) in *. set (cz := cos (s*z)) in *.
  clearbody sx cx sy cy sz cz.
  repeat split; f_equal; try ring.
  all: match goal with |- _ = ?v => 
     first [ transitivity ((sx*sx+cx*cx)*v); [ring|rewrite X; ring] | transitivity ((sy*sy+cy*cy)*v); [ring|rewrite Y; ring] | transitivity ((sz*sz+cz*cz)*v); [ring|rewrite Z; ring] ] end.
Qed.

(** The passive transformation of two successive rotations is not the inverse. *)
Lemma rotation_not_undo :
  rotation_transformation (PI/2) 0 (PI/2) 0 (rotation_transformation (PI/2) 0 (PI/2) 1 (V4 0 1 0 0)) <> V4 0 1 0 0.
Proof.
  unfold rotation_transformation; cbn.
  replace (-1 * (PI / 2)) with (- (PI/2)) by ring. rewrite ?Rmult_1_l, ?Rmult_0_r, ?sin_neg, ?cos_neg.
  rewrite sin_0, cos_0, sin_PI2, cos_PI2. intros H; injection H. intros. lra.
Qed.

(** ** spherical / Cartesian *)
Lemma s2c_is_velocity (r th ph : R -> R) t0 r' th' ph' :
  derivable_pt_lim r t0 r' -> derivable_pt_lim th t0 th' -> derivable_pt_lim ph t0 ph' ->
  exists w, spheNcart_transformation (r t0) (th t0) (ph t0) false true (V3 r' th' ph') = Some (Some w) /\
   derivable_pt_lim (fun t => r t * sin (th t) * cos (ph t)) t0 (w0 w) /\
   derivable_pt_lim (fun t => r t * sin (th t) * sin (ph t)) t0 (w1 w) /\
   derivable_pt_lim (fun t => r t * cos (th t)) t0 (w2 w).
Proof.
  intros Hr Ht Hp. eexists; split; [reflexivity|]. cbn [w0 w1 w2 mvec dc_ds a00 a01 a02 a10 a11 a12 a20 a21 a22].
  assert (St : derivable_pt_lim (fun t => sin (th t)) t0 (cos (th t0) * th')).
  { apply (derivable_pt_lim_comp th sin); auto. apply derivable_pt_lim_sin. }
  assert (Ct : derivable_pt_lim (fun t => cos (th t)) t0 (- sin (th t0) * th')).
  { apply (derivable_pt_lim_comp th cos); auto. apply derivable_pt_lim_cos. }
  assert (Sp : derivable_pt_lim (fun t => sin (ph t)) t0 (cos (ph t0) * ph')).
  { apply (derivable_pt_lim_comp ph sin); auto. apply derivable_pt_lim_sin. }
  assert (Cp : derivable_pt_lim (fun t => cos (ph t)) t0 (- sin (ph t0) * ph')).
  { apply (derivable_pt_lim_comp ph cos); auto. apply derivable_pt_lim_cos. }
  pose proof (derivable_pt_lim_mult _ _ _ _ _ Hr St) as RS.
  pose proof (derivable_pt_lim_mult _ _ _ _ _ RS Cp) as X.
  pose proof (derivable_pt_lim_mult _ _ _ _ _ RS Sp) as Y.
  pose proof (derivable_pt_lim_mult _ _ _ _ _ Hr Ct) as Z.
  unfold mult_fct in *. 
  repeat split.
  - match goal with |- derivable_pt_lim _ _ ?x => match type of X with derivable_pt_lim _ _ ?y => replace x with y by ring end end. exact X.
  - match goal with |- derivable_pt_lim _ _ ?x => match type of Y with derivable_pt_lim _ _ ?y => replace x with y by ring end end. exact Y.
  - match goal with |- derivable_pt_lim _ _ ?x => match type of Z with derivable_pt_lim _ _ ?y => replace x with y by ring end end. exact Z.
Qed.

Lemma det_dc_ds r th ph : Matrix_Determinant_3x3 (dc_ds r th ph) = r * r * sin th.
Proof.
  unfold Matrix_Determinant_3x3, dc_ds; cbn.
  pose proof (sc2 ph) as P. pose proof (sc2 th) as T.
  set (sp := sin ph) in *; set (cp := cos ph) in *; set (st := sin th) in *; set (ct := cos th) in *.
  transitivity ((sp*sp+cp*cp)*(st*st+ct*ct)*(r*r*st)). ring. rewrite P, T. ring.
Qed.

Lemma mvec_inverse B A v : inverse_of B A -> mvec A (mvec B v) = v /\ mvec B (mvec A v) = v.
Proof.
  intros H.
  assert (E : forall i j, (i < 3)%nat -> (j < 3)%nat -> 
    entry A i 0 * entry B 0 j + entry A i 1 * entry B 1 j + entry A i 2 * entry B 2 j = delta i j /\
    entry B i 0 * entry A 0 j + entry B i 1 * entry A 1 j + entry B i 2 * entry A 2 j = delta i j).
  { intros i j Hi Hj. destruct (H i j Hi Hj) as [P Q]. cbn [Rsum] in P, Q. split; lra. }
  destruct A as [a b c d e f g h k], B as [a' b' c' d' e' f' g' h' k'], v as [x y z].
  assert (L := fun i j p q => E i j p q). clear E H.
  pose proof (L 0 0 ltac:(lia) ltac:(lia))%nat as [E00 F00]. pose proof (L 0 1 ltac:(lia) ltac:(lia))%nat as [E01 F01]. pose proof (L 0 2 ltac:(lia) ltac:(lia))%nat as [E02 F02].
  pose proof (L 1 0 ltac:(lia) ltac:(lia))%nat as [E10 F10]. pose proof (L 1 1 ltac:(lia) ltac:(lia))%nat as [E11 F11]. pose proof (L 1 2 ltac:(lia) ltac:(lia))%nat as [E12 F12].
  pose proof (L 2 0 ltac:(lia) ltac:(lia))%nat as [E20 F20]. pose proof (L 2 1 ltac:(lia) ltac:(lia))%nat as [E21 F21]. pose proof (L 2 2 ltac:(lia) ltac:(lia))%nat as [E22 F22].
  unfold delta in *; cbn in *.
  split; f_equal.
  - transitivity ((a*a'+b*d'+c*g')*x + (a*b'+b*e'+c*h')*y + (a*c'+b*f'+c*k')*z). ring. rewrite E00, E01, E02. ring.
  - transitivity ((d*a'+e*d'+f*g')*x + (d*b'+e*e'+f*h')*y + (d*c'+e*f'+f*k')*z). ring. rewrite E10, E11, E12. ring.
  - transitivity ((g*a'+h*d'+k*g')*x + (g*b'+h*e'+k*h')*y + (g*c'+h*f'+k*k')*z). ring. rewrite E20, E21, E22. ring.
  - transitivity ((a'*a+b'*d+c'*g)*x + (a'*b+b'*e+c'*h)*y + (a'*c+b'*f+c'*k)*z). ring. rewrite F00, F01, F02. ring.
  - transitivity ((d'*a+e'*d+f'*g)*x + (d'*b+e'*e+f'*h)*y + (d'*c+e'*f+f'*k)*z). ring. rewrite F10, F11, F12. ring.
  - transitivity ((g'*a+h'*d+k'*g)*x + (g'*b+h'*e+k'*h)*y + (g'*c+h'*f+k'*k)*z). ring. rewrite F20, F21, F22. ring.
Qed.

Lemma c2s_inverse r th ph v : r <> 0 -> sin th <> 0 -> cos ph <> 0 ->
  exists w, spheNcart_transformation r th ph true false v = Some (Some w) /\
            spheNcart_transformation r th ph false true w = Some (Some v) /\
  exists z, spheNcart_transformation r th ph false true v = Some (Some z) /\
            spheNcart_transformation r th ph true false z = Some (Some v).
Proof.
  intros Hr Ht Hp.
  destruct (inverse_general (dc_ds r th ph)) as (i & E & I).
  - cbn. apply Rmult_integral_contrapositive_currified; auto.
  - rewrite det_dc_ds. repeat apply Rmult_integral_contrapositive_currified; auto.
  - unfold spheNcart_transformation. rewrite E. cbn [fbind].
    exists (mvec i v). split; [reflexivity|]. destruct (mvec_inverse i _ v I) as [P Q]. rewrite P.
    split; [reflexivity|]. exists (mvec (dc_ds r th ph) v). split; [reflexivity|]. rewrite Q. reflexivity.
Qed.

Lemma c2s_fails r th ph v s : cos ph = 0 -> spheNcart_transformation r th ph true s v = Some None.
Proof.
  intros H. unfold spheNcart_transformation.
  rewrite inverse_general_none; [reflexivity|]. cbn. rewrite H. ring.
Qed.
