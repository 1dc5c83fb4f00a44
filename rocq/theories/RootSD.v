(** RootSD.v - proofs about the steepest descent. *)
From Coq Require Import FunctionalExtensionality.
From Verif Require Import RealBase RootModel RootProofs.
Open Scope R_scope.

Lemma g_nonneg fs x : 0 <= g_SD fs x.
Proof. induction fs; cbn [g_SD]; [lra|]. pose proof (pow2_ge_0 (a x)). lra. Qed.

(** g = 0 exactly at the common roots. *)
Lemma g_zero fs x : g_SD fs x = 0 <-> Forall (fun f => f x = 0) fs.
Proof.
  induction fs as [|f fs IH]; cbn [g_SD].
  - split; auto.
  - pose proof (pow2_ge_0 (f x)). pose proof (g_nonneg fs x). split; intros H1.
    + constructor; [apply (Rsqr_0_uniq (f x)); unfold Rsqr; nra|apply IH; lra].
    + inversion H1; subst. rewrite H4. apply IH in H5. lra.
Qed.

Lemma step_0 x z : step x 0 z = x.
Proof. apply functional_extensionality. intros i. unfold step. lra. Qed.
Lemma upd_same x d : upd x d (x d) = x.
Proof. apply functional_extensionality. intros i. unfold upd. destruct (Nat.eqb_spec i d) as [->|]; reflexivity. Qed.
Lemma upd_upd x d u v : upd (upd x d u) d v = upd x d v.
Proof. apply functional_extensionality. intros i. unfold upd. destruct (Nat.eqb_spec i d); reflexivity. Qed.
Lemma upd_at x d u : upd x d u d = u.
Proof. unfold upd. rewrite Nat.eqb_refl. reflexivity. Qed.

Section P.
Variables (fs : list eqn) (n : nat) (dg : vec -> nat -> R) (TOL : R).
Notation g := (g_SD fs).

Lemma line_search_ok fuel : forall x z alpha3 g3 o,
  0 < alpha3 -> g3 = g (step x alpha3 z) ->
  line_search fs TOL fuel x z (g x) alpha3 g3 = Some o ->
  match o with
  | inl (a, v) => 0 < a /\ v = g (step x a z) /\ v < g x
  | inr (y, v) => exists a, 0 < a < / 2 * TOL /\ y = step x a z /\ v = g y
  end.
Proof.
  induction fuel as [|fuel IH]; intros x z alpha3 g3 o Ha Hg E; cbn [line_search] in E.
  - destruct (leR_spec (g x) g3); [discriminate|]. injection E as <-. repeat split; auto; lra.
  - destruct (leR_spec (g x) g3).
    + cbv zeta in E. destruct (ltR_spec (alpha3 / 2) (/ 2 * TOL)).
      * injection E as <-. exists (alpha3 / 2). split; [lra|]. split; reflexivity.
      * eapply IH; [|reflexivity|exact E]. lra.
    + injection E as <-. repeat split; auto; lra.
Qed.

Lemma line_search_ends fuel : forall x z g1 alpha3 g3,
  0 < TOL -> alpha3 / 2 ^ fuel < / 2 * TOL -> (1 <= fuel)%nat ->
  line_search fs TOL fuel x z g1 alpha3 g3 <> None.
Proof.
  induction fuel as [|fuel IH]; intros x z g1 alpha3 g3 HT Hf H1; [lia|].
  cbn [line_search]. destruct (leR_spec g1 g3); [|discriminate]. cbv zeta.
  destruct (ltR_spec (alpha3 / 2) (/ 2 * TOL)); [discriminate|].
  destruct fuel as [|fuel].
  - exfalso. apply n0. simpl in Hf. lra.
  - apply IH; [exact HT| |lia].
    replace (alpha3 / 2 / 2 ^ S fuel) with (alpha3 / 2 ^ S (S fuel)); [exact Hf|].
    cbn [pow]. field. apply pow_nonzero; lra.
Qed.

Definition grad_norm (x : vec) : R := sqrt (Rsum n (fun i => dg x i ^ 2)).
Lemma root_square_norm x : root_square1 n (dg x) = grad_norm x.
Proof. unfold root_square1, grad_norm, Pow2. f_equal. apply Rsum_ext. intros. simpl. lra. Qed.

Lemma component_le z i m : (i < m)%nat -> Rabs (z i) <= sqrt (Rsum m (fun i => Pow2 (z i))).
Proof.
  intros Hi. rewrite <- (sqrt_Rsqr_abs (z i)). apply sqrt_le_1_alt.
  induction m as [|m IH]; [lia|]. cbn [Rsum].
  assert (P : forall m, 0 <= Rsum m (fun i => Pow2 (z i))).
  { intros k. apply Rsum_nonneg. intros. unfold Pow2. nra. }
  destruct (Nat.eq_dec i m) as [->|N].
  - specialize (P m). unfold Pow2, Rsqr in *. lra.
  - specialize (IH ltac:(lia)). unfold Pow2 at 2. pose proof (Rle_0_sqr (z m)). unfold Rsqr in *. lra.
Qed.

Inductive pass_end (x : vec) : sd_result -> Prop :=
| pe_extrema : grad_norm x < ROUND_OFF_ERR -> pass_end x (mkSD EXTREMA x (Some (sqrt (g x))))
| pe_noimp y : (forall i, (i < n)%nat -> Rabs (y i - x i) < / 2 * TOL) ->
    pass_end x (mkSD NO_IMPROVEMENT y (Some (sqrt (g y))))
| pe_ok y : g y < g x -> g x - g y < TOL -> pass_end x (mkSD OK y (Some (sqrt (g y)))).

Lemma sd_pass_ok fuel x o : sd_pass fs n dg TOL fuel x = Some o ->
  match o with
  | inl r => pass_end x r
  | inr (x', v) => v = g x' /\ g x' < g x /\ TOL <= g x - g x'
  end.
Proof.
  unfold sd_pass. cbv zeta. rewrite root_square_norm.
  destruct (EQL (grad_norm x) 0) eqn:Z.
  { intros E. injection E as <-. apply pe_extrema. apply EQL_iff in Z. rewrite Rminus_0_r in Z.
    apply Rabs_def2 in Z. lra. }
  set (z := fun i => dg x i / grad_norm x).
  destruct (line_search fs TOL fuel x z (g x) 1 (g (step x 1 z))) as [o'|] eqn:L; [|discriminate].
  apply line_search_ok in L; [|lra|reflexivity].
  destruct o' as [[a3 g3]|[y g3]].
  - destruct L as (Ha & Hg & Hlt).
    assert (W : forall al v, v = g (step x al z) -> v < g x ->
      (if ltR (Rabs (v - g x)) TOL
       then Some (inl (mkSD OK (step x al z) (Some (sqrt v))))
       else Some (inr (step x al z, v))) = Some o ->
      match o with
      | inl r => pass_end x r
      | inr (x', v) => v = g x' /\ g x' < g x /\ TOL <= g x - g x'
      end).
    { intros al v -> Hv. rewrite Rabs_left by lra.
      destruct (ltR_spec (- (g (step x al z) - g x)) TOL); intros E; injection E as <-.
      - apply pe_ok; lra.
      - repeat split; lra. }
    destruct (alpha0_of fs x z (g x) a3 g3) as [al|].
    + destruct (ltR_spec (g (step x al z)) g3).
      * apply W; [reflexivity|lra].
      * apply W; [exact Hg|lra].
    + apply W; [exact Hg|lra].
  - destruct L as (a & Ha & -> & ->). intros E. injection E as <-. apply pe_noimp.
    intros i Hi. unfold step. replace (x i - a * z i - x i) with (- (a * z i)) by lra.
    rewrite Rabs_Ropp, Rabs_mult, (Rabs_right a) by lra.
    apply EQL_false in Z. rewrite Rminus_0_r in Z.
    assert (N0 : 0 <= grad_norm x) by apply sqrt_pos. rewrite Rabs_right in Z by lra.
    pose proof ROE_pos.
    assert (Rabs (z i) <= 1).
    { unfold z, Rdiv. rewrite Rabs_mult, Rabs_inv, (Rabs_right (grad_norm x)) by lra.
      apply Rmult_le_reg_r with (grad_norm x); [lra|]. rewrite Rmult_assoc, Rinv_l by lra.
      rewrite Rmult_1_r, Rmult_1_l. rewrite <- root_square_norm. apply component_le. exact Hi. }
    pose proof (Rabs_pos (z i)). nra.
Qed.

Lemma sd_pass_ends fuel x : 0 < TOL -> / 2 ^ fuel < / 2 * TOL -> (1 <= fuel)%nat ->
  sd_pass fs n dg TOL fuel x <> None.
Proof.
  intros HT HF H1. unfold sd_pass. cbv zeta. destruct (EQL _ 0); [discriminate|].
  destruct (line_search _ _ _ _ _ _ _ _) as [[[? ?]|[? ?]]|] eqn:L; try discriminate.
  - destruct (alpha0_of _ _ _ _ _ _); [destruct (ltR _ _)|]; destruct (ltR _ TOL); discriminate.
  - exfalso. eapply line_search_ends; [exact HT| |exact H1|exact L]. unfold Rdiv. lra.
Qed.

(** Where a run can end, relative to its start [x0]. *)
Inductive run_end (M : nat) (x0 : vec) : sd_result -> Prop :=
| re_undef : M = O -> run_end M x0 (mkSD UNDEF x0 None)
| re_extrema y : g y <= g x0 -> grad_norm y < ROUND_OFF_ERR ->
    run_end M x0 (mkSD EXTREMA y (Some (sqrt (g y))))
| re_noimp x y : g x <= g x0 -> (forall i, (i < n)%nat -> Rabs (y i - x i) < / 2 * TOL) ->
    run_end M x0 (mkSD NO_IMPROVEMENT y (Some (sqrt (g y))))
| re_ok x y : g x <= g x0 -> g y < g x -> g x - g y < TOL ->
    run_end M x0 (mkSD OK y (Some (sqrt (g y))))
| re_max y : (1 <= M)%nat -> g y < g x0 -> INR M * TOL <= g x0 - g y ->
    run_end M x0 (mkSD MAX_ITER y (Some (sqrt (g y)))).

Lemma sd_loop_ok fuel : forall left x r, sd_loop fs n dg TOL fuel left x = Some r ->
  run_end left x r.
Proof.
  induction left as [|left IH]; intros x r E; [discriminate|].
  cbn [sd_loop] in E. destruct (sd_pass fs n dg TOL fuel x) as [o|] eqn:P; [|discriminate].
  apply sd_pass_ok in P. destruct o as [r'|[x' v]].
  - injection E as <-. destruct P.
    + apply re_extrema; [lra|assumption].
    + eapply re_noimp; [|eassumption]. lra.
    + eapply re_ok; [|eassumption|assumption]. lra.
  - destruct P as (-> & P1 & P2). destruct left as [|left'].
    + injection E as <-. apply re_max; [lia|lra|]. simpl. lra.
    + apply IH in E. inversion E; subst.
      * discriminate.
      * apply re_extrema; [lra|assumption].
      * eapply re_noimp; [|eassumption]. lra.
      * eapply re_ok; [|eassumption|assumption]. lra.
      * apply re_max; [lia|lra|]. rewrite S_INR. lra.
Qed.

Lemma steepest_ok fuel M x r : steepest fs n dg TOL fuel M x = Some r -> run_end M x r.
Proof.
  unfold steepest. destruct M as [|M].
  - intros E. injection E as <-. apply re_undef. reflexivity.
  - intros E. eapply sd_loop_ok. exact E.
Qed.

Lemma sd_loop_ends fuel : forall left x, 0 < TOL -> / 2 ^ fuel < / 2 * TOL -> (1 <= fuel)%nat ->
  (1 <= left)%nat -> sd_loop fs n dg TOL fuel left x <> None.
Proof.
  induction left as [|left IH]; intros x HT HF H1 HL; [lia|]. cbn [sd_loop].
  destruct (sd_pass fs n dg TOL fuel x) as [[r|[x' v]]|] eqn:P; [discriminate| |].
  - destruct left; [discriminate|]. apply IH; auto. lia.
  - exfalso. eapply sd_pass_ends; eauto.
Qed.

Lemma steepest_ends M x : 0 < TOL -> exists fuel0, forall fuel, (fuel0 <= fuel)%nat ->
  steepest fs n dg TOL fuel M x <> None.
Proof.
  intros HT.
  assert (E : exists k, / 2 ^ k < / 2 * TOL).
  { destruct (pow_lt_1_zero (/ 2) ltac:(rewrite Rabs_right; lra) (/ 2 * TOL) ltac:(lra)) as [k Hk].
    exists k. specialize (Hk k ltac:(lia)). rewrite pow_inv in Hk.
    apply Rabs_def2 in Hk. lra. }
  destruct E as [k Hk]. exists (S k). intros fuel HF. unfold steepest. destruct M; [discriminate|].
  apply sd_loop_ends; auto; try lia.
  eapply Rle_lt_trans; [|exact Hk]. apply Rinv_le_contravar; [apply pow_lt; lra|].
  apply Rle_pow; [lra|lia].
Qed.
End P.

(** ** Gradients *)
Lemma g_deriv fs dfs x dir : length fs = length dfs ->
  (forall k, (k < length fs)%nat ->
     derivable_pt_lim (fun t => nth k fs (fun _ => 0) (upd x dir t)) (x dir) (nth k dfs (fun _ _ => 0) x dir)) ->
  derivable_pt_lim (fun t => g_SD fs (upd x dir t)) (x dir) (gradient fs (Given dfs) x dir).
Proof.
  cbn [gradient]. unfold dg_dx_of_df_dx_SD.
  revert dfs. induction fs as [|f fs IH]; intros [|df dfs] Hl H; try discriminate.
  - cbn [combine dg_sum g_SD]. rewrite Rmult_0_l. apply derivable_pt_lim_const.
  - cbn [combine dg_sum g_SD]. pose proof (H 0%nat ltac:(simpl; lia)) as H0. cbn [nth] in H0.
    rewrite Rmult_plus_distr_r. apply derivable_pt_lim_plus.
    + pose proof (derivable_pt_lim_mult _ _ _ _ _ H0 H0) as D. cbv beta in D.
      rewrite upd_same in D.
      replace (f x * df x dir * 2) with (df x dir * f x + f x * df x dir) by lra.
      intros e He. destruct (D e He) as [dl Hd]. exists dl. intros h Hh1 Hh2.
      specialize (Hd h Hh1 Hh2). unfold mult_fct in Hd.
      replace (f (upd x dir (x dir + h)) ^ 2) with (f (upd x dir (x dir + h)) * f (upd x dir (x dir + h))) by (simpl; lra).
      replace (f (upd x dir (x dir)) ^ 2) with (f (upd x dir (x dir)) * f (upd x dir (x dir))) by (simpl; lra).
      exact Hd.
    + apply IH; [simpl in Hl; lia|]. intros k Hk. apply (H (S k)). simpl. lia.
Qed.

Lemma h_pos v : 0 < h_SD v.
Proof.
  unfold h_SD, eps_SD. cbv zeta. destruct (ltR_spec (/ 10000) (Rabs v * / 10000)); lra.
Qed.

(** The three stencils are exact when the sum of squares is a quadratic along the direction, which
    is the case for equations linear in that unknown. *)
Lemma fd_exact fs x dir c0 c1 c2 :
  (forall t, g_SD fs (upd x dir t) = c0 + c1 * t + c2 * t ^ 2) ->
  forall how, how = FD_Left \/ how = FD_Right \/ how = FD_Mid ->
  gradient fs how x dir = c1 + 2 * c2 * x dir.
Proof.
  intros H how Hh. pose proof (h_pos (x dir)) as Hp.
  assert (H0 : g_SD fs x = c0 + c1 * x dir + c2 * x dir ^ 2) by (rewrite <- H, upd_same; reflexivity).
  destruct Hh as [-> | [-> | ->]]; cbn [gradient];
  unfold dg_dx_FD3L_SD, dg_dx_FD3R_SD, dg_dx_FD3M_SD; cbv zeta;
  rewrite ?upd_at, ?upd_upd, !H, ?H0; field; lra.
Qed.

(** ** Counterexamples *)
(** The equation 1 + s x^2 = 0 has no real root; the run from 1/2 with tolerance s says OK at 0. *)
Definition noroot (s : R) : eqn := fun x => 1 + s * (x 0%nat) ^ 2.
Definition dnoroot (s : R) : vec -> nat -> R := fun x _ => 2 * s * x 0%nat.

Lemma noroot_ok s : ROUND_OFF_ERR <= s <= 1 ->
  exists r, steepest_descent [noroot s] 1 (Given [dnoroot s]) s 2 1 (fun _ => / 2) = Some r /\
    s_status r = OK /\ s_residual r = Some 1.
Proof.
  intros [S1 S2]. pose proof ROE_pos as RP.
  unfold steepest_descent, steepest. cbn [sd_loop]. unfold sd_pass. cbv zeta.
  set (x0 := fun _ : nat => / 2).
  set (dg := gradient [noroot s] (Given [dnoroot s])).
  assert (D : dg x0 0%nat = 2 * s * (1 + s / 4)).
  { unfold dg, gradient, dg_dx_of_df_dx_SD. cbn [combine dg_sum]. unfold noroot, dnoroot, x0. field. }
  assert (Z : root_square1 1 (dg x0) = 2 * s * (1 + s / 4)).
  { unfold root_square1. cbn [Rsum]. rewrite D. unfold Pow2. rewrite Rplus_0_l.
    apply sqrt_square. nra. }
  assert (Zp : 0 < 2 * s * (1 + s / 4)) by nra.
  rewrite Z.
  destruct (EQL (2 * s * (1 + s / 4)) 0) eqn:EZ.
  { exfalso. apply EQL_iff in EZ. rewrite Rminus_0_r, Rabs_right in EZ by nra. nra. }
  set (z := fun i : nat => dg x0 i / (2 * s * (1 + s / 4))).
  assert (Z0 : z 0%nat = 1) by (unfold z; rewrite D; field; nra).
  assert (G : forall al, g_SD [noroot s] (step x0 al z) = (1 + s * (/ 2 - al) ^ 2) ^ 2).
  { intros al. cbn [g_SD]. unfold noroot, step. rewrite Z0. unfold x0. field. }
  assert (G1 : g_SD [noroot s] x0 = (1 + s / 4) ^ 2).
  { cbn [g_SD]. unfold noroot, x0. field. }
  assert (L : line_search [noroot s] s 2 x0 z (g_SD [noroot s] x0) 1 (g_SD [noroot s] (step x0 1 z))
              = Some (inl (/ 2, 1))).
  { cbn [line_search]. rewrite ?G, G1. cbv zeta. rewrite ?G.
    destruct (leR_spec ((1 + s / 4) ^ 2) ((1 + s * (/ 2 - 1) ^ 2) ^ 2)) as [_|N]; [|exfalso; apply N; right; field].
    destruct (ltR_spec (1 / 2) (/ 2 * s)) as [H|_]; [lra|].
    replace ((1 + s * (/ 2 - 1 / 2) ^ 2) ^ 2) with 1 by field.
    destruct (leR_spec ((1 + s / 4) ^ 2) 1) as [H|_]; [nra|].
    f_equal. f_equal. f_equal. lra. }
  rewrite L.
  assert (A : (match alpha0_of [noroot s] x0 z (g_SD [noroot s] x0) (/ 2) 1 with
          | Some al => let g0 := g_SD [noroot s] (step x0 al z) in
                       if ltR g0 1 then (al, g0) else (/ 2, 1)
          | None => (/ 2, 1) end) = (/ 2, 1)).
  { destruct (alpha0_of _ _ _ _ _ _) as [al|]; [|reflexivity]. cbv zeta. rewrite G.
    destruct (ltR_spec ((1 + s * (/ 2 - al) ^ 2) ^ 2) 1) as [H|_]; [|reflexivity].
    exfalso. pose proof (pow2_ge_0 (/ 2 - al)) as Q. assert (0 <= s * (/ 2 - al) ^ 2) by (apply Rmult_le_pos; lra).
    nra. }
  cbv zeta in A. rewrite A. rewrite G1.
  replace (Rabs (1 - (1 + s / 4) ^ 2)) with ((1 + s / 4) ^ 2 - 1) by (rewrite Rabs_left; nra).
  destruct (ltR_spec ((1 + s / 4) ^ 2 - 1) s) as [_|N]; [|exfalso; apply N; nra].
  eexists. split; [reflexivity|]. cbn [s_status s_residual]. rewrite sqrt_1. split; reflexivity.
Qed.

(** 1 + |x| from its minimum x = 0 with right-sided differences: every trial is worse. *)
Definition vshape : eqn := fun x => 1 + Rabs (x 0%nat).
Definition zerov : vec := fun _ => 0.


Lemma vshape_dir : 0 < gradient [vshape] FD_Right zerov 0%nat /\
  ROUND_OFF_ERR <= gradient [vshape] FD_Right zerov 0%nat.
Proof.
  assert (E : gradient [vshape] FD_Right zerov 0%nat = 2).
  { cbn [gradient]. unfold dg_dx_FD3R_SD. cbv zeta.
    replace (h_SD (zerov 0%nat)) with eps_SD.
    2:{ unfold h_SD, zerov. cbv zeta. rewrite Rabs_R0, Rmult_0_l.
        destruct (ltR_spec eps_SD 0) as [H|_]; [unfold eps_SD in H; lra|reflexivity]. }
    rewrite !upd_upd, !upd_at. cbn [g_SD]. unfold vshape. rewrite !upd_at. unfold zerov.
    rewrite Rabs_R0, !(Rabs_right) by (unfold eps_SD; lra). unfold eps_SD. field. }
  rewrite E. unfold ROUND_OFF_ERR. lra.
Qed.

Lemma vshape_setup : exists z : vec, z 0%nat = 1 /\ forall TOL fuel,
  sd_pass [vshape] 1 (gradient [vshape] FD_Right) TOL fuel zerov =
  match line_search [vshape] TOL fuel zerov z 1 1 ((1 + 1) ^ 2) with
  | None => None
  | Some (inr (y, g3)) => Some (inl (mkSD NO_IMPROVEMENT y (Some (sqrt g3))))
  | Some (inl (alpha3, g3)) => sd_pass [vshape] 1 (gradient [vshape] FD_Right) TOL fuel zerov
  end.
Proof.
  destruct vshape_dir as [P1 P2].
  set (G := gradient [vshape] FD_Right zerov 0%nat) in *.
  assert (Z : root_square1 1 (gradient [vshape] FD_Right zerov) = G).
  { unfold root_square1. cbn [Rsum]. fold G. unfold Pow2. rewrite Rplus_0_l. apply sqrt_square. lra. }
  exists (fun i => gradient [vshape] FD_Right zerov i / G). split; [fold G; field; lra|].
  intros TOL fuel. unfold sd_pass at 1. cbv zeta. rewrite Z.
  destruct (EQL G 0) eqn:EZ.
  { exfalso. apply EQL_iff in EZ. rewrite Rminus_0_r, Rabs_right in EZ by lra. lra. }
  set (z := fun i => gradient [vshape] FD_Right zerov i / G).
  assert (Z0 : z 0%nat = 1) by (unfold z; fold G; field; lra).
  assert (E1 : g_SD [vshape] zerov = 1).
  { cbn [g_SD]. unfold vshape, zerov. rewrite Rabs_R0. lra. }
  assert (E2 : g_SD [vshape] (step zerov 1 z) = (1 + 1) ^ 2).
  { cbn [g_SD]. unfold vshape, step, zerov. rewrite Z0. replace (0 - 1 * 1) with (- (1)) by lra.
    rewrite Rabs_Ropp, Rabs_R1. lra. }
  rewrite E1, E2.
  destruct (line_search _ _ _ _ _ _ _ _) as [[[a3 g3]|[y g3]]|] eqn:L; try reflexivity.
  (* the successful branch equals the pass itself *)
  unfold sd_pass. cbv zeta. rewrite Z, EZ. fold z. rewrite E1, E2, L. reflexivity.
Qed.

Lemma vshape_g z al : z 0%nat = 1 -> 0 < al -> g_SD [vshape] (step zerov al z) = (1 + al) ^ 2.
Proof.
  intros Z H. cbn [g_SD]. unfold vshape, step, zerov. rewrite Z.
  replace (0 - al * 1) with (- al) by lra. rewrite Rabs_Ropp, Rabs_right by lra. lra.
Qed.

Lemma vshape_search z TOL fuel : z 0%nat = 1 -> forall al, 0 < al ->
  match line_search [vshape] TOL fuel zerov z 1 al ((1 + al) ^ 2) with
  | None => True
  | Some (inr (y, g3)) => 0 < TOL /\ exists b, 0 < b /\ y = step zerov b z /\ g3 = (1 + b) ^ 2
  | Some (inl _) => False
  end.
Proof.
  intros Z. induction fuel as [|fuel IH]; intros al Ha; cbn [line_search].
  - destruct (leR_spec 1 ((1 + al) ^ 2)) as [_|N]; [trivial|apply N; nra].
  - destruct (leR_spec 1 ((1 + al) ^ 2)) as [_|N]; [|apply N; nra]. cbv zeta.
    rewrite vshape_g by (auto; lra).
    destruct (ltR_spec (al / 2) (/ 2 * TOL)) as [H|H].
    + split; [lra|]. exists (al / 2). split; [lra|]. split; reflexivity.
    + apply IH. lra.
Qed.

(** With a positive tolerance the run stores a point worse than the one it started from. *)
Lemma vshape_worse TOL M : 0 < TOL -> (1 <= M)%nat ->
  exists fuel r v, steepest_descent [vshape] 1 FD_Right TOL fuel M zerov = Some r /\
    s_status r = NO_IMPROVEMENT /\ s_residual r = Some v /\ v > 1 /\ g_SD [vshape] zerov = 1.
Proof.
  intros HT HM. unfold steepest_descent.
  destruct (steepest_ends [vshape] 1 (gradient [vshape] FD_Right) TOL M zerov HT) as [fuel Hf].
  specialize (Hf fuel (le_n _)).
  destruct vshape_setup as (z & Z0 & Hp). specialize (Hp TOL fuel).
  pose proof (vshape_search z TOL fuel Z0 1 ltac:(lra)) as S.
  unfold steepest in Hf. destruct M as [|M]; [lia|]. cbn [sd_loop] in Hf.
  destruct (line_search [vshape] TOL fuel zerov z 1 1 ((1 + 1) ^ 2)) as [[w|[y g3]]|]; [contradiction| |].
  - destruct S as (_ & b & Hb & Hy & Hg).
    exists fuel, (mkSD NO_IMPROVEMENT y (Some (sqrt g3))), (sqrt g3).
    unfold steepest. cbn [sd_loop]. rewrite Hp.
    repeat split; auto.
    + subst g3. replace ((1 + b) ^ 2) with ((1 + b) * (1 + b)) by lra. rewrite sqrt_square by lra. lra.
    + cbn [g_SD]. unfold vshape, zerov. rewrite Rabs_R0. lra.
  - exfalso. apply Hf. rewrite Hp. reflexivity.
Qed.

(** With a tolerance that is not positive the search never ends. *)
Lemma vshape_diverges TOL M : TOL <= 0 -> (1 <= M)%nat ->
  forall fuel, steepest_descent [vshape] 1 FD_Right TOL fuel M zerov = None.
Proof.
  intros HT HM fuel. unfold steepest_descent.
  destruct vshape_setup as (z & Z0 & Hp). specialize (Hp TOL fuel).
  pose proof (vshape_search z TOL fuel Z0 1 ltac:(lra)) as S.
  unfold steepest. destruct M as [|M]; [lia|]. cbn [sd_loop].
  destruct (line_search [vshape] TOL fuel zerov z 1 1 ((1 + 1) ^ 2)) as [[w|[y g3]]|]; [contradiction| |].
  - destruct S as (H & _). lra.
  - rewrite Hp. reflexivity.
Qed.
