(** TovFinal.v - the centre, the surface, the profile and the search of TOV_solution.c. *)
From Verif Require Import RealBase TrigSums Spectral3Model TovSpec TovModel TovProofs.
From Verif Require CubedJac.
From Verif Require Base.
Import Base(outcome, Ok, Abort, UB, obind).
Open Scope R_scope.

(** ** limits *)
Lemma lim_const c b : limit_below (fun _ => c) b c.
Proof. intros eps He. exists 1. split; [lra|]. intros. rewrite Rminus_diag_eq, Rabs_R0 by reflexivity. exact He. Qed.
Lemma lim_ext f g b L : (forall h, h < b -> f h = g h) -> limit_below f b L -> limit_below g b L.
Proof. intros E H eps He. destruct (H eps He) as (d & d0 & Hd). exists d. split; [exact d0|]. intros h Hh. rewrite <- E by lra. apply Hd. exact Hh. Qed.
Lemma lim_plus f g b L K : limit_below f b L -> limit_below g b K -> limit_below (fun h => f h + g h) b (L + K).
Proof.
  intros H1 H2 eps He. destruct (H1 (eps / 2)) as (d1 & p1 & D1); [lra|]. destruct (H2 (eps / 2)) as (d2 & p2 & D2); [lra|].
  exists (Rmin d1 d2). split; [apply Rmin_pos; assumption|]. intros h Hh. pose proof (Rmin_l d1 d2). pose proof (Rmin_r d1 d2).
  specialize (D1 h ltac:(lra)). specialize (D2 h ltac:(lra)). replace (f h + g h - (L + K)) with ((f h - L) + (g h - K)) by ring.
  eapply Rle_lt_trans; [apply Rabs_triang|lra].
Qed.
Lemma lim_cont f g b L : limit_below f b L -> continuity_pt g L -> limit_below (fun h => g (f h)) b (g L).
Proof.
  intros H C eps He. destruct (C eps He) as (al & a0 & Ha). destruct (H al a0) as (d & d0 & Hd). exists d. split; [exact d0|]. intros h Hh.
  destruct (Req_dec (f h) L) as [->|N]; [rewrite Rminus_diag_eq, Rabs_R0 by reflexivity; exact He|].
  apply (Ha (f h)). split; [split; [exact I|auto]|]. apply Hd. exact Hh.
Qed.
Lemma lim_scal f b L c : limit_below f b L -> limit_below (fun h => c * f h) b (c * L).
Proof.
  intros H. apply (lim_cont f (fun y => c * y)); [exact H|]. apply derivable_continuous_pt. apply derivable_pt_scal. apply derivable_pt_id.
Qed.
Lemma lim_mult f g b L K : limit_below f b L -> limit_below g b K -> limit_below (fun h => f h * g h) b (L * K).
Proof.
  intros H1 H2.
  assert (S : forall u U, limit_below u b U -> limit_below (fun h => u h * u h) b (U * U)).
  { intros u U Hu. apply (lim_cont u (fun y => y * y)); [exact Hu|]. apply derivable_continuous_pt. apply derivable_pt_mult; apply derivable_pt_id. }
  pose proof (S _ _ (lim_plus _ _ _ _ _ H1 H2)) as A. pose proof (S _ _ H1) as B. pose proof (S _ _ H2) as C.
  pose proof (lim_scal _ _ _ (1 / 2) (lim_plus _ _ _ _ _ A (lim_plus _ _ _ _ _ (lim_scal _ _ _ (-1) B) (lim_scal _ _ _ (-1) C)))) as F.
  replace (L * K) with (1 / 2 * ((L + K) * (L + K) + (-1 * (L * L) + -1 * (K * K)))) by field.
  refine (lim_ext _ _ _ _ _ F). intros h _. cbv beta. field.
Qed.
Lemma lim_inv f b L : limit_below f b L -> L <> 0 -> limit_below (fun h => / f h) b (/ L).
Proof.
  intros H N. apply (lim_cont f (fun y => / y)); [exact H|]. apply (continuity_pt_inv (fun y => y)); [|exact N]. apply derivable_continuous_pt. apply derivable_pt_id.
Qed.
Lemma lim_sqrt f b L : limit_below f b L -> 0 < L -> limit_below (fun h => sqrt (f h)) b (sqrt L).
Proof. intros H N. apply (lim_cont f sqrt); [exact H|]. apply continuity_pt_sqrt. lra. Qed.
Lemma lim_id b : limit_below (fun h => h) b b.
Proof. intros eps He. exists eps. split; [exact He|]. intros h Hh. apply Rabs_def1; lra. Qed.
Lemma lim_unique f b L K : limit_below f b L -> limit_below f b K -> L = K.
Proof.
  intros H1 H2. destruct (Req_dec L K) as [E|N]; [exact E|exfalso]. assert (P : 0 < Rabs (L - K) / 2). { assert (0 < Rabs (L - K)) by (apply Rabs_pos_lt; lra). lra. }
  destruct (H1 _ P) as (d1 & p1 & D1). destruct (H2 _ P) as (d2 & p2 & D2). pose proof (Rmin_l d1 d2). pose proof (Rmin_r d1 d2). pose proof (Rmin_pos d1 d2 p1 p2).
  set (h := b - Rmin d1 d2 / 2). specialize (D1 h ltac:(unfold h; lra)). specialize (D2 h ltac:(unfold h; lra)).
  pose proof (Rabs_triang (L - f h) (f h - K)) as T. replace (L - f h + (f h - K)) with (L - K) in T by ring. rewrite (Rabs_minus_sym L (f h)) in T. lra.
Qed.
(** a function that vanishes at b and whose derivative tends to L: the quotient by (b - h) tends to - L *)
Lemma lim_quotient F F' b L a : a < b -> (forall h, a < h < b -> derivable_pt_lim F h (F' h)) -> limit_below F b 0 -> limit_below F' b L ->
  limit_below (fun h => F h / (b - h)) b (- L).
Proof.
  intros Hab HD H0 HL eps He. destruct (HL (eps / 2)) as (d & d0 & Hd); [lra|]. exists (Rmin d (b - a)). split; [apply Rmin_pos; lra|].
  intros h Hh. pose proof (Rmin_l d (b - a)). pose proof (Rmin_r d (b - a)).
  assert (K : forall h', h < h' < b -> Rabs (F h - F h' + L * (h' - h)) <= eps / 2 * (h' - h)).
  { intros h' Hh'. destruct (MVT_cor2 F F' h h') as (c & E & Hc); [lra|intros c Hc; apply HD; lra|].
    replace (F h - F h' + L * (h' - h)) with (- ((F' c - L) * (h' - h))) by lra. rewrite Rabs_Ropp, Rabs_mult, (Rabs_pos_eq (h' - h)) by lra.
    apply Rmult_le_compat_r; [lra|]. left. apply Hd. lra. }
  assert (K2 : Rabs (F h + L * (b - h)) <= eps / 2 * (b - h)).
  { apply Rnot_lt_le. intros C. set (g := Rabs (F h + L * (b - h)) - eps / 2 * (b - h)) in *. assert (G : 0 < g) by (unfold g; lra).
    set (w := g / (2 * (1 + Rabs L + eps))). pose proof (Rabs_pos L). assert (W : 0 < w) by (unfold w; apply Rdiv_lt_0_compat; lra).
    destruct (H0 (g / 4)) as (d3 & p3 & D3); [lra|].
    set (u := Rmin (Rmin d3 w) (b - h)). assert (U : 0 < u) by (unfold u; apply Rmin_pos; [apply Rmin_pos; assumption|lra]).
    pose proof (Rmin_l (Rmin d3 w) (b - h)). pose proof (Rmin_r (Rmin d3 w) (b - h)). pose proof (Rmin_l d3 w). pose proof (Rmin_r d3 w). fold u in H3, H4.
    specialize (K (b - u / 2) ltac:(lra)). specialize (D3 (b - u / 2) ltac:(lra)). rewrite Rminus_0_r in D3.
    replace (F h - F (b - u / 2) + L * (b - u / 2 - h)) with ((F h + L * (b - h)) + (- F (b - u / 2) - L * (u / 2))) in K by ring.
    pose proof (Rabs_triang_inv (F h + L * (b - h)) (F (b - u / 2) + L * (u / 2))) as T.
    replace (F h + L * (b - h) - (F (b - u / 2) + L * (u / 2))) with ((F h + L * (b - h)) + (- F (b - u / 2) - L * (u / 2))) in T by ring.
    pose proof (Rabs_triang (F (b - u / 2)) (L * (u / 2))) as T2. rewrite Rabs_mult, (Rabs_pos_eq (u / 2)) in T2 by lra.
    assert (WW : Rabs L * (u / 2) + eps / 2 * (u / 2) < g / 2).
    { assert (w * (1 + Rabs L + eps) = g / 2) by (unfold w; field; lra). nra. }
    assert (eps / 2 * (b - u / 2 - h) <= eps / 2 * (b - h)) by nra. unfold g in *. lra. }
  assert (B : 0 < b - h) by lra.
  replace (F h / (b - h) - - L) with ((F h + L * (b - h)) / (b - h)) by (field; lra). unfold Rdiv. rewrite Rabs_mult, Rabs_inv, (Rabs_pos_eq (b - h)) by lra.
  apply Rmult_lt_reg_r with (b - h); [exact B|]. rewrite Rmult_assoc, Rinv_l by lra. nra.
Qed.
(** ** the centre *)
Section Center.
Variables e p : R -> R.
Variables r m : R -> R.
Variables a hc : R.
Hypothesis Ha : a < hc.
Hypothesis Hpos : 0 < hc.
Hypothesis Hsol : forall h, a < h < hc -> solves e p r m h /\ 0 < r h.
Hypothesis Hr0 : limit_below r hc 0.
Hypothesis Hm0 : limit_below (fun h => m h / r h ^ 3) hc (4 * PI / 3 * e hc).
Hypothesis Hp0 : limit_below p hc (p hc).
Hypothesis Hep : 0 < e hc + 3 * p hc.
Let E3 : R := e hc + 3 * p hc.
(** functions are only known above a *)
Lemma lim_ext_a f g b L : a < b -> (forall h, a < h < b -> f h = g h) -> limit_below f b L -> limit_below g b L.
Proof.
  intros Hab E H eps He. destruct (H eps He) as (d & d0 & Hd). exists (Rmin d (b - a)). split; [apply Rmin_pos; lra|]. intros h Hh.
  pose proof (Rmin_l d (b - a)). pose proof (Rmin_r d (b - a)). rewrite <- E by lra. apply Hd. lra.
Qed.
Lemma mr0 : limit_below (fun h => m h / r h) hc 0.
Proof.
  pose proof (lim_mult _ _ _ _ _ Hm0 (lim_mult _ _ _ _ _ Hr0 Hr0)) as L. replace (4 * PI / 3 * e hc * (0 * 0)) with 0 in L by ring.
  refine (lim_ext_a _ _ _ _ Ha _ L). intros h Hh. cbv beta. destruct (Hsol h Hh) as [_ P]. field. lra.
Qed.
(** 2 r r' *)
Lemma rr_lim : limit_below (fun h => 2 * (r h * dr_dh p h (r h) (m h))) hc (- (3 / (2 * PI * E3 * hc))).
Proof.
  pose proof PI_RGT_0.
  assert (HD : limit_below (fun h => (m h / r h ^ 3 + 4 * PI * p h) * h) hc ((4 * PI / 3 * e hc + 4 * PI * p hc) * hc)).
  { apply lim_mult; [|apply lim_id]. apply lim_plus; [exact Hm0|]. apply lim_scal. exact Hp0. }
  replace ((4 * PI / 3 * e hc + 4 * PI * p hc) * hc) with (4 * PI / 3 * E3 * hc) in HD by (unfold E3; field).
  assert (N : 4 * PI / 3 * E3 * hc <> 0). { unfold E3. assert (0 < PI * (e hc + 3 * p hc) * hc) by (apply Rmult_lt_0_compat; [apply Rmult_lt_0_compat; lra|lra]). lra. }
  pose proof (lim_mult _ _ _ _ _ (lim_plus _ _ _ _ _ (lim_const (-2) hc) (lim_scal _ _ _ 4 mr0)) (lim_inv _ _ _ HD N)) as L.
  replace (- (3 / (2 * PI * E3 * hc))) with ((-2 + 4 * 0) * / (4 * PI / 3 * E3 * hc)) by (unfold E3; field; repeat split; lra).
  destruct (HD (Rabs (4 * PI / 3 * E3 * hc))) as (d & d0 & Hd); [apply Rabs_pos_lt; exact N|].
  intros eps He. destruct (L eps He) as (d2 & p2 & D2). exists (Rmin (Rmin d d2) (Rmin (hc - a) hc)). split; [repeat apply Rmin_pos; lra|].
  intros h Hh. pose proof (Rmin_l (Rmin d d2) (Rmin (hc - a) hc)). pose proof (Rmin_r (Rmin d d2) (Rmin (hc - a) hc)). pose proof (Rmin_l d d2). pose proof (Rmin_r d d2).
  pose proof (Rmin_l (hc - a) hc). pose proof (Rmin_r (hc - a) hc).
  destruct (Hsol h ltac:(lra)) as [_ P]. specialize (D2 h ltac:(lra)). specialize (Hd h ltac:(lra)). cbv beta in D2.
  assert (NZ : (m h / r h ^ 3 + 4 * PI * p h) * h <> 0). { intros C. rewrite C, Rminus_0_l, Rabs_Ropp in Hd. lra. }
  assert (NA : m h + 4 * PI * (r h * r h * r h) * p h <> 0).
  { intros C. apply NZ. replace (m h / r h ^ 3 + 4 * PI * p h) with ((m h + 4 * PI * (r h * r h * r h) * p h) / r h ^ 3) by (field; lra). rewrite C. field. lra. }
  replace (2 * (r h * dr_dh p h (r h) (m h))) with ((-2 + 4 * (m h / r h)) * / ((m h / r h ^ 3 + 4 * PI * p h) * h)); [exact D2|].
  unfold dr_dh. replace (m h / r h ^ 3 + 4 * PI * p h) with ((m h + 4 * PI * (r h * r h * r h) * p h) / r h ^ 3) by (field; lra). field. repeat split; lra.
Qed.
Lemma r2_lim : limit_below (fun h => r h ^ 2 / (hc - h)) hc (3 / (2 * PI * E3 * hc)).
Proof.
  rewrite <- (Ropp_involutive (3 / (2 * PI * E3 * hc))). apply (lim_quotient (fun h => r h ^ 2) (fun h => 2 * (r h * dr_dh p h (r h) (m h))) hc _ a Ha).
  - intros h Hh. destruct (Hsol h Hh) as [[Dr _] _]. apply (CubedJac.dlim_ext (fun h => r h * r h)); [|exists 1; split; [lra|intros; ring]].
    eapply d_eq; [apply d_mult; exact Dr|ring].
  - pose proof (lim_mult _ _ _ _ _ Hr0 Hr0) as L. rewrite Rmult_0_l in L. refine (lim_ext _ _ _ _ _ L). intros; cbv beta; ring.
  - exact rr_lim.
Qed.
(** the integrand of the constant c at the centre *)
Lemma c_lim : limit_below (fun h => (1 / sqrt (1 - 2 * m h / r h) - 1) / r h * dr_dh p h (r h) (m h)) hc (- (e hc / (E3 * hc))).
Proof.
  pose proof PI_RGT_0.
  assert (LX : limit_below (fun h => 1 + -2 * (m h / r h)) hc (1 + -2 * 0)) by (apply lim_plus; [apply lim_const|apply lim_scal; exact mr0]).
  replace (1 + -2 * 0) with 1 in LX by ring. pose proof (lim_sqrt _ _ _ LX ltac:(lra)) as LS. rewrite sqrt_1 in LS. cbv beta in LS.
  pose proof (lim_inv _ _ _ (lim_mult _ _ _ _ _ LS (lim_plus _ _ _ _ _ (lim_const 1 hc) LS)) ltac:(lra)) as LI. cbv beta in LI.
  pose proof (lim_mult _ _ _ _ _ (lim_mult _ _ _ _ _ Hm0 rr_lim) LI) as L. cbv beta in L.
  replace (- (e hc / (E3 * hc))) with (4 * PI / 3 * e hc * - (3 / (2 * PI * E3 * hc)) * / (1 * (1 + 1))) by (unfold E3; field; repeat split; lra).
  destruct (LX 1 ltac:(lra)) as (d & d0 & Hd).
  intros eps He. destruct (L eps He) as (d2 & p2 & D2). exists (Rmin (Rmin d d2) (hc - a)). split; [repeat apply Rmin_pos; lra|].
  intros h Hh. pose proof (Rmin_l (Rmin d d2) (hc - a)). pose proof (Rmin_r (Rmin d d2) (hc - a)). pose proof (Rmin_l d d2). pose proof (Rmin_r d d2).
  destruct (Hsol h ltac:(lra)) as [_ P]. specialize (D2 h ltac:(lra)). specialize (Hd h ltac:(lra)). apply Rabs_def2 in Hd.
  replace (1 - 2 * m h / r h) with (1 + -2 * (m h / r h)) by (field; lra). set (X := 1 + -2 * (m h / r h)) in *.
  assert (SX : 0 < sqrt X) by (apply sqrt_lt_R0; lra). assert (SS : sqrt X * sqrt X = X) by (apply sqrt_sqrt; lra).
  set (D := dr_dh p h (r h) (m h)) in *.
  replace ((1 / sqrt X - 1) / r h * D) with (m h / r h ^ 3 * (2 * (r h * D)) * / (sqrt X * (1 + sqrt X))); [exact D2|].
  assert (EM : m h = (1 - sqrt X * sqrt X) / 2 * r h) by (rewrite SS; unfold X; field; lra). rewrite EM. field. repeat split; lra.
Qed.
End Center.
(** the code's expansion *)
Lemma approx_lim e p de hc : 0 < e hc + 3 * p hc -> limit_below (fun h => r_approx e p de h hc ^ 2 / (hc - h)) hc (3 / (2 * PI * (e hc + 3 * p hc))).
Proof.
  intros He. pose proof PI_RGT_0. set (E := e hc + 3 * p hc) in *. set (k := - (1 / 4 * (e hc - 3 * p hc - 3 * de hc / 5) / E)).
  assert (L : limit_below (fun h => 3 / (2 * PI * E) * ((1 + k * (hc + -1 * h)) * (1 + k * (hc + -1 * h)))) hc (3 / (2 * PI * E) * ((1 + k * (hc + -1 * hc)) * (1 + k * (hc + -1 * hc))))).
  { apply lim_scal. assert (Q : limit_below (fun h => 1 + k * (hc + -1 * h)) hc (1 + k * (hc + -1 * hc))).
    { apply lim_plus; [apply lim_const|]. apply lim_scal. apply lim_plus; [apply lim_const|]. apply lim_scal. apply lim_id. }
    apply lim_mult; exact Q. }
  replace (3 / (2 * PI * E) * ((1 + k * (hc + -1 * hc)) * (1 + k * (hc + -1 * hc)))) with (3 / (2 * PI * E)) in L by (field; lra).
  refine (lim_ext _ _ _ _ _ L). intros h Hh. cbv beta. unfold r_approx. fold E. rewrite Rpow_mult_distr.
  replace (sqrt (3 * (hc - h) / (2 * PI * E)) ^ 2) with (sqrt (3 * (hc - h) / (2 * PI * E)) * sqrt (3 * (hc - h) / (2 * PI * E))) by ring.
  rewrite sqrt_sqrt.
  - unfold k. field. repeat split; lra.
  - left. apply Rdiv_lt_0_compat; [lra|]. apply Rmult_lt_0_compat; lra.
Qed.
