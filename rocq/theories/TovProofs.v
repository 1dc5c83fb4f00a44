(** TovProofs.v - the equations TOV_solution.c integrates are the TOV equations. *)
From Verif Require Import RealBase TrigSums Spectral3Model TovSpec TovModel.
From Verif Require CubedJac.
From Verif Require Base.
Import Base(outcome, Ok, Abort, UB, obind).
Open Scope R_scope.

Lemma d_eq f x a b : derivable_pt_lim f x a -> a = b -> derivable_pt_lim f x b.
Proof. intros H <-. exact H. Qed.
Lemma d_const c x : derivable_pt_lim (fun _ => c) x 0. Proof. apply derivable_pt_lim_const. Qed.
Lemma d_plus f g x a b : derivable_pt_lim f x a -> derivable_pt_lim g x b -> derivable_pt_lim (fun y => f y + g y) x (a + b).
Proof. apply (derivable_pt_lim_plus f g). Qed.
Lemma d_minus f g x a b : derivable_pt_lim f x a -> derivable_pt_lim g x b -> derivable_pt_lim (fun y => f y - g y) x (a - b).
Proof. apply (derivable_pt_lim_minus f g). Qed.
Lemma d_mult f g x a b : derivable_pt_lim f x a -> derivable_pt_lim g x b -> derivable_pt_lim (fun y => f y * g y) x (a * g x + f x * b).
Proof. apply (derivable_pt_lim_mult f g). Qed.
Lemma d_div f g x a b : derivable_pt_lim f x a -> derivable_pt_lim g x b -> g x <> 0 -> derivable_pt_lim (fun y => f y / g y) x ((a * g x - b * f x) / (g x)²).
Proof. apply (derivable_pt_lim_div f g). Qed.
Lemma d_comp f g x a b : derivable_pt_lim f x a -> derivable_pt_lim g (f x) b -> derivable_pt_lim (fun y => g (f y)) x (b * a).
Proof. apply (derivable_pt_lim_comp f g). Qed.
Lemma d_sqrt f x a : derivable_pt_lim f x a -> 0 < f x -> derivable_pt_lim (fun y => sqrt (f y)) x (/ (2 * sqrt (f x)) * a).
Proof. intros H P. apply (d_comp f sqrt); [exact H|]. apply derivable_pt_lim_sqrt. exact P. Qed.
Lemma d_ln f x a : derivable_pt_lim f x a -> 0 < f x -> derivable_pt_lim (fun y => ln (f y)) x (/ f x * a).
Proof. intros H P. apply (d_comp f ln); [exact H|]. apply derivable_pt_lim_ln. exact P. Qed.
Lemma d_exp f x a : derivable_pt_lim f x a -> derivable_pt_lim (fun y => exp (f y)) x (exp (f x) * a).
Proof. intros H. apply (d_comp f exp); [exact H|]. apply derivable_pt_lim_exp. Qed.
Lemma d_id x : derivable_pt_lim (fun y => y) x 1. Proof. apply derivable_pt_lim_id. Qed.

Section Sol.
Variables e p : R -> R.
(** r, m solve the code's equations at h *)
Definition solves (r m : R -> R) (h : R) : Prop :=
  derivable_pt_lim r h (dr_dh p h (r h) (m h)) /\ derivable_pt_lim m h (dm_dh e p h (r h) (m h)).
Lemma inverse_deriv r H rho r' : (exists d, 0 < d /\ forall x, Rabs (x - rho) < d -> r (H x) = x) -> derivable_pt r (H rho) -> derivable_pt_lim r (H rho) r' ->
  forall l, derivable_pt_lim H rho l -> r' * l = 1.
Proof.
  intros E _ Dr l Dl. pose proof (d_comp H r rho l r' Dl Dr) as D.
  apply (uniqueness_limite (fun x => r (H x)) rho); [exact D|]. apply (CubedJac.dlim_ext (fun y => y)); [apply d_id|]. exact E.
Qed.
Lemma tov_equations r m H rho c :
  (exists d, 0 < d /\ forall x, Rabs (x - rho) < d -> r (H x) = x) -> (exists l, derivable_pt_lim H rho l) ->
  solves r m (H rho) -> first_law e p (H rho) -> 0 < H rho -> 0 < rho -> 2 * m (H rho) < rho -> m (H rho) + 4 * PI * rho ^ 3 * p (H rho) <> 0 ->
  tov_at (fun x => e (H x)) (fun x => p (H x)) (fun x => m (H x)) (fun x => - ln (H x) + c) rho.
Proof.
  intros E (l & Dl) [Dr Dm] Fl Hh Hr H2 HA.
  assert (Er : r (H rho) = rho). { destruct E as (d & d0 & E). apply E. rewrite Rminus_diag_eq, Rabs_R0 by reflexivity. exact d0. }
  assert (I : dr_dh p (H rho) (r (H rho)) (m (H rho)) * l = 1) by (apply (inverse_deriv r H rho); auto; eexists; exact Dr).
  rewrite Er in *. unfold dm_dh in Dm. unfold dr_dh in *. set (h := H rho) in *. set (M := m h) in *. set (A := M + 4 * PI * (rho * rho * rho) * p h) in *.
  assert (HA' : A <> 0) by (unfold A; intros C; apply HA; rewrite <- C; ring).
  assert (El : l = - (A * h) / (rho * (rho - 2 * M))).
  { apply (Rmult_eq_reg_l (- rho * (rho - 2 * M) / A / h)); [|intros C; rewrite C in I; lra]. rewrite I. field. repeat split; lra. }
  repeat split.
  - eapply d_eq; [apply (d_comp H m); [exact Dl|exact Dm]|]. fold M. fold A. fold h. rewrite El. field. repeat split; lra.
  - eapply d_eq; [apply (d_comp H p); [exact Dl|exact Fl]|]. rewrite El. cbv beta. fold h. fold M. unfold A. field. repeat split; lra.
  - eapply d_eq; [apply (d_plus (fun x => - ln (H x))); [|apply d_const]|].
    + apply (derivable_pt_lim_opp (fun x => ln (H x))). apply d_ln; [exact Dl|exact Hh].
    + fold h. rewrite El. unfold A. fold M. field. repeat split; lra.
Qed.
Lemma isotropic r m rb H rho :
  (exists d, 0 < d /\ forall x, Rabs (x - rho) < d -> r (H x) = x) -> (exists l, derivable_pt_lim H rho l) ->
  derivable_pt_lim r (H rho) (dr_dh p (H rho) (r (H rho)) (m (H rho))) -> derivable_pt_lim rb (H rho) (drbar_dh p (H rho) (rb (H rho)) (r (H rho)) (m (H rho))) ->
  0 < rho -> 2 * m (H rho) < rho -> 0 < rb (H rho) ->
  isotropic_at (fun x => m (H x)) (fun x => rb (H x)) (fun x => sqrt (r (H x) / rb (H x))) rho.
Proof.
  intros E (l & Dl) Dr Db Hr H2 Hb.
  assert (Er : r (H rho) = rho). { destruct E as (d & d0 & E). apply E. rewrite Rminus_diag_eq, Rabs_R0 by reflexivity. exact d0. }
  assert (I : dr_dh p (H rho) (r (H rho)) (m (H rho)) * l = 1) by (apply (inverse_deriv r H rho); auto; eexists; exact Dr).
  unfold drbar_dh in Db. rewrite Er in *. set (h := H rho) in *. set (M := m h) in *. set (D := dr_dh p h rho M) in *.
  assert (HX : 0 < 1 - 2 * M / rho). { apply Rmult_lt_reg_r with rho; [lra|]. replace ((1 - 2 * M / rho) * rho) with (rho - 2 * M) by (field; lra). lra. }
  assert (HQ : 0 < rho / rb h) by (apply Rdiv_lt_0_compat; lra).
  assert (HP : 0 < sqrt (rho / rb h)) by (apply sqrt_lt_R0; exact HQ).
  assert (SQ : sqrt (rho / rb h) * sqrt (rho / rb h) = rho / rb h) by (apply sqrt_sqrt; lra).
  assert (HS : 0 < sqrt (1 - 2 * M / rho)) by (apply sqrt_lt_R0; exact HX).
  assert (SS : sqrt (1 - 2 * M / rho) * sqrt (1 - 2 * M / rho) = 1 - 2 * M / rho) by (apply sqrt_sqrt; lra).
  unfold isotropic_at. cbv beta. fold h. rewrite Er. split; [exact HP|]. split; [cbn [pow]; rewrite Rmult_1_r, SQ; field; lra|].
  exists (rb h / rho / sqrt (1 - 2 * M / rho)). split; [|split].
  - eapply d_eq; [apply (d_comp H rb); [exact Dl|exact Db]|]. fold h.
    transitivity (rb h / sqrt (1 - 2 * M / rho) / rho * (D * l)); [ring|]. rewrite I. field. split; lra.
  - apply Rdiv_lt_0_compat; [apply Rdiv_lt_0_compat; lra|exact HS].
  - replace (sqrt (rho / rb h) ^ 4) with ((sqrt (rho / rb h) * sqrt (rho / rb h)) * (sqrt (rho / rb h) * sqrt (rho / rb h))) by ring. rewrite SQ. fold M. rewrite <- SS at 2. field. repeat split; lra.
Qed.
(** the Komar integrand is a derivative *)
Definition komar (r m : R -> R) (c h : R) : R := exp (- ln h + c) * (m h + 4 * PI * r h ^ 3 * p h) / sqrt (1 - 2 * m h / r h).
Lemma komar_deriv r m c h : solves r m h -> first_law e p h -> 0 < h -> 0 < r h -> 2 * m h < r h -> m h + 4 * PI * r h ^ 3 * p h <> 0 ->
  derivable_pt_lim (komar r m c) h (4 * PI * (e h + 3 * p h) * exp (- ln h + c) / sqrt (1 - 2 * m h / r h) * (r h * r h) * dr_dh p h (r h) (m h)).
Proof.
  intros [Dr Dm] Fl Hh Hr H2 HA. unfold dm_dh in Dm.
  assert (HX : 0 < 1 - 2 * m h / r h). { apply Rmult_lt_reg_r with (r h); [lra|]. replace ((1 - 2 * m h / r h) * r h) with (r h - 2 * m h) by (field; lra). lra. }
  assert (HS : 0 < sqrt (1 - 2 * m h / r h)) by (apply sqrt_lt_R0; exact HX).
  assert (SS : sqrt (1 - 2 * m h / r h) * sqrt (1 - 2 * m h / r h) = 1 - 2 * m h / r h) by (apply sqrt_sqrt; lra).
  set (D := dr_dh p h (r h) (m h)) in *.
  assert (ED : D * ((m h + 4 * PI * r h ^ 3 * p h) * h) = - (r h * (r h - 2 * m h))) by (unfold D, dr_dh; field; repeat split; try lra; intros C; apply HA; rewrite <- C; ring).
  assert (DX : derivable_pt_lim (fun h => 1 - 2 * m h / r h) h (- (2 * (4 * PI * (r h * r h) * e h * D) * r h - D * (2 * m h)) / (r h * r h))).
  { eapply d_eq; [apply d_minus; [apply d_const|apply d_div; [apply d_mult; [apply d_const|exact Dm]|exact Dr|lra]]|]. unfold Rsqr. field. lra. }
  assert (DA : derivable_pt_lim (fun h => m h + 4 * PI * r h ^ 3 * p h) h (4 * PI * (r h * r h) * e h * D + (12 * PI * (r h * r h) * D * p h + 4 * PI * r h ^ 3 * ((e h + p h) / h)))).
  { apply d_plus; [exact Dm|]. eapply d_eq; [apply d_mult; [apply d_mult; [apply d_const|]|exact Fl]|].
    - apply (d_comp r (fun y => y ^ 3)); [exact Dr|apply derivable_pt_lim_pow].
    - cbn [INR pow Init.Nat.pred]. ring. }
  assert (DE : derivable_pt_lim (fun h => exp (- ln h + c)) h (exp (- ln h + c) * - / h)).
  { apply (d_exp (fun h => - ln h + c)). eapply d_eq; [apply (d_plus (fun h => - ln h) (fun _ => c)); [apply (derivable_pt_lim_opp ln); apply derivable_pt_lim_ln; exact Hh|apply d_const]|]. ring. }
  unfold komar. eapply d_eq; [apply d_div; [apply d_mult; [exact DE|exact DA]|apply d_sqrt; [exact DX|exact HX]|lra]|].
  cbv beta. set (q := sqrt (1 - 2 * m h / r h)) in *. set (E := exp (- ln h + c)). unfold Rsqr.
  set (A := m h + 4 * PI * r h ^ 3 * p h) in *.
  assert (Q2 : q * q = (r h - 2 * m h) / r h) by (rewrite SS; field; lra).
  assert (Hinv : / h = - (A * D) / (r h * (r h - 2 * m h))).
  { apply (Rmult_eq_reg_r (h * (r h * (r h - 2 * m h)))); [|apply Rmult_integral_contrapositive_currified; [lra|]; apply Rmult_integral_contrapositive_currified; lra].
    transitivity (r h * (r h - 2 * m h)); [field; lra|]. transitivity (- (D * (A * h))); [rewrite ED; ring|]. field. repeat split; lra. }
  replace ((e h + p h) / h) with ((e h + p h) * / h) by reflexivity. rewrite Hinv.
  assert (HW : r h - 2 * m h <> 0) by lra.
  transitivity (E * (r h * r h) * D / q * ((- (- (A * D) / (r h * (r h - 2 * m h))) * A + (4 * PI * (r h * r h) * e h * D + (12 * PI * (r h * r h) * D * p h + 4 * PI * r h ^ 3 * ((e h + p h) * (- (A * D) / (r h * (r h - 2 * m h)))))) - A * (- (2 * (4 * PI * (r h * r h) * e h * D) * r h - D * (2 * m h)) / (r h * r h)) / (2 * (q * q))) / (r h * r h * D))).
  - assert (HD : D <> 0). { intros C. rewrite C in ED. nra. }
    unfold Rsqr. field. repeat split; lra.
  - rewrite Q2. assert (HD : D <> 0). { intros C. rewrite C in ED. nra. }
    unfold A. field. repeat split; lra.
Qed.
Lemma komar_surface r m h0 : p h0 = 0 -> h0 = 1 -> 0 < r h0 -> 2 * m h0 < r h0 ->
  komar r m (ln (sqrt (1 - 2 * m h0 / r h0))) h0 = m h0.
Proof.
  intros P0 -> Hr H2.
  assert (HX : 0 < 1 - 2 * m 1 / r 1). { apply Rmult_lt_reg_r with (r 1); [lra|]. replace ((1 - 2 * m 1 / r 1) * r 1) with (r 1 - 2 * m 1) by (field; lra). lra. }
  assert (HS : 0 < sqrt (1 - 2 * m 1 / r 1)) by (apply sqrt_lt_R0; exact HX).
  unfold komar. rewrite P0, ln_1, Ropp_0, Rplus_0_l, exp_ln by exact HS. field. lra.
Qed.
End Sol.
