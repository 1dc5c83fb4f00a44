(** Props_Tov.v - C113-C115: the TOV star (Src/Projects/TOV_star/TOV_solution.c). *)
From Verif Require Import RealBase TrigSums SpectralSpec Spectral3Model Spectral3Spec QuadProofs TovSpec TovModel TovProofs TovFinal TovThms TovStar TovSearch.
From Verif Require Base.
Import Base(outcome, Ok, Abort, UB, obind).
Open Scope R_scope.

(** * C113: functions r(h), m(h) whose slopes are the ones the program integrates are a TOV star: with H the inverse of r, the energy density,
    the pressure, the mass and the potential the program assigns (- log h + const) obey the TOV equations in the radius *)
Theorem C113_equations (e p r m H : R -> R) (rho c : R) :
  (exists d, 0 < d /\ forall x, Rabs (x - rho) < d -> r (H x) = x) -> (exists l, derivable_pt_lim H rho l) ->
  derivable_pt_lim r (H rho) (dr_dh p (H rho) (r (H rho)) (m (H rho))) -> derivable_pt_lim m (H rho) (dm_dh e p (H rho) (r (H rho)) (m (H rho))) ->
  first_law e p (H rho) -> 0 < H rho -> 0 < rho -> 2 * m (H rho) < rho -> m (H rho) + 4 * PI * rho ^ 3 * p (H rho) <> 0 ->
  tov_at (fun x => e (H x)) (fun x => p (H x)) (fun x => m (H x)) (fun x => - ln (H x) + c) rho.
Proof. intros. apply (tov_equations e p r m H rho c); auto. split; assumption. Qed.
Print Assumptions C113_equations.
(** the radius rbar and the factor sqrt(r/rbar) make the metric conformally flat *)
Theorem C113_isotropic (p r m rb H : R -> R) (rho : R) :
  (exists d, 0 < d /\ forall x, Rabs (x - rho) < d -> r (H x) = x) -> (exists l, derivable_pt_lim H rho l) ->
  derivable_pt_lim r (H rho) (dr_dh p (H rho) (r (H rho)) (m (H rho))) -> derivable_pt_lim rb (H rho) (drbar_dh p (H rho) (rb (H rho)) (r (H rho)) (m (H rho))) ->
  0 < rho -> 2 * m (H rho) < rho -> 0 < rb (H rho) ->
  isotropic_at (fun x => m (H x)) (fun x => rb (H x)) (fun x => sqrt (r (H x) / rb (H x))) rho.
Proof. exact (isotropic p r m rb H rho). Qed.
Print Assumptions C113_isotropic.
(** the Komar integrand and the ADM integrand have primitives that vanish at the centre and are both the mass at the surface h = 1 *)
Theorem C113_Komar_is_ADM (e p r m : R -> R) (hc : R) : 1 < hc -> p 1 = 0 -> 0 < r 1 -> 2 * m 1 < r 1 ->
  (forall h, 1 <= h < hc -> derivable_pt_lim r h (dr_dh p h (r h) (m h)) /\ derivable_pt_lim m h (dm_dh e p h (r h) (m h)) /\ first_law e p h /\
     0 < r h /\ 2 * m h < r h /\ m h + 4 * PI * r h ^ 3 * p h <> 0) ->
  limit_below r hc 0 -> limit_below (fun h => m h / r h ^ 3) hc (4 * PI / 3 * e hc) -> limit_below p hc (p hc) ->
  let C := ln (sqrt (1 - 2 * m 1 / r 1)) in
  exists K A : R -> R,
    (forall h, 1 <= h < hc -> derivable_pt_lim K h (4 * PI * (e h + 3 * p h) * exp (- ln h + C) / sqrt (1 - 2 * m h / r h) * (r h * r h) * dr_dh p h (r h) (m h))) /\
    (forall h, 1 <= h < hc -> derivable_pt_lim A h (4 * PI * e h * (r h * r h) * dr_dh p h (r h) (m h))) /\
    limit_below K hc 0 /\ limit_below A hc 0 /\ K 1 = m 1 /\ A 1 = m 1.
Proof.
  intros Hc P0 R1 M1 Hs Hr Hm Hp C. exists (komar p r m C), m.
  assert (HS : forall h, 1 < h < hc -> solves e p r m h /\ 0 < r h) by (intros h Hh; destruct (Hs h ltac:(lra)) as (A & B & _ & D & _); repeat split; assumption).
  destruct (komar_center e p r m 1 hc C Hc ltac:(lra) HS Hr Hm Hp) as [KC MC].
  split; [|split; [|split; [exact KC|split; [exact MC|split; [|reflexivity]]]]].
  - intros h Hh. destruct (Hs h Hh) as (A & B & F & D & E & G). apply komar_deriv; try assumption; [split; assumption|lra].
  - intros h Hh. destruct (Hs h Hh) as (A & B & F & D & E & G). eapply d_eq; [exact B|]. unfold dm_dh. ring.
  - apply komar_surface; auto.
Qed.
Print Assumptions C113_Komar_is_ADM.
(** the integrands: if the star samples r(h), m(h), and a quantity grows with the radius at the rate of the proper-volume integral of the rest
    mass density n = (e+p)/h, of the energy density e (no volume factor: ADM), or of (e+3p) exp(phi), then it changes with h at the rate stored *)
Theorem C113_integrands (e p r m : R -> R) (T : Star) (i : nat) (Q : R -> R) : (1 <= i)%nat ->
  let h := hs T i in let rho := rs T i in let V := 4 * PI * rho ^ 2 / sqrt (1 - 2 * ms T i / rho) in
  rho = r h -> ms T i = m h -> h <> 0 -> derivable_pt_lim r h (dr_dh p h (r h) (m h)) ->
  (forall n, n * h = e h + p h -> derivable_pt_lim Q rho (V * n) -> derivable_pt_lim (fun h => Q (r h)) h (baryonic_integrand e p T i)) /\
  (derivable_pt_lim Q rho (V * ((e h + 3 * p h) * exp (phi_of T i))) -> derivable_pt_lim (fun h => Q (r h)) h (Komar_integrand e p T i)) /\
  (derivable_pt_lim Q rho (4 * PI * rho ^ 2 * e h) -> derivable_pt_lim (fun h => Q (r h)) h (ADM_integrand e p T i)).
Proof.
  intros Hi h rho V Er Em Hh Dr. destruct i as [|i]; [lia|]. unfold baryonic_integrand, Komar_integrand, ADM_integrand, Pow2. fold h. fold rho. rewrite <- Er, <- Em in Dr.
  split; [|split].
  - intros n Hn DQ. eapply d_eq; [apply (d_comp r Q); [exact Dr|rewrite <- Er; exact DQ]|]. replace ((e h + p h) / h) with n by (rewrite <- Hn; field; exact Hh). unfold V. unfold Rdiv. ring.
  - intros DQ. eapply d_eq; [apply (d_comp r Q); [exact Dr|rewrite <- Er; exact DQ]|]. unfold V. unfold Rdiv. ring.
  - intros DQ. eapply d_eq; [apply (d_comp r Q); [exact Dr|rewrite <- Er; exact DQ]|]. unfold Rdiv. ring.
Qed.
Print Assumptions C113_integrands.
(** the mass is the integral of these samples from the centre to the surface: exactly so when they are samples of a cubic *)
Theorem C113_mass_integral (e p : R -> R) (T : Star) (q : list R) : Nat.odd (NN T) = true -> (3 <= NN T)%nat -> (length q <= 4)%nat ->
  (forall i, (i < NN T)%nat -> hs T i = hcent T + INR i * ((1 - hcent T) / INR (NN T - 1)) /\ baryonic_integrand e p T i = peval q (hs T i)) ->
  exists M, baryonic_mass e p T = Ok (Some M) /\ integral_is (peval q) (hcent T) 1 M.
Proof.
  intros H1 H2 H3 H4. apply simpson_exact; try assumption. intros j Hj. destruct (H4 j Hj) as [<- ->]. reflexivity.
Qed.
Print Assumptions C113_mass_integral.
Example C113_mass_integral_example : let T := {| hs := fun i => 2 + INR i * ((1 - 2) / INR (3 - 1)); rs := fun _ => 1; ms := fun _ => 0; hcent := 2; NN := 3 |} in
  forall i, (i < NN T)%nat -> hs T i = hcent T + INR i * ((1 - hcent T) / INR (NN T - 1)) /\ baryonic_integrand (fun _ => 0) (fun _ => 0) T i = peval [0] (hs T i).
Proof. intros T i Hi. split; [reflexivity|]. unfold baryonic_integrand. destruct i; cbn [peval]; [ring|]. unfold Rdiv. ring. Qed.
(** the incompressible star of central enthalpy 2 and density 1 is a TOV star at every radius below 1/sqrt(2k), k = 4 pi/3: *)
Example C113_example : forall rho, 0 < rho -> 2 * ki 1 * (rho * rho) < 1 ->
  tov_at (fun x => ei 1 (Hi 1 2 x)) (fun x => pi_ 1 (Hi 1 2 x)) (fun x => mi 1 2 (Hi 1 2 x)) (fun x => - ln (Hi 1 2 x) + 0) rho.
Proof.
  intros rho Hr H. pose proof (Hi_range 1 2 ltac:(lra) ltac:(lra) rho Hr H) as HR. destruct (inc_solves 1 2 ltac:(lra) ltac:(lra) (Hi 1 2 rho) HR) as [S1 S2].
  pose proof (Hi_inverse 1 2 ltac:(lra) ltac:(lra) rho Hr H) as HI. pose proof (inc_denominator 1 2 ltac:(lra) ltac:(lra) _ HR) as HD. rewrite HI in HD.
  pose proof (inc_not_collapsed 1 2 ltac:(lra) ltac:(lra) _ HR) as HC. rewrite HI in HC.
  apply (C113_equations _ _ (ri 1 2)); try assumption; try lra.
  - apply Hi_local; try lra; assumption.
  - apply Hi_deriv; try lra; assumption.
  - apply inc_first_law. lra.
Qed.
Example C113_Komar_example : let C := ln (sqrt (1 - 2 * mi 1 2 1 / ri 1 2 1)) in
  exists K A : R -> R,
    (forall h, 1 <= h < 2 -> derivable_pt_lim K h (4 * PI * (ei 1 h + 3 * pi_ 1 h) * exp (- ln h + C) / sqrt (1 - 2 * mi 1 2 h / ri 1 2 h) * (ri 1 2 h * ri 1 2 h) * dr_dh (pi_ 1) h (ri 1 2 h) (mi 1 2 h))) /\
    (forall h, 1 <= h < 2 -> derivable_pt_lim A h (4 * PI * ei 1 h * (ri 1 2 h * ri 1 2 h) * dr_dh (pi_ 1) h (ri 1 2 h) (mi 1 2 h))) /\
    limit_below K 2 0 /\ limit_below A 2 0 /\ K 1 = mi 1 2 1 /\ A 1 = mi 1 2 1.
Proof.
  apply (C113_Komar_is_ADM (ei 1) (pi_ 1) (ri 1 2) (mi 1 2) 2); try lra.
  - unfold pi_. ring.
  - apply ri_pos; lra.
  - apply inc_not_collapsed; lra.
  - intros h Hh. assert (HR : 2 / 3 < h < 2) by lra. destruct (inc_solves 1 2 ltac:(lra) ltac:(lra) h HR) as [S1 S2].
    repeat split; try assumption; [apply inc_first_law; lra|apply ri_pos; lra|apply inc_not_collapsed; lra|apply inc_denominator; lra].
  - apply inc_r0; lra.
  - apply inc_m0; lra.
  - apply inc_p0.
Qed.

(** * C114: the profile *)
Theorem C114_profile (e p de : R -> R) (hc : R) (N : nat) (T : Star) : solve_ODE e p de hc N = Ok T -> (2 <= N)%nat /\
  hs T 0 = hc /\ hs T (N - 1) = 1 /\ rs T 0 = 0 /\ ms T 0 = 0 /\ (1 < hc -> forall i j, (i < j)%nat -> hs T j < hs T i) /\
  (forall i, (rs T (S (S i)), ms T (S (S i))) = rk4 (dr_dh p) (dm_dh e p) (hs T (S (S i)) - hs T (S i)) (hs T (S i)) (rs T (S i)) (ms T (S i))).
Proof.
  intros H. destruct (solve_ok e p de hc N T H) as (A & B & C & D & E & F & G & I & J & K & L). repeat split; try assumption.
  - intros Hc. exact (profile_decreasing e p de hc N T H Hc).
  - intros i. rewrite I. apply L.
Qed.
Print Assumptions C114_profile.
Theorem C114_points (e p de : R -> R) (hc : R) (N : nat) :
  ((N < 2)%nat -> solve_ODE e p de hc N = UB) /\ ((2 <= N)%nat -> (Nat.Even N -> mass_of e p de N hc = Abort) /\ (Nat.Odd N -> exists m, mass_of e p de N hc = Ok (Some m))).
Proof. split; [apply solve_ub|apply mass_parity]. Qed.
Print Assumptions C114_points.
Example C114_points_example : exists m, mass_of (ei 1) (pi_ 1) (fun _ => 0) 5 2 = Ok (Some m).
Proof. apply C114_points; [lia|]. exists 2%nat. reflexivity. Qed.
(** one step is exact for cubic slopes of h alone, and for linear equations it is the fourth degree Taylor polynomial *)
Theorem C114_step_cubic a b c d a' b' c' d' s t r m :
  rk4 (fun h _ _ => a + b * h + c * h ^ 2 + d * h ^ 3) (fun h _ _ => a' + b' * h + c' * h ^ 2 + d' * h ^ 3) s t r m =
  let I a b c d x := a * x + b * x ^ 2 / 2 + c * x ^ 3 / 3 + d * x ^ 4 / 4 in
  (r + (I a b c d (t + s) - I a b c d t), m + (I a' b' c' d' (t + s) - I a' b' c' d' t)).
Proof. apply rk4_cubic. Qed.
Print Assumptions C114_step_cubic.
Theorem C114_step_linear a b c d s t r m :
  rk4 (fun _ x y => a * x + b * y) (fun _ x y => c * x + d * y) s t r m =
  (sum_f_R0 (fun k => s ^ k / INR (fact k) * fst (Npow k (lin a b c d) (r, m))) 4, sum_f_R0 (fun k => s ^ k / INR (fact k) * snd (Npow k (lin a b c d) (r, m))) 4).
Proof. apply rk4_linear. Qed.
Print Assumptions C114_step_linear.
(** the surface: the exterior solution of mass M in isotropic coordinates, and the exterior potential *)
Theorem C114_surface (e p de : R -> R) (T : Star) (c : R) (ri mi : R -> R) : let n := (NN T - 1)%nat in let R0 := rs T n in let M := ms T n in
  (1 <= n)%nat -> 0 <= M -> 2 * M < R0 -> hs T n = 1 ->
  0 < rbar_of e p de T c ri mi n /\ R0 = rbar_of e p de T c ri mi n * (1 + M / (2 * rbar_of e p de T c ri mi n)) ^ 2 /\
  psi_of e p de T c ri mi n = 1 + M / (2 * rbar_of e p de T c ri mi n) /\ exp (2 * phi_of T n) = 1 - 2 * M / R0.
Proof.
  cbv zeta. intros Hn HM HR Hh.
  assert (Er : rbar_of e p de T c ri mi (NN T - 1) = rbar_surface (rs T (NN T - 1)) (ms T (NN T - 1))) by (unfold rbar_of; cbv zeta; rewrite Nat.eqb_refl; reflexivity).
  split; [rewrite Er; exact (rbar_surface_pos T HM HR)|]. split; [rewrite Er; exact (rbar_surface_eq T HM HR)|]. split; [exact (psi_surface e p de T HM HR c ri mi Hn)|exact (phi_surface T HM HR Hh)].
Qed.
Print Assumptions C114_surface.
Example C114_surface_example : let T := {| hs := fun _ => 1; rs := fun _ => 10; ms := fun _ => 9 / 5; hcent := 1; NN := 3 |} in
  rbar_surface (rs T 2) (ms T 2) = 81 / 10 /\ (1 <= NN T - 1)%nat /\ 0 <= ms T 2 /\ 2 * ms T 2 < rs T 2 /\ hs T 2 = 1.
Proof.
  cbn. repeat split; try lra; try lia. unfold rbar_surface, Pow2. replace (10 * 10 - 2 * (9 / 5) * 10) with (8 * 8) by field. rewrite sqrt_square by lra. field.
Qed.
Theorem C114_conformal_factor (e p de : R -> R) (T : Star) (c : R) (ri mi : R -> R) (i : nat) : (1 <= i)%nat -> 0 < rbar_of e p de T c ri mi i -> 0 <= rs T i ->
  psi_of e p de T c ri mi i ^ 2 * rbar_of e p de T c ri mi i = rs T i.
Proof. apply psi_square. Qed.
Print Assumptions C114_conformal_factor.
(** between the surface and the third point the isotropic radius makes one Runge-Kutta step of its equation per point, inwards *)
Theorem C114_isotropic_steps (e p de : R -> R) (T : Star) (hc c : R) (N : nat) (ri mi : R -> R) (i : nat) : solve_ODE e p de hc N = Ok T -> (2 <= i)%nat -> (i + 1 < N)%nat ->
  rbar_of e p de T c ri mi i =
  fst (rk4 (fun t y _ => drbar_dh p t y (ri t) (mi t)) (fun _ _ _ => 0) (hs T i - hs T (S i)) (hs T (S i)) (rbar_of e p de T c ri mi (S i)) 0).
Proof.
  intros H H2 HN. destruct (solve_ok e p de hc N T H) as (A & B & C & D & E & F & G & I & _).
  assert (Eh : forall k, (k < N)%nat -> hs T (N - 1 - k) = 1 + INR k * ((hc - 1) / INR (N - 1))).
  { assert (P : 0 < INR (N - 1)) by (apply lt_0_INR; lia). induction k as [|k IH]; intros Hk.
    - rewrite Nat.sub_0_r, E. cbn [INR]. ring.
    - specialize (IH ltac:(lia)). pose proof (I (N - 1 - S k)%nat) as J. replace (S (N - 1 - S k)) with (N - 1 - k)%nat in J by lia. rewrite IH in J. rewrite S_INR.
      replace (hs T (N - 1 - S k)) with (1 + INR k * ((hc - 1) / INR (N - 1)) - (1 - hc) / INR (N - 1)) by lra. field. lra. }
  pose proof (Eh (N - 1 - i)%nat ltac:(lia)) as E1. replace (N - 1 - (N - 1 - i))%nat with i in E1 by lia.
  pose proof (Eh (N - 1 - S i)%nat ltac:(lia)) as E2. replace (N - 1 - (N - 1 - S i))%nat with (S i) in E2 by lia.
  replace (N - 1 - i)%nat with (S (N - 1 - S i)) in E1 by lia. rewrite S_INR in E1.
  replace (hs T i - hs T (S i)) with ((hc - 1) / INR (N - 1)) by lra. rewrite E2.
  unfold rbar_of at 1. cbv zeta. rewrite B, C. destruct (Nat.eqb_spec i (N - 1)) as [|_]; [lia|]. destruct i as [|[|i]]; [lia|lia|].
  replace (N - 1 - S (S i))%nat with (S (N - 1 - S (S (S i)))) by lia. cbn [rbar_down]. set (k := (N - 1 - S (S (S i)))%nat).
  assert (Er : rbar_of e p de T c ri mi (S (S (S i))) = rbar_down p ri mi (rs T (N - 1)) (ms T (N - 1)) ((hc - 1) / INR (N - 1)) k).
  { unfold rbar_of. cbv zeta. rewrite B, C. destruct (Nat.eqb_spec (S (S (S i))) (N - 1)) as [Q|Q]; [|reflexivity]. unfold k. rewrite Q, Nat.sub_diag. reflexivity. }
  rewrite Er. unfold rk4. cbv zeta. cbn [fst]. reflexivity.
Qed.
Print Assumptions C114_isotropic_steps.
(** near the centre the mass starts as that of a ball of the starting radius and central density *)
Theorem C114_centre_mass (e p de : R -> R) (hc : R) : 0 < e hc -> 0 < e hc + 3 * p hc -> limit_below (fun h => m_approx e p de h hc / r_approx e p de h hc ^ 3) hc (4 * PI / 3 * e hc).
Proof. apply m_approx_lim. Qed.
Print Assumptions C114_centre_mass.
(** refuted: the expansion at the centre misses the factor 1/hc in r^2; against any regular solution the ratio of the squares tends to hc, not to 1 *)
Theorem C114_centre_refuted (e p de r m : R -> R) (a hc : R) : a < hc -> 1 < hc ->
  (forall h, a < h < hc -> derivable_pt_lim r h (dr_dh p h (r h) (m h)) /\ derivable_pt_lim m h (dm_dh e p h (r h) (m h)) /\ 0 < r h) -> limit_below r hc 0 ->
  limit_below (fun h => m h / r h ^ 3) hc (4 * PI / 3 * e hc) -> limit_below p hc (p hc) -> 0 < e hc + 3 * p hc ->
  limit_below (fun h => r_approx e p de h hc ^ 2 / r h ^ 2) hc hc /\ ~ limit_below (fun h => r_approx e p de h hc ^ 2 / r h ^ 2) hc 1.
Proof.
  intros Ha Hc Hs Hr Hm Hp He.
  assert (HS : forall h, a < h < hc -> solves e p r m h /\ 0 < r h) by (intros h Hh; destruct (Hs h Hh) as (A & B & D); repeat split; assumption).
  pose proof (approx_ratio e p de r m a hc Ha ltac:(lra) HS Hr Hm Hp He) as L. split; [exact L|]. intros C. pose proof (lim_unique _ _ _ _ L C). lra.
Qed.
Print Assumptions C114_centre_refuted.
(** refuted: the integrand of the constant c is set to 0 at the centre; its limit there is - e/((e + 3 p) hc) *)
Theorem C114_c_integrand_refuted (e p r m : R -> R) (a hc : R) : a < hc -> 0 < hc ->
  (forall h, a < h < hc -> derivable_pt_lim r h (dr_dh p h (r h) (m h)) /\ derivable_pt_lim m h (dm_dh e p h (r h) (m h)) /\ 0 < r h) -> limit_below r hc 0 ->
  limit_below (fun h => m h / r h ^ 3) hc (4 * PI / 3 * e hc) -> limit_below p hc (p hc) -> 0 < e hc + 3 * p hc ->
  limit_below (fun h => (1 / sqrt (1 - 2 * m h / r h) - 1) / r h * dr_dh p h (r h) (m h)) hc (- (e hc / ((e hc + 3 * p hc) * hc))) /\
  (e hc <> 0 -> forall T, c_integrand p T 0 <> - (e hc / ((e hc + 3 * p hc) * hc))).
Proof.
  intros Ha Hc Hs Hr Hm Hp He.
  assert (HS : forall h, a < h < hc -> solves e p r m h /\ 0 < r h) by (intros h Hh; destruct (Hs h Hh) as (A & B & D); repeat split; assumption).
  split; [exact (c_lim e p r m a hc Ha Hc HS Hr Hm Hp He)|]. intros H T. unfold c_integrand. intros C.
  assert (e hc / ((e hc + 3 * p hc) * hc) <> 0); [|lra]. unfold Rdiv. apply Rmult_integral_contrapositive_currified; [exact H|]. apply Rinv_neq_0_compat. apply Rmult_integral_contrapositive_currified; lra.
Qed.
Print Assumptions C114_c_integrand_refuted.
(** both apply to the incompressible star of central enthalpy 2 *)
Example C114_centre_example : ~ limit_below (fun h => r_approx (ei 1) (pi_ 1) (fun _ => 0) h 2 ^ 2 / ri 1 2 h ^ 2) 2 1.
Proof.
  refine (proj2 (C114_centre_refuted (ei 1) (pi_ 1) (fun _ => 0) (ri 1 2) (mi 1 2) 1 2 _ _ _ _ _ _ _)); try lra.
  - intros h Hh. destruct (inc_solves 1 2 ltac:(lra) ltac:(lra) h ltac:(lra)). repeat split; try assumption. apply ri_pos; lra.
  - apply inc_r0; lra.
  - apply inc_m0; lra.
  - apply inc_p0.
  - unfold ei, pi_. lra.
Qed.

(** * C115: the search for the central enthalpy *)
(** what is returned is the mass of the star at the returned central enthalpy; the status is 0 exactly when it is the requested one to 1e-12, and
    otherwise the requested mass is replaced by the one found *)
Theorem C115_report mass bar hc m st b : TOV_search mass bar = Star_of hc m st b ->
  mass hc = Some m /\ (st = false <-> Rabs (m - bar) < / 1000000000000) /\ b = (if st then m else bar).
Proof. apply search_report. Qed.
Print Assumptions C115_report.
Theorem C115_no_star mass bar : (TOV_search mass bar = NoStar <-> Rabs bar < / 1000000000000) /\ (TOV_search mass bar = Failed -> exists hc, mass hc = None).
Proof. split; [apply search_none|apply search_failed]. Qed.
Print Assumptions C115_no_star.
(** when the mass, as a function of the central enthalpy, is Lipschitz up to the k-th trial 1.5 * 1.25^k, starts at most at the target and has reached
    it there, the star found has the target mass up to twice the tolerance; no monotonicity is needed *)
Theorem C115_converges (mass : R -> option R) (f : R -> R) (bar L : R) (k n : nat) : / 1000000000000 <= bar ->
  let B := 3 / 2 * (5 / 4) ^ k in
  (forall h, 1 <= h <= B -> mass h = Some (f h)) -> 0 <= L -> (forall x y, 1 <= x <= B -> 1 <= y <= B -> Rabs (f x - f y) <= L * Rabs (x - y)) ->
  f 1 <= bar -> bar <= f B -> L * B / 2 ^ n < / 1000000000000 -> (S k + n < 1000)%nat ->
  exists hc m st b, TOV_search mass bar = Star_of hc m st b /\ Rabs (m - bar) < 2 / 1000000000000.
Proof.
  intros Hb B Hm HL Hl H1 HB Hn Hk.
  destruct (search_converges mass bar f ROUND_OFF_ERR B L k n) as (hc & m & st & b & E & A); try assumption; unfold ROUND_OFF_ERR in *; try lra.
  - intros j x _ _. left. reflexivity.
  - unfold B, try_h. lra.
  - fold (try_h k) in B. unfold B in HB. lra.
  - exists hc, m, st, b. split; [exact E|lra].
Qed.
Print Assumptions C115_converges.
(** and the status is 0 if moreover no point the bisection can try has a mass at exactly the tolerance from the target *)
Theorem C115_converges_status (mass : R -> option R) (f : R -> R) (bar L : R) (k n : nat) : / 1000000000000 <= bar ->
  let B := 3 / 2 * (5 / 4) ^ k in
  (forall h, 1 <= h <= B -> mass h = Some (f h)) -> 0 <= L -> (forall x y, 1 <= x <= B -> 1 <= y <= B -> Rabs (f x - f y) <= L * Rabs (x - y)) ->
  f 1 <= bar -> bar <= f B -> L * B / 2 ^ n < / 1000000000000 -> (S k + n < 1000)%nat ->
  (forall (j q i : nat) (x : R), (x = 1 + INR q / 2 ^ i * (1 / 2) \/ x = 3 / 2 * (5 / 4) ^ j * (1 + INR q / 2 ^ i * (1 / 4))) -> 1 <= x <= B -> Rabs (f x - bar) <> / 1000000000000) ->
  exists hc m, TOV_search mass bar = Star_of hc m false bar /\ Rabs (m - bar) < / 1000000000000.
Proof.
  intros Hb B Hm HL Hl H1 HB Hn Hk Hg.
  destruct (search_converges mass bar f 0 B L k n) as (hc & m & st & b & E & A); try assumption; unfold ROUND_OFF_ERR in *; try lra.
  - intros j x (q & i & Ex) Hx. right. destruct j as [|j].
    + apply (Hg O q i x); [left|exact Hx]. rewrite Ex. cbn [lower]. unfold try_h. cbn [pow]. field. apply pow_nonzero. lra.
    + apply (Hg j q i x); [right|exact Hx]. rewrite Ex. cbn [lower]. rewrite try_h_S. unfold try_h. field. apply pow_nonzero. lra.
  - unfold B, try_h. lra.
  - fold (try_h k) in B. unfold B in HB. lra.
  - destruct (search_report _ _ _ _ _ _ E) as (_ & S1 & S2). unfold ROUND_OFF_ERR in *. rewrite Rplus_0_l in A.
    assert (st = false) as -> by (apply S1; exact A). rewrite S2 in E. exists hc, m. split; assumption.
Qed.
Print Assumptions C115_converges_status.
Example C115_converges_example : exists hc m st b, TOV_search (fun h => Some ((h - 1) ^ 2)) 1 = Star_of hc m st b /\ Rabs (m - 1) < 2 / 1000000000000.
Proof.
  apply (C115_converges (fun h => Some ((h - 1) ^ 2)) (fun h => (h - 1) ^ 2) 1 3 2 45); try lra; try lia; cbv zeta.
  - reflexivity.
  - intros x y Hx Hy. cbn [pow] in *. replace ((x - 1) * ((x - 1) * 1) - (y - 1) * ((y - 1) * 1)) with ((x + y - 2) * (x - y)) by ring. rewrite Rabs_mult. apply Rmult_le_compat_r; [apply Rabs_pos|]. rewrite Rabs_pos_eq by lra. lra.
Qed.
(** a request above the maximum mass of the equation of state: a star of another mass is returned, that of the last enthalpy tried *)
Theorem C115_above_maximum_mass_refuted (mass : R -> option R) (f : R -> R) (bar : R) : (forall h, 1 <= h -> mass h = Some (f h) /\ f h < bar - / 1000000000000) -> / 1000000000000 <= bar ->
  let h := 3 / 2 * (5 / 4) ^ 999 in TOV_search mass bar = Star_of h (f h) true (f h).
Proof. apply search_above_report. Qed.
Print Assumptions C115_above_maximum_mass_refuted.
Example C115_above_example : (forall h, 1 <= h -> (fun h => Some (1 - / h)) h = Some (1 - / h) /\ 1 - / h < 2 - / 1000000000000).
Proof. intros h Hh. split; [reflexivity|]. assert (0 < / h) by (apply Rinv_0_lt_compat; lra). lra. Qed.
