(** ControlProofs.v - proofs about ControlModel.v *)
From Coq Require Import Reals Lra Lia ZArith Psatz Ranalysis List.
From Coquelicot Require Import Coquelicot.
From Verif Require Import RealBase TensorSpec ControlModel.
From Verif Require Base GenAH.
Import Base(outcome, Ok, Abort, UB, obind).
Open Scope R_scope.

(** ** start-off *)
Lemma chr_mass_eq irr chi : 0 <= chi <= 1 -> chr_mass irr chi * chr_mass irr chi = irr*irr * (2/(1 + sqrt (1 - chi*chi))).
Proof.
  intros H. unfold chr_mass. pose proof (sqrt_pos (1 - chi*chi)) as P.
  assert (0 <= 2/(1 + sqrt (1 - chi*chi))) by (apply Rlt_le, Rdiv_lt_0_compat; lra).
  replace (irr * _ * (irr * _)) with (irr*irr*(sqrt (2/(1 + sqrt (1 - chi*chi))) * sqrt (2/(1 + sqrt (1 - chi*chi))))) by ring.
  rewrite sqrt_sqrt by assumption. reflexivity.
Qed.
(** M^2 = irr^2 + S^2/(4 irr^2) with S = chi M^2 *)
Lemma christodoulou irr chi : 0 < irr -> 0 <= chi <= 1 ->
  let M := chr_mass irr chi in M*M = irr*irr + (chi*(M*M))*(chi*(M*M))/(4*(irr*irr)).
Proof.
  intros Hi H M. unfold M. rewrite chr_mass_eq by exact H. set (q := sqrt (1 - chi*chi)).
  assert (0 <= q) by apply sqrt_pos. assert (q*q = 1 - chi*chi) as Q by (apply sqrt_sqrt; nra).
  assert (E : chi*chi = 1 - q*q) by lra.
  replace (chi*(irr*irr*(2/(1+q)))*(chi*(irr*irr*(2/(1+q))))/(4*(irr*irr))) with ((chi*chi)*(irr*irr)*(/((1+q)*(1+q)))) by (field; lra).
  rewrite E. field. lra.
Qed.
Lemma net_chi_sq chi : net_chi chi * net_chi chi = chi 0%nat * chi 0%nat + chi 1%nat * chi 1%nat + chi 2%nat * chi 2%nat /\ 0 <= net_chi chi.
Proof. split; [apply sqrt_sqrt; nra|apply sqrt_pos]. Qed.
Lemma KSgen_ok irr chi : 0 < irr -> net_chi chi <= 1 -> exists r M a, start_KSgen irr chi = Ok (mkstart r M a) /\
  0 < M /\ a = net_chi chi * M /\ M <= r /\ r*r - 2*M*r + a*a = 0 /\ r*r + a*a = 4*(irr*irr) /\ M*M = irr*irr + (a*M)*(a*M)/(4*(irr*irr)).
Proof.
  intros Hi Hc. destruct (net_chi_sq chi) as [_ P0]. unfold start_KSgen. cbv zeta. set (c := net_chi chi) in *.
  destruct (GRT c 1) eqn:E; [apply GRT_iff in E; pose proof ROE_pos; lra|].
  destruct (ltR_spec (1 - c*c) 0); [nra|].
  set (q := sqrt (1 - c*c)). assert (0 <= q) by apply sqrt_pos. assert (q*q = 1 - c*c) as Q by (apply sqrt_sqrt; nra).
  pose proof (chr_mass_eq irr c ltac:(lra)) as EM. fold q in EM. set (M := chr_mass irr c) in *.
  assert (0 < M). { unfold M, chr_mass. fold q. apply Rmult_lt_0_compat; [exact Hi|]. apply sqrt_lt_R0, Rdiv_lt_0_compat; lra. }
  exists (M*(1+q)), M, (c*M). split; [reflexivity|]. split; [assumption|]. split; [reflexivity|]. split; [nra|].
  assert (HM : M*M*(1+q) = 2*(irr*irr)) by (rewrite EM; field; lra).
  split; [nra|]. split; [nra|].
  pose proof (christodoulou irr c Hi ltac:(lra)) as C. cbv zeta in C. fold M in C. rewrite C at 1. f_equal. f_equal. ring.
Qed.
Lemma Close_ok irr chi : 0 < irr -> net_chi chi <= 1 ->
  start_Close irr chi = Ok (mkstart (3/2*irr) irr (net_chi chi * chr_mass irr (net_chi chi))).
Proof.
  intros Hi Hc. destruct (net_chi_sq chi) as [_ P0]. unfold start_Close. cbv zeta. set (c := net_chi chi) in *.
  destruct (GRT c 1) eqn:E; [apply GRT_iff in E; pose proof ROE_pos; lra|].
  destruct (ltR_spec (1 - c*c) 0); [nra|]. reflexivity.
Qed.
Lemma start_too_large irr chi : 1 + ROUND_OFF_ERR < net_chi chi -> start_KSgen irr chi = Abort /\ start_Close irr chi = Abort.
Proof. intros H. unfold start_KSgen, start_Close. cbv zeta. replace (GRT _ _) with true by (symmetry; apply GRT_iff; exact H). split; reflexivity. Qed.
Lemma start_nan irr chi : 1 < net_chi chi <= 1 + ROUND_OFF_ERR -> start_KSgen irr chi = UB /\ start_Close irr chi = UB.
Proof.
  intros H. unfold start_KSgen, start_Close. cbv zeta. set (c := net_chi chi) in *.
  destruct (GRT c 1) eqn:E; [apply GRT_iff in E; lra|]. destruct (ltR_spec (1 - c*c) 0); [split; reflexivity|nra].
Qed.
(** the mass stored by the start-off for binaries is not the Christodoulou mass of a spinning hole *)
Lemma Close_mass irr chi : 0 < irr -> 0 < net_chi chi <= 1 -> irr < chr_mass irr (net_chi chi).
Proof.
  intros Hi Hc. set (c := net_chi chi) in *. pose proof (christodoulou irr c Hi ltac:(lra)) as C. cbv zeta in C.
  assert (P : 0 < chr_mass irr c). { unfold chr_mass. apply Rmult_lt_0_compat; [exact Hi|]. apply sqrt_lt_R0, Rdiv_lt_0_compat; [lra|]. pose proof (sqrt_pos (1 - c*c)). lra. }
  set (M := chr_mass irr c) in *. assert (0 < c*(M*M)) by (apply Rmult_lt_0_compat; nra).
  assert (0 < c*(M*M)*(c*(M*M))/(4*(irr*irr))) by (apply Rdiv_lt_0_compat; nra). nra.
Qed.
Lemma chi_bound irr s : irr <> 0 -> chi_now irr s 0 * chi_now irr s 0 + chi_now irr s 1 * chi_now irr s 1 + chi_now irr s 2 * chi_now irr s 2 <= 1.
Proof.
  intros H. unfold chi_now. set (n2 := s 0%nat * s 0%nat + s 1%nat * s 1%nat + s 2%nat * s 2%nat).
  assert (0 <= n2) by (unfold n2; nra).
  assert (EM : chr_mass_now irr s * chr_mass_now irr s = irr*irr + n2/(4*(irr*irr))).
  { unfold chr_mass_now. fold n2. rewrite (sqrt_sqrt n2) by assumption. apply sqrt_sqrt.
    assert (0 <= n2/(4*(irr*irr))) by (apply Rmult_le_pos; [assumption|left; apply Rinv_0_lt_compat; nra]). nra. }
  rewrite EM. set (m2 := irr*irr + n2/(4*(irr*irr))).
  assert (0 < irr*irr) by nra.
  assert (0 < m2) by (unfold m2; assert (0 <= n2/(4*(irr*irr))) by (apply Rmult_le_pos; [assumption|left; apply Rinv_0_lt_compat; lra]); lra).
  replace (s 0%nat / m2 * (s 0%nat / m2) + s 1%nat / m2 * (s 1%nat / m2) + s 2%nat / m2 * (s 2%nat / m2)) with (n2/(m2*m2)) by (unfold n2; field; lra).
  apply Rmult_le_reg_r with (m2*m2); [nra|]. unfold Rdiv. rewrite Rmult_assoc, Rinv_l by nra. rewrite Rmult_1_r, Rmult_1_l.
  assert (m2*m2 - n2 = (irr*irr - n2/(4*(irr*irr)))^2) by (unfold m2; field; nra).
  pose proof (pow2_ge_0 (irr*irr - n2/(4*(irr*irr)))). lra.
Qed.
Lemma chr_now_sq irr s : irr <> 0 -> chr_mass_now irr s * chr_mass_now irr s = irr*irr + (s 0%nat * s 0%nat + s 1%nat * s 1%nat + s 2%nat * s 2%nat)/(4*(irr*irr)).
Proof.
  intros H. set (n2 := s 0%nat * s 0%nat + s 1%nat * s 1%nat + s 2%nat * s 2%nat).
  assert (0 <= n2) by (unfold n2; nra). assert (0 < irr*irr) by nra.
  unfold chr_mass_now. fold n2. rewrite (sqrt_sqrt n2) by assumption. apply sqrt_sqrt.
  assert (0 <= n2/(4*(irr*irr))) by (apply Rmult_le_pos; [assumption|left; apply Rinv_0_lt_compat; lra]). lra.
Qed.

(** ** radius *)
Section Radius.
  Variables (target r W tol irr : R).
  Hypotheses (Ht : 0 < target) (Hr : 0 < r).
  Lemma tune_in_tol : Rabs (irr/target - 1) < tol - ROUND_OFF_ERR \/ Rabs (irr/target - 1) = tol \/ Rabs W < ROUND_OFF_ERR ->
    tune_radius target r W tol irr = (r, false).
  Proof.
    intros H. unfold tune_radius, tune_dr. pose proof ROE_pos.
    destruct (LSSEQL (Rabs (irr/target-1)) tol) eqn:E.
    - rewrite Rmult_0_r, Rplus_0_r, EQL_refl. reflexivity.
    - assert (~ (Rabs (irr/target-1) < tol + ROUND_OFF_ERR /\ Rabs (irr/target-1) <> tol - ROUND_OFF_ERR)) as N
        by (intros X; apply LSSEQL_iff in X; congruence).
      destruct H as [H|[H|H]]; [exfalso; apply N; split; lra|exfalso; apply N; split; lra|].
      replace (EQL W 0) with true by (symmetry; apply EQL_iff; rewrite Rminus_0_r; exact H).
      rewrite Rmult_0_r, Rplus_0_r, EQL_refl. reflexivity.
  Qed.
  Lemma tune_out : tol + ROUND_OFF_ERR <= Rabs (irr/target - 1) -> ROUND_OFF_ERR <= Rabs W ->
    tune_radius target r W tol irr = (r * (1 - W*(irr/target - 1)), negb (EQL (r*(irr/target-1)) 0)).
  Proof.
    intros H HW. unfold tune_radius, tune_dr. pose proof ROE_pos.
    replace (LSSEQL (Rabs (irr/target-1)) tol) with false.
    2:{ symmetry. destruct (LSSEQL (Rabs (irr/target-1)) tol) eqn:E; [|reflexivity]. apply LSSEQL_iff in E. lra. }
    replace (EQL W 0) with false by (symmetry; apply EQL_false; rewrite Rminus_0_r; exact HW).
    f_equal; [ring|]. f_equal. unfold EQL.
    destruct (ltR_spec (- r*(irr/target-1)) (0+ROUND_OFF_ERR)), (ltR_spec (0-ROUND_OFF_ERR) (- r*(irr/target-1))),
     (ltR_spec (r*(irr/target-1)) (0+ROUND_OFF_ERR)), (ltR_spec (0-ROUND_OFF_ERR) (r*(irr/target-1))); try reflexivity; lra.
  Qed.
  Lemma tune_flag : snd (tune_radius target r W tol irr) = true -> fst (tune_radius target r W tol irr) <> r.
  Proof.
    unfold tune_radius. cbn [fst snd]. intros H. apply negb_true_iff in H. apply EQL_false in H. rewrite Rminus_0_r in H.
    pose proof ROE_pos. intros E. assert (W * tune_dr target r W tol irr = 0) as Z by lra. apply Rmult_integral in Z. destruct Z as [Z|Z].
    - unfold tune_dr in H. rewrite Z in H. replace (EQL 0 0) with true in H by (symmetry; apply EQL_refl).
      destruct (LSSEQL _ _) in H; rewrite Rabs_R0 in H; lra.
    - rewrite Z, Rabs_R0 in H. lra.
  Qed.
  Lemma tune_flag0 : snd (tune_radius target r W tol irr) = false -> Rabs (fst (tune_radius target r W tol irr) - r) <= Rabs W * ROUND_OFF_ERR.
  Proof.
    unfold tune_radius. cbn [fst snd]. intros H. apply negb_false_iff in H. apply EQL_iff in H. rewrite Rminus_0_r in H.
    replace (r + W * tune_dr target r W tol irr - r) with (W * tune_dr target r W tol irr) by ring.
    rewrite Rabs_mult. apply Rmult_le_compat_l; [apply Rabs_pos|lra].
  Qed.
End Radius.
(** iteration of the tuning with a hole whose irreducible mass is proportional to its radius *)
Fixpoint tuned (k target W tol r : R) (n : nat) : R :=
  match n with O => r | S n => let q := tuned k target W tol r n in fst (tune_radius target q W tol (k*q)) end.
Lemma tuned_S k target W tol r n : tuned k target W tol r (S n) = fst (tune_radius target (tuned k target W tol r n) W tol (k * tuned k target W tol r n)).
Proof. reflexivity. Qed.
Lemma step_err target r W tol k : 0 < target -> 0 < W <= 1 -> 0 < k ->
  let q := k*r/target in let r' := fst (tune_radius target r W tol (k*r)) in
  r' = r \/ k*r'/target - 1 = (q - 1) * (1 - W*q).
Proof.
  intros Ht HW Hk q r'. unfold r', tune_radius. cbn [fst]. unfold tune_dr. fold q.
  destruct (LSSEQL _ _); [left; ring|]. destruct (EQL W 0); [left; ring|]. right. unfold q. field. lra.
Qed.
Lemma tuned_err k target W tol r : 0 < target -> 0 < W <= 1 -> 0 < k -> Rabs (k*r/target - 1) < 1 ->
  forall n, Rabs (k * tuned k target W tol r n/target - 1) <= Rabs (k*r/target - 1).
Proof.
  intros Ht HW Hk H0. induction n as [|n IH]; [cbn; lra|].
  rewrite tuned_S. set (q := tuned k target W tol r n) in *.
  destruct (step_err target q W tol k Ht HW Hk) as [E|E]; cbv zeta in E; rewrite E; [exact IH|].
  rewrite Rabs_mult. set (x := k*q/target) in *.
  assert (Rabs (1 - W*x) <= 1).
  { assert (-1 < x - 1 < 1) by (apply Rabs_def2 in H0; split; pose proof (Rle_lt_trans _ _ _ IH (Rabs_def1 _ _ (proj1 H0) (proj2 H0))) as Y; apply Rabs_def2 in Y; lra).
    apply Rabs_le. split; nra. }
  pose proof (Rabs_pos (x-1)). nra.
Qed.
Lemma tuned_geometric k target W tol r : 0 < target -> 0 < W <= 1 -> 0 < k -> Rabs (k*r/target - 1) < 1 ->
  ROUND_OFF_ERR <= W -> 
  exists rho, 0 <= rho < 1 /\ forall n, (forall m, (m < n)%nat -> tol + ROUND_OFF_ERR <= Rabs (k * tuned k target W tol r m/target - 1)) ->
    Rabs (k * tuned k target W tol r n/target - 1) <= rho^n * Rabs (k*r/target - 1).
Proof.
  intros Ht HW Hk H0 HWr. set (e := Rabs (k*r/target - 1)) in *. pose proof (Rabs_pos (k*r/target-1)) as Pe. fold e in Pe.
  exists (Rmax (1 - W*(1-e)) (W*(1+e) - 1)). set (rho := Rmax _ _).
  assert (1 - W*(1-e) <= rho) by apply Rmax_l. assert (W*(1+e)-1 <= rho) by apply Rmax_r.
  assert (0 <= rho < 1). { split; [nra|]. unfold rho. apply Rmax_lub_lt; nra. }
  split; [assumption|]. induction n as [|n IH]; intros Hm; [cbn; fold e; lra|].
  specialize (IH (fun m L => Hm m ltac:(lia))). pose proof (tuned_err k target W tol r Ht HW Hk H0 n) as B. fold e in B.
  rewrite tuned_S. set (q := tuned k target W tol r n) in *.
  assert (tol + ROUND_OFF_ERR <= Rabs (k*q/target - 1)) as Out by (apply Hm; lia).
  assert (EQ : k * fst (tune_radius target q W tol (k*q))/target - 1 = (k*q/target - 1)*(1 - W*(k*q/target))).
  { rewrite tune_out; [cbn [fst]; field; lra|exact Out|rewrite Rabs_right by lra; lra]. }
  rewrite EQ, Rabs_mult. set (x := k*q/target) in *. cbn [pow].
  assert (Rabs (1 - W*x) <= rho).
  { assert (- e <= x - 1 <= e) by (split; [pose proof (Rle_abs (-(x-1))); rewrite Rabs_Ropp in *; lra|pose proof (Rle_abs (x-1)); lra]).
    apply Rabs_le. split; nra. }
  pose proof (Rabs_pos (x-1)). pose proof (Rabs_pos (1-W*x)).
  replace (rho * rho^n * e) with (rho^n * e * rho) by ring. apply Rmult_le_compat; lra.
Qed.
Lemma tuned_reaches k target W tol r : 0 < target -> 0 < W <= 1 -> 0 < k -> Rabs (k*r/target - 1) < 1 ->
  ROUND_OFF_ERR <= W -> 0 <= tol -> exists n, Rabs (k * tuned k target W tol r n/target - 1) < tol + ROUND_OFF_ERR.
Proof.
  intros Ht HW Hk H0 HWr Htol. destruct (tuned_geometric k target W tol r Ht HW Hk H0 HWr) as (rho & Hrho & G).
  pose proof ROE_pos as RP.
  destruct (pow_lt_1_zero rho ltac:(rewrite Rabs_right; lra) ROUND_OFF_ERR RP) as [N HN].
  specialize (HN N ltac:(lia)). rewrite Rabs_right in HN by (apply Rle_ge, pow_le; lra).
  destruct (Classical_Prop.classic (exists n, Rabs (k * tuned k target W tol r n/target - 1) < tol + ROUND_OFF_ERR)) as [|NE]; [assumption|exfalso].
  assert (A : forall m, tol + ROUND_OFF_ERR <= Rabs (k * tuned k target W tol r m/target - 1)).
  { intros m. destruct (Rlt_le_dec (Rabs (k * tuned k target W tol r m/target - 1)) (tol + ROUND_OFF_ERR)); [exfalso; apply NE; exists m; assumption|assumption]. }
  specialize (G N (fun m _ => A m)). specialize (A N). pose proof (Rabs_pos (k*r/target - 1)).
  assert (0 <= rho^N) by (apply pow_le; lra). nra.
Qed.

(** ** spin *)
Lemma chi_off W tol chi om osys irr s i : Rabs W < ROUND_OFF_ERR -> tune_chi W tol chi om osys irr s i = om i.
Proof. intros H. unfold tune_chi. replace (EQL W 0) with true by (symmetry; apply EQL_iff; rewrite Rminus_0_r; exact H). reflexivity. Qed.
Lemma chi_in W tol chi om osys irr s i : Rabs (chi_now irr s i - chi i) <= tol + ROUND_OFF_ERR -> tune_chi W tol chi om osys irr s i = om i.
Proof.
  intros H. unfold tune_chi. destruct (EQL W 0); [reflexivity|]. cbv zeta.
  destruct (GRT _ _) eqn:E; [|reflexivity]. apply GRT_iff in E. lra.
Qed.
Lemma chi_out W tol chi om osys irr s i : ROUND_OFF_ERR <= Rabs W -> tol + ROUND_OFF_ERR < Rabs (chi_now irr s i - chi i) ->
  tune_chi W tol chi om osys irr s i = om i + W * (chi_now irr s i - chi i) * Rabs osys.
Proof.
  intros HW H. unfold tune_chi. replace (EQL W 0) with false by (symmetry; apply EQL_false; rewrite Rminus_0_r; exact HW).
  cbv zeta. replace (GRT _ _) with true by (symmetry; apply GRT_iff; exact H). reflexivity.
Qed.

(** ** centre of mass *)
Lemma yCM_ok px W dP thr Om M y0 : Om <> 0 -> M <> 0 -> dP + ROUND_OFF_ERR < Rabs px < thr - ROUND_OFF_ERR ->
  px + Om*M*(tune_yCM px W dP thr Om M y0 - y0) = (1-W)*px.
Proof.
  intros HO HM [H1 H2]. unfold tune_yCM. replace (GRT _ _) with true by (symmetry; apply GRT_iff; exact H1).
  replace (LSS _ _) with true by (symmetry; apply LSS_iff; exact H2). cbn [andb]. field. split; assumption.
Qed.
Lemma xCM_ok py W dP thr Om M x0 : Om <> 0 -> M <> 0 -> dP + ROUND_OFF_ERR < Rabs py < thr - ROUND_OFF_ERR ->
  py - Om*M*(tune_xCM py W dP thr Om M x0 - x0) = (1-W)*py.
Proof.
  intros HO HM [H1 H2]. unfold tune_xCM. replace (GRT _ _) with true by (symmetry; apply GRT_iff; exact H1).
  replace (LSS _ _) with true by (symmetry; apply LSS_iff; exact H2). cbn [andb]. field. split; assumption.
Qed.
Lemma CM_idle p W dP thr Om M c0 : Rabs p <= dP + ROUND_OFF_ERR \/ thr - ROUND_OFF_ERR <= Rabs p ->
  tune_yCM p W dP thr Om M c0 = c0 /\ tune_xCM p W dP thr Om M c0 = c0.
Proof.
  intros H. unfold tune_yCM, tune_xCM. destruct (GRT (Rabs p) dP) eqn:E1; destruct (LSS (Rabs p) thr) eqn:E2; cbn [andb]; try (split; reflexivity).
  apply GRT_iff in E1. apply LSS_iff in E2. lra.
Qed.

(** ** Euler constant and force balance *)
Lemma euler_bad W tol g f res : sqrt tol + ROUND_OFF_ERR < res -> euler_update W tol g f res = g.
Proof. intros H. unfold euler_update. replace (GRT _ _) with true by (symmetry; apply GRT_iff; exact H). reflexivity. Qed.
Lemma euler_good W tol g f res : res <= sqrt tol + ROUND_OFF_ERR -> euler_update W tol g f res = g + W*(f - g).
Proof. intros H. unfold euler_update. destruct (GRT _ _) eqn:E; [apply GRT_iff in E; lra|ring]. Qed.
Lemma force_between W old f : 0 <= W <= 1 -> Rmin old f <= force_update W old f <= Rmax old f.
Proof.
  intros H. unfold force_update. cbv zeta. set (w := if ltR _ _ then _ else _).
  assert (0 <= w <= 1) by (unfold w; destruct (ltR _ _); lra). 
  unfold Rmin, Rmax. destruct (Rle_dec old f); split; nra.
Qed.
Lemma force_small W old f : old <> 0 -> Rabs (f - old) <= Rabs old/10 -> force_update W old f = old + W*(f - old).
Proof.
  intros H0 H. unfold force_update. cbv zeta. destruct (ltR_spec (1/10) (Rabs (1 - f/old))) as [L|L]; [exfalso|ring].
  replace (1 - f/old) with (- ((f-old)/old)) in L by (field; assumption). rewrite Rabs_Ropp in L. unfold Rdiv in L. rewrite Rabs_mult, Rabs_inv in L.
  assert (0 < Rabs old) by (apply Rabs_pos_lt; assumption).
  assert (Rabs (f-old) * / Rabs old <= 1/10). { apply Rmult_le_reg_r with (Rabs old); [assumption|]. rewrite Rmult_assoc, Rinv_l by lra. lra. }
  lra.
Qed.
Lemma force_big W old f : old <> 0 -> Rabs old/10 < Rabs (f - old) -> force_update W old f = old + W/10*(f - old).
Proof.
  intros H0 H. unfold force_update. cbv zeta. destruct (ltR_spec (1/10) (Rabs (1 - f/old))) as [L|L]; [field|exfalso].
  apply L. replace (1 - f/old) with (- ((f-old)/old)) by (field; assumption). rewrite Rabs_Ropp. unfold Rdiv at 2. rewrite Rabs_mult, Rabs_inv.
  assert (0 < Rabs old) by (apply Rabs_pos_lt; assumption).
  apply Rmult_lt_reg_r with (Rabs old); [assumption|]. rewrite Rmult_assoc, Rinv_l by lra. lra.
Qed.

(** ** surface search *)
Lemma search_a_spec h : forall n a,
  exists k, (k <= n)%nat /\ search_a h n a = a - INR k/100 /\
    (forall i, (i < k)%nat -> hval h (a - INR i/100) < - ROUND_OFF_ERR) /\
    ((k < n)%nat -> - ROUND_OFF_ERR <= hval h (search_a h n a)).
Proof.
  induction n as [|n IH]; intros a; cbn [search_a].
  - exists 0%nat. repeat split; try lia; try (cbn; lra); intros; lia.
  - destruct (LSS (hval h a) 0) eqn:E.
    + destruct (IH (a - 1/100)) as (k & Hk & Ek & Hb & He). exists (S k). rewrite S_INR. repeat split; try lia.
      * rewrite Ek. lra.
      * intros [|i] Hi; [cbn; replace (a - 0/100) with a by lra; apply LSS_iff in E; lra|].
        rewrite S_INR. replace (a - (INR i + 1)/100) with (a - 1/100 - INR i/100) by lra. apply Hb. lia.
      * intros L. apply He. lia.
    + exists 0%nat. repeat split; try lia; try (cbn; lra); intros; try lia.
      destruct (Rlt_le_dec (hval h a) (- ROUND_OFF_ERR)); [|assumption]. exfalso.
      assert (LSS (hval h a) 0 = true) by (apply LSS_iff; lra). congruence.
Qed.
Lemma search_b_spec h : forall n b,
  exists k, (k <= n)%nat /\ search_b h n b = b + INR k/100 /\
    (forall i, (i < k)%nat -> ROUND_OFF_ERR < hval h (b + INR i/100)) /\
    ((k < n)%nat -> hval h (search_b h n b) <= ROUND_OFF_ERR).
Proof.
  induction n as [|n IH]; intros a; cbn [search_b].
  - exists 0%nat. repeat split; try lia; try (cbn; lra); intros; lia.
  - destruct (GRT (hval h a) 0) eqn:E.
    + destruct (IH (a + 1/100)) as (k & Hk & Ek & Hb & He). exists (S k). rewrite S_INR. repeat split; try lia.
      * rewrite Ek. lra.
      * intros [|i] Hi; [cbn; replace (a + 0/100) with a by lra; apply GRT_iff in E; lra|].
        rewrite S_INR. replace (a + (INR i + 1)/100) with (a + 1/100 + INR i/100) by lra. apply Hb. lia.
      * intros L. apply He. lia.
    + exists 0%nat. repeat split; try lia; try (cbn; lra); intros; try lia.
      destruct (Rlt_le_dec ROUND_OFF_ERR (hval h a)); [|assumption]. exfalso.
      assert (GRT (hval h a) 0 = true) by (apply GRT_iff; lra). congruence.
Qed.
Lemma INR500 k : (k <= 500)%nat -> 0 <= INR k/100 <= 5.
Proof. intros H. pose proof (pos_INR k). apply le_INR in H. replace (INR 500) with 500 in H by (rewrite INR_IZR_INZ; reflexivity). lra. Qed.
Lemma bracket_sound h a b : bracket h = Some (a, b) ->
  -5 <= a <= 0 /\ 0 <= b <= 5 /\ exists fa fb, h a = Some fa /\ h b = Some fb /\ 0 <= fa /\ fb <= 0.
Proof.
  unfold bracket. destruct (search_a_spec h 500 0) as (k & Hk & Ka & _). destruct (search_b_spec h 500 0) as (j & Hj & Jb & _).
  set (a' := search_a h 500 0) in *. set (b' := search_b h 500 0) in *. cbv zeta.
  destruct (ltR_spec (hval h a') 0); [discriminate|].
  destruct (ltR_spec 0 (hval h b')); [discriminate|]. destruct (hmiss h a') eqn:Em; [discriminate|]. intros H. injection H as <- <-.
  pose proof (INR500 k Hk). pose proof (INR500 j Hj).
  split; [lra|]. split; [lra|].
  assert (Ha : exists v, h a' = Some v). { unfold hmiss in Em. destruct (h a') as [v|]; [exists v; reflexivity|discriminate]. }
  assert (Hb : exists v, h b' = Some v).
  { unfold hval in n0. destruct (h b') as [v|]; [exists v; reflexivity|exfalso; apply n0; unfold DBL_MAX; apply pow_lt; lra]. }
  destruct Ha as [fa Ha], Hb as [fb Hb]. exists fa, fb. repeat split; auto; unfold hval in *; rewrite ?Ha, ?Hb in *; lra.
Qed.
(** hence a continuous enthalpy has the value one in the interval *)
Lemma bracket_root f a b : continuity f -> bracket (fun d => Some (f d)) = Some (a, b) -> exists d, a <= d <= b /\ f d = 0.
Proof.
  intros C H. apply bracket_sound in H. destruct H as (Ha & Hb & fa & fb & Ea & Eb & Fa & Fb). injection Ea as <-. injection Eb as <-.
  destruct (Req_dec (f a) 0); [exists a; split; [lra|assumption]|].
  destruct (Req_dec (f b) 0); [exists b; split; [lra|assumption]|].
  destruct (Req_dec a b); [subst; lra|].
  destruct (IVT (fun x => - f x) a b) as [z [Hz Ez]]; try lra.
  - apply continuity_opp; exact C.
  - exists z. split; [exact Hz|lra].
Qed.
Lemma bracket_complete (h : R -> R) : 
  (exists k, (k < 500)%nat /\ 0 <= h (- (INR k/100))) -> (exists k, (k < 500)%nat /\ h (INR k/100) <= 0) ->
  (forall k, (k < 500)%nat -> ~ (- ROUND_OFF_ERR <= h (- (INR k/100)) < 0)) -> (forall k, (k < 500)%nat -> ~ (0 < h (INR k/100) <= ROUND_OFF_ERR)) ->
  exists a b, bracket (fun d => Some (h d)) = Some (a, b).
Proof.
  intros (ka & Hka & Fa) (kb & Hkb & Fb) Na Nb. unfold bracket. set (H := fun d => Some (h d)). pose proof ROE_pos.
  destruct (search_a_spec H 500 0) as (k & Hk & Ka & Kl & Ke). destruct (search_b_spec H 500 0) as (j & Hj & Jb & Jl & Je).
  set (a' := search_a H 500 0) in *. set (b' := search_b H 500 0) in *. cbv zeta.
  assert (k <= ka)%nat. { destruct (le_lt_dec k ka); [assumption|]. specialize (Kl ka l). unfold hval, H in Kl. replace (0 - INR ka/100) with (- (INR ka/100)) in Kl by lra. lra. }
  assert (j <= kb)%nat. { destruct (le_lt_dec j kb); [assumption|]. specialize (Jl kb l). unfold hval, H in Jl. replace (0 + INR kb/100) with (INR kb/100) in Jl by lra. lra. }
  assert (0 <= h a'). { specialize (Ke ltac:(lia)). specialize (Na k ltac:(lia)). rewrite Ka in *. replace (0 - INR k/100) with (- (INR k/100)) in * by lra. unfold hval, H in Ke. lra. }
  assert (h b' <= 0). { specialize (Je ltac:(lia)). specialize (Nb j ltac:(lia)). rewrite Jb in *. replace (0 + INR j/100) with (INR j/100) in * by lra. unfold hval, H in Je. lra. }
  destruct (ltR_spec (hval H a') 0) as [L|L]; [unfold hval, H in L; lra|].
  destruct (ltR_spec 0 (hval H b')) as [L'|L']; [unfold hval, H in L'; lra|].
  unfold hmiss, H. eauto.
Qed.
(** the two thresholds differ: a value just below one is not searched for and not accepted *)
Lemma search_a_stop h n a : LSS (hval h a) 0 = false -> search_a h n a = a.
Proof. intros E. destruct n; cbn [search_a]; [|rewrite E]; reflexivity. Qed.
Lemma search_b_stop h n b : GRT (hval h b) 0 = false -> search_b h n b = b.
Proof. intros E. destruct n; cbn [search_b]; [|rewrite E]; reflexivity. Qed.
Lemma bracket_gap (h : R -> option R) v : h 0 = Some v -> - ROUND_OFF_ERR <= v < 0 -> bracket h = None.
Proof.
  intros E [L1 L2]. unfold bracket.
  assert (F : LSS (hval h 0) 0 = false). { unfold hval. rewrite E. destruct (LSS v 0) eqn:X; [apply LSS_iff in X; lra|reflexivity]. }
  rewrite (search_a_stop _ _ _ F). cbv zeta. unfold hval at 1. rewrite E. destruct (ltR_spec v 0); [reflexivity|lra].
Qed.
Lemma bracket_gap_b (h : R -> option R) v : h 0 = Some v -> 0 < v <= ROUND_OFF_ERR -> bracket h = None.
Proof.
  intros E [L1 L2]. pose proof ROE_pos. unfold bracket.
  assert (F : LSS (hval h 0) 0 = false). { unfold hval. rewrite E. destruct (LSS v 0) eqn:X; [apply LSS_iff in X; lra|reflexivity]. }
  assert (G : GRT (hval h 0) 0 = false). { unfold hval. rewrite E. destruct (GRT v 0) eqn:X; [apply GRT_iff in X; lra|reflexivity]. }
  rewrite (search_a_stop _ _ _ F), (search_b_stop _ _ _ G). cbv zeta. unfold hval. rewrite E. destruct (ltR_spec v 0); [lra|].
  destruct (ltR_spec 0 v); [reflexivity|lra].
Qed.

(** failures in a history *)
Definition fails (l : list (option (R * R * bool))) : nat := length (filter (fun x => match x with None => true | _ => false end) l).
Lemma run_ok mfail : forall l st, (nfail st + fails l <= mfail)%nat ->
  exists st', surface_run mfail st l = Ok st' /\ nfail st' = (nfail st + fails l)%nat.
Proof.
  induction l as [|x l IH]; intros st H; [exists st; split; [reflexivity|cbn; lia]|].
  cbn [surface_run]. destruct x as [[[lo hi] ok]|]; cbn [surface_step obind].
  - unfold fails in *. cbn in H. destruct (IH (mksurf (nfail st) lo hi ok)) as (st' & E & N); [exact H|]. exists st'. split; [exact E|cbn in N |- *; exact N].
  - unfold fails in *. cbn in H. destruct (mfail <? S (nfail st))%nat eqn:X; [apply Nat.ltb_lt in X; lia|]. cbn [obind].
    destruct (IH (mksurf (S (nfail st)) (rmin st) (rmax st) false)) as (st' & E & N); [cbn; lia|]. exists st'. split; [exact E|cbn in N |- *; lia].
Qed.
Lemma run_abort mfail : forall l st, (nfail st <= mfail)%nat -> (mfail < nfail st + fails l)%nat -> surface_run mfail st l = Abort.
Proof.
  induction l as [|x l IH]; intros st H0 H; [cbn in H; lia|].
  cbn [surface_run]. destruct x as [[[lo hi] ok]|]; cbn [surface_step obind].
  - apply IH; cbn; [exact H0|unfold fails in *; cbn in H; exact H].
  - destruct (mfail <? S (nfail st))%nat eqn:X; [reflexivity|]. apply Nat.ltb_ge in X. cbn [obind]. apply IH; cbn; [lia|unfold fails in *; cbn in H; lia].
Qed.
(** the radii are those of the last successful search *)
Fixpoint last_radii (l : list (option (R * R * bool))) (lo hi : R) : R * R :=
  match l with nil => (lo, hi) | None :: l => last_radii l lo hi | Some (a, b, _) :: l => last_radii l a b end.
Lemma run_radii mfail : forall l st st', surface_run mfail st l = Ok st' -> (rmin st', rmax st') = last_radii l (rmin st) (rmax st).
Proof.
  induction l as [|x l IH]; intros st st' H; [injection H as <-; reflexivity|].
  cbn [surface_run] in H. destruct x as [[[lo hi] ok]|]; cbn [surface_step obind] in H.
  - apply IH in H. exact H.
  - destruct (mfail <? S (nfail st))%nat; [discriminate|]. cbn [obind] in H. apply IH in H. exact H.
Qed.
