(** TovThms.v - the profile, the surface, the incompressible star, one Runge-Kutta step and the search of TOV_solution.c. *)
From Verif Require Import RealBase TrigSums Spectral3Model TovSpec TovModel TovProofs TovFinal.
From Verif Require CubedJac.
From Verif Require Base.
Import Base(outcome, Ok, Abort, UB, obind).
Open Scope R_scope.

(** ** the centre: the code's expansion against any regular solution *)
Lemma approx_ratio e p de r m a hc : a < hc -> 0 < hc -> (forall h, a < h < hc -> solves e p r m h /\ 0 < r h) -> limit_below r hc 0 ->
  limit_below (fun h => m h / r h ^ 3) hc (4 * PI / 3 * e hc) -> limit_below p hc (p hc) -> 0 < e hc + 3 * p hc ->
  limit_below (fun h => r_approx e p de h hc ^ 2 / r h ^ 2) hc hc.
Proof.
  intros Ha Hp Hs Hr Hm Hp0 Hep. pose proof PI_RGT_0.
  pose proof (r2_lim e p r m a hc Ha Hp Hs Hr Hm Hp0 Hep) as L1. pose proof (approx_lim e p de hc Hep) as L2.
  assert (P : 0 < 2 * PI * (e hc + 3 * p hc)) by (apply Rmult_lt_0_compat; lra).
  assert (P2 : 0 < 3 / (2 * PI * (e hc + 3 * p hc) * hc)) by (apply Rdiv_lt_0_compat; [lra|apply Rmult_lt_0_compat; lra]).
  pose proof (lim_mult _ _ _ _ _ L2 (lim_inv _ _ _ L1 (Rgt_not_eq _ _ P2))) as L. cbv beta in L.
  replace (3 / (2 * PI * (e hc + 3 * p hc)) * / (3 / (2 * PI * (e hc + 3 * p hc) * hc))) with hc in L by (field; repeat split; lra).
  refine (lim_ext_a a _ _ _ _ Ha _ L). intros h Hh. cbv beta. destruct (Hs h Hh) as [_ R0]. field. repeat split; lra.
Qed.

Lemma m_approx_lim e p de hc : 0 < e hc -> 0 < e hc + 3 * p hc -> limit_below (fun h => m_approx e p de h hc / r_approx e p de h hc ^ 3) hc (4 * PI / 3 * e hc).
Proof.
  intros He Hep. pose proof PI_RGT_0. pose proof (approx_lim e p de hc Hep) as L2.
  assert (P0 : 0 < 3 / (2 * PI * (e hc + 3 * p hc))) by (apply Rdiv_lt_0_compat; [lra|apply Rmult_lt_0_compat; lra]).
  assert (L : limit_below (fun h => 4 * PI / 3 * e hc * (1 + - (3 / 5 * de hc / e hc) * (hc + -1 * h))) hc (4 * PI / 3 * e hc * (1 + - (3 / 5 * de hc / e hc) * (hc + -1 * hc)))).
  { apply lim_scal. apply lim_plus; [apply lim_const|]. apply lim_scal. apply lim_plus; [apply lim_const|]. apply lim_scal. apply lim_id. }
  replace (4 * PI / 3 * e hc * (1 + - (3 / 5 * de hc / e hc) * (hc + -1 * hc))) with (4 * PI / 3 * e hc) in L by (field; lra).
  destruct (L2 _ P0) as (d & d0 & Hd). refine (lim_ext_a (hc - d) _ _ _ _ _ _ L); [lra|]. intros h Hh. cbv beta.
  assert (NZ : r_approx e p de h hc <> 0). { intros C. specialize (Hd h Hh). rewrite C in Hd. replace (0 ^ 2 / (hc - h)) with 0 in Hd by (field; lra). rewrite Rminus_0_l, Rabs_Ropp, Rabs_pos_eq in Hd by lra. lra. }
  unfold m_approx. field. split; [lra|exact NZ].
Qed.
(** ** the incompressible star *)
Section Incompressible.
Variables E hc : R.
Hypothesis HE : 0 < E.
Hypothesis Hc : 1 < hc.
Definition ei (h : R) : R := E.
Definition pi_ (h : R) : R := E * (h - 1).
Definition ki : R := 4 * PI / 3 * E.
Definition yi (h : R) : R := hc / (3 * hc - 2) * (3 - 2 / h).
Definition ri (h : R) : R := sqrt ((1 - yi h ^ 2) / (2 * ki)).
Definition mi (h : R) : R := ki * ri h ^ 3.
Lemma ki_pos : 0 < ki. Proof. unfold ki. pose proof PI_RGT_0. apply Rmult_lt_0_compat; lra. Qed.
Lemma yi_range h : 2 / 3 < h < hc -> 0 < yi h < 1.
Proof.
  intros Hh. unfold yi. assert (A : 0 < hc / (3 * hc - 2)) by (apply Rdiv_lt_0_compat; lra).
  assert (B : 2 / h < 3). { apply Rmult_lt_reg_r with h; [lra|]. replace (2 / h * h) with 2 by (field; lra). lra. }
  assert (C : 2 / hc < 2 / h). { unfold Rdiv. apply Rmult_lt_compat_l; [lra|]. apply Rinv_lt_contravar; [apply Rmult_lt_0_compat; lra|lra]. }
  split; [apply Rmult_lt_0_compat; lra|]. apply Rlt_le_trans with (hc / (3 * hc - 2) * (3 - 2 / hc)); [apply Rmult_lt_compat_l; lra|].
  right. field. split; lra.
Qed.
Lemma ri_pos h : 2 / 3 < h < hc -> 0 < ri h.
Proof. intros Hh. destruct (yi_range h Hh). pose proof ki_pos. apply sqrt_lt_R0. apply Rdiv_lt_0_compat; nra. Qed.
Lemma ri_sq h : 2 / 3 < h < hc -> ri h * ri h = (1 - yi h ^ 2) / (2 * ki).
Proof. intros Hh. destruct (yi_range h Hh). pose proof ki_pos. apply sqrt_sqrt. left. apply Rdiv_lt_0_compat; nra. Qed.
Lemma inc_solves h : 2 / 3 < h < hc -> solves ei pi_ ri mi h.
Proof.
  intros Hh. pose proof (ri_pos h Hh) as P. pose proof (ri_sq h Hh) as S. pose proof (yi_range h Hh) as Y. pose proof ki_pos as K.
  assert (DY : derivable_pt_lim yi h (hc / (3 * hc - 2) * (2 / (h * h)))).
  { unfold yi. eapply d_eq; [apply d_mult; [apply d_const|apply d_minus; [apply d_const|apply d_div; [apply d_const|apply d_id|lra]]]|]. unfold Rsqr. field. split; lra. }
  assert (DR : derivable_pt_lim ri h (dr_dh pi_ h (ri h) (mi h))).
  { unfold ri at 1. eapply d_eq; [apply d_sqrt|].
    - apply d_div; [apply d_minus; [apply d_const|]|apply d_const|lra].
      apply (CubedJac.dlim_ext (fun h => yi h * yi h)); [apply d_mult; exact DY|]. exists 1. split; [lra|]. intros; ring.
    - apply Rdiv_lt_0_compat; nra.
    - cbv beta. fold (ri h). unfold dr_dh, mi, pi_. assert (EY : yi h * yi h = 1 - 2 * ki * (ri h * ri h)) by (rewrite S; field; lra).
      set (r := ri h) in *. assert (EE : E = 3 * ki / (4 * PI)) by (unfold ki; field; pose proof PI_RGT_0; lra). rewrite EE. unfold Rsqr.
      pose proof PI_RGT_0.
      transitivity (- (hc / (3 * hc - 2) * (2 / (h * h))) * yi h / (2 * ki * r)); [field; repeat split; lra|].
      replace (hc / (3 * hc - 2)) with (yi h * h / (3 * h - 2)) by (unfold yi; field; repeat split; lra).
      transitivity (- (yi h * yi h) / (ki * r * h * (3 * h - 2))); [field; repeat split; lra|]. rewrite EY. field.
      repeat split; try lra.
      apply Rgt_not_eq. unfold Rgt.
      replace (ki * r ^ 3 + r * r * r * (3 * ki * (h - 1))) with (ki * (r * r * r) * (3 * h - 2)) by ring. apply Rmult_lt_0_compat; [|lra]. apply Rmult_lt_0_compat; [exact K|]. apply Rmult_lt_0_compat; [apply Rmult_lt_0_compat|]; exact P. }
  split; [exact DR|]. unfold mi at 1. eapply d_eq; [apply d_mult; [apply d_const|apply (d_comp ri (fun y => y ^ 3)); [exact DR|apply derivable_pt_lim_pow]]|].
  cbn [INR pow Init.Nat.pred]. unfold dm_dh, ei, ki. field. 
Qed.
Lemma inc_first_law h : 0 < h -> first_law ei pi_ h.
Proof.
  intros Hh. unfold first_law, ei, pi_. eapply d_eq; [apply d_mult; [apply d_const|apply d_minus; [apply d_id|apply d_const]]|]. cbv beta. field. lra.
Qed.
Lemma inc_r0 : limit_below ri hc 0.
Proof.
  pose proof ki_pos as K.
  assert (L : limit_below yi hc (yi hc)). { unfold yi. apply lim_scal. apply (lim_cont (fun h => h) (fun y => 3 - 2 / y)); [apply lim_id|]. apply derivable_continuous_pt.
    exists (0 - (0 * hc - 1 * 2) / Rsqr hc). apply d_minus; [apply d_const|apply d_div; [apply d_const|apply d_id|lra]]. }
  replace (yi hc) with 1 in L by (unfold yi; field; split; lra).
  replace 0 with (sqrt ((1 - 1 ^ 2) / (2 * ki))) by (replace ((1 - 1 ^ 2) / (2 * ki)) with 0 by (field; lra); apply sqrt_0).
  apply (lim_cont yi (fun y => sqrt ((1 - y ^ 2) / (2 * ki)))); [exact L|].
  apply (continuity_pt_comp (fun y => (1 - y ^ 2) / (2 * ki)) sqrt).
  - apply derivable_continuous_pt. refine (exist _ _ (d_div (fun y => 1 - y ^ 2) (fun _ => 2 * ki) 1 _ _ (d_minus (fun _ => 1) (fun y => y ^ 2) 1 _ _ (d_const 1 1) (derivable_pt_lim_pow 1 2)) (d_const (2 * ki) 1) _)). lra.
  - apply continuity_pt_sqrt. right. field. lra.
Qed.
Lemma inc_m0 : limit_below (fun h => mi h / ri h ^ 3) hc (4 * PI / 3 * ei hc).
Proof.
  refine (lim_ext_a 1 (fun _ => ki) _ _ _ Hc _ _); [|apply lim_const]. intros h Hh. cbv beta. unfold mi. pose proof (ri_pos h ltac:(lra)). field. lra.
Qed.
Lemma inc_p0 : limit_below pi_ hc (pi_ hc).
Proof. unfold pi_. apply lim_scal. apply (lim_cont (fun h => h) (fun y => y - 1)); [apply lim_id|]. apply derivable_continuous_pt. exists (1 - 0). apply d_minus; [apply d_id|apply d_const]. Qed.
Lemma inc_not_collapsed h : 2 / 3 < h < hc -> 2 * mi h < ri h.
Proof.
  intros Hh. pose proof (ri_pos h Hh) as P. pose proof (ri_sq h Hh) as S. pose proof (yi_range h Hh) as Y. pose proof ki_pos as K. unfold mi.
  assert (2 * ki * (ri h * ri h) < 1). { rewrite S. replace (2 * ki * ((1 - yi h ^ 2) / (2 * ki))) with (1 - yi h ^ 2) by (field; lra). nra. }
  replace (2 * (ki * ri h ^ 3)) with (2 * ki * (ri h * ri h) * ri h) by ring. nra.
Qed.
End Incompressible.

(** ** the profile *)
Section Profile.
Variables e p de : R -> R.
Lemma solve_ub hc N : (N < 2)%nat -> solve_ODE e p de hc N = UB.
Proof. intros H. unfold solve_ODE. apply Nat.ltb_lt in H. rewrite H. reflexivity. Qed.
Lemma solve_ok hc N T : solve_ODE e p de hc N = Ok T -> (2 <= N)%nat /\ NN T = N /\ hcent T = hc /\ hs T 0 = hc /\ hs T (N - 1) = 1 /\ rs T 0 = 0 /\ ms T 0 = 0 /\
  (forall i, hs T (S i) - hs T i = (1 - hc) / INR (N - 1)) /\
  rs T 1 = r_approx e p de (hs T 1) hc /\ ms T 1 = m_approx e p de (hs T 1) hc /\
  (forall i, (rs T (S (S i)), ms T (S (S i))) = rk4 (dr_dh p) (dm_dh e p) ((1 - hc) / INR (N - 1)) (hs T (S i)) (rs T (S i)) (ms T (S i))).
Proof.
  unfold solve_ODE. destruct (Nat.ltb_spec N 2) as [|H]; [discriminate|]. intros [= <-]. cbn [NN hcent hs rs ms INR].
  assert (P : 0 < INR (N - 1)) by (apply lt_0_INR; lia).
  repeat split; try lia; try ring.
  - field. lra.
  - intros i. change (match i with O => 1 | S _ => INR i + 1 end) with (INR (S i)). rewrite S_INR. ring.
  - unfold rm_at. cbn [fst]. f_equal. ring.
  - unfold rm_at. cbn [snd]. f_equal. ring.
Qed.
Lemma profile_decreasing hc N T : solve_ODE e p de hc N = Ok T -> 1 < hc -> forall i j, (i < j)%nat -> hs T j < hs T i.
Proof.
  intros H Hc. destruct (solve_ok _ _ _ H) as (HN & _ & _ & _ & _ & _ & _ & St & _).
  assert (P : 0 < INR (N - 1)) by (apply lt_0_INR; lia).
  assert (Neg : (1 - hc) / INR (N - 1) < 0). { apply Rmult_lt_reg_r with (INR (N - 1)); [exact P|]. replace ((1 - hc) / INR (N - 1) * INR (N - 1)) with (1 - hc) by (field; lra). lra. }
  intros i j. induction 1 as [|j _ IH]; [specialize (St i); lra|specialize (St j); lra].
Qed.
Lemma mass_parity hc N : (2 <= N)%nat -> (Nat.Even N -> mass_of e p de N hc = Abort) /\ (Nat.Odd N -> exists m, mass_of e p de N hc = Ok (Some m)).
Proof.
  intros HN. unfold mass_of, solve_ODE. destruct (Nat.ltb_spec N 2); [lia|]. cbn [obind]. unfold baryonic_mass. cbn [NN hcent]. unfold Composite_Simpson_1D. split.
  - intros [k ->]. replace ((2 * k) mod 2)%nat with 0%nat; [reflexivity|]. symmetry. rewrite Nat.mul_comm. apply Nat.mod_mul. lia.
  - intros [k E1]. assert (E2 : (N mod 2 = 1)%nat) by (rewrite E1; rewrite Nat.add_comm, Nat.mul_comm, Nat.mod_add by lia; reflexivity).
    rewrite E2. cbn [negb Nat.eqb]. unfold fdiv. destruct (Req_EM_T (INR (N - 1)) 0) as [Z|_]; [exfalso; revert Z; apply not_0_INR; lia|]. cbv zeta. eexists. reflexivity.
Qed.
End Profile.

(** ** one Runge-Kutta step *)
(** right-hand sides that are cubic polynomials of h alone are integrated exactly *)
Lemma rk4_cubic a b c d a' b' c' d' s t r m :
  rk4 (fun h _ _ => a + b * h + c * h ^ 2 + d * h ^ 3) (fun h _ _ => a' + b' * h + c' * h ^ 2 + d' * h ^ 3) s t r m =
  let I a b c d x := a * x + b * x ^ 2 / 2 + c * x ^ 3 / 3 + d * x ^ 4 / 4 in
  (r + (I a b c d (t + s) - I a b c d t), m + (I a' b' c' d' (t + s) - I a' b' c' d' t)).
Proof. unfold rk4. cbv zeta. f_equal; field. Qed.
(** r' = a r + b m, m' = c r + d m: the Taylor polynomial of degree four of the exact solution *)
Definition lin (a b c d : R) (v : R * R) : R * R := (a * fst v + b * snd v, c * fst v + d * snd v).
Fixpoint Npow (k : nat) (f : R * R -> R * R) (v : R * R) : R * R := match k with O => v | S j => f (Npow j f v) end.
Lemma rk4_linear a b c d s t r m :
  rk4 (fun _ x y => a * x + b * y) (fun _ x y => c * x + d * y) s t r m =
  (sum_f_R0 (fun k => s ^ k / INR (fact k) * fst (Npow k (lin a b c d) (r, m))) 4, sum_f_R0 (fun k => s ^ k / INR (fact k) * snd (Npow k (lin a b c d) (r, m))) 4).
Proof.
  unfold rk4. cbn [sum_f_R0 Npow lin fst snd pow]. change (fact 0) with 1%nat. change (fact 1) with 1%nat. change (fact 2) with 2%nat. change (fact 3) with 6%nat. change (fact 4) with 24%nat.
  replace (INR 24) with 24 by (cbn; ring). replace (INR 6) with 6 by (cbn; ring). replace (INR 2) with 2 by (cbn; ring). cbn [INR]. f_equal; field.
Qed.

(** ** the surface *)
Section Surface.
Variables e p de : R -> R.
Variable T : Star.
Let n := (NN T - 1)%nat.
Let R0 := rs T n.
Let M0 := ms T n.
Hypothesis HM : 0 <= M0.
Hypothesis HR : 2 * M0 < R0.
Lemma rbar_surface_pos : 0 < rbar_surface R0 M0.
Proof. unfold rbar_surface. assert (0 <= sqrt (Pow2 R0 - 2 * M0 * R0)) by apply sqrt_pos. lra. Qed.
Lemma rbar_surface_eq : R0 = rbar_surface R0 M0 * (1 + M0 / (2 * rbar_surface R0 M0)) ^ 2.
Proof.
  pose proof rbar_surface_pos as P. set (b := rbar_surface R0 M0) in *. 
  assert (Q : 0 <= Pow2 R0 - 2 * M0 * R0) by (unfold Pow2; nra).
  assert (SS : sqrt (Pow2 R0 - 2 * M0 * R0) * sqrt (Pow2 R0 - 2 * M0 * R0) = Pow2 R0 - 2 * M0 * R0) by (apply sqrt_sqrt; exact Q).
  assert (Eb : sqrt (Pow2 R0 - 2 * M0 * R0) = 2 * b - R0 + M0) by (unfold b, rbar_surface; field). rewrite Eb in SS. unfold Pow2 in SS.
  apply (Rmult_eq_reg_r (4 * b)); [|lra]. transitivity ((2 * b + M0) ^ 2); [|field; lra]. nra.
Qed.
Variables c : R.
Variables ri mi : R -> R.
Lemma psi_surface : (1 <= n)%nat -> psi_of e p de T c ri mi n = 1 + M0 / (2 * rbar_of e p de T c ri mi n).
Proof.
  intros Hn. pose proof rbar_surface_pos as P. pose proof rbar_surface_eq as Q.
  assert (Er : rbar_of e p de T c ri mi n = rbar_surface R0 M0) by (unfold rbar_of; cbv zeta; fold n; rewrite Nat.eqb_refl; reflexivity).
  transitivity (sqrt (R0 / rbar_surface R0 M0)); [|rewrite Er].
  { rewrite <- Er. unfold R0. generalize Hn. unfold psi_of. case n; [lia|reflexivity]. }
  replace (R0 / rbar_surface R0 M0) with ((1 + M0 / (2 * rbar_surface R0 M0)) ^ 2).
  - rewrite <- (Rsqr_pow2 (1 + M0 / (2 * rbar_surface R0 M0))). apply sqrt_Rsqr. assert (0 <= M0 / (2 * rbar_surface R0 M0)); [|lra]. unfold Rdiv. apply Rmult_le_pos; [exact HM|]. left. apply Rinv_0_lt_compat. lra.
  - apply (Rmult_eq_reg_r (rbar_surface R0 M0)); [|lra]. transitivity R0; [refine (eq_trans _ (eq_sym Q)); ring|field; lra].
Qed.
Lemma phi_surface : hs T n = 1 -> exp (2 * phi_of T n) = 1 - 2 * M0 / R0.
Proof.
  intros H1. unfold phi_of. fold n. fold M0 R0. rewrite H1, ln_1.
  assert (X : 0 < 1 - 2 * M0 / R0). { apply Rmult_lt_reg_r with R0; [lra|]. replace ((1 - 2 * M0 / R0) * R0) with (R0 - 2 * M0) by (field; lra). lra. }
  assert (S : 0 < sqrt (1 - 2 * M0 / R0)) by (apply sqrt_lt_R0; exact X).
  replace (2 * (- 0 + ln (sqrt (1 - 2 * M0 / R0)))) with (ln (sqrt (1 - 2 * M0 / R0)) + ln (sqrt (1 - 2 * M0 / R0))) by ring.
  rewrite exp_plus, exp_ln by exact S. apply sqrt_sqrt. lra.
Qed.
Lemma psi_square i : (1 <= i)%nat -> 0 < rbar_of e p de T c ri mi i -> 0 <= rs T i -> psi_of e p de T c ri mi i ^ 2 * rbar_of e p de T c ri mi i = rs T i.
Proof.
  intros Hi Hb Hr. destruct i as [|i]; [lia|]. unfold psi_of. replace (sqrt (rs T (S i) / rbar_of e p de T c ri mi (S i)) ^ 2) with (sqrt (rs T (S i) / rbar_of e p de T c ri mi (S i)) * sqrt (rs T (S i) / rbar_of e p de T c ri mi (S i))) by ring.
  rewrite sqrt_sqrt; [field; lra|]. unfold Rdiv. apply Rmult_le_pos; [exact Hr|]. left. apply Rinv_0_lt_compat. exact Hb.
Qed.
(** the conformal factor is flat between the first two points *)
Lemma psi_flat : (2 <= n)%nat -> rs T 1 = r_approx e p de (hs T 1) (hs T 0) -> 0 < rs T 1 -> psi_of e p de T c ri mi 1 = psi_of e p de T c ri mi 0.
Proof.
  intros Hn H1 Hp. unfold psi_of, rbar_of. cbv zeta. fold n. destruct (Nat.eqb_spec 1 n); [lia|]. rewrite <- H1. f_equal. rewrite exp_Ropp. pose proof (exp_pos c). field. split; lra.
Qed.
End Surface.
