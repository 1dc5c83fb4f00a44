(** TovStar.v - the Komar mass of an exact star, and the incompressible star as a function of the radius. *)
From Verif Require Import RealBase TrigSums Spectral3Model TovSpec TovModel TovProofs TovFinal TovThms.
From Verif Require CubedJac.
Open Scope R_scope.
Lemma komar_center e p r m a hc c : a < hc -> 0 < hc -> (forall h, a < h < hc -> solves e p r m h /\ 0 < r h) -> limit_below r hc 0 ->
  limit_below (fun h => m h / r h ^ 3) hc (4 * PI / 3 * e hc) -> limit_below p hc (p hc) -> limit_below (komar p r m c) hc 0 /\ limit_below m hc 0.
Proof.
  intros Ha Hp Hs Hr Hm Hp0. pose proof (mr0 e p r m a hc Ha Hs Hr Hm) as MR.
  assert (LX : limit_below (fun h => 1 + -2 * (m h / r h)) hc (1 + -2 * 0)) by (apply lim_plus; [apply lim_const|apply lim_scal; exact MR]).
  replace (1 + -2 * 0) with 1 in LX by ring. pose proof (lim_sqrt _ _ _ LX ltac:(lra)) as LS. rewrite sqrt_1 in LS. cbv beta in LS.
  pose proof (lim_mult _ _ _ _ _ Hr (lim_mult _ _ _ _ _ Hr Hr)) as R3. cbv beta in R3. replace (0 * (0 * 0)) with 0 in R3 by ring.
  pose proof (lim_mult _ _ _ _ _ Hm R3) as LM. cbv beta in LM. rewrite Rmult_0_r in LM.
  assert (LE : limit_below (fun h => exp (- ln h + c)) hc (exp (- ln hc + c))).
  { apply (lim_cont (fun h => h) (fun h => exp (- ln h + c))); [apply lim_id|]. apply derivable_continuous_pt. exists (exp (- ln hc + c) * (- / hc + 0)).
    apply (d_exp (fun h => - ln h + c)). apply (d_plus (fun h => - ln h) (fun _ => c)); [apply (derivable_pt_lim_opp ln); apply derivable_pt_lim_ln; exact Hp|apply d_const]. }
  split.
  - pose proof (lim_mult _ _ _ _ _ R3 Hp0) as RP. cbv beta in RP. rewrite Rmult_0_l in RP.
    pose proof (lim_mult _ _ _ _ _ (lim_mult _ _ _ _ _ LE (lim_plus _ _ _ _ _ LM (lim_scal _ _ _ (4 * PI) RP))) (lim_inv _ _ _ LS ltac:(lra))) as K. cbv beta in K.
    replace (exp (- ln hc + c) * (0 + 4 * PI * 0) * / 1) with 0 in K by field.
    refine (lim_ext_a a _ _ _ _ Ha _ K). intros h Hh. cbv beta. destruct (Hs h Hh) as [_ P]. unfold komar.
    replace (1 - 2 * m h / r h) with (1 + -2 * (m h / r h)) by (field; lra). unfold Rdiv at 3. f_equal. f_equal. field. lra.
  - refine (lim_ext_a a _ _ _ _ Ha _ LM). intros h Hh. cbv beta. destruct (Hs h Hh) as [_ P]. field. lra.
Qed.
Section Inc.
Variables E hc : R.
Hypothesis HE : 0 < E.
Hypothesis Hc : 1 < hc.
Notation k := (ki E).
Notation S := (hc / (3 * hc - 2)).
(** the enthalpy as a function of the radius *)
Definition Hi (x : R) : R := 2 * S / (3 * S - sqrt (1 - 2 * k * (x * x))).
Lemma S_range : 1 / 3 < S < 1.
Proof.
  split.
  - apply Rmult_lt_reg_r with (3 * hc - 2); [lra|]. replace (S * (3 * hc - 2)) with hc by (field; lra). lra.
  - apply Rmult_lt_reg_r with (3 * hc - 2); [lra|]. replace (S * (3 * hc - 2)) with hc by (field; lra). lra.
Qed.
Lemma y_range x : 0 < x -> 2 * k * (x * x) < 1 -> 0 < sqrt (1 - 2 * k * (x * x)) < 1.
Proof.
  intros Hx H. pose proof (ki_pos E HE) as K. assert (0 < x * x) by nra. assert (0 < k * (x * x)) by (apply Rmult_lt_0_compat; lra).
  split; [apply sqrt_lt_R0; lra|]. rewrite <- sqrt_1 at 2. apply sqrt_lt_1; lra.
Qed.
Lemma Hi_range x : 0 < x -> 2 * k * (x * x) < 1 -> 2 / 3 < Hi x < hc.
Proof.
  intros Hx H. pose proof (y_range x Hx H) as Y. pose proof S_range as Q. unfold Hi. set (y := sqrt _) in *.
  assert (Eh : hc * (3 * S - 1) = 2 * S) by (field; lra). set (s := hc / (3 * hc - 2)) in *.
  split; (apply Rmult_lt_reg_r with (3 * s - y); [lra|]); replace (2 * s / (3 * s - y) * (3 * s - y)) with (2 * s) by (field; lra).
  - nra.
  - nra.
Qed.
Lemma Hi_inverse x : 0 < x -> 2 * k * (x * x) < 1 -> ri E hc (Hi x) = x.
Proof.
  intros Hx H. pose proof (y_range x Hx H) as Y. pose proof S_range as Q. pose proof (ki_pos E HE) as K.
  assert (EY : yi hc (Hi x) = sqrt (1 - 2 * k * (x * x))). { unfold yi, Hi. set (y := sqrt _) in *. set (s := hc / (3 * hc - 2)) in *. field. split; lra. }
  unfold ri. rewrite EY. replace (sqrt (1 - 2 * k * (x * x)) ^ 2) with (sqrt (1 - 2 * k * (x * x)) * sqrt (1 - 2 * k * (x * x))) by ring. rewrite sqrt_sqrt by lra.
  replace ((1 - (1 - 2 * k * (x * x))) / (2 * k)) with (x * x) by (field; lra). apply sqrt_square. lra.
Qed.
Lemma Hi_deriv x : 0 < x -> 2 * k * (x * x) < 1 -> exists l, derivable_pt_lim Hi x l.
Proof.
  intros Hx H. pose proof (y_range x Hx H) as Y. pose proof S_range as Q. eexists. unfold Hi. apply d_div; [apply d_const|apply d_minus; [apply d_const|apply d_sqrt; [apply d_minus; [apply d_const|apply d_mult; [apply d_const|apply d_mult; apply d_id]]|lra]]|lra].
Qed.
Lemma Hi_local rho : 0 < rho -> 2 * k * (rho * rho) < 1 -> exists d, 0 < d /\ forall x, Rabs (x - rho) < d -> ri E hc (Hi x) = x.
Proof.
  intros Hr H. pose proof (ki_pos E HE) as K. set (g := 1 - 2 * k * (rho * rho)). assert (G : 0 < g) by (unfold g; lra).
  assert (Q : 0 < 4 * k * (3 * rho)) by (apply Rmult_lt_0_compat; lra).
  set (d := Rmin (rho / 2) (g / (4 * k * (3 * rho)))).
  assert (D : 0 < d). { apply Rmin_pos; [lra|]. apply Rdiv_lt_0_compat; assumption. }
  exists d. split; [exact D|]. intros x Hx. apply Rabs_def2 in Hx. pose proof (Rmin_l (rho / 2) (g / (4 * k * (3 * rho)))). pose proof (Rmin_r (rho / 2) (g / (4 * k * (3 * rho)))). fold d in H0, H1.
  apply Hi_inverse; [lra|].
  assert (B : d * (4 * k * (3 * rho)) <= g). { apply Rle_trans with (g / (4 * k * (3 * rho)) * (4 * k * (3 * rho))); [apply Rmult_le_compat_r; [lra|exact H1]|right; field; lra]. }
  assert (X : x * x <= rho * rho + d * (3 * rho)) by nra.
  assert (2 * k * (x * x) <= 2 * k * (rho * rho + d * (3 * rho))) by (apply Rmult_le_compat_l; lra). unfold g in *.
  assert (0 < d * (4 * k * (3 * rho))) by (apply Rmult_lt_0_compat; lra).
  replace (2 * k * (rho * rho + d * (3 * rho))) with (2 * k * (rho * rho) + d * (4 * k * (3 * rho)) / 2) in H2 by field. lra.
Qed.
Lemma inc_denominator h : 2 / 3 < h < hc -> mi E hc h + 4 * PI * ri E hc h ^ 3 * pi_ E h <> 0.
Proof.
  intros Hh. pose proof (ri_pos E hc HE Hc h Hh) as P. unfold mi, ki, pi_. pose proof PI_RGT_0.
  replace (4 * PI / 3 * E * ri E hc h ^ 3 + 4 * PI * ri E hc h ^ 3 * (E * (h - 1))) with (4 * PI / 3 * E * ri E hc h ^ 3 * (3 * h - 2)) by field.
  apply Rgt_not_eq. apply Rmult_lt_0_compat; [|lra]. apply Rmult_lt_0_compat; [apply Rmult_lt_0_compat; lra|apply pow_lt; exact P].
Qed.
End Inc.
