(** EosProofs.v *)
From Verif Require Import RealBase SpectralDeriv EosModel EosSpec.
From Verif Require Base.
Import Base(outcome, Ok, Abort, UB, obind).
Open Scope R_scope.

Lemma cpow_pos x y : 0 < x -> cpow x y = Some (Rpower x y).
Proof.
  intros H. unfold cpow. destruct (Req_EM_T y 0) as [->|]. { rewrite Rpower_O by auto. reflexivity. }
  destruct (ltR_spec 0 x); [reflexivity|lra].
Qed.
Lemma cpow_0 y : 0 < y -> cpow 0 y = Some 0.
Proof.
  intros H. unfold cpow. destruct (Req_EM_T y 0); [lra|]. destruct (ltR_spec 0 0); [lra|]. destruct (Req_EM_T 0 0); [|lra].
  destruct (ltR_spec 0 y); [reflexivity|lra].
Qed.
Lemma cpow_pole y : y < 0 -> cpow 0 y = None.
Proof.
  intros H. unfold cpow. destruct (Req_EM_T y 0); [lra|]. destruct (ltR_spec 0 0); [lra|]. destruct (Req_EM_T 0 0); [|lra].
  destruct (ltR_spec 0 y); [lra|reflexivity].
Qed.
Lemma ret_bind {A B} (x : A) (f : A -> calc B) : (do y <- ret x; f y) = f x. Proof. reflexivity. Qed.
Lemma lift_bind {A B} (x : A) (f : A -> calc B) : (do y <- lift (Some x); f y) = f x. Proof. reflexivity. Qed.

(** ** one piece *)
Section Piece.
  Variables (K n a : R).
  Hypothesis (HK : 0 < K) (Hn : 0 < n).
  Definition prho (h : R) : R := Rpower ((h - 1 - a) / (n+1)) n * Rpower K (-n).
  Definition pp (h : R) : R := Rpower ((h - 1 - a) / (n+1)) (n+1) * Rpower K (-n).
  Definition pe0 (h : R) : R := (a + n * (h-1)) / (n+1).
  Lemma Rp_pos x y : 0 < Rpower x y. Proof. apply exp_pos. Qed.
  Lemma prho_pos h : 0 < prho h. Proof. unfold prho. apply Rmult_lt_0_compat; apply Rp_pos. Qed.
  Lemma piece_rho_ln h : prho h = exp (n * (ln ((h-1-a)/(n+1)) - ln K)).
  Proof. unfold prho, Rpower. rewrite <- exp_plus. f_equal. ring. Qed.
  Lemma piece_x h : 0 < h - 1 - a -> 0 < (h-1-a)/(n+1).
  Proof. intros. apply Rmult_lt_0_compat; auto. apply Rinv_0_lt_compat. lra. Qed.
  Lemma piece_p h : 0 < h - 1 - a -> pp h = K * Rpower (prho h) (1 + / n).
  Proof.
    intros Hx. rewrite piece_rho_ln. unfold pp. unfold Rpower at 3. rewrite ln_exp.
    rewrite <- (exp_ln K HK) at 2. unfold Rpower. rewrite <- !exp_plus. f_equal. field. lra.
  Qed.
  Lemma piece_ratio h : 0 < h - 1 - a -> pp h = (h - 1 - a) / (n+1) * prho h.
  Proof.
    intros Hx. unfold pp, prho. rewrite Rpower_plus, Rpower_1 by (apply piece_x; auto). ring.
  Qed.
  Lemma piece_all h : 0 < h - 1 - a -> polytrope_at K (1 + / n) a h (prho h) (pp h) (prho h * (1 + pe0 h)) (pe0 h).
  Proof.
    intros Hx. pose proof (prho_pos h) as Hr. repeat split; auto.
    - apply piece_p; auto.
    - rewrite piece_ratio by auto. unfold pe0. field. split; lra.
    - rewrite piece_ratio by auto. unfold pe0. field. split; lra.
    - unfold pe0. field. split; lra.
  Qed.
  (** the density at a given enthalpy is determined *)
  Lemma Rpower_1x r : 0 < r -> Rpower 1 r = 1.
  Proof. intros. unfold Rpower. rewrite ln_1, Rmult_0_r. apply exp_0. Qed.
  Lemma piece_inv rho : 0 < rho -> prho (1 + a + (n+1) * K * Rpower rho (/ n)) = rho.
  Proof.
    intros Hr. rewrite piece_rho_ln. replace ((1 + a + (n+1) * K * Rpower rho (/ n) - 1 - a) / (n+1)) with (K * Rpower rho (/n)) by (field; lra).
    rewrite ln_mult by (auto; apply Rp_pos). unfold Rpower. rewrite ln_exp.
    replace (n * (ln K + / n * ln rho - ln K)) with (ln rho) by (field; lra). apply exp_ln; auto.
  Qed.
  Lemma piece_x_inv rho : 0 < rho -> 0 < (1 + a + (n+1) * K * Rpower rho (/ n)) - 1 - a.
  Proof. intros. replace (1 + a + (n+1)*K*Rpower rho (/n) - 1 - a) with ((n+1) * K * Rpower rho (/n)) by ring.
    apply Rmult_lt_0_compat; [nra|apply Rp_pos]. Qed.
  (** derivatives *)
  Lemma d_power c h : 0 < h - 1 - a -> derivable_pt_lim (fun h => Rpower ((h-1-a)/(n+1)) c) h (c * Rpower ((h-1-a)/(n+1)) (c-1) * / (n+1)).
  Proof.
    intros Hx. apply (dlim_ext (fun h => (fun x => Rpower x c) (/ (n+1) * h + - (1+a)/(n+1)))).
    { intros y. f_equal. field. lra. }
    replace ((h-1-a)/(n+1)) with (/ (n+1) * h + - (1+a)/(n+1)) by (field; lra).
    apply (dlim_affine (fun x => Rpower x c)). apply derivable_pt_lim_power.
    replace (/ (n+1) * h + - (1+a)/(n+1)) with ((h-1-a)/(n+1)) by (field; lra). apply piece_x; auto.
  Qed.
  Definition pdrho (h : R) : R := Rpower ((h-1-a)/(n+1)) (n-1) * Rpower K (-n) * n / (n+1).
  Definition pde (h : R) : R := pdrho h * (1 + (a + n * (h-1)) / (n+1)) + prho h * n / (n+1).
  Lemma d_prho h : 0 < h - 1 - a -> derivable_pt_lim prho h (pdrho h).
  Proof.
    intros Hx. apply (dlim_ext (fun h => Rpower K (-n) * Rpower ((h-1-a)/(n+1)) n)). { intros; unfold prho; ring. }
    replace (pdrho h) with (Rpower K (-n) * (n * Rpower ((h-1-a)/(n+1)) (n-1) * / (n+1))) by (unfold pdrho; field; lra).
    apply (derivable_pt_lim_scal (fun h => Rpower ((h-1-a)/(n+1)) n)). apply d_power; auto.
  Qed.
  Lemma d_pp h : 0 < h - 1 - a -> derivable_pt_lim pp h (prho h).
  Proof.
    intros Hx. apply (dlim_ext (fun h => Rpower K (-n) * Rpower ((h-1-a)/(n+1)) (n+1))). { intros; unfold pp; ring. }
    replace (prho h) with (Rpower K (-n) * ((n+1) * Rpower ((h-1-a)/(n+1)) (n+1-1) * / (n+1))).
    2:{ unfold prho. replace (n+1-1) with n by ring. field. lra. }
    apply (derivable_pt_lim_scal (fun h => Rpower ((h-1-a)/(n+1)) (n+1))). apply d_power; auto.
  Qed.
  Lemma d_pe h : 0 < h - 1 - a -> derivable_pt_lim (fun h => prho h * (1 + pe0 h)) h (pde h).
  Proof.
    intros Hx. replace (pde h) with (pdrho h * (1 + pe0 h) + prho h * (n / (n+1))) by (unfold pde, pe0; field; lra).
    apply (derivable_pt_lim_mult prho (fun h => 1 + pe0 h)). apply d_prho; auto.
    apply (dlim_ext (fun h => (fun x => x) (n/(n+1) * h + (1 + (a-n)/(n+1))))). { intros; unfold pe0; field; lra. }
    pose proof (dlim_affine (fun x => x) (n/(n+1)) (1 + (a-n)/(n+1)) h 1 (derivable_pt_lim_id _)) as D. rewrite Rmult_1_l in D. exact D.
  Qed.
End Piece.

(** ** the two sets of functions compute the piece *)
Lemma snap_far h : 1 + ROUND_OFF_ERR <= h -> snap h = h.
Proof. intros H. unfold snap. destruct (EQL h 1) eqn:E; auto. apply EQL_iff in E. apply Rabs_def2 in E. lra. Qed.
Definition piece_good (e : eos) (i : nat) : Prop := 0 < en e i /\ 0 < eK e i.
Lemma pwp_at e h i : 1 + ROUND_OFF_ERR <= h -> find_threshold_number_h e h = Ok i -> piece_good e i -> 0 < h - 1 - ea e i ->
  EoS_p_h_pwp e h = Ok (Some (pp (eK e i) (en e i) (ea e i) h)) /\
  EoS_rho0_h_pwp e h = Ok (Some (prho (eK e i) (en e i) (ea e i) h)) /\
  EoS_e0_h_pwp e h = Ok (Some (pe0 (en e i) (ea e i) h)) /\
  EoS_e_h_pwp e h = Ok (Some (prho (eK e i) (en e i) (ea e i) h * (1 + pe0 (en e i) (ea e i) h))) /\
  EoS_drho0_dh_h_pwp e h = Ok (Some (pdrho (eK e i) (en e i) (ea e i) h)) /\
  EoS_de_dh_h_pwp e h = Ok (Some (pde (eK e i) (en e i) (ea e i) h)).
Proof.
  intros Hh Hf [Hn HK] Hx.
  assert (N1 : en e i + 1 <> 0) by lra.
  assert (Hp : 0 < (h - 1 - ea e i) / (en e i + 1)) by (apply piece_x; auto).
  assert (A0 : EoS_e0_h_pwp e h = Ok (Some (pe0 (en e i) (ea e i) h))).
  { unfold EoS_e0_h_pwp, at_piece. rewrite snap_far, Hf by auto. cbn [obind]. rewrite fdiv_some by auto. reflexivity. }
  assert (A1 : EoS_rho0_h_pwp e h = Ok (Some (prho (eK e i) (en e i) (ea e i) h))).
  { unfold EoS_rho0_h_pwp, at_piece. rewrite snap_far, Hf by auto. cbn [obind]. rewrite fdiv_some by auto. rewrite lift_bind, !cpow_pos by auto. reflexivity. }
  assert (A2 : EoS_drho0_dh_h_pwp e h = Ok (Some (pdrho (eK e i) (en e i) (ea e i) h))).
  { unfold EoS_drho0_dh_h_pwp, at_piece. rewrite snap_far, Hf by auto. cbn [obind]. rewrite fdiv_some by auto. rewrite lift_bind, !cpow_pos by auto. rewrite !lift_bind.
    rewrite fdiv_some by auto. reflexivity. }
  repeat split; auto.
  - unfold EoS_p_h_pwp, at_piece. rewrite snap_far, Hf by auto. cbn [obind]. rewrite fdiv_some by auto. rewrite lift_bind, !cpow_pos by auto. reflexivity.
  - unfold EoS_e_h_pwp. rewrite snap_far, A0, A1 by auto. reflexivity.
  - unfold EoS_de_dh_h_pwp, at_piece. rewrite snap_far, Hf by auto. cbn [obind]. rewrite A1, A2, !fdiv_some by auto. cbn. rewrite fdiv_some by auto. reflexivity.
Qed.
Lemma p_at e h : 1 + ROUND_OFF_ERR <= h -> piece_good e 0 ->
  EoS_p_h_p e h = Ok (Some (pp (eK e 0) (en e 0) 0 h)) /\
  EoS_rho0_h_p e h = Ok (Some (prho (eK e 0) (en e 0) 0 h)) /\
  EoS_e0_h_p e h = Ok (Some (pe0 (en e 0) 0 h)) /\
  EoS_e_h_p e h = Ok (Some (prho (eK e 0) (en e 0) 0 h * (1 + pe0 (en e 0) 0 h))) /\
  EoS_drho0_dh_h_p e h = Ok (Some (pdrho (eK e 0) (en e 0) 0 h)) /\
  EoS_de_dh_h_p e h = Ok (Some (pde (eK e 0) (en e 0) 0 h)).
Proof.
  intros Hh [Hn HK]. pose proof ROE_pos.
  assert (N1 : en e 0 + 1 <> 0) by lra.
  assert (Hp : 0 < (h - 1) / (en e 0 + 1)). { apply Rmult_lt_0_compat; [lra|]. apply Rinv_0_lt_compat; lra. }
  assert (Z : h - 1 - 0 = h - 1) by ring. assert (Z2 : 0 + en e 0 * (h - 1) = en e 0 * (h - 1)) by ring.
  unfold pde, prho, pp, pe0, pdrho. rewrite Z, Z2.
  assert (A0 : EoS_e0_h_p e h = Ok (Some (en e 0 * (h - 1) / (en e 0 + 1)))).
  { unfold EoS_e0_h_p. rewrite snap_far by auto. rewrite fdiv_some by auto. reflexivity. }
  assert (A1 : EoS_rho0_h_p e h = Ok (Some (Rpower ((h-1)/(en e 0 + 1)) (en e 0) * Rpower (eK e 0) (- en e 0)))).
  { unfold EoS_rho0_h_p. rewrite snap_far by auto. rewrite fdiv_some by auto. rewrite lift_bind, !cpow_pos by auto. reflexivity. }
  assert (A2 : EoS_drho0_dh_h_p e h = Ok (Some (Rpower ((h-1)/(en e 0 + 1)) (en e 0 - 1) * Rpower (eK e 0) (- en e 0) * en e 0 / (en e 0 + 1)))).
  { unfold EoS_drho0_dh_h_p. rewrite snap_far by auto. rewrite fdiv_some by auto. rewrite lift_bind, !cpow_pos by auto. rewrite !lift_bind.
    rewrite fdiv_some by auto. reflexivity. }
  repeat split; auto.
  - unfold EoS_p_h_p. rewrite snap_far by auto. rewrite fdiv_some by auto. rewrite lift_bind, !cpow_pos by auto. reflexivity.
  - unfold EoS_e_h_p. rewrite snap_far, A0, A1 by auto. reflexivity.
  - unfold EoS_de_dh_h_p. rewrite snap_far by auto. rewrite A1, A2, !fdiv_some by auto. cbn. rewrite fdiv_some by auto. reflexivity.
Qed.
