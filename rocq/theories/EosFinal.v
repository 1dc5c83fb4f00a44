(** EosFinal.v - the polytrope, the refusals and the tabular EoS. *)
From Verif Require Import RealBase SpectralDeriv EosModel EosSpec EosProofs EosPwp.
From Verif Require Base.
Import Base(outcome, Ok, Abort, UB, obind).
Open Scope R_scope.

Lemma populate_p_ok gamma K0 : 1 + ROUND_OFF_ERR <= gamma -> 0 < K0 -> exists e, populate_p [gamma] K0 = ret e /\
  en e 0 = / (gamma - 1) /\ eK e 0 = K0 /\ piece_good e 0.
Proof.
  intros Hg HK. unfold ROUND_OFF_ERR in Hg. destruct (fill_n_ok [gamma]) as (n & E & Hl & Hn).
  { intros [|i] Hi; cbn in *; [lra|lia]. }
  unfold populate_p. cbn [length Nat.eqb negb]. rewrite E, ret_bind. eexists; split; [reflexivity|].
  cbn [en eK]. unfold piece_good. cbn [en eK]. unfold arr. rewrite (Hn O) by (cbn; lia). cbn [nth].
  repeat split; auto. apply Rinv_0_lt_compat. lra.
Qed.
Lemma gamma_of e gamma : gamma - 1 <> 0 -> en e 0 = / (gamma - 1) -> 1 + / en e 0 = gamma.
Proof. intros H ->. rewrite Rinv_inv. ring. Qed.
Lemma poly_values gamma K0 e h : 1 + ROUND_OFF_ERR <= gamma -> 0 < K0 -> populate_p [gamma] K0 = ret e -> 1 + ROUND_OFF_ERR <= h ->
  exists rho p en0 e0, EoS_rho0_h_p e h = ret rho /\ EoS_p_h_p e h = ret p /\ EoS_e_h_p e h = ret en0 /\ EoS_e0_h_p e h = ret e0 /\
    polytrope_at K0 gamma 0 h rho p en0 e0.
Proof.
  intros Hg HK E Hh. destruct (populate_p_ok gamma K0 Hg HK) as (e' & E' & Hn & HKe & PG). rewrite E' in E. assert (e' = e) by (unfold ret in E; congruence). subst e'.
  pose proof ROE_pos. destruct (p_at e h Hh PG) as (A1 & A2 & A3 & A4 & _).
  do 4 eexists. split; [exact A2|]. split; [exact A1|]. split; [exact A4|]. split; [exact A3|].
  pose proof (piece_all (eK e 0) (en e 0) 0 (proj2 PG) (proj1 PG) h ltac:(lra)) as P.
  rewrite (gamma_of e gamma) in P by (auto; lra). rewrite HKe in *. exact P.
Qed.
Lemma poly_derivs gamma K0 e h : 1 + ROUND_OFF_ERR <= gamma -> 0 < K0 -> populate_p [gamma] K0 = ret e -> 1 + ROUND_OFF_ERR < h ->
  exists rho dr de, EoS_rho0_h_p e h = ret rho /\ EoS_drho0_dh_h_p e h = ret dr /\ EoS_de_dh_h_p e h = ret de /\
    derives (EoS_p_h_p e) h rho /\ derives (EoS_rho0_h_p e) h dr /\ derives (EoS_e_h_p e) h de.
Proof.
  intros Hg HK E Hh. destruct (populate_p_ok gamma K0 Hg HK) as (e' & E' & Hn & HKe & PG). rewrite E' in E. assert (e' = e) by (unfold ret in E; congruence). subst e'.
  pose proof ROE_pos. destruct (p_at e h ltac:(lra) PG) as (A1 & A2 & A3 & A4 & A5 & A6).
  do 3 eexists. split; [exact A2|]. split; [exact A5|]. split; [exact A6|].
  destruct PG as [P1 P2].
  repeat split; (eexists; split; [exists (h - (1 + ROUND_OFF_ERR)); split; [lra|intros x Hx; apply Rabs_def2 in Hx;
      destruct (p_at e x ltac:(lra) (conj P1 P2)) as (C1 & C2 & C3 & C4 & C5 & C6)]|]).
  - exact C1. - apply d_pp; auto; lra.
  - exact C2. - apply d_prho; auto; lra.
  - exact C4. - apply d_pe; auto; lra.
Qed.
Lemma snap_near h : Rabs (h - 1) < ROUND_OFF_ERR -> snap h = 1.
Proof. intros H. unfold snap. rewrite (proj2 (EQL_iff h 1)) by auto. reflexivity. Qed.
Lemma poly_vacuum gamma K0 e h : 1 + ROUND_OFF_ERR <= gamma -> 0 < K0 -> populate_p [gamma] K0 = ret e -> Rabs (h - 1) < ROUND_OFF_ERR ->
  EoS_rho0_h_p e h = ret 0 /\ EoS_p_h_p e h = ret 0 /\ EoS_e_h_p e h = ret 0 /\ EoS_e0_h_p e h = ret 0.
Proof.
  intros Hg HK E Hh. destruct (populate_p_ok gamma K0 Hg HK) as (e' & E' & Hn & HKe & PG). rewrite E' in E. assert (e' = e) by (unfold ret in E; congruence). subst e'.
  destruct PG as [P1 P2]. pose proof ROE_pos.
  assert (S1 : snap 1 = 1) by (apply snap_near; rewrite Rminus_diag_eq, Rabs_R0 by auto; auto).
  assert (A : EoS_rho0_h_p e 1 = ret 0).
  { unfold EoS_rho0_h_p. rewrite S1. rewrite fdiv_some by lra. rewrite lift_bind.
    replace ((1-1)/(en e 0 + 1)) with 0 by (unfold Rdiv; ring). rewrite cpow_0 by auto. rewrite cpow_pos by auto. rewrite !lift_bind. unfold ret. do 2 f_equal. ring. }
  assert (A0 : EoS_e0_h_p e 1 = ret 0).
  { unfold EoS_e0_h_p. rewrite S1. rewrite fdiv_some by lra. unfold ret, lift. do 2 f_equal. unfold Rdiv. ring. }
  assert (SS : snap h = 1) by (apply snap_near; auto).
  repeat split.
  - unfold EoS_rho0_h_p in *. rewrite SS. rewrite S1 in A. exact A.
  - unfold EoS_p_h_p. rewrite SS. rewrite fdiv_some by lra. rewrite lift_bind.
    replace ((1-1)/(en e 0 + 1)) with 0 by (unfold Rdiv; ring). rewrite cpow_0 by lra. rewrite cpow_pos by auto. rewrite !lift_bind. unfold ret. do 2 f_equal. ring.
  - unfold EoS_e_h_p. rewrite SS, A0, A. cbn. unfold ret. do 2 f_equal. ring.
  - unfold EoS_e0_h_p in *. rewrite SS. rewrite S1 in A0. exact A0.
Qed.
Lemma poly_surface_derivative gamma K0 e : 2 < gamma -> 0 < K0 -> populate_p [gamma] K0 = ret e ->
  EoS_drho0_dh_h_p e 1 = Ok None /\ EoS_de_dh_h_p e 1 = Ok None.
Proof.
  intros Hg HK E. pose proof ROE_pos as RP. assert (R1 : ROUND_OFF_ERR < 1) by (unfold ROUND_OFF_ERR; lra).
  destruct (populate_p_ok gamma K0 ltac:(lra) HK) as (e' & E' & Hn & HKe & PG). rewrite E' in E. assert (e' = e) by (unfold ret in E; congruence). subst e'.
  destruct PG as [P1 P2].
  assert (S1 : snap 1 = 1) by (apply snap_near; rewrite Rminus_diag_eq, Rabs_R0 by auto; auto).
  assert (L : en e 0 - 1 < 0). { rewrite Hn. rewrite <- Rinv_1 at 2. apply Rlt_minus. apply Rinv_1_lt_contravar; lra. }
  assert (D : EoS_drho0_dh_h_p e 1 = Ok None).
  { unfold EoS_drho0_dh_h_p. rewrite S1. rewrite fdiv_some by lra. rewrite lift_bind.
    replace ((1-1)/(en e 0 + 1)) with 0 by (unfold Rdiv; ring). rewrite cpow_pole by auto. reflexivity. }
  split; auto. unfold EoS_de_dh_h_p. rewrite S1, D. reflexivity.
Qed.
Lemma below_one_negative : exists e, populate_p [2] 1 = ret e /\ EoS_rho0_h_p e (/2) = ret (- / 4).
Proof.
  destruct (populate_p_ok 2 1) as (e & E & Hn & HK & PG); [unfold ROUND_OFF_ERR; lra|lra|]. exists e; split; auto.
  unfold EoS_rho0_h_p. unfold snap. destruct (EQL (/2) 1) eqn:Q.
  { apply EQL_iff in Q. apply Rabs_def2 in Q. unfold ROUND_OFF_ERR in Q. lra. }
  replace (2 - 1) with 1 in Hn by ring. rewrite Rinv_1 in Hn. rewrite Hn, HK. rewrite fdiv_some by lra. rewrite lift_bind.
  replace ((/2 - 1) / (1 + 1)) with (- / 4) by field.
  assert (C : cpow (- / 4) 1 = Some (- / 4)).
  { unfold cpow. destruct (Req_EM_T 1 0); [lra|]. destruct (ltR_spec 0 (- / 4)); [lra|]. destruct (Req_EM_T (- / 4) 0); [lra|].
    assert (I : Int_part 1 = 1%Z). { unfold Int_part. rewrite <- (tech_up 1 2) by lra. reflexivity. }
    rewrite I. destruct (Req_EM_T 1 1); [|lra]. rewrite powerRZ_1. reflexivity. }
  rewrite C, lift_bind, cpow_pos by lra. rewrite lift_bind. unfold ret. do 2 f_equal.
  unfold Rpower. rewrite ln_1, Rmult_0_r, exp_0. ring.
Qed.
Lemma poly_not_one gamma K0 : length gamma <> 1%nat -> populate_p gamma K0 = Abort.
Proof. intros H. unfold populate_p. destruct (Nat.eqb_spec (length gamma) 1); [congruence|reflexivity]. Qed.
Lemma fill_n_abort gamma i : (i < length gamma)%nat -> Rabs (nth i gamma 0 - 1) < ROUND_OFF_ERR -> fill_n_from gamma = Abort.
Proof.
  revert i; induction gamma as [|g t IH]; intros i Hi H; [cbn in Hi; lia|]. cbn [fill_n_from].
  destruct (EQL (g-1) 0) eqn:E; auto. destruct i as [|i].
  - cbn [nth] in H. apply EQL_false in E. rewrite Rminus_0_r in E. lra.
  - apply EQL_false in E. rewrite Rminus_0_r in E. pose proof ROE_pos. rewrite fdiv_some. 2:{ intros Z. rewrite Z, Rabs_R0 in E. lra. }
    rewrite lift_bind. rewrite (IH i); [reflexivity|cbn in Hi; lia|exact H].
Qed.
(** ** refusals of the piecewise polytrope *)
Lemma order_abort rho : forall left i k, (1 <= i)%nat -> (i + left <= length rho)%nat -> (i <= k < i + left)%nat ->
  nth k rho 0 + ROUND_OFF_ERR < nth (k-1) rho 0 -> order_check rho i left = Abort.
Proof.
  induction left; intros i k Hi Hl Hk H; [lia|]. cbn [order_check]. rewrite !rd_ok by lia. rewrite !ret_bind.
  destruct (GRT (nth (i-1) rho 0) (nth i rho 0)) eqn:E; auto.
  destruct (Nat.eq_dec i k) as [->|]. { rewrite (proj2 (GRT_iff _ _)) in E by auto. discriminate. }
  apply (IHleft (S i) k); auto; lia.
Qed.
Lemma pwp_order_abort gamma K0 rho k : (length gamma <= length rho)%nat -> (1 <= k)%nat -> (k + 1 < length gamma)%nat ->
  nth k rho 0 + ROUND_OFF_ERR < nth (k-1) rho 0 -> populate_pwp gamma K0 rho = Abort.
Proof.
  intros HL Hk Hn H. unfold populate_pwp. cbv zeta. destruct (length gamma) as [|N'] eqn:EN; [lia|].
  rewrite (order_abort rho (S N' - 2) 1 k); auto; lia.
Qed.
(** [N >= 2] pieces and fewer thresholds than pieces: whatever the values, an entry past the end of the list is read, unless
    the program stops first *)
Lemma order_total rho : forall left i, (1 <= i)%nat -> (i + left <= length rho)%nat -> order_check rho i left = ret tt \/ order_check rho i left = Abort.
Proof.
  induction left; intros i Hi Hl; [left; reflexivity|]. cbn [order_check]. rewrite !rd_ok by lia. rewrite !ret_bind.
  destruct (GRT _ _); auto. apply IHleft; lia.
Qed.
Lemma fill_K_oob rho n K0 N : (forall i, (i < N)%nat -> n i <> 0) -> (forall i, (1 <= i < length rho)%nat -> 0 < nth i rho 0) ->
  (1 <= length rho)%nat -> (length rho < N)%nat -> fill_K rho n K0 N = UB.
Proof.
  intros Hn Hp Hl HN. unfold fill_K.
  set (step := fun i (K : nat -> R) => do r <- rd rho i; do q <- lift (fdiv (n i - n (i-1)%nat) (n (i-1)%nat * n i)); do w <- lift (cpow r q); ret (K (i-1)%nat * w)).
  assert (OK : forall m, (m <= length rho)%nat -> exists v, fill K0 step m = ret v).
  { induction m as [|[|m] IH]; intros Hm; [eexists; reflexivity|eexists; reflexivity|]. destruct IH as (v & E); [lia|].
    change (fill K0 step (S (S m))) with (do v <- fill K0 step (S m); do x <- step (S m) v; ret (put v (S m) x)).
    rewrite E, ret_bind. unfold step at 1. rewrite rd_ok by lia. rewrite ret_bind, fdiv_some.
    2:{ apply Rmult_integral_contrapositive_currified; apply Hn; lia. }
    rewrite lift_bind, cpow_pos by (apply Hp; lia). eexists; reflexivity. }
  assert (U : forall k, fill K0 step (length rho + S k) = UB).
  { induction k.
    - destruct (OK (length rho) ltac:(lia)) as (v & E). destruct (length rho) as [|l] eqn:EL; [lia|].
      replace (S l + 1)%nat with (S (S l)) by lia.
      change (fill K0 step (S (S l))) with (do v <- fill K0 step (S l); do x <- step (S l) v; ret (put v (S l) x)).
      rewrite E, ret_bind. unfold step at 1. unfold rd. rewrite (proj2 (nth_error_None rho (S l))) by lia. reflexivity.
    - replace (length rho + S (S k))%nat with (S (length rho + S k)) by lia.
      destruct (length rho + S k)%nat as [|m] eqn:EM; [lia|].
      change (fill K0 step (S (S m))) with (do v <- fill K0 step (S m); do x <- step (S m) v; ret (put v (S m) x)).
      rewrite IHk. reflexivity. }
  replace N with (length rho + S (N - length rho - 1))%nat by lia. apply U.
Qed.
Lemma pwp_short gamma K0 rho : (forall i, (i < length gamma)%nat -> 1 + / 1000000000000 <= nth i gamma 0) ->
  (forall i, (1 <= i < length rho)%nat -> 0 < nth i rho 0) -> (1 <= length rho)%nat -> length gamma = S (length rho) ->
  (forall i, (1 <= i < length rho)%nat -> nth (i-1) rho 0 <= nth i rho 0) -> populate_pwp gamma K0 rho = UB.
Proof.
  intros Hg Hp Hl HN Ho. unfold populate_pwp. cbv zeta. rewrite HN.
  rewrite order_ok; [|lia|lia|intros; apply Ho; lia]. rewrite ret_bind.
  destruct (fill_n_ok gamma Hg) as (n & -> & Hln & Hn). rewrite ret_bind. rewrite fill_K_oob; [reflexivity| |auto|lia|lia].
  intros i Hi. unfold arr. rewrite Hn by lia. apply Rinv_neq_0_compat. specialize (Hg i ltac:(lia)). lra.
Qed.
Lemma pwp_one_piece gamma K0 rho h : 1 + / 1000000000000 <= gamma -> exists e, populate_pwp [gamma] K0 rho = ret e /\
  EoS_rho0_h_pwp e h = UB /\ EoS_p_h_pwp e h = UB.
Proof.
  intros Hg. destruct (fill_n_ok [gamma]) as (n & E & _). { intros [|i] Hi; cbn in *; [lra|lia]. }
  unfold populate_pwp. cbv zeta. cbn [length Nat.sub order_check]. rewrite ret_bind, E, ret_bind.
  eexists; split; [reflexivity|]. split; reflexivity.
Qed.
Lemma Rpower_1l x : Rpower 1 x = 1. Proof. unfold Rpower. rewrite ln_1, Rmult_0_r. apply exp_0. Qed.
Lemma last_threshold_unchecked : exists e, populate_pwp [2; 2; 2] 1 [0; 2; 1] = ret e /\ eh_th e 2 < eh_th e 1.
Proof.
  destruct (populate_loose [2;2;2] 1 [0;2;1]) as (e & E & B).
  { unfold loose_table. split; [cbn; lia|]. split; [cbn; lia|]. split; [intros [|[|[|i]]] Hi; cbn in *; try lra; lia|].
    split; [intros [|[|[|i]]] Hi; cbn in *; try lra; lia|]. intros i H1 H2. cbn in H2. replace i with 1%nat by lia. cbn. lra. }
  exists e; split; auto.
  pose proof (b_K0 _ _ _ _ B) as K0. pose proof (b_K _ _ _ _ B 1 ltac:(cbn; lia)) as K1. pose proof (b_K _ _ _ _ B 2 ltac:(cbn; lia)) as K2.
  pose proof (b_a0 _ _ _ _ B) as A0. pose proof (b_a _ _ _ _ B 1 ltac:(cbn; lia)) as A1. pose proof (b_a _ _ _ _ B 2 ltac:(cbn; lia)) as A2.
  rewrite (b_h _ _ _ _ B 1), (b_h _ _ _ _ B 2) by (cbn; lia). cbn [nth Nat.sub] in *.
  replace (2-2) with 0 in * by ring. replace (2-1) with 1 in * by ring.
  rewrite !Rpower_1l in *. rewrite ?Rpower_O, ?Rpower_1 in K1 by lra. rewrite ?Rpower_O, ?Rpower_1 in A1 by lra. rewrite !Rpower_1 by lra. rewrite A2, A1, A0, K2, K1, K0. lra.
Qed.

(** ** the search stops the program at a threshold minus the round-off constant *)
Section Gap.
  Variables (gamma : list R) (K0 : R) (rho : list R) (e : eos).
  Hypothesis (G : good_table gamma K0 rho) (B : built gamma K0 rho e).
  Lemma find_piece_gap i h : (2 <= i)%nat -> (S i < length gamma)%nat -> h = eh_th e i - ROUND_OFF_ERR ->
    separated gamma e -> eh_th e (i-1) + 2 * ROUND_OFF_ERR < eh_th e i ->
    forall left j, (1 <= j)%nat -> (j + left = length gamma - 1)%nat -> find_piece e h j left = Abort.
  Proof.
    intros Hi Hn Eh Hs Hd. pose proof ROE_pos. induction left; intros j Hj Hl; [reflexivity|]. cbn [find_piece].
    assert (X : GRTEQL h (eh_th e j) && LSSEQL h (eh_th e (S j)) = false).
    { destruct (lt_dec j i) as [L|L].
      - replace (LSSEQL h (eh_th e (S j))) with false; [apply andb_false_r|]. symmetry.
        destruct (LSSEQL h (eh_th e (S j))) eqn:E; auto. apply LSSEQL_iff in E. exfalso.
        destruct (Nat.eq_dec (S j) i) as [Ej|]. { rewrite Ej in E. lra. }
        pose proof (h_le gamma K0 rho e G B (S j) (i-1) ltac:(lia) ltac:(lia)). lra.
      - replace (GRTEQL h (eh_th e j)) with false; [reflexivity|]. symmetry.
        destruct (GRTEQL h (eh_th e j)) eqn:E; auto. apply GRTEQL_iff in E. exfalso.
        pose proof (h_le gamma K0 rho e G B i j ltac:(lia) ltac:(lia)). lra. }
    rewrite X. apply IHleft; lia.
  Qed.
  Lemma find_gap i : (2 <= i)%nat -> (S i < length gamma)%nat -> separated gamma e -> eh_th e (i-1) + 2 * ROUND_OFF_ERR < eh_th e i ->
    find_threshold_number_h e (eh_th e i - ROUND_OFF_ERR) = Abort.
  Proof.
    intros Hi Hn Hs Hd. pose proof ROE_pos. unfold find_threshold_number_h. rewrite (b_f _ _ _ _ B). cbn [andb]. unfold th. rewrite (b_N _ _ _ _ B).
    destruct (Nat.ltb_spec 1 (length gamma)); [|lia]. cbn [obind].
    rewrite LSSEQL_false. 2:{ pose proof (h_le gamma K0 rho e G B 1 (i-1) ltac:(lia) ltac:(lia)). lra. }
    destruct (Nat.ltb_spec (length gamma - 1) (length gamma)); [|lia]. cbn [obind].
    rewrite GRTEQL_false. 2:{ pose proof (h_le gamma K0 rho e G B i (length gamma - 1) ltac:(lia) ltac:(lia)). lra. }
    apply (find_piece_gap i); auto; lia.
  Qed.
End Gap.

(** ** tabular *)
Lemma clamp_range t h : h_floor t <= h_ceil t -> h_floor t <= clamp t h <= h_ceil t.
Proof. intros H. unfold clamp. cbv zeta. destruct (leR_spec h (h_floor t)); [destruct (leR_spec (h_ceil t) (h_floor t))|destruct (leR_spec (h_ceil t) h)]; lra. Qed.
Lemma clamp_in t h : h_floor t <= h <= h_ceil t -> clamp t h = h.
Proof. intros H. unfold clamp. cbv zeta. destruct (leR_spec h (h_floor t)); [destruct (leR_spec (h_ceil t) (h_floor t))|destruct (leR_spec (h_ceil t) h)]; lra. Qed.
Lemma logy_nonneg t H s h y : logy_of_logh t H s h = Ok y -> 0 <= y.
Proof. unfold logy_of_logh. destruct (leR_spec 0 (Rpower 10 (H (log10 (clamp t h))) - s)); intros E; inversion E; subst; auto. Qed.
Lemma pow_log10 x : 0 < x -> Rpower 10 (log10 x) = x.
Proof.
  intros Hx. unfold Rpower, log10. replace (ln x / ln 10 * ln 10) with (ln x); [apply exp_ln; auto|]. field.
  assert (0 < ln 10) by (rewrite <- ln_1; apply ln_increasing; lra). lra.
Qed.
Lemma ln10_pos : 0 < ln 10. Proof. rewrite <- ln_1. apply ln_increasing; lra. Qed.
Lemma d_log10 h : 0 < h -> derivable_pt_lim log10 h (/ (h * ln 10)).
Proof.
  intros Hh. pose proof ln10_pos. apply (dlim_ext (fun x => / ln 10 * ln x)). { intros; unfold log10, Rdiv; ring. }
  replace (/ (h * ln 10)) with (/ ln 10 * / h) by (field; lra).
  apply (derivable_pt_lim_scal ln). apply derivable_pt_lim_ln; auto.
Qed.
Definition tabF (H : R -> R) (s : R) (x : R) : R := Rpower 10 (H (log10 x)) - s.
Lemma d_tab H H' s h : 0 < h -> derivable_pt_lim H (log10 h) (H' (log10 h)) ->
  derivable_pt_lim (tabF H s) h ((tabF H s h + s) / h * H' (log10 h)).
Proof.
  intros Hh HD. pose proof ln10_pos.
  assert (D1 : derivable_pt_lim (fun x => H (log10 x)) h (H' (log10 h) * / (h * ln 10))).
  { apply (derivable_pt_lim_comp log10 H); [apply d_log10; auto|exact HD]. }
  assert (D2 : derivable_pt_lim (fun x => ln 10 * H (log10 x)) h (ln 10 * (H' (log10 h) * / (h * ln 10)))) by (apply (derivable_pt_lim_scal (fun x => H (log10 x))); exact D1).
  pose proof (derivable_pt_lim_comp _ exp h _ _ D2 (derivable_pt_lim_exp _)) as D3.
  pose proof (derivable_pt_lim_minus _ _ h _ _ D3 (derivable_pt_lim_const s h)) as D4.
  replace ((tabF H s h + s) / h * H' (log10 h)) with (exp (ln 10 * H (log10 h)) * (ln 10 * (H' (log10 h) * / (h * ln 10))) - 0).
  2:{ unfold tabF, Rpower. rewrite (Rmult_comm (ln 10) (H (log10 h))). field. split; lra. }
  apply (dlim_ext _ (tabF H s)) in D4; auto. intros y. unfold tabF, Rpower, minus_fct, comp, fct_cte. rewrite (Rmult_comm (ln 10)). reflexivity.
Qed.
Lemma positive_near F h d : derivable_pt_lim F h d -> 0 < F h -> exists eps, 0 < eps /\ forall x, Rabs (x - h) < eps -> 0 < F x.
Proof.
  intros D P. destruct (derivable_continuous_pt F h (exist _ d D : derivable_pt F h) (F h) P) as (al & Ha & Hc).
  exists al. split; [exact Ha|]. intros x Hx. destruct (Req_dec x h) as [->|N]; auto.
  assert (L : Rabs (F x - F h) < F h). { apply (Hc x). split; [split; [exact I|auto]|exact Hx]. }
  apply Rabs_def2 in L. lra.
Qed.
Lemma tab_derives t H H' s h y : h_floor t < h < h_ceil t -> 0 < h -> logy_of_logh t H s h = Ok y -> 0 < y ->
  derivable_pt_lim H (log10 h) (H' (log10 h)) -> derives_o (logy_of_logh t H s) h ((y + s) / h * H' (log10 h)).
Proof.
  intros Hr Hh E Hy HD. pose proof (d_tab H H' s h Hh HD) as D.
  assert (EF : tabF H s h = y).
  { unfold logy_of_logh in E. rewrite clamp_in in E by lra. unfold tabF. destruct (leR_spec 0 (Rpower 10 (H (log10 h)) - s)); inversion E; auto. }
  rewrite EF in D. destruct (positive_near _ _ _ D ltac:(lra)) as (e1 & P1 & N1).
  exists (tabF H s). split; [|exact D].
  exists (Rmin e1 (Rmin (h - h_floor t) (h_ceil t - h))). split; [repeat apply Rmin_glb_lt; lra|].
  intros x Hx. pose proof (Rmin_l e1 (Rmin (h - h_floor t) (h_ceil t - h))). pose proof (Rmin_r e1 (Rmin (h - h_floor t) (h_ceil t - h))).
  pose proof (Rmin_l (h - h_floor t) (h_ceil t - h)). pose proof (Rmin_r (h - h_floor t) (h_ceil t - h)).
  specialize (N1 x ltac:(lra)). apply Rabs_def2 in Hx. unfold logy_of_logh. rewrite clamp_in by lra.
  fold (tabF H s x). destruct (leR_spec 0 (tabF H s x)); [reflexivity|lra].
Qed.
Lemma logy_clamp_idem t H s h : h_floor t <= h_ceil t -> logy_of_logh t H s (clamp t h) = logy_of_logh t H s h.
Proof. intros Hr. unfold logy_of_logh. rewrite (clamp_in t (clamp t h)) by (apply clamp_range; auto). reflexivity. Qed.
Lemma log10_inj x y : 0 < x -> 0 < y -> log10 x = log10 y -> x = y.
Proof. intros Hx Hy E. rewrite <- (pow_log10 x), <- (pow_log10 y), E by auto. reflexivity. Qed.
Lemma NoDup_log10 hs : NoDup hs -> Forall (fun h => 0 < h) hs -> NoDup (map log10 hs).
Proof.
  induction hs; intros ND FA; [constructor|]. inversion ND; inversion FA; subst. cbn. constructor; [|auto].
  intros IN. apply in_map_iff in IN. destruct IN as (y & E & Iy). apply log10_inj in E; auto. congruence.
  rewrite Forall_forall in *. auto.
Qed.
Lemma tab_node interp hfl hce hs es ps t i : set_hermite_log interp hfl hce hs es ps = Ok t ->
  (forall x f, length x = length f -> NoDup x -> forall k, (k < length x)%nat -> fst (interp x f) (nth k x 0) = nth k f 0) ->
  length es = length hs -> length ps = length hs -> (i < length hs)%nat -> NoDup hs -> Forall (fun h => 0 < h) hs ->
  hfl <= nth i hs 0 <= hce -> 0 <= nth i ps 0 -> 0 <= nth i es 0 -> 0 < nth i ps 0 + p_shift t -> 0 < nth i es 0 + e_shift t ->
  p_of_h t (nth i hs 0) = Ok (nth i ps 0) /\ e_of_h t (nth i hs 0) = Ok (nth i es 0).
Proof.
  intros E HI L1 L2 Hi ND FA Hr Qp Qe Pp Pe. unfold set_hermite_log in E. destruct (nth_error ps 3) as [psh|]; [|discriminate].
  destruct (nth_error es 3) as [esh|]; [|discriminate]. inversion E; subst t; clear E. cbn [p_shift e_shift] in *.
  assert (LN : forall f, nth i (map f hs) 0 = f (nth i hs 0)).
  { intros f. rewrite (nth_indep _ 0 (f 0)) by (rewrite map_length; auto). apply map_nth. }
  assert (LM : forall f l, length l = length hs -> nth i (map f l) 0 = f (nth i l 0)).
  { intros f l Hl. rewrite (nth_indep _ 0 (f 0)) by (rewrite map_length; lia). apply map_nth. }
  assert (ND' : NoDup (map log10 hs)) by (apply NoDup_log10; auto).
  unfold p_of_h, e_of_h, logy_of_logh. cbn [Hp He p_shift e_shift]. rewrite !clamp_in by (cbn; lra).
  rewrite <- (LN log10). rewrite !HI by (rewrite ?map_length; auto). rewrite !(LM _ _ L2), !(LM _ _ L1), !pow_log10 by auto.
  split.
  - destruct (leR_spec 0 (nth i ps 0 + psh - psh)); [f_equal; ring|lra].
  - destruct (leR_spec 0 (nth i es 0 + esh - esh)); [f_equal; ring|lra].
Qed.
Lemma tab_values t h : h_floor t <= h_ceil t -> 0 < h_floor t -> forall p e, p_of_h t h = Ok p -> e_of_h t h = Ok e ->
  exists hc, h_floor t <= hc <= h_ceil t /\ (h_floor t <= h <= h_ceil t -> hc = h) /\ (h < h_floor t -> hc = h_floor t) /\ (h_ceil t < h -> hc = h_ceil t) /\
    p_of_h t hc = Ok p /\ e_of_h t hc = Ok e /\ 0 <= p /\ 0 <= e /\
    exists rho0, rho0_e_p_h t h = Ok rho0 /\ 0 <= rho0 /\ rho0 * hc = e + p /\
      (ROUND_OFF_ERR <= Rabs (rho0 - e) -> 0 < rho0 -> exists e0, e0_of_e_and_rho0 t h = Ok (Some e0) /\ e = rho0 * (1 + e0)) /\
      (Rabs (rho0 - e) < ROUND_OFF_ERR -> e0_of_e_and_rho0 t h = Ok (Some 0)).
Proof.
  intros Hr Hf p e Ep Ee. exists (clamp t h). pose proof (clamp_range t h Hr) as C.
  split; [exact C|]. split; [apply clamp_in|]. 
  split. { intros L. unfold clamp. cbv zeta. destruct (leR_spec h (h_floor t)); [|lra]. destruct (leR_spec (h_ceil t) (h_floor t)); lra. }
  split. { intros L. unfold clamp. cbv zeta. destruct (leR_spec h (h_floor t)); [lra|]. destruct (leR_spec (h_ceil t) h); lra. }
  split; [unfold p_of_h in *; rewrite logy_clamp_idem; auto|]. split; [unfold e_of_h in *; rewrite logy_clamp_idem; auto|].
  pose proof (logy_nonneg _ _ _ _ _ Ep) as Pp. pose proof (logy_nonneg _ _ _ _ _ Ee) as Pe.
  split; [exact Pp|]. split; [exact Pe|]. exists ((p + e) / clamp t h).
  assert (ER : rho0_e_p_h t h = Ok ((p + e) / clamp t h)) by (unfold rho0_e_p_h; rewrite Ep, Ee; reflexivity).
  split; [exact ER|]. split. { apply Rmult_le_pos; [lra|]. left; apply Rinv_0_lt_compat; lra. }
  split. { field. lra. }
  split.
  - intros N P. unfold e0_of_e_and_rho0. rewrite ER, Ee. cbn [obind]. rewrite (proj2 (EQL_false _ _)) by auto.
    set (q := (p + e) / clamp t h) in *. rewrite fdiv_some by lra. eexists; split; [reflexivity|]. field. lra.
  - intros N. unfold e0_of_e_and_rho0. rewrite ER, Ee. cbn [obind]. rewrite (proj2 (EQL_iff _ _)) by auto. reflexivity.
Qed.
(** the returned "derivatives" and the true ones *)
Lemma dp_true t h p : h_floor t < h < h_ceil t -> 0 < h -> p_of_h t h = Ok p -> 0 < p -> derivable_pt_lim (Hp t) (log10 h) (Hp' t (log10 h)) ->
  derives_o (p_of_h t) h ((p + p_shift t) / h * Hp' t (log10 h)) /\ dp_dh t h = Ok (p / h * Hp' t (log10 h)).
Proof.
  intros Hr Hh E P D. split; [apply tab_derives; auto|]. unfold dp_dh. rewrite E. cbn [obind]. rewrite clamp_in by lra. reflexivity.
Qed.
Lemma de_true t h e : h_floor t < h < h_ceil t -> 0 < h -> e_of_h t h = Ok e -> 0 < e -> derivable_pt_lim (He t) (log10 h) (He' t (log10 h)) ->
  derives_o (e_of_h t) h ((e + e_shift t) / h * He' t (log10 h)) /\ de_dh t h = Ok (e / h * He' t (log10 h)).
Proof.
  intros Hr Hh E P D. split; [apply tab_derives; auto|]. unfold de_dh. rewrite E. cbn [obind]. rewrite clamp_in by lra. reflexivity.
Qed.
Lemma d_rho F1 F2 h d1 d2 : 0 < h -> derivable_pt_lim F1 h d1 -> derivable_pt_lim F2 h d2 ->
  derivable_pt_lim (fun x => (F1 x + F2 x) / x) h ((d2 + d1 - (F2 h + F1 h) / h) / h).
Proof.
  intros Hh D1 D2. pose proof (derivable_pt_lim_plus F1 F2 h _ _ D1 D2) as D3.
  pose proof (derivable_pt_lim_div _ _ h _ _ D3 (derivable_pt_lim_id h) ltac:(unfold id; lra)) as D4.
  replace ((d2 + d1 - (F2 h + F1 h) / h) / h) with (((d1 + d2) * id h - 1 * (F1 + F2)%F h) / (id h)²); [exact D4|].
  unfold id, plus_fct, Rsqr. field. lra.
Qed.
Lemma drho_true t h p e : h_floor t < h < h_ceil t -> 0 < h -> p_of_h t h = Ok p -> 0 < p -> e_of_h t h = Ok e -> 0 < e ->
  derivable_pt_lim (Hp t) (log10 h) (Hp' t (log10 h)) -> derivable_pt_lim (He t) (log10 h) (He' t (log10 h)) ->
  p_shift t = 0 -> e_shift t = 0 ->
  exists d, drho0_dh t h = Ok d /\ derives_o (rho0_e_p_h t) h d.
Proof.
  intros Hr Hh Ep P Ee Pe Dp De Sp Se. destruct (dp_true t h p) as [(F1 & (e1 & P1 & N1) & D1) C1]; auto.
  destruct (de_true t h e) as [(F2 & (e2 & P2 & N2) & D2) C2]; auto. rewrite Sp, Rplus_0_r in D1. rewrite Se, Rplus_0_r in D2.
  assert (V1 : F1 h = p). { specialize (N1 h). rewrite Rminus_diag_eq, Rabs_R0 in N1 by auto. specialize (N1 P1). congruence. }
  assert (V2 : F2 h = e). { specialize (N2 h). rewrite Rminus_diag_eq, Rabs_R0 in N2 by auto. specialize (N2 P2). congruence. }
  eexists. split.
  { unfold drho0_dh. rewrite Ee, C2, Ep, C1. cbn [obind]. rewrite clamp_in by lra. reflexivity. }
  exists (fun x => (F1 x + F2 x) / x). split.
  - exists (Rmin (Rmin e1 e2) (Rmin (h - h_floor t) (h_ceil t - h))). split; [repeat apply Rmin_glb_lt; lra|].
    intros x Hx. pose proof (Rmin_l (Rmin e1 e2) (Rmin (h - h_floor t) (h_ceil t - h))). pose proof (Rmin_r (Rmin e1 e2) (Rmin (h - h_floor t) (h_ceil t - h))).
    pose proof (Rmin_l (h - h_floor t) (h_ceil t - h)). pose proof (Rmin_r (h - h_floor t) (h_ceil t - h)). pose proof (Rmin_l e1 e2). pose proof (Rmin_r e1 e2).
    unfold rho0_e_p_h. rewrite N1, N2 by lra. cbn [obind]. apply Rabs_def2 in Hx. rewrite clamp_in by lra. reflexivity.
  - rewrite <- V1, <- V2 in *. apply d_rho; auto.
Qed.
(** a table with H(x) = x: y = h - shift *)
Definition tab_lin (s : R) : tab := mkTab 1 10 (fun x => x) (fun _ => 1) s (fun x => x) (fun _ => 1) s.
Lemma tab_lin_at s h : 1 <= h <= 10 -> s <= h -> p_of_h (tab_lin s) h = Ok (h - s).
Proof.
  intros H Hs. unfold p_of_h, logy_of_logh. cbn [tab_lin Hp p_shift]. rewrite clamp_in by (cbn; lra). rewrite pow_log10 by lra.
  destruct (leR_spec 0 (h - s)); [reflexivity|lra].
Qed.
Lemma tab_lin_e s h : 1 <= h <= 10 -> s <= h -> e_of_h (tab_lin s) h = Ok (h - s).
Proof. exact (tab_lin_at s h). Qed.
Lemma tab_shift_wrong : exists d, derives_o (p_of_h (tab_lin 1)) 2 d /\ exists d', dp_dh (tab_lin 1) 2 = Ok d' /\ d' <> d.
Proof.
  destruct (dp_true (tab_lin 1) 2 1) as [D C]; [cbn; lra|lra|rewrite tab_lin_at by lra; f_equal; ring|lra|cbn; apply derivable_pt_lim_id|].
  eexists; split; [exact D|]. eexists; split; [exact C|]. cbn [tab_lin p_shift Hp']. lra.
Qed.
Lemma factors_codata : let G := 66743 / 10^15 in let c := 299792458 in let M := 198841 * 10^25 in let mn := 167492749804 / 10^38 in
  close_to p_FACTOR (G^3 * M^2 / (10 * c^8)) /\ close_to e_FACTOR (1000 * (G^3 * M^2 / c^6)) /\ close_to rho0_FACTOR (10^45 * mn * G^3 * M^2 / c^6).
Proof.
  cbv zeta. unfold close_to, p_FACTOR, e_FACTOR, rho0_FACTOR.
  assert (X : forall x y, 0 < y -> (1 - / 10^15) * y <= x <= (1 + / 10^15) * y -> Rabs (x - y) <= / 10^15 * Rabs y).
  { intros x y Hy Hx. rewrite (Rabs_pos_eq y) by lra. apply Rabs_le. lra. }
  split; [|split]; (apply X; [lra|split; lra]).
Qed.
Lemma row_consistent f rho e p h : row_h (convert_row f (rho, e, p)) = Some h -> forall rho' e' p', convert_row f (rho, e, p) = (rho', e', p') ->
  rho' <> 0 /\ h * rho' = e' + p' /\
  match f with Tab_Format1 => rho' = rho0_FACTOR * rho /\ e' = e_FACTOR * e /\ p' = p_FACTOR * p
             | Tab_Format2 => rho' = rho /\ p' = p /\ e' = rho' * (1 + e) end.
Proof.
  intros H rho' e' p' E. rewrite E in H. cbn in H. unfold fdiv in H. destruct (Req_EM_T rho' 0); [discriminate|]. inversion H; subst. split; auto. split; [field; auto|].
  destruct f; cbn in E; inversion E; repeat split; ring.
Qed.
Lemma short_table interp a b hs es ps : (length ps < 4)%nat -> set_hermite_log interp a b hs es ps = UB.
Proof. intros H. unfold set_hermite_log. rewrite (proj2 (nth_error_None ps 3)) by lia. reflexivity. Qed.
Lemma ex_good : good_table [2; 3] 1 [0; 1].
Proof.
  unfold good_table. split; [cbn; lia|]. split; [cbn; lia|]. split; [lra|]. split; [intros [|[|i]] Hi; cbn in *; try lra; lia|].
  split; [cbn; lra|]. split; [cbn; lra|]. intros i H1 H2. cbn in H2. lia.
Qed.
Lemma ex_h1 e : built [2;3] 1 [0;1] e -> eh_th e 1 = 3.
Proof.
  intros B. pose proof (b_K0 _ _ _ _ B) as K0. pose proof (b_K _ _ _ _ B 1 ltac:(cbn; lia)) as K1.
  pose proof (b_a0 _ _ _ _ B) as A0. pose proof (b_a _ _ _ _ B 1 ltac:(cbn; lia)) as A1.
  rewrite (b_h _ _ _ _ B 1) by (cbn; lia). cbn [nth Nat.sub] in *. rewrite !Rpower_1l in *. rewrite A1, A0, K1, K0. field.
Qed.
Lemma ex_inside e : built [2;3] 1 [0;1] e -> inside [2;3] e 0 2 /\ inside [2;3] e 1 4 /\ separated [2;3] e.
Proof.
  intros B. pose proof (ex_h1 e B) as H. pose proof (b_h0 _ _ _ _ B) as H0. assert (RB : ROUND_OFF_ERR < / 2) by (unfold ROUND_OFF_ERR; lra).
  unfold inside, separated. cbn [length]. split; [|split].
  - split; [lia|]. split; [lra|]. split; [intros; lia|]. intros _. rewrite H. lra.
  - split; [lia|]. split; [lra|]. split; [intros; rewrite H; lra|]. intros; lia.
  - intros k Hk. replace k with O by lia. rewrite H, H0. lra.
Qed.
Lemma ex4_good : good_table [2; 2; 2; 2] 1 [0; 1; 2; 3].
Proof.
  unfold good_table. split; [cbn; lia|]. split; [cbn; lia|]. split; [lra|]. split; [intros [|[|[|[|i]]]] Hi; cbn in *; try lra; lia|].
  split; [cbn; lra|]. split; [cbn; lra|]. intros [|[|[|i]]] H1 H2; cbn in *; try lra; lia.
Qed.
Lemma ex4_gap e : built [2;2;2;2] 1 [0;1;2;3] e -> separated [2;2;2;2] e /\ eh_th e 1 + 2 * ROUND_OFF_ERR < eh_th e 2.
Proof.
  intros B. pose proof (b_K0 _ _ _ _ B) as K0. pose proof (b_K _ _ _ _ B 1 ltac:(cbn; lia)) as K1. pose proof (b_K _ _ _ _ B 2 ltac:(cbn; lia)) as K2. pose proof (b_K _ _ _ _ B 3 ltac:(cbn; lia)) as K3.
  pose proof (b_a0 _ _ _ _ B) as A0. pose proof (b_a _ _ _ _ B 1 ltac:(cbn; lia)) as A1. pose proof (b_a _ _ _ _ B 2 ltac:(cbn; lia)) as A2. pose proof (b_a _ _ _ _ B 3 ltac:(cbn; lia)) as A3.
  pose proof (b_h0 _ _ _ _ B) as H0. pose proof (b_h _ _ _ _ B 1 ltac:(cbn; lia)) as H1. pose proof (b_h _ _ _ _ B 2 ltac:(cbn; lia)) as H2. pose proof (b_h _ _ _ _ B 3 ltac:(cbn; lia)) as H3.
  cbn [nth Nat.sub] in *. replace (2-2) with 0 in * by ring. replace (2-1) with 1 in * by ring.
  rewrite Rpower_O in K1 by lra. rewrite Rpower_O in K2 by lra. rewrite Rpower_O in K3 by lra.
  rewrite ?Rpower_1 in A1 by lra. rewrite ?Rpower_1 in A2 by lra. rewrite ?Rpower_1 in A3 by lra.
  rewrite ?Rpower_1 in H1 by lra. rewrite ?Rpower_1 in H2 by lra. rewrite ?Rpower_1 in H3 by lra.
  rewrite K0 in K1. rewrite K1 in K2. rewrite K2 in K3. rewrite K0, K1, A0 in A1. rewrite K1, K2, A1 in A2. rewrite K2, K3, A2 in A3.
  rewrite K1, A1 in H1. rewrite K2, A2 in H2. rewrite K3, A3 in H3.
  assert (RB : ROUND_OFF_ERR < / 2) by (unfold ROUND_OFF_ERR; lra). split.
  - intros k Hk. cbn [length] in Hk. destruct k as [|[|[|k]]]; [lra|lra|lra|lia].
  - lra.
Qed.
(** the statements in one piece *)
Lemma pwp_construct gamma K0 rho : good_table gamma K0 rho -> exists e, populate_pwp gamma K0 rho = ret e /\
  eN e = length gamma /\ eK e 0 = K0 /\ ea e 0 = 0 /\ eh_th e 0 = 1 /\
  (forall i, (i < length gamma)%nat -> 0 < eK e i /\ en e i * (nth i gamma 0 - 1) = 1) /\
  forall i, (1 <= i < length gamma)%nat -> eh_th e (i-1) < eh_th e i /\
    exists p en0 e0, polytrope_at (eK e (i-1)) (nth (i-1) gamma 0) (ea e (i-1)) (eh_th e i) (nth i rho 0) p en0 e0 /\
                     polytrope_at (eK e i) (nth i gamma 0) (ea e i) (eh_th e i) (nth i rho 0) p en0 e0.
Proof.
  intros G. destruct (populate_built gamma K0 rho G) as (e & E & B). exists e. split; [exact E|].
  split; [apply B|]. split; [apply B|]. split; [apply B|]. split; [apply B|].
  split. { intros i Hi. split; [eapply K_pos; eauto|]. rewrite (b_n _ _ _ _ B) by auto. pose proof (g_gt gamma K0 rho G i Hi). field. lra. }
  intros i Hi. split; [eapply h_step; eauto|].
  pose proof (pressure_continuous gamma K0 rho e B i Hi) as PC. pose proof (energy_continuous gamma K0 rho e G B i Hi) as EC.
  pose proof (b_h _ _ _ _ B i Hi) as HI. pose proof (g_gt gamma K0 rho G i ltac:(lia)) as Hg. pose proof (g_gt gamma K0 rho G (i-1) ltac:(lia)) as Hg'.
  pose proof (r_pos gamma K0 rho G i Hi) as Hr.
  set (p := eK e i * Rpower (nth i rho 0) (nth i gamma 0)) in *. set (en0 := (1 + ea e i) * nth i rho 0 + p / (nth i gamma 0 - 1)) in *.
  assert (Hh : eh_th e i = (en0 + p) / nth i rho 0).
  { rewrite HI. unfold en0, p. rewrite (Rpower_m1 (nth i rho 0) (nth i gamma 0)) by auto. field. split; lra. }
  exists p, en0, (en0 / nth i rho 0 - 1). split.
  - split; [exact Hr|]. split; [symmetry; exact PC|]. split; [rewrite <- PC; symmetry; exact EC|]. split; [exact Hh|reflexivity].
  - split; [exact Hr|]. split; [reflexivity|]. split; [reflexivity|]. split; [exact Hh|reflexivity].
Qed.
Lemma pwp_inside gamma K0 rho e : good_table gamma K0 rho -> populate_pwp gamma K0 rho = ret e ->
  forall i h, inside gamma e i h ->
  exists rho0 p en0 e0 dr de, EoS_rho0_h_pwp e h = ret rho0 /\ EoS_p_h_pwp e h = ret p /\ EoS_e_h_pwp e h = ret en0 /\ EoS_e0_h_pwp e h = ret e0 /\
    EoS_drho0_dh_h_pwp e h = ret dr /\ EoS_de_dh_h_pwp e h = ret de /\
    polytrope_at (eK e i) (nth i gamma 0) (ea e i) h rho0 p en0 e0 /\
    derives (EoS_p_h_pwp e) h rho0 /\ derives (EoS_rho0_h_pwp e) h dr /\ derives (EoS_e_h_pwp e) h de.
Proof.
  intros G E i h Hin. destruct (populate_built gamma K0 rho G) as (e' & E' & B). assert (e' = e) by (rewrite E in E'; unfold ret in E'; congruence). subst e'.
  destruct (values_inside gamma K0 rho e G B i h Hin) as (r & p & en0 & e0 & V1 & V2 & V3 & V4 & V5).
  destruct (derivs_inside gamma K0 rho e G B i h Hin) as (r' & dr & de & D1 & D2 & D3 & D4 & D5 & D6).
  assert (r' = r) by (rewrite V1 in D1; unfold ret in D1; congruence). subst r'.
  exists r, p, en0, e0, dr, de. tauto.
Qed.
Lemma pwp_at_threshold gamma K0 rho e : good_table gamma K0 rho -> populate_pwp gamma K0 rho = ret e -> separated gamma e ->
  forall i, (1 <= i < length gamma)%nat ->
  EoS_rho0_h_pwp e (eh_th e i) = ret (nth i rho 0) /\ EoS_p_h_pwp e (eh_th e i) = ret (eK e i * Rpower (nth i rho 0) (nth i gamma 0)).
Proof.
  intros G E Hs i Hi. destruct (populate_built gamma K0 rho G) as (e' & E' & B). assert (e' = e) by (rewrite E in E'; unfold ret in E'; congruence). subst e'.
  destruct (values_threshold gamma K0 rho e G B i Hs Hi) as (p & en0 & e0 & V1 & V2 & V3 & V4 & (_ & -> & _) & _). auto.
Qed.
Lemma pwp_search gamma K0 rho e : good_table gamma K0 rho -> populate_pwp gamma K0 rho = ret e ->
  forall h, (forall k, (1 <= k < length gamma)%nat -> h <> eh_th e k + ROUND_OFF_ERR /\ h <> eh_th e k - ROUND_OFF_ERR) ->
  exists i, find_threshold_number_h e h = Ok i /\ (i < length gamma)%nat /\ (i = O \/ eh_th e i - ROUND_OFF_ERR < h) /\
    ((S i < length gamma)%nat -> h < eh_th e (S i) + ROUND_OFF_ERR).
Proof.
  intros G E. destruct (populate_built gamma K0 rho G) as (e' & E' & B). assert (e' = e) by (rewrite E in E'; unfold ret in E'; congruence). subst e'.
  eapply find_total; eauto.
Qed.
Lemma pwp_gap : exists e, populate_pwp [2; 2; 2; 2] 1 [0; 1; 2; 3] = ret e /\ EoS_rho0_h_pwp e (eh_th e 2 - ROUND_OFF_ERR) = Abort.
Proof.
  destruct (populate_built _ _ _ ex4_good) as (e & E & B). exists e. split; auto. destruct (ex4_gap e B) as [S1 S2].
  unfold EoS_rho0_h_pwp, at_piece. assert (SN : snap (eh_th e 2 - ROUND_OFF_ERR) = eh_th e 2 - ROUND_OFF_ERR).
  { apply snap_far. pose proof (h_incr _ _ _ e ex4_good B 0 1 ltac:(lia) ltac:(cbn; lia)). rewrite (b_h0 _ _ _ _ B) in H. lra. }
  rewrite SN. rewrite (find_gap _ _ _ e ex4_good B 2); auto.
Qed.
Lemma c69 :
  (forall gamma K0, 1 + ROUND_OFF_ERR <= gamma -> 0 < K0 -> exists e, populate_p [gamma] K0 = ret e /\
     (forall h, 1 + ROUND_OFF_ERR <= h -> exists rho p en0 e0,
        EoS_rho0_h_p e h = ret rho /\ EoS_p_h_p e h = ret p /\ EoS_e_h_p e h = ret en0 /\ EoS_e0_h_p e h = ret e0 /\
        polytrope_at K0 gamma 0 h rho p en0 e0) /\
     (forall h, Rabs (h - 1) < ROUND_OFF_ERR ->
        EoS_rho0_h_p e h = ret 0 /\ EoS_p_h_p e h = ret 0 /\ EoS_e_h_p e h = ret 0 /\ EoS_e0_h_p e h = ret 0)) /\
  (forall gamma K0, length gamma <> 1%nat -> populate_p gamma K0 = Abort) /\
  (forall gamma K0, Rabs (gamma - 1) < ROUND_OFF_ERR -> populate_p [gamma] K0 = Abort).
Proof.
  split; [|split].
  - intros gamma K0 Hg HK. destruct (populate_p_ok gamma K0 Hg HK) as (e & E & _). exists e. split; [exact E|]. split.
    + intros h Hh. eapply poly_values; eauto.
    + intros h Hh. eapply poly_vacuum; eauto.
  - exact poly_not_one.
  - intros gamma K0 H. unfold populate_p. cbn [length Nat.eqb negb]. rewrite (fill_n_abort [gamma] 0); [reflexivity|cbn; lia|exact H].
Qed.
Lemma c69_ex : 1 + ROUND_OFF_ERR <= 2 /\ 0 < 100 /\ 1 + ROUND_OFF_ERR <= 1.2.
Proof. unfold ROUND_OFF_ERR. lra. Qed.
Lemma c70_ex : (1 + ROUND_OFF_ERR <= 5/2 /\ 0 < 1 /\ 1 + ROUND_OFF_ERR < 3/2) /\ exists e, populate_p [5/2] 1 = ret e.
Proof. split; [unfold ROUND_OFF_ERR; lra|]. destruct (populate_p_ok (5/2) 1) as (e & E & _); [unfold ROUND_OFF_ERR; lra|lra|eauto]. Qed.
Lemma c72 :
  (forall gamma K0 rho e, good_table gamma K0 rho -> populate_pwp gamma K0 rho = ret e -> forall i h,
     (i < length gamma)%nat -> 1 + ROUND_OFF_ERR < h -> (i <> O -> eh_th e i + ROUND_OFF_ERR < h) ->
     ((S i < length gamma)%nat -> h < eh_th e (S i) - ROUND_OFF_ERR) ->
     exists rho0 p en0 e0 dr de, EoS_rho0_h_pwp e h = ret rho0 /\ EoS_p_h_pwp e h = ret p /\ EoS_e_h_pwp e h = ret en0 /\ EoS_e0_h_pwp e h = ret e0 /\
       EoS_drho0_dh_h_pwp e h = ret dr /\ EoS_de_dh_h_pwp e h = ret de /\
       polytrope_at (eK e i) (nth i gamma 0) (ea e i) h rho0 p en0 e0 /\
       derives (EoS_p_h_pwp e) h rho0 /\ derives (EoS_rho0_h_pwp e) h dr /\ derives (EoS_e_h_pwp e) h de) /\
  (forall gamma K0 rho e, good_table gamma K0 rho -> populate_pwp gamma K0 rho = ret e ->
     (forall k, (S k < length gamma)%nat -> eh_th e k + ROUND_OFF_ERR < eh_th e (S k)) ->
     forall i, (1 <= i < length gamma)%nat ->
     EoS_rho0_h_pwp e (eh_th e i) = ret (nth i rho 0) /\ EoS_p_h_pwp e (eh_th e i) = ret (eK e i * Rpower (nth i rho 0) (nth i gamma 0))) /\
  (forall gamma K0 rho e, good_table gamma K0 rho -> populate_pwp gamma K0 rho = ret e -> forall h,
     (forall k, (1 <= k < length gamma)%nat -> h <> eh_th e k + ROUND_OFF_ERR /\ h <> eh_th e k - ROUND_OFF_ERR) ->
     exists i, find_threshold_number_h e h = Ok i /\ (i < length gamma)%nat /\ (i = O \/ eh_th e i - ROUND_OFF_ERR < h) /\
       ((S i < length gamma)%nat -> h < eh_th e (S i) + ROUND_OFF_ERR)).
Proof.
  split; [|split].
  - intros gamma K0 rho e G E i h H1 H2 H3 H4. eapply pwp_inside; eauto. unfold inside. tauto.
  - exact pwp_at_threshold.
  - exact pwp_search.
Qed.
Lemma c72_ex : exists e, populate_pwp [2; 3] 1 [0; 1] = ret e /\ eh_th e 1 = 3 /\ inside [2; 3] e 0 2 /\ inside [2; 3] e 1 4 /\ separated [2; 3] e.
Proof. destruct (populate_built _ _ _ ex_good) as (e & E & B). exists e. split; [exact E|]. split; [apply ex_h1; exact B|]. apply ex_inside; exact B. Qed.
Lemma c73 :
  (forall gamma K0 rho k, (length gamma <= length rho)%nat -> (1 <= k)%nat -> (k + 1 < length gamma)%nat ->
     nth k rho 0 + ROUND_OFF_ERR < nth (k-1) rho 0 -> populate_pwp gamma K0 rho = Abort) /\
  (forall gamma K0 rho i, (length gamma <= length rho)%nat -> (i < length gamma)%nat -> Rabs (nth i gamma 0 - 1) < ROUND_OFF_ERR ->
     populate_pwp gamma K0 rho = Abort).
Proof.
  split; [exact pwp_order_abort|]. intros gamma K0 rho i HL Hi H. unfold populate_pwp. cbv zeta. destruct (length gamma) as [|N'] eqn:EN; [lia|].
  destruct (order_total rho (S N' - 2) 1) as [-> | ->]; [lia|lia| |reflexivity]. rewrite ret_bind. rewrite (fill_n_abort gamma i); [reflexivity|lia|exact H].
Qed.
Lemma c73_ex : (length [2;2;2;2] <= length [0;2;1;3])%nat /\ nth 2 [0;2;1;3] 0 + ROUND_OFF_ERR < nth 1 [0;2;1;3] 0.
Proof. split; [cbn; lia|]. cbn. unfold ROUND_OFF_ERR. lra. Qed.
Lemma c75 t h p e :
  h_floor t < h < h_ceil t -> 0 < h -> p_of_h t h = Ok p -> 0 < p -> e_of_h t h = Ok e -> 0 < e ->
  derivable_pt_lim (Hp t) (log10 h) (Hp' t (log10 h)) -> derivable_pt_lim (He t) (log10 h) (He' t (log10 h)) ->
  p_shift t = 0 -> e_shift t = 0 ->
  (exists d, dp_dh t h = Ok d /\ derives_o (p_of_h t) h d) /\ (exists d, de_dh t h = Ok d /\ derives_o (e_of_h t) h d) /\
  (exists d, drho0_dh t h = Ok d /\ derives_o (rho0_e_p_h t) h d).
Proof.
  intros Hr Hh Ep P Ee Pe Dp De Sp Se. split; [|split].
  - destruct (dp_true t h p) as [D C]; auto. rewrite Sp, Rplus_0_r in D. eauto.
  - destruct (de_true t h e) as [D C]; auto. rewrite Se, Rplus_0_r in D. eauto.
  - eapply drho_true; eauto.
Qed.
Lemma c75r :
  (forall t h p, h_floor t < h < h_ceil t -> 0 < h -> p_of_h t h = Ok p -> 0 < p -> derivable_pt_lim (Hp t) (log10 h) (Hp' t (log10 h)) ->
     derives_o (p_of_h t) h ((p + p_shift t) / h * Hp' t (log10 h)) /\ dp_dh t h = Ok (p / h * Hp' t (log10 h))) /\
  (forall t h e, h_floor t < h < h_ceil t -> 0 < h -> e_of_h t h = Ok e -> 0 < e -> derivable_pt_lim (He t) (log10 h) (He' t (log10 h)) ->
     derives_o (e_of_h t) h ((e + e_shift t) / h * He' t (log10 h)) /\ de_dh t h = Ok (e / h * He' t (log10 h))) /\
  exists t, 0 < p_shift t /\ exists d, derives_o (p_of_h t) 2 d /\ exists d', dp_dh t 2 = Ok d' /\ d' <> d.
Proof. split; [exact dp_true|]. split; [exact de_true|]. exists (tab_lin 1). split; [cbn; lra|]. exact tab_shift_wrong. Qed.
Lemma c75_ex : exists t, h_floor t < 2 < h_ceil t /\ (exists p, p_of_h t 2 = Ok p /\ 0 < p) /\ (exists e, e_of_h t 2 = Ok e /\ 0 < e) /\
  p_shift t = 0 /\ e_shift t = 0 /\ derivable_pt_lim (Hp t) (log10 2) (Hp' t (log10 2)).
Proof.
  exists (tab_lin 0). split; [cbn; lra|]. split; [exists (2-0); split; [apply tab_lin_at; lra|lra]|]. split; [exists (2-0); split; [apply tab_lin_e; lra|lra]|].
  split; [reflexivity|]. split; [reflexivity|]. cbn. apply derivable_pt_lim_id.
Qed.
(** an interpolant of a one-valued kind that passes through the points (x_k, f_k) of a list with distinct x *)
Fixpoint through (x f : list R) (y : R) : R :=
  match x, f with a :: x', b :: f' => if Req_EM_T y a then b else through x' f' y | _, _ => 0 end.
Lemma c74_ex : (forall x f, length x = length f -> NoDup x -> forall k, (k < length x)%nat -> through x f (nth k x 0) = nth k f 0) /\ exists t, set_hermite_log (fun x f => (through x f, fun _ => 0)) 1 10 [1; 2; 3; 4] [1; 2; 3; 4] [0; 1; 2; 3] = Ok t /\
  p_shift t = 3 /\ e_shift t = 4 /\ p_of_h t 2 = Ok 1 /\ e_of_h t 2 = Ok 2.
Proof.
  split.
  { induction x as [|a x IH]; intros [|b f] L ND k Hk; cbn in *; try lia. inversion ND; subst. destruct k as [|k].
    - destruct (Req_EM_T a a); congruence.
    - destruct (Req_EM_T (nth k x 0) a) as [E|]. { exfalso. apply H1. rewrite <- E. apply nth_In. lia. } apply IH; auto; lia. }
  eexists. split; [reflexivity|]. split; [reflexivity|]. split; [reflexivity|].
  assert (NE : log10 2 <> log10 1).
  { intros E. assert (Rpower 10 (log10 2) = Rpower 10 (log10 1)) by congruence. rewrite !pow_log10 in H by lra. lra. }
  unfold p_of_h, e_of_h, logy_of_logh. cbn [p_shift e_shift Hp He fst snd map]. rewrite !clamp_in by (cbn; lra). cbn [through].
  destruct (Req_EM_T (log10 2) (log10 1)); [congruence|]. destruct (Req_EM_T (log10 2) (log10 2)); [|congruence]. rewrite !pow_log10 by lra.
  split.
  - destruct (leR_spec 0 (1 + 3 - 3)); [f_equal; ring|lra].
  - destruct (leR_spec 0 (2 + 4 - 4)); [f_equal; ring|lra].
Qed.
