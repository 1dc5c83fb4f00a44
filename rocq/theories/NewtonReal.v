(** NewtonReal.v - the residual that the Newton loop monitors, over the real numbers, and its history on affine problems. *)
From Coq Require Import Reals Lra Ring RealField.
From Verif Require Import Base TextModel MatrixModel MatrixSpec MatrixProofs MatrixConvert MatrixRead SchurModel SchurSpec SchurProofs SchurExact SewModel SewSpec SewProofs SewFinal NewtonModel NewtonSpec NewtonProofs NewtonLoop.
Open Scope nat_scope.
Notation length := List.length.

(** general.c:91-100 dot *)
Definition dot (n : nat) (v2 v1 : list R) : outcome R :=
  ofold (fun i d => do a <- rd v2 i; do b <- rd v1 i; Ok (d + a * b)%R) (seq 0 n) 0%R.
(** solve_eqs_ddm_schur_complement.c:2666-2686 calculate_residual: Frms of one patch *)
Definition Frms (NS NI : nat) (f g : list R) : outcome R :=
  do a <- dot NS f f; do b <- dot NI g g; Ok (sqrt ((a + b) / INR (NS + NI)))%R.

Section Hist.
Context (grt_abs : R -> R -> bool) (drop : option R) (long : bool) (solver : matrix R -> list R -> outcome (list R)) (junkz : Z) (junk : R).
Context (pd : nat -> nat -> list R -> list R) (interp : nat -> sface R -> nat -> list R -> R)
        (d2f : nat -> nat -> nat -> nat -> R) (dinterp : nat -> sface R -> nat -> nat -> nat -> R).
Context (feq : nat -> list R -> list R) (Bj Ej : nat -> list R -> list (list R)) (lambda : R) (ps : list (ipatch R)).
Notation make_g_all := (make_g_all 0%R 1%R Rplus Rmult Ropp pd interp).
(** calculate_residual on all patches, with f and g made by :171-185 *)
Definition residuals (us : list (list R)) : outcome (list R) :=
  do gs <- make_g_all ps us;
  omap (fun p => do P <- rd ps p; do u <- rd us p; do g <- rd gs p; Frms (i_NS P) (i_NI P) (feq p u) g) (seq 0 (length ps)).
Definition newton_body (us : list (list R)) : outcome (list (list R)) :=
  do gs <- make_g_all ps us;
  newton_step 0%R 1%R Rplus Rminus Rmult Ropp grt_abs drop long solver junkz junk d2f dinterp feq Bj Ej lambda ps us gs.
End Hist.

(** *** the residual of scaled columns *)
Lemma dot_ok n v : n <= length v -> dot n v v = Ok (sumF 0%R Rplus n (fun i => nth i v 0 * nth i v 0)%R).
Proof.
  intros L. unfold dot.
  destruct (ofold_seq_inv (fun m d => d = sumF 0%R Rplus m (fun i => nth i v 0 * nth i v 0)%R) (fun i d => do a <- rd v i; do b <- rd v i; Ok (d + a * b)%R) n 0 0%R) as (d & E & H).
  - intros i s Hi ->. rewrite (rd_nth v i 0%R) by lia. cbn [obind]. eexists. split; [reflexivity|]. unfold sumF. rewrite Nat.add_1_r, seq_S, fold_left_app. reflexivity.
  - reflexivity.
  - rewrite E, H. reflexivity.
Qed.
Lemma sum_scale c n (h : nat -> R) : sumF 0%R Rplus n (fun i => c * h i)%R = (c * sumF 0%R Rplus n h)%R.
Proof. unfold sumF. induction n as [|n IH]; [cbn; ring|]. rewrite seq_S, !fold_left_app, IH. cbn. ring. Qed.
Lemma sum_nonneg n (h : nat -> R) : (forall i, (i < n)%nat -> (0 <= h i)%R) -> (0 <= sumF 0%R Rplus n h)%R.
Proof. unfold sumF. induction n as [|n IH]; intros H; [cbn; lra|]. rewrite seq_S, fold_left_app. cbn. apply Rplus_le_le_0_compat; [apply IH; intros; apply H; lia|apply H; lia]. Qed.
Lemma Frms_value NS NI f g : NS <= length f -> NI <= length g ->
  Frms NS NI f g = Ok (sqrt ((sumF 0%R Rplus NS (fun i => nth i f 0 * nth i f 0) + sumF 0%R Rplus NI (fun i => nth i g 0 * nth i g 0)) / INR (NS + NI)))%R.
Proof. intros Lf Lg. unfold Frms. rewrite !dot_ok by assumption. reflexivity. Qed.
Lemma Frms_scale c NS NI f g : NS <= length f -> NI <= length g -> 0 < NS + NI ->
  exists r, Frms NS NI f g = Ok r /\ Frms NS NI (map (Rmult c) f) (map (Rmult c) g) = Ok (Rabs c * r)%R.
Proof.
  intros Lf Lg HN. eexists. split; [apply Frms_value; assumption|]. rewrite Frms_value by (rewrite map_length; assumption). f_equal.
  assert (E : forall n v, n <= length v -> sumF 0%R Rplus n (fun i => nth i (map (Rmult c) v) 0 * nth i (map (Rmult c) v) 0)%R = (c * c * sumF 0%R Rplus n (fun i => nth i v 0 * nth i v 0))%R).
  { intros n v L. rewrite <- sum_scale. apply sumF_ext. intros i Hi. rewrite (nth_indep _ 0%R (c * 0)%R) by (rewrite map_length; lia). rewrite map_nth. ring. }
  rewrite !E by assumption. set (a := sumF 0%R Rplus NS _). set (b := sumF 0%R Rplus NI _).
  assert (0 <= a)%R by (apply sum_nonneg; intros; apply Rle_0_sqr). assert (0 <= b)%R by (apply sum_nonneg; intros; apply Rle_0_sqr).
  assert (0 < INR (NS + NI))%R by (apply lt_0_INR; assumption).
  replace ((c * c * a + c * c * b) / INR (NS + NI))%R with (c * c * ((a + b) / INR (NS + NI)))%R by (field; lra).
  rewrite sqrt_mult; [|apply Rle_0_sqr|apply Rmult_le_pos; [lra|left; apply Rinv_0_lt_compat; assumption]].
  rewrite <- (sqrt_Rsqr_abs c). reflexivity.
Qed.

(** *** the history on affine problems *)
Section Affine.
Context (grt_abs : R -> R -> bool) (drop : option R) (long : bool) (solver : matrix R -> list R -> outcome (list R)) (junkz : Z) (junk : R).
Context (Z0 : grt_abs 0%R 0%R = false) (EX : exact_solver 0%R Rplus Rmult solver).
Context (pd : nat -> nat -> list R -> list R) (interp : nat -> sface R -> nat -> list R -> R)
        (d2f : nat -> nat -> nat -> nat -> R) (dinterp : nat -> sface R -> nat -> nat -> nat -> R).
Context (feq : nat -> list R -> list R) (Bj Ej : nat -> list R -> list (list R)) (lambda : R).
Context (ps : list (ipatch R)) (G : grid_sewn ps).
Context (JM : forall p P, nth_error ps p = Some P -> jacobians_match 0%R Rplus Rmult pd interp d2f dinterp p (i_nn P)).
Context (EF : equations_fit feq Bj Ej ps) (GF : grid_fits ps) (NEps : ps <> []) (AF : equations_affine 0%R Rplus Rminus Rmult feq Bj Ej ps).
Notation make_g_all := (make_g_all 0%R 1%R Rplus Rmult Ropp pd interp).
Notation residuals := (residuals pd interp feq ps).
Notation body := (newton_body grt_abs drop long solver junkz junk pd interp d2f dinterp feq Bj Ej lambda ps).
Context (ND : forall us gs sps, fields_fit ps us -> make_g_all ps us = Ok gs -> omap (assemble 0%R 1%R Rplus Rmult Ropp d2f dinterp feq Bj Ej ps us gs) (seq 0 (length ps)) = Ok sps ->
   nothing_dropped 0%R Rplus Rminus Rmult grt_abs (drop_limit 0%R drop) sps).
Notation RTR := (RTheory : ring_theory 0%R 1%R Rplus Rmult Rminus Ropp eq).

Notation g_exists := (g_exists 0%R 1%R Rplus Rmult Rminus Ropp RTR pd interp d2f dinterp feq Bj Ej ps G JM EF GF).
Lemma residuals_of us gs : fields_fit ps us -> make_g_all ps us = Ok gs -> exists rs, residuals us = Ok rs /\ length rs = length ps /\
  forall p P, nth_error ps p = Some P -> Frms (i_NS P) (i_NI P) (feq p (nth p us [])) (nth p gs []) = Ok (nth p rs 0%R).
Proof.
  intros FU EG. destruct (g_exists us FU) as (gs' & E' & Lg & Hg). rewrite EG in E'. injection E' as <-.
  unfold NewtonReal.residuals. rewrite EG. cbn [obind].
  destruct (omap_seq (fun p => do P <- rd ps p; do u <- rd us p; do g <- rd gs p; Frms (i_NS P) (i_NI P) (feq p u) g)
     (fun p r => forall P, nth_error ps p = Some P -> Frms (i_NS P) (i_NI P) (feq p (nth p us [])) (nth p gs []) = Ok r) (length ps)) as (rs & E & L & H).
  - intros p Hp. destruct (in_range ps p Hp) as [P HP]. destruct (nth_us ps us p P FU HP) as [EU LU]. destruct (Hg p P HP) as [EGp LGp]. destruct (EF p P _ HP LU) as (L1 & _).
    rewrite (rd_ok _ _ _ HP), (rd_ok _ _ _ EU), (rd_ok _ _ _ EGp). cbn [obind]. rewrite Frms_value by lia. eexists. split; [reflexivity|]. intros P' HP'. rewrite HP in HP'. injection HP' as <-. apply Frms_value; lia.
  - exists rs. split; [exact E|]. split; [assumption|]. intros p P HP. assert (p < length rs) by (rewrite L; apply nth_error_Some; congruence). apply (H p); [apply nth_error_nth'; assumption|assumption].
Qed.
(** one step *)
Lemma residual_step us us' rs : fields_fit ps us -> residuals us = Ok rs -> body us = Ok us' ->
  fields_fit ps us' /\ residuals us' = Ok (map (Rmult (Rabs (1 - lambda))) rs).
Proof.
  intros FU ER EB. destruct (g_exists us FU) as (gs & EG & Lg & Hg). unfold newton_body in EB. rewrite EG in EB. cbn [obind] in EB.
  pose proof (newton_ok 0%R 1%R Rplus Rmult Rminus Ropp grt_abs RTR drop long solver junkz junk Z0 EX pd interp d2f dinterp feq Bj Ej ps G JM EF GF NEps lambda us gs FU EG (fun sps => ND us gs sps FU EG)) as H.
  rewrite EB in H. cbn [safe] in H. destruct H as [ds HC]. pose proof HC as (_ & FU' & _). split; [assumption|].
  pose proof (g_shrinks 0%R 1%R Rplus Rmult Rminus Ropp RTR pd interp d2f dinterp feq Bj Ej ps G JM EF GF lambda us us' ds gs FU EG HC) as EG'.
  destruct (residuals_of us gs FU EG) as (rs' & E1 & L1 & H1). rewrite ER in E1. injection E1 as <-.
  destruct (residuals_of us' _ FU' EG') as (rs2 & E2 & L2 & H2). rewrite E2. f_equal. apply (nth_ext _ _ 0%R 0%R); [rewrite map_length; lia|].
  intros p Hp. rewrite L2 in Hp. destruct (in_range ps p Hp) as [P HP]. specialize (H1 p P HP). specialize (H2 p P HP).
  destruct (nth_us ps us p P FU HP) as [EU LU]. destruct (Hg p P HP) as [EGp LGp]. destruct (EF p P _ HP LU) as (LF & _). destruct (G p P HP) as [PN _].
  rewrite (f_shrinks 0%R 1%R Rplus Rmult Rminus Ropp RTR pd interp feq Bj Ej ps G EF lambda us us' ds p P AF FU HC HP) in H2.
  rewrite (nth_error_nth _ _ [] (map_nth_error _ _ _ EGp)) in H2.
  destruct (Frms_scale (1 - lambda) (i_NS P) (i_NI P) (feq p (nth p us [])) (nth p gs [])) as (r & Er & Es); [lia|lia|pose proof (pn_NS _ PN); lia|].
  rewrite H1 in Er. injection Er as <-. rewrite H2 in Es. injection Es as ->.
  rewrite (nth_indep (map _ rs) 0%R (Rabs (1 - lambda) * 0)%R) by (rewrite map_length; lia). rewrite map_nth. reflexivity.
Qed.
Theorem history isfinite gt max_step res_d us0 rs0 : fields_fit ps us0 -> residuals us0 = Ok rs0 ->
  forall k us hist, iterates isfinite gt residuals body max_step res_d us0 k us hist ->
    fields_fit ps us /\ residuals us = Ok (map (Rmult (Rabs (1 - lambda) ^ k)) rs0) /\
    length hist = k /\ forall j, j < k -> nth j hist [] = map (Rmult (Rabs (1 - lambda) ^ j)) rs0.
Proof.
  intros FU ER k us hist IT. induction IT as [|us0 k us hist res us' IT IH ER1 ES EB].
  - split; [assumption|]. split; [rewrite ER; f_equal; rewrite <- (map_id rs0) at 1; apply map_ext; intros r; cbn; ring|]. split; [reflexivity|]. intros j Hj. lia.
  - destruct (IH FU ER) as (FU1 & ER2 & LH & HH). destruct (residual_step us us' res FU1 ER1 EB) as [FU2 ER3]. rewrite ER1 in ER2. injection ER2 as ->.
    split; [assumption|]. split; [rewrite ER3, map_map; f_equal; apply map_ext; intros r; cbn; ring|]. split; [rewrite app_length; cbn; lia|].
    intros j Hj. destruct (Nat.eq_dec j k) as [->|NE].
    + rewrite app_nth2 by lia. rewrite LH, Nat.sub_diag. reflexivity.
    + rewrite app_nth1 by lia. apply HH. lia.
Qed.
End Affine.
