(** KsProofs.v - the closed forms: coordinates, radius, null vector, metric. *)
From Coq Require Import Reals Lra Lia Psatz.
From Verif Require Import RealBase LinAlg3Model GenKsX GenKsR GenKsH GenKsK GenKsG KsSpec KsModel KsDR KsDG.
Local Open Scope R_scope.

Definition boostv (P : kspar) : vec := v3 (pBx P) (pBy P) (pBz P).
(** B2 is the square of the velocity and the hole is slower than light *)
Definition moving_hole (P : kspar) : Prop := 0 < pB2 P < 1 /\ pB2 P = dot (boostv P) (boostv P).
(** no velocity; B2 is the small number fd_KerrSchild_set_params puts there *)
Definition resting_hole (P : kspar) : Prop :=
  0 < pB2 P < 1 /\ pBx P = 0 /\ pBy P = 0 /\ pBz P = 0.

Definition posv (f : ksarg) : vec := v3 (fX f) (fY f) (fZ f).

Lemma s_facts b : 0 < b < 1 -> 0 < sqrt (1 - b) /\ sqrt (1 - b) ^ 2 = 1 - b.
Proof. intros H. split; [apply sqrt_lt_R0; lra|]. rewrite <- Rsqr_pow2. apply Rsqr_sqrt. lra. Qed.

Lemma position_moving P x y z : moving_hole P ->
  forall i, (i < 3)%nat -> posv (ks_set_args P x y z) i =
    hole_position (pphiy P) (pphiz P) (boostv P) (v3 x y z) i.
Proof.
  intros [B E] i Hi. destruct (s_facts _ B) as [S1 S2].
  unfold hole_position, rest_position, lorentz. rewrite <- E. unfold dot, boostv in *.
  cbn [v3] in *. unfold roty, rotz. rewrite !cos_neg, !sin_neg. 
  assert (F : pBx P ^ 2 = 1 - sqrt (1 - pB2 P) ^ 2 - pBy P ^ 2 - pBz P ^ 2) by nra.
  assert (G : pB2 P = 1 - sqrt (1 - pB2 P) ^ 2) by lra.
  assert (N : 1 - sqrt (1 - pB2 P) ^ 2 <> 0) by lra.
  cbn [v3].
  destruct i as [|[|[|i]]]; [| | |lia]; unfold posv; cbn [v3 ks_set_args fX fY fZ]; unfold ks_X, ks_Y, ks_Z; cbn [fx fy fz];
  revert F G N S1; generalize (sqrt (1 - pB2 P)); intros s F G N S1; rewrite G; clear - F N S1;
  generalize dependent (pBx P); intros Bx F; generalize dependent (pBy P); intros; generalize dependent (pBz P); intros;
  (field [F]; repeat split; try lra; try exact N;
   match goal with |- ?e <> 0 => replace e with ((1 - s ^ 2) * s ^ 2) by ring [F] end;
   apply Rmult_integral_contrapositive_currified; [exact N|apply pow_nonzero; lra]).
Qed.
Lemma position_resting P x y z : resting_hole P ->
  forall i, (i < 3)%nat -> posv (ks_set_args P x y z) i =
    hole_position (pphiy P) (pphiz P) (boostv P) (v3 x y z) i.
Proof.
  intros (B & E1 & E2 & E3) i Hi. destruct (s_facts _ B) as [S1 S2].
  unfold hole_position, rest_position, lorentz, dot, boostv in *. rewrite E1, E2, E3.
  unfold roty, rotz. rewrite !cos_neg, !sin_neg. cbn [v3].
  destruct i as [|[|[|i]]]; [| | |lia]; unfold posv; cbn [v3 ks_set_args fX fY fZ]; unfold ks_X, ks_Y, ks_Z; cbn [fx fy fz];
  rewrite E1, E2, E3; revert B S1; generalize (sqrt (1 - pB2 P)) (pB2 P); intros s b B S1; clear - B S1;
  unfold Rdiv at 2 3 4; rewrite ?Rmult_0_r;
  (field; repeat split; try lra;
   match goal with |- ?e <> 0 => replace e with (b * s) by ring end;
   apply Rmult_integral_contrapositive_currified; lra).
Qed.

(** ** the null covector *)
Definition Kvec (P : kspar) (f : ksarg) : vec := v3 (ks_K0 P f) (ks_K1 P f) (ks_K2 P f).
Lemma covector_moving P f : moving_hole P ->
  ks_kt P f = lab_time (boostv P) (rotz (pphiz P) (roty (pphiy P) (Kvec P f))) /\
  forall i, (i < 3)%nat -> kvec P f i = lab_space (boostv P) (rotz (pphiz P) (roty (pphiy P) (Kvec P f))) i.
Proof.
  intros [B E]. destruct (s_facts _ B) as [S1 S2].
  unfold lab_time, lab_space, lorentz. rewrite <- E. unfold dot, boostv in *. unfold Kvec, roty, rotz.
  cbn [v3] in *.
  assert (F : pBx P ^ 2 = 1 - sqrt (1 - pB2 P) ^ 2 - pBy P ^ 2 - pBz P ^ 2) by nra.
  assert (G : pB2 P = 1 - sqrt (1 - pB2 P) ^ 2) by lra.
  assert (N : 1 - sqrt (1 - pB2 P) ^ 2 <> 0) by lra.
  split; [|intros i Hi; destruct i as [|[|[|i]]]; [| | |lia]]; cbn [kvec v3]; unfold ks_kt, ks_k0, ks_k1, ks_k2;
  revert F G N S1; generalize (sqrt (1 - pB2 P)); intros s F G N S1; rewrite ?G; clear - F N S1;
  generalize (ks_K0 P f) (ks_K1 P f) (ks_K2 P f); intros;
  generalize dependent (pBx P); intros Bx F; generalize dependent (pBy P); intros; generalize dependent (pBz P); intros;
  (field [F]; repeat split; try lra; try exact N).
Qed.
Lemma lab_space_rest K i : (i < 3)%nat -> lab_space (v3 0 0 0) K i = K i.
Proof. intros Hi. unfold lab_space. destruct i as [|[|[|i]]]; [| | |lia]; cbn [v3]; rewrite !Rmult_0_r; ring. Qed.
Lemma covector_resting P f : resting_hole P ->
  ks_kt P f = 1 / sqrt (1 - pB2 P) /\
  forall i, (i < 3)%nat -> kvec P f i = lab_space (boostv P) (rotz (pphiz P) (roty (pphiy P) (Kvec P f))) i.
Proof.
  intros (B & E1 & E2 & E3). destruct (s_facts _ B) as [S1 S2]. unfold boostv. rewrite E1, E2, E3.
  split; [|intros i Hi; rewrite lab_space_rest by exact Hi; destruct i as [|[|[|i]]]; [| | |lia]];
  unfold Kvec, roty, rotz; cbn [kvec v3]; unfold ks_kt, ks_k0, ks_k1, ks_k2;
  rewrite E1, E2, E3; revert B S1; generalize (sqrt (1 - pB2 P)) (pB2 P); intros s b B S1; clear - B S1;
  generalize (ks_K0 P f) (ks_K1 P f) (ks_K2 P f); intros; (field; repeat split; lra).
Qed.
