(** SpectralFinal.v - the collected statements behind Props_Spectral.v. *)
From Verif Require Import RealBase TrigSums SpectralModel SpectralSpec ChebProofs SpectralProofs SpectralDeriv FuncDerivModel FuncDerivProofs.
From Verif Require Base.
Import Base(outcome, Ok, Abort, UB, obind).
Open Scope R_scope.

Lemma sum_cos_all :
  (forall N a, (a = 0 \/ a = 2*PI \/ forall k : Z, a <> IZR k * (2 * PI)) ->
     (a = 0 \/ /1000000000000 <= Rabs a) -> (a = 2*PI \/ /1000000000000 <= Rabs (a - 2*PI)) ->
     sum_1_N_cos_ia N a = Some (Rsum N (fun i => cos (INR (S i) * a)))) /\
  (forall N a, Rabs a < /1000000000000 \/ Rabs (a - 2*PI) < /1000000000000 -> sum_1_N_cos_ia N a = Some (INR N)).
Proof.
  split.
  - intros N a H. apply sum_cos_exact. tauto.
  - exact sum_cos_window.
Qed.
Lemma interp_all : forall mn mx n, mn < mx -> (2 <= n)%nat -> forall v : nat -> R, exists p : list R,
  length p = n /\
  (forall j, (j < n)%nat -> peval p (point_extrema mn mx n j) = v j) /\
  (forall q, (length q <= n)%nat -> (forall j, (j < n)%nat -> peval q (point_extrema mn mx n j) = v j) -> forall x, mn <= x <= mx -> peval q (clip mn mx x) = peval p (clip mn mx x)) /\
  (forall pt, mn <= pt <= mx -> interpolation_Chebyshev_Tn mn mx n v pt = Some (peval p (clip mn mx pt))).
Proof.
  intros mn mx n Hm Hn v. destruct (through_extrema mn mx n v Hn Hm) as (p & Hl & Hp). exists p.
  split; auto. split; [intros; symmetry; auto|]. split.
  - intros q Hq Hqv x Hx.
    pose proof (interp_poly mn mx n v q x Hn Hm Hx Hq (fun j Hj => eq_sym (Hqv j Hj))) as E1.
    pose proof (interp_poly mn mx n v p x Hn Hm Hx (eq_ind_r (fun z => (z <= n)%nat) (le_n n) Hl) Hp) as E2.
    rewrite E1 in E2. congruence.
  - intros pt Hpt. apply interp_poly; auto. lia.
Qed.
Lemma clip_end mn mx : mn < mx -> clip mn mx mn = mn /\ clip mn mx mx = mx.
Proof.
  intros. unfold clip. rewrite !Rminus_eq_0, Rabs_R0. split.
  - destruct (Rlt_dec 0 _) as [|N]; auto. exfalso. apply N. lra.
  - destruct (Rlt_dec (Rabs (mx - mn)) _) as [L|]. { rewrite Rabs_pos_eq in L by lra. lra. }
    destruct (Rlt_dec 0 _) as [|N]; auto.
Qed.
Lemma clip_at_points mn mx n j : mn < mx -> (2 <= n)%nat -> INR n <= 500000 -> (j < n)%nat ->
  clip mn mx (point_extrema mn mx n j) = point_extrema mn mx n j.
Proof.
  intros Hm Hn Hb Hj. pose proof (good_extrema n j Hn Hb Hj) as G.
  assert (E : point_extrema mn mx n j = (mn - mx)/2 * colloc_extrema n j + (mn+mx)/2) by (apply point_colloc_extrema; auto).
  set (c := colloc_extrema n j) in *. destruct G as (Hc & G1 & G2).
  destruct G1 as [Z|G1]. { replace (point_extrema mn mx n j) with mn by (rewrite E, Z; field). apply clip_end; auto. }
  destruct G2 as [Z|G2]. { replace (point_extrema mn mx n j) with mx by (rewrite E, Z; field). apply clip_end; auto. }
  rewrite E. unfold clip. fold ROUND_OFF_ERR.
  rewrite Rabs_left1 in G1 by lra. rewrite Rabs_pos_eq in G2 by lra.
  destruct (Rlt_dec _ _) as [L|_]. { rewrite Rabs_pos_eq in L by nra. nra. }
  destruct (Rlt_dec _ _) as [L|_]. { rewrite Rabs_left1 in L by nra. nra. }
  reflexivity.
Qed.
Lemma interp_at_points mn mx n v j : mn < mx -> (2 <= n)%nat -> INR n <= 500000 -> (j < n)%nat ->
  interpolation_Chebyshev_Tn mn mx n v (point_extrema mn mx n j) = Some (v j).
Proof.
  intros Hm Hn Hb Hj. destruct (interp_all mn mx n Hm Hn v) as (p & _ & Hp & _ & Hi).
  rewrite Hi.
  - rewrite clip_at_points by auto. f_equal. auto.
  - pose proof (good_extrema n j Hn Hb Hj) as (Hc & _). rewrite point_colloc_extrema by auto. nra.
Qed.
Lemma deriv1_all :
  (forall mn mx n v p i, mn < mx -> (2 <= n)%nat -> INR n <= 500000 -> (length p <= n)%nat -> (i < n)%nat ->
    (forall j, (j < n)%nat -> v j = peval p (point_extrema mn mx n j)) ->
    exists D, partial_derivative_extrema mn mx n v = Some D /\ derivable_pt_lim (peval p) (point_extrema mn mx n i) (D i)) /\
  (forall mn mx n v p i, mn < mx -> (1 <= n)%nat -> INR n <= 500000 -> (length p <= n)%nat -> (i < n)%nat ->
    (forall j, (j < n)%nat -> v j = peval p (point_nodes mn mx n j)) ->
    exists D, partial_derivative_nodes mn mx n v = Some D /\ derivable_pt_lim (peval p) (point_nodes mn mx n i) (D i)) /\
  (forall mn mx n v, mn < mx -> (2 <= n)%nat -> exists p, length p = n /\ forall j, (j < n)%nat -> v j = peval p (point_extrema mn mx n j)) /\
  (forall mn mx n v, mn < mx -> (1 <= n)%nat -> exists p, length p = n /\ forall j, (j < n)%nat -> v j = peval p (point_nodes mn mx n j)).
Proof.
  split; [|split; [|split]]; intros.
  - apply deriv1_extrema; auto.
  - apply deriv1_nodes; auto.
  - apply through_extrema; auto.
  - apply through_nodes; auto.
Qed.
Lemma deriv2_all :
  (forall mn mx n v p i, mn < mx -> (2 <= n <= 216)%nat -> (length p <= n)%nat -> (i < n)%nat ->
    (forall j, (j < n)%nat -> v j = peval p (point_extrema mn mx n j)) ->
    exists d, partial_derivative2_extrema mn mx n v i = Ok (Some d) /\ second_derivative_at (peval p) (point_extrema mn mx n i) d) /\
  (forall mn mx n v p i, mn < mx -> (1 <= n)%nat -> INR n <= 500000 -> (length p <= n)%nat -> (i < n)%nat ->
    (forall j, (j < n)%nat -> v j = peval p (point_nodes mn mx n j)) ->
    exists d, partial_derivative2_nodes mn mx n v i = Ok (Some d) /\ second_derivative_at (peval p) (point_nodes mn mx n i) d).
Proof. split; intros; [apply deriv2_extrema|apply deriv2_nodes]; auto. Qed.
Lemma fd_all :
  (forall N j q p, (2 <= N)%nat -> INR N <= 500000 -> (j < N)%nat -> -1 <= q <= 1 ->
    apart (acos q) (INR j * PI / INR (N-1)) -> (length p <= N)%nat ->
    (forall k, (k < N)%nat -> peval p (cos (INR k * PI / INR (N-1))) = if Nat.eqb k j then 1 else 0) ->
    sum_0_N_dCi_dfj_by_Ti_q N j q = Ok (Some (peval p q))) /\
  (forall N j q p, (2 <= N <= 1025)%nat -> (j < N)%nat -> -1 <= q <= 1 -> apart q 1 -> apart q (-1) ->
    apart (acos q) (INR j * PI / INR (N-1)) -> (length p <= N)%nat ->
    (forall k, (k < N)%nat -> peval p (cos (INR k * PI / INR (N-1))) = if Nat.eqb k j then 1 else 0) ->
    exists d, sum_0_N_dCi_dfj_by_dTi_dq N j q = Ok (Some d) /\ derivable_pt_lim (peval p) q d) /\
  (forall N j, (2 <= N)%nat -> exists p, length p = N /\
    (forall k, (k < N)%nat -> peval p (cos (INR k * PI / INR (N-1))) = if Nat.eqb k j then 1 else 0)) /\
  (forall N j q, (N <= j)%nat \/ q < -1 \/ 1 < q -> sum_0_N_dCi_dfj_by_Ti_q N j q = Abort /\ sum_0_N_dCi_dfj_by_dTi_dq N j q = Abort).
Proof.
  split; [exact fd_value_poly|]. split; [exact fd_deriv_poly|]. split; [exact card_exists|].
  intros N j q H. unfold sum_0_N_dCi_dfj_by_Ti_q, sum_0_N_dCi_dfj_by_dTi_dq.
  destruct (ltR_spec q (-1)); [split; reflexivity|]. destruct (ltR_spec 1 q); [split; reflexivity|]. cbn [orb].
  destruct (Nat.leb_spec N j); [split; reflexivity|]. exfalso. destruct H as [H|[H|H]]; [lia|lra|lra].
Qed.
Lemma ex_apart : apart (acos 0) (INR 1 * PI / INR (3-1)) /\ apart 0 1 /\ apart 0 (-1).
Proof.
  split; [|split].
  - left. rewrite acos_0. change (INR 1) with 1. change (INR (3-1)) with (1+1). field.
  - right. rewrite Rabs_left; unfold ROUND_OFF_ERR; lra.
  - right. rewrite Rabs_pos_eq; unfold ROUND_OFF_ERR; lra.
Qed.
Lemma ex_poly : length [1; 2; 3] = 3%nat /\ peval [1; 2; 3] 2 = 17.
Proof. split; [reflexivity|cbn; ring]. Qed.
Lemma ex_size : INR 40 <= 500000.
Proof. rewrite INR_IZR_INZ. apply IZR_le. lia. Qed.
Lemma ex_angle : (forall k : Z, PI <> IZR k * (2 * PI)) /\ /1000000000000 <= Rabs PI /\ /1000000000000 <= Rabs (PI - 2*PI).
Proof.
  pose proof PI2_3_2. pose proof PI_RGT_0. split; [apply not_mult; lra|]. split.
  - rewrite Rabs_pos_eq; lra. - rewrite Rabs_left; lra.
Qed.
