(** EosPwp.v - construction and evaluation of the piecewise polytrope. *)
From Verif Require Import RealBase SpectralDeriv EosModel EosSpec EosProofs.
From Verif Require Base.
Import Base(outcome, Ok, Abort, UB, obind).
Open Scope R_scope.

Lemma fill_ok x0 step F N : (1 <= N)%nat ->
  (forall i v, (1 <= i < N)%nat -> step i v = ret (F i (v (i-1)%nat))) ->
  exists v, fill x0 step N = ret v /\ v O = x0 /\ forall i, (1 <= i < N)%nat -> v i = F i (v (i-1)%nat).
Proof.
  induction N; intros HN Hs; [lia|]. destruct N as [|m]. { exists (fun _ => x0). split; [reflexivity|]. split; auto; lia. }
  destruct IHN as (v & E & H0 & Hv); [lia|intros; apply Hs; lia|].
  change (fill x0 step (S (S m))) with (do v <- fill x0 step (S m); do x <- step (S m) v; ret (put v (S m) x)).
  rewrite E, ret_bind, (Hs (S m)) by lia. rewrite ret_bind. eexists; split; [reflexivity|]. unfold put. split.
  - destruct (Nat.eqb_spec 0 (S m)); [lia|auto].
  - intros i Hi. destruct (Nat.eqb_spec i (S m)) as [->|].
    + destruct (Nat.eqb_spec (S m - 1) (S m)); [lia|]. reflexivity.
    + destruct (Nat.eqb_spec (i-1) (S m)); [lia|]. apply Hv. lia.
Qed.
Lemma rd_ok l i : (i < length l)%nat -> rd l i = ret (nth i l 0).
Proof. intros H. unfold rd. rewrite (nth_error_nth' l 0 H). reflexivity. Qed.
Lemma order_ok rho left : forall i, (1 <= i)%nat -> (i + left <= length rho)%nat ->
  (forall k, (i <= k < i + left)%nat -> nth (k-1) rho 0 <= nth k rho 0) -> order_check rho i left = ret tt.
Proof.
  induction left; intros i Hi Hl H; [reflexivity|]. cbn [order_check]. rewrite !rd_ok by lia. rewrite !ret_bind.
  destruct (GRT (nth (i-1) rho 0) (nth i rho 0)) eqn:E.
  - apply GRT_iff in E. pose proof ROE_pos. specialize (H i ltac:(lia)). lra.
  - apply IHleft; try lia. intros; apply H; lia.
Qed.
Lemma fill_n_ok gamma : (forall i, (i < length gamma)%nat -> 1 + / 1000000000000 <= nth i gamma 0) ->
  exists n, fill_n_from gamma = ret n /\ length n = length gamma /\ forall i, (i < length gamma)%nat -> nth i n 0 = / (nth i gamma 0 - 1).
Proof.
  induction gamma as [|g t IH]; intros H. { exists []. repeat split; auto. cbn; lia. }
  cbn [fill_n_from]. pose proof (H O ltac:(cbn; lia)) as H0. cbn [nth] in H0.
  destruct (EQL (g-1) 0) eqn:E. { apply EQL_iff in E. apply Rabs_def2 in E. unfold ROUND_OFF_ERR in E. lra. }
  rewrite fdiv_some by lra. rewrite lift_bind.
  destruct IH as (n & -> & Hl & Hn). { intros i Hi. apply (H (S i)). cbn; lia. }
  rewrite ret_bind. eexists; split; [reflexivity|]. split; [cbn; lia|]. intros [|i] Hi; cbn [nth].
  - unfold Rdiv. ring.
  - apply Hn. cbn in Hi; lia.
Qed.
(** what populate leaves in the structure *)
Record built (gamma : list R) (K0 : R) (rho : list R) (e : eos) : Prop := mkBuilt {
  b_N : eN e = length gamma;
  b_g : forall i, egamma e i = nth i gamma 0;
  b_r : forall i, erho e i = nth i rho 0;
  b_n : forall i, (i < length gamma)%nat -> en e i = / (nth i gamma 0 - 1);
  b_K0 : eK e 0 = K0;
  b_K : forall i, (1 <= i < length gamma)%nat -> eK e i = eK e (i-1) * Rpower (nth i rho 0) (nth (i-1) gamma 0 - nth i gamma 0);
  b_a0 : ea e 0 = 0;
  b_a : forall i, (1 <= i < length gamma)%nat -> ea e i = ea e (i-1) +
     eK e (i-1) * Rpower (nth i rho 0) (nth (i-1) gamma 0 - 1) / (nth (i-1) gamma 0 - 1) -
     eK e i * Rpower (nth i rho 0) (nth i gamma 0 - 1) / (nth i gamma 0 - 1);
  b_h0 : eh_th e 0 = 1;
  b_h : forall i, (1 <= i < length gamma)%nat -> eh_th e i = 1 + ea e i +
     nth i gamma 0 / (nth i gamma 0 - 1) * eK e i * Rpower (nth i rho 0) (nth i gamma 0 - 1);
  b_f : efatal e = false }.
Lemma rho_pos gamma K0 rho i : good_table gamma K0 rho -> (1 <= i < length gamma)%nat -> 0 < nth i rho 0.
Proof.
  intros (G1 & G2 & G3 & G4 & G5 & G6 & G7). induction i; intros Hi; [lia|]. destruct i as [|i]; auto.
  specialize (IHi ltac:(lia)). specialize (G7 (S i) ltac:(lia) ltac:(lia)). lra.
Qed.
(** what populate really needs: the last threshold is not looked at by the order check *)
Definition loose_table (gamma : list R) (K0 : R) (rho : list R) : Prop :=
  (2 <= length gamma)%nat /\ (length gamma <= length rho)%nat /\
  (forall i, (i < length gamma)%nat -> 1 + / 1000000000000 <= nth i gamma 0) /\
  (forall i, (1 <= i < length gamma)%nat -> 0 < nth i rho 0) /\
  (forall i, (1 <= i)%nat -> (S i < length gamma)%nat -> nth (i-1) rho 0 <= nth i rho 0).
Lemma loose_of gamma K0 rho : good_table gamma K0 rho -> loose_table gamma K0 rho.
Proof.
  intros G. pose proof (fun i => rho_pos gamma K0 rho i G) as RP. destruct G as (G1 & G2 & G3 & G4 & G5 & G6 & G7).
  split; [exact G1|]. split; [exact G2|]. split; [exact G4|]. split; [exact RP|].
  intros k Hk1 Hk2. destruct (Nat.eq_dec k 1) as [->|]; [exact G6|]. specialize (G7 (k-1)%nat ltac:(lia) ltac:(lia)).
  replace (S (k-1)) with k in G7 by lia. lra.
Qed.
Theorem populate_loose gamma K0 rho : loose_table gamma K0 rho -> exists e, populate_pwp gamma K0 rho = ret e /\ built gamma K0 rho e.
Proof.
  intros (G1 & G2 & G4 & RP & G7).
  unfold populate_pwp. cbv zeta. destruct (length gamma) as [|N'] eqn:EN; [lia|]. rewrite <- EN in *. clear EN N'.
  rewrite order_ok; [|lia|lia|].
  2:{ intros k Hk. apply G7; lia. }
  rewrite ret_bind. destruct (fill_n_ok gamma G4) as (n & -> & Hl & Hn). rewrite ret_bind.
  assert (GP : forall i, (i < length gamma)%nat -> nth i gamma 0 - 1 <> 0) by (intros i Hi; specialize (G4 i Hi); lra).
  assert (NP : forall i, (i < length gamma)%nat -> arr n i <> 0).
  { intros i Hi. unfold arr. rewrite Hn by auto. apply Rinv_neq_0_compat. apply GP; auto. }
  destruct (fill_ok K0 (fun i K => do r <- rd rho i; do q <- lift (fdiv (arr n i - arr n (i-1)%nat) (arr n (i-1)%nat * arr n i)); do w <- lift (cpow r q); ret (K (i-1)%nat * w))
     (fun i p => p * Rpower (nth i rho 0) (nth (i-1) gamma 0 - nth i gamma 0)) (length gamma)) as (K & EK & HK0 & HK); [lia| |].
  { intros i v Hi. rewrite rd_ok by lia. rewrite ret_bind, fdiv_some.
    2:{ apply Rmult_integral_contrapositive_currified; apply NP; lia. }
    rewrite lift_bind, cpow_pos by (apply RP; lia). rewrite lift_bind. do 3 f_equal.
    unfold arr. rewrite !Hn by lia. field. split; apply GP; lia. }
  unfold fill_K. rewrite EK, ret_bind.
  match goal with |- context [fill_a ?a ?b ?c ?d] => unfold fill_a end.
  match goal with |- context [fill 0 ?s (length gamma)] => destruct (fill_ok 0 s
     (fun i p => p + K (i-1)%nat * Rpower (nth i rho 0) (nth (i-1) gamma 0 - 1) / (nth (i-1) gamma 0 - 1) -
     K i * Rpower (nth i rho 0) (nth i gamma 0 - 1) / (nth i gamma 0 - 1)) (length gamma)) as (a & Ea & Ha0 & Ha) end; [lia| |].
  { intros i v Hi. rewrite rd_ok by lia. rewrite ret_bind, !cpow_pos by (apply RP; lia). unfold arr. rewrite lift_bind, fdiv_some by (apply GP; lia). rewrite !lift_bind, fdiv_some by (apply GP; lia). reflexivity. }
  rewrite Ea, ret_bind.
  unfold fill_h_th.
  match goal with |- context [fill 1 ?s (length gamma)] => destruct (fill_ok 1 s
     (fun i p => 1 + a i + nth i gamma 0 / (nth i gamma 0 - 1) * K i * Rpower (nth i rho 0) (nth i gamma 0 - 1)) (length gamma)) as (h & Eh & Hh0 & Hh) end; [lia| |].
  { intros i v Hi. rewrite rd_ok by lia. rewrite ret_bind, !cpow_pos by (apply RP; lia). unfold arr. rewrite !fdiv_some by (apply GP; lia). reflexivity. }
  rewrite Eh, ret_bind. eexists; split; [reflexivity|]. constructor; cbn [eN egamma erho en eK ea eh_th efatal]; auto.
Qed.
Theorem populate_built gamma K0 rho : good_table gamma K0 rho -> exists e, populate_pwp gamma K0 rho = ret e /\ built gamma K0 rho e.
Proof. intros G. apply populate_loose. eapply loose_of; eauto. Qed.
Section Built.
  Variables (gamma : list R) (K0 : R) (rho : list R) (e : eos).
  Hypothesis (G : good_table gamma K0 rho) (B : built gamma K0 rho e).
  Local Notation N := (length gamma).
  Local Notation g i := (nth i gamma 0).
  Local Notation r i := (nth i rho 0).
  Lemma g_gt i : (i < N)%nat -> 1 < g i.
  Proof. intros Hi. destruct G as (_ & _ & _ & G4 & _). specialize (G4 i Hi). lra. Qed.
  Lemma n_pos i : (i < N)%nat -> 0 < en e i.
  Proof. intros Hi. rewrite (b_n _ _ _ _ B) by auto. apply Rinv_0_lt_compat. pose proof (g_gt i Hi). lra. Qed.
  Lemma n_g i : (i < N)%nat -> g i = 1 + / en e i.
  Proof. intros Hi. rewrite (b_n _ _ _ _ B) by auto. pose proof (g_gt i Hi). rewrite Rinv_inv. ring. Qed.
  Lemma K_pos i : (i < N)%nat -> 0 < eK e i.
  Proof.
    induction i; intros Hi. { rewrite (b_K0 _ _ _ _ B). apply G. }
    rewrite (b_K _ _ _ _ B) by lia. replace (S i - 1)%nat with i by lia. apply Rmult_lt_0_compat; [apply IHi; lia|apply exp_pos].
  Qed.
  Lemma good_piece i : (i < N)%nat -> piece_good e i. Proof. split; [apply n_pos|apply K_pos]; auto. Qed.
  Lemma r_pos i : (1 <= i < N)%nat -> 0 < r i. Proof. intros; eapply rho_pos; eauto. Qed.
  (** continuity of the constants *)
  Lemma pressure_continuous i : (1 <= i < N)%nat -> eK e (i-1) * Rpower (r i) (g (i-1)) = eK e i * Rpower (r i) (g i).
  Proof.
    intros Hi. rewrite (b_K _ _ _ _ B i Hi). rewrite Rmult_assoc, <- Rpower_plus. do 2 f_equal. ring.
  Qed.
  Lemma Rpower_m1 x y : 0 < x -> Rpower x y = x * Rpower x (y-1).
  Proof. intros. rewrite <- (Rpower_1 x) at 2 by auto. rewrite <- Rpower_plus. f_equal. ring. Qed.
  Lemma pc1 i : (1 <= i < N)%nat -> eK e (i-1) * Rpower (r i) (g (i-1) - 1) = eK e i * Rpower (r i) (g i - 1).
  Proof.
    intros Hi. rewrite (b_K _ _ _ _ B i Hi). rewrite Rmult_assoc, <- Rpower_plus. do 2 f_equal. ring.
  Qed.
  Lemma energy_continuous i : (1 <= i < N)%nat ->
    (1 + ea e (i-1)) * r i + eK e (i-1) * Rpower (r i) (g (i-1)) / (g (i-1) - 1) =
    (1 + ea e i) * r i + eK e i * Rpower (r i) (g i) / (g i - 1).
  Proof.
    intros Hi. rewrite (b_a _ _ _ _ B i Hi). rewrite (Rpower_m1 (r i) (g i)), (Rpower_m1 (r i) (g (i-1))) by (apply r_pos; auto).
    pose proof (g_gt i ltac:(lia)). pose proof (g_gt (i-1) ltac:(lia)). field. split; lra.
  Qed.
  Lemma enthalpy_continuous i : (1 <= i < N)%nat ->
    eh_th e i = 1 + ea e (i-1) + g (i-1) / (g (i-1) - 1) * eK e (i-1) * Rpower (r i) (g (i-1) - 1).
  Proof.
    intros Hi. rewrite (b_h _ _ _ _ B i Hi), (b_a _ _ _ _ B i Hi).
    pose proof (pc1 i Hi) as E. pose proof (g_gt i ltac:(lia)). pose proof (g_gt (i-1) ltac:(lia)).
    set (u := Rpower (r i) (g (i-1) - 1)) in *. set (w := Rpower (r i) (g i - 1)) in *.
    transitivity (1 + ea e (i-1) + eK e (i-1) * u / (g (i-1) - 1) + eK e i * w). { field. lra. }
    rewrite <- E. field. lra.
  Qed.
  Lemma Rpower_incr x y c : 0 < x -> x < y -> 0 < c -> Rpower x c < Rpower y c.
  Proof. intros. unfold Rpower. apply exp_increasing. apply Rmult_lt_compat_l; auto. apply ln_increasing; auto. Qed.
  Lemma h_step i : (1 <= i < N)%nat -> eh_th e (i-1) < eh_th e i.
  Proof.
    intros Hi. rewrite (enthalpy_continuous i Hi). pose proof (g_gt (i-1) ltac:(lia)) as Hg. pose proof (K_pos (i-1) ltac:(lia)) as HK.
    assert (C : 0 < g (i-1) / (g (i-1) - 1) * eK e (i-1)). { apply Rmult_lt_0_compat; auto. apply Rmult_lt_0_compat; [lra|apply Rinv_0_lt_compat; lra]. }
    destruct (Nat.eq_dec i 1) as [->|].
    - change (1-1)%nat with O in *. rewrite (b_h0 _ _ _ _ B), (b_a0 _ _ _ _ B).
      assert (0 < g 0 / (g 0 - 1) * eK e 0 * Rpower (r 1) (g 0 - 1)) by (apply Rmult_lt_0_compat; auto; apply exp_pos). lra.
    - rewrite (b_h _ _ _ _ B (i-1)) by lia. apply Rplus_lt_compat_l. apply Rmult_lt_compat_l; auto.
      apply Rpower_incr; [apply r_pos; lia| |lra]. destruct G as (_ & _ & _ & _ & _ & _ & G7). specialize (G7 (i-1)%nat ltac:(lia) ltac:(lia)).
      replace (S (i-1)) with i in G7 by lia. exact G7.
  Qed.
  Lemma h_incr i j : (i < j)%nat -> (j < N)%nat -> eh_th e i < eh_th e j.
  Proof.
    induction j; intros Hi Hj; [lia|]. pose proof (h_step (S j) ltac:(lia)) as H. replace (S j - 1)%nat with j in H by lia.
    destruct (Nat.eq_dec i j) as [->|]; [exact H|]. specialize (IHj ltac:(lia) ltac:(lia)). lra.
  Qed.
  Lemma h_le i j : (i <= j)%nat -> (j < N)%nat -> eh_th e i <= eh_th e j.
  Proof. intros. destruct (Nat.eq_dec i j) as [->|]; [lra|]. left. apply h_incr; lia. Qed.
  Lemma N2 : (2 <= N)%nat. Proof. apply G. Qed.
  (** which piece is chosen *)
  Definition inside (i : nat) (h : R) : Prop :=
    (i < N)%nat /\ 1 + ROUND_OFF_ERR < h /\ (i <> O -> eh_th e i + ROUND_OFF_ERR < h) /\ ((S i < N)%nat -> h < eh_th e (S i) - ROUND_OFF_ERR).
  Lemma LSSEQL_false x y : y + ROUND_OFF_ERR <= x -> LSSEQL x y = false.
  Proof. intros H. destruct (LSSEQL x y) eqn:E; auto. apply LSSEQL_iff in E. lra. Qed.
  Lemma GRTEQL_false x y : x <= y - ROUND_OFF_ERR -> GRTEQL x y = false.
  Proof. intros H. destruct (GRTEQL x y) eqn:E; auto. apply GRTEQL_iff in E. lra. Qed.
  Lemma find_piece_at i h : inside i h -> forall left j, (1 <= j <= i)%nat -> (S i < N)%nat -> (i < j + left)%nat -> find_piece e h j left = Ok i.
  Proof.
    intros (Hi & H1 & Hlo & Hup). induction left; intros j Hj Hn Hl; [lia|]. cbn [find_piece]. pose proof ROE_pos.
    specialize (Hlo ltac:(lia)). specialize (Hup Hn).
    destruct (Nat.eq_dec j i) as [->|].
    - rewrite (proj2 (GRTEQL_iff h (eh_th e i))) by (split; lra). rewrite (proj2 (LSSEQL_iff h (eh_th e (S i)))) by (split; lra). reflexivity.
    - rewrite (LSSEQL_false h (eh_th e (S j))). 2:{ pose proof (h_le (S j) i ltac:(lia) Hi). lra. }
      rewrite andb_false_r. apply IHleft; lia.
  Qed.
  Lemma find_at i h : inside i h -> find_threshold_number_h e h = Ok i.
  Proof.
    intros Hin. pose proof Hin as (Hi & H1 & Hlo & Hup). pose proof ROE_pos. pose proof N2.
    unfold find_threshold_number_h. rewrite (b_f _ _ _ _ B). cbn [andb]. unfold th. rewrite (b_N _ _ _ _ B).
    destruct (Nat.ltb_spec 1 N); [|lia]. cbn [obind].
    destruct (Nat.eq_dec i 0) as [->|Hz].
    - specialize (Hup ltac:(lia)). rewrite (proj2 (LSSEQL_iff h (eh_th e 1))) by (split; lra). reflexivity.
    - specialize (Hlo Hz). rewrite (LSSEQL_false h (eh_th e 1)). 2:{ pose proof (h_le 1 i ltac:(lia) Hi). lra. }
      destruct (Nat.ltb_spec (N-1) N); [|lia]. cbn [obind].
      destruct (Nat.eq_dec i (N-1)) as [->|Hl].
      + rewrite (proj2 (GRTEQL_iff h (eh_th e (N-1)))) by (split; lra). reflexivity.
      + specialize (Hup ltac:(lia)). rewrite (GRTEQL_false h (eh_th e (N-1))).
        2:{ pose proof (h_le (S i) (N-1) ltac:(lia) ltac:(lia)). lra. }
        apply find_piece_at; auto; lia.
  Qed.
  Lemma x_at_threshold i : (1 <= i < N)%nat -> eh_th e i - 1 - ea e i = (en e i + 1) * eK e i * Rpower (r i) (/ en e i).
  Proof.
    intros Hi. rewrite (b_h _ _ _ _ B i Hi). rewrite (n_g i) by lia. pose proof (n_pos i ltac:(lia)).
    replace (1 + / en e i - 1) with (/ en e i) by ring.
    replace ((1 + / en e i) / / en e i) with (en e i + 1) by (field; lra). ring.
  Qed.
  Lemma x_pos i h : (i < N)%nat -> 1 < h -> (i <> O -> eh_th e i <= h) -> 0 < h - 1 - ea e i.
  Proof.
    intros Hi H1 Hh. destruct (Nat.eq_dec i 0) as [->|Hz]. { rewrite (b_a0 _ _ _ _ B). lra. }
    specialize (Hh Hz). pose proof (x_at_threshold i ltac:(lia)). pose proof (n_pos i Hi). pose proof (K_pos i Hi).
    assert (0 < (en e i + 1) * eK e i * Rpower (r i) (/ en e i)) by (apply Rmult_lt_0_compat; [nra|apply exp_pos]). lra.
  Qed.
  Lemma inside_x i h : inside i h -> 0 < h - 1 - ea e i.
  Proof. intros (Hi & H1 & Hlo & Hup). pose proof ROE_pos. apply x_pos; auto; [lra|]. intros Hz. specialize (Hlo Hz). lra. Qed.
  Lemma inside_open i h : inside i h -> exists eps, 0 < eps /\ forall x, Rabs (x - h) < eps -> inside i x.
  Proof.
    intros (Hi & H1 & Hlo & Hup).
    assert (L : exists e1, 0 < e1 /\ (i <> O -> eh_th e i + ROUND_OFF_ERR + e1 <= h)).
    { destruct (Nat.eq_dec i 0). exists 1; split; [lra|tauto]. specialize (Hlo n). exists (h - (eh_th e i + ROUND_OFF_ERR)); split; intros; lra. }
    assert (U : exists e2, 0 < e2 /\ ((S i < N)%nat -> h + e2 <= eh_th e (S i) - ROUND_OFF_ERR)).
    { destruct (lt_dec (S i) N) as [Hl|]. specialize (Hup Hl). exists (eh_th e (S i) - ROUND_OFF_ERR - h); split; intros; lra. exists 1; split; [lra|lia]. }
    destruct L as (e1 & P1 & L), U as (e2 & P2 & U).
    exists (Rmin (h - (1 + ROUND_OFF_ERR)) (Rmin e1 e2)). split; [repeat apply Rmin_glb_lt; lra|].
    intros x Hx. pose proof (Rmin_l (h - (1 + ROUND_OFF_ERR)) (Rmin e1 e2)). pose proof (Rmin_r (h - (1 + ROUND_OFF_ERR)) (Rmin e1 e2)).
    pose proof (Rmin_l e1 e2). pose proof (Rmin_r e1 e2). apply Rabs_def2 in Hx.
    repeat split; auto; [lra|intros Hz; specialize (L Hz); lra|intros Hz; specialize (U Hz); lra].
  Qed.
  Lemma values_inside i h : inside i h ->
    exists rho0 p en0 e0, EoS_rho0_h_pwp e h = ret rho0 /\ EoS_p_h_pwp e h = ret p /\ EoS_e_h_pwp e h = ret en0 /\ EoS_e0_h_pwp e h = ret e0 /\
      polytrope_at (eK e i) (g i) (ea e i) h rho0 p en0 e0.
  Proof.
    intros Hin. pose proof Hin as (Hi & H1 & _).
    destruct (pwp_at e h i ltac:(lra) (find_at i h Hin) (good_piece i Hi) (inside_x i h Hin)) as (A1 & A2 & A3 & A4 & _).
    do 4 eexists. split; [exact A2|]. split; [exact A1|]. split; [exact A4|]. split; [exact A3|].
    pose proof (piece_all (eK e i) (en e i) (ea e i) (K_pos i Hi) (n_pos i Hi) h (inside_x i h Hin)) as P; rewrite <- (n_g i Hi) in P; exact P.
  Qed.
  Lemma derivs_inside i h : inside i h -> exists rho0 dr de,
    EoS_rho0_h_pwp e h = ret rho0 /\ EoS_drho0_dh_h_pwp e h = ret dr /\ EoS_de_dh_h_pwp e h = ret de /\
    derives (EoS_p_h_pwp e) h rho0 /\ derives (EoS_rho0_h_pwp e) h dr /\ derives (EoS_e_h_pwp e) h de.
  Proof.
    intros Hin. pose proof Hin as (Hi & H1 & _).
    destruct (pwp_at e h i ltac:(lra) (find_at i h Hin) (good_piece i Hi) (inside_x i h Hin)) as (A1 & A2 & A3 & A4 & A5 & A6).
    destruct (inside_open i h Hin) as (eps & Pe & He).
    do 3 eexists. split; [exact A2|]. split; [exact A5|]. split; [exact A6|].
    repeat split; (eexists; split; [exists eps; split; [exact Pe|intros x Hx; specialize (He x Hx); pose proof He as (_ & H1' & _);
      destruct (pwp_at e x i ltac:(lra) (find_at i x He) (good_piece i Hi) (inside_x i x He)) as (C1 & C2 & C3 & C4 & C5 & C6)]|]).
    - exact C1. - apply d_pp; first [apply n_pos; auto|apply inside_x; auto|apply K_pos; auto].
    - exact C2. - apply d_prho; first [apply n_pos; auto|apply inside_x; auto|apply K_pos; auto].
    - exact C4. - apply d_pe; first [apply n_pos; auto|apply inside_x; auto|apply K_pos; auto].
  Qed.
  (** at a threshold the density is the tabulated one, whichever of the two pieces is used *)
  Definition separated : Prop := forall k, (S k < N)%nat -> eh_th e k + ROUND_OFF_ERR < eh_th e (S k).
  Lemma sep_lt i j : separated -> (i < j)%nat -> (j < N)%nat -> eh_th e i + ROUND_OFF_ERR < eh_th e j.
  Proof. intros Hs Hi Hj. pose proof (Hs i ltac:(lia)). pose proof (h_le (S i) j ltac:(lia) Hj). lra. Qed.
  Lemma find_piece_th i : separated -> (2 <= i)%nat -> (S i < N)%nat -> forall left j, (1 <= j <= i-1)%nat -> (i - 1 < j + left)%nat ->
    find_piece e (eh_th e i) j left = Ok (i-1)%nat.
  Proof.
    intros Hs Hi Hn. induction left; intros j Hj Hl; [lia|]. cbn [find_piece]. pose proof ROE_pos.
    destruct (Nat.eq_dec j (i-1)) as [->|].
    - replace (S (i-1)) with i by lia. pose proof (sep_lt (i-1) i Hs ltac:(lia) ltac:(lia)).
      rewrite (proj2 (GRTEQL_iff _ _)) by (split; lra). rewrite (proj2 (LSSEQL_iff _ _)) by (split; lra). reflexivity.
    - rewrite (LSSEQL_false _ (eh_th e (S j))). 2:{ pose proof (sep_lt (S j) i Hs ltac:(lia) ltac:(lia)). lra. }
      rewrite andb_false_r. apply IHleft; lia.
  Qed.
  Lemma find_threshold_exact i : separated -> (1 <= i < N)%nat -> exists j, find_threshold_number_h e (eh_th e i) = Ok j /\ (j = i \/ j = i - 1)%nat.
  Proof.
    intros Hs Hi. pose proof ROE_pos. pose proof N2.
    unfold find_threshold_number_h. rewrite (b_f _ _ _ _ B). cbn [andb]. unfold th. rewrite (b_N _ _ _ _ B).
    destruct (Nat.ltb_spec 1 N); [|lia]. cbn [obind].
    destruct (Nat.eq_dec i 1) as [->|Hi1].
    { rewrite (proj2 (LSSEQL_iff _ _)) by (split; lra). exists O; auto. }
    rewrite (LSSEQL_false _ (eh_th e 1)). 2:{ pose proof (sep_lt 1 i Hs ltac:(lia) ltac:(lia)). lra. }
    destruct (Nat.ltb_spec (N-1) N); [|lia]. cbn [obind].
    destruct (Nat.eq_dec i (N-1)) as [->|Hi2].
    { rewrite (proj2 (GRTEQL_iff _ _)) by (split; lra). exists (N-1)%nat; auto. }
    rewrite (GRTEQL_false _ (eh_th e (N-1))). 2:{ pose proof (sep_lt i (N-1) Hs ltac:(lia) ltac:(lia)). lra. }
    exists (i-1)%nat. split; auto. apply find_piece_th; auto; lia.
  Qed.
  Lemma x_at_threshold' i : (1 <= i < N)%nat -> eh_th e i = 1 + ea e (i-1) + (en e (i-1) + 1) * eK e (i-1) * Rpower (r i) (/ en e (i-1)).
  Proof.
    intros Hi. rewrite enthalpy_continuous by auto. rewrite (n_g (i-1)) by lia. pose proof (n_pos (i-1) ltac:(lia)).
    replace (1 + / en e (i-1) - 1) with (/ en e (i-1)) by ring.
    replace ((1 + / en e (i-1)) / / en e (i-1)) with (en e (i-1) + 1) by (field; lra). ring.
  Qed.
  Lemma values_threshold i : separated -> (1 <= i < N)%nat ->
    exists p en0 e0, EoS_rho0_h_pwp e (eh_th e i) = ret (r i) /\ EoS_p_h_pwp e (eh_th e i) = ret p /\ EoS_e_h_pwp e (eh_th e i) = ret en0 /\ EoS_e0_h_pwp e (eh_th e i) = ret e0 /\
      polytrope_at (eK e i) (g i) (ea e i) (eh_th e i) (r i) p en0 e0 /\
      polytrope_at (eK e (i-1)) (g (i-1)) (ea e (i-1)) (eh_th e i) (r i) p en0 e0.
  Proof.
    intros Hs Hi. destruct (find_threshold_exact i Hs Hi) as (j & Hf & Hj).
    pose proof ROE_pos as RP. pose proof (sep_lt 0 i Hs ltac:(lia) ltac:(lia)) as H1. rewrite (b_h0 _ _ _ _ B) in H1.
    assert (Hjn : (j < N)%nat) by lia.
    assert (Hx : eh_th e i = 1 + ea e j + (en e j + 1) * eK e j * Rpower (r i) (/ en e j)).
    { destruct Hj as [->| ->]; [|apply x_at_threshold'; auto]. pose proof (x_at_threshold i Hi). lra. }
    assert (HX : 0 < eh_th e i - 1 - ea e j). { rewrite Hx. apply piece_x_inv; first [apply K_pos; auto|apply n_pos; auto|apply r_pos; auto]. }
    destruct (pwp_at e (eh_th e i) j ltac:(lra) Hf (good_piece j Hjn) HX) as (A1 & A2 & A3 & A4 & _).
    assert (HR : prho (eK e j) (en e j) (ea e j) (eh_th e i) = r i).
    { rewrite Hx. apply piece_inv; first [apply K_pos; auto|apply n_pos; auto|apply r_pos; auto]. }
    pose proof (piece_all (eK e j) (en e j) (ea e j) (K_pos j Hjn) (n_pos j Hjn) _ HX) as P. rewrite <- (n_g j Hjn), HR in P.
    rewrite HR in A2, A4.
    assert (SW : forall p en0 e0, polytrope_at (eK e j) (g j) (ea e j) (eh_th e i) (r i) p en0 e0 ->
      polytrope_at (eK e i) (g i) (ea e i) (eh_th e i) (r i) p en0 e0 /\ polytrope_at (eK e (i-1)) (g (i-1)) (ea e (i-1)) (eh_th e i) (r i) p en0 e0).
    { intros p en0 e0 (P1 & P2 & P3 & P4 & P5). pose proof (pressure_continuous i Hi) as PC. pose proof (energy_continuous i Hi) as EC.
      destruct Hj as [->| ->]; split; repeat split; auto.
      - rewrite PC; auto. - rewrite P3, P2. rewrite <- EC, PC. reflexivity.
      - rewrite <- PC; auto. - rewrite P3, P2. rewrite EC, <- PC. reflexivity. }
    destruct (SW _ _ _ P) as [Q1 Q2].
    do 3 eexists. repeat (split; [eassumption|]). eassumption.
  Qed.
  (** the search fails only at a threshold plus or minus the round-off constant *)
  Lemma find_piece_total h : (forall k, (1 <= k < N)%nat -> h <> eh_th e k + ROUND_OFF_ERR /\ h <> eh_th e k - ROUND_OFF_ERR) ->
    forall left j, (1 <= j)%nat -> (j + left = N - 1)%nat -> eh_th e j - ROUND_OFF_ERR < h -> h < eh_th e (N-1) + ROUND_OFF_ERR -> (1 <= left)%nat ->
    exists i, find_piece e h j left = Ok i /\ (1 <= i)%nat /\ (S i < N)%nat /\ eh_th e i - ROUND_OFF_ERR < h /\ h < eh_th e (S i) + ROUND_OFF_ERR.
  Proof.
    intros Hne. induction left; intros j Hj Hl Hlo Hup H1; [lia|]. cbn [find_piece]. pose proof ROE_pos.
    destruct (Hne j ltac:(lia)) as [N1 N2']. destruct (Hne (S j) ltac:(lia)) as [N3 N4].
    rewrite (proj2 (GRTEQL_iff h (eh_th e j))) by (split; lra). cbn [andb].
    destruct (Rlt_dec h (eh_th e (S j) + ROUND_OFF_ERR)) as [L|L].
    - rewrite (proj2 (LSSEQL_iff h (eh_th e (S j)))) by (split; lra). exists j. repeat split; auto; lia.
    - rewrite LSSEQL_false by lra. destruct left as [|left].
      + replace (S j) with (N-1)%nat in L by lia. lra.
      + apply IHleft; try lia; lra.
  Qed.
  Lemma find_total h : (forall k, (1 <= k < N)%nat -> h <> eh_th e k + ROUND_OFF_ERR /\ h <> eh_th e k - ROUND_OFF_ERR) ->
    exists i, find_threshold_number_h e h = Ok i /\ (i < N)%nat /\ (i = O \/ eh_th e i - ROUND_OFF_ERR < h) /\ ((S i < N)%nat -> h < eh_th e (S i) + ROUND_OFF_ERR).
  Proof.
    intros Hne. pose proof ROE_pos. pose proof N2.
    unfold find_threshold_number_h. rewrite (b_f _ _ _ _ B). cbn [andb]. unfold th. rewrite (b_N _ _ _ _ B).
    destruct (Nat.ltb_spec 1 N); [|lia]. cbn [obind].
    destruct (Hne 1%nat ltac:(lia)) as [N1 N2']. destruct (Hne (N-1)%nat ltac:(lia)) as [N3 N4].
    destruct (Rlt_dec h (eh_th e 1 + ROUND_OFF_ERR)) as [L|L].
    { rewrite (proj2 (LSSEQL_iff h (eh_th e 1))) by (split; lra). exists O. repeat split; auto; lia. }
    rewrite LSSEQL_false by lra. destruct (Nat.ltb_spec (N-1) N); [|lia]. cbn [obind].
    destruct (Rlt_dec (eh_th e (N-1) - ROUND_OFF_ERR) h) as [L2|L2].
    { rewrite (proj2 (GRTEQL_iff h (eh_th e (N-1)))) by (split; lra). exists (N-1)%nat. repeat split; try lia. right; auto. }
    rewrite GRTEQL_false by lra.
    destruct (Nat.eq_dec N 2) as [E2|].
    { exfalso. rewrite E2 in L2. change (2-1)%nat with 1%nat in L2. lra. }
    destruct (find_piece_total h Hne (N-2) 1 ltac:(lia) ltac:(lia) ltac:(lra) ltac:(lra) ltac:(lia)) as (i & -> & I1 & I2 & I3 & I4).
    exists i. repeat split; auto; lia.
  Qed.
End Built.
