(** KsFinal.v - from the parameters of the hole to the stored fields. *)
From Coq Require Import Reals Lra Lia Psatz Bool.
From Coquelicot Require Import Coquelicot.
From Verif Require Import RealBase CubedModel CubedAngles LinAlg3Model LinAlg3Spec LinAlg3Proofs GenKsX GenKsR GenKsH GenKsK GenKsG KsSpec KsModel KsCalc KsDR KsDH KsDG KsProofs KsClosed KsMetric KsSplit KsCurve.
From Verif Require CubedSpec.
Local Open Scope R_scope.

(** what fd_KerrSchild_set_params leaves behind *)
Lemma params_ok hs M a chi V P : ks_set_params hs M a chi V = Some P ->
  pM P = M /\ pa P = a /\ pL P = 1 /\ phs P = hs /\
  (ROUND_OFF_ERR <= dot V V -> eq3 (boostv P) V /\ pB2 P = dot (boostv P) (boostv P)) /\
  (dot V V < ROUND_OFF_ERR -> eq3 (boostv P) (v3 0 0 0) /\ pB2 P = / 100000000000000) /\
  (ROUND_OFF_ERR <= sqrt (dot chi chi) -> CubedSpec.not_tiny (chi 0%nat) -> CubedSpec.not_tiny (chi 1%nat) ->
     0 <= pphiy P <= PI /\ 0 <= pphiz P < 2 * PI /\
     eq3 (rotz (pphiz P) (roty (pphiy P) (v3 0 0 1))) (fun i => chi i / sqrt (dot chi chi))) /\
  (dot chi chi = 0 -> pphiy P = 0 /\ pphiz P = 0).
Proof.
  unfold ks_set_params, Pow2.
  change (sqrt (chi 0%nat * chi 0%nat + chi 1%nat * chi 1%nat + chi 2%nat * chi 2%nat)) with (sqrt (dot chi chi)).
  change (V 0%nat * V 0%nat + V 1%nat * V 1%nat + V 2%nat * V 2%nat) with (dot V V).
  destruct (negb (LSSEQL (sqrt (dot chi chi)) 1)) eqn:E0; [discriminate|].
  assert (PV : 0 <= dot V V) by (unfold dot; nra).
  pose proof (sqrt_pos (dot chi chi)) as PC. pose proof ROE_pos as RO.
  destruct (EQL (dot V V) 0) eqn:EV; destruct (EQL (sqrt (dot chi chi)) 0) eqn:EC; cbn [negb];
    intros H; apply (f_equal (fun o => match o with Some x => x | None => P end)) in H; subst P;
    cbn [pM pa pL phs pB2 pphiy pphiz boostv]; unfold boostv; cbn [pBx pBy pBz];
    repeat (split; [reflexivity|]).
  all: apply EQL_iff in EV || apply EQL_false in EV.
  all: rewrite Rminus_0_r, Rabs_pos_eq in EV by lra.
  all: apply EQL_iff in EC || apply EQL_false in EC.
  all: rewrite Rminus_0_r, Rabs_pos_eq in EC by lra.
  all: (split; [intros; try lra; (split; [intros i Hi; destruct i as [|[|[|i]]]; [| | |lia]; reflexivity|reflexivity])|]).
  all: (split; [intros; try lra; (split; [intros i Hi; destruct i as [|[|[|i]]]; [| | |lia]; reflexivity|reflexivity])|]).
  all: split; [intros; try lra|intros Z; try (rewrite Z, sqrt_0 in EC; lra); auto].
  all: pose proof (polar (chi 0%nat) (chi 1%nat) (chi 2%nat)) as Q;
    assert (VN : CubedSpec.vnorm (chi 0%nat, chi 1%nat, chi 2%nat) = sqrt (dot chi chi)) by reflexivity;
    rewrite VN in Q; destruct Q as (Q1 & Q2 & Q3); auto; [lra|]; split; [exact Q1|]; split; [exact Q2|].
  all: unfold CubedSpec.dir_of, CubedSpec.vscale in Q3; cbn [get] in Q3; inversion Q3 as [[A B C]];
    intros i Hi; unfold rotz, roty; destruct i as [|[|[|i]]]; [| | |lia]; cbn [v3];
    [transitivity (/ sqrt (dot chi chi) * chi 0%nat); [rewrite <- A; ring|unfold Rdiv; ring]
    |transitivity (/ sqrt (dot chi chi) * chi 1%nat); [rewrite <- B; ring|unfold Rdiv; ring]
    |transitivity (/ sqrt (dot chi chi) * chi 2%nat); [rewrite <- C; ring|unfold Rdiv; ring]].
Qed.

Lemma radius_exists a X : ~ on_disk a X -> exists r, kerr_radius a X r.
Proof.
  intros H. set (P := mkpar 0 a 0 0 0 0 0 0 0 0).
  set (f := mkarg 0 0 0 (X 0%nat) (X 1%nat) (X 2%nat) 0 0 0 0 0 0 0 0 0 0).
  destruct (code_radius P f H) as [A _]. exists (sqrt (cw2 P f / 2)). exact A.
Qed.
Lemma pos_extv th ph v w x : eq3 v w -> eq3 (hole_position th ph v x) (hole_position th ph w x).
Proof.
  intros H. assert (D : dot v v = dot w w) by (apply dot_ext; auto).
  assert (D' : dot x v = dot x w) by (apply dot_ext; auto; intros i Hi; auto).
  apply eq3_c in H. destruct H as (A & B & C). intros i Hi. unfold hole_position, roty, rotz, rest_position, lorentz.
  cbn [v3]. rewrite D, D', A, B, C. auto.
Qed.
Lemma cov_extv a th ph v w X Y r mu : eq3 v w -> eq3 X Y -> (mu < 4)%nat ->
  hole_covector a th ph v X r mu = hole_covector a th ph w Y r mu.
Proof.
  intros H HX Hm. unfold hole_covector.
  set (K := rotz ph (roty th (kerr_l a X r))). set (K' := rotz ph (roty th (kerr_l a Y r))).
  assert (KE : eq3 K K') by (apply rot_ext, l_ext, HX).
  assert (D : dot v v = dot w w) by (apply dot_ext; auto).
  assert (D' : dot K v = dot K' w) by (apply dot_ext; auto).
  destruct mu as [|i]; unfold lab_time, lab_space, lorentz; rewrite D, D'; auto.
  rewrite (H i), (KE i) by lia. auto.
Qed.
Lemma metric_extv M a th ph v w x r mu nu : eq3 v w -> (mu < 4)%nat -> (nu < 4)%nat ->
  hole_metric M a th ph v x r mu nu = hole_metric M a th ph w x r mu nu.
Proof.
  intros H Hm Hn. unfold hole_metric. pose proof (pos_extv th ph v w x H) as E.
  rewrite (H_ext M a _ _ r E), (cov_extv a th ph v w _ _ r mu H E Hm), (cov_extv a th ph v w _ _ r nu H E Hn). reflexivity.
Qed.

(** the parameters of a hole the code represents exactly: sub-luminal, and either at rest or with
    |V|^2 not below the round-off threshold *)
Definition usable (hs : R) (V : vec) : Prop :=
  0 < hs /\ hs ^ 2 = 1 / 2 /\ dot V V < 1 /\ (dot V V = 0 \/ ROUND_OFF_ERR <= dot V V).
Lemma dot0 V : dot V V = 0 -> eq3 V (v3 0 0 0).
Proof.
  unfold dot. intros H i Hi.
  assert (V 0%nat = 0) by nra. assert (V 1%nat = 0) by nra. assert (V 2%nat = 0) by nra.
  destruct i as [|[|[|i]]]; [| | |lia]; cbn [v3]; auto.
Qed.
Lemma usable_good hs M a chi V P : ks_set_params hs M a chi V = Some P -> usable hs V ->
  good_par P /\ eq3 (boostv P) V /\ pM P = M /\ pa P = a /\
  (dot V V = 0 -> resting_hole P /\ pB2 P = / 100000000000000) /\ (dot V V <> 0 -> moving_hole P).
Proof.
  intros H (H1 & H2 & H3 & H4). destruct (params_ok _ _ _ _ _ _ H) as (EM & Ea & EL & Eh & B1 & B2 & _ & _).
  pose proof ROE_pos as RO.
  assert (PV : 0 <= dot V V) by (unfold dot; nra).
  destruct (Rle_lt_dec ROUND_OFF_ERR (dot V V)) as [L|L].
  - destruct (B1 L) as [E1 E2]. assert (D : dot (boostv P) (boostv P) = dot V V) by (apply dot_ext; auto).
    assert (MH : moving_hole P) by (unfold moving_hole; rewrite E2, D; lra).
    split; [|split; [exact E1|split; [exact EM|split; [exact Ea|split; [lra|auto]]]]].
    split; [left; exact MH|]. rewrite EL, Eh. auto.
  - assert (Z : dot V V = 0) by (destruct H4; lra). destruct (B2 L) as [E1 E2]. pose proof (dot0 V Z) as E3.
    assert (RH : resting_hole P).
    { unfold resting_hole. rewrite E2. split; [lra|]. apply eq3_c in E1. unfold boostv in E1. cbn [v3] in E1. exact E1. }
    split; [|split; [|split; [exact EM|split; [exact Ea|split; [auto|intros; contradiction]]]]].
    + split; [right; exact RH|]. rewrite EL, Eh. auto.
    + intros i Hi. rewrite (E1 i Hi), (E3 i Hi). reflexivity.
Qed.

Theorem metric_kerr hs M a chi V P : ks_set_params hs M a chi V = Some P -> usable hs V ->
  exists th ph,
   (ROUND_OFF_ERR <= sqrt (dot chi chi) -> CubedSpec.not_tiny (chi 0%nat) -> CubedSpec.not_tiny (chi 1%nat) ->
     forall i, (i < 3)%nat -> rotz ph (roty th (v3 0 0 1)) i = chi i / sqrt (dot chi chi)) /\
   forall ctr q, let x := fun i => q i - ctr i in
    ~ on_disk a (hole_position th ph V x) ->
    exists r, kerr_radius a (hole_position th ph V x) r /\
     (forall r', kerr_radius a (hole_position th ph V x) r' -> r' = r) /\
     (forall i j, (i <= j)%nat -> (j < 3)%nat -> ks_metric P ctr q i j = hole_metric M a th ph V x r (S i) (S j)) /\
     (0 <= M -> dot V V <> 0 -> exists ig al be, ks_populate P ctr q = Some (ig, al, be) /\
       (forall i k, (i < 3)%nat -> (k < 3)%nat ->
          Rsum 3 (fun j => hole_metric M a th ph V x r (S i) (S j) * entry (full ig) j k) = kron i k) /\
       0 < al <= 1 /\
       (forall i, (i < 3)%nat -> Rsum 3 (fun j => hole_metric M a th ph V x r (S i) (S j) * be j) = hole_metric M a th ph V x r 0 (S i)) /\
       - al ^ 2 + Rsum 3 (fun i => Rsum 3 (fun j => hole_metric M a th ph V x r (S i) (S j) * be i * be j))
         = hole_metric M a th ph V x r 0 0) /\
     (0 <= M -> dot V V = 0 -> exists ig al be, ks_populate P ctr q = Some (ig, al, be) /\
       (forall i k, (i < 3)%nat -> (k < 3)%nat ->
          Rsum 3 (fun j => hole_metric M a th ph V x r (S i) (S j) * entry (full ig) j k) = kron i k) /\
       (forall i, (i < 3)%nat -> Rsum 3 (fun j => hole_metric M a th ph V x r (S i) (S j) * be j)
          = hole_metric M a th ph V x r 0 (S i) / sqrt (1 - / 100000000000000)) /\
       exists al0, 0 < al0 <= 1 /\ al0 * sqrt (1 - / 100000000000000) <= al <= al0 /\
       (forall b, (forall i, (i < 3)%nat -> Rsum 3 (fun j => hole_metric M a th ph V x r (S i) (S j) * b j) = hole_metric M a th ph V x r 0 (S i)) ->
         - al0 ^ 2 + Rsum 3 (fun i => Rsum 3 (fun j => hole_metric M a th ph V x r (S i) (S j) * b i * b j))
           = hole_metric M a th ph V x r 0 0)).
Proof.
  intros H U. destruct (params_ok _ _ _ _ _ _ H) as (_ & _ & _ & _ & _ & _ & AX & _).
  destruct (usable_good _ _ _ _ _ _ H U) as (G & EB & EM & Ea & RE & MO).
  exists (pphiy P), (pphiz P). split.
  { intros A B C i Hi. destruct (AX A B C) as (_ & _ & Q). apply Q; auto. }
  intros ctr q x ND.
  destruct (radius_exists _ _ ND) as [r Hr]. exists r. split; [exact Hr|]. split; [intros r' Hr'; eapply radius_unique; eauto|].
  assert (HrP : kerr_radius (pa P) (hpos P (sub q ctr)) r).
  { rewrite Ea. eapply radius_ext; [|exact Hr]. unfold hpos. change (sub q ctr) with x.
    intros i Hi. apply pos_extv; auto. intros j Hj. symmetry. auto. }
  assert (ME : forall mu nu, (mu < 4)%nat -> (nu < 4)%nat ->
     hole_metric (pM P) (pa P) (pphiy P) (pphiz P) (boostv P) (sub q ctr) r mu nu = hole_metric M a (pphiy P) (pphiz P) V x r mu nu).
  { intros. rewrite EM, Ea. apply metric_extv; auto. }
  split.
  { intros i j Hi Hj. rewrite (metric_closed P ctr q r G HrP i j Hi Hj). apply ME; lia. }
  split.
  - intros HM HV. destruct (split_moving P ctr q r G HrP (MO HV)) as (ig & al & be & E & I & A & B & C); [lra|].
    exists ig, al, be. split; [exact E|]. split; [|split; [exact A|split]].
    + intros i k Hi Hk. rewrite <- (I i k Hi Hk). unfold Rsum. rewrite !ME by lia. reflexivity.
    + intros i Hi. rewrite <- ME by lia. rewrite <- (B i Hi). unfold Rsum. rewrite !ME by lia. reflexivity.
    + rewrite <- ME by lia. rewrite <- C. unfold Rsum. rewrite !ME by lia. reflexivity.
  - intros HM HV. destruct (RE HV) as [RH EB2].
    destruct (split_resting P ctr q r G HrP RH) as (ig & al & be & E & I & B & al0 & A1 & A2 & A3); [lra|].
    rewrite EB2 in B, A2. exists ig, al, be. split; [exact E|]. split; [|split].
    + intros i k Hi Hk. rewrite <- (I i k Hi Hk). unfold Rsum. rewrite !ME by lia. reflexivity.
    + intros i Hi. rewrite <- ME by lia. rewrite <- (B i Hi). unfold Rsum. rewrite !ME by lia. reflexivity.
    + exists al0. split; [exact A1|]. split; [exact A2|]. intros b Hb. rewrite <- ME by lia. rewrite <- (A3 b).
      * unfold Rsum. rewrite !ME by lia. reflexivity.
      * intros i Hi. rewrite ME by lia. rewrite <- (Hb i Hi). unfold Rsum. rewrite !ME by lia. reflexivity.
Qed.

(** ** derivatives *)
Lemma moved_same P ctr q k : ks_node P ctr (moved q k (q k)) = ks_node P ctr q.
Proof. unfold ks_node, moved. destruct k as [|[|[|k]]]; reflexivity. Qed.
Theorem metric_derivatives hs M a chi V P : ks_set_params hs M a chi V = Some P -> usable hs V ->
  forall ctr q, ~ on_disk a (hole_position (pphiy P) (pphiz P) V (fun i => q i - ctr i)) ->
  forall i j k, (i <= j)%nat -> (j < 3)%nat -> (k < 3)%nat ->
   derivable_pt_lim (fun s => ks_metric P ctr (moved q k s) i j) (q k) (ks_dmetric P ctr q i j k) /\
   (forall l, (l < 3)%nat -> derivable_pt_lim (fun s => ks_dmetric P ctr (moved q k s) i j l) (q k) (ks_ddmetric P ctr q i j l k)) /\
   (forall l m, (l < 3)%nat -> (m < 3)%nat ->
     derivable_pt_lim (fun s => ks_ddmetric P ctr (moved q k s) i j l m) (q k)
      (ks_dddmetric P ctr q i j l m k
       + 2 * ksbug P (ks_node P ctr q) (Nat.min l m) (Nat.max l m) k * kvec P (ks_node P ctr q) i * kvec P (ks_node P ctr q) j)).
Proof.
  intros H U ctr q ND i j k Hi Hj Hk.
  destruct (usable_good _ _ _ _ _ _ H U) as (G & EB & EM & Ea & _ & _).
  set (u := fun s => moved q k s 0%nat - ctr 0%nat). set (v := fun s => moved q k s 1%nat - ctr 1%nat).
  set (w := fun s => moved q k s 2%nat - ctr 2%nat).
  assert (D : forall n, (n < 3)%nat -> is_derive (fun s => moved q k s n - ctr n) (q k) (kron k n)).
  { intros n Hn. unfold moved, kron. rewrite (Nat.eqb_sym k n). destruct (Nat.eqb n k).
    - auto_derive; auto; ring.
    - auto_derive; auto; ring. }
  assert (ND' : ~ on_disk (pa P) (posv (ks_node P ctr q))).
  { intros Q. apply ND. rewrite Ea in Q. eapply disk_ext; [|exact Q]. intros n Hn.
    rewrite (node_pos P ctr q (proj1 G) n Hn). unfold hpos. change (fun i0 => q i0 - ctr i0) with (sub q ctr).
    apply pos_extv; auto. }
  assert (ND'' : ~ on_disk (pa P) (posv (ks_set_args P (u (q k)) (v (q k)) (w (q k))))).
  { change (ks_set_args P (u (q k)) (v (q k)) (w (q k))) with (ks_node P ctr (moved q k (q k))). rewrite moved_same. exact ND'. }
  pose proof (curve_gamma P u v w (q k) k Hk (D 0%nat ltac:(lia)) (D 1%nat ltac:(lia)) (D 2%nat ltac:(lia))) as C.
  specialize (C (proj1 (proj2 (proj2 G))) (off_disk_pos _ _ ND'') i j Hi Hj).
  cbv zeta beta in C. change (ks_set_args P (u (q k)) (v (q k)) (w (q k))) with (ks_node P ctr (moved q k (q k))) in C. rewrite moved_same in C.
  destruct C as (C1 & C2 & C3).
  split; [|split].
  - apply is_derive_Reals. exact C1.
  - intros l Hl. apply is_derive_Reals. exact (C2 l Hl).
  - intros l m Hl Hm. apply is_derive_Reals. exact (C3 l m Hl Hm).
Qed.
