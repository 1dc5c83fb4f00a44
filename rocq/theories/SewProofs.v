(** SewProofs.v - the blocks F and C are the matrix of the interface equations g. *)
From Coq Require Import Ring.
From Verif Require Import Base TextModel MatrixModel MatrixSpec MatrixProofs MatrixConvert MatrixRead SchurModel SchurSpec SchurProofs SchurPieces SchurFinal SchurExact SewModel SewSpec.
Open Scope nat_scope.
Notation length := List.length.

Section Sew.
Context {F : Type} (zero one : F) (add mul sub : F -> F -> F) (opp : F -> F).
Context (RT : ring_theory zero one add mul sub opp (@eq F)).
Add Ring FR : RT.
Context (pd : nat -> nat -> list F -> list F) (interp : nat -> sface F -> nat -> list F -> F)
        (d2f : nat -> nat -> nat -> nat -> F) (dinterp : nat -> sface F -> nat -> nat -> nat -> F).
Notation sumF := (sumF zero add).
Notation ent := (ent zero).
Notation entry := (entry zero).
Notation mone := (mone one opp).
Notation ndot := (ndot add mul).
Notation Sext := (sumF_ext zero add).

Definition delta (a b : nat) : F := if a =? b then one else zero.
Definition N0 : F * F * F := (zero, zero, zero).

(** the functional that the s-th point of subface sf (owned by q) puts on the field of patch p *)
Definition coef (p q : nat) (sf : sface F) (s j : nat) : F :=
  let n := if p =? q then nth s (f_id sf) 0 else nth s (f_adjid sf) 0 in
  let N := nth s (f_N sf) N0 in
  if f_touch sf && f_copy sf then
    if f_dn sf then mul (if p =? q then mone else one) (ndot N (d2f p 0 n j) (d2f p 1 n j) (d2f p 2 n j))
    else mul (if p =? q then one else mone) (delta n j)
  else
    if p =? q then
      if f_dn sf then mul mone (ndot N (d2f p 0 n j) (d2f p 1 n j) (d2f p 2 n j)) else delta n j
    else
      if f_dn sf then mul one (ndot N (dinterp p sf 1 s j) (dinterp p sf 2 s j) (dinterp p sf 3 s j)) else mul mone (dinterp p sf 0 s j).

Lemma sumF_delta n m h : m < n -> sumF n (fun j => mul (delta m j) (h j)) = h m.
Proof.
  intros Hm. replace n with (m + S (n - S m)) by lia. rewrite (sumF_app zero one add mul sub opp RT).
  rewrite (sumF_zero zero one add mul sub opp RT m).
  2: { intros k Hk. unfold delta. destruct (Nat.eqb_spec m k); [lia|ring]. }
  change (S (n - S m)) with (1 + (n - S m)). rewrite (sumF_app zero one add mul sub opp RT).
  rewrite (sumF_zero zero one add mul sub opp RT (n - S m)).
  2: { intros k Hk. unfold delta. destruct (Nat.eqb_spec m (m + (1 + k))); [lia|ring]. }
  unfold SchurSpec.sumF. cbn [seq fold_left]. rewrite Nat.add_0_r. unfold delta. rewrite Nat.eqb_refl. ring.
Qed.

Lemma sum_ndot n N (a b c : nat -> F) u sg :
  sumF n (fun j => mul (mul sg (ndot N (a j) (b j) (c j))) (u j)) =
  mul sg (ndot N (sumF n (fun j => mul (a j) (u j))) (sumF n (fun j => mul (b j) (u j))) (sumF n (fun j => mul (c j) (u j)))).
Proof.
  destruct N as [[x y] z]. unfold SewModel.ndot.
  rewrite !(sumF_mul_l zero one add mul sub opp RT), <- !(sumF_add zero one add mul sub opp RT), (sumF_mul_l zero one add mul sub opp RT).
  apply Sext. intros j _. ring.
Qed.

(** ** the partial g's *)
Lemma omap_seq {A} (f : nat -> outcome A) (g : nat -> A) n : (forall s, s < n -> f s = Ok (g s)) ->
  omap f (seq 0 n) = Ok (map g (seq 0 n)).
Proof. intros H. apply omap_ok. intros a Ha. apply in_seq in Ha. apply H. lia. Qed.
Lemma nth_map_seq (g : nat -> F) n s : s < n -> nth s (map g (seq 0 n)) zero = g s.
Proof.
  intros H. rewrite (nth_indep _ zero (g 0)) by (rewrite map_length, seq_length; assumption). rewrite (map_nth g), seq_nth by assumption. reflexivity.
Qed.

Definition face_ready (p q nnp : nat) (sf : sface F) : Prop :=
  f_exterF sf = true /\ is_interface sf = true /\ (f_dn sf = true -> length (f_id sf) <= length (f_N sf)) /\
  (p = q -> Forall (fun i => i < nnp) (f_id sf)) /\
  (p <> q -> f_touch sf && f_copy sf = true -> length (f_id sf) <= length (f_adjid sf) /\ Forall (fun i => i < nnp) (f_adjid sf)).

Lemma pg_ok p q u sf nn : jacobians_match zero add mul pd interp d2f dinterp p nn -> length u = nn -> face_ready p q nn sf ->
  exists g, make_pg zero one add mul opp pd interp p q u sf = Ok g /\ length g = length (f_id sf) /\
    forall s, s < length (f_id sf) -> nth s g zero = sumF nn (fun j => mul (coef p q sf s j) (ent u j)).
Proof.
  intros JM Lu (EX & IF & HN & HO & HA). destruct (JM u Lu) as (LP & DP & IP & DI).
  unfold is_interface in IF. apply andb_true_iff in IF. destruct IF as [I1 I2]. apply negb_true_iff in I1, I2.
  unfold make_pg. rewrite EX, I1, I2. cbn [negb].
  enough (exists h, (if f_touch sf && f_copy sf then pg_collocation zero one add mul opp pd p q u sf else pg_interpolation zero one add mul opp pd interp p q u sf) =
     Ok (map h (seq 0 (length (f_id sf)))) /\ forall s, s < length (f_id sf) -> h s = sumF nn (fun j => mul (coef p q sf s j) (ent u j))) as (h & E & H).
  { exists (map h (seq 0 (length (f_id sf)))). split; [exact E|]. split; [rewrite map_length, seq_length; reflexivity|].
    intros s Hs. rewrite nth_map_seq by assumption. apply H. assumption. }
  set (np := length (f_id sf)) in *.
  destruct (f_touch sf && f_copy sf) eqn:TC.
  - unfold pg_collocation. fold np. set (node := if p =? q then f_id sf else f_adjid sf).
    assert (HNode : np <= length node /\ forall s, s < np -> nth s node 0 < nn).
    { unfold node. destruct (Nat.eqb_spec p q) as [E|E].
      - specialize (HO E). rewrite Forall_forall in HO. split; [reflexivity|]. intros s Hs. apply HO. apply nth_In. assumption.
      - destruct (HA E eq_refl) as [L B]. rewrite Forall_forall in B. split; [assumption|]. intros s Hs. apply B. apply nth_In. lia. }
    destruct HNode as [LN BN]. destruct (f_dn sf) eqn:DN.
    + eexists. split.
      { apply (omap_seq _ (fun s => add zero (mul (if p =? q then mone else one) (ndot (nth s (f_N sf) N0) (ent (pd p 0 u) (nth s node 0)) (ent (pd p 1 u) (nth s node 0)) (ent (pd p 2 u) (nth s node 0)))))).
        intros s Hs. specialize (HN eq_refl). rewrite (rd_nth (f_N sf) s N0) by lia. cbn [obind]. rewrite (rd_nth node s 0) by lia. cbn [obind].
        specialize (BN s Hs). rewrite !(rd_nth _ (nth s node 0) zero) by (rewrite LP; lia). reflexivity. }
      intros s Hs. cbv beta. rewrite !DP by (lia || apply BN; assumption). unfold coef. rewrite TC, DN.
      replace (if p =? q then nth s (f_id sf) 0 else nth s (f_adjid sf) 0) with (nth s node 0) by (unfold node; destruct (p =? q); reflexivity).
      rewrite sum_ndot. ring.
    + eexists. split.
      { apply (omap_seq _ (fun s => add zero (mul (if p =? q then one else mone) (ent u (nth s node 0))))).
        intros s Hs. rewrite (rd_nth node s 0) by lia. cbn [obind]. specialize (BN s Hs). rewrite (rd_nth u _ zero) by lia. reflexivity. }
      intros s Hs. cbv beta. unfold coef. rewrite TC, DN.
      replace (if p =? q then nth s (f_id sf) 0 else nth s (f_adjid sf) 0) with (nth s node 0) by (unfold node; destruct (p =? q); reflexivity).
      rewrite (Sext nn _ (fun j => mul (delta (nth s node 0) j) (mul (if p =? q then one else mone) (ent u j)))) by (intros; ring).
      rewrite sumF_delta by (apply BN; assumption). ring.
  - unfold pg_interpolation. fold np. destruct (Nat.eqb_spec p q) as [E|E].
    + specialize (HO E). rewrite Forall_forall in HO.
      assert (BN : forall s, s < np -> nth s (f_id sf) 0 < nn) by (intros s Hs; apply HO; apply nth_In; assumption).
      destruct (f_dn sf) eqn:DN.
      * eexists. split.
        { apply (omap_seq _ (fun s => add zero (mul mone (ndot (nth s (f_N sf) N0) (ent (pd p 0 u) (nth s (f_id sf) 0)) (ent (pd p 1 u) (nth s (f_id sf) 0)) (ent (pd p 2 u) (nth s (f_id sf) 0)))))).
          intros s Hs. specialize (HN eq_refl). rewrite (rd_nth (f_N sf) s N0) by lia. cbn [obind]. rewrite (rd_nth (f_id sf) s 0) by assumption. cbn [obind].
          specialize (BN s Hs). rewrite !(rd_nth _ (nth s (f_id sf) 0) zero) by (rewrite LP; lia). reflexivity. }
        intros s Hs. cbv beta. rewrite !DP by (lia || apply BN; assumption). unfold coef. rewrite TC, DN, (proj2 (Nat.eqb_eq p q) E).
        rewrite sum_ndot. ring.
      * eexists. split.
        { apply (omap_seq _ (fun s => add zero (mul one (ent u (nth s (f_id sf) 0))))).
          intros s Hs. rewrite (rd_nth (f_id sf) s 0) by assumption. cbn [obind]. specialize (BN s Hs). rewrite (rd_nth u _ zero) by lia. reflexivity. }
        intros s Hs. cbv beta. unfold coef. rewrite TC, DN, (proj2 (Nat.eqb_eq p q) E). rewrite sumF_delta by (apply BN; assumption). ring.
    + destruct (f_dn sf) eqn:DN.
      * eexists. split.
        { apply (omap_seq _ (fun s => add zero (mul one (ndot (nth s (f_N sf) N0) (interp p sf s (pd p 0 u)) (interp p sf s (pd p 1 u)) (interp p sf s (pd p 2 u)))))).
          intros s Hs. specialize (HN eq_refl). rewrite (rd_nth (f_N sf) s N0) by lia. reflexivity. }
        intros s Hs. cbv beta. rewrite !DI by lia. unfold coef. rewrite TC, DN, (proj2 (Nat.eqb_neq p q) E). rewrite sum_ndot. ring.
      * eexists. split.
        { apply (omap_seq _ (fun s => add zero (mul mone (interp p sf s u)))). intros s Hs. reflexivity. }
        intros s Hs. cbv beta. rewrite IP. unfold coef. rewrite TC, DN, (proj2 (Nat.eqb_neq p q) E).
        rewrite (Sext nn (fun j => mul (mul mone _) _) (fun j => mul mone (mul (dinterp p sf 0 s j) (ent u j)))) by (intros; ring).
        rewrite <- (sumF_mul_l zero one add mul sub opp RT). ring.
Qed.

(** ** filling the blocks *)
Definition hit (im : list (option nat)) (sf : sface F) (s i : nat) : F :=
  match nth (nth s (f_id sf) 0) im None with Some k => delta k i | None => zero end.
Definition FC_ok (NIq : nat) (P : ipatch F) (v w : nat -> nat -> F) (FC : list F * list (list F)) : Prop :=
  length (fst FC) = NIq * i_NS P /\ shape NIq (i_NI P) (snd FC) /\
  (forall i k, i < NIq -> k < i_NS P -> nth (k + i_NS P * i) (fst FC) zero = v i k) /\
  (forall i k, i < NIq -> k < i_NI P -> entry (snd FC) i k = w i k).

Lemma addF_ok nc NIq i k x A : length A = NIq * nc -> i < NIq -> k < nc ->
  exists A', addF add nc i k x A = Ok A' /\ length A' = NIq * nc /\
    forall i' k', k' < nc -> nth (k' + nc * i') A' zero = if (i' =? i) && (k' =? k) then add (nth (k' + nc * i') A zero) x else nth (k' + nc * i') A zero.
Proof.
  intros L Hi Hk. unfold addF. assert (k + nc * i < length A) by nia. rewrite (rd_nth A _ zero) by assumption. cbn [obind].
  destruct (wr_spec A (k + nc * i) (add (nth (k + nc * i) A zero) x)) as (A' & E & L' & N'); [assumption|]. exists A'. split; [assumption|]. split; [lia|].
  intros i' k' Hk'. rewrite N'. destruct (Nat.eqb_spec (k' + nc * i') (k + nc * i)) as [EE|NE].
  - assert (i' = i /\ k' = k) as [-> ->] by (assert (i' = i) by nia; subst; lia). rewrite !Nat.eqb_refl. reflexivity.
  - destruct (Nat.eqb_spec i' i) as [->|]; [|reflexivity]. destruct (Nat.eqb_spec k' k) as [->|]; [lia|reflexivity].
Qed.
Lemma addC_ok NIq NI i k x C : shape NIq NI C -> i < NIq -> k < NI ->
  exists C', addC add i k x C = Ok C' /\ shape NIq NI C' /\
    forall i' k', entry C' i' k' = if (i' =? i) && (k' =? k) then add (entry C i' k') x else entry C i' k'.
Proof.
  intros SC Hi Hk. unfold addC. rewrite (rd2_shape zero NIq NI) by assumption. cbn [obind].
  destruct (wr2z_shape zero NIq NI C (Z.of_nat i) k (add (entry C i k) x) SC ltac:(lia) Hk) as (C' & E & SC' & H). exists C'. split; [assumption|]. split; [assumption|].
  intros i' k'. rewrite H. rewrite Nat2Z.id. destruct (Nat.eqb_spec i' i) as [->|]; [|reflexivity]. destruct (Nat.eqb_spec k' k) as [->|]; reflexivity.
Qed.

Lemma add_row_ok NIq P i h v w FC : i < NIq -> i_NS P <= length (i_inv P) -> length (i_Iinv P) = i_NI P -> FC_ok NIq P v w FC ->
  exists FC', add_row add P i h FC = Ok FC' /\
    FC_ok NIq P (fun i' k => add (v i' k) (mul (delta i i') (h (nth k (i_inv P) 0)))) (fun i' k => add (w i' k) (mul (delta i i') (h (nth k (i_Iinv P) 0)))) FC'.
Proof.
  intros Hi LI LII (LA & SC & HV & HW). destruct FC as [A C]. cbn [fst snd] in *. unfold add_row.
  destruct (ofold_seq_inv (fun m A' => length A' = NIq * i_NS P /\ forall i' k, i' < NIq -> k < i_NS P ->
      nth (k + i_NS P * i') A' zero = if k <? m then add (v i' k) (mul (delta i i') (h (nth k (i_inv P) 0))) else v i' k)
    (fun k A => do n <- rd (i_inv P) k; addF add (i_NS P) i k (h n) A) (i_NS P) 0 A) as (A' & EA & LA' & HA').
  - intros k A1 Hk (L1 & H1). rewrite (rd_nth (i_inv P) k 0) by lia. cbn [obind].
    destruct (addF_ok (i_NS P) NIq i k (h (nth k (i_inv P) 0)) A1 L1 Hi ltac:(lia)) as (A2 & E2 & L2 & H2). exists A2. split; [assumption|]. split; [assumption|].
    intros i' k' Hi' Hk'. rewrite H2 by assumption. rewrite H1 by assumption. unfold delta.
    rewrite (Nat.eqb_sym i i'). destruct (Nat.eqb_spec i' i); destruct (Nat.eqb_spec k' k); destruct (Nat.ltb_spec k' k); destruct (Nat.ltb_spec k' (k + 1)); cbn [andb]; try lia; subst; try reflexivity; try ring.
  - split; [assumption|]. intros i' k Hi' Hk. cbn. apply HV; assumption.
  - rewrite EA. cbn [obind].
    destruct (ofold_seq_inv (fun m C' => shape NIq (i_NI P) C' /\ forall i' k, i' < NIq -> k < i_NI P ->
        entry C' i' k = if k <? m then add (w i' k) (mul (delta i i') (h (nth k (i_Iinv P) 0))) else w i' k)
      (fun k C => do n <- rd (i_Iinv P) k; addC add i k (h n) C) (i_NI P) 0 C) as (C' & EC & SC' & HC').
    + intros k C1 Hk (S1 & H1). rewrite (rd_nth (i_Iinv P) k 0) by lia. cbn [obind].
      destruct (addC_ok NIq (i_NI P) i k (h (nth k (i_Iinv P) 0)) C1 S1 Hi ltac:(lia)) as (C2 & E2 & S2 & H2). exists C2. split; [assumption|]. split; [assumption|].
      intros i' k' Hi' Hk'. rewrite H2. rewrite H1 by assumption. unfold delta.
      rewrite (Nat.eqb_sym i i'). destruct (Nat.eqb_spec i' i); destruct (Nat.eqb_spec k' k); destruct (Nat.ltb_spec k' k); destruct (Nat.ltb_spec k' (k + 1)); cbn [andb]; try lia; subst; try reflexivity; try ring.
    + split; [assumption|]. intros i' k Hi' Hk. cbn. apply HW; assumption.
    + rewrite EC. cbn [obind]. exists (A', C'). split; [reflexivity|]. split; [assumption|]. split; [assumption|]. cbn [fst snd]. split.
      * intros i' k Hi' Hk. rewrite HA' by assumption. destruct (Nat.ltb_spec k (0 + i_NS P)); [reflexivity|lia].
      * intros i' k Hi' Hk. rewrite HC' by assumption. destruct (Nat.ltb_spec k (0 + i_NI P)); [reflexivity|lia].
Qed.

(** one pair *)
Lemma fill_loop NIq P im sf (body : nat -> list F * list (list F) -> outcome (list F * list (list F))) (h : nat -> nat -> F) np :
  (forall s FC v w, s < np -> FC_ok NIq P v w FC -> exists FC', body s FC = Ok FC' /\
     FC_ok NIq P (fun i k => add (v i k) (mul (hit im sf s i) (h s (nth k (i_inv P) 0)))) (fun i k => add (w i k) (mul (hit im sf s i) (h s (nth k (i_Iinv P) 0)))) FC') ->
  forall v w FC, FC_ok NIq P v w FC -> exists FC', ofold body (seq 0 np) FC = Ok FC' /\
     FC_ok NIq P (fun i k => add (v i k) (sumF np (fun s => mul (hit im sf s i) (h s (nth k (i_inv P) 0)))))
                 (fun i k => add (w i k) (sumF np (fun s => mul (hit im sf s i) (h s (nth k (i_Iinv P) 0))))) FC'.
Proof.
  intros HB v w FC H0.
  assert (SS : forall m (g : nat -> F), sumF (m + 1) g = add (sumF m g) (g m)).
  { intros m g. unfold SchurSpec.sumF. rewrite Nat.add_1_r, seq_S, fold_left_app. reflexivity. }
  destruct (ofold_seq_inv (fun m FC' => FC_ok NIq P (fun i k => add (v i k) (sumF m (fun s => mul (hit im sf s i) (h s (nth k (i_inv P) 0)))))
                 (fun i k => add (w i k) (sumF m (fun s => mul (hit im sf s i) (h s (nth k (i_Iinv P) 0))))) FC') body np 0 FC) as (FC' & E & H').
  - intros s FC1 Hs H1. destruct (HB s FC1 _ _ ltac:(lia) H1) as (FC2 & E2 & (L2 & S2 & V2 & W2)). exists FC2. split; [assumption|].
    split; [assumption|]. split; [assumption|]. split.
    + intros i k Hi Hk. rewrite V2 by assumption. rewrite SS. ring.
    + intros i k Hi Hk. rewrite W2 by assumption. rewrite SS. ring.
  - destruct H0 as (L0 & S0 & V0 & W0). split; [assumption|]. split; [assumption|]. unfold SchurSpec.sumF. cbn [seq fold_left]. split; intros; [rewrite V0|rewrite W0]; try assumption; ring.
  - exists FC'. split; [assumption|]. exact H'.
Qed.

Definition im_ready (Q : ipatch F) : Prop := length (i_Imap Q) = i_nn Q /\ forall i k, nth i (i_Imap Q) None = Some k -> k < i_NI Q.

Lemma FC_ext NIq P v w v' w' FC : (forall i k, i < NIq -> k < i_NS P -> v i k = v' i k) -> (forall i k, i < NIq -> k < i_NI P -> w i k = w' i k) ->
  FC_ok NIq P v w FC -> FC_ok NIq P v' w' FC.
Proof. intros HV HW (A & B & C & D). split; [assumption|]. split; [assumption|]. split; intros i k Hi Hk; [rewrite <- HV|rewrite <- HW]; auto. Qed.

Lemma hit_some im sf s i k : nth (nth s (f_id sf) 0) im None = Some k -> hit im sf s i = delta k i.
Proof. intros E. unfold hit. rewrite E. reflexivity. Qed.
Lemma hit_none im sf s i : nth (nth s (f_id sf) 0) im None = None -> hit im sf s i = zero.
Proof. intros E. unfold hit. rewrite E. reflexivity. Qed.

(** a node with an interface number is not a subdomain node, and Iinv finds it *)
Lemma delta_inv (P : ipatch F) n k : patch_numbered P -> nth n (i_Imap P) None <> None -> k < i_NS P -> delta n (nth k (i_inv P) 0) = zero.
Proof.
  intros PN HN Hk. unfold delta. destruct (Nat.eqb_spec n (nth k (i_inv P) 0)) as [E|]; [|reflexivity]. exfalso.
  destruct (nth n (i_Imap P) None) as [i|] eqn:EI; [|congruence]. destruct (pn_some _ PN _ _ EI) as [Hi EII].
  pose proof (pn_nodup _ PN) as ND. apply NoDup_app_l in ND as (_ & _ & DJ). apply (DJ n).
  - rewrite E. rewrite <- (nth_firstn (i_inv P) 0 (i_NS P) k Hk). apply nth_In. rewrite firstn_length. pose proof (pn_inv _ PN). lia.
  - rewrite <- EII. apply nth_In. rewrite (pn_Iinv _ PN). assumption.
Qed.
Lemma delta_Iinv (P : ipatch F) n i k : patch_numbered P -> nth n (i_Imap P) None = Some i -> k < i_NI P -> delta n (nth k (i_Iinv P) 0) = delta i k.
Proof.
  intros PN EI Hk. destruct (pn_some _ PN _ _ EI) as [Hi EII]. unfold delta. destruct (Nat.eqb_spec i k) as [->|NE].
  - rewrite EII, Nat.eqb_refl. reflexivity.
  - destruct (Nat.eqb_spec n (nth k (i_Iinv P) 0)) as [E|]; [|reflexivity]. exfalso. apply NE.
    pose proof (pn_nodup _ PN) as ND. apply NoDup_app_l in ND as (_ & ND & _). rewrite NoDup_nth with (d := 0) in ND.
    apply ND; [rewrite (pn_Iinv _ PN); assumption|rewrite (pn_Iinv _ PN); assumption|]. congruence.
Qed.

Lemma addC_delta NIq P i i1 x v w A C : i < NIq -> i1 < i_NI P -> FC_ok NIq P v w (A, C) ->
  exists C', addC add i i1 x C = Ok C' /\ FC_ok NIq P v (fun i' k => add (w i' k) (mul (delta i i') (mul x (delta i1 k)))) (A, C').
Proof.
  intros Hi Hi1 (LA & SC & HV & HW). cbn [fst snd] in *. destruct (addC_ok NIq (i_NI P) i i1 x C SC Hi Hi1) as (C' & E & SC' & H).
  exists C'. split; [assumption|]. split; [assumption|]. split; [assumption|]. cbn [fst snd]. split; [assumption|].
  intros i' k Hi' Hk. rewrite H, HW by assumption. unfold delta. rewrite (Nat.eqb_sym i i'), (Nat.eqb_sym i1 k). destruct (Nat.eqb_spec i' i); destruct (Nat.eqb_spec k i1); cbn [andb]; ring.
Qed.

Lemma populate_ok p q P Q sf v w FC : patch_numbered P -> patch_numbered Q -> (p = q -> P = Q) -> face_ready p q (i_nn P) sf ->
  Forall (fun i => i < i_nn Q) (f_id sf) ->
  (p <> q -> f_touch sf && f_copy sf = true -> f_dn sf = false -> forall s, s < length (f_id sf) -> nth (nth s (f_id sf) 0) (i_Imap Q) None <> None ->
             nth (nth s (f_adjid sf) 0) (i_Imap P) None <> None) ->
  FC_ok (i_NI Q) P v w FC ->
  exists FC', populate_F_and_C one add mul opp d2f dinterp p q P (i_Imap Q) sf FC = Ok FC' /\
    FC_ok (i_NI Q) P (fun i k => add (v i k) (sumF (length (f_id sf)) (fun s => mul (hit (i_Imap Q) sf s i) (coef p q sf s (nth k (i_inv P) 0)))))
                     (fun i k => add (w i k) (sumF (length (f_id sf)) (fun s => mul (hit (i_Imap Q) sf s i) (coef p q sf s (nth k (i_Iinv P) 0))))) FC'.
Proof.
  intros PNP PNQ PQ (EX & IF & HN & HO & HA) BID HC H0.
  unfold is_interface in IF. apply andb_true_iff in IF. destruct IF as [I1 I2]. apply negb_true_iff in I1, I2.
  unfold populate_F_and_C. rewrite EX, I1, I2. cbn [negb].
  set (np := length (f_id sf)) in *. rewrite Forall_forall in BID.
  assert (BN : forall s, s < np -> nth s (f_id sf) 0 < length (i_Imap Q)) by (intros s Hs; rewrite (pn_Imap _ PNQ); apply BID; apply nth_In; assumption).
  assert (SK : forall s FC v w, FC_ok (i_NI Q) P v w FC -> nth (nth s (f_id sf) 0) (i_Imap Q) None = None -> exists FC', Ok FC = Ok FC' /\
     FC_ok (i_NI Q) P (fun i k => add (v i k) (mul (hit (i_Imap Q) sf s i) (coef p q sf s (nth k (i_inv P) 0)))) (fun i k => add (w i k) (mul (hit (i_Imap Q) sf s i) (coef p q sf s (nth k (i_Iinv P) 0)))) FC').
  { intros s FC1 v1 w1 H1 EN. exists FC1. split; [reflexivity|]. revert H1. apply FC_ext; intros i k Hi Hk; rewrite (hit_none _ _ _ _ EN); ring. }
  assert (RW : forall s i FC v w, FC_ok (i_NI Q) P v w FC -> nth (nth s (f_id sf) 0) (i_Imap Q) None = Some i ->
     exists FC', add_row add P i (coef p q sf s) FC = Ok FC' /\
     FC_ok (i_NI Q) P (fun i k => add (v i k) (mul (hit (i_Imap Q) sf s i) (coef p q sf s (nth k (i_inv P) 0)))) (fun i k => add (w i k) (mul (hit (i_Imap Q) sf s i) (coef p q sf s (nth k (i_Iinv P) 0)))) FC').
  { intros s i FC1 v1 w1 H1 ES. destruct (pn_some _ PNQ _ _ ES) as [Hi _].
    destruct (add_row_ok (i_NI Q) P i (coef p q sf s) v1 w1 FC1 Hi (pn_inv _ PNP) (pn_Iinv _ PNP) H1) as (FC2 & E2 & H2). exists FC2. split; [assumption|].
    revert H2. apply FC_ext; intros i' k Hi' Hk; rewrite (hit_some _ _ _ _ _ ES); reflexivity. }
  assert (CD : forall s i n i1 sg A C v w, FC_ok (i_NI Q) P v w (A, C) -> nth (nth s (f_id sf) 0) (i_Imap Q) None = Some i -> nth n (i_Imap P) None = Some i1 ->
     (forall j, coef p q sf s j = mul sg (delta n j)) -> exists C', addC add i i1 sg C = Ok C' /\
     FC_ok (i_NI Q) P (fun i k => add (v i k) (mul (hit (i_Imap Q) sf s i) (coef p q sf s (nth k (i_inv P) 0)))) (fun i k => add (w i k) (mul (hit (i_Imap Q) sf s i) (coef p q sf s (nth k (i_Iinv P) 0)))) (A, C')).
  { intros s i n i1 sg A C v1 w1 H1 ES EN HCo. destruct (pn_some _ PNQ _ _ ES) as [Hi _]. destruct (pn_some _ PNP _ _ EN) as [Hi1 _].
    destruct (addC_delta (i_NI Q) P i i1 sg v1 w1 A C Hi Hi1 H1) as (C' & E & H2). exists C'. split; [assumption|].
    revert H2. apply FC_ext; intros i' k Hi' Hk; rewrite (hit_some _ _ _ _ _ ES), HCo.
    - rewrite (delta_inv P n k PNP) by (congruence || assumption). ring.
    - rewrite (delta_Iinv P n i1 k PNP EN Hk). ring. }
  destruct (f_touch sf && f_copy sf) eqn:TC.
  - unfold fill_C_F_collocation. fold np. set (node := if p =? q then f_id sf else f_adjid sf).
    assert (HNode : np <= length node).
    { unfold node. destruct (Nat.eqb_spec p q) as [E|E]; [reflexivity|]. apply (HA E eq_refl). }
    assert (BNode : forall s, s < np -> nth s node 0 < length (i_Imap P)).
    { intros s Hs. rewrite (pn_Imap _ PNP). unfold node. destruct (Nat.eqb_spec p q) as [E|E].
      - rewrite (PQ E). apply BID. apply nth_In. assumption.
      - destruct (HA E eq_refl) as [L B]. rewrite Forall_forall in B. apply B. apply nth_In. lia. }
    assert (NEQ : forall s, (if p =? q then nth s (f_id sf) 0 else nth s (f_adjid sf) 0) = nth s node 0) by (intros s; unfold node; destruct (p =? q); reflexivity).
    destruct (f_dn sf) eqn:DN.
    + apply (fill_loop (i_NI Q) P (i_Imap Q) sf _ (coef p q sf) np); [|assumption].
      intros s FC1 v1 w1 Hs H1. specialize (HN eq_refl). rewrite (rd_nth (f_N sf) s N0) by lia. cbn [obind].
      rewrite (rd_nth (f_id sf) s 0) by assumption. cbn [obind]. rewrite (rd_nth (i_Imap Q) _ None) by (apply BN; assumption). cbn [obind].
      destruct (nth (nth s (f_id sf) 0) (i_Imap Q) None) as [i|] eqn:ES; [|apply SK; assumption].
      rewrite (rd_nth node s 0) by lia. cbn [obind]. destruct (RW s i FC1 v1 w1 H1 ES) as (FC2 & E2 & H2). exists FC2. split; [|assumption].
      rewrite <- E2. unfold coef. rewrite TC, DN, NEQ. reflexivity.
    + apply (fill_loop (i_NI Q) P (i_Imap Q) sf _ (coef p q sf) np); [|assumption].
      intros s [A1 C1] v1 w1 Hs H1. rewrite (rd_nth (f_id sf) s 0) by assumption. cbn [obind]. rewrite (rd_nth (i_Imap Q) _ None) by (apply BN; assumption). cbn [obind].
      destruct (nth (nth s (f_id sf) 0) (i_Imap Q) None) as [i|] eqn:ES; [|apply SK; assumption].
      rewrite (rd_nth node s 0) by lia. cbn [obind]. rewrite (rd_nth (i_Imap P) _ None) by (apply BNode; assumption). cbn [obind].
      destruct (nth (nth s node 0) (i_Imap P) None) as [i1|] eqn:E1.
      * destruct (CD s i (nth s node 0) i1 (mul (if p =? q then one else mone) one) A1 C1 v1 w1 H1 ES E1) as (C' & EC & H2).
        { intros j. unfold coef. rewrite TC, DN, NEQ. ring. }
        rewrite EC. cbn [obind]. eexists. split; [reflexivity|assumption].
      * exfalso. revert E1. unfold node. destruct (Nat.eqb_spec p q) as [E|E].
        -- rewrite (PQ E). congruence.
        -- intros E1. apply (HC E eq_refl eq_refl s Hs); [congruence|assumption].
  - unfold fill_C_F_interpolation. fold np. destruct (Nat.eqb_spec p q) as [E|E]; destruct (f_dn sf) eqn:DN.
    + apply (fill_loop (i_NI Q) P (i_Imap Q) sf _ (coef p q sf) np); [|assumption].
      intros s FC1 v1 w1 Hs H1. specialize (HN eq_refl). rewrite (rd_nth (f_N sf) s N0) by lia. cbn [obind].
      rewrite (rd_nth (f_id sf) s 0) by assumption. cbn [obind]. rewrite (rd_nth (i_Imap Q) _ None) by (apply BN; assumption). cbn [obind].
      destruct (nth (nth s (f_id sf) 0) (i_Imap Q) None) as [i|] eqn:ES; [|apply SK; assumption].
      destruct (RW s i FC1 v1 w1 H1 ES) as (FC2 & E2 & H2). exists FC2. split; [|assumption].
      rewrite <- E2. unfold coef. rewrite TC, DN, (proj2 (Nat.eqb_eq p q) E). reflexivity.
    + apply (fill_loop (i_NI Q) P (i_Imap Q) sf _ (coef p q sf) np); [|assumption].
      intros s [A1 C1] v1 w1 Hs H1. rewrite (rd_nth (f_id sf) s 0) by assumption. cbn [obind]. rewrite (rd_nth (i_Imap Q) _ None) by (apply BN; assumption). cbn [obind].
      destruct (nth (nth s (f_id sf) 0) (i_Imap Q) None) as [i|] eqn:ES; [|apply SK; assumption].
      destruct (CD s i (nth s (f_id sf) 0) i one A1 C1 v1 w1 H1 ES) as (C' & EC & H2).
      { rewrite (PQ E). assumption. }
      { intros j. unfold coef. rewrite TC, DN, (proj2 (Nat.eqb_eq p q) E). ring. }
      rewrite EC. cbn [obind]. eexists. split; [reflexivity|assumption].
    + apply (fill_loop (i_NI Q) P (i_Imap Q) sf _ (coef p q sf) np); [|assumption].
      intros s FC1 v1 w1 Hs H1. specialize (HN eq_refl). rewrite (rd_nth (f_N sf) s N0) by lia. cbn [obind].
      rewrite (rd_nth (f_id sf) s 0) by assumption. cbn [obind]. rewrite (rd_nth (i_Imap Q) _ None) by (apply BN; assumption). cbn [obind].
      destruct (nth (nth s (f_id sf) 0) (i_Imap Q) None) as [i|] eqn:ES; [|apply SK; assumption].
      destruct (RW s i FC1 v1 w1 H1 ES) as (FC2 & E2 & H2). exists FC2. split; [|assumption].
      rewrite <- E2. unfold coef. rewrite TC, DN, (proj2 (Nat.eqb_neq p q) E). reflexivity.
    + apply (fill_loop (i_NI Q) P (i_Imap Q) sf _ (coef p q sf) np); [|assumption].
      intros s FC1 v1 w1 Hs H1.
      rewrite (rd_nth (f_id sf) s 0) by assumption. cbn [obind]. rewrite (rd_nth (i_Imap Q) _ None) by (apply BN; assumption). cbn [obind].
      destruct (nth (nth s (f_id sf) 0) (i_Imap Q) None) as [i|] eqn:ES; [|apply SK; assumption].
      destruct (RW s i FC1 v1 w1 H1 ES) as (FC2 & E2 & H2). exists FC2. split; [|assumption].
      rewrite <- E2. unfold coef. rewrite TC, DN, (proj2 (Nat.eqb_neq p q) E). reflexivity.
Qed.
End Sew.
