(** EqRelaxProofs.v - proofs about EqRelax.v *)
From Verif Require Import RealBase EqRelax.
From Verif Require Base EqModel EqProofs.
Import Base(outcome, Ok, Abort, UB, obind, str, str_eqb).
From Coq Require Import List Lia.
Import ListNotations.
Open Scope R_scope.
Notation dec := (in_dec (list_eq_dec Ascii.ascii_dec)).

Lemma str_eqb_iff a b : str_eqb a b = true <-> a = b.
Proof. unfold str_eqb. destruct (list_eq_dec Ascii.ascii_dec a b); split; congruence. Qed.
Lemma fset_same m f x : fset m f x f = x.
Proof. unfold fset. replace (str_eqb f f) with true by (symmetry; apply str_eqb_iff; reflexivity). reflexivity. Qed.
Lemma fset_other m f x g : f <> g -> fset m f x g = m g.
Proof. intros N. unfold fset. destruct (str_eqb f g) eqn:E; [apply str_eqb_iff in E; congruence|reflexivity]. Qed.

(** loops over fields and patches may be exchanged *)
Lemma fold_swap {A S} (h : A -> S -> outcome S) names : forall g r,
  Forall2 (fun p q => fold_o h names p = Ok q) g r -> fold_o (fun f g => EqModel.omap (h f) g) names g = Ok r.
Proof.
  induction names as [|f l IH]; intros g r H; cbn [fold_o].
  - f_equal. induction H as [|p q g r E H IHg]; [reflexivity|]. cbn in E. injection E as <-. f_equal. exact IHg.
  - assert (M : exists m, Forall2 (fun p q => h f p = Ok q) g m /\ Forall2 (fun p q => fold_o h l p = Ok q) m r).
    { induction H as [|p q g r E H IHg]; [exists []; split; constructor|]. destruct IHg as (m & M1 & M2).
      cbn [fold_o] in E. destruct (h f p) as [p1| |] eqn:E1; try discriminate. cbn [obind] in E.
      exists (p1 :: m). split; constructor; assumption. }
    destruct M as (m & M1 & M2). apply EqProofs.omap_ok in M1. rewrite M1. cbn [obind]. apply IH. exact M2.
Qed.

(** the backups hold the values [old] *)
Definition Backed (names : list str) (old : fields) (b : fields) : Prop :=
  forall f, In f names -> match old f with Val v => b f = Val v | Novals => b f <> Absent | Absent => True end.
Lemma backup_patch names : forall p, has_backups names p ->
  exists q, fold_o backup1 names p = Ok q /\ cur q = cur p /\ Backed names (cur p) (bck q) /\
    (forall f, ~ In f names -> bck q f = bck p f).
Proof.
  induction names as [|f l IH]; intros p H; cbn [fold_o].
  - exists p. repeat split. intros f [].
  - assert (X : exists p1, backup1 f p = Ok p1 /\ cur p1 = cur p /\ (forall g, f <> g -> bck p1 g = bck p g) /\
        match cur p f with Val v => bck p1 f = Val v | Novals => bck p1 f <> Absent | Absent => True end).
    { unfold backup1. pose proof (H f (or_introl eq_refl)) as Hf. destruct (cur p f) as [| |v] eqn:C.
      - exists p. repeat split.
      - destruct (bck p f) eqn:B; [exfalso; apply Hf; congruence | |]; exists p; repeat split; congruence.
      - destruct (bck p f) eqn:B; [exfalso; apply Hf; congruence | |];
        (eexists; split; [reflexivity|]; cbn [cur bck]; split; [reflexivity|]; split; [intros g N; apply fset_other; exact N | apply fset_same]). }
    destruct X as (p1 & E & C & O & F). rewrite E. cbn [obind].
    destruct (IH p1) as (q & Q & Cq & Bq & Nq).
    { intros g I G. rewrite C in G. destruct (list_eq_dec Ascii.ascii_dec f g) as [<-|N].
      - destruct (cur p f); [congruence | exact F | congruence].
      - rewrite (O g N). apply (H g); [right; exact I | exact G]. }
    exists q. split; [exact Q|]. split; [congruence|]. rewrite C in Bq. split.
    + intros g [<-|I]; [|exact (Bq g I)]. destruct (dec f l) as [I|I]; [exact (Bq f I)|]. rewrite (Nq f I). exact F.
    + intros g N. cbn [In] in N. rewrite (Nq g) by tauto. apply O. tauto.
Qed.
Lemma shape_same x y : shape x = shape y -> (x = Absent <-> y = Absent) /\ (x = Novals <-> y = Novals).
Proof. destruct x, y; cbn; intros; split; split; congruence. Qed.
Lemma relax_patch W names : NoDup names -> forall old p, Backed names old (bck p) -> (forall f, shape (old f) = shape (cur p f)) ->
  exists q, fold_o (fun f => relax1 (W f) f) names p = Ok q /\ bck q = bck p /\ forall f, cur q f = relaxed W names old (cur p) f.
Proof.
  intros ND. induction ND as [|f l N ND IH]; intros old p B Sh; cbn [fold_o].
  - exists p. repeat split.
  - assert (X : exists p1, relax1 (W f) f p = Ok p1 /\ bck p1 = bck p /\ (forall g, f <> g -> cur p1 g = cur p g) /\
        cur p1 f = relaxed W (f :: l) old (cur p) f).
    { unfold relax1, relaxed. destruct (dec f (f :: l)) as [_|C]; [|exfalso; apply C; left; reflexivity].
      destruct (EQL (W f) 1) eqn:W1; [exists p; repeat split|].
      pose proof (B f (or_introl eq_refl)) as Bf. pose proof (Sh f) as Sf. destruct (cur p f) as [| |v] eqn:C.
      - exists p. repeat split. exact C.
      - destruct (old f) as [| |o] eqn:O; try discriminate. destruct (bck p f) as [| |b] eqn:Bb; [congruence | |]; exists p; repeat split; exact C.
      - destruct (old f) as [| |o] eqn:O; try discriminate. rewrite Bf.
        eexists; split; [reflexivity|]. cbn [cur bck]. split; [reflexivity|]. split; [intros g Ng; apply fset_other; exact Ng | apply fset_same]. }
    destruct X as (p1 & E & Bk & O & F). rewrite E. cbn [obind].
    assert (Shp : shape (old f) = shape (cur p1 f)).
    { rewrite F. unfold relaxed. destruct (dec f (f :: l)); [|apply Sh]. destruct (EQL (W f) 1); [apply Sh|]. specialize (Sh f).
      destruct (cur p f), (old f); cbn in *; congruence. }
    destruct (IH old p1) as (q & Q & Bq & Cq).
    { intros g I. rewrite Bk. apply B. right. exact I. }
    { intros g. destruct (list_eq_dec Ascii.ascii_dec f g) as [<-|Ng]; [exact Shp|]. rewrite (O g Ng). apply Sh. }
    exists q. split; [exact Q|]. split; [congruence|]. intros g. rewrite Cq. destruct (list_eq_dec Ascii.ascii_dec f g) as [<-|Ng].
    + rewrite <- F. unfold relaxed at 1. destruct (dec f l) as [I|_]; [contradiction|reflexivity].
    + unfold relaxed. rewrite (O g Ng). destruct (dec g l) as [I|I], (dec g (f :: l)) as [J|J]; try reflexivity; exfalso.
      * apply J. right. exact I.
      * destruct J as [J|J]; contradiction.
Qed.

Lemma Forall2_refl_same (g : list fields) : Forall2 same_fields g g.
Proof. induction g; constructor; [intros f; reflexivity|assumption]. Qed.
Lemma Forall2_trans_same (a b c : list fields) : Forall2 same_fields a b -> Forall2 same_fields b c -> Forall2 same_fields a c.
Proof.
  intros H. revert c. induction H as [|x y a b E H IH]; intros c H2; inversion H2; subst; constructor.
  - intros f. rewrite (E f). auto.
  - apply IH. assumption.
Qed.
Lemma relaxed_proper W names o o' n n' : same_fields o o' -> same_fields n n' -> same_fields (relaxed W names o n) (relaxed W names o' n').
Proof. intros H1 H2 f. unfold relaxed. rewrite (H1 f), (H2 f). reflexivity. Qed.
Lemma round_proper W names solve g h : proper solve -> Forall2 same_fields g h -> Forall2 same_fields (round W names solve g) (round W names solve h).
Proof.
  intros P H. pose proof (P g h H) as H2. unfold round. revert H2. generalize (solve g) (solve h). induction H as [|x y g h E H IH]; intros a b H2.
  - cbn. constructor.
  - inversion H2 as [|s t a' b' E' H']; subst; cbn; constructor.
    + apply relaxed_proper; assumption.
    + apply IH. exact H'.
Qed.
(** n rounds *)
Fixpoint rounds (n : nat) (W : str -> R) (names : list str) (solve : list fields -> list fields) (g : list fields) : list fields :=
  match n with O => g | S n => rounds n W names solve (round W names solve g) end.
Lemma rounds_iter W names solve n : forall g, rounds n W names solve g = Nat.iter n (round W names solve) g.
Proof. induction n as [|n IH]; intros g; cbn [rounds]; [reflexivity|]. rewrite IH. clear IH. induction n as [|n IH]; [reflexivity|]. change (round W names solve (Nat.iter n (round W names solve) (round W names solve g)) = round W names solve (Nat.iter (S n) (round W names solve) g)). f_equal. exact IH. Qed.
Lemma rounds_proper W names solve n : proper solve -> forall g h, Forall2 same_fields g h -> Forall2 same_fields (rounds n W names solve g) (rounds n W names solve h).
Proof. intros P. induction n as [|n IH]; intros g h H; cbn [rounds]; [exact H|]. apply IH. apply round_proper; assumption. Qed.

Lemma Forall2_map_l {A B C} (f : A -> B) (P : B -> C -> Prop) l r : Forall2 (fun a c => P (f a) c) l r <-> Forall2 P (map f l) r.
Proof.
  split; intros H.
  - induction H; cbn; constructor; assumption.
  - revert r H. induction l as [|a l IH]; intros r H; cbn in H; inversion H; subst; constructor; auto.
Qed.
Lemma one_round W names solve g : NoDup names -> keeps solve -> Forall (fun p => Backed names (cur p) (bck p)) g ->
  exists g2, relax W names (solved solve g) = Ok g2 /\ Forall2 same_fields (map cur g2) (round W names solve (map cur g)) /\
    Forall (has_backups names) g2.
Proof.
  intros ND K B. pose proof (K (map cur g)) as Kg. unfold solved, round. apply Forall2_map_l in Kg. revert Kg. generalize (solve (map cur g)) as s.
  intros s Kg.
  assert (X : exists g2, Forall2 (fun p q => fold_o (fun f => relax1 (W f) f) names p = Ok q)
       (map (fun q => mkpatch (fst q) (bck (snd q))) (combine s g)) g2 /\
       Forall2 same_fields (map cur g2) (map (fun q => relaxed W names (fst q) (snd q)) (combine (map cur g) s)) /\ Forall (has_backups names) g2).
  { induction Kg as [|p t g s E Kg IH]; [exists []; cbn; repeat constructor|]. inversion B as [|? ? Bp Bg]; subst.
    destruct (IH Bg) as (g2 & F1 & F2 & F3).
    destruct (relax_patch W names ND (cur p) (mkpatch t (bck p)) Bp E) as (q & Q & Bq & Cq). cbn [cur bck] in Bq, Cq.
    exists (q :: g2). cbn. split; [constructor; assumption|]. split; [constructor; [exact Cq|assumption]|]. constructor; [|assumption].
    intros f I C. rewrite Bq. specialize (Bp f I). specialize (E f). rewrite Cq in C.
    assert (Ct : t f <> Absent).
    { intros Z. apply C. unfold relaxed. rewrite Z. destruct (dec f names); [|reflexivity]. destruct (EQL (W f) 1); [reflexivity|]. destruct (cur p f); reflexivity. }
    destruct (cur p f); [destruct (t f); cbn in E; congruence | exact Bp | congruence]. }
  destruct X as (g2 & F1 & F2 & F3). exists g2. split; [|split; assumption]. unfold relax. apply (fold_swap (fun f => relax1 (W f) f)). exact F1.
Qed.
Lemma backup_ok names g : Forall (has_backups names) g ->
  exists g', backup names g = Ok g' /\ map cur g' = map cur g /\ Forall (fun p => Backed names (cur p) (bck p)) g'.
Proof.
  intros H. assert (X : exists g', Forall2 (fun p q => fold_o backup1 names p = Ok q) g g' /\ map cur g' = map cur g /\ Forall (fun p => Backed names (cur p) (bck p)) g').
  { induction H as [|p g Hp Hg IH]; [exists []; repeat constructor|]. destruct IH as (g' & F1 & F2 & F3).
    destruct (backup_patch names p Hp) as (q & Q & C & B & _). exists (q :: g'). cbn. split; [constructor; assumption|]. split; [congruence|].
    constructor; [rewrite C; exact B|assumption]. }
  destruct X as (g' & F1 & F2 & F3). exists g'. split; [|split; assumption]. unfold backup. apply fold_swap. exact F1.
Qed.
Lemma rounds_ok m W names solve : NoDup names -> keeps solve -> proper solve -> forall n g, (n <= 1 \/ 1 < m)%nat ->
  Forall (fun p => Backed names (cur p) (bck p)) g ->
  exists g', eq_rounds m n W names solve g = Ok g' /\ Forall2 same_fields (map cur g') (rounds n W names solve (map cur g)).
Proof.
  intros ND K P. induction n as [|n IH]; intros g M B; cbn [eq_rounds rounds].
  - exists g. split; [reflexivity|]. apply Forall2_refl_same.
  - destruct (one_round W names solve g ND K B) as (g2 & E & S2 & H2). rewrite E. cbn [obind].
    destruct (Nat.ltb_spec 1 m) as [L|L].
    + destruct (backup_ok names g2 H2) as (g3 & E3 & C3 & B3). rewrite E3. cbn [obind].
      destruct (IH g3 (or_intror L) B3) as (g' & E' & S'). exists g'. split; [exact E'|].
      eapply Forall2_trans_same; [exact S'|]. apply rounds_proper; [exact P|]. rewrite C3. exact S2.
    + cbn [obind]. destruct n as [|n]; [|lia]. cbn [eq_rounds rounds]. exists g2. split; [reflexivity|exact S2].
Qed.
Theorem eq_solve_ok max_iter W names solve g : NoDup names -> keeps solve -> proper solve -> Forall (has_backups names) g ->
  exists g', eq_solve max_iter W names solve g = Ok g' /\ Forall2 same_fields (map cur g') (rounds max_iter W names solve (map cur g)).
Proof.
  intros ND K P H. unfold eq_solve. destruct (backup_ok names g H) as (g1 & E & C & B). rewrite E. cbn [obind]. rewrite <- C.
  apply rounds_ok; [assumption|assumption|assumption|lia|assumption].
Qed.
(** a solver that always finds the same solution: the distance shrinks by 1 - W in every round *)
Lemma rounds_geometric W names f (sol : list fields) : In f names -> EQL (W f) 1 = false ->
  forall n (g : list fields) k (s u : nat -> R) (a b : fields), length g = length sol -> nth_error sol k = Some b -> b f = Val s -> nth_error g k = Some a -> a f = Val u ->
  exists c v, nth_error (rounds n W names (fun _ => sol) g) k = Some c /\ c f = Val v /\ forall i, v i - s i = (1 - W f) ^ n * (u i - s i).
Proof.
  intros I E. induction n as [|n IH]; intros g k s u a b L Hs Hb Hg Ha; cbn [rounds].
  - exists a, u. split; [exact Hg|]. split; [exact Ha|]. intros i. ring.
  - assert (R1 : nth_error (round W names (fun _ => sol) g) k = Some (relaxed W names a b)).
    { unfold round. revert k L Hs Hg. clear IH. revert g. induction sol as [|t sol IHs]; intros [|x g] k L Hs Hg; try (destruct k; discriminate).
      destruct k as [|k]; cbn [nth_error length combine map fst snd] in *; [injection Hs as ->; injection Hg as ->; reflexivity|]. apply IHs; [lia|assumption|assumption]. }
    assert (Ra : relaxed W names a b f = Val (fun i => W f * s i + (1 - W f) * u i)).
    { unfold relaxed. destruct (dec f names); [|contradiction]. rewrite E, Hb, Ha. reflexivity. }
    assert (L1 : length (round W names (fun _ => sol) g) = length sol).
    { unfold round. rewrite map_length, combine_length. cbv beta. rewrite L. apply Nat.min_id. }
    destruct (IH (round W names (fun _ => sol) g) k s _ _ b L1 Hs Hb R1 Ra) as (c & v & H1 & H2 & H3).
    exists c, v. split; [exact H1|]. split; [exact H2|]. intros i. rewrite H3. cbn [pow]. ring.
Qed.
(** a field that is not named in solve_Order (an alias stands for it) keeps the solver's value *)
Lemma unnamed_not_relaxed W names old new f : ~ In f names -> relaxed W names old new f = new f.
Proof. intros N. unfold relaxed. destruct (dec f names); [contradiction|reflexivity]. Qed.
(** a field named twice is relaxed twice *)
Lemma twice W f v o b : EQL (W f) 1 = false -> b f = Val o -> forall c, c f = Val v ->
  exists q, fold_o (fun f => relax1 (W f) f) [f; f] (mkpatch c b) = Ok q /\
    exists u, cur q f = Val u /\ forall i, u i = W f * (W f * v i + (1 - W f) * o i) + (1 - W f) * o i.
Proof.
  intros E B c C. cbn [fold_o]. unfold relax1. rewrite E. cbn [cur bck]. rewrite C, B. cbn [obind cur bck]. rewrite fset_same, B. cbn [obind].
  eexists. split; [reflexivity|]. eexists. cbn [cur]. rewrite fset_same. split; [reflexivity|]. intros i. reflexivity.
Qed.
