(** GridNames.v - the patches of a grid have different names. *)
From Verif Require Import Base ParamText TextModel FieldCache RegionModel RegionProofs GridModel GridSpec GridProofs.
Open Scope string_scope.

Lemma NoDup_flat_map {A B} (f : A -> list B) l : NoDup l -> (forall a, In a l -> NoDup (f a)) -> (forall a b x, In a l -> In b l -> In x (f a) -> In x (f b) -> a = b) -> NoDup (flat_map f l).
Proof.
  induction 1 as [|a l N H IH]; intros F D; cbn [flat_map]; [constructor|].
  assert (X : NoDup (flat_map f l)). { apply IH; [intros; apply F; right; assumption|]. intros b c x Ib Ic. apply D; right; assumption. }
  assert (Y : forall x, In x (f a) -> ~ In x (flat_map f l)).
  { intros x I J. apply in_flat_map in J. destruct J as (b & Ib & J). assert (a = b) by (apply (D a b x); [left; reflexivity|right; exact Ib|exact I|exact J]). subst. contradiction. }
  assert (Z := F a (or_introl eq_refl)). revert Z Y. generalize (f a). intros m. induction m as [|b m IHm]; intros Z Y; cbn [app]; [exact X|].
  inversion Z; subst. constructor.
  - intros I. apply in_app_or in I. destruct I as [I|I]; [contradiction|]. apply (Y b); [left; reflexivity|exact I].
  - apply IHm; [assumption|]. intros x I. apply Y. right. exact I.
Qed.
Lemma NoDup_map_inj {A B} (f : A -> B) l : (forall a b, In a l -> In b l -> f a = f b -> a = b) -> NoDup l -> NoDup (map f l).
Proof.
  intros I N. induction N as [|a l H N IH]; cbn [map]; [constructor|]. constructor.
  - intros J. apply in_map_iff in J. destruct J as (b & E & Jb). apply H. rewrite <- (I b a); auto; [right; exact Jb|left; reflexivity].
  - apply IH. intros x y Ix Iy. apply I; right; assumption.
Qed.

Lemma NoDup_app_inv {A} (a b : list A) : NoDup (a ++ b)%list -> NoDup a /\ NoDup b /\ forall x, In x a -> ~ In x b.
Proof.
  induction a as [|c a IH]; cbn [app]; intros H; [split; [constructor|]; split; [exact H|intros x []]|].
  inversion H as [|c' l' Hc Hl]; subst. destruct (IH Hl) as (A1 & A2 & A3). split; [constructor; [intros I; apply Hc, in_or_app; left; exact I|exact A1]|].
  split; [exact A2|]. intros x [<-|I] J; [apply Hc, in_or_app; right; exact J|exact (A3 x I J)].
Qed.
(** dir_obj_side *)
Definition stem (dir obj sd : string) : str := (S_ dir ++ S_ "_" ++ S_ obj ++ S_ "_" ++ S_ sd)%list.
Definition stem_name (sp : splits) (st : str) (d0 d1 d2 : nat) : str :=
  (S_ "grid" ++ dec_N (gn sp) ++ S_ "_" ++ st ++ S_ "_X" ++ dec_N (N.of_nat d0) ++ S_ "Y" ++ dec_N (N.of_nat d1) ++ S_ "Z" ++ dec_N (N.of_nat d2))%list.
Lemma name_stem sp dir obj sd d0 d1 d2 : SCS_name sp dir obj sd d0 d1 d2 = stem_name sp (stem dir obj sd) d0 d1 d2.
Proof. unfold SCS_name, stem_name, stem. rewrite <- !app_assoc. reflexivity. Qed.
Lemma dec_inj a b : dec_N (N.of_nat a) = dec_N (N.of_nat b) -> a = b.
Proof. intros H. apply (f_equal (fun l => read_digits l 0)) in H. rewrite !read_dec_N in H. lia. Qed.
Lemma stem_name_inj sp st st' d0 d1 d2 e0 e1 e2 : ~ In "X"%char st -> ~ In "X"%char st' ->
  stem_name sp st d0 d1 d2 = stem_name sp st' e0 e1 e2 -> st = st' /\ d0 = e0 /\ d1 = e1 /\ d2 = e2.
Proof.
  intros H H' E. unfold stem_name in E.
  apply app_inv_head in E. apply app_inv_head in E. apply app_inv_head in E.
  change (S_ "_X") with (["_"%char] ++ ["X"%char])%list in E. rewrite <- !app_assoc in E.
  rewrite (app_assoc st), (app_assoc st') in E. cbn [app] in E.
  apply split_at in E; [|intros I; apply in_app_or in I; destruct I as [I|[I|[]]]; [contradiction|discriminate]..].
  destruct E as [E1 E2]. apply app_inj_tail in E1. destruct E1 as [-> _]. split; [reflexivity|].
  change (S_ "Y") with ["Y"%char] in E2. cbn [app] in E2. apply split_at in E2; [|apply digits_no; reflexivity..]. destruct E2 as [E0 E2]. apply dec_inj in E0.
  change (S_ "Z") with ["Z"%char] in E2. cbn [app] in E2. apply split_at in E2; [|apply digits_no; reflexivity..]. destruct E2 as [E3 E2]. apply dec_inj in E3. apply dec_inj in E2. auto.
Qed.
Definition seg_stems (s : segment) : list str :=
  match s with Spheres d o l => map (fun sd => stem d o (side_name sd)) l | CentralBox d o => [stem d "central_box" d] end.
Lemma seg_names sp s : map p_name (seg_patches sp s) = grid3 sp (fun d0 d1 d2 => map (fun st => stem_name sp st d0 d1 d2) (seg_stems s)).
Proof.
  unfold grid3. destruct s as [dir o l|dir o]; cbn [seg_patches seg_stems]; unfold grid3;
    rewrite !flat_map_concat_map, concat_map, map_map; f_equal; apply map_ext; intros d0;
    rewrite !flat_map_concat_map, concat_map, map_map; f_equal; apply map_ext; intros d1;
    rewrite !flat_map_concat_map, concat_map, map_map; f_equal; apply map_ext; intros d2.
  - rewrite !map_map. apply map_ext. intros sd. cbn [p_name]. apply name_stem.
  - cbn [map p_name]. rewrite name_stem. reflexivity.
Qed.
Lemma names_nodup sp segs : NoDup (flat_map seg_stems segs) -> (forall st, In st (flat_map seg_stems segs) -> ~ In "X"%char st) ->
  NoDup (map p_name (flat_map (seg_patches sp) segs)).
Proof.
  intros N X. rewrite flat_map_concat_map, concat_map, map_map, <- flat_map_concat_map.
  erewrite flat_map_ext by (intros s; apply seg_names).
  (* all names as one triple loop inside *)
  assert (G : forall s x, In x (grid3 sp (fun d0 d1 d2 => map (fun st => stem_name sp st d0 d1 d2) (seg_stems s))) -> exists st d0 d1 d2, In st (seg_stems s) /\ x = stem_name sp st d0 d1 d2).
  { intros s x I. apply in_grid3 in I. destruct I as (d0 & d1 & d2 & _ & _ & _ & I). apply in_map_iff in I. destruct I as (st & <- & I). exists st, d0, d1, d2. auto. }
  assert (S : forall s, NoDup (seg_stems s) -> (forall st, In st (seg_stems s) -> ~ In "X"%char st) -> NoDup (grid3 sp (fun d0 d1 d2 => map (fun st => stem_name sp st d0 d1 d2) (seg_stems s)))).
  { intros s Ns Xs. unfold grid3. apply NoDup_flat_map; [apply seq_NoDup| |].
    - intros d0 _. apply NoDup_flat_map; [apply seq_NoDup| |].
      + intros d1 _. apply NoDup_flat_map; [apply seq_NoDup| |].
        * intros d2 _. apply NoDup_map_inj; [|exact Ns]. intros a b Ia Ib E. apply stem_name_inj in E; auto. tauto.
        * intros a b x _ _ Ia Ib. apply in_map_iff in Ia, Ib. destruct Ia as (s1 & <- & I1), Ib as (s2 & E & I2). apply stem_name_inj in E; auto. symmetry; tauto.
      + intros a b x _ _ Ia Ib. apply in_flat_map in Ia, Ib. destruct Ia as (c & _ & Ia), Ib as (c' & _ & Ib).
        apply in_map_iff in Ia, Ib. destruct Ia as (s1 & <- & I1), Ib as (s2 & E & I2). apply stem_name_inj in E; auto. symmetry; tauto.
    - intros a b x _ _ Ia Ib. apply in_flat_map in Ia, Ib. destruct Ia as (c & _ & Ia), Ib as (c' & _ & Ib). apply in_flat_map in Ia, Ib. destruct Ia as (e & _ & Ia), Ib as (e' & _ & Ib).
      apply in_map_iff in Ia, Ib. destruct Ia as (s1 & <- & I1), Ib as (s2 & E & I2). apply stem_name_inj in E; auto. symmetry; tauto. }
  induction segs as [|s segs IH]; cbn [flat_map] in *; [constructor|].
  destruct (NoDup_app_inv _ _ N) as (N1 & N2 & D).
  assert (Y := IH N2 (fun st I => X st (in_or_app _ _ _ (or_intror I)))).
  assert (Z : NoDup (grid3 sp (fun d0 d1 d2 => map (fun st => stem_name sp st d0 d1 d2) (seg_stems s)))) by (apply S; [exact N1|intros st I; apply X, in_or_app; left; exact I]).
  assert (W : forall x, In x (grid3 sp (fun d0 d1 d2 => map (fun st => stem_name sp st d0 d1 d2) (seg_stems s))) ->
    ~ In x (flat_map (fun s => grid3 sp (fun d0 d1 d2 => map (fun st => stem_name sp st d0 d1 d2) (seg_stems s))) segs)).
  { intros x I J. apply G in I. destruct I as (st & d0 & d1 & d2 & I & ->). apply in_flat_map in J. destruct J as (s' & Is & J). apply G in J.
    destruct J as (st' & e0 & e1 & e2 & J & E). assert (J' : In st' (flat_map seg_stems segs)) by (apply in_flat_map; eauto).
    apply stem_name_inj in E; [|apply X, in_or_app; auto..]. destruct E as [-> _]. exact (D st' I J'). }
  revert Z W. generalize (grid3 sp (fun d0 d1 d2 => map (fun st => stem_name sp st d0 d1 d2) (seg_stems s))). intros m Z W.
  induction Z as [|a m Ha Z IHm]; cbn [app]; [exact Y|]. constructor.
  - intros I. apply in_app_or in I. destruct I as [I|I]; [contradiction|]. apply (W a); [left; reflexivity|exact I].
  - apply IHm. intros x I. apply W. right. exact I.
Qed.
Fixpoint nodupb (l : list str) : bool := match l with [] => true | a :: r => negb (existsb (str_eqb a) r) && nodupb r end.
Lemma nodupb_ok l : nodupb l = true -> NoDup l.
Proof.
  induction l as [|a l IH]; cbn [nodupb]; [constructor|]. intros H. apply andb_true_iff in H. destruct H as [H1 H2]. constructor; [|apply IH, H2].
  intros I. apply negb_true_iff in H1. rewrite (proj2 (existsb_exists _ _)) in H1; [discriminate|]. exists a. split; [exact I|apply str_eqb_refl].
Qed.
Lemma inventory_stems k a b c : nodupb (flat_map seg_stems (inventory k a b c)) = true /\ forallb (fun st => negb (existsb (Ascii.eqb "X"%char) st)) (flat_map seg_stems (inventory k a b c)) = true.
Proof. destruct k, a, b, c; vm_compute; split; reflexivity. Qed.
Lemma names_unique k sp u g : scs k -> fill_patches k sp u = Ok g -> NoDup (map p_name g).
Proof.
  intros K E. rewrite (fill_inventory k sp u K) in E. destruct (centred k u); [|discriminate]. destruct (holes_filled k u) as [f| |]; try discriminate.
  cbn [obind] in E. injection E as <-. destruct (inventory_stems k (first_left k u) f (outer u)) as [H1 H2]. apply names_nodup.
  - apply nodupb_ok, H1.
  - intros st I J. rewrite forallb_forall in H2. specialize (H2 st I). apply negb_true_iff in H2. rewrite (proj2 (existsb_exists _ _)) in H2; [discriminate|].
    exists "X"%char. split; [exact J|apply Ascii.eqb_refl].
Qed.
