(** GridInner.v - the patches marked as inner boundary, and the layers of an object. *)
From Verif Require Import Base ParamText TextModel TextSpec TextProofs RegionModel RegionProofs GenObsDisp ObsDispModel ObsDispSpec ObsDispProofs ObsDispTables GridModel GridSpec GridProofs GridCover.
Open Scope string_scope.

Lemma one_word k g t l : scs k -> Forall (tagged words) g -> In t dictionary -> read_separated_items t ","%char = Ok [t] -> collect_patches k g t = Ok l ->
  forall p, In p l <-> In p g /\ In t (words p).
Proof.
  intros K Tg D R E p. rewrite (collect_ok words k g t [t] K Tg R ltac:(discriminate) ltac:(constructor; [exact D|constructor])) in E.
  assert (F : l = filter (hasb words [t]) g) by (destruct (filter (hasb words [t]) g); [discriminate|injection E as <-; reflexivity]). rewrite F, filter_In.
  rewrite (hasb_spec words [t] p). split; intros [A B]; (split; [exact A|]).
  - destruct B as (x & [<-|[]] & I). exact I.
  - exists t. split; [left; reflexivity|exact B].
Qed.
Definition hole_names (k : kind) : list string := match k with K_SCS_BHNS | K_SCS_SBH => ["BH"] | K_SCS_BHBH => ["BH1"; "BH2"] | _ => [] end.
Lemma inner_marked k sp u g : scs k -> fill_patches k sp u = Ok g -> 0 < na sp -> 0 < nb sp -> 0 < nc sp ->
  exists f l, holes_filled k u = Ok f /\ inner_boundary k u g = Ok l /\
    forall p, In p l <-> In p g /\ f = false /\ exists o, In o (hole_names k) /\ In (S_ o ++ S_ "_around_IB")%list (words p).
Proof.
  intros K E H0 H1 H2. destruct (grid_tagged k sp u g K E) as (f & Hf & _ & Eg & Tg & _). exists f.
  assert (P := inventory_plain k (first_left k u) f (outer u)).
  assert (C : forall t, present [t] (inventory k (first_left k u) f (outer u)) = true -> In (S_ t) dictionary -> read_separated_items (S_ t) ","%char = Ok [S_ t] ->
    exists l, collect_patches k g (S_ t) = Ok l /\ forall p, In p l <-> In p g /\ In (S_ t) (words p)).
  { intros t Pr D R. assert (NE := not_empty sp [t] _ Pr P H0 H1 H2). rewrite <- Eg in NE. cbn [empty_region] in NE. apply negb_false_iff, existsb_exists in NE.
    destruct NE as (p & Ip & Hp). pose proof (collect_ok words k g (S_ t) [S_ t] K Tg R ltac:(discriminate) ltac:(constructor; [exact D|constructor])) as CO.
    assert (J : In p (filter (hasb words [S_ t]) g)).
    { apply filter_In. split; [exact Ip|]. rewrite has_hasb in Hp. exact Hp. }
    destruct (filter (hasb words [S_ t]) g) as [|x xs] eqn:F; [destruct J|]. exists (x :: xs). split; [exact CO|]. apply (one_word k g (S_ t) (x :: xs) K Tg D R CO). }
  assert (N : forall (x : string), (exists o, In o [x] /\ True) <-> True) by (intros x; split; [auto|intros _; exists x; split; [left; reflexivity|auto]]).
  unfold scs in K. cbn [In] in K.
  destruct K as [<-|[<-|[<-|[<-|[<-|[]]]]]]; cbn [inner_boundary holes_filled hole_names] in *.
  - rewrite Hf. cbn [obind]. destruct f.
    + exists []. split; [reflexivity|]. split; [reflexivity|]. intros p. split; [intros []|intros (_ & A & _); discriminate A].
    + destruct (C "BH_around_IB") as (l & Cl & Hl); [destruct (first_left K_SCS_BHNS u), (outer u); vm_compute; reflexivity|vm_compute; tauto|vm_compute; reflexivity|].
      exists l. split; [reflexivity|]. split; [exact Cl|]. intros p. rewrite Hl. split.
      * intros [A B]. split; [exact A|]. split; [reflexivity|]. exists "BH". split; [left; reflexivity|exact B].
      * intros (A & _ & o & [<-|[]] & B). split; [exact A|exact B].
  - injection Hf as <-. exists []. split; [reflexivity|]. split; [reflexivity|]. intros p. split; [intros []|intros (_ & _ & o & [] & _)].
  - rewrite Hf. cbn [obind]. destruct f.
    + exists []. split; [reflexivity|]. split; [reflexivity|]. intros p. split; [intros []|intros (_ & A & _); discriminate A].
    + destruct (C "BH1_around_IB") as (l & Cl & Hl); [destruct (first_left K_SCS_BHBH u), (outer u); vm_compute; reflexivity|vm_compute; tauto|vm_compute; reflexivity|].
      destruct (C "BH2_around_IB") as (l2 & Cl2 & Hl2); [destruct (first_left K_SCS_BHBH u), (outer u); vm_compute; reflexivity|vm_compute; tauto|vm_compute; reflexivity|].
      exists (l ++ l2)%list. split; [reflexivity|]. split; [rewrite Cl; cbn [obind]; rewrite Cl2; reflexivity|]. intros p. rewrite in_app_iff, Hl, Hl2. split.
      * intros [[A B]|[A B]]; (split; [exact A|]); (split; [reflexivity|]); [exists "BH1"|exists "BH2"]; (split; [cbn; tauto|exact B]).
      * intros (A & _ & o & [<-|[<-|[]]] & B); [left|right]; (split; [exact A|exact B]).
  - injection Hf as <-. exists []. split; [reflexivity|]. split; [reflexivity|]. intros p. split; [intros []|intros (_ & _ & o & [] & _)].
  - rewrite Hf. cbn [obind]. destruct f.
    + exists []. split; [reflexivity|]. split; [reflexivity|]. intros p. split; [intros []|intros (_ & A & _); discriminate A].
    + destruct (C "BH_around_IB") as (l & Cl & Hl); [destruct (first_left K_SCS_SBH u), (outer u); vm_compute; reflexivity|vm_compute; tauto|vm_compute; reflexivity|].
      exists l. split; [reflexivity|]. split; [exact Cl|]. intros p. rewrite Hl. split.
      * intros [A B]. split; [exact A|]. split; [reflexivity|]. exists "BH". split; [left; reflexivity|exact B].
      * intros (A & _ & o & [<-|[]] & B). split; [exact A|exact B].
Qed.
(** the layers of an object *)
Lemma app_inj_ne (a b : str) : (a ++ S_ "_OB" = b ++ S_ "_IB")%list -> False.
Proof.
  intros H. apply (f_equal (@rev ascii)) in H. rewrite !rev_app_distr in H. cbn in H. discriminate H.
Qed.
Lemma app_neq (a : str) (s : str) : s <> [] -> (a ++ s)%list <> a.
Proof. intros N H. apply (f_equal (@List.length ascii)) in H. rewrite app_length in H. destruct s; [congruence|cbn in H; lia]. Qed.
Lemma layers obj nsd2 d2 nm n2 : plain obj -> d2 < nsd2 -> let p := mkpatch nm (cs_region obj nsd2 d2) n2 in
  In obj (words p) /\ (In (obj ++ S_ "_OB")%list (words p) <-> d2 = nsd2 - 1) /\ (In (obj ++ S_ "_IB")%list (words p) <-> d2 = 0) /\
  (forall w, In w (words p) -> w = obj \/ w = (obj ++ S_ "_OB")%list \/ w = (obj ++ S_ "_IB")%list).
Proof.
  intros P H p. assert (PL : forall s, plain (S_ s) -> plain (obj ++ S_ s)%list).
  { intros s [A B]. destruct P as [C D]. split; intros I; apply in_app_or in I; tauto. }
  assert (W : words p = cs_tags obj nsd2 d2).
  { unfold words, p. cbn [p_region]. rewrite cs_region_tags by exact H. apply words_tags. unfold cs_tags. constructor; [exact P|]. apply Forall_app. split.
    - destruct (d2 =? nsd2 - 1)%nat; constructor; [|constructor]. apply PL, plainb_ok. reflexivity.
    - destruct (d2 =? 0)%nat; constructor; [|constructor]. apply PL, plainb_ok. reflexivity. }
  rewrite W. unfold cs_tags. split; [left; reflexivity|].
  destruct (Nat.eqb_spec d2 (nsd2 - 1)) as [E1|E1], (Nat.eqb_spec d2 0) as [E2|E2]; cbn [app In]; (split; [|split]).
  all: try (split; [intros _; assumption|intros _; tauto]).
  all: try (split; [|intros X; contradiction]; intros X; repeat (destruct X as [X|X]); try contradiction; exfalso;
     first [exact (app_neq obj (S_ "_OB") ltac:(discriminate) (eq_sym X)) | exact (app_neq obj (S_ "_IB") ltac:(discriminate) (eq_sym X)) | exact (app_inj_ne _ _ X) | exact (app_inj_ne _ _ (eq_sym X))]).
  all: intros w X; repeat (destruct X as [X|X]); subst; try tauto.
Qed.
(** the names of the grid kinds *)
Definition kind_names : list (string * kind) := [("SplitCubedSpherical(BH+NS)", K_SCS_BHNS); ("SplitCubedSpherical(NS+NS)", K_SCS_NSNS); ("SplitCubedSpherical(BH+BH)", K_SCS_BHBH);
  ("SplitCubedSpherical(NS)", K_SCS_SNS); ("SplitCubedSpherical(BH)", K_SCS_SBH); ("CubedSpherical(BH+NS)", K_CS_BHNS); ("CubedSpherical(NS+NS)", K_CS_NSNS); ("box", K_Box)].
Lemma kind_find s : set_grid_kind s = match find (fun x => strcmp_i (Some s) (Some (S_ (fst x)))) kind_names with Some x => Ok (snd x) | None => Abort end.
Proof. unfold set_grid_kind, kind_names. cbn [find fst]. repeat (match goal with |- context [if ?b then _ else _] => destruct b end; [reflexivity|]). reflexivity. Qed.
Lemma kind_names_distinct : forallb (fun x => forallb (fun y => if str_eqb (map tolower (S_ (fst x))) (map tolower (S_ (fst y))) then kind_eqb (snd x) (snd y) else true) kind_names) kind_names = true.
Proof. vm_compute. reflexivity. Qed.
Lemma kind_eqb_eq a b : kind_eqb a b = true -> a = b.
Proof. destruct a, b; intros H; try reflexivity; discriminate H. Qed.
Lemma kind_iff s k : set_grid_kind s = Ok k <-> exists n, In (n, k) kind_names /\ strcmp_i (Some s) (Some (S_ n)) = true.
Proof.
  rewrite kind_find. destruct (find _ kind_names) as [[n k']|] eqn:F.
  - apply find_some in F. destruct F as [I E]. cbn [fst snd] in *. split.
    + intros H. injection H as <-. exists n. auto.
    + intros (n2 & I2 & E2). pose proof kind_names_distinct as D. rewrite forallb_forall in D. specialize (D _ I). rewrite forallb_forall in D. specialize (D _ I2). cbn [fst snd] in D.
      assert (L : map tolower (S_ n) = map tolower (S_ n2)) by (rewrite <- (is_low s n E), <- (is_low s n2 E2); reflexivity). rewrite L, str_eqb_refl in D.
      apply kind_eqb_eq in D. subst. reflexivity.
  - split; [discriminate|]. intros (n & I & E). pose proof (find_none _ _ F (n, k) I) as X. cbn [fst] in X. rewrite E in X. discriminate X.
Qed.
