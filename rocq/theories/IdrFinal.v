(** IdrFinal.v - the arrays and the files of the initial data reader. *)
From Verif Require Import Base ParamModel ParamText TextModel TextSpec TextProofs CheckpointModel CheckpointSpec CheckpointProofs CheckpointFinal
  IdrModel IdrSpec IdrProofs.

Section S.
Variable dadd : dbl -> dbl -> dbl.
Variable isfinite : dbl -> bool.
Variable X : Type.
Variable g : grid X.

(** the value of field [n] at the place [w] *)
Definition value_at (n : str) (w : nat * X) (v : dbl) : Prop :=
  exists l k, nth_error (g_patches X g) (fst w) = Some l /\ first_at l n k /\ v = g_interp X g (fst w) k (snd w).
(** the value of field [n] at the point [x] of the evolution code *)
Definition value_of (CM : point) (n : str) (x : point) (v : dbl) : Prop :=
  exists w, g_locate X g (shifted dadd CM x) = Some w /\ value_at n w v.

Lemma Ind_ok p n i : Ind_in X g p n = Ok i <-> exists l, nth_error (g_patches X g) p = Some l /\ first_at l n i.
Proof.
  unfold Ind_in. destruct (nth_error (g_patches X g) p) as [l|]; [|split; [discriminate|intros (l & E & _); discriminate]].
  destruct (index_from 0 n l) as [k|] eqn:E.
  - apply index_from_spec in E. destruct E as (j & -> & F). cbn [Nat.add]. split.
    + intros H. injection H as <-. exists l. auto.
    + intros (l' & H & F'). injection H as <-. f_equal. destruct (lt_eq_lt_dec j i) as [[L|L]|L]; [|exact L|];
      [exfalso; exact (proj2 F' j L (proj1 F))|exfalso; exact (proj2 F i L (proj1 F'))].
  - split; [discriminate|]. intros (l' & H & F'). injection H as <-. apply index_from_none in E. exfalso. apply E. eapply nth_error_In. apply F'.
Qed.
Lemma Ind_abort p n l : nth_error (g_patches X g) p = Some l -> (Ind_in X g p n = Abort <-> ~ In n l).
Proof.
  intros E. unfold Ind_in. rewrite E. destruct (index_from 0 n l) eqn:F.
  - split; [discriminate|]. intros H. exfalso. assert (index_from 0 n l = None) by (apply index_from_none; exact H). congruence.
  - apply index_from_none in F. tauto.
Qed.
Lemma find_XYZ_ok CM : forall xs ws, find_XYZ dadd X g CM xs = Ok ws <-> Forall2 (fun x w => g_locate X g (shifted dadd CM x) = Some w) xs ws.
Proof.
  induction xs as [|x xs IH]; intros ws; cbn [find_XYZ].
  - split; [intros H; injection H as <-; constructor|intros H; inversion H; reflexivity].
  - destruct (g_locate X g (shifted dadd CM x)) as [w|] eqn:E.
    + destruct (find_XYZ dadd X g CM xs) as [l| |]; cbn [obind].
      * split; [intros H; injection H as <-; constructor; [exact E|apply IH; reflexivity]|].
        intros H; inversion H; subst. assert (L := proj2 (IH _) H4). congruence.
      * split; [discriminate|]. intros H; inversion H; subst. assert (L := proj2 (IH _) H4). discriminate.
      * split; [discriminate|]. intros H; inversion H; subst. assert (L := proj2 (IH _) H4). discriminate.
    + split; [discriminate|]. intros H; inversion H; subst. congruence.
Qed.
Lemma find_XYZ_abort CM xs x : In x xs -> g_locate X g (shifted dadd CM x) = None -> find_XYZ dadd X g CM xs = Abort.
Proof.
  induction xs as [|y xs IH]; intros H E; [destruct H|]. cbn [find_XYZ]. destruct (g_locate X g (shifted dadd CM y)) as [w|] eqn:F; [|reflexivity].
  destruct H as [->|H]; [congruence|]. rewrite IH by assumption. reflexivity.
Qed.
Lemma all_names_ok p ns l : nth_error (g_patches X g) p = Some l -> ((all_names X g p ns = Ok tt) <-> incl ns l).
Proof.
  intros E. induction ns as [|n ns IH]; cbn [all_names]; [split; [intros _ a []|reflexivity]|].
  destruct (Ind_in X g p n) as [k| |] eqn:F; cbn [obind].
  - rewrite IH. apply Ind_ok in F. destruct F as (l' & E' & F). assert (l' = l) by congruence. subst l'.
    assert (I : In n l) by (eapply nth_error_In; apply F). split; [intros H a [->|K]; [exact I|apply H; exact K]|intros H a K; apply H; right; exact K].
  - split; [discriminate|]. intros H. apply (Ind_abort _ _ _ E) in F. exfalso. apply F. apply H. left. reflexivity.
  - unfold Ind_in in F. rewrite E in F. destruct (index_from 0 n l); discriminate.
Qed.
Lemma all_names_cases p ns l : nth_error (g_patches X g) p = Some l -> all_names X g p ns = Ok tt \/ all_names X g p ns = Abort.
Proof.
  intros E. induction ns as [|n ns IH]; cbn [all_names]; [left; reflexivity|]. unfold Ind_in. rewrite E. destruct (index_from 0 n l); cbn [obind]; auto.
Qed.
Lemma all_patches_ok ns : forall k, k <= List.length (g_patches X g) ->
  ((all_patches X g k ns = Ok tt) <-> forall p l, p < k -> nth_error (g_patches X g) p = Some l -> incl ns l).
Proof.
  induction k as [|k IH]; intros H; cbn [all_patches]; [split; [intros _ p l K; lia|reflexivity]|].
  destruct (nth_error (g_patches X g) k) as [lk|] eqn:E; [|apply nth_error_None in E; lia].
  assert (IH' := IH ltac:(lia)). destruct (all_patches X g k ns) as [[]| |]; cbn [obind].
  - rewrite (all_names_ok k ns lk E). split.
    + intros I p l Hp Ep. destruct (Nat.eq_dec p k) as [->|Nq]; [assert (l = lk) by congruence; subst; exact I|]. apply (proj1 IH' eq_refl p l); [lia|exact Ep].
    + intros I. apply (I k lk); [lia|exact E].
  - split; [discriminate|]. intros I. assert (C := proj2 IH' (fun p l Hp => I p l ltac:(lia))). discriminate.
  - split; [discriminate|]. intros I. assert (C := proj2 IH' (fun p l Hp => I p l ltac:(lia))). discriminate.
Qed.
Lemma all_patches_cases ns : forall k, k <= List.length (g_patches X g) -> all_patches X g k ns = Ok tt \/ all_patches X g k ns = Abort.
Proof.
  induction k as [|k IH]; intros H; cbn [all_patches]; [left; reflexivity|].
  destruct (nth_error (g_patches X g) k) as [lk|] eqn:E; [|apply nth_error_None in E; lia].
  destruct (IH ltac:(lia)) as [Q|Q]; rewrite Q; cbn [obind]; [|right; reflexivity]. apply (all_names_cases k ns lk E).
Qed.
Definition has_fields (ns : list str) : Prop := forall l, In l (g_patches X g) -> incl ns l.
Lemma all_patches_has ns : (all_patches X g (List.length (g_patches X g)) ns = Ok tt) <-> has_fields ns.
Proof.
  rewrite all_patches_ok by lia. split.
  - intros H l I. apply In_nth_error in I. destruct I as (p & E). apply (H p l); [apply nth_error_Some; congruence|exact E].
  - intros H p l _ E. apply H. eapply nth_error_In. exact E.
Qed.
(** every located point is in a patch of the grid *)
Definition located (ws : list (nat * X)) : Prop := Forall (fun w => fst w < List.length (g_patches X g)) ws.
Lemma values_ok n : forall ws vs, values X g n ws = Ok vs <-> Forall2 (value_at n) ws vs.
Proof.
  induction ws as [|w ws IH]; intros vs; cbn [values].
  - split; [intros H; injection H as <-; constructor|intros H; inversion H; reflexivity].
  - destruct (Ind_in X g (fst w) n) as [k| |] eqn:E; cbn [obind].
    + apply Ind_ok in E. destruct E as (l & El & F).
      assert (U : forall v, value_at n w v -> v = g_interp X g (fst w) k (snd w)).
      { intros v (l' & k' & E' & F' & ->). assert (E1 := proj2 (Ind_ok (fst w) n k) (ex_intro _ l (conj El F))).
        assert (E2 := proj2 (Ind_ok (fst w) n k') (ex_intro _ l' (conj E' F'))). assert (k' = k) by congruence. subst. reflexivity. }
      destruct (values X g n ws) as [r| |]; cbn [obind].
      * split; [intros H; injection H as <-; constructor; [exists l, k; auto|apply IH; reflexivity]|].
        intros H; inversion H; subst. assert (L := proj2 (IH _) H4). rewrite (U _ H2). congruence.
      * split; [discriminate|]. intros H; inversion H; subst. assert (L := proj2 (IH _) H4). discriminate.
      * split; [discriminate|]. intros H; inversion H; subst. assert (L := proj2 (IH _) H4). discriminate.
    + split; [discriminate|]. intros H; inversion H; subst. destruct H2 as (lq & k' & E' & F' & _).
      assert (E2 := proj2 (Ind_ok (fst w) n k') (ex_intro _ lq (conj E' F'))). congruence.
    + split; [discriminate|]. intros H; inversion H; subst. destruct H2 as (lq & k' & E' & F' & _).
      assert (E2 := proj2 (Ind_ok (fst w) n k') (ex_intro _ lq (conj E' F'))). congruence.
Qed.
Lemma values_ex n ws : located ws -> (forall l, In l (g_patches X g) -> In n l) -> exists vs, values X g n ws = Ok vs.
Proof.
  intros L H. induction L as [|w ws Hw L IH]; cbn [values]; [eexists; reflexivity|].
  destruct (nth_error (g_patches X g) (fst w)) as [l|] eqn:E; [|apply nth_error_None in E; lia].
  assert (I : In n l) by (apply H; eapply nth_error_In; exact E).
  unfold Ind_in. rewrite E. destruct (index_from 0 n l) eqn:F; [|apply index_from_none in F; contradiction].
  cbn [obind]. destruct IH as (vs & ->). cbn [obind]. eexists. reflexivity.
Qed.

(** what the arrays hold when fields [f], [f+1], .. have been saved *)
Definition saved (f : nat) (ns es : list str) (ws : list (nat * X)) (a a' : arrays) : Prop :=
  (forall j n, nth_error ns j = Some n -> exists e i, nth_error es (f + j) = Some e /\ nth_error Field_Dictionary i = Some e) /\
  (forall j n, nth_error ns j = Some n -> forall vs, Forall2 (value_at n) ws vs -> Forall (fun v => isfinite v = true) vs) /\
  (forall i, (forall j e, j < List.length ns -> nth_error es (f + j) = Some e -> nth_error Field_Dictionary i <> Some e) -> a' i = a i) /\
  (forall j n e i, nth_error ns j = Some n -> nth_error es (f + j) = Some e -> nth_error Field_Dictionary i = Some e ->
     (forall j', j < j' -> j' < List.length ns -> nth_error es (f + j') <> Some e) ->
     exists vs, a' i = Some vs /\ Forall2 (value_at n) ws vs).
Lemma forallb_Forall (p : dbl -> bool) l : forallb p l = true <-> Forall (fun v => p v = true) l.
Proof. rewrite forallb_forall, Forall_forall. reflexivity. Qed.
Lemma Forall2_value_det n ws vs vs' : Forall2 (value_at n) ws vs -> Forall2 (value_at n) ws vs' -> vs = vs'.
Proof. intros H H'. apply values_ok in H. apply values_ok in H'. congruence. Qed.
Lemma save_loop_saved ws : forall ns es f a a', save_loop isfinite X g f ns es ws a = Ok a' -> saved f ns es ws a a'.
Proof.
  induction ns as [|n ns IH]; intros es f a a' H; cbn [save_loop] in H.
  - injection H as <-. repeat split; try (intros j m E; destruct j; discriminate).
  - destruct (Nat.ltb (List.length es) f) eqn:L; [discriminate|].
    destruct (nth_error es f) as [e|] eqn:Ee; cbn [find_field_index obind] in H; [|discriminate].
    change (match index_from 0 e Field_Dictionary with Some i => Ok i | None => Abort end) with (find_field_index (Some e)) in H.
    destruct (find_field_index (Some e)) as [i| |] eqn:Ei; cbn [obind] in H; try discriminate.
    apply find_index_ok in Ei.
    destruct (values X g n ws) as [vs| |] eqn:Ev; cbn [obind] in H; try discriminate.
    apply values_ok in Ev. destruct (forallb isfinite vs) eqn:Fin; [|discriminate]. apply forallb_Forall in Fin.
    apply IH in H. destruct H as (S1 & S2 & S3 & S4). repeat split.
    + intros [|j] m Em; cbn [nth_error] in Em.
      * exists e, i. rewrite Nat.add_0_r. auto.
      * destruct (S1 j m Em) as (e' & i' & Q). exists e', i'. replace (f + S j) with (S f + j) by lia. exact Q.
    + intros [|j] m Em vs' Q; cbn [nth_error] in Em.
      * injection Em as <-. rewrite (Forall2_value_det _ _ _ _ Q Ev). exact Fin.
      * exact (S2 j m Em vs' Q).
    + intros i' Hi. assert (D : i' <> i).
      { intros ->. apply (Hi O e); [cbn; lia|rewrite Nat.add_0_r; exact Ee|exact Ei]. }
      rewrite S3.
      * unfold set_array. destruct (Nat.eqb_spec i' i); [contradiction|reflexivity].
      * intros j e' Hj Ej. apply (Hi (S j) e'); [cbn; lia|]. replace (f + S j) with (S f + j) by lia. exact Ej.
    + intros [|j] m e' i' Em Ee' Ei' Last; cbn [nth_error] in Em.
      * injection Em as <-. rewrite Nat.add_0_r, Ee in Ee'. injection Ee' as <-.
        assert (i' = i).
        { assert (A := proj2 (find_index_ok e i) Ei). assert (B := proj2 (find_index_ok e i') Ei'). congruence. }
        subst i'. exists vs. split; [|exact Ev]. rewrite S3.
        -- unfold set_array. rewrite Nat.eqb_refl. reflexivity.
        -- intros j e' Hj Ej Q. assert (e' = e) by congruence. subst e'. apply (Last (S j)); [lia|cbn; lia|]. replace (f + S j) with (S f + j) by lia. exact Ej.
      * apply (S4 j m e' i' Em); [replace (S f + j) with (f + S j) by lia; exact Ee'|exact Ei'|].
        intros j' J1 J2. replace (S f + j') with (f + S j') by lia. apply Last; [lia|cbn; lia].
Qed.
Lemma save_loop_ex ws : located ws -> forall ns es f a,
  (forall n l, In n ns -> In l (g_patches X g) -> In n l) ->
  (forall j n, nth_error ns j = Some n -> exists e i, nth_error es (f + j) = Some e /\ nth_error Field_Dictionary i = Some e) ->
  (forall n vs, In n ns -> Forall2 (value_at n) ws vs -> Forall (fun v => isfinite v = true) vs) ->
  exists a', save_loop isfinite X g f ns es ws a = Ok a'.
Proof.
  intros L. induction ns as [|n ns IH]; intros es f a H1 H2 H3; cbn [save_loop]; [eexists; reflexivity|].
  destruct (H2 O n eq_refl) as (e & i & Ee & Ei). rewrite Nat.add_0_r in Ee.
  assert (Lf : f < List.length es) by (apply nth_error_Some; congruence).
  destruct (Nat.ltb_spec (List.length es) f); [lia|]. rewrite Ee. rewrite (proj2 (find_index_ok e i) Ei). cbn [obind].
  destruct (values_ex n ws L (fun l I => H1 n l (or_introl eq_refl) I)) as (vs & Ev). rewrite Ev. cbn [obind].
  apply values_ok in Ev. rewrite (proj2 (forallb_Forall _ _) (H3 n vs (or_introl eq_refl) Ev)).
  apply IH.
  - intros m l I. apply H1. right. exact I.
  - intros j m Em. destruct (H2 (S j) m Em) as (e' & i' & Q). exists e', i'. replace (S f + j) with (f + S j) by lia. exact Q.
  - intros m vs' I. apply H3. right. exact I.
Qed.

Lemma items_list l : l <> [] -> Forall item l -> read_separated_items (join_with ","%char l) ","%char = Ok l.
Proof. intros _ H. apply items_join; [discriminate|exact H]. Qed.

(** the whole array mode *)
Definition export (a : arrays) (npoints : Z) (CM : point) (xs : list point) (fields evo : str) : outcome arrays :=
  do ws <- find_XYZ_n dadd X g npoints CM xs; save_in_array isfinite X g a ws fields evo.
Definition on_grid : Prop := forall x w, g_locate X g x = Some w -> fst w < List.length (g_patches X g).
Lemma points_located CM xs ws : on_grid -> Forall2 (fun x w => g_locate X g (shifted dadd CM x) = Some w) xs ws -> located ws.
Proof. intros G H. induction H; constructor; [eapply G; eassumption|assumption]. Qed.
Lemma F2_values CM n xs ws vs : Forall2 (fun x w => g_locate X g (shifted dadd CM x) = Some w) xs ws ->
  (Forall2 (value_at n) ws vs <-> Forall2 (value_of CM n) xs vs).
Proof.
  intros H. revert vs. induction H as [|x w xs ws Hw H IH]; intros vs.
  - split; intros K; inversion K; constructor.
  - split; intros K; inversion K; subst; constructor; try (apply IH; assumption).
    + exists w. auto.
    + destruct H2 as (w' & E & V). assert (w' = w) by congruence. subst. exact V.
Qed.

Definition in_uint (npoints : Z) (xs : list point) : Prop := npoints = Z.of_nat (List.length xs) /\ (npoints < 2 ^ 31)%Z.
Lemma find_n xs npoints CM : in_uint npoints xs -> find_XYZ_n dadd X g npoints CM xs = find_XYZ dadd X g CM xs.
Proof.
  intros [-> H]. unfold find_XYZ_n. cbv zeta. unfold to_uint. rewrite Z.mod_small by lia. rewrite Nat2Z.id.
  destruct (Nat.ltb_spec (List.length xs) (List.length xs)); [lia|]. rewrite firstn_all. reflexivity.
Qed.
Lemma save_unfold a ws ns es : ns <> [] -> es <> [] -> Forall item ns -> Forall item es ->
  save_in_array isfinite X g a ws (join_with ","%char ns) (join_with ","%char es) =
  (do _ <- all_patches X g (List.length (g_patches X g)) ns; save_loop isfinite X g 0 ns es ws a).
Proof.
  intros N1 N2 I1 I2. unfold save_in_array. rewrite (items_list ns N1 I1). cbn [obind]. rewrite (items_list es N2 I2). cbn [obind].
  destruct ns; [congruence|]. destruct es; [congruence|]. reflexivity.
Qed.
Lemma export_ok a npoints CM xs ns es a' :
  in_uint npoints xs -> ns <> [] -> es <> [] -> Forall item ns -> Forall item es ->
  export a npoints CM xs (join_with ","%char ns) (join_with ","%char es) = Ok a' ->
  (forall i, (forall e f, f < List.length ns -> nth_error es f = Some e -> nth_error Field_Dictionary i <> Some e) -> a' i = a i) /\
  (forall f n e i, nth_error ns f = Some n -> last_among (List.length ns) es e f -> nth_error Field_Dictionary i = Some e ->
     exists vs, a' i = Some vs /\ Forall2 (value_of CM n) xs vs /\ Forall (fun v => isfinite v = true) vs).
Proof.
  intros U N1 N2 I1 I2 H. unfold export in H. rewrite (find_n xs npoints CM U) in H.
  destruct (find_XYZ dadd X g CM xs) as [ws| |] eqn:Ew; cbn [obind] in H; try discriminate. apply find_XYZ_ok in Ew.
  rewrite (save_unfold a ws ns es N1 N2 I1 I2) in H. destruct (all_patches X g (List.length (g_patches X g)) ns) as [[]| |]; cbn [obind] in H; try discriminate.
  apply save_loop_saved in H. destruct H as (S1 & S2 & S3 & S4). split.
  - intros i Hi. apply S3. intros j e Hj Ej. apply (Hi e j Hj Ej).
  - intros f n e i En (Lf & Ee & La) Ei. destruct (S4 f n e i En Ee Ei) as (vs & Ea & Fv).
    + intros j' J1 J2. apply La; assumption.
    + exists vs. split; [exact Ea|]. split; [apply (F2_values CM n xs ws vs Ew); exact Fv|]. exact (S2 f n En vs Fv).
Qed.
(** and it succeeds exactly when nothing is missing *)
Lemma export_succeeds a npoints CM xs ns es : on_grid ->
  in_uint npoints xs -> ns <> [] -> es <> [] -> Forall item ns -> Forall item es ->
  (exists a', export a npoints CM xs (join_with ","%char ns) (join_with ","%char es) = Ok a') <->
  (forall x, In x xs -> g_locate X g (shifted dadd CM x) <> None) /\ has_fields ns /\
  (List.length ns <= List.length es)%nat /\ (forall f e, f < List.length ns -> nth_error es f = Some e -> In e Field_Dictionary) /\
  (forall n x v, In n ns -> In x xs -> value_of CM n x v -> isfinite v = true).
Proof.
  intros G U N1 N2 I1 I2. unfold export. rewrite (find_n xs npoints CM U). split.
  - intros (a' & H). destruct (find_XYZ dadd X g CM xs) as [ws| |] eqn:Ew; cbn [obind] in H; try discriminate. 
    assert (Ew' := proj1 (find_XYZ_ok CM xs ws) Ew).
    rewrite (save_unfold a ws ns es N1 N2 I1 I2) in H. destruct (all_patches X g (List.length (g_patches X g)) ns) as [[]| |] eqn:Ep; cbn [obind] in H; try discriminate.
    apply all_patches_has in Ep. apply save_loop_saved in H. destruct H as (S1 & S2 & _). split; [|split; [exact Ep|split; [|split]]].
    + intros x Ix E. rewrite (find_XYZ_abort CM xs x Ix E) in Ew. discriminate.
    + destruct (le_lt_dec (List.length ns) (List.length es)) as [?|L]; [assumption|exfalso].
      destruct (nth_error ns (List.length es)) as [n|] eqn:En; [|apply nth_error_None in En; lia].
      destruct (S1 _ _ En) as (e & i & Ee & _). assert (List.length es < List.length es)%nat by (apply nth_error_Some; cbn [Nat.add] in Ee; congruence). lia.
    + intros f e Lf Ee. destruct (nth_error ns f) as [n|] eqn:En; [|apply nth_error_None in En; lia].
      destruct (S1 _ _ En) as (e' & i & Ee' & Ei). cbn [Nat.add] in Ee'. assert (e' = e) by congruence. subst e'. eapply nth_error_In. exact Ei.
    + intros n x v In_ Ix V. destruct (values_ex n ws (points_located CM xs ws G Ew') (fun l I => Ep l I n In_)) as (vs & Ev). apply values_ok in Ev.
      apply In_nth_error in In_. destruct In_ as (j & Ej). assert (Fin := S2 j n Ej vs Ev).
      apply (F2_values CM n xs ws vs Ew') in Ev. clear -Ix V Ev Fin. induction Ev as [|y u xs vs Hy Ev IH]; [destruct Ix|].
      inversion Fin; subst. destruct Ix as [->|Ix]; [|apply IH; assumption].
      destruct V as (w & E1 & l & k & E2 & E3 & ->). destruct Hy as (w' & F1 & l' & k' & F2 & F3 & ->).
      assert (w' = w) by congruence. subst w'. assert (K1 := proj2 (Ind_ok (fst w) n k) (ex_intro _ l (conj E2 E3))).
      assert (K2 := proj2 (Ind_ok (fst w) n k') (ex_intro _ l' (conj F2 F3))). assert (k' = k) by congruence. subst k'. assumption.
  - intros (A1 & A2 & A3 & A4 & A5).
    assert (EW : exists ws, Forall2 (fun x w => g_locate X g (shifted dadd CM x) = Some w) xs ws).
    { clear -A1. induction xs as [|x xs IH]; [exists []; constructor|]. destruct IH as (ws & F); [intros y Iy; apply A1; right; exact Iy|].
      destruct (g_locate X g (shifted dadd CM x)) as [w|] eqn:E; [exists (w :: ws); constructor; assumption|]. exfalso. apply (A1 x (or_introl eq_refl)). exact E. }
    destruct EW as (ws & Ew). rewrite (proj2 (find_XYZ_ok CM xs ws) Ew). cbn [obind]. rewrite (save_unfold a ws ns es N1 N2 I1 I2).
    rewrite (proj2 (all_patches_has ns) A2). cbn [obind].
    apply save_loop_ex.
    + apply (points_located CM xs ws G Ew).
    + intros n l I Il. apply (A2 l Il n I).
    + intros j n Ej. assert (Lj : (j < List.length ns)%nat) by (apply nth_error_Some; congruence).
      destruct (nth_error es j) as [e|] eqn:Ee; [|apply nth_error_None in Ee; lia]. exists e. cbn [Nat.add].
      destruct (In_nth_error _ _ (A4 j e Lj Ee)) as (i & Ei). exists i. auto.
    + intros n vs I V. apply (F2_values CM n xs ws vs Ew) in V. apply Forall_forall. intros v Iv.
      apply In_nth_error in Iv. destruct Iv as (j & Ej).
      assert (Q : exists x, In x xs /\ value_of CM n x v).
      { clear -V Ej. revert j Ej. induction V as [|x u xs vs Hx V IH]; intros j Ej; [destruct j; discriminate|].
        destruct j as [|j]; [cbn in Ej; injection Ej as <-; exists x; split; [left; reflexivity|exact Hx]|].
        destruct (IH j Ej) as (y & I & Q). exists y. split; [right; exact I|exact Q]. }
      destruct Q as (x & Ix & Q). exact (A5 n x v I Ix Q).
Qed.
(** the ways to stop *)
Lemma export_abort_point a npoints CM xs fields evo x : in_uint npoints xs -> In x xs -> g_locate X g (shifted dadd CM x) = None ->
  export a npoints CM xs fields evo = Abort.
Proof. intros U I E. unfold export. rewrite (find_n xs npoints CM U), (find_XYZ_abort CM xs x I E). reflexivity. Qed.
Lemma export_abort_field a npoints CM xs ns es : in_uint npoints xs -> ns <> [] -> es <> [] -> Forall item ns -> Forall item es ->
  ~ has_fields ns -> export a npoints CM xs (join_with ","%char ns) (join_with ","%char es) = Abort.
Proof.
  intros U N1 N2 I1 I2 H. unfold export. rewrite (find_n xs npoints CM U).
  assert (C : (exists ws, find_XYZ dadd X g CM xs = Ok ws) \/ find_XYZ dadd X g CM xs = Abort).
  { clear. induction xs as [|x xs IH]; cbn [find_XYZ]; [left; eexists; reflexivity|]. destruct (g_locate X g (shifted dadd CM x)); [|right; reflexivity].
    destruct IH as [(ws & ->)|E]; [left; eexists; reflexivity|rewrite E; right; reflexivity]. }
  destruct C as [(ws & ->)|E]; [|rewrite E; reflexivity]. cbn [obind]. rewrite (save_unfold a ws ns es N1 N2 I1 I2).
  destruct (all_patches_cases ns (List.length (g_patches X g)) (le_n _)) as [Q|Q]; [|rewrite Q; reflexivity].
  apply all_patches_has in Q. contradiction.
Qed.
(** a list of evolution names that is too short: when the two lists start well, the null pointer behind the last name goes to strcmp *)
Lemma short_UB ws : located ws -> forall ns es f a, (f <= List.length es)%nat -> (List.length es < f + List.length ns)%nat ->
  (forall n l, In n ns -> In l (g_patches X g) -> In n l) ->
  (forall j e, f <= j -> nth_error es j = Some e -> exists i, nth_error Field_Dictionary i = Some e) ->
  (forall n vs, In n ns -> Forall2 (value_at n) ws vs -> Forall (fun v => isfinite v = true) vs) ->
  save_loop isfinite X g f ns es ws a = UB.
Proof.
  intros L. induction ns as [|n ns IH]; intros es f a Lf Le H1 H2 H3; cbn [List.length] in Le; [lia|]. cbn [save_loop].
  destruct (Nat.ltb_spec (List.length es) f); [reflexivity|].
  destruct (nth_error es f) as [e|] eqn:Ee.
  - destruct (H2 f e (le_n _) Ee) as (i & Ei). rewrite (proj2 (find_index_ok e i) Ei). cbn [obind].
    destruct (values_ex n ws L (fun l I => H1 n l (or_introl eq_refl) I)) as (vs & Ev). rewrite Ev. cbn [obind].
    apply values_ok in Ev. rewrite (proj2 (forallb_Forall _ _) (H3 n vs (or_introl eq_refl) Ev)).
    apply IH.
    + assert (f < List.length es)%nat by (apply nth_error_Some; congruence). lia.
    + lia.
    + intros m l I. apply H1. right. exact I.
    + intros j e' Hj. apply H2. lia.
    + intros m vs' I. apply H3. right. exact I.
  - reflexivity.
Qed.
Lemma export_short_UB a npoints CM xs ns es : on_grid ->
  in_uint npoints xs -> ns <> [] -> es <> [] -> Forall item ns -> Forall item es ->
  (forall x, In x xs -> g_locate X g (shifted dadd CM x) <> None) -> has_fields ns ->
  (List.length es < List.length ns)%nat -> incl es Field_Dictionary ->
  (forall n x v, In n ns -> In x xs -> value_of CM n x v -> isfinite v = true) ->
  export a npoints CM xs (join_with ","%char ns) (join_with ","%char es) = UB.
Proof.
  intros G U N1 N2 I1 I2 A1 A2 A3 A4 A5. unfold export. rewrite (find_n xs npoints CM U).
  assert (EW : exists ws, Forall2 (fun x w => g_locate X g (shifted dadd CM x) = Some w) xs ws).
  { clear -A1. induction xs as [|x xs IH]; [exists []; constructor|]. destruct IH as (ws & F); [intros y Iy; apply A1; right; exact Iy|].
    destruct (g_locate X g (shifted dadd CM x)) as [w|] eqn:E; [exists (w :: ws); constructor; assumption|]. exfalso. apply (A1 x (or_introl eq_refl)). exact E. }
  destruct EW as (ws & Ew). rewrite (proj2 (find_XYZ_ok CM xs ws) Ew). cbn [obind]. rewrite (save_unfold a ws ns es N1 N2 I1 I2).
  rewrite (proj2 (all_patches_has ns) A2). cbn [obind]. apply short_UB.
  - apply (points_located CM xs ws G Ew).
  - lia.
  - exact A3.
  - intros n l I Il. apply (A2 l Il n I).
  - intros j e _ Ee. apply In_nth_error. apply A4. eapply nth_error_In. exact Ee.
  - intros n vs I V. apply (F2_values CM n xs ws vs Ew) in V. apply Forall_forall. intros v Iv.
    apply In_nth_error in Iv. destruct Iv as (j & Ej).
    assert (Q : exists x, In x xs /\ value_of CM n x v).
    { clear -V Ej. revert j Ej. induction V as [|x u xs vs Hx V IH]; intros j Ej; [destruct j; discriminate|].
      destruct j as [|j]; [cbn in Ej; injection Ej as <-; exists x; split; [left; reflexivity|exact Hx]|].
      destruct (IH j Ej) as (y & I & Q). exists y. split; [right; exact I|exact Q]. }
    destruct Q as (x & Ix & Q). exact (A5 n x v I Ix Q).
Qed.

(** *** one point, thread safe *)
Lemma fieldx_ok names CM e x v : fieldx dadd X g names CM (Some e) x = Ok v <->
  exists i n, nth_error Field_Dictionary i = Some e /\ nth_error names i = Some n /\ value_of CM n x v.
Proof.
  unfold fieldx. destruct (g_locate X g (shifted dadd CM x)) as [w|] eqn:E.
  - destruct (find_field_index (Some e)) as [i| |] eqn:Ei; cbn [obind].
    + apply find_index_ok in Ei. assert (U : forall i', nth_error Field_Dictionary i' = Some e -> i' = i).
      { intros i' E'. assert (A := proj2 (find_index_ok e i) Ei). assert (B := proj2 (find_index_ok e i') E'). congruence. }
      destruct (nth_error names i) as [n|] eqn:En.
      * destruct (Ind_in X g (fst w) n) as [k| |] eqn:Ek; cbn [obind].
        -- assert (Ek' := proj1 (Ind_ok _ _ _) Ek). destruct Ek' as (l & El & F). split.
           ++ intros H. injection H as <-. exists i, n. split; [exact Ei|]. split; [exact En|]. exists w. split; [exact E|]. exists l, k. auto.
           ++ intros (i' & n' & Ei' & En' & w' & Ew' & l' & k' & El' & F' & ->). assert (i' = i) by (apply U; exact Ei'). subst i'.
              assert (n' = n) by congruence. subst n'. assert (w' = w) by congruence. subst w'.
              assert (K := proj2 (Ind_ok (fst w) n k') (ex_intro _ l' (conj El' F'))). assert (k' = k) by congruence. subst. reflexivity.
        -- split; [discriminate|]. intros (i' & n' & Ei' & En' & w' & Ew' & l' & k' & El' & F' & ->). assert (i' = i) by (apply U; exact Ei'). subst i'.
              assert (n' = n) by congruence. subst n'. assert (w' = w) by congruence. subst w'.
              assert (K := proj2 (Ind_ok (fst w) n k') (ex_intro _ l' (conj El' F'))). congruence.
        -- split; [discriminate|]. intros (i' & n' & Ei' & En' & w' & Ew' & l' & k' & El' & F' & ->). assert (i' = i) by (apply U; exact Ei'). subst i'.
              assert (n' = n) by congruence. subst n'. assert (w' = w) by congruence. subst w'.
              assert (K := proj2 (Ind_ok (fst w) n k') (ex_intro _ l' (conj El' F'))). congruence.
      * split; [discriminate|]. intros (i' & n' & Ei' & En' & _). assert (i' = i) by (apply U; exact Ei'). subst i'. congruence.
    + split; [discriminate|]. intros (i' & n' & Ei' & _). assert (K := proj2 (find_index_ok e i') Ei'). congruence.
    + split; [discriminate|]. intros (i' & n' & Ei' & _). assert (K := proj2 (find_index_ok e i') Ei'). congruence.
  - split; [discriminate|]. intros (i' & n' & Ei' & En' & w' & Ew' & _). congruence.
Qed.
(** the two modes agree *)
Lemma modes_agree a npoints CM xs ns es a' names f n e i p x v :
  in_uint npoints xs -> ns <> [] -> es <> [] -> Forall item ns -> Forall item es ->
  export a npoints CM xs (join_with ","%char ns) (join_with ","%char es) = Ok a' ->
  nth_error ns f = Some n -> last_among (List.length ns) es e f -> nth_error Field_Dictionary i = Some e -> nth_error names i = Some n ->
  nth_error xs p = Some x -> fieldx dadd X g names CM (Some e) x = Ok v ->
  exists vs, a' i = Some vs /\ nth_error vs p = Some v.
Proof.
  intros U N1 N2 I1 I2 H En La Ei Enm Ep Hf. destruct (export_ok a npoints CM xs ns es a' U N1 N2 I1 I2 H) as [_ S].
  destruct (S f n e i En La Ei) as (vs & Ea & F & _). exists vs. split; [exact Ea|].
  apply fieldx_ok in Hf. destruct Hf as (i' & n' & Ei' & En' & V).
  assert (i' = i) by (assert (A := proj2 (find_index_ok e i) Ei); assert (B := proj2 (find_index_ok e i') Ei'); congruence). subst i'.
  assert (n' = n) by congruence. subst n'. clear -F Ep V. revert p Ep. induction F as [|y u xs vs Hy F IH]; intros p Ep; [destruct p; discriminate|].
  destruct p as [|p]; [|apply IH; exact Ep]. cbn in Ep. injection Ep as ->. cbn. f_equal.
  destruct V as (w & E1 & l & k & E2 & E3 & ->). destruct Hy as (w' & F1 & l' & k' & F2 & F3 & ->).
  assert (w' = w) by congruence. subst w'. assert (K1 := proj2 (Ind_ok (fst w) n k) (ex_intro _ l (conj E2 E3))).
  assert (K2 := proj2 (Ind_ok (fst w) n k') (ex_intro _ l' (conj F2 F3))). assert (k' = k) by congruence. subst k'. reflexivity.
Qed.
End S.
