(** ObsDispTables.v - each of the four functions of obs_calculate.c equals its table. *)
From Verif Require Import Base TextModel RegionModel RegionProofs GenObsDisp ObsDispModel ObsDispSpec ObsDispProofs.
Open Scope string_scope.

Definition memb (t : str) (l : list str) : bool := existsb (str_eqb t) l.
Lemma memb_In t l : memb t l = true <-> In t l.
Proof.
  unfold memb. rewrite existsb_exists. split.
  - intros (x & I & E). apply str_eqb_eq in E. subst. exact I.
  - intros I. exists t. split; [exact I|apply str_eqb_refl].
Qed.
Definition namesb (s : str) (l : list str) : bool :=
  match read_separated_items s ","%char with
  | Ok l' => (match l' with [] => false | _ => true end) && forallb (fun t => memb t dictionary) l' && forallb (fun t => memb t l) l' && forallb (fun t => memb t l') l
  | _ => false end.
Lemma namesb_ok s l : namesb s l = true -> names s l.
Proof.
  unfold namesb. destruct (read_separated_items s ","%char) as [l'| |] eqn:E; try discriminate. intros H.
  apply andb_true_iff in H. destruct H as [H H4]. apply andb_true_iff in H. destruct H as [H H3]. apply andb_true_iff in H. destruct H as [H1 H2].
  exists l'. split; [exact E|]. split; [destruct l'; [discriminate|discriminate]|]. rewrite forallb_forall in H2, H3, H4. split.
  - apply Forall_forall. intros t I. apply memb_In, H2, I.
  - intros t. split; intros I; apply memb_In; auto.
Qed.
Definition region_okb (v : option str) (l : list string) : bool :=
  match v with None => match l with [] => true | _ => false end | Some s => (match l with [] => false | _ => true end) && namesb s (map S_ l) end.
Lemma region_okb_ok v l : region_okb v l = true -> region_ok v l.
Proof.
  destruct v as [s|]; cbn [region_okb region_ok].
  - intros H. apply andb_true_iff in H. destruct H as [H1 H2]. split; [destruct l; discriminate|]. apply namesb_ok, H2.
  - destruct l; [reflexivity|discriminate].
Qed.

Section F.
  Variable T : patch -> list str.
  Lemma face_all l f p : has T (map fst l) p = true -> forallb (fun x => match snd x, f with First, First | Last, Last => true | _, _ => false end) l = true -> face_of T l p = Some f.
  Proof.
    induction l as [|[t f'] l IH]; cbn [map fst]; [discriminate|]. intros H F. cbn [forallb snd] in F. apply andb_true_iff in F. destruct F as [F1 F2].
    cbn [face_of]. destruct (has T [t] p) eqn:E.
    - destruct f', f; congruence.
    - apply IH; [|exact F2]. unfold has in *. cbn [existsb] in *. rewrite orb_false_r in E. rewrite E in H. exact H.
  Qed.
  Definition surf_spec (surf : patch -> outcome (option (face * metric))) (l : list (string * face)) (mt : metric) : Prop :=
    forall p, tagged T p -> has T (map fst l) p = true -> exists f, face_of T l p = Some f /\ surf p = Ok (Some (f, mt)).
  Lemma surf_none surf mt : surf_spec surf [] mt.
  Proof. intros p _ H. discriminate. Qed.
  Lemma surf_a l f mt (surf : patch -> outcome (option (face * metric))) : (forall p, surf p = Ok (Some (f, mt))) ->
    forallb (fun x => match snd x, f with First, First | Last, Last => true | _, _ => false end) l = true -> surf_spec surf l mt.
  Proof. intros E F p _ H. exists f. split; [apply face_all; assumption|apply E]. Qed.
  Lemma surf_b k l f mt s (surf : patch -> outcome (option (face * metric))) : (forall p, surf p = do b <- IsItCovering k p s; if b then Ok (Some (f, mt)) else Abort) ->
    scs k -> namesb s (map S_ (map fst l)) = true ->
    forallb (fun x => match snd x, f with First, First | Last, Last => true | _, _ => false end) l = true -> surf_spec surf l mt.
  Proof.
    intros E K N F p Tp H. exists f. split; [apply face_all; assumption|]. rewrite E, (covers T k p s (map fst l)) by (auto using namesb_ok). rewrite H. reflexivity.
  Qed.
  Lemma surf_c k t1 f1 t2 f2 mt s1 s2 (surf : patch -> outcome (option (face * metric))) :
    (forall p, surf p = do b <- IsItCovering k p s1; if b then Ok (Some (f1, mt)) else do b <- IsItCovering k p s2; if b then Ok (Some (f2, mt)) else Abort) ->
    scs k -> namesb s1 [S_ t1] = true -> namesb s2 [S_ t2] = true -> surf_spec surf [(t1, f1); (t2, f2)] mt.
  Proof.
    intros E K N1 N2 p Tp H. rewrite E, (covers T k p s1 [t1]), (covers T k p s2 [t2]) by (auto using namesb_ok).
    cbn [face_of]. cbn [obind]. unfold has in *. cbn [map fst existsb] in *. rewrite !orb_false_r in *.
    destruct (if in_dec (list_eq_dec ascii_dec) (S_ t1) (T p) then true else false); [exists f1; auto|].
    cbn [orb] in H. rewrite H. exists f2. auto.
  Qed.
End F.

(** rows that are refused by the check of the volume items, obs_calculate.c:1710-1763 *)
Definition accepted_P (k : kind) (r : row) : bool :=
  match r_volume r with [] => true | _ => negb (kind_eqb k K_SCS_BHBH) && negb (is (S_ (r_quantity r)) "ADM(P)|BHBH") end.
Definition table_P (k : kind) (n1 : bool) : list row := filter (accepted_P k) (rows_P n1).

Lemma find_cases rows q m : (exists r, In r rows /\ is q (r_quantity r) = true /\ is m (r_method r) = true) \/ row_for rows q m = None.
Proof.
  unfold row_for. destruct (find _ rows) as [r|] eqn:F; [left|right; reflexivity]. apply find_some in F. destruct F as [I H].
  apply andb_true_iff in H. exists r. tauto.
Qed.
Lemma scs_of k : scs k \/ kind_in k [K_SCS_BHNS; K_SCS_NSNS; K_SCS_BHBH; K_SCS_SNS; K_SCS_SBH] = false.
Proof. unfold scs. destruct k; cbn; tauto. Qed.

Ltac solve_surf K :=
  first [ apply surf_none
        | eapply surf_a; [intros; vm_compute; reflexivity|reflexivity]
        | eapply surf_b; [intros; cbv -[IsItCovering obind]; reflexivity|exact K|vm_compute; reflexivity|reflexivity]
        | eapply surf_c; [intros; cbv -[IsItCovering obind]; reflexivity|exact K|vm_compute; reflexivity|vm_compute; reflexivity] ].
Ltac solve_row K Tg :=
  eapply run_row; [exact K|exact Tg|vm_compute; reflexivity|apply region_okb_ok; vm_compute; reflexivity|apply region_okb_ok; vm_compute; reflexivity
    |first [left; reflexivity|right; vm_compute; reflexivity]|solve_surf K|vm_compute; reflexivity|reflexivity].
(** which literal a variable string is equal to *)
Ltac split_is :=
  match goal with |- context [if is ?q ?x then _ else _] => is_var q; let E := fresh "E" in destruct (is q x) eqn:E end.

Section Tables.
  Variable T : patch -> list str.
  Variables (k : kind) (g : list patch) (n1 : bool).
  Hypothesis K : scs k.
  Hypothesis Tg : Forall (tagged T) g.
  Lemma M_table q m : calc_ADM_mass k g q m n1 = by_table T g rows_M q m.
  Proof.
    destruct (find_cases rows_M q m) as [(r & I & Eq & Em)|N].
    - apply is_low in Eq. apply is_low in Em. unfold by_table. rewrite (row_canon _ _ _ _ Eq Em), (M_canon _ _ _ _ Eq Em). clear q m Eq Em.
      assert (K' := K). unfold scs in K'. cbn [In] in K'.
      destruct n1; repeat (destruct I as [<-|I]); try (destruct I);
        match goal with |- context [row_for ?a ?b ?c] => let v := eval vm_compute in (row_for a b c) in change (row_for a b c) with v end; cbv iota;
        destruct K' as [K'|[K'|[K'|[K'|[K'|[]]]]]]; revert K; rewrite <- K'; intros Ks; unfold calc_ADM_mass; solve_row Ks Tg.
    - unfold by_table. rewrite N. unfold calc_ADM_mass.
      assert (C : collect_M k q m n1 = Abort).
      { unfold collect_M. destruct (kind_in k _); [|reflexivity]. repeat split_is; try reflexivity; exfalso;
        match goal with E : is q ?x = true, E' : is m ?y = true |- _ => rewrite (row_canon _ _ _ _ (is_low _ _ E) (is_low _ _ E')) in N end; destruct n1; vm_compute in N; discriminate. }
      rewrite C. reflexivity.
  Qed.
  Lemma J_table q m : calc_ADM_J k g q m n1 = by_table T g (rows_J n1) q m.
  Proof.
    destruct (find_cases (rows_J n1) q m) as [(r & I & Eq & Em)|N].
    - apply is_low in Eq. apply is_low in Em. unfold by_table. rewrite (row_canon _ _ _ _ Eq Em), (J_canon _ _ _ _ Eq Em). clear q m Eq Em.
      assert (K' := K). unfold scs in K'. cbn [In] in K'.
      destruct n1; repeat (destruct I as [<-|I]); try (destruct I);
        match goal with |- context [row_for ?a ?b ?c] => let v := eval vm_compute in (row_for a b c) in change (row_for a b c) with v end; cbv iota;
        destruct K' as [K'|[K'|[K'|[K'|[K'|[]]]]]]; revert K; rewrite <- K'; intros Ks; unfold calc_ADM_J; solve_row Ks Tg.
    - unfold by_table. rewrite N. unfold calc_ADM_J.
      assert (C : collect_J k q m n1 = Abort).
      { unfold collect_J. destruct (kind_in k _); [|reflexivity]. repeat split_is; try reflexivity; exfalso;
        match goal with E : is q ?x = true, E' : is m ?y = true |- _ => rewrite (row_canon _ _ _ _ (is_low _ _ E) (is_low _ _ E')) in N end; destruct n1; vm_compute in N; discriminate. }
      rewrite C. reflexivity.
  Qed.
  Lemma P_refused r : In r (rows_P n1) -> accepted_P k r = false ->
    run k g Phys (collect_P k (S_ (r_quantity r)) (S_ (r_method r)) n1) (volcheck_P k (S_ (r_quantity r)))
      (fun p => surf_P k (S_ (r_quantity r)) (S_ (r_method r)) n1 (IsItCovering k p)) (formula_P k (S_ (r_method r))) = Abort.
  Proof.
    intros I A. assert (K' := K). unfold scs in K'. cbn [In] in K'.
    destruct n1; repeat (destruct I as [<-|I]); try (destruct I);
      destruct K' as [K'|[K'|[K'|[K'|[K'|[]]]]]]; revert K A; rewrite <- K'; intros Ks A; vm_compute in A; try discriminate A;
      (match goal with |- run _ _ _ ?c ?v _ _ = _ => change v with (@Abort unit) end);
      (match goal with |- run _ _ _ (collect_P ?kk (S_ (r_quantity ?rr)) _ _) _ _ _ = _ =>
        eapply (run_refused T) with (l := r_volume rr) (l2 := map fst (r_surface rr));
        [exact Ks|exact Tg|vm_compute; reflexivity|apply region_okb_ok; vm_compute; reflexivity|discriminate|apply region_okb_ok; vm_compute; reflexivity] end).
  Qed.
  Lemma find_filter (f h : row -> bool) l : find h (filter f l) = None \/ exists r, In r l /\ f r = true /\ h r = true.
  Proof. destruct (find h (filter f l)) as [r|] eqn:E; [right|left; reflexivity]. apply find_some in E. destruct E as [I H]. apply filter_In in I. exists r. tauto. Qed.
  Lemma row_unique_P r : In r (rows_P n1) -> row_for (rows_P n1) (S_ (r_quantity r)) (S_ (r_method r)) = Some r.
  Proof. intros I. destruct n1; repeat (destruct I as [<-|I]; [vm_compute; reflexivity|]); destruct I. Qed.
  Lemma P_row r : In r (rows_P n1) -> accepted_P k r = true -> calc_ADM_P k g (S_ (r_quantity r)) (S_ (r_method r)) n1 = expected T g r.
  Proof.
    intros I A. assert (K' := K). unfold scs in K'. cbn [In] in K'. unfold calc_ADM_P.
    destruct n1; repeat (destruct I as [<-|I]); try (destruct I);
      destruct K' as [K'|[K'|[K'|[K'|[K'|[]]]]]]; revert K A; rewrite <- K'; intros Ks A; vm_compute in A; try discriminate A; solve_row Ks Tg.
  Qed.
  Lemma find_filter_some (f h : row -> bool) l r : find h l = Some r -> (forall r', In r' l -> h r' = true -> r' = r) ->
    find h (filter f l) = if f r then Some r else None.
  Proof.
    intros F U. destruct (find_some _ _ F) as [I H]. destruct (f r) eqn:E.
    - destruct (find h (filter f l)) as [r'|] eqn:F'.
      + apply find_some in F'. destruct F' as [I' H']. apply filter_In in I'. rewrite (U r'); tauto.
      + exfalso. pose proof (find_none _ _ F' r) as X. cbn in X. rewrite X in H; [discriminate|]. apply filter_In. auto.
    - destruct (find h (filter f l)) as [r'|] eqn:F'; [|reflexivity]. apply find_some in F'. destruct F' as [I' H']. apply filter_In in I'.
      rewrite (U r') in I' by tauto. rewrite E in I'. destruct I'; discriminate.
  Qed.
  Lemma P_table q m : calc_ADM_P k g q m n1 = by_table T g (table_P k n1) q m.
  Proof.
    destruct (find_cases (rows_P n1) q m) as [(r & I & Eq & Em)|N].
    - apply is_low in Eq. apply is_low in Em. unfold by_table. rewrite (row_canon _ _ _ _ Eq Em), (P_canon _ _ _ _ Eq Em).
      unfold table_P, row_for. erewrite find_filter_some; [|apply row_unique_P, I|].
      + destruct (accepted_P k r) eqn:A; [apply P_row; assumption|]. apply P_refused; assumption.
      + intros r' I' H. apply andb_true_iff in H. destruct H as [H1 H2]. apply is_low in H1. apply is_low in H2.
        pose proof (row_unique_P r I) as X. rewrite (row_canon _ _ _ _ H1 H2), (row_unique_P r' I') in X. congruence.
    - unfold by_table. assert (N' : row_for (table_P k n1) q m = None).
      { unfold row_for, table_P in *. destruct (find_filter (accepted_P k) (fun r => is q (r_quantity r) && is m (r_method r)) (rows_P n1)) as [F|(r & I & _ & H)]; [exact F|].
        rewrite (find_none _ _ N r I) in H. discriminate. }
      rewrite N'. unfold calc_ADM_P.
      assert (C : collect_P k q m n1 = Abort).
      { unfold collect_P. destruct (kind_in k _); [|reflexivity]. repeat split_is; try reflexivity; exfalso;
        match goal with E : is q ?x = true, E' : is m ?y = true |- _ => rewrite (row_canon _ _ _ _ (is_low _ _ E) (is_low _ _ E')) in N end; destruct n1; vm_compute in N; discriminate. }
      rewrite C. reflexivity.
  Qed.
End Tables.
