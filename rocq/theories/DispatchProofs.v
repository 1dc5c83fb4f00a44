(** DispatchProofs.v *)
From Verif Require Import Base TextModel DispatchModel.

(** Two names are the same up to case. *)
Definition same_name (a b : str) : Prop := map tolower a = map tolower b.

Lemma strcmp_same a b : strcmp_i (Some a) (Some b) = true <-> same_name a b.
Proof. unfold strcmp_i, same_name. apply str_eqb_eq. Qed.
Lemma strcmp_same_f a b : strcmp_i (Some a) (Some b) = false <-> ~ same_name a b.
Proof. pose proof (strcmp_same a b). destruct (strcmp_i (Some a) (Some b)); intuition congruence. Qed.
Lemma strcmp_null a : strcmp_i (Some a) None = false.
Proof. reflexivity. Qed.

(** [selected db task coord calls]: calls are the functions of the entries that match, each once, in the order of db. *)
Inductive selected (task : str) (coord : nat) : list func_entry -> list nat -> Prop :=
| sel_nil : selected task coord [] []
| sel_hit e r c : same_name (fn_task e) task -> fn_coord e = coord -> selected task coord r c ->
    selected task coord (e :: r) (fn_f e :: c)
| sel_miss e r c : ~ (same_name (fn_task e) task /\ fn_coord e = coord) -> selected task coord r c ->
    selected task coord (e :: r) c.

Lemma run_loop_sel db task coord : selected task coord db (run_loop db (Some task) coord).
Proof.
  induction db as [|e r IH]; cbn [run_loop]; [constructor|].
  destruct (strcmp_i (Some (fn_task e)) (Some task)) eqn:S; cbn [andb].
  - apply strcmp_same in S. destruct (Nat.eqb_spec (fn_coord e) coord).
    + apply sel_hit; assumption.
    + apply sel_miss; [tauto|assumption].
  - apply strcmp_same_f in S. apply sel_miss; [tauto|assumption].
Qed.

Lemma selected_fun task coord db c : selected task coord db c -> forall c', selected task coord db c' -> c = c'.
Proof.
  induction 1; intros c' H'; inversion H'; subst; auto; try tauto. f_equal; auto.
Qed.

Lemma selected_nil task coord db c : selected task coord db c ->
  (c = [] <-> forall e, In e db -> ~ (same_name (fn_task e) task /\ fn_coord e = coord)).
Proof.
  induction 1 as [|e r c H1 H2 H IH|e r c H1 H IH].
  - split; [intros _ e []|reflexivity].
  - split; [discriminate|]. intros G. exfalso. apply (G e); [left; reflexivity|auto].
  - rewrite IH. split; intros G e' Hin; [destruct Hin as [<-|Hin]; auto|apply G; right; auto].
Qed.

Theorem run_func_spec db task coord : run_func_PtoV db (Some task) coord =
    (if run_loop db (Some task) coord then Abort else Ok (run_loop db (Some task) coord)) /\
  (forall calls, run_func_PtoV db (Some task) coord = Ok calls <-> selected task coord db calls /\ calls <> []) /\
  (run_func_PtoV db (Some task) coord = Abort <->
     forall e, In e db -> ~ (same_name (fn_task e) task /\ fn_coord e = coord)).
Proof.
  assert (E : run_func_PtoV db (Some task) coord =
    match run_loop db (Some task) coord with [] => Abort | _ => Ok (run_loop db (Some task) coord) end).
  { unfold run_func_PtoV. destruct db; [reflexivity|]. cbv zeta. destruct (run_loop _ _ _); reflexivity. }
  pose proof (run_loop_sel db task coord) as S.
  split; [exact E|]. split.
  - intros calls. rewrite E. split.
    + destruct (run_loop db (Some task) coord) eqn:L; [discriminate|]. intros H. injection H as <-.
      split; [exact S|discriminate].
    + intros [H N]. pose proof (selected_fun _ _ _ _ S _ H) as <-. destruct (run_loop db (Some task) coord); congruence.
  - rewrite E. rewrite <- (selected_nil task coord db _ S).
    destruct (run_loop db (Some task) coord); split; congruence.
Qed.

Theorem run_func_null db coord : run_func_PtoV db None coord = Abort.
Proof.
  unfold run_func_PtoV. destruct db as [|e db]; [reflexivity|].
  assert (H : forall l, run_loop l None coord = []).
  { induction l as [|x l IH]; cbn [run_loop]; [reflexivity|]. rewrite strcmp_null. cbn [andb]. exact IH. }
  rewrite H. reflexivity.
Qed.

(** First entry with that name. *)
Theorem get_func_spec name db o : get_func_Patch2Pdouble (Some name) db = o <->
  match o with
  | Some f => exists l e r, db = l ++ e :: r /\ nf_f e = f /\ same_name (nf_name e) name /\
                            forall x, In x l -> ~ same_name (nf_name x) name
  | None => forall x, In x db -> ~ same_name (nf_name x) name
  end.
Proof.
  revert o. induction db as [|e r IH]; intros o; cbn [get_func_Patch2Pdouble].
  - split.
    + intros <-. intros x [].
    + destruct o; [intros (l & e & r & H & _); destruct l; discriminate|reflexivity].
  - destruct (strcmp_i (Some (nf_name e)) (Some name)) eqn:S.
    + apply strcmp_same in S. split.
      * intros <-. exists [], e, r. split; [reflexivity|]. split; [reflexivity|]. split; [exact S|intros x []].
      * destruct o as [f|].
        -- intros (l & e' & r' & H & H1 & H2 & H3). destruct l as [|y l].
           ++ injection H as -> _. congruence.
           ++ injection H as -> _. exfalso. apply (H3 y); [left; reflexivity|exact S].
        -- intros H. exfalso. apply (H e); [left; reflexivity|exact S].
    + apply strcmp_same_f in S. rewrite IH. destruct o as [f|].
      * split.
        -- intros (l & e' & r' & -> & H1 & H2 & H3). exists (e :: l), e', r'. repeat split; auto.
           intros x [<-|Hx]; auto.
        -- intros (l & e' & r' & H & H1 & H2 & H3). destruct l as [|y l].
           ++ injection H as -> _. contradiction.
           ++ injection H as -> ->. exists l, e', r'. repeat split; auto. intros x Hx. apply H3. right; auto.
      * split; intros H x Hx; [destruct Hx as [<-|Hx]; auto|apply H; right; auto].
Qed.

(** Projects *)
Definition distinct_names (db : list project) : Prop := forall i j p q,
  nth_error db i = Some p -> nth_error db j = Some q -> same_name (pj_name p) (pj_name q) -> i = j.

Lemma get_project_none db name : get_project db (Some name) = None <-> forall p, In p db -> ~ same_name (pj_name p) name.
Proof.
  induction db as [|e r IH]; cbn [get_project].
  - split; [intros _ p []|reflexivity].
  - destruct (strcmp_i (Some (pj_name e)) (Some name)) eqn:S.
    + apply strcmp_same in S. split; [discriminate|]. intros H. exfalso. apply (H e); [left; reflexivity|exact S].
    + apply strcmp_same_f in S. rewrite IH.
      split; intros H x Hx; [destruct Hx as [<-|Hx]; auto|apply H; right; auto].
Qed.
Lemma get_project_in db name p : get_project db (Some name) = Some p -> In p db /\ same_name (pj_name p) name.
Proof.
  induction db as [|e r IH]; cbn [get_project]; [discriminate|].
  destruct (strcmp_i (Some (pj_name e)) (Some name)) eqn:S.
  - intros H. injection H as <-. apply strcmp_same in S. split; [left; reflexivity|exact S].
  - intros H. destruct (IH H). split; [right|]; auto.
Qed.

Theorem get_project_spec db name p : distinct_names db ->
  (get_project db (Some name) = Some p <-> In p db /\ same_name (pj_name p) name).
Proof.
  intros D. split; [apply get_project_in|]. intros [Hin Hs].
  destruct (get_project db (Some name)) as [q|] eqn:G.
  - destruct (get_project_in _ _ _ G) as [Hq Hsq].
    apply In_nth_error in Hin, Hq. destruct Hin as [i Hi], Hq as [j Hj].
    assert (i = j). { apply (D i j p q Hi Hj). unfold same_name in *. congruence. }
    subst j. congruence.
  - exfalso. rewrite get_project_none in G. exact (G p Hin Hs).
Qed.

Lemma add_project_distinct db f name des db' : distinct_names db -> add_project db f name des = Ok db' -> distinct_names db'.
Proof.
  intros D E. unfold add_project in E. destruct f as [f|]; [|discriminate].
  destruct (get_project db (Some name)) eqn:G; [discriminate|]. injection E as <-.
  rewrite get_project_none in G.
  assert (N : forall i p, nth_error (db ++ [mkProj name des f]) i = Some p ->
     nth_error db i = Some p \/ i = List.length db /\ p = mkProj name des f).
  { intros i p H. destruct (Nat.lt_ge_cases i (List.length db)).
    - left. rewrite nth_error_app1 in H by assumption. exact H.
    - right. rewrite nth_error_app2 in H by assumption.
      destruct (i - List.length db)%nat as [|k] eqn:K.
      + simpl in H. injection H as <-. split; [lia|reflexivity].
      + simpl in H. destruct k; discriminate. }
  intros i j p q Hi Hj Hs. destruct (N i p Hi) as [Hi'|[-> ->]], (N j q Hj) as [Hj'|[-> ->]].
  - exact (D i j p q Hi' Hj' Hs).
  - exfalso. apply (G p); [eapply nth_error_In; exact Hi'|exact Hs].
  - exfalso. apply (G q); [eapply nth_error_In; exact Hj'|]. unfold same_name in *. simpl in *. congruence.
  - reflexivity.
Qed.

Lemma add_projects_distinct l : forall db db', distinct_names db -> add_projects db l = Ok db' -> distinct_names db'.
Proof.
  induction l as [|[[f name] des] l IH]; intros db db' D E; cbn [add_projects] in E.
  - injection E as <-. exact D.
  - destruct (add_project db f name des) as [db1| |] eqn:A; cbn [obind] in E; try discriminate.
    eapply IH; [|exact E]. eapply add_project_distinct; eauto.
Qed.

Lemma distinct_nil : distinct_names [].
Proof. intros i j p q H. destruct i; discriminate. Qed.

(** What registering a list of projects does: all are there, in order; or it stops. *)
Theorem add_projects_ok l db :
  add_projects [] l = Ok db ->
  map (fun p => (Some (pj_func p), pj_name p, pj_des p)) db = l /\ distinct_names db.
Proof.
  intros E. split; [|eapply add_projects_distinct; [apply distinct_nil|exact E]].
  assert (G : forall l d db, add_projects d l = Ok db ->
    map (fun p => (Some (pj_func p), pj_name p, pj_des p)) db =
    map (fun p => (Some (pj_func p), pj_name p, pj_des p)) d ++ l).
  { clear. induction l as [|[[f name] des] l IH]; intros d db E; cbn [add_projects] in E.
    - injection E as <-. rewrite app_nil_r. reflexivity.
    - destruct (add_project d f name des) as [d1| |] eqn:A; cbn [obind] in E; try discriminate.
      rewrite (IH _ _ E). unfold add_project in A. destruct f as [f|]; [|discriminate].
      destruct (get_project d (Some name)); [discriminate|]. injection A as <-.
      rewrite map_app, <- app_assoc. reflexivity. }
  rewrite (G _ _ _ E). reflexivity.
Qed.

Theorem add_projects_abort l :
  (exists db, add_projects [] l = Ok db) <->
  ((forall f n d, In (f, n, d) l -> f <> None) /\
   forall i j a b, nth_error (map (fun t => snd (fst t)) l) i = Some a -> nth_error (map (fun t => snd (fst t)) l) j = Some b ->
     same_name a b -> i = j).
Proof.
  split.
  - intros [db E]. destruct (add_projects_ok _ _ E) as [M D]. subst l. split.
    + intros f n d H. apply in_map_iff in H. destruct H as (p & H & _). congruence.
    + rewrite map_map. cbn [fst snd]. intros i j a b Hi Hj Hs.
      rewrite nth_error_map in Hi, Hj.
      destruct (nth_error db i) as [p|] eqn:Pi; [|discriminate]. destruct (nth_error db j) as [q|] eqn:Pj; [|discriminate].
      cbn in Hi, Hj. injection Hi as <-. injection Hj as <-. exact (D i j p q Pi Pj Hs).
  - intros [Hn Hd].
    assert (G : forall l d, (forall f n s, In (f, n, s) l -> f <> None) ->
      (forall i j a b, nth_error (map pj_name d ++ map (fun t => snd (fst t)) l) i = Some a ->
         nth_error (map pj_name d ++ map (fun t : option nat * str * str => snd (fst t)) l) j = Some b -> same_name a b -> i = j) ->
      exists db, add_projects d l = Ok db).
    { clear. induction l as [|[[f name] des] l IH]; intros d Hn Hd; cbn [add_projects]; [eauto|].
      destruct f as [f|]; [|exfalso; eapply Hn; [left; reflexivity|reflexivity]].
      cbn [add_project]. destruct (get_project d (Some name)) as [p|] eqn:G.
      - exfalso. destruct (get_project_in _ _ _ G) as [Hin Hs]. apply In_nth_error in Hin. destruct Hin as [i Hi].
        assert (Li : (i < List.length d)%nat) by (apply nth_error_Some; congruence).
        assert (i = List.length d); [|lia].
        apply (Hd i (List.length d) (pj_name p) name); [| |exact Hs].
        + rewrite nth_error_app1 by (rewrite map_length; exact Li). rewrite nth_error_map, Hi. reflexivity.
        + rewrite nth_error_app2 by (rewrite map_length; lia). rewrite map_length, Nat.sub_diag. reflexivity.
      - cbn [obind]. apply IH.
        + intros f0 n0 s0 H. eapply Hn. right; exact H.
        + rewrite map_app, <- app_assoc. exact Hd. }
    apply G; assumption.
Qed.

Theorem main_project_spec l db name f : add_projects [] l = Ok db ->
  (main_project db (Some name) = Ok f <-> exists n d, In (Some f, n, d) l /\ same_name n name).
Proof.
  intros E. destruct (add_projects_ok _ _ E) as [M D]. subst l. unfold main_project.
  split.
  - destruct (get_project db (Some name)) as [p|] eqn:G; [|discriminate]. intros H. injection H as <-.
    apply get_project_in in G. destruct G as [G1 G2]. exists (pj_name p), (pj_des p). split; [|exact G2].
    apply in_map_iff. exists p. split; [reflexivity|exact G1].
  - intros (n & d & Hin & Hs). apply in_map_iff in Hin. destruct Hin as (p & Hp & Hin). injection Hp as <- <- <-.
    rewrite (proj2 (get_project_spec db name p D) (conj Hin Hs)). reflexivity.
Qed.
