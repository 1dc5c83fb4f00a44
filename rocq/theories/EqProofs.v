(** EqProofs.v - proofs about EqModel.v *)
From Verif Require Import Base TextModel TextSpec TextProofs TextToolsProofs ParamText GenEqTable EqModel.
From Coq Require Import Lia.
Open Scope list_scope.
Local Notation low := (map tolower).

Lemma same_i_iff a b : same_i a b = true <-> low a = low b.
Proof.
  unfold same_i. rewrite strcmp_i_spec. split.
  - intros (x & y & E & E' & H). congruence.
  - intros H. exists a, b. auto.
Qed.
Lemma same_i_neq a b : same_i a b = false <-> low a <> low b.
Proof. rewrite <- not_true_iff_false, same_i_iff. tauto. Qed.
Lemma sprintf_ok n s r : sprintf_n n s = Ok r <-> (List.length s < n /\ r = s).
Proof.
  unfold sprintf_n. destruct (Nat.ltb_spec (List.length s) n).
  - split; [intros E; injection E as E; auto | intros [_ ->]; reflexivity].
  - split; [discriminate | lia].
Qed.
Lemma sprintf_eq n s : List.length s < n -> sprintf_n n s = Ok s.
Proof. intros H. apply sprintf_ok. auto. Qed.

(** a database: names pairwise different, ignoring case *)
Definition distinct (db : list eqn) : Prop := NoDup (map (fun e => low (e_name e)) db).
Lemma find_in db n e : distinct db -> In e db -> low (e_name e) = low n -> find (fun e => same_i (e_name e) n) db = Some e.
Proof.
  induction db as [|x db IH]; [easy|]. intros D I L. cbn [find]. inversion D as [|? ? N D']; subst.
  destruct (same_i (e_name x) n) eqn:S.
  - apply same_i_iff in S. destruct I as [->|I]; [reflexivity|].
    exfalso. apply N. rewrite S, <- L. apply (in_map (fun e => low (e_name e))). exact I.
  - apply same_i_neq in S. destruct I as [->|I]; [congruence|]. apply IH; assumption.
Qed.
Lemma find_some_in (db : list eqn) n e : find (fun e => same_i (e_name e) n) db = Some e -> In e db /\ low (e_name e) = low n.
Proof. intros H. apply find_some in H. destruct H as [H S]. apply same_i_iff in S. auto. Qed.

Lemma add_eq_ok db fn name r : distinct db -> (add_eq db fn name = Ok r <->
  (~ In (low name) (map (fun e => low (e_name e)) db) /\ List.length name < 400 /\ r = db ++ [mkeqn name fn])).
Proof.
  intros D. unfold add_eq. destruct (existsb _ db) eqn:E.
  - split; [discriminate|]. intros (N & _). exfalso. apply N. apply existsb_exists in E. destruct E as (x & I & S).
    apply same_i_iff in S. rewrite <- S. apply (in_map (fun e => low (e_name e))). exact I.
  - assert (N : ~ In (low name) (map (fun e => low (e_name e)) db)).
    { intros I. apply in_map_iff in I. destruct I as (x & L & I). rewrite <- not_true_iff_false in E. apply E.
      apply existsb_exists. exists x. split; [exact I|]. apply same_i_iff. exact L. }
    split.
    + unfold sprintf_n. destruct (Nat.ltb_spec (List.length name) 400); [|discriminate]. cbn [obind].
      intros Q. injection Q as Q. auto.
    + intros (_ & L & ->). rewrite (sprintf_eq _ _ L). reflexivity.
Qed.
Lemma NoDup_app_snoc {A} (l : list A) x : NoDup l -> ~ In x l -> NoDup (l ++ [x]).
Proof.
  intros N I. apply (NoDup_Add (a := x) (l := l)); [|auto]. rewrite <- (app_nil_r l) at 1. apply Add_app.
Qed.
Lemma add_eq_distinct db fn name r : distinct db -> add_eq db fn name = Ok r -> distinct r.
Proof.
  intros D H. apply add_eq_ok in H; [|exact D]. destruct H as (N & _ & ->). unfold distinct in *. rewrite map_app. cbn [map e_name].
  apply NoDup_app_snoc; assumption.
Qed.

(** the entries of database k among a list of calls *)
Definition ents (k : nat) (l : list (nat * string * string)) : list eqn :=
  map (fun c => mkeqn (S_ (snd c)) (S_ (snd (fst c)))) (filter (fun c => Nat.eqb (fst (fst c)) k) l).
Lemma ents_cons k c l : ents k (c :: l) = (if Nat.eqb (fst (fst c)) k then [mkeqn (S_ (snd c)) (S_ (snd (fst c)))] else []) ++ ents k l.
Proof. unfold ents. cbn [filter]. destruct (Nat.eqb (fst (fst c)) k); reflexivity. Qed.
Lemma add_eqs_ok l : forall dbs r, (forall k, distinct (dbs k)) -> add_eqs l dbs = Ok r ->
  (forall k, r k = dbs k ++ ents k l) /\ (forall k, distinct (r k)).
Proof.
  induction l as [|[[k fn] name] l IH]; intros dbs r D H; cbn [add_eqs] in H.
  - injection H as <-. split; [intros k; rewrite app_nil_r; reflexivity | exact D].
  - destruct (add_eq (dbs k) (S_ fn) (S_ name)) as [db| |] eqn:E; try discriminate. cbn [obind] in H.
    pose proof (add_eq_distinct _ _ _ _ (D k) E) as Dd. apply add_eq_ok in E; [|exact (D k)]. destruct E as (N & L & ->).
    specialize (IH (fun j => if Nat.eqb j k then dbs k ++ [mkeqn (S_ name) (S_ fn)] else dbs j) r).
    destruct IH as (H1 & H2); [intros j; destruct (Nat.eqb_spec j k); auto | exact H |].
    split; [|exact H2]. intros j. rewrite H1, ents_cons. cbn [fst snd]. rewrite (Nat.eqb_sym k j).
    destruct (Nat.eqb_spec j k) as [->|_]; [rewrite <- app_assoc|]; reflexivity.
Qed.
Lemma in_ents k l e : In e (ents k l) <-> exists fn name, In (k, fn, name) l /\ e = mkeqn (S_ name) (S_ fn).
Proof.
  unfold ents. rewrite in_map_iff. split.
  - intros ([[j fn] name] & <- & I). apply filter_In in I. destruct I as [I E]. cbn in E. apply Nat.eqb_eq in E. subst. exists fn, name. auto.
  - intros (fn & name & I & ->). exists (k, fn, name). split; [reflexivity|]. apply filter_In. split; [exact I|]. apply Nat.eqb_refl.
Qed.
Lemma nil_distinct k : distinct ((fun _ : nat => @nil eqn) k).
Proof. constructor. Qed.
(** what a database built by any sequence of calls answers *)
Lemma lookup_spec l dbs k name prefix fn : add_eqs l (fun _ => []) = Ok dbs -> List.length (prefix ++ name) < 400 ->
  (get_field_eq name (dbs k) prefix = Ok fn <->
   exists f n, In (k, f, n) l /\ low (S_ n) = low (prefix ++ name) /\ fn = S_ f).
Proof.
  intros A L. destruct (add_eqs_ok _ _ _ nil_distinct A) as (E & D). unfold get_field_eq. rewrite (sprintf_eq _ _ L). cbn [obind].
  specialize (E k). cbn [app] in E. split.
  - destruct (find _ (dbs k)) as [e|] eqn:F; [|discriminate]. intros Q. injection Q as <-. apply find_some_in in F. destruct F as [I Lw].
    rewrite E in I. apply in_ents in I. destruct I as (f & n & I & ->). exists f, n. auto.
  - intros (f & n & I & Lw & ->). rewrite (find_in (dbs k) _ (mkeqn (S_ n) (S_ f)) (D k)); [reflexivity | | exact Lw].
    rewrite E. apply in_ents. exists f, n. auto.
Qed.
Lemma lookup_abort l dbs k name prefix : add_eqs l (fun _ => []) = Ok dbs -> List.length (prefix ++ name) < 400 ->
  (forall f n, In (k, f, n) l -> low (S_ n) <> low (prefix ++ name)) -> get_field_eq name (dbs k) prefix = Abort.
Proof.
  intros A L N. destruct (get_field_eq name (dbs k) prefix) as [fn| |] eqn:G; [|reflexivity|].
  - apply (lookup_spec _ _ _ _ _ _ A L) in G. destruct G as (f & n & I & Lw & _). exfalso. exact (N f n I Lw).
  - unfold get_field_eq in G. rewrite (sprintf_eq _ _ L) in G. cbn [obind] in G. destruct (find _ _); discriminate.
Qed.
(** when the registration succeeds *)
Lemma add_eqs_iff l : forall dbs, (forall k, distinct (dbs k)) ->
  ((exists r, add_eqs l dbs = Ok r) <->
   (forall k f n, In (k, f, n) l -> List.length (S_ n) < 400 /\ ~ In (low (S_ n)) (map (fun e => low (e_name e)) (dbs k))) /\
   NoDup (map (fun c => (fst (fst c), low (S_ (snd c)))) l)).
Proof.
  induction l as [|[[k fn] name] l IH]; intros dbs D; cbn [add_eqs].
  - split; [intros _; split; [easy|constructor] | intros _; eexists; reflexivity].
  - split.
    + intros (r & H). destruct (add_eq (dbs k) (S_ fn) (S_ name)) as [db| |] eqn:E; try discriminate. cbn [obind] in H.
      pose proof (add_eq_distinct _ _ _ _ (D k) E) as Dd. apply add_eq_ok in E; [|exact (D k)]. destruct E as (N & L & ->).
      assert (D' : forall j, distinct (if Nat.eqb j k then dbs k ++ [mkeqn (S_ name) (S_ fn)] else dbs j)) by (intros j; destruct (Nat.eqb j k); auto).
      destruct (proj1 (IH _ D') (ex_intro _ r H)) as (H1 & H2). split.
      * intros j f n [Q|I]; [injection Q as <- <- <-; auto|]. destruct (H1 j f n I) as (L' & N'). split; [exact L'|].
        intros C. apply N'. destruct (Nat.eqb_spec j k) as [->|_]; [|exact C]. rewrite map_app. apply in_or_app. left. exact C.
      * cbn [map fst snd]. constructor; [|exact H2]. intros C. apply in_map_iff in C. destruct C as ([[j f] n] & Q & I). cbn [fst snd] in Q.
        injection Q as -> Q. destruct (H1 k f n I) as (_ & N'). rewrite Nat.eqb_refl in N'. apply N'. rewrite map_app. apply in_or_app. right.
        left. cbn [e_name]. congruence.
    + intros (H1 & H2). cbn [map fst snd] in H2. inversion H2 as [|? ? N2 ND]; subst.
      destruct (H1 k fn name (or_introl eq_refl)) as (L & N).
      assert (E : add_eq (dbs k) (S_ fn) (S_ name) = Ok (dbs k ++ [mkeqn (S_ name) (S_ fn)])) by (apply add_eq_ok; auto).
      rewrite E. cbn [obind]. pose proof (add_eq_distinct _ _ _ _ (D k) E) as Dd. apply IH.
      * intros j. destruct (Nat.eqb j k); auto.
      * split; [|exact ND]. intros j f n I. destruct (H1 j f n (or_intror I)) as (L' & N'). split; [exact L'|].
        destruct (Nat.eqb_spec j k) as [->|_]; [|exact N']. rewrite map_app. intros C. apply in_app_or in C. destruct C as [C|C]; [exact (N' C)|].
        cbn in C. destruct C as [C|[]]. apply N2. apply in_map_iff. exists (k, f, n). cbn [fst snd]. split; [congruence|exact I].
Qed.

(** ** the data bases of the program *)
Fixpoint nodupb (l : list (nat * str)) : bool :=
  match l with [] => true | (k, s) :: l => negb (existsb (fun '(j, t) => Nat.eqb k j && str_eqb s t) l) && nodupb l end.
Lemma str_eqb_refl s : str_eqb s s = true.
Proof. unfold str_eqb. destruct (list_eq_dec ascii_dec s s); congruence. Qed.
Lemma nodupb_ok l : nodupb l = true -> NoDup l.
Proof.
  induction l as [|[k s] l IH]; cbn [nodupb]; intros H; [constructor|]. apply andb_true_iff in H. destruct H as [H1 H2].
  constructor; [|exact (IH H2)]. intros I. apply negb_true_iff in H1. rewrite <- not_true_iff_false in H1. apply H1.
  apply existsb_exists. exists (k, s). split; [exact I|]. rewrite Nat.eqb_refl, str_eqb_refl. reflexivity.
Qed.
Lemma program_ok : exists dbs, set_equation_dbs = Ok dbs.
Proof.
  apply add_eqs_iff; [apply nil_distinct|]. split.
  - intros k f n I. split; [|easy]. revert k f n I.
    assert (H : forallb (fun c => Nat.ltb (List.length (S_ (snd c))) 400) add_eq_calls = true) by (vm_compute; reflexivity).
    rewrite forallb_forall in H. intros k f n I. apply H in I. apply Nat.ltb_lt in I. exact I.
  - apply nodupb_ok. vm_compute. reflexivity.
Qed.
Definition prefix_of (k : nat) : str :=
  match k with 0 => S_ "eq_" | 1 => S_ "bc_" | 2 => S_ "jacobian_eq_" | _ => S_ "jacobian_bc_" end.
Definition suffixes : list str := map (fun e => skipn 3 (low (e_name e))) (ents 0 add_eq_calls).
Lemma suffixes_ok k : k < 4 -> map (fun e => low (e_name e)) (ents k add_eq_calls) = map (fun s => low (prefix_of k) ++ s) suffixes.
Proof. intros H. destruct k as [|[|[|[|k]]]]; [..|lia]; vm_compute; reflexivity. Qed.
Lemma registered_iff dbs k n : set_equation_dbs = Ok dbs -> k < 4 -> List.length n < 380 ->
  ((exists fn, get_field_eq n (dbs k) (prefix_of k) = Ok fn) <-> In (low n) suffixes).
Proof.
  intros A K L. assert (L' : List.length (prefix_of k ++ n) < 400).
  { rewrite app_length. destruct k as [|[|[|k]]]; cbn [prefix_of]; vm_compute List.length at 1; lia. }
  split.
  - intros (fn & H). apply (lookup_spec _ _ _ _ _ _ A L') in H. destruct H as (f & m & I & Lw & _).
    assert (J : In (low (S_ m)) (map (fun e => low (e_name e)) (ents k add_eq_calls))).
    { apply in_map_iff. exists (mkeqn (S_ m) (S_ f)). split; [reflexivity|]. apply in_ents. exists f, m. auto. }
    rewrite (suffixes_ok k K) in J. apply in_map_iff in J. destruct J as (s & Q & J). rewrite Lw, map_app in Q. apply app_inv_head in Q. congruence.
  - intros J. assert (I : In (low (prefix_of k) ++ low n) (map (fun e => low (e_name e)) (ents k add_eq_calls))).
    { rewrite (suffixes_ok k K). apply in_map_iff. exists (low n). auto. }
    apply in_map_iff in I. destruct I as (e & Q & I). apply in_ents in I. destruct I as (f & m & I & ->). cbn [e_name] in Q.
    exists (S_ f). apply (lookup_spec _ _ _ _ _ _ A L'). exists f, m. rewrite map_app. auto.
Qed.
Lemma all_or_none dbs n : set_equation_dbs = Ok dbs -> List.length n < 380 -> forall j k, j < 4 -> k < 4 ->
  (exists fn, get_field_eq n (dbs j) (prefix_of j) = Ok fn) -> (exists fn, get_field_eq n (dbs k) (prefix_of k) = Ok fn).
Proof. intros A L j k J K H. apply (registered_iff dbs k n A K L). apply (registered_iff dbs j n A J L). exact H. Qed.
Lemma lookup_low n n' db prefix : low n = low n' -> get_field_eq n db prefix = get_field_eq n' db prefix.
Proof.
  intros H. assert (L : List.length n = List.length n') by (rewrite <- (map_length tolower n), H, map_length; reflexivity).
  unfold get_field_eq, sprintf_n. rewrite !app_length, L. destruct (Nat.ltb _ 400); [|reflexivity]. cbn [obind].
  assert (E : forall e : eqn, same_i (e_name e) (prefix ++ n) = same_i (e_name e) (prefix ++ n')).
  { intros e. unfold same_i, strcmp_i. rewrite !map_app, H. reflexivity. }
  assert (F : find (fun e => same_i (e_name e) (prefix ++ n)) db = find (fun e => same_i (e_name e) (prefix ++ n')) db).
  { induction db as [|x db IH]; [reflexivity|]. cbn [find]. rewrite E, IH. reflexivity. }
  rewrite F. reflexivity.
Qed.
(** the four functions under one equation name *)
Definition four (dbs : eq_dbs) (n : str) : list (outcome str) := map (fun k => get_field_eq n (dbs k) (prefix_of k)) [0; 1; 2; 3].
Definition program_dbs : eq_dbs := match set_equation_dbs with Ok d => d | _ => fun _ => [] end.
Lemma program_dbs_ok : set_equation_dbs = Ok program_dbs.
Proof. unfold program_dbs. destruct program_ok as (d & E). rewrite E. reflexivity. Qed.
Lemma four_low dbs n n' : low n = low n' -> four dbs n = four dbs n'.
Proof. intros H. unfold four. apply map_ext. intros k. apply lookup_low. exact H. Qed.

(** ** the solving manager *)
Section Entry.
Variables (l : list (nat * string * string)) (dbs : eq_dbs) (get : str -> option str).
Hypothesis A : add_eqs l (fun _ => []) = Ok dbs.
(** q is the function of a registration in database k under the name nm (any case) *)
Definition registered (k : nat) (nm q : str) : Prop := exists f n, In (k, f, n) l /\ low (S_ n) = low nm /\ q = S_ f.
Lemma reg_get k pr n q : prefix_of k = pr -> List.length n < 380 -> (get_field_eq n (dbs k) pr = Ok q <-> registered k (pr ++ n) q).
Proof.
  intros <- L. apply lookup_spec; [exact A|]. rewrite app_length. destruct k as [|[|[|k]]]; cbn [prefix_of]; vm_compute List.length at 1; lia.
Qed.
Lemma entry_ok p f v m : List.length (p ++ S_ "alias_field_" ++ f) < 100 -> get (low (p ++ f)) = Some v -> List.length v < 100 ->
  (forall a, get (low (p ++ S_ "alias_field_" ++ f)) = Some a -> List.length a < 100) ->
  (solving_entry get dbs (Some p) f = Ok m <->
   exists b r, v = b ++ ","%char :: r /\ ~ In ","%char b /\ s_field m = f /\
     s_alias m = (match get (low (p ++ S_ "alias_field_" ++ f)) with Some a => a | None => f end) /\
     registered 0 (S_ "eq_" ++ b ++ "_"%char :: f) (s_eq m) /\ registered 1 (S_ "bc_" ++ b ++ "_"%char :: f) (s_bc m) /\
     registered 2 (S_ "jacobian_eq_" ++ b ++ "_"%char :: f) (s_jac m) /\ registered 3 (S_ "jacobian_bc_" ++ b ++ "_"%char :: f) (s_jacbc m)).
Proof.
  intros La G Lv Lal. unfold solving_entry.
  assert (Lf : List.length f < 88) by (rewrite !app_length in La; vm_compute (List.length (S_ "alias_field_")) in La; lia).
  assert (Lp : List.length (p ++ f) < 100) by (rewrite !app_length in *; lia).
  rewrite (sprintf_eq _ _ Lp). cbn [obind]. unfold Pgets_o, Pget at 1. rewrite G. cbn [obind]. rewrite (sprintf_eq _ _ Lv). cbn [obind].
  destruct (strchr v ","%char) as [[b r]|] eqn:C.
  - apply strchr_split in C. destruct C as (Ev & Nb & r' & ->).
    assert (Lb : List.length (b ++ "_"%char :: f) < 200) by (rewrite Ev in Lv; rewrite !app_length in *; cbn [List.length] in *; lia).
    rewrite (sprintf_eq _ _ Lb). cbn [obind]. rewrite (sprintf_eq _ _ La). cbn [obind].
    set (al := match get (low (p ++ S_ "alias_field_" ++ f)) with Some a => a | None => f end).
    assert (Lal' : List.length al < 100).
    { subst al. destruct (get (low (p ++ S_ "alias_field_" ++ f))) as [a|] eqn:Ga; [exact (Lal a eq_refl)|lia]. }
    unfold Pget. fold al. rewrite (sprintf_eq _ _ Lal'). cbn [obind].
    assert (R : forall k pr q, prefix_of k = pr -> (get_field_eq (b ++ "_"%char :: f) (dbs k) pr = Ok q <-> registered k (pr ++ b ++ "_"%char :: f) q)).
    { intros k pr q E. apply reg_get; [exact E|lia]. }
    split.
    + destruct (get_field_eq _ (dbs 0) _) as [q0| |] eqn:E0; try discriminate. cbn [obind].
      destruct (get_field_eq _ (dbs 1) _) as [q1| |] eqn:E1; try discriminate. cbn [obind].
      destruct (get_field_eq _ (dbs 2) _) as [q2| |] eqn:E2; try discriminate. cbn [obind].
      destruct (get_field_eq _ (dbs 3) _) as [q3| |] eqn:E3; try discriminate. cbn [obind].
      intros Q. injection Q as <-. exists b, r'.  split; [exact Ev|]. split; [exact Nb|].
      split; [reflexivity|]. split; [reflexivity|].
      split; [apply (R 0); [reflexivity|exact E0]|]. split; [apply (R 1); [reflexivity|exact E1]|].
      split; [apply (R 2); [reflexivity|exact E2]|apply (R 3); [reflexivity|exact E3]].
    + intros (b' & r2 & Ev' & Nb' & Hf & Ha & H0 & H1 & H2 & H3).
      assert (b' = b).
      { assert (X : strchr v ","%char = Some (b', ","%char :: r2)) by (rewrite Ev'; apply strchr_app; exact Nb').
        rewrite Ev, strchr_app in X by exact Nb. injection X as -> _. reflexivity. }
      subst b'. apply (R 0 (S_ "eq_")) in H0; [|reflexivity]. apply (R 1 (S_ "bc_")) in H1; [|reflexivity].
      apply (R 2 (S_ "jacobian_eq_")) in H2; [|reflexivity]. apply (R 3 (S_ "jacobian_bc_")) in H3; [|reflexivity].
      rewrite H0, H1, H2, H3. cbn [obind]. destruct m as [mf ma m0 m1 m2 m3]. simpl in Hf, Ha |- *. subst mf ma. reflexivity.
  - cbn [obind]. split; [discriminate|]. intros (b' & r2 & Ev' & _). exfalso. apply strchr_none in C. apply C. rewrite Ev'. apply in_or_app. right. left. reflexivity.
Qed.
(** a missing parameter, or one without a comma, stops the program *)
Lemma entry_abort p f : List.length (p ++ f) < 100 ->
  (get (low (p ++ f)) = None \/ exists v, get (low (p ++ f)) = Some v /\ List.length v < 100 /\ ~ In ","%char v) ->
  solving_entry get dbs (Some p) f = Abort.
Proof.
  intros L H. unfold solving_entry. rewrite (sprintf_eq _ _ L). cbn [obind]. unfold Pgets_o, Pget at 1.
  destruct H as [H|(v & H & Lv & N)]; rewrite H; cbn [obind]; [reflexivity|].
  rewrite (sprintf_eq _ _ Lv). cbn [obind]. apply strchr_none in N. rewrite N. reflexivity.
Qed.
Lemma entry_bare f m : List.length f < 200 -> (solving_entry get dbs None f = Ok m <->
   s_field m = f /\ s_alias m = [] /\ registered 0 (S_ "eq_" ++ f) (s_eq m) /\ registered 1 (S_ "bc_" ++ f) (s_bc m) /\
     registered 2 (S_ "jacobian_eq_" ++ f) (s_jac m) /\ registered 3 (S_ "jacobian_bc_" ++ f) (s_jacbc m)).
Proof.
  intros L. unfold solving_entry. rewrite (sprintf_eq _ _ L). cbn [obind].
  assert (R : forall k pr q, prefix_of k = pr -> (get_field_eq f (dbs k) pr = Ok q <-> registered k (pr ++ f) q)).
  { intros k pr q E. apply reg_get; [exact E|lia]. }
  split.
  - destruct (get_field_eq _ (dbs 0) _) as [q0| |] eqn:E0; try discriminate. cbn [obind].
    destruct (get_field_eq _ (dbs 1) _) as [q1| |] eqn:E1; try discriminate. cbn [obind].
    destruct (get_field_eq _ (dbs 2) _) as [q2| |] eqn:E2; try discriminate. cbn [obind].
    destruct (get_field_eq _ (dbs 3) _) as [q3| |] eqn:E3; try discriminate. cbn [obind].
    intros Q. injection Q as <-.  split; [reflexivity|]. split; [reflexivity|].
    split; [apply (R 0); [reflexivity|exact E0]|]. split; [apply (R 1); [reflexivity|exact E1]|].
    split; [apply (R 2); [reflexivity|exact E2]|apply (R 3); [reflexivity|exact E3]].
  - intros (Hf & Ha & H0 & H1 & H2 & H3).
    apply (R 0 (S_ "eq_")) in H0; [|reflexivity]. apply (R 1 (S_ "bc_")) in H1; [|reflexivity].
    apply (R 2 (S_ "jacobian_eq_")) in H2; [|reflexivity]. apply (R 3 (S_ "jacobian_bc_")) in H3; [|reflexivity].
    rewrite H0, H1, H2, H3. cbn [obind]. destruct m as [mf ma m0 m1 m2 m3]. simpl in Hf, Ha |- *. subst mf ma. reflexivity.
Qed.
End Entry.
Lemma omap_ok {X Y} (g : X -> outcome Y) l r : omap g l = Ok r <-> Forall2 (fun a b => g a = Ok b) l r.
Proof.
  revert r. induction l as [|a l IH]; intros r; cbn [omap].
  - split; [intros H; injection H as <-; constructor | intros H; inversion H; reflexivity].
  - split.
    + destruct (g a) as [b| |] eqn:E; try discriminate. cbn [obind]. destruct (omap g l) as [r'| |] eqn:E'; try discriminate. cbn [obind].
      intros H. injection H as <-. constructor; [exact E|]. apply IH. reflexivity.
    + intros H. inversion H as [|? b ? r' E E']; subst. rewrite E. cbn [obind]. apply IH in E'. rewrite E'. reflexivity.
Qed.
Lemma manager_ok get dbs prefix par ms : get (S_ "solve_order") = Some par -> ~ In NUL par -> hd_error par <> Some ","%char ->
  (initialize_solving_man get dbs prefix = Ok ms <->
   Forall2 (fun f m => solving_entry get dbs prefix f = Ok m) (segments ","%char par) ms).
Proof.
  intros G N H. unfold initialize_solving_man, Pgets_o, Pget. replace (low (S_ "solve_order")) with (S_ "solve_order") by reflexivity.
  rewrite G. cbn [obind]. rewrite items_plain by (try assumption; discriminate). cbn [obind]. apply omap_ok.
Qed.
(** ** the region *)
Lemma region_ok b r : List.length (b ++ ","%char :: r) < 999 -> ~ In ","%char b ->
  eq_region (b ++ ","%char :: r) = Ok (match strstr r (S_ ".*") with Some _ => None | None => Some r end).
Proof. intros L N. unfold eq_region. rewrite (sprintf_eq _ _ L). cbn [obind]. rewrite (strchr_app _ _ _ N). cbn [tl]. reflexivity. Qed.
Lemma region_abort v : List.length v < 999 -> ~ In ","%char v -> eq_region v = Abort.
Proof. intros L N. unfold eq_region. rewrite (sprintf_eq _ _ L). cbn [obind]. apply strchr_none in N. rewrite N. reflexivity. Qed.
Lemma grid_of {G} (l : list (str * G)) whole n g : NoDup (map fst l) -> In (n, g) l -> get_grid l whole n = g.
Proof.
  induction l as [|[m h] l IH]; [easy|]. cbn [map fst get_grid]. intros D I. inversion D as [|? ? N D']; subst. unfold str_eqb.
  destruct (list_eq_dec ascii_dec m n) as [->|Ne].
  - destruct I as [I|I]; [injection I as ->; reflexivity|]. exfalso. apply N. apply (in_map fst) in I. exact I.
  - destruct I as [I|I]; [congruence|]. apply IH; assumption.
Qed.
Lemma grid_none {G} (l : list (str * G)) whole n : ~ In n (map fst l) -> get_grid l whole n = whole.
Proof.
  induction l as [|[m h] l IH]; [reflexivity|]. cbn [map fst get_grid In]. intros N. unfold str_eqb.
  destruct (list_eq_dec ascii_dec m n) as [->|Ne]; [tauto|]. apply IH. tauto.
Qed.
(** ** the default parameters *)
Definition default_ok (q : string * string) : bool :=
  match strchr (S_ (snd q)) ","%char with
  | Some (b, _) => existsb (str_eqb (low (b ++ "_"%char :: S_ (fst q)))) suffixes && Nat.ltb (List.length (b ++ "_"%char :: S_ (fst q))) 200
                   && Nat.ltb (List.length (S_ (snd q))) 100 && Nat.ltb (List.length (S_ "EQ_" ++ S_ "alias_field_" ++ S_ (fst q))) 100
  | None => false
  end.
Lemma str_eqb_true a b : str_eqb a b = true -> a = b.
Proof. unfold str_eqb. destruct (list_eq_dec ascii_dec a b); congruence. Qed.
Lemma default_entry f v get : In (f, v) eq_defaults -> get (low (S_ "EQ_" ++ S_ f)) = Some (S_ v) ->
  (forall a, get (low (S_ "EQ_" ++ S_ "alias_field_" ++ S_ f)) = Some a -> List.length a < 100) ->
  exists m reg, solving_entry get program_dbs (Some (S_ "EQ_")) (S_ f) = Ok m /\ eq_region (S_ v) = Ok reg.
Proof.
  intros I G Al. assert (C : forallb default_ok eq_defaults = true) by (vm_compute; reflexivity).
  rewrite forallb_forall in C. apply C in I. clear C. unfold default_ok in I. cbn [fst snd] in I.
  destruct (strchr (S_ v) ","%char) as [[b r]|] eqn:E; [|discriminate].
  apply andb_true_iff in I. destruct I as [I L3]. apply andb_true_iff in I. destruct I as [I L2]. apply andb_true_iff in I. destruct I as [I L1].
  apply Nat.ltb_lt in L1, L2, L3. apply existsb_exists in I. destruct I as (s & Is & Es). apply str_eqb_true in Es.
  apply strchr_split in E. destruct E as (Ev & Nb & r' & ->).
  assert (R : forall k, k < 4 -> exists q, registered add_eq_calls k (prefix_of k ++ b ++ "_"%char :: S_ f) q).
  { intros k K. assert (L : List.length (b ++ "_"%char :: S_ f) < 380) by lia.
    destruct (proj2 (registered_iff program_dbs k _ program_dbs_ok K L)) as (q & Q); [rewrite Es; exact Is|].
    exists q. apply (reg_get add_eq_calls program_dbs program_dbs_ok k (prefix_of k) _ q eq_refl L). exact Q. }
  destruct (R 0 ltac:(lia)) as (q0 & R0). destruct (R 1 ltac:(lia)) as (q1 & R1). destruct (R 2 ltac:(lia)) as (q2 & R2). destruct (R 3 ltac:(lia)) as (q3 & R3).
  exists (mksman (S_ f) (match get (low (S_ "EQ_" ++ S_ "alias_field_" ++ S_ f)) with Some a => a | None => S_ f end) q0 q1 q2 q3).
  exists (match strstr r' (S_ ".*") with Some _ => None | None => Some r' end). split.
  - apply (entry_ok add_eq_calls program_dbs get program_dbs_ok (S_ "EQ_") (S_ f) (S_ v) _ L3 G L2 Al).
    exists b, r'. repeat split; try assumption.
  - rewrite Ev. apply region_ok; [rewrite <- Ev; lia|exact Nb].
Qed.
