(** TextFinal.v - the statements of C13-C17 proved. *)
From Coq Require ListDec.
From Verif Require Import Base ParamModel ParamSpec ParamText TextModel TextSpec TextProofs TextPopulate.
Local Arguments NUL : simpl never.
Local Arguments NL : simpl never.
Local Notation EQ := "="%char (only parsing).

Lemma mb_any : forall f md buf j, mb f md buf j = ended md f buf \/ mb f md buf j = Abort.
Proof.
  induction f as [|c f IH]; intros md buf j.
  - destruct md; cbn; unfold round_end; try (destruct (MAX_NUM_CHAR <? j)%N); auto.
  - assert (Hj := fun md buf => mb_spec (c :: f) md buf).
    (* compare with the unbounded machine: every branch is either the same or Abort *)
    clear Hj. cbn [mb]. unfold round_end.
    assert (E : forall md buf j, mb f md buf j = Abort \/ mb f md buf j = ended md f buf) by (intros; destruct (IH md0 buf0 j0); auto).
    change newline with NL in *.
    destruct md; cbn [ended].
    + rewrite mb_result_eq. cbn [clean file_end]. rewrite blank_same. change newline with NL. change backslash with BS.
      destruct (blank c) eqn:B.
      { assert (X1 : ch_eqb c NL = false) by (destruct (ch_eqb c NL) eqn:X; [chs; discriminate|reflexivity]).
        assert (X2 : ch_eqb c "#" = false) by (destruct (ch_eqb c "#") eqn:X; [chs; discriminate|reflexivity]).
        assert (X3 : ch_eqb c BS = false) by (destruct (ch_eqb c BS) eqn:X; [chs; discriminate|reflexivity]).
        rewrite X1, X2, X3. apply (IH Outer buf j). }
      destruct (ch_eqb c "#") eqn:H1.
      { assert (X1 : ch_eqb c NL = false) by (chs; reflexivity). rewrite X1. apply (IH Comm buf j). }
      destruct (ch_eqb c BS) eqn:H2.
      { assert (X1 : ch_eqb c NL = false) by (chs; reflexivity). rewrite X1.
        destruct (IH Back buf j) as [->| ->]; [|auto]. left.
        destruct f as [|c' f']; [reflexivity|]. cbn [ended]. change newline with NL. destruct (ch_eqb c' NL); reflexivity. }
      destruct (MAX_NUM_CHAR <? j)%N; [auto|].
      destruct (IH Outer (c :: buf) (j + 1)%N) as [->| ->]; [|auto]. left. cbn [ended].
      rewrite mb_result_cons. destruct (ch_eqb c NL); reflexivity.
    + rewrite mb_result_eq. cbn [clean file_end]. change newline with NL.
      destruct (ch_eqb c NL) eqn:H1; [|apply (IH Comm buf j)].
      destruct (MAX_NUM_CHAR <? j)%N; [auto|].
      destruct (IH Outer (NL :: buf) (j + 1)%N) as [->| ->]; [|auto]. left. cbn [ended]. rewrite mb_result_cons. reflexivity.
    + destruct (ch_eqb c NL); [apply (IH Cont buf j)|auto].
    + rewrite mb_result_eq. cbn [clean file_end]. rewrite blank_same. change newline with NL. change backslash with BS.
      destruct (ch_eqb c NL) eqn:H1.
      { chs. destruct (MAX_NUM_CHAR <? j)%N; [auto|].
        destruct (IH Outer (NL :: buf) (j + 1)%N) as [->| ->]; [|auto]. left. cbn [ended]. rewrite mb_result_cons. reflexivity. }
      destruct (blank c) eqn:B.
      { assert (X2 : ch_eqb c "#" = false) by (destruct (ch_eqb c "#") eqn:X; [chs; discriminate|reflexivity]).
        assert (X3 : ch_eqb c BS = false) by (destruct (ch_eqb c BS) eqn:X; [chs; discriminate|reflexivity]).
        rewrite X2, X3. apply (IH Cont buf j). }
      destruct (ch_eqb c BS) eqn:H2.
      { assert (X1 : ch_eqb c "#" = false) by (chs; reflexivity). rewrite X1.
        destruct (IH ContBack buf j) as [->| ->]; [|auto]. left.
        destruct f as [|c' f']; [reflexivity|]. cbn [ended]. change newline with NL. destruct (ch_eqb c' NL); reflexivity. }
      destruct (ch_eqb c "#") eqn:H3; [apply (IH ContComm buf j)|].
      destruct (IH Cont (c :: buf) j) as [->| ->]; [|auto]. left. cbn [ended]. rewrite mb_result_cons. reflexivity.
    + destruct (ch_eqb c NL); [apply (IH Cont buf j)|auto].
    + rewrite mb_result_eq. cbn [clean file_end]. change newline with NL.
      destruct (ch_eqb c NL) eqn:H1; [|apply (IH ContComm buf j)].
      destruct (MAX_NUM_CHAR <? j)%N; [auto|].
      destruct (IH Outer (NL :: buf) (j + 1)%N) as [->| ->]; [|auto]. left. cbn [ended]. rewrite mb_result_cons. reflexivity.
Qed.

(** what the buffer is *)
Definition buffer_of (f : str) : outcome str :=
  match clean f false with
  | None => Abort
  | Some t =>
    match file_end f false false with
    | EComment | EJoined => match t with [] => UB | _ => Ok (removelast t ++ [NUL]) end
    | _ => Ok (t ++ [NUL])
    end
  end.
Lemma finish_eq f r : r = ended Outer f [] ->
  (do buf <- r; match buf with [] => UB | _ :: b => Ok (rev (NUL :: b)) end) = buffer_of f.
Proof.
  intros ->. unfold buffer_of. cbn [ended]. unfold mb_result.
  destruct (clean f false) as [t|]; [|reflexivity]. rewrite app_nil_r. cbn [obind].
  destruct (file_end f false false); cbn [lossy List.app].
  - cbn [rev]. rewrite rev_involutive. reflexivity.
  - destruct t as [|c t] using rev_ind; [reflexivity|]. rewrite rev_app_distr. cbn [rev List.app].
    rewrite rev_involutive, removelast_last. destruct (t ++ [c]) eqn:E; [destruct t; discriminate|reflexivity].
  - destruct t as [|c t] using rev_ind; [reflexivity|]. rewrite rev_app_distr. cbn [rev List.app].
    rewrite rev_involutive, removelast_last. destruct (t ++ [c]) eqn:E; [destruct t; discriminate|reflexivity].
  - cbn [rev]. rewrite rev_involutive. reflexivity.
Qed.
Lemma make_buffer_spec f : (N.of_nat (List.length f) <= 9999)%N -> make_buffer f = buffer_of f.
Proof. intros H. apply finish_eq. apply mb_spec. exact H. Qed.
Lemma make_buffer_any f : make_buffer f = buffer_of f \/ make_buffer f = Abort.
Proof.
  unfold make_buffer. destruct (mb_any f Outer [] 0%N) as [E|E]; rewrite E; [left|right; reflexivity].
  apply (finish_eq f (ended Outer f []) eq_refl).
Qed.

(** *** whole file *)
Lemma file_text_noNUL ls : Forall (fun l => match l with Some p => wf_assign p | None => True end) ls -> ~ In NUL (file_text ls).
Proof.
  induction 1 as [|l ls Hl Hls IH]; [auto|]. unfold file_text. cbn [map List.concat]. fold (file_text ls).
  rewrite not_in_app. split; [|exact IH]. destruct l as [[n v]|]; cbn [line_text].
  - destruct Hl as (N1 & N2 & N3 & N4 & V1 & V2 & V3 & V4). cbn [fst snd] in *.
    intros K. apply in_app_iff in K. destruct K as [K|[K|K]]; [contradiction|discriminate|].
    apply in_app_iff in K. destruct K as [K|[K|[]]]; [contradiction|discriminate].
  - intros [K|[]]. discriminate.
Qed.
Lemma assign_nl ls : assignments ls <> [] -> forall s', file_text ls = NL :: s' -> In NL s'.
Proof.
  intros H s' E. destruct ls as [|[[n v]|] ls]; cbn in H; [congruence| |].
  - unfold file_text in E. cbn [map List.concat] in E. fold (file_text ls) in E. cbn [line_text] in E.
    change newline with NL in E.
    destruct n as [|c n]; cbn [List.app] in E.
    + injection E as E1 E2. discriminate.
    + injection E as E1 E2. rewrite <- E2. apply in_app_iff. left. apply in_app_iff. right. right.
      apply in_app_iff. right. left. reflexivity.
  - unfold file_text in E. cbn [map List.concat line_text List.app] in E. fold (file_text ls) in E.
    injection E as E2. rewrite <- E2. destruct ls as [|l ls]; [cbn in H; congruence|].
    unfold file_text. cbn [map List.concat]. apply in_app_iff. left. destruct l as [[n v]|]; cbn [line_text].
    + apply in_app_iff. right. right. apply in_app_iff. right. left. reflexivity.
    + left. reflexivity.
Qed.
Lemma file_text_len ls : Forall (fun l => match l with Some p => wf_assign p | None => True end) ls ->
  assignments ls <> [] -> 2 <= List.length (file_text ls).
Proof.
  intros H. induction H as [|l ls Hl Hls IH]; cbn [assignments]; intros N; [congruence|].
  unfold file_text. cbn [map List.concat]. fold (file_text ls). rewrite app_length.
  destruct l as [[n v]|]; cbn [line_text assignments] in *.
  - rewrite app_length. cbn [List.length]. rewrite app_length. cbn. lia.
  - specialize (IH N). lia.
Qed.

Definition add_all (d : db) (l : list (str * str)) : outcome db :=
  fold_left (fun od p => do d <- od; add_parameter d (fst p) (Some (snd p))) l (Ok d).

Lemma read_file_spec d f ls :
  (N.of_nat (List.length f) <= 9999)%N -> clean f false = Some (file_text ls) ->
  file_end f false false = EPlain \/ file_end f false false = EJoinedComment ->
  Forall (fun l => match l with Some p => wf_assign p | None => True end) ls -> assignments ls <> [] ->
  read_input_file d f = add_all d (assignments ls).
Proof.
  intros Hl Hc He Hw Ha. unfold read_input_file. rewrite (make_buffer_spec f Hl).
  assert (HN := file_text_noNUL ls Hw).
  assert (E : buffer_of f = Ok (file_text ls ++ [NUL])) by (unfold buffer_of; rewrite Hc; destruct He as [->| ->]; reflexivity).
  rewrite E. cbn [obind]. rewrite (cstr_app (file_text ls) [] HN).
  assert (L := file_text_len ls Hw Ha).
  destruct (Nat.ltb_spec (List.length (file_text ls)) 2) as [K|_]; [lia|].
  assert (X : populate_parameters d (file_text ls ++ [NUL]) = populate_parameters d (file_text ls)).
  { unfold populate_parameters. rewrite (cstr_app _ [] HN), (cstr_id _ HN). reflexivity. }
  rewrite X, populate_spec; [|exact HN|apply assign_nl; exact Ha].
  apply (file_segments ls Hw d).
Qed.

Lemma pieces_ne d x : pieces d x <> [].
Proof. destruct x as [|y x]; cbn; [discriminate|]. destruct (ascii_dec y d); [discriminate|]. destruct (pieces d x); discriminate. Qed.
(** last line without newline, in the plain state *)
Lemma segments_last ls n v :
  ~ In NL n -> ~ In NL v ->
  segments NL (file_text ls ++ n ++ EQ :: v) = segments NL (file_text (ls ++ [Some (n, v)])).
Proof.
  intros N3 V3.
  assert (Hn : ~ In NL (n ++ EQ :: v)).
  { intros K. apply in_app_iff in K. destruct K as [K|[K|K]]; try contradiction. discriminate. }
  assert (Nn : nonempty (n ++ EQ :: v) = true) by (destruct n; reflexivity).
  assert (F : file_text (ls ++ [Some (n, v)]) = file_text ls ++ (n ++ EQ :: v) ++ NL :: []).
  { unfold file_text. rewrite map_app, concat_app. cbn. rewrite app_nil_r, <- app_assoc. reflexivity. }
  rewrite F. generalize (file_text ls) as s. intros s.
  unfold segments. induction s as [|c s IH].
  - cbn [List.app]. rewrite pieces_app by exact Hn. rewrite pieces_nochar by exact Hn. cbn [filter pieces nonempty]. rewrite Nn. reflexivity.
  - cbn [List.app pieces]. destruct (ascii_dec c NL) as [->|Nc].
    + cbn [filter nonempty]. exact IH.
    + assert (P : forall x, exists p l, pieces NL x = p :: l).
      { intros x. destruct x as [|y x]; cbn; [eauto|]. destruct (ascii_dec y NL); [eauto|]. destruct (pieces NL x); eauto. }
      destruct (P (s ++ n ++ EQ :: v)) as (p1 & l1 & E1). destruct (P (s ++ (n ++ EQ :: v) ++ [NL])) as (p2 & l2 & E2).
      rewrite E1, E2 in *.
      (* both first pieces agree *)
      assert (G : forall (x y : str), ~ In NL y -> y <> [] -> forall p l p' l', pieces NL (x ++ y) = p :: l -> pieces NL (x ++ y ++ [NL]) = p' :: l' ->
                 p = p' /\ l' = l ++ [[]]).
      { clear. intros x y Hy Ny. induction x as [|z x IH]; intros p l p' l' A B.
        - cbn [List.app] in *. rewrite pieces_nochar in A by exact Hy. change (y ++ [NL]) with (y ++ NL :: []) in B.
          rewrite pieces_app in B by exact Hy. inversion A; inversion B; subst. split; reflexivity.
        - cbn [List.app pieces] in *. destruct (ascii_dec z NL).
          + destruct (pieces NL (x ++ y)) as [|q m] eqn:E1; [exfalso; eapply pieces_ne; exact E1|].
            destruct (pieces NL (x ++ y ++ [NL])) as [|q' m'] eqn:E2; [exfalso; eapply pieces_ne; exact E2|].
            destruct (IH _ _ _ _ eq_refl eq_refl) as [-> ->]. inversion A; inversion B; subst. split; reflexivity.
          + destruct (pieces NL (x ++ y)) as [|q m] eqn:E1; [exfalso; eapply pieces_ne; exact E1|].
            destruct (pieces NL (x ++ y ++ [NL])) as [|q' m'] eqn:E2; [exfalso; eapply pieces_ne; exact E2|].
            destruct (IH _ _ _ _ eq_refl eq_refl) as [-> ->]. inversion A; inversion B; subst. split; reflexivity. }
      destruct (G s (n ++ EQ :: v) Hn ltac:(destruct n; discriminate) _ _ _ _ E1 E2) as [-> ->].
      cbn [filter nonempty]. f_equal. rewrite filter_app. cbn. rewrite app_nil_r. reflexivity.
Qed.

Lemma assignments_app a b : assignments (a ++ b) = assignments a ++ assignments b.
Proof. induction a as [|[p|] a IH]; cbn; [reflexivity|rewrite IH; reflexivity|exact IH]. Qed.

Lemma read_file_last d f ls n v :
  (N.of_nat (List.length f) <= 9999)%N -> clean f false = Some (file_text ls ++ n ++ EQ :: v) ->
  file_end f false false = EPlain \/ file_end f false false = EJoinedComment ->
  Forall (fun l => match l with Some p => wf_assign p | None => True end) ls -> wf_assign (n, v) -> ls <> [None] ->
  read_input_file d f = add_all d (assignments ls ++ [(n, v)]).
Proof.
  intros Hl Hc He Hw Hnv Ha. unfold read_input_file. rewrite (make_buffer_spec f Hl).
  set (t := file_text ls ++ n ++ EQ :: v) in *.
  assert (HW : Forall (fun l => match l with Some p => wf_assign p | None => True end) (ls ++ [Some (n, v)])).
  { apply Forall_app. split; [exact Hw|]. constructor; [exact Hnv|constructor]. }
  assert (W := Hnv). destruct W as (N1 & N2 & N3 & N4 & V1 & V2 & V3 & V4). cbn [fst snd] in *.
  assert (HN : ~ In NUL t).
  { unfold t. rewrite not_in_app. split; [apply file_text_noNUL; exact Hw|].
    intros K. apply in_app_iff in K. destruct K as [K|[K|K]]; try contradiction. discriminate. }
  assert (E : buffer_of f = Ok (t ++ [NUL])) by (unfold buffer_of; rewrite Hc; destruct He as [->| ->]; reflexivity).
  rewrite E. cbn [obind]. rewrite (cstr_app t [] HN).
  assert (L : 2 <= List.length t).
  { unfold t. rewrite !app_length. cbn. destruct n; [congruence|cbn; lia]. }
  destruct (Nat.ltb_spec (List.length t) 2) as [K|_]; [lia|].
  assert (X : populate_parameters d (t ++ [NUL]) = populate_parameters d t).
  { unfold populate_parameters. rewrite (cstr_app _ [] HN), (cstr_id _ HN). reflexivity. }
  rewrite X, populate_spec; [|exact HN|].
  - unfold t. rewrite segments_last by assumption. rewrite (file_segments _ HW d), assignments_app. reflexivity.
  - intros s' Es. unfold t in Es. destruct ls as [|l ls].
    + cbn in Es. destruct n as [|c n]; [congruence|]. cbn in Es. injection Es as -> _. exfalso. apply N3. left. reflexivity.
    + destruct l as [[n0 v0]|].
      * apply Forall_inv in Hw. destruct Hw as (M1 & _ & M3 & _). cbn [fst] in *. destruct n0 as [|c n0]; [congruence|].
        cbn in Es. injection Es as -> _. exfalso. apply M3. left. reflexivity.
      * unfold file_text in Es. cbn [map List.concat line_text List.app] in Es. fold (file_text ls) in Es.
        injection Es as <-. destruct ls as [|l' ls]; [congruence|].
        apply in_app_iff. left. unfold file_text. cbn [map List.concat]. apply in_app_iff. left.
        destruct l' as [[n' v']|]; cbn [line_text].
        -- apply in_app_iff. right. right. apply in_app_iff. right. left. reflexivity.
        -- left. reflexivity.
Qed.

(** *** the database that results from plain values *)
Definition plain_value (v : str) : Prop := v <> [] /\ v <> [SP] /\ ~ contains v (S_ "->") /\ ~ has_mult v.
Definition plain_entry (p : str * str) : param := set_rv (Some (snd p)) (new_par (par_rule1 (fst p))).

Lemma add_plain d n v : plain_value v -> get_parameter d n = None ->
  add_parameter d n (Some v) = Ok (append_par d (plain_entry (n, v))).
Proof.
  intros (V1 & V2 & V3 & V4) G. unfold add_parameter.
  assert (G' : get_parameter d (par_rule1 n) = None).
  { revert G. unfold get_parameter. rewrite rule_idem. auto. }
  rewrite G'. assert (E1 : str_eqb v [] = false) by (apply str_eqb_neq; exact V1).
  assert (E2 : str_eqb v [SP] = false) by (apply str_eqb_neq; exact V2).
  rewrite E1, E2. cbn [orb]. unfold arrow. rewrite (not_contains_strstr v (S_ "->") V3).
  destruct (regex_search_mult v) eqn:E3; [exfalso; apply V4; apply regex_search_has_mult; exact E3|]. reflexivity.
Qed.
Lemma add_dup d n v p : get_parameter d n = Some p -> add_parameter d n (Some v) = Abort.
Proof.
  intros G. unfold add_parameter.
  assert (G' : get_parameter d (par_rule1 n) = Some p).
  { revert G. unfold get_parameter. rewrite rule_idem. auto. }
  rewrite G'. reflexivity.
Qed.
Lemma find_par_map l k : find_par (map plain_entry l) (par_rule1 k) = None <-> ~ In (lower k) (map (fun p => lower (fst p)) l).
Proof.
  induction l as [|[n v] l IH]; cbn [map find_par find]; [cbn; tauto|].
  cbn [plain_entry fst lv set_rv new_par]. destruct (str_eqb (par_rule1 n) (par_rule1 k)) eqn:E.
  - apply str_eqb_eq in E. apply rule_eq_iff in E. cbn. split; [discriminate|]. intros H. exfalso. apply H. left. exact E.
  - apply str_eqb_neq in E. unfold find_par in IH. unfold plain_entry in E. cbn in E |- *.
    split; intros H.
    + intros [K|K]; [apply E; apply rule_eq_iff; exact K|]. apply IH in H. contradiction.
    + apply IH. tauto.
Qed.
Lemma add_all_plain : forall l acc, Forall (fun p => plain_value (snd p)) l ->
  NoDup (map (fun p => lower (fst p)) acc) ->
  fold_left (fun od p => do d <- od; add_parameter d (fst p) (Some (snd p))) l (Ok (Some (map plain_entry acc))) =
  if ListDec.NoDup_dec (list_eq_dec ascii_dec) (map (fun p => lower (fst p)) (acc ++ l))
  then Ok (Some (map plain_entry (acc ++ l))) else Abort.
Proof.
  assert (AB : forall (l : list (str * str)), fold_left (fun od (p : str * str) => do d <- od; add_parameter d (fst p) (Some (snd p))) l (@Abort db) = Abort).
  { induction l as [|p l IH]; [reflexivity|exact IH]. }
  induction l as [|[n v] l IH]; intros acc Hp Hd.
  - rewrite app_nil_r. cbn [fold_left]. destruct (ListDec.NoDup_dec _ _); [reflexivity|contradiction].
  - inversion Hp as [|x y H1 H2]; subst. cbn [fst snd] in H1. cbn [fold_left fst snd obind].
    destruct (get_parameter (Some (map plain_entry acc)) n) as [p|] eqn:G.
    + rewrite (add_dup _ _ _ _ G), AB.
      destruct (ListDec.NoDup_dec _ _) as [K|_]; [exfalso|reflexivity].
      assert (I : In (lower n) (map (fun p => lower (fst p)) acc)).
      { cbn [get_parameter] in G. destruct (in_dec (list_eq_dec ascii_dec) (lower n) (map (fun p => lower (fst p)) acc)) as [I|I]; [exact I|].
        apply find_par_map in I. congruence. }
      rewrite map_app in K. cbn in K. apply NoDup_remove_2 in K. apply K. apply in_app_iff. left. exact I.
    + rewrite (add_plain _ _ _ H1 G). unfold append_par. cbn [pars].
      assert (I : ~ In (lower n) (map (fun p => lower (fst p)) acc)) by (apply find_par_map; exact G).
      replace (map plain_entry acc ++ [plain_entry (n, v)]) with (map plain_entry (acc ++ [(n, v)])) by (rewrite map_app; reflexivity).
      etransitivity; [apply (IH (acc ++ [(n, v)]) H2)|].
      * rewrite map_app. cbn. apply NoDup_rev in Hd. rewrite <- (rev_involutive (_ ++ [_])). apply NoDup_rev.
        rewrite rev_app_distr. cbn. constructor; [rewrite <- in_rev; exact I|exact Hd].
      * rewrite <- app_assoc. reflexivity.
Qed.
Lemma add_all_plain0 l : l <> [] -> Forall (fun p => plain_value (snd p)) l ->
  add_all None l = if ListDec.NoDup_dec (list_eq_dec ascii_dec) (map (fun p => lower (fst p)) l)
  then Ok (Some (map plain_entry l)) else Abort.
Proof.
  destruct l as [|[n v] l]; intros H Hp; [congruence|]. unfold add_all. cbn [fold_left fst snd obind].
  inversion Hp as [|x y H1 H2]; subst. cbn [fst snd] in H1. rewrite (add_plain None n v H1 eq_refl).
  apply (add_all_plain l [(n, v)] H2). cbn. constructor; [intros []|constructor].
Qed.

Lemma file_to_database f ls :
  (N.of_nat (List.length f) <= 9999)%N -> clean f false = Some (file_text ls) ->
  file_end f false false = EPlain \/ file_end f false false = EJoinedComment ->
  Forall (fun l => match l with Some p => wf_assign p | None => True end) ls -> assignments ls <> [] ->
  Forall (fun p => plain_value (snd p)) (assignments ls) ->
  (NoDup (map (fun p => lower (fst p)) (assignments ls)) ->
     exists db, read_input_file None f = Ok (Some db) /\
       map lv db = map (fun p => par_rule1 (fst p)) (assignments ls) /\
       map rv db = map (fun p => Some (snd p)) (assignments ls) /\
       Forall (fun p => iterative p = false /\ rv_ip p = None /\ rv_array p = None /\ double_flg p = false) db) /\
  (~ NoDup (map (fun p => lower (fst p)) (assignments ls)) -> read_input_file None f = Abort).
Proof.
  intros Hl Hc He Hw Ha Hp. rewrite (read_file_spec None f ls Hl Hc He Hw Ha), (add_all_plain0 _ Ha Hp).
  destruct (ListDec.NoDup_dec _ _) as [K|K]; split; intros H; try contradiction; [|reflexivity].
  eexists. split; [reflexivity|]. rewrite !map_map. repeat split.
  apply Forall_forall. intros p Hi. apply in_map_iff in Hi. destruct Hi as (q & <- & _). repeat split.
Qed.

(** *** C15: what is lost *)
Lemma clean_plain s r : Forall (fun c => blank c = false /\ c <> "#"%char /\ c <> backslash) s ->
  clean (s ++ r) false = option_map (app s) (clean r false).
Proof.
  induction 1 as [|c s (H1 & H2 & H3) Hs IH]; cbn [List.app clean].
  - destruct (clean r false); reflexivity.
  - rewrite H1. assert (E2 : ch_eqb c "#" = false) by (destruct (ch_eqb c "#") eqn:X; [chs; congruence|reflexivity]).
    assert (E3 : ch_eqb c backslash = false) by (destruct (ch_eqb c backslash) eqn:X; [chs; congruence|reflexivity]).
    rewrite E2, E3, IH. destruct (clean r false); reflexivity.
Qed.
Lemma clean_comment c : ~ In newline c -> clean c true = Some [].
Proof.
  induction c as [|x c IH]; intros H; [reflexivity|]. cbn [clean].
  destruct (ch_eqb x newline) eqn:E; [chs; exfalso; apply H; left; reflexivity|].
  apply IH. intros K; apply H; right; exact K.
Qed.
Lemma end_plain s r : Forall (fun c => blank c = false /\ c <> "#"%char /\ c <> backslash) s -> ~ In newline s ->
  file_end (s ++ r) false false = file_end r false false.
Proof.
  induction 1 as [|c s (H1 & H2 & H3) Hs IH]; intros Hn; [reflexivity|]. cbn [List.app file_end].
  assert (E1 : ch_eqb c newline = false) by (destruct (ch_eqb c newline) eqn:X; [chs; exfalso; apply Hn; left; reflexivity|reflexivity]).
  assert (E2 : ch_eqb c "#" = false) by (destruct (ch_eqb c "#") eqn:X; [chs; congruence|reflexivity]).
  assert (E3 : ch_eqb c backslash = false) by (destruct (ch_eqb c backslash) eqn:X; [chs; congruence|reflexivity]).
  rewrite E1, E2, E3. apply IH. intros K; apply Hn; right; exact K.
Qed.
Lemma end_comment c : ~ In newline c -> file_end c false true = EComment.
Proof.
  induction c as [|x c IH]; intros H; [reflexivity|]. cbn [file_end].
  destruct (ch_eqb x newline) eqn:E; [chs; exfalso; apply H; left; reflexivity|].
  apply IH. intros K; apply H; right; exact K.
Qed.

Lemma bind_ret {A} (x : outcome A) : (do d <- x; Ok d) = x.
Proof. destruct x; reflexivity. Qed.
Lemma last_char_lost d n v x c :
  Forall (fun c => blank c = false /\ c <> "#"%char /\ c <> backslash) (n ++ EQ :: v ++ [x]) ->
  wf_assign (n, v) -> x <> newline -> x <> ascii_of_N 0 -> ~ In newline c ->
  (N.of_nat (List.length (n ++ EQ :: v ++ [x] ++ "#"%char :: c)) <= 9999)%N ->
  read_input_file d (n ++ EQ :: v ++ [x] ++ "#"%char :: c) = add_parameter d n (Some v).
Proof.
  intros Hf Hnv Hx Hx0 Hc Hl. unfold read_input_file. rewrite (make_buffer_spec _ Hl). unfold buffer_of.
  assert (W := Hnv). destruct W as (N1 & N2 & N3 & N4 & V1 & V2 & V3 & V4). cbn [fst snd] in *.
  set (s := n ++ EQ :: v ++ [x]) in *.
  replace (n ++ EQ :: v ++ [x] ++ "#"%char :: c) with (s ++ "#"%char :: c)
    by (unfold s; rewrite <- !app_assoc; cbn; rewrite <- app_assoc; reflexivity).
  assert (Hn : ~ In newline s).
  { unfold s. intros K. apply in_app_iff in K. destruct K as [K|[K|K]]; [contradiction|discriminate|].
    apply in_app_iff in K. destruct K as [K|[K|[]]]; congruence. }
  rewrite (clean_plain s _ Hf), (end_plain s _ Hf Hn).
  cbn [clean file_end]. change (ch_eqb "#" newline) with false. change (blank "#") with false. change (ch_eqb "#" "#") with true. cbv iota.
  rewrite (clean_comment c Hc), (end_comment c Hc). cbn [option_map]. rewrite app_nil_r.
  assert (R : removelast s = n ++ EQ :: v).
  { unfold s. replace (n ++ EQ :: v ++ [x]) with ((n ++ EQ :: v) ++ [x]) by (rewrite <- app_assoc; reflexivity). apply removelast_last. }
  assert (NS : s <> []) by (unfold s; destruct n; discriminate).
  destruct s as [|s0 s1]; [congruence|]. cbn [obind]. rewrite R.
  assert (HN : ~ In NUL (n ++ EQ :: v)).
  { intros K. apply in_app_iff in K. destruct K as [K|[K|K]]; try contradiction. discriminate. }
  rewrite (cstr_app _ [] HN).
  destruct (Nat.ltb_spec (List.length (n ++ EQ :: v)) 2) as [K|_].
  { exfalso. rewrite app_length in K. cbn in K. destruct n; [congruence|]. cbn in K. lia. }
  assert (X : populate_parameters d ((n ++ EQ :: v) ++ [NUL]) = populate_parameters d (n ++ EQ :: v)).
  { unfold populate_parameters. rewrite (cstr_app _ [] HN), (cstr_id _ HN). reflexivity. }
  assert (Hnl : ~ In NL (n ++ EQ :: v)).
  { intros K. apply in_app_iff in K. destruct K as [K|[K|K]]; try contradiction. discriminate. }
  rewrite X, populate_spec; [|exact HN|].
  - rewrite segments_one; [|exact Hnl|destruct n; discriminate]. cbn [do_lines]. unfold do_line.
    rewrite (says_wf n v Hnv). apply bind_ret.
  - intros s' E. exfalso. apply Hnl. rewrite E. left. reflexivity.
Qed.
Lemma only_comment d c : ~ In newline c -> (N.of_nat (S (List.length c)) <= 9999)%N -> read_input_file d ("#"%char :: c) = UB.
Proof.
  intros Hc Hl. unfold read_input_file. rewrite make_buffer_spec by exact Hl. unfold buffer_of.
  cbn [clean file_end]. change (ch_eqb "#" newline) with false. change (blank "#") with false. change (ch_eqb "#" "#") with true. cbv iota.
  rewrite (clean_comment c Hc), (end_comment c Hc). reflexivity.
Qed.

(** a line that starts with '=' *)
Lemma eq_line_own_value d b : b <> [] -> ~ In EQ b -> ~ In newline b -> ~ In (ascii_of_N 0) b ->
  populate_parameters d (EQ :: b ++ [newline]) = add_parameter d b (Some b).
Proof.
  intros B1 B2 B3 B4. change newline with NL in *. change (ascii_of_N 0) with NUL in *.
  assert (HN : ~ In NUL (EQ :: b ++ [NL])).
  { intros [K|K]; [discriminate|]. apply in_app_iff in K. destruct K as [K|[K|[]]]; [contradiction|discriminate]. }
  rewrite populate_spec; [|exact HN|intros s' E; discriminate].
  assert (Hn : ~ In NL (EQ :: b)) by (intros [K|K]; [discriminate|contradiction]).
  change (EQ :: b ++ [NL]) with ((EQ :: b) ++ NL :: []). rewrite segments_app_nl by exact Hn.
  change (segments NL []) with (@nil str). cbn [nonempty List.app do_lines]. unfold do_line, says.
  destruct (ascii_dec EQ EQ); [|congruence]. rewrite until_eq_none by exact B2. destruct b; [congruence|].
  cbn [assign_or]. apply bind_ret.
Qed.
