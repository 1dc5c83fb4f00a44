(** TextProofs.v - lemmas for C13-C17. *)
From Verif Require Import Base ParamModel ParamText TextModel TextSpec.
Local Arguments NUL : simpl never.
Local Arguments NL : simpl never.

Lemma cstr_app t r : ~ In NUL t -> cstr (t ++ NUL :: r) = t.
Proof.
  induction t as [|c t IH]; intros H; cbn.
  - reflexivity.
  - destruct (ascii_dec c NUL) as [E|E]; [exfalso; apply H; left; auto|].
    f_equal. apply IH. intros K; apply H; right; exact K.
Qed.
Lemma cstr_noNUL m : ~ In NUL (cstr m).
Proof.
  induction m as [|c m IH]; cbn; [auto|].
  destruct (ascii_dec c NUL); [auto|]. intros [K|K]; congruence.
Qed.
Lemma cstr_id t : ~ In NUL t -> cstr t = t.
Proof.
  induction t as [|c t IH]; intros H; cbn; [reflexivity|].
  destruct (ascii_dec c NUL) as [E|E]; [exfalso; apply H; left; auto|].
  f_equal. apply IH. intros K; apply H; right; exact K.
Qed.

(** the block m holds the C string t at p *)
Definition holds (m : str) (p : nat) (t : str) : Prop :=
  ~ In NUL t /\ exists r, skipn p m = t ++ NUL :: r.
Lemma holds_cstr m p t : holds m p t -> cstr_at m p = t.
Proof. intros [H [r E]]. unfold cstr_at. rewrite E. apply cstr_app; exact H. Qed.
Lemma holds_len m p t : holds m p t -> p + List.length t < List.length m.
Proof.
  intros [_ [r E]]. assert (L := f_equal (@List.length ascii) E).
  rewrite skipn_length, app_length in L. cbn in L. lia.
Qed.

Lemma skipn_plus {A} (a b : nat) (l : list A) : skipn (a + b) l = skipn b (skipn a l).
Proof. revert l. induction a as [|a IH]; intros l; [reflexivity|]. destruct l; cbn; [destruct b; reflexivity|apply IH]. Qed.
Lemma skipn_app_l {A} (a b : list A) : skipn (List.length a) (a ++ b) = b.
Proof. induction a; cbn; auto. Qed.
Lemma firstn_app_l {A} (a b : list A) : firstn (List.length a) (a ++ b) = a.
Proof. induction a; cbn; congruence. Qed.

Lemma zero_at_len m p n : p + n <= List.length m -> List.length (zero_at m p n) = List.length m.
Proof. intros H. unfold zero_at. rewrite !app_length, firstn_length, repeat_length, skipn_length. lia. Qed.
Lemma zero_at_skip m p n q : p + n <= q -> q <= List.length m -> skipn q (zero_at m p n) = skipn q m.
Proof.
  intros H1 H2. unfold zero_at.
  replace q with (List.length (firstn p m ++ repeat NUL n) + (q - (p + n))) at 1
    by (rewrite app_length, firstn_length, repeat_length; lia).
  rewrite skipn_plus, app_assoc, skipn_app_l, <- skipn_plus. f_equal. lia.
Qed.
Lemma zero_at_before m p n q : q <= p -> p <= List.length m ->
  skipn q (zero_at m p n) = firstn (p - q) (skipn q m) ++ repeat NUL n ++ skipn (p + n) m.
Proof.
  intros H1 H2. unfold zero_at. rewrite skipn_app, firstn_length.
  replace (q - Nat.min p (List.length m)) with 0 by lia. cbn [skipn].
  f_equal. rewrite skipn_firstn_comm. reflexivity.
Qed.
Lemma zero_at_first m p n q : q <= p -> p <= List.length m -> firstn q (zero_at m p n) = firstn q m.
Proof.
  intros H1 H2. unfold zero_at. rewrite firstn_app, firstn_firstn, firstn_length.
  replace (q - Nat.min p (List.length m)) with 0 by lia. cbn [firstn].
  rewrite app_nil_r. f_equal. lia.
Qed.

Lemma run_len_repeat d n (t : str) : hd_error t <> Some d -> run_len d (repeat d n ++ t) = n.
Proof.
  intros H. induction n as [|n IH]; cbn.
  - destruct t as [|c t]; cbn; [reflexivity|]. destruct (ascii_dec c d) as [E|E]; [|reflexivity].
    subst c. exfalso. apply H. reflexivity.
  - destruct (ascii_dec d d); congruence.
Qed.
Lemma run_split d (s : str) : exists n (t : str), s = repeat d n ++ t /\ hd_error t <> Some d.
Proof.
  induction s as [|c s IH].
  - exists 0, []. split; [reflexivity|discriminate].
  - destruct (ascii_dec c d) as [->|E].
    + destruct IH as (n & t & -> & H). exists (S n), t. split; [reflexivity|exact H].
    + exists 0, (c :: s). split; [reflexivity|]. cbn. congruence.
Qed.
(** a text is either free of d or b ++ d^(n+1) ++ t *)
Lemma text_split d (s : str) :
  ~ In d s \/ exists (b : str) n (t : str), s = b ++ repeat d (S n) ++ t /\ ~ In d b /\ hd_error t <> Some d.
Proof.
  destruct (strchr s d) as [[b r]|] eqn:E.
  - right. apply strchr_split in E. destruct E as (-> & Hb & r' & ->).
    destruct (run_split d r') as (n & t & -> & Ht). exists b, n, t. split; [reflexivity|auto].
  - left. apply strchr_none; exact E.
Qed.

(** *** one call of tok_s *)
Lemma not_in_app {A} (x : A) a b : ~ In x (a ++ b) <-> ~ In x a /\ ~ In x b.
Proof. rewrite in_app_iff. tauto. Qed.

Lemma holds_split m q a t : holds m q (a ++ t) -> holds m (q + List.length a) t.
Proof.
  intros [H [r E]]. apply not_in_app in H. split; [tauto|].
  exists r. rewrite skipn_plus, E, <- app_assoc, skipn_app_l. reflexivity.
Qed.

Lemma cut_spec m q b d n t : d <> NUL -> holds m q (b ++ repeat d (S n) ++ t) ->
  let m' := zero_at m (q + List.length b) (S n) in let q' := q + List.length b + S n in
  holds m' q b /\ holds m' q' t /\ List.length m' = List.length m /\ skipn q' m' = skipn q' m /\
  (forall k, k <= q -> firstn k m' = firstn k m).
Proof.
  intros Hd H m' q'. assert (L := holds_len _ _ _ H). rewrite !app_length, repeat_length in L.
  assert (Hs : skipn q' m' = skipn q' m) by (apply zero_at_skip; unfold q'; lia).
  destruct H as [HN [r E]].
  assert (HN' : ~ In NUL b /\ ~ In NUL t).
  { apply not_in_app in HN. destruct HN as [A B]. apply not_in_app in B. tauto. }
  repeat split.
  - tauto.
  - unfold m'. rewrite zero_at_before by lia. rewrite E.
    replace (q + List.length b - q) with (List.length b) by lia.
    rewrite <- app_assoc, firstn_app_l. cbn [repeat]. eexists. reflexivity.
  - tauto.
  - exists r. rewrite Hs. unfold q'. rewrite <- Nat.add_assoc, skipn_plus, E.
    rewrite app_assoc. replace (List.length b + S n) with (List.length (b ++ repeat d (S n))) by (rewrite app_length, repeat_length; lia).
    rewrite <- app_assoc, skipn_app_l. reflexivity.
  - apply zero_at_len. lia.
  - exact Hs.
  - intros k Hk. apply zero_at_first; lia.
Qed.

Lemma strchr_cut b d n t : ~ In d b -> strchr (b ++ repeat d (S n) ++ t) d = Some (b, repeat d (S n) ++ t).
Proof. intros H. apply (strchr_app b d (repeat d n ++ t) H). Qed.

Definition src (s save : option nat) : option nat := match s with Some p => Some p | None => save end.

Lemma tok_s_none m s d save : src s save = None -> tok_s m s d save = (m, None, save).
Proof. intros H. unfold tok_s. unfold src in H. rewrite H. reflexivity. Qed.
Lemma tok_s_empty m s d save p : src s save = Some p -> holds m p [] -> tok_s m s d save = (m, None, save).
Proof. intros H K. unfold tok_s. unfold src in H. rewrite H, (holds_cstr _ _ _ K). reflexivity. Qed.
Lemma tok_s_last m s d save p t : src s save = Some p -> holds m p t -> t <> [] -> ~ In d t ->
  tok_s m s d save = (m, Some p, None).
Proof.
  intros H K N Hd. unfold tok_s. unfold src in H. rewrite H, (holds_cstr _ _ _ K).
  destruct t as [|c t]; [congruence|].
  destruct (ch_eqb c d) eqn:E; [apply ch_eqb_eq in E; exfalso; apply Hd; left; auto|].
  assert (X : strchr (c :: t) d = None) by (apply strchr_none; exact Hd).
  rewrite X. reflexivity.
Qed.
Lemma tok_s_cut m s d save p b n t : src s save = Some p ->
  holds m p (b ++ repeat d (S n) ++ t) -> b <> [] -> ~ In d b -> hd_error t <> Some d ->
  tok_s m s d save = (zero_at m (p + List.length b) (S n), Some p, Some (p + List.length b + S n)).
Proof.
  intros H K N Hb Ht. unfold tok_s. unfold src in H. rewrite H, (holds_cstr _ _ _ K).
  destruct b as [|c b]; [congruence|]. cbn [List.app].
  destruct (ch_eqb c d) eqn:E; [apply ch_eqb_eq in E; exfalso; apply Hb; left; auto|].
  assert (X := strchr_cut (c :: b) d n t Hb). cbn [List.app] in X. rewrite X.
  rewrite run_len_repeat by exact Ht. reflexivity.
Qed.
(** leading delimiter *)
Lemma tok_s_lead_last m s d save p t : src s save = Some p -> holds m p (d :: t) -> ~ In d t ->
  tok_s m s d save = (m, Some (S p), Some (S p)).
Proof.
  intros H K Hd. unfold tok_s. unfold src in H. rewrite H, (holds_cstr _ _ _ K).
  assert (E : ch_eqb d d = true) by (apply ch_eqb_eq; reflexivity). rewrite E.
  assert (X : strchr t d = None) by (apply strchr_none; exact Hd).
  rewrite X. reflexivity.
Qed.
Lemma tok_s_lead_cut m s d save p b n t : src s save = Some p ->
  holds m p (d :: b ++ repeat d (S n) ++ t) -> ~ In d b -> hd_error t <> Some d ->
  tok_s m s d save = (zero_at m (S p + List.length b) (S n), Some (S p), Some (S p + List.length b + S n)).
Proof.
  intros H K Hb Ht. unfold tok_s. unfold src in H. rewrite H, (holds_cstr _ _ _ K).
  assert (E : ch_eqb d d = true) by (apply ch_eqb_eq; reflexivity). rewrite E.
  rewrite strchr_cut by exact Hb. rewrite run_len_repeat by exact Ht. reflexivity.
Qed.

(** *** segments *)
Lemma pieces_nochar d s : ~ In d s -> pieces d s = [s].
Proof.
  induction s as [|c s IH]; intros H; cbn; [reflexivity|].
  destruct (ascii_dec c d) as [E|E]; [exfalso; apply H; left; auto|].
  rewrite IH by (intros K; apply H; right; exact K). reflexivity.
Qed.
Lemma pieces_app b d s : ~ In d b -> pieces d (b ++ d :: s) = b :: pieces d s.
Proof.
  induction b as [|c b IH]; intros H; cbn.
  - destruct (ascii_dec d d); congruence.
  - destruct (ascii_dec c d) as [E|E]; [exfalso; apply H; left; auto|].
    rewrite IH by (intros K; apply H; right; exact K). reflexivity.
Qed.
Lemma segments_nil d : segments d [] = [].
Proof. reflexivity. Qed.
Lemma segments_one d s : ~ In d s -> s <> [] -> segments d s = [s].
Proof. intros H N. unfold segments. rewrite pieces_nochar by exact H. destruct s; [congruence|reflexivity]. Qed.
Lemma segments_lead d s : segments d (d :: s) = segments d s.
Proof. unfold segments. cbn. destruct (ascii_dec d d); [reflexivity|congruence]. Qed.
Lemma segments_run d n s : segments d (repeat d n ++ s) = segments d s.
Proof. induction n as [|n IH]; [reflexivity|]. cbn [repeat List.app]. rewrite segments_lead. exact IH. Qed.
Lemma segments_cut d b n s : ~ In d b -> b <> [] -> segments d (b ++ repeat d (S n) ++ s) = b :: segments d s.
Proof.
  intros H N. unfold segments. cbn [repeat List.app]. rewrite pieces_app by exact H.
  change (filter nonempty (b :: ?x)) with (if nonempty b then b :: filter nonempty x else filter nonempty x).
  destruct b as [|c b]; [congruence|]. cbn [nonempty]. f_equal. apply (segments_run d n s).
Qed.
Lemma segments_join d l : Forall (fun a => a <> [] /\ ~ In d a) l -> segments d (join_with d l) = l.
Proof.
  induction l as [|a l IH]; intros H; [reflexivity|].
  inversion H as [|x y [H1 H2] H3]; subst. destruct l as [|b l].
  - apply segments_one; assumption.
  - change (join_with d (a :: b :: l)) with (a ++ repeat d 1 ++ join_with d (b :: l)).
    rewrite segments_cut by assumption. f_equal. apply IH; exact H3.
Qed.

(** *** read_separated_items_in_string *)
Lemma items_loop_S f m d p save : items_loop (S f) m d (Some p) save =
  (let '(m', tok', save') := tok_s m None d save in
   do l <- items_loop f m' d tok' save'; Ok (cstr_at m p :: l)).
Proof. cbn [items_loop]. destruct (tok_s m None d save) as [[m' tok'] save']. reflexivity. Qed.
Lemma items_loop_spec d : d <> NUL -> forall f m p a save t,
  holds m p a ->
  match save with
  | None => t = []
  | Some q => holds m q t /\ hd_error t <> Some d /\ p + List.length a < q
  end ->
  List.length t < f ->
  items_loop f m d (Some p) save = Ok (a :: segments d t).
Proof.
  intros Hd f. induction f as [|f IH]; intros m p a save t Ha Hs Hf; [lia|].
  rewrite items_loop_S, (holds_cstr _ _ _ Ha).
  destruct save as [q|].
  - destruct Hs as (Hq & Hh & Hlt).
    destruct t as [|c t].
    + rewrite (tok_s_empty m None d (Some q) q eq_refl Hq). cbn. destruct f; reflexivity.
    + destruct (text_split d (c :: t)) as [Hn|(b & n & t' & E & Hb & Ht')].
      * assert (X := tok_s_last m None d (Some q) q (c :: t) eq_refl Hq ltac:(discriminate) Hn).
        rewrite X. cbn [List.length] in Hf.
        rewrite (IH m q (c :: t) None [] Hq eq_refl) by (cbn; lia).
        cbn [obind]. rewrite (segments_one d (c :: t) Hn) by discriminate. reflexivity.
      * rewrite E in *.
        assert (Nb : b <> []). { intros ->. cbn in E. injection E as -> _. cbn in Hh. congruence. }
        rewrite (tok_s_cut m None d (Some q) q b n t' eq_refl Hq Nb Hb Ht').
        destruct (cut_spec m q b d n t' Hd Hq) as (A & B & C & D & _).
        rewrite !app_length, repeat_length in Hf.
        rewrite (IH _ q b (Some (q + List.length b + S n)) t' A).
        2:{ split; [exact B|]. split; [exact Ht'|lia]. }
        2:{ destruct b; [congruence|cbn in Hf |- *; lia]. }
        cbn [obind]. rewrite segments_cut by assumption. reflexivity.
  - subst t. rewrite tok_s_none by reflexivity. cbn. destruct f; reflexivity.
Qed.

(** what the routine returns, for every string *)
Definition items_of (d : ascii) (s : str) : list str :=
  match s with
  | [] => []
  | c :: t =>
    if ascii_dec c d then
      match t with
      | [] => [[]]
      | c' :: _ =>
        if ascii_dec c' d then [] :: segments d t
        else if in_dec ascii_dec d t then segments d t else [t; t]
      end
    else segments d s
  end.

Lemma holds_init s : ~ In NUL s -> holds (s ++ [NUL]) 0 s.
Proof. intros H. split; [exact H|]. exists []. reflexivity. Qed.

Lemma items_all d s : d <> NUL -> ~ In NUL s -> read_separated_items s d = Ok (items_of d s).
Proof.
  intros Hd Hs. unfold read_separated_items. rewrite (cstr_id s Hs).
  assert (H0 := holds_init s Hs). set (m := s ++ [NUL]) in *.
  assert (Lm : List.length m = S (List.length s)) by (unfold m; rewrite app_length; cbn; lia).
  destruct s as [|c t].
  - rewrite (tok_s_empty m (Some 0) d None 0 eq_refl H0). reflexivity.
  - unfold items_of. destruct (ascii_dec c d) as [->|Nc].
    + assert (HS : holds m 1 t) by (apply (holds_split m 0 [d] t); exact H0).
      destruct t as [|c' t].
      * rewrite (tok_s_lead_last m (Some 0) d None 0 [] eq_refl H0) by auto.
        set (F := S (S (List.length m))). change (items_loop F m d (Some 1) (Some 1) = Ok [[]]).
        unfold F. rewrite items_loop_S, (holds_cstr _ _ _ HS), (tok_s_empty m None d (Some 1) 1 eq_refl HS).
        reflexivity.
      * destruct (ascii_dec c' d) as [->|Nc'].
        -- destruct (run_split d t) as (n & t' & E & Ht'). subst t.
           assert (K : holds m 0 (d :: [] ++ repeat d (S n) ++ t')) by exact H0.
           rewrite (tok_s_lead_cut m (Some 0) d None 0 [] n t' eq_refl K (fun x => x) Ht').
           destruct (cut_spec m 1 [] d n t' Hd HS) as (A & B & _).
           rewrite (items_loop_spec d Hd _ _ 1 [] (Some (1 + 0 + S n)) t' A).
           ++ f_equal. f_equal. rewrite segments_lead, segments_run. reflexivity.
           ++ split; [exact B|]. split; [exact Ht'|cbn; lia].
           ++ rewrite Lm. cbn. rewrite app_length. lia.
        -- destruct (in_dec ascii_dec d (c' :: t)) as [Hi|Hn].
           ++ destruct (text_split d (c' :: t)) as [Hn|(b & n & t' & E & Hb & Ht')]; [contradiction|].
              assert (Nb : b <> []). { intros ->. cbn in E. injection E as -> _. congruence. }
              rewrite E in *.
              rewrite (tok_s_lead_cut m (Some 0) d None 0 b n t' eq_refl H0 Hb Ht').
              destruct (cut_spec m 1 b d n t' Hd HS) as (A & B & _).
              rewrite (items_loop_spec d Hd _ _ 1 b (Some (1 + List.length b + S n)) t' A).
              ** rewrite segments_cut by assumption. reflexivity.
              ** split; [exact B|]. split; [exact Ht'|lia].
              ** rewrite Lm. cbn [List.length]. rewrite !app_length. lia.
           ++ rewrite (tok_s_lead_last m (Some 0) d None 0 (c' :: t) eq_refl H0 Hn).
              set (F := S (S (List.length m))). change (items_loop F m d (Some 1) (Some 1) = Ok [c' :: t; c' :: t]).
              unfold F. rewrite items_loop_S, (holds_cstr _ _ _ HS).
              rewrite (tok_s_last m None d (Some 1) 1 (c' :: t) eq_refl HS ltac:(discriminate) Hn).
              rewrite (items_loop_spec d Hd _ m 1 (c' :: t) None [] HS eq_refl) by (rewrite Lm; cbn; lia).
              reflexivity.
    + destruct (text_split d (c :: t)) as [Hn|(b & n & t' & E & Hb & Ht')].
      * rewrite (tok_s_last m (Some 0) d None 0 (c :: t) eq_refl H0 ltac:(discriminate) Hn).
        rewrite (items_loop_spec d Hd _ m 0 (c :: t) None [] H0 eq_refl) by (cbn; lia).
        rewrite (segments_one d (c :: t) Hn) by discriminate. reflexivity.
      * assert (Nb : b <> []). { intros ->. cbn in E. injection E as -> _. congruence. }
        rewrite E in *.
        rewrite (tok_s_cut m (Some 0) d None 0 b n t' eq_refl H0 Nb Hb Ht').
        destruct (cut_spec m 0 b d n t' Hd H0) as (A & B & _).
        rewrite (items_loop_spec d Hd _ _ 0 b (Some (0 + List.length b + S n)) t' A).
        -- rewrite segments_cut by assumption. reflexivity.
        -- split; [exact B|]. split; [exact Ht'|lia].
        -- rewrite Lm. rewrite !app_length. lia.
Qed.

Lemma items_plain d s : d <> NUL -> ~ In NUL s -> hd_error s <> Some d ->
  read_separated_items s d = Ok (segments d s).
Proof.
  intros Hd Hs Hh. rewrite items_all by assumption. f_equal. destruct s as [|c t]; [reflexivity|].
  cbn. destruct (ascii_dec c d) as [->|N]; [exfalso; apply Hh; reflexivity|reflexivity].
Qed.
Lemma join_no_lead d l : Forall (fun a => a <> [] /\ ~ In d a) l -> hd_error (join_with d l) <> Some d.
Proof.
  intros H. destruct l as [|a l]; [discriminate|].
  inversion H as [|x y [H1 H2] H3]; subst. destruct a as [|c a]; [congruence|].
  destruct l; cbn; intros E; injection E as ->; apply H2; left; reflexivity.
Qed.
Lemma join_noNUL d l : d <> NUL -> Forall (fun a => ~ In NUL a) l -> ~ In NUL (join_with d l).
Proof.
  intros Hd H. induction H as [|a l Ha Hl IH]; [auto|].
  destruct l as [|b l]; [exact Ha|].
  change (join_with d (a :: b :: l)) with (a ++ d :: join_with d (b :: l)).
  rewrite not_in_app. split; [exact Ha|]. intros [K|K]; [congruence|contradiction].
Qed.
Lemma items_join d l : d <> NUL -> Forall (fun a => a <> [] /\ ~ In d a /\ ~ In NUL a) l ->
  read_separated_items (join_with d l) d = Ok l.
Proof.
  intros Hd H.
  assert (H1 : Forall (fun a => a <> [] /\ ~ In d a) l) by (eapply Forall_impl; [|exact H]; cbn; tauto).
  assert (H2 : Forall (fun a => ~ In NUL a) l) by (eapply Forall_impl; [|exact H]; cbn; tauto).
  rewrite items_plain; [|exact Hd|apply join_noNUL; assumption|apply join_no_lead; assumption].
  rewrite segments_join by exact H1. reflexivity.
Qed.
Lemma items_lead_dup d a : d <> NUL -> ~ In NUL a -> ~ In d a -> a <> [] ->
  read_separated_items (d :: a) d = Ok [a; a].
Proof.
  intros Hd HN Hn Na. rewrite items_all; [|exact Hd|intros [K|K]; [congruence|contradiction]].
  f_equal. cbn [items_of]. destruct (ascii_dec d d); [|congruence].
  destruct a as [|c a]; [congruence|]. destruct (ascii_dec c d) as [->|N]; [exfalso; apply Hn; left; auto|].
  destruct (in_dec ascii_dec d (c :: a)); [contradiction|reflexivity].
Qed.
Lemma items_lead_two d l : d <> NUL -> Forall (fun a => a <> [] /\ ~ In d a /\ ~ In NUL a) l ->
  2 <= List.length l -> read_separated_items (d :: join_with d l) d = Ok l.
Proof.
  intros Hd H L.
  assert (H1 : Forall (fun a => a <> [] /\ ~ In d a) l) by (eapply Forall_impl; [|exact H]; cbn; tauto).
  assert (H2 : Forall (fun a => ~ In NUL a) l) by (eapply Forall_impl; [|exact H]; cbn; tauto).
  rewrite items_all; [|exact Hd|intros [K|K]; [congruence|revert K; apply join_noNUL; assumption]].
  f_equal. assert (J := segments_join d l H1). assert (NL' := join_no_lead d l H1).
  assert (I : In d (join_with d l)).
  { destruct l as [|a [|b l]]; cbn in L; try lia. cbn. apply in_app_iff. right. left. reflexivity. }
  unfold items_of. destruct (ascii_dec d d); [|congruence].
  destruct (join_with d l) as [|c t] eqn:E; [destruct I|].
  destruct (ascii_dec c d) as [->|N]; [exfalso; apply NL'; reflexivity|].
  destruct (in_dec ascii_dec d (c :: t)); [exact J|contradiction].
Qed.
