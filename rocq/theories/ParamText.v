(** ParamText.v - proofs about names, iterative values and the multiplicity notation. *)
From Verif Require Import Base ParamModel ParamSpec.

Ltac unS := change (S_ "->") with ["-"%char; ">"%char] in *;
            change arrow with ["-"%char; ">"%char] in *;
            change (S_ "(x") with ["("%char; "x"%char] in *;
            change (S_ ")") with [")"%char] in *.

(** ** names *)
Lemma strchr_split s c b r : strchr s c = Some (b, r) -> s = b ++ r /\ ~ In c b /\ exists r', r = c :: r'.
Proof.
  revert b r; induction s as [|d s IH]; intros b r; cbn [strchr]; [discriminate|].
  destruct (ascii_dec d c) as [->|N].
  - intros H; inversion H; subst. repeat split; [intros []|]. exists s; reflexivity.
  - destruct (strchr s c) as [[b' r']|] eqn:E; intros H; inversion H; subst.
    destruct (IH _ _ eq_refl) as (-> & HN & HR). repeat split; [|assumption].
    intros [K|K]; [congruence|auto].
Qed.
Lemma strchr_none s c : strchr s c = None <-> ~ In c s.
Proof.
  split.
  - induction s as [|d s IH]; cbn [strchr]; [intros _ []|].
    destruct (ascii_dec d c) as [->|N]; [discriminate|].
    destruct (strchr s c) as [[b r]|]; [discriminate|].
    intros _ [K|K]; [congruence|]. apply IH; [reflexivity|assumption].
  - intros H. destruct (strchr s c) as [[b r]|] eqn:E; [|reflexivity].
    apply strchr_split in E. destruct E as (-> & _ & r' & ->).
    exfalso. apply H. apply in_or_app. right; left; reflexivity.
Qed.
Lemma strchr_app b c r : ~ In c b -> strchr (b ++ c :: r) c = Some (b, c :: r).
Proof.
  induction b as [|d b IH]; intros H; cbn [app strchr].
  - destruct (ascii_dec c c); [reflexivity|congruence].
  - destruct (ascii_dec d c) as [->|N]; [exfalso; apply H; left; reflexivity|].
    rewrite IH; [reflexivity|]. intros K; apply H; right; assumption.
Qed.

Lemma map_lower_rule s : lower (par_rule1 s) = lower s.
Proof.
  unfold par_rule1, lower. destruct (strchr s "_"%char) as [[b r]|] eqn:E.
  - apply strchr_split in E. destruct E as (-> & _ & _).
    rewrite !map_app, !map_map. f_equal; apply map_ext; intros c.
    + apply tolower_toupper. + apply tolower_idem.
  - rewrite map_map. apply map_ext. apply tolower_idem.
Qed.
Lemma in_us_lower s : In "_"%char (lower s) <-> In "_"%char s.
Proof.
  unfold lower. rewrite in_map_iff. split.
  - intros (c & E & H). apply (proj1 (tolower_us c)) in E. subst; assumption.
  - intros H. exists "_"%char. split; [reflexivity|assumption].
Qed.
(** the canonical name depends on the lower-case name only *)
Lemma rule_of_lower s : par_rule1 s = par_rule1 (lower s).
Proof.
  unfold par_rule1. destruct (strchr s "_"%char) as [[b r]|] eqn:E.
  - apply strchr_split in E. destruct E as (-> & HN & r' & ->).
    unfold lower. rewrite map_app. cbn [map].
    change (tolower "_"%char) with "_"%char.
    rewrite strchr_app.
    + cbn [map]. rewrite !map_map. change (tolower "_"%char) with "_"%char.
      f_equal; [|f_equal]; apply map_ext; intros c.
      * symmetry; apply toupper_tolower. * symmetry; apply tolower_idem.
    + intros K. apply HN. apply (in_us_lower b). exact K.
  - apply strchr_none in E.
    destruct (strchr (lower s) "_"%char) as [[b r]|] eqn:E2.
    + apply strchr_split in E2. destruct E2 as (E2 & _ & r' & ->).
      exfalso. apply E. apply in_us_lower. rewrite E2. apply in_or_app. right; left; reflexivity.
    + unfold lower. rewrite map_map. apply map_ext. intros c; symmetry; apply tolower_idem.
Qed.
Lemma rule_eq_iff a b : par_rule1 a = par_rule1 b <-> lower a = lower b.
Proof.
  split; intros H.
  - rewrite <- (map_lower_rule a), <- (map_lower_rule b), H. reflexivity.
  - rewrite (rule_of_lower a), (rule_of_lower b), H. reflexivity.
Qed.
Lemma rule_idem s : par_rule1 (par_rule1 s) = par_rule1 s.
Proof. apply rule_eq_iff. apply map_lower_rule. Qed.
Lemma rule_length s : List.length (par_rule1 s) = List.length s.
Proof. rewrite <- (map_length tolower (par_rule1 s)). fold (lower (par_rule1 s)).
  rewrite map_lower_rule. apply map_length. Qed.

(** ** arrows *)
Lemma is_prefix_arrow s : is_prefix arrow s = true <-> exists r, s = "-"%char :: ">"%char :: r.
Proof. unS. rewrite is_prefix_spec. cbn [app]. reflexivity. Qed.
Lemma no_char_cons c a s : no_char c (a :: s) -> a <> c /\ no_char c s.
Proof. unfold no_char. intros H; split; intros K; apply H; [left|right]; assumption. Qed.
Lemma no_char_app c a b : no_char c (a ++ b) <-> no_char c a /\ no_char c b.
Proof.
  unfold no_char. split.
  - intros H; split; intros K; apply H; apply in_or_app; auto.
  - intros [H1 H2] K. apply in_app_or in K. tauto.
Qed.
Lemma no_gt_not_prefix c v r : no_char ">"%char v -> is_prefix arrow (c :: v) = false /\
   is_prefix arrow (c :: v ++ arrow ++ r) = false.
Proof.
  intros H. split; destruct (is_prefix arrow _) eqn:E; try reflexivity;
    apply is_prefix_arrow in E; destruct E as [r' E].
  - inversion E; subst. apply no_char_cons in H. destruct H; congruence.
  - unS. destruct v as [|d v]; cbn [app] in E; inversion E; subst.
    apply no_char_cons in H. destruct H; congruence.
Qed.
Lemma strstr_arrow v r : no_char ">"%char v -> strstr (v ++ arrow ++ r) arrow = Some (v, arrow ++ r).
Proof.
  induction v as [|c v IH]; intros H.
  - reflexivity.
  - apply no_char_cons in H. destruct H as [H1 H2].
    change ((c :: v) ++ arrow ++ r) with (c :: v ++ arrow ++ r). cbn [strstr].
    rewrite (proj2 (no_gt_not_prefix c v r H2)). rewrite (IH H2). reflexivity.
Qed.
Lemma strstr_arrow_none v : no_char ">"%char v -> strstr v arrow = None.
Proof.
  induction v as [|c v IH]; intros H; [reflexivity|].
  apply no_char_cons in H. destruct H as [H1 H2]. cbn [strstr].
  rewrite (proj1 (no_gt_not_prefix c v [] H2)). rewrite (IH H2). reflexivity.
Qed.
Lemma strstr_none_contains s pat : strstr s pat = None -> ~ contains s pat.
Proof.
  intros H (b & r & ->). induction b as [|c b IH].
  - cbn [app] in H. destruct (pat ++ r) as [|d q] eqn:E; cbn [strstr] in H.
    + apply app_eq_nil in E. destruct E as [-> ->]. discriminate.
    + rewrite <- E in H. rewrite is_prefix_app in H. discriminate.
  - cbn [app strstr] in H. destruct (is_prefix pat (c :: b ++ pat ++ r)); [discriminate|].
    destruct (strstr (b ++ pat ++ r) pat) as [[x y]|]; [discriminate|]. auto.
Qed.
Lemma strstr_contains s pat b r : strstr s pat = Some (b, r) -> contains s pat.
Proof.
  intros H. apply strstr_app in H. destruct H as [-> HP]. apply is_prefix_spec in HP.
  destruct HP as [q ->]. exists b, q. reflexivity.
Qed.
Lemma not_contains_strstr s pat : ~ contains s pat -> strstr s pat = None.
Proof.
  intros H. destruct (strstr s pat) as [[b r]|] eqn:E; [|reflexivity].
  exfalso. apply H. eapply strstr_contains; eassumption.
Qed.

(** ** n-th value *)
Definition vals_ok (l : list str) : Prop := Forall (fun v => v <> [] /\ no_char ">"%char v) l.

Lemma join_cons a b l : join arrow (a :: b :: l) = a ++ arrow ++ join arrow (b :: l).
Proof. reflexivity. Qed.

Lemma nth_piece_join f l j n :
  l <> [] -> vals_ok l -> j <= n -> List.length (join arrow l) < f ->
  exists v, nth_piece f (join arrow l) j n = Ok v /\ nth_error l (Nat.min (n - j) (List.length l - 1)) = Some v.
Proof.
  revert f j; induction l as [|a l IH]; intros f j NN OK Hj Hf; [congruence|].
  inversion OK as [|x y [Ha1 Ha2] OK']; subst.
  destruct f as [|f]; [lia|]. cbn [nth_piece].
  destruct l as [|b l].
  - cbn [join]. rewrite strstr_arrow_none by assumption. exists a. split; [reflexivity|].
    cbn [List.length]. replace (Nat.min (n - j) (1 - 1)) with 0 by lia. reflexivity.
  - rewrite join_cons in *. rewrite strstr_arrow by assumption.
    destruct (Nat.eqb_spec j n) as [->|NE].
    + exists a. split; [reflexivity|]. rewrite Nat.sub_diag. reflexivity.
    + rewrite !app_length in Hf. 
      change (skipn 2 (arrow ++ join arrow (b :: l))) with (join arrow (b :: l)).
      destruct (IH f (S j)) as (v & E1 & E2).
      * discriminate. * assumption. * lia.
      * change (List.length arrow) with 2 in Hf. lia.
      * exists v. split; [assumption|]. cbn [List.length] in *.
        replace (Nat.min (n - j) (S (S (List.length l)) - 1)) with (S (Nat.min (n - S j) (S (List.length l) - 1))) by lia.
        exact E2.
Qed.

(** C07 core: the n-th value, the last one beyond the end *)
Lemma get_n_value_join l n :
  2 <= List.length l -> vals_ok l ->
  exists v, get_n_value_str (join arrow l) n = Ok v /\ nth_clamped l n = Some v.
Proof.
  intros HL OK. destruct l as [|a [|b l]]; cbn [List.length] in HL; try lia.
  inversion OK as [|x y [Ha1 Ha2] OK']; subst.
  unfold get_n_value_str, nth_clamped. rewrite join_cons, strstr_arrow by assumption.
  destruct n as [|n].
  - exists a. split; reflexivity.
  - change (skipn 2 (arrow ++ join arrow (b :: l))) with (join arrow (b :: l)).
    destruct (nth_piece_join (List.length (a ++ arrow ++ join arrow (b :: l))) (b :: l) 1 (S n))
      as (v & E1 & E2).
    + discriminate. + assumption. + lia.
    + rewrite !app_length. change (List.length arrow) with 2. lia.
    + exists v. split; [assumption|]. cbn [List.length] in *.
      replace (Nat.min (S n) (S (S (List.length l)) - 1)) with (S (Nat.min (S n - 1) (S (List.length l) - 1))) by lia.
      exact E2.
Qed.

(** ** the multiplicity pattern *)
Lemma take_digits_spec d c r :
  all_digits d -> is_digit c = false -> take_digits (d ++ c :: r) = (d, c :: r).
Proof.
  induction d as [|a d IH]; intros H Hc; cbn [app take_digits].
  - rewrite Hc. reflexivity.
  - inversion H; subst. rewrite H2. rewrite IH by assumption. reflexivity.
Qed.
Lemma take_digits_inv s d r : take_digits s = (d, r) -> s = d ++ r /\ all_digits d.
Proof.
  revert d r; induction s as [|c s IH]; intros d r; cbn [take_digits].
  - intros H; inversion H; subst. split; [reflexivity|constructor].
  - destruct (is_digit c) eqn:E.
    + destruct (take_digits s) as [d' r'] eqn:E2. intros H; inversion H; subst.
      destruct (IH _ _ eq_refl) as [-> F]. split; [reflexivity|constructor; assumption].
    + intros H; inversion H; subst. split; [reflexivity|constructor].
Qed.
Lemma mult_at_spec d r : d <> [] -> all_digits d -> mult_at (S_ "(x" ++ d ++ S_ ")" ++ r) = Some (d, r).
Proof.
  intros NN H. unS. cbn [app mult_at].
  change (ch_eqb "("%char "("%char && ch_eqb "x"%char "x"%char) with true. cbv iota.
  rewrite take_digits_spec; [|assumption|reflexivity].
  destruct d; [congruence|]. reflexivity.
Qed.
Lemma mult_at_inv s d r : mult_at s = Some (d, r) -> s = S_ "(x" ++ d ++ S_ ")" ++ r /\ d <> [] /\ all_digits d.
Proof.
  unfold mult_at. destruct s as [|c1 [|c2 s]]; try discriminate.
  destruct (ch_eqb c1 "("%char && ch_eqb c2 "x"%char) eqn:E; [|discriminate].
  apply andb_true_iff in E. destruct E as [E1 E2]. apply ch_eqb_eq in E1, E2. subst.
  destruct (take_digits s) as [d' [|c3 r']] eqn:T; [discriminate|].
  destruct (ch_eqb c3 ")"%char && negb (Nat.eqb (List.length d') 0)) eqn:E; [|discriminate].
  apply andb_true_iff in E. destruct E as [E1 E2]. apply ch_eqb_eq in E1. subst.
  intros H; inversion H; subst. apply take_digits_inv in T. destruct T as [-> F].
  repeat split; [|assumption]. intros ->. discriminate.
Qed.
Lemma mult_at_no_paren c s : c <> "("%char -> mult_at (c :: s) = None.
Proof.
  intros H. unfold mult_at. destruct s as [|c2 s]; [reflexivity|].
  destruct (ch_eqb c "("%char) eqn:E; [apply ch_eqb_eq in E; congruence|]. reflexivity.
Qed.
Lemma regex_find_skip a s : no_char "("%char a -> regex_find_mult (a ++ s) = regex_find_mult s.
Proof.
  induction a as [|c a IH]; intros H; [reflexivity|].
  apply no_char_cons in H. destruct H as [H1 H2]. cbn [app regex_find_mult].
  rewrite mult_at_no_paren by assumption. auto.
Qed.
Lemma regex_find_none_nochar a : no_char "("%char a -> regex_find_mult a = None.
Proof. intros H. rewrite <- (app_nil_r a). rewrite regex_find_skip by assumption. reflexivity. Qed.
Lemma regex_find_here a d r :
  no_char "("%char a -> d <> [] -> all_digits d ->
  regex_find_mult (a ++ S_ "(x" ++ d ++ S_ ")" ++ r) = Some d.
Proof.
  intros H1 H2 H3. rewrite regex_find_skip by assumption.
  pose proof (mult_at_spec d r H2 H3) as M. unS. cbn [app regex_find_mult] in *. rewrite M. reflexivity.
Qed.
Lemma regex_search_has_mult s : regex_search_mult s = true <-> has_mult s.
Proof.
  unfold regex_search_mult. split.
  - induction s as [|c s IH]; cbn [regex_find_mult].
    + discriminate.
    + destruct (mult_at (c :: s)) as [[d r]|] eqn:E.
      * intros _. apply mult_at_inv in E. destruct E as (E & N & F). exists [], d, r. auto.
      * intros H. destruct (IH H) as (b & d & r & -> & N & F). exists (c :: b), d, r. auto.
  - intros (b & d & r & -> & N & F). induction b as [|c b IH].
    + pose proof (mult_at_spec d r N F) as M. unS. cbn [app regex_find_mult] in *. rewrite M. reflexivity.
    + cbn [app regex_find_mult].
      destruct (mult_at (c :: b ++ S_ "(x" ++ d ++ S_ ")" ++ r)) as [[d' r']|]; [reflexivity|assumption].
Qed.
(** the leftmost match as a decomposition *)
Lemma regex_find_split s d : regex_find_mult s = Some d ->
  exists b r, s = b ++ S_ "(x" ++ d ++ S_ ")" ++ r /\ d <> [] /\ all_digits d /\
    forall b' d' r', s = b' ++ S_ "(x" ++ d' ++ S_ ")" ++ r' -> d' <> [] -> all_digits d' ->
                     List.length b <= List.length b'.
Proof.
  induction s as [|c s IH]; cbn [regex_find_mult]; [discriminate|].
  destruct (mult_at (c :: s)) as [[d0 r0]|] eqn:E.
  - intros H; inversion H; subst. apply mult_at_inv in E. destruct E as (E & N & F).
    exists [], r0. repeat split; auto. intros; cbn; lia.
  - intros H. destruct (IH H) as (b & r & -> & N & F & L). exists (c :: b), r. repeat split; auto.
    intros b' d' r' E' N' F'. destruct b' as [|c' b'].
    + rewrite E' in E. cbn [app] in E. rewrite (mult_at_spec d' r' N' F') in E. discriminate.
    + apply (f_equal (@tl ascii)) in E'. cbn [app tl] in E'. cbn [List.length]. apply le_n_S.
      exact (L b' d' r' E' N' F').
Qed.

(** strstr finds that leftmost position *)
Lemma strstr_first b m r :
  (forall b' r', b ++ m ++ r = b' ++ m ++ r' -> List.length b <= List.length b') ->
  strstr (b ++ m ++ r) m = Some (b, m ++ r).
Proof.
  intros H. destruct (strstr (b ++ m ++ r) m) as [[b0 r0]|] eqn:E.
  - pose proof E as E1. apply strstr_app in E1. destruct E1 as [E1 P].
    apply is_prefix_spec in P. destruct P as [q ->].
    assert (L1 : List.length b <= List.length b0) by (eapply H; exact E1).
    assert (L2 : List.length b0 <= List.length b).
    { clear E1 H L1. revert b0 E. induction b as [|c b IH]; intros b0 E.
      - cbn [app] in E. destruct (m ++ r) as [|x y] eqn:MR; cbn [strstr] in E.
        + destruct m; [|discriminate]. cbn in E. inversion E; subst; cbn; lia.
        + rewrite <- MR, is_prefix_app in E. inversion E; subst; cbn; lia.
      - cbn [app strstr] in E. destruct (is_prefix m (c :: b ++ m ++ r)).
        + inversion E; subst; cbn; lia.
        + destruct (strstr (b ++ m ++ r) m) as [[b1 r1]|] eqn:E2; [|discriminate].
          inversion E; subst. cbn [List.length]. apply le_n_S.
          apply IH. reflexivity. }
    assert (L : List.length b = List.length b0) by lia.
    assert (firstn (List.length b) (b ++ m ++ r) = firstn (List.length b0) (b0 ++ m ++ q)) by (rewrite E1, L; reflexivity).
    rewrite !firstn_app, !Nat.sub_diag, !firstn_all in H0. cbn [firstn] in H0. rewrite !app_nil_r in H0. subst b0.
    apply app_inv_head in E1. rewrite E1. reflexivity.
  - exfalso. apply (strstr_none_contains _ _ E). exists b, r. reflexivity.
Qed.

(** ** text before the match *)
Lemma split_last_gt_app s i v : split_last_gt s = (i, v) ->
  s = i ++ v /\ no_char ">"%char v /\ (i = [] \/ exists i', i = i' ++ [">"%char]).
Proof.
  revert i v; induction s as [|c s IH]; intros i v; cbn [split_last_gt].
  - intros H; inversion H; subst. repeat split; [intros []|left; reflexivity].
  - destruct (split_last_gt s) as [i0 v0] eqn:E. destruct (IH _ _ eq_refl) as (-> & NG & HI).
    destruct i0 as [|x i0].
    + destruct (ch_eqb c ">"%char) eqn:Ec.
      * apply ch_eqb_eq in Ec. subst. intros H; inversion H; subst.
        repeat split; [assumption|]. right. exists []. reflexivity.
      * intros H; inversion H; subst. repeat split; [|left; reflexivity].
        intros [K|K]; [subst; discriminate|auto].
    + intros H; inversion H; subst. repeat split; [assumption|].
      destruct HI as [HI|[i' HI]]; [discriminate|]. right. exists (c :: i'). rewrite HI. reflexivity.
Qed.
Lemma split_last_gt_nogt v : no_char ">"%char v -> split_last_gt v = ([], v).
Proof.
  induction v as [|c v IH]; intros H; [reflexivity|]. apply no_char_cons in H. destruct H as [H1 H2].
  cbn [split_last_gt]. rewrite (IH H2).
  destruct (ch_eqb c ">"%char) eqn:E; [apply ch_eqb_eq in E; congruence|reflexivity].
Qed.
Lemma split_last_gt_spec i v :
  no_char ">"%char v -> (i = [] \/ exists i', i = i' ++ [">"%char]) -> split_last_gt (i ++ v) = (i, v).
Proof.
  intros Hv [->|[i' ->]]; [apply split_last_gt_nogt; assumption|].
  induction i' as [|c i' IH]; cbn [app split_last_gt].
  - rewrite (split_last_gt_nogt v Hv). reflexivity.
  - cbn [app] in *. rewrite IH. destruct (i' ++ [">"%char]) eqn:E; [destruct i'; discriminate|]. reflexivity.
Qed.

(** ** one round *)
Lemma expand_once_spec i v d r :
  (i = [] \/ exists i', i = i' ++ [">"%char]) ->
  no_char ">"%char v -> no_char "("%char i -> no_char "("%char v -> d <> [] -> all_digits d ->
  expand_once (i ++ v ++ S_ "(x" ++ d ++ S_ ")" ++ r) d =
  do mult <- atoi d;
  if (mult =? 0)%Z then Abort
  else if (((mult - 1) * 2 + mult * Z.of_nat (List.length v) + 1) <=? UINT_MAX)%Z
       then Ok (i ++ copies v (Z.to_nat (mult - 1)) ++ r) else UB.
Proof.
  intros Hi Hv Pi Pv ND AD. unfold expand_once.
  set (m := S_ "(x" ++ d ++ S_ ")").
  replace (i ++ v ++ S_ "(x" ++ d ++ S_ ")" ++ r) with ((i ++ v) ++ m ++ r)
    by (unfold m; rewrite !app_assoc; reflexivity).
  rewrite strstr_first.
  - rewrite split_last_gt_spec by assumption.
    replace (skipn (List.length m) (m ++ r)) with r; [reflexivity|].
    rewrite skipn_app, skipn_all, Nat.sub_diag. reflexivity.
  - intros b' r' E.
    destruct (Nat.le_gt_cases (List.length (i ++ v)) (List.length b')) as [L|L]; [exact L|exfalso].
    assert (K : In "("%char (i ++ v)).
    { replace (i ++ v) with (firstn (List.length (i ++ v)) ((i ++ v) ++ m ++ r)).
      2:{ rewrite firstn_app, firstn_all, Nat.sub_diag. cbn [firstn]. apply app_nil_r. }
      rewrite E. rewrite firstn_app. apply in_or_app. right.
      destruct (List.length (i ++ v) - List.length b') as [|k] eqn:EK; [lia|].
      unfold m. unS. cbn [app firstn]. left. reflexivity. }
    apply in_app_or in K. unfold no_char in *. tauto.
Qed.

Lemma copies_join v m : copies v m = join arrow (repeat v (S m)).
Proof.
  induction m as [|m IH]; [reflexivity|].
  cbn [copies]. rewrite IH. reflexivity.
Qed.
Lemma join_app_ne a b : a <> [] -> b <> [] -> join arrow (a ++ b) = join arrow a ++ arrow ++ join arrow b.
Proof.
  induction a as [|x a IH]; intros NA NB; [congruence|].
  destruct a as [|y a].
  - cbn [app]. destruct b; [congruence|]. reflexivity.
  - cbn [app]. rewrite !join_cons. cbn [app] in IH. rewrite IH; [|discriminate|assumption].
    rewrite <- !app_assoc. reflexivity.
Qed.

Lemma item_values_ne it : wf_item it -> item_values it <> [].
Proof.
  destruct it as [v [n|]]; unfold wf_item; cbn; intros (_ & _ & _ & H); [|discriminate].
  destruct H as (H & _). destruct (N.to_nat n) eqn:E; [lia|]. discriminate.
Qed.
Lemma values_vals_ok its : Forall wf_item its -> vals_ok (values its).
Proof.
  unfold vals_ok, values. induction 1 as [|it its W F IH]; cbn [flat_map]; [constructor|].
  apply Forall_app. split; [|assumption].
  destruct it as [v [n|]]; cbn [item_values]; unfold wf_item in W; cbn [fst snd] in W;
    destruct W as (W1 & W2 & _).
  - apply Forall_forall. intros x Hx. apply repeat_spec in Hx. subst. auto.
  - repeat constructor; assumption.
Qed.
Lemma values_ne its : Forall wf_item its -> its <> [] -> values its <> [].
Proof.
  intros F N. destruct F as [|it its W F]; [congruence|].
  unfold values. cbn [flat_map]. intros E. apply app_eq_nil in E. destruct E as [E _].
  apply (item_values_ne _ W E).
Qed.
Lemma join_no_paren l : Forall (fun v => no_char "("%char v) l -> no_char "("%char (join arrow l).
Proof.
  induction 1 as [|a l H F IH]; [intros []|].
  destruct l as [|b l]; [exact H|]. rewrite join_cons. apply no_char_app. split; [assumption|].
  apply no_char_app. split; [|assumption]. unS. intros [K|[K|[]]]; discriminate.
Qed.
Lemma values_no_paren its : Forall wf_item its -> Forall (fun v => no_char "("%char v) (values its).
Proof.
  unfold values. induction 1 as [|it its W F IH]; cbn [flat_map]; [constructor|].
  apply Forall_app. split; [|assumption].
  destruct it as [v [n|]]; cbn [item_values]; unfold wf_item in W; cbn [fst snd] in W;
    destruct W as (W1 & W2 & W3 & _).
  - apply Forall_forall. intros x Hx. apply repeat_spec in Hx. subst. auto.
  - repeat constructor; assumption.
Qed.

Lemma atoi_digits d : d <> [] -> all_digits d ->
  atoi d = let z := Z.of_N (read_digits d 0) in if int_range z then Ok z else UB.
Proof.
  intros NN F. unfold atoi.
  assert (SK : skip_space d = d).
  { destruct d as [|c d]; [congruence|]. inversion F; subst. cbn [skip_space].
    rewrite digit_not_space by assumption. reflexivity. }
  rewrite SK. destruct d as [|c d]; [congruence|]. inversion F; subst.
  destruct (ascii_dec c "-"%char) as [->|]; [discriminate|].
  destruct (ascii_dec c "+"%char) as [->|]; [discriminate|]. reflexivity.
Qed.
Lemma atoi_dec_N n : (Z.of_N n <= INT_MAX)%Z -> atoi (dec_N n) = Ok (Z.of_N n).
Proof.
  intros H. rewrite atoi_digits; [|apply dec_N_nonnil|apply dec_N_digits].
  rewrite read_dec_N. cbv zeta. unfold int_range, INT_MIN. unfold INT_MAX in *.
  destruct (Z.leb_spec (-2147483648) (Z.of_N n)); [|lia].
  destruct (Z.leb_spec (Z.of_N n) 2147483647); [|lia]. reflexivity.
Qed.

Definition n_mults (its : list item) : nat :=
  List.length (filter (fun it => match snd it with Some _ => true | None => false end) its).

Lemma values_cons it its : values (it :: its) = item_values it ++ values its.
Proof. reflexivity. Qed.
Lemma render_cons it it' its : render (it :: it' :: its) = render_item it ++ arrow ++ render (it' :: its).
Proof. reflexivity. Qed.

Lemma expand_loop_render f its pre :
  Forall wf_item its -> its <> [] ->
  (pre = [] \/ exists i', pre = i' ++ [">"%char]) -> no_char "("%char pre -> n_mults its <= f ->
  expand_loop f (pre ++ render its) = Ok (pre ++ join arrow (values its)).
Proof.
  revert f pre. induction its as [|it its IH]; intros f pre W NN HP PP HF; [congruence|].
  inversion W as [|x y Wi W']; subst. clear NN.
  destruct it as [v [n|]].
  - (* v(xn) *)
    pose proof Wi as Wi0. unfold wf_item in Wi. cbn [fst snd] in Wi. destruct Wi as (V1 & V2 & V3 & M1 & M2 & M3).
    destruct f as [|f]; [cbn in HF; lia|].
    set (rest := match its with [] => [] | _ => arrow ++ render its end).
    assert (ER : render (@cons item (v, Some n) its) = v ++ S_ "(x" ++ dec_N n ++ S_ ")" ++ rest).
    { unfold rest. destruct its as [|it' its]; [unfold render; cbn; unS; rewrite !app_nil_r; reflexivity|].
      rewrite render_cons. cbn [render_item]. rewrite <- !app_assoc. reflexivity. }
    rewrite ER. cbn [expand_loop].
    replace (pre ++ v ++ S_ "(x" ++ dec_N n ++ S_ ")" ++ rest)
      with ((pre ++ v) ++ S_ "(x" ++ dec_N n ++ S_ ")" ++ rest) by (rewrite <- !app_assoc; reflexivity).
    rewrite regex_find_here; [|apply no_char_app; auto|apply dec_N_nonnil|apply dec_N_digits].
    rewrite <- app_assoc.
    rewrite expand_once_spec; auto using dec_N_nonnil; [|apply dec_N_digits].
    rewrite atoi_dec_N by assumption. cbn [obind].
    destruct (Z.eqb_spec (Z.of_N n) 0) as [Z|_]; [lia|].
    match goal with |- context [Z.leb ?a ?b] => destruct (Z.leb_spec a b) as [_|BAD] end.
    2:{ exfalso. clear - BAD M3. unfold UINT_MAX in *. nia. }
    cbn [obind].
    assert (EC : copies v (Z.to_nat (Z.of_N n - 1)) = join arrow (item_values (v, Some n))).
    { rewrite copies_join. cbn [item_values]. do 2 f_equal. lia. }
    rewrite EC. unfold rest. destruct its as [|it' its].
    + unfold values. cbn [flat_map]. rewrite !app_nil_r.
      assert (NM : regex_find_mult (pre ++ join arrow (item_values (v, Some n))) = None).
      { apply regex_find_none_nochar. apply no_char_app. split; [assumption|].
        apply join_no_paren. pose proof (values_no_paren [(v, Some n)] ltac:(constructor; auto)) as K.
        unfold values in K. cbn [flat_map] in K. rewrite app_nil_r in K. exact K. }
      destruct f; cbn [expand_loop]; rewrite NM; reflexivity.
    + replace (pre ++ join arrow (item_values (v, Some n)) ++ arrow ++ render (it' :: its))
        with ((pre ++ join arrow (item_values (v, Some n)) ++ arrow) ++ render (it' :: its))
        by (rewrite <- !app_assoc; reflexivity).
      rewrite IH.
      * rewrite (values_cons (v, Some n) (it' :: its)).
        rewrite join_app_ne; [rewrite <- !app_assoc; reflexivity| |].
        -- exact (item_values_ne _ Wi0). -- apply values_ne; [assumption|discriminate].
      * assumption. * discriminate.
      * right. exists (pre ++ join arrow (item_values (v, Some n)) ++ ["-"%char]).
        unS. rewrite <- !app_assoc. reflexivity.
      * apply no_char_app. split; [assumption|]. apply no_char_app. split.
        -- apply join_no_paren. pose proof (values_no_paren [(v, Some n)] ltac:(constructor; auto)) as K.
           unfold values in K. cbn [flat_map] in K. rewrite app_nil_r in K. exact K.
        -- unS. intros [K|[K|[]]]; discriminate.
      * unfold n_mults in *. cbn [filter snd List.length] in *. lia.
  - unfold wf_item in Wi. cbn [fst snd] in Wi. destruct Wi as (V1 & V2 & V3 & _).
    destruct its as [|it' its].
    + unfold render, values. cbn [map render_item join flat_map item_values app].
      assert (NM : regex_find_mult (pre ++ v) = None).
      { apply regex_find_none_nochar. apply no_char_app. auto. }
      destruct f; cbn [expand_loop]; rewrite NM; reflexivity.
    + rewrite render_cons. cbn [render_item].
      replace (pre ++ v ++ arrow ++ render (it' :: its)) with ((pre ++ v ++ arrow) ++ render (it' :: its))
        by (rewrite <- !app_assoc; reflexivity).
      rewrite IH.
      * rewrite (values_cons (v, None) (it' :: its)). cbn [item_values].
        rewrite join_app_ne; [cbn [join]; rewrite <- !app_assoc; reflexivity|discriminate|].
        apply values_ne; [assumption|discriminate].
      * assumption. * discriminate.
      * right. exists (pre ++ v ++ ["-"%char]). unS. rewrite <- !app_assoc. reflexivity.
      * apply no_char_app. split; [assumption|]. apply no_char_app. split; [assumption|].
        unS. intros [K|[K|[]]]; discriminate.
      * unfold n_mults in *. cbn [filter snd List.length] in *. lia.
Qed.
