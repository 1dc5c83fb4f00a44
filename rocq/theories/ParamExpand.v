(** ParamExpand.v - the expansion loop terminates; parse_multiplicity on rendered item lists. *)
From Verif Require Import Base ParamModel ParamSpec ParamText.

(** ** a character outside the pattern cuts every match *)
Definition outside (c : ascii) : Prop := c <> "("%char /\ c <> "x"%char /\ c <> ")"%char /\ is_digit c = false.
Lemma outside_not_in c d : outside c -> all_digits d -> ~ In c (S_ "(x" ++ d ++ S_ ")").
Proof.
  intros (A & B & C & D) F H. unS. cbn [app] in H. destruct H as [H|[H|H]]; try congruence.
  apply in_app_or in H. destruct H as [H|[H|[]]]; [|congruence].
  unfold all_digits in F. rewrite Forall_forall in F. rewrite (F _ H) in D. discriminate.
Qed.
Lemma app_cons_split (A : list ascii) c B b m r :
  A ++ c :: B = b ++ m ++ r -> ~ In c m -> m <> [] ->
  (exists x, A = b ++ m ++ x) \/ (exists x, B = x ++ m ++ r).
Proof.
  intros E NI NM. revert b E. induction A as [|a A IH]; intros b E.
  - cbn [app] in E. destruct b as [|b0 b]; cbn [app] in E.
    + destruct m as [|m0 m]; [congruence|]. inversion E; subst. exfalso; apply NI; left; reflexivity.
    + right. exists b. inversion E; reflexivity.
  - destruct b as [|b0 b].
    + (* the match starts at the head of A *)
      left. cbn [app] in E.
      clear IH. exists (skipn (List.length m) (a :: A)). cbn [app].
      assert (L : List.length m <= List.length (a :: A)).
      { destruct (Nat.le_gt_cases (List.length m) (List.length (a :: A))) as [L|L]; [exact L|exfalso].
        apply NI. replace m with (firstn (List.length m) (m ++ r))
          by (rewrite firstn_app, firstn_all, Nat.sub_diag; cbn [firstn]; apply app_nil_r).
        rewrite <- E. change (a :: A ++ c :: B) with ((a :: A) ++ c :: B).
        rewrite firstn_app. apply in_or_app. right.
        destruct (List.length m - List.length (a :: A)) as [|k] eqn:EK; [lia|]. left; reflexivity. }
      assert (H1 : firstn (List.length m) (a :: A) = m).
      { replace m with (firstn (List.length m) (m ++ r)) at 2
          by (rewrite firstn_app, firstn_all, Nat.sub_diag; cbn [firstn]; apply app_nil_r).
        rewrite <- E. change (a :: A ++ c :: B) with ((a :: A) ++ c :: B).
        rewrite firstn_app. replace (List.length m - List.length (a :: A)) with 0 by lia.
        cbn [firstn]. rewrite app_nil_r. reflexivity. }
      rewrite <- H1 at 1. symmetry. apply firstn_skipn.
    + cbn [app] in E. inversion E as [[E1 E2]]. subst b0.
      destruct (IH _ E2) as [[x ->]|[x ->]].
      * left. exists x. reflexivity.
      * right. exists x. reflexivity.
Qed.
Lemma has_mult_cut A c B : outside c -> has_mult (A ++ c :: B) -> has_mult A \/ has_mult B.
Proof.
  intros O (b & d & r & E & N & F).
  replace (b ++ S_ "(x" ++ d ++ S_ ")" ++ r) with (b ++ (S_ "(x" ++ d ++ S_ ")") ++ r) in E
    by (rewrite <- !app_assoc; reflexivity).
  apply app_cons_split in E.
  - destruct E as [[x ->]|[x ->]].
    + left. exists b, d, x. repeat split; auto. rewrite <- !app_assoc. reflexivity.
    + right. exists x, d, r. repeat split; auto. rewrite <- !app_assoc. reflexivity.
  - apply outside_not_in; assumption.
  - unS. discriminate.
Qed.
Lemma has_mult_nil : ~ has_mult [].
Proof. intros (b & d & r & E & _). destruct b; discriminate. Qed.
Lemma has_mult_app_l a s : has_mult s -> has_mult (a ++ s).
Proof. intros (b & d & r & -> & N & F). exists (a ++ b), d, r. repeat split; auto. rewrite <- app_assoc. reflexivity. Qed.
Lemma outside_gt : outside ">"%char. Proof. repeat split; discriminate. Qed.
Lemma outside_minus : outside "-"%char. Proof. repeat split; discriminate. Qed.

Lemma copies_no_mult i v k : ~ has_mult (i ++ v) -> ~ has_mult (i ++ copies v k).
Proof.
  revert i. induction k as [|k IH]; intros i H; cbn [copies]; [exact H|].
  intros K.
  replace (i ++ v ++ arrow ++ copies v k) with ((i ++ v ++ ["-"%char]) ++ ">"%char :: copies v k) in K
    by (unS; rewrite <- !app_assoc; reflexivity).
  apply has_mult_cut in K; [|apply outside_gt]. destruct K as [K|K].
  - rewrite app_assoc in K. apply has_mult_cut in K; [|apply outside_minus].
    destruct K as [K|K]; [auto|]. exact (has_mult_nil K).
  - assert (V : ~ has_mult ([] ++ v)). { intros V. apply H. apply has_mult_app_l. exact V. }
    exact (IH [] V K).
Qed.

(** length of the text after the leftmost match *)
Lemma find_suffix s d : regex_find_mult s = Some d ->
  exists b r, s = b ++ S_ "(x" ++ d ++ S_ ")" ++ r /\ d <> [] /\ all_digits d /\ ~ has_mult b /\
    strstr s (S_ "(x" ++ d ++ S_ ")") = Some (b, (S_ "(x" ++ d ++ S_ ")") ++ r).
Proof.
  intros H. destruct (regex_find_split _ _ H) as (b & r & E & N & F & L).
  exists b, r. split; [exact E|]. split; [exact N|]. split; [exact F|]. split.
  - intros (b' & d' & r' & -> & N' & F'). rewrite <- !app_assoc in E.
    specialize (L b' d' _ E N' F'). rewrite !app_length in L.
    change (List.length (S_ "(x")) with 2 in L. lia.
  - rewrite E. replace (b ++ S_ "(x" ++ d ++ S_ ")" ++ r) with (b ++ (S_ "(x" ++ d ++ S_ ")") ++ r)
      by (rewrite <- !app_assoc; reflexivity).
    apply strstr_first. intros b' r' E'.
    apply (L b' d r'); auto. rewrite E.
    replace (b ++ S_ "(x" ++ d ++ S_ ")" ++ r) with (b ++ (S_ "(x" ++ d ++ S_ ")") ++ r)
      by (rewrite <- !app_assoc; reflexivity).
    rewrite E'. rewrite <- !app_assoc. reflexivity.
Qed.
Definition suffix_len (s : str) : nat :=
  match regex_find_mult s with
  | None => 0
  | Some d => match strstr s (S_ "(x" ++ d ++ S_ ")") with
              | Some (_, l) => List.length l - List.length (S_ "(x" ++ d ++ S_ ")")
              | None => 0
              end
  end.
Lemma suffix_len_lt s d : regex_find_mult s = Some d -> suffix_len s < List.length s.
Proof.
  intros H. destruct (find_suffix _ _ H) as (b & r & E & N & F & _ & SS).
  unfold suffix_len. rewrite H, SS. rewrite app_length, Nat.add_comm, Nat.add_sub.
  rewrite E, !app_length. change (List.length (S_ "(x")) with 2. lia.
Qed.

Lemma expand_once_ok s d s' : regex_find_mult s = Some d -> expand_once s d = Ok s' ->
  exists i v k r, ~ has_mult (i ++ v) /\ s' = i ++ copies v k ++ r /\ List.length r = suffix_len s /\
                  s = i ++ v ++ S_ "(x" ++ d ++ S_ ")" ++ r.
Proof.
  intros H. destruct (find_suffix _ _ H) as (b & r & E & N & F & NB & SS).
  unfold expand_once. rewrite SS.
  replace (skipn (List.length (S_ "(x" ++ d ++ S_ ")")) ((S_ "(x" ++ d ++ S_ ")") ++ r)) with r.
  2:{ rewrite skipn_app, skipn_all, Nat.sub_diag. reflexivity. }
  destruct (split_last_gt b) as [i v] eqn:SG. apply split_last_gt_app in SG. destruct SG as (-> & _ & _).
  destruct (atoi d) as [mult| |]; cbn [obind]; try discriminate.
  destruct (mult =? 0)%Z; [discriminate|].
  destruct (Z.leb _ _); [|discriminate]. intros K; inversion K; subst s'.
  exists i, v, (Z.to_nat (mult - 1)), r. split; [assumption|]. split; [reflexivity|].
  split.
  - unfold suffix_len. rewrite H, SS, app_length. lia.
  - rewrite E. rewrite <- app_assoc. reflexivity.
Qed.

Lemma app_suffix_short (X : list ascii) r b m q :
  X ++ r = b ++ m ++ q -> List.length r <= List.length q -> exists y, X = b ++ m ++ y.
Proof.
  intros E L. exists (firstn (List.length q - List.length r) q).
  assert (LX : List.length X = List.length b + List.length m + (List.length q - List.length r)).
  { apply (f_equal (@List.length ascii)) in E. rewrite !app_length in E. lia. }
  apply (f_equal (firstn (List.length X))) in E.
  rewrite firstn_app, firstn_all, Nat.sub_diag in E. cbn [firstn] in E. rewrite app_nil_r in E.
  rewrite E at 1. rewrite LX. rewrite !firstn_app.
  rewrite !firstn_all2 by lia. f_equal. f_equal. f_equal. lia.
Qed.

(** each round strictly shortens the text after the leftmost match *)
Lemma expand_once_decreases s d s' d' :
  regex_find_mult s = Some d -> expand_once s d = Ok s' -> regex_find_mult s' = Some d' ->
  suffix_len s' < suffix_len s.
Proof.
  intros H1 H2 H3. destruct (expand_once_ok _ _ _ H1 H2) as (i & v & k & r & NB & E & L & _).
  destruct (find_suffix _ _ H3) as (b' & r' & E' & N' & F' & _ & SS').
  assert (SL : suffix_len s' = List.length r').
  { unfold suffix_len. rewrite H3, SS', app_length. lia. }
  rewrite SL, <- L.
  destruct (Nat.lt_ge_cases (List.length r') (List.length r)) as [K|K]; [exact K|exfalso].
  rewrite E in E'.
  replace (b' ++ S_ "(x" ++ d' ++ S_ ")" ++ r') with (b' ++ (S_ "(x" ++ d' ++ S_ ")") ++ r') in E'
    by (rewrite <- !app_assoc; reflexivity).
  rewrite app_assoc in E'.
  apply app_suffix_short in E'; [|exact K]. destruct E' as [y E'].
  apply (copies_no_mult i v k NB). exists b', d', y. repeat split; auto.
  rewrite E', <- !app_assoc. reflexivity.
Qed.

(** [rounds s n s'] : n rounds of the loop lead from s to s' *)
Inductive rounds : str -> nat -> str -> Prop :=
| rounds_0 s : rounds s 0 s
| rounds_S s d s1 n s2 : regex_find_mult s = Some d -> expand_once s d = Ok s1 -> rounds s1 n s2 -> rounds s (S n) s2.

Lemma rounds_bound_suffix s n s' : rounds s n s' -> forall d, regex_find_mult s = Some d -> n <= S (suffix_len s).
Proof.
  induction 1 as [s|s d s1 n s2 H1 H2 R IH]; intros d0 HD; [lia|].
  destruct (regex_find_mult s1) as [d1|] eqn:E1.
  - pose proof (expand_once_decreases _ _ _ _ H1 H2 E1). specialize (IH d1 eq_refl). lia.
  - inversion R; subst; [lia|]. congruence.
Qed.
Lemma rounds_bound s n s' : rounds s n s' -> n <= List.length s.
Proof.
  intros R. destruct (regex_find_mult s) as [d|] eqn:E.
  - pose proof (rounds_bound_suffix _ _ _ R d E). pose proof (suffix_len_lt _ _ E). lia.
  - inversion R; subst; [lia|]. congruence.
Qed.
(** hence the fuel of the model is never exhausted *)
Lemma expand_loop_fuel f s : List.length s <= f -> expand_loop f s = expand_loop (List.length s) s.
Proof.
  intros H.
  assert (G : forall f g s, (forall d, regex_find_mult s = Some d -> suffix_len s < f /\ suffix_len s < g) ->
              expand_loop f s = expand_loop g s).
  { clear. induction f as [|f IH]; intros g s HS.
    - cbn [expand_loop]. destruct (regex_find_mult s) as [d|] eqn:E.
      + destruct (HS d eq_refl); lia.
      + destruct g; cbn [expand_loop]; rewrite E; reflexivity.
    - cbn [expand_loop]. destruct (regex_find_mult s) as [d|] eqn:E.
      + destruct g as [|g]; [destruct (HS d eq_refl); lia|]. cbn [expand_loop]. rewrite E.
        destruct (expand_once s d) as [s1| |] eqn:E1; cbn [obind]; try reflexivity.
        apply IH. intros d1 E2. pose proof (expand_once_decreases _ _ _ _ E E1 E2).
        destruct (HS d eq_refl). lia.
      + destruct g; cbn [expand_loop]; rewrite E; reflexivity. }
  apply G. intros d E. pose proof (suffix_len_lt _ _ E). lia.
Qed.

(** ** the whole parser on rendered items *)
Lemma last_render its : Forall wf_item its -> its <> [] ->
  exists s c, render its = s ++ [c] /\ c <> ">"%char.
Proof.
  induction 1 as [|it its W F IH]; intros NN; [congruence|].
  destruct its as [|it' its].
  - destruct it as [v [n|]]; unfold wf_item in W; cbn [fst snd] in W; destruct W as (V1 & V2 & _).
    + exists (v ++ S_ "(x" ++ dec_N n), ")"%char. unfold render. cbn [map join render_item].
      repeat split; [|discriminate]. rewrite <- !app_assoc. reflexivity.
    + unfold render. cbn [map join render_item].
      destruct (exists_last V1) as (s & c & ->). exists s, c. repeat split.
      intros ->. apply V2. apply in_or_app. right; left; reflexivity.
  - destruct IH as (s & c & E & NC); [discriminate|].
    exists (render_item it ++ arrow ++ s), c. rewrite render_cons, E.
    repeat split; [|assumption]. rewrite <- !app_assoc. reflexivity.
Qed.
Lemma ends_with_arrow_snoc s c : c <> ">"%char -> ends_with_arrow (s ++ [c]) = false.
Proof.
  intros H. unfold ends_with_arrow. rewrite rev_app_distr. cbn [rev app].
  change (rev arrow) with [">"%char; "-"%char]. cbn [is_prefix].
  destruct (ascii_dec ">"%char c); [congruence|reflexivity].
Qed.
Lemma n_mults_le its : Forall wf_item its -> n_mults its <= List.length (render its).
Proof.
  induction 1 as [|it its W F IH]; [cbn; lia|].
  assert (K : (match snd it with Some _ => 1 | None => 0 end) <= List.length (render_item it)).
  { destruct it as [v [n|]]; cbn [snd render_item]; [|lia]. rewrite !app_length.
    change (List.length (S_ "(x")) with 2. lia. }
  assert (E : n_mults (it :: its) = (match snd it with Some _ => 1 | None => 0 end) + n_mults its).
  { unfold n_mults. cbn [filter]. destruct (snd it); reflexivity. }
  rewrite E. destruct its as [|it' its].
  - change (n_mults []) with 0. unfold render. cbn [map join]. lia.
  - rewrite render_cons, !app_length. lia.
Qed.
(** C09 core *)
Lemma parse_multiplicity_render its : Forall wf_item its -> its <> [] ->
  parse_multiplicity (render its) = Ok (join arrow (values its)).
Proof.
  intros F NN. unfold parse_multiplicity.
  destruct (last_render its F NN) as (s & c & E & NC).
  rewrite E at 1. rewrite ends_with_arrow_snoc by assumption.
  apply (expand_loop_render (S (List.length (render its))) its [] F NN (or_introl eq_refl)).
  - intros [].
  - pose proof (n_mults_le its F). lia.
Qed.
(** a trailing arrow aborts *)
Lemma parse_multiplicity_trailing s : parse_multiplicity (s ++ arrow) = Abort.
Proof.
  unfold parse_multiplicity, ends_with_arrow. rewrite rev_app_distr, is_prefix_app. reflexivity.
Qed.
(** a zero multiplicity aborts *)
Lemma expand_loop_zero f pre v r :
  f <> 0 -> (pre = [] \/ exists i', pre = i' ++ [">"%char]) -> no_char ">"%char v ->
  no_char "("%char pre -> no_char "("%char v ->
  expand_loop f (pre ++ v ++ S_ "(x0)" ++ r) = Abort.
Proof.
  intros HF HP V1 P1 V2. destruct f as [|f]; [congruence|]. cbn [expand_loop].
  change (S_ "(x0)") with (S_ "(x" ++ ["0"%char] ++ S_ ")"). rewrite <- !app_assoc.
  assert (E : regex_find_mult (pre ++ v ++ S_ "(x" ++ ["0"%char] ++ S_ ")" ++ r) = Some ["0"%char]).
  { rewrite app_assoc. apply regex_find_here; [apply no_char_app; auto|discriminate|repeat constructor]. }
  rewrite E. rewrite (expand_once_spec pre v ["0"%char] r HP V1 P1 V2 ltac:(discriminate) ltac:(repeat constructor)).
  reflexivity.
Qed.
