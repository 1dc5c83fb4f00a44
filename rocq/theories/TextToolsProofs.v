(** TextToolsProofs.v - proofs about the text tools. *)
From Verif Require Import Base ParamModel ParamSpec ParamText TextModel TextSpec TextProofs TextToolsModel TextToolsSpec.

(** *** case-insensitive comparison and search *)
Theorem strcmp_i_spec a b : strcmp_i a b = true <-> exists x y, a = Some x /\ b = Some y /\ map tolower x = map tolower y.
Proof.
  destruct a as [x|], b as [y|]; cbn [strcmp_i]; try (split; [discriminate|intros (? & ? & E & E' & _); discriminate]).
  rewrite str_eqb_eq. split; [intros H; exists x, y; auto|]. intros (x' & y' & E & E' & H). injection E as <-. injection E' as <-. exact H.
Qed.
Theorem strstr_i_spec a b : strstr_i a b = true <->
  exists x y u v w, a = Some x /\ b = Some y /\ x = u ++ v ++ w /\ map tolower v = map tolower y.
Proof.
  destruct a as [x|], b as [y|]; cbn [strstr_i]; try (split; [discriminate|intros (? & ? & ? & ? & ? & E & E' & _); discriminate]).
  split.
  - destruct (strstr (map tolower x) (map tolower y)) as [[p q]|] eqn:E; [|discriminate]. intros _.
    destruct (strstr_contains _ _ _ _ E) as (u & w & H).
    exists x, y, (firstn (List.length u) x), (firstn (List.length y) (skipn (List.length u) x)), (skipn (List.length y) (skipn (List.length u) x)).
    split; [reflexivity|]. split; [reflexivity|]. split.
    + rewrite firstn_skipn, firstn_skipn. reflexivity.
    + rewrite <- firstn_map, <- skipn_map, H. rewrite skipn_app_l. rewrite <- (map_length tolower y) at 1. apply firstn_app_l.
  - intros (x' & y' & u & v & w & E & E' & H & HV). injection E as <-. injection E' as <-.
    destruct (strstr (map tolower x) (map tolower y)) as [[p q]|] eqn:S; [reflexivity|]. exfalso.
    apply strstr_none_contains in S. apply S. exists (map tolower u), (map tolower w). rewrite H, !map_app, HV. reflexivity.
Qed.
(** *** find_index_string *)
Lemma find_index_from_spec n : forall h i, (0 <= i)%Z ->
  (exists k, nth_error h k = Some n /\ (forall j, j < k -> nth_error h j <> Some n) /\ find_index_from i h n = (i + Z.of_nat k)%Z) \/
  (~ In n h /\ find_index_from i h n = UINT_MAX).
Proof.
  induction h as [|x h IH]; intros i Hi; cbn [find_index_from].
  - right. split; [intros []|reflexivity].
  - destruct (str_eqb_spec x n) as [->|N].
    + left. exists 0. split; [reflexivity|]. split; [lia|lia].
    + destruct (IH (i + 1)%Z ltac:(lia)) as [(k & A & B & C)|(A & B)].
      * left. exists (S k). split; [exact A|]. split; [|rewrite C; lia].
        intros [|j] Hj; cbn [nth_error]; [congruence|apply B; lia].
      * right. split; [|exact B]. intros [K|K]; [congruence|contradiction].
Qed.
Theorem find_index_spec h n :
  (exists k, nth_error h k = Some n /\ (forall j, j < k -> nth_error h j <> Some n) /\ find_index_string h n = Z.of_nat k) \/
  (~ In n h /\ find_index_string h n = UINT_MAX).
Proof. destruct (find_index_from_spec n h 0 ltac:(lia)) as [(k & A & B & C)|H]; [left; exists k; auto|right; exact H]. Qed.

(** *** check_format_s *)
Lemma Sub_drop a c b : Sub (c :: a) b -> exists b1 b2, b = b1 ++ c :: b2 /\ ~ In c b1 /\ Sub a b2.
Proof.
  induction b as [|x b IH]; intros H; [inversion H|].
  destruct (ascii_dec x c) as [->|N].
  - exists [], b. split; [reflexivity|]. split; [intros []|]. inversion H; subst; [assumption|].
    destruct (IH H2) as (b1 & b2 & -> & _ & S). clear - S. induction b1; [apply Sub_skip; exact S|apply Sub_skip; assumption].
  - inversion H; subst; [congruence|]. destruct (IH H2) as (b1 & b2 & -> & NI & S).
    exists (x :: b1), b2. split; [reflexivity|]. split; [|exact S]. intros [K|K]; [congruence|contradiction].
Qed.
Lemma Sub_app_r a b1 b2 : Sub a b2 -> Sub a (b1 ++ b2).
Proof. intros H. induction b1; [exact H|apply Sub_skip; assumption]. Qed.
Lemma walk_spec ds : forall s, walk s ds = true <-> Sub ds s.
Proof.
  induction ds as [|d ds IH]; intros s; cbn [walk]; [split; [intros _; constructor|reflexivity]|].
  destruct (strchr s d) as [[b r]|] eqn:E.
  - apply strchr_split in E. destruct E as (-> & NB & r' & ->). cbn [tl]. rewrite IH. split.
    + intros H. apply Sub_app_r. apply Sub_take. exact H.
    + intros H. apply Sub_drop in H. destruct H as (b1 & b2 & EQ & N1 & S).
      assert (b = b1 /\ r' = b2) as [_ ->].
      { clear - EQ NB N1. revert b1 EQ N1. induction b as [|x b IH]; intros b1 EQ N1; destruct b1 as [|y b1]; cbn in EQ.
        - injection EQ as ->. auto.
        - injection EQ as <- _. exfalso. apply N1. left. reflexivity.
        - injection EQ as -> _. exfalso. apply NB. left. reflexivity.
        - injection EQ as <- EQ. destruct (IH ltac:(intros K; apply NB; right; exact K) b1 EQ ltac:(intros K; apply N1; right; exact K)) as [-> ->]. auto. }
      exact S.
  - apply strchr_none in E. split; [discriminate|]. intros H. apply Sub_drop in H. destruct H as (b1 & b2 & -> & _).
    exfalso. apply E. apply in_app_iff. right. left. reflexivity.
Qed.
Lemma Sub_In a b c : Sub a b -> In c a -> In c b.
Proof. induction 1; intros K; [destruct K| |right; auto]. destruct K as [->|K]; [left; reflexivity|right; auto]. Qed.
Lemma Sub_last i l b : ~ In l b -> (Sub (i ++ [l]) (b ++ [l]) <-> Sub i b).
Proof.
  intros NB. split.
  - revert i NB. induction b as [|x b IH]; intros i NB H.
    + destruct i as [|c i]; [constructor|]. exfalso. cbn in H. inversion H as [|? ? ? K|? ? ? K]; subst; [destruct i|]; inversion K.
    + cbn in H. destruct i as [|c i]; [constructor|]. cbn in H. inversion H as [|? ? ? K0|? ? ? K0]; subst.
      * apply Sub_take. apply IH; [intros K; apply NB; right; exact K|exact K0].
      * apply Sub_skip. apply IH; [intros K; apply NB; right; exact K|]. exact K0.
  - intros H. clear NB. induction H.
    + cbn. induction b; [repeat constructor|apply Sub_skip; assumption].
    + cbn. apply Sub_take. assumption.
    + cbn. apply Sub_skip. assumption.
Qed.
(** the delimiters of the format are i ++ [l] *)
Theorem check_format_spec (s f i : str) l : filter (fun c => negb (ch_eqb c "?"%char)) f = i ++ [l] -> List.length (i ++ [l]) < 400 ->
  exists b, check_format_s (Some s) f = Ok b /\
    (b = true <-> exists u r, s = u ++ l :: r /\ ~ In l u /\ Sub i u).
Proof.
  intros E L. unfold check_format_s. fold (delimits f) in E. rewrite E.
  destruct (Nat.leb_spec MAX_STR_LEN (List.length (i ++ [l]))) as [B|_]; [unfold MAX_STR_LEN in B; lia|].
  assert (EL : forall d0, last (i ++ [l]) d0 = l) by (intros; apply last_last).
  destruct (i ++ [l]) as [|d0 ds] eqn:EE; [destruct i; discriminate|]. rewrite EL. rewrite <- EE.
  destruct (strchr s l) as [[u r]|] eqn:S.
  - apply strchr_split in S. destruct S as (-> & NU & r' & ->). eexists. split; [reflexivity|].
    rewrite walk_spec. rewrite Sub_last by exact NU. split.
    + intros H. exists u, r'. auto.
    + intros (u' & r2 & EQ & N2 & H). assert (u = u') as ->; [|exact H].
      clear - EQ NU N2. revert u' EQ N2. induction u as [|x u IH]; intros u' EQ N2; destruct u' as [|y u']; cbn in EQ; [reflexivity| | |].
      * injection EQ as <- _. exfalso. apply N2. left. reflexivity.
      * injection EQ as -> _. exfalso. apply NU. left. reflexivity.
      * injection EQ as <- EQ. f_equal. apply IH; [intros K; apply NU; right; exact K|exact EQ|intros K; apply N2; right; exact K].
  - apply strchr_none in S. exists false. split; [reflexivity|]. split; [discriminate|].
    intros (u & r & -> & _). exfalso. apply S. apply in_app_iff. right. left. reflexivity.
Qed.
(** a format whose last delimiter occurs twice is never met *)
Theorem check_format_repeated (s f i : str) l : filter (fun c => negb (ch_eqb c "?"%char)) f = i ++ [l] -> List.length (i ++ [l]) < 400 ->
  In l i -> check_format_s (Some s) f = Ok false.
Proof.
  intros E L I. destruct (check_format_spec s f i l E L) as ([|] & EQ & H); [|exact EQ].
  destruct (proj1 H eq_refl) as (u & r & _ & NU & S). exfalso. apply NU. eapply Sub_In; eassumption.
Qed.

(** *** regex_replace *)
Lemma first_literal (p a r : str) : first_at_end p a -> strstr (a ++ p ++ r) p = Some (a, p ++ r).
Proof.
  intros H. apply strstr_first. intros b r' E.
  destruct (Nat.le_gt_cases (List.length a) (List.length b)) as [L|L]; [exact L|]. exfalso.
  assert (F : firstn (List.length (b ++ p)) (a ++ p) = b ++ p).
  { assert (G : firstn (List.length (b ++ p)) ((a ++ p) ++ r) = b ++ p).
    { rewrite <- app_assoc, E, app_assoc. apply firstn_app_l. }
    rewrite firstn_app in G. replace (List.length (b ++ p) - List.length (a ++ p)) with 0 in G by (rewrite !app_length; lia).
    rewrite firstn_O, app_nil_r in G. exact G. }
  specialize (H b (skipn (List.length (b ++ p)) (a ++ p))).
  rewrite app_assoc in H. rewrite <- F in H at 1. rewrite firstn_skipn in H. specialize (H eq_refl). subst. lia.
Qed.
Lemma literal_loop p repl : p <> [] -> forall l f a save,
  Forall (first_at_end p) (removelast (a :: l)) -> ~ occurs p (last (a :: l) []) -> l <> [] ->
  List.length (join p (a :: l)) < f ->
  replace_loop (rx_literal p) repl f (join p (a :: l)) (List.length a) (List.length a + List.length p) save = Ok (save ++ join repl (a :: l)).
Proof.
  intros Np. induction l as [|b l IH]; intros f a save HF HL Hl Hf; [congruence|].
  destruct f as [|f]; [lia|]. cbn [replace_loop].
  change (join p (a :: b :: l)) with (a ++ p ++ join p (b :: l)) in *.
  assert (SK : skipn (List.length a + List.length p) (a ++ p ++ join p (b :: l)) = join p (b :: l)).
  { rewrite <- app_length, app_assoc. apply skipn_app_l. }
  rewrite SK, firstn_app_l. destruct l as [|b2 l].
  - cbn [join last] in *. unfold rx_literal. destruct (strstr b p) as [[u v]|] eqn:E.
    + exfalso. apply HL. apply strstr_app in E. destruct E as [-> E]. apply is_prefix_spec in E. destruct E as (q & ->). exists u, q. reflexivity.
    + rewrite <- !app_assoc. reflexivity.
  - assert (Fb : first_at_end p b). { cbn [removelast] in HF. inversion HF as [|? ? ? HF2]. cbn [removelast] in HF2. inversion HF2. assumption. }
    assert (J : join p (b :: b2 :: l) = b ++ p ++ join p (b2 :: l)) by reflexivity.
    unfold rx_literal at 1. rewrite J. rewrite (first_literal p b (join p (b2 :: l)) Fb).
    destruct p as [|p0 p']; [congruence|]. destruct (Nat.eqb_spec (List.length b + List.length (p0 :: p') - List.length b) 0) as [Z|_]; [cbn in Z; lia|].
    rewrite <- J. rewrite (IH f b (save ++ a ++ repl)).
    + rewrite <- !app_assoc. reflexivity.
    + cbn [removelast] in HF. inversion HF. assumption.
    + exact HL.
    + discriminate.
    + rewrite !app_length in Hf. cbn [List.length] in Hf. lia.
Qed.
(** every occurrence of a literal pattern is replaced, and nothing else *)
Theorem replace_literal p repl l : p <> [] -> l <> [] -> Forall (first_at_end p) (removelast l) -> ~ occurs p (last l []) ->
  regex_replace (rx_literal p) repl (join p l) = Ok (match l with [_] => false | _ => true end, join repl l).
Proof.
  intros Np Nl HF HL. destruct l as [|a l]; [congruence|]. unfold regex_replace. destruct l as [|b l].
  - cbn [join last] in *. unfold rx_literal. destruct (strstr a p) as [[u v]|] eqn:E; [|reflexivity].
    exfalso. apply HL. apply strstr_app in E. destruct E as [-> E]. apply is_prefix_spec in E. destruct E as (q & ->). exists u, q. reflexivity.
  - assert (Fa : first_at_end p a) by (cbn [removelast] in HF; inversion HF; assumption).
    assert (J : join p (a :: b :: l) = a ++ p ++ join p (b :: l)) by reflexivity.
    unfold rx_literal at 1. rewrite J at 1. rewrite (first_literal p a (join p (b :: l)) Fa).
    rewrite (literal_loop p repl Np (b :: l) _ a []) by (assumption || discriminate || lia). reflexivity.
Qed.
(** an anchored pattern is replaced again at the position after the replaced text *)
Lemma anchored_loop p repl r : p <> [] -> is_prefix p r = false -> forall k f save, k < f ->
  replace_loop (rx_anchored p) repl f (List.concat (repeat p (S k)) ++ r) 0 (List.length p) save = Ok (save ++ List.concat (repeat repl (S k)) ++ r).
Proof.
  intros Np Hr. induction k as [|k IH]; intros f save Hf; (destruct f as [|f]; [lia|]); cbn [replace_loop repeat List.concat firstn List.app].
  - rewrite app_nil_r, skipn_app_l. unfold rx_anchored. rewrite Hr, app_nil_r, <- app_assoc. reflexivity.
  - rewrite <- app_assoc, skipn_app_l. unfold rx_anchored at 1.
    assert (P : is_prefix p (List.concat (repeat p (S k)) ++ r) = true).
    { apply is_prefix_spec. exists (List.concat (repeat p k) ++ r). cbn [repeat List.concat]. rewrite <- app_assoc. reflexivity. }
    change ((p ++ List.concat (repeat p k)) ++ r) with (List.concat (repeat p (S k)) ++ r). rewrite P.
    destruct p as [|p0 p']; [congruence|]. destruct (Nat.eqb_spec (List.length (p0 :: p') - 0) 0) as [Z|_]; [cbn in Z; lia|].
    rewrite (IH f (save ++ repl)) by lia. cbn [repeat List.concat]. rewrite <- !app_assoc. reflexivity.
Qed.
Theorem replace_anchored p repl k r : p <> [] -> is_prefix p r = false ->
  regex_replace (rx_anchored p) repl (List.concat (repeat p (S k)) ++ r) = Ok (true, List.concat (repeat repl (S k)) ++ r).
Proof.
  intros Np Hr. unfold regex_replace, rx_anchored at 1.
  assert (P : is_prefix p (List.concat (repeat p (S k)) ++ r) = true).
  { apply is_prefix_spec. exists (List.concat (repeat p k) ++ r). cbn [repeat List.concat]. rewrite <- app_assoc. reflexivity. }
  rewrite P. rewrite (anchored_loop p repl r Np Hr k _ []); [reflexivity|].
  assert (k <= List.length (List.concat (repeat p (S k)))).
  { clear - Np. induction k as [|k IH]; [lia|]. cbn [repeat List.concat] in *. rewrite !app_length in *. destruct p; [congruence|]. cbn [List.length] in *. lia. }
  rewrite app_length. lia.
Qed.

(** *** sub_s *)
Lemma sub_s_spec m p a b d1 d2 r save : d1 <> NUL -> d2 <> NUL -> d1 <> d2 ->
  holds m p (a ++ d1 :: b ++ d2 :: r) -> ~ In d1 a -> ~ In d2 a -> ~ In d1 b -> ~ In d2 b ->
  exists m' q s, sub_s m (Some p) d1 d2 save = (m', Some q, Some s) /\ holds m' q b /\ List.length m' = List.length m /\ q + List.length b < s.
Proof.
  intros N1 N2 N12 H A1 A2 B1 B2. unfold sub_s.
  destruct (run_split d2 r) as (n & t & -> & Ht).
  assert (H' : holds m p ((a ++ d1 :: b) ++ repeat d2 (S n) ++ t)).
  { rewrite <- app_assoc. cbn [List.app repeat]. exact H. }
  assert (NB : ~ In d2 (a ++ d1 :: b)). { rewrite in_app_iff. intros [K|[K|K]]; [auto|congruence|auto]. }
  rewrite (tok_s_cut m (Some p) d2 save p (a ++ d1 :: b) n t eq_refl H') by (assumption || (destruct a; discriminate)).
  destruct (cut_spec m p (a ++ d1 :: b) d2 n t N2 H') as (HB & _ & LM & _ & _).
  set (m1 := zero_at m (p + List.length (a ++ d1 :: b)) (S n)) in *.
  destruct a as [|c a].
  - cbn [List.app] in *. rewrite (tok_s_lead_last m1 (Some p) d1 None p b eq_refl HB B1).
    exists m1, (S p), (p + List.length (d1 :: b) + S n). split; [reflexivity|]. split; [|split; [exact LM|cbn [List.length]; lia]].
    replace (S p) with (p + List.length [d1]) by (cbn; lia). apply (holds_split m1 p [d1] b). exact HB.
  - assert (HB' : holds m1 p ((c :: a) ++ repeat d1 (S 0) ++ b)) by exact HB.
    rewrite (tok_s_cut m1 (Some p) d1 None p (c :: a) 0 b eq_refl HB') by (assumption || discriminate || (intros K; apply B1; destruct b as [|x b]; [discriminate|injection K as ->; left; reflexivity])).
    destruct (cut_spec m1 p (c :: a) d1 0 b N1 HB') as (_ & HT & LM' & _ & _).
    eexists _, _, _. split; [reflexivity|]. split; [exact HT|]. split; [rewrite LM'; exact LM|]. rewrite !app_length. cbn [List.length]. lia.
Qed.
(** *** items of a text inside a block *)
Lemma items_from m p d t save f : d <> NUL -> holds m p t -> hd_error t <> Some d -> t <> [] -> List.length t < f ->
  exists m' tok save', tok_s m (Some p) d save = (m', Some tok, save') /\ items_loop f m' d (Some tok) save' = Ok (segments d t).
Proof.
  intros Nd H Hh Nt Hf.
  destruct (text_split d t) as [Hn|(b & n & t' & E & Hb & Ht')].
  - rewrite (tok_s_last m (Some p) d save p t eq_refl H Nt Hn). eexists _, _, _. split; [reflexivity|].
    rewrite (items_loop_spec d Nd f m p t None [] H eq_refl) by (cbn; destruct f; lia).
    rewrite (segments_one d t Hn Nt). reflexivity.
  - assert (Nb : b <> []). { intros ->. subst t. cbn in Hh. congruence. }
    subst t. rewrite (tok_s_cut m (Some p) d save p b n t' eq_refl H Nb Hb Ht'). eexists _, _, _. split; [reflexivity|].
    destruct (cut_spec m p b d n t' Nd H) as (HA & HB & _).
    rewrite (items_loop_spec d Nd f _ p b (Some (p + List.length b + S n)) t' HA).
    + rewrite segments_cut by assumption. reflexivity.
    + split; [exact HB|]. split; [exact Ht'|lia].
    + rewrite !app_length in Hf. lia.
Qed.
Lemma holds_block s : ~ In NUL s -> holds (cstr s ++ [NUL]) 0 s.
Proof. intros H. rewrite cstr_id by exact H. split; [exact H|]. exists []. reflexivity. Qed.
Lemma segments_join_ne l d : Forall (fun a => a <> [] /\ ~ In d a) l -> segments d (join_with d l) = l.
Proof. apply segments_join. Qed.

(** *** lists in square brackets *)
Lemma read_list_spec (a r : str) (l : list str) :
  l <> [] -> Forall (fun v => v <> [] /\ ~ In ","%char v /\ ~ In "["%char v /\ ~ In "]"%char v /\ ~ In NUL v) l ->
  ~ In "["%char a -> ~ In "]"%char a -> ~ In NUL a -> ~ In NUL r ->
  List.length (a ++ "["%char :: join_with ","%char l ++ "]"%char :: r) < 400 ->
  read_EoS_in_parameter_file (Some (a ++ "["%char :: join_with ","%char l ++ "]"%char :: r)) = Ok l.
Proof.
  intros Nl F A1 A2 AN RN L. unfold read_EoS_in_parameter_file.
  set (b := join_with ","%char l) in *. set (s := (a ++ "["%char :: b ++ "]"%char :: r) : str) in *.
  assert (NI : forall c, c <> ","%char -> Forall (fun v => ~ In c v) l -> ~ In c b).
  { intros c Nc Fc. subst b. clear - Nc Fc. induction l as [|x l IH]; [intros []|]. inversion Fc; subst. destruct l as [|y l]; [assumption|].
    change (join_with ","%char (x :: y :: l)) with (x ++ ","%char :: join_with ","%char (y :: l)). rewrite in_app_iff.
    intros [K|[K|K]]; [contradiction|congruence|]. exact (IH H2 K). }
  assert (B1 : ~ In "["%char b) by (apply NI; [discriminate|eapply Forall_impl; [|exact F]; cbn; tauto]).
  assert (B2 : ~ In "]"%char b) by (apply NI; [discriminate|eapply Forall_impl; [|exact F]; cbn; tauto]).
  assert (BN : ~ In NUL b) by (apply NI; [discriminate|eapply Forall_impl; [|exact F]; cbn; tauto]).
  destruct (check_format_spec s (S_ "[?]") ["["%char] "]"%char eq_refl ltac:(cbn; lia)) as (ok & E0 & OK).
  unfold str in *. rewrite E0. clear E0.
  assert (ok = true) as ->.
  { apply OK. exists (a ++ "["%char :: b), r. split; [subst s; rewrite <- app_assoc; reflexivity|]. split.
    - rewrite in_app_iff. intros [K|[K|K]]; [auto|discriminate|auto].
    - apply Sub_app_r. apply Sub_take. constructor. }
  cbn [obind negb]. destruct (Nat.leb_spec MAX_STR_LEN (List.length s)) as [X|_]; [unfold MAX_STR_LEN in X; lia|].
  assert (SN : ~ In NUL s).
  { subst s. rewrite in_app_iff. intros [K|[K|K]]; [auto|discriminate|]. apply in_app_iff in K. destruct K as [K|[K|K]]; [auto|discriminate|auto]. }
  destruct (sub_s_spec (cstr s ++ [NUL]) 0 a b "["%char "]"%char r None ltac:(discriminate) ltac:(discriminate) ltac:(discriminate) (holds_block s SN) A1 A2 B1 B2)
    as (m' & q & sv & -> & HB & LM & _).
  assert (Hh : hd_error b <> Some ","%char). { apply join_no_lead. eapply Forall_impl; [|exact F]. cbn. tauto. }
  assert (NB : b <> []). { subst b. destruct l as [|x [|y l]]; [congruence| |]; inversion F; subst; cbn; destruct x; tauto || discriminate || (cbn; discriminate). }
  assert (LB : List.length b < S (S (List.length (cstr s ++ [NUL])))) by (pose proof (holds_len _ _ _ HB); lia).
  destruct (items_from m' q ","%char b (Some sv) (S (S (List.length (cstr s ++ [NUL])))) ltac:(discriminate) HB Hh NB LB) as (m2 & tk & sv' & -> & ->).
  f_equal. apply segments_join. eapply Forall_impl; [|exact F]. cbn. tauto.
Qed.
Lemma read_list_abort (s : str) : (~ exists u b r, s = u ++ "["%char :: b ++ "]"%char :: r /\ ~ In "]"%char u /\ ~ In "]"%char b) ->
  read_EoS_in_parameter_file (Some s) = Abort.
Proof.
  intros H. unfold read_EoS_in_parameter_file.
  destruct (check_format_spec s (S_ "[?]") ["["%char] "]"%char eq_refl ltac:(cbn; lia)) as (ok & E0 & OK).
  unfold str in *. rewrite E0. clear E0.
  destruct ok; [|reflexivity]. exfalso. destruct (proj1 OK eq_refl) as (u & r & -> & NU & S). apply H.
  apply Sub_drop in S. destruct S as (u1 & u2 & -> & _). exists u1, u2, r. split; [rewrite <- app_assoc; reflexivity|].
  rewrite in_app_iff in NU. cbn in NU. tauto.
Qed.
Lemma read_list_empty (a r : str) : ~ In "["%char a -> ~ In "]"%char a -> ~ In NUL a -> ~ In NUL r -> List.length (a ++ S_ "[]" ++ r) < 400 ->
  read_EoS_in_parameter_file (Some (a ++ S_ "[]" ++ r)) = Abort.
Proof.
  intros A1 A2 AN RN L. unfold read_EoS_in_parameter_file. set (s := (a ++ S_ "[]" ++ r) : str) in *.
  destruct (check_format_spec s (S_ "[?]") ["["%char] "]"%char eq_refl ltac:(cbn; lia)) as ([|] & E0 & _);
  unfold str in *; rewrite E0; [|reflexivity].
  cbn [obind negb]. destruct (Nat.leb_spec MAX_STR_LEN (List.length s)) as [X|_]; [unfold MAX_STR_LEN in X; lia|].
  assert (SN : ~ In NUL s). { subst s. change (S_ "[]") with ["["%char; "]"%char]. rewrite !in_app_iff. intros [K|[[K|[K|[]]]|K]]; [auto|discriminate|discriminate|auto]. }
  destruct (sub_s_spec (cstr s ++ [NUL]) 0 a [] "["%char "]"%char r None ltac:(discriminate) ltac:(discriminate) ltac:(discriminate) (holds_block s SN) A1 A2 ltac:(intros []) ltac:(intros []))
    as (m' & q & sv & -> & HB & LM & _).
  rewrite (tok_s_empty m' (Some q) ","%char (Some sv) q eq_refl HB). reflexivity.
Qed.
(** *** adjust( , , ) *)
Lemma adjust_none (par : str) : map tolower par = S_ "none" -> parse_adjust_parameter par = Ok (None, None, None).
Proof.
  intros H. unfold parse_adjust_parameter.
  assert (E : strcmp_i (Some par) (Some (S_ "none")) = true) by (apply strcmp_i_spec; exists par, (S_ "none"); auto).
  assert (E' : strstr_i (Some par) (Some (S_ "none")) = true).
  { apply strstr_i_spec. exists par, (S_ "none"), [], par, []. rewrite app_nil_r. auto. }
  rewrite E, E', andb_false_r. reflexivity.
Qed.
Definition contains_i (x y : str) : Prop := exists u v w, x = u ++ v ++ w /\ map tolower v = map tolower y.
Lemma adjust_abort (par : str) : ~ contains_i par (S_ "adjust(") -> ~ contains_i par (S_ "none") -> parse_adjust_parameter par = Abort.
Proof.
  intros H1 H2. unfold parse_adjust_parameter.
  assert (E : forall y, ~ contains_i par y -> strstr_i (Some par) (Some y) = false).
  { intros y N. destruct (strstr_i (Some par) (Some y)) eqn:E; [|reflexivity]. exfalso. apply strstr_i_spec in E.
    destruct E as (x & y' & u & v & w & EX & EY & E1 & E2). injection EX as <-. injection EY as <-. apply N. exists u, v, w. auto. }
  rewrite (E _ H1), (E _ H2). reflexivity.
Qed.
Lemma adjust_three (a x y z r : str) : map tolower a = S_ "adjust" ->
  Forall (fun v => v <> [] /\ ~ In ","%char v /\ ~ In "("%char v /\ ~ In ")"%char v /\ ~ In NUL v) [x; y; z] -> ~ In NUL r ->
  parse_adjust_parameter (a ++ "("%char :: x ++ ","%char :: y ++ ","%char :: z ++ ")"%char :: r) = Ok (Some x, Some y, Some z).
Proof.
  intros Ha F RN. unfold parse_adjust_parameter. set (b := x ++ ","%char :: y ++ ","%char :: z).
  assert (EB : a ++ "("%char :: x ++ ","%char :: y ++ ","%char :: z ++ ")"%char :: r = a ++ "("%char :: b ++ ")"%char :: r).
  { subst b. rewrite <- !app_assoc. cbn [List.app]. rewrite <- !app_assoc. reflexivity. }
  rewrite EB. set (par := a ++ "("%char :: b ++ ")"%char :: r).
  assert (AC : forall c, ~ In (tolower c) (S_ "adjust") -> ~ In c a).
  { intros c N K. apply N. rewrite <- Ha. apply in_map. exact K. }
  assert (A1 : ~ In "("%char a) by (apply AC; cbv; intuition discriminate).
  assert (A2 : ~ In ")"%char a) by (apply AC; cbv; intuition discriminate).
  assert (AN : ~ In NUL a) by (apply AC; cbv; intuition discriminate).
  inversion F as [|? ? (X0 & X1 & X2 & X3 & X4) F1]; subst. inversion F1 as [|? ? (Y0 & Y1 & Y2 & Y3 & Y4) F2]; subst. inversion F2 as [|? ? (Z0 & Z1 & Z2 & Z3 & Z4) _]; subst.
  assert (BI : forall c, c <> ","%char -> ~ In c x -> ~ In c y -> ~ In c z -> ~ In c b).
  { intros c N H1 H2 H3 K. subst b. apply in_app_iff in K. destruct K as [K|[K|K]]; [auto|congruence|]. apply in_app_iff in K. destruct K as [K|[K|K]]; [auto|congruence|auto]. }
  assert (B1 : ~ In "("%char b) by (apply BI; auto; discriminate).
  assert (B2 : ~ In ")"%char b) by (apply BI; auto; discriminate).
  assert (BN : ~ In NUL b) by (apply BI; auto; discriminate).
  assert (SN : ~ In NUL par).
  { subst par. rewrite in_app_iff. intros [K|[K|K]]; [auto|discriminate|]. apply in_app_iff in K. destruct K as [K|[K|K]]; [auto|discriminate|auto]. }
  assert (E1 : strstr_i (Some par) (Some (S_ "adjust(")) = true).
  { apply strstr_i_spec. exists par, (S_ "adjust("), [], (a ++ ["("%char]), (b ++ ")"%char :: r). split; [reflexivity|]. split; [reflexivity|].
    split; [subst par; cbn [List.app]; rewrite <- app_assoc; reflexivity|]. rewrite map_app, Ha. reflexivity. }
  assert (E2 : strcmp_i (Some par) (Some (S_ "none")) = false).
  { destruct (strcmp_i (Some par) (Some (S_ "none"))) eqn:E; [|reflexivity]. exfalso. apply strcmp_i_spec in E. destruct E as (u & v & EU & EV & E).
    injection EU as <-. injection EV as <-. assert (K : In (tolower "("%char) (map tolower par)) by (apply in_map; subst par; apply in_app_iff; right; left; reflexivity).
    rewrite E in K. revert K. cbv. intuition discriminate. }
  unfold str in *. rewrite E1, E2. cbn [negb andb].
  destruct (sub_s_spec (cstr par ++ [NUL]) 0 a b "("%char ")"%char r None ltac:(discriminate) ltac:(discriminate) ltac:(discriminate) (holds_block par SN) A1 A2 B1 B2)
    as (m' & q & sv & -> & HB & LM & _).
  assert (Nc : ","%char <> NUL) by discriminate.
  assert (HD : forall (t t' : str), t <> [] -> ~ In ","%char t -> hd_error (t ++ t') <> Some ","%char).
  { intros [|c t] t' N H K; [congruence|]. apply H. left. cbn in K. congruence. }
  assert (HB' : holds m' q (x ++ repeat ","%char 1 ++ (y ++ ","%char :: z))) by exact HB.
  rewrite (tok_s_cut m' (Some q) ","%char (Some sv) q x 0 _ eq_refl HB' X0 X1 (HD y _ Y0 Y1)).
  destruct (cut_spec m' q x ","%char 0 _ Nc HB') as (HX & HY & _).
  set (m2 := zero_at m' (q + List.length x) 1) in *. set (q2 := q + List.length x + 1) in *.
  assert (HY' : holds m2 q2 (y ++ repeat ","%char 1 ++ z)) by exact HY.
  assert (HZ0 : hd_error z <> Some ","%char) by (specialize (HD z [] Z0 Z1); rewrite app_nil_r in HD; exact HD).
  rewrite (tok_s_cut m2 None ","%char (Some q2) q2 y 0 z eq_refl HY' Y0 Y1 HZ0).
  destruct (cut_spec m2 q2 y ","%char 0 z Nc HY') as (HY2 & HZ & _).
  set (m3 := zero_at m2 (q2 + List.length y) 1) in *. set (q3 := q2 + List.length y + 1) in *.
  rewrite (tok_s_last m3 None ","%char (Some q3) q3 z eq_refl HZ Z0 Z1).
  cbn [option_map]. rewrite (holds_cstr _ _ _ HX), (holds_cstr _ _ _ HY2), (holds_cstr _ _ _ HZ). reflexivity.
Qed.
