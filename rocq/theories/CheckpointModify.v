(** CheckpointModify.v - proof of C21: the modify: parameters override the loaded ones. *)
From Coq Require Import Permutation.
From Verif Require Import Base ParamModel ParamSpec ParamText ParamExpand ParamProofs ParamIterModel ParamIterProofs ParamFinal
  TextModel CheckpointModel CheckpointProofs.

Definition key (p : param) : str := lower (lv p).
Definition matches (p m : param) : bool := str_eqb (key p) (key m).
Lemma strcmp_i_lv p m : strcmp_i (Some (lv p)) (Some (lv m)) = matches p m. Proof. reflexivity. Qed.
Definition newv (ms : list param) (p : param) : param :=
  match find (matches p) ms with Some m => overridden p m | None => p end.
Definition clr (p : param) (ms : list param) : list param :=
  map (fun m => if matches p m then clear_moved m else m) ms.

Lemma clr_keys p ms : map key (clr p ms) = map key ms.
Proof. unfold clr. rewrite map_map. apply map_ext. intros m. destruct (matches p m); reflexivity. Qed.
Lemma clr_len p ms : List.length (clr p ms) = List.length ms.
Proof. unfold clr. apply map_length. Qed.
Lemma clr_nomatch p ms : ~ In (key p) (map key ms) -> clr p ms = ms.
Proof.
  intros H. unfold clr. rewrite <- (map_id ms) at 2. apply map_ext_in. intros m Hm.
  unfold matches. destruct (str_eqb_spec (key p) (key m)) as [E|_]; [|reflexivity].
  exfalso. apply H. rewrite E. apply in_map. exact Hm.
Qed.
Lemma override_eq p ms : NoDup (map key ms) ->
  override p ms = match find (matches p) ms with
                  | None => Ok None
                  | Some m => match rv_array p with
                              | Some _ => Abort
                              | None => Ok (Some (overridden p m, clr p ms))
                              end
                  end.
Proof.
  induction ms as [|m ms IH]; intros ND; [reflexivity|]. cbn [override find].
  rewrite strcmp_i_lv. inversion ND as [|a b Hn Hd]; subst.
  destruct (matches p m) eqn:M.
  - destruct (rv_array p); [reflexivity|]. do 4 f_equal. cbn [clr map]. rewrite M. f_equal.
    symmetry. apply clr_nomatch. unfold matches in M. apply str_eqb_eq in M. rewrite M. exact Hn.
  - rewrite IH by exact Hd. destruct (find (matches p) ms) as [m'|]; [|reflexivity].
    destruct (rv_array p); [reflexivity|]. cbn [obind clr map]. rewrite M. reflexivity.
Qed.
Lemma find_clr p q ms : key p <> key q -> find (matches q) (clr p ms) = find (matches q) ms.
Proof.
  intros N. induction ms as [|m ms IH]; [reflexivity|]. cbn [clr map find].
  assert (E : matches q (if matches p m then clear_moved m else m) = matches q m) by (destruct (matches p m); reflexivity).
  rewrite E. destruct (matches q m) eqn:Q; [|exact IH].
  unfold matches in *. apply str_eqb_eq in Q. rewrite (proj2 (str_eqb_neq _ _)) by congruence. reflexivity.
Qed.
Lemma find_matches_some p ms m : find (matches p) ms = Some m -> In m ms /\ key m = key p.
Proof. intros H. apply find_some in H. destruct H as [H1 H2]. apply str_eqb_eq in H2. auto. Qed.
Lemma find_matches_in p ms m : NoDup (map key ms) -> In m ms -> key m = key p -> find (matches p) ms = Some m.
Proof.
  induction ms as [|x ms IH]; intros ND I E; [destruct I|]. cbn [find]. inversion ND as [|a b Hn Hd]; subst.
  destruct (matches p x) eqn:M.
  - unfold matches in M. apply str_eqb_eq in M. destruct I as [->|I]; [reflexivity|].
    exfalso. apply Hn. rewrite <- M, <- E. apply in_map. exact I.
  - destruct I as [->|I]; [|apply IH; assumption].
    unfold matches in M. apply str_eqb_neq in M. congruence.
Qed.
Lemma find_matches_none p ms : find (matches p) ms = None <-> ~ In (key p) (map key ms).
Proof.
  split.
  - intros H K. apply in_map_iff in K. destruct K as (m & E & I). apply (find_none _ _ H) in I.
    unfold matches in I. rewrite E, str_eqb_refl in I. discriminate.
  - intros H. destruct (find (matches p) ms) as [m|] eqn:E; [|reflexivity].
    apply find_matches_some in E. destruct E as [I E]. exfalso. apply H. rewrite <- E. apply in_map. exact I.
Qed.

Lemma override_all_spec : forall l nf ms seen, NoDup (map key l) -> NoDup (map key ms) ->
  NoDup seen -> incl seen (map key ms) -> List.length seen = nf -> (forall k, In k seen -> ~ In k (map key l)) ->
  (forall l' ms', override_all nf l ms = Ok (l', ms') ->
     l' = map (newv ms) l /\ map key ms' = map key ms /\
     (forall m, In m ms -> ~ In (key m) (map key l) -> In m ms')) /\
  (forall p m a, In p l -> In m ms -> key m = key p -> rv_array p = Some a -> override_all nf l ms = Abort).
Proof.
  induction l as [|p l IH]; intros nf ms seen NL NM NS IS LS DS.
  - split; [|intros p m a []]. intros l' ms' H. cbn in H. injection H as <- <-. repeat split. intros m Hm _; exact Hm.
  - cbn [override_all]. inversion NL as [|x y Hn Hd]; subst.
    destruct (Nat.ltb_spec (List.length seen) (List.length ms)) as [L|L].
    + rewrite override_eq by exact NM. destruct (find (matches p) ms) as [m|] eqn:F.
      * assert (F' := F). apply find_matches_some in F'. destruct F' as [Im Em].
        destruct (rv_array p) as [a|] eqn:A.
        -- cbn [obind]. split; [discriminate|reflexivity].
        -- cbn [obind]. destruct (IH (S (List.length seen)) (clr p ms) (key p :: seen)) as [I1 I2].
           ++ exact Hd.
           ++ rewrite clr_keys. exact NM.
           ++ constructor; [|exact NS]. intros K. apply (DS _ K). left. reflexivity.
           ++ rewrite clr_keys. intros k [<-|K]; [rewrite <- Em; apply in_map; exact Im|apply IS; exact K].
           ++ reflexivity.
           ++ intros k [<-|K]; [exact Hn|]. intros K'. apply (DS _ K). right. exact K'.
           ++ split.
              ** intros l' ms' H. destruct (override_all (S (List.length seen)) l (clr p ms)) as [[l2 ms2]| |]; try discriminate.
                 cbn [obind fst snd] in H. injection H as <- <-.
                 destruct (I1 l2 ms2 eq_refl) as (E1 & E2 & E3). rewrite clr_keys in E2. split; [|split; [exact E2|]].
                 --- cbn [map]. f_equal.
                     +++ unfold newv. rewrite F. reflexivity.
                     +++ rewrite E1. apply map_ext_in. intros q Hq. unfold newv. rewrite find_clr; [reflexivity|].
                         intros K. apply Hn. rewrite K. apply in_map. exact Hq.
                 --- intros m0 H0 K. apply E3.
                     +++ unfold clr. apply in_map_iff. exists m0. split; [|exact H0].
                         unfold matches. rewrite (proj2 (str_eqb_neq _ _)); [reflexivity|]. intros X. apply K. left. exact X.
                     +++ intros K'. apply K. right. exact K'.
              ** intros p0 m0 a [<-|I0] Hm0 E A0; [congruence|].
                 rewrite (I2 p0 m0 a I0); [reflexivity| |exact E|exact A0].
                 unfold clr. apply in_map_iff. exists m0. split; [|exact Hm0].
                 unfold matches. rewrite (proj2 (str_eqb_neq _ _)); [reflexivity|]. intros X. apply Hn. rewrite X, E. apply in_map. exact I0.
      * cbn [obind]. destruct (IH (List.length seen) ms seen) as [I1 I2]; try assumption; try reflexivity.
        { intros k K K'. apply (DS _ K). right. exact K'. }
        split.
        -- intros l' ms' H. destruct (override_all (List.length seen) l ms) as [[l2 ms2]| |]; try discriminate.
           cbn [obind fst snd] in H. injection H as <- <-. destruct (I1 l2 ms2 eq_refl) as (E1 & E2 & E3).
           split; [|split; [exact E2|]].
           ++ cbn [map]. f_equal; [|exact E1]. unfold newv. rewrite F. reflexivity.
           ++ intros m0 H0 K. apply E3; [exact H0|]. intros K'. apply K. right. exact K'.
        -- intros p0 m0 a [<-|I0] Hm0 E A0.
           ++ exfalso. apply find_matches_none in F. apply F. rewrite <- E. apply in_map. exact Hm0.
           ++ rewrite (I2 p0 m0 a I0 Hm0 E A0). reflexivity.
    + assert (Full : forall k, In k (map key ms) -> In k seen).
      { intros k K. apply (NoDup_length_incl (l' := map key ms) NS); [rewrite map_length; exact L|exact IS|exact K]. }
      split.
      * intros l' ms' H. injection H as <- <-. split; [|split; [reflexivity|auto]].
        rewrite <- (map_id (p :: l)) at 1. apply map_ext_in. intros q Hq. unfold newv.
        rewrite (proj2 (find_matches_none q ms)); [reflexivity|].
        intros K. apply (DS _ (Full _ K)). apply in_map. exact Hq.
      * intros p0 m0 a I0 Hm0 E A0. exfalso. apply (DS (key p0)).
        -- apply Full. rewrite <- E. apply in_map. exact Hm0.
        -- apply in_map. exact I0.
Qed.

(** looking up by name, by keys *)
Lemma get_key d n p : Inv d -> get_parameter d n = Some p -> In p (pars d) /\ key p = lower n.
Proof.
  intros [ND CA] H. rewrite get_parameter_pars in H. apply find_par_some in H. destruct H as [I E]. split; [exact I|].
  unfold key. rewrite E. apply map_lower_rule.
Qed.
Lemma key_get d n p : Inv d -> In p (pars d) -> key p = lower n -> get_parameter d n = Some p.
Proof.
  intros [ND CA] I E. rewrite get_parameter_pars.
  assert (L : lv p = par_rule1 n).
  { unfold canon in CA. rewrite Forall_forall in CA. rewrite <- (CA p I). apply rule_eq_iff. exact E. }
  rewrite <- L. apply find_par_in; assumption.
Qed.
Lemma Inv_keys d : Inv d -> NoDup (map key (pars d)).
Proof.
  intros [ND CA]. unfold key, names, canon in *. revert ND CA. generalize (pars d). intros l.
  induction l as [|p l IH]; intros ND CA; [constructor|]. inversion ND as [|a b Hn Hd]; subst. inversion CA as [|a b Hc Hl]; subst.
  cbn [map]. constructor; [|apply IH; assumption].
  intros K. apply Hn. apply in_map_iff in K. destruct K as (q & E & I). rewrite Forall_forall in Hl.
  apply in_map_iff. exists q. split; [|exact I]. rewrite <- (Hl q I), <- Hc. apply rule_eq_iff. exact E.
Qed.
Lemma get_none_key d n : Inv d -> (get_parameter d n = None <-> ~ In (lower n) (map key (pars d))).
Proof.
  intros H. split.
  - intros G K. apply in_map_iff in K. destruct K as (p & E & I). rewrite (key_get d n p H I E) in G. discriminate.
  - intros K. destruct (get_parameter d n) as [p|] eqn:G; [|reflexivity]. exfalso. apply K.
    destruct (get_key d n p H G) as [I E]. rewrite <- E. apply in_map. exact I.
Qed.

Lemma add_parameter_shape d n v d' : add_parameter d n v = Ok d' ->
  get_parameter d n = None /\ exists p, d' = append_par d p /\ lv p = par_rule1 n /\ add_parameter None n v = Ok (Some [p]).
Proof.
  unfold add_parameter. rewrite !get_rule. destruct (get_parameter d n); [discriminate|].
  intros H. split; [reflexivity|]. cbn [get_parameter]. destruct v as [v|].
  - destruct (str_eqb v [] || str_eqb v [SP]).
    + inversion H; subst. eexists; repeat split; reflexivity.
    + destruct (strstr v arrow) as [[? ?]|], (regex_search_mult v);
      try (inversion H; subst; eexists; repeat split; reflexivity);
      try (destruct (parse_multiplicity v) as [ip| |]; try discriminate; cbn [obind] in H |- *;
           destruct (get_n_value_str_ip (set_ip (Some ip) (new_par (par_rule1 n))) 0) as [[|c v1]| |];
           try discriminate; cbn [obind] in *; inversion H; subst; eexists; repeat split; reflexivity);
      try (cbn [obind] in H |- *;
           destruct (get_n_value_str_ip (set_ip (Some v) (new_par (par_rule1 n))) 0) as [[|c v1]| |];
           try discriminate; cbn [obind] in *; inversion H; subst; eexists; repeat split; reflexivity).
  - inversion H; subst. eexists; repeat split; reflexivity.
Qed.

Lemma add_new_spec : forall ms d d', NoDup (map key ms) -> add_new d ms = Ok d' ->
  (forall n, (get_parameter d n <> None \/ ~ In (lower n) (map key ms)) -> get_parameter d' n = get_parameter d n) /\
  (forall n m, In m ms -> key m = lower n -> get_parameter d n = None ->
     exists p', get_parameter d' n = Some p' /\ add_parameter None n (rv m) = Ok (Some [p'])).
Proof.
  induction ms as [|m ms IH]; intros d d' ND H.
  - cbn in H. injection H as <-. split; [reflexivity|intros n m []].
  - cbn [add_new] in H. inversion ND as [|a b Hn Hd]; subst.
    destruct (get_parameter d (lv m)) as [q|] eqn:G.
    + destruct (IH d d' Hd H) as [I1 I2]. split.
      * intros n [K|K]; apply I1; [left; exact K|right; intros K'; apply K; right; exact K'].
      * intros n m0 [<-|I] E Gn.
        -- exfalso. rewrite (get_parameter_pars d n) in Gn. rewrite get_parameter_pars in G.
           rewrite (proj2 (rule_eq_iff (lv m) n)) in G by exact E. congruence.
        -- apply I2; assumption.
    + destruct (add_parameter d (lv m) (rv m)) as [d1| |] eqn:A; try discriminate. cbn [obind] in H.
      destruct (IH d1 d' Hd H) as [I1 I2].
      destruct (add_parameter_shape _ _ _ _ A) as (_ & p & -> & HL & HP).
      split.
      * intros n K.
        assert (NE : lower n <> key m).
        { intros E. destruct K as [K|K]; [|apply K; left; symmetry; exact E].
          apply K. rewrite get_parameter_pars in G |- *. rewrite (proj2 (rule_eq_iff n (lv m))) by exact E. exact G. }
        assert (GA : get_parameter (append_par d p) n = get_parameter d n).
        { rewrite get_append, HL, rule_neq by exact NE. destruct (get_parameter d n); reflexivity. }
        rewrite I1; [exact GA|]. rewrite GA. destruct K as [K|K]; [left; exact K|right; intros K'; apply K; right; exact K'].
      * intros n m0 [<-|I] E Gn.
        -- exists p. assert (RR : par_rule1 (lv m) = par_rule1 n) by (apply rule_eq_iff; exact E).
           assert (GA : get_parameter (append_par d p) n = Some p).
           { rewrite get_append, Gn, HL, RR, str_eqb_refl. reflexivity. }
           split.
           ++ rewrite I1; [exact GA|]. left. rewrite GA. discriminate.
           ++ rewrite <- (add_parameter_rule None n), <- RR, add_parameter_rule. exact HP.
        -- apply I2; [exact I|exact E|]. rewrite get_append, Gn, HL.
           rewrite rule_neq; [reflexivity|]. intros E'. apply Hn. unfold key at 1. rewrite <- E', <- E. apply in_map. exact I.
Qed.

Lemma overridden_keys ms l : map key (map (newv ms) l) = map key l.
Proof. rewrite map_map. apply map_ext. intros p. unfold newv. destruct (find (matches p) ms); reflexivity. Qed.
Lemma newv_lv ms p : lv (newv ms p) = lv p.
Proof. unfold newv. destruct (find (matches p) ms); reflexivity. Qed.
Lemma Inv_map ms d : Inv (Some (pars d)) -> Inv (Some (map (newv ms) (pars d))).
Proof.
  intros [ND CA]. unfold Inv, names, canon in *. cbn [pars] in *. split.
  - rewrite map_map. erewrite map_ext; [exact ND|]. intros p. apply newv_lv.
  - apply Forall_forall. intros q Hq. apply in_map_iff in Hq. destruct Hq as (p & <- & Hp).
    rewrite Forall_forall in CA. rewrite newv_lv. apply CA. exact Hp.
Qed.
Lemma get_map ms d n : get_parameter (Some (map (newv ms) (pars d))) n = option_map (newv ms) (get_parameter d n).
Proof.
  rewrite get_parameter_pars, get_parameter_pars. cbn [pars]. generalize (pars d). intros l.
  unfold find_par. induction l as [|p l IH]; [reflexivity|]. cbn [map find]. rewrite newv_lv.
  destruct (str_eqb (lv p) (par_rule1 n)); [reflexivity|exact IH].
Qed.
Lemma get_free d k n : Inv d -> lower n <> lower k -> get_parameter (free_parameter d k) n = get_parameter d n.
Proof.
  intros [ND CA] N. destruct d as [l|]; [|reflexivity]. cbn [free_parameter get_parameter pars] in *.
  assert (P := free_par_perm l (par_rule1 k) ND).
  rewrite (find_par_perm (filter (fun q => negb (str_eqb (lv q) (par_rule1 k))) l)).
  - rewrite find_par_filter. rewrite (proj2 (str_eqb_neq _ _)); [reflexivity|]. intros E. apply N. symmetry. apply rule_eq_iff. exact E.
  - apply NoDup_names_filter. exact ND.
  - apply Permutation_sym. exact P.
Qed.

Theorem modify_spec d ms d' : Inv d -> NoDup (map key ms) -> incorporate d ms = Ok d' ->
  (forall m, In m ms -> key m <> lower total_name) ->
  forall n, lower n <> lower total_name ->
  (forall m p, In m ms -> key m = lower n -> get_parameter d n = Some p -> get_parameter d' n = Some (overridden p m)) /\
  (forall m, In m ms -> key m = lower n -> get_parameter d n = None ->
     exists p', get_parameter d' n = Some p' /\ add_parameter None n (rv m) = Ok (Some [p'])) /\
  ((forall m, In m ms -> key m <> lower n) -> get_parameter d' n = get_parameter d n).
Proof.
  intros HI NM H HT n Hn. unfold incorporate in H. set (d1 := free_parameter d (S_ "total_iterations_ip")) in *.
  assert (I1 : Inv d1) by (apply Inv_free; exact HI).
  assert (G1 : get_parameter d1 n = get_parameter d n) by (apply get_free; [exact HI|exact Hn]).
  destruct (override_all_spec (pars d1) 0 ms [] (Inv_keys _ I1) NM (NoDup_nil _) (fun k (K : In k []) => match K with end)
              eq_refl (fun k (K : In k []) => match K with end)) as [OA _].
  destruct (override_all 0 (pars d1) ms) as [[l2 ms2]| |] eqn:EO; try discriminate. cbn [obind fst snd] in H.
  destruct (OA l2 ms2 eq_refl) as (E1 & E2 & E3). clear OA.
  set (d2 := match d1 with None => None | Some _ => Some l2 end) in *.
  assert (G2 : forall k, get_parameter d2 k = option_map (newv ms) (get_parameter d1 k)).
  { intros k. rewrite <- get_map. unfold d2. rewrite E1. destruct d1 as [l1|]; reflexivity. }
  destruct (add_new d2 ms2) as [a| |] eqn:E; try discriminate. cbn [obind] in H.
  destruct (total_iterations a) as [[T d4]| |] eqn:ET; try discriminate. cbn [obind snd] in H. injection H as <-.
  assert (NM2 : NoDup (map key ms2)) by (rewrite E2; exact NM).
  destruct (add_new_spec ms2 d2 a NM2 E) as [A1 A2].
  assert (GT : get_parameter d4 n = get_parameter a n).
  { apply (framed_total _ _ _ ET). intros w [<-|[]]. exact Hn. }
  rewrite GT. split; [|split].
  - intros m p Hm Em Gp. rewrite A1.
    + rewrite G2, G1, Gp. cbn [option_map]. f_equal. unfold newv.
      rewrite (find_matches_in p ms m); [reflexivity|exact NM|exact Hm|].
      rewrite Em. symmetry. apply (get_key d n p HI Gp).
    + left. rewrite G2, G1, Gp. discriminate.
  - intros m Hm Em Gn. apply A2; [|exact Em|rewrite G2, G1, Gn; reflexivity].
    apply E3; [exact Hm|]. rewrite Em. apply get_none_key; [exact I1|]. rewrite G1. exact Gn.
  - intros K.
    assert (NI : ~ In (lower n) (map key ms)).
    { intros X. apply in_map_iff in X. destruct X as (m & E' & Hm). exact (K m Hm E'). }
    rewrite A1; [|right; rewrite E2; exact NI].
    rewrite G2, G1. destruct (get_parameter d n) as [p|] eqn:G; [|reflexivity]. cbn [option_map]. f_equal.
    unfold newv. rewrite (proj2 (find_matches_none p ms)); [reflexivity|].
    rewrite (proj2 (get_key d n p HI G)). exact NI.
Qed.
Theorem modify_array_aborts d ms m n p a : Inv d -> NoDup (map key ms) -> In m ms -> key m = lower n -> lower n <> lower total_name ->
  get_parameter d n = Some p -> rv_array p = Some a -> incorporate d ms = Abort.
Proof.
  intros HI NM Hm Em Hn Gp A. unfold incorporate. set (d1 := free_parameter d (S_ "total_iterations_ip")) in *.
  assert (I1 : Inv d1) by (apply Inv_free; exact HI).
  assert (G1 : get_parameter d1 n = get_parameter d n) by (apply get_free; [exact HI|exact Hn]).
  destruct (override_all_spec (pars d1) 0 ms [] (Inv_keys _ I1) NM (NoDup_nil _) (fun k (K : In k []) => match K with end)
              eq_refl (fun k (K : In k []) => match K with end)) as [_ OA].
  rewrite Gp in G1. destruct (get_key d1 n p I1 G1) as [Ip Kp].
  rewrite (OA p m a Ip Hm); [reflexivity|congruence|exact A].
Qed.

(** *** which parameters of the parameter file are taken, and under which name *)
Lemma strchr_app_first c x y : ~ In c x -> strchr (x ++ c :: y) c = Some (x, c :: y).
Proof.
  induction x as [|d x IH]; intros H; cbn [List.app strchr].
  - destruct (ascii_dec c c); [reflexivity|congruence].
  - destruct (ascii_dec d c) as [->|_]; [exfalso; apply H; left; reflexivity|].
    rewrite IH by (intros K; apply H; right; exact K). reflexivity.
Qed.
Lemma strchr_app_skip c x y : ~ In c x -> strchr (x ++ y) c = option_map (fun q => (x ++ fst q, snd q)) (strchr y c).
Proof.
  induction x as [|d x IH]; intros H; cbn [List.app strchr].
  - destruct (strchr y c) as [[? ?]|]; reflexivity.
  - destruct (ascii_dec d c) as [->|_]; [exfalso; apply H; left; reflexivity|].
    rewrite IH by (intros K; apply H; right; exact K). destruct (strchr y c) as [[? ?]|]; reflexivity.
Qed.
(** an entry named modify:n is taken, and comes out under the canonical form of n *)
Theorem modify_name p n : lv p = par_rule1 (S_ "modify:" ++ n) ->
  is_modified p = true /\ lv (trim_prefix p) = par_rule1 n /\ rv (trim_prefix p) = rv p /\ rv_ip (trim_prefix p) = rv_ip p /\
  iterative (trim_prefix p) = iterative p.
Proof.
  intros H.
  assert (Q : exists b, ~ In ":"%char b /\ lv p = b ++ ":"%char :: par_rule1 n).
  { rewrite H. unfold par_rule1. change (S_ "modify:" ++ n) with (S_ "modify" ++ ":"%char :: n).
    change (S_ "modify" ++ ":"%char :: n) with ((S_ "modify" ++ [":"%char]) ++ n).
    rewrite strchr_app_skip by (apply notin_dec; reflexivity).
    destruct (strchr n "_"%char) as [[b r]|]; cbn [option_map fst snd].
    - exists (S_ "MODIFY"). split; [apply notin_dec; reflexivity|].
      rewrite map_app, <- app_assoc. reflexivity.
    - exists (S_ "modify"). split; [apply notin_dec; reflexivity|]. rewrite map_app. reflexivity. }
  destruct Q as (b & Nb & E). split.
  - unfold is_modified, strstr_i. rewrite H. fold (lower (par_rule1 (S_ "modify:" ++ n))). rewrite map_lower_rule.
    rewrite lower_app.
    destruct (strstr (lower (S_ "modify:") ++ lower n) (map tolower (S_ "modify:"))) eqn:K; [reflexivity|].
    exfalso. apply strstr_none_contains in K. apply K. exists [], (lower n). reflexivity.
  - unfold trim_prefix. rewrite E, (strchr_app_first _ _ _ Nb). cbn [tl]. repeat split; reflexivity.
Qed.

(** *** end to end: d0 = database of the new parameter file, d = database read from the checkpoint *)
Definition proper_modify (d0 : db) : Prop :=
  forall p, In p (pars d0) -> is_modified p = true -> exists n, lower (lv p) = lower (S_ "modify:" ++ n).

Lemma modified_in d0 m : Inv d0 -> proper_modify d0 -> In m (modified_pars d0) ->
  exists p n, In p (pars d0) /\ m = trim_prefix p /\ lv p = par_rule1 (S_ "modify:" ++ n) /\ lv m = par_rule1 n.
Proof.
  intros [ND CA] PM H. unfold modified_pars in H. apply in_map_iff in H. destruct H as (p & <- & H). apply filter_In in H.
  destruct H as [I M]. destruct (PM p I M) as [n E]. unfold canon in CA. rewrite Forall_forall in CA.
  assert (L : lv p = par_rule1 (S_ "modify:" ++ n)) by (rewrite <- (CA p I); apply rule_eq_iff; exact E).
  exists p, n. repeat split; try assumption. apply (modify_name p n L).
Qed.
Lemma modified_NoDup d0 : Inv d0 -> proper_modify d0 -> NoDup (map key (modified_pars d0)).
Proof.
  intros HI PM. unfold modified_pars. rewrite map_map.
  assert (ND := Inv_keys _ HI).
  assert (G : forall l, incl l (pars d0) -> NoDup (map key l) -> NoDup (map (fun x => key (trim_prefix x)) (filter is_modified l))).
  { induction l as [|p l IH]; intros IC NK; [constructor|]. inversion NK as [|a b Hn Hd]; subst.
    assert (IC' : incl l (pars d0)) by (intros x Hx; apply IC; right; exact Hx).
    cbn [filter]. destruct (is_modified p) eqn:M; [|apply IH; assumption]. cbn [map]. constructor; [|apply IH; assumption].
    intros K. apply in_map_iff in K. destruct K as (q & E & Hq). apply filter_In in Hq. destruct Hq as [Iq Mq].
    destruct (modified_in d0 (trim_prefix p) HI PM) as (p1 & n1 & Ip1 & _ & _ & L1).
    { apply in_map_iff. exists p. split; [reflexivity|]. apply filter_In. split; [apply IC; left; reflexivity|exact M]. }
    assert (Cp : exists n, lv p = par_rule1 (S_ "modify:" ++ n) /\ lv (trim_prefix p) = par_rule1 n).
    { destruct (PM p (IC p (or_introl eq_refl)) M) as [n En]. exists n. destruct HI as [_ CA]. unfold canon in CA. rewrite Forall_forall in CA.
      assert (L : lv p = par_rule1 (S_ "modify:" ++ n)) by (rewrite <- (CA p (IC p (or_introl eq_refl))); apply rule_eq_iff; exact En).
      split; [exact L|apply (modify_name p n L)]. }
    assert (Cq : exists n, lv q = par_rule1 (S_ "modify:" ++ n) /\ lv (trim_prefix q) = par_rule1 n).
    { destruct (PM q (IC' q Iq) Mq) as [n En]. exists n. destruct HI as [_ CA]. unfold canon in CA. rewrite Forall_forall in CA.
      assert (L : lv q = par_rule1 (S_ "modify:" ++ n)) by (rewrite <- (CA q (IC' q Iq)); apply rule_eq_iff; exact En).
      split; [exact L|apply (modify_name q n L)]. }
    destruct Cp as (n & Lp & Tp). destruct Cq as (k & Lq & Tq).
    unfold key in E. rewrite Tp, Tq in E. rewrite !map_lower_rule in E.
    apply Hn. apply in_map_iff. exists q. split; [|exact Iq]. unfold key. rewrite Lp, Lq, !map_lower_rule, !lower_app. f_equal. exact E. }
  apply G; [apply incl_refl|exact ND].
Qed.

Theorem restart_modify strtod d0 d d' n :
  Inv d0 -> Inv d -> proper_modify d0 -> get_parameter d0 (S_ "modify:" ++ total_name) = None ->
  lower n <> lower total_name -> incorporate d (modified_pars d0) = Ok d' ->
  (forall q, get_parameter d0 (S_ "modify:" ++ n) = Some q ->
     (forall p, get_parameter d n = Some p ->
        exists p', get_parameter d' n = Some p' /\ rv p' = rv q /\ rv_ip p' = rv_ip q /\ iterative p' = iterative q /\
        forall v, rv q = Some v -> exists d2, get_D strtod d' n true = Ok (strtod v, d2)) /\
     (get_parameter d n = None ->
        exists p', get_parameter d' n = Some p' /\ add_parameter None n (rv q) = Ok (Some [p']))) /\
  (get_parameter d0 (S_ "modify:" ++ n) = None -> get_parameter d' n = get_parameter d n).
Proof.
  intros I0 I PM NT Hn H.
  assert (ND := modified_NoDup d0 I0 PM).
  assert (HK : forall k m, In m (modified_pars d0) -> key m = lower k -> exists q, get_parameter d0 (S_ "modify:" ++ k) = Some q /\ m = trim_prefix q).
  { intros k m Hm E. destruct (modified_in d0 m I0 PM Hm) as (p & n1 & Ip & -> & Lp & Lm). exists p. split; [|reflexivity].
    apply key_get; [exact I0|exact Ip|]. unfold key in *. rewrite Lm, map_lower_rule in E. rewrite Lp, map_lower_rule, !lower_app, E. reflexivity. }
  assert (HT : forall m, In m (modified_pars d0) -> key m <> lower total_name).
  { intros m Hm E. destruct (HK total_name m Hm E) as (q & Gq & _). congruence. }
  destruct (modify_spec d (modified_pars d0) d' I ND H HT n Hn) as (A & B & C).
  split.
  - intros q Gq.
    assert (Hq : In (trim_prefix q) (modified_pars d0) /\ key (trim_prefix q) = lower n /\
                 rv (trim_prefix q) = rv q /\ rv_ip (trim_prefix q) = rv_ip q /\ iterative (trim_prefix q) = iterative q).
    { destruct (get_key d0 _ q I0 Gq) as [Iq Kq]. rewrite get_parameter_pars in Gq. apply find_par_some in Gq. destruct Gq as [_ Lq].
      destruct (modify_name q n Lq) as (M1 & M2 & M3 & M4 & M5). split.
      - apply in_map. apply filter_In. auto.
      - unfold key. rewrite M2, map_lower_rule. auto. }
    destruct Hq as (Q1 & Q2 & Q3 & Q4 & Q5). split.
    + intros p Gp. specialize (A _ p Q1 Q2 Gp). exists (overridden p (trim_prefix q)).
      split; [exact A|]. cbn [overridden rv rv_ip iterative]. repeat split; try assumption.
      intros v Hv. unfold get_D. rewrite A. cbn [overridden double_flg rv]. rewrite Q3, Hv. eexists. reflexivity.
    + intros Gn. rewrite <- Q3. apply (B _ Q1 Q2 Gn).
  - intros G0. apply C. intros m Hm E. destruct (HK n m Hm E) as (q & Gq & _). congruence.
Qed.
