(** ParamProofs.v - the parameter database refines the map of ParamSpec.v *)
From Coq Require Import Permutation.
From Verif Require Import Base ParamModel ParamSpec ParamText ParamExpand.

(** ** list lemmas *)
Definition names (l : list param) : list str := map lv l.
Lemma find_par_some l n p : find_par l n = Some p -> In p l /\ lv p = n.
Proof. unfold find_par. intros H. apply find_some in H. destruct H as [H1 H2]. apply str_eqb_eq in H2. auto. Qed.
Lemma find_par_none l n : find_par l n = None <-> ~ In n (names l).
Proof.
  unfold find_par, names. split.
  - intros H K. apply in_map_iff in K. destruct K as (p & E & I).
    pose proof (find_none _ _ H _ I) as F. cbv beta in F. apply str_eqb_neq in F. congruence.
  - intros H. destruct (find _ l) as [p|] eqn:E; [|reflexivity].
    apply find_some in E. destruct E as [I E]. apply str_eqb_eq in E.
    exfalso. apply H. apply in_map_iff. exists p; auto.
Qed.
Lemma find_par_in l p : NoDup (names l) -> In p l -> find_par l (lv p) = Some p.
Proof.
  induction l as [|q l IH]; intros ND I; [destruct I|].
  unfold find_par. cbn [find]. inversion ND; subst.
  destruct (str_eqb_spec (lv q) (lv p)) as [E|E].
  - destruct I as [->|I]; [reflexivity|]. exfalso. apply H1. rewrite E. apply in_map. exact I.
  - destruct I as [->|I]; [congruence|]. exact (IH H2 I).
Qed.
Lemma find_par_app l p n :
  find_par (l ++ [p]) n = match find_par l n with Some q => Some q | None => if str_eqb (lv p) n then Some p else None end.
Proof.
  unfold find_par. induction l as [|q l IH]; cbn [app find]; [reflexivity|].
  destruct (str_eqb (lv q) n); [reflexivity|exact IH].
Qed.
Lemma find_upd_first l a f b : (forall p, lv (f p) = lv p) ->
  find_par (upd_first l a f) b = if str_eqb a b then option_map f (find_par l a) else find_par l b.
Proof.
  intros HF. unfold find_par. induction l as [|q l IH]; cbn [upd_first find option_map].
  - destruct (str_eqb a b); reflexivity.
  - destruct (str_eqb_spec (lv q) a) as [E|NE].
    + cbn [find]. rewrite HF. destruct (str_eqb_spec a b) as [->|NAB].
      * rewrite (proj2 (str_eqb_eq (lv q) b) E). reflexivity.
      * rewrite E. rewrite (proj2 (str_eqb_neq a b) NAB). reflexivity.
    + cbn [find]. destruct (str_eqb_spec a b) as [->|NAB].
      * rewrite (proj2 (str_eqb_neq (lv q) b) NE). exact IH.
      * destruct (str_eqb (lv q) b); [reflexivity|]. exact IH.
Qed.
Lemma names_upd_first l a f : (forall p, lv (f p) = lv p) -> names (upd_first l a f) = names l.
Proof.
  intros HF. unfold names. induction l as [|q l IH]; cbn [upd_first map]; [reflexivity|].
  destruct (str_eqb (lv q) a); cbn [map]; [rewrite HF; reflexivity|]. rewrite IH. reflexivity.
Qed.
Lemma find_par_perm l l' n : NoDup (names l) -> Permutation l l' -> find_par l' n = find_par l n.
Proof.
  intros ND P.
  assert (ND' : NoDup (names l')).
  { eapply Permutation_NoDup; [|exact ND]. apply Permutation_map. exact P. }
  destruct (find_par l n) as [p|] eqn:E.
  - apply find_par_some in E. destruct E as [I <-]. apply find_par_in; [exact ND'|].
    eapply Permutation_in; eassumption.
  - apply find_par_none. apply find_par_none in E. intros K. apply E.
    eapply Permutation_in; [apply Permutation_map; apply Permutation_sym; exact P|exact K].
Qed.
Lemma find_par_filter l a b :
  find_par (filter (fun q => negb (str_eqb (lv q) a)) l) b = if str_eqb a b then None else find_par l b.
Proof.
  unfold find_par. induction l as [|q l IH]; cbn [filter find].
  - destruct (str_eqb a b); reflexivity.
  - destruct (str_eqb_spec (lv q) a) as [E|NE]; cbn [negb].
    + rewrite IH. destruct (str_eqb_spec a b) as [->|NAB]; [reflexivity|].
      rewrite E. rewrite (proj2 (str_eqb_neq a b) NAB). reflexivity.
    + cbn [find]. destruct (str_eqb_spec a b) as [->|NAB].
      * rewrite (proj2 (str_eqb_neq _ _) NE). exact IH.
      * destruct (str_eqb (lv q) b); [reflexivity|exact IH].
Qed.
Lemma replace_first_split l a q :
  forall l1 p l2, l = l1 ++ p :: l2 -> lv p = a -> ~ In a (names l1) -> replace_first l a q = l1 ++ q :: l2.
Proof.
  intros l1. revert l. induction l1 as [|x l1 IH]; intros l p l2 -> E NI; cbn [app replace_first].
  - rewrite (proj2 (str_eqb_eq (lv p) a) E). reflexivity.
  - assert (NX : lv x <> a) by (intros K; apply NI; left; exact K).
    rewrite (proj2 (str_eqb_neq _ _) NX). f_equal. eapply IH; [reflexivity|exact E|].
    intros K; apply NI; right; exact K.
Qed.
Lemma find_par_split l a p : find_par l a = Some p ->
  exists l1 l2, l = l1 ++ p :: l2 /\ lv p = a /\ ~ In a (names l1).
Proof.
  unfold find_par. induction l as [|q l IH]; cbn [find]; [discriminate|].
  destruct (str_eqb_spec (lv q) a) as [E|NE].
  - intros H; inversion H; subst. exists [], l. auto.
  - intros H. destruct (IH H) as (l1 & l2 & -> & E & NI). exists (q :: l1), l2. repeat split; auto.
    intros [K|K]; [congruence|auto].
Qed.
Lemma filter_all_ne l a : ~ In a (names l) -> filter (fun q => negb (str_eqb (lv q) a)) l = l.
Proof.
  induction l as [|q l IH]; intros H; cbn [filter]; [reflexivity|].
  assert (NX : lv q <> a) by (intros K; apply H; left; exact K).
  rewrite (proj2 (str_eqb_neq _ _) NX). cbn [negb]. f_equal. apply IH. intros K; apply H; right; exact K.
Qed.
Lemma last_app_ne {A} (l1 l2 : list A) d : l2 <> [] -> last (l1 ++ l2) d = last l2 d.
Proof.
  intros H. induction l1 as [|x l1 IH]; [reflexivity|]. cbn [app last].
  destruct (l1 ++ l2) eqn:E; [apply app_eq_nil in E; destruct E; congruence|]. exact IH.
Qed.
Lemma free_par_perm l a : NoDup (names l) ->
  Permutation (free_par_list l a) (filter (fun q => negb (str_eqb (lv q) a)) l).
Proof.
  intros ND. unfold free_par_list. destruct l as [|q0 l0] eqn:EL; [apply Permutation_refl|].
  rewrite <- EL in *. clear EL l0. destruct (find_par l a) as [p|] eqn:E.
  - destruct (find_par_split _ _ _ E) as (l1 & l2 & EL & Ep & NI).
    rewrite (replace_first_split l a (last l q0) l1 p l2 EL Ep NI).
    assert (NI2 : ~ In a (names l2)).
    { intros K. unfold names in ND. rewrite EL, map_app in ND. cbn [map] in ND.
      apply NoDup_remove_2 in ND. apply ND. rewrite Ep. apply in_or_app. right. exact K. }
    rewrite EL at 2. rewrite filter_app. cbn [filter].
    rewrite (proj2 (str_eqb_eq _ _) Ep). cbn [negb].
    rewrite (filter_all_ne l1 a NI), (filter_all_ne l2 a NI2).
    destruct l2 as [|x l2'] eqn:E2.
    + rewrite removelast_last. rewrite app_nil_r. apply Permutation_refl.
    + assert (NN : x :: l2' <> []) by discriminate.
      destruct (exists_last NN) as (l2'' & y & Ey). rewrite Ey in *.
      assert (LE : last l q0 = y).
      { rewrite EL. rewrite last_app_ne by discriminate.
        change (p :: l2'' ++ [y]) with ((p :: l2'') ++ [y]). apply last_last. }
      rewrite LE. change (y :: l2'' ++ [y]) with ((y :: l2'') ++ [y]). rewrite app_assoc.
      rewrite removelast_last. apply Permutation_app_head.
      change (y :: l2'') with ([y] ++ l2''). apply Permutation_app_comm.
  - apply find_par_none in E. rewrite filter_all_ne by exact E. apply Permutation_refl.
Qed.
Lemma NoDup_names_filter l f : NoDup (names l) -> NoDup (names (filter f l)).
Proof.
  induction l as [|q l IH]; intros ND; cbn [filter]; [constructor|].
  inversion ND; subst. destruct (f q); [|auto].
  constructor; [|auto]. intros K. apply H1. apply in_map_iff in K. destruct K as (p & E & I).
  apply filter_In in I. apply in_map_iff. exists p. tauto.
Qed.

(** ** invariant *)
Definition canon (l : list param) : Prop := Forall (fun p => par_rule1 (lv p) = lv p) l.
Definition Inv (d : db) : Prop := NoDup (names (pars d)) /\ canon (pars d).

Section Refine.
Variable strtod : str -> dbl.
Variable fmt20 : dbl -> str.

Definition cache_ok (p : param) (e : entry) : Prop :=
  if double_flg p then
    match cur e with
    | Some s => rv_double p = match num e with Some x => x | None => strtod s end
    | None => False
    end
  else num e = None.
Definition Rentry (p : param) (e : entry) : Prop :=
  rv p = cur e /\ rv_array p = arr e /\
  (if iterative p then rv_ip p = Some (join arrow (vals e)) /\ 2 <= List.length (vals e) /\ vals_ok (vals e)
   else vals e = []) /\
  cache_ok p e.
Definition Ropt (op : option param) (oe : option entry) : Prop :=
  match op, oe with
  | Some p, Some e => Rentry p e
  | None, None => True
  | _, _ => False
  end.
Definition R (d : db) (m : smap) : Prop :=
  Inv d /\ created m = (match d with Some _ => true | None => false end) /\
  forall n, Ropt (get_parameter d n) (s_get m n).

Lemma get_parameter_pars d n : get_parameter d n = find_par (pars d) (par_rule1 n).
Proof. destruct d; reflexivity. Qed.
Lemma get_rule d n : get_parameter d (par_rule1 n) = get_parameter d n.
Proof. rewrite !get_parameter_pars, rule_idem. reflexivity. Qed.

(** ** update in place *)
Lemma R_upd d m n f p e' :
  R d m -> get_parameter d n = Some p -> (forall q, lv (f q) = lv q) -> Rentry (f p) e' ->
  R (upd_par d n f) (s_put m n e').
Proof.
  intros (HI & HC & HR) HG HF HE. destruct d as [l|]; [|discriminate].
  unfold upd_par. split; [|split].
  - destruct HI as [ND CA]. unfold Inv, pars in *. split.
    + rewrite names_upd_first by exact HF. exact ND.
    + unfold canon in *. clear - CA HF. induction CA as [|q l Hq CA IH]; cbn [upd_first]; [constructor|].
      destruct (str_eqb (lv q) (par_rule1 n)); constructor; auto. rewrite HF. exact Hq.
  - reflexivity.
  - intros k. rewrite get_parameter_pars. cbn [pars]. rewrite find_upd_first by exact HF.
    unfold s_get, s_put. cbn [ent].
    destruct (str_eqb_spec (par_rule1 n) (par_rule1 k)) as [E|NE].
    + apply rule_eq_iff in E. rewrite (proj2 (str_eqb_eq (lower k) (lower n)) (eq_sym E)).
      unfold get_parameter in HG. rewrite HG. cbn [option_map Ropt]. exact HE.
    + destruct (str_eqb_spec (lower k) (lower n)) as [E|NE'].
      * exfalso. apply NE. symmetry. apply rule_eq_iff. exact E.
      * specialize (HR k). exact HR.
Qed.
(** ** append *)
Lemma R_app d m n p e' :
  R d m -> get_parameter d n = None -> lv p = par_rule1 n -> Rentry p e' ->
  R (append_par d p) (s_put m n e').
Proof.
  intros (HI & HC & HR) HG HL HE. unfold append_par. split; [|split].
  - destruct HI as [ND CA]. unfold Inv. cbn [pars]. split.
    + unfold names. rewrite map_app. cbn [map].
      apply (Permutation_NoDup (l := lv p :: map lv (pars d))).
      * apply Permutation_cons_append.
      * constructor; [|exact ND]. rewrite HL. apply find_par_none. rewrite <- get_parameter_pars. exact HG.
    + apply Forall_app. split; [exact CA|]. constructor; [|constructor]. rewrite HL. apply rule_idem.
  - reflexivity.
  - intros k. rewrite get_parameter_pars. cbn [pars]. rewrite find_par_app.
    rewrite <- get_parameter_pars. unfold s_get, s_put. cbn [ent].
    specialize (HR k). unfold s_get in HR. rewrite HL.
    destruct (str_eqb_spec (par_rule1 n) (par_rule1 k)) as [E|NE].
    + assert (get_parameter d k = None) as ->.
      { rewrite get_parameter_pars, <- E, <- get_parameter_pars. exact HG. }
      apply rule_eq_iff in E. rewrite (proj2 (str_eqb_eq (lower k) (lower n)) (eq_sym E)).
      exact HE.
    + destruct (str_eqb_spec (lower k) (lower n)) as [E|NE'].
      * exfalso. apply NE. symmetry. apply rule_eq_iff. exact E.
      * destruct (get_parameter d k); exact HR.
Qed.

(** ** add_parameter *)
Lemma wf_plain_nonblank v : wf_text (TPlain v) -> str_eqb v [] || str_eqb v [SP] = false.
Proof.
  intros (A & B & _). apply orb_false_iff. split; apply str_eqb_neq; assumption.
Qed.
Lemma render_ne its : Forall wf_item its -> 2 <= List.length (values its) ->
  its <> [].
Proof. intros _ H ->. cbn in H. lia. Qed.
Lemma values_contains_arrow its : Forall wf_item its -> 2 <= List.length (values its) ->
  strstr (render its) arrow <> None \/ regex_search_mult (render its) = true.
Proof.
  intros F L. destruct its as [|it [|it' its]]; [cbn in L; lia| |].
  - destruct it as [v [n|]]; [|cbn in L; lia].
    right. apply regex_search_has_mult. exists v, (dec_N n), []. unfold render. cbn [map join render_item].
    repeat split; auto using dec_N_nonnil. apply dec_N_digits.
  - left. rewrite render_cons. intros K. apply strstr_none_contains in K. apply K.
    exists (render_item it), (render (it' :: its)). reflexivity.
Qed.
Lemma render_no_mult its : its <> [] -> regex_search_mult (render its) = false -> Forall wf_item its ->
  render its = join arrow (values its).
Proof.
  intros NN H F. pose proof (parse_multiplicity_render its F NN) as P.
  unfold parse_multiplicity in P. destruct (ends_with_arrow (render its)); [discriminate|].
  cbn [expand_loop] in P. unfold regex_search_mult in H.
  destruct (regex_find_mult (render its)); [discriminate|]. congruence.
Qed.
Lemma render_nonblank its : Forall wf_item its -> 2 <= List.length (values its) ->
  str_eqb (render its) [] || str_eqb (render its) [SP] = false.
Proof.
  intros F L. apply orb_false_iff.
  assert (K : 2 <= List.length (render its)).
  { destruct its as [|it [|it' its]]; [cbn in L; lia| |].
    - destruct it as [v [n|]]; [|cbn in L; lia]. unfold render. cbn [map join render_item].
      rewrite !app_length. change (List.length (S_ "(x")) with 2. lia.
    - rewrite render_cons, !app_length. change (List.length arrow) with 2. lia. }
  split; apply str_eqb_neq; intros E; rewrite E in K; cbn in K; lia.
Qed.

Lemma fresh_plain_R n v : Rentry (set_rv (Some v) (new_par n)) (fresh (TPlain v)).
Proof. unfold Rentry, cache_ok; cbn. auto. Qed.
Lemma fresh_null_R n t : t = TNull \/ (exists b, t = TBlank b) -> Rentry (new_par n) (fresh t).
Proof. intros [->|[b ->]]; unfold Rentry, cache_ok; cbn; auto. Qed.

Lemma add_parameter_spec d n t :
  wf_text t -> get_parameter d n = None ->
  exists p, add_parameter d n (raw t) = Ok (append_par d p) /\ lv p = par_rule1 n /\ Rentry p (fresh t).
Proof.
  intros W G. unfold add_parameter. rewrite get_rule, G.
  destruct t as [|sp|v|its]; cbn [raw].
  - exists (new_par (par_rule1 n)). repeat split.
  - exists (new_par (par_rule1 n)). split; [|split; [reflexivity|apply fresh_null_R; eauto]].
    destruct sp; reflexivity.
  - rewrite (wf_plain_nonblank v W). destruct W as (_ & _ & W1 & W2).
    rewrite (not_contains_strstr v arrow W1).
    assert (regex_search_mult v = false) as ->.
    { destruct (regex_search_mult v) eqn:E; [|reflexivity]. apply regex_search_has_mult in E. contradiction. }
    eexists. split; [reflexivity|]. split; [reflexivity|]. apply fresh_plain_R.
  - destruct W as [F L]. rewrite render_nonblank by assumption.
    pose proof (render_ne its F L) as NN.
    assert (IP : (if regex_search_mult (render its) then parse_multiplicity (render its) else Ok (render its))
                 = Ok (join arrow (values its))).
    { destruct (regex_search_mult (render its)) eqn:E.
      - apply parse_multiplicity_render; assumption.
      - f_equal. apply render_no_mult; assumption. }
    pose proof (values_vals_ok its F) as VO.
    destruct (get_n_value_join (values its) 0 L VO) as (v0 & GV & NV).
    assert (V0 : v0 <> []).
    { unfold nth_clamped in NV. apply nth_error_In in NV. unfold vals_ok in VO.
      rewrite Forall_forall in VO. apply VO. exact NV. }
    exists (set_rv (Some v0) (set_ip (Some (join arrow (values its))) (new_par (par_rule1 n)))).
    split; [|split; [reflexivity|]].
    + assert (K : forall b, (do ip <- (if b : bool then parse_multiplicity (render its) else Ok (render its));
                  (let p := set_ip (Some ip) (new_par (par_rule1 n)) in
                   do v1 <- get_n_value_str_ip p 0;
                   match v1 with [] => Abort | _ :: _ => Ok (append_par d (set_rv (Some v1) p)) end))
                 = Ok (append_par d (set_rv (Some v0) (set_ip (Some (join arrow (values its))) (new_par (par_rule1 n))))) \/
                 b <> regex_search_mult (render its)).
      { intros b. destruct (Bool.bool_dec b (regex_search_mult (render its))) as [->|NE]; [left|right; exact NE].
        rewrite IP. cbn [obind]. unfold get_n_value_str_ip. cbn [iterative set_ip rv_ip]. rewrite GV. cbn [obind].
        destruct v0; [congruence|reflexivity]. }
      destruct (values_contains_arrow its F L) as [K1|K1].
      * destruct (strstr (render its) arrow) as [[? ?]|]; [|congruence].
        destruct (K (regex_search_mult (render its))) as [K2|K2]; [exact K2|congruence].
      * rewrite K1 in *. destruct (K true) as [K2|K2]; [|congruence].
        destruct (strstr (render its) arrow) as [[? ?]|]; exact K2.
    + unfold Rentry, cache_ok. cbn. repeat split; auto.
Qed.
Lemma add_parameter_dup d n v p : get_parameter d n = Some p -> add_parameter d n v = Abort.
Proof. intros G. unfold add_parameter. rewrite get_rule, G. reflexivity. Qed.
Lemma add_parameter_rule d n v : add_parameter d (par_rule1 n) v = add_parameter d n v.
Proof. unfold add_parameter. rewrite rule_idem. reflexivity. Qed.

Lemma Rentry_set_rv v p e : Rentry p e -> Rentry (set_flg false (set_rv v p)) (with_cur v None e).
Proof. intros (A & B & C & D). unfold Rentry, cache_ok. cbn. auto. Qed.

(** dec_Z gives a plain text *)
Lemma dec_Z_plain z : wf_text (TPlain (dec_Z z)).
Proof.
  assert (K : forall n, dec_N n <> [] /\ ~ In ">"%char (dec_N n) /\ ~ In "("%char (dec_N n) /\ ~ In SP (dec_N n)).
  { intros n. pose proof (dec_N_digits n) as F. rewrite Forall_forall in F.
    split; [apply dec_N_nonnil|]. repeat split; intros I; apply F in I; discriminate. }
  assert (K' : dec_Z z <> [] /\ ~ In ">"%char (dec_Z z) /\ ~ In "("%char (dec_Z z) /\ ~ In SP (dec_Z z)).
  { destruct z; cbn [dec_Z]; auto. destruct (K (N.pos p)) as (_ & A & B & C).
    split; [discriminate|]. repeat split; intros [I|I]; try discriminate; auto. }
  destruct K' as (A & B & C & D). split; [exact A|]. split; [|split].
  - intros E. apply D. rewrite E. left; reflexivity.
  - intros (b & r & E). apply B. rewrite E. apply in_or_app. right. right. left. reflexivity.
  - intros (b & d & r & E & _). apply C. rewrite E. apply in_or_app. right. left. reflexivity.
Qed.

(** ** free *)
Lemma R_free d m n : R d m -> R (free_parameter d n) (s_del m n).
Proof.
  intros (HI & HC & HR). destruct d as [l|].
  - destruct HI as [ND CA]. cbn [pars] in *. unfold free_parameter.
    pose proof (free_par_perm l (par_rule1 n) ND) as P. split; [|split].
    + unfold Inv. cbn [pars]. split.
      * eapply Permutation_NoDup; [apply Permutation_map; apply Permutation_sym; exact P|].
        apply NoDup_names_filter. exact ND.
      * unfold canon in *. eapply Permutation_Forall; [apply Permutation_sym; exact P|].
        apply Forall_forall. intros q Hq. apply filter_In in Hq. destruct Hq as [Hq _].
        rewrite Forall_forall in CA. auto.
    + exact HC.
    + intros k. rewrite get_parameter_pars. cbn [pars].
      rewrite (find_par_perm (filter (fun q => negb (str_eqb (lv q) (par_rule1 n))) l)).
      2:{ apply NoDup_names_filter. exact ND. } 2:{ apply Permutation_sym. exact P. }
      rewrite find_par_filter. unfold s_get, s_del. cbn [ent].
      destruct (str_eqb_spec (par_rule1 n) (par_rule1 k)) as [E|NE].
      * apply rule_eq_iff in E. rewrite (proj2 (str_eqb_eq (lower k) (lower n)) (eq_sym E)). exact I.
      * destruct (str_eqb_spec (lower k) (lower n)) as [E|NE'].
        -- exfalso. apply NE. symmetry. apply rule_eq_iff. exact E.
        -- exact (HR k).
  - split; [exact HI|]. split; [exact HC|]. intros k. unfold s_get, s_del. cbn [ent].
    specialize (HR k). unfold s_get in HR. cbn in *.
    destruct (str_eqb (lower k) (lower n)); [exact I|exact HR].
Qed.

(** ** update_iterative *)
Definition iter_entry (k : nat) (e : entry) : entry :=
  match vals e with [] => e | _ => with_cur (nth_clamped (vals e) k) None e end.
Lemma update_iter_one_R k p e : Rentry p e ->
  exists p', update_iter_one strtod k p = Ok p' /\ lv p' = lv p /\ Rentry p' (iter_entry k e).
Proof.
  intros (A & B & C & D). unfold update_iter_one, iter_entry.
  destruct (iterative p) eqn:EI.
  - destruct C as (C1 & C2 & C3). destruct (get_n_value_join (vals e) k C2 C3) as (v & GV & NV).
    unfold get_n_value_str_ip. rewrite EI, C1, GV. cbn [obind].
    destruct (vals e) as [|x l] eqn:EV; [cbn in C2; lia|]. rewrite <- EV in *.
    eexists. split; [reflexivity|]. split; [destruct (double_flg p); reflexivity|].
    unfold Rentry, cache_ok in *.
    destruct (double_flg p) eqn:DF; cbn; rewrite ?EI, ?DF, ?NV; auto 10.
  - exists p. rewrite C. split; [reflexivity|]. split; [reflexivity|].
    unfold Rentry. rewrite EI. auto.
Qed.
Lemma omap_update k l (g : str -> option entry) :
  (forall p, In p l -> exists e, g (lv p) = Some e /\ Rentry p e) ->
  exists l', omap (update_iter_one strtod k) l = Ok l' /\ names l' = names l /\
    forall n, match find_par l n, find_par l' n with
              | Some p, Some p' => update_iter_one strtod k p = Ok p'
              | None, None => True
              | _, _ => False
              end.
Proof.
  induction l as [|p l IH]; intros H.
  - exists []. repeat split.
  - destruct (H p (or_introl eq_refl)) as (e & _ & HR).
    destruct (update_iter_one_R k p e HR) as (p' & U & HL & _).
    destruct IH as (l' & E1 & E2 & E3); [intros q Hq; apply H; right; exact Hq|].
    exists (p' :: l'). cbn [omap]. rewrite U. cbn [obind]. rewrite E1. cbn [obind].
    split; [reflexivity|]. split.
    + unfold names in *. cbn [map]. congruence.
    + intros n. unfold find_par. cbn [find]. rewrite HL.
      destruct (str_eqb (lv p) n); [exact U|]. exact (E3 n).
Qed.
Lemma R_update_ip d m k : R d m ->
  exists d', update_iterative strtod d k = Ok d' /\
    R d' {| created := created m;
            ent := fun q => match ent m q with
                            | Some e => Some (iter_entry k e)
                            | None => None end |}.
Proof.
  intros (HI & HC & HR). destruct d as [l|].
  - destruct HI as [ND CA]. cbn [pars] in *.
    destruct (omap_update k l (fun s => ent m (lower s))) as (l' & E1 & E2 & E3).
    { intros p Hp. specialize (HR (lv p)). rewrite get_parameter_pars in HR. cbn [pars] in HR.
      unfold canon in CA. rewrite Forall_forall in CA. rewrite (CA p Hp) in HR.
      rewrite (find_par_in l p ND Hp) in HR. unfold s_get, Ropt in HR.
      destruct (ent m (lower (lv p))) as [e|]; [|contradiction]. exists e. auto. }
    exists (Some l'). unfold update_iterative. rewrite E1. split; [reflexivity|]. split; [|split].
    + unfold Inv. cbn [pars]. split; [rewrite E2; exact ND|].
      unfold canon in *. clear - CA E2. rewrite Forall_forall in *. intros p Hp.
      assert (I : In (lv p) (names l)) by (rewrite <- E2; apply in_map; exact Hp).
      apply in_map_iff in I. destruct I as (q & <- & Hq). apply CA. exact Hq.
    + exact HC.
    + intros n. specialize (HR n). specialize (E3 (par_rule1 n)).
      rewrite get_parameter_pars in *. cbn [pars] in *. unfold s_get in *. cbn [ent].
      destruct (find_par l (par_rule1 n)) as [p|], (find_par l' (par_rule1 n)) as [p'|]; try contradiction.
      * unfold Ropt in *. destruct (ent m (lower n)) as [e|]; [|contradiction].
        destruct (update_iter_one_R k p e HR) as (p2 & U & _ & R2). congruence.
      * unfold Ropt in *. destruct (ent m (lower n)); [contradiction|exact I].
  - exists None. split; [reflexivity|]. split; [exact HI|]. split; [exact HC|].
    intros n. specialize (HR n). unfold s_get in *. cbn [ent get_parameter] in *.
    destruct (ent m (lower n)); [contradiction|exact I].
Qed.

(** s_put of the same entry changes nothing the relation sees *)
Lemma R_upd_same d m n f p e :
  R d m -> get_parameter d n = Some p -> s_get m n = Some e -> (forall q, lv (f q) = lv q) -> Rentry (f p) e ->
  R (upd_par d n f) m.
Proof.
  intros HR G GS HF HE. pose proof (R_upd d m n f p e HR G HF HE) as (I & C & K).
  split; [exact I|]. destruct HR as (_ & HC & _).
  split.
  - destruct d; [|discriminate]. exact HC.
  - intros k. specialize (K k). unfold s_get, s_put in *. cbn [ent] in K.
    destruct (str_eqb_spec (lower k) (lower n)) as [E|NE]; [|exact K]. rewrite E, GS. exact K.
Qed.

Lemma upd_rule d n f : upd_par d (par_rule1 n) f = upd_par d n f.
Proof. destruct d; cbn [upd_par]; [rewrite rule_idem; reflexivity|reflexivity]. Qed.

Definition safe_default (m : smap) (o : sop) : Prop :=
  match o with
  | Sdefault n _ => match s_get m n with Some e => cur e <> Some [] | None => True end
  | _ => True
  end.
Definition agree (x : outcome (db * out)) (y : outcome (smap * out)) : Prop :=
  match x, y with
  | Ok (d, o), Ok (m, o') => R d m /\ o = o'
  | Abort, Abort => True
  | UB, UB => True
  | _, _ => False
  end.

Lemma step_agree d m o : R d m -> wf_sop o -> safe_default m o -> agree (step strtod fmt20 d (call o)) (s_step strtod fmt20 m o).
Proof.
  intros HR W SD. pose proof HR as HR0. destruct HR0 as (HI & HC & HRn).
  destruct o as [n t|n z|n x|n t|n x|n a|n a|n t|n|n f|n f|n f|n f|k]; cbn [call step s_step wf_sop] in *.
  - (* Psets *)
    pose proof (HRn n) as HN. unfold update_string. rewrite get_rule.
    destruct (get_parameter d n) as [p|] eqn:G; destruct (s_get m n) as [e|] eqn:GS; try contradiction.
    + cbn. split; [|reflexivity]. rewrite upd_rule. eapply R_upd; eauto. apply Rentry_set_rv. exact HN.
    + rewrite add_parameter_rule. destruct (add_parameter_spec d n t W G) as (p & -> & HL & HE).
      cbn. split; [|reflexivity]. apply R_app; assumption.
  - (* Pseti *)
    pose proof (HRn n) as HN. unfold update_integer. rewrite get_rule.
    destruct (get_parameter d n) as [p|] eqn:G; destruct (s_get m n) as [e|] eqn:GS; try contradiction.
    + cbn. split; [|reflexivity]. rewrite upd_rule. eapply R_upd; eauto. apply Rentry_set_rv. exact HN.
    + rewrite add_parameter_rule.
      destruct (add_parameter_spec d n (TPlain (dec_Z z)) (dec_Z_plain z) G) as (p & E & HL & HE).
      cbn [raw] in E. rewrite E. cbn. split; [|reflexivity]. apply R_app; assumption.
  - (* Psetd *)
    pose proof (HRn n) as HN. unfold update_double. rewrite get_rule.
    destruct (get_parameter d n) as [p|] eqn:G; destruct (s_get m n) as [e|] eqn:GS; try contradiction.
    + cbn. split; [|reflexivity]. rewrite upd_rule. eapply R_upd; eauto.
      destruct HN as (A & B & C & D). unfold Rentry, cache_ok; cbn; auto.
    + unfold add_double. rewrite rule_idem, get_rule, G. cbn. split; [|reflexivity].
      apply R_app; auto. unfold Rentry, cache_ok; cbn; auto.
  - (* Padds *)
    pose proof (HRn n) as HN.
    destruct (get_parameter d n) as [p|] eqn:G; destruct (s_get m n) as [e|] eqn:GS; try contradiction.
    + rewrite (add_parameter_dup d n _ p G). exact I.
    + destruct (add_parameter_spec d n t W G) as (p & -> & HL & HE).
      cbn. split; [|reflexivity]. apply R_app; assumption.
  - (* Paddd *)
    pose proof (HRn n) as HN. unfold add_double. rewrite get_rule.
    destruct (get_parameter d n) as [p|] eqn:G; destruct (s_get m n) as [e|] eqn:GS; try contradiction.
    + exact I.
    + cbn. split; [|reflexivity]. apply R_app; auto. unfold Rentry, cache_ok; cbn; auto.
  - (* Padda *)
    pose proof (HRn n) as HN. unfold add_array. rewrite get_rule.
    destruct (get_parameter d n) as [p|] eqn:G; destruct (s_get m n) as [e|] eqn:GS; try contradiction.
    + exact I.
    + cbn. split; [|reflexivity]. apply R_app; auto. unfold Rentry, cache_ok; cbn; auto.
  - (* Pseta *)
    pose proof (HRn n) as HN. unfold update_array. rewrite get_rule.
    destruct (get_parameter d n) as [p|] eqn:G; destruct (s_get m n) as [e|] eqn:GS; try contradiction.
    + destruct HN as (A & B & C & D). destruct (iterative p) eqn:EI.
      * destruct C as (C1 & C2 & C3). destruct (vals e); [cbn in C2; lia|]. exact I.
      * rewrite C. cbn. split; [|reflexivity]. rewrite upd_rule. eapply R_upd; eauto.
        unfold Rentry, cache_ok; cbn. rewrite EI. auto.
    + cbn. split; [|reflexivity]. apply R_app; auto. unfold Rentry, cache_ok; cbn; auto.
  - (* Pdefault *)
    pose proof (HRn n) as HN. unfold set_default. rewrite get_rule.
    cbn [safe_default] in SD.
    destruct (get_parameter d n) as [p|] eqn:G; destruct (s_get m n) as [e|] eqn:GS; try contradiction.
    + destruct HN as (A & B & C & D). rewrite A. destruct (cur e) as [[|c s]|] eqn:EC.
      * exfalso; apply SD; reflexivity.
      * cbn. auto.
      * cbn. split; [|reflexivity]. rewrite upd_rule. eapply R_upd; eauto.
        unfold Rentry, cache_ok in *; cbn. rewrite EC in D.
        destruct (double_flg p); [contradiction|auto].
    + rewrite add_parameter_rule. destruct (add_parameter_spec d n t W G) as (p & -> & HL & HE).
      cbn. split; [|reflexivity]. apply R_app; assumption.
  - (* Pfree *) split; [|reflexivity]. apply R_free. exact HR.
  - (* Pgets *)
    pose proof (HRn n) as HN. unfold get_S, s_read.
    destruct (get_parameter d n) as [p|] eqn:G; destruct (s_get m n) as [e|] eqn:GS; try contradiction.
    + destruct HN as (A & _). cbn. split; [exact HR|]. congruence.
    + rewrite HC. unfold miss. destruct d; destruct f; cbn; auto.
  - (* Pgeti *)
    pose proof (HRn n) as HN. unfold get_I, s_read.
    destruct (get_parameter d n) as [p|] eqn:G; destruct (s_get m n) as [e|] eqn:GS; try contradiction.
    + destruct HN as (A & _). rewrite A. destruct (cur e) as [s|]; [|exact I].
      destruct (atoi s); cbn; auto.
    + rewrite HC. unfold miss. destruct d; destruct f; cbn; auto.
  - (* Pgetd *)
    pose proof (HRn n) as HN. unfold get_D, s_read.
    destruct (get_parameter d n) as [p|] eqn:G; destruct (s_get m n) as [e|] eqn:GS; try contradiction.
    + pose proof HN as (A & B & C & D). unfold cache_ok in D. unfold number_of.
      destruct (double_flg p) eqn:DF.
      * destruct (cur e) as [s|]; [|contradiction]. destruct (num e) as [x|]; cbn; split; auto; congruence.
      * rewrite D, A. destruct (cur e) as [s|] eqn:EC; [|exact I]. cbn. split; [|reflexivity].
        eapply R_upd_same; eauto. unfold Rentry, cache_ok; cbn. rewrite D, EC. auto.
    + rewrite HC. unfold miss. destruct d; destruct f; cbn; auto.
  - (* Pgeta *)
    pose proof (HRn n) as HN. unfold get_A, s_read.
    destruct (get_parameter d n) as [p|] eqn:G; destruct (s_get m n) as [e|] eqn:GS; try contradiction.
    + destruct HN as (_ & B & _). cbn. split; [exact HR|]. congruence.
    + rewrite HC. unfold miss. destruct d; destruct f; cbn; auto.
  - (* Pupdate_ip *)
    destruct (R_update_ip d m k HR) as (d' & -> & HR'). cbn. split; [|reflexivity]. exact HR'.
Qed.

Lemma R_init : R None s_init.
Proof. split; [split; constructor|]. split; [reflexivity|]. intros n. exact I. Qed.

Definition outs {A} (x : outcome (A * list out)) : outcome (list out) := do r <- x; Ok (snd r).

Lemma run_agree h : forall d m, R d m -> Forall wf_sop h -> no_default_on_empty strtod fmt20 m h ->
  outs (run strtod fmt20 d (map call h)) = outs (s_run strtod fmt20 m h) /\ match run strtod fmt20 d (map call h), s_run strtod fmt20 m h with
  | Ok (d', _), Ok (m', _) => R d' m'
  | Abort, Abort | UB, UB => True
  | _, _ => False
  end.
Proof.
  induction h as [|o h IH]; intros d m HR W ND; cbn [map run s_run].
  - split; [reflexivity|exact HR].
  - inversion W as [|x y Wo W']; subst. cbn [no_default_on_empty] in ND. destruct ND as [ND1 ND2].
    pose proof (step_agree d m o HR Wo ND1) as A.
    destruct (step strtod fmt20 d (call o)) as [[d1 o1]| |] eqn:E1;
      destruct (s_step strtod fmt20 m o) as [[m1 o2]| |] eqn:E2; try contradiction; cbn [obind fst snd].
    2: split; [reflexivity|exact I]. 2: split; [reflexivity|exact I].
    destruct A as [HR1 ->]. destruct (IH d1 m1 HR1 W' ND2) as [K1 K2].
    destruct (run strtod fmt20 d1 (map call h)) as [[d2 os]| |];
      destruct (s_run strtod fmt20 m1 h) as [[m2 os']| |]; try contradiction; cbn in *; auto.
    split; [congruence|exact K2].
Qed.
End Refine.
