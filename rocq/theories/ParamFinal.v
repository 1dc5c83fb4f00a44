(** ParamFinal.v - remaining lemmas for the parameter properties: uniqueness of names in every
    reachable database, frames at the level of histories, number of iterations. *)
From Coq Require Import Permutation.
From Verif Require Import Base ParamModel ParamSpec ParamText ParamExpand ParamProofs ParamIterModel ParamIterProofs.

Section Final.
Variable strtod : str -> dbl.
Variable fmt20 : dbl -> str.

(** ** every operation keeps names unique and canonical (arbitrary texts) *)
Lemma Inv_upd d n f : (forall p, lv (f p) = lv p) -> Inv d -> Inv (upd_par d n f).
Proof.
  intros HF [ND CA]. destruct d as [l|]; [|split; assumption]. unfold Inv. cbn [upd_par pars] in *. split.
  - rewrite names_upd_first by exact HF. exact ND.
  - unfold canon in *. induction CA as [|q l Hq CA IH]; cbn [upd_first]; [constructor|].
    inversion ND; subst.
    destruct (str_eqb (lv q) (par_rule1 n)); constructor; auto. rewrite HF. exact Hq.
Qed.
Lemma Inv_append d n p : get_parameter d n = None -> lv p = par_rule1 n -> Inv d -> Inv (append_par d p).
Proof.
  intros HG HL [ND CA]. unfold append_par, Inv. cbn [pars]. split.
  - unfold names. rewrite map_app. cbn [map].
    apply (Permutation_NoDup (l := lv p :: map lv (pars d))).
    + apply Permutation_cons_append.
    + constructor; [|exact ND]. rewrite HL. apply find_par_none. rewrite <- get_parameter_pars. exact HG.
  - apply Forall_app. split; [exact CA|]. constructor; [|constructor]. rewrite HL. apply rule_idem.
Qed.
Lemma Inv_add d n v d' : add_parameter d n v = Ok d' -> Inv d -> Inv d'.
Proof.
  intros H. apply add_parameter_inv in H. destruct H as (G & p & -> & HL). apply (Inv_append _ n); assumption.
Qed.
Lemma Inv_free d n : Inv d -> Inv (free_parameter d n).
Proof.
  intros [ND CA]. destruct d as [l|]; [|split; assumption]. cbn [free_parameter pars] in *.
  pose proof (free_par_perm l (par_rule1 n) ND) as P. unfold Inv. cbn [pars]. split.
  - eapply Permutation_NoDup; [apply Permutation_map; apply Permutation_sym; exact P|].
    apply NoDup_names_filter. exact ND.
  - unfold canon in *. eapply Permutation_Forall; [apply Permutation_sym; exact P|].
    apply Forall_forall. intros q Hq. apply filter_In in Hq. destruct Hq as [Hq _].
    rewrite Forall_forall in CA. auto.
Qed.
Lemma Inv_update_ip d k d' : update_iterative strtod d k = Ok d' -> Inv d -> Inv d'.
Proof.
  destruct d as [l|]; cbn [update_iterative]; [|intros H; inversion H; subst; auto].
  destruct (omap (update_iter_one strtod k) l) as [l'| |] eqn:E; try discriminate. cbn [obind].
  intros H; inversion H; subst. clear H. intros [ND CA]. cbn [pars] in *.
  assert (EN : names l' = names l).
  { clear ND CA. revert l' E. induction l as [|p l IH]; intros l' E; cbn [omap] in E.
    - inversion E; reflexivity.
    - destruct (update_iter_one strtod k p) as [p'| |] eqn:U; try discriminate. cbn [obind] in E.
      destruct (omap (update_iter_one strtod k) l) as [l''| |]; try discriminate. cbn [obind] in E.
      inversion E; subst. unfold names in *. cbn [map]. rewrite (IH _ eq_refl).
      rewrite (proj1 (update_iter_one_inv _ _ _ _ U)). reflexivity. }
  unfold Inv. cbn [pars]. split; [rewrite EN; exact ND|].
  unfold canon in *. rewrite Forall_forall in *. intros p Hp.
  assert (I : In (lv p) (names l)) by (rewrite <- EN; apply in_map; exact Hp).
  apply in_map_iff in I. destruct I as (q & <- & Hq). apply CA. exact Hq.
Qed.
Lemma Inv_step d o d' x : step strtod fmt20 d o = Ok (d', x) -> Inv d -> Inv d'.
Proof.
  assert (W : forall (y : outcome db), (do e <- y; Ok (e, ONone)) = Ok (d', x) -> y = Ok d').
  { intros [e| |] H; cbn in H; try discriminate. inversion H; reflexivity. }
  destruct o as [n t|n z|n r|n t|n r|n a|n a|n t|n|n f|n f|n f|n f|k]; cbn [step]; intros H HI.
  - apply W in H. unfold update_string in H. rewrite get_rule, add_parameter_rule, upd_rule in H.
    destruct (get_parameter d n); [inversion H; subst; apply Inv_upd; auto|eapply Inv_add; eauto].
  - apply W in H. unfold update_integer in H. rewrite get_rule, add_parameter_rule, upd_rule in H.
    destruct (get_parameter d n); [inversion H; subst; apply Inv_upd; auto|eapply Inv_add; eauto].
  - apply W in H. unfold update_double, add_double in H. rewrite rule_idem, !get_rule, upd_rule in H.
    destruct (get_parameter d n) eqn:G; inversion H; subst; [apply Inv_upd; auto|].
    apply (Inv_append _ n); auto.
  - apply W in H. eapply Inv_add; eauto.
  - apply W in H. unfold add_double in H. rewrite !get_rule in H.
    destruct (get_parameter d n) eqn:G; inversion H; subst. apply (Inv_append _ n); auto.
  - apply W in H. unfold add_array in H. rewrite !get_rule in H.
    destruct (get_parameter d n) eqn:G; inversion H; subst. apply (Inv_append _ n); auto.
  - apply W in H. unfold update_array in H. rewrite !get_rule, upd_rule in H.
    destruct (get_parameter d n) as [p|] eqn:G.
    + destruct (iterative p); inversion H; subst. apply Inv_upd; auto.
    + inversion H; subst. apply (Inv_append _ n); auto.
  - apply W in H. unfold set_default in H. rewrite get_rule, add_parameter_rule, upd_rule in H.
    destruct (get_parameter d n) as [p|] eqn:G; [|eapply Inv_add; eauto].
    destruct (rv p) as [[|c s]|]; inversion H; subst; auto; apply Inv_upd; auto.
  - inversion H; subst. apply Inv_free. exact HI.
  - destruct (get_S d n f); cbn in H; inversion H; subst; exact HI.
  - destruct (get_I d n f); cbn in H; inversion H; subst; exact HI.
  - unfold get_D in H. destruct (get_parameter d n) as [p|] eqn:G.
    + destruct (double_flg p); cbn in H; [inversion H; subst; exact HI|].
      destruct (rv p); cbn in H; inversion H; subst. apply Inv_upd; auto.
    + destruct (miss d f DBL_MAX); cbn in H; inversion H; subst; exact HI.
  - destruct (get_A d n f); cbn in H; inversion H; subst; exact HI.
  - apply W in H. eapply Inv_update_ip; eauto.
Qed.
Lemma Inv_run h : forall d d' x, run strtod fmt20 d h = Ok (d', x) -> Inv d -> Inv d'.
Proof.
  induction h as [|o h IH]; intros d d' x H HI; cbn [run] in H.
  - inversion H; subst; exact HI.
  - destruct (step strtod fmt20 d o) as [[d1 o1]| |] eqn:E; try discriminate. cbn [obind fst] in H.
    destruct (run strtod fmt20 d1 h) as [[d2 os]| |] eqn:E2; try discriminate. cbn [obind] in H.
    inversion H; subst. eapply IH; [exact E2|]. eapply Inv_step; eauto.
Qed.
Lemma Inv_None : Inv None. Proof. split; constructor. Qed.

(** names differing only in case are equal entries: at most one entry per lower-case name *)
Lemma unique_lower h d x p q : run strtod fmt20 None h = Ok (d, x) ->
  In p (pars d) -> In q (pars d) -> lower (lv p) = lower (lv q) -> p = q.
Proof.
  intros H Ip Iq E. pose proof (Inv_run _ _ _ _ H Inv_None) as [ND CA].
  apply rule_eq_iff in E. unfold canon in CA. rewrite Forall_forall in CA.
  rewrite (CA _ Ip), (CA _ Iq) in E.
  pose proof (find_par_in _ _ ND Ip) as F1. pose proof (find_par_in _ _ ND Iq) as F2.
  rewrite E in F1. congruence.
Qed.

(** ** C03 *)
Lemma added_then_add_aborts d n n' : lower n = lower n' -> (exists p, get_parameter d n = Some p) ->
  (forall v, add_parameter d n' v = Abort) /\ (forall y, add_double fmt20 d n' y = Abort) /\
  (forall a, add_array d n' a = Abort).
Proof.
  intros E (p & G). apply rule_eq_iff in E.
  assert (G' : get_parameter d n' = Some p) by (rewrite get_parameter_pars, <- E, <- get_parameter_pars; exact G).
  repeat split; intros.
  - eapply add_parameter_dup; exact G'.
  - unfold add_double. rewrite get_rule, G'. reflexivity.
  - unfold add_array. rewrite get_rule, G'. reflexivity.
Qed.
Lemma set_absent_creates_one d n v d' : get_parameter d n = None -> update_string d n v = Ok d' ->
  exists p, pars d' = pars d ++ [p] /\ lv p = par_rule1 n.
Proof.
  intros G H. unfold update_string in H. rewrite get_rule, add_parameter_rule, G in H.
  apply add_parameter_inv in H. destruct H as (_ & p & -> & HL). exists p. split; [reflexivity|exact HL].
Qed.
Lemma set_present_creates_none d n v d' p : get_parameter d n = Some p -> update_string d n v = Ok d' ->
  map lv (pars d') = map lv (pars d).
Proof.
  intros G H. unfold update_string in H. rewrite get_rule, upd_rule, G in H. inversion H; subst.
  destruct d as [l|]; [|discriminate]. cbn [upd_par pars]. apply (names_upd_first l). reflexivity.
Qed.

(** ** histories that do not write a name *)
Definition writes (n : str) (o : sop) : bool :=
  match o with
  | Ssets k _ | Sseti k _ | Ssetd k _ | Sadds k _ | Saddd k _ | Sadda k _ | Sseta k _ | Sdefault k _ | Sfree k
    => str_eqb (lower k) (lower n)
  | Supdate_ip _ => true
  | _ => false
  end.
Lemma s_put_other m k n e : lower k <> lower n -> s_get (s_put m k e) n = s_get m n.
Proof. intros H. unfold s_get, s_put. cbn [ent]. destruct (str_eqb_spec (lower n) (lower k)); [congruence|reflexivity]. Qed.
Lemma s_step_other m o m' x n : s_step strtod fmt20 m o = Ok (m', x) -> writes n o = false ->
  s_get m' n = s_get m n.
Proof.
  destruct o as [k t|k z|k r|k t|k r|k a|k a|k t|k|k f|k f|k f|k f|k]; cbn [s_step writes]; intros H W;
    try (apply str_eqb_neq in W).
  - inversion H; subst. apply s_put_other; exact W.
  - inversion H; subst. apply s_put_other; exact W.
  - inversion H; subst. apply s_put_other; exact W.
  - destruct (s_get m k); inversion H; subst. apply s_put_other; exact W.
  - destruct (s_get m k); inversion H; subst. apply s_put_other; exact W.
  - destruct (s_get m k); inversion H; subst. apply s_put_other; exact W.
  - destruct (s_get m k) as [e|]; [destruct (vals e)|]; inversion H; subst; apply s_put_other; exact W.
  - destruct (s_get m k) as [e|]; [destruct (cur e) as [[|c s]|]|]; inversion H; subst; try reflexivity; apply s_put_other; exact W.
  - inversion H; subst. unfold s_get, s_del. cbn [ent]. destruct (str_eqb_spec (lower n) (lower k)); [congruence|reflexivity].
  - destruct (s_read m k f None (fun e => Ok (cur e))); cbn in H; inversion H; subst; reflexivity.
  - destruct (s_read m k f INT_MAX _); cbn in H; inversion H; subst; reflexivity.
  - destruct (s_read m k f DBL_MAX _); cbn in H; inversion H; subst; reflexivity.
  - destruct (s_read m k f None _); cbn in H; inversion H; subst; reflexivity.
  - discriminate.
Qed.
Lemma s_run_other h : forall m m' x n, s_run strtod fmt20 m h = Ok (m', x) -> Forall (fun o => writes n o = false) h ->
  s_get m' n = s_get m n.
Proof.
  induction h as [|o h IH]; intros m m' x n H F; cbn [s_run] in H.
  - inversion H; reflexivity.
  - inversion F; subst. destruct (s_step strtod fmt20 m o) as [[m1 o1]| |] eqn:E; try discriminate. cbn [obind fst] in H.
    destruct (s_run strtod fmt20 m1 h) as [[m2 os]| |] eqn:E2; try discriminate. cbn [obind] in H. inversion H; subst.
    rewrite (IH _ _ _ _ E2) by assumption. eapply s_step_other; eauto.
Qed.
Lemma s_run_app h1 h2 m : s_run strtod fmt20 m (h1 ++ h2) =
  do r <- s_run strtod fmt20 m h1; do r2 <- s_run strtod fmt20 (fst r) h2; Ok (fst r2, snd r ++ snd r2).
Proof.
  revert m. induction h1 as [|o h1 IH]; intros m; cbn [app s_run].
  - cbn [obind fst snd app]. destruct (s_run strtod fmt20 m h2) as [[? ?]| |]; reflexivity.
  - destruct (s_step strtod fmt20 m o) as [[m1 o1]| |]; cbn [obind fst snd]; try reflexivity.
    rewrite IH. destruct (s_run strtod fmt20 m1 h1) as [[m2 os]| |]; cbn [obind fst snd]; try reflexivity.
    destruct (s_run strtod fmt20 m2 h2) as [[m3 os3]| |]; reflexivity.
Qed.
Lemma s_put_get m n e n' : lower n = lower n' -> s_get (s_put m n e) n' = Some e.
Proof. intros E. unfold s_get, s_put. cbn [ent]. rewrite E, str_eqb_refl. reflexivity. Qed.

Lemma int_round_trip h1 n z h2 n' d os :
  let h := h1 ++ Sseti n z :: h2 ++ [Sgeti n' true] in
  Forall wf_sop h -> no_default_on_empty strtod fmt20 s_init h -> int_range z = true ->
  lower n = lower n' -> Forall (fun o => writes n o = false) h2 ->
  run strtod fmt20 None (map call h) = Ok (d, os) ->
  last os ONone = OInt z.
Proof.
  intros h W ND RZ E F H. destruct (run_agree strtod fmt20 h None s_init (R_init strtod) W ND) as [A _].
  rewrite H in A. cbn [outs obind snd] in A. unfold h in A. rewrite s_run_app in A.
  destruct (s_run strtod fmt20 s_init h1) as [[m1 os1]| |]; try discriminate.
  cbn [obind fst snd] in A. cbn [s_run s_step obind fst snd] in A.
  rewrite s_run_app in A.
  match type of A with context [s_run _ _ ?mm h2] => set (m2 := mm) in * end.
  destruct (s_run strtod fmt20 m2 h2) as [[m3 os3]| |] eqn:E3; try discriminate.
  cbn [obind fst snd s_run s_step] in A.
  assert (G : exists e, s_get m3 n' = Some e /\ cur e = Some (dec_Z z)).
  { assert (s_get m3 n' = s_get m3 n) as -> by (unfold s_get; congruence).
    rewrite (s_run_other _ _ _ _ _ E3 F). unfold m2. rewrite s_put_get by reflexivity.
    destruct (s_get m1 n) as [e|]; eexists; split; try reflexivity. }
  destruct G as (e & G & C). unfold s_read in A. rewrite G, C, (atoi_dec_Z z RZ) in A.
  cbn [obind fst snd outs] in A. inversion A; subst.
  change (os1 ++ ONone :: os3 ++ [OInt z]) with (os1 ++ (ONone :: os3) ++ [OInt z]).
  rewrite app_assoc. apply last_last.
Qed.

(** ** keys of the map are lower-case *)
Definition low_keys (m : smap) : Prop := forall k e, ent m k = Some e -> lower k = k.
Lemma lower_idem s : lower (lower s) = lower s.
Proof. unfold lower. rewrite map_map. apply map_ext. apply tolower_idem. Qed.
Lemma low_put m n e : low_keys m -> low_keys (s_put m n e).
Proof.
  intros H k e'. unfold s_put. cbn [ent]. destruct (str_eqb_spec k (lower n)) as [->|NE]; [intros _; apply lower_idem|apply H].
Qed.
Lemma low_step m o m' x : s_step strtod fmt20 m o = Ok (m', x) -> low_keys m -> low_keys m'.
Proof.
  destruct o as [k t|k z|k r|k t|k r|k a|k a|k t|k|k f|k f|k f|k f|k]; cbn [s_step]; intros H L.
  - inversion H; subst. apply low_put; exact L.
  - inversion H; subst. apply low_put; exact L.
  - inversion H; subst. apply low_put; exact L.
  - destruct (s_get m k); inversion H; subst. apply low_put; exact L.
  - destruct (s_get m k); inversion H; subst. apply low_put; exact L.
  - destruct (s_get m k); inversion H; subst. apply low_put; exact L.
  - destruct (s_get m k) as [e|]; [destruct (vals e)|]; inversion H; subst; apply low_put; exact L.
  - destruct (s_get m k) as [e|]; [destruct (cur e) as [[|c s]|]|]; inversion H; subst; try exact L; apply low_put; exact L.
  - inversion H; subst. intros q e. unfold s_del. cbn [ent]. destruct (str_eqb q (lower k)); [discriminate|apply L].
  - destruct (s_read m k f None (fun e => Ok (cur e))); cbn in H; inversion H; subst; exact L.
  - destruct (s_read m k f INT_MAX _); cbn in H; inversion H; subst; exact L.
  - destruct (s_read m k f DBL_MAX _); cbn in H; inversion H; subst; exact L.
  - destruct (s_read m k f None _); cbn in H; inversion H; subst; exact L.
  - inversion H; subst. intros q e. cbn [ent]. destruct (ent m q) eqn:E; [intros _; eapply L; eauto|discriminate].
Qed.
Lemma low_run h : forall m m' x, s_run strtod fmt20 m h = Ok (m', x) -> low_keys m -> low_keys m'.
Proof.
  induction h as [|o h IH]; intros m m' x H L; cbn [s_run] in H; [inversion H; subst; exact L|].
  destruct (s_step strtod fmt20 m o) as [[m1 o1]| |] eqn:E; try discriminate. cbn [obind fst] in H.
  destruct (s_run strtod fmt20 m1 h) as [[m2 os]| |] eqn:E2; try discriminate. cbn [obind] in H. inversion H; subst.
  eapply IH; [exact E2|]. eapply low_step; eauto.
Qed.

(** ** C11 on reachable databases *)
(** T is the largest number of values of an iterative parameter, 1 if there is none *)
Definition is_max_values (m : smap) (T : nat) : Prop :=
  1 <= T /\
  (forall k e, ent m k = Some e -> List.length (vals e) <= T) /\
  (T = 1 \/ exists k e, ent m k = Some e /\ List.length (vals e) = T).

Lemma total_reachable h d os m os' :
  Forall wf_sop h -> no_default_on_empty strtod fmt20 s_init h ->
  run strtod fmt20 None (map call h) = Ok (d, os) -> s_run strtod fmt20 s_init h = Ok (m, os') ->
  s_get m (S_ "total_iterations_ip") = None ->
  exists T d', total_iterations d = Ok (Z.of_nat T, d') /\ is_max_values m T /\
    ((Z.of_nat T < INT_MAX)%Z -> exists d'', total_iterations d' = Ok (Z.of_nat T, d'')).
Proof.
  intros W ND H HS G. destruct (run_agree strtod fmt20 h None s_init (R_init strtod) W ND) as [_ A].
  rewrite H, HS in A. destruct A as ([NDn CA] & HC & HR).
  assert (LK : low_keys m) by (eapply low_run; [exact HS|]; intros k e K; discriminate).
  assert (HP : forall p, In p (pars d) -> exists e, ent m (lower (lv p)) = Some e /\ Rentry strtod p e).
  { intros p Hp. specialize (HR (lv p)). rewrite get_parameter_pars in HR.
    unfold canon in CA. rewrite Forall_forall in CA. rewrite (CA p Hp), (find_par_in _ p NDn Hp) in HR.
    unfold s_get, Ropt in HR. destruct (ent m (lower (lv p))) as [e|]; [|contradiction]. eauto. }
  assert (F : Forall ip_ok (pars d)).
  { apply Forall_forall. intros p Hp IT. destruct (HP p Hp) as (e & _ & (_ & _ & C & _)). rewrite IT in C.
    destruct C as (C1 & C2 & C3). exists (vals e). auto. }
  destruct (max_ip_spec (pars d) 0 F) as (t & E1 & _ & E3 & E4).
  unfold total_iterations, get_I.
  pose proof (HR (S_ "total_iterations_ip")) as HT. rewrite G in HT.
  change (S_ "total_iterations_ip") with total_name in HT. unfold Ropt in HT.
  destruct (get_parameter d total_name) eqn:GT; [contradiction|].
  assert (M : miss d false INT_MAX = Ok INT_MAX) by (destruct d; reflexivity).
  rewrite M. cbn [obind]. change (to_uint INT_MAX =? INT_MAX)%Z with true. cbv iota.
  rewrite E1. cbn [obind].
  destruct (update_integer_ok d total_name (Z.of_nat t + 1)) as (d' & E & _). rewrite E. cbn [obind].
  exists (S t), d'. split; [repeat f_equal; lia|]. split.
  - split; [lia|]. split.
    + intros k e K. pose proof (LK k e K) as LKk. specialize (HR k). unfold s_get in HR. rewrite LKk, K in HR.
      unfold Ropt in HR. destruct (get_parameter d k) as [p|] eqn:GP; [|contradiction].
      rewrite get_parameter_pars in GP. apply find_par_some in GP. destruct GP as [IP _].
      destruct HR as (_ & _ & C & _). destruct (iterative p) eqn:IT; [|rewrite C; cbn; lia].
      destruct C as (C1 & C2 & C3). apply (E3 p); [exact IP|]. split; [exact IT|]. exists (vals e). auto.
    + destruct E4 as [->|(p & IP & (IT & vs & V1 & V2 & V3 & V4))]; [left; reflexivity|right].
      destruct (HP p IP) as (e & K & (_ & _ & C & _)). rewrite IT in C. destruct C as (C1 & C2 & C3).
      exists (lower (lv p)), e. split; [exact K|]. rewrite V1 in C1. inversion C1 as [EJ].
      assert (vs = vals e) as <-. { apply join_inj; auto; intros Z; rewrite Z in *; cbn in *; lia. }
      symmetry; exact V4.
  - intros LT. exists d'. unfold get_I.
    assert (RG : int_range (Z.of_nat t + 1) = true).
    { unfold int_range, INT_MIN. unfold INT_MAX in *. apply andb_true_iff; split; apply Z.leb_le; lia. }
    pose proof (update_integer_get _ _ _ _ RG E false) as GI. unfold get_I in GI.
    destruct (get_parameter d' total_name) as [p|].
    + destruct (rv p); [|discriminate]. rewrite GI. cbn [obind].
      rewrite to_uint_id by (unfold INT_MAX in *; lia).
      destruct (Z.eqb_spec (Z.of_nat t + 1) INT_MAX); [lia|]. repeat f_equal; lia.
    + rewrite GI. cbn [obind]. rewrite to_uint_id by (unfold INT_MAX in *; lia).
      destruct (Z.eqb_spec (Z.of_nat t + 1) INT_MAX); [lia|]. repeat f_equal; lia.
Qed.
(** a total set by the user is used as it is *)
Lemma total_user d z p : get_parameter d total_name = Some p -> rv p = Some (dec_Z z) -> (0 <= z < INT_MAX)%Z ->
  total_iterations d = Ok (z, d).
Proof.
  intros G RV RZ. unfold total_iterations, get_I. rewrite G, RV, atoi_dec_Z.
  - cbn [obind]. rewrite to_uint_id by (unfold INT_MAX in *; lia).
    destruct (Z.eqb_spec z INT_MAX); [lia|]. reflexivity.
  - unfold int_range, INT_MIN. unfold INT_MAX in *. apply andb_true_iff; split; apply Z.leb_le; lia.
Qed.

(** ** C08 *)
Lemma single_mult_one d n v : get_parameter d n = None -> v <> [] -> no_char ">"%char v -> no_char "("%char v ->
  add_parameter d n (Some (v ++ S_ "(x1)")) = UB.
Proof.
  intros G V1 V2 V3.
  unfold add_parameter. rewrite get_rule, G.
  assert (NB : str_eqb (v ++ S_ "(x1)") [] || str_eqb (v ++ S_ "(x1)") [SP] = false).
  { apply orb_false_iff. split; apply str_eqb_neq; intros E; apply (f_equal (@List.length ascii)) in E;
      rewrite app_length in E; change (List.length (S_ "(x1)")) with 4 in E;
      cbn [List.length] in E; lia. }
  rewrite NB.
  assert (RS : regex_search_mult (v ++ S_ "(x1)") = true).
  { apply regex_search_has_mult. exists v, (S_ "1"), []. repeat split; [discriminate|repeat constructor]. }
  rewrite RS.
  assert (PM : (do ip <- parse_multiplicity (v ++ S_ "(x1)");
     (let p := set_ip (Some ip) (new_par (par_rule1 n)) in
      do v0 <- get_n_value_str_ip p 0;
      match v0 with [] => Abort | _ :: _ => Ok (append_par d (set_rv (Some v0) p)) end)) = UB).
  { assert (EA : ends_with_arrow (v ++ S_ "(x1)") = false).
    { change (S_ "(x1)") with (S_ "(x1" ++ [")"%char]). rewrite app_assoc. apply ends_with_arrow_snoc. discriminate. }
    unfold parse_multiplicity. rewrite EA. cbn [expand_loop].
    change (S_ "(x1)") with (S_ "(x" ++ S_ "1" ++ S_ ")").
    replace (S_ "(x" ++ S_ "1" ++ S_ ")") with (S_ "(x" ++ S_ "1" ++ S_ ")" ++ []) by reflexivity.
    rewrite (regex_find_here v (S_ "1") [] V3 ltac:(discriminate) ltac:(repeat constructor)).
    pose proof (expand_once_spec [] v (S_ "1") [] (or_introl eq_refl) V2 (fun H => H) V3
                  ltac:(discriminate) ltac:(repeat constructor)) as EX.
    cbn [app] in EX. rewrite EX.
    change (atoi (S_ "1")) with (Ok 1%Z). cbn [obind]. change (1 =? 0)%Z with false. cbv iota.
    destruct (Z.leb _ _); [|reflexivity]. cbn [obind]. change (Z.to_nat (1 - 1)) with 0. cbn [copies].
    rewrite app_nil_r.
    assert (EV : forall k, expand_loop k v = Ok v).
    { intros k. destruct k; cbn [expand_loop]; rewrite regex_find_none_nochar by assumption; reflexivity. }
    rewrite (app_nil_r v), EV. cbn [obind]. unfold get_n_value_str_ip. cbn [iterative set_ip rv_ip].
    unfold get_n_value_str. rewrite strstr_arrow_none by assumption. reflexivity. }
  destruct (strstr (v ++ S_ "(x1)") arrow) as [[? ?]|]; exact PM.
Qed.
(** ** C05, the stale read *)
Lemma stale_default : strtod [] <> strtod (S_ "5") ->
  exists h d os, run strtod fmt20 None h = Ok (d, os) /\
    h = [Psets (S_ "p") (Some (S_ "1")); Psets (S_ "p") (Some []); Pgetd (S_ "p") true;
         Pdefault (S_ "p") (Some (S_ "5")); Pgets (S_ "p") true; Pgetd (S_ "p") true] /\
    os = [ONone; ONone; ODbl (strtod []); ONone; OStr (Some (S_ "5")); ODbl (strtod [])] /\
    ODbl (strtod []) <> ODbl (strtod (S_ "5")).
Proof.
  intros H. eexists. eexists. eexists. split; [|split; [reflexivity|split; [reflexivity|]]].
  - vm_compute. reflexivity.
  - intros E. inversion E. contradiction.
Qed.
(** ** C06 *)
Lemma free_reachable h d os n : run strtod fmt20 None h = Ok (d, os) ->
  Permutation (pars (free_parameter d n)) (filter (fun q => negb (str_eqb (lv q) (par_rule1 n))) (pars d)).
Proof.
  intros H. pose proof (Inv_run _ _ _ _ H Inv_None) as [ND _]. destruct d as [l|]; [|apply perm_nil].
  apply free_par_perm. exact ND.
Qed.
End Final.
Lemma free_absent d n : get_parameter d n = None -> free_parameter d n = d.
Proof.
  destruct d as [l|]; [|reflexivity]. cbn. unfold free_par_list. intros G. rewrite G. destruct l; reflexivity.
Qed.
