(** ParamIterProofs.v - number of iterations and the iteration counter. *)
From Verif Require Import Base ParamModel ParamSpec ParamText ParamExpand ParamProofs ParamIterModel.

(** ** frame lemmas: what an operation on one name leaves alone *)
Definition framed (W : list str) (d d' : db) : Prop :=
  forall k, (forall w, In w W -> lower k <> lower w) -> get_parameter d' k = get_parameter d k.
Lemma framed_refl W d : framed W d d. Proof. intros k _; reflexivity. Qed.
Lemma framed_trans W a b c : framed W a b -> framed W b c -> framed W a c.
Proof. intros H1 H2 k K. rewrite (H2 k K). apply H1. exact K. Qed.
Lemma framed_one W n d d' : In n W -> framed [n] d d' -> framed W d d'.
Proof. intros I H k K. apply H. intros w [<-|[]]. apply K. exact I. Qed.

Lemma get_append d p k : get_parameter (append_par d p) k =
  match get_parameter d k with Some q => Some q | None => if str_eqb (lv p) (par_rule1 k) then Some p else None end.
Proof. rewrite get_parameter_pars. unfold append_par. cbn [pars]. rewrite find_par_app, <- get_parameter_pars. reflexivity. Qed.
Lemma get_upd d n f k : (forall p, lv (f p) = lv p) ->
  get_parameter (upd_par d n f) k =
  if str_eqb (par_rule1 n) (par_rule1 k) then option_map f (get_parameter d n) else get_parameter d k.
Proof.
  intros HF. destruct d as [l|]; cbn [upd_par get_parameter].
  - apply find_upd_first. exact HF.
  - destruct (str_eqb _ _); reflexivity.
Qed.
Lemma rule_neq k n : lower k <> lower n -> str_eqb (par_rule1 n) (par_rule1 k) = false.
Proof. intros H. apply str_eqb_neq. intros E. apply H. symmetry. apply rule_eq_iff. exact E. Qed.
Lemma framed_upd d n f : (forall p, lv (f p) = lv p) -> framed [n] d (upd_par d n f).
Proof.
  intros HF k K. rewrite get_upd by exact HF. rewrite rule_neq; [reflexivity|]. apply K. left; reflexivity.
Qed.
Lemma framed_append d n p : lv p = par_rule1 n -> framed [n] d (append_par d p).
Proof.
  intros HL k K. rewrite get_append, HL. rewrite rule_neq; [|apply K; left; reflexivity].
  destruct (get_parameter d k); reflexivity.
Qed.
Lemma add_parameter_inv d n v d' : add_parameter d n v = Ok d' ->
  get_parameter d n = None /\ exists p, d' = append_par d p /\ lv p = par_rule1 n.
Proof.
  unfold add_parameter. rewrite get_rule. destruct (get_parameter d n); [discriminate|].
  intros H. split; [reflexivity|]. destruct v as [v|].
  - destruct (str_eqb v [] || str_eqb v [SP]).
    + inversion H; subst. eexists; split; reflexivity.
    + assert (G : forall b, (do ip <- (if b : bool then parse_multiplicity v else Ok v);
                  (let p := set_ip (Some ip) (new_par (par_rule1 n)) in
                   do v1 <- get_n_value_str_ip p 0;
                   match v1 with [] => Abort | _ :: _ => Ok (append_par d (set_rv (Some v1) p)) end)) = Ok d' ->
                  exists p, d' = append_par d p /\ lv p = par_rule1 n).
      { intros b K. destruct (if b then parse_multiplicity v else Ok v) as [ip| |]; try discriminate.
        cbn [obind] in K. destruct (get_n_value_str_ip (set_ip (Some ip) (new_par (par_rule1 n))) 0) as [[|c v1]| |];
          try discriminate. cbn [obind] in K. inversion K; subst. eexists; split; reflexivity. }
      destruct (strstr v arrow) as [[? ?]|], (regex_search_mult v).
      * apply (G true). exact H. * apply (G false). exact H. * apply (G true). exact H.
      * inversion H; subst. eexists; split; reflexivity.
  - inversion H; subst. eexists; split; reflexivity.
Qed.
Lemma framed_add d n v d' : add_parameter d n v = Ok d' -> framed [n] d d'.
Proof. intros H. apply add_parameter_inv in H. destruct H as (_ & p & -> & HL). apply framed_append. exact HL. Qed.
Lemma framed_update_string d n v d' : update_string d n v = Ok d' -> framed [n] d d'.
Proof.
  unfold update_string. rewrite get_rule, add_parameter_rule, upd_rule.
  destruct (get_parameter d n); [|apply framed_add].
  intros H; inversion H; subst. apply framed_upd. reflexivity.
Qed.
Lemma framed_update_integer d n z d' : update_integer d n z = Ok d' -> framed [n] d d'.
Proof.
  unfold update_integer. rewrite get_rule, add_parameter_rule, upd_rule.
  destruct (get_parameter d n); [|apply framed_add].
  intros H; inversion H; subst. apply framed_upd. reflexivity.
Qed.
Lemma framed_set_default d n v d' : set_default d n v = Ok d' -> framed [n] d d'.
Proof.
  unfold set_default. rewrite get_rule, add_parameter_rule, upd_rule.
  destruct (get_parameter d n) as [p|]; [|apply framed_add].
  destruct (rv p) as [[|c s]|]; intros H; inversion H; subst; try apply framed_refl; apply framed_upd; reflexivity.
Qed.
(** Pseti always succeeds and stores the number; an iterative parameter stays iterative *)
Lemma update_integer_ok d n z : exists d', update_integer d n z = Ok d' /\
  exists p, get_parameter d' n = Some p /\ rv p = Some (dec_Z z) /\
            iterative p = match get_parameter d n with Some q => iterative q | None => false end.
Proof.
  unfold update_integer. rewrite get_rule, add_parameter_rule, upd_rule.
  destruct (get_parameter d n) as [q|] eqn:G.
  - eexists. split; [reflexivity|]. rewrite get_upd by reflexivity. rewrite str_eqb_refl, G. cbn [option_map].
    eexists. split; [reflexivity|]. split; reflexivity.
  - destruct (add_parameter_spec (fun _ => 0%N) d n (TPlain (dec_Z z)) (dec_Z_plain z) G) as (p & E & HL & HE).
    cbn [raw] in E. exists (append_par d p). split; [exact E|]. exists p.
    rewrite get_append, G, HL, str_eqb_refl. destruct HE as (A & _ & C & _). split; [reflexivity|].
    split; [exact A|]. destruct (iterative p); [|reflexivity]. destruct C as (_ & C & _). cbn in C. lia.
Qed.
Lemma update_integer_get d n z d' : int_range z = true -> update_integer d n z = Ok d' ->
  forall f, get_I d' n f = Ok z.
Proof.
  intros R H f. destruct (update_integer_ok d n z) as (d1 & E & p & G & RV & _).
  rewrite H in E. inversion E; subst. unfold get_I. rewrite G, RV. apply atoi_dec_Z. exact R.
Qed.

(** C04: Pseti then Pgeti under any spelling *)
Lemma Pseti_Pgeti d n n' z : int_range z = true -> lower n = lower n' ->
  exists d', update_integer d n z = Ok d' /\ forall f, get_I d' n' f = Ok z.
Proof.
  intros R E. destruct (update_integer_ok d n z) as (d1 & E1 & _). exists d1. split; [exact E1|].
  intros f. rewrite <- (update_integer_get d n z d1 R E1 f). unfold get_I, miss.
  rewrite !get_parameter_pars. apply rule_eq_iff in E. rewrite E. reflexivity.
Qed.

(** ** total number of iterations *)
Definition ip_ok (p : param) : Prop :=
  iterative p = true -> exists vs, rv_ip p = Some (join arrow vs) /\ 2 <= List.length vs /\ vals_ok vs.
Lemma count_arrows_join f vs l :
  vs <> [] -> vals_ok vs -> List.length (join arrow vs) < f ->
  count_arrows f (arrow ++ join arrow vs) l = Ok (l + (List.length vs - 1)).
Proof.
  revert f l. induction vs as [|v vs IH]; intros f l NN OK HF; [congruence|].
  inversion OK as [|x y [V1 V2] OK']; subst. destruct f as [|f]; [lia|]. cbn [count_arrows].
  change (skipn 2 (arrow ++ join arrow (v :: vs))) with (join arrow (v :: vs)).
  destruct vs as [|w vs].
  - cbn [join List.length]. destruct v as [|c v]; [congruence|].
    rewrite strstr_arrow_none by assumption. f_equal. lia.
  - rewrite join_cons in *. destruct v as [|c v]; [congruence|].
    pose proof (strstr_arrow (c :: v) (join arrow (w :: vs)) V2) as SA.
    rewrite !app_length in HF.
    destruct ((c :: v) ++ arrow ++ join arrow (w :: vs)) eqn:EE; [discriminate|]. rewrite SA.
    rewrite IH; [|discriminate|assumption|].
    + f_equal. cbn [List.length]. lia.
    + cbn [List.length] in HF. lia.
Qed.
Lemma count_ip_join p vs : rv_ip p = Some (join arrow vs) -> 2 <= List.length vs -> vals_ok vs ->
  count_ip p = Ok (List.length vs - 1).
Proof.
  intros E L OK. unfold count_ip. rewrite E. destruct vs as [|v [|w vs]]; cbn [List.length] in L; try lia.
  inversion OK as [|x y [V1 V2] OK']; subst. rewrite join_cons, strstr_arrow by assumption.
  rewrite count_arrows_join; [|discriminate|assumption|].
  - f_equal. cbn [List.length]. lia.
  - rewrite !app_length. change (List.length arrow) with 2. lia.
Qed.
(** number of values of an iterative parameter, from its text *)
Definition n_values (p : param) (k : nat) : Prop :=
  iterative p = true /\ exists vs, rv_ip p = Some (join arrow vs) /\ 2 <= List.length vs /\ vals_ok vs /\ k = List.length vs.
Lemma join_inj vs ws : vals_ok vs -> vals_ok ws -> vs <> [] -> ws <> [] -> join arrow vs = join arrow ws -> vs = ws.
Proof.
  revert ws. induction vs as [|v vs IH]; intros ws Ov Ow Nv Nw E; [congruence|].
  destruct ws as [|w ws]; [congruence|]. inversion Ov as [|? ? [V1 V2] Ov']; inversion Ow as [|? ? [W1 W2] Ow']; subst.
  destruct vs as [|v' vs], ws as [|w' ws].
  - cbn in E. congruence.
  - exfalso. rewrite join_cons in E. cbn [join] in E. subst v. apply V2. apply in_or_app. right. right. left. reflexivity.
  - exfalso. rewrite join_cons in E. cbn [join] in E. subst w. apply W2. apply in_or_app. right. right. left. reflexivity.
  - rewrite !join_cons in E.
    pose proof (strstr_arrow v (join arrow (v' :: vs)) V2) as S1.
    pose proof (strstr_arrow w (join arrow (w' :: ws)) W2) as S2.
    rewrite E in S1. rewrite S1 in S2. inversion S2; subst.
    f_equal. apply IH; auto; try discriminate.
Qed.
Lemma max_ip_spec l m : Forall ip_ok l ->
  exists t, max_ip l m = Ok t /\ m <= t /\
    (forall p k, In p l -> n_values p k -> k <= S t) /\
    (t = m \/ exists p, In p l /\ n_values p (S t)).
Proof.
  revert m. induction l as [|p l IH]; intros m F; cbn [max_ip].
  - exists m. repeat split; auto. intros p k [].
  - inversion F as [|x y Hp F']; subst. destruct (iterative p) eqn:EI.
    + destruct (Hp EI) as (vs & E & L & OK). rewrite (count_ip_join p vs E L OK). cbn [obind].
      set (m' := if Nat.ltb m (List.length vs - 1) then List.length vs - 1 else m).
      destruct (IH m' F') as (t & E1 & E2 & E3 & E4). exists t. split; [exact E1|].
      assert (MM : m <= m' /\ List.length vs - 1 <= m').
      { unfold m'. destruct (Nat.ltb_spec m (List.length vs - 1)); lia. }
      split; [lia|]. split.
      * intros q k [<-|I] NV; [|eauto]. destruct NV as (_ & ws & Ew & Lw & Ow & ->).
        rewrite E in Ew. inversion Ew as [EJ].
        assert (vs = ws) as <-.
        { apply join_inj; auto; intros ->; cbn in *; lia. }
        lia.
      * destruct E4 as [->|(q & I & NV)].
        -- unfold m'. destruct (Nat.ltb_spec m (List.length vs - 1)).
           ++ right. exists p. split; [left; reflexivity|]. split; [exact EI|]. exists vs.
              repeat split; auto. lia.
           ++ left. reflexivity.
        -- right. exists q. split; [right; exact I|exact NV].
    + destruct (IH m F') as (t & E1 & E2 & E3 & E4). exists t. split; [exact E1|]. split; [exact E2|].
      split.
      * intros q k [<-|I] NV; [|eauto]. destruct NV as (K & _). congruence.
      * destruct E4 as [->|(q & I & NV)]; [left; reflexivity|right]. exists q. split; [right; exact I|exact NV].
Qed.

(** ** update_iterative keeps the others *)
Lemma update_iter_one_inv strtod n p p' : update_iter_one strtod n p = Ok p' ->
  lv p' = lv p /\ iterative p' = iterative p /\ rv_ip p' = rv_ip p /\ rv_array p' = rv_array p /\
  (iterative p = false -> p' = p) /\
  (iterative p = true -> exists v, get_n_value_str_ip p n = Ok v /\ rv p' = Some v).
Proof.
  unfold update_iter_one. destruct (iterative p) eqn:EI.
  - destruct (get_n_value_str_ip p n) as [v| |]; try discriminate. cbn [obind].
    intros H; inversion H; subst. destruct (double_flg p); cbn; rewrite ?EI; repeat split; auto; try discriminate; eauto.
  - intros H; inversion H; subst. repeat split; auto. discriminate.
Qed.
Lemma update_iterative_get strtod d n d' k : update_iterative strtod d n = Ok d' ->
  match get_parameter d k, get_parameter d' k with
  | Some p, Some p' => update_iter_one strtod n p = Ok p'
  | None, None => True
  | _, _ => False
  end.
Proof.
  destruct d as [l|]; cbn [update_iterative].
  - destruct (omap (update_iter_one strtod n) l) as [l'| |] eqn:E; try discriminate.
    cbn [obind]. intros H; inversion H; subst. cbn [get_parameter]. clear H.
    generalize (par_rule1 k). intros nm. revert l' E. induction l as [|p l IH]; intros l' E; cbn [omap] in E.
    + inversion E; subst. exact I.
    + destruct (update_iter_one strtod n p) as [p'| |] eqn:U; try discriminate. cbn [obind] in E.
      destruct (omap (update_iter_one strtod n) l) as [l''| |]; try discriminate. cbn [obind] in E.
      inversion E; subst. unfold find_par. cbn [find].
      rewrite (proj1 (update_iter_one_inv _ _ _ _ U)).
      destruct (str_eqb (lv p) nm); [exact U|]. exact (IH _ eq_refl).
  - intros H; inversion H; subst. exact I.
Qed.

(** ** the iteration counter *)
Section Counter.
Variable strtod : str -> dbl.
Variable FS : Type.
Variable mkdir : FS -> str -> str -> outcome (str * FS).
Variable shell_cp : FS -> str -> FS.
Variable dirname : str -> Z -> Z -> Z -> str.
Notation update_it := (update_iteration_params strtod FS mkdir shell_cp dirname).

(** names written by one call *)
Definition own_names (prefix : str) : list str :=
  [prefix ++ S_ "iteration"; prefix ++ S_ "resolution_iteration"; prefix ++ S_ "STOP";
   prefix ++ S_ "my_directory"; prefix ++ S_ "Diagnostics"; prefix ++ S_ "did_resolution_change?";
   S_ "top_directory"; total_name].

Lemma lower_app a b : lower (a ++ b) = lower a ++ lower b.
Proof. apply map_app. Qed.
Lemma prefix_neq prefix a b : lower a <> lower b -> lower (prefix ++ a) <> lower (prefix ++ b).
Proof. intros H E. rewrite !lower_app in E. apply app_inv_head in E. contradiction. Qed.
Lemma last_neq a b (x y : ascii) s t : lower a = s ++ [x] -> lower b = t ++ [y] -> x <> y -> lower a <> lower b.
Proof.
  intros E1 E2 N E. rewrite E1, E2 in E. apply app_inj_tail in E. destruct E; congruence.
Qed.
Lemma it_neq_total prefix : lower (prefix ++ S_ "iteration") <> lower total_name.
Proof.
  eapply (last_neq _ _ "n"%char "p"%char (lower prefix ++ S_ "iteratio") (S_ "total_iterations_i")).
  - rewrite lower_app. rewrite <- app_assoc. reflexivity.
  - reflexivity.
  - discriminate.
Qed.
Lemma it_neq_top prefix : lower (prefix ++ S_ "iteration") <> lower (S_ "top_directory").
Proof.
  eapply (last_neq _ _ "n"%char "y"%char (lower prefix ++ S_ "iteratio") (S_ "top_director")).
  - rewrite lower_app. rewrite <- app_assoc. reflexivity.
  - reflexivity.
  - discriminate.
Qed.

Ltac dob H := match type of H with obind ?e _ = Ok _ => destruct e as [?a| |] eqn:?E; cbn [obind] in H; try discriminate H end.

Lemma framed_total d T d' : total_iterations d = Ok (T, d') -> framed [total_name] d d'.
Proof.
  unfold total_iterations. intros H. dob H. destruct (to_uint a =? INT_MAX)%Z.
  - dob H. dob H. inversion H; subst. eapply framed_update_integer. eassumption.
  - inversion H; subst. apply framed_refl.
Qed.
Lemma framed_ensure_top d fs stem d' fs' : ensure_top FS mkdir d fs stem = Ok (d', fs') -> framed [S_ "top_directory"] d d'.
Proof.
  unfold ensure_top. intros H. dob H. destruct a as [s|].
  - inversion H; subst. apply framed_refl.
  - dob H. dob H. dob H. dob H. dob H. inversion H; subst. eapply framed_set_default. eassumption.
Qed.
Lemma prefix_it_inv prefix n nm : prefix_it prefix n = Ok nm -> nm = prefix ++ n.
Proof. unfold prefix_it. destruct (Nat.ltb _ _); [|discriminate]. congruence. Qed.
Lemma framed_new_folder d fs prefix name parfile d' fs' :
  new_folder FS mkdir shell_cp d fs prefix name parfile = Ok (d', fs') ->
  framed [prefix ++ S_ "resolution_iteration"; prefix ++ S_ "my_directory"; prefix ++ S_ "Diagnostics";
          prefix ++ S_ "did_resolution_change?"] d d'.
Proof.
  unfold new_folder. intros H. dob H. dob H. dob H. dob H. dob H. dob H. dob H. dob H. dob H. dob H.
  destruct (strchr (fst a3) "/"%char); [|discriminate]. dob H. dob H. dob H. inversion H; subst.
  apply prefix_it_inv in E, E4, E7, E10. subst.
  apply framed_update_integer in E0, E11. apply framed_update_string in E5, E8.
  eapply framed_trans; [eapply framed_one; [|exact E0]; cbn; auto|].
  eapply framed_trans; [eapply framed_one; [|exact E5]; cbn; auto|].
  eapply framed_trans; [eapply framed_one; [|exact E8]; cbn; auto|].
  eapply framed_one; [|exact E11]; cbn; auto.
Qed.

Definition counter (d : db) (prefix : str) (I : Z) : Prop :=
  exists p, get_parameter d (prefix ++ S_ "iteration") = Some p /\ iterative p = false /\ rv p = Some (dec_Z I).

Lemma to_uint_id z : (0 <= z <= INT_MAX)%Z -> to_uint z = z.
Proof. unfold to_uint, INT_MAX. intros H. apply Z.mod_small. lia. Qed.

Lemma counter_set d prefix I z d' : counter d prefix I -> set_int d (prefix ++ S_ "iteration") z = Ok d' -> counter d' prefix z.
Proof.
  intros (p & G & IT & RV) H. unfold set_int in H.
  destruct (update_integer_ok d (prefix ++ S_ "iteration") z) as (d1 & E & q & G1 & RV1 & IT1).
  rewrite H in E. inversion E; subst. exists q. rewrite G in IT1. repeat split; congruence.
Qed.
Lemma counter_framed W d d' prefix I :
  framed W d d' -> (forall w, In w W -> lower (prefix ++ S_ "iteration") <> lower w) ->
  counter d prefix I -> counter d' prefix I.
Proof. intros F N (p & G & H). exists p. rewrite (F _ N). auto. Qed.

Ltac neq_names := intros w HW; cbn [In] in HW;
   repeat (destruct HW as [<-|HW]); try contradiction;
   first [apply it_neq_total | apply it_neq_top | apply prefix_neq; vm_compute; discriminate].

(** one call: what it returns and what it leaves in the counter *)
Lemma update_it_step d fs j prefix I T d0 ret it d' fs' :
  counter d prefix I -> (0 <= I)%Z -> (0 <= j)%Z -> (Z.max I j < INT_MAX)%Z ->
  total_iterations d = Ok (T, d0) ->
  update_it d fs j prefix = Ok (ret, it, d', fs') ->
  let iter := Z.max I j in
  ((T <= iter)%Z /\ ret = 1%Z /\ it = None /\ get_I d' (prefix ++ S_ "STOP") true = Ok 1%Z /\ counter d' prefix iter)
  \/
  ((iter < T)%Z /\ ret = 0%Z /\ it = Some iter /\ counter d' prefix (if (j <? I)%Z then iter + 1 else iter)%Z /\
   (forall k p vs, get_parameter d k = Some p -> iterative p = true -> rv_ip p = Some (join arrow vs) ->
       2 <= List.length vs -> vals_ok vs ->
       (forall w, In w (own_names prefix) -> lower k <> lower w) ->
       get_S d' k true = Ok (nth_clamped vs (Z.to_nat iter)))).
Proof.
  intros HC HI Hj HM HT H iter. unfold update_iteration_params in H. rewrite HT in H. cbn [obind fst snd] in H.
  pose proof (framed_total _ _ _ HT) as FT.
  assert (HC0 : counter d0 prefix I) by (eapply counter_framed; [exact FT| |exact HC]; neq_names).
  dob H. apply prefix_it_inv in E. subst a.
  dob H.
  assert (a = I) as ->.
  { destruct HC0 as (p & G & _ & RV). unfold get_uint, get_I in E. rewrite G, RV in E.
    rewrite atoi_dec_Z in E. 2:{ unfold int_range, INT_MIN. unfold INT_MAX in *.
      apply andb_true_iff; split; apply Z.leb_le; lia. }
    cbn [obind] in E. rewrite to_uint_id in E by (unfold INT_MAX in *; lia). congruence. }
  assert (EIT : (if (j <? I)%Z then I else j) = iter).
  { unfold iter. destruct (Z.ltb_spec j I); lia. }
  dob H. apply prefix_it_inv in E0. subst a.
  dob H. dob H. dob H. dob H. destruct a2 as [d1 fs1]. cbn [fst snd] in H.
  rewrite EIT in H.
  pose proof (framed_ensure_top _ _ _ _ _ E3) as F1.
  assert (HC1 : counter d1 prefix I) by (eapply counter_framed; [exact F1| |exact HC0]; neq_names).
  dob H. pose proof (counter_set _ _ _ _ _ HC1 E4) as HC2.
  pose proof (framed_update_integer _ _ _ _ E4) as F2.
  destruct (Z.leb_spec T iter) as [LE|GT].
  - left. dob H. apply prefix_it_inv in E5. subst a3. dob H. dob H. inversion H; subst. clear H.
    repeat split; auto.
    + assert (GS : get_I a3 (prefix ++ S_ "STOP") true = Ok 1%Z) by (eapply update_integer_get; [|exact E5]; reflexivity).
      pose proof (framed_update_integer _ _ _ _ E6) as F3.
      unfold get_I in *. rewrite F3; [|intros w [<-|[]]; apply prefix_neq; vm_compute; discriminate].
      destruct (get_parameter a3 (prefix ++ S_ "STOP")); [exact GS|].
      destruct a3 as [l|]; [|discriminate]. discriminate GS.
    + eapply counter_set; [|exact E6]. eapply counter_framed; [eapply framed_update_integer; exact E5| |exact HC2].
      neq_names.
  - right. dob H. dob H. dob H. dob H. apply prefix_it_inv in E8. subst a6. dob H. dob H. dob H.
    pose proof (framed_update_integer _ _ _ _ E9) as F4. pose proof (framed_update_integer _ _ _ _ E10) as F5.
    assert (HC3 : counter a5 prefix (if (j <? I)%Z then iter + 1 else iter)%Z).
    { destruct HC2 as (p & G & IT & RV). pose proof (update_iterative_get _ _ _ _ (prefix ++ S_ "iteration") E7) as U.
      rewrite G in U. destruct (get_parameter a5 (prefix ++ S_ "iteration")) as [p'|] eqn:G'; [|contradiction].
      apply update_iter_one_inv in U. destruct U as (_ & _ & _ & _ & U & _). rewrite (U IT) in *. exists p. auto. }
    assert (HC5 : counter a8 prefix (if (j <? I)%Z then iter + 1 else iter)%Z).
    { eapply counter_framed; [exact F5|neq_names|]. eapply counter_framed; [exact F4|neq_names|]. exact HC3. }
    assert (HV : forall k p vs, get_parameter d k = Some p -> iterative p = true -> rv_ip p = Some (join arrow vs) ->
       2 <= List.length vs -> vals_ok vs -> (forall w, In w (own_names prefix) -> lower k <> lower w) ->
       exists q, get_parameter a8 k = Some q /\ rv q = nth_clamped vs (Z.to_nat iter)).
    { intros k p vs G IT RV L OK NW.
      assert (G2 : get_parameter a2 k = Some p).
      { rewrite F2, F1, FT; [exact G| | |]; intros w [<-|[]]; apply NW; unfold own_names; cbn; auto 10. }
      pose proof (update_iterative_get _ _ _ _ k E7) as U. rewrite G2 in U.
      destruct (get_parameter a5 k) as [p'|] eqn:G5; [|contradiction].
      apply update_iter_one_inv in U. destruct U as (_ & _ & _ & _ & _ & U). destruct (U IT) as (v & GV & RV').
      exists p'. split.
      - rewrite F5, F4; [exact G5| |]; intros w [<-|[]]; apply NW; unfold own_names; cbn; auto 10.
      - rewrite RV'. unfold get_n_value_str_ip in GV. rewrite IT, RV in GV.
        destruct (get_n_value_join vs (Z.to_nat iter) L OK) as (v' & GV' & NV). congruence. }
    destruct (negb (str_eqb a6 a4) || (iter =? 0)%Z).
    + dob H. dob H. destruct a10 as [d9 fs9]. cbn [fst snd] in H. inversion H; subst. clear H.
      pose proof (framed_new_folder _ _ _ _ _ _ _ E12) as F6.
      split; [lia|]. split; [reflexivity|]. split; [reflexivity|]. split.
      * eapply counter_framed; [exact F6|neq_names|exact HC5].
      * intros k p vs G IT RV L OK NW. destruct (HV k p vs G IT RV L OK NW) as (q & Gq & Rq).
        unfold get_S. rewrite F6.
        -- rewrite Gq. congruence.
        -- intros w HW. apply NW. unfold own_names. cbn in *. intuition.
    + inversion H; subst. clear H. split; [lia|]. split; [reflexivity|]. split; [reflexivity|]. split; [exact HC5|].
      intros k p vs G IT RV L OK NW. destruct (HV k p vs G IT RV L OK NW) as (q & Gq & Rq).
      unfold get_S. rewrite Gq. congruence.
Qed.

(** ** the main loop: call with main_loop_iter = j, j+1, ...; between two calls the program may change
    anything except the counter and the total. *)
Inductive loop (prefix : str) (T : Z) : Z -> db -> FS -> list Z -> Prop :=
| loop_stop j d fs d0 d' fs' :
    total_iterations d = Ok (T, d0) ->
    update_it d fs j prefix = Ok (1%Z, None, d', fs') ->
    loop prefix T j d fs []
| loop_next j d fs d0 it d' fs' d1 fs1 l :
    total_iterations d = Ok (T, d0) ->
    update_it d fs j prefix = Ok (0%Z, Some it, d', fs') ->
    get_parameter d1 (prefix ++ S_ "iteration") = get_parameter d' (prefix ++ S_ "iteration") ->
    loop prefix T (j + 1) d1 fs1 l ->
    loop prefix T j d fs (it :: l).

Fixpoint zrange (a : Z) (n : nat) : list Z :=
  match n with O => [] | S n' => a :: zrange (a + 1) n' end.

Lemma loop_visits prefix T j d fs l : loop prefix T j d fs l -> forall I,
  counter d prefix I -> (0 <= I)%Z -> (0 <= j)%Z -> (Z.max I j < INT_MAX)%Z -> (T < INT_MAX)%Z ->
  l = zrange (Z.max I j) (Z.to_nat (T - Z.max I j)).
Proof.
  induction 1 as [j d fs d0 d' fs' HT HU|j d fs d0 it d' fs' d1 fs1 l HT HU HG HL IH]; intros I HC H0 Hj HM HTM.
  - destruct (update_it_step _ _ _ _ _ _ _ _ _ _ _ HC H0 Hj HM HT HU) as [(A & _)|(_ & B & _)]; [|discriminate].
    replace (Z.to_nat (T - Z.max I j)) with 0 by lia. reflexivity.
  - destruct (update_it_step _ _ _ _ _ _ _ _ _ _ _ HC H0 Hj HM HT HU) as [(_ & B & _)|(A & _ & B & C & _)]; [discriminate|].
    inversion B; subst it.
    assert (HC1 : counter d1 prefix (if (j <? I)%Z then Z.max I j + 1 else Z.max I j)%Z).
    { destruct C as (p & G & R). exists p. rewrite HG. auto. }
    specialize (IH _ HC1).
    replace (Z.to_nat (T - Z.max I j)) with (S (Z.to_nat (T - (Z.max I j + 1)))) by lia. cbn [zrange].
    f_equal.
    assert (EM : Z.max (if (j <? I)%Z then Z.max I j + 1 else Z.max I j) (j + 1) = (Z.max I j + 1)%Z).
    { destruct (Z.ltb_spec j I); lia. }
    rewrite EM in IH. apply IH; try lia. destruct (Z.ltb_spec j I); lia.
Qed.
End Counter.
