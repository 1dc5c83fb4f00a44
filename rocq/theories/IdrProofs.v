(** IdrProofs.v - proofs about the initial data reader. *)
From Verif Require Import Base ParamModel ParamText TextModel TextSpec TextProofs TextToolsProofs CheckpointModel CheckpointSpec CheckpointProofs CheckpointFinal
  IdrModel IdrSpec.

(** *** lookup *)
Lemma index_from_spec n : forall l i k, index_from i n l = Some k <-> exists j, k = (i + j)%nat /\ first_at l n j.
Proof.
  induction l as [|a l IH]; intros i k; cbn [index_from].
  - split; [discriminate|]. intros (j & _ & H & _). destruct j; discriminate.
  - destruct (str_eqb_spec n a) as [<-|N].
    + split.
      * intros E. injection E as <-. exists O. split; [lia|]. split; [reflexivity|]. intros j Hj. lia.
      * intros (j & -> & H1 & H2). destruct j as [|j]; [rewrite Nat.add_0_r; reflexivity|]. exfalso. apply (H2 O); [lia|reflexivity].
    + rewrite IH. split.
      * intros (j & -> & H1 & H2). exists (S j). split; [lia|]. split; [exact H1|]. intros [|m] Hm; [cbn; congruence|]. apply H2. lia.
      * intros (j & -> & H1 & H2). destruct j as [|j]; [cbn in H1; congruence|]. exists j. split; [lia|]. split; [exact H1|]. intros m Hm. apply (H2 (S m)). lia.
Qed.
Lemma index_from_none n : forall l i, index_from i n l = None <-> ~ In n l.
Proof.
  induction l as [|a l IH]; intros i; cbn [index_from In]; [tauto|]. destruct (str_eqb_spec n a) as [<-|N].
  - split; [discriminate|]. intros H. exfalso. apply H. left. reflexivity.
  - rewrite IH. split; [intros H [K|K]; [congruence|tauto]|tauto].
Qed.
Lemma dict_nodup : NoDup Field_Dictionary.
Proof. repeat constructor; cbn [In]; intros H; repeat destruct H as [H|H]; try discriminate H; exact H. Qed.
Lemma nodup_first {A} (l : list A) n k : NoDup l -> nth_error l k = Some n -> first_at l n k.
Proof.
  intros ND H. split; [exact H|]. intros j Hj E. assert (L : (j < List.length l)%nat) by (apply nth_error_Some; congruence).
  assert (j = k) by (apply (proj1 (NoDup_nth_error l) ND j k L); congruence). lia.
Qed.
Lemma find_index_ok n i : find_field_index (Some n) = Ok i <-> nth_error Field_Dictionary i = Some n.
Proof.
  unfold find_field_index. destruct (index_from 0 n Field_Dictionary) as [k|] eqn:E.
  - apply index_from_spec in E. destruct E as (j & -> & H). cbn [Nat.add]. split.
    + intros K. injection K as <-. apply H.
    + intros K. f_equal. destruct H as [H _]. assert (L : (j < List.length Field_Dictionary)%nat) by (apply nth_error_Some; congruence).
      apply (proj1 (NoDup_nth_error _) dict_nodup j i L). congruence.
  - split; [discriminate|]. intros K. apply index_from_none in E. exfalso. apply E. eapply nth_error_In. exact K.
Qed.
Lemma find_index_abort n : find_field_index (Some n) = Abort <-> ~ In n Field_Dictionary.
Proof.
  unfold find_field_index. destruct (index_from 0 n Field_Dictionary) as [k|] eqn:E.
  - split; [discriminate|]. intros K. apply index_from_spec in E. destruct E as (j & _ & H & _). exfalso. apply K. eapply nth_error_In. exact H.
  - apply index_from_none in E. tauto.
Qed.

(** *** the query *)
Lemma q_hdr_hdr fuel : forall f line h r, hdr_loop fuel f line h = Ok r -> q_hdr_loop fuel f line (h_npar h) = Ok (h_npar (fst r), snd r).
Proof.
  induction fuel as [|k IH]; intros f line h r H; cbn [hdr_loop q_hdr_loop] in *; [discriminate|].
  destruct (str_eqb line ALLOC_FOOTER); [injection H as <-; reflexivity|].
  destruct (scan_word f line) as [line' f']. destruct (str_eqb line' ALLOC_FOOTER); [injection H as <-; reflexivity|].
  destruct (strstr line' (S_ "=")) as [[a v0]|]; [|discriminate].
  destruct (contains_b line' (S_ "number_of_parameters")).
  - destruct (atoi (tl v0)) as [n| |]; cbn [obind] in *; try discriminate. apply IH in H. exact H.
  - destruct (contains_b line' (S_ "grid_number")).
    + destruct (atoi (tl v0)) as [n| |]; cbn [obind] in *; try discriminate. apply IH in H. exact H.
    + destruct (contains_b line' (S_ "grid_kind")); [|discriminate]. apply IH in H. exact H.
Qed.
Lemma same_name_dec a b : strcmp_i (Some a) (Some b) = true <-> same_name a b.
Proof.
  rewrite strcmp_i_spec. unfold same_name. split.
  - intros (x & y & E1 & E2 & H). injection E1 as <-. injection E2 as <-. exact H.
  - intros H. exists a, b. auto.
Qed.
Definition first_named (n : str) (ps : list cpar) (r : option cpar) : Prop :=
  match r with
  | Some q => exists pre post, ps = pre ++ q :: post /\ same_name (lv (fst q)) n /\ Forall (fun r => ~ same_name (lv (fst r)) n) pre
  | None => Forall (fun r => ~ same_name (lv (fst r)) n) ps
  end.
Lemma q_params_written n ps : Forall cpar_ok ps -> forall b, oconcat w_param ps = Ok b -> forall rest,
  exists r, q_params (List.length ps) n (b ++ wP_str (Some PARAM_FOOTER) ++ rest) = Ok r /\ first_named n ps r.
Proof.
  induction 1 as [|q ps Hq Hps IH]; intros b E rest; cbn [oconcat List.length q_params] in *.
  - injection E as <-. cbn [List.app]. rewrite r_title_w by apply titles_ok. exists None. split; [reflexivity|constructor].
  - destruct (r_w_param q Hq) as (b1 & E1 & R1). rewrite E1 in E. cbn [obind] in E.
    destruct (oconcat w_param ps) as [b2| |]; cbn [obind] in E; try discriminate. injection E as <-.
    rewrite <- app_assoc, R1. cbn [obind fst snd]. destruct (strcmp_i (Some (lv (fst q))) (Some n)) eqn:C.
    + exists (Some q). split; [reflexivity|]. exists [], ps. split; [reflexivity|]. split; [apply same_name_dec; exact C|constructor].
    + assert (N : ~ same_name (lv (fst q)) n) by (intros K; apply same_name_dec in K; congruence).
      destruct (IH b2 eq_refl rest) as (r & Er & Sp). exists r. split; [exact Er|]. destruct r as [x|]; cbn [first_named] in *.
      * destruct Sp as (pre & post & -> & S1 & S2). exists (q :: pre), post. split; [reflexivity|]. split; [exact S1|constructor; assumption].
      * constructor; assumption.
Qed.
Lemma query_written ps gn kind lst patches b n :
  Forall storable_par ps -> (Z.of_nat (List.length ps) <= INT_MAX)%Z -> (Z.of_N gn <= INT_MAX)%Z -> word_without kind ->
  checkpoint_bytes ps gn kind lst patches = Ok b -> exists r, parameter_query n b = Ok r /\ first_named n ps r.
Proof.
  intros H1 H2 H3 H4 E. unfold checkpoint_bytes in E.
  unfold write_parameters in E. destruct (oconcat w_param ps) as [b1| |] eqn:E1; cbn [obind] in E; try discriminate.
  destruct (write_fields lst patches) as [b2| |]; cbn [obind] in E; try discriminate.
  set (wh := w_header (N.of_nat (List.length ps)) gn kind) in E. assert (E' := f_equal (fun o => match o with Ok x => x | _ => [] end) E). cbv beta iota in E'. subst b. clear E.
  rewrite <- !app_assoc.
  set (rest := b2 ++ end_mark). subst wh.
  assert (RH := read_write_header (N.of_nat (List.length ps)) gn kind
    (wP_str (Some PARAM_HEADER) ++ b1 ++ wP_str (Some PARAM_FOOTER) ++ rest)).
  rewrite nat_N_Z in RH. specialize (RH H2 H3 (word_without_kind_ok _ H4)).
  unfold read_header in RH. unfold parameter_query.
  destruct (scan_word (w_header (N.of_nat (List.length ps)) gn kind ++ wP_str (Some PARAM_HEADER) ++ b1 ++ wP_str (Some PARAM_FOOTER) ++ rest) []) as [line f1].
  destruct (str_eqb line ALLOC_HEADER); [|discriminate].
  destruct (hdr_loop 5 f1 line (mkHeader 0 0 None)) as [[h f2]| |] eqn:EH; cbn [obind fst snd] in RH; try discriminate.
  apply q_hdr_hdr in EH. cbn [h_npar fst snd] in EH. rewrite EH. cbn [obind fst snd].
  assert (Ef : tl f2 = wP_str (Some PARAM_HEADER) ++ b1 ++ wP_str (Some PARAM_FOOTER) ++ rest) by congruence.
  assert (Eh : h = mkHeader (Z.of_nat (List.length ps)) (Z.of_N gn) (Some kind)) by congruence. rewrite Ef. rewrite r_title_w by apply titles_ok. cbn [obind].
  rewrite Eh. cbn [h_npar]. rewrite Nat2Z.id.
  apply q_params_written; [|exact E1]. eapply Forall_impl; [|exact H1]. intros q. apply storable_cpar_ok.
Qed.
Lemma first_named_det n ps r r' : first_named n ps r -> first_named n ps r' -> r = r'.
Proof.
  revert r r'. induction ps as [|p ps IH]; intros r r' H H'.
  - destruct r as [q|]; [destruct H as (pre & post & E & _); destruct pre; discriminate|].
    destruct r' as [q|]; [destruct H' as (pre & post & E & _); destruct pre; discriminate|]. reflexivity.
  - destruct (strcmp_i (Some (lv (fst p))) (Some n)) eqn:C.
    + assert (S := proj1 (same_name_dec _ _) C).
      assert (G : forall s, first_named n (p :: ps) s -> s = Some p).
      { intros [q|] K; cbn [first_named] in K.
        - destruct K as ([|x pre] & post & E & S1 & S2); injection E as -> E; [reflexivity|]. inversion S2; subst. contradiction.
        - inversion K; subst. contradiction. }
      rewrite (G _ H), (G _ H'). reflexivity.
    + assert (N : ~ same_name (lv (fst p)) n) by (intros K; apply same_name_dec in K; congruence).
      assert (G : forall s, first_named n (p :: ps) s -> first_named n ps s).
      { intros [q|] K; cbn [first_named] in *.
        - destruct K as ([|x pre] & post & E & S1 & S2); injection E as -> E; [contradiction|]. exists pre, post. inversion S2; subst. auto.
        - inversion K; subst. assumption. }
      apply IH; apply G; assumption.
Qed.

(** *** dispatch *)
Definition table : list (string * string * exporter) :=
  [("BH_NS_binary_initial_data", "generic", BHNS_generic); ("BH_NS_binary_initial_data", "generic_MT_safe", BHNS_MT);
   ("NS_NS_binary_initial_data", "generic", NSNS_generic); ("BH_BH_binary_initial_data", "generic", BHBH_generic);
   ("Single_NS_initial_data", "generic", SNS_generic)]%string.
Definition complete_request (q : request) : Prop :=
  q_ifields q <> None /\ q_x q = true /\ q_y q = true /\ q_z q = true /\ q_npoints q <> 0%Z.
Lemma sanity_ok q e e' : sanity q e = Ok e' <-> e' = e /\ complete_request q.
Proof.
  unfold sanity, complete_request. destruct (q_ifields q); [|split; [discriminate|intros [_ [K _]]; congruence]].
  destruct (q_x q), (q_y q), (q_z q), (Z.eqb_spec (q_npoints q) 0); cbn; split; try discriminate; try (intros H; injection H as <-; intuition congruence); intuition congruence.
Qed.
Lemma sanity_cases q e : sanity q e = Ok e \/ sanity q e = Abort.
Proof. unfold sanity. destruct (q_ifields q); [|right; reflexivity]. destruct (_ || _)%bool; [right|left]; reflexivity. Qed.
Definition sel (o : option str) (s : string) : Prop := exists x, o = Some x /\ same_name x (S_ s).
Lemma sel_dec o s : strcmp_i o (Some (S_ s)) = true <-> sel o s.
Proof.
  unfold sel. rewrite strcmp_i_spec. split.
  - intros (x & y & -> & E & H). injection E as <-. exists x. auto.
  - intros (x & -> & H). exists x, (S_ s). auto.
Qed.
Lemma sel_fun o s t : sel o s -> sel o t -> same_name (S_ s) (S_ t).
Proof. intros (x & -> & H) (y & E & K). injection E as <-. unfold same_name in *. congruence. Qed.
Lemma dispatch_ok q e : interpolate_dispatch q = Ok e <->
  exists s o, In (s, o, e) table /\ sel (q_system q) s /\ sel (q_option q) o /\ (e = BHNS_MT \/ complete_request q).
Proof.
  unfold interpolate_dispatch.
  destruct (strcmp_i (q_system q) (Some (S_ "BH_NS_binary_initial_data"))) eqn:A1;
  destruct (strcmp_i (q_system q) (Some (S_ "NS_NS_binary_initial_data"))) eqn:A2;
  destruct (strcmp_i (q_system q) (Some (S_ "BH_BH_binary_initial_data"))) eqn:A3;
  destruct (strcmp_i (q_system q) (Some (S_ "Single_NS_initial_data"))) eqn:A4;
  destruct (strcmp_i (q_option q) (Some (S_ "generic"))) eqn:B1;
  destruct (strcmp_i (q_option q) (Some (S_ "generic_MT_safe"))) eqn:B2; cbn [andb];
  try (apply sel_dec in A1); try (apply sel_dec in A2); try (apply sel_dec in A3); try (apply sel_dec in A4); try (apply sel_dec in B1); try (apply sel_dec in B2);
  try (match goal with H : sel ?o ?s, K : sel ?o ?t |- _ => assert (Q := sel_fun _ _ _ H K); vm_compute in Q; discriminate Q end).
  all: try (rewrite sanity_ok).
  all: split.
  all: try (intros [-> C]; eexists _, _; split; [cbn [table In]; tauto || (repeat (try (left; reflexivity); right))|]; repeat split; [eassumption|eassumption|right; exact C]).
  all: try discriminate.
  all: try (intros H; injection H as <-; eexists _, _; split; [cbn [table In]; right; left; reflexivity|]; repeat split; [eassumption|eassumption|left; reflexivity]).
  all: intros (s & o & I & S1 & S2 & C); cbn [table In] in I; repeat destruct I as [I|I]; try contradiction; injection I as <- <- <-.
  all: try (apply sel_dec in S1); try (apply sel_dec in S2); try congruence.
  all: try (apply sel_dec in S1); try (apply sel_dec in S2);
    try (match goal with H : sel ?o ?s, K : sel ?o ?t |- _ => assert (Q := sel_fun _ _ _ H K); vm_compute in Q; discriminate Q end).
  all: try (destruct C as [C|C]; [discriminate|]); try (split; [reflexivity|assumption]); try reflexivity.
Qed.
Lemma dispatch_cases q : (exists e, interpolate_dispatch q = Ok e) \/ interpolate_dispatch q = Abort.
Proof.
  unfold interpolate_dispatch.
  repeat match goal with |- context [if ?b then _ else _] => destruct b end;
    try (match goal with |- context [sanity q ?e] => destruct (sanity_cases q e) as [Q|Q]; rewrite Q end); eauto.
Qed.
