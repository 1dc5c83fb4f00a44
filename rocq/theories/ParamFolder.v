(** ParamFolder.v - what update_iteration_params does about the resolution and the output folder. *)
From Verif Require Import Base ParamModel ParamSpec ParamText ParamExpand ParamProofs ParamIterModel ParamIterProofs TextFinal.

Section Folder.
Variable strtod : str -> dbl.
Variable FS : Type.
Variable mkdir : FS -> str -> str -> outcome (str * FS).
Variable shell_cp : FS -> str -> FS.
Variable dirname : str -> Z -> Z -> Z -> str.
Notation update_it := (update_iteration_params strtod FS mkdir shell_cp dirname).
Ltac dob H := match type of H with obind ?e _ = Ok _ => destruct e as [?a| |] eqn:?E; cbn [obind] in H; try discriminate H end.

(** parameter k exists and reads as the integer z / the text v *)
Definition int_is (d : db) (k : str) (z : Z) : Prop := get_parameter d k <> None /\ get_I d k true = Ok z.
Definition text_is (d : db) (k v : str) : Prop := get_parameter d k <> None /\ get_S d k true = Ok (Some v).
Lemma get_I_framed W d d' k z : framed W d d' -> (forall w, In w W -> lower k <> lower w) -> int_is d k z -> int_is d' k z.
Proof. intros F N [X H]. unfold int_is, get_I in *. rewrite (F k N). destruct (get_parameter d k); [auto|congruence]. Qed.
Lemma get_I_any d k z : int_is d k z -> forall f, get_I d k f = Ok z.
Proof. intros [X H] f. unfold get_I in *. destruct (get_parameter d k); [exact H|congruence]. Qed.
Lemma get_S_framed W d d' k v : framed W d d' -> (forall w, In w W -> lower k <> lower w) -> text_is d k v -> text_is d' k v.
Proof. intros F N [X H]. unfold text_is, get_S in *. rewrite (F k N). destruct (get_parameter d k); [auto|congruence]. Qed.
Lemma set_int_is d n z d' : int_range z = true -> update_integer d n z = Ok d' -> int_is d' n z.
Proof.
  intros R H. split; [|apply (update_integer_get _ _ _ _ R H)].
  destruct (update_integer_ok d n z) as (d1 & E & p & G & _). rewrite H in E. inversion E; subst. congruence.
Qed.
Lemma update_string_get d n v d' : plain_value v -> update_string d n (Some v) = Ok d' -> text_is d' n v.
Proof.
  intros P H. unfold update_string in H. rewrite get_rule, add_parameter_rule, upd_rule in H.
  destruct (get_parameter d n) as [q|] eqn:G.
  - inversion H; subst. unfold text_is, get_S. rewrite get_upd by reflexivity. rewrite str_eqb_refl, G. split; [discriminate|reflexivity].
  - rewrite (add_plain d n v P G) in H. inversion H; subst. unfold text_is, get_S. rewrite get_append, G. unfold plain_entry. cbn [lv set_rv new_par fst snd].
    rewrite str_eqb_refl. split; [discriminate|reflexivity].
Qed.
Lemma top_neq_my prefix : lower (S_ "top_directory") <> lower (prefix ++ S_ "my_directory").
Proof.
  intros E. rewrite lower_app in E. apply (f_equal (@rev ascii)) in E. rewrite rev_app_distr in E.
  apply (f_equal (firstn 12)) in E. rewrite firstn_app in E. vm_compute in E. discriminate E.
Qed.
Lemma new_folder_spec d fs prefix name parfile d' fs' :
  (forall f p n q f', mkdir f p n = Ok (q, f') -> plain_value q) ->
  new_folder FS mkdir shell_cp d fs prefix name parfile = Ok (d', fs') ->
  int_is d' (prefix ++ S_ "did_resolution_change?") 1%Z /\
  int_is d' (prefix ++ S_ "resolution_iteration") 0%Z /\
  exists top dir fs1 diag fs2, text_is d' (S_ "top_directory") top /\
    mkdir fs top name = Ok (dir, fs1) /\ text_is d' (prefix ++ S_ "my_directory") dir /\
    mkdir fs1 dir (S_ "Diagnostics") = Ok (diag, fs2) /\ text_is d' (prefix ++ S_ "Diagnostics") diag /\
    fs' = shell_cp fs2 parfile.
Proof.
  intros PL. unfold new_folder. intros H. dob H. dob H. dob H. dob H. dob H. dob H. dob H. dob H. dob H. dob H.
  destruct (strchr (fst a3) "/"%char); [|discriminate]. dob H. dob H. dob H. inversion H; subst.
  apply prefix_it_inv in E, E4, E7, E10. subst.
  destruct a3 as [dir fs1], a6 as [diag fs2]. cbn [fst snd] in *.
  pose proof (framed_update_integer _ _ _ _ E11) as F4. pose proof (framed_update_string _ _ _ _ E8) as F3.
  pose proof (framed_update_string _ _ _ _ E5) as F2. pose proof (framed_update_integer _ _ _ _ E0) as F1.
  split; [eapply set_int_is; [|exact E11]; reflexivity|]. split.
  - eapply get_I_framed; [exact F4|intros w [<-|[]]; apply prefix_neq; vm_compute; discriminate|].
    eapply get_I_framed; [exact F3|intros w [<-|[]]; apply prefix_neq; vm_compute; discriminate|].
    eapply get_I_framed; [exact F2|intros w [<-|[]]; apply prefix_neq; vm_compute; discriminate|].
    eapply set_int_is; [|exact E0]; reflexivity.
  - destruct a1 as [top|]; [|discriminate]. cbn [deref] in E2. injection E2 as <-.
    exists top, dir, fs1, diag, fs2. split; [|split; [exact E3|]; split; [|split; [exact E6|]; split; [|reflexivity]]].
    + eapply get_S_framed; [exact F4| |].
      { intros w [<-|[]]. apply (last_neq _ _ "y"%char "?"%char (S_ "top_director") (lower prefix ++ S_ "did_resolution_change")); [reflexivity|rewrite lower_app, <- app_assoc; reflexivity|discriminate]. }
      eapply get_S_framed; [exact F3| |].
      { intros w [<-|[]]. apply (last_neq _ _ "y"%char "s"%char (S_ "top_director") (lower prefix ++ S_ "diagnostic")); [reflexivity|rewrite lower_app, <- app_assoc; reflexivity|discriminate]. }
      eapply get_S_framed; [exact F2|intros w [<-|[]]; apply top_neq_my|split; [|exact E1]].
      unfold get_S in E1. destruct (get_parameter a0 (S_ "top_directory")); [discriminate|]. destruct a0; discriminate E1.
    + eapply get_S_framed; [exact F4|intros w [<-|[]]; apply prefix_neq; vm_compute; discriminate|].
      eapply get_S_framed; [exact F3|intros w [<-|[]]; apply prefix_neq; vm_compute; discriminate|].
      eapply update_string_get; [eapply PL; exact E3|exact E5].
    + eapply get_S_framed; [exact F4|intros w [<-|[]]; apply prefix_neq; vm_compute; discriminate|].
      eapply update_string_get; [eapply PL; exact E6|exact E8].
Qed.
(** names of the resolution parameters are none of the names written by the call *)
Definition res_name (k : str) : Prop := In k [S_ "n_a"; S_ "n_b"; S_ "n_c"].
Lemma res_not_own prefix k w : res_name k -> In w (own_names prefix) -> lower k <> lower w.
Proof.
  intros HK HW. assert (exists s x, lower k = s ++ [x] /\ In x (S_ "abc")) as (s & x & Ek & Hx).
  { destruct HK as [<-|[<-|[<-|[]]]]; [exists (S_ "n_"), "a"%char|exists (S_ "n_"), "b"%char|exists (S_ "n_"), "c"%char]; (split; [reflexivity|vm_compute; tauto]). }
  assert (exists t y, lower w = t ++ [y] /\ ~ In y (S_ "abc")) as (t & y & Ew & Hy).
  { cbn [own_names In] in HW.
    repeat (destruct HW as [<-|HW]); try contradiction; rewrite ?lower_app;
    [exists (lower prefix ++ S_ "iteratio"), "n"%char|exists (lower prefix ++ S_ "resolution_iteratio"), "n"%char|exists (lower prefix ++ S_ "sto"), "p"%char
    |exists (lower prefix ++ S_ "my_director"), "y"%char|exists (lower prefix ++ S_ "diagnostic"), "s"%char|exists (lower prefix ++ S_ "did_resolution_change"), "?"%char
    |exists (S_ "top_director"), "y"%char|exists (S_ "total_iterations_i"), "p"%char];
    (split; [rewrite <- ?app_assoc; reflexivity|vm_compute; intuition discriminate]). }
  apply (last_neq k w x y s t Ek Ew). intros ->. contradiction.
Qed.
Lemma get_uint_I d k z : int_is d k z -> get_uint d k false = Ok (to_uint z).
Proof. intros H. unfold get_uint. rewrite (get_I_any _ _ _ H). reflexivity. Qed.
Definition folder_of (stem : str) (a b c : Z) : str := dirname stem (to_uint a) (to_uint b) (to_uint c).
Lemma folder_name_I d stem a b c : int_is d (S_ "n_a") a -> int_is d (S_ "n_b") b -> int_is d (S_ "n_c") c ->
  folder_name dirname d stem = Ok (folder_of stem a b c).
Proof. intros A B C. unfold folder_name. rewrite (get_uint_I _ _ _ A), (get_uint_I _ _ _ B), (get_uint_I _ _ _ C). reflexivity. Qed.

(** one call: new folder exactly when the folder name changed or at iteration 0 *)
Theorem resolution_step d fs j prefix it d' fs' stem a b c a' b' c' r :
  (forall f p n q f', mkdir f p n = Ok (q, f') -> plain_value q) ->
  update_it d fs j prefix = Ok (0%Z, Some it, d', fs') ->
  text_is d (S_ "parameter_file_name_stem") stem ->
  int_is d (S_ "n_a") a -> int_is d (S_ "n_b") b -> int_is d (S_ "n_c") c ->
  int_is d' (S_ "n_a") a' -> int_is d' (S_ "n_b") b' -> int_is d' (S_ "n_c") c' ->
  int_is d (prefix ++ S_ "resolution_iteration") r -> (0 <= r < INT_MAX)%Z ->
  ((it = 0%Z \/ folder_of stem a b c <> folder_of stem a' b' c') /\
    int_is d' (prefix ++ S_ "did_resolution_change?") 1%Z /\
    int_is d' (prefix ++ S_ "resolution_iteration") 0%Z /\
    exists top fs0 dir fs1 diag fs2 parfile,
      text_is d' (S_ "top_directory") top /\
      mkdir fs0 top (folder_of stem a' b' c') = Ok (dir, fs1) /\ text_is d' (prefix ++ S_ "my_directory") dir /\
      mkdir fs1 dir (S_ "Diagnostics") = Ok (diag, fs2) /\ text_is d' (prefix ++ S_ "Diagnostics") diag /\
      fs' = shell_cp fs2 parfile)
  \/
  ((it <> 0%Z /\ folder_of stem a b c = folder_of stem a' b' c') /\
    int_is d' (prefix ++ S_ "did_resolution_change?") 0%Z /\
    int_is d' (prefix ++ S_ "resolution_iteration") (r + 1)%Z /\
    (get_S d (S_ "top_directory") false <> Ok None -> fs' = fs)).
Proof.
  intros PL H HS Ha Hb Hc Ha' Hb' Hc' Hr Rr. unfold update_iteration_params in H.
  destruct (total_iterations d) as [[T d0]| |] eqn:HT; cbn [obind fst snd] in H; try discriminate H.
  pose proof (framed_total _ _ _ HT) as FT.
  dob H. apply prefix_it_inv in E. subst a0. dob H. dob H. apply prefix_it_inv in E0. subst a1. dob H.
  assert (a1 = r) as ->.
  { assert (X : int_is d0 (prefix ++ S_ "resolution_iteration") r) by (eapply get_I_framed; [exact FT|intros w [<-|[]]; apply (last_neq _ _ "n"%char "p"%char (lower prefix ++ S_ "resolution_iteratio") (S_ "total_iterations_i")); [rewrite lower_app, <- app_assoc; reflexivity|reflexivity|discriminate]|exact Hr]).
    unfold get_uint in E0. rewrite (proj2 X) in E0. cbn [obind] in E0. rewrite to_uint_id in E0 by lia. congruence. }
  dob H. dob H.
  assert (a2 = Some stem) as ->.
  { assert (X : text_is d0 (S_ "parameter_file_name_stem") stem) by (eapply get_S_framed; [exact FT|intros w [<-|[]]; vm_compute; discriminate|exact HS]). destruct X. congruence. }
  dob H. destruct a2 as [d1 fs1]. cbn [fst snd] in H. pose proof (framed_ensure_top FS mkdir _ _ _ _ _ E3) as F1.
  set (iter := (if (j <? a0)%Z then a0 else j)) in *.
  dob H. pose proof (framed_update_integer _ _ _ _ E4) as F2.
  destruct (Z.leb_spec T iter) as [LE|GT].
  { repeat dob H. }
  cbn [deref obind] in H. dob H. dob H. dob H. apply prefix_it_inv in E7. subst a5. dob H. dob H. dob H.
  pose proof (framed_update_integer _ _ _ _ E8) as F4. pose proof (framed_update_integer _ _ _ _ E9) as F5.
  assert (RD : forall k z, res_name k -> int_is d k z -> int_is a2 k z).
  { intros k z K G.
    eapply get_I_framed; [exact F2|intros w [<-|[]]; eapply res_not_own; [exact K|cbn; tauto]|].
    eapply get_I_framed; [exact F1|intros w [<-|[]]; apply (res_not_own prefix); [exact K|cbn; tauto]|].
    eapply get_I_framed; [exact FT|intros w [<-|[]]; apply (res_not_own prefix); [exact K|cbn; tauto]|]. exact G. }
  assert (PREV : a3 = folder_of stem a b c).
  { rewrite (folder_name_I a2 stem a b c) in E5; [congruence|apply RD; [cbn; tauto|exact Ha]|apply RD; [cbn; tauto|exact Hb]|apply RD; [cbn; tauto|exact Hc]]. }
  (* values after the update of the iterative parameters are the final ones *)
  assert (BACK : forall k z, res_name k -> True -> (forall W, framed W a4 d' -> (forall w, In w W -> In w (own_names prefix)) -> int_is d' k z -> int_is a4 k z)).
  { intros k z K _ W F HW G. unfold int_is, get_I in *. rewrite (F k) in G by (intros w Hw; apply (res_not_own prefix); [exact K|apply HW; exact Hw]).
    destruct (get_parameter a4 k); [exact G|destruct G; congruence]. }
  assert (FIN : forall W, framed W a4 d' -> (forall w, In w W -> In w (own_names prefix)) -> a5 = folder_of stem a' b' c').
  { intros W F HW. rewrite (folder_name_I a4 stem a' b' c') in E7; [congruence| | |].
    - eapply BACK; [cbn; tauto|exact I|exact F|exact HW|exact Ha'].
    - eapply BACK; [cbn; tauto|exact I|exact F|exact HW|exact Hb'].
    - eapply BACK; [cbn; tauto|exact I|exact F|exact HW|exact Hc']. }
  assert (F45 : framed [prefix ++ S_ "did_resolution_change?"; prefix ++ S_ "resolution_iteration"] a4 a7).
  { eapply framed_trans; [eapply framed_one; [|exact F4]; cbn; auto|]. eapply framed_one; [|exact F5]; cbn; auto. }
  destruct (negb (str_eqb a5 a3) || (iter =? 0)%Z) eqn:EC.
  - dob H. dob H. destruct a9 as [d9 fs9]. cbn [fst snd] in H. inversion H; subst it d9 fs9. clear H. left.
    pose proof (framed_new_folder FS mkdir shell_cp _ _ _ _ _ _ _ E11) as F6.
    assert (A5 : a5 = folder_of stem a' b' c').
    { apply (FIN (own_names prefix)); [|auto]. intros k K. rewrite F6, F45; [reflexivity| |]; intros w Hw; apply K; cbn in *; tauto. }
    destruct (new_folder_spec _ _ _ _ _ _ _ PL E11) as (N1 & N2 & top & dir & fsa & diag & fsb & N3 & N4 & N5 & N6 & N7 & N8).
    split; [|split; [exact N1|split; [exact N2|]]].
    + apply orb_true_iff in EC. destruct EC as [EC|EC]; [right|left; apply Z.eqb_eq; exact EC].
      apply negb_true_iff in EC. apply str_eqb_neq in EC. congruence.
    + exists top, fs1, dir, fsa, diag, fsb, a8. rewrite <- A5. repeat (split; [assumption|]). exact N8.
  - inversion H; subst it a7 fs1. clear H. right.
    assert (A5 : a5 = folder_of stem a' b' c').
    { apply (FIN (own_names prefix)); [|auto]. intros k K. rewrite F45; [reflexivity|]; intros w Hw; apply K; cbn in *; tauto. }
    apply orb_false_iff in EC. destruct EC as [EC1 EC2]. apply negb_false_iff in EC1. apply str_eqb_eq in EC1. apply Z.eqb_neq in EC2.
    split; [split; [exact EC2|congruence]|]. split; [|split].
    + eapply get_I_framed; [exact F5|intros w [<-|[]]; apply prefix_neq; vm_compute; discriminate|].
      eapply set_int_is; [|exact E8]; reflexivity.
    + eapply set_int_is; [|exact E9]. unfold int_range, INT_MIN. unfold INT_MAX in *. apply andb_true_iff; split; apply Z.leb_le; lia.
    + intros N. unfold ensure_top in E3. dob E3. destruct a7 as [t|]; [congruence|]. exfalso. apply N.
      unfold get_S in *. rewrite (FT (S_ "top_directory")) in E10 by (intros w [<-|[]]; vm_compute; discriminate).
      destruct (get_parameter d (S_ "top_directory")) as [p|]; [exact E10|]. cbn. destruct d; reflexivity.
Qed.
End Folder.
