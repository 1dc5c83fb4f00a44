(** RegionProofs.v - IsItCovering and collect_patches select by tags. *)
From Verif Require Import Base ParamSpec ParamText TextModel TextSpec TextProofs RegionModel.

Definition LP : ascii := "("%char.
Definition RP : ascii := ")"%char.
(** a word without parentheses *)
Definition plain (t : str) : Prop := ~ In LP t /\ ~ In RP t.
Definition scs (k : kind) : Prop := In k [K_SCS_BHNS; K_SCS_NSNS; K_SCS_BHBH; K_SCS_SNS; K_SCS_SBH].

Lemma found_spec s p : found s p = true <-> contains s p.
Proof.
  unfold found. destruct (strstr s p) as [[b r]|] eqn:E.
  - split; [intros _; eapply strstr_contains; eassumption|reflexivity].
  - split; [discriminate|]. intros H. destruct (strstr_none_contains _ _ E H).
Qed.
Lemma split_at (c : ascii) a b x y : ~ In c a -> ~ In c b -> a ++ c :: x = b ++ c :: y -> a = b /\ x = y.
Proof.
  revert b. induction a as [|h a IH]; intros [|h' b] Ha Hb E; cbn [app] in E.
  - inversion E. auto.
  - inversion E; subst. destruct Hb. left. reflexivity.
  - inversion E; subst. destruct Ha. left. reflexivity.
  - inversion E; subst. destruct (IH b) as [-> ->]; auto; intros I; [apply Ha|apply Hb]; right; exact I.
Qed.
(** everything before a character that does not occur in a *)
Lemma after (c : ascii) a x b y : ~ In c a -> a ++ x = b ++ c :: y -> exists b', b = a ++ b' /\ x = b' ++ c :: y.
Proof.
  revert b. induction a as [|h a IH]; intros b Ha E; cbn [app] in *.
  - exists b. auto.
  - destruct b as [|h' b]; cbn [app] in E; inversion E; subst.
    + destruct Ha. left. reflexivity.
    + destruct (IH b) as (b' & -> & ->); auto; [intros I; apply Ha; right; exact I|]. exists b'. auto.
Qed.
Lemma found_tags l t : Forall plain l -> plain t -> (found (tags l) (paren t) = true <-> In t l).
Proof.
  intros Hl [Ht1 Ht2]. rewrite found_spec. induction Hl as [|a l [Ha1 Ha2] Hl IH].
  - split; [|intros []]. intros (b & r & E). destruct b; discriminate.
  - cbn [tags map List.concat]. fold (tags l). split.
    + intros (b & r & E). unfold paren in E. destruct b as [|c b]; cbn [app] in E.
      * injection E as E1. rewrite <- !app_assoc in E1. cbn [app] in E1.
        left. destruct (split_at RP a t (tags l) r Ha2 Ht2 E1) as [-> _]. reflexivity.
      * injection E as E0 E1. right. apply IH. rewrite <- app_assoc in E1. cbn [app] in E1.
        destruct (after LP a (RP :: tags l) b ((t ++ [")"%char]) ++ r) Ha1 E1) as (b' & -> & E3).
        destruct b' as [|c' b']; cbn [app] in E3; [discriminate E3|]. injection E3 as E4 E5. exists b', r. exact E5.
    + intros [->|I].
      * exists [], (tags l). reflexivity.
      * destruct (proj2 IH I) as (b & r & E). exists (paren a ++ b), r. rewrite E, <- app_assoc. reflexivity.
Qed.
Lemma existsb_false {A} (f : A -> bool) l : (forall x, In x l -> f x = false) -> existsb f l = false.
Proof. induction l as [|a l IH]; intros H; cbn; [reflexivity|]. rewrite (H a) by (left; reflexivity). apply IH. intros x I. apply H. right. exact I. Qed.

(** words of the dictionary *)
Definition plainb (t : str) : bool := negb (existsb (Ascii.eqb LP) t) && negb (existsb (Ascii.eqb RP) t).
Lemma plainb_ok t : plainb t = true -> plain t.
Proof.
  unfold plainb, plain. intros H. apply andb_true_iff in H. destruct H as [H1 H2]. apply negb_true_iff in H1, H2.
  split; intros I; [rewrite (proj2 (existsb_exists _ _)) in H1|rewrite (proj2 (existsb_exists _ _)) in H2]; try discriminate;
    eexists; (split; [exact I|apply Ascii.eqb_eq; reflexivity]).
Qed.
Definition word_okb (t : str) : bool := plainb t && negb (found t (S_ "grid")) && (List.length t + 2 <? 999)%nat.
Lemma dict_ok : forallb word_okb dictionary = true. Proof. reflexivity. Qed.
Lemma dict_word t : In t dictionary -> plain t /\ found t (S_ "grid") = false /\ (999 <=? List.length t + 2)%nat = false.
Proof.
  intros I. pose proof (proj1 (forallb_forall _ _) dict_ok t I) as H. unfold word_okb in H.
  apply andb_true_iff in H. destruct H as [H H3]. apply andb_true_iff in H. destruct H as [H1 H2].
  split; [apply plainb_ok, H1|]. split; [apply negb_true_iff, H2|]. apply Nat.ltb_lt in H3. apply Nat.leb_gt. lia.
Qed.
Lemma dict_plain : Forall plain dictionary.
Proof. apply Forall_forall. intros t I. apply dict_word, I. Qed.

Section G.
  (** the tags of the patches *)
  Variable T : patch -> list str.
  Definition tagged (p : patch) : Prop := p_region p = tags (T p) /\ Forall plain (T p).
  Definition hasb (l : list str) (p : patch) : bool := existsb (fun t => if in_dec (list_eq_dec ascii_dec) t (T p) then true else false) l.
  Lemma hasb_spec l p : hasb l p = true <-> exists t, In t l /\ In t (T p).
  Proof.
    unfold hasb. rewrite existsb_exists. split; intros (t & I & H); exists t; (split; [exact I|]).
    - destruct (in_dec (list_eq_dec ascii_dec) t (T p)); [assumption|discriminate].
    - destruct (in_dec (list_eq_dec ascii_dec) t (T p)); [reflexivity|contradiction].
  Qed.
  Lemma cov_loop p l : tagged p -> Forall (fun t => In t dictionary) l -> covering_loop p l = Ok (hasb l p).
  Proof.
    intros [E P] H. induction H as [|t l I H IH]; cbn [covering_loop]; [reflexivity|].
    destruct (dict_word t I) as (Pt & G & L). rewrite G, L.
    assert (D : found Dictionary_SCS (paren t) = true) by (apply found_tags; auto using dict_plain). rewrite D. cbn [negb].
    unfold hasb. cbn [existsb]. rewrite E. destruct (in_dec (list_eq_dec ascii_dec) t (T p)) as [J|J].
    - rewrite (proj2 (found_tags _ _ P Pt) J). reflexivity.
    - destruct (found (tags (T p)) (paren t)) eqn:F; [destruct J; apply (found_tags _ _ P Pt), F|]. rewrite IH. reflexivity.
  Qed.
  Lemma scs_kind k : scs k -> kind_in k [K_SCS_BHNS; K_SCS_NSNS; K_SCS_BHBH; K_SCS_SNS; K_SCS_SBH] = true.
  Proof. intros H. repeat (destruct H as [<-|H]; [reflexivity|]). destruct H. Qed.
  Lemma covering k p reg l : scs k -> tagged p -> read_separated_items reg ","%char = Ok l -> l <> [] -> Forall (fun t => In t dictionary) l ->
    IsItCovering k p reg = Ok (hasb l p).
  Proof.
    intros K Tp E N D. unfold IsItCovering. rewrite E. cbn [obind]. rewrite (scs_kind k K).
    destruct l as [|t l]; [congruence|]. apply cov_loop; assumption.
  Qed.
  Lemma collect_filter k g reg l : scs k -> Forall tagged g -> read_separated_items reg ","%char = Ok l -> l <> [] -> Forall (fun t => In t dictionary) l ->
    collect_loop k false reg g = Ok (filter (hasb l) g).
  Proof.
    intros K Tg E N D. induction Tg as [|p g Tp Tg IH]; cbn [collect_loop filter]; [reflexivity|].
    rewrite (covering k p reg l K Tp E N D). cbn [obind]. rewrite IH. cbn [obind]. reflexivity.
  Qed.
  Lemma collect_ok k g reg l : scs k -> Forall tagged g -> read_separated_items reg ","%char = Ok l -> l <> [] -> Forall (fun t => In t dictionary) l ->
    collect_patches k g reg = match filter (hasb l) g with [] => Abort | ps => Ok ps end.
  Proof.
    intros K Tg E N D. unfold collect_patches.
    assert (W : str_eqb reg (S_ ".*") = false).
    { apply str_eqb_neq. intros ->. vm_compute in E. injection E as <-. inversion D as [|x y Hx Hy]; subst. clear - Hx. vm_compute in Hx. repeat (destruct Hx as [Hx|Hx]; [discriminate|]). exact Hx. }
    rewrite W, (collect_filter k g reg l) by assumption. cbn [obind]. destruct (filter (hasb l) g); reflexivity.
  Qed.
End G.
Lemma collect_all k g : g <> [] -> collect_patches k g (S_ ".*") = Ok g.
Proof.
  intros N. unfold collect_patches. replace (str_eqb (S_ ".*") (S_ ".*")) with true by reflexivity.
  assert (H : collect_loop k true (S_ ".*") g = Ok g) by (clear N; induction g as [|p g IH]; cbn [collect_loop obind]; [reflexivity|rewrite IH; reflexivity]).
  rewrite H. cbn [obind]. destruct g; [congruence|reflexivity].
Qed.
(** a word that is not in the dictionary stops the program *)
Lemma misspelt k g t : scs k -> g <> [] -> plain t -> t <> [] -> t <> S_ ".*" -> ~ In ","%char t -> ~ In NUL t -> found t (S_ "grid") = false -> List.length t < 900 -> ~ In t dictionary ->
  collect_patches k g t = Abort.
Proof.
  intros K N P Nt Ns C Z G L D. unfold collect_patches. rewrite (proj2 (str_eqb_neq _ _) Ns).
  assert (E : read_separated_items t ","%char = Ok [t]).
  { replace t with (join_with ","%char [t]) at 1 by reflexivity. apply items_join; [discriminate|]. constructor; [|constructor]. auto. }
  destruct g as [|p g]; [congruence|]. cbn [collect_loop]. unfold IsItCovering. rewrite E. cbn [obind]. rewrite (scs_kind k K). cbn [covering_loop].
  rewrite G. assert (Hl : (999 <=? List.length t + 2)%nat = false) by (apply Nat.leb_gt; lia). rewrite Hl.
  destruct (found Dictionary_SCS (paren t)) eqn:F; [destruct D; apply (found_tags dictionary t dict_plain P), F|]. reflexivity.
Qed.

(** the tags given to the layers of an object and to the boxes *)
Definition cs_tags (obj : str) (nsd2 d2 : nat) : list str :=
  obj :: (if (d2 =? nsd2 - 1)%nat then [obj ++ S_ "_OB"] else []) ++ (if (d2 =? 0)%nat then [obj ++ S_ "_IB"] else []).
Lemma cs_region_tags obj nsd2 d2 : d2 < nsd2 -> cs_region obj nsd2 d2 = tags (cs_tags obj nsd2 d2).
Proof.
  intros H. unfold cs_region, cs_tags, tags. destruct (Nat.eqb_spec nsd2 1).
  - subst. replace d2 with 0 by lia. cbn [Nat.sub Nat.eqb map List.concat app]. rewrite app_nil_r. reflexivity.
  - destruct (Nat.eqb_spec d2 (nsd2 - 1)).
    + destruct (Nat.eqb_spec d2 0); [lia|]. cbn [map List.concat app]. rewrite app_nil_r. reflexivity.
    + destruct (Nat.eqb_spec d2 0); cbn [map List.concat app]; rewrite app_nil_r; reflexivity.
Qed.
