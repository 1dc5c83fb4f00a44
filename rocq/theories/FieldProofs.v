(** FieldProofs.v - proofs of C24, C25, C26. *)
From Coq Require Import Permutation.
From Verif Require Import Base ParamText TextModel TextProofs FieldModel FieldSpec CheckpointProofs.
From Verif Require ParamSpec TextSpec TextFinal TextPopulate.

Section Pool.
Variable V : Type.
Variable zeros : V.
Notation field := (field V).
Notation fname := (fname V).
Notation nm := (map fname).

Lemma lookup_from_spec n l : forall i, (0 <= i)%Z ->
  (~ In n (nm l) /\ lookup_from V i n l = INT_MIN) \/
  (exists l1 f l2, l = l1 ++ f :: l2 /\ fname f = n /\ ~ In n (nm l1) /\ lookup_from V i n l = (i + Z.of_nat (List.length l1))%Z).
Proof.
  induction l as [|f l IH]; intros i Hi; cbn [lookup_from].
  - left. split; [intros []|reflexivity].
  - destruct (str_eqb_spec (fname f) n) as [E|E].
    + right. exists [], f, l. split; [reflexivity|]. split; [exact E|]. split; [intros []|]. cbn. lia.
    + destruct (IH (i + 1)%Z ltac:(lia)) as [(A & B)|(l1 & g & l2 & -> & A & B & C)].
      * left. split; [|exact B]. intros [K|K]; [congruence|exact (A K)].
      * right. exists (f :: l1), g, l2. split; [reflexivity|]. split; [exact A|]. split.
        -- intros [K|K]; [congruence|exact (B K)].
        -- rewrite C. cbn [List.length]. lia.
Qed.
Lemma lookup_cases n l :
  (~ In n (nm l) /\ LookUpField V n l = INT_MIN) \/
  (exists l1 f l2, l = l1 ++ f :: l2 /\ fname f = n /\ ~ In n (nm l1) /\ LookUpField V n l = Z.of_nat (List.length l1)).
Proof.
  destruct (lookup_from_spec n l 0 ltac:(lia)) as [H|(l1 & f & l2 & A & B & C & D)]; [left; exact H|right].
  exists l1, f, l2. repeat split; try assumption.
Qed.

Lemma set_nth_app l1 x y l2 : set_nth V (List.length l1) x (l1 ++ y :: l2) = l1 ++ x :: l2.
Proof. induction l1 as [|z l1 IH]; cbn; [reflexivity|rewrite IH; reflexivity]. Qed.
Lemma remove_at l1 f l2 : ~ In (fname f) (nm l1) ->
  exists l3, remove_field V (fname f) (l1 ++ f :: l2) = l1 ++ l3 /\ Permutation l3 l2.
Proof.
  intros H. unfold remove_field.
  assert (L : LookUpField V (fname f) (l1 ++ f :: l2) = Z.of_nat (List.length l1)).
  { unfold LookUpField. enough (G : forall i, lookup_from V i (fname f) (l1 ++ f :: l2) = (i + Z.of_nat (List.length l1))%Z) by (rewrite G; reflexivity).
    revert H. induction l1 as [|g l1 IH]; intros H i; cbn [List.app lookup_from].
    - rewrite str_eqb_refl. cbn. lia.
    - rewrite (proj2 (str_eqb_neq _ _)); [|intros K; apply H; left; exact K].
      rewrite IH by (intros K; apply H; right; exact K). cbn [List.length]. lia. }
  rewrite L. destruct (Z.ltb_spec (Z.of_nat (List.length l1)) 0) as [|_]; [lia|]. rewrite Nat2Z.id.
  destruct l2 as [|z l2'] using rev_ind.
  - rewrite rev_app_distr. cbn [rev List.app]. rewrite set_nth_app, removelast_last. exists []. rewrite app_nil_r. split; [reflexivity|constructor].
  - clear IHl2'. replace (l1 ++ f :: l2' ++ [z]) with ((l1 ++ f :: l2') ++ [z]) by (rewrite <- app_assoc; reflexivity).
    rewrite rev_app_distr. cbn [rev List.app].
    replace ((l1 ++ f :: l2') ++ [z]) with (l1 ++ f :: (l2' ++ [z])) by (rewrite <- app_assoc; reflexivity).
    rewrite set_nth_app. replace (l1 ++ z :: l2' ++ [z]) with ((l1 ++ z :: l2') ++ [z]) by (rewrite <- app_assoc; reflexivity).
    rewrite removelast_last. exists (z :: l2'). split; [reflexivity|]. apply Permutation_cons_append.
Qed.

Definition keep (p : str -> bool) (l : list field) : list field := filter (fun f => negb (p (fname f))) l.
Lemma keep_all p l : (forall f, In f l -> p (fname f) = false) -> keep p l = l.
Proof.
  intros H. unfold keep. induction l as [|f l IH]; [reflexivity|]. cbn [filter]. rewrite (H f) by (left; reflexivity). cbn [negb].
  rewrite IH; [reflexivity|]. intros g Hg. apply H. right. exact Hg.
Qed.
Lemma keep_app p a b : keep p (a ++ b) = keep p a ++ keep p b.
Proof. unfold keep. apply filter_app. Qed.
Lemma keep_perm p a b : Permutation a b -> Permutation (keep p a) (keep p b).
Proof.
  induction 1 as [|x a b H IH|x y a|a b c H1 IH1 H2 IH2]; unfold keep in *; cbn [filter].
  - constructor.
  - destruct (negb _); [constructor; exact IH|exact IH].
  - destruct (negb (p (fname y))), (negb (p (fname x))); try apply Permutation_refl. apply perm_swap.
  - eapply perm_trans; eassumption.
Qed.
Lemma remove_perm n l : NoDup (nm l) -> Permutation (remove_field V n l) (keep (str_eqb n) l).
Proof.
  intros ND. destruct (lookup_cases n l) as [(A & B)|(l1 & f & l2 & -> & <- & A & B)].
  - unfold remove_field. rewrite B. cbn [INT_MIN Z.ltb Z.compare]. rewrite keep_all; [reflexivity|].
    intros f Hf. apply str_eqb_neq. intros ->. apply A. apply in_map. exact Hf.
  - destruct (remove_at l1 f l2 A) as (l3 & -> & P). rewrite keep_app. unfold keep at 2. cbn [filter]. rewrite str_eqb_refl. cbn [negb].
    fold (keep (str_eqb (fname f)) l2). rewrite map_app in ND. cbn [map] in ND. apply NoDup_remove_2 in ND.
    rewrite !keep_all.
    + apply Permutation_app_head. exact P.
    + intros g Hg. apply str_eqb_neq. intros E. apply ND. apply in_app_iff. right. rewrite E. apply in_map. exact Hg.
    + intros g Hg. apply str_eqb_neq. intros E. apply A. rewrite E. apply in_map. exact Hg.
Qed.
Lemma keep_NoDup p l : NoDup (nm l) -> NoDup (nm (keep p l)).
Proof.
  unfold keep. induction l as [|x l IH]; intros H; [constructor|]. inversion H as [|a b Hn Hd]; subst. cbn [filter].
  destruct (negb (p (fname x))); [|apply IH; exact Hd]. cbn [map]. constructor; [|apply IH; exact Hd].
  intros K. apply Hn. apply in_map_iff in K. destruct K as (y & E & Hy). apply filter_In in Hy.
  apply in_map_iff. exists y. split; [exact E|apply Hy].
Qed.
Lemma remove_NoDup n l : NoDup (nm l) -> NoDup (nm (remove_field V n l)).
Proof.
  intros ND. eapply Permutation_NoDup; [apply Permutation_map; apply Permutation_sym; apply remove_perm; exact ND|].
  apply keep_NoDup. exact ND.
Qed.

(** the loop: everything before position i has been looked at and stays *)
Lemma remove_loop_spec m : forall fuel l1 l2, NoDup (nm (l1 ++ l2)) -> (forall f, In f l1 -> m (fname f) = false) ->
  List.length l2 < fuel ->
  exists l', remove_loop V m fuel (List.length l1) (l1 ++ l2) = Ok l' /\ Permutation l' (keep m (l1 ++ l2)).
Proof.
  induction fuel as [|k IH]; intros l1 l2 ND H1 HF; [lia|]. cbn [remove_loop].
  destruct l2 as [|f l2].
  - rewrite app_nil_r in *. rewrite (proj2 (nth_error_None l1 (List.length l1))) by lia.
    exists l1. split; [reflexivity|]. rewrite keep_all by exact H1. reflexivity.
  - rewrite nth_error_app2, Nat.sub_diag by lia. cbn [nth_error]. destruct (m (fname f)) eqn:M.
    + assert (A : ~ In (fname f) (nm l1)).
      { intros K. apply in_map_iff in K. destruct K as (g & E & Hg). rewrite <- E, H1 in M by exact Hg. discriminate. }
      destruct (remove_at l1 f l2 A) as (l3 & E & P). rewrite E.
      assert (ND3 : NoDup (nm (l1 ++ l3))).
      { rewrite <- E. apply remove_NoDup. exact ND. }
      destruct (IH l1 l3 ND3 H1) as (l' & EL & PL).
      { rewrite (Permutation_length P). cbn [List.length] in HF. lia. }
      exists l'. split; [exact EL|]. eapply perm_trans; [exact PL|]. rewrite !keep_app. apply Permutation_app_head.
      unfold keep at 2. cbn [filter]. rewrite M. cbn [negb]. apply keep_perm. exact P.
    + replace (l1 ++ f :: l2) with ((l1 ++ [f]) ++ l2) in * by (rewrite <- app_assoc; reflexivity).
      destruct (IH (l1 ++ [f]) l2 ND) as (l' & EL & PL).
      * intros g Hg. apply in_app_iff in Hg. destruct Hg as [Hg|[<-|[]]]; [apply H1; exact Hg|exact M].
      * cbn [List.length] in HF. lia.
      * exists l'. split; [|exact PL]. rewrite app_length in EL. cbn [List.length] in EL. rewrite Nat.add_1_r in EL. exact EL.
Qed.
Lemma remove_regex_spec m l : NoDup (nm l) -> exists l', remove_field_regex V m l = Ok l' /\ Permutation l' (keep m l).
Proof. intros ND. apply (remove_loop_spec m _ [] l ND); [intros f []|lia]. Qed.

(** *** refinement *)
Definition get (l : list field) (n : str) : option field := find (fun f => str_eqb (fname f) n) l.
Definition R (l : list field) (m : pool V) : Prop := NoDup (nm l) /\ forall n, m n = get l n.

Lemma get_some l n f : get l n = Some f -> In f l /\ fname f = n.
Proof. unfold get. intros H. apply find_some in H. destruct H as [A B]. apply str_eqb_eq in B. auto. Qed.
Lemma get_in l f : NoDup (nm l) -> In f l -> get l (fname f) = Some f.
Proof.
  induction l as [|g l IH]; intros ND I; [destruct I|]. unfold get. cbn [find]. inversion ND; subst.
  destruct (str_eqb_spec (fname g) (fname f)) as [E|E].
  - destruct I as [->|I]; [reflexivity|]. exfalso. apply H1. rewrite E. apply in_map. exact I.
  - destruct I as [->|I]; [congruence|]. exact (IH H2 I).
Qed.
Lemma get_none l n : get l n = None <-> ~ In n (nm l).
Proof.
  unfold get. split.
  - intros H K. apply in_map_iff in K. destruct K as (p & E & I). pose proof (find_none _ _ H _ I) as F. cbv beta in F.
    apply str_eqb_neq in F. congruence.
  - intros H. destruct (find _ l) as [p|] eqn:E; [|reflexivity]. apply find_some in E. destruct E as [I E]. apply str_eqb_eq in E.
    exfalso. apply H. apply in_map_iff. exists p; auto.
Qed.
Lemma get_perm l l' n : NoDup (nm l) -> Permutation l l' -> get l' n = get l n.
Proof.
  intros ND P. assert (ND' : NoDup (nm l')) by (eapply Permutation_NoDup; [apply Permutation_map; exact P|exact ND]).
  destruct (get l n) as [f|] eqn:E.
  - apply get_some in E. destruct E as [I <-]. apply get_in; [exact ND'|]. eapply Permutation_in; eassumption.
  - apply get_none. apply get_none in E. intros K. apply E. eapply Permutation_in; [apply Permutation_map; apply Permutation_sym; exact P|exact K].
Qed.
Lemma get_keep p l n : NoDup (nm l) -> get (keep p l) n = if p n then None else get l n.
Proof.
  intros ND. destruct (get l n) as [f|] eqn:E.
  - apply get_some in E. destruct E as [I <-]. destruct (p (fname f)) eqn:P.
    + apply get_none. intros K. apply in_map_iff in K. destruct K as (g & E & Hg). apply filter_In in Hg. rewrite E, P in Hg. destruct Hg; discriminate.
    + apply get_in; [apply keep_NoDup; exact ND|]. apply filter_In. rewrite P. auto.
  - replace (if p n then None else None) with (@None field) by (destruct (p n); reflexivity).
    apply get_none. apply get_none in E. intros K. apply E. apply in_map_iff in K. destruct K as (g & E' & Hg). apply filter_In in Hg.
    apply in_map_iff. exists g. tauto.
Qed.
Lemma get_app l f n : get (l ++ [f]) n = match get l n with Some g => Some g | None => if str_eqb (fname f) n then Some f else None end.
Proof. unfold get. induction l as [|g l IH]; cbn [List.app find]; [reflexivity|]. destruct (str_eqb (fname g) n); [reflexivity|exact IH]. Qed.
Lemma str_eqb_sym a b : str_eqb a b = str_eqb b a.
Proof. destruct (str_eqb_spec a b) as [->|N]; [rewrite str_eqb_refl; reflexivity|]. symmetry. apply str_eqb_neq. congruence. Qed.

Definition agrees (a : outcome (list field)) (b : outcome (pool V)) : Prop :=
  match a, b with
  | Ok l, Ok m => R l m
  | Abort, Abort => True
  | _, _ => False
  end.
Lemma existsb_negb (c : ascii) a : has_char c a = existsb (ch_eqb c) a. Proof. reflexivity. Qed.
Lemma lookup_get n l : (LookUpField V n l = INT_MIN /\ get l n = None) \/
  (exists l1 f l2, l = l1 ++ f :: l2 /\ fname f = n /\ ~ In n (nm l1) /\ LookUpField V n l = Z.of_nat (List.length l1) /\ get l n = Some f).
Proof.
  destruct (lookup_cases n l) as [(A & B)|(l1 & f & l2 & -> & <- & A & B)].
  - left. split; [exact B|apply get_none; exact A].
  - right. exists l1, f, l2. repeat split; try assumption. unfold get. clear B. induction l1 as [|g l1 IH]; cbn [List.app find].
    + rewrite str_eqb_refl. reflexivity.
    + rewrite (proj2 (str_eqb_neq _ _)); [|intros K; apply A; left; exact K]. apply IH. intros K. apply A. right. exact K.
Qed.
Lemma step_agrees l m o : R l m -> agrees (f_step V zeros l o) (p_step V zeros m o).
Proof.
  intros [ND HM]. destruct o as [n a alloc|n|r|n x]; cbn [f_step p_step].
  - unfold add_field. rewrite HM. destruct (lookup_get n l) as [(L & G)|(l1 & f & l2 & El & Ef & A & L & G)]; rewrite L, G.
    + cbn [INT_MIN Z.leb Z.compare]. unfold add_attribute, parenthesised. set (at_ := match a with Some a => a | None => S_ "(3dim)" end).
      rewrite !existsb_negb. destruct (existsb (ch_eqb "("%char) at_), (existsb (ch_eqb ")"%char) at_); cbn [negb orb andb obind agrees]; try exact I.
      split.
      * rewrite map_app. cbn [map]. apply (Permutation_NoDup (l := n :: nm l)); [apply Permutation_cons_append|].
        constructor; [|exact ND]. apply get_none. exact G.
      * intros k. unfold p_put. rewrite get_app. cbn [FieldModel.fname]. rewrite (str_eqb_sym k n).
        destruct (str_eqb_spec n k) as [<-|Nk]; [rewrite G; reflexivity|]. rewrite HM. destruct (get l k); reflexivity.
    + destruct (Z.leb_spec 0 (Z.of_nat (List.length l1))); [exact I|lia].
  - unfold remove_named, Ind. rewrite HM. destruct (lookup_get n l) as [(L & G)|(l1 & f & l2 & El & Ef & A & L & G)]; rewrite L, G.
    + exact I.
    + destruct (Z.eqb_spec (Z.of_nat (List.length l1)) INT_MIN) as [K|_]; [unfold INT_MIN in K; lia|]. cbn [obind agrees]. split.
      * apply remove_NoDup. exact ND.
      * intros k. unfold p_del. rewrite HM, (get_perm (keep (str_eqb n) l) (remove_field V n l) k).
        -- rewrite get_keep by exact ND. rewrite (str_eqb_sym k n). reflexivity.
        -- apply keep_NoDup. exact ND.
        -- apply Permutation_sym. apply remove_perm. exact ND.
  - destruct (remove_regex_spec r l ND) as (l' & E & P). rewrite E. cbn [agrees]. split.
    + eapply Permutation_NoDup; [apply Permutation_map; apply Permutation_sym; exact P|]. apply keep_NoDup. exact ND.
    + intros k. rewrite HM, (get_perm (keep r l) l' k); [|apply keep_NoDup; exact ND|apply Permutation_sym; exact P].
      rewrite get_keep by exact ND. reflexivity.
  - unfold Ind. rewrite HM. destruct (lookup_get n l) as [(L & G)|(l1 & f & l2 & El & Ef & A & L & G)]; rewrite L, G.
    + exact I.
    + destruct (Z.eqb_spec (Z.of_nat (List.length l1)) INT_MIN) as [K|_]; [unfold INT_MIN in K; lia|]. cbn [obind].
      rewrite Nat2Z.id, El, nth_error_app2, Nat.sub_diag by lia. cbn [nth_error]. rewrite set_nth_app. cbn [agrees].
      assert (NM : nm (l1 ++ set_v V x f :: l2) = nm l) by (rewrite El, !map_app; reflexivity).
      split; [rewrite NM; exact ND|]. intros k. unfold p_put.
      destruct (str_eqb_spec k n) as [->|Nk].
      * symmetry. replace (mkField V n x (fv2 V f) (finfo V f) (fattr V f)) with (set_v V x f) by (unfold set_v; rewrite Ef; reflexivity).
        rewrite <- Ef. change (fname f) with (fname (set_v V x f)). apply get_in; [rewrite NM; exact ND|]. apply in_app_iff. right. left. reflexivity.
      * rewrite HM, El. unfold get. clear - Nk Ef. induction l1 as [|g l1 IH]; cbn [List.app find].
        -- cbn [FieldModel.fname set_v]. rewrite Ef, (proj2 (str_eqb_neq n k)) by congruence. reflexivity.
        -- destruct (str_eqb (fname g) k); [reflexivity|exact IH].
Qed.
Lemma run_agrees h : forall l m, R l m -> agrees (f_run V zeros l h) (p_run V zeros m h).
Proof.
  induction h as [|o h IH]; intros l m H; cbn [f_run p_run]; [exact H|].
  assert (S := step_agrees l m o H). destruct (f_step V zeros l o) as [l'| |], (p_step V zeros m o) as [m'| |]; cbn [agrees] in S; try contradiction; cbn [obind].
  - apply IH. exact S.
  - exact I.
Qed.
Lemma R_empty : R [] (fun _ => None).
Proof. split; [constructor|reflexivity]. Qed.
Lemma R_lookup l m n : R l m ->
  (m n = None <-> LookUpField V n l = INT_MIN) /\
  (forall f, m n = Some f <-> (0 <= LookUpField V n l)%Z /\ nth_error l (Z.to_nat (LookUpField V n l)) = Some f).
Proof.
  intros [ND HM]. rewrite HM. destruct (lookup_get n l) as [(L & G)|(l1 & f & l2 & El & Ef & A & L & G)]; rewrite L, G.
  - split; [tauto|]. intros f. split; [discriminate|]. unfold INT_MIN. lia.
  - split; [split; [discriminate|unfold INT_MIN; lia]|]. intros g. rewrite Nat2Z.id, El, nth_error_app2, Nat.sub_diag by lia. cbn [nth_error].
    split; [intros H; split; [lia|exact H]|tauto].
Qed.
(** what C24 says *)
Theorem pool_is_map h : 
  match f_run V zeros [] h, p_run V zeros (fun _ => None) h with
  | Ok l, Ok m => NoDup (nm l) /\
      (forall n, (m n = None <-> LookUpField V n l = INT_MIN) /\
        (forall f, m n = Some f <-> (0 <= LookUpField V n l)%Z /\ nth_error l (Z.to_nat (LookUpField V n l)) = Some f))
  | Abort, Abort => True
  | _, _ => False
  end.
Proof.
  assert (A := run_agrees h [] _ R_empty). destruct (f_run V zeros [] h) as [l| |], (p_run V zeros (fun _ => None) h) as [m| |]; cbn [agrees] in A; try contradiction; [|exact I].
  split; [apply A|]. intros n. apply R_lookup. exact A.
Qed.
Theorem regex_removal h l m : f_run V zeros [] h = Ok l ->
  exists l', remove_field_regex V m l = Ok l' /\ Permutation l' (filter (fun f => negb (m (fname f))) l).
Proof.
  intros H. assert (A := run_agrees h [] _ R_empty). rewrite H in A. destruct (p_run V zeros (fun _ => None) h); cbn [agrees] in A; try contradiction.
  apply remove_regex_spec. apply A.
Qed.
Lemma find_index_regex_spec m l : forall i, find_index_regex V m i l =
  map (fun q => fst q) (filter (fun q => m (fname (snd q))) (combine (seq i (List.length l)) l)).
Proof.
  induction l as [|f l IH]; intros i; cbn [find_index_regex List.length seq combine filter map]; [reflexivity|].
  cbn [snd]. rewrite IH. destruct (m (fname f)); reflexivity.
Qed.
Theorem find_regex_spec m l j : In j (find_index_regex V m 0 l) <-> exists f, nth_error l j = Some f /\ m (fname f) = true.
Proof.
  enough (G : forall i, In (i + j) (find_index_regex V m i l) <-> exists f, nth_error l j = Some f /\ m (fname f) = true) by (apply (G 0)).
  intros i. revert i j. 
  assert (LB : forall l i x, In x (find_index_regex V m i l) -> i <= x).
  { clear. induction l as [|f l IH]; intros i x H; cbn [find_index_regex] in H; [destruct H|]. destruct (m (fname f)).
    - destruct H as [<-|H]; [lia|]. apply IH in H. lia.
    - apply IH in H. lia. }
  induction l as [|f l IH]; intros i j; cbn [find_index_regex].
  - split; [intros []|]. intros (f & H & _). destruct j; discriminate.
  - destruct j as [|j].
    + cbn [nth_error]. rewrite Nat.add_0_r. destruct (m (fname f)) eqn:M.
      * split; [intros _; exists f; auto|intros _; left; reflexivity].
      * split; [intros H; apply LB in H; lia|]. intros (g & E & K). congruence.
    + cbn [nth_error]. rewrite <- (IH (S i) j), Nat.add_succ_r. destruct (m (fname f)).
      * split; [intros [K|K]; [lia|exact K]|intros K; right; exact K].
      * reflexivity.
Qed.
End Pool.

(** *** attributes (C41) and the auxiliary fields *)
Lemma add_attribute_spec attr a s : add_attribute attr a = Ok s ->
  parenthesised a = true /\ exists t, s = Some t /\ ParamSpec.contains t a /\
    (forall b, attr = Some b -> t = b \/ t = b ++ a) /\ (attr = None -> t = a).
Proof.
  unfold add_attribute, parenthesised, has_char. destruct (existsb (ch_eqb "("%char) a), (existsb (ch_eqb ")"%char) a); cbn [negb orb andb]; try discriminate.
  destruct attr as [b|].
  - destruct (strstr b a) as [[x y]|] eqn:E; intros H; injection H as <-; (split; [reflexivity|]).
    + exists b. split; [reflexivity|]. split; [eapply strstr_contains; exact E|]. split; [intros c K; left; congruence|discriminate].
    + exists (b ++ a). split; [reflexivity|]. split; [exists b, []; rewrite app_nil_r; reflexivity|]. split; [intros c K; right; congruence|discriminate].
  - intros H. injection H as <-. split; [reflexivity|]. exists a. split; [reflexivity|]. split; [exists [], []; rewrite app_nil_r; reflexivity|].
    split; [discriminate|reflexivity].
Qed.
Lemma contains_strstr s p : ParamSpec.contains s p -> exists b r, strstr s p = Some (b, r).
Proof. intros H. destruct (strstr s p) as [[b r]|] eqn:E; [eauto|]. exfalso. revert H. apply strstr_none_contains. exact E. Qed.
Lemma add_attribute_idem attr a s : add_attribute attr a = Ok s -> add_attribute s a = Ok s.
Proof.
  intros H. destruct (add_attribute_spec _ _ _ H) as (P & t & -> & C & _). unfold add_attribute.
  unfold parenthesised in P. unfold has_char. destruct (existsb (ch_eqb "("%char) a), (existsb (ch_eqb ")"%char) a); cbn [negb orb andb] in *; try discriminate.
  destruct (contains_strstr _ _ C) as (b & r & ->). reflexivity.
Qed.
Lemma add_attribute_keeps attr a s b : add_attribute attr a = Ok s ->
  match attr with Some t => ParamSpec.contains t b | None => False end -> match s with Some t => ParamSpec.contains t b | None => False end.
Proof.
  intros H K. destruct (add_attribute_spec _ _ _ H) as (P & t & -> & C & K1 & _). destruct attr as [u|]; [|contradiction].
  destruct (K1 u eq_refl) as [->| ->]; [exact K|]. destruct K as (x & y & ->). exists x, (y ++ a). rewrite <- !app_assoc. reflexivity.
Qed.

Section Aux.
Variable V : Type.
Variable zeros : V.
Notation field := (field V).
Notation fname := (fname V).
Notation nm := (map fname).
Definition fresh (n : str) : field := mkField V n None None None (Some (S_ "(3dim)")).
Lemma add_fresh n l : ~ In n (nm l) -> add_field V zeros n None false l = Ok (l ++ [fresh n]).
Proof.
  intros H. unfold add_field. destruct (lookup_cases V n l) as [(A & B)|(l1 & f & l2 & -> & <- & A & B)].
  - rewrite B. reflexivity.
  - exfalso. apply H. rewrite map_app. apply in_app_iff. right. left. reflexivity.
Qed.
Lemma add_again n l : In n (nm l) -> add_field V zeros n None false l = Abort.
Proof.
  intros H. unfold add_field. destruct (lookup_cases V n l) as [(A & B)|(l1 & f & l2 & -> & <- & A & B)]; [contradiction|].
  rewrite B. destruct (Z.leb_spec 0 (Z.of_nat (List.length l1))); [reflexivity|lia].
Qed.
Lemma omap_fresh n g : Forall (fun l => ~ In n (nm l)) g -> omap_l (add_field V zeros n None false) g = Ok (map (fun l => l ++ [fresh n]) g).
Proof.
  induction 1 as [|l g H _ IH]; [reflexivity|]. cbn [omap_l]. rewrite add_fresh by exact H. cbn [obind]. rewrite IH. reflexivity.
Qed.
Lemma each_fresh ns : forall g, NoDup ns -> Forall (fun l => forall n, In n ns -> ~ In n (nm l)) g ->
  each_name V (fun n => add_field V zeros n None false) ns g = Ok (map (fun l => l ++ map fresh ns) g).
Proof.
  induction ns as [|n ns IH]; intros g ND H; cbn [each_name map].
  - f_equal. symmetry. rewrite <- (map_id g) at 2. apply map_ext. intros l. apply app_nil_r.
  - rewrite omap_fresh by (eapply Forall_impl; [|exact H]; intros l K; apply K; left; reflexivity). cbn [obind].
    inversion ND; subst. rewrite IH.
    + f_equal. rewrite map_map. apply map_ext. intros l. rewrite <- app_assoc. reflexivity.
    + assumption.
    + apply Forall_map. eapply Forall_impl; [|exact H]. intros l K m Hm J. rewrite map_app in J. apply in_app_iff in J.
      destruct J as [J|[J|[]]]; [apply (K m); [right; exact Hm|exact J]|]. cbn in J. subst m. contradiction.
Qed.
Lemma add_aux_spec g ns : NoDup ns -> Forall (fun a => a <> [] /\ ~ In ","%char a /\ ~ In (ascii_of_N 0) a) ns ->
  Forall (fun l => forall n, In n ns -> ~ In n (nm l)) g ->
  add_aux_fields V zeros g (TextSpec.join_with ","%char ns) = Ok (map (fun l => l ++ map fresh ns) g).
Proof.
  intros ND W H. unfold add_aux_fields. rewrite TextProofs.items_join by (discriminate || assumption). cbn [obind]. apply each_fresh; assumption.
Qed.
Lemma remove_named_spec n l : NoDup (nm l) -> In n (nm l) -> exists l', remove_named V n l = Ok l' /\
  Permutation l' (filter (fun f => negb (str_eqb n (fname f))) l) /\ NoDup (nm l').
Proof.
  intros ND H. unfold remove_named, Ind. destruct (lookup_cases V n l) as [(A & B)|(l1 & f & l2 & E & F & A & B)]; [contradiction|].
  rewrite B. destruct (Z.eqb_spec (Z.of_nat (List.length l1)) INT_MIN) as [K|_]; [unfold INT_MIN in K; lia|]. cbn [obind].
  eexists. split; [reflexivity|]. split; [apply (remove_perm V n l ND)|apply remove_NoDup; exact ND].
Qed.
Lemma omap_remove n g : Forall (fun l => NoDup (nm l) /\ In n (nm l)) g -> exists g', omap_l (remove_named V n) g = Ok g' /\
  Forall2 (fun l l' => Permutation l' (filter (fun f => negb (str_eqb n (fname f))) l) /\ NoDup (nm l')) g g'.
Proof.
  induction 1 as [|l g (H1 & H2) _ (g' & E & F)]; [exists []; split; [reflexivity|constructor]|].
  destruct (remove_named_spec n l H1 H2) as (l' & E' & P & ND). exists (l' :: g'). cbn [omap_l]. rewrite E'. cbn [obind]. rewrite E. split; [reflexivity|].
  constructor; auto.
Qed.
Definition member (n : str) (ns : list str) : bool := existsb (fun m => str_eqb m n) ns.
Lemma each_remove ns : forall g, NoDup ns -> Forall (fun l => NoDup (nm l) /\ forall n, In n ns -> In n (nm l)) g ->
  exists g', each_name V (remove_named V) ns g = Ok g' /\
  Forall2 (fun l l' => Permutation l' (filter (fun f => negb (member (fname f) ns)) l)) g g'.
Proof.
  induction ns as [|n ns IH]; intros g ND H; cbn [each_name].
  - exists g. split; [reflexivity|]. clear. induction g as [|l g IHg]; constructor; [|exact IHg].
    cbn [member existsb negb].
    replace (filter (fun _ : field => true) l) with l; [reflexivity|]. clear. induction l as [|x l IHl]; cbn; [reflexivity|congruence].
  - inversion ND as [|x y Hn ND']; subst. destruct (omap_remove n g) as (g1 & E1 & F1).
    { eapply Forall_impl; [|exact H]. intros l (A & B). split; [exact A|apply B; left; reflexivity]. }
    rewrite E1. cbn [obind]. destruct (IH g1 ND') as (g' & E & F).
    { clear - F1 H Hn. revert H. induction F1 as [|l l' g g1 (P & D) _ IHF]; intros H; [constructor|]. inversion H as [|a b (Ha & Hb) Hc]; subst.
      constructor; [|apply IHF; exact Hc]. split; [exact D|]. intros m Hm.
      eapply Permutation_in; [apply Permutation_map; apply Permutation_sym; exact P|].
      assert (K := Hb m (or_intror Hm)). apply in_map_iff in K. destruct K as (f & Ef & If). apply in_map_iff. exists f. split; [exact Ef|].
      apply filter_In. split; [exact If|]. rewrite (proj2 (str_eqb_neq _ _)); [reflexivity|]. intros ->. rewrite Ef in Hn. contradiction. }
    exists g'. split; [exact E|]. clear - F1 F. revert g' F. induction F1 as [|l l' g g1 (P & D) _ IHF]; intros g' F; inversion F; subst; constructor.
    + eapply perm_trans; [eassumption|]. clear - P. eapply perm_trans; [apply (keep_perm V (fun n => member n ns)); exact P|].
      match goal with |- Permutation ?a ?b => replace a with b; [reflexivity|] end. unfold keep. clear. induction l as [|f l IHl]; [reflexivity|].
      cbn [filter member existsb]. destruct (str_eqb n (fname f)); cbn [negb orb]; [exact IHl|]. cbn [filter]. fold (member (fname f) ns).
      destruct (negb (member (fname f) ns)); [f_equal|]; exact IHl.
    + apply IHF. assumption.
Qed.
Lemma remove_aux_spec g ns : NoDup ns -> Forall (fun a => a <> [] /\ ~ In ","%char a /\ ~ In (ascii_of_N 0) a) ns ->
  Forall (fun l => NoDup (nm l) /\ forall n, In n ns -> In n (nm l)) g ->
  exists g', remove_aux_fields V g (TextSpec.join_with ","%char ns) = Ok g' /\
  Forall2 (fun l l' => Permutation l' (filter (fun f => negb (member (fname f) ns)) l)) g g'.
Proof.
  intros ND W H. unfold remove_aux_fields. rewrite TextProofs.items_join by (discriminate || assumption). cbn [obind]. apply each_remove; assumption.
Qed.
(** adding and then removing the same auxiliary fields gives back the same fields in every patch *)
Theorem aux_add_remove g ns : NoDup ns -> Forall (fun a => a <> [] /\ ~ In ","%char a /\ ~ In (ascii_of_N 0) a) ns ->
  Forall (fun l => NoDup (nm l) /\ forall n, In n ns -> ~ In n (nm l)) g ->
  exists g1 g2, add_aux_fields V zeros g (TextSpec.join_with ","%char ns) = Ok g1 /\
    Forall2 (fun l l1 => forall n, In n (nm l1) <-> In n (nm l) \/ In n ns) g g1 /\
    remove_aux_fields V g1 (TextSpec.join_with ","%char ns) = Ok g2 /\ Forall2 (@Permutation field) g g2.
Proof.
  intros ND W H. assert (H' : Forall (fun l => forall n, In n ns -> ~ In n (nm l)) g) by (eapply Forall_impl; [|exact H]; intros l K; apply K).
  assert (FN : nm (map fresh ns) = ns) by (rewrite map_map; cbn; apply map_id).
  rewrite (add_aux_spec g ns ND W H'). eexists. destruct (remove_aux_spec (map (fun l => l ++ map fresh ns) g) ns ND W) as (g2 & E & F).
  - apply Forall_map. eapply Forall_impl; [|exact H]. intros l (A & B). split.
    + rewrite map_app, FN. clear - A B ND. induction (nm l) as [|x q IH]; [exact ND|]. inversion A; subst. cbn [List.app]. constructor.
      * intros K. apply in_app_iff in K. destruct K as [K|K]; [contradiction|]. apply (B x K). left. reflexivity.
      * apply IH; [assumption|]. intros n Hn K. apply (B n Hn). right. exact K.
    + intros n Hn. rewrite map_app, FN. apply in_app_iff. right. exact Hn.
  - exists g2. split; [reflexivity|]. split.
    + clear - FN. induction g as [|l g IH]; constructor; [|exact IH]. intros n. rewrite map_app, FN. apply in_app_iff.
    + split; [exact E|]. clear E. revert g2 F H'. clear - FN. induction g as [|l g IH]; intros g2 F H'; inversion F; subst; constructor.
      * pose proof (Forall_inv H') as HL. cbv beta in HL. rewrite filter_app in H1. symmetry. eapply perm_trans; [exact H1|].
        match goal with |- Permutation (?a ++ ?b) _ => replace a with l; [replace b with (@nil field)|] end.
        -- rewrite app_nil_r. reflexivity.
        -- clear - FN. symmetry. assert (G : forall f, In f (map fresh ns) -> negb (member (fname f) ns) = false).
           { intros f Hf. apply in_map_iff in Hf. destruct Hf as (n & <- & Hn). cbn. assert (member n ns = true) as ->; [|reflexivity].
             apply existsb_exists. exists n. split; [exact Hn|apply str_eqb_refl]. }
           clear FN. induction (map fresh ns) as [|f q IH]; [reflexivity|]. cbn [filter]. rewrite G by (left; reflexivity). apply IH. intros h Hh. apply G. right. exact Hh.
        -- symmetry. clear - HL. apply (keep_all V (fun n => member n ns) l). intros f Hf. destruct (member (fname f) ns) eqn:E; [|reflexivity].
           apply existsb_exists in E. destruct E as (n & Hn & E). apply str_eqb_eq in E. subst n. exfalso. apply (HL _ Hn). apply in_map. exact Hf.
      * inversion H'; subst. apply IH; assumption.
Qed.
(** a leading comma before a single name makes the call stop *)
Theorem aux_leading_comma g n : n <> [] -> ~ In ","%char n -> ~ In (ascii_of_N 0) n -> g <> [] ->
  Forall (fun l => ~ In n (nm l)) g -> add_aux_fields V zeros g (","%char :: n) = Abort.
Proof.
  intros A B C D H. unfold add_aux_fields. rewrite TextProofs.items_lead_dup by (discriminate || assumption). cbn [obind each_name].
  rewrite omap_fresh by exact H. cbn [obind]. destruct g as [|l g]; [congruence|]. cbn [map omap_l].
  rewrite add_again; [reflexivity|]. rewrite map_app. apply in_app_iff. right. left. reflexivity.
Qed.
End Aux.
Lemma attributes :
  (forall attr a s, add_attribute attr a = Ok s ->
     parenthesised a = true /\ (exists t, s = Some t /\ ParamSpec.contains t a) /\ add_attribute s a = Ok s) /\
  (forall attr a s b, add_attribute attr a = Ok s ->
     match attr with Some t => ParamSpec.contains t b | None => False end ->
     match s with Some t => ParamSpec.contains t b | None => False end) /\
  (forall attr a, parenthesised a = false -> add_attribute attr a = Abort).
Proof.
  split; [|split].
  - intros attr a s H. pose proof (add_attribute_idem _ _ _ H). destruct (add_attribute_spec _ _ _ H) as (P & t & E & C & _). eauto 6.
  - exact add_attribute_keeps.
  - intros attr a H. unfold add_attribute, parenthesised, has_char in *.
    destruct (existsb (ch_eqb "("%char) a), (existsb (ch_eqb ")"%char) a); try discriminate; reflexivity.
Qed.
