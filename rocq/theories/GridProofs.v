(** GridProofs.v - fill_patches gives the inventory; the tags and names of its patches. *)
From Verif Require Import Base ParamText TextModel RegionModel RegionProofs GridModel GridSpec.
Open Scope string_scope.

Lemma words_word w a r : ~ In RP a -> words_from (Some w) (a ++ ")"%char :: r)%list = (w ++ a)%list :: words_from None r.
Proof.
  revert w. induction a as [|c a IH]; intros w H; cbn [app words_from].
  - change (Ascii.eqb ")"%char ")"%char) with true. cbn iota. rewrite app_nil_r. reflexivity.
  - destruct (Ascii.eqb c ")"%char) eqn:E; [apply Ascii.eqb_eq in E; subst; destruct H; left; reflexivity|].
    rewrite IH by (intros I; apply H; right; exact I). rewrite <- app_assoc. reflexivity.
Qed.
Lemma words_tags l : Forall plain l -> words_from None (tags l) = l.
Proof.
  induction 1 as [|a l [_ Ha] Hl IH]; [reflexivity|]. unfold tags. cbn [map List.concat]. fold (tags l). unfold paren. cbn [app words_from].
  change (Ascii.eqb "("%char "("%char) with true. cbn iota. rewrite <- app_assoc. cbn [app]. rewrite words_word by exact Ha. cbn [app]. rewrite IH. reflexivity.
Qed.

Lemma flat_map_map {A B} (f : A -> B) (h : A -> list B) l : (forall a, In a l -> h a = [f a]) -> flat_map h l = map f l.
Proof. induction l as [|a l IH]; intros H; cbn; [reflexivity|]. rewrite (H a) by (left; reflexivity). cbn. f_equal. apply IH. intros b I. apply H. right. exact I. Qed.
Lemma grid3_ext {A} sp (f h : nat -> nat -> nat -> list A) : (forall a b c, f a b c = h a b c) -> grid3 sp f = grid3 sp h.
Proof. intros H. unfold grid3. apply flat_map_ext. intros a. apply flat_map_ext. intros b. apply flat_map_ext. intros c. apply H. Qed.
Lemma concat_o_ok l : concat_o (map (fun x => Ok x) l) = Ok (List.concat l).
Proof. induction l as [|a l IH]; cbn; [reflexivity|]. fold (concat_o (map (fun x => Ok x) l)). rewrite IH. reflexivity. Qed.

Lemma CS_seg sp (o : string) (d : side) (dir : string) l :
  set_object_name o = Ok o -> (match d with NONE => if String.eqb o "outermost" then Ok "NA" else UB | _ => opt_str (StrSide d) end) = Ok dir ->
  (match d with LEFT | RIGHT | CENTER | NONE => true | _ => false end) = true ->
  existsb (fun x => strcmp_i (Some (S_ o)) (Some (S_ x))) cs_objects = true -> filter (fun s => negb (skipped d (String.eqb o "outermost") s)) six = l ->
  populate_CS sp o d = Ok (seg_patches sp (Spheres dir o l)).
Proof.
  intros Ho Hd Hd' Hc Hl. unfold populate_CS. rewrite Ho. cbn [obind]. rewrite Hd. cbn [obind]. rewrite Hc, Hl.
  assert (X : forall d0 d1 d2, flat_map (cs_patch sp dir o d0 d1 d2) l = map (fun sd => mkpatch (SCS_name sp dir o (side_name sd) d0 d1 d2) (cs_region (S_ o) (nc sp) d2) (nodes_c sp)) l).
  { intros. apply flat_map_map. intros s Is. rewrite <- Hl in Is. apply filter_In in Is. destruct Is as [Is _].
    repeat (destruct Is as [<-|Is]; [reflexivity|]). destruct Is. }
  destruct d; try discriminate Hd'; f_equal; cbn [seg_patches]; apply grid3_ext; exact X.
Qed.
Lemma box_seg sp (o : string) (d : side) (dir : string) :
  StrSide d = Some dir -> (let is (x : string) := strcmp_i (Some (S_ o)) (Some (S_ x)) in is "NS" || is "BH" || is "NS1" || is "NS2" || is "BH1" || is "BH2") = true ->
  S_ (dir ++ "_" ++ o) = (S_ dir ++ S_ "_" ++ S_ o)%list -> S_ (dir ++ "_central_box") = (S_ dir ++ S_ "_" ++ S_ "central_box")%list ->
  populate_box sp "central_box" d o = Ok (seg_patches sp (CentralBox dir o)).
Proof.
  intros Hd Hb E1 E2. unfold populate_box. change (set_object_name "central_box") with (Ok "central_box"). cbn [obind]. rewrite Hd. cbn [obind opt_str].
  unfold box_region. cbv zeta in Hb |- *. rewrite Hb. cbn [obind]. cbn [seg_patches]. rewrite E1, E2. reflexivity.
Qed.
Ltac seg := first [eapply CS_seg; reflexivity | eapply box_seg; reflexivity].
Lemma concat_2 l r : Forall2 (fun (x : outcome (list patch)) y => x = Ok y) l r -> concat_o l = Ok (List.concat r).
Proof. induction 1 as [|x y l r E H IH]; [reflexivity|]. subst. cbn. fold (concat_o l). rewrite IH. reflexivity. Qed.
Lemma concat_segs sp l segs : Forall2 (fun (x : outcome (list patch)) s => x = Ok (seg_patches sp s)) l segs -> concat_o l = Ok (flat_map (seg_patches sp) segs).
Proof.
  intros H. rewrite flat_map_concat_map. apply concat_2. induction H as [|x s l r E H IH]; constructor; auto.
Qed.

(** the choices made by the parameters *)
Definition first_left (k : kind) (u : setup) : bool :=
  match k with K_SCS_BHNS => cmps (set_NS u) "left" | K_SCS_NSNS => cmps (set_NS1 u) "left" | K_SCS_BHBH => cmpss (set_BH1 u) "left" | _ => true end.
Definition holes_filled (k : kind) (u : setup) : outcome bool :=
  match k with K_SCS_BHNS | K_SCS_SBH => bh_filled (set_BH u) | K_SCS_BHBH => bhbh_filled u | _ => Ok false end.
Definition centred (k : kind) (u : setup) : bool :=
  match k with K_SCS_SBH => cmpss (set_BH u) "center" | K_SCS_SNS => cmps (set_NS u) "center" | _ => true end.
Lemma filled_not_UB k u : holes_filled k u <> UB.
Proof. unfold holes_filled, bh_filled, bhbh_filled. destruct k; try discriminate; repeat match goal with |- context [if ?b then _ else _] => destruct b end; discriminate. Qed.
Lemma fill_inventory k sp u : scs k ->
  fill_patches k sp u = if centred k u then do f <- holes_filled k u; Ok (flat_map (seg_patches sp) (inventory k (first_left k u) f (outer u))) else Abort.
Proof.
  intros K. unfold scs in K. cbn [In] in K. destruct K as [<-|[<-|[<-|[<-|[<-|[]]]]]]; unfold fill_patches, centred, holes_filled, first_left.
  - destruct (bh_filled (set_BH u)) as [f| |]; try reflexivity. cbn [obind]. destruct (cmps (set_NS u) "left"), (outer u) eqn:O, f; unfold outermosts; rewrite O;
      apply concat_segs; cbn [inventory star halves hole app dir_name negb map black_hole other]; repeat (constructor; [seg|]); constructor.
  - destruct (cmps (set_NS1 u) "left"), (outer u) eqn:O; unfold outermosts; rewrite O; cbn [obind];
      apply concat_segs; cbn [inventory star halves hole app dir_name negb map black_hole other]; repeat (constructor; [seg|]); constructor.
  - destruct (bhbh_filled u) as [f| |]; try reflexivity. cbn [obind]. destruct (cmpss (set_BH1 u) "left"), (outer u) eqn:O, f; unfold outermosts; rewrite O;
      apply concat_segs; cbn [inventory star halves hole app dir_name negb map black_hole other]; repeat (constructor; [seg|]); constructor.
  - destruct (cmps (set_NS u) "center"); [|reflexivity]. destruct (outer u) eqn:O; unfold outermosts; rewrite O; cbn [obind];
      apply concat_segs; cbn [inventory star halves whole hole app dir_name negb map black_hole other]; repeat (constructor; [seg|]); constructor.
  - destruct (cmpss (set_BH u) "center"); [|reflexivity]. destruct (bh_filled (set_BH u)) as [f| |]; try reflexivity. cbn [obind].
    destruct (outer u) eqn:O, f; unfold outermosts; rewrite O;
      apply concat_segs; cbn [inventory star halves whole hole app dir_name negb map black_hole other]; repeat (constructor; [seg|]); constructor.
Qed.

(** membership in the triple loop *)
Lemma in_grid3 {A} sp (f : nat -> nat -> nat -> list A) x : In x (grid3 sp f) <-> exists d0 d1 d2, d0 < na sp /\ d1 < nb sp /\ d2 < nc sp /\ In x (f d0 d1 d2).
Proof.
  unfold grid3. split.
  - intros H. apply in_flat_map in H. destruct H as (d0 & I0 & H). apply in_flat_map in H. destruct H as (d1 & I1 & H). apply in_flat_map in H. destruct H as (d2 & I2 & H).
    apply in_seq in I0, I1, I2. exists d0, d1, d2. repeat split; try lia; assumption.
  - intros (d0 & d1 & d2 & H0 & H1 & H2 & H). apply in_flat_map. exists d0. split; [apply in_seq; lia|]. apply in_flat_map. exists d1. split; [apply in_seq; lia|].
    apply in_flat_map. exists d2. split; [apply in_seq; lia|exact H].
Qed.

(** all the tag lists a piece can have *)
Definition tag_lists (s : segment) : list (list str) :=
  match s with
  | Spheres _ o _ => map (fun b => (S_ o :: (if fst b : bool then [(S_ o ++ S_ "_OB")%list] else []) ++ (if snd b : bool then [(S_ o ++ S_ "_IB")%list] else []))%list) [(true, true); (true, false); (false, true); (false, false)]
  | CentralBox d o => [[S_ o; S_ (d ++ "_" ++ o); S_ (d ++ "_central_box")]]
  end.
Definition seg_plainb (s : segment) : bool := forallb (forallb plainb) (tag_lists s).
Lemma seg_tags sp s p : seg_plainb s = true -> In p (seg_patches sp s) -> In (words p) (tag_lists s) /\ p_region p = tags (words p) /\ Forall plain (words p).
Proof.
  intros P I. assert (PL : forall l, In l (tag_lists s) -> Forall plain l).
  { intros l Il. unfold seg_plainb in P. rewrite forallb_forall in P. specialize (P l Il). rewrite forallb_forall in P. apply Forall_forall. intros t It. apply plainb_ok, P, It. }
  assert (X : exists l, In l (tag_lists s) /\ p_region p = tags l).
  { destruct s as [dir o l|dir o]; cbn [seg_patches] in I; apply in_grid3 in I; destruct I as (d0 & d1 & d2 & _ & _ & L2 & I).
    - apply in_map_iff in I. destruct I as (sd & <- & _). cbn [p_region]. exists (cs_tags (S_ o) (nc sp) d2). split; [|apply cs_region_tags, L2].
      unfold cs_tags, tag_lists. destruct (d2 =? nc sp - 1)%nat, (d2 =? 0)%nat; cbn; tauto.
    - destruct I as [<-|[]]. cbn [p_region]. eexists. split; [left; reflexivity|]. unfold tags. cbn [map List.concat]. rewrite app_nil_r. reflexivity. }
  destruct X as (l & Il & E). assert (W : words p = l) by (unfold words; rewrite E; apply words_tags, PL, Il). rewrite W. auto.
Qed.
Lemma inventory_plain k a b c : forallb seg_plainb (inventory k a b c) = true.
Proof. destruct k, a, b, c; vm_compute; reflexivity. Qed.
