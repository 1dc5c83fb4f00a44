(** GridCover.v - on the grids that are built, the volume and surface parts of an observable cover the grid. *)
From Verif Require Import Base ParamText TextModel RegionModel RegionProofs GenObsDisp ObsDispModel ObsDispSpec ObsDispProofs ObsDispTables GridModel GridSpec GridProofs.
Open Scope string_scope.

Lemma grid_tagged k sp u g : scs k -> fill_patches k sp u = Ok g ->
  exists f, holes_filled k u = Ok f /\ centred k u = true /\ g = flat_map (seg_patches sp) (inventory k (first_left k u) f (outer u)) /\
  Forall (tagged words) g /\ (forall p, In p g -> In (words p) (flat_map tag_lists (inventory k (first_left k u) f (outer u)))).
Proof.
  intros K E. rewrite (fill_inventory k sp u K) in E. destruct (centred k u); [|discriminate]. destruct (holes_filled k u) as [f| |]; try discriminate.
  cbn [obind] in E. injection E as <-. exists f. split; [reflexivity|]. split; [reflexivity|]. split; [reflexivity|].
  assert (P := inventory_plain k (first_left k u) f (outer u)). rewrite forallb_forall in P. split.
  - apply Forall_forall. intros p I. apply in_flat_map in I. destruct I as (s & Is & I). apply (seg_tags sp s p (P s Is)) in I. split; tauto.
  - intros p I. apply in_flat_map in I. destruct I as (s & Is & I). apply in_flat_map. exists s. split; [exact Is|]. apply (seg_tags sp s p (P s Is)) in I. tauto.
Qed.

Definition hasl (l : list string) (w : list str) : bool := existsb (fun t => if in_dec (list_eq_dec ascii_dec) (S_ t) w then true else false) l.
Lemma has_hasl l p : has words l p = hasl l (words p). Proof. reflexivity. Qed.
Definition same_on (f h : list str -> bool) (segs : list segment) : bool := forallb (fun w => Bool.eqb (f w) (h w)) (flat_map tag_lists segs).
Lemma filter_same f h segs g : same_on f h segs = true -> (forall p, In p g -> In (words p) (flat_map tag_lists segs)) -> filter (fun p => f (words p)) g = filter (fun p => h (words p)) g.
Proof.
  intros S I. unfold same_on in S. rewrite forallb_forall in S. induction g as [|p g IH]; [reflexivity|]. cbn [filter].
  specialize (S (words p) (I p (or_introl eq_refl))) as E. apply Bool.eqb_prop in E. rewrite E. rewrite IH by (intros x J; apply I; right; exact J). reflexivity.
Qed.
(** a piece of cubed spheres has a patch on its inner and on its outer boundary *)
Lemma has_inner sp d o l segs : In (Spheres d o (UP :: l)) segs -> seg_plainb (Spheres d o (UP :: l)) = true -> 0 < na sp -> 0 < nb sp -> 0 < nc sp ->
  exists p, In p (flat_map (seg_patches sp) segs) /\ In (S_ o) (words p) /\ In (S_ o ++ S_ "_IB")%list (words p).
Proof.
  intros I P H0 H1 H2. set (p := mkpatch (SCS_name sp d o (side_name UP) 0 0 0) (cs_region (S_ o) (nc sp) 0) (nodes_c sp)).
  assert (J : In p (seg_patches sp (Spheres d o (UP :: l)))) by (apply in_grid3; exists 0, 0, 0; repeat split; try assumption; left; reflexivity).
  exists p. split; [apply in_flat_map; eauto|]. destruct (seg_tags sp _ p P J) as (_ & E & Pl).
  assert (W : words p = cs_tags (S_ o) (nc sp) 0).
  { unfold words. subst p. cbn [p_region]. rewrite cs_region_tags by exact H2. apply words_tags. unfold seg_plainb in P. rewrite forallb_forall in P.
    assert (X : In (cs_tags (S_ o) (nc sp) 0) (tag_lists (Spheres d o (UP :: l)))) by (unfold cs_tags, tag_lists; destruct (0 =? nc sp - 1)%nat; cbn; tauto).
    specialize (P _ X). rewrite forallb_forall in P. apply Forall_forall. intros t It. apply plainb_ok, P, It. }
  rewrite W. unfold cs_tags. cbn [Nat.eqb]. split; [left; reflexivity|]. right. apply in_or_app. right. left. reflexivity.
Qed.
Lemma has_outer sp d o l segs : In (Spheres d o (UP :: l)) segs -> seg_plainb (Spheres d o (UP :: l)) = true -> 0 < na sp -> 0 < nb sp -> 0 < nc sp ->
  exists p, In p (flat_map (seg_patches sp) segs) /\ In (S_ o) (words p) /\ In (S_ o ++ S_ "_OB")%list (words p).
Proof.
  intros I P H0 H1 H2. set (p := mkpatch (SCS_name sp d o (side_name UP) 0 0 (nc sp - 1)) (cs_region (S_ o) (nc sp) (nc sp - 1)) (nodes_c sp)).
  assert (L : nc sp - 1 < nc sp) by lia.
  assert (J : In p (seg_patches sp (Spheres d o (UP :: l)))) by (apply in_grid3; exists 0, 0, (nc sp - 1); repeat split; try assumption; left; reflexivity).
  exists p. split; [apply in_flat_map; eauto|].
  assert (W : words p = cs_tags (S_ o) (nc sp) (nc sp - 1)).
  { unfold words. subst p. cbn [p_region]. rewrite cs_region_tags by exact L. apply words_tags. unfold seg_plainb in P. rewrite forallb_forall in P.
    assert (X : In (cs_tags (S_ o) (nc sp) (nc sp - 1)) (tag_lists (Spheres d o (UP :: l)))) by (unfold cs_tags, tag_lists; rewrite Nat.eqb_refl; destruct (nc sp - 1 =? 0)%nat; cbn; tauto).
    specialize (P _ X). rewrite forallb_forall in P. apply Forall_forall. intros t It. apply plainb_ok, P, It. }
  rewrite W. unfold cs_tags. rewrite Nat.eqb_refl. split; [left; reflexivity|]. right. apply in_or_app. left. left. reflexivity.
Qed.
Definition present (l : list string) (segs : list segment) : bool :=
  match l with [] => true | _ =>
  existsb (fun s => match s with Spheres _ o (UP :: _) => existsb (fun t => str_eqb (S_ t) (S_ o) || str_eqb (S_ t) (S_ o ++ S_ "_IB")%list || str_eqb (S_ t) (S_ o ++ S_ "_OB")%list) l | _ => false end) segs end.
Lemma not_empty sp l segs : present l segs = true -> forallb seg_plainb segs = true -> 0 < na sp -> 0 < nb sp -> 0 < nc sp -> empty_region words (flat_map (seg_patches sp) segs) l = false.
Proof.
  intros H P H0 H1 H2. unfold present in H. destruct l as [|t0 l0]; [reflexivity|]. cbn [empty_region]. apply negb_false_iff. revert H. generalize (t0 :: l0). intros l H.
  apply existsb_exists in H. destruct H as (s & Is & H). destruct s as [d o [|[] ls]|d o]; try discriminate. rewrite forallb_forall in P. specialize (P _ Is).
  apply existsb_exists in H. destruct H as (t & It & H). apply orb_true_iff in H. destruct H as [H|H].
  - destruct (has_inner sp d o ls segs Is P H0 H1 H2) as (p & Ip & A & B). apply existsb_exists. exists p. split; [exact Ip|]. rewrite has_hasb. apply hasb_spec. exists (S_ t).
    split; [apply in_map, It|]. apply orb_true_iff in H. destruct H as [H|H]; apply str_eqb_eq in H; rewrite H; assumption.
  - destruct (has_outer sp d o ls segs Is P H0 H1 H2) as (p & Ip & A & B). apply existsb_exists. exists p. split; [exact Ip|]. rewrite has_hasb. apply hasb_spec. exists (S_ t).
    split; [apply in_map, It|]. apply str_eqb_eq in H; rewrite H; assumption.
Qed.

Definition is_volume (i : item) : bool := match it_face i with None => true | Some _ => false end.
Definition outside (enc : list string) (p : patch) : bool := negb (memb (owner p) (map S_ enc)).
Definition bounds (enc : list string) (p : patch) : bool := existsb (fun o => memb (S_ o ++ S_ "_around_IB")%list (words p)) enc.
Definition covers_row (r : row) (encV enc : list string) (segs : list segment) : bool :=
  same_on (hasl (r_volume r)) (fun w => negb (memb (hd [] w) (map S_ encV))) segs
  && same_on (hasl (map fst (r_surface r))) (fun w => existsb (fun o => memb (S_ o ++ S_ "_around_IB")%list w) enc) segs
  && forallb (fun x => match snd x with First => true | Last => false end) (r_surface r)
  && present (r_volume r) segs && present (map fst (r_surface r)) segs.
Lemma filter_none {A} (f : A -> bool) l : (forall a, In a l -> f a = false) -> filter f l = [].
Proof. induction l as [|a l IH]; intros H; cbn; [reflexivity|]. rewrite (H a) by (left; reflexivity). apply IH. intros b I. apply H. right. exact I. Qed.
Lemma filter_all {A} (f : A -> bool) l : (forall a, In a l -> f a = true) -> filter f l = l.
Proof. induction l as [|a l IH]; intros H; cbn; [reflexivity|]. rewrite (H a) by (left; reflexivity). f_equal. apply IH. intros b I. apply H. right. exact I. Qed.
Lemma items_split g r : (forall p, In p g -> has words (map fst (r_surface r)) p = true -> face_of words (r_surface r) p = Some First) ->
  map it_patch (filter is_volume (items_of_row words g r)) = filter (has words (r_volume r)) g /\
  filter (fun i => negb (is_volume i)) (items_of_row words g r) = map (fun p => mkitem p (Some First) (r_metric r) (Some (r_metric r))) (filter (has words (map fst (r_surface r))) g).
Proof.
  intros F. unfold items_of_row. rewrite !filter_app.
  rewrite (filter_all is_volume (map _ (filter (has words (r_volume r)) g))) by (intros i I; apply in_map_iff in I; destruct I as (p & <- & _); reflexivity).
  rewrite (filter_none (fun i => negb (is_volume i)) (map _ (filter (has words (r_volume r)) g))) by (intros i I; apply in_map_iff in I; destruct I as (p & <- & _); reflexivity).
  assert (E : map (fun p => mkitem p (face_of words (r_surface r) p) (r_metric r) (Some (r_metric r))) (filter (has words (map fst (r_surface r))) g)
    = map (fun p => mkitem p (Some First) (r_metric r) (Some (r_metric r))) (filter (has words (map fst (r_surface r))) g)).
  { apply map_ext_in. intros p I. apply filter_In in I. rewrite F by tauto. reflexivity. }
  rewrite E. rewrite (filter_none is_volume), (filter_all (fun i => negb (is_volume i))) by (intros i I; apply in_map_iff in I; destruct I as (p & <- & _); reflexivity).
  rewrite app_nil_r, map_map. cbn [it_patch app]. rewrite map_id. auto.
Qed.
Lemma row_covers k sp u g r encV enc : scs k -> fill_patches k sp u = Ok g -> 0 < na sp -> 0 < nb sp -> 0 < nc sp ->
  (forall a b c, covers_row r encV enc (inventory k a b c) = true) ->
  expected words g r = Ok (items_of_row words g r, r_formula r) /\
  map it_patch (filter is_volume (items_of_row words g r)) = filter (outside encV) g /\
  filter (fun i => negb (is_volume i)) (items_of_row words g r) = map (fun p => mkitem p (Some First) (r_metric r) (Some (r_metric r))) (filter (bounds enc) g).
Proof.
  intros K E H0 H1 H2 C. destruct (grid_tagged k sp u g K E) as (f & _ & _ & Eg & Tg & W). specialize (C (first_left k u) f (outer u)).
  assert (P := inventory_plain k (first_left k u) f (outer u)). unfold covers_row in C.
  apply andb_true_iff in C. destruct C as [C C5]. apply andb_true_iff in C. destruct C as [C C4]. apply andb_true_iff in C. destruct C as [C C3]. apply andb_true_iff in C. destruct C as [C1 C2].
  split.
  - unfold expected. rewrite Eg at 1 2. rewrite !not_empty by assumption. reflexivity.
  - destruct (items_split g r) as [S1 S2].
    + intros p _ H. apply face_all; [exact H|]. rewrite forallb_forall in C3 |- *. intros x Ix. specialize (C3 x Ix). destruct (snd x); [reflexivity|discriminate].
    + rewrite S1, S2. split.
      * exact (filter_same _ _ _ g C1 W).
      * f_equal. exact (filter_same _ _ _ g C2 W).
Qed.

(** grid kind, quantity, method, and the objects that are replaced by the surface around them *)
Definition covered : list (kind * string * string * list string) := [
  (K_SCS_BHNS, "ADM(P)|BHNS", "S+V,Rashti", ["BH"]); (K_SCS_BHNS, "ADM(P)|BHNS", "S+V,constraint", ["NS"; "BH"]); (K_SCS_BHNS, "ADM(J)|BHNS", "S+V,constraint", ["NS"; "BH"]);
  (K_SCS_BHNS, "ADM(M)|BHNS", "S+V,default", ["BH"]); (K_SCS_BHNS, "ADM(M)|BHNS", "S+V,conformal", ["BH"]);
  (K_SCS_BHBH, "ADM(J)|BHBH", "S+V,constraint", ["BH1"; "BH2"]); (K_SCS_BHBH, "ADM(M)|BHBH", "S+V,default", ["BH1"; "BH2"]); (K_SCS_BHBH, "ADM(M)|BHBH", "S+V,conformal", ["BH1"; "BH2"]);
  (K_SCS_NSNS, "ADM(P)|NSNS", "S+V,Rashti", []); (K_SCS_NSNS, "ADM(J)|NSNS", "S+V,constraint", ["NS1"; "NS2"]);
  (K_SCS_NSNS, "ADM(M)|NSNS", "S+V,default", []); (K_SCS_NSNS, "ADM(M)|NSNS", "S+V,conformal", []);
  (K_SCS_SNS, "ADM(P)|SNS", "S+V,Rashti", []); (K_SCS_SNS, "ADM(J)|SNS", "S+V,constraint", ["NS"]); (K_SCS_SNS, "ADM(M)|SNS", "S+V,default", []); (K_SCS_SNS, "ADM(M)|SNS", "S+V,conformal", []);
  (K_SCS_SBH, "ADM(P)|SBH", "S+V,Rashti", ["BH"]); (K_SCS_SBH, "ADM(M)|SBH", "S+V,default", ["BH"]) ].
(** momentum with the constraint method: the stars are in the volume and their surfaces are added as well *)
Definition counted_twice : list (kind * string * string * list string) :=
  [ (K_SCS_NSNS, "ADM(P)|NSNS", "S+V,constraint", ["NS1"; "NS2"]); (K_SCS_SNS, "ADM(P)|SNS", "S+V,constraint", ["NS"]) ].
Lemma cover_gen k q m encV enc sp u g n1 : (In (k, q, m, enc) covered /\ encV = enc \/ In (k, q, m, enc) counted_twice /\ encV = []) -> fill_patches k sp u = Ok g -> 0 < na sp -> 0 < nb sp -> 0 < nc sp ->
  exists its f mt, obs_calculate k g (S_ q) (S_ m) n1 = Ok (Items (its, f)) /\
    map it_patch (filter is_volume its) = filter (outside encV) g /\
    filter (fun i => negb (is_volume i)) its = map (fun p => mkitem p (Some First) mt (Some mt)) (filter (bounds enc) g).
Proof.
  intros I E H0 H1 H2.
  assert (X : forall r, scs k -> (forall a b c, covers_row r encV enc (inventory k a b c) = true) -> obs_calculate k g (S_ q) (S_ m) n1 = (do x <- expected words g r; Ok (Items x)) ->
    exists its f mt, obs_calculate k g (S_ q) (S_ m) n1 = Ok (Items (its, f)) /\
    map it_patch (filter is_volume its) = filter (outside encV) g /\
    filter (fun i => negb (is_volume i)) its = map (fun p => mkitem p (Some First) mt (Some mt)) (filter (bounds enc) g)).
  { intros r K C O. destruct (row_covers k sp u g r encV enc K E H0 H1 H2 C) as (A1 & A2 & A3). rewrite A1 in O. cbn [obind] in O.
    exists (items_of_row words g r), (r_formula r), (r_metric r). auto. }
  assert (K : scs k) by (clear - I; unfold scs; destruct I as [[I _]|[I _]]; cbn [covered counted_twice In] in I; repeat (destruct I as [I|I]; [injection I as <- _ _ _; cbn; tauto|]); destruct I).
  assert (Tg : Forall (tagged words) g) by (destruct (grid_tagged k sp u g K E) as (f & _ & _ & _ & T & _); exact T).
  assert (XP : forall r q0 m0, q = q0 -> m = m0 -> (strstr_i (Some (S_ q0)) (Some (S_ "ADM(P)|")) = true) -> row_for (table_P k n1) (S_ q0) (S_ m0) = Some r ->
    obs_calculate k g (S_ q) (S_ m) n1 = (do x <- expected words g r; Ok (Items x))).
  { intros r q0 m0 -> -> S R. unfold obs_calculate. rewrite S, (P_table words k g n1 K Tg). unfold by_table. rewrite R. reflexivity. }
  assert (XJ : forall r q0 m0, q = q0 -> m = m0 -> (strstr_i (Some (S_ q0)) (Some (S_ "ADM(P)|")) = false) -> (strstr_i (Some (S_ q0)) (Some (S_ "ADM(J)|")) = true) -> row_for (rows_J n1) (S_ q0) (S_ m0) = Some r ->
    obs_calculate k g (S_ q) (S_ m) n1 = (do x <- expected words g r; Ok (Items x))).
  { intros r q0 m0 -> -> S0 S R. unfold obs_calculate. rewrite S0, S, (J_table words k g n1 K Tg). unfold by_table. rewrite R. reflexivity. }
  assert (XM : forall r q0 m0, q = q0 -> m = m0 -> (strstr_i (Some (S_ q0)) (Some (S_ "ADM(P)|")) = false) -> (strstr_i (Some (S_ q0)) (Some (S_ "ADM(J)|")) = false) -> (strstr_i (Some (S_ q0)) (Some (S_ "ADM(M)|")) = true) -> row_for rows_M (S_ q0) (S_ m0) = Some r ->
    obs_calculate k g (S_ q) (S_ m) n1 = (do x <- expected words g r; Ok (Items x))).
  { intros r q0 m0 -> -> S0 S1 S R. unfold obs_calculate. rewrite S0, S1, S, (M_table words k g n1 K Tg). unfold by_table. rewrite R. reflexivity. }
  clear Tg. destruct I as [[I ->]|[I ->]]; cbn [covered counted_twice In] in I;
  repeat (destruct I as [I|I]; [injection I as <- <- <- <-; (destruct n1;
    (eapply X; [exact K| |first [eapply XP; [reflexivity|reflexivity|vm_compute; reflexivity|vm_compute; reflexivity]
                               |eapply XJ; [reflexivity|reflexivity|vm_compute; reflexivity|vm_compute; reflexivity|vm_compute; reflexivity]
                               |eapply XM; [reflexivity|reflexivity|vm_compute; reflexivity|vm_compute; reflexivity|vm_compute; reflexivity|vm_compute; reflexivity]]];
       intros [] [] []; vm_compute; reflexivity))|]); destruct I.
Qed.
(** the momentum of two black holes: every method with a volume part stops the program *)
Lemma BHBH_P_stops k g n1 m : scs k -> Forall (tagged words) g -> In m ["S+V,Rashti"; "S+V,constraint"] \/ (m = "S+V,Ossokine" /\ n1 = false) ->
  obs_calculate k g (S_ "ADM(P)|BHBH") (S_ m) n1 = Abort.
Proof.
  intros K Tg H. unfold obs_calculate. change (strstr_i (Some (S_ "ADM(P)|BHBH")) (Some (S_ "ADM(P)|"))) with true. cbv iota.
  rewrite (P_table words k g n1 K Tg). unfold by_table. unfold scs in K. cbn [In] in K.
  assert (R : row_for (table_P k n1) (S_ "ADM(P)|BHBH") (S_ m) = None).
  { destruct H as [[<-|[<-|[]]]|[-> ->]]; try destruct n1; destruct K as [<-|[<-|[<-|[<-|[<-|[]]]]]]; vm_compute; reflexivity. }
  rewrite R. reflexivity.
Qed.
