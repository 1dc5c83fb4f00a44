(** CheckpointFinal.v - proofs of C18, C19, C20, C22. *)
From Verif Require Import Base ParamModel ParamText TextModel TextProofs CheckpointModel CheckpointProofs CheckpointSpec.
Local Arguments NUL : simpl never.
Local Arguments N.of_nat : simpl never.
Local Arguments N.to_nat : simpl never.

(** *** words *)
Lemma snoc_cases {A} (a : list A) : {a = []} + {exists b c, a = b ++ [c]}.
Proof.
  destruct a as [|x a]; [left; reflexivity|right].
  destruct (@exists_last _ (x :: a)) as (b & c & E); [discriminate|]. exists b, c. exact E.
Qed.
Lemma bsearch_spec name : forall s p, name <> [] ->
  bsearch p name s = true <->
  exists a b, s = a ++ name ++ b /\
    (match a with [] => p = false | _ => forall a' c, a = a' ++ [c] -> is_word c = false end) /\
    word_start b = false.
Proof.
  intros s. induction s as [|c s IH]; intros p Hn; cbn [bsearch].
  - rewrite orb_false_r, !andb_true_iff, !negb_true_iff. split.
    + intros ((Hp & HP) & W). apply is_prefix_spec in HP. destruct HP as [r E]. destruct name; [congruence|discriminate].
    + intros (a & b & E & _). destruct a, name; try discriminate. congruence.
  - rewrite orb_true_iff, IH by exact Hn. rewrite !andb_true_iff, !negb_true_iff. split.
    + intros [((Hp & HP) & W)|(a & b & -> & Ha & Hb)].
      * apply is_prefix_spec in HP. destruct HP as [r E]. exists [], r. split; [exact E|]. split; [exact Hp|].
        rewrite E, skipn_app_l in W. exact W.
      * exists (c :: a), b. split; [reflexivity|]. split; [|exact Hb].
        intros a' d E. destruct a as [|x a].
        -- destruct a' as [|y a']; [injection E as ->; exact Ha|].
           injection E as _ E. destruct a'; discriminate.
        -- destruct a' as [|y a']; [discriminate|]. injection E as _ E. eapply Ha. exact E.
    + intros (a & b & E & Ha & Hb). destruct a as [|x a].
      * left. cbn [List.app] in E. rewrite E. rewrite is_prefix_app, skipn_app_l. auto.
      * right. injection E as <- ->. exists a, b. split; [reflexivity|]. split; [|exact Hb].
        destruct a as [|y a]; [apply (Ha [] c); reflexivity|].
        intros a' d E. apply (Ha (c :: a') d). rewrite E. reflexivity.
Qed.
Lemma listed_spec name lst : name <> [] -> listed name lst = true <-> is_word_of name lst.
Proof.
  intros Hn. unfold listed. rewrite bsearch_spec by exact Hn. unfold is_word_of. split.
  - intros (a & b & E & Ha & Hb). exists a, b. split; [exact E|]. split.
    + intros a' c Ea. destruct a as [|x a]; [destruct a'; discriminate|]. eapply Ha; exact Ea.
    + intros c b' ->. exact Hb.
  - intros (a & b & E & Ha & Hb). exists a, b. split; [exact E|]. split.
    + destruct a; [reflexivity|exact Ha].
    + destruct b as [|c b]; [reflexivity|]. cbn. eapply Hb; reflexivity.
Qed.

(** *** the header *)
Lemma occurs_split (pat p1 k a b : str) c : ~ In c pat -> a ++ pat ++ b = p1 ++ c :: k -> pat <> [] ->
  (exists x y, p1 = x ++ pat ++ y) \/ (exists x y, k = x ++ pat ++ y).
Proof.
  intros Hc. revert a. induction p1 as [|d p1 IH]; intros a E Hne; cbn [List.app] in E.
  - right. destruct a as [|x a].
    + destruct pat as [|y pat]; [congruence|]. injection E as -> _. exfalso. apply Hc. left. reflexivity.
    + injection E as _ <-. exists a, b. reflexivity.
  - destruct a as [|x a].
    + left. clear IH. cbn [List.app] in E. exists [].
      assert (G : forall pat p, ~ In c pat -> pat ++ b = p ++ c :: k -> exists y, p = pat ++ y).
      { clear. induction pat as [|x pat IH]; intros p H E; [exists p; reflexivity|].
        destruct p as [|y p]; cbn in E.
        - injection E as -> _. exfalso. apply H. left. reflexivity.
        - injection E as -> E. destruct (IH p) as [z ->]; [intros K; apply H; right; exact K|exact E|]. exists z. reflexivity. }
      destruct (G pat (d :: p1) Hc E) as [y ->]. exists y. reflexivity.
    + injection E as -> E. destruct (IH a E Hne) as [(u & v & ->)|H]; [left|right; exact H].
      exists (d :: u), v. reflexivity.
Qed.
Lemma not_contains_prefix (p1 pat k : str) c : ~ In c pat -> pat <> [] -> contains_b p1 pat = false ->
  (forall a b, k <> a ++ pat ++ b) -> contains_b (p1 ++ c :: k) pat = false.
Proof.
  intros H1 H2 H3 H4. unfold contains_b at 1. destruct (strstr (p1 ++ c :: k) pat) as [[u v]|] eqn:E; [exfalso|reflexivity].
  apply strstr_contains in E. destruct E as (a & b & E). symmetry in E.
  destruct (occurs_split pat p1 k a b c H1 E H2) as [(x & y & ->)|(x & y & ->)].
  - rewrite contains_b_app in H3. discriminate.
  - eapply H4. reflexivity.
Qed.
Lemma word_without_kind_ok k : word_without k -> kind_ok k.
Proof.
  intros (H1 & H2 & H3 & H4). repeat split; try assumption.
  - change (S_ "grid_kind=" ++ k) with (S_ "grid_kind" ++ "="%char :: k).
    apply not_contains_prefix; [apply notin_dec; reflexivity|discriminate|reflexivity|exact H3].
  - change (S_ "grid_kind=" ++ k) with (S_ "grid_kind" ++ "="%char :: k).
    apply not_contains_prefix; [apply notin_dec; reflexivity|discriminate|reflexivity|exact H4].
Qed.

(** *** fields *)
Definition fld_ok (nn : N) (x : fld) : Prop :=
  str_ok (Some (f_name x)) /\ arr_ok (f_v x) nn.
Definition upd (x : fld) (l : list fld) : list fld :=
  map (fun y => if str_eqb (f_name y) (f_name x) then mkFld (f_name y) (f_v x) else y) l.
Lemma upd_names x l : map f_name (upd x l) = map f_name l.
Proof.
  unfold upd. rewrite map_map. apply map_ext. intros y. destruct (str_eqb _ _); reflexivity.
Qed.
Lemma r_w_fields nn sel : u32 nn -> Forall (fld_ok nn) sel ->
  exists b, oconcat (w_field nn) sel = Ok b /\
  forall l f, NoDup (map f_name l) -> incl (map f_name sel) (map f_name l) ->
    r_fields (List.length sel) l (b ++ f) = Ok (fold_left (fun l x => upd x l) sel l, f).
Proof.
  intros Hu. induction 1 as [|x sel Hx Hs IH]; cbn [oconcat List.length r_fields].
  - eexists. split; [reflexivity|]. reflexivity.
  - destruct Hx as [X1 X2]. destruct (wP_arr_ok _ _ X2 Hu) as (ba & Ea & Ra).
    destruct IH as (bs & Es & Rs). unfold w_field at 1. rewrite Ea. cbn [obind]. rewrite Es. cbn [obind].
    eexists. split; [reflexivity|]. intros l f ND HI.
    rewrite <- !app_assoc, (rP_str_wP _ _ X1). cbn [obind fst snd].
    rewrite Ra. cbn [obind fst snd].
    rewrite set_field_ok; [|exact ND|apply HI; left; reflexivity].
    cbn [obind]. fold (upd x l). rewrite Rs.
    + reflexivity.
    + rewrite upd_names. exact ND.
    + rewrite upd_names. intros n Hn. apply HI. right. exact Hn.
Qed.
Lemma fold_upd_names sel : forall l, map f_name (fold_left (fun l x => upd x l) sel l) = map f_name l.
Proof. induction sel as [|x sel IH]; intros l; cbn [fold_left]; [reflexivity|]. rewrite IH. apply upd_names. Qed.

(** the effect of all updates, field by field *)
Lemma fold_upd_spec sel : NoDup (map f_name sel) -> forall l,
  Forall2 (fun x x' => f_name x' = f_name x /\
     (forall y, In y sel -> f_name y = f_name x -> f_v x' = f_v y) /\
     (~ In (f_name x) (map f_name sel) -> f_v x' = f_v x))
   l (fold_left (fun l x => upd x l) sel l).
Proof.
  induction sel as [|x sel IH]; intros ND l.
  - cbn [fold_left]. induction l as [|z l IHl]; constructor; [|exact IHl].
    split; [reflexivity|]. split; [intros y []|reflexivity].
  - inversion ND as [|a b Hn Hd]; subst. cbn [fold_left]. specialize (IH Hd (upd x l)).
    revert IH. generalize (fold_left (fun l x => upd x l) sel (upd x l)). intros l'. unfold upd.
    revert l'. induction l as [|z l IHl]; intros l' F; inversion F as [|u v lu lv Huv Hl]; subst; constructor.
    + clear IHl. destruct Huv as (U1 & U2 & U3).
      destruct (str_eqb (f_name z) (f_name x)) eqn:E.
      * apply str_eqb_eq in E. cbn [f_name f_v] in *. split; [exact U1|]. split.
        -- intros y [<-|Hy] Ey.
           ++ apply U3. rewrite E. exact Hn.
           ++ apply U2; assumption.
        -- intros K. exfalso. apply K. left. symmetry. exact E.
      * apply str_eqb_neq in E. split; [exact U1|]. split.
        -- intros y [<-|Hy] Ey; [congruence|]. apply U2; assumption.
        -- intros K. apply U3. intros K'. apply K. right. exact K'.
    + apply IHl. exact Hl.
Qed.

Lemma selected_spec lst saved x : f_name x <> [] -> In x saved ->
  (In x (filter (selected lst) saved) <-> (exists v, f_v x = Some v) /\ is_word_of (f_name x) lst).
Proof.
  intros Hn Hx. rewrite filter_In. unfold selected. destruct (f_v x) as [v|].
  - rewrite listed_spec by exact Hn. split; [intros [_ H]; split; [eexists; reflexivity|exact H]|intros [_ H]; auto].
  - split; [intros [_ H]; discriminate|intros [[v E] _]; discriminate].
Qed.

Lemma filter_NoDup_names (P : fld -> bool) l : NoDup (map f_name l) -> NoDup (map f_name (filter P l)).
Proof.
  induction l as [|x l IH]; intros H; [constructor|]. inversion H as [|a b Hn Hd]; subst. cbn [filter].
  destruct (P x); [|apply IH; exact Hd]. cbn [map]. constructor; [|apply IH; exact Hd].
  intros K. apply Hn. apply in_map_iff in K. destruct K as (y & E & Hy). apply filter_In in Hy.
  apply in_map_iff. exists y. split; [exact E|apply Hy].
Qed.

Lemma patch_round_trip lst q : storable_patch q -> ~ In [] (map f_name (snd q)) ->
  exists b, w_patch lst q = Ok b /\
  forall t f, receives lst (snd q) t ->
  exists t', (do c <- rV (b ++ f) sizeof_uint; r_fields (N.to_nat (fst c)) t (snd c)) = Ok (t', f) /\
             Forall2 (restored lst (snd q)) t t'.
Proof.
  destruct q as [nn saved]. cbn [fst snd]. intros (H1 & H2 & H3 & H4) Hne. cbn [fst snd] in H1, H2, H3, H4.
  unfold w_patch. cbn [fst snd]. set (sel := filter (selected lst) saved).
  assert (NE : forall x, In x saved -> f_name x <> []).
  { intros x Hx E. apply Hne. rewrite <- E. apply in_map. exact Hx. }
  assert (SF : Forall (fld_ok nn) sel).
  { apply Forall_forall. intros x Hx. apply filter_In in Hx. rewrite Forall_forall in H4. apply (H4 x (proj1 Hx)). }
  destruct (r_w_fields nn sel H1 SF) as (b & Eb & Rb). rewrite Eb. cbn [obind].
  eexists. split; [reflexivity|]. intros t f (T1 & T2).
  assert (LE : List.length sel <= List.length saved).
  { unfold sel. clear. induction saved as [|x l IH]; cbn [filter List.length]; [lia|]. destruct (selected lst x); cbn [List.length]; lia. }
  rewrite <- app_assoc, rV_uint.
  2:{ unfold to_size, u32. apply N.mod_lt. lia. }
  cbn [obind fst snd]. unfold to_size. rewrite N.mod_small by (change (2 ^ 32)%N with 4294967296%N in *; lia). rewrite Nnat.Nat2N.id.
  rewrite Rb.
  - eexists. split; [reflexivity|].
    assert (F := fold_upd_spec sel (filter_NoDup_names _ _ H3) t).
    revert F. generalize (fold_left (fun l x => upd x l) sel t). clear - NE H3. intros t' F.
    induction F as [|x x' t t' (A & B & C) F IH]; constructor; [|exact IH].
    split; [exact A|]. split.
    + intros v Hv W. rewrite (B (mkFld (f_name x) (Some v))); [reflexivity| |reflexivity].
      apply selected_spec; [apply (NE _ Hv)|exact Hv|]. cbn. split; [eexists; reflexivity|exact W].
    + intros K. apply C. intros Hs. apply in_map_iff in Hs. destruct Hs as (y & Ey & Hy).
      assert (Hy' := Hy). apply filter_In in Hy'. destruct Hy' as [Hy' _].
      apply selected_spec in Hy; [|apply (NE _ Hy')|exact Hy']. destruct Hy as [[v Ev] W].
      apply (K v). rewrite <- Ey. split; [|exact W]. destruct y as [yn yv]. cbn in *. subst yv. exact Hy'.
  - exact T1.
  - intros n Hn. apply in_map_iff in Hn. destruct Hn as (y & <- & Hy).
    assert (Hy' := Hy). apply filter_In in Hy'. destruct Hy' as [Hy' _].
    apply selected_spec in Hy; [|apply (NE _ Hy')|exact Hy']. destruct Hy as [[v Ev] W].
    apply (T2 (f_name y) v); [|exact W]. destruct y as [yn yv]. cbn in *. subst yv. exact Hy'.
Qed.

Lemma patches_round_trip lst ps : Forall storable_patch ps -> Forall (fun q => ~ In [] (map f_name (snd q))) ps ->
  exists b, oconcat (w_patch lst) ps = Ok b /\
  forall ts f, Forall2 (receives lst) (map snd ps) ts ->
  exists ts', r_patches ts (b ++ f) = Ok (ts', f) /\
              Forall2 (fun q p => Forall2 (restored lst q) (fst p) (snd p)) (map snd ps) (combine ts ts') /\
              List.length ts' = List.length ts.
Proof.
  induction 1 as [|q ps Hq Hps IH]; intros HN; cbn [oconcat map].
  - eexists. split; [reflexivity|]. intros ts f F. inversion F; subst. exists []. repeat split. constructor.
  - inversion HN as [|a b Hn HN']; subst. destruct (patch_round_trip lst q Hq Hn) as (b1 & E1 & R1).
    destruct (IH HN') as (b2 & E2 & R2). rewrite E1, E2. cbn [obind]. eexists. split; [reflexivity|].
    intros ts f F. inversion F as [|u t l ts0 Hu Hl]; subst.
    destruct (R1 t (b2 ++ f) Hu) as (t' & Et & Ft). destruct (R2 ts0 f Hl) as (ts' & Ets & Fts & Lts).
    exists (t' :: ts'). split; [|split].
    + cbn [r_patches]. rewrite <- app_assoc. destruct (rV (b1 ++ b2 ++ f) sizeof_uint) as [c| |]; try discriminate.
      cbn [obind] in *. rewrite Et. cbn [obind fst snd]. rewrite Ets. reflexivity.
    + cbn [combine]. constructor; [exact Ft|exact Fts].
    + cbn. rewrite Lts. reflexivity.
Qed.

Definition reads_back (lst : str) (saved : list (N * list fld)) (before after : list (list fld)) : Prop :=
  List.length after = List.length before /\
  Forall2 (fun q p => Forall2 (restored lst q) (fst p) (snd p)) (map snd saved) (combine before after).

Lemma fields_round_trip lst ps : Forall storable_patch ps -> Forall (fun q => ~ In [] (map f_name (snd q))) ps ->
  exists b, write_fields lst ps = Ok b /\
  forall ts f, Forall2 (receives lst) (map snd ps) ts ->
  exists ts', read_fields ts (b ++ f) = Ok (ts', f) /\ reads_back lst ps ts ts'.
Proof.
  intros H HN. destruct (patches_round_trip lst ps H HN) as (b & E & R). destruct titles_ok as (_ & _ & T1 & T2).
  unfold write_fields. rewrite E. cbn [obind]. eexists. split; [reflexivity|]. intros ts f F.
  destruct (R ts (wP_str (Some FIELD_FOOTER) ++ f) F) as (ts' & Ets & Fts & Lts).
  exists ts'. split; [|split; assumption].
  unfold read_fields. rewrite <- !app_assoc, (r_title_w _ _ T1). cbn [obind]. rewrite Ets. cbn [obind fst snd].
  rewrite (r_title_w _ _ T2). reflexivity.
Qed.

Lemma storable_cpar_ok q : storable_par q -> cpar_ok q.
Proof. destruct q as [p n]. intros H. exact H. Qed.

Lemma whole_round_trip ps gn kind lst patches :
  Forall storable_par ps -> (Z.of_nat (List.length ps) <= INT_MAX)%Z -> (Z.of_N gn <= INT_MAX)%Z -> word_without kind ->
  Forall storable_patch patches -> Forall (fun q => ~ In [] (map f_name (snd q))) patches ->
  exists b, checkpoint_bytes ps gn kind lst patches = Ok b /\
  forall ts, Forall2 (receives lst) (map snd patches) ts ->
  exists ts', read_checkpoint b ts =
    Ok (mkHeader (Z.of_nat (List.length ps)) (Z.of_N gn) (Some kind), ps, ts', end_mark) /\
    reads_back lst patches ts ts'.
Proof.
  intros H1 H2 H3 H4 H5 H6.
  destruct (read_write_parameters ps) as (b1 & E1 & R1).
  { eapply Forall_impl; [|exact H1]. intros q. apply storable_cpar_ok. }
  destruct (fields_round_trip lst patches H5 H6) as (b2 & E2 & R2).
  unfold checkpoint_bytes. rewrite E1, E2. cbn [obind]. eexists. split; [reflexivity|]. intros ts F.
  destruct (R2 ts end_mark F) as (ts' & Ets & RB). exists ts'. split; [|exact RB].
  unfold read_checkpoint. rewrite read_write_header.
  - cbn [obind fst snd h_npar]. rewrite nat_N_Z, Nat2Z.id, R1. cbn [obind fst snd]. rewrite Ets. reflexivity.
  - rewrite nat_N_Z. exact H2.
  - exact H3.
  - apply word_without_kind_ok. exact H4.
Qed.

(** *** crashes *)
Lemma run_bytes cs : forall d b, temp d = Some b ->
  fold_left wstep_run (map WByte cs) d = mkDisk (dat d) (Some (b ++ cs)).
Proof.
  induction cs as [|c cs IH]; intros d b H; cbn [map fold_left].
  - destruct d as [x y]. cbn in *. rewrite H, app_nil_r. reflexivity.
  - rewrite (IH _ (b ++ [c])).
    + cbn [dat]. rewrite <- app_assoc. reflexivity.
    + cbn [wstep_run temp]. rewrite H. reflexivity.
Qed.
Lemma blocked_unchanged a d b : temp d = Some b -> run_attempt d a = d.
Proof. intros H. unfold run_attempt, write_steps. rewrite H. destruct (a_steps a); reflexivity. Qed.
Lemma blocked_history h : forall d b, temp d = Some b -> fold_left run_attempt h d = d.
Proof.
  induction h as [|a h IH]; intros d b H; cbn [fold_left]; [reflexivity|].
  rewrite (blocked_unchanged a d b H). eapply IH. exact H.
Qed.
Lemma firstn_map {A B} (f : A -> B) n l : firstn n (map f l) = map f (firstn n l).
Proof. revert l; induction n as [|n IH]; intros [|x l]; cbn; try reflexivity. rewrite IH. reflexivity. Qed.
Lemma attempt_cases d a : temp d = None ->
  (completes a = true /\ run_attempt d a = mkDisk (Some (a_content a)) None) \/
  (completes a = false /\ a_steps a = 0 /\ run_attempt d a = d) \/
  (completes a = false /\ a_steps a <> 0 /\ exists n, run_attempt d a = mkDisk (dat d) (Some (firstn n (a_content a))) /\
      (List.length (a_content a) + 2 <= a_steps a -> firstn n (a_content a) = a_content a)).
Proof.
  intros H. unfold run_attempt, write_steps, completes. rewrite H.
  destruct (a_steps a) as [|n] eqn:En.
  - right. left. rewrite (proj2 (Nat.leb_gt _ _)) by lia. auto.
  - cbn [firstn fold_left wstep_run].
    destruct (Nat.leb_spec (List.length (a_content a) + 2) (S n)) as [L|L]; cbn [andb].
    + rewrite firstn_all2 by (rewrite app_length, map_length; cbn; lia).
      rewrite fold_left_app, (run_bytes _ _ []) by reflexivity. cbn [List.app dat fold_left].
      destruct (a_mv a); cbn [wstep_run temp dat].
      * left. auto.
      * right. right. split; [reflexivity|]. split; [discriminate|]. exists (List.length (a_content a)). rewrite firstn_all. auto.
    + right. right. split; [reflexivity|]. split; [discriminate|]. exists n.
      rewrite firstn_app, map_length.
      replace (n - List.length (a_content a)) with 0 by lia. cbn [firstn]. rewrite app_nil_r, firstn_map.
      rewrite (run_bytes _ _ []) by reflexivity. split; [reflexivity|lia].
Qed.
Lemma crash_expected h : forall d, temp d = None -> dat (fold_left run_attempt h d) = expected_dat (dat d) h.
Proof.
  induction h as [|a h IH]; intros d H; cbn [fold_left expected_dat]; [reflexivity|].
  destruct (attempt_cases d a H) as [(C & E)|[(C & Z & E)|(C & Z & n & E & _)]]; rewrite C.
  - rewrite E, IH by reflexivity. reflexivity.
  - rewrite Z, E, IH by exact H. reflexivity.
  - rewrite (proj2 (Nat.eqb_neq _ _) Z), E.
    rewrite (blocked_history h _ (firstn n (a_content a))) by reflexivity. reflexivity.
Qed.
Lemma expected_complete h : forall now, expected_dat now h = now \/
  exists a, In a h /\ completes a = true /\ expected_dat now h = Some (a_content a).
Proof.
  induction h as [|a h IH]; intros now; cbn [expected_dat]; [left; reflexivity|].
  destruct (completes a) eqn:C.
  - right. destruct (IH (Some (a_content a))) as [E|(x & Hx & Cx & E)].
    + exists a. rewrite E. auto with datatypes.
    + exists x. rewrite E. auto with datatypes.
  - destruct (Nat.eqb (a_steps a) 0); [|left; reflexivity].
    destruct (IH now) as [E|(x & Hx & Cx & E)]; [left; exact E|right; exists x; auto with datatypes].
Qed.
Lemma crash_atomic h d : 
  dat (fold_left run_attempt h d) = dat d \/ exists a, In a h /\ completes a = true /\ dat (fold_left run_attempt h d) = Some (a_content a).
Proof.
  destruct (temp d) as [b|] eqn:T.
  - left. rewrite (blocked_history h d b T). reflexivity.
  - rewrite crash_expected by exact T. apply expected_complete.
Qed.

(** *** the completeness test *)
Lemma END_noNUL : ~ In NUL END_MSG.
Proof. apply noNUL_dec; reflexivity. Qed.
Lemma cstr_split m : In NUL m -> exists r, m = cstr m ++ NUL :: r /\ ~ In NUL (cstr m).
Proof.
  induction m as [|c m IH]; intros H; [destruct H|]. cbn [cstr].
  destruct (ascii_dec c NUL) as [->|N].
  - exists m. split; [reflexivity|intros []].
  - destruct H as [E|H]; [congruence|]. destruct (IH H) as (r & E & K). exists r. cbn [List.app]. split; [congruence|].
    intros [->|K']; [congruence|exact (K K')].
Qed.
Lemma sound_ends f : is_checkpoint_sound f = Ok true <-> ends_with f (END_MSG ++ [NUL]).
Proof.
  unfold is_checkpoint_sound, ends_with.
  assert (LE : List.length (END_MSG ++ [NUL]) = S (List.length END_MSG)) by (rewrite app_length; cbn [List.length]; lia).
  set (L := S (List.length END_MSG)) in *. split.
  - destruct (Nat.ltb_spec (List.length f) L) as [|K]; [discriminate|].
    set (msg := skipn (List.length f - L) f). destruct (in_dec ascii_dec NUL msg) as [I|]; [|discriminate].
    intros H. injection H as H. exists (firstn (List.length f - L) f).
    rewrite <- (firstn_skipn (List.length f - L) f) at 1. f_equal. fold msg.
    destruct (cstr_split msg I) as (r & E & NN).
    unfold contains_b in H. destruct (strstr (cstr msg) END_MSG) as [[u v]|] eqn:S0; [|discriminate].
    apply strstr_contains in S0. destruct S0 as (a & b & Ec).
    assert (Lm : List.length msg = L) by (unfold msg; rewrite skipn_length; lia).
    rewrite E, Ec, !app_length in Lm. cbn [List.length] in Lm. unfold L in Lm.
    destruct a; [|cbn [List.length] in Lm; lia]. destruct b; [|cbn [List.length] in Lm; lia].
    destruct r; [|cbn [List.length] in Lm; lia].
    rewrite E, Ec, app_nil_r. reflexivity.
  - intros (x & ->). rewrite app_length, LE.
    destruct (Nat.ltb_spec (List.length x + L) L) as [|K]; [lia|].
    replace (List.length x + L - L) with (List.length x) by lia. rewrite skipn_app_l.
    destruct (in_dec ascii_dec NUL (END_MSG ++ [NUL])) as [_|K']; [|exfalso; apply K'; apply in_app_iff; right; left; reflexivity].
    rewrite (cstr_app END_MSG [] END_noNUL). reflexivity.
Qed.
Lemma written_sound ps gn kind lst patches b : checkpoint_bytes ps gn kind lst patches = Ok b -> is_checkpoint_sound b = Ok true.
Proof.
  unfold checkpoint_bytes. destruct (write_parameters ps) as [b1| |]; try discriminate.
  destruct (write_fields lst patches) as [b2| |]; try discriminate. cbn [obind].
  generalize (w_header (N.of_nat (List.length ps)) gn kind). intros hd H. injection H as <-.
  apply sound_ends. unfold ends_with, end_mark, wP_str.
  exists (hd ++ b1 ++ b2 ++ le sizeof_uint (to_size (S (List.length END_MSG)))).
  rewrite <- !app_assoc. reflexivity.
Qed.

(** cutting up to all bytes of the end mark *)
Lemma in_skipn_at {A} (x c : list A) (a : A) n : n <= List.length x + List.length c -> forall r, In a (skipn n (x ++ c ++ a :: r)).
Proof.
  intros H r. rewrite app_assoc, skipn_app. apply in_app_iff. right.
  rewrite app_length. replace (n - (List.length x + List.length c)) with 0 by lia. left. reflexivity.
Qed.
Lemma cut_rejected x k : 1 <= k <= 32 ->
  is_checkpoint_sound (firstn (List.length (x ++ end_mark) - k) (x ++ end_mark)) = Ok false \/
  is_checkpoint_sound (firstn (List.length (x ++ end_mark) - k) (x ++ end_mark)) = Abort.
Proof.
  intros Hk. set (f := firstn _ _).
  assert (EM : end_mark = [ascii_of_N 30] ++ [NUL; NUL; NUL] ++ END_MSG ++ [NUL]) by reflexivity.
  assert (LM : List.length end_mark = 34) by reflexivity.
  assert (LE : List.length END_MSG = 29) by reflexivity.
  assert (Lf : List.length f = List.length x + 34 - k).
  { unfold f. rewrite firstn_length, app_length, LM. lia. }
  assert (Ef : f = x ++ firstn (34 - k) end_mark).
  { unfold f. rewrite app_length, LM, firstn_app. rewrite firstn_all2 by lia. f_equal. f_equal. lia. }
  assert (NT : is_checkpoint_sound f <> Ok true).
  { intros T. apply sound_ends in T. destruct T as [y E]. rewrite Ef in E. clear -E Hk.
    apply (f_equal (@rev ascii)) in E. rewrite !rev_app_distr in E.
    revert E. generalize (rev x) (rev y). clear x y. intros x y.
    destruct Hk as [K1 K2].
    do 33 (destruct k as [|k]; [try (exfalso; lia); intros E; vm_compute in E; discriminate|]). lia. }
  assert (U : is_checkpoint_sound f <> UB).
  { unfold is_checkpoint_sound. rewrite LE.
    destruct (Nat.ltb_spec (List.length f) 30) as [|K]; [discriminate|].
    destruct (in_dec ascii_dec NUL (skipn (List.length f - 30) f)) as [|NI]; [discriminate|exfalso; apply NI; clear NI].
    rewrite Lf in *. rewrite Ef.
    destruct (le_lt_dec k 30) as [K3|K3].
    - assert (X : firstn (34 - k) end_mark = [ascii_of_N 30; NUL; NUL] ++ NUL :: firstn (30 - k) (END_MSG ++ [NUL])).
      { rewrite EM. replace (34 - k) with (S (S (S (S (30 - k))))) by lia. reflexivity. }
      rewrite X. apply in_skipn_at. cbn [List.length]. lia.
    - assert (X : firstn (34 - k) end_mark = [ascii_of_N 30] ++ NUL :: firstn (32 - k) [NUL]).
      { rewrite EM. replace (34 - k) with (S (S (32 - k))) by lia.
        assert (32 - k = 0 \/ 32 - k = 1) as [->| ->] by lia; reflexivity. }
      rewrite X. apply in_skipn_at. cbn [List.length]. lia. }
  destruct (is_checkpoint_sound f) as [[]| |]; tauto || congruence || auto.
Qed.
(** any cut: accepted only if the mark occurs earlier in the file *)
Lemma cut_needs_mark b k : is_checkpoint_sound (firstn k b) = Ok true -> exists x y, b = x ++ END_MSG ++ [NUL] ++ y /\ List.length (x ++ END_MSG ++ [NUL]) = Nat.min k (List.length b).
Proof.
  intros H. apply sound_ends in H. destruct H as [x E]. exists x, (skipn k b).
  split; [|rewrite <- E; apply firstn_length].
  rewrite <- (firstn_skipn k b) at 1. rewrite E, <- !app_assoc. reflexivity.
Qed.

(** forms used in Props_Checkpoint.v *)
Lemma params_round_trip ps : Forall storable_par ps ->
  exists b, write_parameters ps = Ok b /\ forall rest, read_parameters (List.length ps) (b ++ rest) = Ok (ps, rest).
Proof. intros H. apply read_write_parameters. eapply Forall_impl; [|exact H]. intros q. apply storable_cpar_ok. Qed.
Lemma whole_params_round_trip ps gn kind lst patches :
  Forall storable_par ps -> (Z.of_nat (List.length ps) <= INT_MAX)%Z -> (Z.of_N gn <= INT_MAX)%Z -> word_without kind ->
  Forall storable_patch patches -> Forall (fun q => ~ In [] (map f_name (snd q))) patches ->
  exists b, checkpoint_bytes ps gn kind lst patches = Ok b /\
  exists r, (do h <- read_header b; do p <- read_parameters (Z.to_nat (h_npar (fst h))) (snd h); Ok (fst h, p)) =
    Ok (mkHeader (Z.of_nat (List.length ps)) (Z.of_N gn) (Some kind), (ps, r)).
Proof.
  intros H1 H2 H3 H4 H5 H6.
  destruct (params_round_trip ps H1) as (b1 & E1 & R1).
  destruct (fields_round_trip lst patches H5 H6) as (b2 & E2 & R2).
  unfold checkpoint_bytes. rewrite E1, E2. cbn [obind]. eexists. split; [reflexivity|]. exists (b2 ++ end_mark).
  rewrite read_write_header.
  - cbn [obind fst snd h_npar]. rewrite nat_N_Z, Nat2Z.id, R1. reflexivity.
  - rewrite nat_N_Z. exact H2.
  - exact H3.
  - apply word_without_kind_ok. exact H4.
Qed.
Lemma whole_fields_round_trip ps gn kind lst patches targets :
  Forall storable_par ps -> (Z.of_nat (List.length ps) <= INT_MAX)%Z -> (Z.of_N gn <= INT_MAX)%Z -> word_without kind ->
  Forall storable_patch patches -> Forall (fun q => ~ In [] (map f_name (snd q))) patches ->
  Forall2 (receives lst) (map snd patches) targets ->
  exists b h after, checkpoint_bytes ps gn kind lst patches = Ok b /\
    read_checkpoint b targets = Ok (h, ps, after, end_mark) /\
    List.length after = List.length targets /\
    Forall2 (fun saved tt => Forall2 (restored lst saved) (fst tt) (snd tt)) (map snd patches) (combine targets after).
Proof.
  intros H1 H2 H3 H4 H5 H6 H7.
  destruct (whole_round_trip ps gn kind lst patches H1 H2 H3 H4 H5 H6) as (b & Eb & R).
  destruct (R targets H7) as (ts' & E & L & F). exists b. eexists. exists ts'. repeat split; eassumption.
Qed.
Lemma interrupted_blocks d a : temp d = None -> completes a = false -> a_steps a <> 0 ->
  dat (run_attempt d a) = dat d /\ temp (run_attempt d a) <> None.
Proof.
  intros H C Z. destruct (attempt_cases d a H) as [(C' & E)|[(C' & Z' & E)|(C' & Z' & n & E & _)]]; try congruence.
  rewrite E. split; [reflexivity|discriminate].
Qed.
Lemma dat_always_sound h d c :
  (forall a, In a h -> exists ps gn kind lst patches, checkpoint_bytes ps gn kind lst patches = Ok (a_content a)) ->
  dat d = None -> dat (fold_left run_attempt h d) = Some c -> is_checkpoint_sound c = Ok true.
Proof.
  intros H N E. destruct (crash_atomic h d) as [K|(a & Ia & _ & K)]; [congruence|].
  rewrite K in E. injection E as <-. destruct (H a Ia) as (ps & gn & kind & lst & patches & Ea). eapply written_sound. exact Ea.
Qed.
