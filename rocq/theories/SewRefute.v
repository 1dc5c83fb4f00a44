(** SewRefute.v - inputs on which the interface assembly does not work, and the link from the numbering of a patch to what
    the assembly needs. *)
From Verif Require Import Base TextModel MatrixModel MatrixSpec MatrixProofs MatrixConvert MatrixRead SchurModel SchurSpec SchurProofs SchurPieces SewModel SewSpec.
Open Scope nat_scope.
Notation length := List.length.

(** make_map_and_inv gives what the assembly needs *)
Theorem numbering_patch {F} n0 n1 n2 nn (sfs : list (sface F)) m : numbering n0 n1 n2 nn sfs m -> 0 < s_NS m -> 0 < s_NI m ->
  patch_numbered (mkIP (s_NS m) (s_NI m) (s_inv m) (s_Iinv m) (s_Imap m) sfs) /\ i_nn (mkIP (s_NS m) (s_NI m) (s_inv m) (s_Iinv m) (s_Imap m) sfs) = nn.
Proof.
  intros [(L1 & L2 & L3 & L4) (S1 & S2) HI HM _ _ _ HIm HIi] P1 P2. split; [|exact S2].
  assert (EI : firstn (s_NS m) (s_inv m) ++ s_Iinv m = s_inv m).
  { rewrite <- (firstn_skipn (s_NS m) (s_inv m)) at 2. f_equal. apply (nth_ext _ _ 0 0); [rewrite skipn_length; lia|].
    intros k Hk. rewrite HIi by lia. rewrite nth_skipn'. reflexivity. }
  constructor; cbn; try assumption; unfold i_nn; cbn.
  - lia.
  - lia.
  - rewrite EI. rewrite (NoDup_nth _ 0). intros a b Ha Hb E. rewrite L2 in Ha, Hb. destruct (HI a Ha) as [_ Ea]. destruct (HI b Hb) as [_ Eb]. congruence.
  - rewrite EI. apply Forall_forall. intros i Hi. apply (In_nth _ _ 0) in Hi. destruct Hi as (k & Hk & <-). rewrite L2 in Hk. destruct (HI k Hk). lia.
  - intros i k E. destruct (Nat.lt_ge_cases i nn) as [Hi|Hi].
    + rewrite HIm in E by assumption. destruct (Nat.ltb_spec (nth i (s_map m) 0) (s_NS m)); [discriminate|]. injection E as <-. destruct (HM i Hi) as [B E']. split; [lia|].
      rewrite HIi by lia. replace (s_NS m + (nth i (s_map m) 0 - s_NS m)) with (nth i (s_map m) 0) by lia. assumption.
    + rewrite nth_overflow in E by lia. discriminate.
Qed.

Section Sew.
Context {F : Type} (zero one : F) (add mul : F -> F -> F) (opp : F -> F).
Context (pd : nat -> nat -> list F -> list F) (interp : nat -> sface F -> nat -> list F -> F)
        (d2f : nat -> nat -> nat -> nat -> F) (dinterp : nat -> sface F -> nat -> nat -> nat -> F).

Lemma ofold_not_ok {A S} (f : A -> S -> outcome S) a : forall l s, In a l -> (forall s r, f a s <> Ok r) -> forall r, ofold f l s <> Ok r.
Proof.
  induction l as [|b l IH]; intros s Hi HN r; [destruct Hi|]. cbn [ofold]. destruct Hi as [->|Hi].
  - specialize (HN s). destruct (f a s) as [s1| |]; cbn [obind]; try discriminate. exfalso. apply (HN s1). reflexivity.
  - destruct (f b s) as [s1| |]; cbn [obind]; try discriminate. apply IH; assumption.
Qed.
Lemma omap_no {A B} (f : A -> outcome B) a : forall l, In a l -> (forall r, f a <> Ok r) -> forall r, omap f l <> Ok r.
Proof.
  induction l as [|b l IH]; intros Hi HN r; [destruct Hi|]. cbn [omap]. destruct Hi as [->|Hi].
  - destruct (f a) as [s1| |]; cbn [obind]; try discriminate. exfalso. apply (HN s1). reflexivity.
  - destruct (f b) as [s1| |]; cbn [obind]; try discriminate. specialize (IH Hi HN). destruct (omap f l) as [t| |]; cbn [obind]; try discriminate. exfalso. apply (IH t). reflexivity.
Qed.

(** a collocated node of a continuity condition that is an interface node in one patch but not in the other *)
Theorem colloc_not_interface ps p q P Q sf s n1 : nth_error ps p = Some P -> nth_error ps q = Some Q -> p <> q -> In sf (i_faces Q) -> is_interface sf = true -> f_adj sf = p ->
  f_exterF sf = true -> f_touch sf && f_copy sf = true -> f_dn sf = false -> s < length (f_id sf) -> nth_error (f_adjid sf) s = Some n1 ->
  nth_error (i_Imap P) n1 = Some None -> nth (nth s (f_id sf) 0) (i_Imap Q) None <> None ->
  forall FC, making_F_and_C zero one add mul opp d2f dinterp ps p q <> Ok FC.
Proof.
  intros HP HQ NE Hin HI HA HX HTC HD Hs Hn1 HIm HIq FC. unfold making_F_and_C. rewrite (rd_ok _ _ _ HP), (rd_ok _ _ _ HQ). cbn [obind].
  unfold sewing_of. destruct (existsb _ (i_faces Q)); cbn [obind]; [discriminate|].
  set (l := filter _ (i_faces Q)). assert (Hl : In sf l).
  { apply filter_In. split; [assumption|]. unfold is_interface in HI. rewrite HI, HA, Nat.eqb_refl, orb_true_r. reflexivity. }
  destruct l as [|sf0 l0] eqn:El; [destruct Hl|]. rewrite <- El in *. destruct ((i_NI Q =? 0) || (i_NS P =? 0) || (i_NI P =? 0)); [discriminate|].
  assert (H : forall FC0 r, ofold (populate_F_and_C one add mul opp d2f dinterp p q P (i_Imap Q)) l FC0 <> Ok r).
  { intros FC0. apply (ofold_not_ok _ sf); [assumption|]. intros FC1 r. unfold populate_F_and_C. rewrite HX. cbn [negb].
    unfold is_interface in HI. apply andb_true_iff in HI as [I1 I2]. apply negb_true_iff in I1, I2. rewrite I1, I2, HTC. unfold fill_C_F_collocation. rewrite HD.
    apply (ofold_not_ok _ s); [apply in_seq; lia|]. intros FC2 r2. rewrite (rd_nth (f_id sf) s 0) by assumption. cbn [obind].
    destruct (rd (i_Imap Q) (nth s (f_id sf) 0)) as [im| |] eqn:ER; cbn [obind]; try discriminate.
    assert (im = nth (nth s (f_id sf) 0) (i_Imap Q) None) as ->.
    { unfold rd in ER. destruct (nth_error (i_Imap Q) (nth s (f_id sf) 0)) eqn:E; [|discriminate]. injection ER as <-. symmetry. apply nth_error_nth. assumption. }
    destruct (nth (nth s (f_id sf) 0) (i_Imap Q) None) as [i2|]; [|congruence]. rewrite (proj2 (Nat.eqb_neq _ _) NE). rewrite (rd_ok _ _ _ Hn1). cbn [obind]. rewrite (rd_ok _ _ _ HIm). cbn [obind]. discriminate. }
  destruct (ofold _ l _) as [FC0| |] eqn:E; cbn [obind]; try discriminate. exfalso. apply (H _ _ E).
Qed.

(** a patch that is its own neighbour *)
Theorem self_adjacent ps q Qu sf : nth_error ps q = Some Qu -> In sf (i_faces (fst Qu)) -> is_interface sf = true -> f_adj sf = q ->
  forall g, make_g zero one add mul opp pd interp ps q <> Ok g.
Proof.
  intros HQ Hin HI HA g. unfold make_g. rewrite (rd_ok _ _ _ HQ). cbn [obind]. destruct Qu as [Q u]. cbn [fst] in *.
  unfold sewing_of at 1. destruct (existsb _ (i_faces Q)) eqn:EE; cbn [obind]; [discriminate|].
  set (l := filter _ (i_faces Q)). assert (Hl : In sf l).
  { apply filter_In. split; [assumption|]. unfold is_interface in HI. rewrite HI, Nat.eqb_refl. reflexivity. }
  destruct l as [|sf0 l0] eqn:El; [destruct Hl|]. rewrite <- El in *.
  match goal with |- obind (ofold ?f l ?a) _ <> _ => assert (H : forall r, ofold f l a <> Ok r) end.
  { apply (ofold_not_ok _ sf); [assumption|]. intros s r. destruct (mirror q (i_faces Q) sf) as [m| |]; cbn [obind]; try discriminate. rewrite HA. rewrite (rd_ok _ _ _ HQ). cbn [obind]. rewrite Nat.eqb_refl. discriminate. }
  destruct (ofold _ l _) as [g0| |] eqn:E; cbn [obind]; try discriminate. exfalso. apply (H _ eq_refl).
Qed.

(** the regular version of F: the fill functions write through a null pointer *)
Lemma addrow_null (P : ipatch F) i v C : 0 < i_NS P -> forall r, add_row add P i v ([], C) <> Ok r.
Proof.
  intros HN r. unfold add_row. destruct (i_NS P) as [|n]; [lia|]. cbn [seq ofold]. destruct (rd (i_inv P) 0) as [k| |]; cbn [obind]; try discriminate. unfold addF at 1. assert (E : forall j, rd (@nil F) j = UB) by (intros [|j]; reflexivity). rewrite E. cbn [obind]. discriminate.
Qed.
Theorem regular_fails ps p q P Q sf s : nth_error ps p = Some P -> nth_error ps q = Some Q -> In sf (i_faces Q) -> is_interface sf = true -> p = q \/ f_adj sf = p ->
  f_exterF sf = true -> (f_dn sf = true \/ (f_touch sf && f_copy sf = false /\ p <> q)) ->
  s < length (f_id sf) -> nth (nth s (f_id sf) 0) (i_Imap Q) None <> None ->
  forall FC, making_F_and_C_Regular zero one add mul opp d2f dinterp ps p q <> Ok FC.
Proof.
  intros HP HQ Hin HI HA HX HD Hs HIq FC. unfold making_F_and_C_Regular. rewrite (rd_ok _ _ _ HP), (rd_ok _ _ _ HQ). cbn [obind].
  unfold sewing_of. destruct (existsb _ (i_faces Q)); cbn [obind]; [discriminate|].
  set (l := filter _ (i_faces Q)). assert (Hl : In sf l).
  { apply filter_In. split; [assumption|]. unfold is_interface in HI. rewrite HI. destruct HA as [->| ->]; rewrite Nat.eqb_refl; [reflexivity|apply orb_true_r]. }
  destruct l as [|sf0 l0] eqn:El; [destruct Hl|]. rewrite <- El in *. destruct (i_NI Q =? 0); [discriminate|]. destruct (Nat.eqb_spec (i_NS P) 0) as [|NN]; [discriminate|]. destruct (i_NI P =? 0); [discriminate|]. cbn [orb].
  assert (HNS : 0 < i_NS P) by lia.
  (* A stays empty *)
  assert (INV : forall s0 FC0 FC1, fst FC0 = [] -> populate_F_and_C one add mul opp d2f dinterp p q P (i_Imap Q) s0 FC0 = Ok FC1 -> fst FC1 = []).
  { intros s0 FC0 FC1 E0. unfold populate_F_and_C. destruct (negb (f_exterF s0)); [discriminate|]. destruct (f_innerB s0); [discriminate|]. destruct (f_outerB s0); [discriminate|].
    assert (LP : forall (g : nat -> list F * list (list F) -> outcome (list F * list (list F))) li, (forall k a b, fst a = [] -> g k a = Ok b -> fst b = []) -> forall a b, fst a = [] -> ofold g li a = Ok b -> fst b = []).
    { intros g li Hg. induction li as [|k li IH]; intros a b Ea E; cbn [ofold] in E; [injection E as <-; assumption|]. destruct (g k a) as [a1| |] eqn:E1; cbn [obind] in E; try discriminate. apply (IH a1 b); [|assumption]. apply (Hg k a a1 Ea E1). }
    assert (AR : forall i v a b, fst a = [] -> add_row add P i v a = Ok b -> fst b = []).
    { intros i v [A C] b EA E. cbn in EA. subst A. exfalso. apply (addrow_null P i v C HNS b E). }
    assert (CR : forall i k v (a b : list F * list (list F)), fst a = [] -> (let '(A, C) := a in do C' <- addC add i k v C; Ok (A, C')) = Ok b -> fst b = []).
    { intros i k v [A C] b EA E. destruct (addC add i k v C) as [C1| |]; cbn [obind] in E; try discriminate. injection E as <-. exact EA. }
    unfold fill_C_F_collocation, fill_C_F_interpolation.
    destruct (f_touch s0 && f_copy s0); destruct (f_dn s0).
    - intros E. revert E. apply LP; [|assumption]. intros k a b Ea. destruct (rd (f_N s0) k); cbn [obind]; try discriminate. destruct (rd (f_id s0) k); cbn [obind]; try discriminate.
      match goal with |- context [rd (i_Imap Q) ?x] => destruct (rd (i_Imap Q) x) as [[i2|]| |] end; cbn [obind]; try discriminate; [|intros E; injection E as <-; assumption].
      destruct (rd (if p =? q then f_id s0 else f_adjid s0) k); cbn [obind]; try discriminate. apply AR. assumption.
    - intros E. revert E. apply LP; [|assumption]. intros k a b Ea. destruct (rd (f_id s0) k); cbn [obind]; try discriminate.
      match goal with |- context [rd (i_Imap Q) ?x] => destruct (rd (i_Imap Q) x) as [[i2|]| |] end; cbn [obind]; try discriminate; [|intros E; injection E as <-; assumption].
      destruct (rd (if p =? q then f_id s0 else f_adjid s0) k) as [n1| |]; cbn [obind]; try discriminate. destruct (rd (i_Imap P) n1) as [[i1|]| |]; cbn [obind]; try discriminate. apply CR. assumption.
    - destruct (p =? q); intros E; revert E; (apply LP; [|assumption]); intros k a b Ea; (destruct (rd (f_N s0) k); cbn [obind]; try discriminate); (destruct (rd (f_id s0) k); cbn [obind]; try discriminate);
      (match goal with |- context [rd (i_Imap Q) ?x] => destruct (rd (i_Imap Q) x) as [[i2|]| |] end; cbn [obind]; try discriminate; [|intros E; injection E as <-; assumption]); apply AR; assumption.
    - destruct (p =? q); intros E; revert E; (apply LP; [|assumption]); intros k a b Ea; (destruct (rd (f_id s0) k); cbn [obind]; try discriminate);
      (match goal with |- context [rd (i_Imap Q) ?x] => destruct (rd (i_Imap Q) x) as [[i2|]| |] end; cbn [obind]; try discriminate; [|intros E; injection E as <-; assumption]); [apply CR|apply AR]; assumption. }
  (* the bad subface *)
  assert (BAD : forall FC0 FC1, fst FC0 = [] -> populate_F_and_C one add mul opp d2f dinterp p q P (i_Imap Q) sf FC0 <> Ok FC1).
  { intros FC0 FC1 E0. unfold populate_F_and_C. rewrite HX. cbn [negb].
    unfold is_interface in HI. apply andb_true_iff in HI as [I1 I2]. apply negb_true_iff in I1, I2. rewrite I1, I2.
    assert (LP : forall (g : nat -> list F * list (list F) -> outcome (list F * list (list F))), (forall k a b, fst a = [] -> g k a = Ok b -> fst b = []) ->
       (forall a b, fst a = [] -> g s a <> Ok b) -> forall li a b, In s li -> fst a = [] -> ofold g li a <> Ok b).
    { intros g Hg Hb. induction li as [|k li IH]; intros a b Hi Ea; [destruct Hi|]. cbn [ofold]. destruct Hi as [->|Hi].
      - specialize (Hb a). destruct (g s a) as [a1| |]; cbn [obind]; try discriminate. exfalso. apply (Hb a1 Ea). reflexivity.
      - destruct (g k a) as [a1| |] eqn:E1; cbn [obind]; try discriminate. apply IH; [assumption|]. apply (Hg k a a1 Ea E1). }
    assert (IS : In s (seq 0 (length (f_id sf)))) by (apply in_seq; lia).
    assert (AR : forall i v a b, fst a = [] -> add_row add P i v a <> Ok b).
    { intros i v [A C] b EA. cbn in EA. subst A. apply addrow_null. assumption. }
    assert (IMs : forall im, rd (i_Imap Q) (nth s (f_id sf) 0) = Ok im -> im <> None).
    { intros im ER. unfold rd in ER. destruct (nth_error (i_Imap Q) (nth s (f_id sf) 0)) eqn:E; [|discriminate]. injection ER as <-. rewrite (nth_error_nth _ _ None E) in HIq. assumption. }
    assert (RS : rd (f_id sf) s = Ok (nth s (f_id sf) 0)) by (apply rd_nth; assumption).
    unfold fill_C_F_collocation, fill_C_F_interpolation.
    assert (K1 : forall (h : nat -> list F * list (list F) -> outcome (list F * list (list F))), (forall k a b, fst a = [] -> h k a = Ok b -> fst b = []) -> True) by auto.
    destruct (f_touch sf && f_copy sf) eqn:ET.
    - destruct HD as [HD|[HD _]]; [|discriminate]. rewrite HD. apply LP; [| |assumption|assumption].
      + intros k a b Ea. destruct (rd (f_N sf) k); cbn [obind]; try discriminate. destruct (rd (f_id sf) k); cbn [obind]; try discriminate.
        match goal with |- context [rd (i_Imap Q) ?x] => destruct (rd (i_Imap Q) x) as [[i2|]| |] end; cbn [obind]; try discriminate; [|intros E; injection E as <-; assumption].
        destruct (rd (if p =? q then f_id sf else f_adjid sf) k); cbn [obind]; try discriminate. intros E. exfalso. apply (AR _ _ _ _ Ea E).
      + intros a b Ea. destruct (rd (f_N sf) s); cbn [obind]; try discriminate. rewrite RS. cbn [obind]. destruct (rd (i_Imap Q) (nth s (f_id sf) 0)) as [[i2|]| |] eqn:EI; cbn [obind]; try discriminate; [|exfalso; apply (IMs None eq_refl); reflexivity].
        destruct (rd (if p =? q then f_id sf else f_adjid sf) s); cbn [obind]; try discriminate. apply AR. assumption.
    - destruct (f_dn sf) eqn:EDN.
      + assert (HH : forall (w : nat -> F * F * F -> nat -> nat -> F) FCx, fst FCx = [] -> ofold (fun k a => do N <- rd (f_N sf) k; do n <- rd (f_id sf) k; do im <- rd (i_Imap Q) n; match im with None => Ok a | Some i => add_row add P i (w k N n) a end) (seq 0 (length (f_id sf))) FCx <> Ok FC1).
        { intros w FCx Ex. apply LP; [| |assumption|assumption].
          - intros k a b Ea. destruct (rd (f_N sf) k); cbn [obind]; try discriminate. destruct (rd (f_id sf) k); cbn [obind]; try discriminate.
            match goal with |- context [rd (i_Imap Q) ?x] => destruct (rd (i_Imap Q) x) as [[i2|]| |] end; cbn [obind]; try discriminate; [|intros E; injection E as <-; assumption]. intros E. exfalso. apply (AR _ _ _ _ Ea E).
          - intros a b Ea. destruct (rd (f_N sf) s); cbn [obind]; try discriminate. rewrite RS. cbn [obind]. destruct (rd (i_Imap Q) (nth s (f_id sf) 0)) as [[i2|]| |] eqn:EI; cbn [obind]; try discriminate; [|exfalso; apply (IMs None eq_refl); reflexivity]. apply AR. assumption. }
        destruct (p =? q).
        * apply (HH (fun _ N n j => mul (mone one opp) (ndot add mul N (d2f p 0 n j) (d2f p 1 n j) (d2f p 2 n j)))). assumption.
        * apply (HH (fun k N _ j => mul one (ndot add mul N (dinterp p sf 1 k j) (dinterp p sf 2 k j) (dinterp p sf 3 k j)))). assumption.
      + destruct HD as [HD|[_ NE]]; [discriminate|]. rewrite (proj2 (Nat.eqb_neq _ _) NE). apply LP; [| |assumption|assumption].
        * intros k a b Ea. destruct (rd (f_id sf) k); cbn [obind]; try discriminate.
          match goal with |- context [rd (i_Imap Q) ?x] => destruct (rd (i_Imap Q) x) as [[i2|]| |] end; cbn [obind]; try discriminate; [|intros E; injection E as <-; assumption]. intros E. exfalso. apply (AR _ _ _ _ Ea E).
        * intros a b Ea. rewrite RS. cbn [obind]. destruct (rd (i_Imap Q) (nth s (f_id sf) 0)) as [[i2|]| |] eqn:EI; cbn [obind]; try discriminate; [|exfalso; apply (IMs None eq_refl); reflexivity]. apply AR. assumption. }
  assert (H : forall li FC0, In sf li -> fst FC0 = [] -> forall r, ofold (populate_F_and_C one add mul opp d2f dinterp p q P (i_Imap Q)) li FC0 <> Ok r).
  { induction li as [|s0 li IH]; intros FC0 Hi E0 r; [destruct Hi|]. cbn [ofold]. destruct Hi as [->|Hi].
    - specialize (BAD FC0). destruct (populate_F_and_C one add mul opp d2f dinterp p q P (i_Imap Q) sf FC0) as [x| |]; cbn [obind]; try discriminate. exfalso. apply (BAD x E0). reflexivity.
    - destruct (populate_F_and_C one add mul opp d2f dinterp p q P (i_Imap Q) s0 FC0) as [FC1| |] eqn:E1; cbn [obind]; try discriminate. apply IH; [assumption|]. apply (INV s0 FC0 FC1 E0 E1). }
  match goal with |- obind (ofold ?f l ?a) _ <> _ => specialize (H l a Hl eq_refl); destruct (ofold f l a) as [FC0| |] eqn:E end; cbn [obind]; try discriminate. exfalso. apply (H FC0). reflexivity.
Qed.

(** checks_and_constraints *)
Theorem checks_accept (l : list (bool * bool * nat)) : checks_and_constraints l = Ok tt <->
  Forall (fun t => fst (fst t) && snd (fst t) = false) l /\ length (filter (fun t => snd t =? 0) l) <= 1.
Proof.
  unfold checks_and_constraints.
  assert (H : forall l c, (Forall (fun t => fst (fst t) && snd (fst t) = false) l /\
     ofold (fun t c => let '(o, i, n) := t in if o && i then Abort else Ok (if n =? 0 then c + 1 else c)) l c = Ok (c + length (filter (fun t : bool * bool * nat => snd t =? 0) l))) \/
     (~ Forall (fun t => fst (fst t) && snd (fst t) = false) l /\ ofold (fun t c => let '(o, i, n) := t in if o && i then Abort else Ok (if n =? 0 then c + 1 else c)) l c = Abort)).
  { clear l. induction l as [|[[o i] n] l IH]; intros c.
    - left. split; [constructor|]. cbn. f_equal. lia.
    - cbn [ofold]. destruct (o && i) eqn:E; cbn [obind].
      + right. split; [|reflexivity]. intros C. inversion C; subst. cbn in *. congruence.
      + destruct (IH (if n =? 0 then c + 1 else c)) as [[A B]|[A B]].
        * left. split; [constructor; [exact E|assumption]|]. rewrite B. cbn [filter snd]. f_equal. destruct (n =? 0); cbn [List.length]; lia.
        * right. split; [intros C; apply A; inversion C; assumption|assumption]. }
  destruct (H l 0) as [[A B]|[A B]]; rewrite B; cbn [obind].
  - destruct (Nat.ltb_spec 1 (0 + length (filter (fun t : bool * bool * nat => snd t =? 0) l))); split; intros X; try discriminate; try reflexivity.
    + destruct X. lia.
    + split; [assumption|lia].
  - split; intros X; [discriminate|]. destruct X. contradiction.
Qed.
End Sew.
