(** SewMap.v - the numbering made by make_map_and_inv. *)
From Verif Require Import Base TextModel MatrixModel MatrixSpec MatrixProofs IndexModel IndexProofs SchurModel SchurSpec SchurProofs SewModel SewSpec.
Open Scope nat_scope.
Notation length := List.length.

(** ** OnFace *)
Lemma OnFace_ok n0 n1 n2 i : (Z.of_nat n0 * Z.of_nat n1 * Z.of_nat n2 < 4294967296)%Z -> i < n0 * n1 * n2 ->
  exists b, OnFace (Z.of_nat n0) (Z.of_nat n1) (Z.of_nat n2) (Z.of_nat i) = Ok b /\ (b = true <-> on_face n0 n1 n2 i).
Proof.
  intros HB Hi. assert (0 < n0) by nia. assert (0 < n1) by nia. assert (0 < n2) by nia.
  assert (HiZ : (Z.of_nat i < Z.of_nat n0 * Z.of_nat n1 * Z.of_nat n2)%Z) by nia.
  destruct (ijk_back_and_there (Z.of_nat n0) (Z.of_nat n1) (Z.of_nat n2) (Z.of_nat i)) as (a & b & c & E & Ha & Hb & Hc & EI); [nia|nia|lia|lia|lia|nia|].
  unfold OnFace. rewrite E. cbn [obind]. eexists. split; [reflexivity|].
  destruct (ijk_value (Z.of_nat n0) (Z.of_nat n1) (Z.of_nat n2) ltac:(lia) a b c Ha Hb Hc) as [EV _]. rewrite EV in EI.
  rewrite !u32_small by nia. rewrite !orb_true_iff, !Z.eqb_eq. split.
  - intros HH. exists (Z.to_nat a), (Z.to_nat b), (Z.to_nat c). split; [lia|]. split; [lia|]. split; [lia|]. split; [|lia].
    apply Nat2Z.inj. rewrite Nat2Z.inj_add, !Nat2Z.inj_mul, Nat2Z.inj_add, Nat2Z.inj_mul, !Z2Nat.id by lia. rewrite <- EI. ring.
  - intros (a' & b' & c' & Ha' & Hb' & Hc' & EI' & HH).
    assert (c = Z.of_nat c' /\ b = Z.of_nat b' /\ a = Z.of_nat a') as (-> & -> & ->); [|lia].
    destruct (ijk_there_and_back (Z.of_nat n0) (Z.of_nat n1) (Z.of_nat n2) (Z.of_nat a') (Z.of_nat b') (Z.of_nat c')) as (E' & _); [lia|nia|lia|lia|lia|].
    destruct (ijk_value (Z.of_nat n0) (Z.of_nat n1) (Z.of_nat n2) ltac:(lia) (Z.of_nat a') (Z.of_nat b') (Z.of_nat c')) as [EV' _]; [lia|lia|lia|].
    rewrite EV' in E'. replace (Z.of_nat c' + Z.of_nat n2 * (Z.of_nat b' + Z.of_nat n1 * Z.of_nat a'))%Z with (Z.of_nat i) in E' by lia.
    rewrite E in E'. injection E' as -> -> ->. auto.
Qed.

Section Map.
Context {F : Type} (nn : nat).
Notation sface := (sface F).

Record st_ok (L : list nat) (s : mst) : Prop := {
  o_lm : length (m_map s) = nn; o_li : length (m_inv s) = nn; o_lf : length (m_flag s) = nn;
  o_nd : NoDup L; o_lt : Forall (fun i => i < nn) L; o_j : m_j s = length L;
  o_inv : forall k, k < length L -> nth k (m_inv s) 0 = nth k L 0;
  o_map : forall k, k < length L -> nth (nth k L 0) (m_map s) 0 = k;
  o_flag : forall i, i < nn -> (nth i (m_flag s) false = true <-> In i L) }.

Lemma NoDup_snoc (L : list nat) i : NoDup L -> ~ In i L -> NoDup (L ++ [i]).
Proof.
  induction L as [|a l IH]; cbn; intros ND NI; [constructor; [intros []|constructor]|].
  inversion ND; subst. constructor; [rewrite in_app_iff; cbn; intuition|]. apply IH; [assumption|intuition].
Qed.
Lemma short L i : NoDup L -> Forall (fun i => i < nn) L -> i < nn -> ~ In i L -> length L < nn.
Proof.
  intros ND LT Hi NI. assert (length (i :: L) <= length (seq 0 nn)).
  { apply NoDup_incl_length; [constructor; assumption|]. intros a [<-|Ha]; apply in_seq; [lia|]. rewrite Forall_forall in LT. apply LT in Ha. lia. }
  rewrite seq_length in H. cbn in H. lia.
Qed.
Lemma nth_snoc (L : list nat) i k : nth k (L ++ [i]) 0 = if k <? length L then nth k L 0 else if k =? length L then i else 0.
Proof.
  destruct (Nat.ltb_spec k (length L)); [apply app_nth1; assumption|]. rewrite app_nth2 by lia.
  destruct (Nat.eqb_spec k (length L)) as [->|]; [rewrite Nat.sub_diag; reflexivity|]. apply nth_overflow. cbn. lia.
Qed.
Lemma put_st L s i mp iv fl : st_ok L s -> i < nn -> ~ In i L ->
  wr (m_map s) i (m_j s) = Ok mp -> wr (m_inv s) (m_j s) i = Ok iv -> wr (m_flag s) i true = Ok fl ->
  st_ok (L ++ [i]) (mkMst mp iv fl (m_j s + 1)).
Proof.
  intros [lm li lf nd lt j inv mp' flg] Hi NI E1 E2 E3. pose proof (short L i nd lt Hi NI) as SH.
  destruct (wr_spec (m_map s) i (m_j s)) as (l1 & E1' & L1 & N1); [lia|]. rewrite E1 in E1'. injection E1' as <-.
  destruct (wr_spec (m_inv s) (m_j s) i) as (l2 & E2' & L2 & N2); [lia|]. rewrite E2 in E2'. injection E2' as <-.
  destruct (wr_spec (m_flag s) i true) as (l3 & E3' & L3 & N3); [lia|]. rewrite E3 in E3'. injection E3' as <-.
  constructor; cbn [m_map m_inv m_flag m_j].
  - lia. - lia. - lia.
  - apply NoDup_snoc; assumption.
  - rewrite Forall_app. split; [assumption|constructor; [assumption|constructor]].
  - rewrite app_length. cbn. lia.
  - intros k Hk. rewrite app_length in Hk. cbn in Hk. rewrite N2, nth_snoc, j. destruct (Nat.ltb_spec k (length L)).
    + destruct (Nat.eqb_spec k (length L)); [lia|]. apply inv. assumption.
    + destruct (Nat.eqb_spec k (length L)); [reflexivity|lia].
  - intros k Hk. rewrite app_length in Hk. cbn in Hk. rewrite nth_snoc. rewrite N1. destruct (Nat.ltb_spec k (length L)) as [H|H].
    + destruct (Nat.eqb_spec (nth k L 0) i) as [EE|NE]; [exfalso; apply NI; rewrite <- EE; apply nth_In; assumption|]. apply mp'. assumption.
    + destruct (Nat.eqb_spec k (length L)); [|lia]. rewrite Nat.eqb_refl. lia.
  - intros a Ha. rewrite N3, in_app_iff. cbn. destruct (Nat.eqb_spec a i) as [->|NE].
    + tauto.
    + rewrite flg by assumption. intuition congruence.
Qed.
Lemma put_ok L s i : st_ok L s -> i < nn -> ~ In i L -> exists s', put i s = Ok s' /\ st_ok (L ++ [i]) s'.
Proof.
  intros H Hi NI. pose proof (short L i (o_nd _ _ H) (o_lt _ _ H) Hi NI) as SH. pose proof (o_j _ _ H) as J. pose proof (o_lm _ _ H) as LA. pose proof (o_li _ _ H) as LB. pose proof (o_lf _ _ H) as LC.
  unfold put. destruct (wr_spec (m_map s) i (m_j s)) as (l1 & E1 & _); [lia|]. rewrite E1. cbn [obind].
  destruct (wr_spec (m_inv s) (m_j s) i) as (l2 & E2 & _); [lia|]. rewrite E2. cbn [obind].
  destruct (wr_spec (m_flag s) i true) as (l3 & E3 & _); [lia|]. rewrite E3. cbn [obind].
  eexists. split; [reflexivity|]. eapply put_st; eassumption.
Qed.

(** ** the three passes *)
Lemma inner_ok n0 n1 n2 s : nn = n0 * n1 * n2 -> (Z.of_nat n0 * Z.of_nat n1 * Z.of_nat n2 < 4294967296)%Z -> st_ok [] s ->
  exists L s', fill_inner n0 n1 n2 nn s = Ok s' /\ st_ok L s' /\ (forall i, In i L <-> i < nn /\ ~ on_face n0 n1 n2 i) /\
    (forall k l, k < l -> l < length L -> nth k L 0 < nth l L 0).
Proof.
  intros EN HB H0.
  destruct (ofold_seq_inv (fun m s' => exists L, st_ok L s' /\ (forall i, In i L <-> i < m /\ ~ on_face n0 n1 n2 i) /\ (forall k l, k < l -> l < length L -> nth k L 0 < nth l L 0))
     (fun i s => do o <- OnFace (Z.of_nat n0) (Z.of_nat n1) (Z.of_nat n2) (Z.of_nat i); if o then Ok s else put i s) nn 0 s) as (s' & E & L & H1 & H2 & H3).
  - intros i s1 Hi (L & H1 & H2 & H3). destruct (OnFace_ok n0 n1 n2 i HB) as (b & Eb & Hb); [lia|]. rewrite Eb. cbn [obind]. destruct b.
    + exists s1. split; [reflexivity|]. exists L. split; [assumption|]. split; [|assumption]. intros a. rewrite H2.
      split; intros [A B]; split; try assumption; try lia. destruct (Nat.eq_dec a i) as [->|]; [exfalso; apply B; apply Hb; reflexivity|lia].
    + assert (NF : ~ on_face n0 n1 n2 i) by (intros C; apply Hb in C; discriminate).
      destruct (put_ok L s1 i H1) as (s2 & E2 & H4); [lia|rewrite H2; lia|]. exists s2. split; [assumption|]. exists (L ++ [i]). split; [assumption|]. split.
      * intros a. rewrite in_app_iff, H2. cbn. destruct (Nat.eq_dec a i) as [->|]; [intuition lia|]. intuition lia.
      * intros k l Hk Hl. rewrite app_length in Hl. cbn in Hl. rewrite !nth_snoc. destruct (Nat.ltb_spec k (length L)); [|lia].
        destruct (Nat.ltb_spec l (length L)); [apply H3; assumption|]. destruct (Nat.eqb_spec l (length L)); [|lia].
        assert (In (nth k L 0) L) as HI by (apply nth_In; assumption). apply H2 in HI. lia.
  - exists []. split; [assumption|]. split; [intros i; cbn; split; [intros []|lia]|]. intros k l _ Hl. cbn in Hl. lia.
  - exists L, s'. auto.
Qed.

Lemma visit_ok ids : forall L s, st_ok L s -> Forall (fun i => i < nn) ids ->
  exists T s', ofold (fun i s => do b <- rd (m_flag s) i; if b then Ok s else put i s) ids s = Ok s' /\ st_ok (L ++ T) s' /\ forall i, In i (L ++ T) <-> In i L \/ In i ids.
Proof.
  induction ids as [|i ids IH]; intros L s H HB; cbn [ofold].
  - exists [], s. rewrite app_nil_r. split; [reflexivity|]. split; [assumption|]. intros i; cbn; tauto.
  - inversion HB as [|? ? Hi HB']; subst. rewrite (rd_nth (m_flag s) i false) by (rewrite (o_lf _ _ H); assumption). cbn [obind].
    pose proof (o_flag _ _ H i Hi) as HF. destruct (nth i (m_flag s) false).
    + cbn [obind]. destruct (IH L s H HB') as (T & s' & E & H1 & H2). exists T, s'. split; [assumption|]. split; [assumption|]. intros a. rewrite H2. cbn.
      destruct HF as [HF _]. specialize (HF eq_refl). split; [tauto|]. intros [?|[<-|?]]; tauto.
    + destruct (put_ok L s i H Hi) as (s1 & E1 & H1); [intros C; apply HF in C; discriminate|]. rewrite E1. cbn [obind].
      destruct (IH (L ++ [i]) s1 H1 HB') as (T & s' & E & H2 & H3). exists (i :: T), s'. split; [assumption|].
      rewrite <- app_assoc in H2, H3. cbn [app] in H2, H3. split; [assumption|]. intros a. rewrite H3. rewrite in_app_iff. cbn. tauto.
Qed.
Lemma boundary_ok (sfs : list sface) : forall L s, st_ok L s -> Forall (fun sf => Forall (fun i => i < nn) (f_id sf)) sfs ->
  exists T s', fill_boundary sfs s = Ok s' /\ st_ok (L ++ T) s' /\ forall i, In i (L ++ T) <-> In i L \/ on_boundary sfs i.
Proof.
  induction sfs as [|sf sfs IH]; intros L s H HB.
  - exists [], s. rewrite app_nil_r. split; [reflexivity|]. split; [assumption|]. intros i. split; [tauto|]. intros [?|(sf & [] & _)]; assumption.
  - inversion HB as [|? ? Hi HB']; subst. unfold fill_boundary in *. cbn [ofold].
    assert (OB : forall i, on_boundary (sf :: sfs) i <-> ((f_outerB sf = true \/ f_innerB sf = true) /\ In i (f_id sf)) \/ on_boundary sfs i).
    { intros i. split.
      - intros (s0 & [<-|Hs] & A & B); [left; tauto|right; exists s0; tauto].
      - intros [[A B]|(s0 & Hs & A & B)]; [exists sf|exists s0]; cbn; tauto. }
    destruct (f_outerB sf || f_innerB sf) eqn:EB.
    + rewrite orb_true_iff in EB. destruct (visit_ok (f_id sf) L s H Hi) as (T & s1 & E1 & H1 & H2). rewrite E1. cbn [obind].
      destruct (IH (L ++ T) s1 H1 HB') as (T' & s' & E & H3 & H4). exists (T ++ T'), s'. rewrite app_assoc. split; [assumption|]. split; [assumption|].
      intros i. rewrite H4, H2, OB. tauto.
    + apply orb_false_iff in EB. cbn [obind]. destruct (IH L s H HB') as (T' & s' & E & H3 & H4). exists T', s'. split; [assumption|]. split; [assumption|].
      intros i. rewrite H4, OB. destruct EB as [-> ->]. intuition congruence.
Qed.

(** the third pass also keeps Imap and Iinv *)
Record im_ok (T : list nat) (NI : nat) (im : list (option nat)) (ii : list nat) (j2 : nat) : Prop := {
  q_j : j2 = length T; q_lm : length im = nn; q_li : length ii = NI;
  q_im : forall k, k < length T -> nth (nth k T 0) im None = Some k;
  q_none : forall i, ~ In i T -> nth i im None = None;
  q_ii : forall k, k < length T -> nth k ii 0 = nth k T 0 }.
Lemma visit3_ok ids : forall L T s im ii j2, st_ok (L ++ T) s -> im_ok T (nn - length L) im ii j2 -> Forall (fun i => i < nn) ids ->
  exists T' s' im' ii' j2', ofold (fun i (s : mst * (list (option nat) * list nat * nat)) =>
      let '(s, (im, ii, j2)) := s in
      do b <- rd (m_flag s) i;
      if b then Ok (s, (im, ii, j2)) else
      do mp <- wr (m_map s) i (m_j s);
      do iv <- wr (m_inv s) (m_j s) i;
      do im' <- wr im i (Some j2);
      do ii' <- wr ii j2 i;
      do fl <- wr (m_flag s) i true;
      Ok (mkMst mp iv fl (m_j s + 1), (im', ii', j2 + 1))) ids (s, (im, ii, j2)) = Ok (s', (im', ii', j2')) /\
   st_ok (L ++ T') s' /\ im_ok T' (nn - length L) im' ii' j2' /\ forall i, In i (L ++ T') <-> In i (L ++ T) \/ In i ids.
Proof.
  induction ids as [|i ids IH]; intros L T s im ii j2 H Q HB; cbn [ofold].
  - exists T, s, im, ii, j2. split; [reflexivity|]. split; [assumption|]. split; [assumption|]. intros i; cbn; tauto.
  - inversion HB as [|? ? Hi HB']; subst. rewrite (rd_nth (m_flag s) i false) by (rewrite (o_lf _ _ H); assumption). cbn [obind].
    pose proof (o_flag _ _ H i Hi) as HF. destruct (nth i (m_flag s) false).
    + cbn [obind]. destruct (IH L T s im ii j2 H Q HB') as (T' & s' & im' & ii' & j2' & E & H1 & Q1 & H2). exists T', s', im', ii', j2'. split; [assumption|]. split; [assumption|]. split; [assumption|].
      intros a. rewrite H2. cbn. destruct HF as [HF _]. specialize (HF eq_refl). split; [tauto|]. intros [?|[<-|?]]; tauto.
    + assert (NI : ~ In i (L ++ T)) by (intros C; apply HF in C; discriminate).
      pose proof (short _ i (o_nd _ _ H) (o_lt _ _ H) Hi NI) as SH. rewrite app_length in SH.
      pose proof (o_j _ _ H) as J. rewrite app_length in J. pose proof (o_lm _ _ H) as LA. pose proof (o_li _ _ H) as LB. pose proof (o_lf _ _ H) as LC.
      destruct Q as [qj qlm qli qim qno qii].
      destruct (wr_spec (m_map s) i (m_j s)) as (l1 & E1 & _); [lia|]. rewrite E1. cbn [obind].
      destruct (wr_spec (m_inv s) (m_j s) i) as (l2 & E2 & _); [lia|]. rewrite E2. cbn [obind].
      destruct (wr_spec im i (Some j2)) as (l4 & E4 & L4 & N4); [lia|]. rewrite E4. cbn [obind].
      destruct (wr_spec ii j2 i) as (l5 & E5 & L5 & N5); [lia|]. rewrite E5. cbn [obind].
      destruct (wr_spec (m_flag s) i true) as (l3 & E3 & _); [lia|]. rewrite E3. cbn [obind].
      assert (NT : ~ In i T) by (intros C; apply NI; rewrite in_app_iff; tauto).
      destruct (IH L (T ++ [i]) (mkMst l1 l2 l3 (m_j s + 1)) l4 l5 (j2 + 1)) as (T' & s' & im' & ii' & j2' & E & H2 & Q2 & H3).
      * rewrite app_assoc. eapply put_st; eassumption.
      * constructor.
        -- rewrite app_length. cbn. lia. -- lia. -- lia.
        -- intros k Hk. rewrite app_length in Hk. cbn in Hk. rewrite nth_snoc, N4. destruct (Nat.ltb_spec k (length T)).
           ++ destruct (Nat.eqb_spec (nth k T 0) i) as [EE|]; [exfalso; apply NT; rewrite <- EE; apply nth_In; assumption|]. apply qim; assumption.
           ++ destruct (Nat.eqb_spec k (length T)); [|lia]. rewrite Nat.eqb_refl. f_equal. lia.
        -- intros a Ha. rewrite in_app_iff in Ha. rewrite N4. destruct (Nat.eqb_spec a i) as [->|]; [exfalso; apply Ha; cbn; tauto|]. apply qno. tauto.
        -- intros k Hk. rewrite app_length in Hk. cbn in Hk. rewrite nth_snoc, N5, qj. destruct (Nat.ltb_spec k (length T)).
           ++ destruct (Nat.eqb_spec k (length T)); [lia|]. apply qii; assumption.
           ++ destruct (Nat.eqb_spec k (length T)); [reflexivity|lia].
      * assumption.
      * exists T', s', im', ii', j2'. split; [assumption|]. split; [assumption|]. split; [assumption|].
        intros a. rewrite H3, app_assoc, in_app_iff. cbn. tauto.
Qed.
Definition all_exter (sfs : list sface) : Prop := Forall (fun sf => f_exterF sf = true) sfs.
Lemma interface_ok (sfs : list sface) : forall L T s im ii j2, st_ok (L ++ T) s -> im_ok T (nn - length L) im ii j2 ->
  Forall (fun sf => Forall (fun i => i < nn) (f_id sf)) sfs ->
  (forall i, on_boundary sfs i -> In i L) ->
  (~ all_exter sfs /\ fill_interface sfs (s, (im, ii, j2)) = Abort) \/
  (all_exter sfs /\ exists T' s' im' ii' j2', fill_interface sfs (s, (im, ii, j2)) = Ok (s', (im', ii', j2')) /\
     st_ok (L ++ T') s' /\ im_ok T' (nn - length L) im' ii' j2' /\ forall i, In i (L ++ T') <-> In i (L ++ T) \/ on_some_subface sfs i).
Proof.
  induction sfs as [|sf sfs IH]; intros L T s im ii j2 H Q HB HL.
  - right. split; [constructor|]. exists T, s, im, ii, j2. split; [reflexivity|]. split; [assumption|]. split; [assumption|].
    intros i. split; [tauto|]. intros [?|(sf & [] & _)]; assumption.
  - inversion HB as [|? ? Hi HB']; subst. unfold fill_interface in *. cbn [ofold].
    assert (HL' : forall i, on_boundary sfs i -> In i L) by (intros i (s0 & A & B); apply HL; exists s0; cbn; tauto).
    assert (OS : forall i, on_some_subface (sf :: sfs) i <-> In i (f_id sf) \/ on_some_subface sfs i).
    { intros i. split.
      - intros (s0 & [<-|Hs] & A); [left; tauto|right; exists s0; tauto].
      - intros [A|(s0 & Hs & A)]; [exists sf|exists s0]; cbn; tauto. }
    destruct (f_exterF sf) eqn:EX; cbn [negb].
    2: { left. split; [|reflexivity]. intros C. inversion C; congruence. }
    assert (Skip : (f_innerB sf = true \/ f_outerB sf = true) -> forall i, In i (f_id sf) -> In i L).
    { intros HH i Hin. apply HL. exists sf. cbn. tauto. }
    assert (HS : (f_innerB sf = true \/ f_outerB sf = true) \/ (f_innerB sf = false /\ f_outerB sf = false)) by (destruct (f_innerB sf), (f_outerB sf); auto).
    destruct HS as [HS|[N1 N2]].
    + assert (EE : forall (A : Type) (x y : A), (if f_innerB sf then x else if f_outerB sf then x else y) = x).
      { intros A x y. destruct (f_innerB sf); [reflexivity|]. destruct (f_outerB sf); [reflexivity|]. destruct HS; discriminate. }
      rewrite EE. cbn [obind]. destruct (IH L T s im ii j2 H Q HB' HL') as [[NA EA]|(AE & T' & s' & im' & ii' & j2' & E & H1 & Q1 & H2)].
      * left. split; [|assumption]. intros C. inversion C; contradiction.
      * right. split; [constructor; assumption|]. exists T', s', im', ii', j2'. split; [assumption|]. split; [assumption|]. split; [assumption|].
        intros i. rewrite H2, OS. split; [tauto|]. intros [?|[?|?]]; try tauto. left. rewrite in_app_iff. left. apply Skip; assumption.
    + rewrite N1, N2. destruct (visit3_ok (f_id sf) L T s im ii j2 H Q Hi) as (T1 & s1 & im1 & ii1 & k1 & E1 & H1 & Q1 & H2).
      rewrite E1. cbn [obind]. destruct (IH L T1 s1 im1 ii1 k1 H1 Q1 HB' HL') as [[NA EA]|(AE & T' & s' & im' & ii' & j2' & E & H3 & Q3 & H4)].
      * left. split; [|assumption]. intros C. inversion C; contradiction.
      * right. split; [constructor; assumption|]. exists T', s', im', ii', j2'. split; [assumption|]. split; [assumption|]. split; [assumption|].
        intros i. rewrite H4, H2, OS. tauto.
Qed.
End Map.

Section Top.
Context {F : Type}.
Theorem map_ok n0 n1 n2 nn (sfs : list (sface F)) map0 inv0 :
  nn = n0 * n1 * n2 -> (Z.of_nat n0 * Z.of_nat n1 * Z.of_nat n2 < 4294967296)%Z -> length map0 = nn -> length inv0 = nn ->
  Forall (fun sf => Forall (fun i => i < nn) (f_id sf)) sfs ->
  ((exists m, make_map_and_inv n0 n1 n2 nn false sfs map0 inv0 = Ok m /\ numbering n0 n1 n2 nn sfs m) /\
   all_exter sfs /\ (forall i, i < nn -> on_face n0 n1 n2 i -> on_some_subface sfs i)) \/
  (make_map_and_inv n0 n1 n2 nn false sfs map0 inv0 = Abort /\
   ~ (all_exter sfs /\ forall i, i < nn -> on_face n0 n1 n2 i -> on_some_subface sfs i)).
Proof.
  intros EN HB Lm Li HI. unfold make_map_and_inv.
  assert (H0 : st_ok nn [] (mkMst map0 inv0 (repeat false nn) 0)).
  { constructor; cbn [m_map m_inv m_flag m_j]; try assumption; try reflexivity.
    - apply repeat_length. - constructor. - constructor. - intros k Hk; cbn in Hk; lia. - intros k Hk; cbn in Hk; lia.
    - intros i Hi. rewrite nth_repeat. cbn. split; [discriminate|intros []]. }
  destruct (inner_ok nn n0 n1 n2 _ EN HB H0) as (L1 & s1 & E1 & H1 & I1 & O1). rewrite E1. cbn [obind].
  destruct (boundary_ok nn sfs L1 s1 H1 HI) as (B & s2 & E2 & H2 & I2). rewrite E2. cbn [obind].
  assert (J2 : m_j s2 = length (L1 ++ B)) by apply (o_j _ _ _ H2).
  assert (HN2 : length (L1 ++ B) <= nn).
  { pose proof (NoDup_incl_length (o_nd _ _ _ H2) (l' := seq 0 nn)) as K. rewrite seq_length in K. apply K.
    intros a Ha. apply in_seq. pose proof (o_lt _ _ _ H2) as LT. rewrite Forall_forall in LT. apply LT in Ha. lia. }
  assert (Q0 : im_ok nn [] (nn - length (L1 ++ B)) (repeat None nn) (repeat 0 (nn - m_j s2)) 0).
  { constructor; try reflexivity.
    - apply repeat_length. - rewrite repeat_length, J2. reflexivity. - intros k Hk; cbn in Hk; lia.
    - intros i _. apply nth_repeat. - intros k Hk; cbn in Hk; lia. }
  assert (HL : forall i, on_boundary sfs i -> In i (L1 ++ B)) by (intros i Hi; apply I2; tauto).
  pose proof H2 as H2'. rewrite <- (app_nil_r (L1 ++ B)) in H2'.
  destruct (interface_ok nn sfs (L1 ++ B) [] s2 _ _ 0 H2' Q0 HI HL) as [[NA EA]|(AE & T & s3 & im & ii & j2 & E3 & H3 & Q3 & I3)].
  { right. rewrite EA. split; [reflexivity|]. tauto. }
  rewrite E3. cbn [obind]. rewrite app_nil_r in I3.
  set (L := (L1 ++ B) ++ T) in *. pose proof (o_j _ _ _ H3) as J3.
  assert (ALL : forall i, In i L <-> i < nn /\ (~ on_face n0 n1 n2 i \/ on_some_subface sfs i)).
  { intros i. split.
    - intros Hi. split; [pose proof (o_lt _ _ _ H3) as LT; rewrite Forall_forall in LT; apply LT; assumption|].
      apply I3 in Hi. destruct Hi as [Hi|Hi]; [|tauto]. apply I2 in Hi. destruct Hi as [Hi|(sf & A & _ & C)]; [apply I1 in Hi; tauto|]. right. exists sf. tauto.
    - intros [Hi [NF|Hs]]; apply I3; [left; apply I2; left; apply I1; tauto|tauto]. }
  destruct (Nat.eqb_spec (m_j s3) nn) as [EJ|NJ]; cbn [negb].
  - left. assert (FULL : forall i, i < nn -> In i L).
    { intros i Hi. destruct (in_dec Nat.eq_dec i L) as [|NI]; [assumption|]. pose proof (short nn L i (o_nd _ _ _ H3) (o_lt _ _ _ H3) Hi NI). lia. }
    assert (FD : forall i, on_face n0 n1 n2 i \/ ~ on_face n0 n1 n2 i).
    { intros i. destruct (Nat.lt_ge_cases i nn) as [Hi|Hi].
      - destruct (OnFace_ok n0 n1 n2 i HB) as (b & _ & Hb); [lia|]. destruct b; [left; apply Hb; reflexivity|right; intros C; apply Hb in C; discriminate].
      - right. intros (a & b & c & Ha & Hb & Hc & E & _). clear - EN Hi Ha Hb Hc E.
        assert (A1 : a * n1 + b + 1 <= n0 * n1) by nia. set (t := a * n1 + b) in *. set (w := n0 * n1) in *. nia. }
    split; [|split; [assumption|]].
    2: { intros i Hi HF. apply FULL, ALL in Hi. destruct Hi as [_ [C|C]]; [contradiction|assumption]. }
    eexists. split; [reflexivity|]. destruct H3 as [lm li lf nd lt j inv mp fl]. destruct Q3 as [qj qlm qli qim qno qii].
    assert (LL : length L = nn) by lia. assert (LLs : length L = length (L1 ++ B) + length T) by apply app_length. rewrite app_length in LLs.
    pose proof (o_j _ _ _ H1) as J1. rewrite app_length in J2.
    (* where i is *)
    assert (POS : forall i, i < nn -> nth (nth i (m_map s3) 0) L 0 = i /\ nth i (m_map s3) 0 < nn).
    { intros i Hi. destruct (In_nth L i 0 (FULL i Hi)) as (k & Hk & EK). rewrite <- EK at 1 3. rewrite mp by assumption. split; [assumption|lia]. }
    assert (P1 : forall i, i < nn -> (nth i (m_map s3) 0 < length L1 <-> In i L1)).
    { intros i Hi. split.
      - intros H. destruct (POS i Hi) as [E _]. rewrite <- E. unfold L. rewrite !app_nth1 by (rewrite ?app_length; lia). apply nth_In. assumption.
      - intros H. destruct (In_nth L1 i 0 H) as (k & Hk & EK). assert (E : nth k L 0 = i) by (unfold L; rewrite !app_nth1 by (rewrite ?app_length; lia); assumption).
        rewrite <- E at 1. rewrite mp by lia. assumption. }
    assert (P2 : forall i, i < nn -> (nth i (m_map s3) 0 < length L1 + length B <-> In i (L1 ++ B))).
    { intros i Hi. split.
      - intros H. destruct (POS i Hi) as [E _]. rewrite <- E. unfold L. rewrite app_nth1 by (rewrite app_length; lia). apply nth_In. rewrite app_length. assumption.
      - intros H. destruct (In_nth (L1 ++ B) i 0 H) as (k & Hk & EK). assert (E : nth k L 0 = i) by (unfold L; rewrite app_nth1 by assumption; assumption).
        rewrite app_length in Hk. rewrite <- E at 1. rewrite mp by lia. assumption. }
    constructor; cbn [s_map s_inv s_Oi s_NS s_NI s_Imap s_Iinv].
    + rewrite qli, app_length. repeat split; lia.
    + lia.
    + intros k Hk. rewrite inv by lia. split; [|apply mp; lia]. rewrite Forall_forall in lt. apply lt. apply nth_In. lia.
    + intros i Hi. destruct (POS i Hi) as [A C]. split; [assumption|]. rewrite inv by lia. assumption.
    + intros i Hi. rewrite J1, P1 by assumption. rewrite I1. tauto.
    + intros k l Hk Hl. rewrite J1 in Hl. rewrite !inv by lia. unfold L. rewrite !app_nth1 by (rewrite ?app_length; lia). apply O1; assumption.
    + intros i Hi. rewrite J1, J2. rewrite P2 by assumption. rewrite I2. rewrite Nat.le_ngt. rewrite P1 by assumption. rewrite I1. specialize (FD i). tauto.
    + intros i Hi. rewrite J2. destruct (Nat.ltb_spec (nth i (m_map s3) 0) (length L1 + length B)) as [H|H].
      * apply qno. intros C. apply P2 in H; [|assumption].
        destruct (In_nth _ _ 0 H) as (k & Hk & EK). destruct (In_nth _ _ 0 C) as (k' & Hk' & EK').
        rewrite NoDup_nth with (d := 0) in nd. assert (k = length (L1 ++ B) + k'); [|lia]. apply nd; [rewrite LL in *; lia|rewrite app_length in *; lia|].
        unfold L. rewrite app_nth1 by assumption. rewrite (app_nth2 (L1 ++ B) T) by lia. rewrite EK. rewrite <- EK'. f_equal. lia.
      * destruct (POS i Hi) as [E C]. unfold L in E. rewrite app_nth2 in E by (rewrite app_length; lia). rewrite app_length in E. rewrite <- E at 1.
        rewrite qim by lia. reflexivity.
    + intros k Hk. rewrite J2 in *. rewrite qii by lia. rewrite inv by lia. unfold L. rewrite app_nth2 by (rewrite app_length; lia). f_equal. rewrite app_length. lia.
  - right. split; [reflexivity|]. intros [_ C]. apply NJ.
    assert (incl (seq 0 nn) L) as INC.
    { intros i Hi. apply in_seq in Hi. apply ALL. split; [lia|]. destruct (OnFace_ok n0 n1 n2 i HB) as (b & _ & Hb); [lia|]. destruct b.
      - right. apply C; [lia|]. apply Hb. reflexivity.
      - left. intros C'. apply Hb in C'. discriminate. }
    apply NoDup_incl_length in INC; [|apply seq_NoDup]. rewrite seq_length in INC.
    assert (K : length L <= nn).
    { pose proof (NoDup_incl_length (o_nd _ _ _ H3) (l' := seq 0 nn)) as K. rewrite seq_length in K. apply K.
      intros a Ha. apply in_seq. apply ALL in Ha. lia. }
    lia.
Qed.
Theorem map_closed n0 n1 n2 nn (sfs : list (sface F)) map0 inv0 : make_map_and_inv n0 n1 n2 nn true sfs map0 inv0 = Abort.
Proof. reflexivity. Qed.
End Top.
