(** SewFinal.v - the assembled blocks are the matrix of the assembled g, and one Newton step scales g by 1 - lambda. *)
From Coq Require Import Ring Permutation.
From Verif Require Import Base TextModel MatrixModel MatrixSpec MatrixProofs MatrixConvert MatrixRead SchurModel SchurSpec SchurProofs SchurPieces SchurFinal SchurExact SewModel SewSpec SewProofs.
Open Scope nat_scope.
Notation length := List.length.

Section Sew.
Context {F : Type} (zero one : F) (add mul sub : F -> F -> F) (opp : F -> F).
Context (RT : ring_theory zero one add mul sub opp (@eq F)).
Add Ring FR : RT.
Context (pd : nat -> nat -> list F -> list F) (interp : nat -> sface F -> nat -> list F -> F)
        (d2f : nat -> nat -> nat -> nat -> F) (dinterp : nat -> sface F -> nat -> nat -> nat -> F).
Notation sumF := (sumF zero add).
Notation ent := (ent zero).
Notation entry := (entry zero).
Notation Sext := (sumF_ext zero add).
Notation coef := (coef zero one add mul opp d2f dinterp).
Notation delta := (delta zero one).
Notation hit := (hit zero one).
Notation fsum l h := (fold_left (fun s a => add s (h a)) l zero).

Lemma fsum_perm {A} (h : A -> F) l l' : Permutation l l' -> fsum l h = fsum l' h.
Proof.
  induction 1 as [|a l l' _ IH|a b l|l l' l'' _ IH1 _ IH2].
  - reflexivity.
  - rewrite !(fold_cons zero one add mul sub opp RT h). rewrite IH. reflexivity.
  - rewrite !(fold_cons zero one add mul sub opp RT h). ring.
  - congruence.
Qed.
Lemma sum_list (l : list nat) (h : nat -> F) n : n = length l -> sumF n (fun k => h (nth k l 0)) = fsum l h.
Proof. intros ->. symmetry. apply (fold_nth zero add h l 0). Qed.

(** all nodes, once each *)
Lemma nodes_perm (P : ipatch F) : patch_numbered P -> Permutation (firstn (i_NS P) (i_inv P) ++ i_Iinv P) (seq 0 (i_nn P)).
Proof.
  intros PN. pose proof (pn_lt _ PN) as LT. rewrite Forall_forall in LT. apply NoDup_Permutation_bis.
  - apply (pn_nodup _ PN).
  - rewrite seq_length, app_length, firstn_length, (pn_Iinv _ PN). pose proof (pn_inv _ PN). unfold i_nn. lia.
  - intros a Ha. apply in_seq. apply LT in Ha. lia.
Qed.
Lemma nodes_sum (P : ipatch F) (h : nat -> F) : patch_numbered P ->
  add (sumF (i_NS P) (fun k => h (nth k (i_inv P) 0))) (sumF (i_NI P) (fun k => h (nth k (i_Iinv P) 0))) = sumF (i_nn P) h.
Proof.
  intros PN. rewrite (Sext (i_NS P) _ (fun k => h (nth k (firstn (i_NS P) (i_inv P)) 0))) by (intros k Hk; rewrite nth_firstn by assumption; reflexivity).
  rewrite (sum_list (firstn (i_NS P) (i_inv P)) h) by (rewrite firstn_length; pose proof (pn_inv _ PN); lia).
  rewrite (sum_list (i_Iinv P) h) by (symmetry; apply (pn_Iinv _ PN)).
  rewrite <- (fold_app zero one add mul sub opp RT). unfold SchurSpec.sumF. apply fsum_perm. apply nodes_perm. assumption.
Qed.

(** rows of a flat array *)
Lemma chunks nr nc : forall A : list F, length A = nr * nc -> exists B, shape nr nc B /\ concat B = A.
Proof.
  induction nr as [|nr IH]; intros A L.
  - exists []. split; [split; [reflexivity|constructor]|]. destruct A; [reflexivity|discriminate].
  - destruct (IH (skipn nc A)) as (B & [LB SB] & EB); [rewrite skipn_length; lia|]. exists (firstn nc A :: B). split.
    + split; [cbn; lia|]. constructor; [rewrite firstn_length; lia|assumption].
    + cbn [concat]. rewrite EB. apply firstn_skipn.
Qed.

Context (ps : list (ipatch F)) (G : grid_sewn ps).
Definition sew (p q : nat) (faces : list (sface F)) : list (sface F) :=
  filter (fun sf => negb (f_innerB sf) && negb (f_outerB sf) && ((p =? q) || (f_adj sf =? p))) faces.
Lemma sewing_ok p q Q : nth_error ps q = Some Q -> sewing_of p q (i_faces Q) = Ok (sew p q (i_faces Q)).
Proof.
  intros HQ. destruct (G q Q HQ) as [_ FO]. unfold sewing_of.
  assert (E : existsb (fun sf => negb (f_exterF sf)) (i_faces Q) = false).
  { pose proof (fo_ext _ _ _ FO) as EX. clear FO. induction EX as [|sf l H _ IH]; [reflexivity|]. cbn. rewrite H, IH. reflexivity. }
  rewrite E. reflexivity.
Qed.
Lemma sew_in p q Q sf : In sf (sew p q (i_faces Q)) <-> In sf (i_faces Q) /\ is_interface sf = true /\ (p = q \/ f_adj sf = p).
Proof.
  unfold sew. rewrite filter_In. unfold is_interface. rewrite !andb_true_iff, orb_true_iff, !Nat.eqb_eq. tauto.
Qed.
Lemma sew_ready p q P Q sf : nth_error ps p = Some P -> nth_error ps q = Some Q -> In sf (sew p q (i_faces Q)) -> face_ready p q (i_nn P) sf.
Proof.
  intros HP HQ Hs. apply sew_in in Hs. destruct Hs as (Hin & HI & HA). destruct (G q Q HQ) as [PN FO].
  destruct (fo_face _ _ _ FO sf Hin HI) as (NA & BI & HN & A & EA & HC). pose proof (fo_ext _ _ _ FO) as EX. rewrite Forall_forall in EX.
  split; [apply EX; assumption|]. split; [assumption|]. split; [assumption|]. split.
  - intros ->. rewrite HQ in HP. injection HP as <-. assumption.
  - intros NE TC. destruct HA as [?|HA]; [contradiction|]. rewrite HA, HP in EA. injection EA as <-. destruct (HC TC) as (L & B & _). auto.
Qed.

(** contribution of the pairs in l *)
Definition contrib (p q : nat) (Q : ipatch F) (c : sface F -> nat -> F) (i : nat) (sf : sface F) : F :=
  sumF (length (f_id sf)) (fun s => mul (hit (i_Imap Q) sf s i) (c sf s)).
Lemma blocks_ok p q P Q : nth_error ps p = Some P -> nth_error ps q = Some Q ->
  exists Fo Co, making_F_and_C zero one add mul opp d2f dinterp ps p q = Ok (Fo, Co) /\ block_ok (i_NI Q) (i_NS P) (i_NI P) Fo Co /\
    forall (l : list (option (matrix F))) (l' : list (option (matrix F))) i k, nth_error l q = Some Fo -> nth_error l' q = Some Co -> i < i_NI Q ->
      (k < i_NS P -> block_entry zero l q i k = fsum (sew p q (i_faces Q)) (contrib p q Q (fun sf s => coef p q sf s (nth k (i_inv P) 0)) i)) /\
      (k < i_NI P -> block_entry zero l' q i k = fsum (sew p q (i_faces Q)) (contrib p q Q (fun sf s => coef p q sf s (nth k (i_Iinv P) 0)) i)).
Proof.
  intros HP HQ. destruct (G p P HP) as [PNP FOP]. destruct (G q Q HQ) as [PNQ FOQ].
  unfold making_F_and_C. rewrite (rd_ok _ _ _ HP), (rd_ok _ _ _ HQ). cbn [obind]. rewrite (sewing_ok p q Q HQ). cbn [obind].
  assert (RD := fun sf => sew_ready p q P Q sf HP HQ).
  assert (BI : forall sf, In sf (sew p q (i_faces Q)) -> Forall (fun i => i < i_nn Q) (f_id sf)).
  { intros sf Hs. apply sew_in in Hs. destruct Hs as (Hin & HI & _). apply (fo_face _ _ _ FOQ sf Hin HI). }
  assert (HCC : forall sf, In sf (sew p q (i_faces Q)) -> p <> q -> f_touch sf && f_copy sf = true -> f_dn sf = false -> forall s, s < length (f_id sf) -> nth (nth s (f_id sf) 0) (i_Imap Q) None <> None ->
             nth (nth s (f_adjid sf) 0) (i_Imap P) None <> None).
  { intros sf Hs NE TC DN. apply sew_in in Hs. destruct Hs as (Hin & HI & [?|HA]); [contradiction|].
    destruct (fo_face _ _ _ FOQ sf Hin HI) as (_ & _ & _ & A & EA & HC). rewrite HA, HP in EA. injection EA as <-. apply (HC TC). assumption. }
  assert (PQ : p = q -> P = Q) by (intros ->; congruence).
  destruct (sew p q (i_faces Q)) as [|sf0 l0] eqn:ES.
  - exists None, None. split; [reflexivity|]. split; [left; auto|]. intros l l' i k Hl Hl' Hi. unfold block_entry. rewrite Hl, Hl'. cbn [fold_left]. auto.
  - pose proof (pn_NI _ PNQ) as Z1. pose proof (pn_NS _ PNP) as Z2. pose proof (pn_NI _ PNP) as Z3.
    destruct (Nat.eqb_spec (i_NI Q) 0); [lia|]. destruct (Nat.eqb_spec (i_NS P) 0); [lia|]. destruct (Nat.eqb_spec (i_NI P) 0); [lia|]. cbn [orb].
    rewrite <- ES in *. clear ES sf0 l0.
    assert (LOOP : forall l v w FC, (forall sf, In sf l -> In sf (sew p q (i_faces Q))) -> FC_ok zero (i_NI Q) P v w FC ->
      exists FC', ofold (populate_F_and_C one add mul opp d2f dinterp p q P (i_Imap Q)) l FC = Ok FC' /\
       FC_ok zero (i_NI Q) P (fun i k => add (v i k) (fsum l (contrib p q Q (fun sf s => coef p q sf s (nth k (i_inv P) 0)) i)))
             (fun i k => add (w i k) (fsum l (contrib p q Q (fun sf s => coef p q sf s (nth k (i_Iinv P) 0)) i))) FC').
    { induction l as [|sf l IH]; intros v w FC HL H0; cbn [ofold].
      - exists FC. split; [reflexivity|]. revert H0. apply FC_ext; intros i k _ _; cbn [fold_left]; ring.
      - specialize (HL sf (or_introl eq_refl)) as Hsf.
        destruct (populate_ok zero one add mul sub opp RT d2f dinterp p q P Q sf v w FC PNP PNQ PQ (RD sf Hsf) (BI sf Hsf) (HCC sf Hsf) H0) as (FC1 & E1 & H1).
        rewrite E1. cbn [obind]. destruct (IH _ _ FC1 (fun a Ha => HL a (or_intror Ha)) H1) as (FC2 & E2 & H2). exists FC2. split; [assumption|].
        revert H2. apply FC_ext; intros i k _ _; rewrite (fold_cons zero one add mul sub opp RT (contrib p q Q _ i)); unfold contrib at 2; ring. }
    destruct (LOOP (sew p q (i_faces Q)) (fun _ _ => zero) (fun _ _ => zero) (repeat zero (i_NI Q * i_NS P), repeat (repeat zero (i_NI P)) (i_NI Q))) as ([A C] & E & (LA & SC & HV & HW)).
    + auto.
    + split; [apply repeat_length|]. split; [split; [apply repeat_length|apply Forall_forall; intros x Hx; apply repeat_spec in Hx; subst; apply repeat_length]|]. cbn [fst snd].
      split; intros i k Hi Hk; [apply nth_repeat|]. unfold MatrixSpec.entry. rewrite (nth_indep _ [] (repeat zero (i_NI P))) by (rewrite repeat_length; lia). rewrite nth_repeat. apply nth_repeat.
    + cbn [fst snd] in *. 
      destruct (chunks (i_NI Q) (i_NS P) A LA) as (A' & SA' & EA').
      rewrite E. cbn [obind fst snd]. do 2 eexists. split; [reflexivity|]. split.
      * right. exists A', C. rewrite EA'. auto.
      * intros l l' i k Hl Hl' Hi. unfold block_entry. rewrite Hl, Hl'. cbn [sto col]. split; intros Hk.
        -- rewrite HV by assumption. ring.
        -- rewrite HW by assumption. ring.
Qed.

(** ** g *)
Context (JM : forall p P, nth_error ps p = Some P -> jacobians_match zero add mul pd interp d2f dinterp p (i_nn P)).
Notation fields_fit := (fields_fit ps).
Definition pval (q : nat) (us : list (list F)) (p : nat) (sf : sface F) (s : nat) : F :=
  let u := nth p us [] in sumF (length u) (fun j => mul (coef p q sf s j) (ent u j)).

Lemma mirror_ok q Q sf : nth_error ps q = Some Q -> In sf (sew q q (i_faces Q)) -> mirror q (i_faces Q) sf = Ok sf.
Proof.
  intros HQ Hs. apply sew_in in Hs. destruct Hs as (Hin & HI & _). destruct (G q Q HQ) as [PN FO].
  unfold mirror. rewrite (sewing_ok (f_adj sf) q Q HQ). cbn [obind].
  assert (Hm : In sf (sew (f_adj sf) q (i_faces Q))) by (apply sew_in; auto).
  destruct (find_pair (sew (f_adj sf) q (i_faces Q)) sf) as [m|] eqn:EF.
  - assert (m = sf) as ->.
    { unfold find_pair in EF. apply find_some in EF. destruct EF as [Hin' HK]. apply andb_true_iff in HK. rewrite !Nat.eqb_eq in HK.
      apply sew_in in Hin'. destruct Hin' as (Hin' & HI' & _). apply (fo_key _ _ _ FO); tauto. }
    destruct (sew (f_adj sf) q (i_faces Q)) as [|a l]; [destruct Hm|reflexivity].
  - exfalso. unfold find_pair in EF. apply (find_none _ _ EF) in Hm. rewrite !Nat.eqb_refl in Hm. discriminate.
Qed.

Lemma g_loop (im : list (option nat)) (sf : sface F) (pg1 pg2 : list F) NI :
  (forall s, s < length (f_id sf) -> nth s (f_id sf) 0 < length im) -> (forall i k, nth i im None = Some k -> k < NI) ->
  length pg1 = length (f_id sf) -> length pg2 = length (f_id sf) ->
  forall g, length g = NI -> exists g', ofold (fun s g =>
            do n <- rd (f_id sf) s; do im <- rd im n;
            match im with
            | None => Ok g
            | Some i => do a <- rd pg1 s; do b <- rd pg2 s; do o <- rd g i; wr g i (add o (add a b))
            end) (seq 0 (length (f_id sf))) g = Ok g' /\ length g' = NI /\
    forall i, i < NI -> ent g' i = add (ent g i) (sumF (length (f_id sf)) (fun s => mul (hit im sf s i) (add (nth s pg1 zero) (nth s pg2 zero)))).
Proof.
  intros BI HI L1 L2 g Lg. set (np := length (f_id sf)) in *.
  assert (SS : forall m (h : nat -> F), sumF (m + 1) h = add (sumF m h) (h m)).
  { intros m h. unfold SchurSpec.sumF. rewrite Nat.add_1_r, seq_S, fold_left_app. reflexivity. }
  destruct (ofold_seq_inv (fun m g' => length g' = NI /\ forall i, i < NI -> ent g' i = add (ent g i) (sumF m (fun s => mul (hit im sf s i) (add (nth s pg1 zero) (nth s pg2 zero)))))
    (fun s g => do n <- rd (f_id sf) s; do im <- rd im n;
            match im with
            | None => Ok g
            | Some i => do a <- rd pg1 s; do b <- rd pg2 s; do o <- rd g i; wr g i (add o (add a b))
            end) np 0 g) as (g' & E & L' & H').
  - intros s g1 Hs (Lg1 & H1). rewrite (rd_nth (f_id sf) s 0) by (unfold np in *; lia). cbn [obind].
    rewrite (rd_nth im _ None) by (apply BI; lia). cbn [obind].
    destruct (nth (nth s (f_id sf) 0) im None) as [k|] eqn:EK.
    + rewrite (rd_nth pg1 s zero), (rd_nth pg2 s zero) by lia. cbn [obind]. pose proof (HI _ _ EK) as Hk. rewrite (rd_nth g1 k zero) by lia. cbn [obind].
      destruct (wr_spec g1 k (add (nth k g1 zero) (add (nth s pg1 zero) (nth s pg2 zero)))) as (g2 & E2 & L2' & N2); [lia|]. exists g2. split; [assumption|]. split; [lia|].
      intros i Hi. unfold SchurSpec.ent in *. rewrite N2, SS, (hit_some zero one _ _ _ _ _ EK). unfold SewProofs.delta. rewrite (Nat.eqb_sym k i).
      destruct (Nat.eqb_spec i k) as [->|NE]; rewrite H1 by assumption; ring.
    + exists g1. split; [reflexivity|]. split; [assumption|]. intros i Hi. rewrite SS, H1 by assumption. rewrite (hit_none zero one _ _ _ _ EK). ring.
  - split; [assumption|]. intros i Hi. unfold SchurSpec.sumF. cbn [seq fold_left]. ring.
  - exists g'. auto.
Qed.

Lemma g_ok us q Q : fields_fit us -> nth_error ps q = Some Q ->
  exists g, make_g zero one add mul opp pd interp (combine ps us) q = Ok (Some g) /\ length g = i_NI Q /\
    forall i, i < i_NI Q -> ent g i = fsum (sew q q (i_faces Q)) (contrib q q Q (fun sf s => add (pval q us q sf s) (pval q us (f_adj sf) sf s)) i).
Proof.
  intros [Lus FF] HQ. destruct (G q Q HQ) as [PN FO].
  assert (HU : forall p P, nth_error ps p = Some P -> nth_error us p = Some (nth p us []) /\ length (nth p us []) = i_nn P).
  { intros p P HP. assert (p < length us) by (rewrite Lus; apply nth_error_Some; congruence). assert (E : nth_error us p = Some (nth p us [])) by (apply nth_error_nth'; assumption).
    split; [assumption|]. apply (FF p P _ HP E). }
  destruct (HU q Q HQ) as [EU LU].
  unfold make_g. rewrite (rd_ok _ _ _ (combine_nth_error ps us q Q _ HQ EU)). cbn [obind]. rewrite (sewing_ok q q Q HQ). cbn [obind].
  assert (NE : sew q q (i_faces Q) <> []).
  { destruct (fo_some _ _ _ FO) as (sf & Hin & HI). intros C. assert (In sf (sew q q (i_faces Q))) as H by (apply sew_in; auto). rewrite C in H. destruct H. }
  assert (LOOP : forall l g, (forall sf, In sf l -> In sf (sew q q (i_faces Q))) -> length g = i_NI Q ->
    exists g', ofold (fun sf g =>
          do m <- mirror q (i_faces Q) sf;
          do Au <- rd (combine ps us) (f_adj sf);
          if f_adj sf =? q then UB else
          do pg1 <- make_pg zero one add mul opp pd interp q q (nth q us []) sf;
          do pg2 <- make_pg zero one add mul opp pd interp (f_adj sf) q (snd Au) m;
          ofold (fun s g =>
            do n <- rd (f_id sf) s; do im <- rd (i_Imap Q) n;
            match im with
            | None => Ok g
            | Some i => do a <- rd pg1 s; do b <- rd pg2 s; do o <- rd g i; wr g i (add o (add a b))
            end) (seq 0 (length (f_id sf))) g) l g = Ok g' /\ length g' = i_NI Q /\
      forall i, i < i_NI Q -> ent g' i = add (ent g i) (fsum l (contrib q q Q (fun sf s => add (pval q us q sf s) (pval q us (f_adj sf) sf s)) i))).
  { induction l as [|sf l IH]; intros g HL Lg; cbn [ofold].
    - exists g. split; [reflexivity|]. split; [assumption|]. intros i Hi. cbn [fold_left]. ring.
    - pose proof (HL sf (or_introl eq_refl)) as Hs. rewrite (mirror_ok q Q sf HQ Hs). cbn [obind].
      pose proof Hs as Hs'. apply sew_in in Hs'. destruct Hs' as (Hin & HI & _).
      destruct (fo_face _ _ _ FO sf Hin HI) as (NA & BI & _ & A & EA & _). destruct (HU _ _ EA) as [EUA LUA].
      rewrite (rd_ok _ _ _ (combine_nth_error ps us _ A _ EA EUA)). cbn [obind snd]. rewrite (proj2 (Nat.eqb_neq _ _) NA).
      destruct (pg_ok zero one add mul sub opp RT pd interp d2f dinterp q q (nth q us []) sf (i_nn Q) (JM q Q HQ) LU (sew_ready q q Q Q sf HQ HQ Hs)) as (pg1 & E1 & L1 & H1).
      rewrite E1. cbn [obind].
      assert (Hs2 : In sf (sew (f_adj sf) q (i_faces Q))) by (apply sew_in; auto).
      destruct (pg_ok zero one add mul sub opp RT pd interp d2f dinterp (f_adj sf) q (nth (f_adj sf) us []) sf (i_nn A) (JM _ A EA) LUA (sew_ready _ q A Q sf EA HQ Hs2)) as (pg2 & E2 & L2 & H2).
      rewrite E2. cbn [obind]. rewrite Forall_forall in BI.
      destruct (g_loop (i_Imap Q) sf pg1 pg2 (i_NI Q)) with (g := g) as (g1 & E3 & L3 & H3); try assumption.
      { intros s Hs3. rewrite (pn_Imap _ PN). apply BI. apply nth_In. assumption. }
      { intros i k Hk. apply (pn_some _ PN _ _ Hk). }
      rewrite E3. cbn [obind]. destruct (IH g1 (fun a Ha => HL a (or_intror Ha)) L3) as (g' & E4 & L4 & H4). exists g'. split; [assumption|]. split; [assumption|].
      intros i Hi. rewrite H4, H3 by assumption. rewrite (fold_cons zero one add mul sub opp RT (contrib q q Q _ i)). unfold contrib at 2.
      rewrite (Sext _ (fun s => mul (hit (i_Imap Q) sf s i) (add (nth s pg1 zero) (nth s pg2 zero))) (fun s => mul (hit (i_Imap Q) sf s i) (add (pval q us q sf s) (pval q us (f_adj sf) sf s)))).
      + ring.
      + intros s Hs4. rewrite H1, H2 by assumption. unfold pval. rewrite LU, LUA. reflexivity. }
  destruct (LOOP (sew q q (i_faces Q)) (repeat zero (i_NI Q))) as (g & Eg & Lg & Hg); [auto|apply repeat_length|].
  exists g. split; [|split; [assumption|]].
  - destruct (sew q q (i_faces Q)) as [|sf0 l0]; [congruence|]. rewrite Eg. reflexivity.
  - intros i Hi. rewrite Hg by assumption. unfold SchurSpec.ent at 1. rewrite nth_repeat. ring.
Qed.

(** ** the two are the same *)
Lemma fsum_ext {A} (h h' : A -> F) l : (forall a, In a l -> h a = h' a) -> fsum l h = fsum l h'.
Proof. intros H. apply (fold_ext add). assumption. Qed.
Lemma fsum_filter {A} (f : A -> bool) (h : A -> F) l : fsum (filter f l) h = fsum l (fun a => if f a then h a else zero).
Proof.
  induction l as [|a l IH]; [reflexivity|]. cbn [filter]. rewrite (fold_cons zero one add mul sub opp RT (fun a => if f a then h a else zero)). destruct (f a).
  - rewrite (fold_cons zero one add mul sub opp RT h), IH. reflexivity.
  - rewrite IH. ring.
Qed.
Lemma row_ok us q Q p P (Fo Co : list (option (matrix F))) i :
  nth_error ps q = Some Q -> nth_error ps p = Some P -> length (nth p us []) = i_nn P -> i < i_NI Q ->
  (forall k, k < i_NS P -> block_entry zero Fo q i k = fsum (sew p q (i_faces Q)) (contrib p q Q (fun sf s => coef p q sf s (nth k (i_inv P) 0)) i)) ->
  (forall k, k < i_NI P -> block_entry zero Co q i k = fsum (sew p q (i_faces Q)) (contrib p q Q (fun sf s => coef p q sf s (nth k (i_Iinv P) 0)) i)) ->
  add (sumF (i_NS P) (fun k => mul (block_entry zero Fo q i k) (ent (fst (restrict zero P (nth p us []))) k)))
      (sumF (i_NI P) (fun k => mul (block_entry zero Co q i k) (ent (snd (restrict zero P (nth p us []))) k))) =
  fsum (sew p q (i_faces Q)) (contrib p q Q (pval q us p) i).
Proof.
  intros HQ HP LU Hi HF HC. set (u := nth p us []) in *. destruct (G p P HP) as [PNP _].
  assert (SW : forall n (l : list nat), sumF n (fun k => mul (fsum (sew p q (i_faces Q)) (contrib p q Q (fun sf s => coef p q sf s (nth k l 0)) i)) (ent u (nth k l 0))) =
     fsum (sew p q (i_faces Q)) (fun sf => sumF (length (f_id sf)) (fun s => mul (hit (i_Imap Q) sf s i) (sumF n (fun k => mul (coef p q sf s (nth k l 0)) (ent u (nth k l 0))))))).
  { intros n l.
    rewrite (Sext n _ (fun k => fsum (sew p q (i_faces Q)) (fun sf => mul (contrib p q Q (fun sf s => coef p q sf s (nth k l 0)) i sf) (ent u (nth k l 0))))).
    2: { intros k Hk. apply (fold_mul_r zero one add mul sub opp RT (contrib p q Q (fun sf s => coef p q sf s (nth k l 0)) i)). }
    unfold SchurSpec.sumF at 1. rewrite (fold_swap zero one add mul sub opp RT (fun k sf => mul (contrib p q Q (fun sf s => coef p q sf s (nth k l 0)) i sf) (ent u (nth k l 0)))).
    apply fsum_ext. intros sf Hsf. transitivity (sumF n (fun k => mul (contrib p q Q (fun sf s => coef p q sf s (nth k l 0)) i sf) (ent u (nth k l 0)))); [reflexivity|].
    unfold contrib.
    rewrite (Sext n _ (fun k => sumF (length (f_id sf)) (fun s => mul (mul (hit (i_Imap Q) sf s i) (coef p q sf s (nth k l 0))) (ent u (nth k l 0))))).
    2: { intros k Hk. apply (sumF_mul_r zero one add mul sub opp RT). }
    rewrite (sumF_swap zero one add mul sub opp RT). apply Sext. intros s Hs. rewrite (sumF_mul_l zero one add mul sub opp RT). apply Sext. intros k Hk. ring. }
  rewrite (Sext (i_NS P) _ (fun k => mul (fsum (sew p q (i_faces Q)) (contrib p q Q (fun sf s => coef p q sf s (nth k (i_inv P) 0)) i)) (ent u (nth k (i_inv P) 0)))).
  2: { intros k Hk. rewrite HF by assumption. f_equal. unfold restrict. cbn [fst]. unfold SchurSpec.ent at 1. apply (nth_map_seq zero (fun k => ent u (nth k (i_inv P) 0))). assumption. }
  rewrite (Sext (i_NI P) _ (fun k => mul (fsum (sew p q (i_faces Q)) (contrib p q Q (fun sf s => coef p q sf s (nth k (i_Iinv P) 0)) i)) (ent u (nth k (i_Iinv P) 0)))).
  2: { intros k Hk. rewrite HC by assumption. f_equal. unfold restrict. cbn [snd]. unfold SchurSpec.ent at 1. apply (nth_map_seq zero (fun k => ent u (nth k (i_Iinv P) 0))). assumption. }
  rewrite !SW. rewrite <- (fold_add zero one add mul sub opp RT). apply fsum_ext. intros sf Hsf. unfold contrib.
  rewrite <- (sumF_add zero one add mul sub opp RT). apply Sext. intros s Hs.
  assert (PV : pval q us p sf s = sumF (i_nn P) (fun j => mul (coef p q sf s j) (ent u j))) by (unfold pval; fold u; rewrite LU; reflexivity).
  rewrite PV, <- (nodes_sum P (fun j => mul (coef p q sf s j) (ent u j)) PNP). ring.
Qed.

Lemma all_pairs q Q (h : nat -> sface F -> F) : nth_error ps q = Some Q ->
  sumF (length ps) (fun p => fsum (sew p q (i_faces Q)) (h p)) = fsum (sew q q (i_faces Q)) (fun sf => add (h q sf) (h (f_adj sf) sf)).
Proof.
  intros HQ. destruct (G q Q HQ) as [_ FO]. assert (Hq : q < length ps) by (apply nth_error_Some; congruence).
  unfold sew. rewrite fsum_filter.
  rewrite (Sext (length ps) _ (fun p => fsum (i_faces Q) (fun sf => if negb (f_innerB sf) && negb (f_outerB sf) && ((p =? q) || (f_adj sf =? p)) then h p sf else zero)))
    by (intros p Hp; apply fsum_filter).
  unfold SchurSpec.sumF. rewrite (fold_swap zero one add mul sub opp RT (fun p sf => if negb (f_innerB sf) && negb (f_outerB sf) && ((p =? q) || (f_adj sf =? p)) then h p sf else zero)).
  apply fsum_ext. intros sf Hin. transitivity (sumF (length ps) (fun p => if negb (f_innerB sf) && negb (f_outerB sf) && ((p =? q) || (f_adj sf =? p)) then h p sf else zero)); [reflexivity|].
  rewrite Nat.eqb_refl. cbn [orb]. rewrite andb_true_r. destruct (negb (f_innerB sf) && negb (f_outerB sf)) eqn:EI; cbn [andb].
  2: { apply (sumF_zero zero one add mul sub opp RT). reflexivity. }
  destruct (fo_face _ _ _ FO sf Hin EI) as (NA & _ & _ & A & EA & _). assert (Ha : f_adj sf < length ps) by (apply nth_error_Some; congruence).
  rewrite (Sext (length ps) _ (fun p => add (mul (delta q p) (h p sf)) (mul (delta (f_adj sf) p) (h p sf)))).
  - rewrite (sumF_add zero one add mul sub opp RT). rewrite !(sumF_delta zero one add mul sub opp RT) with (h := fun p => h p sf) by assumption. reflexivity.
  - intros p Hp. unfold SewProofs.delta. rewrite (Nat.eqb_sym q p). destruct (Nat.eqb_spec p q); destruct (Nat.eqb_spec (f_adj sf) p); cbn [orb]; try ring. subst. congruence.
Qed.

(** the blocks of all patches *)
Definition blocks_of (p : nat) (sp : spatch F) (P : ipatch F) : Prop :=
  sNS sp = i_NS P /\ sNI sp = i_NI P /\ F_and_C zero one add mul opp d2f dinterp ps p = Ok (sF sp, sC sp).
Lemma F_and_C_ok p P : nth_error ps p = Some P -> exists Fs Cs, F_and_C zero one add mul opp d2f dinterp ps p = Ok (Fs, Cs) /\
  length Fs = length ps /\ length Cs = length ps /\
  forall q Q, nth_error ps q = Some Q -> exists Fo Co, nth_error Fs q = Some Fo /\ nth_error Cs q = Some Co /\ block_ok (i_NI Q) (i_NS P) (i_NI P) Fo Co /\
    forall i k, i < i_NI Q ->
      (k < i_NS P -> block_entry zero Fs q i k = fsum (sew p q (i_faces Q)) (contrib p q Q (fun sf s => coef p q sf s (nth k (i_inv P) 0)) i)) /\
      (k < i_NI P -> block_entry zero Cs q i k = fsum (sew p q (i_faces Q)) (contrib p q Q (fun sf s => coef p q sf s (nth k (i_Iinv P) 0)) i)).
Proof.
  intros HP. unfold F_and_C.
  assert (HB : forall n, n <= length ps -> exists l, omap (making_F_and_C zero one add mul opp d2f dinterp ps p) (seq (length ps - n) n) = Ok l /\ length l = n /\
     forall k Q, k < n -> nth_error ps (length ps - n + k) = Some Q -> exists Fo Co, nth_error l k = Some (Fo, Co) /\ making_F_and_C zero one add mul opp d2f dinterp ps p (length ps - n + k) = Ok (Fo, Co)).
  { induction n as [|n IH]; intros Hn.
    - exists []. split; [reflexivity|]. split; [reflexivity|]. intros; lia.
    - destruct (IH ltac:(lia)) as (l & El & Ll & Hl). cbn [seq omap].
      destruct (nth_error ps (length ps - S n)) as [Q0|] eqn:EQ0; [|apply nth_error_None in EQ0; lia].
      destruct (blocks_ok p (length ps - S n) P Q0 HP EQ0) as (Fo & Co & E & _). rewrite E. cbn [obind].
      replace (S (length ps - S n)) with (length ps - n) by lia. rewrite El. cbn [obind]. exists ((Fo, Co) :: l). split; [reflexivity|]. split; [cbn; lia|].
      intros [|k] Q Hk HQ.
      + exists Fo, Co. rewrite Nat.add_0_r. auto.
      + replace (length ps - S n + S k) with (length ps - n + k) in * by lia. apply (Hl k Q); [lia|assumption]. }
  destruct (HB (length ps) (Nat.le_refl _)) as (l & El & Ll & Hl). rewrite Nat.sub_diag in *. rewrite El. cbn [obind].
  exists (map fst l), (map snd l). split; [reflexivity|]. split; [rewrite map_length; assumption|]. split; [rewrite map_length; assumption|].
  intros q Q HQ. assert (q < length ps) by (apply nth_error_Some; congruence). destruct (Hl q Q) as (Fo & Co & En & Em); [assumption|assumption|]. cbn [Nat.add] in Em.
  destruct (blocks_ok p q P Q HP HQ) as (Fo' & Co' & E & BO & HE). rewrite Em in E. injection E as <- <-.
  exists Fo, Co. split; [rewrite nth_error_map, En; reflexivity|]. split; [rewrite nth_error_map, En; reflexivity|]. split; [assumption|].
  intros i k Hi. apply HE; [rewrite nth_error_map, En; reflexivity|rewrite nth_error_map, En; reflexivity|assumption].
Qed.

Lemma fold_left_ext_in {A S} (f g : S -> A -> S) l : (forall s a, In a l -> f s a = g s a) -> forall s, fold_left f l s = fold_left g l s.
Proof. induction l as [|a l IH]; intros H s; [reflexivity|]. cbn [fold_left]. rewrite (H s a) by (left; reflexivity). apply IH. intros; apply H; right; assumption. Qed.
Definition restrict_all (us : list (list F)) : list (list F * list F) := map (fun Pu => restrict zero (fst Pu) (snd Pu)) (combine ps us).
Theorem jacobian_of_g sps us : Forall2 (fun pP sp => blocks_of (fst pP) sp (snd pP)) (combine (seq 0 (length ps)) ps) sps -> fields_fit us ->
  forall q Q, nth_error ps q = Some Q -> exists g, make_g zero one add mul opp pd interp (combine ps us) q = Ok (Some g) /\ length g = i_NI Q /\
    forall i, i < i_NI Q -> ent g i = interface_row zero add mul sps (restrict_all us) q i.
Proof.
  intros HS FF q Q HQ. destruct (g_ok us q Q FF HQ) as (g & Eg & Lg & Hg). exists g. split; [assumption|]. split; [assumption|].
  intros i Hi. rewrite Hg by assumption. destruct FF as [Lus FF].
  assert (Lsps : length sps = length ps). { apply Forall2_length in HS. rewrite combine_length, seq_length, Nat.min_id in HS. auto. }
  assert (HSp : forall p P, nth_error ps p = Some P -> exists sp, nth_error sps p = Some sp /\ blocks_of p sp P).
  { intros p P HP. assert (p < length ps) by (apply nth_error_Some; congruence). destruct (nth_error_ex sps p) as [sp Hsp]; [lia|]. exists sp. split; [assumption|].
    refine (Forall2_nth _ _ _ p (p, P) sp HS _ Hsp). rewrite nth_error_combine, HP. rewrite (nth_error_nth' _ 0) by (rewrite seq_length; assumption). rewrite seq_nth by assumption. reflexivity. }
  unfold interface_row.
  rewrite (fold_left_ext_in _ (fun s pxy => add s (add (sumF (sNS (fst pxy)) (fun k => mul (block_entry zero (sF (fst pxy)) q i k) (ent (fst (snd pxy)) k)))
              (sumF (sNI (fst pxy)) (fun k => mul (block_entry zero (sC (fst pxy)) q i k) (ent (snd (snd pxy)) k)))))).
  2: { intros s [P [x y']] _. reflexivity. }
  rewrite (fold_nth zero add _ (combine sps (restrict_all us)) (@dP F, ([], []))).
  assert (LR : length (restrict_all us) = length ps) by (unfold restrict_all; rewrite map_length, combine_length; lia).
  rewrite combine_length, LR, Lsps, Nat.min_id.
  rewrite (Sext (length ps) _ (fun p => fsum (sew p q (i_faces Q)) (contrib p q Q (pval q us p) i))).
  - rewrite (all_pairs q Q (fun p => contrib p q Q (pval q us p) i) HQ). apply fsum_ext. intros sf Hsf. unfold contrib.
    rewrite <- (sumF_add zero one add mul sub opp RT). apply Sext. intros s Hs. ring.
  - intros p Hp. destruct (nth_error_ex ps p Hp) as [P HP]. destruct (HSp p P HP) as (sp & Hsp & (E1 & E2 & E3)).
    assert (EU : nth_error us p = Some (nth p us [])) by (apply nth_error_nth'; lia).
    assert (ER : nth_error (restrict_all us) p = Some (restrict zero P (nth p us []))).
    { unfold restrict_all. rewrite nth_error_map, (combine_nth_error _ _ _ _ _ HP EU). reflexivity. }
    rewrite (nth_error_nth _ _ (@dP F, ([], [])) (combine_nth_error _ _ _ _ _ Hsp ER)). cbn [fst snd]. rewrite E1, E2.
    destruct (F_and_C_ok p P HP) as (Fs & Cs & EFC & _ & _ & HB). rewrite E3 in EFC. injection EFC as EF EC. destruct (HB q Q HQ) as (Fo & Co & _ & _ & _ & HE).
    apply (row_ok us q Q p P (sF sp) (sC sp) i HQ HP (FF p P _ HP EU) Hi).
    + intros k Hk. rewrite EF. apply (HE i k Hi). assumption.
    + intros k Hk. rewrite EC. apply (HE i k Hi). assumption.
Qed.
End Sew.
