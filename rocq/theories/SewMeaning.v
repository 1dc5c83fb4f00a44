(** SewMeaning.v - what g is: the sum of the jumps across the interfaces. *)
From Coq Require Import Ring.
From Verif Require Import Base TextModel MatrixModel MatrixSpec MatrixProofs SchurModel SchurSpec SchurProofs SchurPieces SchurFinal SchurExact SewModel SewSpec SewProofs SewFinal.
Open Scope nat_scope.
Notation length := List.length.

Section Sew.
Context {F : Type} (zero one : F) (add mul sub : F -> F -> F) (opp : F -> F).
Context (RT : ring_theory zero one add mul sub opp (@eq F)).
Add Ring FR : RT.
Context (pd : nat -> nat -> list F -> list F) (interp : nat -> sface F -> nat -> list F -> F)
        (d2f : nat -> nat -> nat -> nat -> F) (dinterp : nat -> sface F -> nat -> nat -> nat -> F).
Notation sumF := (sumF zero add).
Notation ent := (ent zero).
Notation Sext := (sumF_ext zero add).
Context (ps : list (ipatch F)) (G : grid_sewn ps).
Context (JM : forall p P, nth_error ps p = Some P -> jacobians_match zero add mul pd interp d2f dinterp p (i_nn P)).
Notation pval := (pval zero one add mul opp d2f dinterp).

Lemma jump_ok us q Q sf s : fields_fit ps us -> nth_error ps q = Some Q -> In sf (i_faces Q) -> is_interface sf = true -> s < length (f_id sf) ->
  add (pval q us q sf s) (pval q us (f_adj sf) sf s) = jump zero add sub mul pd interp us q sf s.
Proof.
  intros FF HQ Hin HI Hs. destruct (G q Q HQ) as [PN FO]. destruct (fo_face _ _ _ FO sf Hin HI) as (NA & BI & HN & A & EA & HC).
  assert (EU : nth_error us q = Some (nth q us [])) by (apply nth_error_nth'; destruct FF as [L _]; rewrite L; apply nth_error_Some; congruence).
  assert (EV : nth_error us (f_adj sf) = Some (nth (f_adj sf) us [])) by (apply nth_error_nth'; destruct FF as [L _]; rewrite L; apply nth_error_Some; congruence).
  pose proof (proj2 FF q Q _ HQ EU) as LU. pose proof (proj2 FF _ A _ EA EV) as LV.
  destruct (JM q Q HQ _ LU) as (LP & DP & _ & _). destruct (JM _ A EA _ LV) as (LP' & DP' & IP' & DI').
  unfold SewFinal.pval, jump. rewrite LU, LV. set (u := nth q us []) in *. set (v := nth (f_adj sf) us []) in *.
  assert (Hn : nth s (f_id sf) 0 < i_nn Q). { rewrite Forall_forall in BI. apply BI. apply nth_In. assumption. }
  unfold coef. rewrite Nat.eqb_refl. rewrite (proj2 (Nat.eqb_neq (f_adj sf) q) NA).
  assert (Hm : f_touch sf && f_copy sf = true -> nth s (f_adjid sf) 0 < i_nn A).
  { intros TC. destruct (HC TC) as (LA & BA & _). rewrite Forall_forall in BA. apply BA. apply nth_In. lia. }
  destruct (f_touch sf && f_copy sf) eqn:TC; [specialize (Hm eq_refl)|clear Hm]; destruct (f_dn sf) eqn:DN.
  - rewrite !(sum_ndot zero one add mul sub opp RT). rewrite <- !DP by lia. rewrite <- !DP' by lia.
    unfold N0. destruct (nth s (f_N sf) (zero, zero, zero)) as [[x y] z]. unfold dotN, SewModel.ndot, SewModel.mone. cbn [fst snd]. ring.
  - rewrite (Sext (i_nn Q) _ (fun j => mul (delta zero one (nth s (f_id sf) 0) j) (ent u j))) by (intros; ring).
    rewrite (Sext (i_nn A) _ (fun j => mul (delta zero one (nth s (f_adjid sf) 0) j) (mul (mone one opp) (ent v j)))) by (intros; ring).
    rewrite !(sumF_delta zero one add mul sub opp RT) by assumption. unfold SewModel.mone. ring.
  - rewrite !(sum_ndot zero one add mul sub opp RT). rewrite <- !DP by lia. rewrite <- !DI' by lia.
    unfold N0. destruct (nth s (f_N sf) (zero, zero, zero)) as [[x y] z]. unfold dotN, SewModel.ndot, SewModel.mone. cbn [fst snd]. ring.
  - rewrite (sumF_delta zero one add mul sub opp RT) by assumption.
    rewrite (Sext (i_nn A) _ (fun j => mul (mone one opp) (mul (dinterp (f_adj sf) sf 0 s j) (ent v j)))) by (intros; ring).
    rewrite <- (sumF_mul_l zero one add mul sub opp RT), <- IP'. unfold SewModel.mone. ring.
Qed.

Theorem g_meaning us q Q : fields_fit ps us -> nth_error ps q = Some Q ->
  exists g, make_g zero one add mul opp pd interp (combine ps us) q = Ok (Some g) /\ length g = i_NI Q /\
    forall i, i < i_NI Q -> ent g i = at_interface zero add Q i (jump zero add sub mul pd interp us q).
Proof.
  intros FF HQ. destruct (g_ok zero one add mul sub opp RT pd interp d2f dinterp ps G JM us q Q FF HQ) as (g & Eg & Lg & Hg).
  exists g. split; [assumption|]. split; [assumption|]. intros i Hi. rewrite (Hg i Hi). unfold at_interface.
  replace (sew q q (i_faces Q)) with (filter is_interface (i_faces Q)).
  2: { unfold sew. apply filter_ext. intros sf. rewrite Nat.eqb_refl. cbn [orb]. rewrite andb_true_r. reflexivity. }
  apply fold_left_ext_in. intros t sf Hsf. apply filter_In in Hsf. destruct Hsf as [Hin HI]. f_equal. unfold contrib.
  apply Sext. intros s Hs. unfold hit. destruct (nth (nth s (f_id sf) 0) (i_Imap Q) None) as [k|]; [|ring].
  rewrite (jump_ok us q Q sf s FF HQ Hin HI Hs). unfold delta. destruct (k =? i); ring.
Qed.

(** the blocks exist, and applied to a field they give g *)
Theorem g_blocks : exists sps, length sps = length ps /\
  (forall p P S, nth_error ps p = Some P -> nth_error sps p = Some S ->
     sNS S = i_NS P /\ sNI S = i_NI P /\ F_and_C zero one add mul opp d2f dinterp ps p = Ok (sF S, sC S)) /\
  forall us q Q, fields_fit ps us -> nth_error ps q = Some Q ->
    exists g, make_g zero one add mul opp pd interp (combine ps us) q = Ok (Some g) /\ length g = i_NI Q /\
      forall i, i < i_NI Q -> ent g i = interface_row zero add mul sps (map (fun Pu => restrict zero (fst Pu) (snd Pu)) (combine ps us)) q i.
Proof.
  assert (H : exists sps, Forall2 (fun pP sp => blocks_of zero one add mul opp d2f dinterp ps (fst pP) sp (snd pP)) (combine (seq 0 (length ps)) ps) sps).
  { assert (HA : Forall (fun pP => exists sp, blocks_of zero one add mul opp d2f dinterp ps (fst pP) sp (snd pP)) (combine (seq 0 (length ps)) ps)).
    { rewrite Forall_forall. intros [p P] Hin. apply In_nth_error in Hin. destruct Hin as [k Hk].
      assert (nth_error ps p = Some P).
      { rewrite nth_error_combine in Hk. destruct (nth_error (seq 0 (length ps)) k) as [a|] eqn:Ea; [|discriminate]. destruct (nth_error ps k) as [b|] eqn:Eb; [|discriminate].
        injection Hk as <- <-. assert (k < length ps) by (apply nth_error_Some; congruence). rewrite (nth_error_nth' _ 0) in Ea by (rewrite seq_length; assumption).
        rewrite seq_nth in Ea by assumption. injection Ea as <-. assumption. }
      destruct (F_and_C_ok zero one add mul sub opp RT pd interp d2f dinterp ps G p P H) as (Fs & Cs & E & _).
      exists (mkP (i_NS P) (i_NI P) [] [] [] [] Fs Cs). cbn. split; [reflexivity|]. split; [reflexivity|assumption]. }
    clear - HA. induction HA as [|x l [sp Hs] _ [sps IH]]; [exists []; constructor|exists (sp :: sps); constructor; assumption]. }
  destruct H as [sps HS]. exists sps.
  assert (Lsps : length sps = length ps). { apply Forall2_length in HS. rewrite combine_length, seq_length, Nat.min_id in HS. auto. }
  split; [assumption|]. split.
  - intros p P S HP HSp. refine (Forall2_nth _ _ _ p (p, P) S HS _ HSp). rewrite nth_error_combine, HP.
    rewrite (nth_error_nth' _ 0) by (rewrite seq_length; apply nth_error_Some; congruence). rewrite seq_nth by (apply nth_error_Some; congruence). reflexivity.
  - intros us q Q FF HQ. exact (jacobian_of_g zero one add mul sub opp RT pd interp d2f dinterp ps G JM sps us HS FF q Q HQ).
Qed.
End Sew.
