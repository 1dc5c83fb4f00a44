(** NewtonProofs.v - one Newton step: the correction solves the linearised equations, and the interface equations shrink
    by 1 - lambda; the loop. *)
From Coq Require Import Ring Permutation.
From Verif Require Import Base TextModel MatrixModel MatrixSpec MatrixProofs MatrixConvert MatrixRead SchurModel SchurSpec SchurProofs SchurPieces SchurFinal SchurExact SewModel SewSpec SewProofs SewFinal NewtonModel NewtonSpec.
Open Scope nat_scope.
Notation length := List.length.

Section Newton.
Context {F : Type} (zero one : F) (add mul sub : F -> F -> F) (opp : F -> F) (grt_abs : F -> F -> bool).
Context (RT : ring_theory zero one add mul sub opp (@eq F)).
Add Ring FR : RT.
Context (drop : option F) (long : bool) (solver : matrix F -> list F -> outcome (list F)) (junkz : Z) (junk : F).
Context (Z0 : grt_abs zero zero = false) (EX : exact_solver zero add mul solver).
Context (pd : nat -> nat -> list F -> list F) (interp : nat -> sface F -> nat -> list F -> F)
        (d2f : nat -> nat -> nat -> nat -> F) (dinterp : nat -> sface F -> nat -> nat -> nat -> F).
Context (feq : nat -> list F -> list F) (Bj Ej : nat -> list F -> list (list F)).
Context (ps : list (ipatch F)) (G : grid_sewn ps).
Context (JM : forall p P, nth_error ps p = Some P -> jacobians_match zero add mul pd interp d2f dinterp p (i_nn P)).
Notation sumF := (sumF zero add).
Notation ent := (ent zero).
Notation make_g_all := (make_g_all zero one add mul opp pd interp).
Notation make_g := (make_g zero one add mul opp pd interp).
Notation Sext := (sumF_ext zero add).
Notation fields_fit := (fields_fit ps).

Lemma Forall2_nth_intro {A B} (da : A) (db : B) (R : A -> B -> Prop) l r : length l = length r -> (forall k, k < length l -> R (nth k l da) (nth k r db)) -> Forall2 R l r.
Proof.
  revert r. induction l as [|a l IH]; intros [|b r] L H; try discriminate; [constructor|]. constructor; [apply (H 0); cbn; lia|]. apply IH; [cbn in L; lia|].
  intros k Hk. apply (H (S k)). cbn. lia.
Qed.
Lemma omap_seq {B} (f : nat -> outcome B) (R : nat -> B -> Prop) n : (forall k, k < n -> exists b, f k = Ok b /\ R k b) ->
  exists l, omap f (seq 0 n) = Ok l /\ length l = n /\ forall k b, nth_error l k = Some b -> R k b.
Proof.
  assert (H : forall m s, (forall k, s <= k < s + m -> exists b, f k = Ok b /\ R k b) ->
     exists l, omap f (seq s m) = Ok l /\ length l = m /\ forall k b, nth_error l k = Some b -> R (s + k) b).
  { induction m as [|m IH]; intros s H.
    - exists []. split; [reflexivity|]. split; [reflexivity|]. intros [|k] b E; discriminate.
    - cbn [seq omap]. destruct (H s) as (b & E & Rb); [lia|]. rewrite E. cbn [obind].
      destruct (IH (S s)) as (l & El & Ll & Hl); [intros k Hk; apply H; lia|]. rewrite El. cbn [obind]. exists (b :: l).
      split; [reflexivity|]. split; [cbn; lia|]. intros [|k] c E'; cbn in E'.
      + injection E' as <-. rewrite Nat.add_0_r. assumption.
      + apply Hl in E'. replace (s + S k) with (S s + k) by lia. assumption. }
  intros H1. destruct (H n 0) as (l & A & B0 & C); [intros k Hk; apply H1; lia|]. exists l. auto.
Qed.

Definition has_blocks sps := Forall2 (fun pP sp => blocks_of zero one add mul opp d2f dinterp ps (fst pP) sp (snd pP)) (combine (seq 0 (length ps)) ps) sps.
Lemma nth_us us p P : fields_fit us -> nth_error ps p = Some P -> nth_error us p = Some (nth p us []) /\ length (nth p us []) = i_nn P.
Proof.
  intros [Lus FF] HP. assert (p < length us) by (rewrite Lus; apply nth_error_Some; congruence). assert (E : nth_error us p = Some (nth p us [])) by (apply nth_error_nth'; assumption).
  split; [assumption|]. apply (FF p P _ HP E).
Qed.
Lemma in_range p : p < length ps -> exists P, nth_error ps p = Some P.
Proof. intros H. destruct (nth_error ps p) as [P|] eqn:E; [eauto|]. apply nth_error_None in E. lia. Qed.

(** g of all patches *)
Lemma g_all sps us : has_blocks sps -> fields_fit us -> exists gs, make_g_all ps us = Ok gs /\ length gs = length ps /\
  forall q Q, nth_error ps q = Some Q -> nth_error gs q = Some (nth q gs []) /\ length (nth q gs []) = i_NI Q /\
    forall i, i < i_NI Q -> ent (nth q gs []) i = interface_row zero add mul sps (restrict_all zero ps us) q i.
Proof.
  intros HS FF. unfold NewtonModel.make_g_all.
  destruct (omap_seq (fun q => do g <- make_g (combine ps us) q; match g with None => UB | Some g => Ok g end)
    (fun q g => forall Q, nth_error ps q = Some Q -> length g = i_NI Q /\ forall i, i < i_NI Q -> ent g i = interface_row zero add mul sps (restrict_all zero ps us) q i) (length ps)) as (gs & E & L & H).
  - intros q Hq. destruct (in_range q Hq) as [Q HQ].
    destruct (jacobian_of_g zero one add mul sub opp RT pd interp d2f dinterp ps G JM sps us HS FF q Q HQ) as (g & Eg & Lg & Hg).
    exists g. rewrite Eg. cbn [obind]. split; [reflexivity|]. intros Q' HQ'. rewrite HQ in HQ'. injection HQ' as <-. auto.
  - exists gs. split; [exact E|]. split; [assumption|]. intros q Q HQ. assert (q < length gs) by (rewrite L; apply nth_error_Some; congruence).
    assert (E1 : nth_error gs q = Some (nth q gs [])) by (apply nth_error_nth'; assumption). split; [assumption|]. apply (H q _ E1 Q HQ).
Qed.

(** the rows are linear in the field *)
Lemma interface_ext sps us vs q i : length sps = length ps -> fields_fit us -> fields_fit vs ->
  interface_row zero add mul sps (restrict_all zero ps us) q i = sumF (length ps) (fun p => let S := nth p sps dP in let P := nth p ps (mkIP 0 0 [] [] [] []) in
     add (sumF (sNS S) (fun k => mul (block_entry zero (sF S) q i k) (ent (fst (restrict zero P (nth p us []))) k)))
         (sumF (sNI S) (fun k => mul (block_entry zero (sC S) q i k) (ent (snd (restrict zero P (nth p us []))) k)))).
Proof.
  intros Ls FU _. unfold interface_row.
  rewrite (SewFinal.fold_left_ext_in _ (fun s pxy => add s (add (sumF (sNS (fst pxy)) (fun k => mul (block_entry zero (sF (fst pxy)) q i k) (ent (fst (snd pxy)) k)))
              (sumF (sNI (fst pxy)) (fun k => mul (block_entry zero (sC (fst pxy)) q i k) (ent (snd (snd pxy)) k)))))).
  2: { intros s [P [x y']] _. reflexivity. }
  rewrite (fold_nth zero add _ (combine sps (restrict_all zero ps us)) (@dP F, ([], []))).
  assert (LR : length (restrict_all zero ps us) = length ps) by (unfold restrict_all; rewrite map_length, combine_length; destruct FU; lia).
  rewrite combine_length, LR, Ls, Nat.min_id. apply Sext. intros p Hp. destruct (in_range p Hp) as [P HP]. destruct (nth_error_ex sps p ltac:(lia)) as [S HS].
  destruct (nth_us us p P FU HP) as [EU _].
  assert (ER : nth_error (restrict_all zero ps us) p = Some (restrict zero P (nth p us []))).
  { unfold restrict_all. rewrite nth_error_map, (combine_nth_error _ _ _ _ _ HP EU). reflexivity. }
  rewrite (nth_error_nth _ _ (@dP F, ([], [])) (combine_nth_error _ _ _ _ _ HS ER)). cbn [fst snd]. rewrite (nth_error_nth _ _ dP HS), (nth_error_nth _ _ (mkIP 0 0 [] [] [] []) HP). reflexivity.
Qed.

Lemma has_nth sps p P : has_blocks sps -> nth_error ps p = Some P -> exists S, nth_error sps p = Some S /\ blocks_of zero one add mul opp d2f dinterp ps p S P.
Proof.
  intros HS HP. pose proof (Forall2_length _ _ _ HS) as L. rewrite combine_length, seq_length, Nat.min_id in L.
  assert (p < length ps) by (apply nth_error_Some; congruence). destruct (nth_error_ex sps p) as [sp Hsp]; [lia|]. exists sp. split; [assumption|].
  refine (Forall2_nth _ _ _ p (p, P) sp HS _ Hsp). apply combine_nth_error; [|assumption]. rewrite (nth_error_nth' _ 0) by (rewrite seq_length; assumption). rewrite seq_nth by assumption. reflexivity.
Qed.
Lemma ent_restrict P u k : (k < i_NS P -> ent (fst (restrict zero P u)) k = ent u (nth k (i_inv P) 0)) /\ (k < i_NI P -> ent (snd (restrict zero P u)) k = ent u (nth k (i_Iinv P) 0)).
Proof. unfold restrict. cbn [fst snd]. unfold SchurSpec.ent at 1 3. split; intros H; [apply (nth_map_seq zero (fun k => ent u (nth k (i_inv P) 0)))|apply (nth_map_seq zero (fun k => ent u (nth k (i_Iinv P) 0)))]; assumption. Qed.
Lemma node_bounds (P : ipatch F) : patch_numbered P -> (forall k, k < i_NS P -> nth k (i_inv P) 0 < i_nn P) /\ (forall k, k < i_NI P -> nth k (i_Iinv P) 0 < i_nn P).
Proof.
  intros PN. pose proof (pn_lt _ PN) as H. rewrite Forall_app, !Forall_forall in H. destruct H as [H1 H2]. split; intros k Hk.
  - apply H1. rewrite <- (nth_firstn (i_inv P) 0 (i_NS P) k Hk). apply nth_In. rewrite firstn_length. pose proof (pn_inv _ PN). lia.
  - apply H2. apply nth_In. rewrite (pn_Iinv _ PN). assumption.
Qed.
Lemma row_linear sps us ds vs lambda q i : has_blocks sps -> fields_fit us -> fields_fit ds -> fields_fit vs ->
  (forall p P n, nth_error ps p = Some P -> n < i_nn P -> ent (nth p vs []) n = sub (ent (nth p us []) n) (mul lambda (ent (nth p ds []) n))) ->
  interface_row zero add mul sps (restrict_all zero ps vs) q i =
  sub (interface_row zero add mul sps (restrict_all zero ps us) q i) (mul lambda (interface_row zero add mul sps (restrict_all zero ps ds) q i)).
Proof.
  intros HS FU FD FV HV. pose proof (Forall2_length _ _ _ HS) as L. rewrite combine_length, seq_length, Nat.min_id in L.
  rewrite (interface_ext sps vs vs q i), (interface_ext sps us us q i), (interface_ext sps ds ds q i) by (try assumption; lia). cbv zeta.
  rewrite (sumF_mul_l zero one add mul sub opp RT), <- (sumF_sub zero one add mul sub opp RT). apply Sext. intros p Hp.
  destruct (in_range p Hp) as [P HP]. destruct (has_nth sps p P HS HP) as (S & HSp & (E1 & E2 & _)). destruct (G p P HP) as [PN _]. destruct (node_bounds P PN) as [N1 N2].
  rewrite (nth_error_nth _ _ dP HSp), (nth_error_nth _ _ (mkIP 0 0 [] [] [] []) HP), E1, E2.
  assert (forall a b c a' b' c', a = sub b (mul lambda c) -> a' = sub b' (mul lambda c') -> add a a' = sub (add b b') (mul lambda (add c c'))) as AUX by (intros; subst; ring).
  apply AUX; rewrite (sumF_mul_l zero one add mul sub opp RT), <- (sumF_sub zero one add mul sub opp RT); apply Sext; intros k Hk.
  - destruct (ent_restrict P (nth p vs []) k) as [-> _]; [|assumption]. destruct (ent_restrict P (nth p us []) k) as [-> _]; [|assumption]. destruct (ent_restrict P (nth p ds []) k) as [-> _]; [|assumption].
    rewrite (HV p P _ HP (N1 k Hk)). ring.
  - destruct (ent_restrict P (nth p vs []) k) as [_ ->]; [|assumption]. destruct (ent_restrict P (nth p us []) k) as [_ ->]; [|assumption]. destruct (ent_restrict P (nth p ds []) k) as [_ ->]; [|assumption].
    rewrite (HV p P _ HP (N2 k Hk)). ring.
Qed.

(** the linear system *)
Context (EF : equations_fit feq Bj Ej ps) (GF : grid_fits ps) (NEps : ps <> []).
Lemma assembled us gs : fields_fit us -> length gs = length ps -> (forall q Q, nth_error ps q = Some Q -> length (nth q gs []) = i_NI Q) ->
  exists sps, omap (assemble zero one add mul opp d2f dinterp feq Bj Ej ps us gs) (seq 0 (length ps)) = Ok sps /\ has_blocks sps /\ length sps = length ps /\
    Forall (patch_ok (map sNI sps)) sps /\ sizes_ok sps /\
    forall p P S, nth_error ps p = Some P -> nth_error sps p = Some S ->
      sNS S = i_NS P /\ sNI S = i_NI P /\ sB S = Bj p (nth p us []) /\ sET S = Ej p (nth p us []) /\ sf S = feq p (nth p us []) /\ sg S = nth p gs [].
Proof.
  intros FU Lg Hg.
  destruct (omap_seq (assemble zero one add mul opp d2f dinterp feq Bj Ej ps us gs)
    (fun p S => forall P, nth_error ps p = Some P -> blocks_of zero one add mul opp d2f dinterp ps p S P /\
       sB S = Bj p (nth p us []) /\ sET S = Ej p (nth p us []) /\ sf S = feq p (nth p us []) /\ sg S = nth p gs [] /\
       length (sF S) = length ps /\ length (sC S) = length ps /\
       forall q Q Fo Co, nth_error ps q = Some Q -> nth_error (sF S) q = Some Fo -> nth_error (sC S) q = Some Co -> block_ok (i_NI Q) (i_NS P) (i_NI P) Fo Co) (length ps)) as (sps & E & L & H).
  - intros p Hp. destruct (in_range p Hp) as [P HP]. destruct (nth_us us p P FU HP) as [EU LU].
    destruct (F_and_C_ok zero one add mul sub opp RT pd interp d2f dinterp ps G p P HP) as (Fs & Cs & EFC & LF & LC & HB).
    unfold assemble. rewrite (rd_ok _ _ _ HP), (rd_ok _ _ _ EU). cbn [obind]. rewrite (rd_nth gs p []) by lia. cbn [obind]. rewrite EFC. cbn [obind fst snd].
    eexists. split; [reflexivity|]. intros P' HP'. rewrite HP in HP'. injection HP' as <-. cbn.
    split; [split; [reflexivity|]; split; [reflexivity|]; exact EFC|]. do 4 (split; [reflexivity|]). split; [assumption|]. split; [assumption|].
    intros q Q Fo Co HQ HF HC. destruct (HB q Q HQ) as (Fo' & Co' & E1 & E2 & BO & _). rewrite E1 in HF. rewrite E2 in HC. injection HF as <-. injection HC as <-. assumption.
  - exists sps. split; [exact E|].
    assert (HN : forall p P S, nth_error ps p = Some P -> nth_error sps p = Some S -> sNS S = i_NS P /\ sNI S = i_NI P).
    { intros p P S HP HS. destruct (H p S HS P HP) as ((A & B & _) & _). auto. }
    assert (ENI : map sNI sps = map i_NI ps).
    { apply (nth_ext _ _ 0 0); [rewrite !map_length; assumption|]. intros p Hp. rewrite map_length in Hp. destruct (nth_error_ex sps p Hp) as [S HS]. destruct (in_range p ltac:(lia)) as [P HP].
      rewrite (nth_error_nth _ _ 0 (map_nth_error sNI p sps HS)), (nth_error_nth _ _ 0 (map_nth_error i_NI p ps HP)). apply (HN p P S HP HS). }
    split; [|split; [assumption|split; [|split]]].
    + (* has_blocks *)
      apply (Forall2_nth_intro (0, mkIP 0 0 [] [] [] []) dP).
      { rewrite combine_length, seq_length, Nat.min_id. auto. }
      intros p Hp. rewrite combine_length, seq_length, Nat.min_id in Hp. destruct (in_range p Hp) as [P HP]. destruct (nth_error_ex sps p ltac:(lia)) as [S HS].
      assert (nth_error (combine (seq 0 (length ps)) ps) p = Some (p, P)) as EC.
      { apply combine_nth_error; [|assumption]. rewrite (nth_error_nth' _ 0) by (rewrite seq_length; assumption). rewrite seq_nth by assumption. reflexivity. }
      rewrite (nth_error_nth _ _ _ EC), (nth_error_nth _ _ _ HS). cbn [fst snd]. apply (H p S HS P HP).
    + apply Forall_forall. intros S HinS. apply In_nth_error in HinS. destruct HinS as [p HS]. assert (Hp : p < length sps) by (apply nth_error_Some; congruence). destruct (in_range p ltac:(lia)) as [P HP].
      destruct (H p S HS P HP) as ((A1 & A2 & _) & B1 & B2 & B3 & B4 & B5 & B6 & B7). destruct (nth_us us p P FU HP) as [EU LU]. destruct (EF p P _ HP LU) as (C1 & C2 & C3). destruct (G p P HP) as [PN _].
      rewrite ENI. constructor.
      * rewrite A1. apply (pn_NS _ PN).
      * rewrite A2. apply (pn_NI _ PN).
      * rewrite B1, A1. assumption.
      * rewrite B2, A1, A2. assumption.
      * rewrite B3, A1. assumption.
      * rewrite B4, A2. apply Hg. assumption.
      * rewrite map_length. assumption.
      * rewrite map_length. assumption.
      * intros q n Fo Co Hn HF HC. rewrite nth_error_map in Hn. destruct (nth_error ps q) as [Q|] eqn:HQ; [|discriminate]. injection Hn as <-. rewrite A1, A2. apply (B7 q Q Fo Co); assumption.
    + unfold sizes_ok. rewrite ENI. destruct GF as [g1 g2]. split; [assumption|]. apply Forall_forall. intros S HinS. apply In_nth_error in HinS. destruct HinS as [p HS].
      assert (Hp : p < length sps) by (apply nth_error_Some; congruence). destruct (in_range p ltac:(lia)) as [P HP]. destruct (HN p P S HP HS) as [-> ->].
      rewrite Forall_forall in g2. apply g2. apply (nth_error_In _ _ HP).
    + intros p P S HP HS. destruct (H p S HS P HP) as ((A1 & A2 & _) & B1 & B2 & B3 & B4 & _). auto 10.
Qed.

(** the correction as a field: the field that is 0 - (-1) x at the subdomain and 0 - (-1) y at the interface nodes *)
Lemma node_lists_of (P : ipatch F) : patch_numbered P -> node_lists (i_nn P) (i_NS P) (i_NI P) (i_inv P) (i_Iinv P).
Proof.
  intros PN. assert (E : firstn (i_NI P) (i_Iinv P) = i_Iinv P) by (apply firstn_all2; rewrite (pn_Iinv _ PN); lia).
  split; [reflexivity|]. split; [apply (pn_inv _ PN)|]. split; [rewrite (pn_Iinv _ PN); lia|]. rewrite E. split; [apply (pn_nodup _ PN)|apply (pn_lt _ PN)].
Qed.
Lemma field_of (P : ipatch F) x y : patch_numbered P -> i_NS P <= length x -> i_NI P <= length y ->
  exists d, length d = i_nn P /\ (forall s, s < i_NS P -> ent d (nth s (i_inv P) 0) = ent x s) /\ (forall i, i < i_NI P -> ent d (nth i (i_Iinv P) 0) = ent y i).
Proof.
  intros PN Lx Ly. destruct (update_ok zero sub mul (opp one) (i_NS P) (i_NI P) (i_inv P) (i_Iinv P) x y (repeat zero (i_nn P))) as (d & b & _ & L & _ & H1 & H2).
  - rewrite repeat_length. apply node_lists_of. assumption.
  - assumption. - assumption.
  - rewrite repeat_length in L. exists d. split; [assumption|]. split; intros s Hs; [rewrite H1 by assumption|rewrite H2 by assumption]; unfold SchurSpec.ent at 1; rewrite nth_repeat; ring.
Qed.
Lemma every_node (P : ipatch F) n : patch_numbered P -> n < i_nn P -> (exists s, s < i_NS P /\ nth s (i_inv P) 0 = n) \/ (exists i, i < i_NI P /\ nth i (i_Iinv P) 0 = n).
Proof.
  intros PN Hn. assert (HI : In n (firstn (i_NS P) (i_inv P) ++ i_Iinv P)).
  { apply (Permutation_in n (Permutation_sym (nodes_perm P PN))). apply in_seq. lia. }
  apply in_app_or in HI. destruct HI as [HI|HI]; apply (In_nth _ _ 0) in HI; destruct HI as (s & Hs & E).
  - rewrite firstn_length in Hs. left. exists s. split; [lia|]. rewrite nth_firstn in E by lia. assumption.
  - rewrite (pn_Iinv _ PN) in Hs. right. eauto.
Qed.

Theorem newton_ok lambda us gs : fields_fit us -> make_g_all ps us = Ok gs ->
  (forall sps, omap (assemble zero one add mul opp d2f dinterp feq Bj Ej ps us gs) (seq 0 (length ps)) = Ok sps -> nothing_dropped zero add sub mul grt_abs (drop_limit zero drop) sps) ->
  safe (fun us' => exists ds, newton_correction zero one add sub mul opp pd interp feq Bj Ej lambda ps us us' ds)
    (newton_step zero one add sub mul opp grt_abs drop long solver junkz junk d2f dinterp feq Bj Ej lambda ps us gs).
Proof.
  intros FU EG ND. unfold newton_step.
  (* any blocks will do to read off the sizes of g *)
  destruct (assembled us (map (fun P => repeat zero (i_NI P)) ps) FU) as (sp0 & _ & HB0 & _).
  { apply map_length. }
  { intros q Q HQ. rewrite (nth_error_nth _ _ [] (map_nth_error _ _ _ HQ)). apply repeat_length. }
  destruct (g_all sp0 us HB0 FU) as (gs' & EG' & Lg & Hg0). rewrite EG in EG'. injection EG' as <-.
  destruct (assembled us gs FU Lg) as (sps & ES & HB & LS & PO & SZ & HD); [intros q Q HQ; apply (Hg0 q Q HQ)|]. rewrite ES. cbn [obind].
  assert (Hg : forall q Q i, nth_error ps q = Some Q -> i < i_NI Q -> ent (nth q gs []) i = interface_row zero add mul sps (restrict_all zero ps us) q i).
  { intros q Q i HQ Hi. destruct (g_all sps us HB FU) as (gs' & EG' & _ & H). rewrite EG in EG'. injection EG' as <-. destruct (H q Q HQ) as (_ & _ & H'). apply H'. assumption. }
  assert (NE : sps <> []) by (intros ->; destruct ps; [congruence|discriminate]).
  apply (safe_bind (solves_block_system zero add mul sps)).
  { apply (step_solves zero one add mul sub opp grt_abs RT drop long solver junkz junk Z0 EX sps NE PO SZ (ND sps ES)). }
  intros xy (Lxy & HX & HG). rewrite LS in Lxy.
  assert (HXY : forall p P, nth_error ps p = Some P -> exists x y, nth_error xy p = Some (x, y) /\ length x = i_NS P /\ i_NI P <= length y /\
      forall r, r < i_NS P -> add (sumF (i_NS P) (fun c => mul (entry zero (Bj p (nth p us [])) r c) (ent x c))) (sumF (i_NI P) (fun i => mul (entry zero (Ej p (nth p us [])) i r) (ent y i))) = ent (feq p (nth p us [])) r).
  { intros p P HP. assert (p < length ps) by (apply nth_error_Some; congruence). destruct (nth_error_ex sps p ltac:(lia)) as [S HS]. destruct (nth_error_ex xy p ltac:(lia)) as [[x y] EXY].
    exists x, y. destruct (HX p S x y HS EXY) as (L1 & L2 & H1). destruct (HD p P S HP HS) as (D1 & D2 & D3 & D4 & D5 & D6). rewrite D1 in *. rewrite D2 in *.
    split; [assumption|]. split; [assumption|]. split; [assumption|]. intros r Hr. specialize (H1 r Hr). unfold sub_row in H1. rewrite D1, D2, D3, D4, D5 in H1. assumption. }
  (* the new fields *)
  destruct (omap_seq (fun p => do P <- rd ps p; do u <- rd us p; do v <- rd xy p;
                 do ub <- update_field zero sub mul lambda (i_NS P) (i_NI P) (i_inv P) (i_Iinv P) (fst v) (snd v) u;
                 Ok (fst ub))
     (fun p u' => forall P x y, nth_error ps p = Some P -> nth_error xy p = Some (x, y) -> length u' = i_nn P /\
        (forall s, s < i_NS P -> ent u' (nth s (i_inv P) 0) = sub (ent (nth p us []) (nth s (i_inv P) 0)) (mul lambda (ent x s))) /\
        (forall i, i < i_NI P -> ent u' (nth i (i_Iinv P) 0) = sub (ent (nth p us []) (nth i (i_Iinv P) 0)) (mul lambda (ent y i)))) (length ps)) as (us' & EU' & LU' & HU').
  { intros p Hp. destruct (in_range p Hp) as [P HP]. destruct (nth_us us p P FU HP) as [EU LU]. destruct (HXY p P HP) as (x & y & EXY & Lx & Ly & _). destruct (G p P HP) as [PN _].
    rewrite (rd_ok _ _ _ HP), (rd_ok _ _ _ EU), (rd_ok _ _ _ EXY). cbn [obind fst snd].
    destruct (update_ok zero sub mul lambda (i_NS P) (i_NI P) (i_inv P) (i_Iinv P) x y (nth p us [])) as (u' & b & E & L & _ & H1 & H2).
    - rewrite LU. apply node_lists_of. assumption. - lia. - assumption.
    - rewrite E. cbn [obind fst]. exists u'. split; [reflexivity|]. intros P' x' y' HP' EXY'. rewrite HP in HP'. injection HP' as <-. rewrite EXY in EXY'. injection EXY' as <- <-.
      split; [lia|]. split; assumption. }
  rewrite EU'. cbn [safe].
  (* the correction *)
  destruct (omap_seq (fun p => Ok (@nil F)) (fun p _ => exists d, forall P x y, nth_error ps p = Some P -> nth_error xy p = Some (x, y) -> length d = i_nn P /\
        (forall s, s < i_NS P -> ent d (nth s (i_inv P) 0) = ent x s) /\ (forall i, i < i_NI P -> ent d (nth i (i_Iinv P) 0) = ent y i)) (length ps)) as (dummy & _ & Ldum & HDum).
  { intros p Hp. exists []. split; [reflexivity|]. destruct (in_range p Hp) as [P HP]. destruct (HXY p P HP) as (x & y & EXY & Lx & Ly & _). destruct (G p P HP) as [PN _].
    destruct (field_of P x y PN) as (d & L & H1 & H2); [lia|assumption|]. exists d. intros P' x' y' HP' EXY'. rewrite HP in HP'. injection HP' as <-. rewrite EXY in EXY'. injection EXY' as <- <-. auto. }
  assert (CH : exists ds, length ds = length ps /\ forall p P x y, nth_error ps p = Some P -> nth_error xy p = Some (x, y) -> length (nth p ds []) = i_nn P /\
        (forall s, s < i_NS P -> ent (nth p ds []) (nth s (i_inv P) 0) = ent x s) /\ (forall i, i < i_NI P -> ent (nth p ds []) (nth i (i_Iinv P) 0) = ent y i)).
  { assert (CHn : forall n, n <= length ps -> exists ds, length ds = n /\ forall p, p < n -> forall P x y, nth_error ps p = Some P -> nth_error xy p = Some (x, y) -> length (nth p ds []) = i_nn P /\
        (forall s, s < i_NS P -> ent (nth p ds []) (nth s (i_inv P) 0) = ent x s) /\ (forall i, i < i_NI P -> ent (nth p ds []) (nth i (i_Iinv P) 0) = ent y i)).
    { induction n as [|n IH]; intros Hn; [exists []; split; [reflexivity|intros; lia]|]. destruct (IH ltac:(lia)) as (ds & L & H). destruct (nth_error_ex dummy n ltac:(lia)) as [e He].
      destruct (HDum n e He) as [d Hd]. exists (ds ++ [d]). split; [rewrite app_length; cbn; lia|]. intros p Hp. destruct (Nat.eq_dec p n) as [->|NEp].
      - rewrite app_nth2 by lia. rewrite L, Nat.sub_diag. exact Hd.
      - rewrite app_nth1 by lia. apply H. lia. }
    destruct (CHn (length ps) (Nat.le_refl _)) as (ds & L & H). exists ds. split; [assumption|]. intros p P x y HP. apply H; [|assumption]. apply nth_error_Some. congruence. }
  destruct CH as (ds & Lds & HDS). exists ds.
  assert (FD : fields_fit ds).
  { split; [assumption|]. intros p P d HP Ed. destruct (HXY p P HP) as (x & y & EXY & _). rewrite <- (nth_error_nth _ _ [] Ed). apply (HDS p P x y HP EXY). }
  assert (FU' : fields_fit us').
  { split; [assumption|]. intros p P d HP Ed. destruct (HXY p P HP) as (x & y & EXY & _). apply (HU' p d Ed P x y HP EXY). }
  split; [assumption|]. split; [assumption|]. split.
  - intros p P HP. destruct (HXY p P HP) as (x & y & EXY & Lx & Ly & Hrow). destruct (G p P HP) as [PN _]. destruct (HDS p P x y HP EXY) as (_ & D1 & D2).
    destruct (nth_us us' p P FU' HP) as [EU1 _]. destruct (HU' p _ EU1 P x y HP EXY) as (_ & U1 & U2). split.
    + intros n Hn. destruct (every_node P n PN Hn) as [(s & Hs & <-)|(i & Hi & <-)]; [rewrite U1, D1 by assumption|rewrite U2, D2 by assumption]; reflexivity.
    + intros r Hr. unfold linear_row. rewrite <- (Hrow r Hr). f_equal; apply Sext; intros k Hk; [rewrite D1 by assumption|rewrite D2 by assumption]; reflexivity.
  - rewrite EG. destruct (g_all sps ds HB FD) as (gd & EGd & Lgd & Hgd). rewrite EGd. f_equal. apply (nth_ext _ _ [] []); [lia|]. intros q Hq. rewrite Lgd in Hq. destruct (in_range q Hq) as [Q HQ].
    destruct (Hgd q Q HQ) as (_ & L1 & H1). destruct (Hg0 q Q HQ) as (_ & L2 & _). apply (nth_ext _ _ zero zero); [lia|]. intros i Hi. rewrite L1 in Hi.
    fold (ent (nth q gd []) i). fold (ent (nth q gs []) i). rewrite H1 by assumption.
    destruct (nth_error_ex sps q ltac:(lia)) as [S HS]. destruct (HD q Q S HQ HS) as (_ & D2 & _ & _ & _ & D6).
    specialize (HG q S i HS ltac:(lia)). rewrite D6 in HG. rewrite <- HG. unfold interface_row at 2.
    rewrite (interface_ext sps ds ds q i LS FD FD). cbv zeta.
    rewrite (SewFinal.fold_left_ext_in _ (fun s pxy => add s (add (sumF (sNS (fst pxy)) (fun k => mul (block_entry zero (sF (fst pxy)) q i k) (ent (fst (snd pxy)) k)))
              (sumF (sNI (fst pxy)) (fun k => mul (block_entry zero (sC (fst pxy)) q i k) (ent (snd (snd pxy)) k)))))).
    2: { intros s [P [x y']] _. reflexivity. }
    rewrite (fold_nth zero add _ (combine sps xy) (@dP F, ([], []))). rewrite combine_length, LS, Lxy, Nat.min_id. apply Sext. intros p Hp.
    destruct (in_range p Hp) as [P HP]. destruct (HXY p P HP) as (x & y & EXY & _). destruct (nth_error_ex sps p ltac:(lia)) as [S1 HS1]. destruct (HD p P S1 HP HS1) as (E1 & E2 & _). destruct (HDS p P x y HP EXY) as (_ & D1 & D2').
    rewrite (nth_error_nth _ _ (@dP F, ([], [])) (combine_nth_error _ _ _ _ _ HS1 EXY)). cbn [fst snd]. rewrite (nth_error_nth _ _ dP HS1), (nth_error_nth _ _ (mkIP 0 0 [] [] [] []) HP), E1, E2.
    f_equal; apply Sext; intros k Hk.
    + destruct (ent_restrict P (nth p ds []) k) as [-> _]; [|assumption]. rewrite D1 by assumption. reflexivity.
    + destruct (ent_restrict P (nth p ds []) k) as [_ ->]; [|assumption]. rewrite D2' by assumption. reflexivity.
Qed.

Notation correction := (newton_correction zero one add sub mul opp pd interp feq Bj Ej).
Theorem g_shrinks lambda us us' ds gs : fields_fit us -> make_g_all ps us = Ok gs -> correction lambda ps us us' ds ->
  make_g_all ps us' = Ok (map (map (mul (sub one lambda))) gs).
Proof.
  intros FU EG (FD & FU' & HP0 & HGd).
  destruct (assembled us (map (fun P => repeat zero (i_NI P)) ps) FU) as (sps & _ & HB & LS & _).
  { apply map_length. }
  { intros q Q HQ. rewrite (nth_error_nth _ _ [] (map_nth_error _ _ _ HQ)). apply repeat_length. }
  destruct (g_all sps us HB FU) as (g1 & E1 & L1 & H1). rewrite EG in E1. injection E1 as <-.
  destruct (g_all sps ds HB FD) as (g2 & E2 & L2 & H2). rewrite HGd, EG in E2. injection E2 as <-.
  destruct (g_all sps us' HB FU') as (g3 & E3 & L3 & H3). rewrite E3. f_equal.
  apply (nth_ext _ _ [] []); [rewrite map_length; lia|]. intros q Hq. rewrite L3 in Hq. destruct (in_range q Hq) as [Q HQ].
  destruct (H1 q Q HQ) as (N1 & M1 & R1). destruct (H2 q Q HQ) as (_ & _ & R2). destruct (H3 q Q HQ) as (_ & M3 & R3).
  rewrite (nth_error_nth _ _ [] (map_nth_error _ _ _ N1)). apply (nth_ext _ _ zero zero); [rewrite map_length; lia|]. intros i Hi. rewrite M3 in Hi.
  rewrite (nth_indep (map _ (nth q gs [])) zero (mul (sub one lambda) zero)) by (rewrite map_length; lia). rewrite map_nth.
  fold (ent (nth q g3 []) i). fold (ent (nth q gs []) i). rewrite R3 by assumption.
  rewrite (row_linear sps us ds us' lambda q i HB FU FD FU') by (intros p P n HP Hn; apply (HP0 p P HP); assumption).
  rewrite <- R1, <- R2 by assumption. ring.
Qed.
Theorem f_shrinks lambda us us' ds p P : equations_affine zero add sub mul feq Bj Ej ps -> fields_fit us -> correction lambda ps us us' ds ->
  nth_error ps p = Some P -> feq p (nth p us' []) = map (mul (sub one lambda)) (feq p (nth p us [])).
Proof.
  intros AF FU (FD & FU' & HP0 & _) HP. destruct (HP0 p P HP) as [HU HL]. destruct (nth_us us p P FU HP) as [_ LU]. destruct (nth_us us' p P FU' HP) as [_ LU'].
  destruct (EF p P _ HP LU) as (L1 & _). destruct (EF p P _ HP LU') as (L2 & _). destruct (AF p P _ _ HP LU' LU) as (EB & EE & HA). destruct (G p P HP) as [PN _]. destruct (node_bounds P PN) as [N1 N2].
  apply (nth_ext _ _ zero zero); [rewrite map_length; lia|]. intros r Hr. rewrite L2 in Hr.
  rewrite (nth_indep (map _ (feq p (nth p us []))) zero (mul (sub one lambda) zero)) by (rewrite map_length; lia). rewrite map_nth.
  specialize (HA r Hr). fold (ent (feq p (nth p us' [])) r). fold (ent (feq p (nth p us [])) r).
  assert (HA' : linear_row zero add mul P (Bj p (nth p us' [])) (Ej p (nth p us' [])) (map (fun n => sub (ent (nth p us' []) n) (ent (nth p us []) n)) (seq 0 (i_nn P))) r =
     opp (mul lambda (ent (feq p (nth p us [])) r))).
  { rewrite EB, EE, <- (HL r Hr). unfold linear_row.
    assert (D : forall n, n < i_nn P -> ent (map (fun n => sub (ent (nth p us' []) n) (ent (nth p us []) n)) (seq 0 (i_nn P))) n = opp (mul lambda (ent (nth p ds []) n))).
    { intros n Hn. unfold SchurSpec.ent at 1. rewrite (nth_map_seq zero (fun n => sub (ent (nth p us' []) n) (ent (nth p us []) n))) by assumption. rewrite HU by assumption. ring. }
    rewrite (Sext (i_NS P) _ (fun c => mul (opp lambda) (mul (entry zero (Bj p (nth p us [])) r c) (ent (nth p ds []) (nth c (i_inv P) 0))))) by (intros c Hc; rewrite D by (apply N1; assumption); ring).
    rewrite (Sext (i_NI P) _ (fun c => mul (opp lambda) (mul (entry zero (Ej p (nth p us [])) c r) (ent (nth p ds []) (nth c (i_Iinv P) 0))))) by (intros c Hc; rewrite D by (apply N2; assumption); ring).
    rewrite <- !(sumF_mul_l zero one add mul sub opp RT). ring. }
  rewrite HA' in HA.
  assert (forall a b c : F, sub a b = c -> a = add b c) as AUX by (intros a b c <-; ring). rewrite (AUX _ _ _ HA). ring.
Qed.

Notation steps := (newton_steps zero one add sub mul opp grt_abs drop long solver junkz junk pd interp d2f dinterp feq Bj Ej).
Lemma g_exists us : fields_fit us -> exists gs, make_g_all ps us = Ok gs /\ length gs = length ps /\ forall q Q, nth_error ps q = Some Q -> nth_error gs q = Some (nth q gs []) /\ length (nth q gs []) = i_NI Q.
Proof.
  intros FU. destruct (assembled us (map (fun P => repeat zero (i_NI P)) ps) FU) as (sps & _ & HB & _).
  { apply map_length. }
  { intros q Q HQ. rewrite (nth_error_nth _ _ [] (map_nth_error _ _ _ HQ)). apply repeat_length. }
  destruct (g_all sps us HB FU) as (gs & E & L & H). exists gs. split; [assumption|]. split; [assumption|]. intros q Q HQ. destruct (H q Q HQ) as (A & B & _). auto.
Qed.
Context (ND : forall us gs sps, fields_fit us -> make_g_all ps us = Ok gs -> omap (assemble zero one add mul opp d2f dinterp feq Bj Ej ps us gs) (seq 0 (length ps)) = Ok sps ->
   nothing_dropped zero add sub mul grt_abs (drop_limit zero drop) sps).
Lemma map_power c k (l : list F) : map (mul c) (map (mul (power one mul c k)) l) = map (mul (power one mul c (S k))) l.
Proof. rewrite map_map. apply map_ext. intros a. cbn [power]. ring. Qed.
Theorem steps_ok lambda us0 gs0 : fields_fit us0 -> make_g_all ps us0 = Ok gs0 -> forall k,
  safe (fun us => fields_fit us /\ make_g_all ps us = Ok (map (map (mul (power one mul (sub one lambda) k))) gs0) /\
        (equations_affine zero add sub mul feq Bj Ej ps -> forall p P, nth_error ps p = Some P -> feq p (nth p us []) = map (mul (power one mul (sub one lambda) k)) (feq p (nth p us0 [])))) (steps k lambda ps us0).
Proof.
  intros FU EG k. induction k as [|k IH]; cbn [newton_steps].
  - split; [assumption|]. assert (I1 : forall l : list F, map (mul (power one mul (sub one lambda) 0)) l = l) by (intros l; cbn [power]; rewrite <- (map_id l) at 2; apply map_ext; intros; ring).
    split; [rewrite EG; f_equal; symmetry; rewrite <- (map_id gs0) at 2; apply map_ext; exact I1|]. intros _ p P HP. symmetry. apply I1.
  - apply (safe_bind _ _ _ _ IH). intros us (FU1 & EG1 & EF1). rewrite EG1. cbn [obind].
    apply (safe_weaken (fun us' => exists ds, correction lambda ps us us' ds)).
    2: { apply (newton_ok lambda us _ FU1 EG1). intros sps. apply (ND us _ sps FU1 EG1). }
    intros us' [ds HC]. pose proof HC as (_ & FU2 & _). split; [assumption|]. split.
    + rewrite (g_shrinks lambda us us' ds _ FU1 EG1 HC). f_equal. rewrite map_map. apply map_ext. intros l. apply map_power.
    + intros AF p P HP. rewrite (f_shrinks lambda us us' ds p P AF FU1 HC HP), (EF1 AF p P HP). apply map_power.
Qed.
End Newton.

(** ** a single patch *)
Section Single.
Context {F : Type} (zero one : F) (add mul sub : F -> F -> F) (opp : F -> F) (grt_abs : F -> F -> bool).
Context (RT : ring_theory zero one add mul sub opp (@eq F)).
Add Ring FR1 : RT.
Context (drop : option F) (solver : matrix F -> list F -> outcome (list F)) (EX : exact_solver zero add mul solver).
Context (feq : nat -> list F -> list F) (Bj : nat -> list F -> list (list F)).
Theorem single_newton_ok lambda (P : ipatch F) u : 0 < i_NS P -> i_NS P = length u -> i_NS P <= length (i_inv P) -> NoDup (firstn (i_NS P) (i_inv P)) -> Forall (fun i => i < length u) (firstn (i_NS P) (i_inv P)) ->
  shape (i_NS P) (i_NS P) (Bj 0 u) -> length (feq 0 u) = i_NS P -> (Z.of_nat (i_NS P) * Z.of_nat (i_NS P) <= 2147483647)%Z ->
  (forall r c, r < i_NS P -> c < i_NS P -> not_dropped zero grt_abs (drop_limit zero drop) (entry zero (Bj 0 u) r c)) ->
  safe (fun u' => length u' = length u /\ exists d, length d = length u /\
     (forall n, n < length u -> ent zero u' n = sub (ent zero u n) (mul lambda (ent zero d n))) /\
     (forall r, r < i_NS P -> sumF zero add (i_NS P) (fun c => mul (entry zero (Bj 0 u) r c) (ent zero d (nth c (i_inv P) 0))) = ent zero (feq 0 u) r))
    (newton_step_single zero sub mul grt_abs drop solver feq Bj lambda P u).
Proof.
  intros HN EN LI NDP BD SB LF SZ ND. unfold newton_step_single.
  set (S := mkP (i_NS P) (i_NI P) (Bj 0 u) [] (feq 0 u) [] [] []).
  apply (safe_bind (fun x => dense_solves zero add mul (sNS S) (sB S) x (sf S))).
  { apply (single_solves zero add mul grt_abs drop solver EX S); assumption. }
  intros x [Lx Hx0]. cbn in Lx.
  assert (Hx : forall r, r < i_NS P -> sumF zero add (i_NS P) (fun c => mul (entry zero (Bj 0 u) r c) (ent zero x c)) = ent zero (feq 0 u) r) by exact Hx0. clear Hx0.
  destruct (update_single_ok zero sub mul lambda (i_NS P) (i_inv P) x u LI NDP BD ltac:(lia)) as (u' & b & E & L1 & _ & H1 & _). rewrite E. cbn [obind fst safe].
  split; [assumption|].
  destruct (update_single_ok zero sub mul (opp one) (i_NS P) (i_inv P) x (repeat zero (length u)) LI NDP ltac:(rewrite repeat_length; assumption) ltac:(lia)) as (d & b' & _ & L2 & _ & H2 & _).
  rewrite repeat_length in L2. exists d. split; [assumption|].
  assert (D : forall s, s < i_NS P -> ent zero d (nth s (i_inv P) 0) = ent zero x s).
  { intros s Hs. destruct (H2 s Hs) as [-> _]. unfold ent at 1. rewrite nth_repeat. ring. }
  split.
  - intros n Hn. assert (HI : In n (firstn (i_NS P) (i_inv P))).
    { refine (@NoDup_length_incl _ (firstn (i_NS P) (i_inv P)) (seq 0 (length u)) NDP _ _ n _).
      - rewrite firstn_length, seq_length. lia.
      - intros a Ha. apply in_seq. rewrite Forall_forall in BD. apply BD in Ha. lia.
      - apply in_seq. lia. }
    apply (In_nth _ _ 0) in HI. destruct HI as (s & Hs & E'). rewrite firstn_length in Hs. rewrite nth_firstn in E' by lia. subst n.
    destruct (H1 s ltac:(lia)) as [-> _]. rewrite D by lia. reflexivity.
  - intros r Hr. rewrite <- (Hx r Hr). apply sumF_ext. intros c Hc. rewrite D by assumption. reflexivity.
Qed.
End Single.
