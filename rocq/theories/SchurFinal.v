(** SchurFinal.v - the assembled step solves the block system. *)
From Coq Require Import Ring.
From Verif Require Import Base TextModel MatrixModel MatrixSpec MatrixProofs MatrixConvert MatrixRead MatrixMul MatrixFinal SchurModel SchurSpec SchurProofs SchurPieces SchurBlocks.
Open Scope nat_scope.
Notation length := List.length.

Lemma Forall2_choice {A B C} (R : A -> B -> C -> Prop) (d : C) l r : Forall2 (fun a b => exists c, R a b c) l r ->
  exists cs, forall i a b, nth_error l i = Some a -> nth_error r i = Some b -> R a b (nth i cs d).
Proof.
  induction 1 as [|a b l r [c Hc] _ [cs IH]].
  - exists []. intros [|i] a b; discriminate.
  - exists (c :: cs). intros [|i] x y; cbn; [congruence|]. apply IH.
Qed.
Lemma choice_nth {A C} (d : C) (l : list A) : forall (R : nat -> A -> C -> Prop), (forall i a, nth_error l i = Some a -> exists c, R i a c) ->
  exists cs, forall i a, nth_error l i = Some a -> R i a (nth i cs d).
Proof.
  induction l as [|a l IH]; intros R H.
  - exists []. intros [|i] x; discriminate.
  - destruct (H 0 a eq_refl) as [c Hc]. destruct (IH (fun i => R (S i))) as [cs Hcs]; [intros i x Hx; apply (H (S i)); assumption|].
    exists (c :: cs). intros [|i] x; cbn; [congruence|]. apply Hcs.
Qed.
Lemma nth_error_skipn_off (NIp : list nat) {A} : forall (y : list A) p, p < length NIp -> nth_error (y_pointers NIp y) p = Some (skipn (off NIp p) y).
Proof.
  induction NIp as [|n l IH]; intros y p H; cbn [length] in H; [lia|]. destruct p as [|p].
  - reflexivity.
  - cbn [y_pointers nth_error]. rewrite IH by lia. f_equal. unfold off. cbn [firstn]. change (list_sum (?a :: ?b)) with (a + list_sum b).
    generalize (list_sum (firstn p l)) as k. clear. revert y. induction n as [|n IH]; intros y k; [reflexivity|]. destruct y as [|x y]; [cbn; destruct k; reflexivity|].
    cbn [Nat.add skipn]. apply IH.
Qed.
Lemma y_pointers_length {A} NIp : forall (y : list A), length (y_pointers NIp y) = length NIp.
Proof. induction NIp as [|n l IH]; intros y; cbn; [reflexivity|]. rewrite IH. reflexivity. Qed.

Section Mat.
Context {F : Type} (zero one : F) (add mul sub : F -> F -> F) (opp : F -> F) (grt_abs : F -> F -> bool).
Context (RT : ring_theory zero one add mul sub opp (@eq F)).
Add Ring FR : RT.
Context (drop : option F) (long : bool) (solver : matrix F -> list F -> outcome (list F)) (junkz : Z) (junk : F).
Context (Z0 : grt_abs zero zero = false) (EX : exact_solver zero add mul solver).
Notation sumF := (sumF zero add).
Notation ent := (ent zero).
Notation entry := (entry zero).
Notation lim := (drop_limit zero drop).
Notation kp := (kept zero grt_abs).
Notation cols_of := (reg_cols grt_abs).
Notation block_entry := (block_entry zero).
Notation FEsum := (FEsum zero add mul grt_abs drop).

Lemma fold_nth {A} (h : A -> F) (l : list A) d : fold_left (fun s k => add s (h k)) l zero = sumF (length l) (fun i => h (nth i l d)).
Proof.
  unfold SchurSpec.sumF. transitivity (fold_left (fun s k => add s (h k)) (map (fun i => nth i l d) (seq 0 (length l))) zero).
  - f_equal. apply (nth_ext _ _ d d); [rewrite map_length, seq_length; reflexivity|]. intros n Hn.
    rewrite (nth_indep (map _ _) d (nth 0 l d)) by (rewrite map_length, seq_length; assumption).
    rewrite (map_nth (fun i => nth i l d)), seq_nth by assumption. reflexivity.
  - apply fold_map.
Qed.
Lemma sumF_blocks NIp : forall h, sumF (list_sum NIp) h = sumF (length NIp) (fun p => sumF (nth p NIp 0) (fun j => h (off NIp p + j))).
Proof.
  induction NIp as [|n l IH]; intros h; [reflexivity|].
  change (list_sum (n :: l)) with (n + list_sum l). rewrite (sumF_app zero one add mul sub opp RT), IH. cbn [length].
  change (S (length l)) with (1 + length l). rewrite (sumF_app zero one add mul sub opp RT 1).
  f_equal.
  - unfold SchurSpec.sumF at 2. cbn [seq fold_left]. unfold off. cbn [firstn nth]. change (list_sum []) with 0. cbn [Nat.add].
    change (fold_left (fun s k => add s (h k)) (seq 0 n) zero) with (sumF n h). change (fun j => h j) with h. ring.
  - apply sumF_ext. intros p _. cbn [Nat.add nth]. apply sumF_ext. intros j _. unfold off. cbn [firstn].
    change (list_sum (n :: ?b)) with (n + list_sum b). f_equal. lia.
Qed.

(** ** g' *)
Lemma loop_upd (h : nat -> F -> F) (body : nat -> list F -> outcome (list F)) R n :
  (forall i d, i < n -> R + i < length d -> body i d = wr d (R + i) (h i (nth (R + i) d zero))) ->
  forall d, R + n <= length d ->
  exists d', ofold body (seq 0 n) d = Ok d' /\ length d' = length d /\
    (forall i, i < n -> nth (R + i) d' zero = h i (nth (R + i) d zero)) /\ (forall k, k < R \/ R + n <= k -> nth k d' zero = nth k d zero).
Proof.
  intros H d L.
  destruct (ofold_seq_inv (fun m d' => length d' = length d /\ (forall i, i < m -> nth (R + i) d' zero = h i (nth (R + i) d zero)) /\
      (forall k, k < R \/ R + m <= k -> nth k d' zero = nth k d zero)) body n 0 d) as (d' & E & L' & H1 & H2).
  - intros i d1 Hi (L1 & K1 & K2). rewrite H by lia.
    destruct (wr_spec d1 (R + i) (h i (nth (R + i) d1 zero)) ltac:(lia)) as (d2 & E2 & L2 & N2). exists d2. split; [assumption|]. split; [lia|]. split.
    + intros j Hj. rewrite N2. destruct (Nat.eqb_spec (R + j) (R + i)) as [EE|NE].
      * replace j with i by lia. rewrite K2 by lia. reflexivity.
      * apply K1. lia.
    + intros k Hk. rewrite N2. destruct (Nat.eqb_spec k (R + i)); [lia|]. apply K2. lia.
  - split; [reflexivity|]. split; [intros i Hi; lia|]. reflexivity.
  - exists d'. auto.
Qed.

Lemma g_sum N (rest : list (list F)) : Forall (fun l => length l = N) rest -> forall d, length d = N ->
  exists d', ofold (fun Ffp d => ofold (fun i d => do s <- rd d i; do t <- rd Ffp i; wr d i (add s t)) (seq 0 N) d) rest d = Ok d' /\ length d' = N /\
    forall k, k < N -> nth k d' zero = fold_left (fun s l => add s (nth k l zero)) rest (nth k d zero).
Proof.
  induction 1 as [|l rest Hl _ IH]; intros d Ld; cbn [ofold fold_left].
  - exists d. auto.
  - destruct (loop_upd (fun i s => add s (nth i l zero)) (fun i d => do s <- rd d i; do t <- rd l i; wr d i (add s t)) 0 N) with (d := d) as (d1 & E1 & L1 & N1 & _).
    + intros i d0 Hi Hd. cbn [Nat.add] in *. rewrite (rd_nth d0 i zero) by assumption. cbn [obind]. rewrite (rd_nth l i zero) by lia. reflexivity.
    + lia.
    + rewrite E1. cbn [obind]. destruct (IH d1 ltac:(lia)) as (d' & E & L & H). exists d'. split; [assumption|]. split; [assumption|].
      intros k Hk. rewrite H by assumption. f_equal. apply (N1 k Hk).
Qed.
Lemma g_sub : forall gs NIp d R, length gs = length NIp -> (forall q g n, nth_error gs q = Some g -> nth_error NIp q = Some n -> length g = n) ->
  R + list_sum NIp <= length d ->
  exists d', ofold (fun (gN : list F * nat) (dR : list F * nat) =>
          let '(d, R) := dR in let '(g, n) := gN in
          do d' <- ofold (fun i d => do gi <- rd g i; do s <- rd d (R + i); wr d (R + i) (sub gi s)) (seq 0 n) d;
          Ok (d', R + n)) (combine gs NIp) (d, R) = Ok (d', R + list_sum NIp) /\ length d' = length d /\
    (forall k, k < R -> nth k d' zero = nth k d zero) /\
    forall q g n i, nth_error gs q = Some g -> nth_error NIp q = Some n -> i < n ->
      nth (R + off NIp q + i) d' zero = sub (nth i g zero) (nth (R + off NIp q + i) d zero).
Proof.
  induction gs as [|g gs IH]; intros [|n NIp] d R L HL Ld; try discriminate.
  - cbn [combine ofold]. exists d. change (list_sum []) with 0. rewrite Nat.add_0_r. repeat split; try reflexivity. intros [|q] ? ? ? E; discriminate.
  - change (list_sum (n :: NIp)) with (n + list_sum NIp) in *. cbn [combine ofold].
    pose proof (HL 0 g n eq_refl eq_refl) as Lg.
    destruct (loop_upd (fun i s => sub (nth i g zero) s) (fun i d => do gi <- rd g i; do s <- rd d (R + i); wr d (R + i) (sub gi s)) R n) with (d := d) as (d1 & E1 & L1 & N1 & N2).
    + intros i d0 Hi Hd. rewrite (rd_nth g i zero) by lia. cbn [obind]. rewrite (rd_nth d0 (R + i) zero) by assumption. reflexivity.
    + lia.
    + rewrite E1. cbn [obind]. destruct (IH NIp d1 (R + n)) as (d' & E & L' & H1 & H2).
      * cbn [length] in L. lia.
      * intros q g' n' Hg Hn. apply (HL (S q)); assumption.
      * lia.
      * exists d'. split; [rewrite E; f_equal; f_equal; lia|]. split; [lia|]. split.
        -- intros k Hk. rewrite H1 by lia. apply N2. lia.
        -- intros [|q] g' n' i Hg Hn Hi.
           ++ cbn in Hg, Hn. injection Hg as <-. injection Hn as <-. unfold off. cbn [firstn]. change (list_sum []) with 0. rewrite Nat.add_0_r.
              rewrite H1 by lia. apply N1. assumption.
           ++ cbn in Hg, Hn. assert (EO : R + off (n :: NIp) (S q) + i = R + n + off NIp q + i). { unfold off. cbn [firstn]. change (list_sum (n :: ?b)) with (n + list_sum b). lia. }
              rewrite EO. rewrite (H2 q g' n' i Hg Hn Hi). f_equal. apply N2. lia.
Qed.
Lemma g_prime_ok NIp Ffs gs : Ffs <> [] -> Forall (fun l => length l = list_sum NIp) Ffs -> length gs = length NIp ->
  (forall q g n, nth_error gs q = Some g -> nth_error NIp q = Some n -> length g = n) ->
  exists d, compute_g_prime add sub NIp Ffs gs = Ok d /\ length d = list_sum NIp /\
    forall q g n i, nth_error gs q = Some g -> nth_error NIp q = Some n -> i < n ->
      nth (off NIp q + i) d zero = sub (nth i g zero) (fold_left (fun s l => add s (nth (off NIp q + i) l zero)) Ffs zero).
Proof.
  intros NE HF Lg HL. destruct Ffs as [|Ff rest]; [congruence|]. inversion HF as [|? ? L0 HF']; subst. unfold compute_g_prime.
  destruct (g_sum (list_sum NIp) rest HF' Ff L0) as (d & E & L & H). rewrite E. cbn [obind].
  destruct (g_sub gs NIp d 0 Lg HL ltac:(lia)) as (d' & E' & L' & _ & H'). rewrite E'. cbn [obind fst]. exists d'. split; [reflexivity|]. split; [lia|].
  intros q g n i Hg Hn Hi. specialize (H' q g n i Hg Hn Hi). cbn [Nat.add] in H'. rewrite H'. pose proof (off_le _ _ _ Hn). rewrite H by lia. f_equal.
  cbn [fold_left]. rewrite (fold_init zero one add mul sub opp RT (fun l => nth (off NIp q + i) l zero) rest (nth _ Ff zero)).
  rewrite (fold_init zero one add mul sub opp RT (fun l => nth (off NIp q + i) l zero) rest (add zero _)). ring.
Qed.

(** ** x *)
Lemma compute_x_ok NS NI X fp y : 0 < NI -> length fp = NS -> NI <= length y ->
  exists x, compute_x zero add sub mul NS (mkM NI NS (CCS (of_cols (cols_of lim NI NS (entry X))))) fp y = Ok x /\ length x = NS /\
    forall c, c < NS -> ent x c = sub (ent fp c) (sumF NI (fun i => mul (kp lim (entry X i c)) (ent y i))).
Proof.
  intros HNI Lfp Ly. unfold compute_x. cbn [sto col]. set (m := of_cols (cols_of lim NI NS (entry X))).
  assert (V : ccs_valid NI NS m) by apply reg_cols_valid.
  destruct (loop_upd (fun c _ => sub (ent fp c) (sumF NI (fun i => mul (kp lim (entry X i c)) (ent y i))))
    (fun c x =>
        do lo <- rd (Ap m) c; do hi <- rd (Ap m) (c + 1);
        do Ey <- ofold (fun i s => do a <- rdz (Ax m) i; do r <- rdz (Ai m) i; do v <- rdz y r;
                                   Ok (add s (mul a v))) (zrange lo hi) zero;
        do f <- rd fp c; wr x c (sub f Ey)) 0 NS) with (d := repeat zero NS) as (x & E & L & N & _).
  - intros c d Hc Hd. cbn [Nat.add] in *. rewrite !(valid_rd NI NS) by (assumption || lia). cbn [obind].
    rewrite (col_loop NI NS m c _ (fun p s => do v <- rdz y (fst p); Ok (add s (mul (snd p) v)))); [|assumption|assumption|].
    2: { intros i p s E1 E2. rewrite E1, E2. reflexivity. }
    pose proof (col_range NI NS m c V Hc) as CR.
    rewrite (ofold_pure _ (fun p s => add s (mul (snd p) (ent y (Z.to_nat (fst p)))))).
    2: { intros p s Hp. rewrite Forall_forall in CR. specialize (CR p Hp). rewrite (rdz_nth y (fst p) zero) by lia. reflexivity. }
    cbn [obind]. rewrite (rd_nth fp c zero) by lia. cbn [obind]. f_equal. f_equal.
    destruct (valid_col NI NS m c V Hc) as (HC & OK & _).
    rewrite (sparse_fold zero (fun s k v => add s (mul v (ent y k))) (column m c) NI NI 0 zero).
    + unfold SchurSpec.sumF. apply fold_left_ext_in. intros s i Hi. apply in_seq in Hi. do 2 f_equal.
      rewrite <- (dense_lookup zero m c _ _ i HC). unfold m. rewrite reg_cols_dense by lia. reflexivity.
    + intros s k. ring.
    + assumption.
    + assumption.
  - rewrite repeat_length. lia.
  - exists x. split; [exact E|]. rewrite repeat_length in L. split; [assumption|]. exact N.
Qed.

(** ** the facts about one step, entries dropped by the sparse format included *)
Definition dP : spatch F := mkP 0 0 [] [] [] [] [] [].
Record facts (ps : list (spatch F)) (xy : list (list F * list F)) : Prop := {
  fa_len : length xy = length ps;
  fa_ex : exists (Xs : list (list (list F))) (fps : list (list F)) (y : list F),
    length y = list_sum (map sNI ps) /\
    (forall p P, nth_error ps p = Some P -> exists x, nth_error xy p = Some (x, skipn (off (map sNI ps) p) y) /\ length x = sNS P /\
       (forall c, c < sNS P -> ent x c = sub (ent (nth p fps []) c) (sumF (sNI P) (fun i => mul (kp lim (entry (nth p Xs []) i c)) (ent y (off (map sNI ps) p + i))))) /\
       (forall i r, i < sNI P -> r < sNS P -> sumF (sNS P) (fun k => mul (kp lim (entry (sB P) r k)) (entry (nth p Xs []) i k)) = entry (sET P) i r) /\
       (forall r, r < sNS P -> sumF (sNS P) (fun k => mul (kp lim (entry (sB P) r k)) (ent (nth p fps []) k)) = ent (sf P) r)) /\
    (forall q Q i, nth_error ps q = Some Q -> i < sNI Q ->
       sumF (length ps) (fun p => let P := nth p ps dP in sumF (sNI P) (fun j =>
          mul (kp zero (sub (block_entry (sC P) q i j) (FEsum P (nth p Xs []) q i j))) (ent y (off (map sNI ps) p + j)))) =
       sub (ent (sg Q) i) (sumF (length ps) (fun p => let P := nth p ps dP in sumF (sNS P) (fun k => mul (block_entry (sF P) q i k) (ent (nth p fps []) k))))) }.

Lemma nth_dP (ps : list (spatch F)) p P : nth_error ps p = Some P -> nth p ps dP = P.
Proof. apply nth_error_nth. Qed.
Lemma nth_map0 (ps : list (spatch F)) p P : nth_error ps p = Some P -> nth p (map sNI ps) 0 = sNI P.
Proof. intros H. apply nth_error_nth. rewrite nth_error_map, H. reflexivity. Qed.

Theorem step_facts ps : ps <> [] -> Forall (patch_ok (map sNI ps)) ps -> sizes_ok ps ->
  safe (facts ps) (schur_step zero add sub mul grt_abs drop long solver junkz junk ps).
Proof.
  intros NE PO [SZ0 SZ]. set (NIp := map sNI ps) in *. set (N := list_sum NIp) in *.
  assert (POi : forall p P, nth_error ps p = Some P -> patch_ok NIp P /\ nth_error NIp p = Some (sNI P)).
  { intros p P H. split; [rewrite Forall_forall in PO; apply PO; eapply nth_error_In; eassumption|]. unfold NIp. rewrite nth_error_map, H. reflexivity. }
  assert (NIpos : Forall (fun n => 0 < n) NIp).
  { unfold NIp. rewrite Forall_map, Forall_forall. rewrite Forall_forall in PO. intros P HP. apply (k_NI _ _ (PO P HP)). }
  assert (HLE : forall P, In P ps -> sNI P <= N).
  { intros P HP. apply In_nth_error in HP. destruct HP as [p Hp]. pose proof (off_le _ _ _ (proj2 (POi p P Hp))). unfold N. lia. }
  assert (HN : 0 < N).
  { destruct ps as [|P ps']; [congruence|]. pose proof (HLE P (or_introl eq_refl)). pose proof (k_NI _ _ (proj1 (POi 0 P eq_refl))). lia. }
  unfold schur_step. fold NIp.
  apply (safe_bind (Forall2 (good_ef zero add mul grt_abs drop) ps)).
  { apply safe_omap. intros P HP. rewrite Forall_forall in PO, SZ. destruct (SZ P HP) as (B1 & B2 & B3). fold NIp in B2, B3. fold N in B2, B3.
    apply (making_E_ok zero add mul grt_abs drop long solver EX NIp); [apply PO; assumption|assumption|]. specialize (HLE P HP). nia. }
  intros ef HE. apply (Forall2_choice _ []) in HE as HXs. destruct HXs as [Xs HXs]. pose proof (Forall2_length _ _ _ HE) as Lef.
  assert (CEi : forall p pe, nth_error (combine ps ef) p = Some pe -> nth_error ps p = Some (fst pe) /\ nth_error ef p = Some (snd pe)) by (intros p pe; apply nth_error_combine2).
  (* F f' *)
  destruct (omap_nth (fun pe => making_F_by_f_prime zero add mul NIp (fst pe) (snd (snd pe))) (combine ps ef)
    (fun p d => length d = N /\ forall P e fp, nth_error ps p = Some P -> nth_error ef p = Some (e, fp) ->
       forall q n i, nth_error NIp q = Some n -> i < n -> nth (off NIp q + i) d zero = sumF (sNS P) (fun k => mul (block_entry (sF P) q i k) (ent fp k))))
    as (Ffs & EF & LF & HF).
  { intros p [P [e fp]] Hp. apply CEi in Hp. cbn [fst snd] in *. destruct Hp as [HP He].
    destruct (HXs p P (e, fp) HP He) as (_ & _ & Lfp & _ & _). cbn [snd] in Lfp.
    destruct (F_by_f_ok zero one add mul sub opp RT NIp P fp (proj1 (POi p P HP)) NIpos Lfp) as (d & Ed & Ld & Hd).
    exists d. split; [assumption|]. split; [assumption|]. intros P' e' fp' HP' He'. rewrite HP in HP'. injection HP' as <-. rewrite He in He'. injection He' as <- <-. assumption. }
  rewrite EF. cbn [obind]. rewrite combine_length, <- Lef, Nat.min_id in LF.
  (* subS *)
  destruct (omap_nth (fun pe => do FE <- omap (F_by_E_prime zero add mul grt_abs drop (fst (snd pe))) (sF (fst pe));
                             making_sub_S_matrix zero sub grt_abs NIp (sNI (fst pe)) FE (sC (fst pe))) (combine ps ef)
    (fun p s => forall P, nth_error ps p = Some P -> subS_ok zero add mul sub grt_abs drop NIp P (nth p Xs []) s))
    as (subS & ES & LS & HS).
  { intros p [P [e fp]] Hp. apply CEi in Hp. cbn [fst snd] in *. destruct Hp as [HP He].
    destruct (HXs p P (e, fp) HP He) as (SX & Ee & _). cbn [fst] in Ee. subst e.
    rewrite Forall_forall in SZ. destruct (SZ P (nth_error_In _ _ HP)) as (B1 & B2 & B3).
    destruct (subS_step zero one add mul sub opp grt_abs RT drop Z0 NIp P (nth p Xs []) (proj1 (POi p P HP)) NIpos SX HN SZ0 B2 B3) as (s & Es & Hs).
    exists s. split; [assumption|]. intros P' HP'. rewrite HP in HP'. injection HP' as <-. assumption. }
  rewrite ES. cbn [obind]. rewrite combine_length, <- Lef, Nat.min_id in LS.
  (* g' *)
  destruct (g_prime_ok NIp Ffs (map sg ps)) as (gp & Eg & Lg & Hg).
  { intros ->. cbn in LF. destruct ps; [congruence|discriminate]. }
  { rewrite Forall_forall. intros d Hd. apply In_nth_error in Hd. destruct Hd as [p Hp]. apply (HF p d Hp). }
  { unfold NIp. rewrite !map_length. reflexivity. }
  { intros q g n Hq Hn. rewrite nth_error_map in Hq. destruct (nth_error ps q) as [Q|] eqn:HQ; [|discriminate]. injection Hq as <-.
    destruct (POi q Q HQ) as [PQ NQ]. rewrite NQ in Hn. injection Hn as <-. apply (k_g _ _ PQ). }
  rewrite Eg. cbn [obind].
  (* S *)
  destruct (choice_nth (@nil (list F)) subS (fun p s A => forall P, nth_error ps p = Some P ->
     s = mkM N (sNI P) (CCS (of_cols (cols_of zero N (sNI P) (entry A)))) /\
     forall q n i j, nth_error NIp q = Some n -> i < n -> j < sNI P ->
       entry A (off NIp q + i) j = sub (block_entry (sC P) q i j) (FEsum P (nth p Xs []) q i j))) as [As HAs].
  { intros p s Hs. assert (Hp : p < length ps) by (rewrite <- LS; apply nth_error_Some; congruence).
    destruct (nth_error_ex ps p Hp) as [P HP]. destruct (HS p s Hs P HP) as (A & EA & HA). exists A. intros P' HP'.
    rewrite HP in HP'. injection HP' as <-. split; assumption. }
  set (blocks := map (fun p => cols_of zero N (nth p NIp 0) (entry (nth p As []))) (seq 0 (length ps))).
  assert (LNp : length NIp = length ps) by (unfold NIp; apply map_length).
  assert (Lb : map (@List.length (list (Z * F))) blocks = NIp).
  { unfold blocks. rewrite map_map. apply (nth_ext _ _ 0 0); [rewrite map_length, seq_length; lia|]. intros k Hk. rewrite map_length, seq_length in Hk.
    rewrite (nth_indep _ 0 ((fun x => length (cols_of zero N (nth x NIp 0) (entry (nth x As [])))) 0)) by (rewrite map_length, seq_length; assumption).
    rewrite (map_nth (fun x => length (cols_of zero N (nth x NIp 0) (entry (nth x As []))))). rewrite seq_nth by assumption. rewrite reg_cols_length. reflexivity. }
  assert (nthb : forall p P, nth_error ps p = Some P -> nth_error blocks p = Some (cols_of zero N (sNI P) (entry (nth p As [])))).
  { intros p P HP. assert (p < length ps) by (apply nth_error_Some; congruence). unfold blocks. rewrite nth_error_map, (nth_error_nth' _ 0) by (rewrite seq_length; assumption).
    rewrite seq_nth by assumption. cbn [option_map Nat.add]. do 2 f_equal. apply nth_error_nth. apply (POi p P HP). }
  apply (safe_bind (fun m => m = mkM N N (CCSL (of_cols (concat blocks))))).
  { refine (compute_S_ok zero junkz junk NIp blocks subS HN _ Lb). fold N.
    assert (G : forall (l : list (list (list (Z * F)))) (r : list (matrix F)), length l = length r ->
       (forall i b s, nth_error l i = Some b -> nth_error r i = Some s -> s = mkM N (length b) (CCS (of_cols b)) /\ 0 < length b) ->
       Forall2 (fun b m => m = mkM N (length b) (CCS (of_cols b)) /\ 0 < length b) l r).
    { induction l as [|a l IH]; intros [|b r] Lr Hr; try discriminate; constructor.
      - apply (Hr 0); reflexivity.
      - apply IH; [cbn in Lr; lia|]. intros i. apply (Hr (S i)). }
    apply G; [unfold blocks; rewrite map_length, seq_length; lia|].
    intros p b s Hb Hs. assert (p < length ps) by (rewrite <- LS; apply nth_error_Some; congruence).
    destruct (nth_error_ex ps p) as [P HP]; [assumption|]. rewrite (nthb p P HP) in Hb. injection Hb as <-. rewrite reg_cols_length.
    split; [apply (HAs p s Hs P HP)|apply (k_NI _ _ (proj1 (POi p P HP)))]. }
  intros Sm ->.
  assert (LC : length (concat blocks) = N).
  { unfold N. rewrite <- Lb. clear. induction blocks as [|b l IH]; [reflexivity|]. cbn [concat map]. rewrite app_length, IH. reflexivity. }
  assert (VS : ccs_valid N N (of_cols (concat blocks))).
  { rewrite <- LC at 2. apply of_cols_valid. rewrite Forall_forall. intros c Hc. apply in_concat in Hc. destruct Hc as (b & Hb & Hc).
    unfold blocks in Hb. apply in_map_iff in Hb. destruct Hb as (p & <- & _). unfold reg_cols in Hc. apply in_map_iff in Hc. destruct Hc as (c' & <- & _).
    apply dcol_ok. lia. }
  pose proof (EX N (of_cols (concat blocks)) (mkM N N (CCSL (of_cols (concat blocks)))) gp (or_intror eq_refl) eq_refl eq_refl HN VS Lg) as HY.
  destruct (solver (mkM N N (CCSL (of_cols (concat blocks)))) gp) as [y| |]; cbn [obind safe]; [|exact I|exact HY].
  destruct HY as [Ly HY].
  (* dense S *)
  assert (DS : forall r p P j, r < N -> nth_error ps p = Some P -> j < sNI P ->
     dense zero (of_cols (concat blocks)) r (off NIp p + j) = kp zero (entry (nth p As []) r j)).
  { intros r p P j Hr HP Hj.
    assert (NC : nth_error (concat blocks) (off NIp p + j) = nth_error (cols_of zero N (sNI P) (entry (nth p As []))) j).
    { assert (G : forall (bl : list (list (list (Z * F)))) p b j, nth_error bl p = Some b -> j < length b -> nth_error (concat bl) (off (map (@List.length _) bl) p + j) = nth_error b j).
      { clear. induction bl as [|a bl IH]; intros [|p] b j H Hj; cbn in H; try discriminate.
        - injection H as ->. unfold off. cbn. apply nth_error_app1. assumption.
        - unfold off. cbn [map firstn concat]. change (list_sum (?a :: ?b)) with (a + list_sum b). rewrite nth_error_app2 by lia.
          rewrite <- (IH p b j H Hj). f_equal. unfold off. lia. }
      rewrite <- Lb. apply G; [apply nthb; assumption|rewrite reg_cols_length; assumption]. }
    rewrite reg_cols_nth in NC by assumption.
    rewrite (dense_lookup zero _ _ _ _ r (of_cols_has _ _ _ NC)). rewrite dcol_lookup by lia. destruct (Nat.ltb_spec r (0 + N)); [reflexivity|lia]. }
  (* x *)
  destruct (omap_nth (fun pey => compute_x zero add sub mul (sNS (fst (fst pey))) (fst (snd (fst pey))) (snd (snd (fst pey))) (snd pey))
             (combine (combine ps ef) (y_pointers NIp y))
    (fun p x => forall P e fp, nth_error ps p = Some P -> nth_error ef p = Some (e, fp) -> length x = sNS P /\
       forall c, c < sNS P -> ent x c = sub (ent fp c) (sumF (sNI P) (fun i => mul (kp lim (entry (nth p Xs []) i c)) (ent y (off NIp p + i))))))
    as (xs & Ex & Lx & Hx).
  { intros p [[P [e fp]] yp] Hp. apply nth_error_combine2 in Hp. cbn [fst snd] in Hp. destruct Hp as [Hp Hy]. apply CEi in Hp. cbn [fst snd] in *. destruct Hp as [HP He].
    destruct (HXs p P (e, fp) HP He) as (SX & Ee & Lfp & _). cbn [fst snd] in *. subst e.
    assert (Hpl : p < length NIp) by (rewrite LNp; apply nth_error_Some; congruence).
    rewrite nth_error_skipn_off in Hy by assumption. injection Hy as <-.
    pose proof (off_le _ _ _ (proj2 (POi p P HP))) as OL. fold N in OL.
    destruct (compute_x_ok (sNS P) (sNI P) (nth p Xs []) fp (skipn (off NIp p) y) (k_NI _ _ (proj1 (POi p P HP))) Lfp) as (x & Exx & Lxx & Hxx); [rewrite skipn_length; lia|].
    exists x. split; [assumption|]. intros P' e' fp' HP' He'. rewrite HP in HP'. injection HP' as <-. rewrite He in He'. injection He' as <- <-.
    split; [assumption|]. intros c Hc. rewrite Hxx by assumption. f_equal. apply sumF_ext. intros i Hi. f_equal. unfold SchurSpec.ent. apply nth_skipn'. }
  rewrite Ex. cbn [obind safe].
  rewrite combine_length, combine_length, <- Lef, y_pointers_length, LNp, !Nat.min_id in Lx.
  constructor.
  { rewrite combine_length, y_pointers_length, LNp, Lx. lia. }
  exists Xs, (map snd ef), y. split; [assumption|].
  assert (nfp : forall p e fp, nth_error ef p = Some (e, fp) -> nth p (map snd ef) [] = fp).
  { intros p e fp H. apply nth_error_nth. rewrite nth_error_map, H. reflexivity. }
  fold NIp. split.
  - intros p P HP. assert (p < length ps) by (apply nth_error_Some; congruence).
    destruct (nth_error_ex ef p) as [[e fp] He]; [lia|]. destruct (nth_error_ex xs p) as [x Hxp]; [lia|].
    destruct (Hx p x Hxp P e fp HP He) as [Lxp Hxe]. exists x. rewrite (nfp p e fp He).
    split; [|split; [assumption|]].
    + rewrite nth_error_combine, Hxp, nth_error_skipn_off by lia. reflexivity.
    + destruct (HXs p P (e, fp) HP He) as (_ & _ & _ & K1 & K2). cbn [snd] in K2. split; [assumption|]. split; assumption.
  - intros q Q i HQ Hi. destruct (POi q Q HQ) as [PQ NQ]. pose proof (off_le _ _ _ NQ) as OL. fold N in OL.
    specialize (HY (off NIp q + i) ltac:(lia)). specialize (Hg q (sg Q) (sNI Q) i).
    rewrite nth_error_map, HQ in Hg. specialize (Hg eq_refl NQ Hi). unfold SchurSpec.ent in HY at 2. rewrite Hg in HY.
    unfold N in HY at 1. rewrite sumF_blocks, LNp in HY.
    rewrite (fold_nth (fun l => nth (off NIp q + i) l zero) Ffs []), LF in HY.
    etransitivity; [etransitivity; [|exact HY]|].
    + apply sumF_ext. intros p Hp. destruct (nth_error_ex ps p Hp) as [P HP]. cbv zeta. rewrite (nth_dP _ _ _ HP).
      replace (nth p NIp 0) with (sNI P) by (symmetry; apply (nth_map0 _ _ _ HP)).
      apply sumF_ext. intros j Hj. f_equal. rewrite (DS _ p P j) by (assumption || lia). f_equal.
      destruct (nth_error_ex subS p) as [s Hs]; [lia|]. destruct (HAs p s Hs P HP) as [_ HA]. symmetry. apply (HA q (sNI Q) i j NQ Hi Hj).
    + f_equal. apply sumF_ext. intros p Hp. destruct (nth_error_ex ps p Hp) as [P HP]. cbv zeta. rewrite (nth_dP _ _ _ HP).
      destruct (nth_error_ex ef p) as [[e fp] He]; [lia|]. rewrite (nfp p e fp He). destruct (nth_error_ex Ffs p) as [d Hd]; [lia|].
      rewrite (nth_error_nth _ _ _ Hd). apply (proj2 (HF p d Hd) P e fp HP He q (sNI Q) i NQ Hi).
Qed.
End Mat.
