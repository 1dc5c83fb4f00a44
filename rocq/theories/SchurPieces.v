(** SchurPieces.v - what each routine of the Schur complement step computes. *)
From Coq Require Import Ring.
From Verif Require Import Base TextModel MatrixModel MatrixSpec MatrixProofs MatrixConvert MatrixRead MatrixMul MatrixFinal SchurModel SchurSpec SchurProofs.
Open Scope nat_scope.
Notation length := List.length.

Section Mat.
Context {F : Type} (zero one : F) (add mul sub : F -> F -> F) (opp : F -> F) (grt_abs : F -> F -> bool).
Context (RT : ring_theory zero one add mul sub opp (@eq F)).
Add Ring FR : RT.
Context (drop : option F) (long : bool) (solver : matrix F -> list F -> outcome (list F)) (junkz : Z) (junk : F).
Context (Z0 : grt_abs zero zero = false) (EX : exact_solver zero add mul solver).
Notation sumF := (sumF zero add).
Notation ent := (ent zero).
Notation entry := (entry zero).
Notation lim := (drop_limit zero drop).
Notation kp := (kept zero grt_abs).
Notation cols_of := (reg_cols grt_abs).
Notation block_entry := (block_entry zero).

Lemma count_le p (A : list (list F)) nr nc : shape nr nc A -> count p A <= nr * nc.
Proof.
  intros SH. unfold count. rewrite <- (length_concat_rows nr nc A SH).
  generalize (concat A) as l. induction l as [|x l IH]; cbn [filter length]; [lia|]. destruct (p x); cbn [length]; lia.
Qed.
Lemma rd2_firstn (A : list (list F)) n r c : r < n -> rd2 A r c = rd2 (firstn n A) r c.
Proof.
  intros H. unfold rd2, rd. f_equal.
  replace (nth_error A r) with (nth_error (firstn n A) r); [reflexivity|].
  exact (nth_error_firstn_skipn A n 0 r H).
Qed.
Lemma convert_firstn cast nr nc A l : convert_reg2ccs grt_abs cast nr nc A l = convert_reg2ccs grt_abs cast nr nc (firstn nr A) l.
Proof.
  unfold convert_reg2ccs. f_equal. apply ofold_ext. intros c b _. f_equal. apply ofold_ext. intros r b' Hr. apply in_seq in Hr.
  rewrite (rd2_firstn A nr) by lia. reflexivity.
Qed.
Lemma cast_reg nr nc (A : list (list F)) : shape nr nc (firstn nr A) -> 0 < nr -> 0 < nc -> (Z.of_nat nr * Z.of_nat nc <= 2147483647)%Z ->
  cast_matrix_ccs zero grt_abs drop (mkM nr nc (REG A)) = Ok (Some (mkM nr nc (CCS (of_cols (cols_of lim nr nc (entry (firstn nr A))))))) /\
  cast_matrix_ccs_long zero grt_abs drop (mkM nr nc (REG A)) = Ok (Some (mkM nr nc (CCSL (of_cols (cols_of lim nr nc (entry (firstn nr A))))))).
Proof.
  intros SH Hr Hc HB. pose proof (count_le (fun x => grt_abs x lim) _ _ _ SH) as CL.
  unfold cast_matrix_ccs, cast_matrix_ccs_long. cbn [row col sto].
  destruct (Nat.eqb_spec nr 0); [lia|]. destruct (Nat.eqb_spec nc 0); [lia|]. cbn [orb].
  rewrite !(convert_firstn _ nr nc A).
  split; rewrite (convert_reg2ccs_ok zero); try assumption; try reflexivity; intros z Hz; apply wrap_int_id; nia.
Qed.
Lemma cast_rmo nr nc (A : list (list F)) : shape nr nc A -> 0 < nr -> 0 < nc -> (Z.of_nat nr * Z.of_nat nc <= 2147483647)%Z ->
  cast_matrix_ccs zero grt_abs drop (mkM nr nc (RMO (concat A))) = Ok (Some (mkM nr nc (CCS (of_cols (cols_of lim nr nc (entry A)))))).
Proof.
  intros SH Hr Hc HB. pose proof (count_le (fun x => grt_abs x lim) _ _ _ SH) as CL.
  unfold cast_matrix_ccs. cbn [row col sto].
  destruct (Nat.eqb_spec nr 0); [lia|]. destruct (Nat.eqb_spec nc 0); [lia|]. cbn [orb].
  rewrite (convert_rmo2ccs_ok zero); try assumption; try reflexivity; intros z Hz; apply wrap_int_id; nia.
Qed.

(** ** E' and f' *)
Definition good_ef (P : spatch F) (ef : matrix F * list F) : Prop :=
  exists X, shape (sNI P) (sNS P) X /\
    fst ef = mkM (sNI P) (sNS P) (CCS (of_cols (cols_of lim (sNI P) (sNS P) (entry X)))) /\
    length (snd ef) = sNS P /\
    (forall i r, i < sNI P -> r < sNS P -> sumF (sNS P) (fun k => mul (kp lim (entry (sB P) r k)) (entry X i k)) = entry (sET P) i r) /\
    (forall r, r < sNS P -> sumF (sNS P) (fun k => mul (kp lim (entry (sB P) r k)) (ent (snd ef) k)) = ent (sf P) r).

Lemma shape_nth_error nr nc (A : list (list F)) i l : shape nr nc A -> nth_error A i = Some l -> length l = nc.
Proof. intros [_ H] E. rewrite Forall_forall in H. apply H. eapply nth_error_In; eassumption. Qed.

Lemma making_E_ok NIp P : patch_ok NIp P ->
  (Z.of_nat (sNS P) * Z.of_nat (sNS P) <= 2147483647)%Z -> (Z.of_nat (sNI P) * Z.of_nat (sNS P) <= 2147483647)%Z ->
  safe (good_ef P) (making_E_prime_and_f_prime zero grt_abs drop long solver P).
Proof.
  intros PO B1 B2. pose proof (k_NS _ _ PO) as HNS. pose proof (k_NI _ _ PO) as HNI.
  pose proof (k_B _ _ PO) as SB. pose proof (k_ET _ _ PO) as SE. pose proof (k_f _ _ PO) as Lf.
  unfold making_E_prime_and_f_prime. destruct (Nat.eqb_spec (sNS P) 0); [lia|]. destruct (Nat.eqb_spec (sNI P) 0); [lia|]. cbn [orb].
  assert (FB : firstn (sNS P) (sB P) = sB P) by (apply firstn_all2; destruct SB; lia).
  destruct (cast_reg (sNS P) (sNS P) (sB P)) as [C1 C2]; [rewrite FB; assumption|lia|lia|lia|]. rewrite FB in C1, C2.
  set (cB := of_cols (cols_of lim (sNS P) (sNS P) (entry (sB P)))) in *.
  assert (exists a, (if long then cast_matrix_ccs_long zero grt_abs drop (mkM (sNS P) (sNS P) (REG (sB P)))
           else cast_matrix_ccs zero grt_abs drop (mkM (sNS P) (sNS P) (REG (sB P)))) = Ok (Some a) /\ (sto a = CCS cB \/ sto a = CCSL cB) /\ row a = sNS P /\ col a = sNS P)
    as (a & Ea & Sa & Ra & Ca).
  { destruct long; [rewrite C2|rewrite C1]; eexists; (split; [reflexivity|]); cbn; auto. }
  rewrite Ea. cbn [obind].
  rewrite (omap_ok _ (fun i => nth i (sET P) [])).
  2: { intros i Hi. apply in_seq in Hi. apply rd_nth. destruct SE. lia. }
  cbn [obind].
  assert (EB : map (fun i => nth i (sET P) []) (seq 0 (sNI P)) = sET P).
  { rewrite <- (proj1 SE). symmetry. apply rows_as_map. }
  rewrite EB.
  apply (safe_bind (Forall2 (fun b x => length x = sNS P /\ forall r, r < sNS P -> sumF (sNS P) (fun k => mul (kp lim (entry (sB P) r k)) (ent x k)) = ent b r) (sET P ++ [sf P]))).
  { apply safe_omap. intros b Hb.
    assert (Lb : length b = sNS P).
    { apply in_app_or in Hb. destruct Hb as [Hb|[<-|[]]]; [|assumption]. destruct SE as [_ H]. rewrite Forall_forall in H. auto. }
    pose proof (EX (sNS P) cB a b Sa Ra Ca HNS (reg_cols_valid grt_abs _ _ _ _) Lb) as H.
    destruct (solver a b) as [x| |]; cbn [safe]; try assumption.
    destruct H as [Lx H]. split; [assumption|]. intros r Hr. rewrite <- (H r Hr). apply sumF_ext. intros k Hk. f_equal.
    unfold cB. rewrite reg_cols_dense by assumption. reflexivity. }
  intros xs HX.
  assert (Lxs : length xs = sNI P + 1).
  { rewrite <- (Forall2_length _ _ _ HX), app_length. cbn. destruct SE. lia. }
  rewrite (rd_nth xs (sNI P) []) by lia. cbn [obind].
  assert (SX : shape (sNI P) (sNS P) (firstn (sNI P) xs)).
  { split; [rewrite firstn_length; lia|]. rewrite Forall_forall. intros l Hl.
    assert (In l xs) by (rewrite <- (firstn_skipn (sNI P) xs); apply in_or_app; left; assumption).
    apply in_nth_error in H. destruct H as [i Hi].
    destruct (nth_error_ex (sET P ++ [sf P]) i) as [b Hb]. { rewrite (Forall2_length _ _ _ HX). apply nth_error_Some. congruence. }
    apply (Forall2_nth _ _ _ _ _ _ HX Hb Hi). }
  destruct (cast_reg (sNI P) (sNS P) xs SX) as [C3 _]; [lia|lia|lia|]. rewrite C3. cbn [obind safe].
  exists (firstn (sNI P) xs). split; [assumption|]. cbn [fst snd]. split; [reflexivity|].
  assert (HN : forall i, i <= sNI P -> nth_error xs i = Some (nth i xs [])) by (intros i Hi; apply nth_error_nth'; lia).
  assert (HF : nth_error (sET P ++ [sf P]) (sNI P) = Some (sf P)).
  { rewrite nth_error_app2 by (destruct SE; lia). replace (sNI P - length (sET P)) with 0 by (destruct SE; lia). reflexivity. }
  destruct (Forall2_nth _ _ _ _ _ _ HX HF (HN (sNI P) ltac:(lia))) as [L1 H1].
  split; [assumption|]. split; [|assumption].
  intros i r Hi Hr.
  assert (HE : nth_error (sET P ++ [sf P]) i = Some (nth i (sET P) [])).
  { rewrite nth_error_app1 by (destruct SE; lia). apply nth_error_nth'. destruct SE; lia. }
  destruct (Forall2_nth _ _ _ _ _ _ HX HE (HN i ltac:(lia))) as [L2 H2]. specialize (H2 r Hr).
  unfold MatrixSpec.entry at 3. unfold SchurSpec.ent in H2. rewrite <- H2. apply sumF_ext. intros k Hk. f_equal.
  unfold MatrixSpec.entry. rewrite nth_firstn by assumption. reflexivity.
Qed.

(** ** F f' *)
Lemma block_rows n NS NI Fo Co q (l : list (option (matrix F))) : nth_error l q = Some Fo -> block_ok n NS NI Fo Co ->
  match Fo with
  | None => forall i k, block_entry l q i k = zero
  | Some m => exists A, m = mkM n NS (RMO (concat A)) /\ shape n NS A /\ forall i k, i < n -> k < NS -> block_entry l q i k = entry A i k
  end.
Proof.
  intros E [[-> ->]|(A & A' & -> & SA & -> & SA')].
  - intros i k. unfold SchurSpec.block_entry. rewrite E. reflexivity.
  - exists A. split; [reflexivity|]. split; [assumption|]. intros i k Hi Hk. unfold SchurSpec.block_entry. rewrite E. cbn [sto col].
    apply nth_error_nth. apply (nth_concat_rows zero n); assumption.
Qed.

Lemma nth_skipn' (l : list F) R i : nth i (skipn R l) zero = nth (R + i) l zero.
Proof. revert l; induction R as [|R IH]; intros l; [reflexivity|]. destruct l as [|x l]; [cbn; destruct i; reflexivity|]. cbn [skipn Nat.add nth]. apply IH. Qed.

Lemma F_by_f_loop NS NI fp Fs Cs NIp' : length fp = NS -> 0 < NS ->
  length Fs = length NIp' -> length Cs = length NIp' ->
  (forall q n Fo Co, nth_error NIp' q = Some n -> nth_error Fs q = Some Fo -> nth_error Cs q = Some Co -> block_ok n NS NI Fo Co) ->
  Forall (fun n => 0 < n) NIp' ->
  forall d R, R + list_sum NIp' <= length d -> (forall k, R <= k -> nth k d zero = zero) ->
  exists d', ofold (fun (FN : option (matrix F) * nat) (dR : list F * nat) =>
      let '(d, R) := dR in
      let '(Fo, n) := FN in
      do d' <- match Fo with
               | None => Ok d
               | Some m => do t <- matrix_by_vector zero add mul m fp (skipn R d) NOT_INITIALIZE;
                           Ok (firstn R d ++ t)
               end;
      Ok (d', R + n)) (combine Fs NIp') (d, R) = Ok (d', R + list_sum NIp') /\ length d' = length d /\
    (forall k, k < R -> nth k d' zero = nth k d zero) /\
    (forall q n i, nth_error NIp' q = Some n -> i < n ->
       nth (R + off NIp' q + i) d' zero = sumF NS (fun k => mul (block_entry Fs q i k) (ent fp k))).
Proof.
  intros Lfp HNS. revert Fs Cs. induction NIp' as [|n NIp' IH]; intros Fs Cs LF LC HB HP d R Ld HZ.
  - destruct Fs; [|discriminate]. cbn [combine ofold]. exists d. change (list_sum []) with 0. rewrite Nat.add_0_r.
    repeat split; try reflexivity. intros [|q] n i E; discriminate.
  - destruct Fs as [|Fo Fs]; [discriminate|]. destruct Cs as [|Co Cs]; [discriminate|]. cbn [length] in LF, LC.
    change (list_sum (n :: NIp')) with (n + list_sum NIp') in *. inversion HP as [|? ? Hn HP']; subst.
    pose proof (HB 0 n Fo Co eq_refl eq_refl eq_refl) as B0. pose proof (block_rows n _ NI Fo Co 0 (Fo :: Fs) eq_refl B0) as BR.
    assert (exists d1, match Fo with
               | None => Ok d
               | Some m => do t <- matrix_by_vector zero add mul m fp (skipn R d) NOT_INITIALIZE;
                           Ok (firstn R d ++ t)
               end = Ok d1 /\ length d1 = length d /\ (forall k, k < R -> nth k d1 zero = nth k d zero) /\
               (forall k, R + n <= k -> nth k d1 zero = zero) /\
               (forall i, i < n -> nth (R + i) d1 zero = sumF (length fp) (fun k => mul (block_entry (Fo :: Fs) 0 i k) (ent fp k))))
      as (d1 & E1 & L1 & K1 & K2 & K3).
    { destruct Fo as [m|].
      - destruct BR as (A & -> & SA & EA).
        destruct (matrix_by_vector_ok zero add mul (mkM n (length fp) (RMO (concat A))) A fp (skipn R d) NOT_INITIALIZE) as (t & Et & Lt & T1 & T2).
        + right. reflexivity.
        + assumption.
        + cbn. assumption.
        + cbn. lia.
        + cbn. lia.
        + cbn. rewrite skipn_length. lia.
        + discriminate.
        + cbn [row col] in *. rewrite Et. cbn [obind]. exists (firstn R d ++ t). split; [reflexivity|].
          assert (LR : length (firstn R d) = R) by (rewrite firstn_length; lia).
          split; [rewrite app_length, Lt, skipn_length; lia|]. split; [|split].
          * intros k Hk. rewrite app_nth1 by lia. apply nth_firstn. assumption.
          * intros k Hk. rewrite app_nth2 by lia. rewrite LR, T2 by lia. rewrite nth_skipn'. apply HZ. lia.
          * intros i Hi. rewrite app_nth2 by lia. rewrite LR. replace (R + i - R) with i by lia. rewrite T1 by assumption.
            rewrite (dot_sum zero one add mul sub opp RT). rewrite nth_skipn', HZ by lia.
            rewrite (sumF_ext zero add (length fp) _ (fun k => mul (entry A i k) (ent fp k))) by (intros k Hk; reflexivity).
            rewrite (sumF_ext zero add (length fp) (fun k => mul (block_entry _ _ _ _) _) (fun k => mul (entry A i k) (ent fp k))) by (intros k Hk; rewrite EA by assumption; reflexivity).
            ring.
      - exists d. split; [reflexivity|]. split; [reflexivity|]. split; [reflexivity|]. split; [intros k Hk; apply HZ; lia|].
        intros i Hi. rewrite HZ by lia. symmetry. apply (sumF_zero zero one add mul sub opp RT). intros k Hk. rewrite BR. ring. }
    cbn [combine ofold]. rewrite E1. cbn [obind].
    destruct (IH Fs Cs ltac:(lia) ltac:(lia)) with (d := d1) (R := R + n) as (d' & E & Ld' & U1 & U2).
    + intros q n' Fo' Co' H1 H2 H3. apply (HB (S q)); assumption.
    + assumption.
    + lia.
    + assumption.
    + exists d'. split; [rewrite E; f_equal; f_equal; lia|]. split; [lia|]. split.
      * intros k Hk. rewrite U1 by lia. apply K1. assumption.
      * intros [|q] n' i Hq Hi.
        -- cbn in Hq. injection Hq as <-. unfold off. cbn [firstn list_sum]. change (list_sum []) with 0. rewrite Nat.add_0_r.
           rewrite U1 by lia. apply K3. assumption.
        -- cbn in Hq. specialize (U2 q n' i Hq Hi). replace (R + off (n :: NIp') (S q) + i) with (R + n + off NIp' q + i).
           2: { unfold off. cbn [firstn]. change (list_sum (?a :: ?b)) with (a + list_sum b). lia. }
           rewrite U2. apply sumF_ext. intros k Hk. reflexivity.
Qed.

Lemma F_by_f_ok NIp P fp : patch_ok NIp P -> Forall (fun n => 0 < n) NIp -> length fp = sNS P ->
  exists d, making_F_by_f_prime zero add mul NIp P fp = Ok d /\ length d = list_sum NIp /\
    forall q n i, nth_error NIp q = Some n -> i < n -> nth (off NIp q + i) d zero = sumF (sNS P) (fun k => mul (block_entry (sF P) q i k) (ent fp k)).
Proof.
  intros PO HP Lfp. unfold making_F_by_f_prime.
  destruct (F_by_f_loop (sNS P) (sNI P) fp (sF P) (sC P) NIp Lfp (k_NS _ _ PO) (k_F _ _ PO) (k_C _ _ PO) (k_blocks _ _ PO) HP
     (repeat zero (list_sum NIp)) 0) as (d & E & Ld & _ & H).
  - rewrite repeat_length. lia.
  - intros k _. destruct (lt_dec k (list_sum NIp)); [apply nth_repeat|]. apply nth_overflow. rewrite repeat_length. lia.
  - rewrite E. cbn [obind fst]. exists d. split; [reflexivity|]. rewrite repeat_length in Ld. split; [assumption|]. exact H.
Qed.
End Mat.
