(** MatrixFinal.v - the matrix properties, assembled. *)
From Verif Require Import Base TextModel MatrixModel MatrixSpec MatrixProofs MatrixConvert MatrixRead MatrixMul.
Local Open Scope nat_scope.

Section Mat.
Context {F : Type} (zero : F) (add sub mul : F -> F -> F) (grt_abs : F -> F -> bool).
Notation kp := (kept zero grt_abs).

Lemma rowcol (m : matrix F) : 0 < row m -> 0 < col m -> (row m =? 0) || (col m =? 0) = false.
Proof. intros H1 H2. destruct (Nat.eqb_spec (row m) 0); [lia|]. destruct (Nat.eqb_spec (col m) 0); [lia|]. reflexivity. Qed.

(** the dense form of a valid compressed matrix *)
Lemma cast_reg_of_valid nr nc m B (st : ccs F -> store F) : 0 < nr -> 0 < nc -> ccs_valid nr nc m -> shape nr nc B ->
  st = CCS \/ st = CCSL ->
  (forall r c, r < nr -> c < nc -> dense zero m r c = entry zero B r c) ->
  cast_matrix_reg zero (mkM nr nc (st m)) = Ok (Some (mkM nr nc (REG B))).
Proof.
  intros Hr Hc V SB ST H. unfold cast_matrix_reg. rewrite rowcol by assumption. cbn [row col sto].
  destruct (convert_ccs2reg_ok zero nr nc m V) as (B' & E & SB' & EB).
  assert (B' = B). { apply (shape_ext zero nr nc); [assumption|assumption|]. intros r c Hr' Hc'. rewrite EB by assumption. apply H; assumption. }
  subst B'. destruct ST as [-> | ->]; rewrite E; reflexivity.
Qed.

Lemma reg_cols_reg nr nc A lim (st : ccs F -> store F) : 0 < nr -> 0 < nc -> shape nr nc A -> st = CCS \/ st = CCSL ->
  cast_matrix_reg zero (mkM nr nc (st (of_cols (reg_cols grt_abs lim nr nc (entry zero A))))) =
    Ok (Some (mkM nr nc (REG (map (map (kp lim)) A)))).
Proof.
  intros Hr Hc SH ST. apply cast_reg_of_valid; try assumption.
  - apply reg_cols_valid.
  - apply shape_map. assumption.
  - intros r c Hr' Hc'. rewrite reg_cols_dense by assumption. rewrite (entry_map zero nr nc) by assumption. reflexivity.
Qed.

Theorem round_trip p nr nc A : shape nr nc A -> 0 < nr -> 0 < nc -> (Z.of_nat nr <= 2147483648)%Z ->
  (Z.of_nat (count (fun x => grt_abs x (drop_limit zero p)) A) <= 2147483647)%Z ->
  exists m, ccs_valid nr nc m /\
    cast_matrix_ccs zero grt_abs p (mkM nr nc (REG A)) = Ok (Some (mkM nr nc (CCS m))) /\
    cast_matrix_ccs zero grt_abs p (mkM nr nc (RMO (concat A))) = Ok (Some (mkM nr nc (CCS m))) /\
    cast_matrix_ccs_long zero grt_abs p (mkM nr nc (REG A)) = Ok (Some (mkM nr nc (CCSL m))) /\
    cast_matrix_reg zero (mkM nr nc (CCS m)) = Ok (Some (mkM nr nc (REG (map (map (kp (drop_limit zero p))) A)))) /\
    cast_matrix_reg zero (mkM nr nc (CCSL m)) = Ok (Some (mkM nr nc (REG (map (map (kp (drop_limit zero p))) A)))).
Proof.
  intros SH Hr Hc B1 B2. set (lim := drop_limit zero p) in *.
  exists (of_cols (reg_cols grt_abs lim nr nc (entry zero A))).
  split; [apply reg_cols_valid|].
  split; [|split; [|split; [|split]]].
  - unfold cast_matrix_ccs. rewrite rowcol by assumption. cbn [row col sto]. fold lim.
    rewrite (convert_reg2ccs_ok zero) by (assumption || (intros z Hz; apply wrap_int_id; lia)). reflexivity.
  - unfold cast_matrix_ccs. rewrite rowcol by assumption. cbn [row col sto]. fold lim.
    rewrite (convert_rmo2ccs_ok zero) by (assumption || (intros z Hz; apply wrap_int_id; lia)). reflexivity.
  - unfold cast_matrix_ccs_long. rewrite rowcol by assumption. cbn [row col sto]. fold lim.
    rewrite (convert_reg2ccs_ok zero) by (assumption || reflexivity). reflexivity.
  - apply (reg_cols_reg nr nc A lim CCS); auto.
  - apply (reg_cols_reg nr nc A lim CCSL); auto.
Qed.
(** long format: no limit on the number of entries *)
Theorem round_trip_long p nr nc A : shape nr nc A -> 0 < nr -> 0 < nc ->
  exists m, ccs_valid nr nc m /\
    cast_matrix_ccs_long zero grt_abs p (mkM nr nc (REG A)) = Ok (Some (mkM nr nc (CCSL m))) /\
    cast_matrix_reg zero (mkM nr nc (CCSL m)) = Ok (Some (mkM nr nc (REG (map (map (kp (drop_limit zero p))) A)))).
Proof.
  intros SH Hr Hc. set (lim := drop_limit zero p) in *.
  exists (of_cols (reg_cols grt_abs lim nr nc (entry zero A))).
  split; [apply reg_cols_valid|]. split.
  - unfold cast_matrix_ccs_long. rewrite rowcol by assumption. cbn [row col sto]. fold lim.
    rewrite (convert_reg2ccs_ok zero) by (assumption || reflexivity). reflexivity.
  - apply (reg_cols_reg nr nc A lim CCSL); auto.
Qed.
Theorem round_trip_both p nr nc A : shape nr nc A -> 0 < nr -> 0 < nc ->
  ((Z.of_nat nr <= 2147483648)%Z -> (Z.of_nat (count (fun x => grt_abs x (drop_limit zero p)) A) <= 2147483647)%Z ->
   exists m,
    cast_matrix_ccs zero grt_abs p (mkM nr nc (REG A)) = Ok (Some (mkM nr nc (CCS m))) /\
    cast_matrix_ccs zero grt_abs p (mkM nr nc (RMO (concat A))) = Ok (Some (mkM nr nc (CCS m))) /\
    cast_matrix_reg zero (mkM nr nc (CCS m)) = Ok (Some (mkM nr nc (REG (map (map (kp (drop_limit zero p))) A))))) /\
  (exists m,
    cast_matrix_ccs_long zero grt_abs p (mkM nr nc (REG A)) = Ok (Some (mkM nr nc (CCSL m))) /\
    cast_matrix_reg zero (mkM nr nc (CCSL m)) = Ok (Some (mkM nr nc (REG (map (map (kp (drop_limit zero p))) A))))).
Proof.
  intros SH Hr Hc. split.
  - intros B1 B2. destruct (round_trip p nr nc A SH Hr Hc B1 B2) as (m & _ & E1 & E2 & _ & E3 & _). exists m. auto.
  - destruct (round_trip_long p nr nc A SH Hr Hc) as (m & _ & E1 & E2). exists m. auto.
Qed.
Theorem copy_same p nr nc m : ccs_valid nr nc m -> 0 < nr -> 0 < nc ->
  cast_matrix_ccs zero grt_abs p (mkM nr nc (CCS m)) = Ok (Some (mkM nr nc (CCS (mkCcs (Ap m) (Ai m) (Ax m) None)))) /\
  cast_matrix_ccs_long zero grt_abs p (mkM nr nc (CCSL m)) = Ok (Some (mkM nr nc (CCSL (mkCcs (Ap m) (Ai m) (Ax m) None)))).
Proof.
  intros V Hr Hc. split.
  - unfold cast_matrix_ccs. rewrite rowcol by assumption. cbn [row col sto]. rewrite (copy_ccs2ccs_ok zero nr nc m V). reflexivity.
  - unfold cast_matrix_ccs_long. rewrite rowcol by assumption. cbn [row col sto]. rewrite (copy_ccs2ccs_ok zero nr nc m V). reflexivity.
Qed.
Theorem dense_of_valid nr nc m : ccs_valid nr nc m -> 0 < nr -> 0 < nc ->
  exists B, cast_matrix_reg zero (mkM nr nc (CCS m)) = Ok (Some (mkM nr nc (REG B))) /\ shape nr nc B /\
    forall r c, r < nr -> c < nc -> entry zero B r c = dense zero m r c.
Proof.
  intros V Hr Hc. destruct (convert_ccs2reg_ok zero nr nc m V) as (B & E & SB & EB). exists B. split; [|auto].
  unfold cast_matrix_reg. rewrite rowcol by assumption. cbn [row col sto]. rewrite E. reflexivity.
Qed.

Lemma wrap_int_lt z : (wrap_int z <= 2147483647)%Z.
Proof. unfold wrap_int. pose proof (Z.mod_pos_bound (z + 2147483648) 4294967296 ltac:(lia)). lia. Qed.
Theorem too_many_entries p nr nc A : shape nr nc A -> 0 < nr -> 0 < nc -> (Z.of_nat nr <= 2147483648)%Z ->
  (2147483647 < Z.of_nat (count (fun x => grt_abs x (drop_limit zero p)) A))%Z ->
  exists m, cast_matrix_ccs zero grt_abs p (mkM nr nc (REG A)) = Ok (Some (mkM nr nc (CCS m))) /\ ~ ccs_valid nr nc m.
Proof.
  intros SH Hr Hc B1 B2. destruct (convert_reg2ccs_wrap zero grt_abs nr nc A (drop_limit zero p) SH B1) as (m & E & EA & EX).
  exists m. split.
  - unfold cast_matrix_ccs. rewrite rowcol by assumption. cbn [row col sto]. rewrite E. reflexivity.
  - intros V. pose proof (v_last _ _ _ V) as VL. rewrite EX in VL. unfold ap in VL. rewrite EA in VL.
    pose proof (map_nth wrap_int (aps 0 (reg_cols grt_abs (drop_limit zero p) nr nc (entry zero A))) 0%Z nc) as MN.
    change (wrap_int 0) with 0%Z in MN. rewrite MN in VL.
    pose proof (wrap_int_lt (nth nc (aps 0 (reg_cols grt_abs (drop_limit zero p) nr nc (entry zero A))) 0%Z)). lia.
Qed.

(** a full matrix with too many entries *)
Lemma too_many_exist (x lim : F) n : grt_abs x lim = true -> shape 1 n [repeat x n] /\ count (fun x => grt_abs x lim) [repeat x n] = n.
Proof.
  intros H. split.
  - split; [reflexivity|]. constructor; [apply repeat_length|constructor].
  - unfold count. cbn [concat]. rewrite app_nil_r. induction n as [|n IH]; [reflexivity|]. cbn [repeat filter]. rewrite H. cbn [length]. rewrite IH. reflexivity.
Qed.

Theorem reg_to_reg_zero nr nc A : 0 < nr -> 0 < nc ->
  cast_matrix_reg zero (mkM nr nc (REG A)) = Ok (Some (mkM nr nc (REG (repeat (repeat zero nc) nr)))).
Proof.
  intros Hr Hc. unfold cast_matrix_reg. rewrite rowcol by assumption. cbn [row col sto]. unfold copy_reg2reg.
  destruct (Nat.eqb_spec nr 0); [lia|]. destruct (Nat.eqb_spec nc 0); [lia|]. reflexivity.
Qed.

(** sums and differences *)
Theorem ccs_op_correct o f nr nc m2 m1 : ccs_op add sub o = Some f -> 0 < nr -> 0 < nc ->
  ccs_valid nr nc m2 -> ccs_valid nr nc m1 -> (Z.of_nat nr <= 2147483648)%Z ->
  (Z.of_nat (count2 (fun r c => grt_abs (f (dense zero m2 r c) (dense zero m1 r c)) zero) nr nc) <= 2147483647)%Z ->
  forall reader,
  (reader = read_plain zero /\ corner_stored nr nc m2 /\ corner_stored nr nc m1 \/
   reader = read_cg zero /\ (exists n2 m2', coarse_grain nc n2 m2' = Ok m2 /\ ccs_valid nr nc m2') /\
                            (exists n1 m1', coarse_grain nc n1 m1' = Ok m1 /\ ccs_valid nr nc m1')) ->
  exists m, CCSOpCCS zero grt_abs reader (ccs_op add sub o) nr nc m2 nr nc m1 = Ok (mkM nr nc (CCS m)) /\ ccs_valid nr nc m /\
    forall r c, r < nr -> c < nc -> dense zero m r c = kp zero (f (dense zero m2 r c) (dense zero m1 r c)).
Proof.
  intros Ho Hr Hc V2 V1 B1 B2 reader HR. rewrite Ho.
  exists (of_cols (reg_cols grt_abs zero nr nc (fun r c => f (dense zero m2 r c) (dense zero m1 r c)))).
  split; [|split; [apply reg_cols_valid|]].
  - apply ccsop_ok; try assumption. intros r c Hr' Hc'. destruct HR as [(-> & C2 & C1)|(-> & (n2 & m2' & E2 & W2) & (n1 & m1' & E1 & W1))].
    + rewrite !(read_plain_ok zero nr nc) by assumption. rewrite !(corner_no_oob nr nc) by assumption. split; reflexivity.
    + rewrite (read_cg_ok zero nr nc n2 m2' m2 r c W2 E2 Hc'), (read_cg_ok zero nr nc n1 m1' m1 r c W1 E1 Hc').
      assert (CGD : forall n m' m, coarse_grain nc n m' = Ok m -> dense zero m r c = dense zero m' r c).
      { intros n m' m E. unfold coarse_grain in E. destruct (n =? 0); [discriminate|]. destruct (_ >? _)%Z; [discriminate|].
        destruct (ofold _ _ _) as [[[a b] ii]| |]; cbn [obind] in E; try discriminate.
        destruct (rd _ _); cbn [obind] in E; try discriminate. destruct (wr b _ _); cbn [obind] in E; try discriminate.
        destruct (wr a _ _); cbn [obind] in E; try discriminate. injection E as <-. reflexivity. }
      rewrite (CGD _ _ _ E2), (CGD _ _ _ E1). split; reflexivity.
  - intros r c Hr' Hc'. rewrite reg_cols_dense by assumption. reflexivity.
Qed.
Lemma read_loop_no_abort (m : ccs F) r : forall n i, read_loop zero m r i n <> Abort.
Proof.
  induction n as [|n IH]; intros i; cbn [read_loop]; unfold rdz, rd;
    destruct (i <? 0)%Z; cbn [obind]; try discriminate; destruct (nth_error (Ai m) (Z.to_nat i)) as [a|]; cbn [obind]; try discriminate;
    destruct (a <=? r)%Z; try discriminate. destruct (a =? r)%Z; [destruct (nth_error (Ax m) (Z.to_nat i)); discriminate|apply IH].
Qed.
Lemma read_plain_no_abort (m : ccs F) r c : read_plain zero m r c <> Abort.
Proof.
  unfold read_plain, rd. destruct (nth_error (Ap m) (c + 1)); cbn [obind]; try discriminate.
  destruct (nth_error (Ap m) c); cbn [obind]; try discriminate. apply read_loop_no_abort.
Qed.
Theorem ccs_op_corner_ub o f nr nc m2 m1 : ccs_op add sub o = Some f -> 0 < nr -> 0 < nc ->
  ccs_valid nr nc m2 -> ccs_valid nr nc m1 -> ~ corner_stored nr nc m2 \/ ~ corner_stored nr nc m1 ->
  CCSOpCCS zero grt_abs (read_plain zero) (ccs_op add sub o) nr nc m2 nr nc m1 = UB.
Proof.
  intros Ho Hr Hc V2 V1 HN. rewrite Ho. apply (ccsop_ub zero grt_abs _ f nr nc m2 m1 (nr - 1) (nc - 1)); [lia|lia| |].
  - intros r c. split; apply read_plain_no_abort.
  - rewrite !(read_plain_ok zero nr nc) by (assumption || lia).
    destruct HN as [N|N]; [left|right]; rewrite (no_corner_oob nr nc) by assumption; reflexivity.
Qed.
Theorem ccs_op_refuses reader o nr nc m2 nr' nc' m1 :
  nr <> nr' \/ nc <> nc' \/ ccs_op add sub o = None ->
  CCSOpCCS zero grt_abs reader (ccs_op add sub o) nr nc m2 nr' nc' m1 = Abort.
Proof.
  intros H. unfold CCSOpCCS. destruct (Nat.eqb_spec nr nr'); [|reflexivity]. destruct (Nat.eqb_spec nc nc'); [|reflexivity].
  cbn [negb]. destruct H as [H|[H|H]]; try contradiction. rewrite H. reflexivity.
Qed.

(** stacks *)
Theorem stack_correct Ncol s : grt_abs zero zero = false -> 0 < Ncol -> stack_ok Ncol s ->
  let A := stack_rows zero Ncol s in let Nrow := list_sum (map snd s) in
  0 < Nrow -> (Z.of_nat Nrow < 2147483647)%Z -> (Z.of_nat (count (fun x => grt_abs x zero) A) <= 2147483647)%Z ->
  exists m, compress_stack2ccs zero grt_abs s Nrow Ncol = Ok (mkM Nrow Ncol (CCS m)) /\ ccs_valid Nrow Ncol m /\
    cast_matrix_reg zero (mkM Nrow Ncol (CCS m)) = Ok (Some (mkM Nrow Ncol (REG (map (map (kp zero)) A)))).
Proof.
  intros Z0 Hc HS A Nrow Hr B1 B2. exists (of_cols (reg_cols grt_abs zero Nrow Ncol (entry zero A))).
  split; [|split].
  - apply compress_stack_ok; assumption.
  - apply reg_cols_valid.
  - apply (reg_cols_reg Nrow Ncol A zero CCS); auto. apply stack_shape. assumption.
Qed.

(** everything the conversions and sums produce is valid *)
Theorem produced_valid p nr nc A m2 s x :
  shape nr nc A -> 0 < nr -> 0 < nc -> (Z.of_nat nr <= 2147483648)%Z ->
  (Z.of_nat (count (fun x => grt_abs x (drop_limit zero p)) A) <= 2147483647)%Z ->
  ccs_valid nr nc m2 ->
  (cast_matrix_ccs zero grt_abs p (mkM nr nc (REG A)) = Ok (Some x) \/
   cast_matrix_ccs zero grt_abs p (mkM nr nc (RMO (concat A))) = Ok (Some x) \/
   cast_matrix_ccs zero grt_abs p (mkM nr nc (CCS m2)) = Ok (Some x) \/
   cast_matrix_ccs_long zero grt_abs p (mkM nr nc (REG A)) = Ok (Some x) \/
   cast_matrix_ccs_long zero grt_abs p (mkM nr nc (CCSL m2)) = Ok (Some x) \/
   (grt_abs zero zero = false /\ stack_ok nc s /\ stack_rows zero nc s = A /\ list_sum (map snd s) = nr /\ (Z.of_nat nr < 2147483647)%Z /\ p = None /\
      compress_stack2ccs zero grt_abs s nr nc = Ok x)) ->
  exists m, (sto x = CCS m \/ sto x = CCSL m) /\ row x = nr /\ col x = nc /\ ccs_valid nr nc m.
Proof.
  intros SH Hr Hc B1 B2 V2 H.
  destruct (round_trip p nr nc A SH Hr Hc B1 B2) as (m & V & E1 & E2 & E3 & _ & _).
  destruct (copy_same p nr nc m2 V2 Hr Hc) as [C1 C2].
  assert (VC : ccs_valid nr nc (mkCcs (Ap m2) (Ai m2) (Ax m2) None)) by (destruct V2; constructor; assumption).
  destruct H as [H|[H|[H|[H|[H|(Z0 & SO & SR & SN & SB & -> & H)]]]]].
  - rewrite E1 in H. injection H as <-. exists m. cbn. auto.
  - rewrite E2 in H. injection H as <-. exists m. cbn. auto.
  - rewrite C1 in H. injection H as <-. eexists. split; [left; reflexivity|]. cbn. auto.
  - rewrite E3 in H. injection H as <-. exists m. cbn. auto.
  - rewrite C2 in H. injection H as <-. eexists. split; [right; reflexivity|]. cbn. auto.
  - subst A nr. destruct (stack_correct nc s Z0 Hc SO Hr SB B2) as (m' & E & V' & _). rewrite E in H. injection H as <-.
    exists m'. cbn. auto.
Qed.

(** readers *)
Theorem reader_cg nr nc m r c : ccs_valid nr nc m -> r < nr -> c < nc ->
  forall N, (Z.of_nat nc * Z.of_nat N <= 2147483647)%Z ->
  if (N =? 0) || existsb (fun c => ap m (c + 1) - ap m c <? Z.of_nat N)%Z (seq 0 nc) then coarse_grain nc N m = Abort
  else exists m', coarse_grain nc N m = Ok m' /\ read_cg zero m' r c = Ok (dense zero m r c).
Proof.
  intros V Hr Hc N HZ. destruct (Nat.eqb_spec N 0) as [->|HN]; [reflexivity|]. cbn [orb].
  destruct (existsb _ _) eqn:X.
  - apply existsb_exists in X. destruct X as (d & Hd & Ed). apply in_seq in Hd. apply Z.ltb_lt in Ed.
    apply (coarse_grain_abort nr nc N m d V); lia.
  - assert (HS : forall c, c < nc -> (Z.of_nat N <= ap m (c + 1) - ap m c)%Z).
    { intros d Hd. apply Z.nlt_ge. intros HL. rewrite <- not_true_iff_false in X. apply X. apply existsb_exists. exists d.
      split; [apply in_seq; lia|]. apply Z.ltb_lt. assumption. }
    pose proof (coarse_grain_ok nr nc N m V ltac:(lia) HZ HS) as E. eexists. split; [exact E|].
    apply (read_cg_ok zero nr nc N m _ r c V E Hc).
Qed.
Theorem reader_cg_null m r c : cg m = None -> read_cg zero m r c = UB.
Proof. intros H. unfold read_cg. rewrite H. reflexivity. Qed.

(** row major copies *)
Lemma rmo_loop nr nc A : shape nr nc A -> 0 < nc -> forall len, nr * nc <= len ->
  ofold (fun r d => ofold (fun c d => do x <- rd2 A r c; wr d (c + nc * r) x) (seq 0 nc) d) (seq 0 nr) (repeat zero len) =
    Ok (concat A ++ repeat zero (len - nr * nc)).
Proof.
  intros SH Hc len HL.
  assert (INNER : forall r, r < nr -> forall k n pre post, pre = firstn (k + nc * r) (concat A) -> k + n = nc -> length post = len - (k + nc * r) -> n <= length post ->
    exists post', ofold (fun c d => do x <- rd2 A r c; wr d (c + nc * r) x) (seq k n) (pre ++ post) = Ok (firstn (k + n + nc * r) (concat A) ++ post') /\ post' = skipn n post).
  { intros r Hr. pose proof (length_concat_rows nr nc A SH) as LC.
    intros k n; revert k. induction n as [|n IH]; intros k pre post Ep Hk Lp HP; cbn [seq ofold].
    - exists post. rewrite Nat.add_0_r, Ep. split; reflexivity.
    - rewrite (rd2_shape zero nr nc) by (assumption || lia). cbn [obind]. destruct post as [|x post]; [cbn [length] in HP; lia|].
      assert (LP : length pre = k + nc * r). { rewrite Ep. apply firstn_length_le. rewrite LC. nia. }
      replace (k + nc * r) with (length pre) by assumption. rewrite wr_app. cbn [obind].
      destruct (IH (S k) (pre ++ [entry zero A r k]) post) as (post' & E & P').
      + replace (S k + nc * r) with (k + nc * r + 1) by lia. rewrite (firstn_S_nth (concat A) zero) by (rewrite LC; nia). rewrite <- Ep.
        do 2 f_equal. symmetry. apply (flat_entry zero nr nc A); [assumption|reflexivity|assumption|lia].
      + lia.
      + cbn [length] in Lp. lia.
      + cbn [length] in HP. lia.
      + exists post'. rewrite <- app_assoc in E. cbn [app] in E. rewrite E. replace (S k + n) with (k + S n) by lia. split; [reflexivity|]. exact P'. }
  destruct (ofold_seq_inv (fun r d => exists post, d = firstn (nc * r) (concat A) ++ post /\ post = repeat zero (len - nc * r))
    (fun r d => ofold (fun c d => do x <- rd2 A r c; wr d (c + nc * r) x) (seq 0 nc) d) nr 0 (repeat zero len)) as (d & E & post & Ed & Epost).
  - intros r d Hr (post & -> & ->).
    destruct (INNER r ltac:(lia) 0 nc (firstn (nc * r) (concat A)) (repeat zero (len - nc * r)) eq_refl eq_refl) as (post' & E & P').
    + rewrite repeat_length. lia.
    + rewrite repeat_length. nia.
    + eexists. split; [exact E|]. exists post'. split; [f_equal; f_equal; lia|]. rewrite P'.
      replace (len - nc * r) with (nc + (len - nc * (r + 1))) by nia. rewrite repeat_app.
      rewrite skipn_app, repeat_length, Nat.sub_diag, skipn_all2 by (rewrite repeat_length; lia). reflexivity.
  - exists (repeat zero len). rewrite Nat.mul_0_r, Nat.sub_0_r. split; reflexivity.
  - rewrite E, Ed, Epost. cbn [Nat.add]. rewrite firstn_all2 by (rewrite (length_concat_rows nr nc A SH); lia).
    do 3 f_equal. lia.
Qed.
Theorem cast_rmo_ok nr nc A : shape nr nc A -> 0 < nr -> 0 < nc -> (Z.of_nat nr * Z.of_nat nc < 4294967296)%Z ->
  cast_matrix_rmo zero (mkM nr nc (REG A)) = Ok (Some (mkM nr nc (RMO (concat A)))).
Proof.
  intros SH Hr Hc HB. unfold cast_matrix_rmo. rewrite rowcol by assumption. cbn [row col sto].
  unfold alloc_rmo. rewrite Z.mod_small by lia. replace (Z.to_nat (Z.of_nat nr * Z.of_nat nc)) with (nr * nc) by lia.
  rewrite (rmo_loop nr nc A SH Hc (nr * nc)) by lia. rewrite Nat.sub_diag. cbn [repeat obind]. rewrite app_nil_r. reflexivity.
Qed.
Lemma wr_len {A} (l : list A) i x l' : wr l i x = Ok l' -> length l' = length l.
Proof.
  revert i l'; induction l as [|h t IH]; intros [|i] l' E; cbn [wr] in E; try discriminate.
  - injection E as <-. reflexivity.
  - destruct (wr t i x) as [t'| |] eqn:W; cbn [obind] in E; try discriminate. injection E as <-. cbn [length]. rewrite (IH _ _ W). reflexivity.
Qed.
Theorem cast_rmo_overflow nr nc A : shape nr nc A -> (4294967296 <= Z.of_nat nr * Z.of_nat nc)%Z ->
  cast_matrix_rmo zero (mkM nr nc (REG A)) = UB.
Proof.
  intros SH HB. unfold cast_matrix_rmo. rewrite rowcol by (cbn [row col]; nia). cbn [row col sto].
  set (len := Z.to_nat (Z.of_nat nr * Z.of_nat nc mod 4294967296)).
  assert (HL : len < nr * nc). { unfold len. pose proof (Z.mod_pos_bound (Z.of_nat nr * Z.of_nat nc) 4294967296 ltac:(lia)). lia. }
  (* either some write fails, or the length is preserved and the last write is out of bounds *)
  assert (ST : forall r c d, r < nr -> c < nc -> length d = len ->
     match (do x <- rd2 A r c; wr d (c + nc * r) x) with Ok d' => length d' = len | Abort => False | UB => True end).
  { intros r c d Hr Hc Ld. rewrite (rd2_shape zero nr nc) by assumption. cbn [obind].
    pose proof (wr_no_abort d (c + nc * r) (entry zero A r c)) as NA. destruct (wr d (c + nc * r) (entry zero A r c)) as [d'| |] eqn:W; [|congruence|exact I].
    rewrite (wr_len _ _ _ _ W). assumption. }
  assert (IN : forall r, r < nr -> forall n k d, k + n <= nc -> length d = len ->
     match ofold (fun c d => do x <- rd2 A r c; wr d (c + nc * r) x) (seq k n) d with Ok d' => length d' = len | Abort => False | UB => True end).
  { intros r Hr. induction n as [|n IH]; intros k d Hk Ld; cbn [seq ofold]; [assumption|].
    specialize (ST r k d Hr ltac:(lia) Ld). destruct (do x <- rd2 A r k; wr d (k + nc * r) x) as [d'| |]; cbn [obind]; try assumption.
    apply IH; [lia|assumption]. }
  assert (OUT : forall n k d, k + n <= nr -> length d = len ->
     match ofold (fun r d => ofold (fun c d => do x <- rd2 A r c; wr d (c + nc * r) x) (seq 0 nc) d) (seq k n) d with Ok d' => length d' = len | Abort => False | UB => True end).
  { induction n as [|n IH]; intros k d Hk Ld; cbn [seq ofold]; [assumption|].
    specialize (IN k ltac:(lia) nc 0 d ltac:(lia) Ld). destruct (ofold _ (seq 0 nc) d) as [d'| |]; cbn [obind]; try assumption.
    apply IH; [lia|assumption]. }
  assert (nr <> 0 /\ nc <> 0) as [Nr Nc] by nia.
  assert (SQ : forall n, n <> 0 -> seq 0 n = seq 0 (n - 1) ++ [n - 1]).
  { intros n Hn. replace n with ((n - 1) + 1) at 1 by lia. rewrite seq_app. reflexivity. }
  rewrite (SQ nr Nr), ofold_app.
  specialize (OUT (nr - 1) 0 (alloc_rmo zero nr nc) ltac:(lia) ltac:(unfold alloc_rmo; rewrite repeat_length; reflexivity)).
  destruct (ofold _ (seq 0 (nr - 1)) _) as [d| |]; cbn [obind]; [|contradiction|reflexivity].
  cbn [ofold]. rewrite (SQ nc Nc), ofold_app.
  specialize (IN (nr - 1) ltac:(lia) (nc - 1) 0 d ltac:(lia) OUT).
  destruct (ofold _ (seq 0 (nc - 1)) d) as [d'| |]; cbn [obind]; [|contradiction|reflexivity].
  cbn [ofold]. rewrite (rd2_shape zero nr nc) by (assumption || lia). cbn [obind].
  assert (W : wr d' (nc - 1 + nc * (nr - 1)) (entry zero A (nr - 1) (nc - 1)) = UB).
  { assert (K : length d' <= nc - 1 + nc * (nr - 1)) by nia. clear - K. revert K. generalize (nc - 1 + nc * (nr - 1)) as i.
    induction d' as [|h t IH]; intros i K; [reflexivity|]. cbn [length] in K. destruct i as [|i]; [lia|]. cbn [wr]. rewrite IH by lia. reflexivity. }
  rewrite W. reflexivity.
Qed.

(** products *)
Lemma strcmp_dir (a dir : str) : map tolower dir = map tolower a -> strcmp_i (Some a) (Some dir) = true.
Proof. intros E. unfold strcmp_i. apply str_eqb_eq. congruence. Qed.
Lemma strcmp_dir_not (a b dir : str) : map tolower dir = map tolower b -> map tolower a <> map tolower b -> strcmp_i (Some a) (Some dir) = false.
Proof. intros E N. unfold strcmp_i. apply str_eqb_neq. congruence. Qed.

Section Products.
Hypothesis add_0_r : forall s, add s zero = s.
Hypothesis mul_0_l : forall x, mul zero x = zero.
Hypothesis mul_0_r : forall x, mul x zero = zero.

Lemma dot_ext init f f' g g' n : (forall k, k < n -> f k = f' k /\ g k = g' k) -> dot add mul init f g n = dot add mul init f' g' n.
Proof.
  intros H. unfold dot. apply fold_left_ext_in. intros s k Hk. apply in_seq in Hk. destruct (H k ltac:(lia)) as [-> ->]. reflexivity.
Qed.

Theorem product_ab a b A B (dir : str) : repr zero a A -> repr zero b B -> same_format a b -> ~ is_rmo a ->
  0 < row a -> 0 < col a -> 0 < col b -> col a = row b ->
  map tolower dir = map tolower (S_ "a*b") ->
  exists d D, matrix_by_matrix zero add mul a b None dir = Ok d /\ row d = row a /\ col d = col b /\ sto d = REG D /\ repr zero d D /\
    forall r c, r < row a -> c < col b -> entry zero D r c = dot add mul zero (entry zero A r) (fun k => entry zero B k c) (col a).
Proof.
  intros [SA RA] [SB RB] SF NR Hr Hc Hb HD Hdir. unfold matrix_by_matrix.
  rewrite !rowcol by lia. rewrite (strcmp_dir _ _ Hdir). replace (col a =? row b) with true by (symmetry; apply Nat.eqb_eq; assumption). cbn [negb].
  unfold same_format, is_rmo in *. destruct (sto a) as [a1|a1|a1|a1|], (sto b) as [b1|b1|b1|b1|]; try contradiction.
  - subst a1 b1. rewrite <- HD in *. destruct (mm_reg_reg_ok zero add mul (row a) (col a) (col b) A B SA SB) as (D & E & SD & ED).
    rewrite E. cbn [obind]. eexists _, D. split; [reflexivity|]. cbn [row col sto]. repeat split; try (destruct SD; assumption).
  - destruct RA as [VA DA], RB as [VB DB]. rewrite <- HD in *.
    destruct (mm_ccs_ccs_ok zero add mul add_0_r mul_0_l mul_0_r (row a) (col a) (col b) a1 b1 VA VB) as (D & E & SD & ED).
    rewrite E. cbn [obind]. eexists _, D. split; [reflexivity|]. cbn [row col sto]. repeat split; try (destruct SD; assumption).
    intros r c Hr' Hc'. rewrite ED by assumption. apply dot_ext. intros k Hk. split; [apply DA|apply DB]; assumption.
Qed.

Theorem product_abt a b A B (dir : str) : repr zero a A -> repr zero b B -> same_format a b -> ~ is_ccs a ->
  0 < row a -> 0 < col a -> 0 < row b -> col a = col b ->
  map tolower dir = map tolower (S_ "a*Transpose(b)") ->
  exists d D, matrix_by_matrix zero add mul a b None dir = Ok d /\ row d = row a /\ col d = row b /\ sto d = REG D /\ repr zero d D /\
    forall r c, r < row a -> c < row b -> entry zero D r c = dot add mul zero (entry zero A r) (entry zero B c) (col a).
Proof.
  intros [SA RA] [SB RB] SF NR Hr Hc Hb HD Hdir. unfold matrix_by_matrix.
  rewrite !rowcol by lia. rewrite (strcmp_dir_not _ _ _ Hdir) by (vm_compute; discriminate). rewrite (strcmp_dir _ _ Hdir).
  replace (col a =? col b) with true by (symmetry; apply Nat.eqb_eq; assumption). cbn [negb].
  unfold same_format, is_ccs in *. rewrite <- HD in *.
  destruct (sto a) as [a1|a1|a1|a1|], (sto b) as [b1|b1|b1|b1|]; try contradiction.
  - subst a1 b1. destruct (mmt_reg_reg_ok zero add mul (row a) (col a) (row b) A B SA SB) as (D & E & SD & ED).
    rewrite E. cbn [obind]. eexists _, D. split; [reflexivity|]. cbn [row col sto]. repeat split; try (destruct SD; assumption).
  - subst a1 b1. destruct (mmt_rmo_rmo_reg_ok zero add mul (row a) (col a) (row b) A B SA SB) as (D & E & SD & ED).
    rewrite E. cbn [obind]. eexists _, D. split; [reflexivity|]. cbn [row col sto]. repeat split; try (destruct SD; assumption).
Qed.

Theorem product_abt_acc a b A B d0 D0 (dir : str) : repr zero a A -> repr zero b B -> same_format a b -> ~ is_reg a ->
  repr zero d0 D0 -> is_rmo d0 -> row d0 = row a -> col d0 = row b ->
  0 < row a -> 0 < col a -> 0 < row b -> col a = col b ->
  map tolower dir = map tolower (S_ "a*Transpose(b)") ->
  exists d D, matrix_by_matrix zero add mul a b (Some d0) dir = Ok d /\ row d = row a /\ col d = row b /\ is_rmo d /\ repr zero d D /\
    forall r c, r < row a -> c < row b -> entry zero D r c = dot add mul (entry zero D0 r c) (entry zero A r) (entry zero B c) (col a).
Proof.
  intros [SA RA] [SB RB] SF NR [SD0 RD0] IR Hd1 Hd2 Hr Hc Hb HD Hdir. unfold matrix_by_matrix.
  rewrite !rowcol by lia. rewrite (strcmp_dir_not _ _ _ Hdir) by (vm_compute; discriminate). rewrite (strcmp_dir _ _ Hdir).
  replace (col a =? col b) with true by (symmetry; apply Nat.eqb_eq; assumption). cbn [negb].
  unfold same_format, is_reg, is_rmo in *. rewrite <- HD in *. rewrite Hd1, Hd2 in SD0.
  destruct (sto d0) as [d1|d1|d1|d1|]; try contradiction. subst d1.
  destruct (sto a) as [a1|a1|a1|a1|], (sto b) as [b1|b1|b1|b1|]; try contradiction.
  - subst a1 b1. destruct (mmt_rmo_rmo_rmo_ok zero add mul (row a) (col a) (row b) A B D0 SA SB SD0) as (D & E & SD & ED).
    rewrite E. cbn [obind]. eexists _, D. split; [reflexivity|]. unfold repr. cbn [row col sto]. rewrite Hd1, Hd2. repeat split; try (destruct SD; assumption).
  - destruct RA as [VA DA], RB as [VB DB].
    destruct (mmt_ccs_ccs_rmo_ok zero add mul add_0_r mul_0_l mul_0_r (row a) (col a) (row b) a1 b1 D0 VA VB SD0) as (D & E & SD & ED).
    rewrite E. cbn [obind]. eexists _, D. split; [reflexivity|]. unfold repr. cbn [row col sto]. rewrite Hd1, Hd2. repeat split; try (destruct SD; assumption).
    intros r c Hr' Hc'. rewrite ED by assumption. apply dot_ext. intros k Hk. split; [apply DA|apply DB]; assumption.
Qed.
End Products.
End Mat.
