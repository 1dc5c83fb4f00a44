(** IdrFiles.v - the files of the initial data reader. *)
From Verif Require Import Base ParamModel ParamText TextModel TextSpec TextProofs CheckpointModel CheckpointSpec CheckpointProofs CheckpointFinal
  IdrModel IdrSpec IdrProofs IdrFinal.

Section S.
Variable isfinite : dbl -> bool.
Variable X : Type.
Variable g : grid X.

(** how an evolution code reads the file with the macros of text_and_file_tools_lib.h: [m] blocks of a name and [np] doubles *)
Fixpoint r_vals (np : nat) (f : bytes) : outcome (list dbl * bytes) :=
  match np with O => Ok ([], f) | S k => do v <- rV f sizeof_double; do r <- r_vals k (snd v); Ok (fst v :: fst r, snd r) end.
Fixpoint r_blocks (m np : nat) (f : bytes) : outcome (list (option str * list dbl) * bytes) :=
  match m with
  | O => Ok ([], f)
  | S k => do n <- rP_str f; do v <- r_vals np (snd n); do r <- r_blocks k np (snd v); Ok ((fst n, fst v) :: fst r, snd r)
  end.
Definition read_fields_file (m np : nat) (f : bytes) : outcome (list (option str * list dbl)) :=
  do f1 <- r_title HEADER (fgets_rest 998 f);
  do r <- r_blocks m np f1;
  do f2 <- r_title FOOTER (snd r);
  do f3 <- r_title END_TXT f2;
  match f3 with [] => Ok (fst r) | _ => Abort end.
(** the whole written file: open (:439-457), the fields (:112-227), close (:460-471) *)
Definition fields_file (names : str) (ws : list (nat * X)) (fields evo : str) : outcome bytes :=
  do b <- write_fields_file isfinite X g ws fields evo; Ok (file_head names ++ b ++ file_tail).

Lemma F2_len {A B} (R : A -> B -> Prop) l l' : Forall2 R l l' -> List.length l = List.length l'.
Proof. induction 1; cbn; congruence. Qed.
Lemma fgets_line s r : ~ In NL s -> forall n, (List.length s < n)%nat -> fgets_rest n (s ++ NL :: r) = r.
Proof.
  induction s as [|c s IH]; intros H n L; (destruct n as [|n]; [cbn in L; lia|]); cbn [fgets_rest List.app].
  - destruct (ascii_dec NL NL); [reflexivity|congruence].
  - destruct (ascii_dec c NL) as [->|_]; [exfalso; apply H; left; reflexivity|]. apply IH; [intros K; apply H; right; exact K|cbn in L; lia].
Qed.
Lemma fgets_long s r : ~ In NL s -> forall n, (n <= List.length s)%nat -> fgets_rest n (s ++ r) = skipn n s ++ r.
Proof.
  induction s as [|c s IH]; intros H n L; (destruct n as [|n]; [reflexivity|]); cbn [List.length] in L; [lia|]. cbn [fgets_rest List.app skipn].
  destruct (ascii_dec c NL) as [->|_]; [exfalso; apply H; left; reflexivity|]. apply IH; [intros K; apply H; right; exact K|lia].
Qed.
Lemma r_vals_w vs f : Forall u64 vs -> r_vals (List.length vs) (List.concat (map wV_dbl vs) ++ f) = Ok (vs, f).
Proof.
  induction 1 as [|v vs Hv H IH]; cbn [List.length r_vals map List.concat]; [reflexivity|]. rewrite <- app_assoc, (rV_dbl v _ Hv). cbn [obind fst snd]. rewrite IH. reflexivity.
Qed.
Hypothesis range : forall p k x, (g_interp X g p k x < 2 ^ 64)%N.
Lemma values_u64 n ws vs : Forall2 (value_at X g n) ws vs -> Forall u64 vs.
Proof. induction 1 as [|w v ws vs H F IH]; constructor; [destruct H as (l & k & _ & _ & ->); apply range|exact IH]. Qed.

Definition block (ws : list (nat * X)) (n : str) (o : option str) (b : option str * list dbl) : Prop :=
  fst b = o /\ Forall2 (value_at X g n) ws (snd b) /\ Forall (fun v => isfinite v = true) (snd b).
Lemma write_loop_read ws : forall ns es f b, write_loop isfinite X g f ns es ws = Ok b -> Forall (fun e => str_ok (Some e)) es ->
  exists bl, (forall rest, r_blocks (List.length ns) (List.length ws) (b ++ rest) = Ok (bl, rest)) /\
  (List.length bl = List.length ns) /\
  forall j n x, nth_error ns j = Some n -> nth_error bl j = Some x -> block ws n (nth_error es (f + j)) x.
Proof.
  induction ns as [|n ns IH]; intros es f b H Ok_; cbn [write_loop] in H.
  - injection H as <-. exists []. split; [reflexivity|]. split; [reflexivity|]. intros [|j]; discriminate.
  - destruct (Nat.ltb (List.length es) f) eqn:L; [discriminate|].
    destruct (values X g n ws) as [vs| |] eqn:Ev; cbn [obind] in H; try discriminate. apply values_ok in Ev.
    destruct (forallb isfinite vs) eqn:Fin; [|discriminate]. apply forallb_Forall in Fin.
    destruct (write_loop isfinite X g (S f) ns es ws) as [b'| |] eqn:Eb; cbn [obind] in H; try discriminate. injection H as <-.
    destruct (IH es (S f) b' Eb Ok_) as (bl & R & Len & B). exists ((nth_error es f, vs) :: bl). split; [|split].
    + intros rest. cbn [List.length r_blocks]. rewrite <- !app_assoc. rewrite rP_str_wP.
      2:{ destruct (nth_error es f) as [e|] eqn:Ee; [|exact I]. rewrite Forall_forall in Ok_. apply Ok_. eapply nth_error_In. exact Ee. }
      cbn [obind fst snd]. rewrite (F2_len _ _ _ Ev). rewrite r_vals_w by (eapply values_u64; exact Ev). cbn [obind fst snd].
      rewrite <- (F2_len _ _ _ Ev), R. reflexivity.
    + cbn. rewrite Len. reflexivity.
    + intros [|j] m x Em Ex; cbn [nth_error] in Em, Ex.
      * injection Em as <-. injection Ex as <-. rewrite Nat.add_0_r. repeat split; assumption.
      * replace (f + S j)%nat with (S f + j)%nat by lia. apply (B j m x Em Ex).
Qed.
Lemma heads_ok : str_ok (Some HEADER) /\ str_ok (Some FOOTER) /\ str_ok (Some END_TXT).
Proof. repeat split; try (apply noNUL_dec; reflexivity); cbn; lia. Qed.
Lemma write_unfold ws ns es : ns <> [] -> es <> [] -> Forall item ns -> Forall item es ->
  write_fields_file isfinite X g ws (join_with ","%char ns) (join_with ","%char es) =
  (do _ <- all_patches X g (List.length (g_patches X g)) ns; do b <- write_loop isfinite X g 0 ns es ws; Ok b).
Proof.
  intros N1 N2 I1 I2. unfold write_fields_file. rewrite (items_list ns N1 I1). cbn [obind]. rewrite (items_list es N2 I2). cbn [obind].
  destruct ns; [congruence|]. destruct es; [congruence|]. reflexivity.
Qed.
Lemma fields_file_read names ws ns es b : ns <> [] -> es <> [] -> Forall item ns -> Forall item es ->
  Forall (fun e => (N.of_nat (S (List.length e)) < 2 ^ 32)%N) es ->
  ~ In NL names -> (List.length names <= 966)%nat ->
  fields_file names ws (join_with ","%char ns) (join_with ","%char es) = Ok b ->
  exists bl, read_fields_file (List.length ns) (List.length ws) b = Ok bl /\ (List.length bl = List.length ns) /\
  forall j n x, nth_error ns j = Some n -> nth_error bl j = Some x ->
    fst x = nth_error es j /\ Forall2 (value_at X g n) ws (snd x) /\ Forall (fun v => isfinite v = true) (snd x).
Proof.
  intros N1 N2 I1 I2 Len HN HL H. unfold fields_file in H. rewrite (write_unfold ws ns es N1 N2 I1 I2) in H.
  destruct (all_patches X g (List.length (g_patches X g)) ns) as [[]| |]; cbn [obind] in H; try discriminate.
  destruct (write_loop isfinite X g 0 ns es ws) as [w| |] eqn:Ew; cbn [obind] in H; try discriminate.
  assert (Eb : b = file_head names ++ w ++ file_tail) by congruence. subst b.
  destruct (write_loop_read ws ns es 0 w Ew) as (bl & R & L & B).
  { rewrite Forall_forall in *. intros e Ie. split; [apply (I2 e Ie)|apply (Len e Ie)]. }
  exists bl. destruct heads_ok as (T1 & T2 & T3). split; [|split; [exact L|exact B]].
  unfold read_fields_file, file_head. rewrite <- !app_assoc. rewrite (app_assoc (S_ "# this file contains values of ") names). cbn [List.app]. cbv beta.
  rewrite fgets_line.
  - rewrite (r_title_w HEADER _ T1). cbn [obind]. rewrite R. cbn [obind fst snd]. unfold file_tail. rewrite (r_title_w FOOTER _ T2). cbn [obind].
    rewrite <- (app_nil_r (wP_str (Some END_TXT))), (r_title_w END_TXT _ T3). reflexivity.
  - intros K. apply in_app_iff in K. destruct K as [K|K]; [revert K; apply notin_dec; reflexivity|contradiction].
  - rewrite app_length. change (List.length (S_ "# this file contains values of ")) with 31%nat. lia.
Qed.

(** *** the file of coordinates *)
Definition w_point (x : point) : bytes := wV_dbl (fst (fst x)) ++ wV_dbl (snd (fst x)) ++ wV_dbl (snd x).
Definition coords_file (line : str) (xs : list point) : bytes :=
  line ++ [NL] ++ wP_str (Some HEADER) ++ wV_uint (N.of_nat (List.length xs)) ++ List.concat (map w_point xs) ++ wP_str (Some FOOTER).
Definition dbl_point (x : point) : Prop := (fst (fst x) < 2 ^ 64)%N /\ (snd (fst x) < 2 ^ 64)%N /\ (snd x < 2 ^ 64)%N.
Definition fin_point (x : point) : Prop := isfinite (fst (fst x)) = true /\ isfinite (snd (fst x)) = true /\ isfinite (snd x) = true.
Lemma r_coords_w xs rest : Forall dbl_point xs -> Forall fin_point xs ->
  r_coords isfinite (List.length xs) (List.concat (map w_point xs) ++ rest) = Ok (xs, rest).
Proof.
  induction 1 as [|x xs Hx H IH]; intros F; cbn [List.length r_coords map List.concat]; [reflexivity|].
  inversion F as [|? ? Fx Fs]; subst. destruct x as [[x y] z]. destruct Hx as (H1 & H2 & H3). destruct Fx as (F1 & F2 & F3). cbn [fst snd] in *.
  change (w_point (x, y, z)) with (wV_dbl x ++ wV_dbl y ++ wV_dbl z). rewrite <- !app_assoc.
  rewrite (rV_dbl x _ H1). cbn [obind fst snd]. rewrite F1. cbn [negb].
  rewrite (rV_dbl y _ H2). cbn [obind fst snd]. rewrite F2. cbn [negb].
  rewrite (rV_dbl z _ H3). cbn [obind fst snd]. rewrite F3. cbn [negb].
  rewrite (IH Fs). reflexivity.
Qed.
Lemma r_coords_bad xs rest : Forall dbl_point xs -> ~ Forall fin_point xs ->
  r_coords isfinite (List.length xs) (List.concat (map w_point xs) ++ rest) = Abort.
Proof.
  induction 1 as [|x xs Hx H IH]; intros F; cbn [List.length r_coords map List.concat]; [exfalso; apply F; constructor|].
  destruct x as [[x y] z]. destruct Hx as (H1 & H2 & H3). cbn [fst snd] in *.
  change (w_point (x, y, z)) with (wV_dbl x ++ wV_dbl y ++ wV_dbl z). rewrite <- !app_assoc.
  rewrite (rV_dbl x _ H1). cbn [obind fst snd]. destruct (isfinite x) eqn:F1; cbn [negb]; [|reflexivity].
  rewrite (rV_dbl y _ H2). cbn [obind fst snd]. destruct (isfinite y) eqn:F2; cbn [negb]; [|reflexivity].
  rewrite (rV_dbl z _ H3). cbn [obind fst snd]. destruct (isfinite z) eqn:F3; cbn [negb]; [|reflexivity].
  rewrite IH; [reflexivity|]. intros K. apply F. constructor; [repeat split; assumption|exact K].
Qed.
Lemma locate_ok : forall xs ws, locate_all X g xs = Ok ws <-> Forall2 (fun x w => g_locate X g x = Some w) xs ws.
Proof.
  induction xs as [|x xs IH]; intros ws; cbn [locate_all].
  - split; [intros H; injection H as <-; constructor|intros H; inversion H; reflexivity].
  - destruct (g_locate X g x) as [w|] eqn:E.
    + destruct (locate_all X g xs) as [l| |]; cbn [obind].
      * split; [intros H; injection H as <-; constructor; [exact E|apply IH; reflexivity]|].
        intros H; inversion H; subst. assert (L := proj2 (IH _) H4). congruence.
      * split; [discriminate|]. intros H; inversion H; subst. assert (L := proj2 (IH _) H4). discriminate.
      * split; [discriminate|]. intros H; inversion H; subst. assert (L := proj2 (IH _) H4). discriminate.
    + split; [discriminate|]. intros H; inversion H; subst. congruence.
Qed.
Lemma locate_cases xs : (exists ws, locate_all X g xs = Ok ws) \/ (exists x, In x xs /\ g_locate X g x = None) /\ locate_all X g xs = Abort.
Proof.
  induction xs as [|x xs IH]; cbn [locate_all]; [left; eexists; reflexivity|]. destruct (g_locate X g x) as [w|] eqn:E.
  - destruct IH as [(ws & ->)|((y & I & F) & Q)]; [left; eexists; reflexivity|]. right. split; [exists y; split; [right; exact I|exact F]|rewrite Q; reflexivity].
  - right. split; [exists x; split; [left; reflexivity|exact E]|reflexivity].
Qed.
Definition writable (line : str) (xs : list point) : Prop :=
  ~ In NL line /\ (List.length line <= 997)%nat /\ (N.of_nat (List.length xs) < 2 ^ 32)%N /\ Forall dbl_point xs.
Lemma load_unfold line xs rest : writable line xs ->
  load_coordinates isfinite X g (coords_file line xs ++ rest) =
  (do r <- r_coords isfinite (List.length xs) (List.concat (map w_point xs) ++ wP_str (Some FOOTER) ++ rest);
   do _ <- r_title FOOTER (snd r); do ws <- locate_all X g (fst r); Ok (fst r, ws)).
Proof.
  intros (H1 & H2 & H3 & H4). destruct heads_ok as (T1 & T2 & _).
  unfold load_coordinates, coords_file. rewrite <- !app_assoc. cbn [List.app].
  rewrite fgets_line by (assumption || lia). rewrite (r_title_w HEADER _ T1). cbn [obind].
  rewrite (rV_uint _ _ H3). cbn [obind fst snd]. rewrite Nnat.Nat2N.id. reflexivity.
Qed.
Lemma fin_dec xs : Forall fin_point xs \/ ~ Forall fin_point xs.
Proof.
  induction xs as [|x xs IH]; [left; constructor|]. destruct x as [[x y] z].
  destruct (isfinite x) eqn:E1; [|right; intros K; inversion K as [|? ? (Q & _)]; cbn in Q; congruence].
  destruct (isfinite y) eqn:E2; [|right; intros K; inversion K as [|? ? (_ & Q & _)]; cbn in Q; congruence].
  destruct (isfinite z) eqn:E3; [|right; intros K; inversion K as [|? ? (_ & _ & Q)]; cbn in Q; congruence].
  destruct IH as [IH|IH]; [left; constructor; [repeat split; assumption|exact IH]|right; intros K; inversion K; contradiction].
Qed.
Lemma load_ok line xs rest : writable line xs ->
  (forall ws, load_coordinates isfinite X g (coords_file line xs ++ rest) = Ok (xs, ws) <->
     Forall fin_point xs /\ Forall2 (fun x w => g_locate X g x = Some w) xs ws) /\
  (forall r, load_coordinates isfinite X g (coords_file line xs ++ rest) = Ok r -> fst r = xs) /\
  (~ Forall fin_point xs -> load_coordinates isfinite X g (coords_file line xs ++ rest) = Abort) /\
  (forall x, In x xs -> g_locate X g x = None -> load_coordinates isfinite X g (coords_file line xs ++ rest) = Abort).
Proof.
  intros W. rewrite (load_unfold line xs rest W). destruct W as (H1 & H2 & H3 & H4). destruct heads_ok as (T1 & T2 & _).
  assert (D := fin_dec xs).
  destruct D as [D|D].
  - rewrite (r_coords_w xs _ H4 D). cbn [obind fst snd]. rewrite (r_title_w FOOTER _ T2). cbn [obind].
    split; [|split; [|split]].
    + intros ws. destruct (locate_all X g xs) as [l| |] eqn:E; cbn [obind].
      * split; [intros K; injection K as <-; split; [exact D|apply locate_ok; exact E]|]. intros [_ K]. apply locate_ok in K. congruence.
      * split; [discriminate|]. intros [_ K]. apply locate_ok in K. congruence.
      * split; [discriminate|]. intros [_ K]. apply locate_ok in K. congruence.
    + intros r. destruct (locate_all X g xs); cbn [obind]; intros K; try discriminate. injection K as <-. reflexivity.
    + intros K. contradiction.
    + intros x I E. destruct (locate_cases xs) as [(ws & Q)|(_ & Q)]; rewrite Q; [|reflexivity].
      exfalso. apply locate_ok in Q. clear -Q I E. induction Q; [destruct I|]. destruct I as [->|I]; [congruence|]. apply IHQ. exact I.
  - rewrite (r_coords_bad xs _ H4 D). cbn [obind]. split; [|split; [|split]]; try reflexivity.
    + intros ws. split; [discriminate|]. intros [K _]. contradiction.
    + discriminate.
Qed.
(** a wrong title *)
Lemma load_wrong_title line t rest : ~ In NL line -> (List.length line <= 997)%nat -> str_ok (Some t) -> t <> HEADER ->
  load_coordinates isfinite X g (line ++ [NL] ++ wP_str (Some t) ++ rest) = Abort.
Proof.
  intros H1 H2 H3 H4. unfold load_coordinates. cbn [List.app]. rewrite fgets_line by (assumption || lia).
  unfold r_title at 1. rewrite (rP_str_wP (Some t) _ H3). cbn [obind fst snd]. rewrite (proj2 (str_eqb_neq t HEADER) H4). reflexivity.
Qed.
Lemma load_wrong_footer line xs t rest : writable line xs -> str_ok (Some t) -> t <> FOOTER ->
  load_coordinates isfinite X g (line ++ [NL] ++ wP_str (Some HEADER) ++ wV_uint (N.of_nat (List.length xs)) ++ List.concat (map w_point xs) ++ wP_str (Some t) ++ rest) = Abort.
Proof.
  intros (H1 & H2 & H3 & H4) T N. destruct heads_ok as (T1 & _).
  unfold load_coordinates. cbn [List.app]. rewrite fgets_line by (assumption || lia). rewrite (r_title_w HEADER _ T1). cbn [obind].
  rewrite (rV_uint _ _ H3). cbn [obind fst snd]. rewrite Nnat.Nat2N.id.
  destruct (r_coords isfinite (List.length xs) (List.concat (map w_point xs) ++ wP_str (Some t) ++ rest)) as [[ys f]| |] eqn:E; cbn [obind fst snd].
  - destruct (fin_dec xs) as [D|D]; [|rewrite (r_coords_bad xs _ H4 D) in E; discriminate].
    rewrite (r_coords_w xs _ H4 D) in E. assert (f = wP_str (Some t) ++ rest) by congruence. subst f.
    unfold r_title. rewrite (rP_str_wP (Some t) _ T). cbn [obind fst snd]. rewrite (proj2 (str_eqb_neq t FOOTER) N). reflexivity.
  - reflexivity.
  - exfalso. destruct (fin_dec xs) as [D|D]; [rewrite (r_coords_w xs _ H4 D) in E|rewrite (r_coords_bad xs _ H4 D) in E]; discriminate.
Qed.
(** a first line of 998 characters: its newline is taken for the first byte of the binary part *)
Lemma rP_str_NUL n rest : u32 n -> (0 < n)%N -> exists f, rP_str (le 4 n ++ NUL :: rest) = Ok (Some [], f).
Proof.
  intros U P. unfold rP_str, rP_block. rewrite (rSize_le n _ U). cbn [obind].
  destruct (N.eqb_spec n 0) as [->|_]; [lia|]. unfold fread. cbv zeta.
  assert (K : exists k, Nat.min (N.to_nat n) (List.length (NUL :: rest) / 1) = S k).
  { rewrite Nat.div_1_r. cbn [List.length]. destruct (Nat.min (N.to_nat n) (S (List.length rest))) eqn:E; [lia|eauto]. }
  destruct K as (k & ->). cbn [seq map Nat.mul skipn firstn]. set (l := map _ (seq 1 k)).
  cbn [obind List.app List.concat]. cbv zeta. set (u := List.concat _).
  destruct (in_dec ascii_dec NUL (NUL :: u)) as [_|N]; [|exfalso; apply N; left; reflexivity].
  eexists. reflexivity.
Qed.
Lemma load_long line xs rest : ~ In NL line -> List.length line = 998%nat -> load_coordinates isfinite X g (coords_file line xs ++ rest) = Abort.
Proof.
  intros H1 H2. unfold load_coordinates, coords_file. rewrite <- app_assoc. rewrite (fgets_long line _ H1 998) by lia.
  rewrite <- H2, skipn_all. rewrite <- !app_assoc.
  match goal with |- context [wP_str (Some HEADER) ++ ?t] => generalize t; intros T end.
  assert (E : exists r, [] ++ [NL] ++ wP_str (Some HEADER) ++ T = le 4 (10 + 256 * 8) ++ NUL :: r).
  { eexists. cbn [List.app le sizeof_uint wP_str]. reflexivity. }
  destruct E as (r & ->). unfold r_title at 1. destruct (rP_str_NUL (10 + 256 * 8) r) as (f & ->); [unfold u32; lia|lia|]. reflexivity.
Qed.
End S.
