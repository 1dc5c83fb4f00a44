(** TextPopulate.v - populate_parameters and make_buffer: lemmas for C13-C15, C17. *)
From Verif Require Import Base ParamModel ParamText TextModel TextSpec TextProofs.
Local Arguments NUL : simpl never.
Local Arguments NL : simpl never.

Local Notation EQ := "="%char (only parsing).
Lemma EQ_NUL : EQ <> NUL. Proof. discriminate. Qed.
Lemma NL_NUL : NL <> NUL. Proof. discriminate. Qed.

(** effect of one line / of a list of lines on the database *)
Definition do_line (d : db) (a : str) : outcome db :=
  match says a with
  | Nothing => Ok d
  | NoValue => Abort
  | Assign n v => add_parameter d n (Some v)
  end.
Fixpoint do_lines (d : db) (ls : list str) : outcome db :=
  match ls with
  | [] => Ok d
  | a :: l => do d' <- do_line d a; do_lines d' l
  end.

Lemma drop_eq_run n (t : str) : hd_error t <> Some EQ -> drop_eq (repeat EQ n ++ t) = t.
Proof.
  intros H. induction n as [|n IH].
  - destruct t as [|c t]; [reflexivity|]. cbn. destruct (ascii_dec c "="%char) as [->|N]; [|reflexivity].
    exfalso. apply H. reflexivity.
  - exact IH.
Qed.
Lemma until_eq_cut b n (t : str) : ~ In EQ b -> hd_error t <> Some EQ ->
  until_eq (b ++ repeat EQ (S n) ++ t) = Some (b, t).
Proof.
  intros Hb Ht. induction b as [|c b IH].
  - cbn [List.app repeat until_eq]. destruct (ascii_dec EQ "="%char); [|congruence].
    rewrite drop_eq_run by exact Ht. reflexivity.
  - cbn [List.app until_eq]. destruct (ascii_dec c "="%char) as [->|N]; [exfalso; apply Hb; left; reflexivity|].
    rewrite IH by (intros K; apply Hb; right; exact K). reflexivity.
Qed.
Lemma until_eq_none (s : str) : ~ In EQ s -> until_eq s = None.
Proof.
  induction s as [|c s IH]; intros H; [reflexivity|]. cbn.
  destruct (ascii_dec c "="%char) as [->|N]; [exfalso; apply H; left; reflexivity|].
  rewrite IH by (intros K; apply H; right; exact K). reflexivity.
Qed.

Lemma sub_loop_S f m p save2 left pl pr : sub_loop (S f) m (Some p) save2 left pl pr =
  (let '(m', subtok', save2') := tok_s m None NL save2 in
   sub_loop f m' subtok' save2' false (if left then Some (cstr_at m p) else pl) (if left then pr else Some (cstr_at m p))).
Proof. cbn [sub_loop]. destruct (tok_s m None NL save2) as [[m' t'] s']. reflexivity. Qed.
Lemma sub_loop_None f m save2 left pl pr : sub_loop f m None save2 left pl pr = Ok (m, pl, pr).
Proof. destruct f; reflexivity. Qed.

(** the inner loop after a first token a1 at p with the rest v at save2 *)
Lemma sub_loop_two f m p a1 q v : holds m p a1 -> holds m q v -> ~ In NL v -> v <> [] ->
  sub_loop (S (S f)) m (Some p) (Some q) true None None = Ok (m, Some a1, Some v).
Proof.
  intros Ha Hv Hn Nv. rewrite sub_loop_S, (holds_cstr _ _ _ Ha).
  rewrite (tok_s_last m None NL (Some q) q v eq_refl Hv Nv Hn).
  rewrite sub_loop_S, (holds_cstr _ _ _ Hv). rewrite tok_s_none by reflexivity. apply sub_loop_None.
Qed.
Lemma sub_loop_one f m p a1 save2 : holds m p a1 ->
  (save2 = None \/ exists q, save2 = Some q /\ holds m q []) ->
  sub_loop (S f) m (Some p) save2 true None None = Ok (m, Some a1, None).
Proof.
  intros Ha Hs. rewrite sub_loop_S, (holds_cstr _ _ _ Ha).
  destruct Hs as [->|(q & -> & Hq)].
  - rewrite tok_s_none by reflexivity. apply sub_loop_None.
  - rewrite (tok_s_empty m None NL (Some q) q eq_refl Hq). apply sub_loop_None.
Qed.

(** one line *)
Definition agrees (pl pr : option str) (w : line_says) : Prop :=
  match w with
  | Nothing => pl = None
  | NoValue => pl <> None /\ pr = None
  | Assign n v => pl = Some n /\ pr = Some v
  end.
Lemma line_spec m p a : holds m p a -> ~ In NL a ->
  exists m2 pl pr,
    (let '(m1, subtok, save2) := tok_s m (Some p) EQ None in
     sub_loop (S (S (List.length m1))) m1 subtok save2 true None None) = Ok (m2, pl, pr) /\
    agrees pl pr (says a) /\
    List.length m2 = List.length m /\
    (forall k, p + List.length a <= k -> k <= List.length m -> skipn k m2 = skipn k m).
Proof.
  intros Ha Hn.
  destruct a as [|c a].
  - rewrite (tok_s_empty m (Some p) EQ None p eq_refl Ha). rewrite sub_loop_None.
    exists m, None, None. repeat split.
  - destruct (ascii_dec c EQ) as [->|Nc].
    + assert (HS : holds m (S p) a). { replace (S p) with (p + List.length [EQ]) by (cbn; lia). apply holds_split. exact Ha. }
      assert (Hn' : ~ In NL a) by (intros K; apply Hn; right; exact K).
      destruct (text_split EQ a) as [Hq|(b & n & t & -> & Hb & Ht)].
      * rewrite (tok_s_lead_last m (Some p) EQ None p a eq_refl Ha Hq).
        assert (Es : says (EQ :: a) = assign_or a a).
        { unfold says. destruct (ascii_dec EQ "="%char); [|congruence]. rewrite until_eq_none by exact Hq. reflexivity. }
        rewrite Es. destruct a as [|c' a].
        -- rewrite (sub_loop_one _ m (S p) [] (Some (S p)) HS) by (right; exists (S p); auto).
           exists m, (Some []), None. repeat split; discriminate.
        -- rewrite (sub_loop_two _ m (S p) (c' :: a) (S p) (c' :: a) HS HS Hn') by discriminate.
           eexists _, _, _. repeat split.
      * rewrite (tok_s_lead_cut m (Some p) EQ None p b n t eq_refl Ha Hb Ht).
        destruct (cut_spec m (S p) b EQ n t EQ_NUL HS) as (A & B & C & D & _).
        assert (Es : says (EQ :: b ++ repeat EQ (S n) ++ t) = assign_or b t).
        { unfold says. destruct (ascii_dec EQ "="%char); [|congruence].
          rewrite until_eq_cut by assumption. reflexivity. }
        rewrite Es. assert (Ht' : ~ In NL t). { apply not_in_app in Hn'. destruct Hn' as [_ K]. apply not_in_app in K. tauto. }
        assert (HL := holds_len _ _ _ Ha). cbn [List.length] in HL. rewrite !app_length, !repeat_length in HL.
        set (m' := zero_at _ _ _) in *.
        assert (HK : forall k, p + S (List.length (b ++ repeat EQ (S n) ++ t)) <= k -> k <= List.length m -> skipn k m' = skipn k m).
        { intros k K1 K2. rewrite !app_length, repeat_length in K1. apply zero_at_skip; lia. }
        destruct t as [|c' t].
        -- rewrite (sub_loop_one _ m' (S p) b (Some (S p + List.length b + S n)) A) by (right; eexists; eauto).
           exists m', (Some b), None. repeat split; [discriminate|exact C|exact HK].
        -- rewrite (sub_loop_two _ m' (S p) b (S p + List.length b + S n) (c' :: t) A B Ht') by discriminate.
           eexists _, _, _. repeat split; [exact C|exact HK].
    + destruct (text_split EQ (c :: a)) as [Hq|(b & n & t & E & Hb & Ht)].
      * rewrite (tok_s_last m (Some p) EQ None p (c :: a) eq_refl Ha ltac:(discriminate) Hq).
        rewrite (sub_loop_one _ m p (c :: a) None Ha) by (left; reflexivity).
        exists m, (Some (c :: a)), None. unfold says.
        destruct (ascii_dec c "="%char) as [->|_]; [exfalso; apply Nc; reflexivity|].
        rewrite until_eq_none by exact Hq. repeat split; discriminate.
      * assert (Nb : b <> []). { intros ->. cbn in E. injection E as -> _. apply Nc; reflexivity. }
        assert (Es : says (c :: a) = assign_or b t).
        { unfold says. destruct (ascii_dec c "="%char) as [->|_]; [exfalso; apply Nc; reflexivity|].
          rewrite E, until_eq_cut by assumption. reflexivity. }
        rewrite Es, E in *.
        rewrite (tok_s_cut m (Some p) EQ None p b n t eq_refl Ha Nb Hb Ht).
        destruct (cut_spec m p b EQ n t EQ_NUL Ha) as (A & B & C & D & _).
        assert (Ht' : ~ In NL t). { apply not_in_app in Hn. destruct Hn as [_ K]. apply not_in_app in K. tauto. }
        assert (HL := holds_len _ _ _ Ha). rewrite !app_length, !repeat_length in HL.
        set (m' := zero_at _ _ _) in *.
        assert (HK : forall k, p + List.length (b ++ repeat EQ (S n) ++ t) <= k -> k <= List.length m -> skipn k m' = skipn k m).
        { intros k K1 K2. rewrite !app_length, repeat_length in K1. apply zero_at_skip; lia. }
        destruct t as [|c' t].
        -- rewrite (sub_loop_one _ m' p b (Some (p + List.length b + S n)) A) by (right; eexists; eauto).
           exists m', (Some b), None. repeat split; [discriminate|exact C|exact HK].
        -- rewrite (sub_loop_two _ m' p b (p + List.length b + S n) (c' :: t) A B Ht') by discriminate.
           eexists _, _, _. repeat split; [exact C|exact HK].
Qed.

Definition add_line (d : db) (pl pr : option str) : outcome db :=
  match pl with
  | None => Ok d
  | Some l => match pr with None => Abort | Some v => add_parameter d l (Some v) end
  end.
Lemma pop_loop_S f d m p save : pop_loop (S f) d m (Some p) save =
  (do r <- (let '(m1, subtok, save2) := tok_s m (Some p) EQ None in
            sub_loop (S (S (List.length m1))) m1 subtok save2 true None None);
   let '(m2, pl, pr) := r in
   do d' <- add_line d pl pr;
   let '(m3, tok', save') := tok_s m2 None NL save in pop_loop f d' m3 tok' save').
Proof.
  cbn [pop_loop]. destruct (tok_s m (Some p) EQ None) as [[m1 st] s2].
  destruct (sub_loop _ _ _ _ _ _ _) as [[[m2 pl] pr]| |]; reflexivity.
Qed.
Lemma pop_loop_None f d m save : pop_loop f d m None save = Ok d.
Proof. destruct f; reflexivity. Qed.
Lemma add_line_agrees d pl pr a : agrees pl pr (says a) -> add_line d pl pr = do_line d a.
Proof.
  unfold agrees, add_line, do_line. destruct (says a) as [| |n v].
  - intros ->. reflexivity.
  - intros [H ->]. destruct pl; [reflexivity|congruence].
  - intros [-> ->]. reflexivity.
Qed.

Lemma pop_loop_spec : forall f d m p a save t,
  holds m p a -> ~ In NL a ->
  match save with
  | None => t = []
  | Some q => holds m q t /\ hd_error t <> Some NL /\ p + List.length a < q
  end ->
  List.length t < f ->
  pop_loop f d m (Some p) save = do_lines d (a :: segments NL t).
Proof.
  induction f as [|f IH]; intros d m p a save t Ha Hna Hs Hf; [lia|].
  rewrite pop_loop_S.
  destruct (line_spec m p a Ha Hna) as (m2 & pl & pr & -> & Hag & Hlen & Hk). cbn [obind].
  rewrite (add_line_agrees d pl pr a Hag). cbn [do_lines].
  destruct (do_line d a) as [d'| |]; [|reflexivity|reflexivity]. cbn [obind].
  destruct save as [q|].
  - destruct Hs as (Hq & Hh & Hlt).
    assert (Hq2 : holds m2 q t).
    { destruct Hq as [A [r B]]. split; [exact A|]. exists r. rewrite Hk; [exact B|lia|].
      assert (LL := holds_len m q t (conj A (ex_intro _ r B))). lia. }
    destruct t as [|c t].
    + rewrite (tok_s_empty m2 None NL (Some q) q eq_refl Hq2). apply pop_loop_None.
    + destruct (text_split NL (c :: t)) as [Hn|(b & n & t' & E & Hb & Ht')].
      * rewrite (tok_s_last m2 None NL (Some q) q (c :: t) eq_refl Hq2 ltac:(discriminate) Hn).
        cbn [List.length] in Hf.
        rewrite (IH d' m2 q (c :: t) None [] Hq2 Hn eq_refl) by (cbn; lia).
        rewrite (segments_one NL (c :: t) Hn) by discriminate. reflexivity.
      * rewrite E in *.
        assert (Nb : b <> []). { intros ->. cbn in E. injection E as -> _. cbn in Hh. congruence. }
        rewrite (tok_s_cut m2 None NL (Some q) q b n t' eq_refl Hq2 Nb Hb Ht').
        destruct (cut_spec m2 q b NL n t' NL_NUL Hq2) as (A & B & C & D & _).
        rewrite !app_length, repeat_length in Hf.
        rewrite (IH d' _ q b (Some (q + List.length b + S n)) t' A Hb).
        2:{ split; [exact B|]. split; [exact Ht'|lia]. }
        2:{ destruct b; [congruence|cbn in Hf |- *; lia]. }
        rewrite segments_cut by assumption. reflexivity.
  - subst t. rewrite tok_s_none by reflexivity. apply pop_loop_None.
Qed.

Lemma do_line_nil d : do_line d [] = Ok d.
Proof. reflexivity. Qed.

(** populate_parameters on every text except one leading newline without any further newline *)
Lemma populate_spec d s : ~ In NUL s ->
  (forall s', s = NL :: s' -> In NL s') ->
  populate_parameters d s = do_lines d (segments NL s).
Proof.
  intros Hs Hok. unfold populate_parameters. rewrite (cstr_id s Hs).
  assert (H0 := holds_init s Hs). set (m := s ++ [NUL]) in *.
  assert (Lm : List.length m = S (List.length s)) by (unfold m; rewrite app_length; cbn; lia).
  destruct s as [|c t].
  - rewrite (tok_s_empty m (Some 0) NL None 0 eq_refl H0). reflexivity.
  - destruct (ascii_dec c NL) as [->|Nc].
    + assert (HS : holds m 1 t) by (apply (holds_split m 0 [NL] t); exact H0).
      specialize (Hok t eq_refl).
      destruct (text_split NL t) as [Hn|(b & n & t' & E & Hb & Ht')]; [contradiction|].
      rewrite E in *.
      rewrite (tok_s_lead_cut m (Some 0) NL None 0 b n t' eq_refl H0 Hb Ht').
      destruct (cut_spec m 1 b NL n t' NL_NUL HS) as (A & B & _).
      rewrite (pop_loop_spec _ d _ 1 b (Some (1 + List.length b + S n)) t' A Hb).
      2:{ split; [exact B|]. split; [exact Ht'|lia]. }
      2:{ rewrite Lm. cbn [List.length]. rewrite !app_length. lia. }
      rewrite segments_lead. destruct b as [|c' b].
      * cbn [List.app]. rewrite segments_run. reflexivity.
      * rewrite segments_cut by (assumption || discriminate). reflexivity.
    + destruct (text_split NL (c :: t)) as [Hn|(b & n & t' & E & Hb & Ht')].
      * rewrite (tok_s_last m (Some 0) NL None 0 (c :: t) eq_refl H0 ltac:(discriminate) Hn).
        rewrite (pop_loop_spec _ d m 0 (c :: t) None [] H0 Hn eq_refl) by (cbn; lia).
        rewrite (segments_one NL (c :: t) Hn) by discriminate. reflexivity.
      * assert (Nb : b <> []). { intros ->. cbn in E. injection E as -> _. congruence. }
        rewrite E in *.
        rewrite (tok_s_cut m (Some 0) NL None 0 b n t' eq_refl H0 Nb Hb Ht').
        destruct (cut_spec m 0 b NL n t' NL_NUL H0) as (A & B & _).
        rewrite (pop_loop_spec _ d _ 0 b (Some (0 + List.length b + S n)) t' A Hb).
        2:{ split; [exact B|]. split; [exact Ht'|lia]. }
        2:{ rewrite Lm. rewrite !app_length. lia. }
        rewrite segments_cut by assumption. reflexivity.
Qed.

(** the excluded case: a newline and then one proper line without newline is refused *)
Lemma populate_lead_one d n v : wf_assign (n, v) ->
  forall d', populate_parameters d (NL :: n ++ EQ :: v) <> Ok d'.
Proof.
  intros (N1 & N2 & N3 & N4 & V1 & V2 & V3 & V4) d'. cbn [fst snd] in *.
  assert (Hs : ~ In NUL (NL :: n ++ EQ :: v)).
  { intros [K|K]; [discriminate|]. apply in_app_iff in K. destruct K as [K|[K|K]]; try contradiction. discriminate. }
  unfold populate_parameters. rewrite (cstr_id _ Hs).
  assert (H0 := holds_init _ Hs). set (m := (NL :: n ++ EQ :: v) ++ [NUL]) in *.
  assert (HS : holds m 1 (n ++ EQ :: v)) by (apply (holds_split m 0 [NL]); exact H0).
  assert (Hn : ~ In NL (n ++ EQ :: v)).
  { intros K. apply in_app_iff in K. destruct K as [K|[K|K]]; try contradiction. discriminate. }
  rewrite (tok_s_lead_last m (Some 0) NL None 0 _ eq_refl H0 Hn).
  rewrite pop_loop_S.
  rewrite (tok_s_cut m (Some 1) EQ None 1 n 0 v eq_refl HS N1 N2 V2).
  destruct (cut_spec m 1 n EQ 0 v EQ_NUL HS) as (A & B & C & D & _).
  set (m' := zero_at _ _ _) in *.
  rewrite (sub_loop_two _ m' 1 n (1 + List.length n + 1) v A B V3 V1). cbn [obind add_line].
  destruct (add_parameter d n (Some v)) as [d1| |]; [|discriminate|discriminate]. cbn [obind].
  rewrite (tok_s_last m' None NL (Some 1) 1 n eq_refl A N1 N3).
  rewrite pop_loop_S.
  rewrite (tok_s_last m' (Some 1) EQ None 1 n eq_refl A N1 N2).
  rewrite (sub_loop_one _ m' 1 n None A) by (left; reflexivity). cbn. discriminate.
Qed.

(** lines of a cleaned file *)
Lemma segments_app_nl a s : ~ In NL a -> segments NL (a ++ NL :: s) = (if nonempty a then [a] else []) ++ segments NL s.
Proof.
  intros H. unfold segments. rewrite pieces_app by exact H. cbn [filter]. destruct (nonempty a); reflexivity.
Qed.
Lemma says_wf n v : wf_assign (n, v) -> says (n ++ EQ :: v) = Assign n v.
Proof.
  intros (N1 & N2 & N3 & N4 & V1 & V2 & V3 & V4). cbn [fst snd] in *.
  destruct n as [|c n]; [congruence|]. unfold says. cbn [List.app].
  destruct (ascii_dec c "="%char) as [->|Nc]; [exfalso; apply N2; left; reflexivity|].
  assert (X := until_eq_cut (c :: n) 0 v N2 V2). cbn [repeat List.app] in X. rewrite X.
  destruct v; [congruence|reflexivity].
Qed.
Lemma file_segments ls : Forall (fun l => match l with Some p => wf_assign p | None => True end) ls ->
  forall d, do_lines d (segments NL (file_text ls)) =
  fold_left (fun od p => do d <- od; add_parameter d (fst p) (Some (snd p))) (assignments ls) (Ok d).
Proof.
  assert (AB : forall l (x : outcome db), x = Abort \/ x = UB -> fold_left (fun od (p : str * str) => do d <- od; add_parameter d (fst p) (Some (snd p))) l x = x).
  { induction l as [|p l IH]; intros x Hx; [reflexivity|]. cbn [fold_left]. destruct Hx as [->| ->]; apply IH; auto. }
  induction 1 as [|l ls Hl Hls IH]; intros d; [reflexivity|].
  unfold file_text. cbn [map List.concat]. fold (file_text ls).
  destruct l as [[n v]|].
  - assert (W := says_wf n v Hl). destruct Hl as (N1 & N2 & N3 & N4 & V1 & V2 & V3 & V4). cbn [fst snd] in *.
    unfold line_text. change newline with NL in *.
    assert (Hn : ~ In NL (n ++ EQ :: v)).
    { intros K. apply in_app_iff in K. destruct K as [K|[K|K]]; try contradiction. discriminate. }
    replace ((n ++ "="%char :: v ++ [NL]) ++ file_text ls) with ((n ++ EQ :: v) ++ NL :: file_text ls)
      by (rewrite <- !app_assoc; cbn; rewrite <- app_assoc; reflexivity).
    rewrite segments_app_nl by exact Hn.
    assert (Nn : nonempty (n ++ EQ :: v) = true) by (destruct n; [congruence|reflexivity]). rewrite Nn.
    cbn [List.app do_lines assignments fold_left fst snd]. unfold do_line. rewrite W. cbn [obind].
    destruct (add_parameter d n (Some v)) as [d1| |]; cbn [obind].
    + apply IH.
    + symmetry. apply AB. auto.
    + symmetry. apply AB. auto.
  - cbn [line_text assignments List.app]. change newline with NL. rewrite segments_lead. apply IH.
Qed.

(** *** make_buffer *)
Definition lossy (e : ending) : bool := match e with EComment | EJoined => true | _ => false end.
(** the buffer before END is stored, reversed: the cleaned text, and (char)EOF unless the file ends in a lossy way *)
Definition mode_state (md : mode) : option (bool * bool) := (* joined, in comment *)
  match md with
  | Outer => Some (false, false) | Comm => Some (false, true)
  | Cont => Some (true, false) | ContComm => Some (true, true)
  | Back | ContBack => None
  end.
Definition mb_result (s : str) (joined cmt : bool) (buf : str) : outcome str :=
  match clean s cmt with
  | None => Abort
  | Some t => Ok ((if lossy (file_end s joined cmt) then [] else [EOFC]) ++ rev t ++ buf)
  end.
Definition ended (md : mode) (f buf : str) : outcome str :=
  match md with
  | Outer => mb_result f false false buf
  | Comm => mb_result f false true buf
  | Cont => mb_result f true false buf
  | ContComm => mb_result f true true buf
  | Back | ContBack => match f with
                       | c :: f' => if ch_eqb c NL then mb_result f' true false buf else Abort
                       | [] => Abort
                       end
  end.
Lemma blank_same c : is_blank c = blank c.
Proof. reflexivity. Qed.
Lemma mb_result_cons s j k c (buf : str) :
  mb_result s j k (c :: buf) =
  match option_map (cons c) (clean s k) with
  | None => Abort
  | Some t => Ok ((if lossy (file_end s j k) then [] else [EOFC]) ++ rev t ++ buf)
  end.
Proof.
  unfold mb_result. destruct (clean s k) as [t|]; [|reflexivity]. cbn [option_map rev].
  rewrite <- app_assoc. reflexivity.
Qed.

Lemma mb_result_eq c s j k buf : mb_result (c :: s) j k buf =
  match clean (c :: s) k with
  | None => Abort
  | Some t => Ok ((if lossy (file_end (c :: s) j k) then [] else [EOFC]) ++ rev t ++ buf)
  end.
Proof. reflexivity. Qed.
Ltac chs := repeat match goal with H : ch_eqb _ _ = true |- _ => apply ch_eqb_eq in H end; subst.

(** with j small enough the size test never fires *)
Lemma mb_spec : forall f md buf j, (j + N.of_nat (List.length f) <= MAX_NUM_CHAR)%N ->
  mb f md buf j = ended md f buf.
Proof.
  induction f as [|c f IH]; intros md buf j Hj.
  - assert (R : forall A (k : outcome A), round_end j k = k).
    { intros A k. unfold round_end. cbn in Hj. destruct (N.ltb_spec MAX_NUM_CHAR j); [lia|reflexivity]. }
    destruct md; cbn; rewrite ?R; reflexivity.
  - assert (R : forall A (k : outcome A), round_end j k = k).
    { intros A k. unfold round_end. cbn in Hj. destruct (N.ltb_spec MAX_NUM_CHAR j); [lia|reflexivity]. }
    assert (J1 : (j + N.of_nat (List.length f) <= MAX_NUM_CHAR)%N) by (cbn [List.length] in Hj; lia).
    assert (J2 : (j + 1 + N.of_nat (List.length f) <= MAX_NUM_CHAR)%N) by (cbn [List.length] in Hj; lia).
    cbn [mb]. rewrite !R. rewrite !(fun md buf => IH md buf j J1), !(fun md buf => IH md buf (j + 1)%N J2).
    change newline with NL in *.
    destruct md; cbn [ended].
    + rewrite blank_same. rewrite mb_result_eq. cbn [clean file_end].
      change newline with NL. change backslash with BS.
      destruct (blank c) eqn:B.
      { assert (X1 : ch_eqb c NL = false) by (destruct (ch_eqb c NL) eqn:X; [chs; discriminate|reflexivity]).
        assert (X2 : ch_eqb c "#" = false) by (destruct (ch_eqb c "#") eqn:X; [chs; discriminate|reflexivity]).
        assert (X3 : ch_eqb c BS = false) by (destruct (ch_eqb c BS) eqn:X; [chs; discriminate|reflexivity]).
        rewrite X1, X2, X3. reflexivity. }
      destruct (ch_eqb c "#") eqn:H1.
      { assert (X1 : ch_eqb c NL = false) by (chs; reflexivity). rewrite X1. reflexivity. }
      destruct (ch_eqb c BS) eqn:H2.
      { assert (X1 : ch_eqb c NL = false) by (chs; reflexivity). rewrite X1.
        destruct f as [|c' f']; [reflexivity|]. change newline with NL. destruct (ch_eqb c' NL); reflexivity. }
      rewrite mb_result_cons. destruct (ch_eqb c NL); reflexivity.
    + rewrite mb_result_eq. cbn [clean file_end]. change newline with NL.
      destruct (ch_eqb c NL) eqn:H1; [|reflexivity]. rewrite mb_result_cons. reflexivity.
    + destruct (ch_eqb c NL); reflexivity.
    + rewrite mb_result_eq. cbn [clean file_end]. rewrite blank_same.
      change newline with NL. change backslash with BS.
      destruct (ch_eqb c NL) eqn:H1.
      { chs. rewrite mb_result_cons. reflexivity. }
      destruct (blank c) eqn:B.
      { assert (X2 : ch_eqb c "#" = false) by (destruct (ch_eqb c "#") eqn:X; [chs; discriminate|reflexivity]).
        assert (X3 : ch_eqb c BS = false) by (destruct (ch_eqb c BS) eqn:X; [chs; discriminate|reflexivity]).
        rewrite X2, X3. reflexivity. }
      destruct (ch_eqb c BS) eqn:H2.
      { assert (X1 : ch_eqb c "#" = false) by (chs; reflexivity). rewrite X1.
        destruct f as [|c' f']; [reflexivity|]. change newline with NL. destruct (ch_eqb c' NL); reflexivity. }
      destruct (ch_eqb c "#") eqn:H3; [reflexivity|].
      rewrite mb_result_cons. reflexivity.
    + destruct (ch_eqb c NL); reflexivity.
    + rewrite mb_result_eq. cbn [clean file_end]. change newline with NL.
      destruct (ch_eqb c NL) eqn:H1; [|reflexivity]. rewrite mb_result_cons. reflexivity.
Qed.
