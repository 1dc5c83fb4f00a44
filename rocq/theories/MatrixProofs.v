(** MatrixProofs.v - lemmas on MatrixModel. *)
From Verif Require Import Base TextModel MatrixModel MatrixSpec.
Local Open Scope nat_scope.
Notation concat := List.concat.
Notation length := List.length.

(** ** arrays and loops *)
Lemma rd_ok {A} (l : list A) i x : nth_error l i = Some x -> rd l i = Ok x.
Proof. intros H. unfold rd. rewrite H. reflexivity. Qed.
Lemma rd_nth {A} (l : list A) i d : i < length l -> rd l i = Ok (nth i l d).
Proof. intros H. apply rd_ok. apply nth_error_nth'. assumption. Qed.
Lemma rd_ub {A} (l : list A) i : length l <= i -> rd l i = UB.
Proof. intros H. unfold rd. apply nth_error_None in H. rewrite H. reflexivity. Qed.
Lemma rdz_nth {A} (l : list A) z d : (0 <= z < Z.of_nat (length l))%Z -> rdz l z = Ok (nth (Z.to_nat z) l d).
Proof. intros H. unfold rdz. destruct (Z.ltb_spec z 0); [lia|]. apply rd_nth. lia. Qed.
Lemma wr_app {A} (l1 l2 : list A) x y : wr (l1 ++ x :: l2) (length l1) y = Ok (l1 ++ y :: l2).
Proof. induction l1 as [|h t IH]; cbn [wr app length]; [reflexivity|]. rewrite IH. reflexivity. Qed.
Lemma wr_spec {A} (l : list A) i x : i < length l ->
  exists l', wr l i x = Ok l' /\ length l' = length l /\
    (forall d j, nth j l' d = if j =? i then x else nth j l d).
Proof.
  revert i; induction l as [|h t IH]; intros i H; cbn [length] in H; [lia|].
  destruct i as [|i]; cbn [wr].
  - exists (x :: t). split; [reflexivity|]. split; [reflexivity|]. intros d [|j]; reflexivity.
  - destruct (IH i ltac:(lia)) as (t' & E & L & N). rewrite E. cbn [obind].
    exists (h :: t'). split; [reflexivity|]. split; [cbn [length]; lia|].
    intros d [|j]; cbn [nth]; [reflexivity|]. rewrite N. reflexivity.
Qed.
Lemma wrz_spec {A} (l : list A) z x : (0 <= z < Z.of_nat (length l))%Z ->
  exists l', wrz l z x = Ok l' /\ length l' = length l /\
    (forall d j, nth j l' d = if j =? Z.to_nat z then x else nth j l d).
Proof. intros H. unfold wrz. destruct (Z.ltb_spec z 0); [lia|]. apply wr_spec. lia. Qed.

Lemma ofold_app {I S} (f : I -> S -> outcome S) l1 l2 s :
  ofold f (l1 ++ l2) s = obind (ofold f l1 s) (ofold f l2).
Proof.
  revert s; induction l1 as [|i l1 IH]; intros s; cbn [ofold app]; [reflexivity|].
  destruct (f i s); cbn [obind]; auto.
Qed.
Lemma ofold_ext {I S} (f g : I -> S -> outcome S) l :
  (forall i s, In i l -> f i s = g i s) -> forall s, ofold f l s = ofold g l s.
Proof.
  induction l as [|i l IH]; intros H s; cbn [ofold]; [reflexivity|].
  rewrite (H i s) by (left; reflexivity). destruct (g i s); cbn [obind]; auto.
  apply IH. intros j t Hj. apply H. right; assumption.
Qed.
Lemma ofold_map {I J S} (f : I -> S -> outcome S) (h : J -> I) l s :
  ofold f (map h l) s = ofold (fun j => f (h j)) l s.
Proof. revert s; induction l as [|j l IH]; intros s; cbn [ofold map]; [reflexivity|]. destruct (f (h j) s); cbn [obind]; auto. Qed.
(** a loop whose every round succeeds is a fold *)
Lemma ofold_pure {I S} (f : I -> S -> outcome S) (g : I -> S -> S) l s :
  (forall i s, In i l -> f i s = Ok (g i s)) -> ofold f l s = Ok (fold_left (fun s i => g i s) l s).
Proof.
  revert s; induction l as [|i l IH]; intros s H; cbn [ofold fold_left]; [reflexivity|].
  rewrite H by (left; reflexivity). cbn [obind]. apply IH. intros j t Hj. apply H. right; assumption.
Qed.
(** invariant rule for loops *)
Lemma ofold_inv {I S} (P : S -> Prop) (f : I -> S -> outcome S) l :
  (forall i s, In i l -> P s -> exists s', f i s = Ok s' /\ P s') ->
  forall s, P s -> exists s', ofold f l s = Ok s' /\ P s'.
Proof.
  induction l as [|i l IH]; intros H s Hs; cbn [ofold]; [exists s; split; [reflexivity|assumption]|].
  destruct (H i s (or_introl eq_refl) Hs) as (s' & E & Hs'). rewrite E. cbn [obind].
  apply IH; [|assumption]. intros j t Hj. apply H. right; assumption.
Qed.
(** invariant with the index, over seq *)
Lemma ofold_seq_inv {S} (P : nat -> S -> Prop) (f : nat -> S -> outcome S) n :
  forall k s, (forall i s, k <= i < k + n -> P i s -> exists s', f i s = Ok s' /\ P (i + 1) s') ->
  P k s -> exists s', ofold f (seq k n) s = Ok s' /\ P (k + n) s'.
Proof.
  induction n as [|n IH]; intros k s H Hs; cbn [seq ofold].
  - exists s. rewrite Nat.add_0_r. split; [reflexivity|assumption].
  - destruct (H k s ltac:(lia) Hs) as (s' & E & Hs'). rewrite E. cbn [obind].
    replace (k + Datatypes.S n) with (Datatypes.S k + n) by lia. apply IH.
    + intros i t Hi. apply H. lia.
    + rewrite <- Nat.add_1_r. assumption.
Qed.

Lemma zrange_nil lo hi : (hi <= lo)%Z -> zrange lo hi = [].
Proof. intros H. unfold zrange. replace (Z.to_nat (hi - lo)) with 0 by lia. reflexivity. Qed.
Lemma zrange_cons lo hi : (lo < hi)%Z -> zrange lo hi = lo :: zrange (lo + 1) hi.
Proof.
  intros H. unfold zrange. replace (Z.to_nat (hi - lo)) with (S (Z.to_nat (hi - (lo + 1)))) by lia.
  cbn [seq map]. f_equal; [lia|]. rewrite <- seq_shift, map_map. apply map_ext. intros k. lia.
Qed.
Lemma in_zrange i lo hi : In i (zrange lo hi) <-> (lo <= i < hi)%Z.
Proof.
  unfold zrange. rewrite in_map_iff. split.
  - intros (k & <- & Hk). apply in_seq in Hk. lia.
  - intros H. exists (Z.to_nat (i - lo)). split; [lia|]. apply in_seq. lia.
Qed.
(** a loop over the positions of a block of an array is a loop over the block *)
Lemma ofold_zrange {B S} (g : Z -> S -> outcome S) (h : B -> S -> outcome S) (l : list B) :
  forall off s, (forall k p s, nth_error l k = Some p -> g (off + Z.of_nat k)%Z s = h p s) ->
  ofold g (zrange off (off + Z.of_nat (length l))) s = ofold h l s.
Proof.
  induction l as [|p l IH]; intros off s H.
  - rewrite zrange_nil by (cbn; lia). reflexivity.
  - rewrite zrange_cons by (cbn [length]; lia). cbn [ofold].
    rewrite <- (H 0 p s eq_refl). replace (off + Z.of_nat 0)%Z with off by lia.
    destruct (g off s) as [t| |]; cbn [obind]; try reflexivity.
    replace (off + Z.of_nat (length (p :: l)))%Z with (off + 1 + Z.of_nat (length l))%Z by (cbn [length]; lia).
    apply IH. intros k q u Hk. rewrite <- (H (Datatypes.S k) q u) by assumption. f_equal. lia.
Qed.

Section Mat.
Context {F : Type} (zero : F).
Notation colT := (list (Z * F)).

(** ** column view *)
Fixpoint aps (off : Z) (cols : list colT) : list Z :=
  off :: match cols with [] => [] | c :: t => aps (off + Z.of_nat (length c)) t end.
Definition of_cols (cols : list colT) : ccs F :=
  mkCcs (aps 0 cols) (map fst (concat cols)) (map snd (concat cols)) None.

Lemma aps_length off cols : length (aps off cols) = length cols + 1.
Proof. revert off; induction cols as [|c t IH]; intros off; cbn [aps length]; [reflexivity|]. rewrite IH. reflexivity. Qed.
Lemma aps_snoc off cols c : aps off (cols ++ [c]) = aps off cols ++ [(off + Z.of_nat (length (concat cols)) + Z.of_nat (length c))%Z].
Proof.
  revert off; induction cols as [|d t IH]; intros off; cbn [aps app].
  - cbn [concat length]. rewrite Z.add_0_r. reflexivity.
  - rewrite IH. cbn [concat app]. rewrite app_length, Nat2Z.inj_add, Z.add_assoc. reflexivity.
Qed.
Lemma aps_nth off cols c : c <= length cols -> nth_error (aps off cols) c = Some (off + Z.of_nat (length (concat (firstn c cols))))%Z.
Proof.
  revert off c; induction cols as [|d t IH]; intros off [|c] H; cbn [length] in H; try lia.
  - cbn. f_equal. lia.
  - cbn. f_equal. lia.
  - cbn [aps nth_error]. rewrite IH by lia. cbn [firstn concat]. rewrite app_length. f_equal. lia.
Qed.

(** column c of m occupies positions off, off+1, ... and holds the pairs of col *)
Record has_col (m : ccs F) (c : nat) (off : Z) (col : colT) : Prop := {
  hc_pos : (0 <= off)%Z;
  hc_lo : nth_error (Ap m) c = Some off;
  hc_hi : nth_error (Ap m) (c + 1) = Some (off + Z.of_nat (length col))%Z;
  hc_ent : forall k p, nth_error col k = Some p ->
     nth_error (Ai m) (Z.to_nat off + k) = Some (fst p) /\ nth_error (Ax m) (Z.to_nat off + k) = Some (snd p) }.
Definition col_ok (nr : nat) (col : colT) : Prop :=
  (forall k p, nth_error col k = Some p -> (0 <= fst p < Z.of_nat nr)%Z) /\
  (forall k p q, nth_error col k = Some p -> nth_error col (k + 1) = Some q -> (fst p < fst q)%Z).

Lemma hc_rd m c off col k p : has_col m c off col -> nth_error col k = Some p ->
  rdz (Ai m) (off + Z.of_nat k) = Ok (fst p) /\ rdz (Ax m) (off + Z.of_nat k) = Ok (snd p).
Proof.
  intros H Hk. destruct (hc_ent _ _ _ _ H _ _ Hk) as [H1 H2]. pose proof (hc_pos _ _ _ _ H).
  unfold rdz. destruct (Z.ltb_spec (off + Z.of_nat k) 0); [lia|].
  replace (Z.to_nat (off + Z.of_nat k)) with (Z.to_nat off + k) by lia.
  split; apply rd_ok; assumption.
Qed.
Lemma hc_rdlo m c off col : has_col m c off col -> rd (Ap m) c = Ok off.
Proof. intros H. apply rd_ok. apply (hc_lo _ _ _ _ H). Qed.
Lemma hc_rdhi m c off col : has_col m c off col -> rd (Ap m) (c + 1) = Ok (off + Z.of_nat (length col))%Z.
Proof. intros H. apply rd_ok. apply (hc_hi _ _ _ _ H). Qed.

Lemma of_cols_has cols c col : nth_error cols c = Some col ->
  has_col (of_cols cols) c (Z.of_nat (length (concat (firstn c cols)))) col.
Proof.
  intros H. assert (Hc : c < length cols) by (apply nth_error_Some; congruence).
  assert (E : cols = firstn c cols ++ col :: skipn (c + 1) cols).
  { rewrite <- (firstn_skipn c cols) at 1. f_equal. clear Hc. revert c H.
    induction cols as [|d t IH]; intros [|c] H; try discriminate; cbn in *; [congruence|]. apply IH. assumption. }
  constructor; cbn [of_cols Ap Ai Ax].
  - lia.
  - rewrite aps_nth by lia. f_equal.
  - rewrite aps_nth by lia. f_equal.
    assert (E2 : firstn (c + 1) cols = firstn c cols ++ [col]).
    { rewrite E at 1. rewrite firstn_app. rewrite firstn_length_le by lia.
      replace (c + 1 - c) with 1 by lia. cbn [firstn]. rewrite firstn_all2; [reflexivity|].
      rewrite firstn_length_le; lia. }
    rewrite E2, concat_app, app_length. cbn [concat]. rewrite app_nil_r. lia.
  - intros k p Hk. rewrite Nat2Z.id.
    assert (CE : concat cols = concat (firstn c cols) ++ col ++ concat (skipn (c + 1) cols)).
    { rewrite E at 1. rewrite concat_app. reflexivity. }
    assert (k < length col) by (apply nth_error_Some; congruence).
    rewrite CE, !map_app.
    split; (rewrite nth_error_app2 by (rewrite map_length; lia); rewrite map_length;
      replace (length (concat (firstn c cols)) + k - length (concat (firstn c cols))) with k by lia;
      rewrite nth_error_app1 by (rewrite map_length; assumption); rewrite nth_error_map, Hk; reflexivity).
Qed.

(** every column of a valid matrix has such a view *)
Lemma nth_error_firstn_skipn {A} (l : list A) n d k : k < n -> nth_error (firstn n (skipn d l)) k = nth_error l (d + k).
Proof.
  intros H. rewrite <- (firstn_skipn d l) at 2.
  destruct (le_lt_dec d (length l)) as [L|L].
  - rewrite nth_error_app2 by (rewrite firstn_length; lia). rewrite firstn_length_le by assumption.
    replace (d + k - d) with k by lia.
    generalize (skipn d l) as m. clear - H. revert k H; induction n as [|n IH]; intros k H m; [lia|].
    destruct m as [|x m]; [destruct k; reflexivity|]. destruct k as [|k]; [reflexivity|].
    cbn [firstn nth_error]. apply IH. lia.
  - rewrite skipn_all2 by lia. rewrite firstn_nil. rewrite app_nil_r, firstn_all2 by lia.
    transitivity (@None A); [destruct k; reflexivity|]. symmetry. apply nth_error_None. lia.
Qed.
Lemma nth_error_combine {A B} (l : list A) (l' : list B) k :
  nth_error (combine l l') k = match nth_error l k, nth_error l' k with Some x, Some y => Some (x, y) | _, _ => None end.
Proof.
  revert l' k; induction l as [|x l IH]; intros [|y l'] [|k]; cbn [combine nth_error]; try reflexivity.
  - destruct (nth_error l k); reflexivity.
  - apply IH.
Qed.

Lemma valid_nonneg nr nc (m : ccs F) c : ccs_valid nr nc m -> c <= nc -> (0 <= ap m c)%Z.
Proof.
  intros V. induction c as [|c IH]; intros H; [rewrite (v_first _ _ _ V); lia|].
  pose proof (v_mono _ _ _ V c ltac:(lia)). rewrite Nat.add_1_r in *. specialize (IH ltac:(lia)). lia.
Qed.
Lemma valid_mono nr nc (m : ccs F) c d : ccs_valid nr nc m -> c <= d -> d <= nc -> (ap m c <= ap m d)%Z.
Proof.
  intros V H. induction H as [|d H IH]; intros Hd; [lia|].
  pose proof (v_mono _ _ _ V d ltac:(lia)). rewrite Nat.add_1_r in *. specialize (IH ltac:(lia)). lia.
Qed.

Definition column (m : ccs F) (c : nat) : colT :=
  let d := Z.to_nat (ap m c) in let n := Z.to_nat (ap m (c + 1) - ap m c) in
  combine (firstn n (skipn d (Ai m))) (firstn n (skipn d (Ax m))).

Lemma valid_col nr nc (m : ccs F) c : ccs_valid nr nc m -> c < nc ->
  has_col m c (ap m c) (column m c) /\ col_ok nr (column m c) /\
  length (column m c) = Z.to_nat (ap m (c + 1) - ap m c).
Proof.
  intros V Hc. pose proof (valid_nonneg _ _ _ c V ltac:(lia)) as P.
  pose proof (v_mono _ _ _ V c Hc) as M.
  pose proof (valid_mono _ _ _ (c + 1) nc V ltac:(lia) ltac:(lia)) as M2.
  rewrite (v_last _ _ _ V) in M2. pose proof (v_same _ _ _ V) as SM.
  set (d := Z.to_nat (ap m c)). set (n := Z.to_nat (ap m (c + 1) - ap m c)).
  assert (L : length (column m c) = n).
  { unfold column. fold d n. rewrite combine_length, !firstn_length, !skipn_length. lia. }
  assert (EN : forall k p, nth_error (column m c) k = Some p ->
     k < n /\ nth_error (Ai m) (d + k) = Some (fst p) /\ nth_error (Ax m) (d + k) = Some (snd p)).
  { intros k p Hk. assert (k < n) by (rewrite <- L; apply nth_error_Some; congruence).
    revert Hk. unfold column. fold d n. rewrite nth_error_combine, !nth_error_firstn_skipn by assumption.
    destruct (nth_error (Ai m) (d + k)) as [x|]; [|discriminate].
    destruct (nth_error (Ax m) (d + k)) as [y|]; [|discriminate].
    intros E; injection E as <-. cbn [fst snd]. auto. }
  split; [|split]; [| |assumption].
  - constructor.
    + assumption.
    + unfold ap. apply nth_error_nth'. rewrite (v_len _ _ _ V). lia.
    + rewrite L. replace (ap m c + Z.of_nat n)%Z with (ap m (c + 1)) by lia.
      unfold ap. apply nth_error_nth'. rewrite (v_len _ _ _ V). lia.
    + intros k p Hk. apply EN in Hk. fold d. tauto.
  - split.
    + intros k p Hk. apply EN in Hk. destruct Hk as (Hk & H1 & _).
      pose proof (v_range _ _ _ V (ap m c + Z.of_nat k)%Z) as R. unfold ai in R.
      replace (Z.to_nat (ap m c + Z.of_nat k)) with (d + k) in R by lia.
      rewrite (nth_error_nth _ _ _ H1) in R. apply R. rewrite SM.
      assert (d + k < length (Ai m)) by (apply nth_error_Some; congruence). lia.
    + intros k p q Hp Hq. apply EN in Hp, Hq. destruct Hp as (Hk & H1 & _), Hq as (Hk2 & H2 & _).
      pose proof (v_sorted _ _ _ V c (ap m c + Z.of_nat k)%Z Hc ltac:(lia) ltac:(lia)) as R. unfold ai in R.
      replace (Z.to_nat (ap m c + Z.of_nat k)) with (d + k) in R by lia.
      replace (Z.to_nat (ap m c + Z.of_nat k + 1)) with (d + (k + 1)) in R by lia.
      rewrite (nth_error_nth _ _ _ H1), (nth_error_nth _ _ _ H2) in R. assumption.
Qed.

(** ** dense value through the column view *)
Definition lookup (r : Z) (col : colT) : F :=
  match find (fun p => fst p =? r)%Z col with Some p => snd p | None => zero end.

Lemma find_zrange (g : Z -> bool) (h : Z * F -> bool) (col : colT) :
  forall off, (forall k p, nth_error col k = Some p -> g (off + Z.of_nat k)%Z = h p) ->
  match find g (zrange off (off + Z.of_nat (length col))), find h col with
  | Some i, Some p => exists k, i = (off + Z.of_nat k)%Z /\ nth_error col k = Some p
  | None, None => True
  | _, _ => False
  end.
Proof.
  induction col as [|p l IH]; intros off H.
  - rewrite zrange_nil by (cbn; lia). exact I.
  - rewrite zrange_cons by (cbn [length]; lia). cbn [find].
    rewrite <- (H 0 p eq_refl). replace (off + Z.of_nat 0)%Z with off by lia.
    destruct (g off); [exists 0; split; [lia|reflexivity]|].
    replace (off + Z.of_nat (length (p :: l)))%Z with (off + 1 + Z.of_nat (length l))%Z by (cbn [length]; lia).
    specialize (IH (off + 1)%Z).
    destruct (find g (zrange (off + 1) (off + 1 + Z.of_nat (length l)))) as [i|], (find h l) as [q|];
      try (apply IH; intros k u Hk; rewrite <- (H (S k) u) by assumption; f_equal; lia).
    destruct IH as (k & E & Hk); [intros k u Hk; rewrite <- (H (S k) u) by assumption; f_equal; lia|].
    exists (S k). split; [lia|assumption].
Qed.

Lemma dense_lookup (m : ccs F) c off col r : has_col m c off col ->
  dense zero m r c = lookup (Z.of_nat r) col.
Proof.
  intros H. unfold dense, lookup.
  assert (E1 : ap m c = off) by (apply (nth_error_nth _ _ _ (hc_lo _ _ _ _ H))).
  assert (E2 : ap m (c + 1) = (off + Z.of_nat (length col))%Z) by (apply (nth_error_nth _ _ _ (hc_hi _ _ _ _ H))).
  rewrite E1, E2. pose proof (hc_pos _ _ _ _ H) as P.
  assert (Q : forall k p, nth_error col k = Some p ->
     ai m (off + Z.of_nat k) = fst p /\ ax zero m (off + Z.of_nat k) = snd p).
  { intros k p Hk. destruct (hc_ent _ _ _ _ H _ _ Hk) as [H1 H2]. unfold ai, ax.
    replace (Z.to_nat (off + Z.of_nat k)) with (Z.to_nat off + k) by lia.
    split; apply nth_error_nth; assumption. }
  pose proof (find_zrange (fun i => (ai m i =? Z.of_nat r)%Z) (fun p => (fst p =? Z.of_nat r)%Z) col off) as FZ.
  destruct (find _ (zrange _ _)) as [i|], (find _ col) as [p|];
    try (contradiction FZ; intros k q Hk; destruct (Q _ _ Hk) as [-> _]; reflexivity).
  - destruct FZ as (k & -> & Hk); [intros k q Hk; destruct (Q _ _ Hk) as [-> _]; reflexivity|].
    apply (Q _ _ Hk).
  - reflexivity.
Qed.

(** in a sorted column the entries before the one found are smaller *)
Lemma col_ok_tl nr p col : col_ok nr (p :: col) -> col_ok nr col.
Proof.
  intros [R St]. split.
  - intros k q Hq. apply (R (S k) q). assumption.
  - intros k q q' Hq Hq'. apply (St (S k) q q'); assumption.
Qed.
Lemma col_ok_lt nr p col : col_ok nr (p :: col) -> Forall (fun q => (fst p < fst q)%Z) col.
Proof.
  revert p; induction col as [|q col IH]; intros p H; constructor.
  - destruct H as [_ St]. apply (St 0 p q); reflexivity.
  - pose proof (IH q (col_ok_tl _ _ _ H)) as K. destruct H as [_ St].
    pose proof (St 0 p q eq_refl eq_refl). eapply Forall_impl; [|exact K]. intros a; cbn beta. lia.
Qed.
Lemma lookup_lt r col : Forall (fun q => (r < fst q)%Z) col -> lookup r col = zero.
Proof.
  unfold lookup. induction 1 as [|q col Hq HF IH]; cbn [find]; [reflexivity|].
  destruct (Z.eqb_spec (fst q) r); [lia|assumption].
Qed.
Lemma lookup_cons r p col : lookup r (p :: col) = if (fst p =? r)%Z then snd p else lookup r col.
Proof. unfold lookup. cbn [find]. destruct (fst p =? r)%Z; reflexivity. Qed.

(** of_cols is valid when its columns are *)
Lemma of_cols_valid nr cols : Forall (col_ok nr) cols -> ccs_valid nr (length cols) (of_cols cols).
Proof.
  intros H. rewrite Forall_forall in H.
  assert (AP : forall c, c <= length cols -> ap (of_cols cols) c = Z.of_nat (length (concat (firstn c cols)))).
  { intros c Hc. unfold ap. cbn [of_cols Ap]. rewrite (nth_error_nth _ _ _ (aps_nth 0 cols c Hc)). lia. }
  assert (LC : length (Ax (of_cols cols)) = length (concat cols)) by (cbn; apply map_length).
  assert (LI : length (Ai (of_cols cols)) = length (concat cols)) by (cbn; apply map_length).
  constructor.
  - cbn. apply aps_length.
  - rewrite AP by lia. reflexivity.
  - intros c Hc. destruct (nth_error cols c) as [col|] eqn:E; [|apply nth_error_None in E; lia].
    pose proof (of_cols_has _ _ _ E) as HC.
    unfold ap. rewrite (nth_error_nth _ _ _ (hc_lo _ _ _ _ HC)), (nth_error_nth _ _ _ (hc_hi _ _ _ _ HC)). lia.
  - rewrite AP by lia. rewrite firstn_all, LC. reflexivity.
  - congruence.
  - intros i Hi. unfold ai. rewrite LI in Hi. cbn [of_cols Ai].
    destruct (nth_error (concat cols) (Z.to_nat i)) as [p|] eqn:E; [|apply nth_error_None in E; lia].
    rewrite (nth_error_nth (map fst (concat cols)) _ 0%Z (x := fst p)) by (rewrite nth_error_map, E; reflexivity).
    apply nth_error_In in E. apply in_concat in E. destruct E as (col & Hcol & Hp).
    destruct (H _ Hcol) as [R _]. apply In_nth_error in Hp. destruct Hp as [k Hk]. apply (R k p Hk).
  - intros c i Hc H1 H2. destruct (nth_error cols c) as [col|] eqn:E; [|apply nth_error_None in E; lia].
    pose proof (of_cols_has _ _ _ E) as HC.
    unfold ap in H1, H2. rewrite (nth_error_nth _ _ _ (hc_lo _ _ _ _ HC)) in H1.
    rewrite (nth_error_nth _ _ _ (hc_hi _ _ _ _ HC)) in H2.
    set (off := Z.of_nat (length (concat (firstn c cols)))) in *.
    pose proof (hc_pos _ _ _ _ HC) as P.
    destruct (nth_error col (Z.to_nat (i - off))) as [p|] eqn:Ep; [|apply nth_error_None in Ep; lia].
    destruct (nth_error col (Z.to_nat (i - off) + 1)) as [q|] eqn:Eq; [|apply nth_error_None in Eq; lia].
    destruct (hc_ent _ _ _ _ HC _ _ Ep) as [A1 _]. destruct (hc_ent _ _ _ _ HC _ _ Eq) as [A2 _].
    unfold ai. replace (Z.to_nat i) with (Z.to_nat off + Z.to_nat (i - off)) by lia.
    replace (Z.to_nat (i + 1)) with (Z.to_nat off + (Z.to_nat (i - off) + 1)) by lia.
    rewrite (nth_error_nth _ _ _ A1), (nth_error_nth _ _ _ A2).
    apply nth_error_In in E. destruct (H _ E) as [_ St]. apply (St _ _ _ Ep Eq).
Qed.

End Mat.
