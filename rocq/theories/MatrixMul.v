(** MatrixMul.v - products. *)
From Verif Require Import Base TextModel MatrixModel MatrixSpec MatrixProofs MatrixConvert.
Local Open Scope nat_scope.

(** a loop whose rounds act entry by entry *)
Lemma point_loop {D K F I} (P : D -> Prop) (get : D -> K -> F) (body : I -> D -> outcome D) (S : I -> K -> F -> F) l :
  (forall i d, In i l -> P d -> exists d', body i d = Ok d' /\ P d' /\ forall k, get d' k = S i k (get d k)) ->
  forall d, P d -> exists d', ofold body l d = Ok d' /\ P d' /\ forall k, get d' k = fold_left (fun s i => S i k s) l (get d k).
Proof.
  induction l as [|i l IH]; intros H d Hd; cbn [ofold fold_left].
  - exists d. auto.
  - destruct (H i d (or_introl eq_refl) Hd) as (d1 & E & P1 & G1). rewrite E. cbn [obind].
    destruct (IH (fun j t Hj => H j t (or_intror Hj)) d1 P1) as (d2 & E2 & P2 & G2).
    exists d2. split; [exact E2|]. split; [assumption|]. intros k. rewrite G2, G1. reflexivity.
Qed.

Lemma fold_left_ext_in {A B} (f g : A -> B -> A) l : (forall a b, In b l -> f a b = g a b) -> forall a, fold_left f l a = fold_left g l a.
Proof.
  induction l as [|b l IH]; intros H a; cbn [fold_left]; [reflexivity|]. rewrite (H a b (or_introl eq_refl)).
  apply IH. intros a' b' Hb. apply H. right; assumption.
Qed.
Lemma fold_left_const {A B} (l : list B) (a : A) (f : A -> B -> A) : (forall a b, In b l -> f a b = a) -> fold_left f l a = a.
Proof.
  revert a; induction l as [|b l IH]; intros a H; cbn [fold_left]; [reflexivity|]. rewrite H by (left; reflexivity).
  apply IH. intros a' b' Hb. apply H. right; assumption.
Qed.
Lemma fold_left_only {A} (G : A -> A) r n : forall k s, k <= r ->
  fold_left (fun s i => if i =? r then G s else s) (seq k n) s = if r <? k + n then G s else s.
Proof.
  induction n as [|n IH]; intros k s H; cbn [seq fold_left].
  - destruct (Nat.ltb_spec r (k + 0)); [lia|reflexivity].
  - destruct (Nat.eqb_spec k r) as [->|N].
    + rewrite fold_left_const; [destruct (Nat.ltb_spec r (r + S n)); [reflexivity|lia]|].
      intros a b Hb. apply in_seq in Hb. destruct (Nat.eqb_spec b r); [lia|reflexivity].
    + rewrite IH by lia. replace (S k + n) with (k + S n) by lia. reflexivity.
Qed.

Section Mat.
Context {F : Type} (zero : F) (add mul : F -> F -> F).
Notation colT := (list (Z * F)).

(** a loop over the stored pairs of a sorted column is a loop over all rows *)
Lemma sparse_fold {A} (H : A -> nat -> F -> A) (col : colT) nr n : forall k s,
  (forall s k, H s k zero = s) -> col_ok nr col ->
  Forall (fun p => (Z.of_nat k <= fst p < Z.of_nat (k + n))%Z) col ->
  fold_left (fun s p => H s (Z.to_nat (fst p)) (snd p)) col s =
  fold_left (fun s i => H s i (lookup zero (Z.of_nat i) col)) (seq k n) s.
Proof.
  revert col; induction n as [|n IH]; intros col k s H0 OK R.
  - destruct col as [|p col]; [reflexivity|]. inversion R; subst. lia.
  - cbn [seq fold_left]. destruct col as [|p col].
    + cbn [fold_left]. unfold lookup at 1. cbn [find]. rewrite H0. symmetry. apply fold_left_const.
      intros a b _. apply H0.
    + pose proof (col_ok_lt _ _ _ OK) as LT. inversion R as [|? ? Rp Rc]; subst.
      destruct (Z.eq_dec (fst p) (Z.of_nat k)) as [E|E].
      * cbn [fold_left]. rewrite lookup_cons, E, Z.eqb_refl, Nat2Z.id.
        rewrite (IH col (S k)).
        -- apply fold_left_ext_in. intros a b Hb. apply in_seq in Hb. rewrite lookup_cons, E.
           destruct (Z.eqb_spec (Z.of_nat k) (Z.of_nat b)); [lia|]. reflexivity.
        -- assumption.
        -- eapply col_ok_tl; eassumption.
        -- rewrite Forall_forall in *. intros q Hq. specialize (LT q Hq). specialize (Rc q Hq). lia.
      * rewrite lookup_lt.
        -- rewrite H0. rewrite (IH (p :: col) (S k)); [reflexivity|assumption|assumption|].
           constructor; [lia|]. rewrite Forall_forall in *. intros q Hq. specialize (LT q Hq). specialize (Rc q Hq). lia.
        -- constructor; [lia|]. rewrite Forall_forall in *. intros q Hq. specialize (LT q Hq). lia.
Qed.

Lemma acc2_shape nr nc D r c x : shape nr nc D -> (0 <= r < Z.of_nat nr)%Z -> c < nc ->
  exists D', acc2 add D r c x = Ok D' /\ shape nr nc D' /\
    forall k, entry zero D' (fst k) (snd k) =
      (if (fst k =? Z.to_nat r) && (snd k =? c) then add (entry zero D (fst k) (snd k)) x else entry zero D (fst k) (snd k)).
Proof.
  intros SH Hr Hc. unfold acc2. rewrite (rdz_nth D r []) by (destruct SH; lia). cbn [obind].
  rewrite (rd_nth _ c zero) by (rewrite (shape_nth _ _ _ _ SH); lia). cbn [obind].
  destruct (wr2z_shape zero nr nc D r c (add (nth c (nth (Z.to_nat r) D []) zero) x) SH Hr Hc) as (D' & E & SD & ED).
  exists D'. split; [exact E|]. split; [assumption|]. intros [r' c']; cbn [fst snd]. rewrite ED.
  destruct (Nat.eqb_spec r' (Z.to_nat r)) as [->|]; [|reflexivity]. destruct (Nat.eqb_spec c' c) as [->|]; reflexivity.
Qed.
Lemma acc1_len n D i x : length D = n -> i < n ->
  exists D', acc1 add D i x = Ok D' /\ length D' = n /\ forall k, nth k D' zero = (if k =? i then add (nth k D zero) x else nth k D zero).
Proof.
  intros L Hi. unfold acc1. rewrite (rd_nth D i zero) by lia. cbn [obind].
  destruct (wr_spec D i (add (nth i D zero) x) ltac:(lia)) as (D' & E & LD & ED). exists D'. split; [exact E|]. split; [lia|].
  intros k. rewrite ED. destruct (Nat.eqb_spec k i) as [->|]; reflexivity.
Qed.

Definition get2 (D : list (list F)) (k : nat * nat) : F := entry zero D (fst k) (snd k).
Definition get1 (D : list F) (k : nat) : F := nth k D zero.

(** dense triple loop *)
Lemma triple_loop2 nr nc n (t : nat -> nat -> nat -> F) (body : nat -> nat -> nat -> list (list F) -> outcome (list (list F))) :
  (forall r c i D, r < nr -> c < nc -> i < n -> shape nr nc D -> body r c i D = acc2 add D (Z.of_nat r) c (t r c i)) ->
  forall D, shape nr nc D ->
  exists D', ofold (fun r D => ofold (fun c D => ofold (fun i D => body r c i D) (seq 0 n) D) (seq 0 nc) D) (seq 0 nr) D = Ok D' /\
    shape nr nc D' /\ forall r c, r < nr -> c < nc ->
      entry zero D' r c = fold_left (fun s i => add s (t r c i)) (seq 0 n) (entry zero D r c).
Proof.
  intros H D SD.
  destruct (point_loop (shape nr nc) get2 (fun r D => ofold (fun c D => ofold (fun i D => body r c i D) (seq 0 n) D) (seq 0 nc) D)
    (fun r k s => fold_left (fun s c => fold_left (fun s i => if (fst k =? r) && (snd k =? c) then add s (t r c i) else s) (seq 0 n) s) (seq 0 nc) s)
    (seq 0 nr)) with (d := D) as (D' & E & SD' & ED); [|assumption|].
  { intros r d Hr Sd. apply in_seq in Hr.
    apply (point_loop (shape nr nc) get2 _ (fun c k s => fold_left (fun s i => if (fst k =? r) && (snd k =? c) then add s (t r c i) else s) (seq 0 n) s)); [|assumption].
    intros c d' Hc Sd'. apply in_seq in Hc.
    apply (point_loop (shape nr nc) get2 _ (fun i k s => if (fst k =? r) && (snd k =? c) then add s (t r c i) else s)); [|assumption].
    intros i d'' Hi Sd''. apply in_seq in Hi. rewrite H by (assumption || lia).
    destruct (acc2_shape nr nc d'' (Z.of_nat r) c (t r c i) Sd'' ltac:(lia) ltac:(lia)) as (d3 & E3 & S3 & G3).
    rewrite Nat2Z.id in G3. exists d3. auto. }
  exists D'. split; [exact E|]. split; [assumption|]. intros r c Hr Hc. specialize (ED (r, c)). unfold get2 in ED. cbn [fst snd] in ED. rewrite ED.
  rewrite (fold_left_ext_in _ (fun s r' => if r' =? r then fold_left (fun s i => add s (t r c i)) (seq 0 n) s else s)).
  - rewrite fold_left_only by lia. destruct (Nat.ltb_spec r (0 + nr)); [reflexivity|lia].
  - intros s r' _. destruct (Nat.eqb_spec r' r) as [->|N].
    + rewrite Nat.eqb_refl. cbn [andb].
      rewrite (fold_left_ext_in _ (fun s c' => if c' =? c then fold_left (fun s i => add s (t r c i)) (seq 0 n) s else s)).
      * rewrite fold_left_only by lia. destruct (Nat.ltb_spec c (0 + nc)); [reflexivity|lia].
      * intros s' c' _. rewrite (Nat.eqb_sym c c'). destruct (Nat.eqb_spec c' c) as [->|]; [reflexivity|]. apply fold_left_const. reflexivity.
    + replace (r =? r') with false by (symmetry; apply Nat.eqb_neq; lia). cbn [andb]. apply fold_left_const.
      intros s' c' _. apply fold_left_const. reflexivity.
Qed.
(** dense double loop of the matrix-vector product; triple loop into a row-major array *)
Lemma flat_loop len (own : nat -> nat) (body : nat -> list F -> outcome (list F)) (t : nat -> F) l :
  (forall i D, In i l -> length D = len -> body i D = acc1 add D (own i) (t i)) -> (forall i, In i l -> own i < len) ->
  forall D, length D = len -> exists D', ofold body l D = Ok D' /\ length D' = len /\
    forall k, nth k D' zero = fold_left (fun s i => if k =? own i then add s (t i) else s) l (nth k D zero).
Proof.
  intros H O D L.
  apply (point_loop (fun D => length D = len) get1 body (fun i k s => if k =? own i then add s (t i) else s)); [|assumption].
  intros i d Hi Ld. rewrite H by assumption. apply acc1_len; auto.
Qed.

Lemma mv_body_ok (rdm : nat -> nat -> outcome F) (a : nat -> nat -> F) nr nc v b :
  (forall r c, r < nr -> c < nc -> rdm r c = Ok (a r c)) -> nc <= length v -> nr <= length b ->
  exists b', mv_body add mul rdm nr nc v b = Ok b' /\ length b' = length b /\
    (forall r, r < nr -> nth r b' zero = dot add mul (nth r b zero) (a r) (fun c => nth c v zero) nc) /\
    (forall r, nr <= r -> nth r b' zero = nth r b zero).
Proof.
  intros H Lv Lb. unfold mv_body.
  destruct (point_loop (fun D => length D = length b) get1
    (fun r b => ofold (fun c b => do s <- rd b r; do a <- rdm r c; do x <- rd v c; wr b r (add s (mul a x))) (seq 0 nc) b)
    (fun r k s => fold_left (fun s c => if k =? r then add s (mul (a r c) (nth c v zero)) else s) (seq 0 nc) s) (seq 0 nr)) with (d := b)
    as (b' & E & Lb' & Eb); [|reflexivity|].
  - intros r d Hr Ld. apply in_seq in Hr.
    apply (point_loop (fun D => length D = length b) get1 _ (fun c k s => if k =? r then add s (mul (a r c) (nth c v zero)) else s)); [|assumption].
    intros c d' Hc Ld'. apply in_seq in Hc. rewrite H, (rd_nth v c zero) by lia.
    destruct (acc1_len (length b) d' r (mul (a r c) (nth c v zero)) Ld' ltac:(lia)) as (d3 & E3 & L3 & G3).
    exists d3. unfold acc1 in E3. rewrite (rd_nth d' r zero) in * by lia. cbn [obind] in *. auto.
  - exists b'. split; [exact E|]. split; [assumption|]. unfold get1 in Eb. split.
    + intros r Hr. rewrite Eb. unfold dot.
      rewrite (fold_left_ext_in _ (fun s r' => if r' =? r then fold_left (fun s c => add s (mul (a r c) (nth c v zero))) (seq 0 nc) s else s)).
      * rewrite fold_left_only by lia. destruct (Nat.ltb_spec r (0 + nr)); [reflexivity|lia].
      * intros s r' _. rewrite (Nat.eqb_sym r r'). destruct (Nat.eqb_spec r' r) as [->|]; [reflexivity|]. apply fold_left_const. reflexivity.
    + intros r Hr. rewrite Eb. apply fold_left_const. intros s r' Hr'. apply in_seq in Hr'.
      apply fold_left_const. intros s' c _. destruct (Nat.eqb_spec r r'); [lia|reflexivity].
Qed.

Lemma clear_ok nr (b : list F) : nr <= length b ->
  exists b', ofold (fun r b => wr b r zero) (seq 0 nr) b = Ok b' /\ length b' = length b /\
   forall r, nth r b' zero = if r <? nr then zero else nth r b zero.
Proof.
  intros L. destruct (point_loop (fun D => length D = length b) get1 (fun r b => wr b r zero) (fun r k s => if k =? r then zero else s) (seq 0 nr)) with (d := b)
   as (b' & E & Lb & Eb); [|reflexivity|].
  - intros r d Hr Ld. apply in_seq in Hr. destruct (wr_spec d r zero ltac:(lia)) as (d' & E & Ld' & N). exists d'.
    split; [exact E|]. split; [lia|]. intros k. apply N.
  - exists b'. split; [exact E|]. split; [assumption|]. intros r. unfold get1 in Eb. rewrite Eb.
    rewrite (fold_left_ext_in _ (fun s i => if i =? r then zero else s)) by (intros; rewrite Nat.eqb_sym; reflexivity).
    apply (fold_left_only (fun _ => zero) r nr 0 (nth r b zero)). lia.
Qed.

Theorem matrix_by_vector_ok m A v b fl :
  (sto m = REG A \/ sto m = RMO (concat A)) -> shape (row m) (col m) A -> 0 < row m -> 0 < col m ->
  col m <= length v -> row m <= length b -> fl <> OTHER_FLAG ->
  exists b', matrix_by_vector zero add mul m v b fl = Ok b' /\ length b' = length b /\
    (forall r, r < row m -> nth r b' zero =
       dot add mul (match fl with INITIALIZE => zero | _ => nth r b zero end) (entry zero A r) (fun c => nth c v zero) (col m)) /\
    (forall r, row m <= r -> nth r b' zero = nth r b zero).
Proof.
  intros HS SH Hr Hc Lv Lb Hfl. unfold matrix_by_vector.
  destruct (Nat.eqb_spec (row m) 0); [lia|]. destruct (Nat.eqb_spec (col m) 0); [lia|]. cbn [orb].
  assert (exists b1, (match fl with INITIALIZE => ofold (fun r b => wr b r zero) (seq 0 (row m)) b | NOT_INITIALIZE => Ok b | OTHER_FLAG => Abort end) = Ok b1
     /\ length b1 = length b /\ (forall r, r < row m -> nth r b1 zero = match fl with INITIALIZE => zero | _ => nth r b zero end)
     /\ (forall r, row m <= r -> nth r b1 zero = nth r b zero)) as (b1 & E1 & L1 & N1 & N2).
  { destruct fl; [|exists b; auto|congruence].
    destruct (clear_ok (row m) b Lb) as (b1 & E & L & N). exists b1. split; [exact E|]. split; [assumption|]. split.
    - intros r Hr'. rewrite N. destruct (Nat.ltb_spec r (row m)); [reflexivity|lia].
    - intros r Hr'. rewrite N. destruct (Nat.ltb_spec r (row m)); [lia|reflexivity]. }
  rewrite E1. cbn [obind].
  assert (FIN : forall rdm, (forall r c, r < row m -> c < col m -> rdm r c = Ok (entry zero A r c)) ->
    exists b', mv_body add mul rdm (row m) (col m) v b1 = Ok b' /\ length b' = length b /\
    (forall r, r < row m -> nth r b' zero =
       dot add mul (match fl with INITIALIZE => zero | _ => nth r b zero end) (entry zero A r) (fun c => nth c v zero) (col m)) /\
    (forall r, row m <= r -> nth r b' zero = nth r b zero)).
  { intros rdm Hrd. destruct (mv_body_ok rdm (entry zero A) (row m) (col m) v b1 Hrd Lv ltac:(lia)) as (b' & E & L & M1 & M2).
    exists b'. split; [exact E|]. split; [lia|]. split.
    - intros r Hr'. rewrite M1, N1 by assumption. reflexivity.
    - intros r Hr'. rewrite M2, N2 by assumption. reflexivity. }
  destruct HS as [-> | ->]; apply FIN.
  - intros r c Hr' Hc'. apply (rd2_shape zero (row m) (col m)); assumption.
  - intros r c Hr' Hc'. apply rd_ok. apply (nth_concat_rows zero (row m) (col m)); assumption.
Qed.

(** regular products *)
Lemma mm_reg_reg_ok ar n bc A B : shape ar n A -> shape n bc B ->
  exists D, mm_reg_reg add mul ar bc n A B (alloc_reg zero ar bc) = Ok D /\ shape ar bc D /\
    forall r c, r < ar -> c < bc -> entry zero D r c = dot add mul zero (entry zero A r) (fun k => entry zero B k c) n.
Proof.
  intros SA SB. unfold mm_reg_reg.
  destruct (triple_loop2 ar bc n (fun r c i => mul (entry zero A r i) (entry zero B i c))
    (fun r c i D => do x <- rd2 A r i; do y <- rd2 B i c; acc2 add D (Z.of_nat r) c (mul x y))) with (D := alloc_reg zero ar bc) as (D & E & SD & ED).
  - intros r c i D Hr Hc Hi _. rewrite (rd2_shape zero ar n A), (rd2_shape zero n bc B) by assumption. reflexivity.
  - apply shape_alloc.
  - exists D. split; [exact E|]. split; [assumption|]. intros r c Hr Hc. rewrite ED, entry_alloc by assumption. reflexivity.
Qed.
Lemma mmt_reg_reg_ok ar n br A B : shape ar n A -> shape br n B ->
  exists D, mmt_reg_reg add mul ar br n A B (alloc_reg zero ar br) = Ok D /\ shape ar br D /\
    forall r c, r < ar -> c < br -> entry zero D r c = dot add mul zero (entry zero A r) (entry zero B c) n.
Proof.
  intros SA SB. unfold mmt_reg_reg.
  destruct (triple_loop2 ar br n (fun r c i => mul (entry zero A r i) (entry zero B c i))
    (fun r c i D => do x <- rd2 A r i; do y <- rd2 B c i; acc2 add D (Z.of_nat r) c (mul x y))) with (D := alloc_reg zero ar br) as (D & E & SD & ED).
  - intros r c i D Hr Hc Hi _. rewrite (rd2_shape zero ar n A), (rd2_shape zero br n B) by assumption. reflexivity.
  - apply shape_alloc.
  - exists D. split; [exact E|]. split; [assumption|]. intros r c Hr Hc. rewrite ED, entry_alloc by assumption. reflexivity.
Qed.
Lemma mmt_rmo_rmo_reg_ok ar n br A B : shape ar n A -> shape br n B ->
  exists D, mmt_rmo_rmo_reg add mul ar br n (concat A) (concat B) (alloc_reg zero ar br) = Ok D /\ shape ar br D /\
    forall r c, r < ar -> c < br -> entry zero D r c = dot add mul zero (entry zero A r) (entry zero B c) n.
Proof.
  intros SA SB. unfold mmt_rmo_rmo_reg.
  destruct (triple_loop2 ar br n (fun r c i => mul (entry zero A r i) (entry zero B c i))
    (fun r c i D => do x <- rd (concat A) (i + n * r); do y <- rd (concat B) (i + n * c); acc2 add D (Z.of_nat r) c (mul x y))) with (D := alloc_reg zero ar br) as (D & E & SD & ED).
  - intros r c i D Hr Hc Hi _. rewrite (rd_ok _ _ _ (nth_concat_rows zero ar n A r i SA Hr Hi)).
    rewrite (rd_ok _ _ _ (nth_concat_rows zero br n B c i SB Hc Hi)). reflexivity.
  - apply shape_alloc.
  - exists D. split; [exact E|]. split; [assumption|]. intros r c Hr Hc. rewrite ED, entry_alloc by assumption. reflexivity.
Qed.

(** row-major arrays and dense matrices *)
Fixpoint unflat (nr nc : nat) (l : list F) : list (list F) :=
  match nr with O => [] | S k => firstn nc l :: unflat k nc (skipn nc l) end.
Lemma unflat_shape nr nc : forall l, length l = nr * nc -> shape nr nc (unflat nr nc l) /\ concat (unflat nr nc l) = l.
Proof.
  induction nr as [|nr IH]; intros l L; cbn [unflat].
  - destruct l; [|discriminate]. split; [split; [reflexivity|constructor]|reflexivity].
  - destruct (IH (skipn nc l)) as [[L1 S1] C1]; [rewrite skipn_length; lia|]. split.
    + split; [cbn [length]; lia|]. constructor; [apply firstn_length_le; lia|assumption].
    + cbn [concat]. rewrite C1. apply firstn_skipn.
Qed.
Lemma flat_entry nr nc D l : shape nr nc D -> concat D = l -> forall r c, r < nr -> c < nc -> nth (c + nc * r) l zero = entry zero D r c.
Proof. intros SD <- r c Hr Hc. apply nth_error_nth. apply nth_concat_rows with (nr := nr); assumption. Qed.

Lemma flat_index_inj nc r c r' c' : c < nc -> c' < nc -> c + nc * r = c' + nc * r' -> r = r' /\ c = c'.
Proof.
  intros Hc Hc' E. assert (r = r') by nia. subst r'. split; [reflexivity|lia].
Qed.

Lemma mmt_rmo_rmo_rmo_ok ar n br A B D0 : shape ar n A -> shape br n B -> shape ar br D0 ->
  exists D, mmt_rmo_rmo_rmo add mul ar br n (concat A) (concat B) (concat D0) = Ok (concat D) /\ shape ar br D /\
    forall r c, r < ar -> c < br -> entry zero D r c = dot add mul (entry zero D0 r c) (entry zero A r) (entry zero B c) n.
Proof.
  intros SA SB S0. unfold mmt_rmo_rmo_rmo. set (len := ar * br).
  assert (L0 : length (concat D0) = len) by (apply length_concat_rows; assumption).
  destruct (point_loop (fun D => length D = len) get1
    (fun r D => ofold (fun c D => ofold (fun i D => do x <- rd (concat A) (i + n * r); do y <- rd (concat B) (i + n * c); acc1 add D (c + br * r) (mul x y)) (seq 0 n) D) (seq 0 br) D)
    (fun r k s => fold_left (fun s c => fold_left (fun s i => if k =? c + br * r then add s (mul (entry zero A r i) (entry zero B c i)) else s) (seq 0 n) s) (seq 0 br) s)
    (seq 0 ar)) with (d := concat D0) as (D' & E & LD & ED); [|assumption|].
  { intros r d Hr Sd. apply in_seq in Hr.
    apply (point_loop (fun D => length D = len) get1 _ (fun c k s => fold_left (fun s i => if k =? c + br * r then add s (mul (entry zero A r i) (entry zero B c i)) else s) (seq 0 n) s)); [|assumption].
    intros c d' Hc Sd'. apply in_seq in Hc.
    apply (point_loop (fun D => length D = len) get1 _ (fun i k s => if k =? c + br * r then add s (mul (entry zero A r i) (entry zero B c i)) else s)); [|assumption].
    intros i d'' Hi Sd''. apply in_seq in Hi.
    rewrite (rd_ok _ _ _ (nth_concat_rows zero ar n A r i SA ltac:(lia) ltac:(lia))).
    rewrite (rd_ok _ _ _ (nth_concat_rows zero br n B c i SB ltac:(lia) ltac:(lia))). cbn [obind].
    apply acc1_len; [assumption|]. unfold len. nia. }
  destruct (unflat_shape ar br D' LD) as [SU CU].
  exists (unflat ar br D'). rewrite CU. split; [exact E|]. split; [assumption|]. intros r c Hr Hc.
  rewrite <- (flat_entry ar br _ _ SU CU r c Hr Hc), <- (flat_entry ar br _ _ S0 eq_refl r c Hr Hc).
  unfold get1 in ED. rewrite ED. unfold dot.
  rewrite (fold_left_ext_in _ (fun s r' => if r' =? r then fold_left (fun s i => add s (mul (entry zero A r i) (entry zero B c i))) (seq 0 n) s else s)).
  - rewrite fold_left_only by lia. destruct (Nat.ltb_spec r (0 + ar)); [reflexivity|lia].
  - intros s r' _. destruct (Nat.eqb_spec r' r) as [->|N].
    + rewrite (fold_left_ext_in _ (fun s c' => if c' =? c then fold_left (fun s i => add s (mul (entry zero A r i) (entry zero B c i))) (seq 0 n) s else s)).
      * rewrite fold_left_only by lia. destruct (Nat.ltb_spec c (0 + br)); [reflexivity|lia].
      * intros s' c' Hc'. apply in_seq in Hc'. destruct (Nat.eqb_spec c' c) as [->|N].
        -- rewrite Nat.eqb_refl. reflexivity.
        -- apply fold_left_const. intros a b _. destruct (Nat.eqb_spec (c + br * r) (c' + br * r)); [lia|reflexivity].
    + apply fold_left_const. intros s' c' Hc'. apply in_seq in Hc'. apply fold_left_const. intros a b _.
      destruct (Nat.eqb_spec (c + br * r) (c' + br * r')) as [Eq|]; [|reflexivity].
      apply flat_index_inj in Eq; lia.
Qed.

(** ** sparse products.  The three laws below hold in every ring, and for finite doubles. *)
Hypothesis add_0_r : forall s, add s zero = s.
Hypothesis mul_0_l : forall x, mul zero x = zero.
Hypothesis mul_0_r : forall x, mul x zero = zero.

Lemma valid_rd nr nc (m : ccs F) c : ccs_valid nr nc m -> c <= nc -> rd (Ap m) c = Ok (ap m c).
Proof. intros V Hc. apply rd_nth. rewrite (v_len _ _ _ V). lia. Qed.
Lemma valid_rdz nr nc (m : ccs F) z : ccs_valid nr nc m -> (0 <= z <= Z.of_nat nc)%Z -> rdz (Ap m) z = Ok (ap m (Z.to_nat z)).
Proof. intros V Hz. unfold rdz. destruct (Z.ltb_spec z 0); [lia|]. apply (valid_rd nr nc); [assumption|lia]. Qed.
Lemma col_loop {S} nr nc (m : ccs F) c (body : Z -> S -> outcome S) (h : Z * F -> S -> outcome S) s :
  ccs_valid nr nc m -> c < nc ->
  (forall i p s, rdz (Ai m) i = Ok (fst p) -> rdz (Ax m) i = Ok (snd p) -> body i s = h p s) ->
  ofold body (zrange (ap m c) (ap m (c + 1))) s = ofold h (column m c) s.
Proof.
  intros V Hc H. destruct (valid_col nr nc m c V Hc) as (HC & OK & L). pose proof (v_mono _ _ _ V c Hc).
  replace (ap m (c + 1)) with (ap m c + Z.of_nat (length (column m c)))%Z by lia.
  apply ofold_zrange. intros k p s' Hk. destruct (hc_rd _ _ _ _ _ _ HC Hk) as [H1 H2]. apply H; assumption.
Qed.
Lemma col_range nr nc (m : ccs F) c : ccs_valid nr nc m -> c < nc -> Forall (fun p => (Z.of_nat 0 <= fst p < Z.of_nat (0 + nr))%Z) (column m c).
Proof.
  intros V Hc. destruct (valid_col nr nc m c V Hc) as (_ & [R _] & _). rewrite Forall_forall. intros p Hp.
  apply In_nth_error in Hp. destruct Hp as [k Hk]. specialize (R k p Hk). lia.
Qed.

Lemma mm_ccs_ccs_ok ar n bc a b : ccs_valid ar n a -> ccs_valid n bc b ->
  exists D, mm_ccs_ccs add mul bc a b (alloc_reg zero ar bc) = Ok D /\ shape ar bc D /\
    forall r c, r < ar -> c < bc -> entry zero D r c = dot add mul zero (dense zero a r) (fun k => dense zero b k c) n.
Proof.
  intros VA VB. unfold mm_ccs_ccs.
  destruct (point_loop (shape ar bc) get2
    (fun c D => do lo <- rd (Ap b) c; do hi <- rd (Ap b) (c + 1);
      ofold (fun r D => do k <- rdz (Ai b) r; do lo' <- rdz (Ap a) k; do hi' <- rdz (Ap a) (k + 1);
        ofold (fun i D => do r' <- rdz (Ai a) i; do x <- rdz (Ax a) i; do y <- rdz (Ax b) r; acc2 add D r' c (mul x y)) (zrange lo' hi') D) (zrange lo hi) D)
    (fun c k s => fold_left (fun s p => fold_left (fun s q => if (fst k =? Z.to_nat (fst q)) && (snd k =? c) then add s (mul (snd q) (snd p)) else s)
        (column a (Z.to_nat (fst p))) s) (column b c) s) (seq 0 bc)) with (d := alloc_reg zero ar bc) as (D & E & SD & ED); [|apply shape_alloc|].
  { intros c d Hc Sd. apply in_seq in Hc. rewrite !(valid_rd n bc) by (assumption || lia). cbn [obind].
    rewrite (col_loop n bc b c _ (fun p D => do lo' <- rdz (Ap a) (fst p); do hi' <- rdz (Ap a) (fst p + 1);
        ofold (fun i D => do r' <- rdz (Ai a) i; do x <- rdz (Ax a) i; acc2 add D r' c (mul x (snd p))) (zrange lo' hi') D)); [|assumption|lia|].
    2: { intros i p s E1 E2. rewrite E1. cbn [obind]. destruct (rdz (Ap a) (fst p)); cbn [obind]; [|reflexivity|reflexivity].
         destruct (rdz (Ap a) (fst p + 1)); cbn [obind]; [|reflexivity|reflexivity].
         apply ofold_ext. intros j t _. destruct (rdz (Ai a) j); cbn [obind]; [|reflexivity|reflexivity].
         destruct (rdz (Ax a) j); cbn [obind]; [|reflexivity|reflexivity]. rewrite E2. reflexivity. }
    apply (point_loop (shape ar bc) get2 _ (fun p k s => fold_left (fun s q => if (fst k =? Z.to_nat (fst q)) && (snd k =? c) then add s (mul (snd q) (snd p)) else s)
        (column a (Z.to_nat (fst p))) s)); [|assumption].
    intros p d' Hp Sd'. pose proof (col_range n bc b c VB ltac:(lia)) as RB. rewrite Forall_forall in RB. specialize (RB p Hp).
    rewrite !(valid_rdz ar n) by (assumption || lia). cbn [obind]. set (k := Z.to_nat (fst p)).
    replace (Z.to_nat (fst p + 1)) with (k + 1) by (unfold k; lia).
    rewrite (col_loop ar n a k _ (fun q D => acc2 add D (fst q) c (mul (snd q) (snd p)))); [|assumption|unfold k; lia|].
    2: { intros i q s E1 E2. rewrite E1, E2. reflexivity. }
    apply (point_loop (shape ar bc) get2 _ (fun q k s => if (fst k =? Z.to_nat (fst q)) && (snd k =? c) then add s (mul (snd q) (snd p)) else s)); [|assumption].
    intros q d'' Hq Sd''. pose proof (col_range ar n a k VA ltac:(unfold k; lia)) as RA. rewrite Forall_forall in RA. specialize (RA q Hq).
    destruct (acc2_shape ar bc d'' (fst q) c (mul (snd q) (snd p)) Sd'' ltac:(lia) ltac:(lia)) as (d3 & E3 & S3 & G3). exists d3. auto. }
  exists D. split; [exact E|]. split; [assumption|]. intros r c Hr Hc. specialize (ED (r, c)). unfold get2 in ED. cbn [fst snd] in ED.
  rewrite ED, entry_alloc. clear ED E SD D.
  rewrite (fold_left_ext_in _ (fun s c' => if c' =? c then dot add mul s (dense zero a r) (fun k => dense zero b k c) n else s)).
  { rewrite fold_left_only by lia. destruct (Nat.ltb_spec c (0 + bc)); [reflexivity|lia]. }
  intros s c' _. destruct (Nat.eqb_spec c' c) as [->|N].
  - rewrite Nat.eqb_refl.
    rewrite (fold_left_ext_in _ (fun s p => add s (mul (dense zero a r (Z.to_nat (fst p))) (snd p)))).
    + destruct (valid_col n bc b c VB Hc) as (HC & OK & _).
      rewrite (sparse_fold (fun s k y => add s (mul (dense zero a r k) y)) (column b c) n n 0 s).
      * unfold dot. apply fold_left_ext_in. intros s' k Hk. rewrite (dense_lookup zero _ _ _ _ k HC). reflexivity.
      * intros s' k. rewrite mul_0_r. apply add_0_r.
      * assumption.
      * apply (col_range n bc); assumption.
    + intros s' p Hp. pose proof (col_range n bc b c VB ltac:(lia)) as RB. rewrite Forall_forall in RB. specialize (RB p Hp).
      set (k := Z.to_nat (fst p)). assert (Hk : k < n) by (unfold k; lia).
      destruct (valid_col ar n a k VA Hk) as (HC & OK & _).
      rewrite (fold_left_ext_in _ (fun s q => (fun s i x => if i =? r then add s (mul x (snd p)) else s) s (Z.to_nat (fst q)) (snd q))).
      2: { intros s'' q _. rewrite andb_true_r, Nat.eqb_sym. reflexivity. }
      rewrite (sparse_fold (fun s i x => if i =? r then add s (mul x (snd p)) else s) (column a k) ar ar 0 s').
      * rewrite (fold_left_ext_in _ (fun s i => if i =? r then add s (mul (dense zero a r k) (snd p)) else s)).
        -- rewrite fold_left_only by lia. destruct (Nat.ltb_spec r (0 + ar)); [reflexivity|lia].
        -- intros s'' i _. destruct (Nat.eqb_spec i r) as [->|]; [|reflexivity]. rewrite (dense_lookup zero _ _ _ _ r HC). reflexivity.
      * intros s'' i. rewrite mul_0_l, add_0_r. destruct (i =? r); reflexivity.
      * assumption.
      * apply (col_range ar n); assumption.
  - apply fold_left_const. intros s' p _. apply fold_left_const. intros s'' q _.
    replace (c =? c') with false by (symmetry; apply Nat.eqb_neq; lia). rewrite andb_false_r. reflexivity.
Qed.

Lemma mmt_ccs_ccs_rmo_ok ar n br a b D0 : ccs_valid ar n a -> ccs_valid br n b -> shape ar br D0 ->
  exists D, mmt_ccs_ccs_rmo add mul n br a b (concat D0) = Ok (concat D) /\ shape ar br D /\
    forall r c, r < ar -> c < br -> entry zero D r c = dot add mul (entry zero D0 r c) (dense zero a r) (dense zero b c) n.
Proof.
  intros VA VB S0. unfold mmt_ccs_ccs_rmo. set (len := ar * br).
  assert (L0 : length (concat D0) = len) by (apply length_concat_rows; assumption).
  destruct (point_loop (fun D => length D = len) get1
    (fun c D => do lo <- rd (Ap a) c; do hi <- rd (Ap a) (c + 1);
      ofold (fun l1 D => do r <- rdz (Ai a) l1; do lo' <- rd (Ap b) c; do hi' <- rd (Ap b) (c + 1);
        ofold (fun l2 D => do k <- rdz (Ai b) l2; do x <- rdz (Ax a) l1; do y <- rdz (Ax b) l2;
          let idx := (k + Z.of_nat br * r)%Z in
          if (idx <? 0)%Z then UB else acc1 add D (Z.to_nat idx) (mul x y)) (zrange lo' hi') D) (zrange lo hi) D)
    (fun c k s => fold_left (fun s p => fold_left (fun s q => if k =? Z.to_nat (fst q) + br * Z.to_nat (fst p) then add s (mul (snd p) (snd q)) else s)
        (column b c) s) (column a c) s) (seq 0 n)) with (d := concat D0) as (D' & E & LD & ED); [|assumption|].
  { intros c d Hc Sd. apply in_seq in Hc. rewrite !(valid_rd ar n) by (assumption || lia). cbn [obind].
    rewrite (col_loop ar n a c _ (fun p D => ofold (fun l2 D => do k <- rdz (Ai b) l2; do y <- rdz (Ax b) l2;
          let idx := (k + Z.of_nat br * fst p)%Z in
          if (idx <? 0)%Z then UB else acc1 add D (Z.to_nat idx) (mul (snd p) y)) (zrange (ap b c) (ap b (c + 1))) D)); [|assumption|lia|].
    2: { intros i p s E1 E2. rewrite E1. cbn [obind]. rewrite !(valid_rd br n) by (assumption || lia). cbn [obind].
         apply ofold_ext. intros j t _. destruct (rdz (Ai b) j); cbn [obind]; [|reflexivity|reflexivity]. rewrite E2. cbn [obind]. reflexivity. }
    apply (point_loop (fun D => length D = len) get1 _ (fun p k s => fold_left (fun s q => if k =? Z.to_nat (fst q) + br * Z.to_nat (fst p) then add s (mul (snd p) (snd q)) else s)
        (column b c) s)); [|assumption].
    intros p d' Hp Sd'. pose proof (col_range ar n a c VA ltac:(lia)) as RA. rewrite Forall_forall in RA. specialize (RA p Hp).
    rewrite (col_loop br n b c _ (fun q D => let idx := (fst q + Z.of_nat br * fst p)%Z in
          if (idx <? 0)%Z then UB else acc1 add D (Z.to_nat idx) (mul (snd p) (snd q)))); [|assumption|lia|].
    2: { intros i q s E1 E2. rewrite E1, E2. reflexivity. }
    apply (point_loop (fun D => length D = len) get1 _ (fun q k s => if k =? Z.to_nat (fst q) + br * Z.to_nat (fst p) then add s (mul (snd p) (snd q)) else s)); [|assumption].
    intros q d'' Hq Sd''. pose proof (col_range br n b c VB ltac:(lia)) as RB. rewrite Forall_forall in RB. specialize (RB q Hq). cbv zeta.
    destruct (Z.ltb_spec (fst q + Z.of_nat br * fst p) 0); [nia|].
    replace (Z.to_nat (fst q + Z.of_nat br * fst p)) with (Z.to_nat (fst q) + br * Z.to_nat (fst p)) by lia.
    apply acc1_len; [assumption|]. unfold len.
    assert (K1 : Z.to_nat (fst q) < br) by lia. assert (K2 : Z.to_nat (fst p) < ar) by lia. nia. }
  destruct (unflat_shape ar br D' LD) as [SU CU].
  exists (unflat ar br D'). rewrite CU. split; [exact E|]. split; [assumption|]. intros r k Hr Hk.
  rewrite <- (flat_entry ar br _ _ SU CU r k Hr Hk), <- (flat_entry ar br _ _ S0 eq_refl r k Hr Hk).
  unfold get1 in ED. rewrite ED. unfold dot. apply fold_left_ext_in. intros s c Hc. apply in_seq in Hc.
  destruct (valid_col ar n a c VA ltac:(lia)) as (HA & OKA & _). destruct (valid_col br n b c VB ltac:(lia)) as (HB & OKB & _).
  rewrite (dense_lookup zero _ _ _ _ r HA), (dense_lookup zero _ _ _ _ k HB).
  rewrite (fold_left_ext_in _ (fun s p => (fun s i x => if i =? r then add s (mul x (lookup zero (Z.of_nat k) (column b c))) else s) s (Z.to_nat (fst p)) (snd p))).
  - rewrite (sparse_fold (fun s i x => if i =? r then add s (mul x (lookup zero (Z.of_nat k) (column b c))) else s) (column a c) ar ar 0 s).
    + rewrite (fold_left_ext_in _ (fun s i => if i =? r then add s (mul (lookup zero (Z.of_nat r) (column a c)) (lookup zero (Z.of_nat k) (column b c))) else s)).
      * rewrite fold_left_only by lia. destruct (Nat.ltb_spec r (0 + ar)); [reflexivity|lia].
      * intros s' i _. destruct (Nat.eqb_spec i r) as [->|]; reflexivity.
    + intros s' i. rewrite mul_0_l, add_0_r. destruct (i =? r); reflexivity.
    + assumption.
    + apply (col_range ar n); [assumption|lia].
  - intros s' p Hp. pose proof (col_range ar n a c VA ltac:(lia)) as RA. rewrite Forall_forall in RA. specialize (RA p Hp).
    destruct (Nat.eqb_spec (Z.to_nat (fst p)) r) as [Er|Er].
    + rewrite (fold_left_ext_in _ (fun s q => (fun s i y => if i =? k then add s (mul (snd p) y) else s) s (Z.to_nat (fst q)) (snd q))).
      * rewrite (sparse_fold (fun s i y => if i =? k then add s (mul (snd p) y) else s) (column b c) br br 0 s').
        -- rewrite (fold_left_ext_in _ (fun s i => if i =? k then add s (mul (snd p) (lookup zero (Z.of_nat k) (column b c))) else s)).
           ++ rewrite fold_left_only by lia. destruct (Nat.ltb_spec k (0 + br)); [reflexivity|lia].
           ++ intros s'' i _. destruct (Nat.eqb_spec i k) as [->|]; reflexivity.
        -- intros s'' i. rewrite mul_0_r, add_0_r. destruct (i =? k); reflexivity.
        -- assumption.
        -- apply (col_range br n); [assumption|lia].
      * intros s'' q Hq. pose proof (col_range br n b c VB ltac:(lia)) as RB. rewrite Forall_forall in RB. specialize (RB q Hq).
        rewrite Er. destruct (Nat.eqb_spec (k + br * r) (Z.to_nat (fst q) + br * r)), (Nat.eqb_spec (Z.to_nat (fst q)) k); try lia; reflexivity.
    + apply fold_left_const. intros s'' q Hq. pose proof (col_range br n b c VB ltac:(lia)) as RB. rewrite Forall_forall in RB. specialize (RB q Hq).
      destruct (Nat.eqb_spec (k + br * r) (Z.to_nat (fst q) + br * Z.to_nat (fst p))) as [Eq|]; [|reflexivity].
      apply flat_index_inj in Eq; lia.
Qed.
End Mat.
