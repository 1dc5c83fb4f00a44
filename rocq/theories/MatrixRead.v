(** MatrixRead.v - sparse readers, sum and difference, stacks, copies. *)
From Verif Require Import Base TextModel MatrixModel MatrixSpec MatrixProofs MatrixConvert.
Local Open Scope nat_scope.

Section Mat.
Context {F : Type} (zero : F) (grt_abs : F -> F -> bool).
Notation colT := (list (Z * F)).

(** ** plain reader *)
Lemma rdz_ub {A} (l : list A) z : (Z.of_nat (length l) <= z)%Z -> rdz l z = UB.
Proof. intros H. unfold rdz. destruct (Z.ltb_spec z 0); [reflexivity|]. apply rd_ub. lia. Qed.

Lemma read_loop_col (m : ccs F) r nr : forall col off,
  (0 <= off)%Z -> col_ok nr col ->
  (forall k p, nth_error col k = Some p ->
     rdz (Ai m) (off + Z.of_nat k) = Ok (fst p) /\ rdz (Ax m) (off + Z.of_nat k) = Ok (snd p)) ->
  (off + Z.of_nat (length col) <= Z.of_nat (length (Ai m)))%Z ->
  read_loop zero m r off (length col) =
    if (off + Z.of_nat (length col) =? Z.of_nat (length (Ai m)))%Z && forallb (fun p => fst p <? r)%Z col then UB
    else Ok (lookup zero r col).
Proof.
  induction col as [|p col IH]; intros off P OK H L.
  - cbn [length read_loop forallb]. rewrite andb_true_r.
    destruct (Z.eqb_spec (off + Z.of_nat 0) (Z.of_nat (length (Ai m)))) as [E|E].
    + rewrite rdz_ub by lia. reflexivity.
    + rewrite (rdz_nth _ _ 0%Z) by (cbn [length] in L; lia). cbn [obind]. destruct (_ <=? r)%Z; reflexivity.
  - cbn [length read_loop]. destruct (H 0 p eq_refl) as [H1 H2]. rewrite Z.add_0_r in H1, H2.
    rewrite H1. cbn [obind forallb]. rewrite lookup_cons.
    destruct (Z.leb_spec (fst p) r) as [C|C].
    + destruct (Z.eqb_spec (fst p) r) as [E|E].
      * rewrite H2. replace (fst p <? r)%Z with false by (symmetry; apply Z.ltb_ge; lia). cbn [andb]. rewrite andb_false_r. reflexivity.
      * rewrite IH.
        -- replace (fst p <? r)%Z with true by (symmetry; apply Z.ltb_lt; lia). cbn [andb].
           replace (off + 1 + Z.of_nat (length col))%Z with (off + Z.of_nat (S (length col)))%Z by lia. reflexivity.
        -- lia.
        -- eapply col_ok_tl; eassumption.
        -- intros k q Hk. specialize (H (S k) q Hk). replace (off + 1 + Z.of_nat k)%Z with (off + Z.of_nat (S k))%Z by lia. exact H.
        -- cbn [length] in L. lia.
    + replace (fst p <? r)%Z with false by (symmetry; apply Z.ltb_ge; lia). cbn [andb]. rewrite andb_false_r.
      replace (fst p =? r)%Z with false by (symmetry; apply Z.eqb_neq; lia).
      rewrite lookup_lt; [reflexivity|]. pose proof (col_ok_lt _ _ _ OK) as LT. eapply Forall_impl; [|exact LT]. intros a; cbn beta; lia.
Qed.

Lemma forallb_zrange (g : Z -> bool) (h : Z * F -> bool) (col : colT) : forall off,
  (forall k p, nth_error col k = Some p -> g (off + Z.of_nat k)%Z = h p) ->
  forallb g (zrange off (off + Z.of_nat (length col))) = forallb h col.
Proof.
  induction col as [|p l IH]; intros off H.
  - rewrite zrange_nil by (cbn; lia). reflexivity.
  - rewrite zrange_cons by (cbn [length]; lia). cbn [forallb].
    rewrite <- (H 0 p eq_refl). replace (off + Z.of_nat 0)%Z with off by lia. f_equal.
    replace (off + Z.of_nat (length (p :: l)))%Z with (off + 1 + Z.of_nat (length l))%Z by (cbn [length]; lia).
    apply IH. intros k q Hk. rewrite <- (H (S k) q) by assumption. f_equal. lia.
Qed.
Lemma hc_ai (m : ccs F) c off col k p : has_col m c off col -> nth_error col k = Some p ->
  ai m (off + Z.of_nat k) = fst p /\ ax zero m (off + Z.of_nat k) = snd p.
Proof.
  intros H Hk. destruct (hc_ent _ _ _ _ H _ _ Hk) as [H1 H2]. unfold ai, ax. pose proof (hc_pos _ _ _ _ H).
  replace (Z.to_nat (off + Z.of_nat k)) with (Z.to_nat off + k) by lia.
  split; apply nth_error_nth; assumption.
Qed.

Lemma read_plain_ok nr nc (m : ccs F) r c : ccs_valid nr nc m -> c < nc ->
  read_plain zero m r c = if read_oob m r c then UB else Ok (dense zero m r c).
Proof.
  intros V Hc. destruct (valid_col nr nc m c V Hc) as (HC & OK & L).
  pose proof (v_mono _ _ _ V c Hc) as M. pose proof (valid_mono _ _ _ (c + 1) nc V ltac:(lia) ltac:(lia)) as M2.
  rewrite (v_last _ _ _ V), <- (v_same _ _ _ V) in M2.
  set (col := column m c) in *. set (off := ap m c) in *.
  unfold read_plain. rewrite (hc_rdlo _ _ _ _ HC), (hc_rdhi _ _ _ _ HC). cbn [obind].
  replace (Z.to_nat (off + Z.of_nat (length col) - off)) with (length col) by lia.
  assert (E : ap m (c + 1) = (off + Z.of_nat (length col))%Z) by lia.
  rewrite (read_loop_col m _ nr col off).
  - unfold read_oob. fold off. rewrite E. rewrite (dense_lookup zero _ _ _ _ r HC).
    rewrite (forallb_zrange _ (fun p => fst p <? Z.of_nat r)%Z col off); [reflexivity|].
    intros k p Hk. destruct (hc_ai _ _ _ _ _ _ HC Hk) as [-> _]. reflexivity.
  - apply (hc_pos _ _ _ _ HC).
  - assumption.
  - intros k p Hk. apply (hc_rd _ _ _ _ _ _ HC Hk).
  - lia.
Qed.

(** the reader never leaves the array exactly when the corner entry is stored *)
Lemma sorted_lt nr nc (m : ccs F) c i j : ccs_valid nr nc m -> c < nc ->
  (ap m c <= i)%Z -> (i < j)%Z -> (j < ap m (c + 1))%Z -> (ai m i < ai m j)%Z.
Proof.
  intros V Hc Hi Hij Hj. revert Hj. pattern j. apply Zlt_lower_bound_ind with (z := (i + 1)%Z); [|lia].
  intros x IH Hx Hj. destruct (Z.eq_dec x (i + 1)) as [->|N].
  - apply (v_sorted _ _ _ V c i); lia.
  - pose proof (v_sorted _ _ _ V c (x - 1)%Z Hc ltac:(lia) ltac:(lia)) as A.
    replace (x - 1 + 1)%Z with x in A by lia. specialize (IH (x - 1)%Z ltac:(lia) ltac:(lia)). lia.
Qed.
Lemma corner_no_oob nr nc (m : ccs F) r c : ccs_valid nr nc m -> corner_stored nr nc m -> r < nr -> c < nc ->
  read_oob m r c = false.
Proof.
  intros V (i & Hi & Ei) Hr Hc. unfold read_oob. apply andb_false_iff.
  destruct (Nat.eq_dec c (nc - 1)) as [->|N].
  - right. apply not_true_is_false. rewrite forallb_forall. intros H.
    specialize (H i). replace (nc - 1 + 1) with nc in H by lia. rewrite in_zrange in H. specialize (H Hi).
    apply Z.ltb_lt in H. rewrite Ei in H. lia.
  - left. apply Z.eqb_neq. pose proof (valid_mono _ _ _ (c + 1) (nc - 1) V ltac:(lia) ltac:(lia)).
    rewrite (v_same _ _ _ V), <- (v_last _ _ _ V). lia.
Qed.
Lemma no_corner_oob nr nc (m : ccs F) : ccs_valid nr nc m -> 0 < nr -> 0 < nc -> ~ corner_stored nr nc m ->
  read_oob m (nr - 1) (nc - 1) = true.
Proof.
  intros V Hr Hc N. unfold read_oob. replace (nc - 1 + 1) with nc by lia. apply andb_true_iff. split.
  - apply Z.eqb_eq. rewrite (v_last _ _ _ V), (v_same _ _ _ V). reflexivity.
  - apply forallb_forall. intros i Hi. apply in_zrange in Hi. apply Z.ltb_lt.
    pose proof (valid_nonneg nr nc m (nc - 1) V ltac:(lia)).
    pose proof (v_last _ _ _ V) as VL. pose proof (v_same _ _ _ V) as VS.
    pose proof (v_range _ _ _ V i ltac:(lia)) as R.
    destruct (Z.eq_dec (ai m i) (Z.of_nat (nr - 1))) as [E|E]; [|lia]. exfalso. apply N. exists i. split; assumption.
Qed.

(** ** coarse graining *)
Definition qq (m : ccs F) (N c : nat) : Z := ((ap m (c + 1) - ap m c) / Z.of_nat N)%Z.
Definition icol (m : ccs F) (N c : nat) : list Z := map (fun s => (ap m c + Z.of_nat s * qq m N c)%Z) (seq 0 N).

Lemma concat_map_length {A} (f : nat -> list A) n l : (forall x, length (f x) = n) -> length (concat (map f l)) = length l * n.
Proof. intros H. induction l as [|x l IH]; cbn [map concat length]; [reflexivity|]. rewrite app_length, H, IH. reflexivity. Qed.

Lemma fill_loop (v : nat -> Z) n : forall k pre post, length post = n ->
  ofold (fun k (p : list Z * nat) => let '(icg, ii) := p in do icg' <- wr icg ii (v k); Ok (icg', S ii)) (seq k n) (pre ++ post, length pre)
  = Ok (pre ++ map v (seq k n), length pre + n).
Proof.
  induction n as [|n IH]; intros k pre post L.
  - destruct post; [|discriminate]. cbn. rewrite Nat.add_0_r. reflexivity.
  - destruct post as [|x post]; [discriminate|]. cbn [seq ofold]. rewrite wr_app. cbn [obind].
    specialize (IH (S k) (pre ++ [v k]) post). rewrite app_length in IH. cbn [length] in IH.
    rewrite <- app_assoc in IH. cbn [app] in IH. replace (length pre + 1) with (S (length pre)) in IH by lia.
    rewrite IH by (cbn [length] in L; lia). rewrite <- app_assoc. cbn [app map]. do 2 f_equal. lia.
Qed.
Lemma fill_loop2 (v : nat -> Z) n k pre post rest : length post = n ->
  ofold (fun k (p : list Z * nat) => let '(icg, ii) := p in do icg' <- wr icg ii (v k); Ok (icg', S ii)) (seq k n) (pre ++ post ++ rest, length pre)
  = Ok (pre ++ map v (seq k n) ++ rest, length pre + n).
Proof.
  revert k pre post; induction n as [|n IH]; intros k pre post L.
  - destruct post; [|discriminate]. cbn. rewrite Nat.add_0_r. reflexivity.
  - destruct post as [|x post]; [discriminate|]. cbn [seq ofold app]. rewrite wr_app. cbn [obind].
    specialize (IH (S k) (pre ++ [v k]) post). rewrite app_length in IH. cbn [length] in IH.
    rewrite <- app_assoc in IH. cbn [app] in IH. replace (length pre + 1) with (S (length pre)) in IH by lia.
    rewrite IH by (cbn [length] in L; lia). rewrite <- app_assoc. cbn [app map]. do 2 f_equal. lia.
Qed.

Lemma coarse_grain_ok nr nc N (m : ccs F) : ccs_valid nr nc m -> 0 < N ->
  (Z.of_nat nc * Z.of_nat N <= 2147483647)%Z ->
  (forall c, c < nc -> (Z.of_nat N <= ap m (c + 1) - ap m c)%Z) ->
  coarse_grain nc N m = Ok (mkCcs (Ap m) (Ai m) (Ax m)
     (Some (map (fun c => Z.of_nat (c * N)) (seq 0 (nc + 1)),
            concat (map (icol m N) (seq 0 nc)) ++ [ap m nc]))).
Proof.
  intros V HN HZ HS. unfold coarse_grain. destruct (Nat.eqb_spec N 0); [lia|].
  destruct (Z.gtb_spec (Z.of_nat nc * Z.of_nat N) 2147483647); [lia|].
  assert (RA : forall c, c <= nc -> rd (Ap m) c = Ok (ap m c)).
  { intros c Hc. apply rd_nth. rewrite (v_len _ _ _ V). lia. }
  assert (IL : forall c, length (icol m N c) = N) by (intros c; unfold icol; rewrite map_length, seq_length; reflexivity).
  set (P := fun k (s : list Z * list Z * nat) =>
    s = (map (fun c => Z.of_nat (c * N)) (seq 0 k) ++ repeat 0%Z (nc + 1 - k),
         concat (map (icol m N) (seq 0 k)) ++ repeat 0%Z ((nc - k) * N + 1), k * N)).
  edestruct (ofold_seq_inv P) with (n := nc) (k := 0) (s := (repeat 0%Z (nc + 1), repeat 0%Z (nc * N + 1), 0)) as (s & E & Hs).
  3: { rewrite E. cbn [obind]. rewrite Hs. cbn [Nat.add]. rewrite Nat.sub_diag. replace (nc + 1 - nc) with 1 by lia.
       cbn [repeat Nat.mul Nat.add]. rewrite RA by lia. cbn [obind].
       assert (L1 : length (concat (map (icol m N) (seq 0 nc))) = nc * N).
       { rewrite (concat_map_length _ N) by assumption. rewrite seq_length. reflexivity. }
       pose proof (wr_app (concat (map (icol m N) (seq 0 nc))) [] 0%Z (ap m nc)) as W1. rewrite L1 in W1.
       rewrite W1. cbn [obind].
       assert (L2 : length (map (fun c => Z.of_nat (c * N)) (seq 0 nc)) = nc) by (rewrite map_length, seq_length; reflexivity).
       pose proof (wr_app (map (fun c => Z.of_nat (c * N)) (seq 0 nc)) [] 0%Z (Z.of_nat (nc * N))) as W2. rewrite L2 in W2.
       rewrite W2. cbn [obind]. do 3 f_equal.
       rewrite seq_app, map_app. reflexivity. }
  2: { unfold P. cbn [seq map concat app]. rewrite !Nat.sub_0_r. reflexivity. }
  intros c s Hc Es. unfold P in Es. subst s.
  rewrite !RA by lia. cbn [obind].
  specialize (HS c ltac:(lia)). destruct (Z.ltb_spec (ap m (c + 1) - ap m c) (Z.of_nat N)); [lia|].
  rewrite Z.quot_div_nonneg by lia. fold (qq m N c).
  replace (nc + 1 - c) with (S (nc + 1 - (c + 1))) by lia. cbn [repeat].
  assert (L2 : length (map (fun c => Z.of_nat (c * N)) (seq 0 c)) = c) by (rewrite map_length, seq_length; reflexivity).
  pose proof (wr_app (map (fun c => Z.of_nat (c * N)) (seq 0 c)) (repeat 0%Z (nc + 1 - (c + 1))) 0%Z (Z.of_nat (c * N))) as W.
  rewrite L2 in W. rewrite W. clear W. cbn [obind].
  assert (L1 : length (concat (map (icol m N) (seq 0 c))) = c * N).
  { rewrite (concat_map_length _ N) by assumption. rewrite seq_length. reflexivity. }
  replace ((nc - c) * N + 1) with (N + ((nc - (c + 1)) * N + 1)) by (replace (nc - c) with (S (nc - (c + 1))) by lia; lia).
  rewrite repeat_app.
  pose proof (fill_loop2 (fun s => (ap m c + Z.of_nat s * qq m N c)%Z) N 0 (concat (map (icol m N) (seq 0 c)))
    (repeat 0%Z N) (repeat 0%Z ((nc - (c + 1)) * N + 1)) (repeat_length _ _)) as FL.
  rewrite L1 in FL. rewrite FL. cbn [obind fst snd]. eexists. split; [reflexivity|].
  unfold P. rewrite seq_app, !map_app, concat_app. cbn [seq map concat]. rewrite app_nil_r, <- !app_assoc. cbn [app Nat.add].
  fold (icol m N c). replace ((c + 1) * N) with (c * N + N) by lia. reflexivity.
Qed.
Lemma coarse_grain_abort nr nc N (m : ccs F) c : ccs_valid nr nc m -> 0 < N ->
  (Z.of_nat nc * Z.of_nat N <= 2147483647)%Z -> c < nc -> (ap m (c + 1) - ap m c < Z.of_nat N)%Z ->
  coarse_grain nc N m = Abort.
Proof.
  (* take the first such column *)
  intros V HN HZ Hc HS.
  assert (EX : exists c0, c0 <= c /\ (ap m (c0 + 1) - ap m c0 < Z.of_nat N)%Z /\
            forall d, d < c0 -> (Z.of_nat N <= ap m (d + 1) - ap m d)%Z).
  { clear V HN HZ Hc. revert HS. induction c as [c IH] using lt_wf_ind. intros HS.
    destruct (forallb (fun d => Z.of_nat N <=? ap m (d + 1) - ap m d)%Z (seq 0 c)) eqn:FB.
    - exists c. split; [lia|]. split; [assumption|]. intros d Hd. rewrite forallb_forall in FB.
      apply Z.leb_le. apply FB. apply in_seq. lia.
    - assert (exists d, d < c /\ (ap m (d + 1) - ap m d < Z.of_nat N)%Z) as (d & Hd & Ed).
      { apply not_true_iff_false in FB. destruct (existsb (fun d => ap m (d + 1) - ap m d <? Z.of_nat N)%Z (seq 0 c)) eqn:XB.
        - apply existsb_exists in XB. destruct XB as (d & Hd & Ed). apply in_seq in Hd. apply Z.ltb_lt in Ed. exists d. split; [lia|assumption].
        - exfalso. apply FB. apply forallb_forall. intros d Hd. apply Z.leb_le. apply Z.nlt_ge. intros HL.
          rewrite <- not_true_iff_false in XB. apply XB. apply existsb_exists. exists d. split; [assumption|]. apply Z.ltb_lt. assumption. }
      destruct (IH d Hd Ed) as (c0 & H1 & H2 & H3). exists c0. split; [lia|]. split; assumption. }
  destruct EX as (c0 & Hc0 & HS0 & HB). unfold coarse_grain. destruct (Nat.eqb_spec N 0); [lia|].
  destruct (Z.gtb_spec (Z.of_nat nc * Z.of_nat N) 2147483647); [lia|].
  assert (RA : forall c, c <= nc -> rd (Ap m) c = Ok (ap m c)).
  { intros d Hd. apply rd_nth. rewrite (v_len _ _ _ V). lia. }
  replace nc with (c0 + S (nc - c0 - 1)) at 1 by lia. rewrite seq_app, ofold_app.
  set (P := fun k (s : list Z * list Z * nat) =>
    length (fst (fst s)) = nc + 1 /\ length (snd (fst s)) = nc * N + 1 /\ snd s = k * N).
  edestruct (ofold_seq_inv P) with (n := c0) (k := 0) (s := (repeat 0%Z (nc + 1), repeat 0%Z (nc * N + 1), 0)) as (s & E & Hs).
  3: { rewrite E. destruct s as [[a b] ii]. cbn [obind seq ofold Nat.add]. rewrite !RA by lia. cbn [obind].
       destruct (Z.ltb_spec (ap m (c0 + 1) - ap m c0) (Z.of_nat N)); [reflexivity|lia]. }
  2: { unfold P. cbn [fst snd]. rewrite !repeat_length. repeat split. }
  intros d [[a b] ii] Hd (P1 & P2 & P3). cbn [fst snd] in *.
  rewrite !RA by lia. cbn [obind]. specialize (HB d ltac:(lia)).
  destruct (Z.ltb_spec (ap m (d + 1) - ap m d) (Z.of_nat N)); [lia|].
  destruct (wr_spec a d (Z.of_nat ii) ltac:(lia)) as (a' & Ea & La & _). rewrite Ea. cbn [obind].
  set (q := Z.quot _ _).
  destruct (ofold_seq_inv (fun k (p : list Z * nat) => length (fst p) = nc * N + 1 /\ snd p = d * N + k)
     (fun k (p : list Z * nat) => let '(icg, ii) := p in do icg' <- wr icg ii (ap m d + Z.of_nat k * q)%Z; Ok (icg', S ii)) N 0 (b, ii)) as (p & Ep & Hp1 & Hp2).
  - intros k [b' ii'] Hk [Q1 Q2]. cbn [fst snd] in *.
    assert (ii' < length b') by (rewrite Q1, Q2; nia).
    destruct (wr_spec b' ii' (ap m d + Z.of_nat k * q)%Z H1) as (b'' & Eb & Lb & _). rewrite Eb. cbn [obind].
    eexists. split; [reflexivity|]. cbn [fst snd]. lia.
  - cbn [fst snd]. lia.
  - rewrite Ep. cbn [obind]. eexists. split; [reflexivity|]. unfold P. cbn [fst snd]. lia.
Qed.

(** ** coarse-grained reader *)
Lemma zrange_split a b c : (a <= b <= c)%Z -> zrange a c = zrange a b ++ zrange b c.
Proof.
  intros H. unfold zrange. replace (Z.to_nat (c - a)) with (Z.to_nat (b - a) + Z.to_nat (c - b)) by lia.
  rewrite seq_app, map_app. f_equal. cbn [Nat.add].
  transitivity (map (fun k => (a + Z.of_nat (Z.to_nat (b - a) + k))%Z) (seq 0 (Z.to_nat (c - b)))).
  - rewrite <- (map_map (fun k => Z.to_nat (b - a) + k) (fun k => (a + Z.of_nat k)%Z)). f_equal.
    generalize (Z.to_nat (c - b)) as n, (Z.to_nat (b - a)) as s. clear. intros n s.
    rewrite <- (Nat.add_0_r s) at 1. generalize 0 as k. induction n as [|n IH]; intros k; cbn [seq map]; [reflexivity|].
    f_equal. rewrite <- IH. f_equal. lia.
  - apply map_ext. intros k. lia.
Qed.
Lemma find_app {A} (f : A -> bool) l1 l2 : find f (l1 ++ l2) = match find f l1 with Some x => Some x | None => find f l2 end.
Proof. induction l1 as [|x l IH]; cbn [find app]; [reflexivity|]. destruct (f x); auto. Qed.
Lemma find_none_iff {A} (f : A -> bool) l : (forall x, In x l -> f x = false) -> find f l = None.
Proof. induction l as [|x l IH]; intros H; cbn [find]; [reflexivity|]. rewrite H by (left; reflexivity). apply IH. intros y Hy. apply H. right; assumption. Qed.

Lemma scan_find (m : ccs F) r l : (forall i, In i l -> (0 <= i < Z.of_nat (length (Ai m)))%Z) -> length (Ai m) = length (Ax m) ->
  scan zero m r l = Ok (match find (fun i => ai m i =? r)%Z l with Some i => ax zero m i | None => zero end).
Proof.
  intros H L. induction l as [|i l IH]; cbn [scan find]; [reflexivity|].
  specialize (H i (or_introl eq_refl)) as Hi. rewrite (rdz_nth (Ai m) i 0%Z Hi). cbn [obind]. fold (ai m i).
  destruct (ai m i =? r)%Z.
  - rewrite (rdz_nth (Ax m) i zero) by lia. reflexivity.
  - apply IH. intros j Hj. apply H. right; assumption.
Qed.

Lemma icg_nth (m : ccs F) N nc c s : 0 < N -> c < nc -> s < N ->
  nth_error (concat (map (icol m N) (seq 0 nc)) ++ [ap m nc]) (c * N + s) = Some (ap m c + Z.of_nat s * qq m N c)%Z.
Proof.
  intros HN Hc Hs.
  assert (IL : forall c, length (icol m N c) = N) by (intros d; unfold icol; rewrite map_length, seq_length; reflexivity).
  replace nc with (c + S (nc - c - 1)) at 1 by lia. rewrite seq_app, map_app, concat_app. cbn [seq map concat Nat.add].
  assert (L1 : length (concat (map (icol m N) (seq 0 c))) = c * N).
  { rewrite (concat_map_length _ N) by assumption. rewrite seq_length. reflexivity. }
  rewrite <- !app_assoc. rewrite nth_error_app2 by lia. rewrite L1. replace (c * N + s - c * N) with s by lia.
  rewrite nth_error_app1 by (rewrite IL; assumption). unfold icol. rewrite nth_error_map.
  rewrite (nth_error_nth' _ 0) by (rewrite seq_length; assumption). rewrite seq_nth by assumption. reflexivity.
Qed.
Lemma icg_next (m : ccs F) N nc c : 0 < N -> c < nc ->
  nth_error (concat (map (icol m N) (seq 0 nc)) ++ [ap m nc]) (c * N + N) = Some (ap m (c + 1)).
Proof.
  intros HN Hc. destruct (Nat.eq_dec (c + 1) nc) as [E|E].
  - assert (IL : forall c, length (icol m N c) = N) by (intros d; unfold icol; rewrite map_length, seq_length; reflexivity).
    assert (L1 : length (concat (map (icol m N) (seq 0 nc))) = nc * N).
    { rewrite (concat_map_length _ N) by assumption. rewrite seq_length. reflexivity. }
    rewrite nth_error_app2 by nia. rewrite L1. subst nc. replace (c * N + N - (c + 1) * N) with 0 by lia. reflexivity.
  - replace (c * N + N) with ((c + 1) * N + 0) by lia. rewrite icg_nth by lia. f_equal. lia.
Qed.

Lemma read_cg_ok nr nc N (m m' : ccs F) r c : ccs_valid nr nc m -> coarse_grain nc N m = Ok m' -> c < nc ->
  read_cg zero m' r c = Ok (dense zero m r c).
Proof.
  intros V CG Hc.
  assert (HN : 0 < N). { destruct N; [|lia]. discriminate. }
  assert (HZ : (Z.of_nat nc * Z.of_nat N <= 2147483647)%Z).
  { unfold coarse_grain in CG. destruct (Nat.eqb_spec N 0); [lia|]. destruct (Z.gtb_spec (Z.of_nat nc * Z.of_nat N) 2147483647); [discriminate|assumption]. }
  assert (HS : forall c, c < nc -> (Z.of_nat N <= ap m (c + 1) - ap m c)%Z).
  { intros d Hd. apply Z.nlt_ge. intros HL. rewrite (coarse_grain_abort nr nc N m d V HN HZ Hd HL) in CG. discriminate. }
  rewrite (coarse_grain_ok nr nc N m V HN HZ HS) in CG. injection CG as <-.
  unfold read_cg. cbn [cg].
  assert (RC : forall d, d <= nc -> rd (map (fun c => Z.of_nat (c * N)) (seq 0 (nc + 1))) d = Ok (Z.of_nat (d * N))).
  { intros d Hd. apply rd_ok. rewrite nth_error_map, (nth_error_nth' _ 0) by (rewrite seq_length; lia). rewrite seq_nth by lia. reflexivity. }
  rewrite !RC by lia. cbn [obind]. set (icg := concat (map (icol m N) (seq 0 nc)) ++ [ap m nc]).
  set (m' := mkCcs (Ap m) (Ai m) (Ax m) _).
  assert (AI : forall i, ai m' i = ai m i) by reflexivity.
  pose (B := fun s => if s =? N then ap m (c + 1) else (ap m c + Z.of_nat s * qq m N c)%Z).
  specialize (HS c Hc).
  assert (Hq : (1 <= qq m N c)%Z). { unfold qq. apply Z.div_le_lower_bound; lia. }
  assert (HqN : (Z.of_nat N * qq m N c <= ap m (c + 1) - ap m c)%Z). { unfold qq. apply Z.mul_div_le. lia. }
  assert (BI : forall s, s <= N -> nth_error icg (c * N + s) = Some (B s)).
  { intros s Hs. unfold B. destruct (Nat.eqb_spec s N) as [->|]; [apply icg_next; assumption|apply icg_nth; lia]. }
  assert (BM : forall s, s < N -> (ap m c <= B s)%Z /\ (B s < B (s + 1)%nat)%Z /\ (B (s + 1)%nat <= ap m (c + 1)%nat)%Z).
  { intros s Hs. unfold B. destruct (Nat.eqb_spec s N); [lia|]. destruct (Nat.eqb_spec (s + 1) N) as [E|E]; nia. }
  assert (RI : forall s, s <= N -> rdz icg (Z.of_nat (c * N) + Z.of_nat s) = Ok (B s)).
  { intros s Hs. unfold rdz. destruct (Z.ltb_spec (Z.of_nat (c * N) + Z.of_nat s) 0); [lia|]. apply rd_ok.
    replace (Z.to_nat (Z.of_nat (c * N) + Z.of_nat s)) with (c * N + s) by lia. apply BI; assumption. }
  pose proof (valid_nonneg nr nc m c V ltac:(lia)) as PN.
  pose proof (valid_mono _ _ _ (c + 1) nc V ltac:(lia) ltac:(lia)) as M2. rewrite (v_last _ _ _ V), <- (v_same _ _ _ V) in M2.
  assert (FS : forall n s, s + n + 1 = N -> (forall i, (ap m c <= i < B s)%Z -> (ai m i < Z.of_nat r)%Z) ->
    exists s', find_slice m' icg (Z.of_nat r) (Z.of_nat (c * N) + Z.of_nat s) n = Ok (Z.of_nat (c * N) + Z.of_nat s')%Z /\ s' < N /\
      (forall i, (ap m c <= i < B s')%Z -> (ai m i < Z.of_nat r)%Z) /\
      (forall i, (B (s' + 1)%nat <= i < ap m (c + 1)%nat)%Z -> (Z.of_nat r < ai m i)%Z)).
  { induction n as [|n IH]; intros s Hs HB.
    - exists s. split; [reflexivity|]. split; [lia|]. split; [assumption|]. intros i Hi. exfalso.
      assert (E : B (s + 1) = ap m (c + 1)) by (unfold B; replace (s + 1 =? N) with true by (symmetry; apply Nat.eqb_eq; lia); reflexivity). lia.
    - cbn [find_slice]. replace (Z.of_nat (c * N) + Z.of_nat s + 1)%Z with (Z.of_nat (c * N) + Z.of_nat (s + 1))%Z by lia.
      rewrite RI by lia. cbn [obind]. pose proof (BM s ltac:(lia)) as (b1 & b2 & b3).
      assert (PR : (0 <= B (s + 1)%nat - 1 < Z.of_nat (length (Ai m)))%Z) by (clear -b1 b2 b3 PN M2; lia).
      rewrite (rdz_nth (Ai m') (B (s + 1)%nat - 1)%Z 0%Z PR). cbn [obind]. change (nth (Z.to_nat (B (s + 1)%nat - 1)) (Ai m') 0%Z) with (ai m (B (s + 1)%nat - 1)%Z).
      destruct (Z.leb_spec (Z.of_nat r) (ai m (B (s + 1)%nat - 1))) as [C|C].
      + exists s. split; [reflexivity|]. split; [lia|]. split; [assumption|]. intros i Hi.
        pose proof (sorted_lt nr nc m c (B (s + 1)%nat - 1)%Z i V Hc ltac:(lia) ltac:(lia) ltac:(lia)). lia.
      + apply IH; [lia|]. intros i Hi. destruct (Z.eq_dec i (B (s + 1)%nat - 1)) as [->|NE]; [assumption|].
        pose proof (sorted_lt nr nc m c i (B (s + 1)%nat - 1)%Z V Hc ltac:(lia) ltac:(lia) ltac:(lia)). lia. }
  replace (Z.to_nat (Z.of_nat ((c + 1) * N) - 1 - Z.of_nat (c * N))) with (N - 1) by lia.
  destruct (FS (N - 1) 0 ltac:(lia)) as (s & E & Hs & H1 & H2).
  { intros i Hi. exfalso. unfold B in Hi. destruct (Nat.eqb_spec 0 N); lia. }
  change (Z.of_nat 0) with 0%Z in E. rewrite Z.add_0_r in E.
  rewrite E. cbn [obind]. replace (Z.of_nat (c * N) + Z.of_nat s + 1)%Z with (Z.of_nat (c * N) + Z.of_nat (s + 1))%Z by lia.
  rewrite !RI by lia. cbn [obind]. pose proof (BM s Hs) as (b1 & b2 & b3).
  rewrite scan_find.
  - f_equal. unfold dense. rewrite (zrange_split (ap m c) (B s) (ap m (c + 1))) by lia.
    rewrite (zrange_split (B s) (B (s + 1)) (ap m (c + 1))) by lia. rewrite !find_app.
    rewrite (find_none_iff _ (zrange (ap m c) (B s))).
    2: { intros i Hi. apply in_zrange in Hi. apply Z.eqb_neq. specialize (H1 i Hi). lia. }
    rewrite (find_none_iff _ (zrange (B (s + 1)) (ap m (c + 1)))).
    2: { intros i Hi. apply in_zrange in Hi. apply Z.eqb_neq. specialize (H2 i Hi). lia. }
    change (fun i => (ai m' i =? Z.of_nat r)%Z) with (fun i => (ai m i =? Z.of_nat r)%Z).
    destruct (find _ (zrange (B s) (B (s + 1)))); reflexivity.
  - intros i Hi. apply in_zrange in Hi. cbn [m' Ai]. lia.
  - apply (v_same _ _ _ V).
Qed.

(** ** CCSOpCCS *)
Lemma list_prod_cons_length (p : nat -> nat -> bool) r l l' :
  length (filter (fun rc => p (fst rc) (snd rc)) (list_prod (r :: l) l')) =
  length (filter (p r) l') + length (filter (fun rc => p (fst rc) (snd rc)) (list_prod l l')).
Proof.
  cbn [list_prod]. rewrite filter_app, app_length. f_equal. induction l' as [|c l' IH]; cbn [map filter]; [reflexivity|].
  cbn [fst snd]. destruct (p r c); cbn [length]; rewrite IH; reflexivity.
Qed.
Lemma reg_cols_count2 lim nr nc (v : nat -> nat -> F) :
  length (concat (reg_cols grt_abs lim nr nc v)) = count2 (fun r c => grt_abs (v r c) lim) nr nc.
Proof.
  unfold count2. set (p := fun r c => grt_abs (v r c) lim).
  assert (E1 : length (concat (reg_cols grt_abs lim nr nc v)) =
     list_sum (map (fun c => list_sum (map (fun r => if p r c then 1 else 0) (seq 0 nr))) (seq 0 nc))).
  { unfold reg_cols. generalize (seq 0 nc) as l. induction l as [|c l IH]; cbn [map concat]; [reflexivity|].
    rewrite app_length, IH, dcol_length, length_filter_sum, map_map. reflexivity. }
  rewrite E1, list_sum_swap. clear E1. generalize (seq 0 nr) as l, (seq 0 nc) as l'. intros l l'.
  induction l as [|r l IH]; [reflexivity|]. etransitivity; [|symmetry; apply (list_prod_cons_length p)].
  cbn [map]. change (list_sum (?a :: ?b)) with (a + list_sum b). f_equal; [symmetry; apply length_filter_sum|exact IH].
Qed.

Lemma ccsop_ok reader f nr nc (m2 m1 : ccs F) v2 v1 : 0 < nr -> 0 < nc ->
  (forall r c, r < nr -> c < nc -> reader m2 r c = Ok (v2 r c) /\ reader m1 r c = Ok (v1 r c)) ->
  (Z.of_nat nr <= 2147483648)%Z ->
  (Z.of_nat (count2 (fun r c => grt_abs (f (v2 r c) (v1 r c)) zero) nr nc) <= 2147483647)%Z ->
  CCSOpCCS zero grt_abs reader (Some f) nr nc m2 nr nc m1 =
    Ok (mkM nr nc (CCS (of_cols (reg_cols grt_abs zero nr nc (fun r c => f (v2 r c) (v1 r c)))))).
Proof.
  intros Hr Hc HR B1 B2. unfold CCSOpCCS. rewrite !Nat.eqb_refl. cbn [negb].
  destruct (convert_gen grt_abs wrap_int (fun c r b => do x2 <- reader m2 r c; do x1 <- reader m1 r c;
     if grt_abs (f x2 x1) zero then Ok (push wrap_int b (Z.of_nat r) (f x2 x1)) else Ok b) zero nr nc (fun r c => f (v2 r c) (v1 r c)))
   as (b & E & Hb).
  - intros r c b Hr' Hc'. destruct (HR r c Hr' Hc') as [-> ->]. cbn [obind]. destruct (grt_abs _ _); reflexivity.
  - intros z Hz. apply wrap_int_id. lia.
  - intros z Hz. apply wrap_int_id. rewrite reg_cols_count2 in Hz. lia.
  - rewrite E. cbn [obind]. destruct (Nat.eqb_spec nr 0); [lia|]. destruct (Nat.eqb_spec nc 0); [lia|]. cbn [orb].
    rewrite Hb. reflexivity.
Qed.

(** a loop in which one round is UB whatever the state and the others are never Abort *)
Lemma ofold_ub {I S} (f : I -> S -> outcome S) l i0 :
  In i0 l -> (forall s, f i0 s = UB) -> (forall i s, In i l -> f i s <> Abort) -> forall s, ofold f l s = UB.
Proof.
  intros Hin U. induction l as [|i l IH]; intros NA s; [destruct Hin|]. cbn [ofold].
  destruct Hin as [->|Hin]; [rewrite U; reflexivity|].
  pose proof (NA i s (or_introl eq_refl)) as N1.
  destruct (f i s); [|congruence|reflexivity]. cbn [obind]. apply IH; [assumption|]. intros j t Hj. apply NA. right; assumption.
Qed.
Lemma ofold_no_abort {I S} (f : I -> S -> outcome S) l : (forall i s, In i l -> f i s <> Abort) -> forall s, ofold f l s <> Abort.
Proof.
  induction l as [|i l IH]; intros NA s; cbn [ofold]; [discriminate|].
  pose proof (NA i s (or_introl eq_refl)) as N1. destruct (f i s); [|congruence|discriminate]. cbn [obind].
  apply IH. intros j t Hj. apply NA. right; assumption.
Qed.
Lemma wr_no_abort {A} (l : list A) i x : wr l i x <> Abort.
Proof.
  revert i; induction l as [|h t IH]; intros [|i]; cbn [wr]; try discriminate.
  specialize (IH i). destruct (wr t i x); cbn [obind]; try discriminate. congruence.
Qed.
Lemma ccsop_ub reader f nr nc (m2 m1 : ccs F) r0 c0 : r0 < nr -> c0 < nc ->
  (forall r c, reader m2 r c <> Abort /\ reader m1 r c <> Abort) ->
  reader m2 r0 c0 = UB \/ reader m1 r0 c0 = UB ->
  CCSOpCCS zero grt_abs reader (Some f) nr nc m2 nr nc m1 = UB.
Proof.
  intros Hr Hc NA HU. unfold CCSOpCCS. rewrite !Nat.eqb_refl. cbn [negb].
  assert (NB : forall c r b, (do x2 <- reader m2 r c; do x1 <- reader m1 r c;
     if grt_abs (f x2 x1) zero then Ok (push wrap_int b (Z.of_nat r) (f x2 x1)) else Ok b) <> Abort).
  { intros c r b. destruct (NA r c) as [N2 N1]. destruct (reader m2 r c); cbn [obind]; try congruence.
    destruct (reader m1 r c); cbn [obind]; try congruence. destruct (grt_abs _ _); discriminate. }
  rewrite (ofold_ub _ _ c0); [reflexivity|apply in_seq; lia| |].
  - intros b. rewrite (ofold_ub _ _ r0); [reflexivity|apply in_seq; lia| |].
    + intros b'. destruct (NA r0 c0) as [N2 N1]. destruct HU as [E|E]; rewrite E; [reflexivity|].
      destruct (reader m2 r0 c0); cbn [obind]; congruence.
    + intros r b' _. apply NB.
  - intros c b _. pose proof (ofold_no_abort (fun r b => do x2 <- reader m2 r c; do x1 <- reader m1 r c;
     if grt_abs (f x2 x1) zero then Ok (push wrap_int b (Z.of_nat r) (f x2 x1)) else Ok b) (seq 0 nr) (fun r b' _ => NB c r b') b) as K.
    destruct (ofold _ (seq 0 nr) b) as [b'| |]; cbn [obind]; try congruence.
    unfold set_Ap. pose proof (wr_no_abort (bAp b') (c + 1) (wrap_int (tn b'))). destruct (wr _ _ _); cbn [obind]; congruence.
Qed.

(** ** stacks *)
Definition srow (Ncol : nat) (Sn : option (matrix F) * nat) : list (list F) :=
  match fst Sn with
  | Some m => match sto m with REG a => firstn (snd Sn) a | _ => [] end
  | None => repeat (repeat zero Ncol) (snd Sn)
  end.
Definition sok (Ncol : nat) (Sn : option (matrix F) * nat) : Prop :=
  match fst Sn with
  | Some m => match sto m with REG a => shape (row m) Ncol a /\ snd Sn <= row m | _ => False end
  | None => True
  end.
Lemma srow_shape Ncol Sn : sok Ncol Sn -> shape (snd Sn) Ncol (srow Ncol Sn).
Proof.
  unfold sok, srow. destruct Sn as [[m|] n]; cbn [fst snd].
  - destruct (sto m); try contradiction. intros [[L H] Hn]. split; [rewrite firstn_length; lia|].
    rewrite Forall_forall in *. intros l Hl. apply H. rewrite <- (firstn_skipn n A). apply in_or_app. left; assumption.
  - intros _. split; [apply repeat_length|]. rewrite Forall_forall. intros l Hl. apply repeat_spec in Hl. subst l. apply repeat_length.
Qed.
Lemma stack_shape Ncol s : stack_ok Ncol s -> shape (list_sum (map snd s)) Ncol (stack_rows zero Ncol s).
Proof.
  intros H. unfold stack_rows. change (fun Sn => match fst Sn with Some m => _ | None => _ end) with (srow Ncol) at 1.
  induction H as [|Sn s H1 H2 IH]; [split; [reflexivity|constructor]|].
  cbn [map concat]. pose proof (srow_shape Ncol Sn H1) as [L1 S1]. destruct IH as [L2 S2].
  split; [rewrite app_length, L1; change (list_sum (snd Sn :: ?b)) with (snd Sn + list_sum b); f_equal; exact L2|]. apply Forall_app. split; assumption.
Qed.
Lemma nth_firstn {A} (l : list A) d n r : r < n -> nth r (firstn n l) d = nth r l d.
Proof.
  revert l r; induction n as [|n IH]; intros l r H; [lia|]. destruct l as [|x l]; [reflexivity|].
  destruct r as [|r]; [reflexivity|]. cbn [firstn nth]. apply IH. lia.
Qed.
Lemma dcol_app keep k off v n n' : dcol (F := F) keep k off v (n + n') = dcol keep k off v n ++ dcol keep (k + n) off v n'.
Proof. unfold dcol. rewrite seq_app, filter_app, map_app. reflexivity. Qed.
Lemma dcol_shift (keep : F -> bool) off v w n : forall k k', (forall i, i < n -> v (k + i) = w (k' + i)) ->
  dcol keep k (Z.of_nat k' - Z.of_nat k + off) v n = dcol keep k' off w n.
Proof.
  induction n as [|n IH]; intros k k' H; [reflexivity|]. rewrite !dcol_S.
  pose proof (H 0 ltac:(lia)) as H0. rewrite !Nat.add_0_r in H0. rewrite H0.
  replace (Z.of_nat k + (Z.of_nat k' - Z.of_nat k + off))%Z with (Z.of_nat k' + off)%Z by lia. f_equal.
  replace (Z.of_nat k' - Z.of_nat k + off)%Z with (Z.of_nat (S k') - Z.of_nat (S k) + off)%Z by lia.
  apply IH. intros i Hi. replace (S k + i) with (k + S i) by lia. replace (S k' + i) with (k' + S i) by lia. apply H. lia.
Qed.
Lemma dcol_none (keep : F -> bool) off v n : forall k, (forall i, k <= i < k + n -> keep (v i) = false) -> dcol keep k off v n = [].
Proof.
  induction n as [|n IH]; intros k H; [reflexivity|]. rewrite dcol_S, H by lia. cbn [app]. apply IH. intros i Hi. apply H. lia.
Qed.

Definition stack_body (c : nat) : option (matrix F) * nat -> build F * Z -> outcome (build F * Z) :=
  fun Sn bR =>
        let '(b, R) := bR in
        let '(Si, n) := Sn in
        do b' <- match Si with
                 | None => Ok b
                 | Some m =>
                     match sto m with
                     | REG a =>
                       ofold (fun r b =>
                         do x <- rd2 a r c;
                         if grt_abs x zero
                         then do y <- rd2 a r c; Ok (push wrap_int b (Z.of_nat r + R) y) else Ok b)
                         (seq 0 n) b
                     | _ => if n =? 0 then Ok b else UB
                     end
                 end;
        Ok (b', (R + Z.of_nat n)%Z).

Lemma stack_inner Ncol c (w : nat -> F) s : grt_abs zero zero = false -> c < Ncol -> stack_ok Ncol s ->
  forall k b, (forall i, i < list_sum (map snd s) -> w (k + i) = entry zero (stack_rows zero Ncol s) i c) ->
  (Z.of_nat (k + list_sum (map snd s)) <= 2147483647)%Z ->
  ofold (stack_body c) s (b, Z.of_nat k) =
    Ok (pushes b (dcol (fun x => grt_abs x zero) k 0 w (list_sum (map snd s))), Z.of_nat (k + list_sum (map snd s))).
Proof.
  intros Z0 Hc H. induction H as [|Sn s H1 H2 IH]; intros k b HW HB.
  - cbn [ofold map]. change (list_sum []) with 0. unfold dcol. cbn [seq filter map]. rewrite pushes_nil, Nat.add_0_r. reflexivity.
  - cbn [ofold]. cbn [map] in *. change (list_sum (snd Sn :: ?b)) with (snd Sn + list_sum b) in *.
    assert (SR : stack_rows zero Ncol (Sn :: s) = srow Ncol Sn ++ stack_rows zero Ncol s) by reflexivity.
    pose proof (srow_shape Ncol Sn H1) as [L1 S1].
    assert (WS : forall i, i < snd Sn -> w (k + i) = entry zero (srow Ncol Sn) i c).
    { intros i Hi. rewrite HW by lia. unfold entry. rewrite SR, app_nth1 by lia. reflexivity. }
    assert (BD : stack_body c Sn (b, Z.of_nat k) = Ok (pushes b (dcol (fun x => grt_abs x zero) k 0 w (snd Sn)), Z.of_nat (k + snd Sn))).
    { unfold stack_body. destruct Sn as [[m|] n]; cbn [fst snd] in *.
      - unfold sok, srow in *. cbn [fst snd] in *. destruct (sto m) as [A| | | |]; try contradiction. destruct H1 as [SH Hn].
        rewrite (inner_loop wrap_int (fun x => grt_abs x zero) _ (fun r => entry zero A r c) (Z.of_nat k)).
        + cbn [obind]. do 2 f_equal; [|lia]. f_equal. replace (Z.of_nat k) with (Z.of_nat k - Z.of_nat 0 + 0)%Z by lia.
          apply dcol_shift. intros i Hi. cbn [Nat.add]. rewrite WS by lia. unfold entry. rewrite nth_firstn by lia. reflexivity.
        + intros r b' Hr. rewrite (rd2_shape zero (row m) Ncol) by (assumption || lia). cbn [obind]. destruct (grt_abs (entry zero A r c) zero); reflexivity.
        + intros r Hr. apply wrap_int_id. lia.
      - cbn [obind]. do 2 f_equal; [|lia]. rewrite dcol_none; [rewrite pushes_nil; reflexivity|].
        intros i Hi. replace i with (k + (i - k)) by lia. rewrite WS by lia. unfold srow. cbn [fst snd].
        pose proof (entry_alloc zero n Ncol (i - k) c) as EA. unfold alloc_reg in EA. rewrite EA. assumption. }
    rewrite BD. cbn [obind]. rewrite IH.
    + rewrite pushes_app, dcol_app. do 2 f_equal. lia.
    + intros i Hi. replace (k + snd Sn + i) with (k + (snd Sn + i)) by lia. rewrite HW by lia. unfold entry.
      rewrite SR, app_nth2 by lia. rewrite L1. replace (snd Sn + i - snd Sn) with i by lia. reflexivity.
    + lia.
Qed.

Lemma compress_stack_ok Ncol s : grt_abs zero zero = false -> 0 < Ncol -> stack_ok Ncol s ->
  let A := stack_rows zero Ncol s in let Nrow := list_sum (map snd s) in
  0 < Nrow -> (Z.of_nat Nrow < 2147483647)%Z ->
  (Z.of_nat (count (fun x => grt_abs x zero) A) <= 2147483647)%Z ->
  compress_stack2ccs zero grt_abs s Nrow Ncol = Ok (mkM Nrow Ncol (CCS (of_cols (reg_cols grt_abs zero Nrow Ncol (entry zero A))))).
Proof.
  intros Z0 HC HS A Nrow HR HB HB2. unfold compress_stack2ccs.
  destruct (Z.geb_spec (Z.of_nat Nrow) 2147483647); [lia|].
  destruct (outer_loop wrap_int (fun c b => do bR <- ofold (stack_body c) s (b, 0%Z); Ok (fst bR))
     (fun c => dcol (fun x => grt_abs x zero) 0 0 (fun r => entry zero A r c) Nrow) Ncol) as (b & E & Hb).
  - intros c b Hc. change 0%Z with (Z.of_nat 0) at 1. rewrite (stack_inner Ncol c (fun r => entry zero A r c) s Z0 Hc HS 0 b).
    + reflexivity.
    + intros i Hi. reflexivity.
    + fold Nrow. lia.
  - intros z Hz. apply wrap_int_id.
    pose proof (reg_cols_count zero grt_abs Nrow Ncol A zero (stack_shape Ncol s HS)) as RC.
    unfold reg_cols in RC. rewrite RC in Hz. lia.
  - rewrite (ofold_ext _ (fun c b => do b <- (do bR <- ofold (stack_body c) s (b, 0%Z); Ok (fst bR)); set_Ap wrap_int b c)).
    + rewrite E. cbn [obind]. destruct (Nat.eqb_spec Nrow 0); [lia|]. destruct (Nat.eqb_spec Ncol 0); [lia|]. cbn [orb].
      rewrite Hb. reflexivity.
    + intros c b0 _. unfold stack_body. destruct (ofold _ s _) as [[b1 R1]| |]; reflexivity.
Qed.

(** ** copies *)
Lemma firstn_S_nth {A} (l : list A) d i : i < length l -> firstn (i + 1) l = firstn i l ++ [nth i l d].
Proof.
  revert i; induction l as [|x l IH]; intros i H; cbn [length] in H; [lia|].
  destruct i as [|i]; [reflexivity|]. cbn [Nat.add firstn nth app]. f_equal. apply IH. lia.
Qed.
Lemma copy_run (m : ccs F) n (Hs : length (Ai m) = length (Ax m)) (Hn : length (Ax m) = n) : forall k i, i + k <= n ->
  ofold (fun i p => let '(ai, ax) := p in
       do r <- rdz (Ai m) i; do ai' <- wrz ai i r;
       do x <- rdz (Ax m) i; do ax' <- wrz ax i x; Ok (ai', ax')) (zrange (Z.of_nat i) (Z.of_nat (i + k)))
    (firstn i (Ai m) ++ repeat 0%Z (n - i), firstn i (Ax m) ++ repeat zero (n - i)) =
  Ok (firstn (i + k) (Ai m) ++ repeat 0%Z (n - (i + k)), firstn (i + k) (Ax m) ++ repeat zero (n - (i + k))).
Proof.
  induction k as [|k IH]; intros i H.
  - rewrite zrange_nil by lia. rewrite Nat.add_0_r. reflexivity.
  - rewrite zrange_cons by lia. cbn [ofold].
    rewrite (rdz_nth (Ai m) (Z.of_nat i) 0%Z) by lia. rewrite (rdz_nth (Ax m) (Z.of_nat i) zero) by lia. cbn [obind].
    unfold wrz. destruct (Z.ltb_spec (Z.of_nat i) 0); [lia|]. rewrite Nat2Z.id.
    replace (n - i) with (S (n - (i + 1))) by lia. cbn [repeat].
    pose proof (wr_app (firstn i (Ai m)) (repeat 0%Z (n - (i + 1))) 0%Z (nth i (Ai m) 0%Z)) as W1.
    pose proof (wr_app (firstn i (Ax m)) (repeat zero (n - (i + 1))) zero (nth i (Ax m) zero)) as W2.
    rewrite firstn_length_le in W1, W2 by lia. rewrite W1. cbn [obind]. rewrite W2. cbn [obind].
    specialize (IH (i + 1) ltac:(lia)). rewrite (firstn_S_nth (Ai m) 0%Z i), (firstn_S_nth (Ax m) zero i) in IH by lia.
    rewrite <- !app_assoc in IH. cbn [app] in IH.
    replace (Z.of_nat (i + 1)) with (Z.of_nat i + 1)%Z in IH by lia. replace (i + 1 + k) with (i + S k) in IH by lia. exact IH.
Qed.
Lemma copy_ccs2ccs_ok nr nc (m : ccs F) : ccs_valid nr nc m ->
  copy_ccs2ccs zero nc m = Ok (mkCcs (Ap m) (Ai m) (Ax m) None).
Proof.
  intros V. unfold copy_ccs2ccs.
  assert (RA : forall c, c <= nc -> rd (Ap m) c = Ok (ap m c)).
  { intros c Hc. apply rd_nth. rewrite (v_len _ _ _ V). lia. }
  rewrite RA by lia. cbn [obind]. rewrite (v_last _ _ _ V). destruct (Z.ltb_spec (Z.of_nat (length (Ax m))) 0); [lia|].
  rewrite Nat2Z.id. set (n := length (Ax m)).
  set (P := fun c (s : list Z * list Z * list F) => let i := Z.to_nat (ap m c) in
    s = (firstn c (Ap m) ++ repeat 0%Z (nc + 1 - c), firstn i (Ai m) ++ repeat 0%Z (n - i), firstn i (Ax m) ++ repeat zero (n - i))).
  edestruct (ofold_seq_inv P) with (n := nc) (k := 0) (s := (repeat 0%Z (nc + 1), repeat 0%Z n, repeat zero n)) as (s & E & Hs).
  3: { rewrite E. cbn [obind]. rewrite Hs. cbn [Nat.add]. rewrite (v_last _ _ _ V), Nat2Z.id. fold n.
       rewrite Nat.sub_diag. cbn [repeat]. rewrite !app_nil_r.
       replace (nc + 1 - nc) with 1 by lia. cbn [repeat].
       pose proof (wr_app (firstn nc (Ap m)) [] 0%Z (Z.of_nat n)) as W.
       rewrite firstn_length_le in W by (rewrite (v_len _ _ _ V); lia). rewrite W. cbn [obind].
       rewrite (firstn_all2 (Ai m)) by (rewrite (v_same _ _ _ V); fold n; lia). rewrite (firstn_all2 (Ax m)) by (fold n; lia).
       do 2 f_equal. pose proof (firstn_S_nth (Ap m) 0%Z nc ltac:(rewrite (v_len _ _ _ V); lia)) as K.
       rewrite firstn_all2 in K by (rewrite (v_len _ _ _ V); lia). rewrite K at 2. do 2 f_equal. symmetry. apply (v_last _ _ _ V). }
  2: { unfold P. rewrite (v_first _ _ _ V). cbn [Z.to_nat firstn app]. rewrite !Nat.sub_0_r. reflexivity. }
  intros c s Hc Es. unfold P in Es. cbv zeta in Es. subst s. rewrite !RA by lia. cbn [obind].
  replace (nc + 1 - c) with (S (nc + 1 - (c + 1))) by lia. cbn [repeat].
  pose proof (wr_app (firstn c (Ap m)) (repeat 0%Z (nc + 1 - (c + 1))) 0%Z (ap m c)) as W.
  rewrite firstn_length_le in W by (rewrite (v_len _ _ _ V); lia). rewrite W. cbn [obind].
  pose proof (valid_nonneg nr nc m c V ltac:(lia)) as P0. pose proof (v_mono _ _ _ V c ltac:(lia)) as M.
  pose proof (valid_mono _ _ _ (c + 1) nc V ltac:(lia) ltac:(lia)) as M2. rewrite (v_last _ _ _ V) in M2. fold n in M2.
  pose proof (copy_run m n (v_same _ _ _ V) eq_refl (Z.to_nat (ap m (c + 1) - ap m c)) (Z.to_nat (ap m c)) ltac:(lia)) as CR.
  replace (Z.to_nat (ap m c) + Z.to_nat (ap m (c + 1) - ap m c)) with (Z.to_nat (ap m (c + 1))) in CR by lia.
  rewrite !Z2Nat.id in CR by lia. rewrite CR. cbn [obind fst snd]. eexists. split; [reflexivity|].
  unfold P. cbv zeta. rewrite (firstn_S_nth (Ap m) 0%Z c) by (rewrite (v_len _ _ _ V); lia). rewrite <- app_assoc. reflexivity.
Qed.

End Mat.
