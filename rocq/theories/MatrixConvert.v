(** MatrixConvert.v - conversions between dense and compressed storage. *)
From Verif Require Import Base TextModel MatrixModel MatrixSpec MatrixProofs.
From Coq Require Import Sorted.
Local Open Scope nat_scope.

Section Mat.
Context {F : Type} (zero : F) (grt_abs : F -> F -> bool).
Notation colT := (list (Z * F)).

Definition pushes (b : build F) (l : colT) : build F :=
  mkB (bAp b) (bAi b ++ map fst l) (bAx b ++ map snd l) (tn b + Z.of_nat (length l)).
Lemma pushes_nil b : pushes b [] = b.
Proof. destruct b. unfold pushes. cbn. rewrite !app_nil_r, Z.add_0_r. reflexivity. Qed.
Lemma pushes_app b l l' : pushes (pushes b l) l' = pushes b (l ++ l').
Proof. unfold pushes. cbn. rewrite !map_app, !app_assoc, app_length. f_equal. lia. Qed.

(** the pairs (row, value) kept out of a column *)
Definition dcol (keep : F -> bool) (k : nat) (off : Z) (v : nat -> F) (n : nat) : colT :=
  map (fun r => ((Z.of_nat r + off)%Z, v r)) (filter (fun r => keep (v r)) (seq k n)).

Lemma dcol_S keep k off v n :
  dcol keep k off v (S n) = (if keep (v k) then [((Z.of_nat k + off)%Z, v k)] else []) ++ dcol keep (S k) off v n.
Proof. unfold dcol. cbn [seq filter]. destruct (keep (v k)); reflexivity. Qed.

Lemma inner_loop cast (keep : F -> bool) (body : nat -> build F -> outcome (build F)) v off n :
  forall k b,
  (forall r b, k <= r < k + n -> body r b = Ok (if keep (v r) then push cast b (Z.of_nat r + off) (v r) else b)) ->
  (forall r, k <= r < k + n -> (cast (Z.of_nat r + off) = Z.of_nat r + off)%Z) ->
  ofold body (seq k n) b = Ok (pushes b (dcol keep k off v n)).
Proof.
  induction n as [|n IH]; intros k b H HC.
  - cbn [seq ofold]. unfold dcol. cbn. rewrite pushes_nil. reflexivity.
  - cbn [seq ofold]. rewrite H by lia. cbn [obind]. rewrite IH; [|intros; apply H; lia|intros; apply HC; lia].
    rewrite dcol_S, <- pushes_app. do 2 f_equal. destruct (keep (v k)); [|symmetry; apply pushes_nil].
    unfold push, pushes. cbn. rewrite HC by lia. reflexivity.
Qed.

Lemma outer_loop_gen cast (body : nat -> build F -> outcome (build F)) (cf : nat -> colT) nc :
  cast 0%Z = 0%Z ->
  (forall c b, c < nc -> body c b = Ok (pushes b (cf c))) ->
  let cols := map cf (seq 0 nc) in
  exists b, ofold (fun c b => do b <- body c b; set_Ap cast b c) (seq 0 nc) (start nc) = Ok b /\
            finish b = mkCcs (map cast (aps 0 cols)) (map fst (concat cols)) (map snd (concat cols)) None.
Proof.
  intros C0 H cols.
  set (P := fun k (b : build F) =>
     bAp b = map cast (aps 0 (map cf (seq 0 k))) ++ repeat 0%Z (nc - k) /\
     bAi b = map fst (concat (map cf (seq 0 k))) /\ bAx b = map snd (concat (map cf (seq 0 k))) /\
     tn b = Z.of_nat (length (concat (map cf (seq 0 k))))).
  destruct (ofold_seq_inv P (fun c b => do b <- body c b; set_Ap cast b c) nc 0 (start nc)) as (b & E & Hb).
  - intros k b Hk (P1 & P2 & P3 & P4). rewrite H by lia. cbn [obind].
    assert (ES : map cf (seq 0 (k + 1)) = map cf (seq 0 k) ++ [cf k]).
    { rewrite seq_app, map_app. reflexivity. }
    assert (EL : (tn b + Z.of_nat (length (cf k)))%Z = Z.of_nat (length (concat (map cf (seq 0 (k + 1)))))).
    { rewrite ES, concat_app, app_length, P4. cbn [concat]. rewrite app_nil_r. lia. }
    unfold set_Ap. cbn [pushes bAp bAi bAx tn]. rewrite P1.
    replace (nc - k) with (S (nc - (k + 1))) by lia. cbn [repeat].
    pose proof (wr_app (map cast (aps 0 (map cf (seq 0 k)))) (repeat 0%Z (nc - (k + 1))) 0%Z (cast (tn b + Z.of_nat (length (cf k)))%Z)) as W.
    rewrite map_length, aps_length, map_length, seq_length in W. rewrite W. cbn [obind]. eexists. split; [reflexivity|].
    unfold P. cbn [bAp bAi bAx tn]. repeat split.
    + rewrite ES, aps_snoc, map_app. rewrite <- app_assoc. cbn [app map]. do 3 f_equal. rewrite P4. lia.
    + rewrite P2, ES, concat_app, map_app. cbn [concat]. rewrite app_nil_r. reflexivity.
    + rewrite P3, ES, concat_app, map_app. cbn [concat]. rewrite app_nil_r. reflexivity.
    + exact EL.
  - unfold P, start. cbn [bAp bAi bAx tn seq map aps concat length]. rewrite C0, Nat.sub_0_r, Nat.add_1_r. repeat split.
  - exists b. split; [exact E|]. destruct Hb as (P1 & P2 & P3 & P4). cbn [Nat.add] in *.
    unfold finish. rewrite P1, P2, P3, Nat.sub_diag. cbn [repeat]. rewrite app_nil_r. reflexivity.
Qed.
Lemma aps_bound cols : forall off z, (0 <= off)%Z -> In z (aps off cols) -> (off <= z <= off + Z.of_nat (length (concat (A := Z * F) cols)))%Z.
Proof.
  induction cols as [|c t IH]; intros off z Ho; cbn [aps concat In length].
  - intros [<-|[]]. lia.
  - rewrite app_length. intros [<-|Hz]; [lia|]. apply IH in Hz; lia.
Qed.
Lemma outer_loop cast (body : nat -> build F -> outcome (build F)) (cf : nat -> colT) nc :
  (forall c b, c < nc -> body c b = Ok (pushes b (cf c))) ->
  (forall z, 0 <= z <= Z.of_nat (length (concat (map cf (seq 0 nc)))) -> cast z = z)%Z ->
  exists b, ofold (fun c b => do b <- body c b; set_Ap cast b c) (seq 0 nc) (start nc) = Ok b /\
            finish b = of_cols (map cf (seq 0 nc)).
Proof.
  intros H HC. destruct (outer_loop_gen cast body cf nc) as (b & E & Hb); [apply HC; lia|assumption|].
  exists b. split; [exact E|]. rewrite Hb. unfold of_cols. f_equal.
  transitivity (map (fun z => z) (aps 0 (map cf (seq 0 nc)))); [|apply map_id]. apply map_ext_in.
  intros z Hz. apply aps_bound in Hz; [|lia]. apply HC. lia.
Qed.

(** ** columns made by dcol *)
Lemma dcol_in keep k off v n p : In p (dcol keep k off v n) <->
  exists r, k <= r < k + n /\ keep (v r) = true /\ p = ((Z.of_nat r + off)%Z, v r).
Proof.
  unfold dcol. rewrite in_map_iff. split.
  - intros (r & <- & Hr). apply filter_In in Hr. destruct Hr as [Hr K]. apply in_seq in Hr. eauto.
  - intros (r & Hr & K & ->). exists r. split; [reflexivity|]. apply filter_In. split; [apply in_seq; lia|assumption].
Qed.
Lemma dcol_sorted keep off v n : forall k, StronglySorted (fun p q : Z * F => (fst p < fst q)%Z) (dcol keep k off v n).
Proof.
  induction n as [|n IH]; intros k; [constructor|]. rewrite dcol_S. destruct (keep (v k)); cbn [app]; [|apply IH].
  constructor; [apply IH|]. rewrite Forall_forall. intros p Hp. apply dcol_in in Hp.
  destruct Hp as (r & Hr & _ & ->). cbn [fst]. lia.
Qed.
Lemma ss_adj (R : Z * F -> Z * F -> Prop) l : StronglySorted R l ->
  forall k p q, nth_error l k = Some p -> nth_error l (k + 1) = Some q -> R p q.
Proof.
  induction 1 as [|a l S IH HF]; intros k p q Hp Hq; [destruct k; discriminate|].
  destruct k as [|k]; cbn [nth_error Nat.add] in Hp, Hq.
  - injection Hp as <-. rewrite Forall_forall in HF. apply HF. destruct l; [discriminate|]. injection Hq as <-. left; reflexivity.
  - apply (IH k p q Hp Hq).
Qed.
Lemma ss_col_ok nr l : StronglySorted (fun p q : Z * F => (fst p < fst q)%Z) l ->
  Forall (fun p => (0 <= fst p < Z.of_nat nr)%Z) l -> col_ok nr l.
Proof.
  intros S H. split.
  - intros k p Hk. rewrite Forall_forall in H. apply H. apply nth_error_In with k. assumption.
  - intros k p q. apply (ss_adj _ _ S).
Qed.
Lemma dcol_ok keep v n nr : n <= nr -> col_ok nr (dcol keep 0 0 v n).
Proof.
  intros H. apply ss_col_ok; [apply dcol_sorted|]. rewrite Forall_forall. intros p Hp. apply dcol_in in Hp.
  destruct Hp as (r & Hr & _ & ->). cbn [fst]. lia.
Qed.
Lemma dcol_lookup keep v n : forall k r, k <= r ->
  lookup zero (Z.of_nat r) (dcol keep k 0 v n) = if (r <? k + n) && keep (v r) then v r else zero.
Proof.
  induction n as [|n IH]; intros k r H.
  - destruct (Nat.ltb_spec r (k + 0)); [lia|]. reflexivity.
  - rewrite dcol_S. destruct (keep (v k)) eqn:K; cbn [app].
    + rewrite lookup_cons. cbn [fst snd]. destruct (Z.eqb_spec (Z.of_nat k + 0) (Z.of_nat r)) as [E|E].
      * assert (k = r) by lia. subst r. destruct (Nat.ltb_spec k (k + S n)); [|lia]. rewrite K. reflexivity.
      * rewrite IH by lia. replace (S k + n) with (k + S n) by lia. reflexivity.
    + destruct (Nat.eq_dec k r) as [->|N].
      * rewrite K, andb_false_r. rewrite lookup_lt; [reflexivity|]. rewrite Forall_forall. intros p Hp. apply dcol_in in Hp.
        destruct Hp as (q & Hq & _ & ->). cbn [fst]. lia.
      * rewrite IH by lia. replace (S k + n) with (k + S n) by lia. reflexivity.
Qed.
Lemma dcol_length keep k off v n : length (dcol keep k off v n) = length (filter keep (map v (seq k n))).
Proof.
  unfold dcol. rewrite map_length. generalize (seq k n) as l. induction l as [|x l IH]; cbn [filter map]; [reflexivity|].
  destruct (keep (v x)); cbn [length]; rewrite ?IH; reflexivity.
Qed.

(** ** dense matrices *)
Lemma shape_nth nr nc (A : list (list F)) r : shape nr nc A -> r < nr -> length (nth r A []) = nc.
Proof.
  intros [L H] Hr. rewrite Forall_forall in H. apply H. apply nth_In. lia.
Qed.
Lemma rd2_shape nr nc A r c : shape nr nc A -> r < nr -> c < nc -> rd2 A r c = Ok (entry zero A r c).
Proof.
  intros SH Hr Hc. unfold rd2. rewrite (rd_nth A r []) by (destruct SH; lia). cbn [obind].
  rewrite (rd_nth _ c zero) by (rewrite (shape_nth _ _ _ _ SH Hr); assumption). reflexivity.
Qed.
Lemma shape_ext nr nc (A B : list (list F)) : shape nr nc A -> shape nr nc B ->
  (forall r c, r < nr -> c < nc -> entry zero A r c = entry zero B r c) -> A = B.
Proof.
  intros SA SB H. apply (nth_ext A B [] []); [destruct SA, SB; congruence|].
  intros r Hr. assert (r < nr) by (destruct SA; lia).
  apply (nth_ext _ _ zero zero); [rewrite (shape_nth _ _ _ _ SA), (shape_nth _ _ _ _ SB); auto|].
  intros c Hc. rewrite (shape_nth _ _ _ _ SA) in Hc by assumption. apply H; assumption.
Qed.
Lemma shape_alloc nr nc : shape nr nc (alloc_reg zero nr nc).
Proof.
  unfold alloc_reg. split; [apply repeat_length|]. rewrite Forall_forall. intros l Hl. apply repeat_spec in Hl. subst l.
  apply repeat_length.
Qed.
Lemma entry_alloc nr nc r c : entry zero (alloc_reg zero nr nc) r c = zero.
Proof.
  unfold entry, alloc_reg. destruct (le_lt_dec nr r) as [H|H].
  - rewrite (nth_overflow (repeat _ _)) by (rewrite repeat_length; lia). destruct c; reflexivity.
  - rewrite (nth_indep _ [] (repeat zero nc)) by (rewrite repeat_length; lia). rewrite nth_repeat. apply nth_repeat.
Qed.
Lemma shape_map nr nc (f : F -> F) A : shape nr nc A -> shape nr nc (map (map f) A).
Proof.
  intros [L H]. split; [rewrite map_length; assumption|]. rewrite Forall_map.
  eapply Forall_impl; [|exact H]. intros l Hl. cbn beta. rewrite map_length. assumption.
Qed.
Lemma entry_map nr nc (f : F -> F) A r c : shape nr nc A -> r < nr -> c < nc ->
  entry zero (map (map f) A) r c = f (entry zero A r c).
Proof.
  intros SH Hr Hc. unfold entry. destruct SH as [L H].
  rewrite (nth_indep _ [] (map f [])) by (rewrite map_length; lia). rewrite map_nth.
  rewrite (nth_indep _ zero (f zero)). 2: { rewrite map_length. fold (shape nr nc A) in *. rewrite (shape_nth nr nc); [assumption|split; assumption|assumption]. }
  apply map_nth.
Qed.
Lemma wr2z_shape nr nc A r c x : shape nr nc A -> (0 <= r < Z.of_nat nr)%Z -> c < nc ->
  exists B, wr2z A r c x = Ok B /\ shape nr nc B /\
    forall r' c', entry zero B r' c' = if (r' =? Z.to_nat r) && (c' =? c) then x else entry zero A r' c'.
Proof.
  intros SH Hr Hc. unfold wr2z. rewrite (rdz_nth A r []) by (destruct SH; lia). cbn [obind].
  pose proof (shape_nth _ _ _ (Z.to_nat r) SH ltac:(lia)) as LR.
  destruct (wr_spec (nth (Z.to_nat r) A []) c x ltac:(lia)) as (l' & E & L & N). rewrite E. cbn [obind].
  destruct (wrz_spec A r l' ltac:(destruct SH; lia)) as (B & EB & LB & NB). rewrite EB.
  exists B. split; [reflexivity|]. split.
  - split; [destruct SH; lia|]. rewrite Forall_forall. intros l Hl. destruct (In_nth _ _ [] Hl) as (j & Hj & <-).
    rewrite NB. destruct (j =? Z.to_nat r); [congruence|]. apply (shape_nth nr nc); [assumption|]. destruct SH; lia.
  - intros r' c'. unfold entry. rewrite NB. destruct (Nat.eqb_spec r' (Z.to_nat r)) as [->|]; [|reflexivity].
    rewrite N. cbn [andb]. reflexivity.
Qed.

(** ** reg -> ccs *)
Definition reg_cols (lim : F) (nr nc : nat) (v : nat -> nat -> F) : list colT :=
  map (fun c => dcol (fun x => grt_abs x lim) 0 0 (fun r => v r c) nr) (seq 0 nc).

Definition nsum (f : nat -> nat) (n : nat) : nat := list_sum (map f (seq 0 n)).
Lemma list_sum_map_add {A} (f g : A -> nat) l : list_sum (map (fun x => f x + g x) l) = list_sum (map f l) + list_sum (map g l).
Proof. induction l as [|x l IH]; cbn [map list_sum fold_right]; [reflexivity|]. unfold list_sum in *. lia. Qed.
Lemma list_sum_swap {A B} (f : A -> B -> nat) l l' :
  list_sum (map (fun x => list_sum (map (f x) l')) l) = list_sum (map (fun y => list_sum (map (fun x => f x y) l)) l').
Proof.
  induction l as [|x l IH]; cbn [map].
  - cbn. induction l' as [|y l' IH']; cbn; [reflexivity|]. exact IH'.
  - change (list_sum (?a :: ?b)) with (a + list_sum b). rewrite IH.
    rewrite <- list_sum_map_add. f_equal.
Qed.
Lemma length_filter_sum {A} (p : A -> bool) l : length (filter p l) = list_sum (map (fun x => if p x then 1 else 0) l).
Proof. induction l as [|x l IH]; cbn [filter map]; [reflexivity|]. change (list_sum (?a :: ?b)) with (a + list_sum b). destruct (p x); cbn [length]; lia. Qed.
Lemma filter_concat_sum (p : F -> bool) A : length (filter p (concat A)) = list_sum (map (fun l => length (filter p l)) A).
Proof.
  induction A as [|l A IH]; cbn [concat map]; [reflexivity|]. rewrite filter_app, app_length, IH. reflexivity.
Qed.
Lemma list_as_map (l : list F) : l = map (fun c => nth c l zero) (seq 0 (length l)).
Proof.
  apply (nth_ext _ _ zero zero); [rewrite map_length, seq_length; reflexivity|].
  intros n Hn. rewrite (nth_indep (map _ _) zero (nth 0 l zero)) by (rewrite map_length, seq_length; assumption).
  rewrite (map_nth (fun c => nth c l zero)). rewrite seq_nth by assumption. reflexivity.
Qed.
Lemma rows_as_map (A : list (list F)) : A = map (fun r => nth r A []) (seq 0 (length A)).
Proof.
  apply (nth_ext _ _ [] []); [rewrite map_length, seq_length; reflexivity|].
  intros n Hn. rewrite (nth_indep (map _ _) [] (nth 0 A [])) by (rewrite map_length, seq_length; assumption).
  rewrite (map_nth (fun c => nth c A [])). rewrite seq_nth by assumption. reflexivity.
Qed.
Lemma reg_cols_count nr nc A lim : shape nr nc A ->
  length (concat (reg_cols lim nr nc (entry zero A))) = count (fun x => grt_abs x lim) A.
Proof.
  intros SH. unfold count. rewrite filter_concat_sum. set (p := fun x => grt_abs x lim).
  assert (E1 : length (concat (reg_cols lim nr nc (entry zero A))) =
     list_sum (map (fun c => list_sum (map (fun r => if p (entry zero A r c) then 1 else 0) (seq 0 nr))) (seq 0 nc))).
  { unfold reg_cols. generalize (seq 0 nc) as l. induction l as [|c l IH]; cbn [map concat]; [reflexivity|].
    rewrite app_length, IH, dcol_length, length_filter_sum, map_map. reflexivity. }
  rewrite E1, list_sum_swap.
  transitivity (list_sum (map (fun l => length (filter p l)) (map (fun r => nth r A []) (seq 0 (length A))))).
  2: { rewrite <- rows_as_map. reflexivity. }
  rewrite (proj1 SH), map_map. f_equal. apply map_ext_in.
  intros r Hr. apply in_seq in Hr. rewrite length_filter_sum.
  rewrite (list_as_map (nth r A [])) at 1. rewrite (shape_nth nr nc) by (assumption || lia). rewrite map_map. reflexivity.
Qed.

Lemma reg_cols_length lim nr nc v : length (reg_cols lim nr nc v) = nc.
Proof. unfold reg_cols. rewrite map_length, seq_length. reflexivity. Qed.
Lemma reg_cols_nth lim nr nc v c : c < nc ->
  nth_error (reg_cols lim nr nc v) c = Some (dcol (fun x => grt_abs x lim) 0 0 (fun r => v r c) nr).
Proof.
  intros H. unfold reg_cols. rewrite nth_error_map.
  rewrite (nth_error_nth' _ 0) by (rewrite seq_length; assumption). rewrite seq_nth by assumption. reflexivity.
Qed.
Lemma reg_cols_valid lim nr nc v : ccs_valid nr nc (of_cols (reg_cols lim nr nc v)).
Proof.
  rewrite <- (reg_cols_length lim nr nc v) at 1. apply of_cols_valid. unfold reg_cols. rewrite Forall_map, Forall_forall.
  intros c _. apply dcol_ok. lia.
Qed.
Lemma reg_cols_dense lim nr nc v r c : r < nr -> c < nc ->
  dense zero (of_cols (reg_cols lim nr nc v)) r c = if grt_abs (v r c) lim then v r c else zero.
Proof.
  intros Hr Hc. rewrite (dense_lookup zero _ _ _ _ _ (of_cols_has _ _ _ (reg_cols_nth lim nr nc v c Hc))).
  rewrite dcol_lookup by lia. destruct (Nat.ltb_spec r (0 + nr)); [|lia]. reflexivity.
Qed.

(** a converter: each round reads v r c and keeps it or not *)
Lemma convert_gen cast (body : nat -> nat -> build F -> outcome (build F)) lim nr nc v :
  (forall r c b, r < nr -> c < nc -> body c r b = Ok (if grt_abs (v r c) lim then push cast b (Z.of_nat r) (v r c) else b)) ->
  (forall z, 0 <= z < Z.of_nat nr -> cast z = z)%Z ->
  (forall z, 0 <= z <= Z.of_nat (length (concat (reg_cols lim nr nc v))) -> cast z = z)%Z ->
  exists b, ofold (fun c b => do b <- ofold (body c) (seq 0 nr) b; set_Ap cast b c) (seq 0 nc) (start nc) = Ok b /\
    finish b = of_cols (reg_cols lim nr nc v).
Proof.
  intros H C1 C2.
  apply (outer_loop cast (fun c b => ofold (body c) (seq 0 nr) b)); [|assumption].
  intros c b Hc. apply (inner_loop cast (fun x => grt_abs x lim) (body c) (fun r => v r c)).
  - intros r b' Hr. rewrite H by lia. rewrite Z.add_0_r. reflexivity.
  - intros r Hr. apply C1. lia.
Qed.

Lemma convert_reg2ccs_ok cast nr nc A lim : shape nr nc A ->
  (forall z, 0 <= z < Z.of_nat nr -> cast z = z)%Z ->
  (forall z, 0 <= z <= Z.of_nat (count (fun x => grt_abs x lim) A) -> cast z = z)%Z ->
  convert_reg2ccs grt_abs cast nr nc A lim = Ok (of_cols (reg_cols lim nr nc (entry zero A))).
Proof.
  intros SH C1 C2. unfold convert_reg2ccs.
  destruct (convert_gen cast (fun c r b => do x <- rd2 A r c; if grt_abs x lim then do y <- rd2 A r c; Ok (push cast b (Z.of_nat r) y) else Ok b)
    lim nr nc (entry zero A)) as (b & E & Hb).
  - intros r c b Hr Hc. rewrite (rd2_shape nr nc) by assumption. cbn [obind]. destruct (grt_abs _ _); reflexivity.
  - assumption.
  - rewrite reg_cols_count by assumption. assumption.
  - rewrite E. cbn [obind]. rewrite Hb. reflexivity.
Qed.

(** too many entries for an int: the column pointers wrap *)
Lemma convert_reg2ccs_wrap nr nc A lim : shape nr nc A -> (Z.of_nat nr <= 2147483648)%Z ->
  exists m, convert_reg2ccs grt_abs wrap_int nr nc A lim = Ok m /\
    Ap m = map wrap_int (aps 0 (reg_cols lim nr nc (entry zero A))) /\
    length (Ax m) = count (fun x => grt_abs x lim) A.
Proof.
  intros SH C1. unfold convert_reg2ccs.
  destruct (outer_loop_gen wrap_int (fun c b => ofold (fun r b => do x <- rd2 A r c; if grt_abs x lim then do y <- rd2 A r c; Ok (push wrap_int b (Z.of_nat r) y) else Ok b) (seq 0 nr) b)
    (fun c => dcol (fun x => grt_abs x lim) 0 0 (fun r => entry zero A r c) nr) nc) as (b & E & Hb).
  - reflexivity.
  - intros c b Hc. apply (inner_loop wrap_int (fun x => grt_abs x lim) _ (fun r => entry zero A r c)).
    + intros r b' Hr. rewrite (rd2_shape nr nc) by (assumption || lia). cbn [obind]. rewrite Z.add_0_r.
      destruct (grt_abs (entry zero A r c) lim); reflexivity.
    + intros r Hr. unfold wrap_int. rewrite Z.mod_small by lia. lia.
  - rewrite E. cbn [obind]. eexists. split; [reflexivity|]. rewrite Hb. cbn [Ap Ax]. split; [reflexivity|].
    rewrite map_length. rewrite <- reg_cols_count with (nr := nr) (nc := nc) by assumption. reflexivity.
Qed.

Lemma nth_concat_rows nr nc (A : list (list F)) r c : shape nr nc A -> r < nr -> c < nc ->
  nth_error (concat A) (c + nc * r) = Some (entry zero A r c).
Proof.
  intros [L H] Hr Hc. subst nr. revert r Hr. induction A as [|l A IH]; intros r Hr; cbn [length] in Hr; [lia|].
  inversion H as [|? ? Hl HA]; subst. destruct r as [|r].
  - cbn [concat]. rewrite Nat.mul_0_r, Nat.add_0_r. rewrite nth_error_app1 by assumption. apply nth_error_nth'. assumption.
  - cbn [concat]. rewrite nth_error_app2 by lia.
    replace (c + length l * S r - length l) with (c + length l * r) by lia. rewrite IH by (assumption || lia). reflexivity.
Qed.
Lemma length_concat_rows nr nc (A : list (list F)) : shape nr nc A -> length (concat A) = nr * nc.
Proof.
  intros [L H]. subst nr. induction H as [|l A Hl HA IH]; cbn [concat length]; [reflexivity|]. rewrite app_length. lia.
Qed.
Lemma convert_rmo2ccs_ok nr nc A lim : shape nr nc A ->
  (forall z, 0 <= z < Z.of_nat nr -> wrap_int z = z)%Z ->
  (forall z, 0 <= z <= Z.of_nat (count (fun x => grt_abs x lim) A) -> wrap_int z = z)%Z ->
  convert_rmo2ccs grt_abs nr nc (concat A) lim = Ok (of_cols (reg_cols lim nr nc (entry zero A))).
Proof.
  intros SH C1 C2. unfold convert_rmo2ccs.
  destruct (convert_gen wrap_int (fun c r b => do x <- rd (concat A) (c + nc * r); if grt_abs x lim then Ok (push wrap_int b (Z.of_nat r) x) else Ok b)
    lim nr nc (entry zero A)) as (b & E & Hb).
  - intros r c b Hr Hc. rewrite (rd_ok _ _ _ (nth_concat_rows nr nc A r c SH Hr Hc)). cbn [obind]. destruct (grt_abs _ _); reflexivity.
  - assumption.
  - rewrite reg_cols_count by assumption. assumption.
  - rewrite E. cbn [obind]. rewrite Hb. reflexivity.
Qed.

Lemma wrap_int_id z : (0 <= z <= 2147483647)%Z -> wrap_int z = z.
Proof. intros H. unfold wrap_int. rewrite Z.mod_small by lia. lia. Qed.

(** ** ccs -> reg *)
Lemma write_col nr nc c (col : colT) : c < nc -> col_ok nr col -> forall A, shape nr nc A ->
  exists B, ofold (fun p A => wr2z A (fst p) c (snd p)) col A = Ok B /\ shape nr nc B /\
    forall r' c', entry zero B r' c' =
      if (c' =? c) && existsb (fun p => fst p =? Z.of_nat r')%Z col then lookup zero (Z.of_nat r') col else entry zero A r' c'.
Proof.
  intros Hc. induction col as [|p col IH]; intros OK A SH.
  - exists A. split; [reflexivity|]. split; [assumption|]. intros r' c'. cbn [existsb]. rewrite andb_false_r. reflexivity.
  - destruct OK as [R St] eqn:EOK. pose proof (R 0 p eq_refl) as Rp.
    destruct (wr2z_shape nr nc A (fst p) c (snd p) SH Rp Hc) as (B & E & SB & EB).
    cbn [ofold]. rewrite E. cbn [obind].
    destruct (IH (col_ok_tl _ _ _ OK) B SB) as (B' & E' & SB' & EB').
    exists B'. split; [exact E'|]. split; [assumption|]. intros r' c'. rewrite EB', EB. cbn [existsb]. rewrite lookup_cons.
    destruct (Nat.eqb_spec c' c) as [->|Nc]; [|rewrite !andb_false_r; reflexivity]. cbn [andb]. rewrite andb_true_r.
    destruct (Z.eqb_spec (fst p) (Z.of_nat r')) as [Ep|Ep]; cbn [orb].
    + destruct (existsb _ col) eqn:X.
      * apply existsb_exists in X. destruct X as (q & Hq & Eq). apply Z.eqb_eq in Eq.
        pose proof (col_ok_lt _ _ _ OK) as LT. rewrite Forall_forall in LT. specialize (LT q Hq). lia.
      * replace (r' =? Z.to_nat (fst p)) with true by (symmetry; apply Nat.eqb_eq; lia). reflexivity.
    + destruct (existsb _ col); [reflexivity|].
      replace (r' =? Z.to_nat (fst p)) with false by (symmetry; apply Nat.eqb_neq; lia). reflexivity.
Qed.
Lemma lookup_none r (col : colT) : existsb (fun p => fst p =? r)%Z col = false -> lookup zero r col = zero.
Proof.
  unfold lookup. induction col as [|p col IH]; cbn [existsb find]; intros H; [reflexivity|].
  apply orb_false_iff in H. destruct H as [-> H]. apply IH. assumption.
Qed.

Lemma convert_ccs2reg_ok nr nc m : ccs_valid nr nc m ->
  exists B, convert_ccs2reg nc m (alloc_reg zero nr nc) = Ok B /\ shape nr nc B /\
    forall r c, r < nr -> c < nc -> entry zero B r c = dense zero m r c.
Proof.
  intros V. unfold convert_ccs2reg.
  set (P := fun k B => shape nr nc B /\ forall r c, entry zero B r c = if (c <? k) then dense zero m r c else zero).
  edestruct (ofold_seq_inv P) with (n := nc) (k := 0) (s := alloc_reg zero nr nc) as (B & E & HB).
  3: { rewrite E. exists B. split; [reflexivity|]. destruct HB as [SB EB]. split; [assumption|].
       intros r c Hr Hc. rewrite EB. destruct (Nat.ltb_spec c (0 + nc)); [reflexivity|lia]. }
  2: { split; [apply shape_alloc|]. intros r c. rewrite entry_alloc. destruct (c <? 0) eqn:X; [apply Nat.ltb_lt in X; lia|reflexivity]. }
  intros c A Hc [SA EA]. destruct (valid_col nr nc m c V ltac:(lia)) as (HC & OK & L).
  set (col := column m c) in *. set (off := ap m c) in *.
  rewrite (hc_rdlo _ _ _ _ HC), (hc_rdhi _ _ _ _ HC). cbn [obind].
  rewrite (ofold_zrange _ (fun p A => wr2z A (fst p) c (snd p)) col off).
  2: { intros k p s Hk. destruct (hc_rd _ _ _ _ _ _ HC Hk) as [-> ->]. reflexivity. }
  destruct (write_col nr nc c col ltac:(lia) OK A SA) as (B & E & SB & EB). exists B. split; [exact E|]. split; [assumption|].
  intros r c'. rewrite EB, EA. destruct (Nat.eqb_spec c' c) as [->|N]; cbn [andb].
  - rewrite (dense_lookup zero _ _ _ _ r HC). destruct (Nat.ltb_spec c (c + 1)); [|lia].
    destruct (existsb _ col) eqn:X; [reflexivity|]. rewrite lookup_none by assumption.
    destruct (c <? c) eqn:Y; [apply Nat.ltb_lt in Y; lia|reflexivity].
  - destruct (Nat.ltb_spec c' c), (Nat.ltb_spec c' (c + 1)); try lia; reflexivity.
Qed.

End Mat.
