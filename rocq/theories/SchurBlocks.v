(** SchurBlocks.v - F E', the stack C - F E', the column block subS and the assembled S. *)
From Coq Require Import Ring.
From Verif Require Import Base TextModel MatrixModel MatrixSpec MatrixProofs MatrixConvert MatrixRead MatrixMul MatrixFinal SchurModel SchurSpec SchurProofs SchurPieces.
Open Scope nat_scope.
Notation length := List.length.

Section Mat.
Context {F : Type} (zero one : F) (add mul sub : F -> F -> F) (opp : F -> F) (grt_abs : F -> F -> bool).
Context (RT : ring_theory zero one add mul sub opp (@eq F)).
Add Ring FR : RT.
Context (drop : option F) (junkz : Z) (junk : F).
Context (Z0 : grt_abs zero zero = false).
Notation sumF := (sumF zero add).
Notation ent := (ent zero).
Notation entry := (entry zero).
Notation lim := (drop_limit zero drop).
Notation kp := (kept zero grt_abs).
Notation cols_of := (reg_cols grt_abs).
Notation block_entry := (block_entry zero).

(** no stored entry: every entry was dropped *)
Lemma reg_cols_last l nr nc v : nth_error (aps 0 (cols_of l nr nc v)) nc = Some (Z.of_nat (length (concat (cols_of l nr nc v)))).
Proof.
  rewrite aps_nth by (rewrite reg_cols_length; lia). rewrite firstn_all2 by (rewrite reg_cols_length; lia). reflexivity.
Qed.
Lemma reg_cols_empty l nr nc (v : nat -> nat -> F) r c : length (concat (cols_of l nr nc v)) = 0 -> r < nr -> c < nc -> kp l (v r c) = zero.
Proof.
  intros H Hr Hc. unfold kept. rewrite <- (reg_cols_dense zero grt_abs l nr nc v r c Hr Hc).
  rewrite (dense_lookup zero _ _ _ _ _ (of_cols_has _ _ _ (reg_cols_nth grt_abs l nr nc v c Hc))).
  assert (E : dcol (fun x => grt_abs x l) 0 0 (fun r => v r c) nr = []).
  { pose proof (reg_cols_nth grt_abs l nr nc v c Hc) as N. apply nth_error_In in N.
    apply length_zero_iff_nil in H. destruct (dcol _ _ _ _ _) as [|p t] eqn:D; [reflexivity|].
    exfalso. assert (In p (concat (cols_of l nr nc v))) by (apply in_concat; exists (p :: t); split; [assumption|left; reflexivity]).
    rewrite H in *. contradiction. }
  rewrite E. reflexivity.
Qed.

Definition FEsum (P : spatch F) (X : list (list F)) (q i j : nat) : F :=
  sumF (sNS P) (fun k => mul (kp lim (block_entry (sF P) q i k)) (kp lim (entry X j k))).
Definition fe_ok (n NI : nat) (v : nat -> nat -> F) (fe : option (matrix F)) : Prop :=
  match fe with
  | None => forall i j, i < n -> j < NI -> v i j = zero
  | Some m => exists D, m = mkM n NI (RMO (concat D)) /\ shape n NI D /\ forall i j, i < n -> j < NI -> entry D i j = v i j
  end.

Lemma alloc_rmo_concat n m : (Z.of_nat n * Z.of_nat m <= 2147483647)%Z -> alloc_rmo zero n m = concat (alloc_reg zero n m).
Proof.
  intros H. unfold alloc_rmo, alloc_reg. rewrite Z.mod_small by lia. rewrite <- Nat2Z.inj_mul, Nat2Z.id.
  clear H. induction n as [|n IH]; [reflexivity|]. cbn [Nat.mul repeat concat]. rewrite repeat_app, IH. reflexivity.
Qed.

Lemma F_by_E_ok P X q n Fo Co : nth_error (sF P) q = Some Fo -> block_ok n (sNS P) (sNI P) Fo Co -> 0 < n -> 0 < sNS P -> 0 < sNI P ->
  (Z.of_nat n * Z.of_nat (sNS P) <= 2147483647)%Z -> (Z.of_nat n * Z.of_nat (sNI P) <= 2147483647)%Z ->
  shape (sNI P) (sNS P) X ->
  exists fe, F_by_E_prime zero add mul grt_abs drop (mkM (sNI P) (sNS P) (CCS (of_cols (cols_of lim (sNI P) (sNS P) (entry X))))) Fo = Ok fe /\
    fe_ok n (sNI P) (FEsum P X q) fe /\ (Fo = None -> fe = None).
Proof.
  intros Eq BO Hn HNS HNI B1 B2 SX. pose proof (block_rows zero n _ _ Fo Co q (sF P) Eq BO) as BR.
  destruct Fo as [m|]; cbn [F_by_E_prime].
  2: { exists None. split; [reflexivity|]. split; [|reflexivity]. intros i j _ _. unfold FEsum.
       apply (sumF_zero zero one add mul sub opp RT). intros k Hk. rewrite BR. unfold kept. destruct (grt_abs zero lim); ring. }
  destruct BR as (A & -> & SA & EA).
  rewrite (cast_rmo zero grt_abs drop n (sNS P) A) by assumption. cbn [obind sto col row of_cols Ap].
  rewrite (rd_ok _ _ _ (reg_cols_last lim n (sNS P) (entry A))). cbn [obind].
  rewrite (rd_ok _ _ _ (reg_cols_last lim (sNI P) (sNS P) (entry X))). cbn [obind].
  assert (FS : forall i j, i < n -> j < sNI P -> FEsum P X q i j = sumF (sNS P) (fun k => mul (kp lim (entry A i k)) (kp lim (entry X j k)))).
  { intros i j Hi Hj. apply sumF_ext. intros k Hk. rewrite EA by assumption. reflexivity. }
  destruct (Z.eqb_spec (Z.of_nat (length (concat (cols_of lim n (sNS P) (entry A))))) 0) as [E1|E1]; cbn [orb].
  { exists None. split; [reflexivity|]. split; [|reflexivity]. intros i j Hi Hj. rewrite FS by assumption.
    apply (sumF_zero zero one add mul sub opp RT). intros k Hk. rewrite (reg_cols_empty lim n (sNS P) (entry A)) by (assumption || lia). ring. }
  destruct (Z.eqb_spec (Z.of_nat (length (concat (cols_of lim (sNI P) (sNS P) (entry X))))) 0) as [E2|E2].
  { exists None. split; [reflexivity|]. split; [|reflexivity]. intros i j Hi Hj. rewrite FS by assumption.
    apply (sumF_zero zero one add mul sub opp RT). intros k Hk. rewrite (reg_cols_empty lim (sNI P) (sNS P) (entry X)) by (assumption || lia). ring. }
  set (ma := mkM n (sNS P) (CCS (of_cols (cols_of lim n (sNS P) (entry A))))).
  set (mb := mkM (sNI P) (sNS P) (CCS (of_cols (cols_of lim (sNI P) (sNS P) (entry X))))).
  assert (RA : repr zero ma (map (map (kp lim)) A)).
  { split; [apply shape_map; assumption|]. cbn [sto ma]. split; [apply reg_cols_valid|]. cbn [ma row col]. intros r c Hr Hc.
    rewrite reg_cols_dense by assumption. rewrite (entry_map zero n (sNS P)) by assumption. reflexivity. }
  assert (RB : repr zero mb (map (map (kp lim)) X)).
  { split; [apply shape_map; assumption|]. cbn [sto mb]. split; [apply reg_cols_valid|]. cbn [mb row col]. intros r c Hr Hc.
    rewrite reg_cols_dense by assumption. rewrite (entry_map zero (sNI P) (sNS P)) by assumption. reflexivity. }
  destruct (product_abt_acc zero add mul ltac:(intros; ring) ltac:(intros; ring) ltac:(intros; ring) ma mb _ _
     (mkM n (sNI P) (RMO (alloc_rmo zero n (sNI P)))) (alloc_reg zero n (sNI P)) (S_ "a*transpose(b)") RA RB) as (d & D & E & Rd & Cd & Id & RD & ED).
  - exact I.
  - intros H; exact H.
  - split; [cbn [row col]; apply shape_alloc|]. cbn [sto]. apply alloc_rmo_concat. assumption.
  - exact I.
  - reflexivity.
  - reflexivity.
  - cbn. assumption.
  - cbn. assumption.
  - cbn. assumption.
  - reflexivity.
  - reflexivity.
  - rewrite E. cbn [obind]. eexists. split; [reflexivity|]. split; [|discriminate].
    exists D. destruct d as [rd_ cd_ sd]. cbn [row col] in Rd, Cd. subst rd_ cd_. destruct RD as [SD RD]. cbn [sto row col] in SD, RD.
    unfold is_rmo in Id. cbn [sto] in Id. destruct sd; try contradiction. subst. cbn [ma mb row col] in *.
    split; [reflexivity|]. split; [assumption|]. intros i j Hi Hj. rewrite ED by assumption. rewrite (dot_sum zero one add mul sub opp RT).
    rewrite entry_alloc. rewrite FS by assumption.
    rewrite (sumF_ext zero add (sNS P) _ (fun k => mul (kp lim (entry A i k)) (kp lim (entry X j k)))).
    + ring.
    + intros k Hk. rewrite (entry_map zero n (sNS P)), (entry_map zero (sNI P) (sNS P)) by assumption. reflexivity.
Qed.

(** ** the stack *)
Definition member_ok (n NI : nat) (v : nat -> nat -> F) (st : option (matrix F)) : Prop :=
  match st with
  | None => forall i j, i < n -> j < NI -> v i j = zero
  | Some m => exists D, m = mkM n NI (REG D) /\ shape n NI D /\ forall i j, i < n -> j < NI -> entry D i j = v i j
  end.

Lemma fill_reg nr nc (w : nat -> nat -> F) (body : nat -> nat -> list (list F) -> outcome (list (list F))) :
  (forall r c d, r < nr -> c < nc -> body r c d = wr2z d (Z.of_nat r) c (w r c)) ->
  exists D, ofold (fun r d => ofold (fun c d => body r c d) (seq 0 nc) d) (seq 0 nr) (alloc_reg zero nr nc) = Ok D /\
    shape nr nc D /\ forall r c, r < nr -> c < nc -> entry D r c = w r c.
Proof.
  intros H.
  destruct (ofold_seq_inv (fun k d => shape nr nc d /\ forall r c, r < k -> c < nc -> entry d r c = w r c)
    (fun r d => ofold (fun c d => body r c d) (seq 0 nc) d) nr 0 (alloc_reg zero nr nc)) as (D & E & SD & HD).
  - intros r d Hr [Sd Hd].
    destruct (ofold_seq_inv (fun k d => shape nr nc d /\ (forall r' c, r' < r -> c < nc -> entry d r' c = w r' c) /\ forall c, c < k -> entry d r c = w r c)
      (fun c d => body r c d) nc 0 d) as (d' & E & Sd' & H1 & H2).
    + intros c d1 Hc (S1 & K1 & K2). rewrite H by lia.
      destruct (wr2z_shape zero nr nc d1 (Z.of_nat r) c (w r c) S1 ltac:(lia) ltac:(lia)) as (d2 & E2 & S2 & G2). rewrite Nat2Z.id in G2.
      exists d2. split; [assumption|]. split; [assumption|]. split.
      * intros r' c' Hr' Hc'. rewrite G2. destruct (Nat.eqb_spec r' r); [lia|]. cbn [andb]. apply K1; assumption.
      * intros c' Hc'. rewrite G2, Nat.eqb_refl. cbn [andb]. destruct (Nat.eqb_spec c' c) as [->|]; [reflexivity|]. apply K2. lia.
    + split; [assumption|]. split; [assumption|]. intros c Hc; lia.
    + exists d'. split; [assumption|]. split; [assumption|]. intros r' c Hr' Hc. destruct (Nat.eq_dec r' r) as [->|].
      * apply H2. lia.
      * apply H1; [lia|assumption].
  - split; [apply shape_alloc|]. intros r c Hr; lia.
  - exists D. split; [assumption|]. split; [assumption|]. intros r c Hr Hc. apply HD; [lia|assumption].
Qed.

Lemma stack_member_ok n NS NI Fo Co fe v q (l : list (option (matrix F))) : nth_error l q = Some Co -> block_ok n NS NI Fo Co ->
  fe_ok n NI v fe -> (Fo = None -> fe = None) ->
  exists st, stack_member zero sub fe Co = Ok st /\ member_ok n NI (fun i j => sub (block_entry l q i j) (v i j)) st.
Proof.
  intros Eq BO FE FN. destruct BO as [[-> ->]|(A & A' & -> & SA & -> & SA')].
  - rewrite (FN eq_refl) in *. exists None. split; [reflexivity|]. intros i j Hi Hj. rewrite FE by assumption.
    unfold SchurSpec.block_entry. rewrite Eq. ring.
  - assert (BE : forall i j, block_entry l q i j = entry A' i j) by (intros i j; unfold SchurSpec.block_entry; rewrite Eq; reflexivity).
    destruct fe as [m|]; cbn [stack_member].
    + destruct FE as (D & -> & SD & ED). cbn [row col sto]. rewrite !Nat.eqb_refl. cbn [andb negb].
      destruct (fill_reg n NI (fun i j => sub (entry A' i j) (v i j))
        (fun r c d => do y <- rd2 A' r c; do x <- rd (concat D) (c + NI * r); wr2z d (Z.of_nat r) c (sub y x))) as (G & E & SG & EG).
      * intros r c d Hr Hc. rewrite (rd2_shape zero n NI) by assumption. cbn [obind].
        rewrite (rd_ok _ _ _ (nth_concat_rows zero n NI D r c SD Hr Hc)). cbn [obind]. rewrite ED by assumption. reflexivity.
      * rewrite E. cbn [obind]. eexists. split; [reflexivity|]. exists G. split; [reflexivity|]. split; [assumption|].
        intros i j Hi Hj. rewrite EG by assumption. rewrite BE. reflexivity.
    + cbn [sto]. eexists. split; [reflexivity|]. exists A'. split; [reflexivity|]. split; [assumption|].
      intros i j Hi Hj. rewrite FE by assumption. rewrite BE. ring.
Qed.

Lemma stack_entries NI : forall sts NIp v, length sts = length NIp ->
  (forall q n st, nth_error NIp q = Some n -> nth_error sts q = Some st -> member_ok n NI (v q) st) ->
  stack_ok NI (combine sts NIp) /\
  forall q n i j, nth_error NIp q = Some n -> i < n -> j < NI -> entry (stack_rows zero NI (combine sts NIp)) (off NIp q + i) j = v q i j.
Proof.
  induction sts as [|st sts IH]; intros [|n NIp] v L H; try discriminate.
  - split; [constructor|]. intros [|q] n i j E; discriminate.
  - cbn [length] in L. destruct (IH NIp (fun q => v (S q)) ltac:(lia)) as [SO HE].
    { intros q n' st' H1 H2. apply (H (S q)); assumption. }
    pose proof (H 0 n st eq_refl eq_refl) as M0.
    assert (S1 : sok NI (st, n)).
    { unfold sok. cbn [fst snd]. destruct st as [m|]; [|exact I]. destruct M0 as (D & -> & SD & _). cbn [sto row]. split; [assumption|lia]. }
    split.
    { constructor; [exact S1|exact SO]. }
    pose proof (srow_shape zero NI (st, n) S1) as [L1 _]. cbn [snd] in L1.
    assert (SR : stack_rows zero NI (combine (st :: sts) (n :: NIp)) = srow zero NI (st, n) ++ stack_rows zero NI (combine sts NIp)) by reflexivity.
    intros [|q] n' i j Hq Hi Hj.
    + cbn in Hq. injection Hq as <-. unfold off. cbn [firstn]. change (list_sum []) with 0. cbn [Nat.add].
      unfold MatrixSpec.entry. rewrite SR, app_nth1 by lia. unfold srow. cbn [fst snd].
      destruct st as [m|].
      * destruct M0 as (D & -> & SD & ED). cbn [sto]. rewrite nth_firstn by assumption. apply ED; assumption.
      * pose proof (entry_alloc zero n NI i j) as EA. unfold alloc_reg, MatrixSpec.entry in EA. rewrite EA. symmetry. apply M0; assumption.
    + cbn in Hq. specialize (HE q n' i j Hq Hi Hj). unfold MatrixSpec.entry in *. rewrite SR.
      assert (EO : off (n :: NIp) (S q) = n + off NIp q). { unfold off. cbn [firstn]. reflexivity. }
      rewrite EO, app_nth2 by lia. rewrite L1. replace (n + off NIp q + i - n) with (off NIp q + i) by lia. assumption.
Qed.

(** ** the column block of one patch *)
Definition subS_ok (NIp : list nat) (P : spatch F) (X : list (list F)) (s : matrix F) : Prop :=
  exists A, s = mkM (list_sum NIp) (sNI P) (CCS (of_cols (cols_of zero (list_sum NIp) (sNI P) (entry A)))) /\
   forall q n i j, nth_error NIp q = Some n -> i < n -> j < sNI P ->
     entry A (off NIp q + i) j = sub (block_entry (sC P) q i j) (FEsum P X q i j).

Lemma omap_nth {A B} (f : A -> outcome B) l (Q : nat -> B -> Prop) : (forall i a, nth_error l i = Some a -> exists b, f a = Ok b /\ Q i b) ->
  exists r, omap f l = Ok r /\ length r = length l /\ forall i b, nth_error r i = Some b -> Q i b.
Proof.
  revert Q; induction l as [|a l IH]; intros Q H; cbn [omap].
  - exists []. split; [reflexivity|]. split; [reflexivity|]. intros [|i]; discriminate.
  - destruct (H 0 a eq_refl) as (b & E & Hb). rewrite E. cbn [obind].
    destruct (IH (fun i => Q (S i))) as (r & Er & Lr & Hr). { intros i x Hx. apply (H (S i)). assumption. }
    rewrite Er. cbn [obind]. exists (b :: r). split; [reflexivity|]. split; [cbn; lia|].
    intros [|i] c Hc; cbn in Hc; [congruence|]. apply Hr. assumption.
Qed.
Lemma nth_error_combine2 {A B} (l : list A) (r : list B) i c : nth_error (combine l r) i = Some c -> nth_error l i = Some (fst c) /\ nth_error r i = Some (snd c).
Proof.
  rewrite nth_error_combine. destruct (nth_error l i), (nth_error r i); try discriminate. intros E; injection E as <-. auto.
Qed.

Lemma subS_step NIp P X : patch_ok NIp P -> Forall (fun n => 0 < n) NIp -> shape (sNI P) (sNS P) X ->
  0 < list_sum NIp -> (Z.of_nat (list_sum NIp) < 2147483647)%Z ->
  (Z.of_nat (list_sum NIp) * Z.of_nat (sNS P) <= 2147483647)%Z -> (Z.of_nat (list_sum NIp) * Z.of_nat (sNI P) <= 2147483647)%Z ->
  exists s, (do FE <- omap (F_by_E_prime zero add mul grt_abs drop (mkM (sNI P) (sNS P) (CCS (of_cols (cols_of lim (sNI P) (sNS P) (entry X)))))) (sF P);
             making_sub_S_matrix zero sub grt_abs NIp (sNI P) FE (sC P)) = Ok s /\ subS_ok NIp P X s.
Proof.
  intros PO HP SX HN B0 B1 B2.
  assert (NQ : forall q n, nth_error NIp q = Some n -> 0 < n /\ n <= list_sum NIp).
  { intros q n Hq. split; [rewrite Forall_forall in HP; apply HP; eapply nth_error_In; eassumption|]. pose proof (off_le _ _ _ Hq). lia. }
  destruct (omap_nth (F_by_E_prime zero add mul grt_abs drop (mkM (sNI P) (sNS P) (CCS (of_cols (cols_of lim (sNI P) (sNS P) (entry X)))))) (sF P)
    (fun q fe => forall n Fo, nth_error NIp q = Some n -> nth_error (sF P) q = Some Fo -> fe_ok n (sNI P) (FEsum P X q) fe /\ (Fo = None -> fe = None)))
    as (FE & E1 & L1 & H1).
  { intros q Fo Hq. assert (q < length NIp) by (rewrite <- (k_F _ _ PO); apply nth_error_Some; congruence).
    destruct (nth_error_ex NIp q) as [n Hn]; [assumption|]. destruct (nth_error_ex (sC P) q) as [Co HC]; [rewrite (k_C _ _ PO); assumption|].
    destruct (NQ q n Hn) as [Pn Ln].
    destruct (F_by_E_ok P X q n Fo Co Hq (k_blocks _ _ PO q n Fo Co Hn Hq HC) Pn (k_NS _ _ PO) (k_NI _ _ PO)) as (fe & E & FO & FN); [nia|nia|assumption|].
    exists fe. split; [assumption|]. intros n' Fo' Hn' HF'. rewrite Hn in Hn'. injection Hn' as <-. rewrite Hq in HF'. injection HF' as <-. auto. }
  rewrite E1. cbn [obind]. unfold making_sub_S_matrix.
  destruct (omap_nth (fun fc => stack_member zero sub (fst fc) (snd fc)) (combine FE (sC P))
    (fun q st => forall n, nth_error NIp q = Some n -> member_ok n (sNI P) (fun i j => sub (block_entry (sC P) q i j) (FEsum P X q i j)) st))
    as (sts & E2 & L2 & H2).
  { intros q fc Hq. apply nth_error_combine2 in Hq. destruct Hq as [HF HC].
    assert (q < length NIp) by (rewrite <- (k_C _ _ PO); apply nth_error_Some; congruence).
    destruct (nth_error_ex NIp q) as [n Hn]; [assumption|]. destruct (nth_error_ex (sF P) q) as [Fo HFo]; [rewrite (k_F _ _ PO); assumption|].
    destruct (H1 q _ HF n Fo Hn HFo) as [FO FN].
    destruct (stack_member_ok n (sNS P) (sNI P) Fo (snd fc) (fst fc) (FEsum P X q) q (sC P) HC (k_blocks _ _ PO q n Fo _ Hn HFo HC) FO FN) as (st & E & M).
    exists st. split; [assumption|]. intros n' Hn'. rewrite Hn in Hn'. injection Hn' as <-. assumption. }
  rewrite E2. cbn [obind].
  assert (LS : length sts = length NIp). { rewrite L2, combine_length, L1, (k_F _ _ PO), (k_C _ _ PO). lia. }
  destruct (stack_entries (sNI P) sts NIp (fun q i j => sub (block_entry (sC P) q i j) (FEsum P X q i j)) LS) as [SO HE].
  { intros q n st Hn Hst. apply (H2 q st Hst n Hn). }
  assert (SM : map snd (combine sts NIp) = NIp).
  { clear - LS. revert NIp LS; induction sts as [|a l IH]; intros [|n NIp] LS; try discriminate; [reflexivity|]. cbn [combine map snd]. f_equal. apply IH. cbn in LS. lia. }
  pose proof (stack_shape zero (sNI P) _ SO) as SH. rewrite SM in SH.
  pose proof (count_le (fun x => grt_abs x zero) _ _ _ SH) as CL.
  pose proof (compress_stack_ok zero grt_abs (sNI P) (combine sts NIp) Z0 (k_NI _ _ PO) SO) as CS. cbn zeta in CS. rewrite SM in CS.
  rewrite CS by (assumption || nia). eexists. split; [reflexivity|].
  exists (stack_rows zero (sNI P) (combine sts NIp)). split; [reflexivity|]. exact HE.
Qed.

(** ** concatenation of the column blocks *)
Definition acc_ok (N : nat) (don : list (list (Z * F))) (s : sacc F) : Prop :=
  length (aAp s) = N + 1 /\ length don <= N /\ aR s = length don /\ annz s = Z.of_nat (length (concat don)) /\
  (forall k, k <= length don -> nth k (aAp s) 0%Z = nth k (aps 0 don) 0%Z) /\
  aAi s = map fst (concat don) /\ aAx s = map snd (concat don).

Lemma resize_length {A} (j : A) l n : length (resize j l n) = n.
Proof. unfold resize. rewrite app_length, firstn_length, repeat_length. lia. Qed.
Lemma resize_nth {A} (j : A) l n k d : k < length l -> k < n -> nth k (resize j l n) d = nth k l d.
Proof. intros H1 H2. unfold resize. rewrite app_nth1 by (rewrite firstn_length; lia). apply nth_firstn. assumption. Qed.
Lemma aps_nth' o (cols : list (list (Z * F))) c : c <= length cols -> nth c (aps o cols) 0%Z = (o + Z.of_nat (length (concat (firstn c cols))))%Z.
Proof. intros H. apply nth_error_nth. apply aps_nth. assumption. Qed.

Lemma S_block_ok N don cols (s : sacc F) nr nc : acc_ok N don s -> length cols = nc -> length don + nc <= N -> 0 < nc ->
  safe (acc_ok N (don ++ cols)) (S_block junkz junk (mkM nr nc (CCS (of_cols cols))) s).
Proof.
  intros (LA & LD & ER & En & HA & HI & HX) Lc LN Hc. unfold S_block. cbn [sto col of_cols Ap Ai Ax].
  set (T := length (concat cols)). set (D := length (concat don)).
  assert (FC : firstn nc cols = cols) by (apply firstn_all2; lia).
  assert (rd (aps 0 cols) nc = Ok (Z.of_nat T)) as ->.
  { apply rd_ok. rewrite aps_nth by lia. rewrite FC. reflexivity. }
  cbn [obind]. rewrite (rd_nth (aAp s) (aR s) 0%Z) by lia. cbn [obind]. rewrite ER, HA by lia.
  rewrite aps_nth' by lia. rewrite firstn_all. fold D. rewrite En. fold D.
  replace (0 + Z.of_nat D + Z.of_nat T)%Z with (Z.of_nat (D + T)) by lia.
  destruct (Z.ltb_spec (Z.of_nat (D + T)) 0); [lia|].
  destruct ((Z.of_nat (D + T) =? 0)%Z && negb (anull s)); [exact I|]. rewrite Nat2Z.id.
  assert (LCD : length (concat (don ++ cols)) = D + T) by (rewrite concat_app, app_length; reflexivity).
  set (G := concat (don ++ cols)) in *.
  assert (EG : G = concat don ++ concat cols) by (unfold G; apply concat_app).
  set (ok2 := fun m (u : list Z * list F) => length (fst u) = D + T /\ length (snd u) = D + T /\
     forall k, k < m -> nth k (fst u) 0%Z = nth k (map fst G) 0%Z /\ nth k (snd u) zero = nth k (map snd G) zero).
  destruct (ofold_seq_inv (fun k (t : list Z * (list Z * list F)) =>
      length (fst t) = N + 1 /\ (forall j, j < length don + Nat.max k 1 -> nth j (fst t) 0%Z = nth j (aps 0 (don ++ cols)) 0%Z) /\
      ok2 (D + length (concat (firstn k cols))) (snd t))
    (fun i (t : list Z * (list Z * list F)) =>
          let '(ap, (ai, ax)) := t in
          do lo <- rd (aps 0 cols) i;
          do ap' <- wr ap (i + length don) (lo + Z.of_nat D)%Z;
          do hi <- rd (aps 0 cols) (i + 1);
          do u <- ofold (fun j (u : list Z * list F) =>
              let '(ai, ax) := u in
              do x <- rdz (map fst (concat cols)) j; do ai' <- wrz ai (Z.of_nat D + j) x;
              do y <- rdz (map snd (concat cols)) j; do ax' <- wrz ax (Z.of_nat D + j) y; Ok (ai', ax')) (zrange lo hi) (ai, ax);
          Ok (ap', u)) nc 0 (aAp s, (resize junkz (aAi s) (D + T), resize junk (aAx s) (D + T)))) as (t & E & L1 & A1 & O1).
  - intros i [ap [ai ax]] Hi (Lap & Hap & Hok). cbn [fst snd] in *.
    assert (R1 : rd (aps 0 cols) i = Ok (Z.of_nat (length (concat (firstn i cols))))) by (apply rd_ok; rewrite aps_nth by lia; reflexivity).
    assert (R2 : rd (aps 0 cols) (i + 1) = Ok (Z.of_nat (length (concat (firstn (i + 1) cols))))) by (apply rd_ok; rewrite aps_nth by lia; reflexivity).
    rewrite R1, R2. cbn [obind].
    set (lo := length (concat (firstn i cols))) in *. set (hi := length (concat (firstn (i + 1) cols))) in *.
    assert (LH : lo <= hi /\ hi <= T).
    { assert (E1 : hi = lo + length (nth i cols [])).
      { unfold hi, lo. rewrite (firstn_S_nth cols [] i) by lia. rewrite concat_app, app_length. cbn [concat]. rewrite app_nil_r. reflexivity. }
      assert (E2 : T = hi + length (concat (skipn (i + 1) cols))).
      { unfold hi, T. rewrite <- app_length, <- concat_app, firstn_skipn. reflexivity. }
      lia. }
    destruct (wr_spec ap (i + length don) (Z.of_nat lo + Z.of_nat D)%Z ltac:(lia)) as (ap' & Ew & Lw & Nw). rewrite Ew. cbn [obind].
    unfold zrange. rewrite ofold_map. replace (Z.to_nat (Z.of_nat hi - Z.of_nat lo)) with (hi - lo) by lia.
    destruct (ofold_seq_inv (fun k u => ok2 (D + lo + k) u)
      (fun k (u : list Z * list F) =>
              let '(ai, ax) := u in
              do x <- rdz (map fst (concat cols)) (Z.of_nat lo + Z.of_nat k)%Z; do ai' <- wrz ai (Z.of_nat D + (Z.of_nat lo + Z.of_nat k)) x;
              do y <- rdz (map snd (concat cols)) (Z.of_nat lo + Z.of_nat k)%Z; do ax' <- wrz ax (Z.of_nat D + (Z.of_nat lo + Z.of_nat k)) y; Ok (ai', ax'))
      (hi - lo) 0 (ai, ax)) as (u & Eu & Ou).
    + intros k [ai1 ax1] Hk (U1 & U2 & U3). cbn [fst snd] in *.
      rewrite (rdz_nth _ (Z.of_nat lo + Z.of_nat k) 0%Z) by (rewrite map_length; fold T; lia). cbn [obind].
      rewrite (rdz_nth (map snd _) (Z.of_nat lo + Z.of_nat k) zero) by (rewrite map_length; fold T; lia). cbn [obind].
      destruct (wrz_spec ai1 (Z.of_nat D + (Z.of_nat lo + Z.of_nat k)) (nth (Z.to_nat (Z.of_nat lo + Z.of_nat k)) (map fst (concat cols)) 0%Z)) as (ai2 & W1 & W2 & W3); [lia|].
      rewrite W1. cbn [obind].
      destruct (wrz_spec ax1 (Z.of_nat D + (Z.of_nat lo + Z.of_nat k)) (nth (Z.to_nat (Z.of_nat lo + Z.of_nat k)) (map snd (concat cols)) zero)) as (ax2 & V1 & V2 & V3); [lia|].
      rewrite V1. cbn [obind]. eexists. split; [reflexivity|]. unfold ok2. cbn [fst snd]. split; [lia|]. split; [lia|].
      intros m Hm. rewrite W3, V3. replace (Z.to_nat (Z.of_nat D + (Z.of_nat lo + Z.of_nat k))) with (D + (lo + k)) by lia.
      replace (Z.to_nat (Z.of_nat lo + Z.of_nat k)) with (lo + k) by lia.
      destruct (Nat.eqb_spec m (D + (lo + k))) as [->|NE]; [|apply U3; lia].
      rewrite EG, !map_app, !app_nth2 by (rewrite map_length; fold D; lia). rewrite !map_length. fold D.
      replace (D + (lo + k) - D) with (lo + k) by lia. auto.
    + rewrite Nat.add_0_r. exact Hok.
    + rewrite Eu. cbn [obind]. eexists. split; [reflexivity|]. cbn [fst snd]. split; [lia|]. split.
      * intros j Hj. rewrite Nw. destruct (Nat.eqb_spec j (i + length don)) as [->|NE]; [|apply Hap; lia].
        rewrite aps_nth' by (rewrite app_length; lia). rewrite firstn_app, concat_app, app_length.
        rewrite firstn_all2 by lia. replace (i + length don - length don) with i by lia. fold D lo. lia.
      * replace (D + hi) with (D + lo + (0 + (hi - lo))) by lia. exact Ou.
  - cbn [fst snd]. split; [lia|]. split.
    + intros j Hj. cbn [Nat.max] in Hj. rewrite HA by lia. rewrite !aps_nth' by (rewrite ?app_length; lia).
      rewrite firstn_app. replace (j - length don) with 0 by lia. cbn [firstn]. rewrite app_nil_r. reflexivity.
    + cbn [firstn concat length]. rewrite Nat.add_0_r. unfold ok2. cbn [fst snd]. rewrite !resize_length. split; [reflexivity|]. split; [reflexivity|].
      intros k Hk. rewrite HI, HX. rewrite !resize_nth by (rewrite ?map_length; fold D; lia).
      rewrite EG, !map_app, !app_nth1 by (rewrite map_length; fold D; lia). auto.
  - rewrite E. cbn [obind]. destruct t as [ap [ai ax]]. cbn [fst snd Nat.add] in *.
    destruct (wr_spec ap (length don + nc) (Z.of_nat D + Z.of_nat T)%Z ltac:(lia)) as (ap' & Ew & Lw & Nw). rewrite Ew. cbn [obind safe].
    rewrite FC in O1. fold T in O1. destruct O1 as (O1 & O2 & O3). cbn [fst snd] in *.
    split; cbn [aAp aAi aAx aR annz]; [lia|]. split; [rewrite app_length; lia|]. split; [rewrite app_length; lia|].
    split; [change (concat (don ++ cols)) with G; lia|]. split; [|split].
    + intros k Hk. rewrite app_length in Hk. rewrite Nw. destruct (Nat.eqb_spec k (length don + nc)) as [->|NE]; [|apply A1; lia].
      rewrite aps_nth' by (rewrite app_length; lia). rewrite firstn_all2 by (rewrite app_length; lia). change (concat (don ++ cols)) with G. lia.
    + apply (nth_ext _ _ 0%Z 0%Z); [rewrite map_length; change (concat (don ++ cols)) with G; lia|]. intros k Hk. apply O3. lia.
    + apply (nth_ext _ _ zero zero); [rewrite map_length; change (concat (don ++ cols)) with G; lia|]. intros k Hk. apply O3. lia.
Qed.

Lemma S_loop N : forall (blocks : list (nat * list (list (Z * F)))) (subs : list (matrix F)) don s,
  Forall2 (fun b m => m = mkM N (fst b) (CCS (of_cols (snd b))) /\ length (snd b) = fst b /\ 0 < fst b) blocks subs ->
  length don + list_sum (map fst blocks) <= N -> acc_ok N don s ->
  safe (acc_ok N (don ++ concat (map snd blocks))) (ofold (S_block junkz junk) subs s).
Proof.
  induction blocks as [|b blocks IH]; intros subs don s H L A; inversion H as [|? m ? subs' (Hm & Lb & Pb) H']; subst.
  - cbn [ofold map concat safe]. rewrite app_nil_r. assumption.
  - cbn [map] in L. change (list_sum (?a :: ?b)) with (a + list_sum b) in L. cbn [ofold].
    eapply safe_bind; [apply (S_block_ok N don (snd b)); [eassumption|assumption|lia|assumption]|].
    intros s' A'. cbn [map concat]. rewrite app_assoc. apply IH; [assumption|rewrite app_length; lia|assumption].
Qed.

Lemma compute_S_ok NIp (blocks : list (list (list (Z * F)))) (subs : list (matrix F)) : 0 < list_sum NIp ->
  Forall2 (fun b m => m = mkM (list_sum NIp) (length b) (CCS (of_cols b)) /\ 0 < length b) blocks subs ->
  map (@length _) blocks = NIp ->
  safe (fun m => m = mkM (list_sum NIp) (list_sum NIp) (CCSL (of_cols (concat blocks)))) (compute_S_CCS_long junkz junk NIp subs).
Proof.
  intros HN H HL. unfold compute_S_CCS_long. set (N := list_sum NIp) in *.
  assert (LT : length (concat blocks) = N).
  { unfold N. rewrite <- HL. clear. induction blocks as [|b l IH]; [reflexivity|]. cbn [concat map]. rewrite app_length, IH. reflexivity. }
  apply (safe_bind (acc_ok N (concat blocks))).
  - pose proof (S_loop N (map (fun b => (length b, b)) blocks) subs [] (mkS (repeat 0%Z (N + 1)) [] [] 0 0 true)) as SL.
    rewrite !map_map in SL. cbn [fst snd] in SL. rewrite map_id in SL. cbn [app] in SL. apply SL.
    + clear - H. induction H as [|b m l l' [-> Hp] _ IH]; [constructor|]. constructor; [|assumption]. cbn [fst snd]. auto.
    + cbn [length]. change (fun x => length x) with (@length (list (Z * F))). rewrite HL. fold N. lia.
    + unfold acc_ok. cbn [aAp aAi aAx aR annz length concat map]. rewrite repeat_length. split; [reflexivity|]. split; [lia|]. split; [reflexivity|]. split; [reflexivity|].
      split; [|split; reflexivity]. intros k Hk. replace k with 0 by lia. destruct (N + 1) eqn:E; [lia|]. reflexivity.
  - intros s (LA & LD & ER & En & HA & HI & HX). destruct (Nat.eqb_spec N 0); [lia|]. cbn [safe]. unfold of_cols. rewrite HI, HX.
    replace (aAp s) with (aps 0 (concat blocks)); [reflexivity|].
    apply (nth_ext _ _ 0%Z 0%Z); [rewrite aps_length; lia|]. intros k Hk. rewrite aps_length in Hk. symmetry. apply HA. lia.
Qed.
End Mat.
