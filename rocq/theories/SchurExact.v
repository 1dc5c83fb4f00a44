(** SchurExact.v - one Newton step solves the block system exactly when the sparse format drops
    nothing but zeros; the single-patch solve; the update of the field; and a patch without interface points. *)
From Coq Require Import Ring.
From Verif Require Import Base TextModel MatrixModel MatrixSpec MatrixProofs MatrixConvert MatrixRead MatrixMul MatrixFinal SchurModel SchurSpec SchurProofs SchurPieces SchurBlocks SchurFinal.
Open Scope nat_scope.
Notation length := List.length.

Section Mat.
Context {F : Type} (zero one : F) (add mul sub : F -> F -> F) (opp : F -> F) (grt_abs : F -> F -> bool).
Context (RT : ring_theory zero one add mul sub opp (@eq F)).
Add Ring FR : RT.
Context (drop : option F) (long : bool) (solver : matrix F -> list F -> outcome (list F)) (junkz : Z) (junk : F).
Context (Z0 : grt_abs zero zero = false) (EX : exact_solver zero add mul solver).
Notation sumF := (sumF zero add).
Notation ent := (ent zero).
Notation entry := (entry zero).
Notation lim := (drop_limit zero drop).
Notation kp := (kept zero grt_abs).
Notation block_entry := (block_entry zero).
Notation FEsum := (FEsum zero add mul grt_abs drop).

Lemma sumF_add n h h' : sumF n (fun k => add (h k) (h' k)) = add (sumF n h) (sumF n h').
Proof. apply (fold_add zero one add mul sub opp RT). Qed.
Lemma sumF_sub n h h' : sumF n (fun k => sub (h k) (h' k)) = sub (sumF n h) (sumF n h').
Proof. apply (fold_sub zero one add mul sub opp RT). Qed.
Lemma sumF_mul_l n h c : mul c (sumF n h) = sumF n (fun k => mul c (h k)).
Proof. apply (fold_mul_l zero one add mul sub opp RT). Qed.
Lemma sumF_mul_r n h c : mul (sumF n h) c = sumF n (fun k => mul (h k) c).
Proof. apply (fold_mul_r zero one add mul sub opp RT). Qed.
Lemma sumF_swap n m h : sumF n (fun a => sumF m (fun b => h a b)) = sumF m (fun b => sumF n (fun a => h a b)).
Proof. apply (fold_swap zero one add mul sub opp RT). Qed.

(** (sum over c of A c) (f c - sum over i of E i c y i) *)
Lemma sub_sum n m (A f : nat -> F) (E : nat -> nat -> F) (y : nat -> F) :
  sumF n (fun c => mul (A c) (sub (f c) (sumF m (fun i => mul (E i c) (y i))))) =
  sub (sumF n (fun c => mul (A c) (f c))) (sumF m (fun i => mul (sumF n (fun c => mul (A c) (E i c))) (y i))).
Proof.
  rewrite (sumF_ext zero add n _ (fun c => sub (mul (A c) (f c)) (sumF m (fun i => mul (A c) (mul (E i c) (y i)))))).
  2: { intros c _. rewrite <- sumF_mul_l. ring. }
  rewrite sumF_sub. f_equal. rewrite sumF_swap. apply sumF_ext. intros i _. rewrite sumF_mul_r. apply sumF_ext. intros c _. ring.
Qed.

Lemma combine_nth_error {A B} (l : list A) (r : list B) i a b : nth_error l i = Some a -> nth_error r i = Some b -> nth_error (combine l r) i = Some (a, b).
Proof. intros H1 H2. rewrite nth_error_combine, H1, H2. reflexivity. Qed.

Theorem facts_drops ps xy : facts zero add mul sub grt_abs drop ps xy -> solves_with_drops zero add sub mul grt_abs lim ps xy.
Proof.
  intros [L (Xs & fps & y & Ly & H1 & H2)]. split; [assumption|]. exists Xs. split.
  - intros p P x y' HP Hxy. destruct (H1 p P HP) as (x0 & E & Lx & Hx & HE & Hf). rewrite Hxy in E. injection E as -> ->.
    assert (OL : off (map sNI ps) p + sNI P <= list_sum (map sNI ps)) by (apply off_le; rewrite nth_error_map, HP; reflexivity).
    split; [assumption|]. split; [rewrite skipn_length; lia|]. split; [assumption|]. intros r Hr. unfold sub_row.
    assert (EY : forall i, ent (skipn (off (map sNI ps) p) y) i = ent y (off (map sNI ps) p + i)) by (intros i; unfold SchurSpec.ent; apply nth_skipn').
    rewrite (sumF_ext zero add (sNS P) (fun c => mul (entry (sB P) r c) (ent x0 c)) (fun c => add (mul (kp lim (entry (sB P) r c)) (ent x0 c)) (mul (sub (entry (sB P) r c) (kp lim (entry (sB P) r c))) (ent x0 c)))) by (intros; ring).
    rewrite sumF_add.
    rewrite (sumF_ext zero add (sNS P) (fun c => mul (kp lim (entry (sB P) r c)) (ent x0 c)) (fun c => mul (kp lim (entry (sB P) r c)) (sub (ent (nth p fps []) c) (sumF (sNI P) (fun i => mul (kp lim (entry (nth p Xs []) i c)) (ent y (off (map sNI ps) p + i)))))))
      by (intros c Hc; rewrite Hx by assumption; reflexivity).
    rewrite (sub_sum (sNS P) (sNI P) (fun c => kp lim (entry (sB P) r c)) (fun c => ent (nth p fps []) c) (fun i c => kp lim (entry (nth p Xs []) i c)) (fun i => ent y (off (map sNI ps) p + i))).
    rewrite (Hf r Hr).
    rewrite (sumF_ext zero add (sNI P) (fun i => mul (sumF (sNS P) (fun c => mul (kp lim (entry (sB P) r c)) (sub (entry (nth p Xs []) i c) (kp lim (entry (nth p Xs []) i c))))) (ent (skipn (off (map sNI ps) p) y) i))
        (fun i => sub (mul (entry (sET P) i r) (ent y (off (map sNI ps) p + i))) (mul (sumF (sNS P) (fun c => mul (kp lim (entry (sB P) r c)) (kp lim (entry (nth p Xs []) i c)))) (ent y (off (map sNI ps) p + i))))).
    2: { intros i Hi. rewrite EY, <- (HE i r Hi Hr). 
         rewrite (sumF_ext zero add (sNS P) (fun c => mul (kp lim (entry (sB P) r c)) (sub _ _)) (fun c => sub (mul (kp lim (entry (sB P) r c)) (entry (nth p Xs []) i c)) (mul (kp lim (entry (sB P) r c)) (kp lim (entry (nth p Xs []) i c))))) by (intros; ring).
         rewrite sumF_sub. ring. }
    rewrite sumF_sub.
    rewrite (sumF_ext zero add (sNI P) (fun i => mul (entry (sET P) i r) (ent (skipn (off (map sNI ps) p) y) i)) (fun i => mul (entry (sET P) i r) (ent y (off (map sNI ps) p + i)))) by (intros; rewrite EY; reflexivity).
    ring.
  - intros q Q i HQ Hi. specialize (H2 q Q i HQ Hi). unfold interface_row.
    rewrite (fold_left_ext_in _ (fun s pxy => add s (add (sumF (sNS (fst pxy)) (fun k => mul (block_entry (sF (fst pxy)) q i k) (ent (fst (snd pxy)) k)))
                (sumF (sNI (fst pxy)) (fun k => mul (block_entry (sC (fst pxy)) q i k) (ent (snd (snd pxy)) k)))))).
    2: { intros s [P [x y']] _. reflexivity. }
    rewrite (fold_nth zero add _ (combine ps xy) (@dP F, ([], []))). rewrite combine_length, L, Nat.min_id. cbv zeta in H2 |- *.
    match goal with |- _ = add (ent (sg Q) i) (sumF (length ps) ?h) =>
    rewrite (sumF_ext zero add (length ps) _ (fun p => let P := nth p ps dP in
       add (add (sumF (sNS P) (fun k => mul (block_entry (sF P) q i k) (ent (nth p fps []) k)))
           (sumF (sNI P) (fun j => mul (kp zero (sub (block_entry (sC P) q i j) (FEsum P (nth p Xs []) q i j))) (ent y (off (map sNI ps) p + j))))) (h p))) end.
    + cbv zeta. rewrite !sumF_add, H2. ring.
    + intros p Hp. destruct (nth_error_ex ps p Hp) as [P HP]. destruct (H1 p P HP) as (x & E & Lx & Hx & HE & Hf).
      rewrite (nth_error_nth _ _ (@dP F, ([], [])) (combine_nth_error _ _ _ _ _ HP E)). cbn [fst snd]. cbv zeta. change (mkP 0 0 [] [] [] [] [] []) with (@dP F). rewrite (nth_error_nth _ _ dP HP), (nth_error_nth _ _ ([], []) E). cbn [snd].
      assert (EY : forall i, ent (skipn (off (map sNI ps) p) y) i = ent y (off (map sNI ps) p + i)) by (intros i0; unfold SchurSpec.ent; apply nth_skipn').
      rewrite (sumF_ext zero add (sNS P) _ (fun c => mul (block_entry (sF P) q i c) (sub (ent (nth p fps []) c) (sumF (sNI P) (fun j => mul (kp lim (entry (nth p Xs []) j c)) (ent y (off (map sNI ps) p + j))))))).
      2: { intros c Hc. rewrite Hx by assumption. reflexivity. }
      rewrite (sub_sum (sNS P) (sNI P) (fun c => block_entry (sF P) q i c) (fun c => ent (nth p fps []) c) (fun j c => kp lim (entry (nth p Xs []) j c)) (fun j => ent y (off (map sNI ps) p + j))).
      assert (AUX : forall a b c d e, add (opp b) c = add d e -> add (sub a b) c = add (add a d) e) by (intros a0 b0 c0 d0 e0 HH; transitivity (add a0 (add (opp b0) c0)); [ring|rewrite HH; ring]).
      apply AUX.
      rewrite <- sumF_add.
      rewrite (sumF_ext zero add (sNI P) (fun k => mul (block_entry (sC P) q i k) (ent (skipn _ y) k))
         (fun j => add (mul (sumF (sNS P) (fun c => mul (block_entry (sF P) q i c) (kp lim (entry (nth p Xs []) j c)))) (ent y (off (map sNI ps) p + j)))
                       (mul (sub (block_entry (sC P) q i j) (sumF (sNS P) (fun c => mul (block_entry (sF P) q i c) (kp lim (entry (nth p Xs []) j c))))) (ent y (off (map sNI ps) p + j))))).
      2: { intros j Hj. rewrite EY. ring. }
      rewrite sumF_add. match goal with |- add (opp ?a) (add ?a ?b) = ?c => transitivity b; [ring|] end.
      apply sumF_ext. intros j Hj. rewrite EY. unfold SchurBlocks.FEsum.
      rewrite (sumF_ext zero add (sNS P) (fun k => mul (sub (block_entry (sF P) q i k) (kp lim (block_entry (sF P) q i k))) (kp lim (entry (nth p Xs []) j k)))
         (fun k => sub (mul (block_entry (sF P) q i k) (kp lim (entry (nth p Xs []) j k))) (mul (kp lim (block_entry (sF P) q i k)) (kp lim (entry (nth p Xs []) j k))))) by (intros; ring).
      rewrite sumF_sub. ring.
Qed.
Theorem step_drops ps : ps <> [] -> Forall (patch_ok (map sNI ps)) ps -> sizes_ok ps ->
  safe (solves_with_drops zero add sub mul grt_abs lim ps) (schur_step zero add sub mul grt_abs drop long solver junkz junk ps).
Proof.
  intros NE PO SZ. apply (safe_weaken (facts zero add mul sub grt_abs drop ps)); [apply facts_drops|].
  apply (step_facts zero one add mul sub opp grt_abs RT drop long solver junkz junk Z0 EX ps NE PO SZ).
Qed.
Lemma kept_id l v : not_dropped zero grt_abs l v -> kp l v = v.
Proof. unfold not_dropped, kept. destruct (grt_abs v l); [reflexivity|]. intros H. symmetry. apply H. reflexivity. Qed.
Theorem drops_exact ps xy : nothing_dropped zero add sub mul grt_abs lim ps -> solves_with_drops zero add sub mul grt_abs lim ps xy -> solves_block_system zero add mul ps xy.
Proof.
  intros ND (L & Xs & H1 & H2). split; [assumption|].
  assert (HX : forall p P, nth_error ps p = Some P -> forall i r, i < sNI P -> r < sNS P -> sumF (sNS P) (fun k => mul (entry (sB P) r k) (entry (nth p Xs []) i k)) = entry (sET P) i r).
  { intros p P HP i r Hi Hr. assert (p < length ps) by (apply nth_error_Some; congruence). destruct (nth_error_ex xy p ltac:(lia)) as [[x y] Exy].
    destruct (H1 p P x y HP Exy) as (_ & _ & HE & _). destruct (ND p P HP) as (NB & _). rewrite <- (HE i r Hi Hr). apply sumF_ext. intros k Hk. rewrite kept_id; [reflexivity|]. apply NB; assumption. }
  split.
  - intros p P x y HP Exy. destruct (H1 p P x y HP Exy) as (L1 & L2 & _ & HR). destruct (ND p P HP) as (NB & _ & NX). destruct (NX _ (HX p P HP)) as [NX1 _].
    split; [assumption|]. split; [assumption|]. intros r Hr. rewrite (HR r Hr).
    rewrite (sumF_zero zero one add mul sub opp RT (sNS P)). 2: { intros c Hc. rewrite kept_id by (apply NB; assumption). ring. }
    rewrite (sumF_zero zero one add mul sub opp RT (sNI P)). 2: { intros j Hj. rewrite (sumF_zero zero one add mul sub opp RT (sNS P)); [ring|]. intros c Hc. rewrite (kept_id lim (entry (nth p Xs []) j c)) by (apply NX1; assumption). ring. }
    ring.
  - intros q Q i HQ Hi. rewrite (H2 q Q i HQ Hi). rewrite (sumF_zero zero one add mul sub opp RT (length ps)); [ring|]. intros p Hp. destruct (nth_error_ex ps p Hp) as [P HP].
    cbv zeta. rewrite (nth_error_nth _ _ _ HP). destruct (ND p P HP) as (NB & NF & NX). destruct (NX _ (HX p P HP)) as [NX1 NX2].
    apply (sumF_zero zero one add mul sub opp RT). intros j Hj.
    rewrite (sumF_ext zero add (sNS P) (fun k => mul (kp lim (block_entry (sF P) q i k)) (kp lim (entry (nth p Xs []) j k))) (fun k => mul (block_entry (sF P) q i k) (entry (nth p Xs []) j k))).
    2: { intros k Hk. rewrite !kept_id; [reflexivity|apply NX1; assumption|apply (NF q Q); assumption]. }
    rewrite (kept_id zero) by (apply (NX2 q Q); assumption).
    rewrite (sumF_zero zero one add mul sub opp RT (sNS P) (fun k => mul (sub (block_entry (sF P) q i k) _) _)). 2: { intros k Hk. rewrite (kept_id lim (block_entry (sF P) q i k)) by (apply (NF q Q); assumption). ring. }
    ring.
Qed.
Theorem step_solves ps : ps <> [] -> Forall (patch_ok (map sNI ps)) ps -> sizes_ok ps -> nothing_dropped zero add sub mul grt_abs lim ps ->
  safe (solves_block_system zero add mul ps) (schur_step zero add sub mul grt_abs drop long solver junkz junk ps).
Proof.
  intros NE PO SZ ND. apply (safe_weaken (solves_with_drops zero add sub mul grt_abs lim ps)); [intros xy; apply drops_exact; assumption|]. apply step_drops; assumption.
Qed.

(** ** the single-patch solve *)
Definition dense_solves (n : nat) (A : list (list F)) (x b : list F) : Prop :=
  length x = n /\ forall r, r < n -> sumF n (fun c => mul (entry A r c) (ent x c)) = ent b r.
Theorem single_solves P : 0 < sNS P -> shape (sNS P) (sNS P) (sB P) -> length (sf P) = sNS P ->
  (Z.of_nat (sNS P) * Z.of_nat (sNS P) <= 2147483647)%Z -> (forall r c, r < sNS P -> c < sNS P -> not_dropped zero grt_abs lim (entry (sB P) r c)) ->
  safe (fun x => dense_solves (sNS P) (sB P) x (sf P)) (solve_Bx_f zero grt_abs drop solver P).
Proof.
  intros HN SB Lf BD ND. unfold solve_Bx_f.
  assert (FB : firstn (sNS P) (sB P) = sB P) by (apply firstn_all2; destruct SB; lia).
  destruct (cast_reg zero grt_abs drop (sNS P) (sNS P) (sB P)) as [C1 _]; [rewrite FB; assumption|lia|lia|lia|]. rewrite FB in C1. rewrite C1. cbn [obind].
  set (cB := of_cols (reg_cols grt_abs lim (sNS P) (sNS P) (entry (sB P)))).
  assert (V : ccs_valid (sNS P) (sNS P) cB) by apply reg_cols_valid.
  pose proof (EX (sNS P) cB (mkM (sNS P) (sNS P) (CCS cB)) (sf P) (or_introl eq_refl) eq_refl eq_refl HN V Lf) as H.
  destruct (solver _ (sf P)) as [x| |]; cbn [safe]; [|exact I|exact H]. destruct H as [Lx Hx]. split; [assumption|].
  intros r Hr. rewrite <- (Hx r Hr). apply sumF_ext. intros k Hk. f_equal. unfold cB. rewrite reg_cols_dense by lia. symmetry. apply kept_id. apply ND; assumption.
Qed.
End Mat.

(** ** the update of the field *)
Lemma NoDup_app_l {A} (l r : list A) : NoDup (l ++ r) -> NoDup l /\ NoDup r /\ forall a, In a l -> ~ In a r.
Proof.
  induction l as [|a l IH]; cbn; intros H; [split; [constructor|split; [assumption|intros ? []]]|].
  inversion H as [|? ? NI ND]; subst. destruct (IH ND) as (A1 & A2 & A3). rewrite in_app_iff in NI. split; [constructor; tauto|]. split; [assumption|].
  intros b [<-|Hb]; [tauto|]. apply A3. assumption.
Qed.
Section Upd.
Context {F : Type} (zero : F) (sub mul : F -> F -> F).
Notation ent := (ent zero).
Lemma upd_loop_ok lambda (inv : list nat) n (x : list F) u b :
  n <= length inv -> NoDup (firstn n inv) -> Forall (fun i => i < length u) (firstn n inv) -> n <= length x -> length b = length u ->
  exists u' b', upd_loop sub mul lambda inv n x (u, b) = Ok (u', b') /\ length u' = length u /\ length b' = length u /\
    (forall s, s < n -> ent u' (nth s inv 0) = sub (ent u (nth s inv 0)) (mul lambda (ent x s)) /\ ent b' (nth s inv 0) = ent u (nth s inv 0)) /\
    (forall k, ~ In k (firstn n inv) -> ent u' k = ent u k /\ ent b' k = ent b k).
Proof.
  intros Ln ND BD Lx Lb. unfold upd_loop.
  assert (Hin : forall s, s < n -> In (nth s inv 0) (firstn n inv)).
  { intros s Hs. rewrite <- (nth_firstn inv 0 n s Hs). apply nth_In. rewrite firstn_length. lia. }
  rewrite Forall_forall in BD.
  assert (INJ : forall s t, s < n -> t < n -> nth s inv 0 = nth t inv 0 -> s = t).
  { intros s t Hs Ht E. rewrite NoDup_nth with (d := 0) in ND. apply ND; [rewrite firstn_length; lia|rewrite firstn_length; lia|].
    rewrite !nth_firstn by assumption. assumption. }
  destruct (ofold_seq_inv (fun m (ub : list F * list F) => let '(u', b') := ub in length u' = length u /\ length b' = length u /\
     (forall s, s < m -> ent u' (nth s inv 0) = sub (ent u (nth s inv 0)) (mul lambda (ent x s)) /\ ent b' (nth s inv 0) = ent u (nth s inv 0)) /\
     (forall k, (forall s, s < m -> k <> nth s inv 0) -> ent u' k = ent u k /\ ent b' k = ent b k))
    (fun s (ub : list F * list F) =>
    let '(u, b) := ub in
    do node <- rd inv s;
    do o <- rd u node; do b' <- wr b node o;
    do xs <- rd x s; do u' <- wr u node (sub o (mul lambda xs)); Ok (u', b')) n 0 (u, b)) as ([u' b'] & E & L1 & L2 & H1 & H2).
  - intros i [u1 b1] Hi (L1 & L2 & H1 & H2). rewrite (rd_nth inv i 0) by lia. cbn [obind]. set (node := nth i inv 0).
    assert (node < length u) by (apply BD; apply Hin; lia).
    rewrite (rd_nth u1 node zero) by lia. cbn [obind].
    destruct (wr_spec b1 node (nth node u1 zero)) as (b2 & E2 & Lb2 & N2); [lia|]. rewrite E2. cbn [obind].
    rewrite (rd_nth x i zero) by lia. cbn [obind].
    destruct (wr_spec u1 node (sub (nth node u1 zero) (mul lambda (nth i x zero)))) as (u2 & E3 & Lu2 & N3); [lia|]. rewrite E3. cbn [obind].
    exists (u2, b2). split; [reflexivity|]. split; [lia|]. split; [lia|]. unfold SchurSpec.ent in *.
    assert (OLD : nth node u1 zero = nth node u zero). { apply H2. intros s Hs E'. unfold node in E'. apply INJ in E'; lia. }
    split.
    + intros s Hs. rewrite N2, N3. fold node. destruct (Nat.eqb_spec (nth s inv 0) node) as [EE|NE].
      * unfold node in EE. apply INJ in EE; [|lia|lia]. subst s. fold node. rewrite OLD. split; reflexivity.
      * apply H1. assert (s <> i) by (intros ->; apply NE; reflexivity). lia.
    + intros k Hk. rewrite N2, N3. destruct (Nat.eqb_spec k node) as [EE|NE]; [exfalso; apply (Hk i); [lia|assumption]|].
      apply H2. intros s Hs. apply Hk. lia.
  - split; [reflexivity|]. split; [assumption|]. split; [intros s Hs; lia|]. intros k _. split; reflexivity.
  - exists u', b'. split; [exact E|]. split; [assumption|]. split; [assumption|]. split; [exact H1|].
    intros k Hk. apply H2. intros s Hs ->. apply Hk. apply Hin. assumption.
Qed.

(** every node is either a subdomain or an interface node, and is listed once *)
Definition node_lists (nn NS NI : nat) (inv Iinv : list nat) : Prop :=
  NS + NI = nn /\ NS <= length inv /\ NI <= length Iinv /\ NoDup (firstn NS inv ++ firstn NI Iinv) /\
  Forall (fun i => i < nn) (firstn NS inv ++ firstn NI Iinv).
Theorem update_ok lambda NS NI inv Iinv x y u : node_lists (length u) NS NI inv Iinv -> NS <= length x -> NI <= length y ->
  exists u' b', update_field zero sub mul lambda NS NI inv Iinv x y u = Ok (u', b') /\ length u' = length u /\ b' = u /\
    (forall s, s < NS -> ent u' (nth s inv 0) = sub (ent u (nth s inv 0)) (mul lambda (ent x s))) /\
    (forall i, i < NI -> ent u' (nth i Iinv 0) = sub (ent u (nth i Iinv 0)) (mul lambda (ent y i))).
Proof.
  intros (EN & L1 & L2 & ND & BD) Lx Ly. apply NoDup_app_l in ND as (N1 & N2 & N3). rewrite Forall_app in BD. destruct BD as [B1 B2]. unfold update_field.
  destruct (upd_loop_ok lambda inv NS x u (repeat zero (length u)) L1 N1 B1 Lx (repeat_length _ _)) as (u1 & b1 & E1 & Lu1 & Lb1 & H1 & H2).
  rewrite E1. cbn [obind].
  destruct (upd_loop_ok lambda Iinv NI y u1 b1 L2 N2) as (u2 & b2 & E2 & Lu2 & Lb2 & H3 & H4); [rewrite Lu1; assumption|assumption|lia|].
  exists u2, b2. split; [assumption|]. split; [lia|].
  assert (Hin : forall (l : list nat) n s, s < n -> n <= length l -> In (nth s l 0) (firstn n l)).
  { intros l n s Hs Hl. rewrite <- (nth_firstn l 0 n s Hs). apply nth_In. rewrite firstn_length. lia. }
  assert (U1 : forall i, i < NI -> ent u1 (nth i Iinv 0) = ent u (nth i Iinv 0)).
  { intros i Hi. apply H2. intros C. apply (N3 _ C). apply Hin; assumption. }
  split; [|split].
  - apply (nth_ext _ _ zero zero); [lia|]. intros k Hk. rewrite Lb2, Lu1 in Hk.
    (* k is listed *)
    assert (In k (firstn NS inv ++ firstn NI Iinv)) as HK.
    { refine (@NoDup_length_incl _ (firstn NS inv ++ firstn NI Iinv) (seq 0 (length u)) _ _ _ k _).
      - clear - N1 N2 N3. induction (firstn NS inv) as [|a l IH]; [assumption|]. cbn. inversion N1; subst. constructor.
        + rewrite in_app_iff. intros [C|C]; [contradiction|]. apply (N3 a); [left; reflexivity|assumption].
        + apply IH; [assumption|]. intros b Hb. apply N3. right. assumption.
      - rewrite app_length, !firstn_length, seq_length. lia.
      - intros a Ha. apply in_seq. rewrite in_app_iff in Ha. rewrite Forall_forall in B1, B2. destruct Ha as [Ha|Ha]; [apply B1 in Ha|apply B2 in Ha]; lia.
      - apply in_seq. lia. }
    rewrite in_app_iff in HK. destruct HK as [HK|HK].
    + assert (~ In k (firstn NI Iinv)) as NK by (apply N3; assumption). destruct (H4 k NK) as [_ K4]. unfold SchurSpec.ent in K4. rewrite K4.
      apply (In_nth _ _ 0) in HK. destruct HK as (s & Hs & <-). rewrite firstn_length in Hs. rewrite nth_firstn by lia. apply H1. lia.
    + apply (In_nth _ _ 0) in HK. destruct HK as (s & Hs & <-). rewrite firstn_length in Hs. rewrite nth_firstn by lia.
      destruct (H3 s ltac:(lia)) as [_ K]. unfold SchurSpec.ent in *. rewrite K. apply U1. lia.
  - intros s Hs. destruct (H4 (nth s inv 0)) as [K _]; [apply N3; apply Hin; assumption|]. rewrite K. apply H1. assumption.
  - intros i Hi. destruct (H3 i Hi) as [K _]. rewrite K, U1 by assumption. reflexivity.
Qed.
Theorem update_single_ok lambda NS inv x u : NS <= length inv -> NoDup (firstn NS inv) -> Forall (fun i => i < length u) (firstn NS inv) -> NS <= length x ->
  exists u' b', update_field_single_patch zero sub mul lambda NS inv x u = Ok (u', b') /\ length u' = length u /\ length b' = length u /\
    (forall s, s < NS -> ent u' (nth s inv 0) = sub (ent u (nth s inv 0)) (mul lambda (ent x s)) /\ ent b' (nth s inv 0) = ent u (nth s inv 0)) /\
    (forall k, ~ In k (firstn NS inv) -> ent u' k = ent u k).
Proof.
  intros L1 ND BD Lx. unfold update_field_single_patch.
  destruct (upd_loop_ok lambda inv NS x u (repeat zero (length u)) L1 ND BD Lx (repeat_length _ _)) as (u1 & b1 & E1 & Lu1 & Lb1 & H1 & H2).
  exists u1, b1. split; [assumption|]. split; [assumption|]. split; [assumption|]. split; [assumption|]. intros k Hk. apply H2. assumption.
Qed.
End Upd.

(** ** a patch without interface points *)
Section NI0.
Context {F : Type} (zero : F) (add sub mul : F -> F -> F) (grt_abs : F -> F -> bool).
Context (drop : option F) (long : bool) (solver : matrix F -> list F -> outcome (list F)) (junkz : Z) (junk : F).
Lemma omap_not_ok {A B} (f : A -> outcome B) l a : In a l -> f a = UB -> forall r, omap f l <> Ok r.
Proof.
  induction l as [|b l IH]; intros Hi E r; [destruct Hi|]. cbn [omap]. destruct Hi as [->|H].
  - rewrite E. cbn [obind]. discriminate.
  - destruct (f b); cbn [obind]; try discriminate. specialize (IH H E). destruct (omap f l) as [t| |]; cbn [obind]; try discriminate. exfalso. apply (IH t). reflexivity.
Qed.
Theorem no_interface_points ps P : In P ps -> sNI P = 0 -> forall xy, schur_step zero add sub mul grt_abs drop long solver junkz junk ps <> Ok xy.
Proof.
  intros HP E xy. unfold schur_step.
  assert (N : forall r, omap (making_E_prime_and_f_prime zero grt_abs drop long solver) ps <> Ok r).
  { apply (omap_not_ok _ ps P HP). unfold making_E_prime_and_f_prime. rewrite E, orb_true_r. reflexivity. }
  destruct (omap _ ps) as [t| |]; cbn [obind]; try discriminate. exfalso. apply (N t). reflexivity.
Qed.
Theorem no_interface_points_ub P ps : sNI P = 0 -> schur_step zero add sub mul grt_abs drop long solver junkz junk (P :: ps) = UB.
Proof. intros E. unfold schur_step. cbn [omap]. unfold making_E_prime_and_f_prime at 1. rewrite E, orb_true_r. reflexivity. Qed.
End NI0.
