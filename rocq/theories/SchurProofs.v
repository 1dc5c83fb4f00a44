(** SchurProofs.v - the pieces of the Schur complement step. *)
From Coq Require Import Ring.
From Verif Require Import Base TextModel MatrixModel MatrixSpec MatrixProofs MatrixConvert MatrixRead MatrixMul MatrixFinal SchurModel SchurSpec.
Open Scope nat_scope.
Notation length := List.length.

(** ** no undefined behaviour, and a property of the result *)
Definition safe {A} (P : A -> Prop) (o : outcome A) : Prop :=
  match o with Ok a => P a | Abort => True | UB => False end.
Lemma safe_bind {A B} (Q : A -> Prop) (P : B -> Prop) (e : outcome A) (f : A -> outcome B) :
  safe Q e -> (forall a, Q a -> safe P (f a)) -> safe P (obind e f).
Proof. destruct e; cbn [safe obind]; auto. Qed.
Lemma safe_weaken {A} (P Q : A -> Prop) (o : outcome A) : (forall a, P a -> Q a) -> safe P o -> safe Q o.
Proof. destruct o; cbn [safe]; auto. Qed.
Lemma safe_omap {A B} (Q : A -> B -> Prop) (f : A -> outcome B) l :
  (forall a, In a l -> safe (Q a) (f a)) -> safe (Forall2 Q l) (omap f l).
Proof.
  induction l as [|a l IH]; intros H; cbn [omap]; [constructor|].
  eapply safe_bind; [apply (H a); left; reflexivity|]. intros b Hb.
  eapply safe_bind; [apply IH; intros x Hx; apply H; right; assumption|]. intros r Hr. constructor; assumption.
Qed.
Lemma omap_ok {A B} (f : A -> outcome B) (g : A -> B) l : (forall a, In a l -> f a = Ok (g a)) -> omap f l = Ok (map g l).
Proof.
  induction l as [|a l IH]; intros H; cbn [omap map]; [reflexivity|].
  rewrite (H a) by (left; reflexivity). cbn [obind]. rewrite IH by (intros x Hx; apply H; right; assumption). reflexivity.
Qed.
Lemma Forall2_nth {A B} (Q : A -> B -> Prop) l r i a b : Forall2 Q l r -> nth_error l i = Some a -> nth_error r i = Some b -> Q a b.
Proof. intros H. revert i; induction H as [|x y l r HQ _ IH]; intros [|i]; cbn; try discriminate; [congruence|]. apply IH. Qed.
Lemma Forall2_length {A B} (Q : A -> B -> Prop) l r : Forall2 Q l r -> length l = length r.
Proof. induction 1; cbn; congruence. Qed.
Lemma nth_error_ex {A} (l : list A) i : i < length l -> exists a, nth_error l i = Some a.
Proof. intros H. destruct (nth_error l i) eqn:E; [eauto|]. apply nth_error_None in E. lia. Qed.
Lemma in_nth_error {A} (l : list A) a : In a l -> exists i, nth_error l i = Some a.
Proof. apply In_nth_error. Qed.

(** offsets of blocks *)
Definition off (NIp : list nat) (q : nat) : nat := list_sum (firstn q NIp).
Lemma off_S NIp q n : nth_error NIp q = Some n -> off NIp (q + 1) = off NIp q + n.
Proof.
  unfold off. revert NIp; induction q as [|q IH]; intros [|m l] H; cbn in H; try discriminate.
  - injection H as <-. cbn. lia.
  - cbn [Nat.add firstn]. change (list_sum (?a :: ?b)) with (a + list_sum b). rewrite IH by assumption. lia.
Qed.
Lemma off_le NIp q n : nth_error NIp q = Some n -> off NIp q + n <= list_sum NIp.
Proof.
  unfold off. revert NIp; induction q as [|q IH]; intros [|m l] H; cbn in H; try discriminate.
  - injection H as <-. cbn. lia.
  - cbn [firstn]. change (list_sum (?a :: ?b)) with (a + list_sum b). specialize (IH _ H). lia.
Qed.
Lemma off_all NIp : off NIp (length NIp) = list_sum NIp.
Proof. unfold off. rewrite firstn_all. reflexivity. Qed.
Lemma off_split NIp k : k < list_sum NIp -> exists q n i, nth_error NIp q = Some n /\ i < n /\ k = off NIp q + i.
Proof.
  revert k; induction NIp as [|m l IH]; intros k H; [cbn in H; lia|].
  change (list_sum (m :: l)) with (m + list_sum l) in H. destruct (lt_dec k m) as [L|L].
  - exists 0, m, k. cbn. auto.
  - destruct (IH (k - m)) as (q & n & i & H1 & H2 & H3); [lia|]. exists (S q), n, i. split; [assumption|]. split; [assumption|].
    unfold off in *. cbn [firstn]. change (list_sum (?a :: ?b)) with (a + list_sum b). lia.
Qed.

Section Mat.
Context {F : Type} (zero one : F) (add mul sub : F -> F -> F) (opp : F -> F) (grt_abs : F -> F -> bool).
Context (RT : ring_theory zero one add mul sub opp (@eq F)).
Add Ring FR : RT.
Notation sumF := (sumF zero add).
Notation ent := (ent zero).
Notation entry := (entry zero).
Notation kp := (kept zero grt_abs).

(** ** sums *)
Lemma fold_init {A} (h : A -> F) l : forall i, fold_left (fun s k => add s (h k)) l i = add i (fold_left (fun s k => add s (h k)) l zero).
Proof.
  induction l as [|a l IH]; intros i; cbn [fold_left]; [ring|]. rewrite IH. rewrite (IH (add zero (h a))). ring.
Qed.
Lemma fold_cons {A} (h : A -> F) a l : fold_left (fun s k => add s (h k)) (a :: l) zero = add (h a) (fold_left (fun s k => add s (h k)) l zero).
Proof. cbn [fold_left]. rewrite fold_init. ring. Qed.
Lemma fold_ext {A} (h h' : A -> F) l i : (forall a, In a l -> h a = h' a) -> fold_left (fun s k => add s (h k)) l i = fold_left (fun s k => add s (h' k)) l i.
Proof. intros H. apply fold_left_ext_in. intros s a Ha. rewrite H by assumption. reflexivity. Qed.
Lemma fold_zero {A} (h : A -> F) l : (forall a, In a l -> h a = zero) -> fold_left (fun s k => add s (h k)) l zero = zero.
Proof.
  induction l as [|a l IH]; intros H; [reflexivity|]. rewrite fold_cons, H by (left; reflexivity). rewrite IH by (intros; apply H; right; assumption). ring.
Qed.
Lemma fold_add {A} (h h' : A -> F) l : fold_left (fun s k => add s (add (h k) (h' k))) l zero =
  add (fold_left (fun s k => add s (h k)) l zero) (fold_left (fun s k => add s (h' k)) l zero).
Proof.
  induction l as [|a l IH]; [cbn; ring|]. rewrite (fold_cons (fun k => add (h k) (h' k))), !fold_cons, IH. ring.
Qed.
Lemma fold_sub {A} (h h' : A -> F) l : fold_left (fun s k => add s (sub (h k) (h' k))) l zero =
  sub (fold_left (fun s k => add s (h k)) l zero) (fold_left (fun s k => add s (h' k)) l zero).
Proof.
  induction l as [|a l IH]; [cbn; ring|]. rewrite (fold_cons (fun k => sub (h k) (h' k))), !fold_cons, IH. ring.
Qed.
Lemma fold_mul_r {A} (h : A -> F) l c : mul (fold_left (fun s k => add s (h k)) l zero) c = fold_left (fun s k => add s (mul (h k) c)) l zero.
Proof. induction l as [|a l IH]; [cbn; ring|]. rewrite (fold_cons (fun k => mul (h k) c)), fold_cons, <- IH. ring. Qed.
Lemma fold_mul_l {A} (h : A -> F) l c : mul c (fold_left (fun s k => add s (h k)) l zero) = fold_left (fun s k => add s (mul c (h k))) l zero.
Proof. induction l as [|a l IH]; [cbn; ring|]. rewrite (fold_cons (fun k => mul c (h k))), fold_cons, <- IH. ring. Qed.
Lemma fold_swap {A B} (h : A -> B -> F) l l' :
  fold_left (fun s a => add s (fold_left (fun s b => add s (h a b)) l' zero)) l zero =
  fold_left (fun s b => add s (fold_left (fun s a => add s (h a b)) l zero)) l' zero.
Proof.
  induction l as [|a l IH].
  - cbn [fold_left]. rewrite fold_zero; [reflexivity|]. reflexivity.
  - rewrite (fold_cons (fun a => fold_left (fun s b => add s (h a b)) l' zero)), IH.
    rewrite (fold_ext (fun b => fold_left (fun s a0 => add s (h a0 b)) (a :: l) zero)
               (fun b => add (h a b) (fold_left (fun s a0 => add s (h a0 b)) l zero))) by (intros b _; apply (fold_cons (fun a0 => h a0 b))).
    rewrite fold_add. reflexivity.
Qed.
Lemma fold_app {A} (h : A -> F) l l' : fold_left (fun s k => add s (h k)) (l ++ l') zero =
  add (fold_left (fun s k => add s (h k)) l zero) (fold_left (fun s k => add s (h k)) l' zero).
Proof. rewrite fold_left_app. apply fold_init. Qed.
Lemma fold_map {A B} (g : A -> B) (h : B -> F) l i : fold_left (fun s k => add s (h k)) (map g l) i = fold_left (fun s k => add s (h (g k))) l i.
Proof. revert i; induction l as [|a l IH]; intros i; cbn; auto. Qed.

Lemma sumF_ext n h h' : (forall k, k < n -> h k = h' k) -> sumF n h = sumF n h'.
Proof. intros H. apply fold_ext. intros a Ha. apply in_seq in Ha. apply H. lia. Qed.
Lemma sumF_zero n h : (forall k, k < n -> h k = zero) -> sumF n h = zero.
Proof. intros H. apply fold_zero. intros a Ha. apply in_seq in Ha. apply H. lia. Qed.
Lemma sumF_app n n' h : sumF (n + n') h = add (sumF n h) (sumF n' (fun k => h (n + k))).
Proof.
  unfold SchurSpec.sumF. rewrite seq_app, fold_app. f_equal.
  assert (E : seq (0 + n) n' = map (fun k => n + k) (seq 0 n')).
  { clear. cbn [Nat.add]. induction n' as [|n' IH]; [reflexivity|]. rewrite seq_S, (seq_S n' 0), map_app, IH. reflexivity. }
  rewrite E, fold_map. reflexivity.
Qed.
Lemma dot_sum init f g n : dot add mul init f g n = add init (sumF n (fun k => mul (f k) (g k))).
Proof. unfold dot. apply (fold_init (fun k => mul (f k) (g k))). Qed.
End Mat.
