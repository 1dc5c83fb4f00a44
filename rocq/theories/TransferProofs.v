(** TransferProofs.v - proofs for TransferModel.v. *)
From Verif Require Import Base TextModel TransferModel.
Open Scope list_scope.
Lemma omap_ok {A B} (g : A -> outcome B) l : forall r, omap g l = Ok r <-> Forall2 (fun a b => g a = Ok b) l r.
Proof.
  induction l as [|a l IH]; intros r; cbn [omap].
  - split; [intros E; injection E as <-; constructor|intros F; inversion F; reflexivity].
  - split.
    + intros E. destruct (g a) as [b| |] eqn:G; try discriminate. cbn [obind] in E. destruct (omap g l) as [r'| |] eqn:O; try discriminate. cbn [obind] in E. injection E as <-.
      constructor; [exact G|]. apply IH. reflexivity.
    + intros F. inversion F as [|x b ? r' G F']; subst. rewrite G. cbn [obind]. apply IH in F'. rewrite F'. reflexivity.
Qed.
Lemma omap_some {A B} (g : A -> outcome B) l : (exists r, omap g l = Ok r) <-> forall a, In a l -> exists b, g a = Ok b.
Proof.
  split.
  - intros (r & E) a I. apply omap_ok in E. induction E as [|x b l r G F IH]; [destruct I|]. destruct I as [->|I]; [eauto|apply IH, I].
  - induction l as [|a l IH]; intros H; [exists []; reflexivity|]. destruct (H a (or_introl eq_refl)) as (b & G). destruct IH as (r & E); [intros; apply H; right; assumption|].
    exists (b :: r). cbn [omap]. rewrite G. cbn [obind]. rewrite E. reflexivity.
Qed.
Lemma f2_trans {A B C} (P : A -> B -> Prop) (Q : B -> C -> Prop) (R : A -> C -> Prop) : (forall a b c, P a b -> Q b c -> R a c) ->
  forall l m n, Forall2 P l m -> Forall2 Q m n -> Forall2 R l n.
Proof. intros H l m n F. revert n. induction F; intros n G; inversion G; subst; constructor; eauto. Qed.
Lemma f2_mono {A B} (P Q : A -> B -> Prop) l m : (forall a b, P a b -> Q a b) -> Forall2 P l m -> Forall2 Q l m.
Proof. intros H F. induction F; constructor; auto. Qed.
Section T.
Variables pos crd V : Type.
Notation patch := (patch pos V).
Notation p_name := (p_name pos V). Notation p_nodes := (p_nodes pos V). Notation p_fld := (p_fld pos V).
Definition frame (p p' : patch) : Prop := p_name p' = p_name p /\ p_nodes p' = p_nodes p.
Section Put.
Variable A : Type.
Variable value : A -> patch -> str -> outcome (list V).
Hypothesis value_frame : forall a p p' f, frame p p' -> value a p' f = value a p f.
Definition done (names : list str) (q q' : A * patch) : Prop := fst q' = fst q /\ frame (snd q) (snd q') /\
  forall f, (In f names -> p_fld (snd q) f <> None /\ exists v, value (fst q) (snd q) f = Ok v /\ p_fld (snd q') f = Some (Some v)) /\
            (~ In f names -> p_fld (snd q') f = p_fld (snd q) f).
Lemma put1_done f q q' : put1 pos V value f q = Ok q' -> done [f] q q'.
Proof.
  unfold put1. destruct (p_fld (snd q) f) as [o|] eqn:E; [|discriminate]. destruct (value (fst q) (snd q) f) as [v| |] eqn:G; try discriminate. cbn [obind]. intros K. injection K as <-.
  split; [reflexivity|]. split; [split; reflexivity|]. intros g. cbn [snd fst setf TransferModel.p_fld]. split.
  - intros [<-|[]]. split; [rewrite E; discriminate|]. exists v. rewrite str_eqb_refl. auto.
  - intros N. replace (str_eqb f g) with false; [reflexivity|]. symmetry. apply str_eqb_neq. intros ->. apply N. left. reflexivity.
Qed.
Lemma put_all_done names : forall l l', put_all pos V value names l = Ok l' -> Forall2 (done names) l l'.
Proof.
  induction names as [|f names IH]; intros l l' E; cbn [put_all] in E.
  - injection E as <-. induction l; constructor; [|assumption]. split; [reflexivity|]. split; [split; reflexivity|]. intros f. split; [intros []|reflexivity].
  - destruct (omap (put1 pos V value f) l) as [m| |] eqn:O; try discriminate. cbn [obind] in E. apply omap_ok in O. apply IH in E. revert E.
    apply (f2_trans (done [f]) (done names)); [|apply (f2_mono _ _ _ _ (fun a b => put1_done f a b) O)].
    intros a b c (A1 & (B1 & C1) & D1) (A2 & (B2 & C2) & D2). split; [congruence|]. split; [split; congruence|]. intros g. destruct (D1 g) as [X1 Y1], (D2 g) as [X2 Y2].
    destruct (in_dec (list_eq_dec ascii_dec) g names) as [I|I].
    + destruct (X2 I) as (P & v & Q & R). rewrite A1, (value_frame _ (snd a) (snd b)) in Q by (split; assumption). split.
      * intros _. split; [|eauto]. destruct (list_eq_dec ascii_dec f g) as [->|N]; [apply X1; left; reflexivity|]. rewrite <- Y1; [exact P|]. intros [K|[]]; congruence.
      * intros N. exfalso. apply N. right. exact I.
    + split.
      * intros [->|K]; [|tauto]. destruct (X1 (or_introl eq_refl)) as (P & v & Q & R). split; [exact P|]. exists v. split; [exact Q|]. rewrite (Y2 I). exact R.
      * intros N. rewrite (Y2 I). apply Y1. intros [->|[]]. apply N. left. reflexivity.
Qed.
Lemma put_all_some names : forall l, (forall q f, In q l -> In f names -> p_fld (snd q) f <> None /\ exists v, value (fst q) (snd q) f = Ok v) -> exists l', put_all pos V value names l = Ok l'.
Proof.
  induction names as [|f names IH]; intros l H; cbn [put_all]; [eauto|]. destruct (proj2 (omap_some (put1 pos V value f) l)) as (m & O).
  - intros q I. destruct (H q f I (or_introl eq_refl)) as (N & v & E). unfold put1. destruct (p_fld (snd q) f); [|congruence]. rewrite E. cbn [obind]. eauto.
  - rewrite O. cbn [obind]. apply IH. intros q g I G. apply omap_ok in O.
    assert (X : exists q0, In q0 l /\ done [f] q0 q).
    { clear - O I. induction O as [|a b l m P F IH]; [destruct I|]. destruct I as [->|I]; [exists a; split; [left; reflexivity|apply put1_done, P]|]. destruct (IH I) as (x & J & K). exists x. split; [right; exact J|exact K]. }
    destruct X as (q0 & J & A1 & F & D). destruct (H q0 g J (or_intror G)) as (N & v & E). destruct (D g) as [X Y]. rewrite A1, (value_frame _ _ _ _ F). split; [|eauto].
    destruct (list_eq_dec ascii_dec f g) as [->|K]; [destruct (X (or_introl eq_refl)) as (_ & w & _ & W); rewrite W; discriminate|]. rewrite Y; [exact N|]. intros [Z|[]]; congruence.
Qed.
End Put.
Lemma combine_split {A} (R : A * patch -> A * patch -> Prop) (S : A -> patch -> patch -> Prop) : (forall q q', R q q' -> S (fst q) (snd q) (snd q')) ->
  forall (xs : list A) ps l, List.length xs = List.length ps -> Forall2 R (combine xs ps) l -> exists ts, map snd l = ts /\ List.length ts = List.length ps /\
   forall k x p, nth_error xs k = Some x -> nth_error ps k = Some p -> exists p', nth_error ts k = Some p' /\ S x p p'.
Proof.
  intros H. induction xs as [|x xs IH]; intros [|p ps] l L F; try discriminate; cbn [combine] in F; inversion F as [|? q ? l' Q F']; subst.
  - exists []. split; [reflexivity|]. split; [reflexivity|]. intros [|k]; discriminate.
  - destruct (IH ps l' (eq_add_S _ _ L) F') as (ts & E & N & K). exists (snd q :: ts). split; [cbn; rewrite E; reflexivity|]. split; [cbn; rewrite N; reflexivity|].
    intros [|k] y r; cbn [nth_error]; [intros Y Z; injection Y as <-; injection Z as <-; exists (snd q); split; [reflexivity|exact (H (x, p) q Q)]|apply K].
Qed.
Lemma f2_len {A B} (R : A -> B -> Prop) l m : Forall2 R l m -> List.length l = List.length m.
Proof. intros F. induction F; cbn; congruence. Qed.
Lemma f2_nth {A B} (R : A -> B -> Prop) l m : Forall2 R l m -> forall k a, nth_error l k = Some a -> exists b, nth_error m k = Some b /\ R a b.
Proof. intros F. induction F; intros [|k] c E; try discriminate; cbn in *; [injection E as <-; eauto|eauto]. Qed.
(** *** interpolation *)
Variable find : pos -> option nat.
Variable X_of : nat -> pos -> crd.
Variable force : pos -> option (nat * crd).
Variable interp : nat -> list V -> crd -> V.
Notation interpolate := (interpolate pos crd V find X_of force interp).
Notation point := (point pos crd find X_of force).
(** the patch and the coordinates used for x *)
Definition used (x : pos) (k : nat) (X : crd) : Prop := (find x = Some k /\ X = X_of k x) \/ (find x = None /\ force x = Some (k, X)).
Lemma point_used x q : point x = Ok q <-> used x (fst q) (snd q).
Proof.
  unfold point, TransferModel.point, used. destruct (find x) as [k|]; [|destruct (force x) as [r|]].
  - split; [intros E; injection E as <-; left; auto|intros [[E F]|[E _]]; [|discriminate]]. injection E as E. destruct q; cbn in *; subst. reflexivity.
  - split; [intros E; injection E as <-; right; destruct r; auto|intros [[E _]|[_ E]]; [discriminate|]]. injection E as ->. destruct q; reflexivity.
  - split; [discriminate|intros [[E _]|[_ E]]; discriminate].
Qed.
Lemma interp_done og ng names ng' : interpolate og ng names = Ok ng' -> List.length ng' = List.length ng /\
  forall j p, nth_error ng j = Some p -> exists p', nth_error ng' j = Some p' /\ frame p p' /\ (forall f, ~ In f names -> p_fld p' f = p_fld p f) /\
   forall f, In f names -> exists vs, p_fld p' f = Some (Some vs) /\ Forall2 (fun x y => exists k X o v, used x k X /\ nth_error og k = Some o /\ p_fld o f = Some (Some v) /\ y = interp k v X) (p_nodes p) vs.
Proof.
  unfold interpolate, TransferModel.interpolate. destruct (omap (fun p => omap point (p_nodes p)) ng) as [pts| |] eqn:P; try discriminate. cbn [obind].
  destruct (omap (fun f => omap (has_values pos V f) og) names) as [u| |] eqn:U; try discriminate. cbn [obind].
  destruct (put_all pos V _ names (combine pts ng)) as [l| |] eqn:Q; try discriminate. cbn [obind]. intros E. injection E as <-.
  apply omap_ok in P. apply put_all_done in Q; [|reflexivity]. pose proof (f2_len _ _ _ P) as LL.
  match type of Q with Forall2 ?R0 _ _ => assert (HS : forall q q', R0 q q' -> (fun a p p' => frame p p' /\ forall f, (In f names -> exists vs, omap (at_point pos crd V interp og f) a = Ok vs /\ p_fld p' f = Some (Some vs)) /\ (~ In f names -> p_fld p' f = p_fld p f)) (fst q) (snd q) (snd q')) end.
  { intros q q' (_ & F & D). split; [exact F|]. intros f. destruct (D f) as [X Y]. split; [intros I; destruct (X I) as (_ & v & G & W); eauto|exact Y]. }
  destruct (combine_split _ _ HS pts ng l (eq_sym LL) Q) as (ts & <- & L & K). cbv beta in K.
  split; [exact L|]. intros j p J. destruct (f2_nth _ _ _ P j p J) as (a & A & B). destruct (K j a p A J) as (p' & P' & F & D). exists p'. split; [exact P'|]. split; [exact F|].
  split; [intros f N; apply (D f), N|]. intros f I. destruct (proj1 (D f) I) as (vs & G & W). exists vs. split; [exact W|]. apply omap_ok in B, G. revert G. revert B.
  apply (f2_trans (fun x q => point x = Ok q) (fun q y => at_point pos crd V interp og f q = Ok y)). intros x q y X Y. apply point_used in X. unfold at_point in Y.
  destruct (nth_error og (fst q)) as [o|] eqn:O; [|discriminate]. destruct (p_fld o f) as [[v|]|] eqn:FF; try discriminate. injection Y as <-. exists (fst q), (snd q), o, v. auto.
Qed.
Lemma interp_some og ng names : (forall x k X, used x k X -> k < List.length og) ->
  ((exists r, interpolate og ng names = Ok r) <->
   (forall p x, In p ng -> In x (p_nodes p) -> exists k X, used x k X) /\ (forall f, In f names -> (forall o, In o og -> exists v, p_fld o f = Some (Some v)) /\ (forall p, In p ng -> p_fld p f <> None))).
Proof.
  intros B. split.
  - intros (r & E). pose proof E as E0. unfold interpolate, TransferModel.interpolate in E. destruct (omap (fun p => omap point (p_nodes p)) ng) as [pts| |] eqn:P; try discriminate. cbn [obind] in E.
    destruct (omap (fun f => omap (has_values pos V f) og) names) as [u| |] eqn:U; try discriminate. cbn [obind] in E.
    destruct (put_all pos V _ names (combine pts ng)) as [l| |] eqn:Q; try discriminate. split.
    + intros p x I X. destruct (proj1 (omap_some _ _) (ex_intro _ pts P) p I) as (qs & O). destruct (proj1 (omap_some _ _) (ex_intro _ qs O) x X) as (q & O'). apply point_used in O'. eauto.
    + intros f I. split.
      * intros o J. destruct (proj1 (omap_some _ _) (ex_intro _ u U) f I) as (qs & O). destruct (proj1 (omap_some _ _) (ex_intro _ qs O) o J) as (q & O'). unfold has_values in O'. destruct (p_fld o f) as [[v|]|]; try discriminate. eauto.
      * intros p J. apply put_all_done in Q; [|reflexivity]. apply omap_ok in P. apply In_nth_error in J. destruct J as (j & J). destruct (f2_nth _ _ _ P j p J) as (a & A & _).
        assert (C : nth_error (combine pts ng) j = Some (a, p)).
        { clear - A J. revert ng j A J. induction pts as [|y pts IH]; intros [|z ng] [|j] A J; try discriminate; cbn in *; [congruence|apply IH; assumption]. }
        destruct (f2_nth _ _ _ Q j _ C) as (q & _ & _ & _ & D). apply (D f), I.
  - intros (H & N). unfold interpolate, TransferModel.interpolate. destruct (proj2 (omap_some (fun p => omap point (p_nodes p)) ng)) as (pts & P).
    { intros p I. apply omap_some. intros x X. destruct (H p x I X) as (k & c & U). exists (k, c). apply point_used. exact U. }
    rewrite P. cbn [obind]. destruct (proj2 (omap_some (fun f => omap (has_values pos V f) og) names)) as (u & U).
    { intros f I. apply omap_some. intros o J. destruct (proj1 (N f I) o J) as (v & F). unfold has_values. rewrite F. eauto. }
    rewrite U. cbn [obind]. apply omap_ok in P. edestruct (put_all_some _ (fun q (_ : patch) f => omap (at_point pos crd V interp og f) q)) as (l & Q); [reflexivity| |rewrite Q; cbn [obind]; eauto].
    intros [a p] f I J. cbn [fst snd]. split; [apply (N f J); eapply in_combine_r, I|]. apply omap_some. intros q K.
    assert (X : exists x, point x = Ok q).
    { apply in_combine_l in I. clear - P I K. induction P as [|y b l m O F IH]; [destruct I|]. destruct I as [->|I]; [|apply IH, I]. apply omap_ok in O. clear - O K. induction O as [|x r l m O F IH]; [destruct K|]. destruct K as [->|K]; [eauto|apply IH, K]. }
    destruct X as (x & X). apply point_used in X. apply B in X. unfold at_point. destruct (nth_error og (fst q)) as [o|] eqn:O; [|apply nth_error_None in O; lia].
    destruct (proj1 (N f J) o (nth_error_In _ _ O)) as (v & F). rewrite F. eauto.
Qed.
(** *** copy *)
Lemma copy_done og ng names ng' : copy pos V og ng names = Ok ng' -> List.length ng' = List.length ng /\ List.length og = List.length ng /\
  forall j o p, nth_error og j = Some o -> nth_error ng j = Some p -> exists p', nth_error ng' j = Some p' /\ frame p p' /\ (forall f, ~ In f names -> p_fld p' f = p_fld p f) /\
   forall f, In f names -> p_fld p f <> None /\ exists v a b s, p_fld o f = Some (Some v) /\ p_fld p' f = Some (Some v) /\ List.length (p_nodes p) = List.length (p_nodes o) /\
     p_name p = a ++ "_"%char :: s /\ p_name o = b ++ "_"%char :: s /\ ~ In "_"%char a /\ ~ In "_"%char b.
Proof.
  unfold copy. destruct (Nat.eqb _ _) eqn:L; [|discriminate]. cbn [negb]. apply Nat.eqb_eq in L. destruct (put_all pos V (copied pos V) names (combine og ng)) as [l| |] eqn:Q; try discriminate. cbn [obind].
  intros E. injection E as <-. apply put_all_done in Q.
  2:{ intros a p p' f (N & M). unfold copied. rewrite N, M. reflexivity. }
  assert (SC : forall s a b, strchr s "_"%char = Some (a, b) -> exists t, b = "_"%char :: t /\ s = a ++ "_"%char :: t /\ ~ In "_"%char a).
  { clear. induction s as [|c s IH]; intros a b E; cbn [strchr] in E; [discriminate|]. destruct (ascii_dec c "_"%char) as [->|N]; [injection E as <- <-; exists s; split; [reflexivity|split; [reflexivity|intros []]]|].
    destruct (strchr s "_"%char) as [[x y]|]; [|discriminate]. injection E as <- <-. destruct (IH x y eq_refl) as (t & -> & -> & I). exists t. split; [reflexivity|]. split; [reflexivity|]. intros [K|K]; [congruence|tauto]. }
  match type of Q with Forall2 ?R0 _ _ => assert (HS : forall q q', R0 q q' -> (fun o p p' => frame p p' /\ (forall f, ~ In f names -> p_fld p' f = p_fld p f) /\
   forall f, In f names -> p_fld p f <> None /\ exists v a b s, p_fld o f = Some (Some v) /\ p_fld p' f = Some (Some v) /\ List.length (p_nodes p) = List.length (p_nodes o) /\
     p_name p = a ++ "_"%char :: s /\ p_name o = b ++ "_"%char :: s /\ ~ In "_"%char a /\ ~ In "_"%char b) (fst q) (snd q) (snd q')) end.
  { intros q q' (_ & F & D). split; [exact F|]. split; [intros f N; apply (D f), N|]. intros f I. destruct (proj1 (D f) I) as (N & v & G & W). split; [exact N|].
    unfold copied in G. destruct (p_fld (fst q) f) as [[v'|]|]; try discriminate. destruct (Nat.eqb _ _) eqn:LL; try discriminate. cbn [negb] in G. apply Nat.eqb_eq in LL.
    destruct (strchr (p_name (snd q)) "_"%char) as [[a1 b1]|] eqn:S1; try discriminate. destruct (strchr (p_name (fst q)) "_"%char) as [[a2 b2]|] eqn:S2; try discriminate.
    destruct (str_eqb_spec b1 b2) as [->|]; try discriminate. injection G as ->. apply SC in S1. apply SC in S2. destruct S1 as (t & -> & S1 & I1). destruct S2 as (t' & T & S2 & I2). injection T as <-.
    exists v, a1, a2, t. auto 10. }
  destruct (combine_split _ _ HS og ng l (eq_sym L) Q) as (ts & <- & N & K). cbv beta in K.
  split; [exact N|]. split; [congruence|]. intros j o p O P. apply (K j o p O P).
Qed.
End T.
