(** FieldCache.v - proof of C25: the coefficient cache. *)
From Verif Require Import Base ParamSpec ParamText FieldModel FieldSpec.

Lemma cut_first (c : ascii) x y : forall a b, ~ In c x -> x ++ c :: y = a ++ c :: b ->
  (a = x /\ b = y) \/ exists a', a = x ++ c :: a' /\ y = a' ++ c :: b.
Proof.
  induction x as [|d x IH]; intros a b N E.
  - destruct a as [|e a]; cbn in E; [injection E as E; left; auto|]. injection E as E1 E2. subst. right. exists a. auto.
  - destruct a as [|e a]; cbn in E; injection E as E1 E2.
    + subst. exfalso. apply N. left. reflexivity.
    + subst. destruct (IH a b ltac:(intros K; apply N; right; exact K) E2) as [(-> & ->)|(a' & -> & ->)]; [left; auto|].
      right. exists a'. auto.
Qed.
Lemma digits_no c n : is_digit c = false -> ~ In c (dec_N n).
Proof. intros H K. pose proof (dec_N_digits n) as D. rewrite Forall_forall in D. apply D in K. congruence. Qed.
Lemma decZ_no c z : is_digit c = false -> c <> "-"%char -> ~ In c (dec_Z z).
Proof.
  intros H N. destruct z; cbn [dec_Z]; try (apply digits_no; exact H). intros [K|K]; [congruence|]. revert K. apply digits_no. exact H.
Qed.
Lemma contains_has s p : has s p = true <-> contains s p.
Proof.
  unfold has. destruct (strstr s p) as [[b r]|] eqn:E.
  - split; [intros _; eapply strstr_contains; exact E|reflexivity].
  - split; [discriminate|]. intros K. exfalso. revert K. apply strstr_none_contains. exact E.
Qed.
Lemma has_false s p : has s p = false <-> ~ contains s p.
Proof. rewrite <- contains_has. destruct (has s p); split; congruence. Qed.

Section Cache.
Variable V : Type.
Variable pn : N.
Variables coll basis : nat -> Z.
Variable T : nat -> option (V -> V).
Notation needle := (needle pn coll basis).
Notation needle_pd := (needle_pd pn).
Notation tr := (transforms V T).

Definition info (ds : list nat) : str := List.concat (map needle ds).
(** the text of a needle after its 'p' *)
Definition tail_ (d : nat) : str := dec_N pn ++ S_ ",d" ++ dec_N (N.of_nat d) ++ S_ ",c" ++ dec_Z (coll d) ++ S_ ",b" ++ dec_Z (basis d) ++ S_ ")".
Lemma needle_split d : needle d = ["("%char] ++ "p"%char :: tail_ d.
Proof. unfold FieldModel.needle, FieldModel.needle_pd, tail_. cbn [List.app]. rewrite <- !app_assoc. reflexivity. Qed.
Lemma tail_no_p d : ~ In "p"%char (tail_ d).
Proof.
  unfold tail_. rewrite !in_app_iff. intros K.
  repeat destruct K as [K|K]; try (revert K; first [apply digits_no; reflexivity | apply decZ_no; [reflexivity|discriminate]]);
  revert K; apply (fun H => H); cbn; intuition discriminate.
Qed.
Lemma pd_in e ds : e < 3 -> Forall (fun d => d < 3) ds -> contains (info ds) (needle_pd e) -> In e ds.
Proof.
  intros He. induction 1 as [|d ds Hd _ IH]; intros (a & b & E).
  - destruct a; discriminate.
  - unfold info in E. cbn [map List.concat] in E. rewrite needle_split in E. fold (info ds) in E.
    unfold FieldModel.needle_pd in E. rewrite <- app_assoc in E. cbn [List.app] in E.
    change ("("%char :: "p"%char :: tail_ d ++ info ds) with (["("%char] ++ "p"%char :: (tail_ d ++ info ds)) in E.
    apply cut_first in E; [|cbn; intuition discriminate]. destruct E as [(_ & E)|(a' & _ & E)].
    + left. unfold tail_ in E. rewrite <- !app_assoc in E. apply app_inv_head in E. apply app_inv_head in E.
      destruct d as [|[|[|d]]]; [| | |lia]; destruct e as [|[|[|e]]]; try lia; try reflexivity; vm_compute in E; discriminate.
    + right. apply IH. exists (skipn (List.length (tail_ d)) a'), b.
      assert (L : List.length (tail_ d) <= List.length a').
      { destruct (Nat.le_gt_cases (List.length (tail_ d)) (List.length a')) as [L|L]; [exact L|]. exfalso. apply (tail_no_p d).
        assert (In "p"%char (firstn (List.length (tail_ d)) (tail_ d ++ info ds))).
        { rewrite E. replace (a' ++ "p"%char :: (dec_N pn ++ S_ ",d" ++ dec_N (N.of_nat e)) ++ b) with ((a' ++ ["p"%char]) ++ (dec_N pn ++ S_ ",d" ++ dec_N (N.of_nat e)) ++ b) by (rewrite <- app_assoc; reflexivity).
          rewrite firstn_app. apply in_app_iff. left. rewrite firstn_all2 by (rewrite app_length; cbn [List.length]; lia). apply in_app_iff. right. left. reflexivity. }
        rewrite firstn_app, firstn_all, Nat.sub_diag in H. cbn [firstn] in H. rewrite app_nil_r in H. exact H. }
      assert (K := f_equal (skipn (List.length (tail_ d))) E). rewrite !skipn_app, skipn_all, Nat.sub_diag in K. cbn [List.app skipn] in K.
      rewrite K. replace (List.length (tail_ d) - List.length a') with 0 by lia. cbn [skipn]. unfold FieldModel.needle_pd. cbn [List.app]. reflexivity.
Qed.
Lemma in_needle e ds : In e ds -> contains (info ds) (needle e).
Proof.
  intros H. apply in_split in H. destruct H as (a & b & ->). exists (info a), (info b). unfold info. rewrite map_app, concat_app. reflexivity.
Qed.
Lemma needle_has_pd s e : contains s (needle e) -> contains s (needle_pd e).
Proof.
  intros (a & b & ->). exists (a ++ ["("%char]). unfold FieldModel.needle. eexists. rewrite <- !app_assoc. cbn [List.app]. rewrite <- !app_assoc. reflexivity.
Qed.
Definition dirs (ds : list nat) := Forall (fun d => d < 3) ds.
Lemma has_needle e ds : e < 3 -> dirs ds -> has (info ds) (needle e) = existsb (Nat.eqb e) ds.
Proof.
  intros He Hd. destruct (existsb (Nat.eqb e) ds) eqn:E.
  - apply existsb_exists in E. destruct E as (x & I & E). apply Nat.eqb_eq in E. subst x. apply contains_has. apply in_needle. exact I.
  - apply has_false. intros K. apply needle_has_pd in K. apply pd_in in K; try assumption.
    assert (existsb (Nat.eqb e) ds = true) by (apply existsb_exists; exists e; split; [exact K|apply Nat.eqb_refl]). congruence.
Qed.
Lemma has_pd e ds : e < 3 -> dirs ds -> has (info ds) (needle_pd e) = existsb (Nat.eqb e) ds.
Proof.
  intros He Hd. rewrite <- has_needle by assumption. destruct (has (info ds) (needle e)) eqn:E.
  - apply contains_has. apply needle_has_pd. apply contains_has. exact E.
  - apply has_false. intros K. apply pd_in in K; try assumption. rewrite has_needle in E by assumption.
    assert (existsb (Nat.eqb e) ds = true) by (apply existsb_exists; exists e; split; [exact K|apply Nat.eqb_refl]). congruence.
Qed.
Definition shape (ds : list nat) : Prop :=
  (exists d, d < 3 /\ ds = [d]) \/ (exists d e, d < 3 /\ e < 3 /\ d <> e /\ ds = [d; e]) \/ ds = [0; 1; 2].
Definition Inv (f : cfield V) : Prop :=
  (cv2 V f = None /\ cinfo V f = None) \/
  (exists x w ds, cv V f = Some x /\ cv2 V f = Some w /\ cinfo V f = Some (info ds) /\ shape ds /\ tr ds x = Some w).
Lemma shape_dirs ds : shape ds -> dirs ds.
Proof. intros [(d & H & ->)|[(d & e & H1 & H2 & _ & ->)| ->]]; unfold dirs; repeat (apply Forall_cons; [lia|]); apply Forall_nil. Qed.
Lemma shape_cases ds : shape ds -> In ds [[0];[1];[2];[0;1];[0;2];[1;0];[1;2];[2;0];[2;1];[0;1;2]].
Proof.
  intros [(d & H & ->)|[(d & e & H1 & H2 & N & ->)| ->]].
  - destruct d as [|[|[|d]]]; [| | |lia]; cbn; tauto.
  - destruct d as [|[|[|d]]]; [| | |lia]; (destruct e as [|[|[|e]]]; [| | |lia]); try congruence; cbn; tauto.
  - cbn; tauto.
Qed.
Lemma tr_snoc ds d x w t : tr ds x = Some w -> T d = Some t -> tr (ds ++ [d]) x = Some (t w).
Proof.
  revert x. induction ds as [|e ds IH]; intros x H HT; cbn [List.app transforms] in *.
  - injection H as <-. rewrite HT. reflexivity.
  - destruct (T e); [|discriminate]. apply IH; assumption.
Qed.
Lemma info_snoc ds d : info ds ++ needle d = info (ds ++ [d]).
Proof. unfold info. rewrite map_app, concat_app. cbn [map List.concat]. rewrite app_nil_r. reflexivity. Qed.
Lemma find_1d_fresh v d r : find_1d V pn coll basis T v None d = Ok r ->
  exists x t, v = Some x /\ T d = Some t /\ r = (t x, Some (info [d])).
Proof.
  unfold find_1d. destruct (T d) as [t|]; [|discriminate]. destruct v as [x|]; [|discriminate]. intros H. injection H as <-.
  exists x, t. unfold info. cbn [map List.concat List.app]. rewrite app_nil_r. auto.
Qed.
Lemma find_1d_more w ds d r : find_1d V pn coll basis T (Some w) (Some (info ds)) d = Ok r ->
  exists t, T d = Some t /\ r = (t w, Some (info (ds ++ [d]))).
Proof.
  unfold find_1d. destruct (T d) as [t|]; [|discriminate]. intros H. injection H as <-. exists t. rewrite info_snoc. auto.
Qed.
Lemma avail1 f d : d < 3 -> Inv f -> available_1d V pn coll basis f d = true ->
  exists x w, cv V f = Some x /\ cv2 V f = Some w /\ tr [d] x = Some w.
Proof.
  intros Hd [(A & B)|(x & w & ds & A & B & C & S & D)] H; unfold available_1d in H; rewrite ?A, ?B in H; [discriminate|].
  rewrite C in H. pose proof (shape_dirs _ S) as HD. exists x, w. repeat split; try assumption.
  destruct d as [|[|[|d]]]; [| | |lia]; cbn [Nat.add Nat.sub] in H;
    match type of H with context [(?a mod 3)] => change (a mod 3) with (ltac:(let v := eval vm_compute in (a mod 3) in exact v)) in H end;
    cbn [Nat.sub] in H; rewrite !has_pd, has_needle in H by (lia || exact HD);
    pose proof (shape_cases _ S) as SC; cbn [In] in SC;
    repeat (destruct SC as [SC|SC]; [subst ds; cbn in H; try discriminate; exact D|]); destruct SC.
Qed.
Lemma avail2 f d1 d2 r : d1 < 3 -> d2 < 3 -> d1 <> d2 -> Inv f -> available_2d V pn coll basis f d1 d2 = Some r ->
  exists x w, cv V f = Some x /\ cv2 V f = Some w /\
  match r with
  | None => cinfo V f <> None /\ (tr [d1; d2] x = Some w \/ tr [d2; d1] x = Some w)
  | Some d => exists e, cinfo V f = Some (info [e]) /\ tr [e] x = Some w /\ ((e = d1 /\ d = d2) \/ (e = d2 /\ d = d1))
  end.
Proof.
  intros H1 H2 N [(A & B)|(x & w & ds & A & B & C & S & D)] H; unfold available_2d in H; rewrite ?A, ?B in H; [discriminate|].
  rewrite C in H. pose proof (shape_dirs _ S) as HD. exists x, w. split; [exact A|]. split; [exact B|].
  cbn [existsb] in H. rewrite !has_pd, !has_needle in H by (lia || exact HD). rewrite C.
  pose proof (shape_cases _ S) as SC; cbn [In] in SC.
  destruct d1 as [|[|[|d1]]]; [| | |lia]; (destruct d2 as [|[|[|d2]]]; [| | |lia]); try congruence;
  repeat (destruct SC as [SC|SC]; [subst ds; cbn in H; try discriminate; injection H as <-;
    first [ (split; [discriminate|]); solve [left; exact D | right; exact D]
          | eexists; split; [reflexivity|]; split; [exact D|]; tauto ] |]); destruct SC.
Qed.
Lemma avail3 f : Inv f -> available_3d V pn coll basis f = true ->
  exists x w, cv V f = Some x /\ cv2 V f = Some w /\ tr [0;1;2] x = Some w.
Proof.
  intros [(A & B)|(x & w & ds & A & B & C & S & D)] H; unfold available_3d in H; rewrite ?A, ?B in H; [discriminate|].
  rewrite C in H. pose proof (shape_dirs _ S) as HD. rewrite !has_needle in H by (lia || exact HD).
  exists x, w. repeat split; try assumption. pose proof (shape_cases _ S) as SC; cbn [In] in SC.
  repeat (destruct SC as [SC|SC]; [subst ds; cbn in H; try discriminate; exact D|]); destruct SC.
Qed.
Notation answer := (answer V T).
Notation no_poke := (no_poke V).
Lemma inv_make x w ds : shape ds -> tr ds x = Some w -> Inv (mkC V (Some x) (Some w) (Some (info ds))).
Proof. intros S H. right. exists x, w, ds. cbn. auto. Qed.
Lemma step_inv f o f' r : Inv f -> no_poke o -> cstep V pn coll basis T f o = Ok (f', r) ->
  Inv f' /\ forall w, r = Some w -> exists x, cv V f = Some x /\ cv V f' = Some x /\ answer o x w.
Proof.
  intros I P H. destruct o as [x|x|x| |d|d1 d2|]; cbn [cstep] in H.
  - destruct (cv V f); [|discriminate]. injection H as <- <-. split; [left; auto|discriminate].
  - injection H as <- <-. split; [left; auto|discriminate].
  - destruct P.
  - injection H as <- <-. split; [left; auto|discriminate].
  - unfold make_coeffs_1d in H. destruct (Nat.leb_spec 3 d) as [|L]; [discriminate|].
    destruct (available_1d V pn coll basis f d) eqn:E.
    + destruct (avail1 f d L I E) as (x & w & A & B & C). rewrite B in H. cbn [obind fst snd] in H. injection H as <- <-.
      split; [exact I|]. intros w' K. injection K as <-. exists x. auto.
    + destruct (find_1d V pn coll basis T (cv V f) None d) as [q| |] eqn:F; cbn [obind fst snd] in H; try discriminate.
      injection H as <- <-. apply find_1d_fresh in F. destruct F as (x & t & A & B & ->). rewrite A. cbn [fst snd].
      assert (TR : tr [d] x = Some (t x)) by (cbn; rewrite B; reflexivity).
      split; [apply inv_make; [left; exists d; auto|exact TR]|]. intros w' K. injection K as <-. exists x. auto.
  - unfold make_coeffs_2d in H. destruct (Nat.leb_spec 3 d1) as [|L1]; [discriminate|]. destruct (Nat.leb_spec 3 d2) as [|L2]; [discriminate|].
    destruct (Nat.eqb_spec d1 d2) as [|N]; [discriminate|]. cbn [orb] in H.
    destruct (available_2d V pn coll basis f d1 d2) as [[d|]|] eqn:E.
    + destruct (avail2 f d1 d2 _ L1 L2 N I E) as (x & w & A & B & e & C & D & Q). rewrite B, C in H.
      destruct (find_1d V pn coll basis T (Some w) (Some (info [e])) d) as [q| |] eqn:F; cbn [obind fst snd] in H; try discriminate.
      injection H as <- <-. apply find_1d_more in F. destruct F as (t & F & ->). rewrite A. cbn [fst snd].
      pose proof (tr_snoc [e] d x w t D F) as TR. cbn [List.app] in *. split.
      * apply inv_make; [|exact TR]. right. left. exists e, d. destruct Q as [(-> & ->)|(-> & ->)]; repeat split; auto.
      * intros w' K. injection K as <-. exists x. cbn [cv answer]. split; [reflexivity|]. split; [reflexivity|].
        destruct Q as [(-> & ->)|(-> & ->)]; [left|right]; exact TR.
    + destruct (avail2 f d1 d2 _ L1 L2 N I E) as (x & w & A & B & _ & C). rewrite B in H. cbn [obind fst snd] in H. injection H as <- <-.
      split; [exact I|]. intros w' K. injection K as <-. exists x. auto.
    + destruct (find_1d V pn coll basis T (cv V f) None d1) as [q| |] eqn:F; cbn [obind fst snd] in H; try discriminate.
      apply find_1d_fresh in F. destruct F as (x & t & A & B & ->). cbn [fst snd] in H.
      destruct (find_1d V pn coll basis T (Some (t x)) (Some (info [d1])) d2) as [q| |] eqn:F; cbn [obind fst snd] in H; try discriminate.
      injection H as <- <-. apply find_1d_more in F. destruct F as (t2 & B2 & ->). rewrite A. cbn [fst snd List.app].
      assert (TR : tr [d1; d2] x = Some (t2 (t x))) by (cbn; rewrite B, B2; reflexivity).
      split; [apply inv_make; [right; left; exists d1, d2; auto|exact TR]|]. intros w' K. injection K as <-. exists x. cbn. auto.
  - unfold make_coeffs_3d in H. destruct (available_3d V pn coll basis f) eqn:E.
    + destruct (avail3 f I E) as (x & w & A & B & C). rewrite B in H. cbn [obind fst snd] in H. injection H as <- <-.
      split; [exact I|]. intros w' K. injection K as <-. exists x. auto.
    + destruct (find_1d V pn coll basis T (cv V f) None 0) as [q| |] eqn:F; cbn [obind fst snd] in H; try discriminate.
      apply find_1d_fresh in F. destruct F as (x & t & A & B & ->). cbn [fst snd] in H.
      destruct (find_1d V pn coll basis T (Some (t x)) (Some (info [0])) 1) as [q| |] eqn:F; cbn [obind fst snd] in H; try discriminate.
      apply find_1d_more in F. destruct F as (t2 & B2 & ->). cbn [fst snd] in H.
      destruct (find_1d V pn coll basis T (Some (t2 (t x))) (Some (info ([0] ++ [1]))) 2) as [q| |] eqn:F; cbn [obind fst snd] in H; try discriminate.
      injection H as <- <-. apply find_1d_more in F. destruct F as (t3 & B3 & ->). rewrite A. cbn [fst snd List.app].
      assert (TR : tr [0;1;2] x = Some (t3 (t2 (t x)))) by (cbn; rewrite B, B2, B3; reflexivity).
      split; [apply inv_make; [right; right; reflexivity|exact TR]|]. intros w' K. injection K as <-. exists x. cbn [cv answer]. auto.
Qed.
Lemma run_inv h : forall f f', Inv f -> Forall no_poke h -> crun V pn coll basis T f h = Ok f' -> Inv f'.
Proof.
  induction h as [|o h IH]; intros f f' I P H; cbn [crun] in H; [injection H as <-; exact I|].
  inversion P; subst. destruct (cstep V pn coll basis T f o) as [[f1 r]| |] eqn:E; cbn [obind fst] in H; try discriminate.
  apply (IH f1); try assumption. eapply step_inv; eassumption.
Qed.
Theorem never_stale v h f o f' w : Forall no_poke h ->
  crun V pn coll basis T (mkC V v None None) h = Ok f -> cstep V pn coll basis T f o = Ok (f', Some w) ->
  no_poke o -> exists x, cv V f = Some x /\ cv V f' = Some x /\ answer o x w.
Proof.
  intros P R S N. assert (I : Inv f) by (eapply run_inv; [|exact P|exact R]; left; auto).
  apply (step_inv f o f' (Some w) I N S). reflexivity.
Qed.
Notation valid := (valid V).
Lemma find_ok x i d : T d <> None -> exists r, find_1d V pn coll basis T (Some x) i d = Ok r.
Proof. unfold find_1d. destruct (T d); [eauto|congruence]. Qed.
Theorem requests_answered v h f o : Forall no_poke h -> (forall d, d < 3 -> T d <> None) ->
  crun V pn coll basis T (mkC V v None None) h = Ok f -> cv V f <> None -> valid o ->
  exists f' w, cstep V pn coll basis T f o = Ok (f', Some w).
Proof.
  intros P HT R HV VO. assert (I : Inv f) by (eapply run_inv; [|exact P|exact R]; left; auto).
  destruct (cv V f) as [x|] eqn:EV; [|congruence]. destruct o as [y|y|y| |d|d1 d2|]; cbn [valid] in VO; try contradiction; cbn [cstep].
  - unfold make_coeffs_1d. destruct (Nat.leb_spec 3 d) as [|L]; [lia|]. destruct (available_1d V pn coll basis f d) eqn:E.
    + destruct (avail1 f d L I E) as (x' & w & A & B & C). rewrite B. cbn. eauto.
    + rewrite EV. destruct (find_ok x None d (HT d L)) as (r & ->). cbn. eauto.
  - unfold make_coeffs_2d. destruct VO as (L1 & L2 & N). destruct (Nat.leb_spec 3 d1); [lia|]. destruct (Nat.leb_spec 3 d2); [lia|].
    destruct (Nat.eqb_spec d1 d2); [congruence|]. cbn [orb]. destruct (available_2d V pn coll basis f d1 d2) as [[d|]|] eqn:E.
    + destruct (avail2 f d1 d2 _ L1 L2 N I E) as (x' & w & A & B & e & C & D & Q). rewrite B.
      destruct (find_ok w (cinfo V f) d) as (r & ->); [apply HT; destruct Q as [(_ & ->)|(_ & ->)]; assumption|]. cbn. eauto.
    + destruct (avail2 f d1 d2 _ L1 L2 N I E) as (x' & w & A & B & _). rewrite B. cbn. eauto.
    + rewrite EV. destruct (find_ok x None d1 (HT d1 L1)) as (r & ->). cbn [obind].
      destruct (find_ok (fst r) (snd r) d2 (HT d2 L2)) as (r2 & ->). cbn. eauto.
  - unfold make_coeffs_3d. destruct (available_3d V pn coll basis f) eqn:E.
    + destruct (avail3 f I E) as (x' & w & A & B & C). rewrite B. cbn. eauto.
    + rewrite EV. destruct (find_ok x None 0) as (r & ->); [apply HT; lia|]. cbn [obind].
      destruct (find_ok (fst r) (snd r) 1) as (r2 & ->); [apply HT; lia|]. cbn [obind].
      destruct (find_ok (fst r2) (snd r2) 2) as (r3 & ->); [apply HT; lia|]. cbn. eauto.
Qed.
End Cache.
Lemma cache_correct (V : Type) pn coll basis (T : nat -> option (V -> V)) v h f :
  Forall (no_poke V) h -> crun V pn coll basis T (mkC V v None None) h = Ok f ->
  (forall o f' w, no_poke V o -> cstep V pn coll basis T f o = Ok (f', Some w) ->
     exists x, cv V f = Some x /\ cv V f' = Some x /\ answer V T o x w) /\
  ((forall d, d < 3 -> T d <> None) -> cv V f <> None -> forall o, valid V o ->
     exists f' w, cstep V pn coll basis T f o = Ok (f', Some w)).
Proof.
  intros P R. split.
  - intros o f' w N S. eapply never_stale; eassumption.
  - intros HT HV o VO. eapply requests_answered; eassumption.
Qed.
Lemma poke_stale (V : Type) pn coll basis (T : nat -> option (V -> V)) t d x y : d < 3 -> T d = Some t -> t x <> t y ->
  exists f f' w, crun V pn coll basis T (mkC V (Some x) None None) [C1 V d; CPoke V y] = Ok f /\
    cv V f = Some y /\ cstep V pn coll basis T f (C1 V d) = Ok (f', Some w) /\ w = t x /\ w <> t y.
Proof.
  intros Hd HT N. exists (mkC V (Some y) (Some (t x)) (Some (info pn coll basis [d]))).
  assert (A : forall z, available_1d V pn coll basis (mkC V z (Some (t x)) (Some (info pn coll basis [d]))) d = true).
  { intros z. unfold available_1d. cbn [cv2 cinfo]. assert (D : dirs [d]) by (apply Forall_cons; [exact Hd|apply Forall_nil]).
    destruct d as [|[|[|d]]]; [| | |lia]; cbn [Nat.add]; match goal with |- context [(?a mod 3)] => change (a mod 3) with (ltac:(let v := eval vm_compute in (a mod 3) in exact v)) end;
      cbn [Nat.sub]; rewrite !(has_pd V pn coll basis T), (has_needle V pn coll basis T) by (lia || exact D); reflexivity. }
  exists (mkC V (Some y) (Some (t x)) (Some (info pn coll basis [d]))), (t x). split; [|split; [reflexivity|split; [|auto]]].
  - cbn [crun cstep]. unfold make_coeffs_1d. destruct (Nat.leb_spec 3 d); [lia|]. unfold available_1d. cbn [cv2 cv].
    unfold find_1d. rewrite HT. cbn [obind fst snd cv cv2 cinfo List.app]. unfold info. cbn [map List.concat]. rewrite app_nil_r. reflexivity.
  - cbn [cstep]. unfold make_coeffs_1d. destruct (Nat.leb_spec 3 d); [lia|]. rewrite A. reflexivity.
Qed.
