(** DiffProofs.v - the reports on the difference of two fields. *)
From Verif Require Import RealBase NormModel NormProofs.
From Verif Require Import Base TextModel DiffModel.
Open Scope R_scope.
Open Scope list_scope.

Definition row (an nu : str) (p : dpatch) (l : tline) : Prop :=
  exists a b m s2 s1, d_fld p an = Some (Some a) /\ d_fld p nu = Some (Some b) /\ (0 < d_nn p)%nat /\
    l = (d_name p, d_nn p, m, Some s2, Some s1) /\
    (exists i, (i < d_nn p)%nat /\ Rabs (a i - b i) = m) /\ (forall i, (i < d_nn p)%nat -> Rabs (a i - b i) <= m) /\
    s2 * s2 = sum_to (d_nn p) (fun i => (a i - b i) * (a i - b i)) / INR (d_nn p) /\
    s1 = sum_to (d_nn p) (fun i => Rabs (a i - b i)) / INR (d_nn p) /\ 0 <= s1 /\ s1 <= s2 /\ s2 <= m.

Lemma rs_diff n a b : root_square n (Some a) (Some b) = root_square n (Some (fun i => a i - b i)) None.
Proof. reflexivity. Qed.

Lemma test_patch_ok an nu p l : test_patch an nu p = Ok l <-> row an nu p l.
Proof.
  unfold test_patch, look, row. split.
  - destruct (d_fld p an) as [[a|]|] eqn:Ea; cbn [obind]; try discriminate;
      destruct (d_fld p nu) as [[b|]|] eqn:Eb; cbn [obind]; try discriminate; try (destruct (d_nn p =? 0)%nat; discriminate).
    destruct (L_inf (d_nn p) (Some (fun i => a i - b i))) as [m| |] eqn:EL; cbn [obind]; try discriminate.
    intros H. assert (Hl : (d_name p, d_nn p, m, L2_norm (d_nn p) (Some a) (Some b), L1_norm (d_nn p) (Some a) (Some b)) = l) by congruence. clear H. subst l.
    pose proof (proj1 (linf_ok _ _ _) EL) as (w & Ew & (i & Hi & Hm) & Hle). injection Ew as <-.
    assert (N : (0 < d_nn p)%nat) by lia.
    assert (IN := inr_pos _ N). assert (SN : 0 < sqrt (INR (d_nn p))) by (apply sqrt_lt_R0, IN).
    set (s2 := root_square (d_nn p) (Some a) (Some b) / sqrt (INR (d_nn p))).
    assert (E2 : L2_norm (d_nn p) (Some a) (Some b) = Some s2) by (destruct (d_nn p); [lia|reflexivity]).
    pose proof (l1_val (d_nn p) (Some a) (Some b) N) as E1. cbn [val] in E1.
    exists a, b, m, s2, (sum_to (d_nn p) (fun i => Rabs (a i - b i)) / INR (d_nn p)).
    split; [reflexivity|]. split; [reflexivity|]. split; [exact N|]. split; [rewrite E1, E2; reflexivity|].
    split; [exists i; auto|]. split; [exact Hle|]. split; [|split; [reflexivity|split; [|split]]].
    + unfold s2. pose proof (rs_sq (d_nn p) (Some a) (Some b)) as Q. cbn [val] in Q. rewrite <- Q.
      pose proof (sqrt_sqrt (INR (d_nn p)) ltac:(lra)) as W. set (q := sqrt (INR (d_nn p))) in *. rewrite <- W. field. lra.
    + exact (l1_pos _ _ _ _ E1).
    + exact (l1_l2 _ _ _ _ _ N E1 E2).
    + apply (linf_l2 (d_nn p) (fun i => a i - b i) m s2 EL). unfold s2. rewrite rs_diff. unfold L2_norm. destruct (d_nn p); [lia|reflexivity].
  - intros (a & b & m & s2 & s1 & Ea & Eb & N & -> & (i & Hi & Hm) & Hle & H2 & H1 & P1 & P2 & P3). rewrite Ea, Eb. cbn [obind].
    assert (EL : L_inf (d_nn p) (Some (fun i => a i - b i)) = Ok m).
    { apply linf_ok. eexists. split; [reflexivity|]. split; [exists i; auto|exact Hle]. }
    rewrite EL. cbn [obind].
    pose proof (l1_val (d_nn p) (Some a) (Some b) N) as E1. cbn [val] in E1. rewrite E1, <- H1.
    assert (IN := inr_pos _ N). assert (SN : 0 < sqrt (INR (d_nn p))) by (apply sqrt_lt_R0, IN).
    set (r := root_square (d_nn p) (Some a) (Some b) / sqrt (INR (d_nn p))).
    assert (E2 : L2_norm (d_nn p) (Some a) (Some b) = Some r) by (destruct (d_nn p); [lia|reflexivity]).
    rewrite E2. replace r with s2; [reflexivity|].
    assert (R0 : 0 <= r) by (unfold r, Rdiv; apply Rmult_le_pos; [apply rs_pos|left; apply Rinv_0_lt_compat, SN]).
    assert (RR : r * r = s2 * s2).
    { rewrite H2. unfold r. pose proof (rs_sq (d_nn p) (Some a) (Some b)) as Q. cbn [val] in Q. rewrite <- Q.
      pose proof (sqrt_sqrt (INR (d_nn p)) ltac:(lra)) as W. set (q := sqrt (INR (d_nn p))) in *. rewrite <- W. field. lra. }
    assert (S0 : 0 <= s2) by lra. clear - R0 RR S0. apply Rsqr_inj; auto.
Qed.
Lemma test_ok an nu grid : forall ls, test an nu grid = Ok ls <-> Forall2 (row an nu) grid ls.
Proof.
  induction grid as [|p t IH]; intros ls; cbn.
  - split; [intros H; injection H as <-; constructor|intros H; inversion H; reflexivity].
  - split.
    + destruct (test_patch an nu p) as [l| |] eqn:E; cbn; try discriminate. destruct (test an nu t) as [r| |] eqn:E2; cbn; try discriminate.
      intros H; injection H as <-. constructor; [apply test_patch_ok, E|apply IH; reflexivity].
    + intros H. inversion H as [|? l ? r A B]; subst. apply test_patch_ok in A. apply IH in B. rewrite A, B. reflexivity.
Qed.
Lemma row_ex an nu p a b : d_fld p an = Some (Some a) -> d_fld p nu = Some (Some b) -> (0 < d_nn p)%nat -> exists l, row an nu p l.
Proof.
  intros Ea Eb N. destruct (L_inf (d_nn p) (Some (fun i => a i - b i))) as [m| |] eqn:EL.
  - eexists. apply test_patch_ok. unfold test_patch, look. rewrite Ea, Eb. cbn [obind]. rewrite EL. reflexivity.
  - destruct (d_nn p); [lia|discriminate].
  - destruct (d_nn p); [lia|discriminate].
Qed.

Lemma Forall2_impl' {A B} (P Q : A -> B -> Prop) l l' : (forall a b, P a b -> Q a b) -> Forall2 P l l' -> Forall2 Q l l'.
Proof. induction 2; constructor; auto. Qed.

(** ** files *)
Definition offset (grid : list dpatch) (j : nat) : nat := list_sum (List.map d_nn (firstn j grid)).
Lemma nth_map_seq {A} (f : nat -> A) n : forall k l, (l < n)%nat -> nth_error (List.map f (seq k n)) l = Some (f (k + l)%nat).
Proof.
  induction n; intros k l H; [lia|]. destruct l; cbn; [f_equal; f_equal; lia|]. rewrite IHn by lia. do 2 f_equal. lia.
Qed.
Lemma diff_ok f1 f2 grid : forall R0 g fs, differences f1 f2 R0 grid = Ok (g, fs) ->
  List.length g = list_sum (List.map d_nn grid) /\ List.length fs = List.length grid /\
  forall j p, nth_error grid j = Some p -> exists ls, nth_error fs j = Some (d_name p, ls) /\ List.length ls = d_nn p /\
   ((0 < d_nn p)%nat -> exists a b, d_fld p f1 = Some (Some a) /\ d_fld p f2 = Some (Some b) /\
     forall l, (l < d_nn p)%nat -> nth_error ls l = Some (l, b l, a l, Rabs (b l - a l)) /\
       nth_error g (offset grid j + l) = Some ((R0 + (offset grid j + l))%nat, b l, a l, Rabs (b l - a l))).
Proof.
  induction grid as [|p t IH]; intros R0 g fs; cbn [differences].
  { intros H; injection H as <- <-. split; [reflexivity|]. split; [reflexivity|]. intros [|j] p H; discriminate. }
  unfold look. destruct (d_fld p f1) as [a|] eqn:Ea; cbn; try discriminate. destruct (d_fld p f2) as [b|] eqn:Eb; cbn; try discriminate.
  assert (Z : d_nn p = 0%nat -> forall g0 fs0, differences f1 f2 (R0 + d_nn p) t = Ok (g0, fs0) -> g = g0 -> fs = (d_name p, []) :: fs0 ->
     List.length g = list_sum (d_nn p :: List.map d_nn t) /\ List.length fs = S (List.length t) /\
     forall j q, nth_error (p :: t) j = Some q -> exists ls, nth_error fs j = Some (d_name q, ls) /\ List.length ls = d_nn q /\
      ((0 < d_nn q)%nat -> exists a b, d_fld q f1 = Some (Some a) /\ d_fld q f2 = Some (Some b) /\
       forall l, (l < d_nn q)%nat -> nth_error ls l = Some (l, b l, a l, Rabs (b l - a l)) /\
       nth_error g (offset (p :: t) j + l) = Some ((R0 + (offset (p :: t) j + l))%nat, b l, a l, Rabs (b l - a l)))).
  { intros Z0 g0 fs0 E -> ->. apply IH in E. rewrite Z0 in *. destruct E as (E1 & E2 & E3).
    split; [cbn; exact E1|]. split; [cbn; lia|]. intros [|j] q Hq.
    - injection Hq as <-. exists []. split; [reflexivity|]. split; [cbn; lia|]. lia.
    - cbn in Hq. destruct (E3 j q Hq) as (ls & A & B & C). exists ls. split; [exact A|]. split; [exact B|]. intros Hp.
      destruct (C Hp) as (a' & b' & C1 & C2 & C3). exists a', b'. split; [exact C1|]. split; [exact C2|]. intros l Hl. destruct (C3 l Hl) as [D1 D2].
      split; [exact D1|]. unfold offset in *. cbn [firstn List.map list_sum fold_right]. rewrite Z0. cbn [Nat.add]. rewrite Nat.add_0_r in D2. exact D2. }
  destruct a as [a|], b as [b|].
  2, 3, 4: destruct (Nat.eqb_spec (d_nn p) 0) as [E0|E0]; [|discriminate];
    destruct (differences f1 f2 (R0 + d_nn p) t) as [[g0 fs0]| |] eqn:E; cbn; try discriminate; intros H; injection H as <- <-;
    apply (Z E0 g0 fs0); reflexivity.
  clear Z. destruct (differences f1 f2 (R0 + d_nn p) t) as [[g0 fs0]| |] eqn:E; cbn [obind]; try discriminate.
  intros H; injection H as <- <-. apply IH in E. destruct E as (E1 & E2 & E3). cbn [fst snd].
  split; [rewrite app_length, map_length, seq_length; cbn; f_equal; exact E1|]. split; [cbn; lia|].
  intros [|j] q Hq.
  - injection Hq as <-. eexists. split; [reflexivity|]. split; [rewrite map_length, seq_length; reflexivity|]. intros _.
    exists a, b. split; [exact Ea|]. split; [exact Eb|]. intros l Hl. split; [rewrite nth_map_seq by exact Hl; reflexivity|].
    unfold offset. cbn [firstn List.map list_sum fold_right Nat.add]. rewrite nth_error_app1 by (rewrite map_length, seq_length; exact Hl).
    rewrite nth_map_seq by exact Hl. cbn [Nat.add]. do 4 f_equal. lia.
  - cbn in Hq. destruct (E3 j q Hq) as (ls & A & B & C). exists ls. split; [exact A|]. split; [exact B|]. intros Hp.
    destruct (C Hp) as (a' & b' & C1 & C2 & C3). exists a', b'. split; [exact C1|]. split; [exact C2|]. intros l Hl. destruct (C3 l Hl) as [D1 D2].
    split; [exact D1|]. assert (EO : offset (p :: t) (S j) = (d_nn p + offset t j)%nat) by reflexivity. rewrite EO.
    rewrite nth_error_app2 by (rewrite map_length, seq_length; lia). rewrite map_length, seq_length.
    replace (d_nn p + offset t j + l - d_nn p)%nat with (offset t j + l)%nat by lia. etransitivity; [exact D2|]. do 4 f_equal. lia.
Qed.
Lemma diff_success f1 f2 grid : forall R0, (exists r, differences f1 f2 R0 grid = Ok r) <->
  Forall (fun p => exists a b, d_fld p f1 = Some a /\ d_fld p f2 = Some b /\ ((0 < d_nn p)%nat -> a <> None /\ b <> None)) grid.
Proof.
  induction grid as [|p t IH]; intros R0; cbn [differences].
  { split; [constructor|eexists; reflexivity]. }
  unfold look. specialize (IH (R0 + d_nn p)%nat). split.
  - intros [r H]. destruct (d_fld p f1) as [a|] eqn:Ea; cbn in H; try discriminate. destruct (d_fld p f2) as [b|] eqn:Eb; cbn in H; try discriminate.
    constructor.
    + exists a, b. split; [exact Ea|]. split; [exact Eb|]. intros N. destruct a, b; try (split; discriminate);
        destruct (Nat.eqb_spec (d_nn p) 0); try lia; discriminate.
    + apply IH. destruct a, b; try destruct (Nat.eqb (d_nn p) 0); try discriminate;
        (destruct (differences f1 f2 (R0 + d_nn p) t) as [x| |]; [eexists; reflexivity|discriminate|discriminate]).
  - intros H. inversion H as [|? ? (a & b & Ea & Eb & N) Ht]; subst. apply IH in Ht. destruct Ht as [r Hr]. rewrite Ea, Eb. cbn [obind]. rewrite Hr.
    destruct a, b; [eexists; reflexivity| | |]; (destruct (Nat.eqb_spec (d_nn p) 0) as [|NZ]; [eexists; reflexivity|destruct N as [N1 N2]; [lia|]; congruence]).
Qed.
