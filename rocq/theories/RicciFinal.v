(** RicciFinal.v - C94 for the jets of a metric, and examples for C93-C95. *)
From Verif Require Import RealBase TensorSpec TensorProofs RicciProofs LinAlg3Model LinAlg3Spec LinAlg3Proofs BssnModel BssnProofs.
From Verif Require GenChris GenRicci.

(** the data the Ricci code reads are those of the metric with inverse ig and first and
    second derivatives dg, ddg *)
Definition reads_LC (E : GenRicci.env) ig dg ddg : Prop :=
  (forall k i j, (k < 3)%nat -> (i <= j)%nat -> (j < 3)%nat -> GenRicci.Chris E k i j = Christoffel ig dg k i j) /\
  (forall k i j l, (k < 3)%nat -> (i <= j)%nat -> (j < 3)%nat -> (l < 3)%nat ->
     GenRicci.dChris E k i j l = dChristoffel ig (dinverse ig dg) dg ddg k i j l).

Lemma sum3_ext f h : (forall i, (i < 3)%nat -> f i = h i) -> sum3 f = sum3 h.
Proof. intros H. unfold sum3. rewrite !H by lia. reflexivity. Qed.

Lemma RicciOf_ext G G' dG dG' a b : (a < 3)%nat -> (b < 3)%nat ->
  (forall k i j, (k < 3)%nat -> (i < 3)%nat -> (j < 3)%nat -> G k i j = G' k i j) ->
  (forall k i j l, (k < 3)%nat -> (i < 3)%nat -> (j < 3)%nat -> (l < 3)%nat -> dG k i j l = dG' k i j l) ->
  RicciOf G dG a b = RicciOf G' dG' a b.
Proof.
  intros Ha Hb H H'. unfold RicciOf. f_equal; [f_equal; [f_equal|]|].
  - apply sum3_ext; intros; apply H'; lia.
  - apply sum3_ext; intros; apply H'; lia.
  - apply sum3_ext; intros; apply sum3_ext; intros; f_equal; apply H; lia.
  - apply sum3_ext; intros; apply sum3_ext; intros; f_equal; apply H; lia.
Qed.

Lemma ricci_LC : forall (E : GenRicci.env) ig dg ddg old,
  reads_LC E ig dg ddg ->
  (forall i j, ig i j = ig j i) -> (forall a b c, dg a b c = dg b a c) ->
  (forall a b c d, ddg a b c d = ddg b a c d) -> (forall a b c d, ddg a b c d = ddg a b d c) ->
  forall a b, (a < 3)%nat -> (b < 3)%nat ->
  sy (GenRicci.store_Ricci E old) a b
  = RicciOf (Christoffel ig dg) (dChristoffel ig (dinverse ig dg) dg ddg) a b.
Proof.
  intros E ig dg ddg old [H1 H2] S1 S2 S3 S4 a b Ha Hb.
  assert (C1 : forall k i j, (k < 3)%nat -> (i < 3)%nat -> (j < 3)%nat -> syl (GenRicci.Chris E) k i j = Christoffel ig dg k i j).
  { intros. unfold syl. destruct (Nat.leb_spec i j); [apply H1; lia|]. rewrite H1 by lia. apply (G_sym ig dg S2). }
  assert (C2 : forall k i j l, (k < 3)%nat -> (i < 3)%nat -> (j < 3)%nat -> (l < 3)%nat ->
    syld (GenRicci.dChris E) k i j l = dChristoffel ig (dinverse ig dg) dg ddg k i j l).
  { intros. unfold syld. destruct (Nat.leb_spec i j); [apply H2; lia|]. rewrite H2 by lia. apply (dG_sym ig dg ddg S2 S3). }
  assert (C3 : forall a' b', (a' < 3)%nat -> (b' < 3)%nat -> sum3 (fun c => syld (GenRicci.dChris E) c a' c b')
    = sum3 (fun c => dChristoffel ig (dinverse ig dg) dg ddg c a' c b')) by (intros; apply sum3_ext; intros; apply C2; lia).
  rewrite ricci_full; try assumption.
  2:{ intros. rewrite !C3 by assumption. apply (contr_sym ig dg ddg S1 S2 S3 S4). }
  apply RicciOf_ext; auto.
Qed.

Lemma ricci_LC_sym : forall ig dg ddg,
  (forall i j, ig i j = ig j i) -> (forall a b c, dg a b c = dg b a c) ->
  (forall a b c d, ddg a b c d = ddg b a c d) -> (forall a b c d, ddg a b c d = ddg a b d c) ->
  forall a b, RicciOf (Christoffel ig dg) (dChristoffel ig (dinverse ig dg) dg ddg) a b
            = RicciOf (Christoffel ig dg) (dChristoffel ig (dinverse ig dg) dg ddg) b a.
Proof. intros. apply ricci_sym; assumption. Qed.

Lemma chris_formula_all :
  (forall (E : GenChris.env) old,
    (forall k i j, (k < 3)%nat -> (i < 3)%nat -> (j < 3)%nat ->
       syl (GenChris.store_Chris E old) k i j = Christoffel (sy (GenChris.ig E)) (syd (GenChris.dg E)) k i j) /\
    (forall k i j, ~ ((k < 3)%nat /\ (i <= j)%nat /\ (j < 3)%nat) -> GenChris.store_Chris E old k i j = old k i j)).
Proof. intros; split; intros; [apply chris_full|apply chris_frame]; assumption. Qed.

Lemma sy_sym T i j : sy T i j = sy T j i.
Proof. unfold sy. destruct (Nat.leb_spec i j), (Nat.leb_spec j i); try lia; try reflexivity. replace j with i by lia; reflexivity. Qed.
Lemma syd_sym T i j k : syd T i j k = syd T j i k.
Proof. unfold syd. destruct (Nat.leb_spec i j), (Nat.leb_spec j i); try lia; try reflexivity. replace j with i by lia; reflexivity. Qed.
Lemma syl_sym T k i j : syl T k i j = syl T k j i.
Proof. unfold syl. destruct (Nat.leb_spec i j), (Nat.leb_spec j i); try lia; try reflexivity. replace j with i by lia; reflexivity. Qed.

Lemma chris_levi_civita : forall (E : GenChris.env) old g,
  inverse3 (sy g) (sy (GenChris.ig E)) -> inverse3 (sy (GenChris.ig E)) (sy g) ->
  let G := syl (GenChris.store_Chris E old) in
  let dg := syd (GenChris.dg E) in
  (forall k i j, G k i j = G k j i) /\
  (forall a b c, (a < 3)%nat -> (b < 3)%nat -> (c < 3)%nat ->
     dg a b c - sum3 (fun k => G k a c * sy g b k) - sum3 (fun k => G k b c * sy g a k) = 0) /\
  (forall G' : nat -> nat -> nat -> R,
     (forall k i j, (k < 3)%nat -> (i < 3)%nat -> (j < 3)%nat -> G' k i j = G' k j i) ->
     (forall a b c, (a < 3)%nat -> (b < 3)%nat -> (c < 3)%nat ->
        dg a b c - sum3 (fun k => G' k a c * sy g b k) - sum3 (fun k => G' k b c * sy g a k) = 0) ->
     forall k i j, (k < 3)%nat -> (i < 3)%nat -> (j < 3)%nat -> G' k i j = G k i j).
Proof.
  intros E old g H H' G dg. split; [|split].
  - intros. apply syl_sym.
  - intros a b c Ha Hb Hc.
    rewrite <- (chris_compat (sy g) (sy (GenChris.ig E)) dg H (fun a b c => syd_sym _ a b c) a b c Ha Hb).
    f_equal; [f_equal|]; apply sum3_ext; intros; f_equal; apply chris_full; lia.
  - intros G' S C k i j Hk Hi Hj. unfold G. rewrite chris_full by assumption.
    apply (chris_unique (sy g) (sy (GenChris.ig E)) dg H H' (sy_sym g) (syd_sym _) G' S C k i j Hk Hi Hj).
Qed.

(** a non-diagonal metric with non-zero derivatives *)
Definition ex_g (i j : nat) : R := match i, j with 0%nat, 0%nat => 2 | 0%nat, 1%nat => 1 | 1%nat, 1%nat => 1 | 2%nat, 2%nat => 4 | _, _ => 0 end.
Definition ex_ig (i j : nat) : R := match i, j with 0%nat, 0%nat => 1 | 0%nat, 1%nat => -1 | 1%nat, 1%nat => 2 | 2%nat, 2%nat => /4 | _, _ => 0 end.
Definition ex_dg (i j k : nat) : R := match i, j, k with 0%nat, 1%nat, 2%nat => 3 | 2%nat, 2%nat, 0%nat => 8 | _, _, _ => 0 end.

Lemma ex_inverse : inverse3 (sy ex_g) (sy ex_ig) /\ inverse3 (sy ex_ig) (sy ex_g).
Proof. split; intros i j Hi Hj; idx i; idx j; tensors; cbn; field. Qed.

Lemma chris_ex : inverse3 (sy ex_g) (sy ex_ig) /\ inverse3 (sy ex_ig) (sy ex_g) /\
  forall old, GenChris.store_Chris (GenChris.mk ex_dg ex_ig) old 0 2 2 = -4 /\
  syl (GenChris.store_Chris (GenChris.mk ex_dg ex_ig) old) 2 1 0 = - (3 / 8).
Proof.
  split; [|split]; try apply ex_inverse. intros old. split.
  - rewrite chris_formula by lia. unfold Christoffel; tensors; cbn; field.
  - rewrite chris_full by lia. unfold Christoffel; tensors; cbn; field.
Qed.

(** a flat inverse metric with d_1 d_1 g_00 = 2, d_0 d_1 g_01 = 1 .. at the origin: curved *)
Definition ex_ddg (a b c d : nat) : R := match a, b, c, d with 0%nat, 0%nat, 1%nat, 1%nat => 2 | 1%nat, 1%nat, 0%nat, 0%nat => 4 | _, _, _, _ => 0 end.
Definition ex_E : GenRicci.env :=
  GenRicci.mk (Christoffel delta (fun _ _ _ => 0)) (dChristoffel delta (dinverse delta (fun _ _ _ => 0)) (fun _ _ _ => 0) ex_ddg) delta.
Lemma ricci_ex : reads_LC ex_E delta (fun _ _ _ => 0) ex_ddg /\
  (forall i j, delta i j = delta j i) /\ (forall a b c d, ex_ddg a b c d = ex_ddg b a c d) /\ (forall a b c d, ex_ddg a b c d = ex_ddg a b d c) /\
  forall old, GenRicci.store_Ricci ex_E old 0 0 = -3 /\ GenRicci.store_Ricci ex_E old 1 1 = -3 /\ GenRicci.out_trR ex_E = -6.
Proof.
  split; [split; intros; reflexivity|]. split; [|split; [|split]].
  - intros. unfold delta. rewrite Nat.eqb_sym. reflexivity.
  - intros a b c d. destruct a as [|[|a]], b as [|[|b]]; reflexivity.
  - intros a b c d. destruct a as [|[|a]], b as [|[|b]]; try reflexivity; destruct c as [|[|c]], d as [|[|d]]; reflexivity.
  - intros old. split; [|split].
    + rewrite ricci_formula by lia. unfold RicciOf; tensors; cbn; unfold dChristoffel, Christoffel, dinverse; tensors; cbn; field.
    + rewrite ricci_formula by lia. unfold RicciOf; tensors; cbn; unfold dChristoffel, Christoffel, dinverse; tensors; cbn; field.
    + rewrite (ricci_trace ex_E old). unfold trace3. unfold sum3, sy. cbn [Nat.leb].
      rewrite !ricci_formula by lia. unfold RicciOf, sum3; cbn [GenRicci.ig ex_E]; unfold delta, syl, syld; cbn; unfold dChristoffel, Christoffel, dinverse; tensors; cbn; field.
Qed.

Lemma bssn_ex : positive_definite (S3 16 0 0 16 0 16) /\ Matrix_Determinant_3x3_Symmetric (S3 0 1 0 1 0 (-1)) = 1 /\
  Matrix_Determinant_3x3_Symmetric (S3 0 1 0 1 0 1) <= 0.
Proof.
  split; [|split].
  - intros x [i [Hi Hx]]. unfold quad, full; cbn.
    pose proof (Rle_0_sqr (x 0%nat)); pose proof (Rle_0_sqr (x 1%nat)); pose proof (Rle_0_sqr (x 2%nat)).
    pose proof (Rsqr_pos_lt _ Hx). unfold Rsqr in *. idx i; lra.
  - unfold Matrix_Determinant_3x3_Symmetric, Matrix_Determinant_3x3; cbn. lra.
  - unfold Matrix_Determinant_3x3_Symmetric, Matrix_Determinant_3x3; cbn. lra.
Qed.
