(** TensorProofs.v - the generated Christoffel, Ricci code against TensorSpec. *)
From Verif Require Import RealBase TensorSpec.
From Verif Require GenChris GenRicci.

Lemma chris_formula : forall (E : GenChris.env) old k i j,
  (k < 3)%nat -> (i <= j)%nat -> (j < 3)%nat ->
  GenChris.store_Chris E old k i j
  = Christoffel (sy (GenChris.ig E)) (syd (GenChris.dg E)) k i j.
Proof.
  intros E old k i j Hk Hij Hj. assert (Hi : (i < 3)%nat) by lia.
  unfold Christoffel.
  idx k; idx i; idx j; try (exfalso; lia); clear Hij;
  cbn [GenChris.store_Chris];
  match goal with |- ?f E = _ => unfold f end;
  match goal with |- ?f E = _ => unfold f end;
  tensors; field.
Qed.

Lemma chris_frame : forall (E : GenChris.env) old k i j,
  ~ ((k < 3)%nat /\ (i <= j)%nat /\ (j < 3)%nat) ->
  GenChris.store_Chris E old k i j = old k i j.
Proof.
  intros E old k i j H.
  destruct k as [|[|[|k]]]; destruct i as [|[|[|i]]]; destruct j as [|[|[|j]]]; try reflexivity;
  exfalso; apply H; lia.
Qed.


Lemma chris_full : forall (E : GenChris.env) old k i j,
  (k < 3)%nat -> (i < 3)%nat -> (j < 3)%nat ->
  syl (GenChris.store_Chris E old) k i j
  = Christoffel (sy (GenChris.ig E)) (syd (GenChris.dg E)) k i j.
Proof.
  intros E old k i j Hk Hi Hj. unfold syl.
  destruct (Nat.leb_spec i j).
  - apply chris_formula; lia.
  - rewrite chris_formula by lia. unfold Christoffel, sum3.
    replace (syd (GenChris.dg E) j i) with (syd (GenChris.dg E) i j); [ring|].
    unfold syd. destruct (Nat.leb_spec i j), (Nat.leb_spec j i); try lia; reflexivity.
Qed.

(** Lowering with g undoes the inverse. *)
Lemma lower : forall g ig (v : nat -> R), inverse3 g ig -> forall a, (a < 3)%nat ->
  sum3 (fun k => g a k * sum3 (fun m => ig k m * v m)) = v a.
Proof.
  intros g ig v H a Ha.
  transitivity (sum3 (fun m => sum3 (fun k => g a k * ig k m) * v m)).
  - unfold sum3. ring.
  - unfold sum3 at 1. rewrite !H by lia. idx a; unfold delta; cbn; ring.
Qed.

Lemma chris_lower : forall g ig dg, inverse3 g ig -> forall a i j, (a < 3)%nat ->
  sum3 (fun k => g a k * Christoffel ig dg k i j) = / 2 * (dg a i j + dg a j i - dg i j a).
Proof.
  intros g ig dg H a i j Ha.
  rewrite <- (lower g ig (fun m => dg m i j + dg m j i - dg i j m) H a Ha).
  unfold Christoffel, sum3. ring.
Qed.

Lemma chris_compat : forall g ig dg, inverse3 g ig ->
  (forall a b c, dg a b c = dg b a c) ->
  forall a b c, (a < 3)%nat -> (b < 3)%nat ->
  dg a b c - sum3 (fun k => Christoffel ig dg k a c * g b k) - sum3 (fun k => Christoffel ig dg k b c * g a k) = 0.
Proof.
  intros g ig dg H S a b c Ha Hb.
  pose proof (chris_lower g ig dg H b a c Hb) as L1.
  pose proof (chris_lower g ig dg H a b c Ha) as L2.
  unfold sum3 in *.
  rewrite (S b a c) in L1. lra.
Qed.

Lemma chris_unique : forall g ig dg, inverse3 g ig -> inverse3 ig g ->
  (forall a b, g a b = g b a) ->
  (forall a b c, dg a b c = dg b a c) ->
  forall G : nat -> nat -> nat -> R,
  (forall k i j, (k < 3)%nat -> (i < 3)%nat -> (j < 3)%nat -> G k i j = G k j i) ->
  (forall a b c, (a < 3)%nat -> (b < 3)%nat -> (c < 3)%nat ->
     dg a b c - sum3 (fun k => G k a c * g b k) - sum3 (fun k => G k b c * g a k) = 0) ->
  forall k i j, (k < 3)%nat -> (i < 3)%nat -> (j < 3)%nat -> G k i j = Christoffel ig dg k i j.
Proof.
  intros g ig dg H H' Sg S G T C k i j Hk Hi Hj.
  assert (L : forall a, (a < 3)%nat -> sum3 (fun m => g a m * G m i j) = / 2 * (dg a i j + dg a j i - dg i j a)).
  { intros a Ha.
    pose proof (C a i j Ha Hi Hj). pose proof (C a j i Ha Hj Hi). pose proof (C i j a Hi Hj Ha).
    unfold sum3 in *.
    rewrite (T 0%nat i a), (T 1%nat i a), (T 2%nat i a) in * by lia.
    rewrite (T 0%nat j a), (T 1%nat j a), (T 2%nat j a) in * by lia.
    rewrite (T 0%nat j i), (T 1%nat j i), (T 2%nat j i) in * by lia.
    lra. }
  transitivity (sum3 (fun a => ig k a * sum3 (fun m => g a m * G m i j))).
  - symmetry. apply (lower ig g (fun m => G m i j) H' k Hk).
  - unfold Christoffel. unfold sum3 at 1. rewrite !L by lia. unfold sum3. ring.
Qed.

(** * Ricci *)
Lemma ricci_formula : forall (E : GenRicci.env) old a b,
  (a <= b)%nat -> (b < 3)%nat ->
  GenRicci.store_Ricci E old a b
  = RicciOf (syl (GenRicci.Chris E)) (syld (GenRicci.dChris E)) a b.
Proof.
  intros E old a b Hab Hb. assert (Ha : (a < 3)%nat) by lia. unfold RicciOf.
  idx a; idx b; try (exfalso; lia); clear Hab;
  cbn [GenRicci.store_Ricci];
  match goal with |- ?f E = _ => unfold f end;
  match goal with |- ?f E = _ => unfold f end;
  match goal with |- ?f E + ?g E + ?h E + ?k E = _ => unfold f, g, h, k end;
  tensors; ring.
Qed.

Lemma ricci_trace : forall (E : GenRicci.env) old,
  GenRicci.out_trR E = trace3 (sy (GenRicci.ig E)) (sy (GenRicci.store_Ricci E old)).
Proof.
  intros. unfold GenRicci.out_trR, GenRicci.R_, trace3. tensors.
  cbn [GenRicci.store_Ricci].
  unfold GenRicci.out_Ricci_D0D2, GenRicci.out_Ricci_D0D1, GenRicci.out_Ricci_D0D0,
    GenRicci.out_Ricci_D1D2, GenRicci.out_Ricci_D1D1, GenRicci.out_Ricci_D2D2. ring.
Qed.
