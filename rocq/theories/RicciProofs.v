(** RicciProofs.v - symmetry of the Ricci tensor of a Levi-Civita connection. *)
From Verif Require Import RealBase TensorSpec TensorProofs.
From Verif Require GenRicci.

(** d_l of the Levi-Civita connection by the product rule: [dig k m l] = d_l g^km,
    [ddg a b c l] = d_l d_c g_ab. *)
Definition dChristoffel (ig : nat -> nat -> R) (dig : nat -> nat -> nat -> R)
  (dg : nat -> nat -> nat -> R) (ddg : nat -> nat -> nat -> nat -> R) (k i j l : nat) : R :=
  / 2 * sum3 (fun m => dig k m l * (dg m i j + dg m j i - dg i j m)
                     + ig k m * (ddg m i j l + ddg m j i l - ddg i j m l)).

(** What differentiating g g^-1 = 1 gives. *)
Definition dinverse (ig : nat -> nat -> R) (dg : nat -> nat -> nat -> R) (k m l : nat) : R :=
  - sum3 (fun p => sum3 (fun q => ig k p * dg p q l * ig q m)).

(** dinverse is the only possibility *)
Lemma dinverse_unique : forall g ig dg dig,
  inverse3 g ig -> inverse3 ig g ->
  (forall i j l, (i < 3)%nat -> (j < 3)%nat -> sum3 (fun m => dg i m l * ig m j + g i m * dig m j l) = 0) ->
  forall k m l, (k < 3)%nat -> (m < 3)%nat -> dig k m l = dinverse ig dg k m l.
Proof.
  intros g ig dg dig H H' D k m l Hk Hm.
  rewrite <- (lower ig g (fun x => dig x m l) H' k Hk).
  assert (X : forall a, (a < 3)%nat -> sum3 (fun x => g a x * dig x m l) = - sum3 (fun q => dg a q l * ig q m)).
  { intros a Ha. specialize (D a m l Ha Hm). unfold sum3 in *. lra. }
  unfold sum3 at 1. rewrite !X by lia. unfold dinverse, sum3. ring.
Qed.

Section LC.
  Variables (ig : nat -> nat -> R) (dg : nat -> nat -> nat -> R) (ddg : nat -> nat -> nat -> nat -> R).
  Hypothesis Sig : forall i j, ig i j = ig j i.
  Hypothesis Sdg : forall a b c, dg a b c = dg b a c.
  Hypothesis Sddg : forall a b c d, ddg a b c d = ddg b a c d.
  Hypothesis Sdd : forall a b c d, ddg a b c d = ddg a b d c.
  Let G := Christoffel ig dg.
  Let dG := dChristoffel ig (dinverse ig dg) dg ddg.

  Lemma G_sym k i j : G k i j = G k j i.
  Proof. unfold G, Christoffel, sum3. rewrite !(Sdg i j). ring. Qed.
  Lemma dG_sym k i j l : dG k i j l = dG k j i l.
  Proof. unfold dG, dChristoffel, sum3. rewrite !(Sdg i j), !(Sddg i j). ring. Qed.

  Lemma contr_form a b : sum3 (fun c => dG c a c b)
    = / 2 * (sum3 (fun c => sum3 (fun m => dinverse ig dg c m b * dg m c a)) + sum3 (fun c => sum3 (fun m => ig c m * ddg m c a b))).
  Proof.
    assert (Sdi : forall k m l, dinverse ig dg k m l = dinverse ig dg m k l).
    { intros. unfold dinverse, sum3.
      rewrite !(Sig k), !(Sig m), (Sdg 1 0 l), (Sdg 2 0 l), (Sdg 2 1 l). ring. }
    unfold dG, dChristoffel, sum3.
    rewrite !(Sdi 1%nat 0%nat), !(Sdi 2%nat 0%nat), !(Sdi 2%nat 1%nat).
    rewrite !(Sdg a), !(Sddg a), (Sig 1 0), (Sig 2 0), (Sig 2 1).
    ring.
  Qed.

  Lemma contr_sym a b : sum3 (fun c => dG c a c b) = sum3 (fun c => dG c b c a).
  Proof.
    rewrite !contr_form. f_equal. f_equal.
    - unfold dinverse, sum3.
      rewrite (Sig 1 0), (Sig 2 0), (Sig 2 1).
      rewrite !(Sdg 1 0), !(Sdg 2 0), !(Sdg 2 1). ring.
    - unfold sum3. rewrite !(Sdd _ _ a b). ring.
  Qed.

  Lemma ricci_sym a b : RicciOf G dG a b = RicciOf G dG b a.
  Proof.
    unfold RicciOf. rewrite contr_sym. f_equal; [f_equal; [f_equal|]|].
    - unfold sum3. rewrite !(dG_sym _ a b). ring.
    - unfold sum3. rewrite !(G_sym _ a b). ring.
    - unfold sum3.
      rewrite (G_sym 0 a 0), (G_sym 0 a 1), (G_sym 0 a 2), (G_sym 1 a 0), (G_sym 1 a 1), (G_sym 1 a 2), (G_sym 2 a 0), (G_sym 2 a 1), (G_sym 2 a 2).
      rewrite (G_sym 0 b 0), (G_sym 0 b 1), (G_sym 0 b 2), (G_sym 1 b 0), (G_sym 1 b 1), (G_sym 1 b 2), (G_sym 2 b 0), (G_sym 2 b 1), (G_sym 2 b 2).
      ring.
  Qed.
End LC.

(** all nine components *)
Lemma ricci_full : forall (E : GenRicci.env) old,
  (forall a b, (a < 3)%nat -> (b < 3)%nat ->
    sum3 (fun c => syld (GenRicci.dChris E) c a c b) = sum3 (fun c => syld (GenRicci.dChris E) c b c a)) ->
  forall a b, (a < 3)%nat -> (b < 3)%nat ->
  sy (GenRicci.store_Ricci E old) a b = RicciOf (syl (GenRicci.Chris E)) (syld (GenRicci.dChris E)) a b.
Proof.
  intros E old H a b Ha Hb. unfold sy. destruct (Nat.leb_spec a b).
  - apply ricci_formula; lia.
  - rewrite ricci_formula by lia. unfold RicciOf. rewrite (H b a Hb Ha).
    clear H. idx a; idx b; try (exfalso; lia); tensors; ring.
Qed.
