(** ShiftRes.v - the shift equations as functions of the shift. *)
From Verif Require Import RealBase TensorSpec RicciFinal XctsSpec ShiftSpec XctsProofs ShiftProofs.
From Verif Require GenAConfIJ GenJacB0 GenJacB1 GenJacB2 GenEqB0 GenEqB1 GenEqB2.
From Coquelicot Require Import Coquelicot.

(** ** A is symmetric, trace free, its square is A_ij A^ij *)
Lemma LV_sym ig G V dV i j : (forall a b, ig a b = ig b a) -> LV ig G V dV i j = LV ig G V dV j i.
Proof. intros H. unfold LV. rewrite (H i j). ring. Qed.
Lemma LV_trace g ig G V dV : inverse3 g ig -> (forall a b, g a b = g b a) -> (forall a b, ig a b = ig b a) ->
  sum3 (fun i => sum3 (fun j => g i j * LV ig G V dV i j)) = 0.
Proof.
  intros H Sg Si.
  transitivity (2 * sum3 (fun j => sum3 (fun l => sum3 (fun i => g j i * ig i l) * DV G V dV l j)) - 2 / 3 * sum3 (fun i => sum3 (fun j => g i j * ig j i)) * divV G V dV).
  - unfold LV, sum3. rewrite (Sg 1 0)%nat, (Sg 2 0)%nat, (Sg 2 1)%nat, (Si 1 0)%nat, (Si 2 0)%nat, (Si 2 1)%nat. ring.
  - unfold sum3 at 1 2 4. rewrite !H by lia. unfold delta, divV, sum3; cbn [Nat.eqb]. field.
Qed.
Lemma A2_formula : forall (E : GenAConfIJ.env) old,
  GenAConfIJ.out_AConfIJ2 E = sum3 (fun i => sum3 (fun j => sum3 (fun l => sum3 (fun m =>
    sy (GenAConfIJ.gConf E) i l * sy (GenAConfIJ.gConf E) j m * sy (GenAConfIJ.store_AConfIJ E old) i j * sy (GenAConfIJ.store_AConfIJ E old) l m)))).
Proof.
  intros E old.
  unfold GenAConfIJ.out_AConfIJ2, GenAConfIJ._AijAij. tensors. cbn [GenAConfIJ.store_AConfIJ].
  unfold GenAConfIJ.out_AConfIJ_U0U0, GenAConfIJ.out_AConfIJ_U0U1, GenAConfIJ.out_AConfIJ_U0U2, GenAConfIJ.out_AConfIJ_U1U1, GenAConfIJ.out_AConfIJ_U1U2, GenAConfIJ.out_AConfIJ_U2U2.
  ring.
Qed.

(** ** dA is the derivative of A *)
Lemma dA_formula : forall (E : GenAConfIJ.env) old i j k,
  (i <= j)%nat -> (j < 3)%nat -> (k < 3)%nat -> GenAConfIJ.alphaPsi E <> 0 -> GenAConfIJ.psi E <> 0 ->
  GenAConfIJ.store_dAConfIJ E old i j k = GenAConfIJ.psi E ^ 7 / (2 * GenAConfIJ.alphaPsi E) *
    (GenAConfIJ._dLBij E i j k - GenAConfIJ._LBij E i j * dln (GenAConfIJ.psi E) (GenAConfIJ.alphaPsi E) (GenAConfIJ.dpsi E) (GenAConfIJ.dalphaPsi E) k).
Proof.
  intros E old i j k Hij Hj Hk Ha Hp. assert (Hi : (i < 3)%nat) by lia.
  destruct E. cbn in Ha, Hp.
  idx i; idx j; idx k; try (exfalso; lia); clear Hij; cbv -[Rplus Rminus Rmult Rdiv Ropp Rinv pow IZR PI]; field; auto.
Qed.
Lemma dA_derive : forall (psi ap L : R -> R) x dpsi dap dL, psi x <> 0 -> ap x <> 0 ->
  derivable_pt_lim psi x dpsi -> derivable_pt_lim ap x dap -> derivable_pt_lim L x dL ->
  derivable_pt_lim (fun t => psi t ^ 7 / (2 * ap t) * L t) x
    (psi x ^ 7 / (2 * ap x) * (dL - L x * (dap / ap x - 7 * dpsi / psi x))).
Proof.
  intros psi ap L x dpsi dap dL Hp Ha D1 D2 D3.
  apply is_derive_Reals. apply is_derive_Reals in D1, D2, D3.
  evar_last.
  - apply @is_derive_mult; [apply @is_derive_div; [apply @is_derive_pow; exact D1|apply @is_derive_scal; exact D2|]|exact D3|intros; apply Rmult_comm].
    apply Rmult_integral_contrapositive_currified; [lra|exact Ha].
  - unfold plus, mult, scal; cbn. unfold mult; cbn. field. auto.
Qed.

(** ** D_j (LV)^ij *)
Section Div.
  Variables (ig : nat -> nat -> R) (dig : nat -> nat -> nat -> R) (G : nat -> nat -> nat -> R) (dG : nat -> nat -> nat -> nat -> R).
  Hypothesis Sig : forall a b, ig a b = ig b a.
  Hypothesis SG : forall k a b, G k a b = G k b a.
  Hypothesis Comp : compat_inv ig dig G.

  (** for any tensor field W_l^j with derivatives dW k l j *)
  Definition Tm (W : nat -> nat -> R) i j :=
    sum3 (fun l => ig i l * W l j) + sum3 (fun l => ig j l * W l i) - 2 / 3 * ig i j * sum3 (fun m => W m m).
  Definition dTm (W : nat -> nat -> R) (dW : nat -> nat -> nat -> R) i j k :=
    sum3 (fun l => dig i l k * W l j + ig i l * dW k l j) + sum3 (fun l => dig j l k * W l i + ig j l * dW k l i)
    - 2 / 3 * (dig i j k * sum3 (fun m => W m m) + ig i j * sum3 (fun m => dW k m m)).
  Definition NW (W : nat -> nat -> R) (dW : nat -> nat -> nat -> R) j l i :=
    dW j l i + sum3 (fun n => G i j n * W l n) - sum3 (fun n => G n j l * W n i).

  Lemma div_Tm W dW i : (i < 3)%nat ->
    DivT G (Tm W) (dTm W dW) i =
    sum3 (fun l => ig i l * sum3 (fun j => NW W dW j l j)) + sum3 (fun j => sum3 (fun l => ig j l * NW W dW j l i))
    - 2 / 3 * sum3 (fun j => ig i j * sum3 (fun m => NW W dW j m m)).
  Proof.
    intros Hi. unfold DivT, dTm, sum3. rewrite !Comp by lia.
    unfold Tm, NW, sum3.
    rewrite ?(Sig 1 0)%nat, ?(Sig 2 0)%nat, ?(Sig 2 1)%nat, !(SG _ 1 0)%nat, !(SG _ 2 0)%nat, !(SG _ 2 1)%nat.
    idx i; rewrite ?(Sig 1 0)%nat, ?(Sig 2 0)%nat, ?(Sig 2 1)%nat, ?(SG _ 1 0)%nat, ?(SG _ 2 0)%nat, ?(SG _ 2 1)%nat; field.
  Qed.

  Variables (V : nat -> R) (dV : nat -> nat -> R) (ddV : nat -> nat -> nat -> R).
  Hypothesis SddV : forall i a b, ddV i a b = ddV i b a.
  Hypothesis SdG : forall k a b l, dG k a b l = dG k b a l.

  (** Ricci identity *)
  Lemma ricci_identity l : (l < 3)%nat ->
    sum3 (fun j => DDV G dG V dV ddV j l j) - sum3 (fun j => DDV G dG V dV ddV l j j)
    = sum3 (fun a => RicciOf G dG a l * V a).
  Proof.
    intros Hl. unfold DDV, dDV, DV, RicciOf, sum3.
    idx l; rewrite ?(SddV _ 1 0)%nat, ?(SddV _ 2 0)%nat, ?(SddV _ 2 1)%nat, ?(SG _ 1 0)%nat, ?(SG _ 2 0)%nat, ?(SG _ 2 1)%nat,
      ?(SdG _ 1 0)%nat, ?(SdG _ 2 0)%nat, ?(SdG _ 2 1)%nat; ring.
  Qed.

  Lemma div_LV Ric i : (i < 3)%nat -> (forall a b, (a < 3)%nat -> (b < 3)%nat -> Ric b a = RicciOf G dG a b) ->
    DivT G (LV ig G V dV) (dLV ig dig G dG V dV ddV) i = VecLap ig G dG V dV ddV Ric i.
  Proof.
    intros Hi HR.
    change (LV ig G V dV) with (Tm (DV G V dV)).
    change (dLV ig dig G dG V dV ddV) with (dTm (DV G V dV) (dDV G dG V dV ddV)).
    rewrite (div_Tm (DV G V dV) (dDV G dG V dV ddV) i Hi).
    change (NW (DV G V dV) (dDV G dG V dV ddV)) with (DDV G dG V dV ddV).
    unfold VecLap.
    rewrite (sum3_ext (fun l => ig i l * sum3 (fun j => DDV G dG V dV ddV j l j))
      (fun l => ig i l * (sum3 (fun j => DDV G dG V dV ddV l j j) + sum3 (fun a => RicciOf G dG a l * V a)))).
    2:{ intros l Hl. f_equal. pose proof (ricci_identity l Hl). lra. }
    rewrite (sum3_ext (fun m => sum3 (fun l => ig i m * Ric m l * V l)) (fun m => ig i m * sum3 (fun a => RicciOf G dG a m * V a))).
    2:{ intros m Hm. unfold sum3. rewrite !HR by lia. ring. }
    generalize (DDV G dG V dV ddV). intros X. generalize (RicciOf G dG); intros Y. unfold sum3. field.
  Qed.
End Div.

Lemma DivT_ext G T T' dT dT' i : (i < 3)%nat ->
  (forall a b, (a < 3)%nat -> (b < 3)%nat -> T a b = T' a b) ->
  (forall a b k, (a < 3)%nat -> (b < 3)%nat -> (k < 3)%nat -> dT a b k = dT' a b k) -> DivT G T dT i = DivT G T' dT' i.
Proof. intros Hi H H'. unfold DivT, sum3. rewrite !H, !H' by lia. reflexivity. Qed.
