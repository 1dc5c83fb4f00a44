(** ShiftFinal.v - the shift equations and their Jacobians as functions of the shift. *)
From Verif Require Import RealBase TensorSpec RicciFinal XctsSpec ShiftSpec XctsProofs ShiftProofs ShiftRes.
From Verif Require GenAConfIJ GenJacB0 GenJacB1 GenJacB2 GenEqB0 GenEqB1 GenEqB2.
From Coquelicot Require Import Coquelicot.

(** Data at a node besides the shift: conformal metric, inverse, derivatives of the inverse, connection and its
    derivatives, Ricci tensor (ordered components as stored), psi, alpha psi, their gradients, sources. *)
Record data := mkdata {
  g_ : nat -> nat -> R; ig_ : nat -> nat -> R; dig_ : nat -> nat -> nat -> R;
  G_ : nat -> nat -> nat -> R; dG_ : nat -> nat -> nat -> nat -> R; Ric_ : nat -> nat -> R;
  psi_ : R; ap_ : R; dpsi_ : nat -> R; dap_ : nat -> R; dK_ : nat -> R; JC_ : R; JP_ : nat -> R }.

(** they belong to one metric *)
Definition one_metric (d : data) : Prop :=
  inverse3 (sy (g_ d)) (sy (ig_ d)) /\ compat_inv (sy (ig_ d)) (syd (dig_ d)) (syl (G_ d)) /\
  (forall a b, (a < 3)%nat -> (b < 3)%nat -> sy (Ric_ d) a b = RicciOf (syl (G_ d)) (syld (dG_ d)) b a) /\
  psi_ d <> 0 /\ ap_ d <> 0.

(** A^ij and d_k A^ij as adm_update_AConfIJ_XCTS_MConfIJ0 leaves them for the shift with value V, derivatives dV and second
    derivatives ddV: the first loop, the derivatives of its L_ij, the second loop. *)
Definition A_env (d : data) (LB : nat -> nat -> R) (dLB : nat -> nat -> nat -> R) V dV : GenAConfIJ.env :=
  GenAConfIJ.mk (G_ d) LB dLB (ap_ d) V (dap_ d) dV (dpsi_ d) (g_ d) (ig_ d) (psi_ d).
Definition A_of (d : data) (old : nat -> nat -> R) V dV : nat -> nat -> R :=
  GenAConfIJ.store_AConfIJ (A_env d (fun _ _ => 0) (fun _ _ _ => 0) V dV) old.
Definition L_of (d : data) (old : nat -> nat -> R) V dV : nat -> nat -> R :=
  GenAConfIJ.store__LBij (A_env d (fun _ _ => 0) (fun _ _ _ => 0) V dV) old.
Definition dA_of (d : data) (oldA : nat -> nat -> R) (old : nat -> nat -> nat -> R) V dV ddV : nat -> nat -> nat -> R :=
  GenAConfIJ.store_dAConfIJ (A_env d (L_of d oldA V dV)
    (dLV (sy (ig_ d)) (syd (dig_ d)) (syl (G_ d)) (syld (dG_ d)) V dV ddV) V dV) old.

(** the residuals of the three shift equations *)
Definition shift_res0 d o1 o2 V dV ddV : R := GenEqB0.out_schur_F
  (GenEqB0.mk (A_of d o1 V dV) (G_ d) (JC_ d) (JP_ d) (ap_ d) (dA_of d o1 o2 V dV ddV) (dK_ d) (ig_ d) (psi_ d)).
Definition shift_res1 d o1 o2 V dV ddV : R := GenEqB1.out_schur_F
  (GenEqB1.mk (A_of d o1 V dV) (G_ d) (JC_ d) (JP_ d) (ap_ d) (dA_of d o1 o2 V dV ddV) (dK_ d) (ig_ d) (psi_ d)).
Definition shift_res2 d o1 o2 V dV ddV : R := GenEqB2.out_schur_F
  (GenEqB2.mk (A_of d o1 V dV) (G_ d) (JC_ d) (JP_ d) (ap_ d) (dA_of d o1 o2 V dV ddV) (dK_ d) (ig_ d) (psi_ d)).

(** the Jacobian entries for nodal Jacobians j1 a, j2 c and Kronecker delta k *)
Definition shift_jac0 d j1 j2 k : R := GenJacB0.B_out_schur_B (GenJacB0.mk (G_ d) j1 j2 (JC_ d) (Ric_ d) (ap_ d) (dG_ d) (dap_ d) (dpsi_ d) (ig_ d) k (psi_ d)).
Definition shift_jac1 d j1 j2 k : R := GenJacB1.B_out_schur_B (GenJacB1.mk (G_ d) j1 j2 (JC_ d) (Ric_ d) (ap_ d) (dG_ d) (dap_ d) (dpsi_ d) (ig_ d) k (psi_ d)).
Definition shift_jac2 d j1 j2 k : R := GenJacB2.B_out_schur_B (GenJacB2.mk (G_ d) j1 j2 (JC_ d) (Ric_ d) (ap_ d) (dG_ d) (dap_ d) (dpsi_ d) (ig_ d) k (psi_ d)).

Lemma dLV_sym ig dig G dG V dV ddV i j k : (forall a b, ig a b = ig b a) -> (forall a b c, dig a b c = dig b a c) ->
  dLV ig dig G dG V dV ddV i j k = dLV ig dig G dG V dV ddV j i k.
Proof. intros H H'. unfold dLV. rewrite (H i j), (H' i j). ring. Qed.

Lemma syld_sym T k i j l : syld T k i j l = syld T k j i l.
Proof. unfold syld. destruct (Nat.leb_spec i j), (Nat.leb_spec j i); try lia; try reflexivity. replace j with i by lia; reflexivity. Qed.

Section D.
  Variables (d : data) (o1 : nat -> nat -> R) (o2 : nat -> nat -> nat -> R).
  Variables (V : nat -> R) (dV : nat -> nat -> R) (ddV : nat -> nat -> nat -> R).
  Hypothesis OK : one_metric d.
  Hypothesis SddV : forall i a b, ddV i a b = ddV i b a.
  Let L := LV (sy (ig_ d)) (syl (G_ d)) V dV.
  Let dL := dLV (sy (ig_ d)) (syd (dig_ d)) (syl (G_ d)) (syld (dG_ d)) V dV ddV.
  Let dl := dln (psi_ d) (ap_ d) (dpsi_ d) (dap_ d).
  Let c := psi_ d ^ 7 / (2 * ap_ d).

  Lemma A_full i j : (i < 3)%nat -> (j < 3)%nat -> sy (A_of d o1 V dV) i j = c * L i j.
  Proof.
    destruct OK as (H1 & H2 & H3 & Hp & Ha). intros Hi Hj. unfold sy. destruct (Nat.leb_spec i j).
    - destruct (A_formula (A_env d (fun _ _ => 0) (fun _ _ _ => 0) V dV) o1 i j H1) as [_ X]; auto.
    - destruct (A_formula (A_env d (fun _ _ => 0) (fun _ _ _ => 0) V dV) o1 j i H1) as [_ X]; auto; try lia.
      unfold A_of. rewrite X. unfold L, c. rewrite (LV_sym _ _ _ _ i j) by apply sy_sym. reflexivity.
  Qed.
  Lemma L_ord i j : (i <= j)%nat -> (j < 3)%nat -> L_of d o1 V dV i j = L i j.
  Proof.
    destruct OK as (H1 & H2 & H3 & Hp & Ha). intros Hi Hj.
    destruct (A_formula (A_env d (fun _ _ => 0) (fun _ _ _ => 0) V dV) o1 i j H1) as [X _]; auto.
  Qed.
  Lemma dA_full i j k : (i < 3)%nat -> (j < 3)%nat -> (k < 3)%nat -> syd (dA_of d o1 o2 V dV ddV) i j k = c * (dL i j k - L i j * dl k).
  Proof.
    destruct OK as (H1 & H2 & H3 & Hp & Ha). intros Hi Hj Hk. unfold syd, dA_of. destruct (Nat.leb_spec i j).
    - rewrite dA_formula by (auto; lia). cbn [A_env GenAConfIJ.psi GenAConfIJ.alphaPsi GenAConfIJ._dLBij GenAConfIJ._LBij GenAConfIJ.dpsi GenAConfIJ.dalphaPsi].
      rewrite L_ord by lia. reflexivity.
    - rewrite dA_formula by (auto; lia). cbn [A_env GenAConfIJ.psi GenAConfIJ.alphaPsi GenAConfIJ._dLBij GenAConfIJ._LBij GenAConfIJ.dpsi GenAConfIJ.dalphaPsi].
      rewrite L_ord by lia. unfold L, dL. rewrite (LV_sym _ _ _ _ i j), (dLV_sym _ _ _ _ _ _ _ i j) by (apply sy_sym || apply syd_sym). reflexivity.
  Qed.

  Lemma div_A i : (i < 3)%nat ->
    DivT (syl (G_ d)) (sy (A_of d o1 V dV)) (syd (dA_of d o1 o2 V dV ddV)) i
    = c * shift_op (sy (ig_ d)) (syl (G_ d)) (syld (dG_ d)) (sy (Ric_ d)) dl V dV ddV i.
  Proof.
    intros Hi. rewrite (DivT_ext _ _ (fun a b => c * L a b) _ (fun a b k => c * (dL a b k - L a b * dl k)) i Hi A_full dA_full).
    unfold shift_op. destruct OK as (H1 & H2 & H3 & Hp & Ha).
    rewrite <- (div_LV (sy (ig_ d)) (syd (dig_ d)) (syl (G_ d)) (syld (dG_ d)) (sy_sym _) (fun k a b => syl_sym _ k a b) H2 V dV ddV SddV (fun k a b l => syld_sym _ k a b l) (sy (Ric_ d)) i Hi).
    2:{ intros a b Ha' Hb'. apply H3; assumption. }
    fold L dL. unfold DivT, sum3. generalize L dL dl c; intros. ring.
  Qed.

  Lemma shift_res : 
    (shift_res0 d o1 o2 V dV ddV = JC_ d * shift_op (sy (ig_ d)) (syl (G_ d)) (syld (dG_ d)) (sy (Ric_ d)) dl V dV ddV 0
      - 4 / 3 * ap_ d * JC_ d * sum3 (fun j => sy (ig_ d) 0 j * dK_ d j) / psi_ d - 16 * PI * ap_ d * JP_ d 0%nat / psi_ d ^ 3) /\
    (shift_res1 d o1 o2 V dV ddV = JC_ d * shift_op (sy (ig_ d)) (syl (G_ d)) (syld (dG_ d)) (sy (Ric_ d)) dl V dV ddV 1
      - 4 / 3 * ap_ d * JC_ d * sum3 (fun j => sy (ig_ d) 1 j * dK_ d j) / psi_ d - 16 * PI * ap_ d * JP_ d 1%nat / psi_ d ^ 3) /\
    (shift_res2 d o1 o2 V dV ddV = JC_ d * shift_op (sy (ig_ d)) (syl (G_ d)) (syld (dG_ d)) (sy (Ric_ d)) dl V dV ddV 2
      - 4 / 3 * ap_ d * JC_ d * sum3 (fun j => sy (ig_ d) 2 j * dK_ d j) / psi_ d - 16 * PI * ap_ d * JP_ d 2%nat / psi_ d ^ 3).
  Proof.
    pose proof OK as (H1 & H2 & H3 & Hp & Ha).
    unfold shift_res0, shift_res1, shift_res2.
    rewrite b0_formula, b1_formula, b2_formula by exact Hp.
    cbn [GenEqB0.psi GenEqB0.ChrisConf GenEqB0.AConfIJ GenEqB0.dAConfIJ GenEqB0.igConf GenEqB0.dtrK GenEqB0.JConfC GenEqB0.JConfP GenEqB0.alphaPsi
         GenEqB1.psi GenEqB1.ChrisConf GenEqB1.AConfIJ GenEqB1.dAConfIJ GenEqB1.igConf GenEqB1.dtrK GenEqB1.JConfC GenEqB1.JConfP GenEqB1.alphaPsi
         GenEqB2.psi GenEqB2.ChrisConf GenEqB2.AConfIJ GenEqB2.dAConfIJ GenEqB2.igConf GenEqB2.dtrK GenEqB2.JConfC GenEqB2.JConfP GenEqB2.alphaPsi].
    rewrite !div_A by lia. unfold mom, c.
    split; [|split];
    match goal with |- context [shift_op ?a ?b ?c ?d ?e ?f ?g ?h ?i] => generalize (shift_op a b c d e f g h i); intro end;
    match goal with |- context [sum3 ?f] => generalize (sum3 f); intro end; field; split; assumption.
  Qed.
End D.

(** linearity of the shift operator *)
Section Linear.
  Variables (ig : nat -> nat -> R) (G : nat -> nat -> nat -> R) (dG : nat -> nat -> nat -> nat -> R) (Ric : nat -> nat -> R) (dl : nat -> R).
  Variables (V W : nat -> R) (dV dW : nat -> nat -> R) (ddV ddW : nat -> nat -> nat -> R) (t : R).
  Let V' := fun k => V k + t * W k.
  Let dV' := fun k a => dV k a + t * dW k a.
  Let ddV' := fun k a b => ddV k a b + t * ddW k a b.
  Lemma DV_lin m i : DV G V' dV' m i = DV G V dV m i + t * DV G W dW m i.
  Proof. unfold DV, V', dV', sum3. ring. Qed.
  Lemma dDV_lin j m i : dDV G dG V' dV' ddV' j m i = dDV G dG V dV ddV j m i + t * dDV G dG W dW ddW j m i.
  Proof. unfold dDV, V', dV', ddV', sum3. ring. Qed.
  Lemma DDV_lin j m i : DDV G dG V' dV' ddV' j m i = DDV G dG V dV ddV j m i + t * DDV G dG W dW ddW j m i.
  Proof. unfold DDV, sum3. rewrite !DV_lin, dDV_lin. ring. Qed.
  Lemma LV_lin i j : LV ig G V' dV' i j = LV ig G V dV i j + t * LV ig G W dW i j.
  Proof. unfold LV, divV, sum3. rewrite !DV_lin. ring. Qed.
  Lemma shift_op_lin i : shift_op ig G dG Ric dl V' dV' ddV' i = shift_op ig G dG Ric dl V dV ddV i + t * shift_op ig G dG Ric dl W dW ddW i.
  Proof.
    unfold shift_op, VecLap, sum3. rewrite !LV_lin, !DDV_lin.
    generalize (LV ig G V dV) (LV ig G W dW) (DDV G dG V dV ddV) (DDV G dG W dW ddW); intros. unfold V'. ring.
  Qed.
End Linear.

Lemma affine_derive a b : derivable_pt_lim (fun t => a + t * b) 0 b.
Proof. apply is_derive_Reals. auto_derive; [trivial|ring]. Qed.

(** shift changed in component i: value by t k, first derivatives by t j1, second by t j2 *)
Definition upd1 (i : nat) (k : R) (V : nat -> R) (t : R) : nat -> R := fun c => V c + t * (delta c i * k).
Definition upd2 (i : nat) (j1 : nat -> R) (dV : nat -> nat -> R) (t : R) : nat -> nat -> R := fun c a => dV c a + t * (delta c i * j1 a).
Definition upd3 (i : nat) (j2 : nat -> R) (ddV : nat -> nat -> nat -> R) (t : R) : nat -> nat -> nat -> R :=
  fun c a b => ddV c a b + t * (delta c i * j2 (ax2 a b)).

Lemma ax2_sym a b : ax2 a b = ax2 b a.
Proof. destruct a as [|[|a]], b as [|[|b]]; reflexivity. Qed.
Lemma upd3_sym i j2 ddV t : (forall c a b, ddV c a b = ddV c b a) -> forall c a b, upd3 i j2 ddV t c a b = upd3 i j2 ddV t c b a.
Proof. intros H c a b. unfold upd3. rewrite H, ax2_sym. reflexivity. Qed.

Lemma shift_jacobians : forall d o1 o2 V dV ddV j1 j2 k,
  one_metric d -> (forall i a b, ddV i a b = ddV i b a) ->
  derivable_pt_lim (fun t => shift_res0 d o1 o2 (upd1 0 k V t) (upd2 0 j1 dV t) (upd3 0 j2 ddV t)) 0 (shift_jac0 d j1 j2 k) /\
  derivable_pt_lim (fun t => shift_res1 d o1 o2 (upd1 1 k V t) (upd2 1 j1 dV t) (upd3 1 j2 ddV t)) 0 (shift_jac1 d j1 j2 k) /\
  derivable_pt_lim (fun t => shift_res2 d o1 o2 (upd1 2 k V t) (upd2 2 j1 dV t) (upd3 2 j2 ddV t)) 0 (shift_jac2 d j1 j2 k).
Proof.
  intros d o1 o2 V dV ddV j1 j2 k OK S.
  unfold shift_jac0, shift_jac1, shift_jac2.
  rewrite jac_b0_formula, jac_b1_formula, jac_b2_formula.
  split; [|split].
  - destruct (shift_res d o1 o2 V dV ddV OK S) as [X0 _].
    eapply derivable_ext; [|apply (affine_derive (shift_res0 d o1 o2 V dV ddV))].
    intros t. destruct (shift_res d o1 o2 (upd1 0 k V t) (upd2 0 j1 dV t) (upd3 0 j2 ddV t) OK (upd3_sym _ _ _ _ S)) as [-> _].
    rewrite X0. unfold upd1, upd2, upd3. rewrite shift_op_lin.
    cbn [GenJacB0.ChrisConf GenJacB0.J1 GenJacB0.J2 GenJacB0.JConfC GenJacB0.RicciConf GenJacB0.alphaPsi GenJacB0.dChrisConf GenJacB0.dalphaPsi GenJacB0.dpsi GenJacB0.igConf GenJacB0.kd GenJacB0.psi].
    match goal with |- context [t * (_ * ?x)] => generalize x; intro end. unfold Rdiv. ring.
  - destruct (shift_res d o1 o2 V dV ddV OK S) as [_ [X0 _]].
    eapply derivable_ext; [|apply (affine_derive (shift_res1 d o1 o2 V dV ddV))].
    intros t. destruct (shift_res d o1 o2 (upd1 1 k V t) (upd2 1 j1 dV t) (upd3 1 j2 ddV t) OK (upd3_sym _ _ _ _ S)) as [_ [-> _]].
    rewrite X0. unfold upd1, upd2, upd3. rewrite shift_op_lin.
    cbn [GenJacB1.ChrisConf GenJacB1.J1 GenJacB1.J2 GenJacB1.JConfC GenJacB1.RicciConf GenJacB1.alphaPsi GenJacB1.dChrisConf GenJacB1.dalphaPsi GenJacB1.dpsi GenJacB1.igConf GenJacB1.kd GenJacB1.psi].
    match goal with |- context [t * (_ * ?x)] => generalize x; intro end. unfold Rdiv. ring.
  - destruct (shift_res d o1 o2 V dV ddV OK S) as [_ [_ X0]].
    eapply derivable_ext; [|apply (affine_derive (shift_res2 d o1 o2 V dV ddV))].
    intros t. destruct (shift_res d o1 o2 (upd1 2 k V t) (upd2 2 j1 dV t) (upd3 2 j2 ddV t) OK (upd3_sym _ _ _ _ S)) as [_ [_ ->]].
    rewrite X0. unfold upd1, upd2, upd3. rewrite shift_op_lin.
    cbn [GenJacB2.ChrisConf GenJacB2.J1 GenJacB2.J2 GenJacB2.JConfC GenJacB2.RicciConf GenJacB2.alphaPsi GenJacB2.dChrisConf GenJacB2.dalphaPsi GenJacB2.dpsi GenJacB2.igConf GenJacB2.kd GenJacB2.psi].
    match goal with |- context [t * (_ * ?x)] => generalize x; intro end. unfold Rdiv. ring.
Qed.
