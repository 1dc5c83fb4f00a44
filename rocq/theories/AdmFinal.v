(** AdmFinal.v - solved XCTS equations satisfy the ADM constraints the code evaluates. *)
From Verif Require Import RealBase TensorSpec TensorProofs RicciProofs RicciFinal XctsSpec ShiftSpec XctsProofs AdmSpec AdmConf AdmGen.
From Verif Require GenKDD GenKUU GenKUU2 GenAdmG GenHamMom GenHamMom2 GenEqPsi GenEqB0 GenEqB1 GenEqB2 GenChris.

(** Conformal data at a node, components as stored by the code: metric, inverse, derivatives,
    connection, psi and derivatives, A^ij, K, sources (rescaling C and rest P), alpha psi. *)
Record conf := mkconf {
  cg : nat -> nat -> R; cig : nat -> nat -> R; cdg : nat -> nat -> nat -> R; cdig : nat -> nat -> nat -> R;
  cG : nat -> nat -> nat -> R; cdG : nat -> nat -> nat -> nat -> R;
  cpsi : R; cdpsi : nat -> R; cddpsi : nat -> nat -> R; cap : R;
  cA : nat -> nat -> R; cdA : nat -> nat -> nat -> R; cK : R; cdK : nat -> R;
  cEC : R; cEP : R; cJC : R; cJP : nat -> R }.

(** ig is the inverse of g, dig its derivative, G the Levi-Civita connection, A trace free *)
Definition conf_ok (c : conf) : Prop :=
  inverse3 (sy (cg c)) (sy (cig c)) /\ inverse3 (sy (cig c)) (sy (cg c)) /\
  (forall i j l, (i < 3)%nat -> (j < 3)%nat -> (l < 3)%nat -> sum3 (fun m => syd (cdg c) i m l * sy (cig c) m j + sy (cg c) i m * syd (cdig c) m j l) = 0) /\
  (forall k i j, (k < 3)%nat -> (i < 3)%nat -> (j < 3)%nat -> syl (cG c) k i j = Christoffel (sy (cig c)) (syd (cdg c)) k i j) /\
  sum3 (fun i => sum3 (fun j => sy (cg c) i j * sy (cA c) i j)) = 0 /\
  cpsi c <> 0 /\ cap c <> 0.

(** the equations' residuals for these data *)
Definition A_sq (c : conf) : R := square2 (sy (cg c)) (sy (cA c)).
Definition R_sc (c : conf) : R := trace3 (sy (cig c)) (sy (RicciOf (syl (cG c)) (syld (cdG c)))).
Definition eq_psi (c : conf) : R := GenEqPsi.out_schur_F
  (GenEqPsi.mk (A_sq c) (cG c) (cEC c) (cEP c) (cddpsi c) (cdpsi c) (cig c) (cpsi c) (cK c) (R_sc c)).
Definition eq_beta (c : conf) (i : nat) : R :=
  match i with
  | O => GenEqB0.out_schur_F (GenEqB0.mk (cA c) (cG c) (cJC c) (cJP c) (cap c) (cdA c) (cdK c) (cig c) (cpsi c))
  | S O => GenEqB1.out_schur_F (GenEqB1.mk (cA c) (cG c) (cJC c) (cJP c) (cap c) (cdA c) (cdK c) (cig c) (cpsi c))
  | _ => GenEqB2.out_schur_F (GenEqB2.mk (cA c) (cG c) (cJC c) (cJP c) (cap c) (cdA c) (cdK c) (cig c) (cpsi c))
  end.

(** what the from-scratch constraint code reads: adm_g as adm_update_adm_g stores it, its inverse,
    the Christoffel symbols Christoffel_symbol_3d computes from them, adm_KIJ as
    adm_update_adm_KIJ_useAIJ stores it, and the derivatives of these fields *)
Definition physical_of (c : conf) (E : GenHamMom2.env) : Prop :=
  exists og ok oc,
  (forall i j, (i <= j)%nat -> (j < 3)%nat -> GenHamMom2.adm_g E i j = GenAdmG.store_adm_g (GenAdmG.mk (cg c) (cpsi c)) og i j) /\
  inverse3 (sy (GenHamMom2.adm_g E)) (sy (GenHamMom2.adm_ig E)) /\ inverse3 (sy (GenHamMom2.adm_ig E)) (sy (GenHamMom2.adm_g E)) /\
  (forall k i j, (k < 3)%nat -> (i <= j)%nat -> (j < 3)%nat -> GenHamMom2.Gamma E k i j =
     GenChris.store_Chris (GenChris.mk (dPg (sy (cg c)) (syd (cdg c)) (cpsi c) (cdpsi c)) (GenHamMom2.adm_ig E)) oc k i j) /\
  (forall k i j l, (k < 3)%nat -> (i <= j)%nat -> (j < 3)%nat -> (l < 3)%nat -> GenHamMom2.dGamma E k i j l =
     dPG (sy (cg c)) (sy (cig c)) (syd (cdg c)) (syd (cdig c)) (syld (cdG c)) (cpsi c) (cdpsi c) (sy (cddpsi c)) k i j l) /\
  (forall i j, (i <= j)%nat -> (j < 3)%nat -> GenHamMom2.adm_KIJ E i j = GenKUU.store_adm_KIJ (GenKUU.mk (cA c) (cig c) (cpsi c) (cK c)) ok i j) /\
  (forall i j k, (i <= j)%nat -> (j < 3)%nat -> (k < 3)%nat -> GenHamMom2.dadm_KIJ E i j k =
     dKup (sy (cig c)) (syd (cdig c)) (cpsi c) (cdpsi c) (sy (cA c)) (syd (cdA c)) (cK c) (cdK c) i j k) /\
  GenHamMom2.psi E = cpsi c /\ GenHamMom2.trK E = cK c /\ (forall i, (i < 3)%nat -> GenHamMom2.dtrK E i = cdK c i) /\
  GenHamMom2.EConfC E = cEC c /\ GenHamMom2.EConfP E = cEP c /\ GenHamMom2.JConfC E = cJC c /\ (forall i, (i < 3)%nat -> GenHamMom2.JConfP E i = cJP c i).

(** what the code evaluating the constraints by the conformal identities reads *)
Definition identities_env (c : conf) : GenHamMom.env :=
  GenHamMom.mk (cA c) (cG c) (cEP c) (cJP c) (cdA c) (cddpsi c) (cdig c) (cdpsi c) (cdK c) (cg c) (cig c) (cpsi c) (cK c) (R_sc c).

Lemma trace3_ext ig ig' T T' : (forall i j, (i < 3)%nat -> (j < 3)%nat -> ig i j = ig' i j) -> (forall i j, (i < 3)%nat -> (j < 3)%nat -> T i j = T' i j) -> trace3 ig T = trace3 ig' T'.
Proof. intros H H'. unfold trace3, sum3. rewrite !H, !H' by lia. reflexivity. Qed.
Lemma square2_ext ig ig' T T' : (forall i j, (i < 3)%nat -> (j < 3)%nat -> ig i j = ig' i j) -> (forall i j, (i < 3)%nat -> (j < 3)%nat -> T i j = T' i j) -> square2 ig T = square2 ig' T'.
Proof. intros H H'. unfold square2, sum3. rewrite !H, !H' by lia. reflexivity. Qed.
Lemma DivT_ext2 G G' T T' dT dT' i : (i < 3)%nat ->
  (forall k a b, (k < 3)%nat -> (a < 3)%nat -> (b < 3)%nat -> G k a b = G' k a b) ->
  (forall a b, (a < 3)%nat -> (b < 3)%nat -> T a b = T' a b) ->
  (forall a b k, (a < 3)%nat -> (b < 3)%nat -> (k < 3)%nat -> dT a b k = dT' a b k) -> DivT G T dT i = DivT G' T' dT' i.
Proof. intros Hi H0 H H'. unfold DivT, sum3. rewrite !H, !H', !H0 by lia. reflexivity. Qed.

Lemma sy_ext T (F : nat -> nat -> R) : (forall i j, (i <= j)%nat -> (j < 3)%nat -> T i j = F i j) -> (forall i j, F i j = F j i) ->
  forall i j, (i < 3)%nat -> (j < 3)%nat -> sy T i j = F i j.
Proof. intros H S i j Hi Hj. unfold sy. destruct (Nat.leb_spec i j); rewrite H by lia; auto. Qed.
Lemma sy_congr (T T' : nat -> nat -> R) : (forall i j, (i < 3)%nat -> (j < 3)%nat -> T i j = T' i j) -> forall i j, (i < 3)%nat -> (j < 3)%nat -> sy T i j = sy T' i j.
Proof. intros H i j Hi Hj. unfold sy. destruct (Nat.leb i j); apply H; assumption. Qed.
Lemma syl_ext T (F : nat -> nat -> nat -> R) : (forall k i j, (k < 3)%nat -> (i <= j)%nat -> (j < 3)%nat -> T k i j = F k i j) -> (forall k i j, F k i j = F k j i) ->
  forall k i j, (k < 3)%nat -> (i < 3)%nat -> (j < 3)%nat -> syl T k i j = F k i j.
Proof. intros H S k i j Hk Hi Hj. unfold syl. destruct (Nat.leb_spec i j); rewrite H by lia; auto. Qed.
Lemma syd_ext T (F : nat -> nat -> nat -> R) : (forall i j k, (i <= j)%nat -> (j < 3)%nat -> (k < 3)%nat -> T i j k = F i j k) -> (forall i j k, F i j k = F j i k) ->
  forall i j k, (i < 3)%nat -> (j < 3)%nat -> (k < 3)%nat -> syd T i j k = F i j k.
Proof. intros H S i j k Hk Hi Hj. unfold syd. destruct (Nat.leb_spec i j); rewrite H by lia; auto. Qed.
Lemma syld_ext T (F : nat -> nat -> nat -> nat -> R) : (forall k i j l, (k < 3)%nat -> (i <= j)%nat -> (j < 3)%nat -> (l < 3)%nat -> T k i j l = F k i j l) -> (forall k i j l, F k i j l = F k j i l) ->
  forall k i j l, (k < 3)%nat -> (i < 3)%nat -> (j < 3)%nat -> (l < 3)%nat -> syld T k i j l = F k i j l.
Proof. intros H S k i j l Hk Hi Hj Hl. unfold syld. destruct (Nat.leb_spec i j); rewrite H by lia; auto. Qed.

Lemma inverse_unique P Q Q' : inverse3 P Q -> inverse3 Q' P -> forall i j, (i < 3)%nat -> (j < 3)%nat -> Q i j = Q' i j.
Proof.
  intros H H' i j Hi Hj.
  transitivity (sum3 (fun a => sum3 (fun b => Q' i b * P b a) * Q a j)).
  - unfold sum3 at 1. rewrite !H' by lia. idx i; unfold delta; cbn [Nat.eqb]; ring.
  - transitivity (sum3 (fun b => Q' i b * sum3 (fun a => P b a * Q a j))); [unfold sum3; ring|].
    unfold sum3 at 1. rewrite !H by lia. idx j; unfold delta; cbn [Nat.eqb]; ring.
Qed.

Section Final.
  Variable c : conf.
  Hypothesis OK : conf_ok c.
  Notation g := (sy (cg c)). Notation ig := (sy (cig c)). Notation dg := (syd (cdg c)). Notation dig := (syd (cdig c)).
  Notation G := (syl (cG c)). Notation dG := (syld (cdG c)). Notation p := (cpsi c). Notation dp := (cdpsi c). Notation ddp := (sy (cddpsi c)).
  Notation A := (sy (cA c)). Notation dA := (syd (cdA c)). Notation K := (cK c). Notation dK := (cdK c).

  Lemma Hp_ : p <> 0. Proof. destruct OK as (_ & _ & _ & _ & _ & H & _). exact H. Qed.
  Lemma compat_g : compat g dg G.
  Proof.
    destruct OK as (H & H' & _ & HG & _). intros i j k Hi Hj Hk.
    pose proof (chris_compat g ig dg H (syd_sym _) i j k Hi Hj) as X.
    rewrite (sum3_ext (fun k0 => Christoffel ig dg k0 i k * g j k0) (fun l => G l k i * g l j)) in X
      by (intros; rewrite <- HG by lia; rewrite (syl_sym _ _ i k), (sy_sym _ j); reflexivity).
    rewrite (sum3_ext (fun k0 => Christoffel ig dg k0 j k * g i k0) (fun l => G l k j * g i l)) in X
      by (intros; rewrite <- HG by lia; rewrite (syl_sym _ _ j k); reflexivity).
    lra.
  Qed.
  Lemma compat_ig : compat_inv ig dig G.
  Proof.
    destruct OK as (H & H' & Hd & _). pose proof compat_g as Cg. intros i j k Hi Hj Hk.
    (* dig^ij = - ig^ia dg_ab ig^bj *)
    assert (Y : dig i j k = - sum3 (fun a => sum3 (fun b => ig i a * dg a b k * ig b j))).
    { rewrite <- (lower ig g (fun x => dig x j k) H' i Hi).
      assert (X : forall a, (a < 3)%nat -> sum3 (fun x => g a x * dig x j k) = - sum3 (fun q => dg a q k * ig q j)).
      { intros a Ha. specialize (Hd a j k Ha Hj Hk). unfold sum3 in *. lra. }
      unfold sum3 at 1. rewrite !X by lia. unfold sum3. ring. }
    rewrite Y.
    rewrite (sum3_ext _ (fun a => sum3 (fun b => ig i a * (sum3 (fun l => G l k a * g l b) + sum3 (fun l => G l k b * g a l)) * ig b j)))
      by (intros; apply sum3_ext; intros; rewrite Cg by assumption; reflexivity).
    transitivity (- sum3 (fun a => sum3 (fun l => ig i a * G l k a * sum3 (fun b => g l b * ig b j))) - sum3 (fun b => sum3 (fun l => sum3 (fun a => ig i a * g a l) * G l k b * ig b j))).
    { unfold sum3. ring. }
    rewrite (sum3_ext _ (fun a => sum3 (fun l => ig i a * G l k a * delta l j))) by (intros; apply sum3_ext; intros; rewrite H by assumption; reflexivity).
    rewrite (sum3_ext (fun b => sum3 (fun l => sum3 _ * _ * _)) (fun b => sum3 (fun l => delta i l * G l k b * ig b j))) by (intros; apply sum3_ext; intros; rewrite H' by assumption; reflexivity).
    unfold sum3, delta. idx i; idx j; cbn [Nat.eqb]; ring.
  Qed.

  Lemma hyps : p <> 0 /\ inverse3 g ig /\ sum3 (fun i => sum3 (fun j => g i j * A i j)) = 0.
  Proof. destruct OK as (H & _ & _ & _ & T & Hp & _). auto. Qed.

  Lemma eq_psi_ham : eq_psi c = ham (Lap ig G dp ddp) (trace3 ig (sy (RicciOf G dG))) K (square2 g A) (cEC c) (cEP c) p.
  Proof. unfold eq_psi. rewrite psi_formula by exact Hp_. reflexivity. Qed.
  Lemma eq_beta_mom i : (i < 3)%nat -> eq_beta c i = mom (DivT G A dA i) (sum3 (fun j => ig i j * dK j)) (cJC c) (cJP c i) p (cap c).
  Proof.
    intros Hi. idx i; unfold eq_beta; [rewrite b0_formula by exact Hp_|rewrite b1_formula by exact Hp_|rewrite b2_formula by exact Hp_]; reflexivity.
  Qed.

  Lemma Pg_inverse : inverse3 (Pg g p) (Pig ig p) /\ inverse3 (Pig ig p) (Pg g p).
  Proof.
    destruct OK as (H & H' & _ & _ & _ & Hp & _). split; intros i j Hi Hj.
    - rewrite <- (H i j Hi Hj). unfold Pg, Pig, sum3. field. exact Hp.
    - rewrite <- (H' i j Hi Hj). unfold Pg, Pig, sum3. field. exact Hp.
  Qed.
  Lemma PG_chris k i j : (k < 3)%nat -> (i < 3)%nat -> (j < 3)%nat ->
    PG g ig G p dp k i j = Christoffel (Pig ig p) (dPg g dg p dp) k i j.
  Proof.
    destruct Pg_inverse as [P1 P2]. pose proof hyps as (Hp & Hi & _). pose proof compat_g as Cg.
    apply (chris_unique (Pg g p) (Pig ig p) (dPg g dg p dp) P1 P2).
    - intros a b. unfold Pg. rewrite (sy_sym _ a b). reflexivity.
    - intros a b e. unfold dPg. rewrite (syd_sym _ a b), (sy_sym _ a b). reflexivity.
    - intros. unfold PG. rewrite (syl_sym _ _ i0 j0), (C_sym g ig p dp (sy_sym _) _ i0 j0). reflexivity.
    - intros a b e Ha Hb He.
      rewrite (conf_compat g ig dg G p dp Hp (sy_sym _) Hi Cg a b e Ha Hb He).
      assert (S : forall k a b, PG g ig G p dp k a b = PG g ig G p dp k b a) by (intros; unfold PG; rewrite (syl_sym _ _ a0 b0), (C_sym g ig p dp (sy_sym _) _ a0 b0); reflexivity).
      assert (SP : forall a b, Pg g p a b = Pg g p b a) by (intros; unfold Pg; rewrite (sy_sym _ a0 b0); reflexivity).
      unfold sum3. rewrite !(S _ a e), !(S _ b e), !(SP _ b). ring.
  Qed.

  Lemma dCp_sym k i j l : dCp g ig dg dig p dp ddp k i j l = dCp g ig dg dig p dp ddp k j i l.
  Proof. unfold dCp. rewrite (sy_sym _ i j), (syd_sym _ i j). ring. Qed.
  Lemma syld_s T k i j l : syld T k i j l = syld T k j i l.
  Proof. unfold syld. destruct (Nat.leb_spec i j), (Nat.leb_spec j i); try lia; try reflexivity. replace j with i by lia; reflexivity. Qed.

  Section Scratch.
    Variable E : GenHamMom2.env.
    Hypothesis PE : physical_of c E.
    Lemma E_g i j : (i < 3)%nat -> (j < 3)%nat -> sy (GenHamMom2.adm_g E) i j = Pg g p i j.
    Proof.
      destruct PE as (og & ok & oc & H & _). apply sy_ext.
      - intros a b Ha Hb. rewrite H by assumption. etransitivity; [|apply (admg_formula (GenAdmG.mk (cg c) (cpsi c)) og a b); lia].
        unfold sy. destruct (Nat.leb_spec a b); [reflexivity|lia].
      - intros a b. unfold Pg. rewrite (sy_sym _ a b). reflexivity.
    Qed.
    Lemma E_ig i j : (i < 3)%nat -> (j < 3)%nat -> sy (GenHamMom2.adm_ig E) i j = Pig ig p i j.
    Proof.
      destruct PE as (og & ok & oc & _ & H & H' & _). intros Hi Hj.
      apply (inverse_unique (sy (GenHamMom2.adm_g E))); auto.
      destruct Pg_inverse as [_ P2]. intros a b Ha Hb. rewrite <- (P2 a b Ha Hb). apply sum3_ext. intros. rewrite E_g by assumption. reflexivity.
    Qed.
    Lemma E_G k i j : (k < 3)%nat -> (i < 3)%nat -> (j < 3)%nat -> syl (GenHamMom2.Gamma E) k i j = PG g ig G p dp k i j.
    Proof.
      destruct PE as (og & ok & oc & _ & _ & _ & H & _). apply syl_ext.
      - intros a b e Ha Hb He. rewrite H by assumption. rewrite PG_chris by lia.
        pose proof (chris_full (GenChris.mk (dPg g dg p dp) (GenHamMom2.adm_ig E)) oc a b e) as X.
        unfold syl in X at 1. destruct (Nat.leb_spec b e); [|lia]. rewrite X by lia.
        unfold Christoffel. f_equal. apply sum3_ext. intros m Hm. cbn [GenChris.ig GenChris.dg]. rewrite E_ig by lia. f_equal.
        assert (S : forall i j k, syd (dPg g dg p dp) i j k = dPg g dg p dp i j k).
        { intros i0 j0 k0. unfold syd at 1. destruct (Nat.leb i0 j0); [reflexivity|]. unfold dPg. rewrite (sy_sym _ i0 j0), (syd_sym _ i0 j0). reflexivity. }
        rewrite !S. reflexivity.
      - intros. unfold PG. rewrite (syl_sym _ _ i0 j0), (C_sym g ig p dp (sy_sym _) _ i0 j0). reflexivity.
    Qed.
    Lemma E_dG k i j l : (k < 3)%nat -> (i < 3)%nat -> (j < 3)%nat -> (l < 3)%nat -> syld (GenHamMom2.dGamma E) k i j l = dPG g ig dg dig dG p dp ddp k i j l.
    Proof.
      destruct PE as (og & ok & oc & _ & _ & _ & _ & H & _). apply syld_ext; [exact H|].
      intros. unfold dPG. rewrite (syld_s _ _ i0 j0), (dCp_sym _ i0 j0). reflexivity.
    Qed.
    Lemma E_K i j : (i < 3)%nat -> (j < 3)%nat -> sy (GenHamMom2.adm_KIJ E) i j = Kup ig p A K i j.
    Proof.
      destruct PE as (og & ok & oc & _ & _ & _ & _ & _ & H & _). apply sy_ext.
      - intros a b Ha Hb. rewrite H by assumption. etransitivity; [|apply (kuu_formula (GenKUU.mk (cA c) (cig c) p K) ok a b); first [exact Hp_|lia]].
        unfold sy. destruct (Nat.leb_spec a b); [reflexivity|lia].
      - intros a b. unfold Kup. rewrite (sy_sym (cA c) a b), (sy_sym (cig c) a b). reflexivity.
    Qed.
    Lemma E_dK i j k : (i < 3)%nat -> (j < 3)%nat -> (k < 3)%nat -> syd (GenHamMom2.dadm_KIJ E) i j k = dKup ig dig p dp A dA K dK i j k.
    Proof.
      destruct PE as (og & ok & oc & _ & _ & _ & _ & _ & _ & H & _). apply syd_ext; [exact H|].
      intros. unfold dKup. rewrite (syd_sym (cdA c) i0 j0), (syd_sym (cdig c) i0 j0), (sy_sym (cA c) i0 j0), (sy_sym (cig c) i0 j0). reflexivity.
    Qed.

    Lemma scratch_ham : GenHamMom2.out_ham E = - 8 / p ^ 5 * eq_psi c.
    Proof.
      pose proof hyps as (Hp & Hi & T). pose proof PE as (og & ok & oc & _ & _ & _ & _ & _ & _ & _ & P1 & P2 & P3 & P4 & P5 & P6 & P7).
      rewrite ham2_formula by (rewrite P1; exact Hp). rewrite P1, P2, P4, P5.
      rewrite eq_psi_ham.
      rewrite <- (conf_ham g ig dg dig G dG p dp ddp Hp (sy_sym _) (sy_sym _) (syl_sym _) (sy_sym _) Hi compat_g compat_ig A K T (cEC c) (cEP c)).
      unfold HamConstraint.
      rewrite (trace3_ext (sy (GenHamMom2.adm_ig E)) (Pig ig p) _ (sy (RicciOf (PG g ig G p dp) (dPG g ig dg dig dG p dp ddp)))).
      - rewrite (square2_ext (sy (GenHamMom2.adm_g E)) (Pg g p) _ (Kup ig p A K)); [reflexivity|apply E_g|apply E_K].
      - apply E_ig.
      - intros i j Hi' Hj'. apply sy_congr; [|assumption..]. intros. apply RicciOf_ext; auto using E_G, E_dG.
    Qed.
    Lemma scratch_mom old i : (i < 3)%nat -> GenHamMom2.store_mom E old i = eq_beta c i / (2 * cap c * p ^ 3).
    Proof.
      intros Hi3.
      pose proof hyps as (Hp & Hi & T). pose proof PE as (og & ok & oc & _ & _ & _ & _ & _ & _ & _ & P1 & P2 & P3 & P4 & P5 & P6 & P7).
      rewrite mom2_formula by (auto; rewrite P1; exact Hp). rewrite P1, P6.
      rewrite eq_beta_mom by assumption.
      rewrite <- (conf_mom g ig dig G p dp Hp (sy_sym _) (sy_sym _) Hi compat_ig A dA K dK (sy_sym _) T (cJC c) (cJP c) (cap c) i Hi3) by (destruct OK as (_&_&_&_&_&_&Ha); exact Ha).
      unfold MomConstraint. rewrite P7 by assumption.
      rewrite (DivT_ext2 (syl (GenHamMom2.Gamma E)) (PG g ig G p dp) _ (Kup ig p A K) _ (dKup ig dig p dp A dA K dK) i Hi3 E_G E_K E_dK).
      rewrite (sum3_ext (fun l => sy (GenHamMom2.adm_ig E) i l * GenHamMom2.dtrK E l) (fun l => Pig ig p i l * dK l)); [reflexivity|].
      intros l Hl. rewrite E_ig, P3 by assumption. reflexivity.
    Qed.
  End Scratch.

  Lemma identities_ham : cEC c = 1 -> GenHamMom.out_ham (identities_env c) = - 8 / p ^ 5 * eq_psi c.
  Proof.
    intros HC. pose proof hyps as (Hp & Hi & T). rewrite ham_formula by exact Hp. rewrite eq_psi_ham, HC.
    cbn [identities_env GenHamMom.trRicciConf GenHamMom.igConf GenHamMom.ChrisConf GenHamMom.dpsi GenHamMom.ddpsi GenHamMom.psi GenHamMom.gConf GenHamMom.AConfIJ GenHamMom.trK GenHamMom.EConf].
    rewrite (conf_square g ig p Hp (sy_sym _) (sy_sym _) Hi A K T). unfold ham, R_sc. field. exact Hp.
  Qed.
  Lemma identities_mom old i : (i < 3)%nat -> cJC c = 1 -> GenHamMom.store_mom (identities_env c) old i = eq_beta c i / (2 * cap c * p ^ 3).
  Proof.
    intros Hi3 HC. pose proof hyps as (Hp & Hi & T). rewrite mom_formula by assumption.
    rewrite eq_beta_mom, HC by assumption.
    rewrite <- (conf_mom g ig dig G p dp Hp (sy_sym _) (sy_sym _) Hi compat_ig A dA K dK (sy_sym _) T 1 (cJP c) (cap c) i Hi3) by (destruct OK as (_&_&_&_&_&_&Ha); exact Ha).
    reflexivity.
  Qed.
End Final.
