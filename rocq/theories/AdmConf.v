(** AdmConf.v - conformal transformation of connection, Ricci tensor, divergence and of the constraints. *)
From Verif Require Import RealBase TensorSpec RicciFinal XctsSpec ShiftSpec AdmSpec.

(** Ricci tensor of G + C *)
Section Ricci.
  Variables (G C : nat -> nat -> nat -> R) (dG dC : nat -> nat -> nat -> nat -> R).
  Hypothesis SG : forall k i j, G k i j = G k j i.
  Hypothesis SC : forall k i j, C k i j = C k j i.
  Definition NC (l k i j : nat) : R :=
    dC k i j l + sum3 (fun n => G k l n * C n i j) - sum3 (fun n => G n l i * C k n j) - sum3 (fun n => G n l j * C k i n).
  Lemma ricci_sum a b : (a < 3)%nat -> (b < 3)%nat ->
    RicciOf (fun k i j => G k i j + C k i j) (fun k i j l => dG k i j l + dC k i j l) a b =
    RicciOf G dG a b + sum3 (fun c => NC c c a b) - sum3 (fun c => NC b c a c)
    + sum3 (fun c => sum3 (fun d => C c c d * C d a b)) - sum3 (fun c => sum3 (fun d => C c b d * C d a c)).
  Proof.
    intros Ha Hb. unfold RicciOf, NC, sum3.
    idx a; idx b;
    rewrite ?(SG _ 1 0)%nat, ?(SG _ 2 0)%nat, ?(SG _ 2 1)%nat, ?(SC _ 1 0)%nat, ?(SC _ 2 0)%nat, ?(SC _ 2 1)%nat; ring.
  Qed.
End Ricci.

Section Conf.
  Variables (g ig : nat -> nat -> R) (dg dig : nat -> nat -> nat -> R).
  Variables (G : nat -> nat -> nat -> R) (dG : nat -> nat -> nat -> nat -> R).
  Variables (psi : R) (dpsi : nat -> R) (ddpsi : nat -> nat -> R).
  Hypothesis Hp : psi <> 0.
  Hypothesis Sg : forall i j, g i j = g j i.
  Hypothesis Sig : forall i j, ig i j = ig j i.
  Hypothesis SG : forall k i j, G k i j = G k j i.
  Hypothesis Sdd : forall i j, ddpsi i j = ddpsi j i.
  Hypothesis Inv : inverse3 g ig.
  Hypothesis Cg : compat g dg G.
  Hypothesis Cig : compat_inv ig dig G.
  Notation L := (Lp psi dpsi).
  Notation dL := (dLp psi dpsi ddpsi).
  Notation W := (Wp ig psi dpsi).
  Notation dW := (dWp ig dig psi dpsi ddpsi).
  Notation C := (Cp g ig psi dpsi).
  Notation dC := (dCp g ig dg dig psi dpsi ddpsi).
  (** D_a L_b *)
  Definition DL (a b : nat) : R := dL b a - sum3 (fun n => G n a b * L n).
  Definition DW (l k : nat) : R := sum3 (fun m => ig k m * DL l m).

  Lemma C_sym k i j : C k i j = C k j i.
  Proof. unfold Cp. rewrite (Sg i j). ring. Qed.
  Lemma dL_sym i j : dL i j = dL j i.
  Proof. unfold dLp. rewrite (Sdd i j). unfold Rdiv. ring. Qed.
  Lemma DL_sym i j : DL i j = DL j i.
  Proof. unfold DL, sum3. rewrite (dL_sym j i), !(SG _ i j). ring. Qed.
  Lemma gW i : (i < 3)%nat -> sum3 (fun k => g i k * W k) = L i.
  Proof.
    intros Hi. transitivity (sum3 (fun m => sum3 (fun k => g i k * ig k m) * L m)).
    - unfold Wp, sum3. ring.
    - unfold sum3 at 1. rewrite !Inv by lia. idx i; unfold delta; cbn [Nat.eqb]; ring.
  Qed.
  Lemma gDW i l : (i < 3)%nat -> sum3 (fun k => g i k * DW l k) = DL l i.
  Proof.
    intros Hi. transitivity (sum3 (fun m => sum3 (fun k => g i k * ig k m) * DL l m)).
    - unfold DW, sum3. ring.
    - unfold sum3 at 1. rewrite !Inv by lia. idx i; unfold delta; cbn [Nat.eqb]; ring.
  Qed.
  Lemma NW_eq k l : (k < 3)%nat -> (l < 3)%nat -> dW k l + sum3 (fun n => G k l n * W n) = DW l k.
  Proof.
    intros Hk Hl. unfold dWp, sum3. rewrite !Cig by lia. unfold DW, DL, Wp, sum3.
    generalize dL L; intros dL L.
    idx k; idx l; rewrite ?(Sig 1 0)%nat, ?(Sig 2 0)%nat, ?(Sig 2 1)%nat, ?(SG _ 1 0)%nat, ?(SG _ 2 0)%nat, ?(SG _ 2 1)%nat; ring.
  Qed.
  Lemma NC_eq l k i j : (l < 3)%nat -> (k < 3)%nat -> (i < 3)%nat -> (j < 3)%nat ->
    NC G C dC l k i j = 2 * (delta k i * DL l j + delta k j * DL l i - g i j * DW l k).
  Proof.
    intros Hl Hk Hi Hj. rewrite <- NW_eq by assumption.
    unfold NC, dCp. rewrite Cg by assumption. unfold Cp, DL, sum3.
    generalize dL L W dW; intros dL L W dW.
    idx k; idx i; idx j; unfold delta; cbn [Nat.eqb]; rewrite ?(SG _ _ l); rewrite ?(Sg 1 0)%nat, ?(Sg 2 0)%nat, ?(Sg 2 1)%nat; ring.
  Qed.

  (** contractions with g W = L *)
  Lemma C_tr d : (d < 3)%nat -> sum3 (fun c => C c c d) = 6 * L d.
  Proof.
    intros Hd. pose proof (gW d Hd) as H. transitivity (8 * L d - 2 * sum3 (fun k => g d k * W k)); [|rewrite H; ring].
    unfold Cp. generalize L W; intros L W. unfold sum3, delta. idx d; cbn [Nat.eqb]; rewrite ?(Sg 1 0)%nat, ?(Sg 2 0)%nat, ?(Sg 2 1)%nat; ring.
  Qed.
  Definition lap2 : R := sum3 (fun c => DW c c).
  Definition norm2 : R := sum3 (fun c => W c * L c).

  Lemma conf_ricci a b : (a < 3)%nat -> (b < 3)%nat ->
    RicciOf (PG g ig G psi dpsi) (dPG g ig dg dig dG psi dpsi ddpsi) a b =
    RicciOf G dG a b - 2 * DL a b + 4 * L a * L b - (2 * lap2 + 4 * norm2) * g a b.
  Proof.
    intros Ha Hb.
    change (PG g ig G psi dpsi) with (fun k i j => G k i j + C k i j).
    change (dPG g ig dg dig dG psi dpsi ddpsi) with (fun k i j l => dG k i j l + dC k i j l).
    rewrite ricci_sum by (auto using C_sym).
    rewrite (sum3_ext (fun c => NC G C dC c c a b) (fun c => 2 * (delta c a * DL c b + delta c b * DL c a - g a b * DW c c)))
      by (intros; apply NC_eq; assumption).
    rewrite (sum3_ext (fun c => NC G C dC b c a c) (fun c => 2 * (delta c a * DL b c + delta c c * DL b a - g a c * DW b c)))
      by (intros; apply NC_eq; assumption).
    assert (X1 : sum3 (fun c => sum3 (fun d => C c c d * C d a b)) = sum3 (fun d => 6 * L d * C d a b)).
    { transitivity (sum3 (fun d => sum3 (fun c => C c c d) * C d a b)); [unfold sum3; ring|].
      apply sum3_ext. intros. rewrite C_tr by assumption. ring. }
    assert (X2 : sum3 (fun c => sum3 (fun d => C c b d * C d a c)) =
      4 * (7 * L a * L b - 2 * L a * sum3 (fun k => g b k * W k) - 2 * g a b * sum3 (fun k => W k * L k)
           - L b * sum3 (fun k => g a k * W k) - L b * sum3 (fun k => g a k * W k)
           + sum3 (fun k => g a k * W k) * sum3 (fun k => g b k * W k))
      + 4 * (- L a * L b + L b * sum3 (fun k => g a k * W k) + L a * sum3 (fun k => g b k * W k))).
    { unfold Cp. generalize L W; intros L W. unfold sum3, delta. idx a; idx b; cbn [Nat.eqb]; rewrite ?(Sg 1 0)%nat, ?(Sg 2 0)%nat, ?(Sg 2 1)%nat; ring. }
    rewrite X1, X2. rewrite !gW by assumption.
    pose proof (gDW a b Ha) as X3. unfold lap2, norm2.
    rewrite (DL_sym a b).
    transitivity (RicciOf G dG a b + (2 * DL a b + 2 * DL b a - 2 * g a b * sum3 (fun c => DW c c)) - (8 * DL b a - 2 * sum3 (fun k => g a k * DW b k))
       + (6 * (4 * L a * L b - 2 * g a b * sum3 (fun c => W c * L c))) -
  (4 * (7 * L a * L b - 2 * L a * L b - 2 * g a b * sum3 (fun k => W k * L k) - L b * L a - L b * L a + L a * L b) + 4 * (- L a * L b + L b * L a + L a * L b))).
    - unfold Cp. generalize L W DL DW; intros L W DL DW. unfold sum3, delta. idx a; idx b; cbn [Nat.eqb]; ring.
    - rewrite X3, (DL_sym a b). ring.
  Qed.

  Lemma lap_eq : lap2 + norm2 = Lap ig G dpsi ddpsi / psi.
  Proof.
    unfold lap2, norm2, DW, DL, dLp, Wp, Lp, Lap, sum3.
    rewrite ?(Sig 1 0)%nat, ?(Sig 2 0)%nat, ?(Sig 2 1)%nat, ?(SG _ 1 0)%nat, ?(SG _ 2 0)%nat, ?(SG _ 2 1)%nat, ?(Sdd 1 0)%nat, ?(Sdd 2 0)%nat, ?(Sdd 2 1)%nat.
    field. exact Hp.
  Qed.
  Lemma inv_tr : sum3 (fun a => sum3 (fun b => ig a b * g a b)) = 3.
  Proof.
    transitivity (sum3 (fun a => sum3 (fun b => g a b * ig b a))).
    - unfold sum3. rewrite (Sig 1 0)%nat, (Sig 2 0)%nat, (Sig 2 1)%nat. ring.
    - unfold sum3 at 1. rewrite !Inv by lia. unfold delta; cbn [Nat.eqb]. ring.
  Qed.
  (** R = psi^-4 (R_conf - 8 D^2 psi/psi), for the components a <= b the code stores *)
  Lemma conf_scalar :
    trace3 (Pig ig psi) (sy (RicciOf (PG g ig G psi dpsi) (dPG g ig dg dig dG psi dpsi ddpsi)))
    = (trace3 ig (sy (RicciOf G dG)) - 8 * Lap ig G dpsi ddpsi / psi) / psi ^ 4.
  Proof.
    rewrite <- (Rmult_1_r (8 * Lap ig G dpsi ddpsi / psi)). replace (8 * Lap ig G dpsi ddpsi / psi * 1) with (8 * (lap2 + norm2)) by (rewrite lap_eq; field; exact Hp).
    assert (X : forall a b, (a < 3)%nat -> (b < 3)%nat -> sy (RicciOf (PG g ig G psi dpsi) (dPG g ig dg dig dG psi dpsi ddpsi)) a b =
      sy (RicciOf G dG) a b - 2 * DL a b + 4 * L a * L b - (2 * lap2 + 4 * norm2) * g a b).
    { intros a b Ha Hb. unfold sy. destruct (Nat.leb_spec a b); rewrite conf_ricci by assumption; [reflexivity|]. rewrite (DL_sym a b), (Sg a b). ring. }
    unfold trace3 at 1. rewrite (sum3_ext (fun a => sum3 _) (fun a => sum3 (fun b => Pig ig psi a b * (sy (RicciOf G dG) a b - 2 * DL a b + 4 * L a * L b - (2 * lap2 + 4 * norm2) * g a b)))).
    2:{ intros a Ha. apply sum3_ext. intros b Hb. rewrite X by assumption. reflexivity. }
    assert (Y1 : sum3 (fun a => sum3 (fun b => ig a b * DL a b)) = lap2) by (unfold lap2, DW; reflexivity).
    assert (Y2 : sum3 (fun a => sum3 (fun b => ig a b * (L a * L b))) = norm2) by (unfold norm2, Wp, sum3; ring).
    transitivity ((trace3 ig (sy (RicciOf G dG)) - 2 * sum3 (fun a => sum3 (fun b => ig a b * DL a b)) + 4 * sum3 (fun a => sum3 (fun b => ig a b * (L a * L b)))
       - (2 * lap2 + 4 * norm2) * sum3 (fun a => sum3 (fun b => ig a b * g a b))) / psi ^ 4).
    - clear X Y1 Y2. unfold trace3, Pig. generalize lap2 norm2 (sy (RicciOf G dG)) DL L; intros l2 n2 S D L. unfold sum3, Rdiv. ring.
    - rewrite Y1, Y2, inv_tr. field. exact Hp.
  Qed.

  (** the connection is the Levi-Civita one of psi^4 g *)
  Lemma conf_compat : compat (Pg g psi) (dPg g dg psi dpsi) (PG g ig G psi dpsi).
  Proof.
    intros i j k Hi Hj Hk. unfold dPg, Pg, PG. rewrite Cg by assumption.
    pose proof (gW i Hi) as Wi. pose proof (gW j Hj) as Wj. pose proof (gW k Hk) as Wk.
    assert (Dp : dpsi k = psi * L k) by (unfold Lp; field; exact Hp). rewrite Dp.
    transitivity (psi ^ 4 * (sum3 (fun l => G l k i * g l j) + sum3 (fun l => G l k j * g i l)) + psi ^ 4 * (2 * (2 * L k * g i j) + 2 * (L i - sum3 (fun l => g i l * W l)) * g k j + 2 * (L j - sum3 (fun l => g j l * W l)) * g k i)).
    - rewrite Wi, Wj. ring.
    - unfold Cp. generalize L W; intros L W. unfold sum3, delta. idx i; idx j; idx k; cbn [Nat.eqb]; rewrite ?(Sg 1 0)%nat, ?(Sg 2 0)%nat, ?(Sg 2 1)%nat; ring.
  Qed.

  (** divergence of K^ij *)
  Variables (A : nat -> nat -> R) (dA : nat -> nat -> nat -> R) (K : R) (dK : nat -> R).
  Hypothesis SA : forall i j, A i j = A j i.
  Hypothesis TA : sum3 (fun i => sum3 (fun j => g i j * A i j)) = 0.
  Lemma conf_div i : (i < 3)%nat ->
    DivT (PG g ig G psi dpsi) (Kup ig psi A K) (dKup ig dig psi dpsi A dA K dK) i
    = DivT G A dA i / psi ^ 10 + sum3 (fun j => ig i j * dK j) / (3 * psi ^ 4).
  Proof.
    intros Hi.
    assert (T : forall S : nat -> nat -> R, (forall a b, S a b = S b a) ->
      sum3 (fun j => sum3 (fun l => C i j l * S l j)) + sum3 (fun j => sum3 (fun l => C j j l * S i l))
      = 10 * sum3 (fun j => S i j * L j) - 2 * W i * sum3 (fun a => sum3 (fun b => g a b * S a b))).
    { intros S SS. transitivity (sum3 (fun j => sum3 (fun l => C i j l * S l j)) + sum3 (fun l => sum3 (fun j => C j j l) * S i l)); [unfold sum3; ring|].
      rewrite (sum3_ext (fun l => sum3 (fun j => C j j l) * S i l) (fun l => 6 * L l * S i l)) by (intros; rewrite C_tr by assumption; reflexivity).
      unfold Cp. generalize L W; intros L W. unfold sum3, delta. idx i; cbn [Nat.eqb]; rewrite ?(SS 1 0)%nat, ?(SS 2 0)%nat, ?(SS 2 1)%nat, ?(Sg 1 0)%nat, ?(Sg 2 0)%nat, ?(Sg 2 1)%nat; ring. }
    assert (TK : sum3 (fun a => sum3 (fun b => g a b * Kup ig psi A K a b)) = K / psi ^ 4).
    { transitivity (sum3 (fun a => sum3 (fun b => g a b * A a b)) / psi ^ 10 + sum3 (fun a => sum3 (fun b => ig a b * g a b)) * K / (3 * psi ^ 4)).
      - unfold Kup, sum3. field. exact Hp.
      - rewrite TA, inv_tr. field. exact Hp. }
    assert (SK : forall a b, Kup ig psi A K a b = Kup ig psi A K b a) by (intros a b; unfold Kup; rewrite (SA a b), (Sig a b); reflexivity).
    specialize (T (Kup ig psi A K) SK). rewrite TK in T.
    transitivity (sum3 (fun j => dKup ig dig psi dpsi A dA K dK i j j) + sum3 (fun j => sum3 (fun l => G i j l * Kup ig psi A K l j)) + sum3 (fun j => sum3 (fun l => G j j l * Kup ig psi A K i l))
      + (sum3 (fun j => sum3 (fun l => C i j l * Kup ig psi A K l j)) + sum3 (fun j => sum3 (fun l => C j j l * Kup ig psi A K i l)))).
    { unfold DivT, PG, sum3. ring. }
    rewrite T. unfold dKup.
    rewrite (sum3_ext (fun j => _) (fun j => dA i j j / psi ^ 10 - 10 * A i j * dpsi j / psi ^ 11 + ((- sum3 (fun l => G i j l * ig l j) - sum3 (fun l => G j j l * ig i l)) * K + ig i j * dK j) / (3 * psi ^ 4) - 4 * ig i j * K * dpsi j / (3 * psi ^ 5)))
      by (intros; rewrite Cig by assumption; reflexivity).
    clear T TK. unfold DivT, Kup, Wp, Lp, sum3. field. exact Hp.
  Qed.

  (** K_ij K^ij *)
  Lemma conf_square : square2 (Pg g psi) (Kup ig psi A K) = square2 g A / psi ^ 12 + K ^ 2 / 3.
  Proof.
    assert (X : forall (F : nat -> nat -> R), sum3 (fun i => sum3 (fun j => sum3 (fun l => sum3 (fun m => g i l * g j m * F i j * ig l m)))) = sum3 (fun i => sum3 (fun j => g i j * F i j))).
    { intros F. transitivity (sum3 (fun i => sum3 (fun j => sum3 (fun m => sum3 (fun l => g i l * ig l m) * g j m) * F i j))); [unfold sum3; ring|].
      apply sum3_ext; intros i Hi; apply sum3_ext; intros j Hj. unfold sum3 at 1. rewrite !Inv by lia. rewrite (Sg i j). idx i; unfold delta; cbn [Nat.eqb]; ring. }
    assert (X' : forall (F : nat -> nat -> R), sum3 (fun i => sum3 (fun j => sum3 (fun l => sum3 (fun m => g i l * g j m * ig i j * F l m)))) = sum3 (fun i => sum3 (fun j => g i j * F i j))).
    { intros F. rewrite <- (X F). unfold sum3. rewrite ?(Sg 1 0)%nat, ?(Sg 2 0)%nat, ?(Sg 2 1)%nat, ?(Sig 1 0)%nat, ?(Sig 2 0)%nat, ?(Sig 2 1)%nat. ring. }
    pose proof (X A) as XA. pose proof (X' A) as XA'. pose proof (X ig) as XI. rewrite TA in XA, XA'.
    assert (XI' : sum3 (fun i => sum3 (fun j => g i j * ig i j)) = 3) by (rewrite <- inv_tr; unfold sum3; ring). rewrite XI' in XI.
    transitivity (square2 g A / psi ^ 12 + K / (3 * psi ^ 6) * sum3 (fun i => sum3 (fun j => sum3 (fun l => sum3 (fun m => g i l * g j m * A i j * ig l m))))
      + K / (3 * psi ^ 6) * sum3 (fun i => sum3 (fun j => sum3 (fun l => sum3 (fun m => g i l * g j m * ig i j * A l m))))
      + K ^ 2 / 9 * sum3 (fun i => sum3 (fun j => sum3 (fun l => sum3 (fun m => g i l * g j m * ig i j * ig l m))))).
    - unfold square2, Pg, Kup. clear - Hp.
      assert (E : forall i j l m, psi ^ 4 * g i l * (psi ^ 4 * g j m) * (A i j / psi ^ 10 + ig i j * K / (3 * psi ^ 4)) * (A l m / psi ^ 10 + ig l m * K / (3 * psi ^ 4)) =
        g i l * g j m * A i j * A l m * / psi ^ 12 + K / (3 * psi ^ 6) * (g i l * g j m * A i j * ig l m) + K / (3 * psi ^ 6) * (g i l * g j m * ig i j * A l m) + K ^ 2 / 9 * (g i l * g j m * ig i j * ig l m))
       by (intros; field; exact Hp).
      unfold sum3. rewrite !E. unfold Rdiv. ring.
    - rewrite XA, XA', XI. field. exact Hp.
  Qed.

  (** the constraints of the physical geometry in conformal variables *)
  Lemma conf_ham Cc E :
    HamConstraint Cc (Pg g psi) (Pig ig psi) (sy (RicciOf (PG g ig G psi dpsi) (dPG g ig dg dig dG psi dpsi ddpsi))) (Kup ig psi A K) K (E / psi ^ 6)
    = - 8 / psi ^ 5 * ham (Lap ig G dpsi ddpsi) (trace3 ig (sy (RicciOf G dG))) K (square2 g A) Cc E psi.
  Proof. unfold HamConstraint, ham. rewrite conf_scalar, conf_square. field. exact Hp. Qed.
  Lemma conf_mom Cc (J : nat -> R) ap i : (i < 3)%nat -> ap <> 0 ->
    MomConstraint Cc (Pig ig psi) (PG g ig G psi dpsi) (Kup ig psi A K) (dKup ig dig psi dpsi A dA K dK) dK (fun i => J i / psi ^ 6) i
    = mom (DivT G A dA i) (sum3 (fun j => ig i j * dK j)) Cc (J i) psi ap / (2 * ap * psi ^ 3).
  Proof.
    intros Hi Ha. unfold MomConstraint, mom. rewrite conf_div by assumption. unfold Pig. generalize (DivT G A dA i); intros d. unfold sum3. field. auto.
  Qed.
End Conf.
