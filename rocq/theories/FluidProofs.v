(** FluidProofs.v - stress-energy, Euler first integral, force balance. *)
From Verif Require Import RealBase TensorSpec RicciFinal XctsSpec XctsProofs FluidSpec FluidModel PhiSpec.
From Verif Require GenTijE GenTijJ GenTijS GenU0 GenEnthalpy GenMass GenEulerC GenGamma GenGtilda.

Lemma dot_g4 al be gam u : dot4 (g4 al be gam) u u =
  - al ^ 2 * u 0%nat ^ 2 + sum3 (fun i => sum3 (fun j => gam i j * (u (S i) + u 0%nat * be i) * (u (S j) + u 0%nat * be j))) + 
  sum3 (fun i => sum3 (fun j => (gam i j - gam j i) * be j * u 0%nat * u (S i))).
Proof. unfold dot4, sum4, g4, sum3. ring. Qed.
Lemma low_space al be gam u i : low4 (g4 al be gam) u (S i) = sum3 (fun j => gam i j * (u (S j) + u 0%nat * be j)).
Proof. unfold low4, sum4, g4, sum3. ring. Qed.
Lemma low_n al be gam u : al <> 0 -> (forall i j, gam i j = gam j i) -> sum4 (fun a => low4 (g4 al be gam) u a * n4 al be a) = - al * u 0%nat.
Proof.
  intros H Sg. unfold low4, sum4, g4, n4, sum3. rewrite (Sg 1 0)%nat, (Sg 2 0)%nat, (Sg 2 1)%nat. field. exact H.
Qed.
Lemma n_unit al be gam : al <> 0 -> (forall i j, gam i j = gam j i) -> dot4 (g4 al be gam) (n4 al be) (n4 al be) = - 1.
Proof. intros H Sg. unfold dot4, sum4, g4, n4, sum3. rewrite (Sg 1 0)%nat, (Sg 2 0)%nat, (Sg 2 1)%nat. field. exact H. Qed.
Lemma n_orth al be gam j : al <> 0 -> sum4 (fun a => g4 al be gam (S j) a * n4 al be a) = 0.
Proof. intros H. unfold sum4, g4, n4, sum3. field. exact H. Qed.
Lemma dot_T g rho h p u v : dot4 (T4 g rho h p u) v v = rho * h * (sum4 (fun a => low4 g u a * v a)) ^ 2 + p * dot4 g v v.
Proof.
  unfold dot4, T4. generalize (low4 g u). intros l. unfold sum4, sum3. ring.
Qed.
Lemma T_n g rho h p u v j : sum4 (fun a => T4 g rho h p u (S j) a * v a) = rho * h * low4 g u (S j) * sum4 (fun a => low4 g u a * v a) + p * sum4 (fun a => g (S j) a * v a).
Proof. unfold T4. generalize (low4 g u). intros l. unfold sum4, sum3. ring. Qed.

Lemma energy_formula al be gam rho h p u : al <> 0 -> (forall i j, gam i j = gam j i) ->
  energy4 (T4 (g4 al be gam) rho h p u) al be = rho * h * (al * u 0%nat) ^ 2 - p.
Proof. intros H Sg. unfold energy4. rewrite dot_T, low_n, n_unit by assumption. ring. Qed.

Section Metric.
  Variables (g ig : nat -> nat -> R).
  Hypothesis Sg : forall i j, g i j = g j i.
  Hypothesis Sig : forall i j, ig i j = ig j i.
  Hypothesis Inv : inverse3 g ig.
  Lemma inv_l i j : (i < 3)%nat -> (j < 3)%nat -> sum3 (fun m => ig i m * g m j) = delta i j.
  Proof.
    intros Hi Hj. rewrite (sum3_ext _ (fun m => g j m * ig m i)).
    - rewrite Inv by assumption. unfold delta. rewrite Nat.eqb_sym. reflexivity.
    - intros m Hm. rewrite (Sg j m), (Sig i m). ring.
  Qed.
  Variables (psi : R) (dphi W be : nat -> R) (h u0 al : R).
  Hypothesis Hp : psi <> 0.
  Hypothesis Hh : h <> 0.
  Notation gam := (fun i j => psi ^ 4 * g i j).
  Notation igam := (fun i j => ig i j / psi ^ 4).
  Notation u := (vel4 igam dphi W be h u0).
  (** h u_i *)
  Definition Pdn (i : nat) : R := dphi i + psi ^ 4 * sum3 (fun j => g i j * W j).
  Definition P2q : R := 2 * sum3 (fun i => W i * dphi i) + psi ^ 4 * sum3 (fun i => sum3 (fun j => g i j * W i * W j)) + / psi ^ 4 * sum3 (fun i => sum3 (fun j => ig i j * dphi i * dphi j)).
  Lemma gV i : (i < 3)%nat -> sum3 (fun j => g i j * sum3 (fun k => ig j k * dphi k)) = dphi i.
  Proof.
    intros Hi. transitivity (sum3 (fun k => sum3 (fun j => g i j * ig j k) * dphi k)); [unfold sum3; ring|].
    rewrite (sum3_ext _ (fun k => delta i k * dphi k)) by (intros; rewrite Inv by assumption; reflexivity).
    idx i; unfold sum3, delta; cbn; ring.
  Qed.
  Lemma igV (V : nat -> R) i : (i < 3)%nat -> sum3 (fun j => ig i j * sum3 (fun k => g j k * V k)) = V i.
  Proof.
    intros Hi. transitivity (sum3 (fun k => sum3 (fun j => ig i j * g j k) * V k)); [unfold sum3; ring|].
    rewrite (sum3_ext _ (fun k => delta i k * V k)) by (intros; rewrite inv_l by assumption; reflexivity).
    idx i; unfold sum3, delta; cbn; ring.
  Qed.
  Lemma low_u i : (i < 3)%nat -> low4 (g4 al be gam) u (S i) = Pdn i / h.
  Proof.
    intros Hi. rewrite low_space. unfold vel4.
    transitivity ((sum3 (fun j => g i j * sum3 (fun k => ig j k * dphi k)) + psi ^ 4 * sum3 (fun j => g i j * W j)) / h).
    - unfold sum3. field. split; assumption.
    - rewrite gV by assumption. reflexivity.
  Qed.
  Lemma P2_dn : sum3 (fun i => sum3 (fun j => ig i j / psi ^ 4 * Pdn i * Pdn j)) = P2q.
  Proof.
    unfold Pdn, P2q.
    transitivity (/ psi ^ 4 * sum3 (fun i => sum3 (fun j => ig i j * dphi i * dphi j))
      + sum3 (fun i => dphi i * sum3 (fun j => ig i j * sum3 (fun k => g j k * W k)))
      + sum3 (fun j => dphi j * sum3 (fun i => ig i j * sum3 (fun k => g i k * W k)))
      + psi ^ 4 * sum3 (fun i => sum3 (fun k => g i k * W k) * sum3 (fun j => ig i j * sum3 (fun k => g j k * W k)))).
    - unfold sum3. field. assumption.
    - assert (E1 : forall c : nat -> R, sum3 (fun i => c i * sum3 (fun j => ig i j * sum3 (fun k => g j k * W k))) = sum3 (fun i => c i * W i))
        by (intros c; apply sum3_ext; intros; rewrite igV by assumption; reflexivity).
      assert (E2 : sum3 (fun j => dphi j * sum3 (fun i => ig i j * sum3 (fun k => g i k * W k))) = sum3 (fun i => dphi i * W i)).
      { rewrite <- E1. apply sum3_ext. intros j Hj. f_equal. apply sum3_ext. intros i Hi. rewrite Sig. reflexivity. }
      rewrite E2, (E1 dphi), (E1 (fun i => sum3 (fun k => g i k * W k))).
      unfold sum3. ring.
  Qed.
  Lemma P2_up : sum3 (fun i => sum3 (fun j => gam i j * (sum3 (fun k => igam i k * dphi k) + W i) * (sum3 (fun k => igam j k * dphi k) + W j))) = P2q.
  Proof.
    unfold P2q.
    transitivity (sum3 (fun i => (sum3 (fun k => igam i k * dphi k) + W i) * (sum3 (fun j => g i j * sum3 (fun k => ig j k * dphi k)) + psi ^ 4 * sum3 (fun j => g i j * W j)))).
    - unfold sum3. field. assumption.
    - rewrite (sum3_ext _ (fun i => (sum3 (fun k => igam i k * dphi k) + W i) * (dphi i + psi ^ 4 * sum3 (fun j => g i j * W j)))) by (intros; rewrite gV by assumption; reflexivity).
      transitivity (sum3 (fun i => W i * dphi i) + psi ^ 4 * sum3 (fun i => sum3 (fun j => g i j * W i * W j)) + / psi ^ 4 * sum3 (fun i => sum3 (fun j => ig i j * dphi i * dphi j))
        + sum3 (fun j => W j * sum3 (fun i => g i j * sum3 (fun k => ig i k * dphi k)))).
      + unfold sum3. field. assumption.
      + rewrite (sum3_ext (fun j => W j * sum3 _) (fun j => W j * dphi j)).
        2:{ intros j Hj. rewrite (sum3_ext _ (fun i => g j i * sum3 (fun k => ig i k * dphi k))) by (intros; rewrite Sg; reflexivity). rewrite gV by assumption. reflexivity. }
        ring.
  Qed.
  Lemma vel_norm : dot4 (g4 al be gam) u u = - (al * u0) ^ 2 + P2q / h ^ 2.
  Proof.
    rewrite dot_g4.
    replace (sum3 (fun i => sum3 (fun j => (psi ^ 4 * g i j - psi ^ 4 * g j i) * be j * u 0%nat * u (S i)))) with 0
      by (unfold sum3; rewrite (Sg 1 0)%nat, (Sg 2 0)%nat, (Sg 2 1)%nat; ring).
    rewrite <- P2_up. unfold vel4, sum3. field. split; assumption.
  Qed.
  Variables (rho p : R).
  Hypothesis Hal : al <> 0.
  Notation T := (T4 (g4 al be gam) rho h p u).
  Lemma energy_u : energy4 T al be = rho * h * (al * u0) ^ 2 - p.
  Proof. apply energy_formula; [assumption|intros; rewrite Sg; reflexivity]. Qed.
  Lemma momentum_u i : (i < 3)%nat -> momentum4 igam T al be i = rho * al * u0 * (sum3 (fun j => igam i j * dphi j) + W i).
  Proof.
    intros Hi. unfold momentum4.
    rewrite (sum3_ext _ (fun j => ig i j / psi ^ 4 * (- rho * Pdn j * al * u0))).
    - transitivity (rho * al * u0 * (sum3 (fun j => igam i j * dphi j) + sum3 (fun j => ig i j * sum3 (fun k => g j k * W k)))).
      + unfold Pdn, sum3. field. assumption.
      + rewrite igV by assumption. reflexivity.
    - intros j Hj. rewrite T_n, low_n, n_orth, low_u by (try assumption; intros; rewrite Sg; reflexivity).
      cbn [vel4]. field. split; assumption.
  Qed.
  Lemma stress_u : stress4 igam T = rho * P2q / h + 3 * p.
  Proof.
    unfold stress4, T4.
    rewrite (sum3_ext _ (fun i => sum3 (fun j => ig i j / psi ^ 4 * (rho * h * (Pdn i / h) * (Pdn j / h) + p * (psi ^ 4 * g i j))))).
    - transitivity (rho / h * sum3 (fun i => sum3 (fun j => ig i j / psi ^ 4 * Pdn i * Pdn j)) + p * sum3 (fun i => sum3 (fun j => ig i j * g j i))).
      + unfold sum3. rewrite (Sg 1 0)%nat, (Sg 2 0)%nat, (Sg 2 1)%nat. field. split; assumption.
      + rewrite P2_dn, (sum3_ext (fun i => sum3 _) (fun i => delta i i)) by (intros; rewrite inv_l by assumption; reflexivity).
        unfold sum3, delta. cbn. field. assumption.
    - intros i Hi. apply sum3_ext. intros j Hj. rewrite !low_u by assumption. reflexivity.
  Qed.
End Metric.
