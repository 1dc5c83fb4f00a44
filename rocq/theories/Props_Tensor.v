(** Props_Tensor.v - property theorems C93-C95: Christoffel symbols, Ricci tensor, BSSN scaling. *)
From Verif Require Import RealBase TensorSpec LinAlg3Model LinAlg3Spec LinAlg3Proofs BssnModel BssnProofs.
From Verif Require Import TensorProofs RicciProofs RicciFinal.
From Verif Require GenChris GenRicci.

(** C93. For all components of the inverse metric and of the metric derivatives the routine fills the 18 ordered components
    with the Christoffel symbols 1/2 g^km (d_j g_mi + d_i g_mj - d_m g_ij) and touches no other; if the metric and its
    inverse belong together, these are the one symmetric connection that annihilates the metric. *)
Theorem C93_christoffel :
  (forall (E : GenChris.env) old,
    (forall k i j, (k < 3)%nat -> (i < 3)%nat -> (j < 3)%nat ->
       syl (GenChris.store_Chris E old) k i j = Christoffel (sy (GenChris.ig E)) (syd (GenChris.dg E)) k i j) /\
    (forall k i j, ~ ((k < 3)%nat /\ (i <= j)%nat /\ (j < 3)%nat) -> GenChris.store_Chris E old k i j = old k i j)) /\
  (forall (E : GenChris.env) old g,
    inverse3 (sy g) (sy (GenChris.ig E)) -> inverse3 (sy (GenChris.ig E)) (sy g) ->
    let G := syl (GenChris.store_Chris E old) in
    let dg := syd (GenChris.dg E) in
    (forall k i j, G k i j = G k j i) /\
    (forall a b c, (a < 3)%nat -> (b < 3)%nat -> (c < 3)%nat ->
       dg a b c - sum3 (fun k => G k a c * sy g b k) - sum3 (fun k => G k b c * sy g a k) = 0) /\
    (forall G' : nat -> nat -> nat -> R,
       (forall k i j, (k < 3)%nat -> (i < 3)%nat -> (j < 3)%nat -> G' k i j = G' k j i) ->
       (forall a b c, (a < 3)%nat -> (b < 3)%nat -> (c < 3)%nat ->
          dg a b c - sum3 (fun k => G' k a c * sy g b k) - sum3 (fun k => G' k b c * sy g a k) = 0) ->
       forall k i j, (k < 3)%nat -> (i < 3)%nat -> (j < 3)%nat -> G' k i j = G k i j)).
Proof. exact (conj chris_formula_all chris_levi_civita). Qed.
Print Assumptions C93_christoffel.
Example C93_ex : inverse3 (sy ex_g) (sy ex_ig) /\ inverse3 (sy ex_ig) (sy ex_g) /\
  forall old, GenChris.store_Chris (GenChris.mk ex_dg ex_ig) old 0 2 2 = -4 /\
  syl (GenChris.store_Chris (GenChris.mk ex_dg ex_ig) old) 2 1 0 = - (3 / 8).
Proof. exact chris_ex. Qed.

(** C94. For all connection components and derivatives the six stored components are R_ab, a <= b, of that connection and
    the stored scalar is their trace with the inverse metric; the nine components read through the symmetric storage are the
    Ricci tensor if the contracted connection derivatives commute, which they do for the connection of a metric: then they
    are the Ricci tensor of that metric, and that tensor is symmetric. *)
Theorem C94_ricci :
  (forall (E : GenRicci.env) old a b, (a <= b)%nat -> (b < 3)%nat ->
     GenRicci.store_Ricci E old a b = RicciOf (syl (GenRicci.Chris E)) (syld (GenRicci.dChris E)) a b) /\
  (forall (E : GenRicci.env) old,
     GenRicci.out_trR E = trace3 (sy (GenRicci.ig E)) (sy (GenRicci.store_Ricci E old))) /\
  (forall (E : GenRicci.env) old,
     (forall a b, (a < 3)%nat -> (b < 3)%nat ->
       sum3 (fun c => syld (GenRicci.dChris E) c a c b) = sum3 (fun c => syld (GenRicci.dChris E) c b c a)) ->
     forall a b, (a < 3)%nat -> (b < 3)%nat ->
     sy (GenRicci.store_Ricci E old) a b = RicciOf (syl (GenRicci.Chris E)) (syld (GenRicci.dChris E)) a b) /\
  (forall (E : GenRicci.env) ig dg ddg old,
     reads_LC E ig dg ddg ->
     (forall i j, ig i j = ig j i) -> (forall a b c, dg a b c = dg b a c) ->
     (forall a b c d, ddg a b c d = ddg b a c d) -> (forall a b c d, ddg a b c d = ddg a b d c) ->
     forall a b, (a < 3)%nat -> (b < 3)%nat ->
     sy (GenRicci.store_Ricci E old) a b
       = RicciOf (Christoffel ig dg) (dChristoffel ig (dinverse ig dg) dg ddg) a b) /\
  (forall ig dg ddg,
     (forall i j, ig i j = ig j i) -> (forall a b c, dg a b c = dg b a c) ->
     (forall a b c d, ddg a b c d = ddg b a c d) -> (forall a b c d, ddg a b c d = ddg a b d c) ->
     forall a b, RicciOf (Christoffel ig dg) (dChristoffel ig (dinverse ig dg) dg ddg) a b
               = RicciOf (Christoffel ig dg) (dChristoffel ig (dinverse ig dg) dg ddg) b a) /\
  (forall g ig dg dig, inverse3 g ig -> inverse3 ig g ->
     (forall i j l, (i < 3)%nat -> (j < 3)%nat -> sum3 (fun m => dg i m l * ig m j + g i m * dig m j l) = 0) ->
     forall k m l, (k < 3)%nat -> (m < 3)%nat -> dig k m l = dinverse ig dg k m l).
Proof. exact (conj ricci_formula (conj ricci_trace (conj ricci_full (conj ricci_LC (conj ricci_LC_sym dinverse_unique))))). Qed.
Print Assumptions C94_ricci.
Example C94_ex : reads_LC ex_E delta (fun _ _ _ => 0) ex_ddg /\
  (forall i j, delta i j = delta j i) /\ (forall a b c d, ex_ddg a b c d = ex_ddg b a c d) /\ (forall a b c d, ex_ddg a b c d = ex_ddg a b d c) /\
  forall old, GenRicci.store_Ricci ex_E old 0 0 = -3 /\ GenRicci.store_Ricci ex_E old 1 1 = -3 /\ GenRicci.out_trR ex_E = -6.
Proof. exact ricci_ex. Qed.

(** C95 (partial). For every positive definite metric the scaling gives gt of determinant 1 and psi > 0 with g = psi^4 gt
    and psi^12 = det g, gt positive definite, the third output its inverse; each output is written exactly if requested; a
    metric of determinant <= 0 gives no finite number.  Missing: the routine's caller for the conformal Kerr-Schild data uses the
    metric it is given (next theorem), and positive determinant alone is not enough (s00 = 0). *)
Theorem C95_bssn_partial :
  (forall g, positive_definite g -> forall bg bi bp,
    exists gt ig psi,
      scale_to_BSSN_metric_3d g bg bi bp =
        Some (if bg then Some gt else None, if bi then Some ig else None, if bp then Some psi else None) /\
      0 < psi /\ psi ^ 12 = Matrix_Determinant_3x3_Symmetric g /\
      g = scale_sym (psi ^ 4) gt /\
      Matrix_Determinant_3x3_Symmetric gt = 1 /\
      positive_definite gt /\
      inverse_of (full ig) (full gt)) /\
  (forall g bg bi bp, Matrix_Determinant_3x3_Symmetric g <= 0 -> scale_to_BSSN_metric_3d g bg bi bp = None) /\
  (forall g bg bp, s00 g = 0 -> scale_to_BSSN_metric_3d g bg true bp = None).
Proof. exact (conj bssn_ok (conj bssn_det_nonpos bssn_s00_zero)). Qed.
Print Assumptions C95_bssn_partial.
(** The test for a missing metric is inverted: a given metric is ignored, a null one is read. *)
Theorem C95_given_metric_refuted :
  (forall m m' ks, fd_populate_ConfKerrSchild (Some m) ks = fd_populate_ConfKerrSchild (Some m') ks) /\
  (forall ks, fd_populate_ConfKerrSchild None ks = NullStem).
Proof. split; reflexivity. Qed.
Print Assumptions C95_given_metric_refuted.
Example C95_ex : positive_definite (S3 16 0 0 16 0 16) /\ Matrix_Determinant_3x3_Symmetric (S3 0 1 0 1 0 (-1)) = 1 /\
  Matrix_Determinant_3x3_Symmetric (S3 0 1 0 1 0 1) <= 0.
Proof. exact bssn_ex. Qed.
