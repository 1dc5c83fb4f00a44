(** SurfaceProofs.v - surface integrals on a Cartesian patch, inverse Jacobian, quadrature rules, spectral filter. *)
From Verif Require Import RealBase TrigSums SpectralModel SpectralSpec ChebProofs SpectralProofs SpectralDeriv Spectral3Model Spectral3Spec Spectral3Proofs IntegrationProofs.
From Verif Require Base IndexModel IndexProofs.
Import Base(outcome, Ok, Abort, UB, obind).
Open Scope R_scope.

(** ** dq_dN is the inverse of dN_dq *)
Definition len (b : box) (d : nat) : R := (mn_of b d - mx_of b d) / 2.
Theorem inverse_jacobian j b : det_dN_dx j b <> 0 -> exists q : nat -> nat -> R,
  (forall r c, (r < 3)%nat -> (c < 3)%nat -> dq2_dq1 j b (x_ r) (N_ c) = Ok (Some (q r c))) /\
  (forall r c, (r < 3)%nat -> (c < 3)%nat ->
     Rsum 3 (fun m => a_entry j b r m * q m c) = (if Nat.eqb r c then 1 else 0) /\
     Rsum 3 (fun m => q r m * a_entry j b m c) = (if Nat.eqb r c then 1 else 0)).
Proof.
  intros Hd. exists (fun r c => ADJ (a_entry j b) r c / det_dN_dx j b). split.
  - intros r c _ _. unfold dq2_dq1, dq_dN. cbn [Dd_eqb dir]. rewrite fdiv_some by auto. reflexivity.
  - intros r c Hr Hc. revert Hd. unfold det_dN_dx. set (a := a_entry j b).
    destruct r as [|[|[|r]]]; try lia; destruct c as [|[|[|c]]]; try lia; cbn [Rsum ADJ Nat.eqb];
     intros Hd; split; field; exact Hd.
Qed.
Lemma tangent_cart b d : well b -> (d < 3)%nat -> exists t, tangent JT_Cartesian b d = Some t /\ forall c, (c < 3)%nat -> t c = if Nat.eqb c d then len b d else 0.
Proof.
  intros Hw Hd. pose proof (J_cart b Hw) as HJ. unfold J_xyzN0N1N2 in HJ. unfold fdiv in HJ.
  destruct (Req_EM_T (det_dN_dx JT_Cartesian b) 0) as [|HD]; [discriminate|]. clear HJ.
  destruct (inverse_jacobian JT_Cartesian b HD) as (q & Hq & _).
  unfold tangent. rewrite !Hq by lia. cbn [fbind]. eexists; split; [reflexivity|].
  intros c Hc. transitivity (q c d). { destruct c as [|[|[|c]]]; reflexivity || lia. }
  specialize (Hq c d Hc Hd). unfold dq2_dq1, dq_dN in Hq. cbn [Dd_eqb dir] in Hq. rewrite fdiv_some in Hq by auto. injection Hq as <-.
  destruct Hw as (_ & _ & _ & M0 & M1 & M2).
  revert HD. rewrite det_cart. intros _. unfold a_entry, dN_dq, dN_dXd, JT_Cartesian, SpectralModel.dN_dX, len.
  destruct c as [|[|[|c]]]; try lia; destruct d as [|[|[|d]]]; try lia; cbn [dir Nat.eqb mn_of mx_of ADJ]; field; repeat split; lra.
Qed.
Definition gpair (g : metric) (da db : nat) : R :=
  match da, db with
  | 1, 2 => det2s (g11 g) (g12 g) (g22 g)
  | 0, 2 => det2s (g00 g) (g02 g) (g22 g)
  | _, _ => det2s (g00 g) (g01 g) (g11 g)
  end.
Lemma surface_at_cart b f g da db l : well b -> ((da, db) = (1, 2) \/ (da, db) = (0, 2) \/ (da, db) = (0, 1))%nat ->
  0 <= gpair (g l) da db -> surface_at cart b f g da db l = Some (len b da * len b db * (f l * sqrt (gpair (g l) da db))).
Proof.
  intros Hw Hc Hp. unfold surface_at, cart.
  destruct (tangent_cart b da Hw) as (u & -> & Hu); [destruct Hc as [E|[E|E]]; injection E as -> ->; lia|].
  destruct (tangent_cart b db Hw) as (w & -> & Hww); [destruct Hc as [E|[E|E]]; injection E as -> ->; lia|].
  cbn [fbind].
  assert (E : det_h (g l) u w = Rsqr (len b da * len b db) * gpair (g l) da db).
  { unfold det_h. rewrite !(Hu 0%nat), !(Hu 1%nat), !(Hu 2%nat), !(Hww 0%nat), !(Hww 1%nat), !(Hww 2%nat) by lia. unfold Rsqr, Pow2, gpair, det2s.
    destruct Hc as [E|[E|E]]; injection E as -> ->; cbn [Nat.eqb]; ring. }
  rewrite E. destruct (ltR_spec (Rsqr (len b da * len b db) * gpair (g l) da db) 0) as [L|_].
  { exfalso. pose proof (Rle_0_sqr (len b da * len b db)). nra. }
  f_equal. rewrite sqrt_mult; [|apply Rle_0_sqr|auto]. rewrite sqrt_Rsqr. ring.
  destruct Hw as (_ & _ & _ & M0 & M1 & M2).
  assert (A : forall d, (d < 3)%nat -> len b d <= 0). { intros d Hd. unfold len. destruct d as [|[|[|d]]]; cbn [mn_of mx_of]; lra || lia. }
  assert (A1 := A da). assert (A2 := A db). destruct Hc as [X|[X|X]]; injection X as -> ->; specialize (A1 ltac:(lia)); specialize (A2 ltac:(lia)); nra.
Qed.
Lemma even2 n m (C : nat -> nat -> R) :
  even_sum n (fun i => even_sum m (fun j => C i j * Int_ChebTn_OPTM i n * Int_ChebTn_OPTM j m)) =
  Rsum n (fun i => Rsum m (fun j => C i j * integral_conventional_ChebTn n i PI 0 * integral_conventional_ChebTn m j PI 0)).
Proof.
  rewrite (even_sum_ext n _ (fun i => Rsum m (fun j => C i j * integral_conventional_ChebTn m j PI 0) * Int_ChebTn_OPTM i n)).
  - rewrite even_weights. apply Rsum_ext. intros i _. rewrite <- Rsum_scal_r. apply Rsum_ext. intros j _. ring.
  - intros i _ _. rewrite even_weights, <- Rsum_scal_r. apply Rsum_ext. intros j _. ring.
Qed.
Lemma plane_integral n m mnA mxA mnB mxB (v C : nat -> nat -> R) A : (2 <= n)%nat -> (2 <= m)%nat -> mnA < mxA -> mnB < mxB ->
  (forall s t, (s < n)%nat -> (t < m)%nat -> v s t = (mnA-mxA)/2 * ((mnB-mxB)/2) * peval2 n m A (point_extrema mnA mxA n s) (point_extrema mnB mxB m t)) ->
  (forall i j, (i < n)%nat -> (j < m)%nat -> C i j = FT m (fun t => FT n (fun s => v s t) i) j) ->
  integral2_is (peval2 n m A) mnA mxA mnB mxB (even_sum n (fun i => even_sum m (fun j => C i j * Int_ChebTn_OPTM i n * Int_ChebTn_OPTM j m))).
Proof.
  intros Hn Hm HA HB Hv HC. rewrite even2.
  rewrite (plane_sum n m v (fun a c => (mnA-mxA)/2 * ((mnB-mxB)/2) * A a c) (fun a t => point_extrema mnA mxA n t ^ a) (fun a t => point_extrema mnB mxB m t ^ a)
    (fun i => integral_conventional_ChebTn n i PI 0) (fun i => integral_conventional_ChebTn m i PI 0) C
    (fun a => (powI a mxA - powI a mnA) * (2 / (mxA-mnA))) (fun a => (powI a mxB - powI a mnB) * (2 / (mxB-mnB)))); auto.
  - rewrite (Rsum_ext n _ (fun i => Rsum m (fun j => A i j * dI i mnA mxA * dI j mnB mxB))). apply integral2_poly.
    intros i _. apply Rsum_ext. intros j _. unfold dI. field. lra.
  - intros s t Hs Ht. rewrite Hv by auto. unfold peval2. rewrite <- Rsum_scal. apply Rsum_ext; intros. rewrite <- Rsum_scal. apply Rsum_ext; intros. ring.
  - intros a Ha. apply whole_mono; auto.
  - intros a Ha. apply whole_mono; auto.
Qed.
Lemma surface_integrand_ok b f g face I da db : well b -> (I < n_in b face)%nat -> (face < 3)%nat ->
  ((da, db) = (1, 2) \/ (da, db) = (0, 2) \/ (da, db) = (0, 1))%nat ->
  (forall i j k, (i < n0 b)%nat -> (j < n1 b)%nat -> (k < n2 b)%nat -> (match face with 0 => i | 1 => j | _ => k end = I)%nat ->
     0 <= gpair (g (at_ b i j k)) da db) ->
  exists F, surface_integrand cart b f g face I da db = Some F /\
  forall i j k, (i < n0 b)%nat -> (j < n1 b)%nat -> (k < n2 b)%nat -> (match face with 0 => i | 1 => j | _ => k end = I)%nat ->
   F (at_ b i j k) = len b da * len b db * (f (at_ b i j k) * sqrt (gpair (g (at_ b i j k)) da db)).
Proof.
  intros Hw HI Hf Hc Hp. unfold surface_integrand.
  edestruct (all_points_ok (n0 b * n1 b * n2 b) (fun l =>
    let k := (l mod n2 b)%nat in let j := (l / n2 b mod n1 b)%nat in let i := (l / n2 b / n1 b)%nat in
    if Nat.eqb (match face with 0 => i | 1 => j | _ => k end) I then surface_at cart b f g da db l else Some 0) (fun _ => 0)
    (fun l => if Nat.eqb (match face with 0 => (l / n2 b / n1 b)%nat | 1 => (l / n2 b mod n1 b)%nat | _ => (l mod n2 b)%nat end) I then len b da * len b db * (f l * sqrt (gpair (g l) da db)) else 0)) as (F & E & HF).
  { intros l Hl. cbv beta zeta. destruct (unflatten b l Hl) as (i & j & k & Hi & Hj & Hk & El & Ek & Ej & Ei).
    rewrite <- Ek, <- Ej, <- Ei. destruct (Nat.eqb_spec (match face with 0 => i | 1 => j | _ => k end) I) as [e|]; [|reflexivity].
    apply surface_at_cart; auto. rewrite El. apply Hp; auto. }
  exists F; split; auto. intros i j k Hi Hj Hk He. rewrite HF by (apply IndexProofs.ijk_lt; auto).
  destruct (unflatten b (at_ b i j k)) as (i' & j' & k' & Hi' & Hj' & Hk' & El & Ek & Ej & Ei). { apply IndexProofs.ijk_lt; auto. }
  destruct (IndexProofs.ijk_inj (n0 b) _ _ _ _ _ _ _ _ Hj Hk Hj' Hk' El) as (<- & <- & <-).
  rewrite <- Ek, <- Ej, <- Ei, He, Nat.eqb_refl. reflexivity.
Qed.
(** on the points of the surface, f*sqrt(determinant of the induced 2-metric) are the values of the polynomial A *)
Definition area_density (b : box) (f : nat -> R) (g : nat -> metric) (face I : nat) (A : nat -> nat -> R) : Prop :=
  match face with
  | 0 => forall j k, (j < n1 b)%nat -> (k < n2 b)%nat -> let G := g (at_ b I j k) in
     0 <= det2s (g11 G) (g12 G) (g22 G) /\ f (at_ b I j k) * sqrt (det2s (g11 G) (g12 G) (g22 G)) = peval2 (n1 b) (n2 b) A (py b j) (pz b k)
  | 1 => forall i k, (i < n0 b)%nat -> (k < n2 b)%nat -> let G := g (at_ b i I k) in
     0 <= det2s (g00 G) (g02 G) (g22 G) /\ f (at_ b i I k) * sqrt (det2s (g00 G) (g02 G) (g22 G)) = peval2 (n0 b) (n2 b) A (px b i) (pz b k)
  | _ => forall i j, (i < n0 b)%nat -> (j < n1 b)%nat -> let G := g (at_ b i j I) in
     0 <= det2s (g00 G) (g01 G) (g11 G) /\ f (at_ b i j I) * sqrt (det2s (g00 G) (g01 G) (g11 G)) = peval2 (n0 b) (n1 b) A (px b i) (py b j)
  end.
Theorem surface_dS b f g face I A : well b -> (face < 3)%nat -> (I < n_in b face)%nat -> area_density b f g face I A ->
  exists V, f_xyz_dS cart b f g face I = Ok (Some V) /\
  match face with
  | 0 => integral2_is (peval2 (n1 b) (n2 b) A) (mn1 b) (mx1 b) (mn2 b) (mx2 b) V
  | 1 => integral2_is (peval2 (n0 b) (n2 b) A) (mn0 b) (mx0 b) (mn2 b) (mx2 b) V
  | _ => integral2_is (peval2 (n0 b) (n1 b) A) (mn0 b) (mx0 b) (mn1 b) (mx1 b) V
  end.
Proof.
  intros Hw Hf HI Hd. destruct face as [|[|[|face]]]; [| | |lia]; cbn [n_in] in HI; unfold area_density in Hd; unfold f_xyz_dS.
  - destruct (surface_integrand_ok b f g 0 I 1 2 Hw HI Hf ltac:(auto)) as (F & -> & HF).
    { intros i j k Hi Hj Hk ->. apply Hd; auto. }
    cbn [oR]. destruct (coeffs_12 b F I Hw HI) as (C & -> & HC). cbn [use obind]. eexists; split; [reflexivity|].
    destruct Hw as (N0 & N1 & N2 & M0 & M1 & M2).
    apply (plane_integral (n1 b) (n2 b) (mn1 b) (mx1 b) (mn2 b) (mx2 b) (fun s t => F (at_ b I s t)) (fun j k => C (at_ b I j k))); auto.
    intros s t Hs Ht. rewrite HF by auto. unfold len; cbn [mn_of mx_of]. f_equal. apply Hd; auto.
  - destruct (surface_integrand_ok b f g 1 I 0 2 Hw HI Hf ltac:(auto)) as (F & -> & HF).
    { intros i j k Hi Hj Hk ->. apply Hd; auto. }
    cbn [oR]. destruct (coeffs_02 b F I Hw HI) as (C & -> & HC). cbn [use obind]. eexists; split; [reflexivity|].
    destruct Hw as (N0 & N1 & N2 & M0 & M1 & M2).
    apply (plane_integral (n0 b) (n2 b) (mn0 b) (mx0 b) (mn2 b) (mx2 b) (fun s t => F (at_ b s I t)) (fun j k => C (at_ b j I k))); auto.
    intros s t Hs Ht. rewrite HF by auto. unfold len; cbn [mn_of mx_of]. f_equal. apply Hd; auto.
  - destruct (surface_integrand_ok b f g 2 I 0 1 Hw HI Hf ltac:(auto)) as (F & -> & HF).
    { intros i j k Hi Hj Hk ->. apply Hd; auto. }
    cbn [oR]. destruct (coeffs_01 b F I Hw HI) as (C & -> & HC). cbn [use obind]. eexists; split; [reflexivity|].
    destruct Hw as (N0 & N1 & N2 & M0 & M1 & M2).
    apply (plane_integral (n0 b) (n1 b) (mn0 b) (mx0 b) (mn1 b) (mx1 b) (fun s t => F (at_ b s t I)) (fun j k => C (at_ b j k I))); auto.
    intros s t Hs Ht. rewrite HF by auto. unfold len; cbn [mn_of mx_of]. f_equal. apply Hd; auto.
Qed.
