(** IntegrationExamples.v - corollaries and concrete cases for Props_Integration. *)
From Verif Require Import RealBase TrigSums SpectralModel SpectralSpec ChebProofs SpectralProofs SpectralDeriv Spectral3Model Spectral3Spec Spectral3Proofs IntegrationProofs SurfaceProofs QuadProofs.
From Verif Require Base IndexModel IndexProofs.
Import Base(outcome, Ok, Abort, UB, obind).
Open Scope R_scope.

Lemma interp_X_poly b v p x J K : well b -> (J < n1 b)%nat -> (K < n2 b)%nat -> (length p <= n0 b)%nat ->
  (forall i, (i < n0 b)%nat -> v (at_ b i J K) = peval p (px b i)) -> mn0 b <= x <= mx0 b ->
  interpolation_X b v x J K = Ok (Some (peval p (clip (mn0 b) (mx0 b) x))).
Proof. intros Hw HJ HK Hl Hv Hx. rewrite interp_X by auto. f_equal. destruct Hw as (? & ? & ? & ? & ? & ?). apply interp_poly; auto. Qed.
Lemma interp_Y_poly b v p y I K : well b -> (I < n0 b)%nat -> (K < n2 b)%nat -> (length p <= n1 b)%nat ->
  (forall j, (j < n1 b)%nat -> v (at_ b I j K) = peval p (py b j)) -> mn1 b <= y <= mx1 b ->
  interpolation_Y b v y I K = Ok (Some (peval p (clip (mn1 b) (mx1 b) y))).
Proof. intros Hw HJ HK Hl Hv Hx. rewrite interp_Y by auto. f_equal. destruct Hw as (? & ? & ? & ? & ? & ?). apply interp_poly; auto. Qed.
Lemma interp_Z_poly b v p z I J : well b -> (I < n0 b)%nat -> (J < n1 b)%nat -> (length p <= n2 b)%nat ->
  (forall k, (k < n2 b)%nat -> v (at_ b I J k) = peval p (pz b k)) -> mn2 b <= z <= mx2 b ->
  interpolation_Z b v z I J = Ok (Some (peval p (clip (mn2 b) (mx2 b) z))).
Proof. intros Hw HJ HK Hl Hv Hx. rewrite interp_Z by auto. f_equal. destruct Hw as (? & ? & ? & ? & ? & ?). apply interp_poly; auto. Qed.

(** ** the value of an integral is determined *)
Lemma const_of_null f : (forall x, derivable_pt_lim f x 0) -> forall x y, f x = f y.
Proof.
  intros H x y. assert (pr : derivable f) by (intros z; exists 0; apply H).
  apply (null_derivative_1 f pr). intros z. apply derive_pt_eq_0, H.
Qed.
Lemma integral_unique f g a b I I' : (forall x, f x = g x) -> integral_is f a b I -> integral_is g a b I' -> I = I'.
Proof.
  intros E (F & HF & ->) (G & HG & ->).
  assert (H : forall x y, (F - G)%F x = (F - G)%F y).
  { apply const_of_null. intros x. replace 0 with (f x - g x) by (rewrite E; ring). apply derivable_pt_lim_minus; auto. }
  specialize (H a b). unfold minus_fct in H. lra.
Qed.
Lemma integral2_unique f g a0 b0 a1 b1 I I' : (forall x y, f x y = g x y) -> integral2_is f a0 b0 a1 b1 I -> integral2_is g a0 b0 a1 b1 I' -> I = I'.
Proof.
  intros E (F & HF & H1) (G & HG & H2). apply (integral_unique F G a1 b1); auto.
  intros y. apply (integral_unique (fun x => f x y) (fun x => g x y) a0 b0); auto.
Qed.
Lemma integral3_unique f a0 b0 a1 b1 a2 b2 I I' :
  integral3_is f a0 b0 a1 b1 a2 b2 I -> integral3_is f a0 b0 a1 b1 a2 b2 I' -> I = I'.
Proof.
  intros (F & HF & H1) (G & HG & H2). apply (integral2_unique F G a1 b1 a2 b2); auto.
  intros y z. apply (integral_unique (fun x => f x y z) (fun x => f x y z) a0 b0); auto.
Qed.

(** ** Jacobians *)
Lemma inverse_jacobian2 j b : det_dN_dx j b <> 0 -> exists p q : nat -> nat -> R,
    (forall r c, (r < 3)%nat -> (c < 3)%nat -> dq2_dq1 j b (N_ r) (x_ c) = Ok (Some (p r c))) /\
    (forall r c, (r < 3)%nat -> (c < 3)%nat -> dq2_dq1 j b (x_ r) (N_ c) = Ok (Some (q r c))) /\
    (forall r c, (r < 3)%nat -> (c < 3)%nat ->
      Rsum 3 (fun m => p r m * q m c) = (if Nat.eqb r c then 1 else 0) /\
      Rsum 3 (fun m => q r m * p m c) = (if Nat.eqb r c then 1 else 0)).
Proof. intros H. destruct (inverse_jacobian j b H) as (q & H1 & H2). exists (a_entry j b), q. auto. Qed.
Lemma jacobian_self j b d : dq2_dq1 j b (N_ d) (N_ d) = Ok (Some 1) /\ dq2_dq1 j b (x_ d) (x_ d) = Ok (Some 1) /\ dq2_dq1 j b (a_ d) (a_ d) = Ok (Some 1).
Proof. unfold dq2_dq1, Dd_eqb. rewrite Nat.eqb_refl. auto. Qed.
Lemma cart_regular b : well b -> det_dN_dx JT_Cartesian b <> 0.
Proof.
  intros Hw. pose proof (J_cart b Hw) as H. unfold J_xyzN0N1N2, fdiv in H. destruct (Req_EM_T (det_dN_dx JT_Cartesian b) 0); [discriminate|auto].
Qed.

Lemma chain_rule j b r c (X : R -> R) t : (r < 3)%nat -> mn_of b r <> mx_of b r -> derivable_pt_lim X t (j (a_ r) (x_ c)) ->
  exists d, dq2_dq1 j b (N_ r) (x_ c) = Ok (Some d) /\
    derivable_pt_lim (fun s => (2 * X s - (mn_of b r + mx_of b r)) / (mn_of b r - mx_of b r)) t d.
Proof.
  intros Hr Hm HX. unfold dq2_dq1. cbn [Dd_eqb]. eexists; split; [reflexivity|].
  unfold dN_dq, dN_dXd. cbn [dir]. rewrite Nat.eqb_refl. unfold SpectralModel.dN_dX.
  set (m := mn_of b r) in *. set (M := mx_of b r) in *.
  apply (dlim_ext (fun s => 2 / (- M + m) * (X s + - ((m + M) / 2)))). { intros s. field. lra. }
  apply (derivable_pt_lim_scal (fun s => X s + - ((m + M) / 2))).
  replace (j (a_ r) (x_ c)) with (j (a_ r) (x_ c) + 0) by ring.
  apply (derivable_pt_lim_plus X (fct_cte (- ((m + M)/2)))); auto. apply derivable_pt_lim_const.
Qed.

(** ** filter *)
Lemma filter_low erfc p n : erfclog erfc (th_of n 0) p = 1. Proof. rewrite th_first. apply erfclog_0. Qed.
Lemma filter_high erfc p n : (2 <= n)%nat -> erfclog erfc (th_of n (n-1)) p = 0. Proof. intros. rewrite th_last by auto. apply erfclog_1. Qed.
Lemma filter_range erfc p th : (forall x, 0 <= erfc x <= 2) -> 0 <= erfclog erfc th p <= 1. Proof. apply erfclog_range. Qed.
Lemma at_split b i j k : (i < n0 b)%nat -> (j < n1 b)%nat -> (k < n2 b)%nat ->
  (at_ b i j k mod n2 b = k /\ at_ b i j k / n2 b mod n1 b = j /\ at_ b i j k / n2 b / n1 b = i)%nat.
Proof.
  intros Hi Hj Hk. assert (L : (at_ b i j k < n0 b * n1 b * n2 b)%nat) by (apply IndexProofs.ijk_lt; auto).
  assert (E : at_ b i j k = (k + (j + i * n1 b) * n2 b)%nat) by (unfold at_, IndexModel.ijk; lia).
  assert (E1 : (at_ b i j k / n2 b = j + i * n1 b)%nat). { rewrite E, Nat.div_add by lia. rewrite Nat.div_small; lia. }
  repeat split.
  - rewrite E, Nat.mod_add by lia. apply Nat.mod_small; auto.
  - rewrite E1, Nat.mod_add by lia. apply Nat.mod_small; auto.
  - rewrite E1, Nat.div_add by lia. rewrite Nat.div_small; lia.
Qed.
Lemma filter_cache erfc p b v w C C' : well b -> small b -> filter_erfclog erfc p b v = Ok (Some w) -> make_coeffs_3d b v = Ok (Some C) ->
  make_coeffs_3d b (fun l => w (l / n2 b / n1 b) (l / n2 b mod n1 b) (l mod n2 b))%nat = Ok (Some C') ->
  forall i j k, (i < n0 b)%nat -> (j < n1 b)%nat -> (k < n2 b)%nat -> C' (at_ b i j k) = filtered_coeffs erfc p b C i j k.
Proof.
  intros Hw Hs Ef EC EC' i j k Hi Hj Hk. destruct (series_exists b v Hw) as [d Hd].
  destruct (filter_series erfc p b v d Hw Hs Hd) as (w' & Ef' & Hw'). rewrite Ef in Ef'. injection Ef' as <-.
  destruct (coeffs_of_series b v d Hw Hd) as (C0 & E0 & HC0). rewrite EC in E0. injection E0 as <-.
  edestruct (coeffs_of_series b (fun l => w (l / n2 b / n1 b) (l / n2 b mod n1 b) (l mod n2 b))%nat) as (C1 & E1 & HC1); [exact Hw| |].
  { intros a c e Ha Hc He. destruct (at_split b a c e Ha Hc He) as (S1 & S2 & S3). rewrite S1, S2, S3. apply Hw'; auto. }
  rewrite EC' in E1. injection E1 as <-. rewrite HC1 by auto. unfold filtered_coeffs. rewrite HC0 by auto. ring.
Qed.
Lemma Factorial_neg n : (n < 0)%Z -> Factorial n = Abort.
Proof. intros. unfold Factorial. destruct (Z.ltb_spec n 0); [auto|lia]. Qed.

(** ** concrete cases *)
Definition box_ex : box := mkBox 3 3 3 0 2 0 4 0 6.
Definition xyz_ex (l : nat) : R := px box_ex (l / 3 / 3) * py box_ex (l / 3 mod 3) * pz box_ex (l mod 3).
Definition xyz_poly (i j k : nat) : R := if (Nat.eqb i 1 && Nat.eqb j 1 && Nat.eqb k 1)%bool then 1 else 0.
Definition flat (l : nat) : metric := mkG 1 0 0 1 0 1.
Lemma box_ex_well : well box_ex. Proof. unfold well, box_ex; cbn; repeat split; lia || lra. Qed.
Lemma box_ex_small : small box_ex. Proof. unfold small, box_ex; cbn; repeat split; lra. Qed.
Lemma xyz_at i j k : (i < 3)%nat -> (j < 3)%nat -> (k < 3)%nat -> xyz_ex (at_ box_ex i j k) = px box_ex i * py box_ex j * pz box_ex k.
Proof.
  intros Hi Hj Hk. destruct (at_split box_ex i j k Hi Hj Hk) as (S1 & S2 & S3). cbn [n1 n2 box_ex] in *. unfold xyz_ex.
  change (n2 box_ex) with 3%nat in *. change (n1 box_ex) with 3%nat in *. rewrite S1, S2, S3. reflexivity.
Qed.
Lemma xyz_eval x y z : peval3 3 3 3 xyz_poly x y z = x * y * z.
Proof. unfold peval3, xyz_poly. cbn [Rsum Nat.eqb andb pow]. ring. Qed.
Lemma ex_takes : takes box_ex xyz_ex xyz_poly.
Proof. intros i j k Hi Hj Hk. rewrite xyz_at by auto. symmetry. apply xyz_eval. Qed.
Lemma ex_density : density box_ex xyz_ex flat xyz_poly.
Proof.
  intros i j k Hi Hj Hk. cbn [flat g00 g01 g02 g11 g12 g22]. replace (det3s 1 0 0 1 0 1) with 1 by (unfold det3s; ring).
  split; [lra|]. rewrite sqrt_1, Rmult_1_r. apply ex_takes; auto.
Qed.
Lemma clip_in mn mx x : mn + (mx - mn) / 4 <= x <= mx - (mx - mn) / 8 -> mn < mx -> clip mn mx x = x.
Proof.
  intros H Hm. unfold clip. destruct (Rlt_dec _ _) as [L|_]. { exfalso. rewrite Rabs_right in L by lra. lra. }
  destruct (Rlt_dec _ _) as [L|_]; auto. exfalso. rewrite Rabs_left in L by lra. lra.
Qed.
Lemma ex_interp : well box_ex /\ takes box_ex xyz_ex xyz_poly /\ interpolation_XYZ box_ex xyz_ex 1 3 5 = Ok (Some 15).
Proof.
  split; [apply box_ex_well|]. split; [apply ex_takes|].
  rewrite (interp_XYZ _ _ _ _ _ _ box_ex_well ex_takes) by (cbn; lra). cbn [box_ex n0 n1 n2 mn0 mx0 mn1 mx1 mn2 mx2].
  rewrite !clip_in by lra. rewrite xyz_eval. do 2 f_equal. ring.
Qed.
Lemma ex_volume : well box_ex /\ density box_ex xyz_ex flat xyz_poly /\
  exists V, f_xyz_whole_dV cart box_ex xyz_ex flat = Ok (Some V) /\ V = 2 * 4 * 6 * 1 * 2 * 3.
Proof.
  split; [apply box_ex_well|]. split; [apply ex_density|].
  destruct (whole_dV box_ex xyz_ex flat xyz_poly box_ex_well ex_density) as (V & E & HV). exists V; split; auto.
  rewrite (integral3_unique _ _ _ _ _ _ _ _ _ HV (integral3_poly 3 3 3 xyz_poly 0 2 0 4 0 6)).
  unfold xyz_poly, dI, powI. cbn [Rsum Nat.eqb andb pow INR]. field.
Qed.
Lemma ex_interval : well box_ex /\ density box_ex xyz_ex flat xyz_poly /\ px box_ex 0 = 0 /\ px box_ex 2 = 2.
Proof.
  split; [apply box_ex_well|]. split; [apply ex_density|].
  unfold px, point_extrema. cbn [box_ex n0 mn0 mx0 Nat.sub INR]. split.
  - replace (0 * PI / (1+1)) with 0 by field. rewrite ?Rmult_0_l, ?Rdiv_0_l, cos_0. lra.
  - replace ((1+1) * PI / (1+1)) with PI by field. replace ((1+1) * (PI / (1+1))) with PI by field. rewrite cos_PI. lra.
Qed.
Lemma ex_surface : well box_ex /\ area_density box_ex (fun _ => 1) flat 0 1 (fun i j => if (Nat.eqb i 0 && Nat.eqb j 0)%bool then 1 else 0) /\
  exists V, f_xyz_dS cart box_ex (fun _ => 1) flat 0 1 = Ok (Some V) /\ V = 4 * 6.
Proof.
  split; [apply box_ex_well|].
  assert (D : area_density box_ex (fun _ => 1) flat 0 1 (fun i j => if (Nat.eqb i 0 && Nat.eqb j 0)%bool then 1 else 0)).
  { intros j k Hj Hk. cbn [flat g00 g01 g02 g11 g12 g22]. replace (det2s 1 0 1) with 1 by (unfold det2s; ring). split; [lra|].
    rewrite sqrt_1. unfold peval2. cbn [box_ex n1 n2 Rsum Nat.eqb andb pow]. ring. }
  split; auto.
  destruct (surface_dS box_ex (fun _ => 1) flat 0 1 _ box_ex_well ltac:(lia) ltac:(cbn; lia) D) as (V & E & HV). exists V; split; auto.
  rewrite (integral2_unique _ _ _ _ _ _ _ _ (fun x y => eq_refl) HV (integral2_poly 3 3 _ 0 4 0 6)).
  unfold dI, powI. cbn [Rsum Nat.eqb andb pow INR]. field.
Qed.
Lemma ex_simpson : exists V, Composite_Simpson_1D 0 2 3 (fun j => peval [0;0;0;1] (0 + INR j * ((2 - 0) / INR (3-1)))) = Ok (Some V) /\ V = 4.
Proof.
  destruct (simpson_exact 0 2 3 (fun j => peval [0;0;0;1] (0 + INR j * ((2 - 0) / INR (3-1)))) [0;0;0;1] eq_refl ltac:(lia) ltac:(cbn; lia) ltac:(auto)) as (V & E & HV).
  exists V; split; auto.
  assert (P : integral_is (peval [0;0;0;1]) 0 2 4).
  { exists (cubicI [0;0;0;1]). split. apply d_cubicI. unfold cubicI, powI. cbn [length Rsum nth pow INR]. field. }
  apply (integral_unique _ _ _ _ _ _ (fun x => eq_refl) HV P).
Qed.
Lemma ex_gauss : exists V, GaussQuadrature_ChebyshevExtrema 3 (fun j => peval [1;1] (- cos (INR j * PI / INR (3-1)))) = Ok V /\ V = PI.
Proof.
  destruct (gauss_small 3 (fun j => peval [1;1] (- cos (INR j * PI / INR (3-1)))) [1;1] ltac:(lia) ltac:(cbn; lia) ltac:(auto)) as (V & E & HV).
  exists V; split; auto.
  assert (P : integral_is (fun t => peval [1;1] (cos t)) 0 PI PI).
  { exists (fun t => t + sin t). split.
    - intros t. apply (dlim_ext (id + sin)%F). reflexivity. cbn [peval]. replace (1 + cos t * (1 + cos t * 0)) with (1 + cos t) by ring.
      apply derivable_pt_lim_plus. apply derivable_pt_lim_id. apply derivable_pt_lim_sin.
    - rewrite sin_PI, sin_0. ring. }
  apply (integral_unique _ _ _ _ _ _ (fun x => eq_refl) HV P).
Qed.
