(** Spectral3Proofs.v - tensor structure of the 3-d transforms; interpolation. *)
From Verif Require Import RealBase TrigSums SpectralModel SpectralSpec ChebProofs SpectralProofs SpectralDeriv Spectral3Model Spectral3Spec.
From Verif Require Base IndexModel IndexProofs.
Import Base(outcome, Ok, Abort, UB, obind).
Import IndexModel(ijk, coeffs_patch_1d).
Open Scope R_scope.

(** ** the 1-d transform is linear *)
Lemma FT_W n v i : (2 <= n)%nat -> FT n v i = W (n-1) (fun j => v j * cos (INR j * (INR i * PI / INR (n-1)))) / INR (n-1).
Proof. intros Hn. unfold FT. destruct (coeffs_extrema v n Hn) as (C & -> & H). apply H. Qed.
Lemma FT_ext n v w i : (2 <= n)%nat -> (forall t, (t < n)%nat -> v t = w t) -> FT n v i = FT n w i.
Proof. intros Hn H. rewrite !FT_W by auto. f_equal. apply W_ext. intros k Hk. rewrite H by lia. reflexivity. Qed.
Lemma FT_scal n c v i : (2 <= n)%nat -> FT n (fun t => c * v t) i = c * FT n v i.
Proof.
  intros Hn. rewrite !FT_W by auto.
  rewrite (W_ext _ _ (fun j => c * (v j * cos (INR j * (INR i * PI / INR (n-1)))))) by (intros; ring). rewrite W_scal. unfold Rdiv. ring.
Qed.
Lemma FT_sum n m (F : nat -> nat -> R) i : (2 <= n)%nat -> FT n (fun t => Rsum m (fun a => F a t)) i = Rsum m (fun a => FT n (F a) i).
Proof.
  intros Hn. rewrite FT_W by auto.
  rewrite (W_ext _ _ (fun j => Rsum m (fun a => F a j * cos (INR j * (INR i * PI / INR (n-1)))))).
  2:{ intros. rewrite Rsum_scal_r. reflexivity. }
  rewrite (W_Rsum (n-1) m (fun j a => F a j * cos (INR j * (INR i * PI / INR (n-1))))).
  unfold Rdiv at 1. rewrite <- Rsum_scal_r. apply Rsum_ext. intros a _. rewrite FT_W by auto. reflexivity.
Qed.

(** ** 3-d coefficients *)
Section P.
Variable b : box.
Hypothesis H0 : (2 <= n0 b)%nat.
Hypothesis H1 : (2 <= n1 b)%nat.
Hypothesis H2 : (2 <= n2 b)%nat.

Lemma dir_coeffs d v : (d < 3)%nat -> exists c, find_1d_coeffs b d v = Ok (Some c) /\
  forall i j k, (i < n0 b)%nat -> (j < n1 b)%nat -> (k < n2 b)%nat ->
    c (at_ b i j k) = match d with
     | 0 => FT (n0 b) (fun t => v (at_ b t j k)) i
     | 1 => FT (n1 b) (fun t => v (at_ b i t k)) j
     | _ => FT (n2 b) (fun t => v (at_ b i j t)) k end.
Proof.
  intros Hd. unfold find_1d_coeffs.
  assert (E : Nat.ltb (n_in b d) 2 = false) by (apply Nat.ltb_ge; destruct d as [|[|d]]; cbn; auto). rewrite E.
  destruct (proj1 IndexProofs.line_transform_all R FT (n0 b) (n1 b) (n2 b) d v (fun _ => 0) Hd) as (w & -> & Hw & _).
  cbn [obind]. exists w; split; auto.
Qed.
Lemma coeffs_3d v : exists C, make_coeffs_3d b v = Ok (Some C) /\
  forall i j k, (i < n0 b)%nat -> (j < n1 b)%nat -> (k < n2 b)%nat ->
    C (at_ b i j k) = FT (n2 b) (fun t2 => FT (n1 b) (fun t1 => FT (n0 b) (fun t0 => v (at_ b t0 t1 t2)) i) j) k.
Proof.
  unfold make_coeffs_3d.
  destruct (dir_coeffs 0 v ltac:(lia)) as (c0 & -> & E0). cbn [then_1d obind].
  destruct (dir_coeffs 1 c0 ltac:(lia)) as (c1 & -> & E1). cbn [then_1d obind].
  destruct (dir_coeffs 2 c1 ltac:(lia)) as (c2 & -> & E2). exists c2; split; auto.
  intros i j k Hi Hj Hk. rewrite E2 by auto. apply FT_ext; auto. intros t2 Ht2. rewrite E1 by auto.
  apply FT_ext; [exact H1|]. intros t1 Ht1. rewrite E0 by auto. reflexivity.
Qed.
(** coefficients of a sum of products *)
Lemma coeffs_3d_tensor v m0 m1 m2 (A : nat -> nat -> nat -> R) (X Y Z : nat -> nat -> R) :
  (forall i j k, (i < n0 b)%nat -> (j < n1 b)%nat -> (k < n2 b)%nat ->
     v (at_ b i j k) = Rsum m0 (fun a => Rsum m1 (fun c => Rsum m2 (fun e => A a c e * X a i * Y c j * Z e k)))) ->
  exists C, make_coeffs_3d b v = Ok (Some C) /\
  forall i j k, (i < n0 b)%nat -> (j < n1 b)%nat -> (k < n2 b)%nat ->
    C (at_ b i j k) = Rsum m0 (fun a => Rsum m1 (fun c => Rsum m2 (fun e => A a c e * FT (n0 b) (X a) i * FT (n1 b) (Y c) j * FT (n2 b) (Z e) k))).
Proof.
  intros Hv. destruct (coeffs_3d v) as (C & E & HC). exists C; split; auto. intros i j k Hi Hj Hk. rewrite HC by auto.
  rewrite (FT_ext (n2 b) _ (fun t2 => Rsum m0 (fun a => Rsum m1 (fun c => Rsum m2 (fun e => A a c e * FT (n0 b) (X a) i * FT (n1 b) (Y c) j * Z e t2))))); auto.
  - rewrite FT_sum by auto. apply Rsum_ext. intros a _. rewrite FT_sum by auto. apply Rsum_ext. intros c _. rewrite FT_sum by auto. apply Rsum_ext. intros e _.
    rewrite FT_scal by auto. reflexivity.
  - intros t2 Ht2.
    rewrite (FT_ext (n1 b) _ (fun t1 => Rsum m0 (fun a => Rsum m1 (fun c => Rsum m2 (fun e => (A a c e * FT (n0 b) (X a) i * Z e t2) * Y c t1))))); auto.
    + rewrite FT_sum by auto. apply Rsum_ext. intros a _. rewrite FT_sum by auto. apply Rsum_ext. intros c _. rewrite FT_sum by auto. apply Rsum_ext. intros e _.
      rewrite FT_scal by auto. ring.
    + intros t1 Ht1.
      rewrite (FT_ext (n0 b) _ (fun t0 => Rsum m0 (fun a => Rsum m1 (fun c => Rsum m2 (fun e => (A a c e * Y c t1 * Z e t2) * X a t0))))); auto.
      * rewrite FT_sum by auto. apply Rsum_ext. intros a _. rewrite FT_sum by auto. apply Rsum_ext. intros c _. rewrite FT_sum by auto. apply Rsum_ext. intros e _.
        rewrite FT_scal by auto. ring.
      * intros t0 Ht0. rewrite Hv by auto. apply Rsum_ext. intros a _. apply Rsum_ext. intros c _. apply Rsum_ext. intros e _. ring.
Qed.
(** a sum over all coefficients with product weights *)
Lemma weighted_3d N0 N1 N2 m0 m1 m2 (A : nat -> nat -> nat -> R) (x y z : nat -> nat -> R) (p q r : nat -> R) :
  Rsum N0 (fun i => Rsum N1 (fun j => Rsum N2 (fun k =>
    Rsum m0 (fun a => Rsum m1 (fun c => Rsum m2 (fun e => A a c e * x a i * y c j * z e k))) * p i * q j * r k))) =
  Rsum m0 (fun a => Rsum m1 (fun c => Rsum m2 (fun e => A a c e * Rsum N0 (fun i => x a i * p i) * Rsum N1 (fun j => y c j * q j) * Rsum N2 (fun k => z e k * r k)))).
Proof.
  transitivity (Rsum N0 (fun i => Rsum N1 (fun j => Rsum m0 (fun a => Rsum m1 (fun c => Rsum m2 (fun e => A a c e * (x a i * p i) * (y c j * q j) * Rsum N2 (fun k => z e k * r k))))))).
  { apply Rsum_ext; intros i _. apply Rsum_ext; intros j _.
    rewrite (Rsum_ext N2 _ (fun k => Rsum m0 (fun a => Rsum m1 (fun c => Rsum m2 (fun e => A a c e * (x a i * p i) * (y c j * q j) * (z e k * r k)))))).
    2:{ intros k _. rewrite <- !Rsum_scal_r. apply Rsum_ext; intros a _. rewrite <- !Rsum_scal_r. apply Rsum_ext; intros c _. rewrite <- !Rsum_scal_r. apply Rsum_ext; intros e _. ring. }
    rewrite Rsum_exchange. apply Rsum_ext; intros a _. rewrite Rsum_exchange. apply Rsum_ext; intros c _. rewrite Rsum_exchange. apply Rsum_ext; intros e _.
    rewrite Rsum_scal. reflexivity. }
  transitivity (Rsum N0 (fun i => Rsum m0 (fun a => Rsum m1 (fun c => Rsum m2 (fun e => A a c e * (x a i * p i) * Rsum N1 (fun j => y c j * q j) * Rsum N2 (fun k => z e k * r k)))))).
  { apply Rsum_ext; intros i _.
    rewrite Rsum_exchange. apply Rsum_ext; intros a _. rewrite Rsum_exchange. apply Rsum_ext; intros c _. rewrite Rsum_exchange. apply Rsum_ext; intros e _.
    rewrite Rsum_scal_r, Rsum_scal. reflexivity. }
  rewrite Rsum_exchange. apply Rsum_ext; intros a _. rewrite Rsum_exchange. apply Rsum_ext; intros c _. rewrite Rsum_exchange. apply Rsum_ext; intros e _.
  rewrite !Rsum_scal_r, Rsum_scal. reflexivity.
Qed.
End P.

(** ** exactness along one line, on monomials *)
Definition mono (a : nat) : list R := repeat 0 a ++ [1].
Lemma mono_len a : length (mono a) = S a.
Proof. unfold mono. rewrite app_length, repeat_length. cbn. lia. Qed.
Lemma mono_eval a x : peval (mono a) x = x ^ a.
Proof. unfold mono. induction a; cbn [repeat app peval pow]; [ring|]. rewrite IHa. ring. Qed.
Lemma interp_mono mn mx n a pt : (2 <= n)%nat -> mn < mx -> mn <= pt <= mx -> (a < n)%nat ->
  Rsum n (fun i => FT n (fun t => point_extrema mn mx n t ^ a) i * T_cheb_combined n i (General2ChebyshevExtrema mn mx pt)) = clip mn mx pt ^ a.
Proof.
  intros Hn Hm Hp Ha.
  pose proof (interp_poly mn mx n (fun t => point_extrema mn mx n t ^ a) (mono a) pt Hn Hm Hp) as E.
  rewrite mono_len in E. specialize (E ltac:(lia) ltac:(intros; rewrite mono_eval; reflexivity)).
  unfold interpolation_Chebyshev_Tn in E. unfold FT.
  destruct (coeffs_extrema (fun t => point_extrema mn mx n t ^ a) n Hn) as (C & EC & _). rewrite EC in *. cbn [fbind] in E.
  injection E as E. rewrite mono_eval in E. exact E.
Qed.
Definition well (b : box) : Prop :=
  (2 <= n0 b)%nat /\ (2 <= n1 b)%nat /\ (2 <= n2 b)%nat /\ mn0 b < mx0 b /\ mn1 b < mx1 b /\ mn2 b < mx2 b.
Definition px b i := point_extrema (mn0 b) (mx0 b) (n0 b) i.
Definition py b j := point_extrema (mn1 b) (mx1 b) (n1 b) j.
Definition pz b k := point_extrema (mn2 b) (mx2 b) (n2 b) k.
(** the values at the points are those of the polynomial a *)
Definition takes (b : box) (v : nat -> R) (a : nat -> nat -> nat -> R) : Prop :=
  forall i j k, (i < n0 b)%nat -> (j < n1 b)%nat -> (k < n2 b)%nat ->
    v (at_ b i j k) = peval3 (n0 b) (n1 b) (n2 b) a (px b i) (py b j) (pz b k).
Theorem interp_XYZ b v a x y z : well b -> takes b v a ->
  mn0 b <= x <= mx0 b -> mn1 b <= y <= mx1 b -> mn2 b <= z <= mx2 b ->
  interpolation_XYZ b v x y z =
    Ok (Some (peval3 (n0 b) (n1 b) (n2 b) a (clip (mn0 b) (mx0 b) x) (clip (mn1 b) (mx1 b) y) (clip (mn2 b) (mx2 b) z))).
Proof.
  intros (N0 & N1 & N2 & M0 & M1 & M2) Hv Hx Hy Hz.
  destruct (coeffs_3d_tensor b N0 N1 N2 v _ _ _ a (fun a t => px b t ^ a) (fun c t => py b t ^ c) (fun e t => pz b t ^ e) Hv) as (C & E & HC).
  unfold interpolation_XYZ. rewrite E. cbn [use obind]. do 2 f_equal. unfold Tx, Ty, Tz.
  etransitivity; [|etransitivity].
  2:{ apply (weighted_3d (n0 b) (n1 b) (n2 b) (n0 b) (n1 b) (n2 b) a (fun a => FT (n0 b) (fun t => px b t ^ a)) (fun c => FT (n1 b) (fun t => py b t ^ c)) (fun e => FT (n2 b) (fun t => pz b t ^ e))
       (fun i => T_cheb_combined (n0 b) i (General2ChebyshevExtrema (mn0 b) (mx0 b) x))
       (fun i => T_cheb_combined (n1 b) i (General2ChebyshevExtrema (mn1 b) (mx1 b) y))
       (fun i => T_cheb_combined (n2 b) i (General2ChebyshevExtrema (mn2 b) (mx2 b) z))). }
  - apply Rsum_ext; intros i Hi. apply Rsum_ext; intros j Hj. apply Rsum_ext; intros k Hk. rewrite HC by auto. ring.
  - unfold peval3. apply Rsum_ext; intros i Hi. apply Rsum_ext; intros j Hj. apply Rsum_ext; intros k Hk.
    unfold px, py, pz. rewrite !interp_mono by auto. reflexivity.
Qed.

(** ** any values are the values of a polynomial *)
Lemma finite_choice {A} (P : nat -> A -> Prop) (d : A) n : (forall t, (t < n)%nat -> exists p, P t p) -> exists f, forall t, (t < n)%nat -> P t (f t).
Proof.
  induction n; intros H. { exists (fun _ => d). lia. }
  destruct IHn as [f Hf]; [intros; apply H; lia|]. destruct (H n) as [p Hp]; [lia|].
  exists (fun t => if Nat.eqb t n then p else f t). intros t Ht. destruct (Nat.eqb_spec t n); [subst; auto|apply Hf; lia].
Qed.
Lemma peval_sum p x : peval p x = Rsum (length p) (fun a => nth a p 0 * x ^ a).
Proof.
  induction p; [reflexivity|]. cbn [peval length]. rewrite Rsum_S_l. cbn [nth pow]. rewrite IHp, <- Rsum_scal, Rmult_1_r. f_equal.
  apply Rsum_ext. intros. ring.
Qed.
Lemma lagrange mn mx n : (2 <= n)%nat -> mn < mx -> exists L : nat -> nat -> R,
  forall t i, (t < n)%nat -> (i < n)%nat -> Rsum n (fun a => L t a * point_extrema mn mx n i ^ a) = if Nat.eqb t i then 1 else 0.
Proof.
  intros Hn Hm.
  destruct (finite_choice (fun t p => length p = n /\ forall i, (i < n)%nat -> (if Nat.eqb t i then 1 else 0) = peval p (point_extrema mn mx n i)) [] n) as [f Hf].
  { intros t Ht. destruct (through_extrema mn mx n (fun i => if Nat.eqb t i then 1 else 0) Hn Hm) as (p & Hl & Hp). exists p; auto. }
  exists (fun t a => nth a (f t) 0). intros t i Ht Hi. destruct (Hf t Ht) as [Hl Hp]. rewrite (Hp i Hi), peval_sum, Hl. reflexivity.
Qed.
Lemma delta_sum n i (f : nat -> R) : (i < n)%nat -> Rsum n (fun t => f t * (if Nat.eqb t i then 1 else 0)) = f i.
Proof. intros H. rewrite (Rsum_single n i); auto. - rewrite Nat.eqb_refl. ring. - intros k _ Hk. destruct (Nat.eqb_spec k i); [lia|ring]. Qed.
Theorem takes_exists b v : well b -> exists a, takes b v a.
Proof.
  intros (N0 & N1 & N2 & M0 & M1 & M2).
  destruct (lagrange _ _ _ N0 M0) as [L0 H0]. destruct (lagrange _ _ _ N1 M1) as [L1 H1]. destruct (lagrange _ _ _ N2 M2) as [L2 H2].
  exists (fun a c e => Rsum (n0 b) (fun i => Rsum (n1 b) (fun j => Rsum (n2 b) (fun k => v (at_ b i j k) * L0 i a * L1 j c * L2 k e)))).
  intros i j k Hi Hj Hk. unfold peval3.
  pose proof (weighted_3d (n0 b) (n1 b) (n2 b) (n0 b) (n1 b) (n2 b) (fun i j k => v (at_ b i j k)) L0 L1 L2
     (fun a => px b i ^ a) (fun a => py b j ^ a) (fun a => pz b k ^ a)) as E.
  rewrite E. clear E. unfold px, py, pz.
  rewrite (Rsum_ext (n0 b) _ (fun a => v (at_ b a j k) * (if Nat.eqb a i then 1 else 0))).
  - rewrite delta_sum; auto.
  - intros a Ha. rewrite (Rsum_ext (n1 b) _ (fun c => v (at_ b a c k) * (if Nat.eqb a i then 1 else 0) * (if Nat.eqb c j then 1 else 0))).
    + rewrite (delta_sum (n1 b) j (fun c => v (at_ b a c k) * (if Nat.eqb a i then 1 else 0))); auto.
    + intros c Hc. rewrite (Rsum_ext (n2 b) _ (fun e => (v (at_ b a c e) * (if Nat.eqb a i then 1 else 0) * (if Nat.eqb c j then 1 else 0)) * (if Nat.eqb e k then 1 else 0))).
      * rewrite (delta_sum (n2 b) k (fun e => v (at_ b a c e) * (if Nat.eqb a i then 1 else 0) * (if Nat.eqb c j then 1 else 0))); auto.
      * intros e He. rewrite H0, H1, H2 by auto. reflexivity.
Qed.

(** ** two directions *)
Lemma FT2_tensor n m (v : nat -> nat -> R) m0 m1 A X Y i j : (2 <= n)%nat -> (2 <= m)%nat ->
  (forall s t, (s < n)%nat -> (t < m)%nat -> v s t = Rsum m0 (fun a => Rsum m1 (fun c => A a c * X a s * Y c t))) ->
  FT m (fun t => FT n (fun s => v s t) i) j = Rsum m0 (fun a => Rsum m1 (fun c => A a c * FT n (X a) i * FT m (Y c) j)).
Proof.
  intros Hn Hm Hv.
  rewrite (FT_ext m _ (fun t => Rsum m0 (fun a => Rsum m1 (fun c => A a c * FT n (X a) i * Y c t)))); auto.
  - rewrite FT_sum by auto. apply Rsum_ext. intros a _. rewrite FT_sum by auto. apply Rsum_ext. intros c _. rewrite FT_scal by auto. reflexivity.
  - intros t Ht. rewrite (FT_ext n _ (fun s => Rsum m0 (fun a => Rsum m1 (fun c => (A a c * Y c t) * X a s)))); auto.
    + rewrite FT_sum by auto. apply Rsum_ext. intros a _. rewrite FT_sum by auto. apply Rsum_ext. intros c _. rewrite FT_scal by auto. ring.
    + intros s Hs. rewrite Hv by auto. apply Rsum_ext. intros a _. apply Rsum_ext. intros c _. ring.
Qed.
Lemma weighted_2d N0 N1 m0 m1 (A : nat -> nat -> R) (x y : nat -> nat -> R) (p q : nat -> R) :
  Rsum N0 (fun i => Rsum N1 (fun j =>
    Rsum m0 (fun a => Rsum m1 (fun c => A a c * x a i * y c j)) * p i * q j)) =
  Rsum m0 (fun a => Rsum m1 (fun c => A a c * Rsum N0 (fun i => x a i * p i) * Rsum N1 (fun j => y c j * q j))).
Proof.
  transitivity (Rsum N0 (fun i => Rsum m0 (fun a => Rsum m1 (fun c => A a c * (x a i * p i) * Rsum N1 (fun j => y c j * q j))))).
  { apply Rsum_ext; intros i _.
    rewrite (Rsum_ext N1 _ (fun k => Rsum m0 (fun a => Rsum m1 (fun c => A a c * (x a i * p i) * (y c k * q k))))).
    2:{ intros k _. rewrite <- !Rsum_scal_r. apply Rsum_ext; intros a _. rewrite <- !Rsum_scal_r. apply Rsum_ext; intros c _. ring. }
    rewrite Rsum_exchange. apply Rsum_ext; intros a _. rewrite Rsum_exchange. apply Rsum_ext; intros c _.
    rewrite Rsum_scal. reflexivity. }
  rewrite Rsum_exchange. apply Rsum_ext; intros a _. rewrite Rsum_exchange. apply Rsum_ext; intros c _.
  rewrite Rsum_scal_r, Rsum_scal. reflexivity.
Qed.
Lemma coeffs_01 b v K : well b -> (K < n2 b)%nat -> exists C, make_coeffs_2d b 0 1 v = Ok (Some C) /\
  forall i j, (i < n0 b)%nat -> (j < n1 b)%nat -> C (at_ b i j K) = FT (n1 b) (fun t => FT (n0 b) (fun s => v (at_ b s t K)) i) j.
Proof.
  intros (N0 & N1 & N2 & _) HK. unfold make_coeffs_2d. cbn [Nat.eqb].
  destruct (dir_coeffs b N0 N1 N2 0 v ltac:(lia)) as (c0 & -> & E0). cbn [then_1d obind].
  destruct (dir_coeffs b N0 N1 N2 1 c0 ltac:(lia)) as (c1 & -> & E1). exists c1; split; auto.
  intros i j Hi Hj. rewrite E1 by auto. apply FT_ext; [auto|]. intros t Ht. rewrite E0 by auto. reflexivity.
Qed.
Lemma coeffs_02 b v J : well b -> (J < n1 b)%nat -> exists C, make_coeffs_2d b 0 2 v = Ok (Some C) /\
  forall i k, (i < n0 b)%nat -> (k < n2 b)%nat -> C (at_ b i J k) = FT (n2 b) (fun t => FT (n0 b) (fun s => v (at_ b s J t)) i) k.
Proof.
  intros (N0 & N1 & N2 & _) HK. unfold make_coeffs_2d. cbn [Nat.eqb].
  destruct (dir_coeffs b N0 N1 N2 0 v ltac:(lia)) as (c0 & -> & E0). cbn [then_1d obind].
  destruct (dir_coeffs b N0 N1 N2 2 c0 ltac:(lia)) as (c1 & -> & E1). exists c1; split; auto.
  intros i j Hi Hj. rewrite E1 by auto. apply FT_ext; [auto|]. intros t Ht. rewrite E0 by auto. reflexivity.
Qed.
Lemma coeffs_12 b v I : well b -> (I < n0 b)%nat -> exists C, make_coeffs_2d b 1 2 v = Ok (Some C) /\
  forall j k, (j < n1 b)%nat -> (k < n2 b)%nat -> C (at_ b I j k) = FT (n2 b) (fun t => FT (n1 b) (fun s => v (at_ b I s t)) j) k.
Proof.
  intros (N0 & N1 & N2 & _) HK. unfold make_coeffs_2d. cbn [Nat.eqb].
  destruct (dir_coeffs b N0 N1 N2 1 v ltac:(lia)) as (c0 & -> & E0). cbn [then_1d obind].
  destruct (dir_coeffs b N0 N1 N2 2 c0 ltac:(lia)) as (c1 & -> & E1). exists c1; split; auto.
  intros i j Hi Hj. rewrite E1 by auto. apply FT_ext; [auto|]. intros t Ht. rewrite E0 by auto. reflexivity.
Qed.
Lemma plane_sum n m (v : nat -> nat -> R) A X Y (p q : nat -> R) (C : nat -> nat -> R) (P Q : nat -> R) : (2 <= n)%nat -> (2 <= m)%nat ->
  (forall s t, (s < n)%nat -> (t < m)%nat -> v s t = Rsum n (fun a => Rsum m (fun c => A a c * X a s * Y c t))) ->
  (forall i j, (i < n)%nat -> (j < m)%nat -> C i j = FT m (fun t => FT n (fun s => v s t) i) j) ->
  (forall a, (a < n)%nat -> Rsum n (fun i => FT n (X a) i * p i) = P a) ->
  (forall c, (c < m)%nat -> Rsum m (fun j => FT m (Y c) j * q j) = Q c) ->
  Rsum n (fun i => Rsum m (fun j => C i j * p i * q j)) = Rsum n (fun a => Rsum m (fun c => A a c * P a * Q c)).
Proof.
  intros Hn Hm Hv HC HP HQ.
  rewrite (Rsum_ext n _ (fun i => Rsum m (fun j => Rsum n (fun a => Rsum m (fun c => A a c * FT n (X a) i * FT m (Y c) j)) * p i * q j))).
  2:{ intros i Hi. apply Rsum_ext. intros j Hj. rewrite HC by auto. rewrite (FT2_tensor n m v n m A X Y) by auto. reflexivity. }
  rewrite (weighted_2d n m n m A (fun a i => FT n (X a) i) (fun c j => FT m (Y c) j) p q).
  apply Rsum_ext. intros a Ha. apply Rsum_ext. intros c Hc. rewrite HP, HQ by auto. reflexivity.
Qed.
Theorem interp_XY b v A K x y : well b -> (K < n2 b)%nat ->
  (forall i j, (i < n0 b)%nat -> (j < n1 b)%nat -> v (at_ b i j K) = peval2 (n0 b) (n1 b) A (px b i) (py b j)) ->
  mn0 b <= x <= mx0 b -> mn1 b <= y <= mx1 b ->
  interpolation_XY b v x y K = Ok (Some (peval2 (n0 b) (n1 b) A (clip (mn0 b) (mx0 b) x) (clip (mn1 b) (mx1 b) y))).
Proof.
  intros Hw HK Hv Hx Hy. unfold interpolation_XY. destruct (coeffs_01 b v K Hw HK) as (C & -> & HC). cbn [use obind]. do 2 f_equal.
  destruct Hw as (N0 & N1 & N2 & M0 & M1 & M2). unfold Tx, Ty, peval2.
  apply (plane_sum (n0 b) (n1 b) (fun s t => v (at_ b s t K)) A (fun a t => px b t ^ a) (fun c t => py b t ^ c)) with (C := fun i j => C (at_ b i j K)); auto.
  - intros a Ha. apply interp_mono; auto.
  - intros c Hc. apply interp_mono; auto.
Qed.
Theorem interp_XZ b v A J x z : well b -> (J < n1 b)%nat ->
  (forall i k, (i < n0 b)%nat -> (k < n2 b)%nat -> v (at_ b i J k) = peval2 (n0 b) (n2 b) A (px b i) (pz b k)) ->
  mn0 b <= x <= mx0 b -> mn2 b <= z <= mx2 b ->
  interpolation_XZ b v x z J = Ok (Some (peval2 (n0 b) (n2 b) A (clip (mn0 b) (mx0 b) x) (clip (mn2 b) (mx2 b) z))).
Proof.
  intros Hw HK Hv Hx Hy. unfold interpolation_XZ. destruct (coeffs_02 b v J Hw HK) as (C & -> & HC). cbn [use obind]. do 2 f_equal.
  destruct Hw as (N0 & N1 & N2 & M0 & M1 & M2). unfold Tx, Tz, peval2.
  apply (plane_sum (n0 b) (n2 b) (fun s t => v (at_ b s J t)) A (fun a t => px b t ^ a) (fun c t => pz b t ^ c)) with (C := fun i j => C (at_ b i J j)); auto.
  - intros a Ha. apply interp_mono; auto.
  - intros c Hc. apply interp_mono; auto.
Qed.
Theorem interp_YZ b v A I y z : well b -> (I < n0 b)%nat ->
  (forall j k, (j < n1 b)%nat -> (k < n2 b)%nat -> v (at_ b I j k) = peval2 (n1 b) (n2 b) A (py b j) (pz b k)) ->
  mn1 b <= y <= mx1 b -> mn2 b <= z <= mx2 b ->
  interpolation_YZ b v y z I = Ok (Some (peval2 (n1 b) (n2 b) A (clip (mn1 b) (mx1 b) y) (clip (mn2 b) (mx2 b) z))).
Proof.
  intros Hw HK Hv Hx Hy. unfold interpolation_YZ. destruct (coeffs_12 b v I Hw HK) as (C & -> & HC). cbn [use obind]. do 2 f_equal.
  destruct Hw as (N0 & N1 & N2 & M0 & M1 & M2). unfold Ty, Tz, peval2.
  apply (plane_sum (n1 b) (n2 b) (fun s t => v (at_ b I s t)) A (fun a t => py b t ^ a) (fun c t => pz b t ^ c)) with (C := fun i j => C (at_ b I i j)); auto.
  - intros a Ha. apply interp_mono; auto.
  - intros c Hc. apply interp_mono; auto.
Qed.
(** one direction: the same as the line interpolation *)
Theorem interp_X b v x J K : well b -> (J < n1 b)%nat -> (K < n2 b)%nat ->
  interpolation_X b v x J K = Ok (interpolation_Chebyshev_Tn (mn0 b) (mx0 b) (n0 b) (fun i => v (at_ b i J K)) x).
Proof.
  intros (N0 & N1 & N2 & _) HJ HK. unfold interpolation_X, make_coeffs_1d. destruct (dir_coeffs b N0 N1 N2 0 v ltac:(lia)) as (c0 & -> & E0).
  cbn [use obind]. f_equal. unfold interpolation_Chebyshev_Tn.
  destruct (coeffs_extrema (fun i => v (at_ b i J K)) (n0 b) N0) as (C & EC & _). rewrite EC. cbn [fbind]. f_equal.
  apply Rsum_ext. intros i Hi. rewrite E0 by auto. unfold FT. rewrite EC. reflexivity.
Qed.
Theorem interp_Y b v y I K : well b -> (I < n0 b)%nat -> (K < n2 b)%nat ->
  interpolation_Y b v y I K = Ok (interpolation_Chebyshev_Tn (mn1 b) (mx1 b) (n1 b) (fun j => v (at_ b I j K)) y).
Proof.
  intros (N0 & N1 & N2 & _) HJ HK. unfold interpolation_Y, make_coeffs_1d. destruct (dir_coeffs b N0 N1 N2 1 v ltac:(lia)) as (c0 & -> & E0).
  cbn [use obind]. f_equal. unfold interpolation_Chebyshev_Tn.
  destruct (coeffs_extrema (fun i => v (at_ b I i K)) (n1 b) N1) as (C & EC & _). rewrite EC. cbn [fbind]. f_equal.
  apply Rsum_ext. intros i Hi. rewrite E0 by auto. unfold FT. rewrite EC. reflexivity.
Qed.
Theorem interp_Z b v z I J : well b -> (I < n0 b)%nat -> (J < n1 b)%nat ->
  interpolation_Z b v z I J = Ok (interpolation_Chebyshev_Tn (mn2 b) (mx2 b) (n2 b) (fun k => v (at_ b I J k)) z).
Proof.
  intros (N0 & N1 & N2 & _) HJ HK. unfold interpolation_Z, make_coeffs_1d. destruct (dir_coeffs b N0 N1 N2 2 v ltac:(lia)) as (c0 & -> & E0).
  cbn [use obind]. f_equal. unfold interpolation_Chebyshev_Tn.
  destruct (coeffs_extrema (fun i => v (at_ b I J i)) (n2 b) N2) as (C & EC & _). rewrite EC. cbn [fbind]. f_equal.
  apply Rsum_ext. intros i Hi. rewrite E0 by auto. unfold FT. rewrite EC. reflexivity.
Qed.
