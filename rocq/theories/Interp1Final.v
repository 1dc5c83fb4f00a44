(** Interp1Final.v - the one-dimensional interpolation theorems in final form. *)
From Verif Require Import RealBase SpectralSpec SpectralDeriv SpectralProofs PolyLib Interp1Model Interp1Spec NevilleProofs SplineProofs FornbergProofs HermiteProofs.
From Verif Require Base.
Import Base(outcome, Ok, Abort, UB, obind).
Open Scope R_scope.

(** ** Neville *)
Lemma no_sub N mx : (mx = 0 \/ N <= mx \/ N <= 10)%nat -> neville_subsamples N mx = false.
Proof.
  intros H. unfold neville_subsamples. destruct (Nat.eqb_spec mx 0), (Nat.ltb_spec mx N), (Nat.ltb_spec 10 N); cbn; auto; lia.
Qed.
Lemma yes_sub N mx : (0 < mx < N)%nat -> (10 < N)%nat -> neville_subsamples N mx = true.
Proof.
  intros H H2. unfold neville_subsamples. destruct (Nat.eqb_spec mx 0), (Nat.ltb_spec mx N), (Nat.ltb_spec 10 N); cbn; auto; lia.
Qed.
Lemma c76 :
  (forall x f N mx, (mx = 0 \/ N <= mx \/ N <= 10)%nat -> (1 <= N)%nat -> distinct_points N x ->
    (exists p, length p = N /\ (forall k, (k < N)%nat -> peval p (x k) = f k) /\ forall h, interpolation_Neville_1d x f N mx h = Ok (Some (peval p h))) /\
    (forall q, (length q <= N)%nat -> (forall k, (k < N)%nat -> f k = peval q (x k)) -> forall h, interpolation_Neville_1d x f N mx h = Ok (Some (peval q h)))) /\
  (forall x f N mx, (0 < mx < N)%nat -> (10 < N)%nat -> (N / mx = 1 \/ (mx - 1) mod (N / mx) <> 0)%nat -> distinct_points N x ->
    exists (idx : nat -> nat) p, (forall k, (k < mx)%nat -> idx k < N)%nat /\ (forall k, (k < mx - 1)%nat -> idx k = k * (N / mx))%nat /\ idx (mx - 1)%nat = (mx - 1)%nat /\
      length p = mx /\ (forall k, (k < mx)%nat -> peval p (x (idx k)) = f (idx k)) /\ forall h, interpolation_Neville_1d x f N mx h = Ok (Some (peval p h))).
Proof.
  split.
  - intros x f N mx H HN Hd. destruct (neville_plain x f N mx (no_sub N mx H) HN Hd) as (p & Hl & V & Q). split; [exists p; auto|].
    intros q Hq Hv h. rewrite Q. do 2 f_equal. apply (poly_same N p q x Hd); try lia. intros k Hk. rewrite V, Hv; auto.
  - intros x f N mx H H10 Hs Hd. destruct (neville_sub x f N mx (yes_sub N mx H H10) Hs Hd) as (p & Hl & V & Q).
    exists (sub_index N mx), p. split; [intros k Hk; apply V; auto|]. split.
    { intros k Hk. unfold sub_index. destruct (Nat.eqb_spec k (mx-1)); [lia|]. destruct (Nat.eqb_spec k 0); [subst; lia|reflexivity]. }
    split. { unfold sub_index. rewrite Nat.eqb_refl. reflexivity. }
    split; auto. split; auto. intros k Hk. apply V; auto.
Qed.
Lemma c76r :
  (forall x f N mx h, (2 <= mx < N)%nat -> (10 < N)%nat -> (2 <= N / mx)%nat -> ((mx - 1) mod (N / mx) = 0)%nat -> interpolation_Neville_1d x f N mx h = Ok None) /\
  interpolation_Neville_1d INR (fun i => INR i * INR i) 12 2 (INR 11) = Ok (Some 11) /\ INR 11 * INR 11 <> 11.
Proof.
  split; [|split].
  - intros x f N mx h H H10 Hs Hm. apply neville_sub_bad; auto; try lia. apply yes_sub; lia.
  - unfold interpolation_Neville_1d. rewrite yes_sub by lia. cbn [neville_q fbind]. unfold sub_array. cbn [Nat.eqb Nat.sub].
    rewrite fdiv_some by (cbn [INR]; lra). do 2 f_equal. cbn [INR]. field.
  - cbn [INR]. lra.
Qed.
(** ** spline *)
Lemma rev_lt x N i : (i < N)%nat -> rev_array N x i = x (N - 1 - i)%nat. Proof. reflexivity. Qed.
Lemma c77_plan N x f :
  (separated_points N x -> (2 <= N)%nat -> order_arrays N x f = Ok (mkSpline N x f)) /\
  (separated_points N (fun i => x (N - 1 - i)%nat) -> (2 <= N)%nat -> order_arrays N x f = Ok (mkSpline N (fun i => x (N - 1 - i)%nat) (fun i => f (N - 1 - i)%nat))) /\
  ((1 <= N)%nat -> Rabs (x 0%nat - x (N - 1)%nat) < / 1000000000000 -> order_arrays N x f = Abort) /\ (N = 0%nat -> order_arrays N x f = Abort).
Proof.
  unfold order_arrays. pose proof ROE_pos. split; [|split; [|split]].
  - intros Hs HN. destruct N as [|m]; [lia|]. pose proof (sep_lt x (S m) Hs m 0 ltac:(lia) ltac:(lia)) as L.
    replace (EQL (x 0%nat) (x m)) with false by (symmetry; apply EQL_false; rewrite Rabs_left; lra).
    destruct (GRT (x 0%nat) (x m)) eqn:E; auto. apply GRT_iff in E. lra.
  - intros Hs HN. destruct N as [|m]; [lia|]. pose proof (sep_lt _ (S m) Hs m 0 ltac:(lia) ltac:(lia)) as L. cbn beta in L.
    replace (S m - 1 - 0)%nat with m in L by lia. replace (S m - 1 - m)%nat with 0%nat in L by lia.
    replace (EQL (x 0%nat) (x m)) with false by (symmetry; apply EQL_false; rewrite Rabs_right; lra).
    rewrite (proj2 (GRT_iff _ _)) by lra. reflexivity.
  - intros HN H0. destruct N as [|m]; [lia|]. replace (S m - 1)%nat with m in H0 by lia. rewrite (proj2 (EQL_iff _ _)); auto.
  - intros ->. reflexivity.
Qed.
Lemma c77 s : (2 <= sN s)%nat -> separated_points (sN s) (sx s) ->
  exists S S' : nat -> R -> R, natural_cubic_spline (sN s - 1) (sx s) (sf s) S /\ (forall i y, derivable_pt_lim (S i) y (S' i y)) /\
    (forall i h, (i + 1 < sN s)%nat -> sx s i + / 1000000000000 < h < sx s (i+1)%nat - / 1000000000000 ->
       interpolation_spline s h = Num (Some (S i h)) /\ derivative_spline s h = Num (Some (S' i h))) /\
    (forall k, (k < sN s)%nat -> interpolation_spline s (sx s k) = Num (Some (sf s k)) /\ exists i, (i + 1 < sN s)%nat /\ (k = i \/ k = i + 1)%nat /\ derivative_spline s (sx s k) = Num (Some (S' i (sx s k)))) /\
    (forall h, sx s 0%nat - / 1000000000000 < h < sx s (sN s - 1)%nat + / 1000000000000 -> (forall k, (k < sN s)%nat -> Rabs (h - sx s k) <> / 1000000000000) ->
       exists i, (i + 1 < sN s)%nat /\ sx s i - / 1000000000000 < h < sx s (i+1)%nat + / 1000000000000 /\ interpolation_spline s h = Num (Some (S i h)) /\ derivative_spline s h = Num (Some (S' i h))) /\
    (forall h, h <= sx s 0%nat - / 1000000000000 \/ sx s (sN s - 1)%nat + / 1000000000000 <= h -> interpolation_spline s h = Dmax /\ derivative_spline s h = Dmax) /\
    (forall a b, (forall i, (i < sN s)%nat -> sf s i = a + b * sx s i) -> forall i y, (i + 1 < sN s)%nat -> S i y = a + b * y).
Proof.
  intros HN Hs. exists (piece s), (piece' s). pose proof ROE_pos as RP. fold ROUND_OFF_ERR.
  assert (PS := piece_spline s HN Hs).
  split; [exact PS|]. split; [intros; apply d_piece|]. split; [|split; [|split; [|split]]].
  - intros i h Hi Hh. apply value_at; auto; [|lia]. replace (i+1)%nat with (Datatypes.S i) in Hh by lia. apply (seg_inside s HN Hs i h); try lia; tauto.
  - intros k Hk. pose proof (seg_node s HN Hs k Hk (sN s - 1) 0 ltac:(lia) ltac:(lia)) as Sg.
    destruct (value_at s HN Hs (sx s k) (k-1) Sg ltac:(lia)) as [V D]. destruct PS as (_ & PV & _). destruct (PV (k-1)%nat ltac:(lia)) as [P1 P2]. split.
    + rewrite V. do 2 f_equal. destruct (Nat.eq_dec k 0) as [->|]; [exact P1|]. replace (k - 1 + 1)%nat with k in P2 by lia. exact P2.
    + exists (k-1)%nat. split; [lia|]. split; [lia|exact D].
  - intros h Hh Hn. destruct (seg_total s HN h) with (left := (sN s - 1)%nat) (j := 0%nat) as (i & E & Hi & B1 & B2); try lia; try lra.
    { intros k Hk. specialize (Hn k Hk). split; intros ->; apply Hn; [replace (sx s k + ROUND_OFF_ERR - sx s k) with ROUND_OFF_ERR by ring; apply Rabs_right; lra|
        replace (sx s k - ROUND_OFF_ERR - sx s k) with (- ROUND_OFF_ERR) by ring; rewrite Rabs_Ropp; apply Rabs_right; lra]. }
    exists i. replace (i+1)%nat with (Datatypes.S i) by lia. split; [lia|]. split; [lra|]. apply value_at; auto; lia.
  - intros h Hh. unfold interpolation_spline, derivative_spline. rewrite (seg_out s HN Hs h Hh); auto.
  - intros a b Hl i y Hi. apply (linear_piece s HN Hs a b Hl); lia.
Qed.
Lemma c77r s k : (2 <= sN s)%nat -> (forall i, (i + 1 < sN s)%nat -> sx s i + 2 / 1000000000000 < sx s (i+1)%nat) -> (k < sN s)%nat ->
  interpolation_spline s (sx s k + / 1000000000000) = Dmax.
Proof.
  intros HN Hs Hk. fold ROUND_OFF_ERR. unfold interpolation_spline. rewrite (seg_edge s) with (k := k); auto.
  intros i Hi. specialize (Hs i Hi). lra.
Qed.
(** ** finite differences *)
Lemma nth_jet m : forall f g D, nth_derivative m f g -> jet D -> (forall y, D O y = f y) -> forall y, D m y = g y.
Proof.
  induction m; intros f g D H J E y; cbn in H. { rewrite E. apply H. }
  destruct H as (f' & Hf & H). apply (IHm f' g (fun k => D (S k)) H); [intros k z; apply J|].
  intros z. apply (uniqueness_limite (D O) z); [apply J|]. apply (dlim_ext f); [intros; symmetry; apply E|apply Hf].
Qed.
Lemma sep_distinct N x : (forall i, (i + 1 < N)%nat -> x i < x (i+1)%nat) -> distinct_points N x.
Proof.
  intros H. assert (G : forall j i, (i < j)%nat -> (j < N)%nat -> x i < x j).
  { induction j; intros i Hi Hj; [lia|]. pose proof (H j ltac:(lia)) as A. replace (j+1)%nat with (S j) in A by lia.
    destruct (Nat.eq_dec i j) as [->|]; [exact A|]. specialize (IHj i ltac:(lia) ltac:(lia)). lra. }
  intros i j Hi Hj E. destruct (lt_eq_lt_dec i j) as [[L|L]|L]; auto; [pose proof (G j i L Hj)|pose proof (G i j L Hi)]; lra.
Qed.
Lemma fd_unfold f x x0 Nx M acc : (1 <= acc)%nat -> (acc + M <= 100)%nat -> (acc + M < Nx)%nat ->
  finite_difference_Fornberg f x x0 Nx M acc = Ok (let off := fd_offset (fd_segment x x0 0 (Nx - 1)) (acc + M - 1) Nx in
     let? (d, _) := dl (fun i => x (off + i)%nat) x0 (acc + M - 1) in Some (Rsum (acc + M) (fun v => d M v * f (off + v)%nat))).
Proof.
  intros H1 H2 H3. unfold finite_difference_Fornberg. destruct (Nat.eqb_spec (acc + M) 0); [lia|]. destruct (Nat.ltb_spec (acc + M - 1) 100); [|lia]. cbn [negb].
  destruct (Nat.leb_spec Nx (acc + M - 1 + 1)); [lia|]. destruct (Nat.eqb_spec acc 0); [lia|]. replace (S (acc + M - 1)) with (acc + M)%nat by lia. reflexivity.
Qed.
Lemma c79 :
  (forall f x x0 Nx M acc p g, (1 <= acc)%nat -> (acc + M <= 100)%nat -> (acc + M < Nx)%nat -> distinct_points Nx x ->
    (length p <= acc + M)%nat -> (forall i, (i < Nx)%nat -> f i = peval p (x i)) -> nth_derivative M (peval p) g ->
    finite_difference_Fornberg f x x0 Nx M acc = Ok (Some (g x0))) /\
  (forall x x0 Nx M acc, (1 <= acc)%nat -> (acc + M <= 100)%nat -> (acc + M < Nx)%nat ->
    exists off, (off + (acc + M) <= Nx)%nat /\
      (forall f f', (forall i, (off <= i < off + (acc + M))%nat -> f i = f' i) -> finite_difference_Fornberg f x x0 Nx M acc = finite_difference_Fornberg f' x x0 Nx M acc) /\
      ((2 <= acc + M)%nat -> x 0%nat <= x0 <= x (Nx - 1)%nat -> exists k, (off <= k)%nat /\ (k + 1 < off + (acc + M))%nat /\ x k <= x0 <= x (k + 1)%nat /\
        ((acc + M - 1) / 2 <= k -> k + (acc + M - (acc + M - 1) / 2) <= Nx -> off = k - (acc + M - 1) / 2)%nat)) /\
  (forall f x x0 Nx M acc, (1 <= acc + M)%nat -> (100 < acc + M)%nat \/ (Nx <= acc + M)%nat -> finite_difference_Fornberg f x x0 Nx M acc = Abort).
Proof.
  split; [|split].
  - intros f x x0 Nx M acc p g H1 H2 H3 Hd Hp Hf Hg. rewrite fd_unfold by auto. cbv zeta. f_equal.
    set (off := fd_offset _ _ _). set (K := (acc + M - 1)%nat). set (a := fun i => x (off + i)%nat).
    assert (HO : (off + K < Nx)%nat) by (apply fd_offset_range; lia).
    assert (inj : forall i j, (i <= K)%nat -> (j <= K)%nat -> a i = a j -> i = j).
    { intros i j Hi Hj E. apply Hd in E; lia. }
    destruct (dl_ok a K inj x0 K (le_n _)) as (d & E & HD). rewrite E. cbn [fbind].
    assert (PP : ispoly (S K) (peval p)) by (apply ispoly_peval; lia).
    destruct (ispoly_jet _ _ PP) as (D & J & D0).
    rewrite <- (nth_jet M _ _ D Hg J D0). rewrite <- (weights_exact a K inj (peval p) D PP J D0 M x0).
    replace (S K) with (acc + M)%nat by lia. f_equal. apply Rsum_ext. intros v Hv. rewrite HD by lia. rewrite Hf by lia. unfold a. ring.
  - intros x x0 Nx M acc H1 H2 H3. set (k := fd_segment x x0 0 (Nx - 1)). exists (fd_offset k (acc + M - 1) Nx).
    pose proof (fd_offset_range k (acc + M - 1) Nx ltac:(lia)) as HO. split; [lia|]. split.
    + intros f f' Hf. rewrite !fd_unfold by auto. cbv zeta. fold k. f_equal. destruct (dl _ _ _) as [[d c]|]; [|reflexivity]. cbn [fbind]. f_equal. apply Rsum_ext. intros v Hv. rewrite Hf by lia. reflexivity.
    + intros H4 Hx. destruct (fd_segment_in x x0 (Nx - 1) 0) as [A B]; [cbn [Nat.add]; exact Hx|lia|]. fold k in A, B.
      pose proof (fd_offset_in k (acc + M - 1) Nx ltac:(lia) ltac:(lia) ltac:(lia)) as C. exists k. replace (k + 1)%nat with (S k) by lia. split; [lia|]. split; [lia|]. split; [exact B|]. intros Q1 Q2. unfold fd_offset. rewrite Nat.min_l; lia.
  - intros f x x0 Nx M acc H0 H. unfold finite_difference_Fornberg. destruct (Nat.eqb_spec (acc + M) 0); [lia|].
    destruct (Nat.ltb_spec (acc + M - 1) 100); cbn [negb]; auto. destruct (Nat.leb_spec Nx (acc + M - 1 + 1)); auto. lia.
Qed.
Lemma c79r :
  (forall f x x0 M acc, (1 <= acc + M)%nat -> finite_difference_Fornberg f x x0 (acc + M) M acc = Abort) /\
  (exists v, finite_difference_Fornberg (fun _ => 1) INR 1000 4 0 2 = Ok (Some v)) /\
  (forall f x x0 Nx M, (1 <= M <= 100)%nat -> (M < Nx)%nat -> finite_difference_Fornberg f x x0 Nx M 0 = UB).
Proof.
  split; [|split].
  - intros. apply c79; auto.
  - exists ((fun _ => 1) 1000). apply (proj1 c79 _ INR 1000 4%nat 0%nat 2%nat [1] (fun _ => 1)); try lia; cbn [length]; try lia.
    + intros i j _ _ E. apply INR_eq in E. exact E.
    + intros. cbn. ring.
    + intros y. cbn. ring.
  - intros f x x0 Nx M H1 H2. unfold finite_difference_Fornberg. destruct (Nat.eqb_spec (0 + M) 0); [lia|].
    destruct (Nat.ltb_spec (0 + M - 1) 100); cbn [negb]; [|lia]. destruct (Nat.leb_spec Nx (0 + M - 1 + 1)); [lia|]. reflexivity.
Qed.
(** ** Hermite *)
Lemma mono_le N x : (forall i, (i + 1 < N)%nat -> x i < x (i+1)%nat) -> forall j i, (i <= j)%nat -> (j < N)%nat -> x i <= x j.
Proof.
  intros H. induction j; intros i Hi Hj. { replace i with 0%nat by lia. lra. }
  destruct (Nat.eq_dec i (S j)) as [->|]; [lra|]. pose proof (H j ltac:(lia)) as A. replace (j+1)%nat with (S j) in A by lia. specialize (IHj i ltac:(lia) ltac:(lia)). lra.
Qed.
Lemma c78 x f fo fp N np : (forall i, (i + 1 < N)%nat -> x i < x (i+1)%nat) -> (1 <= np <= N)%nat -> (forall i, (i < N)%nat -> fo i = Some (fp i)) ->
  (forall h k, (k + np <= N)%nat -> (k + 1 < N)%nat -> x k <= h < x (k+1)%nat ->
     (exists p, (length p <= 2 * np)%nat /\ matches np (fun i => x (k+i)%nat) (fun i => f (k+i)%nat) (fun i => fp (k+i)%nat) p) /\
     forall p, (length p <= 2 * np)%nat -> matches np (fun i => x (k+i)%nat) (fun i => f (k+i)%nat) (fun i => fp (k+i)%nat) p ->
       interpolation_Hermite_1d x f fo N np h = Ok (Some (peval p h))) /\
  (forall k, (k + np <= N)%nat -> (k + 1 < N)%nat -> interpolation_Hermite_1d x f fo N np (x k) = Ok (Some (f k))) /\
  (forall h, h < x 0%nat \/ x (N-1)%nat <= h \/ (exists k, (k + 1 < N)%nat /\ (N < k + np)%nat /\ x k <= h < x (k+1)%nat) -> interpolation_Hermite_1d x f fo N np h = Abort).
Proof.
  intros Hx Hnp Hfo. assert (Hd := sep_distinct N x Hx). assert (Hle := mono_le N x Hx).
  assert (SEG : forall h k, (k + 1 < N)%nat -> x k <= h < x (k+1)%nat -> hermite_segment x h 0 (N-1) = Some k).
  { intros h k Hk Hh. destruct (hseg_found x h (N-1) 0) as [k' E].
    { pose proof (Hle k 0%nat ltac:(lia) ltac:(lia)). pose proof (Hle (N-1)%nat (k+1)%nat ltac:(lia) ltac:(lia)). cbn [Nat.add]. lra. }
    rewrite E. f_equal. apply hseg_some in E. destruct E as [R1 R2].
    destruct (lt_eq_lt_dec k k') as [[L|L]|L]; auto; exfalso.
    - pose proof (Hle k' (k+1)%nat ltac:(lia) ltac:(lia)). lra.
    - pose proof (Hle k (S k') ltac:(lia) ltac:(lia)). lra. }
  assert (VAL : forall h k, (k + np <= N)%nat -> (k + 1 < N)%nat -> x k <= h < x (k+1)%nat -> forall p, (length p <= 2 * np)%nat ->
     matches np (fun i => x (k+i)%nat) (fun i => f (k+i)%nat) (fun i => fp (k+i)%nat) p -> interpolation_Hermite_1d x f fo N np h = Ok (Some (peval p h))).
  { intros h k Hk Hk1 Hh p Hp Hm. unfold interpolation_Hermite_1d. rewrite (SEG h k Hk1 Hh). destruct (Nat.leb_spec N (k + (np - 1))); [lia|].
    f_equal. apply (hermite_value x f fp fo k np p); auto.
    - intros i Hi. apply Hfo. lia.
    - intros i j Hi Hj E. apply Hd in E; lia.
    - intros i Hi. apply Hm; auto.
    - intros i Hi. apply Hm; auto. }
  assert (EX : forall k, (k + np <= N)%nat -> exists p, (length p <= 2 * np)%nat /\ matches np (fun i => x (k+i)%nat) (fun i => f (k+i)%nat) (fun i => fp (k+i)%nat) p).
  { intros k Hk. apply hermite_exists. intros i j Hi Hj E. apply Hd in E; lia. }
  split; [|split].
  - intros h k Hk Hk1 Hh. split; [apply EX; auto|]. intros p. apply (VAL h k); auto.
  - intros k Hk Hk1. destruct (EX k Hk) as (p & Hp & Hm). rewrite (VAL (x k) k Hk Hk1 ltac:(pose proof (Hx k Hk1); lra) p Hp Hm).
    destruct (Hm 0%nat ltac:(lia)) as [E _]. cbn beta in E. replace (k+0)%nat with k in E by lia. rewrite E. reflexivity.
  - intros h [Hh|[Hh|(k & Hk1 & Hk & Hh)]]; unfold interpolation_Hermite_1d.
    + destruct (hermite_segment x h 0 (N-1)) as [k|] eqn:E; auto. exfalso. apply hseg_some in E. destruct E as [R1 R2]. pose proof (Hle k 0%nat ltac:(lia) ltac:(lia)). lra.
    + destruct (hermite_segment x h 0 (N-1)) as [k|] eqn:E; auto. exfalso. apply hseg_some in E. destruct E as [R1 R2]. pose proof (Hle (N-1)%nat (S k) ltac:(lia) ltac:(lia)). lra.
    + rewrite (SEG h k Hk1 Hh). destruct (Nat.leb_spec N (k + (np - 1))); auto. lia.
Qed.
Lemma fd_all_ok f x N acc (v : nat -> option R) : (forall i, (i < N)%nat -> finite_difference_Fornberg f x (x i) N 1 acc = Ok (v i)) ->
  exists w, fd_all f x N acc = Ok w /\ forall i, (i < N)%nat -> w i = v i.
Proof.
  unfold fd_all. intros H.
  assert (G : forall m, (m <= N)%nat -> exists w, fold_left (fun r i => obind r (fun v => obind (finite_difference_Fornberg f x (x i) N 1 acc) (fun d => Ok (fun k => if Nat.eqb k i then d else v k)))) (seq 0 m) (Ok (fun _ => None)) = Ok w /\ forall i, (i < m)%nat -> w i = v i).
  { induction m; intros Hm; [eexists; split; [reflexivity|intros; lia]|]. destruct (IHm ltac:(lia)) as (w & E & W).
    rewrite seq_S, fold_left_app, E. cbn [fold_left obind Nat.add]. rewrite H by lia. cbn [obind]. eexists. split; [reflexivity|].
    intros i Hi. cbn beta. destruct (Nat.eqb_spec i m) as [->|]; auto. apply W. lia. }
  apply G. lia.
Qed.
Lemma poly_nth p : nth_derivative 1 (peval p) (fun y => peval (pquot y p) y).
Proof. exists (fun y => peval (pquot y p) y). split; [intros; apply poly_D|]. intros y; reflexivity. Qed.
Lemma c78_plan N x f fp acc np :
  (np = 0 \/ N < np)%nat \/ (fp = None /\ acc = 0%nat) -> plan_hermite N x f fp acc np = Abort.
Proof.
  intros H. unfold plan_hermite. destruct fp as [g|].
  - destruct (Nat.eqb_spec np 0); auto. destruct (Nat.ltb_spec N np); auto. exfalso. destruct H as [H|[H _]]; [lia|discriminate].
  - destruct (Nat.eqb_spec acc 0); auto. destruct (Nat.eqb_spec np 0); auto. destruct (Nat.ltb_spec N np); auto. exfalso. lia.
Qed.
Lemma c78_end N x p acc np : separated_points N x -> (1 <= acc < 100)%nat -> (acc + 1 < N)%nat -> (1 <= np <= N)%nat -> (length p <= acc + 1)%nat -> (length p <= 2 * np)%nat ->
  exists H, plan_hermite N x (fun i => peval p (x i)) None acc np = Ok H /\
    forall h, x 0%nat <= h < x (Nat.min (N - 1) (N - np + 1)) -> interpolation_Hermite_1d (hx H) (hf H) (hfp H) (hN H) np h = Ok (Some (peval p h)).
Proof.
  intros Hs Ha HN Hnp Hp1 Hp2. unfold plan_hermite. destruct (Nat.eqb_spec acc 0); [lia|]. destruct (Nat.eqb_spec np 0); [lia|]. destruct (Nat.ltb_spec N np); [lia|].
  destruct (c77_plan N x (fun i => peval p (x i))) as [PL _]. rewrite PL by (auto; lia). cbn [obind].
  assert (Hx : forall i, (i + 1 < N)%nat -> x i < x (i+1)%nat) by (intros i Hi; pose proof (Hs i Hi); pose proof ROE_pos; unfold ROUND_OFF_ERR in *; lra).
  set (d := fun y => peval (pquot y p) y).
  destruct (fd_all_ok (fun i => peval p (x i)) x N acc (fun i => Some (d (x i)))) as (w & E & W).
  { intros i Hi. apply (proj1 c79 _ x (x i) N 1%nat acc p d); try lia; auto. apply sep_distinct; auto. apply poly_nth. }
  unfold sf, sx. rewrite E. cbn [obind]. eexists. split; [reflexivity|]. cbn [hx hf hfp hN]. intros h Hh.
  destruct (c78 x (fun i => peval p (x i)) w (fun i => d (x i)) N np Hx Hnp W) as (V & _).
  destruct (hseg_found x h (Nat.min (N - 1) (N - np + 1)) 0) as [k Ek]; [cbn [Nat.add]; exact Hh|].
  apply hseg_some in Ek. destruct Ek as [R1 R2]. replace (S k) with (k+1)%nat in R2 by lia. apply (V h k); try lia; auto.
  intros i Hi. split; [reflexivity|]. apply poly_D.
Qed.
Definition sx3 : spline := mkSpline 3 INR (fun i => if Nat.eqb i 1 then 1 else 0).
Lemma sep3 : separated_points 3 INR.
Proof. intros i Hi. rewrite plus_INR. cbn [INR]. lra. Qed.
Lemma c78r :
  (forall x f fo N np, (1 <= N)%nat -> (forall i, (i + 1 < N)%nat -> x i < x (i+1)%nat) -> (1 <= np <= N)%nat -> (forall i, (i < N)%nat -> exists d, fo i = Some d) -> interpolation_Hermite_1d x f fo N np (x (N-1)%nat) = Abort) /\
  exists p, matches 2 INR (fun _ => 0) (fun i => if Nat.eqb i 1 then 1 else 0) p /\ length p = 4%nat /\
    (forall h, 0 <= h < 1 -> interpolation_Hermite_1d INR (fun _ => 0) (fun i => Some (if Nat.eqb i 1 then 1 else 0)) 3 2 h = Ok (Some (peval p h))) /\
    derivable_pt_lim (peval p) (1/2) (-1/4) /\
    derivative_Hermite_1d INR (fun i => if Nat.eqb i 1 then 1 else 0) 3 (1/2) = Ok (Num (Some (11/16))).
Proof.
  split.
  - intros x f fo N np HN Hx Hnp Hfo. apply (proj2 (proj2 (c78 x f fo (fun i => match fo i with Some d => d | None => 0 end) N np Hx Hnp ltac:(intros i Hi; destruct (Hfo i Hi) as [d ->]; reflexivity)))).
    right; left. lra.
  - exists [0;0;-1;1].
    assert (PD : forall y, derivable_pt_lim (peval [0;0;-1;1]) y (3 * y * y - 2 * y)).
    { intros y. replace (3 * y * y - 2 * y) with (peval (pquot y [0;0;-1;1]) y) by (cbn; ring). apply poly_D. }
    assert (M : matches 2 INR (fun _ => 0) (fun i => if Nat.eqb i 1 then 1 else 0) [0;0;-1;1]).
    { intros i Hi. split. { destruct i as [|[|i]]; [cbn; ring|cbn; ring|lia]. }
      destruct i as [|[|i]]; [|cbn [INR Nat.eqb]|lia].
      - cbn [INR Nat.eqb]. pose proof (PD 0) as K. replace (3 * 0 * 0 - 2 * 0) with 0 in K by ring. exact K.
      - pose proof (PD 1) as K. replace (3 * 1 * 1 - 2 * 1) with 1 in K by ring. exact K. }
    split; auto. split; [reflexivity|]. split; [|split].
    + intros h Hh. destruct (c78 INR (fun _ => 0) (fun i => Some (if Nat.eqb i 1 then 1 else 0)) (fun i => if Nat.eqb i 1 then 1 else 0) 3 2) as (V & _); try lia.
      { intros i Hi. rewrite plus_INR. cbn [INR]. lra. } { reflexivity. }
      apply (V h 0%nat); [lia|lia|cbn; lra|cbn [length]; lia|]. exact M.
    + replace (-1/4) with (3 * (1/2) * (1/2) - 2 * (1/2)) by field. apply PD.
    + unfold derivative_Hermite_1d. rewrite (proj1 (c77_plan 3 INR _) sep3) by lia. cbn [obind]. f_equal. fold sx3.
      assert (E : find_segment sx3 (1/2) 0 (sN sx3 - 1) = Some 0%nat).
      { apply (seg_inside sx3 ltac:(cbn; lia) sep3 0); cbn; try lia; unfold ROUND_OFF_ERR; lra. }
      destruct (value_at sx3 ltac:(cbn; lia) sep3 (1/2) 0 E ltac:(cbn; lia)) as [-> _]. do 2 f_equal.
      pose proof (tridiagonal sx3 ltac:(cbn; lia) sep3 1 ltac:(cbn; lia)) as T. pose proof (c_0 sx3 ltac:(cbn; lia) sep3) as C0. pose proof (c_n sx3 ltac:(cbn; lia)) as C2.
      change (sN sx3 - 1)%nat with 2%nat in C2. change (1 - 1)%nat with 0%nat in T. rewrite C0, C2 in T. unfold AL, hh in T. cbn [sx3 sx sf Nat.eqb Nat.sub INR] in T.
      assert (C1 : CC sx3 1 = -3/2). { lra. }
      unfold piece, BB, DD, hh, Pow2. rewrite C0, C1. cbn [sx3 sx sf Nat.eqb INR]. field.
Qed.
(** ** spline EoS *)
Lemma c80 s fl : (2 <= sN s)%nat -> separated_points (sN s) (sx s) ->
  (forall h v, ncs_value s fl h = Some v -> 0 <= v \/ v = - / 1000000000000) /\
  (forall h, h <= fl -> Rabs (h - fl) <> / 1000000000000 -> ncs_value s fl h = Some 0) /\
  (forall k, (k < sN s)%nat -> fl + / 1000000000000 <= sx s k -> (/ 1000000000000 < sf s k -> ncs_value s fl (sx s k) = Some (sf s k)) /\ (sf s k <= 0 -> sf s k <> - / 1000000000000 -> ncs_value s fl (sx s k) = Some 0)) /\
  (exists S, natural_cubic_spline (sN s - 1) (sx s) (sf s) S /\ forall i h, (i + 1 < sN s)%nat -> sx s i + / 1000000000000 < h < sx s (i+1)%nat - / 1000000000000 -> fl + / 1000000000000 <= h ->
     / 1000000000000 < S i h -> ncs_value s fl h = Some (S i h)).
Proof.
  intros HN Hs. destruct (c77 s HN Hs) as (S & S' & PS & _ & VI & VN & VT & VO & _). fold ROUND_OFF_ERR in *. pose proof ROE_pos as RP.
  assert (LF : forall u v, u <= v -> Rabs (u - v) <> ROUND_OFF_ERR -> LSSEQL u v = true).
  { intros u v L N. apply LSSEQL_iff. split; [lra|]. intros ->. apply N. replace (v - ROUND_OFF_ERR - v) with (- ROUND_OFF_ERR) by ring. rewrite Rabs_Ropp. apply Rabs_right. lra. }
  split; [|split; [|split]].
  - intros h v. unfold ncs_value. destruct (LSSEQL h fl); [intros E; inversion E; lra|]. destruct (interpolation_spline s h) as [|[w|]]; try (intros E; inversion E; lra).
    destruct (LSSEQL w 0) eqn:L; intros E; inversion E; subst; [lra|]. destruct (Rle_dec 0 v) as [|N]; auto. right.
    destruct (Req_EM_T v (- ROUND_OFF_ERR)) as [->|N2]; auto. exfalso. assert (LSSEQL v 0 = true); [|congruence]. apply LSSEQL_iff. split; lra.
  - intros h Hh Hn. unfold ncs_value. rewrite LF; auto.
  - intros k Hk Hfl. destruct (VN k Hk) as [V _]. unfold ncs_value. rewrite V. rewrite LE_false by lra. split.
    + intros P. rewrite LE_false by lra. reflexivity.
    + intros P Q. rewrite (proj2 (LSSEQL_iff _ _)); auto. split; [lra|]. intros E. apply Q. lra.
  - exists S. split; auto. intros i h Hi Hh Hfl P. destruct (VI i h Hi Hh) as [V _]. unfold ncs_value. rewrite V, !LE_false by lra. reflexivity.
Qed.
Lemma c80r s fl h : (2 <= sN s)%nat -> separated_points (sN s) (sx s) -> sx s (sN s - 1)%nat + / 1000000000000 <= h -> ncs_value s fl h = Some 0.
Proof.
  intros HN Hs Hh. destruct (c77 s HN Hs) as (S & S' & _ & _ & _ & _ & _ & VO & _). destruct (VO h (or_intror Hh)) as [V _].
  unfold ncs_value. destruct (LSSEQL h fl); auto. rewrite V. reflexivity.
Qed.
Lemma c78_given N x f g acc np : separated_points N x -> (2 <= N)%nat -> (1 <= np <= N)%nat -> plan_hermite N x f (Some g) acc np = Ok (mkHermite N x f (fun i => Some (g i))).
Proof.
  intros Hs HN Hnp. unfold plan_hermite. destruct (Nat.eqb_spec np 0); [lia|]. destruct (Nat.ltb_spec N np); [lia|].
  destruct (c77_plan N x f) as [PL _]. rewrite PL by auto. cbn [obind sx sf]. pose proof (sep_lt x N Hs (N-1) 0 ltac:(lia) ltac:(lia)).
  destruct (GRT (x 0%nat) (x (N-1)%nat)) eqn:E; auto. apply GRT_iff in E. pose proof ROE_pos. lra.
Qed.
Lemma c78_given_rev N x f g acc np : separated_points N (fun i => x (N - 1 - i)%nat) -> (2 <= N)%nat -> (1 <= np <= N)%nat ->
     plan_hermite N x f (Some g) acc np = Ok (mkHermite N (fun i => x (N - 1 - i)%nat) (fun i => f (N - 1 - i)%nat) (fun i => Some (g (N - 1 - i)%nat))).
Proof.
  intros Hs HN Hnp. unfold plan_hermite. destruct (Nat.eqb_spec np 0); [lia|]. destruct (Nat.ltb_spec N np); [lia|].
  destruct (c77_plan N x f) as (_ & PL & _). rewrite PL by auto. cbn [obind sx sf]. pose proof (sep_lt _ N Hs (N-1) 0 ltac:(lia) ltac:(lia)) as L. cbn beta in L.
  replace (N - 1 - (N - 1))%nat with 0%nat in L by lia. replace (N - 1 - 0)%nat with (N-1)%nat in L by lia.
  rewrite (proj2 (GRT_iff _ _)) by lra. reflexivity.
Qed.
Lemma sep_INR N : separated_points N INR.
Proof. intros i Hi. rewrite plus_INR. cbn [INR]. lra. Qed.
Lemma c78_ex : exists H, plan_hermite 6 INR (fun i => peval [1;2;0;4] (INR i)) None 3 2 = Ok H /\
  interpolation_Hermite_1d (hx H) (hf H) (hfp H) (hN H) 2 (5/2) = Ok (Some (peval [1;2;0;4] (5/2))).
Proof.
  destruct (c78_end 6 INR [1;2;0;4] 3 2) as (H & E & V); try lia; cbn [length]; try lia. apply sep_INR.
  exists H. split; auto. apply V. cbn. lra.
Qed.
Lemma c79_ex : finite_difference_Fornberg (fun i => peval [0;0;0;1] (INR i)) INR 1 5 1 3 = Ok (Some 3).
Proof.
  rewrite (proj1 c79 _ INR 1 5%nat 1%nat 3%nat [0;0;0;1] (fun y => peval (pquot y [0;0;0;1]) y)); try lia; cbn [length]; try lia; auto.
  - do 2 f_equal. cbn. ring.
  - intros i j _ _ E. apply INR_eq in E. exact E.
  - apply poly_nth.
Qed.
Lemma c80_ex : ncs_value (mkSpline 3 INR (fun i => 1 + INR i)) (1/2) 2 = Some 3 /\ ncs_value (mkSpline 3 INR (fun i => 1 + INR i)) (1/2) 3 = Some 0.
Proof.
  split.
  - destruct (c80 (mkSpline 3 INR (fun i => 1 + INR i)) (1/2) ltac:(cbn; lia) (sep_INR 3)) as (_ & _ & V & _).
    destruct (V 2%nat) as [A _]; [cbn; lia|cbn; lra|]. cbn [sx sf INR] in A. replace (1 + 1) with 2 in A by ring. rewrite A by lra. first [reflexivity | f_equal; ring].
  - apply c80r; [cbn; lia|apply sep_INR|cbn; lra].
Qed.
