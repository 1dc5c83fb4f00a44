(** FourierProofs.v *)
From Verif Require Import RealBase TrigSums FourierSpec FourierModel.

Lemma csum_val n f : csum n f = (Rsum n (fun i => fst (f i)), Rsum n (fun i => snd (f i))).
Proof. induction n; cbn; [reflexivity|]. rewrite IHn. reflexivity. Qed.

(** half weight of mode 0 *)
Definition hw (m : nat) : R := match m with O => / 2 | _ => 1 end.
(** the interpolation kernel of N points *)
Definition DN (N : nat) (t : R) : R := 2 / INR N * Rsum (N / 2 + 1) (fun m => hw m * cos (INR m * t)).

(** ** sums over the nodes *)
Lemma sum_cos_tel N a : 2 * sin (a / 2) * Rsum N (fun i => cos (INR i * a)) = sin ((INR N - / 2) * a) + sin (a / 2).
Proof.
  induction N.
  - cbn [Rsum]. rewrite Rmult_0_r. replace ((INR 0 - / 2) * a) with (- (a / 2)) by (cbn; field). rewrite sin_neg. ring.
  - cbn [Rsum]. rewrite Rmult_plus_distr_l, IHN.
    replace ((INR (S N) - / 2) * a) with (INR N * a + a / 2) by (rewrite S_INR; field).
    replace ((INR N - / 2) * a) with (INR N * a - a / 2) by field. rewrite sin_plus, sin_minus. ring.
Qed.
Lemma sum_sin_tel N a : 2 * sin (a / 2) * Rsum N (fun i => sin (INR i * a)) = cos (a / 2) - cos ((INR N - / 2) * a).
Proof.
  induction N.
  - cbn [Rsum]. rewrite Rmult_0_r. replace ((INR 0 - / 2) * a) with (- (a / 2)) by (cbn; field). rewrite cos_neg. ring.
  - cbn [Rsum]. rewrite Rmult_plus_distr_l, IHN.
    replace ((INR (S N) - / 2) * a) with (INR N * a + a / 2) by (rewrite S_INR; field).
    replace ((INR N - / 2) * a) with (INR N * a - a / 2) by field. rewrite cos_plus, cos_minus. ring.
Qed.
Lemma root_sums N q : (0 < q < N)%nat ->
  Rsum N (fun i => cos (INR q * xnode N i)) = 0 /\ Rsum N (fun i => sin (INR q * xnode N i)) = 0.
Proof.
  intros H. assert (HN : INR N <> 0) by (apply not_0_INR; lia).
  set (a := INR q * (2 * PI / INR N)).
  assert (Hs : sin (a / 2) <> 0).
  { replace (a / 2) with (INR (2 * q) * PI / INR N / 2) by (unfold a; rewrite mult_INR; cbn; field; exact HN). apply sin_pos_nz. lia. }
  assert (EN : (INR N - / 2) * a = - (a / 2) + 2 * INR q * PI) by (unfold a; field; exact HN).
  assert (Hx : forall i, INR q * xnode N i = INR i * a) by (intros; unfold xnode, a; ring).
  split.
  - rewrite (Rsum_ext _ _ (fun i => cos (INR i * a))) by (intros; rewrite Hx; reflexivity).
    apply Rmult_eq_reg_l with (2 * sin (a / 2)); [|lra]. rewrite sum_cos_tel, EN, sin_2nPI, sin_neg. ring.
  - rewrite (Rsum_ext _ _ (fun i => sin (INR i * a))) by (intros; rewrite Hx; reflexivity).
    apply Rmult_eq_reg_l with (2 * sin (a / 2)); [|lra]. rewrite sum_sin_tel, EN, cos_2nPI, cos_neg. ring.
Qed.
Lemma sum_ext2 N f g : (forall i, f i = g i) -> Rsum N f = Rsum N g.
Proof. intros H. apply Rsum_ext. intros. apply H. Qed.
Lemma cos_diff N k m i : (m <= k)%nat -> cos (INR k * xnode N i - INR m * xnode N i) = cos (INR (k - m) * xnode N i).
Proof. intros H. rewrite minus_INR by lia. f_equal. ring. Qed.
Lemma sum_cos_q N q : (q < N)%nat -> Rsum N (fun i => cos (INR q * xnode N i)) = if Nat.eqb q 0 then INR N else 0.
Proof.
  intros H. destruct (Nat.eqb_spec q 0) as [->|E].
  - rewrite (sum_ext2 _ _ (fun _ => 1)); [rewrite Rsum_const; ring|]. intros. cbn. rewrite Rmult_0_l. apply cos_0.
  - apply root_sums. lia.
Qed.
Lemma sum_sin_q N q : (q < N)%nat -> Rsum N (fun i => sin (INR q * xnode N i)) = 0.
Proof.
  intros H. destruct (Nat.eqb_spec q 0) as [->|E].
  - apply Rsum_zero. intros. cbn. rewrite Rmult_0_l. apply sin_0.
  - apply root_sums. lia.
Qed.
Lemma sum_cos_diff N k m : (k < N)%nat -> (m < N)%nat ->
  Rsum N (fun i => cos (INR k * xnode N i - INR m * xnode N i)) = if Nat.eqb k m then INR N else 0.
Proof.
  intros Hk Hm. destruct (Nat.leb_spec m k).
  - rewrite (sum_ext2 _ _ (fun i => cos (INR (k - m) * xnode N i))) by (intros; apply cos_diff; assumption).
    rewrite sum_cos_q by lia. destruct (Nat.eqb_spec (k - m) 0), (Nat.eqb_spec k m); try reflexivity; lia.
  - rewrite (sum_ext2 _ _ (fun i => cos (INR (m - k) * xnode N i))).
    + rewrite sum_cos_q by lia. destruct (Nat.eqb_spec (m - k) 0), (Nat.eqb_spec k m); try reflexivity; lia.
    + intros i. rewrite <- cos_diff by lia. rewrite <- cos_neg. f_equal. ring.
Qed.
Lemma sum_sin_diff N k m : (k < N)%nat -> (m < N)%nat -> Rsum N (fun i => sin (INR k * xnode N i - INR m * xnode N i)) = 0.
Proof.
  intros Hk Hm. destruct (Nat.leb_spec m k).
  - rewrite (sum_ext2 _ _ (fun i => sin (INR (k - m) * xnode N i))); [apply sum_sin_q; lia|].
    intros i. rewrite minus_INR by lia. f_equal. ring.
  - rewrite (sum_ext2 _ _ (fun i => (-1) * sin (INR (m - k) * xnode N i))); [rewrite Rsum_scal, sum_sin_q by lia; ring|].
    intros i. rewrite minus_INR by lia. replace (-1 * sin ((INR m - INR k) * xnode N i)) with (- sin ((INR m - INR k) * xnode N i)) by ring. rewrite <- sin_neg. f_equal. ring.
Qed.

(** ** reproduction of a mode: sum_i cos(k x_i - s) D_N(x - x_i) = cos(k x - s) *)
Lemma mode_row N k m x s : (2 * k < N)%nat -> (2 * m <= N)%nat ->
  Rsum N (fun i => cos (INR k * xnode N i - s) * cos (INR m * (x - xnode N i))) =
  if Nat.eqb k m then (match m with O => INR N * cos s | _ => INR N / 2 * cos (INR m * x - s) end) else 0.
Proof.
  intros Hk Hm.
  assert (E : forall i, cos (INR k * xnode N i - s) * cos (INR m * (x - xnode N i)) =
     (/ 2 * cos (INR m * x - s)) * cos (INR k * xnode N i - INR m * xnode N i) + (- / 2 * sin (INR m * x - s)) * sin (INR k * xnode N i - INR m * xnode N i)
     + (/ 2 * cos (INR m * x + s)) * cos (INR (k + m) * xnode N i) + (/ 2 * sin (INR m * x + s)) * sin (INR (k + m) * xnode N i)).
  { intros i. set (t := xnode N i).
    transitivity (/ 2 * cos ((INR m * x - s) + (INR k * t - INR m * t)) + / 2 * cos ((INR m * x + s) - INR (k + m) * t)).
    - pose proof (cos_cos (INR k * t - s) (INR m * (x - t))) as C.
      replace (INR m * x - s + (INR k * t - INR m * t)) with (INR k * t - s + INR m * (x - t)) by ring.
      replace (INR m * x + s - INR (k + m) * t) with (- (INR k * t - s - INR m * (x - t))) by (rewrite plus_INR; ring). rewrite cos_neg. lra.
    - rewrite (cos_plus (INR m * x - s)), (cos_minus (INR m * x + s)). ring. }
  rewrite (sum_ext2 _ _ _ E), !Rsum_plus, !Rsum_scal, sum_cos_diff, sum_sin_diff, sum_cos_q, sum_sin_q by lia.
  destruct (Nat.eqb_spec k m) as [->|Ne].
  - destruct m as [|m']; cbn [Nat.add Nat.eqb].
    + cbn [INR]. rewrite Rmult_0_l. unfold Rminus. rewrite Rplus_0_l, Rplus_0_l, cos_neg. field.
    + field.
  - destruct (Nat.eqb_spec (k + m) 0); [lia|]. ring.
Qed.
Lemma mode_kernel N k x s : (2 * k < N)%nat -> Rsum N (fun i => cos (INR k * xnode N i - s) * DN N (x - xnode N i)) = cos (INR k * x - s).
Proof.
  intros Hk. assert (HN : INR N <> 0) by (apply not_0_INR; lia).
  assert (Hl : (2 * (N / 2) <= N)%nat) by (pose proof (Nat.div_mod N 2); lia).
  rewrite (sum_ext2 _ _ (fun i => 2 / INR N * Rsum (N / 2 + 1) (fun m => hw m * (cos (INR k * xnode N i - s) * cos (INR m * (x - xnode N i)))))).
  2:{ intros i. unfold DN. rewrite (Rmult_comm (cos _)), Rmult_assoc, <- Rsum_scal_r. f_equal. apply sum_ext2. intros m. ring. }
  rewrite Rsum_scal, Rsum_exchange.
  rewrite (Rsum_ext _ _ (fun m => if Nat.eqb k m then INR N / 2 * cos (INR k * x - s) else 0)).
  - rewrite (Rsum_single _ k).
    + rewrite Nat.eqb_refl. field. exact HN.
    + pose proof (Nat.div_le_lower_bound N 2 k). lia.
    + intros i _ Hi. destruct (Nat.eqb_spec k i); [congruence|reflexivity].
  - intros m Hm. rewrite Rsum_scal, mode_row by lia. destruct (Nat.eqb_spec k m) as [->|]; [|ring].
    destruct m; cbn [hw]; [|ring]. cbn [INR]. rewrite Rmult_0_l. unfold Rminus. rewrite Rplus_0_l, cos_neg. field.
Qed.
Lemma kernel_cos N k x : (2 * k < N)%nat -> Rsum N (fun i => cos (INR k * xnode N i) * DN N (x - xnode N i)) = cos (INR k * x).
Proof.
  intros H. rewrite <- (Rminus_0_r (INR k * x)). rewrite <- (mode_kernel N k x 0 H). apply sum_ext2. intros. rewrite Rminus_0_r. reflexivity.
Qed.
Lemma kernel_sin N k x : (2 * k < N)%nat -> Rsum N (fun i => sin (INR k * xnode N i) * DN N (x - xnode N i)) = sin (INR k * x).
Proof.
  intros H. assert (E : forall t, sin t = cos (t - PI / 2)) by (intros t; rewrite cos_minus, cos_PI2, sin_PI2; ring).
  rewrite (E (INR k * x)). rewrite <- (mode_kernel N k x (PI / 2) H). apply sum_ext2. intros. rewrite <- E. reflexivity.
Qed.
Lemma kernel_trig1 N K a b x : (2 * K < N)%nat -> Rsum N (fun i => trig1 K a b (xnode N i) * DN N (x - xnode N i)) = trig1 K a b x.
Proof.
  intros H. unfold trig1.
  rewrite (sum_ext2 _ _ (fun i => Rsum (S K) (fun k => a k * (cos (INR k * xnode N i) * DN N (x - xnode N i)) + b k * (sin (INR k * xnode N i) * DN N (x - xnode N i))))).
  2:{ intros i. rewrite <- Rsum_scal_r. apply sum_ext2. intros. ring. }
  rewrite Rsum_exchange. apply Rsum_ext. intros k Hk. rewrite Rsum_plus, !Rsum_scal, kernel_cos, kernel_sin by lia. reflexivity.
Qed.

(** ** the kernel at the nodes *)
Lemma DN_even N t : DN N (- t) = DN N t.
Proof. unfold DN. f_equal. apply sum_ext2. intros m. replace (INR m * - t) with (- (INR m * t)) by ring. rewrite cos_neg. reflexivity. Qed.
Lemma DN_q N q : (q < N)%nat ->
  DN N (xnode N q) = (if Nat.eqb q 0 then 1 else 0) + (if Nat.even N then (if Nat.even q then 1 else -1) / INR N else 0).
Proof.
  intros Hq. assert (HN : INR N <> 0) by (apply not_0_INR; lia).
  unfold DN. replace (N / 2 + 1)%nat with (S (N / 2)) by lia. rewrite Rsum_S_l. cbn [hw].
  rewrite (sum_ext2 _ _ (fun i => cos (INR (S i) * xnode N q))) by (intros; ring).
  replace (INR 0 * xnode N q) with 0 by (cbn; ring). rewrite cos_0.
  pose proof (Nat.div_mod N 2 ltac:(lia)) as DM. set (M := (N / 2)%nat) in *.
  assert (Hpar : ((N = 2 * M /\ Nat.even N = true) \/ (N = 2 * M + 1 /\ Nat.even N = false))%nat).
  { pose proof (Nat.mod_upper_bound N 2 ltac:(lia)). generalize dependent M. intros M DM. destruct (Nat.eq_dec (N mod 2) 0).
    - left. split; [lia|]. replace N with (2 * M)%nat by lia. apply Nat.even_mul.
    - right. split; [lia|]. replace N with (2 * M + 1)%nat by lia. rewrite Nat.even_add, Nat.even_mul. reflexivity. }
  clear DM.
  destruct (Nat.eqb_spec q 0) as [->|Nq].
  - rewrite (sum_ext2 _ _ (fun _ => 1)); [|intros i; unfold xnode; cbn [INR]; rewrite Rmult_0_l, Rmult_0_r; apply cos_0].
    rewrite Rsum_const. cbn [Nat.even]. destruct Hpar as [[HN' ->]|[HN' ->]]; rewrite HN' in HN |- *.
    + rewrite mult_INR in *. cbn [INR] in *. field. intros X. apply HN. rewrite X. ring.
    + rewrite plus_INR, mult_INR in *. cbn [INR] in *. field. lra.
  - set (a := xnode N q).
    assert (Hs : sin (a / 2) <> 0).
    { replace (a / 2) with (INR (2 * q) * PI / INR N / 2) by (unfold a, xnode; rewrite mult_INR; cbn; field; exact HN). apply sin_pos_nz. lia. }
    pose proof (dirichlet M a) as D. set (S0 := Rsum M (fun i => cos (INR (S i) * a))) in *.
    destruct Hpar as [[HN' ->]|[HN' ->]].
    + assert (EQ : (INR M + / 2) * a = a / 2 + INR q * PI).
      { unfold a, xnode. rewrite HN' in HN |- *. rewrite mult_INR in *. cbn [INR] in *. field. intros X; apply HN; rewrite X; ring. }
      rewrite EQ, sin_plus, sin_INR_PI, cos_INR_PI in D.
      assert (E : S0 = ((if Nat.even q then 1 else -1) - 1) / 2).
      { apply Rmult_eq_reg_l with (2 * sin (a / 2)); [|lra]. rewrite D. field. }
      rewrite E. field. exact HN.
    + assert (EQ : (INR M + / 2) * a = INR q * PI).
      { unfold a, xnode. rewrite HN' in HN |- *. rewrite plus_INR, mult_INR in *. cbn [INR] in *. field. lra. }
      rewrite EQ, sin_INR_PI in D.
      assert (E : S0 = - / 2). { apply Rmult_eq_reg_l with (2 * sin (a / 2)); [|lra]. rewrite D. field. }
      rewrite E. field. exact HN.
Qed.
Lemma DN_node N i j : (i < N)%nat -> (j < N)%nat ->
  DN N (xnode N i - xnode N j) = (if Nat.eqb i j then 1 else 0) + (if Nat.even N then (if Nat.even (i + j) then 1 else -1) / INR N else 0).
Proof.
  assert (W : forall i j, (j <= i)%nat -> (i < N)%nat ->
    DN N (xnode N i - xnode N j) = (if Nat.eqb i j then 1 else 0) + (if Nat.even N then (if Nat.even (i + j) then 1 else -1) / INR N else 0)).
  { intros i' j' H1 H2. replace (xnode N i' - xnode N j') with (xnode N (i' - j')) by (unfold xnode; rewrite minus_INR by lia; ring).
    rewrite DN_q by lia. replace (Nat.eqb (i' - j') 0) with (Nat.eqb i' j').
    - replace (Nat.even (i' + j')) with (Nat.even (i' - j')); [reflexivity|].
      replace (i' + j')%nat with (i' - j' + 2 * j')%nat by lia. rewrite Nat.even_add, Nat.even_mul. cbn. destruct (Nat.even (i' - j')); reflexivity.
    - destruct (Nat.eqb_spec i' j'), (Nat.eqb_spec (i' - j') 0); try reflexivity; lia. }
  intros Hi Hj. destruct (Nat.leb_spec j i); [apply W; assumption|].
  replace (xnode N i - xnode N j) with (- (xnode N j - xnode N i)) by ring. rewrite DN_even, W by lia. rewrite Nat.eqb_sym, (Nat.add_comm i j). reflexivity.
Qed.

(** ** 1-d transforms *)
Lemma umul_fits n m i : fits n -> (m <= n / 2)%nat -> (i < n)%nat -> umul m i = INR m * INR i.
Proof.
  intros H Hm Hi. unfold umul, fits in *. rewrite Z.mod_small; [|nia]. rewrite mult_IZR, <- !INR_IZR_INZ. reflexivity.
Qed.
Lemma Some_inj {A} (a b : A) : Some a = Some b -> a = b.
Proof. congruence. Qed.
Lemma r2_eq v n : n <> O -> r2cft_1d v n = Some (fun m => let c := csum n (fun i => cscal (v i) (cexpi (umul m i * (- 2 * PI / INR n)))) in (fst c / INR n, snd c / INR n)).
Proof. intros H. destruct n; [congruence|reflexivity]. Qed.
Lemma c2_eq c N : N <> O -> c2rft_1d c N = Some (fun i => let x := INR i * (2 * PI / INR N) in
           fst (c O) + Rsum (N / 2 + 1 - 1) (fun j => 2 * fst (cmul (c (S j)) (cexpi (INR (S j) * x))))).
Proof. intros H. destruct N; [congruence|reflexivity]. Qed.
Lemma r2cft_1d_val v n c : fits n -> r2cft_1d v n = Some c -> forall m, (m <= n / 2)%nat ->
  c m = (Rsum n (fun i => v i * cos (INR m * xnode n i)) / INR n, - Rsum n (fun i => v i * sin (INR m * xnode n i)) / INR n).
Proof.
  intros Hf E m Hm. destruct (Nat.eq_dec n 0) as [->|Hn]; [discriminate|]. rewrite (r2_eq v n Hn) in E. apply Some_inj in E. rewrite <- E. clear E. rename n into N. cbv zeta. rewrite csum_val. cbn [fst snd]. f_equal.
  - f_equal. apply Rsum_ext. intros i Hi. cbn. f_equal. rewrite (umul_fits N) by assumption. rewrite <- cos_neg. f_equal. unfold xnode. field. apply not_0_INR. exact Hn.
  - unfold Rdiv. f_equal. replace (- Rsum N (fun i => v i * sin (INR m * xnode N i))) with ((-1) * Rsum N (fun i => v i * sin (INR m * xnode N i))) by ring.
    rewrite <- Rsum_scal. apply Rsum_ext. intros i Hi. cbn. rewrite (umul_fits N) by assumption.
    replace (INR m * INR i * (-2 * PI * / INR N)) with (- (INR m * xnode N i)) by (unfold xnode; field; apply not_0_INR; exact Hn).
    rewrite sin_neg. ring.
Qed.
Lemma roundtrip_1d v n c w : fits n -> r2cft_1d v n = Some c -> c2rft_1d c n = Some w -> forall i, (i < n)%nat ->
  w i = Rsum n (fun j => v j * DN n (xnode n i - xnode n j)).
Proof.
  intros Hf E1 E2 i Hi. pose proof (r2cft_1d_val v n c Hf E1) as V.
  assert (HN : INR n <> 0) by (apply not_0_INR; lia).
  rewrite (c2_eq c n ltac:(lia)) in E2. apply Some_inj in E2. rewrite <- E2. clear E2. rename n into N. cbv zeta. replace (N / 2 + 1 - 1)%nat with (N / 2)%nat by lia.
  change (INR i * (2 * PI / INR N)) with (xnode N i).
  rewrite (Rsum_ext _ _ (fun m => 2 / INR N * Rsum N (fun j => v j * cos (INR (S m) * (xnode N i - xnode N j))))).
  2:{ intros m Hm. rewrite V by lia. cbn [cmul cexpi fst snd].
      transitivity (2 / INR N * (Rsum N (fun j => v j * cos (INR (S m) * xnode N j)) * cos (INR (S m) * xnode N i) + Rsum N (fun j => v j * sin (INR (S m) * xnode N j)) * sin (INR (S m) * xnode N i))); [unfold Rdiv; ring|].
      f_equal. rewrite <- !Rsum_scal_r, <- Rsum_plus. apply sum_ext2. intros j. rewrite Rmult_minus_distr_l, cos_minus. ring. }
  rewrite V by lia. cbn [fst]. rewrite Rsum_scal, Rsum_exchange.
  rewrite (sum_ext2 N (fun j => v j * DN N (xnode N i - xnode N j)) (fun j => 2 / INR N * (v j * cos (INR 0 * xnode N j) * / 2 + Rsum (N / 2) (fun m => v j * cos (INR (S m) * (xnode N i - xnode N j)))))).
  - rewrite Rsum_scal, Rsum_plus, Rsum_scal_r. field. exact HN.
  - intros j. unfold DN. replace (N / 2 + 1)%nat with (S (N / 2)) by lia. rewrite Rsum_S_l. cbn [hw]. rewrite Rsum_scal.
    replace (INR 0 * (xnode N i - xnode N j)) with 0 by (cbn; ring). replace (INR 0 * xnode N j) with 0 by (cbn; ring). rewrite cos_0.
    rewrite Rsum_scal. ring.
Qed.
(** ** 2-d transform *)
Lemma half_re (m : nat) (c : Cx) : (match m with O => (fst c / 2, snd c / 2) | _ => c end) = (hw m * fst c, hw m * snd c).
Proof. destruct m, c; cbn; f_equal; field. Qed.
Lemma cf1_val g N m : (0 < N)%nat ->
  cf1 g N m = (hw m / INR N * Rsum N (fun i => g i * cos (INR m * xnode N i)), - (hw m / INR N * Rsum N (fun i => g i * sin (INR m * xnode N i)))).
Proof.
  intros HN. assert (H : INR N <> 0) by (apply not_0_INR; lia). unfold cf1. cbv zeta. rewrite half_re, csum_val. cbn [fst snd].
  assert (E : forall i, INR i * (INR m * (-2 * PI / INR N)) = - (INR m * xnode N i)) by (intros; unfold xnode; field; exact H).
  f_equal.
  - rewrite (sum_ext2 _ _ (fun i => g i * cos (INR m * xnode N i))); [unfold Rdiv; ring|]. intros i. cbn. rewrite E, cos_neg. reflexivity.
  - rewrite (sum_ext2 _ _ (fun i => (-1) * (g i * sin (INR m * xnode N i)))); [rewrite Rsum_scal; unfold Rdiv; ring|].
    intros i. cbn. rewrite E, sin_neg. ring.
Qed.
Lemma cf2_cf1 f N i m : cf2 f N i m = cf1 (fun j => f (IJ i j N)) N m.
Proof. reflexivity. Qed.
Lemma IJ_lt l0 l1 m0 m1 : (m0 < l0)%nat -> (m1 < l1)%nat -> (IJ m0 m1 l1 < l0 * l1)%nat.
Proof. unfold IJ. nia. Qed.
Lemma IJ_div l1 m0 m1 : (m1 < l1)%nat -> (IJ m0 m1 l1 / l1)%nat = m0 /\ (IJ m0 m1 l1 mod l1)%nat = m1.
Proof. intros H. unfold IJ. rewrite Nat.div_add, Nat.mod_add by lia. rewrite Nat.div_small, Nat.mod_small by lia. split; lia. Qed.

(** kernel of mode pair (m0,m1) against the data *)
Definition K2 (f : nat -> R) (N0 N1 : nat) (F G : nat -> R) : R := Rsum N0 (fun i => Rsum N1 (fun j => f (IJ i j N1) * (F i * G j))).
Lemma K2_lin f N0 N1 F G c : c * K2 f N0 N1 F G = K2 f N0 N1 (fun i => c * F i) G.
Proof. unfold K2. rewrite <- Rsum_scal. apply sum_ext2. intros i. rewrite <- Rsum_scal. apply sum_ext2. intros j. ring. Qed.
Lemma nested f N0 N1 F G : Rsum N0 (fun i => Rsum N1 (fun j => f (IJ i j N1) * G j) * F i) = K2 f N0 N1 F G.
Proof. unfold K2. apply sum_ext2. intros i. rewrite <- Rsum_scal_r. apply sum_ext2. intros j. ring. Qed.

Section TwoD.
  Variables (f : nat -> R) (N0 N1 : nat).
  Hypothesis (H0 : (0 < N0)%nat) (H1 : (0 < N1)%nat).
  Notation l0 := (N0 / 2 + 1)%nat. Notation l1 := (N1 / 2 + 1)%nat.
  Notation rC := (fst (r2cft_2d f N0 N1)). Notation iC := (snd (r2cft_2d f N0 N1)).
  Lemma entries m0 m1 : (m0 < l0)%nat -> (m1 < l1)%nat ->
    let k := IJ m0 m1 l1 in let w := hw m0 / INR N0 * (hw m1 / INR N1) in
    let c0 i := cos (INR m0 * xnode N0 i) in let s0 i := sin (INR m0 * xnode N0 i) in
    let c1 j := cos (INR m1 * xnode N1 j) in let s1 j := sin (INR m1 * xnode N1 j) in
    rC k = w * K2 f N0 N1 c0 c1 /\ iC k = - (w * K2 f N0 N1 s0 c1) /\
    rC (l0 * l1 + k)%nat = - (w * K2 f N0 N1 c0 s1) /\ iC (l0 * l1 + k)%nat = w * K2 f N0 N1 s0 s1.
  Proof.
    intros Hm0 Hm1 k w c0 s0 c1 s1.
    pose proof (IJ_lt l0 l1 m0 m1 Hm0 Hm1) as Hk. fold k in Hk. destruct (IJ_div l1 m0 m1 Hm1) as [D M]. fold k in D, M.
    unfold r2cft_2d. cbv zeta. cbn [fst snd].
    assert (L1 : Nat.ltb k (l0 * l1) = true) by (apply Nat.ltb_lt; exact Hk).
    assert (L2 : Nat.ltb (l0 * l1 + k) (l0 * l1) = false) by (apply Nat.ltb_ge; lia).
    rewrite !L1, !L2. replace (l0 * l1 + k - l0 * l1)%nat with k by lia. rewrite D, M.
    assert (A : forall i, cf2 f N1 i m1 = (hw m1 / INR N1 * Rsum N1 (fun j => f (IJ i j N1) * c1 j), - (hw m1 / INR N1 * Rsum N1 (fun j => f (IJ i j N1) * s1 j)))).
    { intros i. rewrite cf2_cf1, cf1_val by exact H1. reflexivity. }
    rewrite !cf1_val by exact H0. cbn [fst snd]. fold c0 s0.
    repeat split.
    - rewrite (sum_ext2 _ _ (fun i => hw m1 / INR N1 * (Rsum N1 (fun j => f (IJ i j N1) * c1 j) * c0 i))) by (intros i; rewrite A; cbn [fst]; unfold c0; ring).
      rewrite Rsum_scal, nested. unfold w. ring.
    - rewrite (sum_ext2 _ _ (fun i => hw m1 / INR N1 * (Rsum N1 (fun j => f (IJ i j N1) * c1 j) * s0 i))) by (intros i; rewrite A; cbn [fst]; unfold s0; ring).
      rewrite Rsum_scal, nested. unfold w. ring.
    - rewrite (sum_ext2 _ _ (fun i => - (hw m1 / INR N1) * (Rsum N1 (fun j => f (IJ i j N1) * s1 j) * c0 i))) by (intros i; rewrite A; cbn [snd]; unfold c0; ring).
      rewrite Rsum_scal, nested. unfold w. ring.
    - rewrite (sum_ext2 _ _ (fun i => - (hw m1 / INR N1) * (Rsum N1 (fun j => f (IJ i j N1) * s1 j) * s0 i))) by (intros i; rewrite A; cbn [snd]; unfold s0; ring).
      rewrite Rsum_scal, nested. unfold w. ring.
  Qed.
End TwoD.

(** the real part of one term of the interpolation, for every coefficient array *)
Definition term (rC iC : nat -> R) (L k : nat) (a b : R) : R :=
  2 * (rC k * cos a * cos b + iC (L + k)%nat * sin a * sin b - iC k * sin a * cos b - rC (L + k)%nat * cos a * sin b).
Lemma interp_terms rC iC N0 N1 x y :
  let l0 := (N0 / 2 + 1)%nat in let l1 := (N1 / 2 + 1)%nat in
  interp_2d rC iC N0 N1 x y = 2 * Rsum l0 (fun m0 => Rsum l1 (fun m1 => term rC iC (l0 * l1) (IJ m0 m1 l1) (INR m0 * x) (INR m1 * y))).
Proof.
  cbv zeta. unfold interp_2d. cbv zeta. rewrite csum_val. cbn [fst]. f_equal. apply sum_ext2. intros m0. rewrite csum_val. cbn [fst]. apply sum_ext2. intros m1.
  cbn [cadd cmul cexpi br_p br_m fst snd]. unfold term. rewrite cos_plus, cos_minus, sin_plus, sin_minus. ring.
Qed.
Lemma K2_4 f N0 N1 F1 G1 F2 G2 F3 G3 F4 G4 : K2 f N0 N1 F1 G1 + K2 f N0 N1 F2 G2 + K2 f N0 N1 F3 G3 + K2 f N0 N1 F4 G4 =
  Rsum N0 (fun i => Rsum N1 (fun j => f (IJ i j N1) * (F1 i * G1 j + F2 i * G2 j + F3 i * G3 j + F4 i * G4 j))).
Proof. unfold K2. rewrite <- !Rsum_plus. apply sum_ext2. intros i. rewrite <- !Rsum_plus. apply sum_ext2. intros j. ring. Qed.
Lemma prod_sum n m c (A B : nat -> R) : Rsum n (fun i => Rsum m (fun j => c * (A i * B j))) = c * (Rsum n A * Rsum m B).
Proof.
  rewrite (sum_ext2 n _ (fun i => c * (A i * Rsum m B))) by (intros i; rewrite Rsum_scal, Rsum_scal; reflexivity).
  rewrite Rsum_scal, Rsum_scal_r. reflexivity.
Qed.
Lemma interp_kernel f N0 N1 x y : (0 < N0)%nat -> (0 < N1)%nat ->
  interp_2d (fst (r2cft_2d f N0 N1)) (snd (r2cft_2d f N0 N1)) N0 N1 x y =
  Rsum N0 (fun i => Rsum N1 (fun j => f (IJ i j N1) * (DN N0 (x - xnode N0 i) * DN N1 (y - xnode N1 j)))).
Proof.
  intros H0 H1. rewrite interp_terms. cbv zeta.
  set (l0 := (N0 / 2 + 1)%nat). set (l1 := (N1 / 2 + 1)%nat).
  rewrite (Rsum_ext l0 _ (fun m0 => Rsum l1 (fun m1 => 2 * (hw m0 / INR N0 * (hw m1 / INR N1)) *
     Rsum N0 (fun i => Rsum N1 (fun j => f (IJ i j N1) * (cos (INR m0 * (x - xnode N0 i)) * cos (INR m1 * (y - xnode N1 j)))))))).
  2:{ intros m0 Hm0. apply Rsum_ext. intros m1 Hm1. unfold term. destruct (entries f N0 N1 H0 H1 m0 m1 Hm0 Hm1) as (A & B & C & D).
      fold l0 l1 in A, B, C, D. rewrite A, B, C, D. set (w := hw m0 / INR N0 * (hw m1 / INR N1)).
      set (cx := cos (INR m0 * x)). set (sx := sin (INR m0 * x)). set (cy := cos (INR m1 * y)). set (sy := sin (INR m1 * y)).
      rewrite (sum_ext2 N0 (fun i => Rsum N1 (fun j => f (IJ i j N1) * (cos (INR m0 * (x - xnode N0 i)) * cos (INR m1 * (y - xnode N1 j)))))
        (fun i => Rsum N1 (fun j => f (IJ i j N1) * ((cx * cy * cos (INR m0 * xnode N0 i)) * cos (INR m1 * xnode N1 j) + (sx * sy * sin (INR m0 * xnode N0 i)) * sin (INR m1 * xnode N1 j)
            + (sx * cy * sin (INR m0 * xnode N0 i)) * cos (INR m1 * xnode N1 j) + (cx * sy * cos (INR m0 * xnode N0 i)) * sin (INR m1 * xnode N1 j))))).
      2:{ intros i. apply sum_ext2. intros j. rewrite !Rmult_minus_distr_l, !cos_minus. unfold cx, sx, cy, sy. ring. }
      rewrite <- (K2_4 f N0 N1 (fun i => cx * cy * cos (INR m0 * xnode N0 i)) (fun j => cos (INR m1 * xnode N1 j)) (fun i => sx * sy * sin (INR m0 * xnode N0 i)) (fun j => sin (INR m1 * xnode N1 j))
         (fun i => sx * cy * sin (INR m0 * xnode N0 i)) (fun j => cos (INR m1 * xnode N1 j)) (fun i => cx * sy * cos (INR m0 * xnode N0 i)) (fun j => sin (INR m1 * xnode N1 j))).
      rewrite <- !K2_lin. ring. }
  rewrite <- Rsum_scal.
  (* sum over modes inside *)
  rewrite (sum_ext2 l0 _ (fun m0 => Rsum l1 (fun m1 => Rsum N0 (fun i => Rsum N1 (fun j => f (IJ i j N1) *
     ((2 / INR N0 * (hw m0 * cos (INR m0 * (x - xnode N0 i)))) * (2 / INR N1 * (hw m1 * cos (INR m1 * (y - xnode N1 j)))))))))).
  2:{ intros m0. rewrite <- Rsum_scal. apply sum_ext2. intros m1. rewrite <- Rmult_assoc, <- Rsum_scal. apply sum_ext2. intros i. rewrite <- Rsum_scal. apply sum_ext2. intros j. unfold Rdiv. ring. }
  rewrite (sum_ext2 l0 _ (fun m0 => Rsum N0 (fun i => Rsum l1 (fun m1 => Rsum N1 (fun j => f (IJ i j N1) *
     ((2 / INR N0 * (hw m0 * cos (INR m0 * (x - xnode N0 i)))) * (2 / INR N1 * (hw m1 * cos (INR m1 * (y - xnode N1 j)))))))))) by (intros; apply Rsum_exchange).
  rewrite Rsum_exchange. apply sum_ext2. intros i.
  rewrite (sum_ext2 l0 _ (fun m0 => Rsum N1 (fun j => Rsum l1 (fun m1 => f (IJ i j N1) *
     ((2 / INR N0 * (hw m0 * cos (INR m0 * (x - xnode N0 i)))) * (2 / INR N1 * (hw m1 * cos (INR m1 * (y - xnode N1 j))))))))) by (intros; apply Rsum_exchange).
  rewrite Rsum_exchange. apply sum_ext2. intros j.
  unfold DN. fold l0 l1. rewrite <- (Rsum_scal l0 (2 / INR N0)), <- (Rsum_scal l1 (2 / INR N1)).
  apply (prod_sum l0 l1 (f (IJ i j N1)) (fun m0 => 2 / INR N0 * (hw m0 * cos (INR m0 * (x - xnode N0 i)))) (fun m1 => 2 / INR N1 * (hw m1 * cos (INR m1 * (y - xnode N1 j))))).
Qed.

(** ** reproduction *)
Lemma kernel_trig2 N0 N1 K0 K1 a b c d x y : (2 * K0 < N0)%nat -> (2 * K1 < N1)%nat ->
  Rsum N0 (fun i => Rsum N1 (fun j => trig2 K0 K1 a b c d (xnode N0 i) (xnode N1 j) * (DN N0 (x - xnode N0 i) * DN N1 (y - xnode N1 j)))) = trig2 K0 K1 a b c d x y.
Proof.
  intros H0 H1.
  assert (T : forall u z, trig2 K0 K1 a b c d u z = trig1 K0 (fun k => Rsum (S K1) (fun l => a k l * cos (INR l * z) + b k l * sin (INR l * z)))
      (fun k => Rsum (S K1) (fun l => c k l * cos (INR l * z) + d k l * sin (INR l * z))) u).
  { intros u z. unfold trig2, trig1. apply sum_ext2. intros k. rewrite <- !Rsum_scal_r, <- Rsum_plus. apply sum_ext2. intros l. ring. }
  assert (T' : forall u z, trig2 K0 K1 a b c d u z = trig1 K1 (fun l => Rsum (S K0) (fun k => a k l * cos (INR k * u) + c k l * sin (INR k * u)))
      (fun l => Rsum (S K0) (fun k => b k l * cos (INR k * u) + d k l * sin (INR k * u))) z).
  { intros u z. unfold trig2, trig1. rewrite Rsum_exchange. apply sum_ext2. intros l. rewrite <- !Rsum_scal_r, <- Rsum_plus. apply sum_ext2. intros k. ring. }
  rewrite (sum_ext2 N0 _ (fun i => trig2 K0 K1 a b c d (xnode N0 i) y * DN N0 (x - xnode N0 i))).
  - rewrite (sum_ext2 N0 _ (fun i => trig1 K0 (fun k => Rsum (S K1) (fun l => a k l * cos (INR l * y) + b k l * sin (INR l * y)))
      (fun k => Rsum (S K1) (fun l => c k l * cos (INR l * y) + d k l * sin (INR l * y))) (xnode N0 i) * DN N0 (x - xnode N0 i))) by (intros; rewrite T; reflexivity).
    rewrite kernel_trig1 by exact H0. symmetry. apply T.
  - intros i. rewrite T'. rewrite <- (kernel_trig1 N1 K1 _ _ y H1) at 1. rewrite <- Rsum_scal_r. apply sum_ext2. intros j. rewrite T'. ring.
Qed.
