(** SplineProofs.v - the natural cubic spline. *)
From Verif Require Import RealBase SpectralSpec SpectralDeriv Interp1Model Interp1Spec.
From Verif Require Base.
Import Base(outcome, Ok, Abort, UB, obind).
Open Scope R_scope.

Lemma sep_lt x N : separated_points N x -> forall j i, (i < j)%nat -> (j < N)%nat -> x i + ROUND_OFF_ERR < x j.
Proof.
  intros H. induction j; intros i Hi Hj; [lia|]. pose proof (H j ltac:(lia)) as A. replace (j+1)%nat with (S j) in A by lia. fold ROUND_OFF_ERR in A.
  destruct (Nat.eq_dec i j) as [->|]; [exact A|]. specialize (IHj i ltac:(lia) ltac:(lia)). pose proof ROE_pos. lra.
Qed.
Lemma sep_le x N : separated_points N x -> forall j i, (i <= j)%nat -> (j < N)%nat -> x i <= x j.
Proof. intros H j i Hi Hj. destruct (Nat.eq_dec i j) as [->|]; [lra|]. pose proof (sep_lt x N H j i ltac:(lia) Hj). pose proof ROE_pos. lra. Qed.

Section Spline.
  Variable s : spline.
  Notation N := (sN s). Notation n := (sN s - 1)%nat. Notation x := (sx s). Notation a := (sf s).
  Hypothesis (HN : (2 <= N)%nat) (Hsep : separated_points N x).
  Lemma x_lt i : (S i < N)%nat -> x i < x (S i).
  Proof. intros H. pose proof (sep_lt x N Hsep (S i) i ltac:(lia) H). pose proof ROE_pos. lra. Qed.
  Lemma hh_pos i : (i < n)%nat -> 0 < hh s i.
  Proof. intros H. unfold hh. pose proof (x_lt i ltac:(lia)). lra. Qed.
  Definition AL i := 3 * (a (S i) - a i) / hh s i - 3 * (a i - a (i-1)%nat) / hh s (i-1).
  Lemma al_ok i : (1 <= i < n)%nat -> al s i = Some (AL i).
  Proof.
    intros Hi. unfold al. pose proof (hh_pos i ltac:(lia)). pose proof (hh_pos (i-1) ltac:(lia)).
    rewrite !fdiv_some by lra. reflexivity.
  Qed.
  Definition MU i := match mz s i with Some (m, _) => m | None => 0 end.
  Definition ZZ i := match mz s i with Some (_, z) => z | None => 0 end.
  Definition LL i := 2 * (x (S i) - x (i-1)%nat) - hh s (i-1) * MU (i-1).
  Lemma mz_ok i : (i < n)%nat -> mz s i = Some (MU i, ZZ i) /\ 0 <= MU i < 1 /\
    ((1 <= i)%nat -> 0 < LL i /\ MU i * LL i = hh s i /\ ZZ i * LL i = AL i - hh s (i-1) * ZZ (i-1)).
  Proof.
    induction i; intros Hi.
    - unfold MU, ZZ. cbn. split; [reflexivity|]. split; [lra|]. lia.
    - destruct (IHi ltac:(lia)) as (E & B & _). pose proof (hh_pos i ltac:(lia)) as P1. pose proof (hh_pos (S i) Hi) as P2.
      assert (LP : hh s (S i) < LL (S i)).
      { unfold LL. replace (S i - 1)%nat with i by lia. unfold hh in *. nra. }
      assert (EQ : mz s (S i) = Some (hh s (S i) / LL (S i), (AL (S i) - hh s i * ZZ i) / LL (S i))).
      { cbn [mz]. rewrite E. cbn [fbind]. assert (EL : 2 * (x (S (S i)) - x i) - hh s i * MU i = LL (S i)) by (unfold LL; replace (S i - 1)%nat with i by lia; reflexivity).
        rewrite EL. rewrite fdiv_some by lra. cbn [fbind]. rewrite al_ok by lia. cbn [fbind]. rewrite fdiv_some by lra. reflexivity. }
      assert (EM : MU (S i) = hh s (S i) / LL (S i)) by (unfold MU at 1; rewrite EQ; reflexivity).
      assert (EZ : ZZ (S i) = (AL (S i) - hh s i * ZZ i) / LL (S i)) by (unfold ZZ at 1; rewrite EQ; reflexivity).
      rewrite EM, EZ. split; [exact EQ|]. split; [|intros _; split; [lra|]; replace (S i - 1)%nat with i by lia; split; field; lra].
      split. { apply Rmult_le_pos; [lra|]. left. apply Rinv_0_lt_compat; lra. }
      apply (Rmult_lt_reg_r (LL (S i))); [lra|]. unfold Rdiv. rewrite Rmult_assoc, Rinv_l by lra. lra.
  Qed.
  Definition CC i := match coef_c s i with Some c => c | None => 0 end.
  Lemma c_down_ok k : (k <= n)%nat -> c_down s n k = Some (CC (n - k)%nat) /\ ((1 <= k)%nat -> CC (n - k)%nat = ZZ (n - k)%nat - MU (n - k)%nat * CC (n - k + 1)%nat).
  Proof.
    induction k; intros Hk.
    - split; [|lia]. unfold CC, coef_c. replace (n - (n - 0))%nat with O by lia. reflexivity.
    - destruct (IHk ltac:(lia)) as [E _].
      assert (EQ : c_down s n (S k) = Some (ZZ (n - S k)%nat - MU (n - S k)%nat * CC (n - S k + 1)%nat)).
      { cbn [c_down]. rewrite E. cbn [fbind]. destruct (mz_ok (n - S k) ltac:(lia)) as (-> & _). cbn [fbind]. replace (n - S k + 1)%nat with (n - k)%nat by lia. reflexivity. }
      assert (EC : CC (n - S k)%nat = ZZ (n - S k)%nat - MU (n - S k)%nat * CC (n - S k + 1)%nat).
      { unfold CC at 1, coef_c. replace (n - (n - S k))%nat with (S k) by lia. rewrite EQ. reflexivity. }
      split; auto. rewrite EC. exact EQ.
  Qed.
  Lemma c_ok i : (i <= n)%nat -> coef_c s i = Some (CC i).
  Proof. intros Hi. unfold coef_c. destruct (c_down_ok (n - i) ltac:(lia)) as [-> _]. do 2 f_equal. lia. Qed.
  Lemma c_rec i : (i < n)%nat -> CC i = ZZ i - MU i * CC (S i).
  Proof. intros Hi. destruct (c_down_ok (n - i) ltac:(lia)) as [_ E]. replace (n - (n - i))%nat with i in E by lia. replace (i+1)%nat with (S i) in E by lia. apply E. lia. Qed.
  Lemma c_n : CC n = 0.
  Proof. unfold CC, coef_c. replace (n - n)%nat with O by lia. reflexivity. Qed.
  Lemma c_0 : CC 0 = 0.
  Proof. rewrite c_rec by lia. unfold ZZ, MU. cbn. ring. Qed.
  Lemma tridiagonal i : (1 <= i < n)%nat -> hh s (i-1) * CC (i-1) + 2 * (hh s (i-1) + hh s i) * CC i + hh s i * CC (S i) = AL i.
  Proof.
    intros Hi. rewrite (c_rec (i-1)) by lia. replace (S (i-1)) with i by lia.
    destruct (mz_ok i ltac:(lia)) as (_ & _ & H). destruct (H ltac:(lia)) as (L1 & L2 & L3).
    assert (LE : LL i = 2 * (hh s (i-1) + hh s i) - hh s (i-1) * MU (i-1)).
    { unfold LL, hh. replace (S (i-1)) with i by lia. ring. }
    pose proof (c_rec i ltac:(lia)) as Ci.
    assert (LC : LL i * CC i = AL i - hh s (i-1) * ZZ (i-1) - hh s i * CC (S i)). { rewrite Ci. rewrite <- L2. rewrite <- L3. ring. }
    transitivity (hh s (i-1) * ZZ (i-1) + LL i * CC i + hh s i * CC (S i)); [rewrite LE; ring|]. rewrite LC. ring.
  Qed.
  Definition BB i := (a (S i) - a i) / hh s i - hh s i * (CC (S i) + 2 * CC i) / 3.
  Definition DD i := (CC (S i) - CC i) / 3 / hh s i.
  Lemma b_ok i : (i < n)%nat -> coef_b s i = Some (BB i).
  Proof. intros Hi. unfold coef_b. rewrite !c_ok by lia. cbn [fbind]. pose proof (hh_pos i Hi). rewrite fdiv_some by lra. reflexivity. Qed.
  Lemma d_ok i : (i < n)%nat -> coef_d s i = Some (DD i).
  Proof. intros Hi. unfold coef_d. rewrite !c_ok by lia. cbn [fbind]. pose proof (hh_pos i Hi). rewrite fdiv_some by lra. reflexivity. Qed.
  Definition piece (i : nat) (y : R) : R := a i + BB i * (y - x i) + CC i * Pow2 (y - x i) + DD i * (y - x i) ^ 3.
  Definition piece' (i : nat) (y : R) : R := BB i + 2 * CC i * (y - x i) + 3 * DD i * Pow2 (y - x i).
  Definition piece'' (i : nat) (y : R) : R := 2 * CC i + 6 * DD i * (y - x i).
  Lemma d_lin c y : derivable_pt_lim (fun y => y - c) y 1.
  Proof. replace 1 with (1 - 0) by ring. apply (derivable_pt_lim_minus (fun y => y) (fun _ => c)); [apply derivable_pt_lim_id|apply derivable_pt_lim_const]. Qed.
  Lemma d_poly c0 c1 c2 c3 z y : derivable_pt_lim (fun y => c0 + c1 * (y - z) + c2 * Pow2 (y - z) + c3 * (y - z)^3) y (c1 + 2 * c2 * (y - z) + 3 * c3 * Pow2 (y - z)).
  Proof.
    assert (P1 := d_lin z y). assert (P2 := derivable_pt_lim_mult _ _ _ _ _ P1 P1). assert (P3 := derivable_pt_lim_mult _ _ _ _ _ P2 P1).
    pose proof (derivable_pt_lim_plus _ _ _ _ _ (derivable_pt_lim_plus _ _ _ _ _ (derivable_pt_lim_plus _ _ _ _ _ (derivable_pt_lim_const c0 y) (derivable_pt_lim_scal _ c1 _ _ P1)) (derivable_pt_lim_scal _ c2 _ _ P2)) (derivable_pt_lim_scal _ c3 _ _ P3)) as D.
    match type of D with derivable_pt_lim _ _ ?v => replace (c1 + 2 * c2 * (y - z) + 3 * c3 * Pow2 (y - z)) with v end.
    2:{ unfold mult_fct, Pow2. ring. }
    eapply dlim_ext; [|exact D]. intros t. unfold plus_fct, mult_fct, mult_real_fct, fct_cte, Pow2. ring.
  Qed.
  Lemma d_piece i y : derivable_pt_lim (piece i) y (piece' i y).
  Proof. apply d_poly. Qed.
  Lemma d_piece' i y : derivable_pt_lim (piece' i) y (piece'' i y).
  Proof.
    pose proof (d_poly (BB i) (2 * CC i) (3 * DD i) 0 (x i) y) as D.
    replace (piece'' i y) with (2 * CC i + 2 * (3 * DD i) * (y - x i) + 3 * 0 * Pow2 (y - x i)) by (unfold piece''; ring).
    eapply dlim_ext; [|exact D]. intros t. unfold piece'. ring.
  Qed.
  Lemma piece_spline : natural_cubic_spline n x a piece.
  Proof.
    split; [|split].
    - intros i Hi. exists [a i - BB i * x i + CC i * x i ^ 2 - DD i * x i ^ 3; BB i - 2 * CC i * x i + 3 * DD i * x i ^ 2; CC i - 3 * DD i * x i; DD i].
      split; [reflexivity|]. intros y. unfold piece, Pow2. cbn [peval]. ring.
    - intros i Hi. replace (i+1)%nat with (S i) by lia. unfold piece, Pow2, BB, DD. pose proof (hh_pos i Hi) as P. split; [ring|].
      fold (hh s i). field. lra.
    - exists piece', piece''. split; [intros; split; [apply d_piece|apply d_piece']|]. split; [|split].
      + intros i Hi. replace (i+1)%nat with (S i) by lia. pose proof (hh_pos i ltac:(lia)) as P. pose proof (hh_pos (S i) ltac:(lia)) as P'.
        pose proof (tridiagonal (S i) ltac:(lia)) as T. unfold AL in T. replace (S i - 1)%nat with i in T by lia.
        split; unfold piece', piece'', BB, DD, Pow2; fold (hh s i).
        * replace (x (S i) - x (S i)) with 0 by ring.
          apply (Rmult_eq_reg_l 3); [|lra].
          transitivity (3 * ((a (S i) - a i) / hh s i) + hh s i * (2 * CC (S i) + CC i)). { field. lra. }
          transitivity (3 * ((a (S (S i)) - a (S i)) / hh s (S i)) - hh s (S i) * (CC (S (S i)) + 2 * CC (S i))). 2:{ field. lra. }
          unfold Rdiv in *. lra.
        * field. lra.
      + unfold piece''. rewrite c_0. ring.
      + unfold piece'', DD. pose proof (hh_pos (n-1) ltac:(lia)) as P. unfold hh in *. replace (S (n-1)) with n in * by lia. rewrite c_n. field. lra.
  Qed.
  Lemma value_at h i : find_segment s h 0 n = Some i -> (i < n)%nat -> interpolation_spline s h = Num (Some (piece i h)) /\ derivative_spline s h = Num (Some (piece' i h)).
  Proof.
    intros E Hi. unfold interpolation_spline, derivative_spline. rewrite E, b_ok, c_ok, d_ok by lia. cbn [fbind]. split; reflexivity.
  Qed.
  (** segments *)
  Lemma LE_false u v : v + ROUND_OFF_ERR <= u -> LSSEQL u v = false.
  Proof. intros H. destruct (LSSEQL u v) eqn:E; auto. apply LSSEQL_iff in E. lra. Qed.
  Lemma GE_false u v : u <= v - ROUND_OFF_ERR -> GRTEQL u v = false.
  Proof. intros H. destruct (GRTEQL u v) eqn:E; auto. apply GRTEQL_iff in E. lra. Qed.
  Lemma seg_inside i h : (i < n)%nat -> x i + ROUND_OFF_ERR < h -> h < x (S i) - ROUND_OFF_ERR -> forall left j, (j <= i)%nat -> (j + left = n)%nat ->
    find_segment s h j left = Some i.
  Proof.
    intros Hi H1 H2. pose proof ROE_pos. induction left; intros j Hj Hl; [lia|]. cbn [find_segment].
    destruct (Nat.eq_dec j i) as [->|].
    - rewrite (proj2 (GRTEQL_iff _ _)), (proj2 (LSSEQL_iff _ _)) by (split; lra). reflexivity.
    - rewrite (LE_false h (x (S j))). 2:{ pose proof (sep_le x N Hsep i (S j) ltac:(lia) ltac:(lia)). lra. } rewrite andb_false_r. apply IHleft; lia.
  Qed.
  Lemma seg_node k : (k < N)%nat -> forall left j, (j <= k - 1)%nat -> (j + left = n)%nat -> find_segment s (x k) j left = Some (k - 1)%nat.
  Proof.
    intros Hk. pose proof ROE_pos. induction left; intros j Hj Hl; [lia|]. cbn [find_segment].
    destruct (Nat.eq_dec j (k-1)) as [->|].
    - destruct (Nat.eq_dec k 0) as [->|Hz].
      + cbn [Nat.sub]. pose proof (sep_lt x N Hsep 1 0 ltac:(lia) ltac:(lia)). rewrite (proj2 (GRTEQL_iff _ _)), (proj2 (LSSEQL_iff _ _)) by (split; lra). reflexivity.
      + replace (S (k-1)) with k by lia. pose proof (sep_lt x N Hsep k (k-1) ltac:(lia) ltac:(lia)).
        rewrite (proj2 (GRTEQL_iff _ _)), (proj2 (LSSEQL_iff _ _)) by (split; lra). reflexivity.
    - rewrite (LE_false _ (x (S j))). 2:{ pose proof (sep_lt x N Hsep k (S j) ltac:(lia) ltac:(lia)). lra. } rewrite andb_false_r. apply IHleft; lia.
  Qed.
  Lemma seg_total h : (forall k, (k < N)%nat -> h <> x k + ROUND_OFF_ERR /\ h <> x k - ROUND_OFF_ERR) -> forall left j, (j + left = n)%nat -> (1 <= left)%nat ->
    x j - ROUND_OFF_ERR < h -> h < x n + ROUND_OFF_ERR ->
    exists i, find_segment s h j left = Some i /\ (j <= i < n)%nat /\ x i - ROUND_OFF_ERR < h /\ h < x (S i) + ROUND_OFF_ERR.
  Proof.
    intros Hne. pose proof ROE_pos. induction left; intros j Hl H1 Hlo Hup; [lia|]. cbn [find_segment].
    destruct (Hne j ltac:(lia)) as [A1 A2]. destruct (Hne (S j) ltac:(lia)) as [A3 A4].
    rewrite (proj2 (GRTEQL_iff _ _)) by (split; lra). cbn [andb].
    destruct (Rlt_dec h (x (S j) + ROUND_OFF_ERR)) as [L|L].
    - rewrite (proj2 (LSSEQL_iff _ _)) by (split; lra). exists j. repeat split; auto; lia.
    - rewrite LE_false by lra. destruct left as [|left]. { replace (S j) with n in L by lia. lra. }
      destruct (IHleft (S j) ltac:(lia) ltac:(lia) ltac:(lra) Hup) as (i & E & Hi & B1 & B2). exists i. repeat split; auto; lia.
  Qed.
  Lemma seg_out h : (h <= x 0%nat - ROUND_OFF_ERR \/ x n + ROUND_OFF_ERR <= h) -> forall left j, (j + left = n)%nat -> find_segment s h j left = None.
  Proof.
    intros Ho. pose proof ROE_pos. induction left; intros j Hl; [reflexivity|]. cbn [find_segment].
    replace (GRTEQL h (x j) && LSSEQL h (x (S j))) with false; [apply IHleft; lia|]. symmetry. destruct Ho as [Ho|Ho].
    - rewrite GE_false; [reflexivity|]. pose proof (sep_le x N Hsep j 0 ltac:(lia) ltac:(lia)). lra.
    - rewrite LE_false; [apply andb_false_r|]. pose proof (sep_le x N Hsep n (S j) ltac:(lia) ltac:(lia)). lra.
  Qed.
  Lemma seg_edge k : (k < N)%nat -> (forall i, (i + 1 < N)%nat -> x i + 2 * ROUND_OFF_ERR < x (i+1)%nat) -> forall left j, (j + left = n)%nat -> find_segment s (x k + ROUND_OFF_ERR) j left = None.
  Proof.
    intros Hk H2. pose proof ROE_pos. induction left; intros j Hl; [reflexivity|]. cbn [find_segment].
    replace (GRTEQL (x k + ROUND_OFF_ERR) (x j) && LSSEQL (x k + ROUND_OFF_ERR) (x (S j))) with false; [apply IHleft; lia|]. symmetry.
    destruct (lt_dec j k) as [L|L].
    - rewrite LE_false; [apply andb_false_r|]. pose proof (sep_le x N Hsep k (S j) ltac:(lia) ltac:(lia)). lra.
    - destruct (GRTEQL (x k + ROUND_OFF_ERR) (x j)) eqn:E; auto. apply GRTEQL_iff in E. exfalso.
      destruct (Nat.eq_dec j k) as [->|]; [lra|]. pose proof (H2 k ltac:(lia)). pose proof (sep_le x N Hsep j (k+1) ltac:(lia) ltac:(lia)). lra.
  Qed.
  (** linear data *)
  Lemma linear_c al' be : (forall i, (i < N)%nat -> a i = al' + be * x i) -> forall i, (i <= n)%nat -> CC i = 0.
  Proof.
    intros H.
    assert (Z0 : forall i, (i < n)%nat -> ZZ i = 0).
    { induction i; intros Hi; [reflexivity|]. destruct (mz_ok (S i) Hi) as (_ & _ & K). destruct (K ltac:(lia)) as (L1 & _ & L3).
      assert (A0 : AL (S i) = 0).
      { unfold AL. replace (S i - 1)%nat with i by lia. rewrite !H by lia. pose proof (hh_pos i ltac:(lia)) as P1. pose proof (hh_pos (S i) ltac:(lia)) as P2. unfold hh in *. field. split; lra. }
      rewrite A0 in L3. replace (S i - 1)%nat with i in L3 by lia. rewrite IHi in L3 by lia. apply Rmult_eq_reg_r with (LL (S i)); [lra|lra]. }
    assert (G : forall k, (k <= n)%nat -> CC (n - k) = 0).
    { induction k; intros Hk; [replace (n - 0)%nat with n by lia; apply c_n|].
      rewrite c_rec by lia. rewrite Z0 by lia. replace (S (n - S k)) with (n - k)%nat by lia. rewrite IHk by lia. ring. }
    intros i Hi. replace i with (n - (n - i))%nat by lia. apply G. lia.
  Qed.
  Lemma linear_piece al' be : (forall i, (i < N)%nat -> a i = al' + be * x i) -> forall i y, (i < n)%nat -> piece i y = al' + be * y.
  Proof.
    intros H i y Hi. unfold piece, BB, DD. rewrite !(linear_c al' be H) by lia. rewrite !H by lia. pose proof (hh_pos i Hi). unfold hh in *. unfold Pow2. field. lra.
  Qed.
End Spline.
