(** HermiteProofs.v - divided differences with repeated points, Newton form, and the Hermite polynomial. *)
From Verif Require Import RealBase SpectralSpec SpectralDeriv SpectralProofs PolyLib Interp1Model Interp1Spec.
From Verif Require Base.
Import Base(outcome, Ok, Abort, UB, obind).
Open Scope R_scope.

(** quotient of a coefficient list by (y - a) *)
Fixpoint padd (p q : list R) : list R :=
  match p, q with [], _ => q | _, [] => p | c :: p', d :: q' => (c + d) :: padd p' q' end.
Definition pscal (c : R) (p : list R) : list R := map (fun d => c * d) p.
Fixpoint pquot (a : R) (p : list R) : list R := match p with [] => [] | _ :: q => padd q (pscal a (pquot a q)) end.
Lemma peval_padd p q y : peval (padd p q) y = peval p y + peval q y.
Proof. revert q. induction p as [|c p IH]; intros [|d q]; cbn; try ring. rewrite IH. ring. Qed.
Lemma peval_pscal c p y : peval (pscal c p) y = c * peval p y.
Proof. induction p as [|d p IH]; cbn; [ring|]. unfold pscal in IH. rewrite IH. ring. Qed.
Lemma padd_len p q : length (padd p q) = Nat.max (length p) (length q).
Proof. revert q. induction p as [|c p IH]; intros [|d q]; cbn; auto. Qed.
Lemma pquot_len a p : length (pquot a p) = (length p - 1)%nat.
Proof.
  induction p as [|c p IH]; [reflexivity|]. cbn [pquot]. rewrite padd_len. unfold pscal. rewrite map_length, IH. cbn [length]. lia.
Qed.
Lemma pquot_ok a p y : peval p y = peval p a + (y - a) * peval (pquot a p) y.
Proof.
  induction p as [|c p IH]; [cbn; ring|]. cbn [pquot]. rewrite peval_padd, peval_pscal. cbn [peval]. rewrite IH at 1.
  transitivity (c + a * peval p a + (y - a) * (peval p a + (y - a) * peval (pquot a p) y + a * peval (pquot a p) y)); [ring|].
  rewrite <- IH. ring.
Qed.
Definition same (p q : list R) : Prop := forall y, peval p y = peval q y.
Lemma poly_len p : ispoly (length p) (peval p).
Proof. apply ispoly_peval. lia. Qed.
Lemma same_off p q a b : (forall y, y <> a -> y <> b -> peval p y = peval q y) -> same p q.
Proof.
  intros H y. apply (ispoly_agree2 (length p + length q) (peval p) (peval q) a b); auto; apply ispoly_peval; lia.
Qed.
Lemma pquot_same a p q : same p q -> same (pquot a p) (pquot a q).
Proof.
  intros H. apply (same_off _ _ a a). intros y Hy _. pose proof (pquot_ok a p y) as A. pose proof (pquot_ok a q y) as B.
  pose proof (H y). pose proof (H a). apply (Rmult_eq_reg_l (y - a)); lra.
Qed.
Lemma pquot_swap a b p : peval (pquot a p) b = peval (pquot b p) a.
Proof.
  destruct (Req_EM_T a b) as [->|N]; [reflexivity|]. pose proof (pquot_ok a p b) as A. pose proof (pquot_ok b p a) as B.
  apply (Rmult_eq_reg_l (b - a)); lra.
Qed.
Lemma pquot_comm a b p : same (pquot a (pquot b p)) (pquot b (pquot a p)).
Proof.
  apply (same_off _ _ a b). intros y Ha Hb.
  pose proof (pquot_ok b p y) as E1. pose proof (pquot_ok a p y) as E2.
  pose proof (pquot_ok a (pquot b p) y) as E3. pose proof (pquot_ok b (pquot a p) y) as E4.
  pose proof (pquot_swap a b p) as E5. pose proof (pquot_ok a p b) as E6.
  set (u := peval (pquot a (pquot b p)) y) in *. set (v := peval (pquot b (pquot a p)) y) in *.
  rewrite E3 in E1. rewrite E4 in E2. rewrite <- E5 in E1. set (w := peval (pquot a p) b) in *.
  assert (E : (y - a) * ((y - b) * u) = (y - a) * ((y - b) * v)) by (assert (peval p b = peval p a + (b - a) * w) by exact E6; nra).
  apply Rmult_eq_reg_l in E; [|lra]. apply Rmult_eq_reg_l in E; [exact E|lra].
Qed.
Section Divided.
  Variables (p : list R) (z : nat -> R).
  (** p divided by z_i, ..., z_(i+j-1) *)
  Fixpoint W (i j : nat) : list R := match j with O => p | S k => pquot (z (i + k)%nat) (W i k) end.
  Definition dd (i j : nat) : R := peval (W i j) (z (i + j)%nat).
  Lemma W_first j : forall i, same (W i (S j)) (pquot (z i) (W (S i) j)).
  Proof.
    induction j; intros i. { cbn. replace (i + 0)%nat with i by lia. intros y; reflexivity. }
    intros y. change (W i (S (S j))) with (pquot (z (i + S j)%nat) (W i (S j))).
    rewrite (pquot_same _ _ _ (IHj i) y). rewrite pquot_comm. cbn [W]. replace (S i + j)%nat with (i + S j)%nat by lia. reflexivity.
  Qed.
  Lemma dd_rec i j : dd i (S j) * (z (i + S j)%nat - z i) = dd (S i) j - dd i j.
  Proof.
    unfold dd. rewrite W_first. pose proof (pquot_ok (z i) (W (S i) j) (z (i + S j)%nat)) as E. replace (S i + j)%nat with (i + S j)%nat by lia.
    assert (Hs : peval (W (S i) j) (z i) = peval (W i j) (z (i + j)%nat)).
    { destruct j as [|j]. { cbn. f_equal. f_equal. lia. }
      rewrite (W_first j i). cbn [W]. replace (S i + j)%nat with (i + S j)%nat by lia. apply pquot_swap. }
    lra.
  Qed.
  Fixpoint PZ (n : nat) (y : R) : R := match n with O => 1 | S k => PZ k y * (y - z k) end.
  Lemma newton n y : peval p y = Rsum n (fun o => dd 0 o * PZ o y) + PZ n y * peval (W 0 n) y.
  Proof.
    induction n; [cbn; ring|]. cbn [Rsum]. rewrite IHn at 1. rewrite (pquot_ok (z n) (W 0 n) y). cbn [PZ W]. unfold dd. cbn [Nat.add]. ring.
  Qed.
  Lemma W_len i j : length (W i j) = (length p - j)%nat.
  Proof. induction j; cbn; [lia|]. rewrite pquot_len, IHj. lia. Qed.
  Lemma newton_full n y : (length p <= n)%nat -> Rsum n (fun o => dd 0 o * PZ o y) = peval p y.
  Proof.
    intros H. rewrite (newton n y). assert (W 0 n = []) as ->. { apply length_zero_iff_nil. rewrite W_len. lia. } cbn. ring.
  Qed.
End Divided.

Section Hermite.
  Variables (x f fp : nat -> R) (fo : nat -> option R) (off np : nat) (p : list R).
  Hypothesis Hfo : forall i, (i < np)%nat -> fo (off + i)%nat = Some (fp (off + i)%nat).
  Hypothesis inj : forall i j, (i < np)%nat -> (j < np)%nat -> x (off + i)%nat = x (off + j)%nat -> i = j.
  Hypothesis Hf : forall i, (i < np)%nat -> peval p (x (off + i)%nat) = f (off + i)%nat.
  Hypothesis Hp : forall i, (i < np)%nat -> derivable_pt_lim (peval p) (x (off + i)%nat) (fp (off + i)%nat).
  Notation z := (hz x off).
  Lemma half_lt i : (i < 2 * np)%nat -> (i / 2 < np)%nat.
  Proof. intros H. apply Nat.div_lt_upper_bound; lia. Qed.
  Lemma hq_ok j : forall i, (j <= i)%nat -> (i < 2 * np)%nat -> hq x f fo off j i = Some (dd p z (i - j) j).
  Proof.
    assert (B0 : forall i, (i < 2 * np)%nat -> f (off + i / 2)%nat = dd p z i 0).
    { intros i Hi. unfold dd. cbn [W]. unfold hz. replace (i + 0)%nat with i by lia. symmetry. apply Hf, half_lt, Hi. }
    assert (HD : forall l i, (S l <= i)%nat -> (i < 2 * np)%nat -> z i <> z (i - S l)%nat ->
       (dd p z (i - l) l - dd p z (i - 1 - l) l) / (z i - z (i - S l)%nat) = dd p z (i - S l) (S l)).
    { intros l i Hj Hi Hne. pose proof (dd_rec p z (i - S l) l) as D. replace (i - S l + S l)%nat with i in D by lia.
      replace (S (i - S l)) with (i - l)%nat in D by lia. replace (i - 1 - l)%nat with (i - S l)%nat by lia.
      rewrite <- D. field. lra. }
    assert (NE : forall i k, (k < i)%nat -> (i < 2 * np)%nat -> (i / 2 <> k / 2)%nat -> z i <> z k).
    { intros i k Hk Hi Hd E. apply Hd. apply inj; [apply half_lt; lia|apply half_lt; lia|exact E]. }
    induction j; intros i Hj Hi.
    - cbn [hq]. rewrite B0 by auto. do 2 f_equal. lia.
    - destruct j as [|j].
      + cbn [hq]. destruct (Nat.odd i) eqn:O.
        * rewrite Hfo by (apply half_lt; lia). f_equal. apply Nat.odd_spec in O. destruct O as [m ->].
          assert (E1 : ((2 * m + 1) / 2 = m)%nat) by (symmetry; apply (Nat.div_unique _ _ _ 1); lia).
          assert (E2 : ((2 * m + 1 - 1) / 2 = m)%nat) by (symmetry; apply (Nat.div_unique _ _ _ 0); lia).
          unfold dd. cbn [W]. unfold hz. replace (2 * m + 1 - 1 + 0)%nat with (2 * m + 1 - 1)%nat by lia. rewrite E2. replace (2 * m + 1 - 1 + 1)%nat with (2 * m + 1)%nat by lia. rewrite E1.
          apply (uniqueness_limite (peval p) (x (off + m)%nat)); [apply Hp; lia|].
          apply (quot_deriv _ _ _ (length (pquot (x (off + m)%nat) p))); [intros y; apply pquot_ok|apply poly_len].
        * rewrite (B0 i) by auto. rewrite (B0 (i-1)%nat) by lia.
          assert (Nat.even i = true) by (rewrite <- Nat.negb_odd, O; reflexivity). apply Nat.even_spec in H. destruct H as [m ->].
          assert (E1 : (2 * m / 2 = m)%nat) by (symmetry; apply (Nat.div_unique _ _ _ 0); lia).
          assert (E2 : ((2 * m - 1) / 2 = m - 1)%nat) by (symmetry; apply (Nat.div_unique _ _ _ 1); lia).
          assert (Z : z (2 * m)%nat <> z (2 * m - 1)%nat) by (apply NE; lia).
          rewrite fdiv_some by lra. f_equal. rewrite <- (HD 0%nat) by (auto; lia). rewrite !Nat.sub_0_r. reflexivity.
      + change (hq x f fo off (S (S j)) i) with (let? a := hq x f fo off (S j) i in let? b := hq x f fo off (S j) (i-1) in
               fdiv (a - b) (hz x off i - hz x off (i - S (S j)))).
        rewrite !IHj by lia. cbn [fbind].
        assert (Z : z i <> z (i - S (S j))%nat).
        { apply NE; try lia. intros E. pose proof (Nat.div_mod i 2). pose proof (Nat.div_mod (i - S (S j)) 2). pose proof (Nat.mod_upper_bound i 2). pose proof (Nat.mod_upper_bound (i - S (S j)) 2). lia. }
        rewrite fdiv_some by lra. f_equal. apply HD; auto; lia.
  Qed.
  Lemma hsum_ok h left : forall o acc, (o + left <= 2 * np)%nat -> acc = Rsum o (fun k => dd p z 0 k * PZ z k h) ->
    hsum x f fo off h left o (PZ z o h) acc = Some (Rsum (o + left) (fun k => dd p z 0 k * PZ z k h)).
  Proof.
    induction left; intros o acc Ho E; cbn [hsum]. { rewrite E. do 2 f_equal. lia. }
    rewrite hq_ok by lia. cbn [fbind]. change (PZ z o h * (h - z o)) with (PZ z (S o) h). rewrite IHleft; [do 2 f_equal; lia|lia|].
    cbn [Rsum]. rewrite E. replace (o - o)%nat with O by lia. reflexivity.
  Qed.
  Lemma hermite_value h : (length p <= 2 * np)%nat -> hsum x f fo off h (2 * np) 0 1 0 = Some (peval p h).
  Proof.
    intros Hl. change 1 with (PZ z 0 h). rewrite hsum_ok; [|lia|reflexivity]. cbn [Nat.add]. rewrite newton_full; auto.
  Qed.
End Hermite.
(** existence *)
Fixpoint pmul (p q : list R) : list R := match p with [] => [] | c :: r => padd (pscal c q) (0 :: pmul r q) end.
Lemma peval_pmul p q y : peval (pmul p q) y = peval p y * peval q y.
Proof. induction p as [|c p IH]; cbn [pmul]; [cbn; ring|]. rewrite peval_padd, peval_pscal. cbn [peval]. rewrite IH. ring. Qed.
Lemma pmul_len p q : (length (pmul p q) <= length p + length q)%nat.
Proof. induction p as [|c p IH]; cbn [pmul length]; [lia|]. rewrite padd_len. unfold pscal. rewrite map_length. cbn [length]. lia. Qed.
Lemma poly_D p y : derivable_pt_lim (peval p) y (peval (pquot y p) y).
Proof. apply (quot_deriv _ _ _ (length (pquot y p))); [intros t; apply pquot_ok|apply poly_len]. Qed.
Fixpoint sq_root (x : nat -> R) (n : nat) : list R := (* product of (y - x_l)^2 *)
  match n with O => [1] | S k => let q := sq_root x k in padd (0 :: 0 :: q) (padd (pscal (-2 * x k) (0 :: q)) (pscal (x k ^ 2) q)) end.
Lemma sq_root_eval x n y : peval (sq_root x (S n)) y = (y - x n) * (y - x n) * peval (sq_root x n) y.
Proof. cbn [sq_root]. rewrite !peval_padd, !peval_pscal. cbn [peval]. ring. Qed.
Lemma sq_root_len x n : length (sq_root x n) = (2 * n + 1)%nat.
Proof. induction n; [reflexivity|]. cbn [sq_root]. rewrite !padd_len. unfold pscal. rewrite !map_length. cbn [length]. rewrite IHn. lia. Qed.
Lemma sq_root_nz x n y : (forall k, (k < n)%nat -> y <> x k) -> peval (sq_root x n) y <> 0.
Proof.
  induction n; intros H; [cbn; lra|]. rewrite sq_root_eval. apply Rmult_integral_contrapositive. split.
  - pose proof (H n ltac:(lia)). apply Rmult_integral_contrapositive. split; lra.
  - apply IHn. intros. apply H. lia.
Qed.
Lemma sq_root_double x n k : (k < n)%nat -> exists g, forall y, peval (sq_root x n) y = (y - x k) * (y - x k) * peval g y.
Proof.
  induction n; intros H; [lia|]. destruct (Nat.eq_dec k n) as [->|].
  - exists (sq_root x n). intros y. apply sq_root_eval.
  - destruct (IHn ltac:(lia)) as [g E]. exists (padd (0 :: 0 :: g) (padd (pscal (-2 * x n) (0 :: g)) (pscal (x n ^ 2) g))).
    intros y. rewrite sq_root_eval, E, !peval_padd, !peval_pscal. cbn [peval]. ring.
Qed.
Lemma hermite_exists (x f fp : nat -> R) n : (forall i j, (i < n)%nat -> (j < n)%nat -> x i = x j -> i = j) ->
  exists p, (length p <= 2 * n)%nat /\ forall i, (i < n)%nat -> peval p (x i) = f i /\ derivable_pt_lim (peval p) (x i) (fp i).
Proof.
  induction n; intros inj. { exists []. split; [cbn; lia|]. intros; lia. }
  destruct IHn as (p & Hl & H). { intros; apply inj; auto; lia. }
  set (V := sq_root x n). set (v0 := peval V (x n)). set (v1 := peval (pquot (x n) V) (x n)).
  assert (V0 : v0 <> 0). { apply sq_root_nz. intros k Hk E. apply inj in E; lia. }
  set (al := (f n - peval p (x n)) / v0). set (be := (fp n - peval (pquot (x n) p) (x n) - al * v1) / v0).
  set (lin := [al - be * x n; be]).
  exists (padd p (pmul lin V)).
  assert (EV : forall y, peval (padd p (pmul lin V)) y = peval p y + (al + be * (y - x n)) * peval V y).
  { intros y. rewrite peval_padd, peval_pmul. unfold lin. cbn [peval]. ring. }
  split. { rewrite padd_len. pose proof (pmul_len lin V) as L. unfold lin in L at 2. cbn [length] in L.
           assert (length (pmul lin V) <= 2 * S n)%nat; [|lia].
           unfold lin. cbn [pmul]. rewrite !padd_len. unfold pscal. rewrite !map_length. cbn [length]. rewrite padd_len. rewrite map_length. cbn [length].
           unfold V. rewrite sq_root_len. lia. }
  assert (DV : forall y d, derivable_pt_lim (peval p) y d -> derivable_pt_lim (peval (padd p (pmul lin V))) y (d + (be * peval V y + (al + be * (y - x n)) * peval (pquot y V) y))).
  { intros y d D. apply (dlim_ext (fun y => peval p y + (al + be * (y - x n)) * peval V y)); [intros; symmetry; apply EV|].
    apply (derivable_pt_lim_plus (peval p)); auto.
    apply (derivable_pt_lim_mult (fun y => al + be * (y - x n)) (peval V)); [|apply poly_D].
    assert (Eb : be = 0 + be * (1 - 0)) by ring. eapply eq_ind_r with (P := derivable_pt_lim (fun y => al + be * (y - x n)) y); [|exact Eb]. apply (derivable_pt_lim_plus (fun _ => al) (fun y => be * (y - x n))); [apply derivable_pt_lim_const|].
    apply (derivable_pt_lim_scal (fun y => y - x n)). apply (derivable_pt_lim_minus (fun y => y) (fun _ => x n)); [apply derivable_pt_lim_id|apply derivable_pt_lim_const]. }
  intros i Hi. rewrite EV. destruct (Nat.eq_dec i n) as [->|Ni].
  - fold v0. split. { unfold al. field. exact V0. }
    replace (fp n) with (peval (pquot (x n) p) (x n) + (be * peval V (x n) + (al + be * (x n - x n)) * peval (pquot (x n) V) (x n))); [apply DV, poly_D|].
    fold v0 v1. unfold be. field. exact V0.
  - destruct (H i ltac:(lia)) as [H1 H2]. destruct (sq_root_double x n i ltac:(lia)) as [g Eg].
    assert (Z : peval V (x i) = 0) by (unfold V; rewrite Eg; ring). rewrite Z. split; [rewrite H1; ring|].
    assert (Z1 : peval (pquot (x i) V) (x i) = 0).
    { apply (uniqueness_limite (peval V) (x i)); [apply poly_D|].
      apply (dlim_ext (fun y => (y - x i) * ((y - x i) * peval g y))); [intros; unfold V; rewrite Eg; ring|].
      assert (L : derivable_pt_lim (fun y => y - x i) (x i) (1 - 0)) by (apply (derivable_pt_lim_minus (fun y => y) (fun _ => x i)); [apply derivable_pt_lim_id|apply derivable_pt_lim_const]).
      pose proof (derivable_pt_lim_mult _ _ _ _ _ L (derivable_pt_lim_mult _ _ _ _ _ L (poly_D g (x i)))) as D.
      match type of D with derivable_pt_lim _ _ ?v => replace 0 with v by (unfold mult_fct; ring) end. exact D. }
    pose proof (DV (x i) (fp i) H2) as D. rewrite Z, Z1 in D. match type of D with derivable_pt_lim _ _ ?v => replace (fp i) with v by ring end. exact D.
Qed.
(** the segment *)
Lemma hseg_some x h left : forall i k, hermite_segment x h i left = Some k -> (i <= k < i + left)%nat /\ x k <= h < x (S k).
Proof.
  induction left; intros i k H; cbn in H; [discriminate|]. destruct (leR_spec (x i) h) as [A|A]; cbn [andb] in H.
  - destruct (ltR_spec h (x (S i))) as [B|B]. { inversion H; subst. split; [lia|lra]. } apply IHleft in H. destruct H; split; [lia|auto].
  - apply IHleft in H. destruct H; split; [lia|auto].
Qed.
Lemma hseg_found x h left : forall i, x i <= h < x (i + left)%nat -> exists k, hermite_segment x h i left = Some k.
Proof.
  induction left; intros i H; cbn [hermite_segment]. { replace (i + 0)%nat with i in H by lia. lra. }
  destruct (leR_spec (x i) h) as [A|A]; [|lra]. cbn [andb]. destruct (ltR_spec h (x (S i))) as [B|B]; [eauto|].
  apply IHleft. replace (S i + left)%nat with (i + S left)%nat by lia. lra.
Qed.
