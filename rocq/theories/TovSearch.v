(** TovSearch.v - the search for the central enthalpy of TOV_solution.c:16-126. *)
From Verif Require Import RealBase TrigSums Spectral3Model TovSpec TovModel TovProofs TovFinal.
From Verif Require Base.
Import Base(outcome, Ok, Abort, UB, obind).
Open Scope R_scope.
Notation eps := ROUND_OFF_ERR.
Lemma ltR_iff x y : ltR x y = true <-> x < y.
Proof. unfold ltR. destruct (Rlt_dec x y); split; intros; try discriminate; try lra; reflexivity. Qed.
Lemma ltR_niff x y : ltR x y = false <-> y <= x.
Proof. unfold ltR. destruct (Rlt_dec x y); split; intros; try discriminate; try lra; reflexivity. Qed.
Lemma EQL_iff x y : EQL x y = true <-> Rabs (x - y) < eps.
Proof.
  unfold EQL. rewrite andb_true_iff, !ltR_iff. split; [intros []; apply Rabs_def1; lra|]. intros H. apply Rabs_def2 in H. lra.
Qed.
Lemma EQL_niff x y : EQL x y = false <-> eps <= Rabs (x - y).
Proof.
  destruct (EQL x y) eqn:E; [apply EQL_iff in E; split; intros; [discriminate|lra]|]. split; [|reflexivity]. intros _. apply Rnot_lt_le. intros C. apply EQL_iff in C. congruence.
Qed.
Section Search.
Variable mass : R -> option R.
Variable bar : R.
(** the loop only ever reports a mass it computed *)
Lemma step_sm z : sm (search_step mass bar z) = mass (h_new z) /\ h_cent (search_step mass bar z) = h_new z.
Proof.
  unfold search_step. cbn [increase sm h_cent h_new bisection sa sb h_prev].
  destruct (increase z); [destruct (oLSS _ _)|]; cbn [bisection sm h_cent]; try destruct (bisection z); cbn [sm h_cent]; split; reflexivity.
Qed.
Lemma loop_sm fuel : forall z, sm z = mass (h_cent z) -> sm (search_loop mass bar fuel z) = mass (h_cent (search_loop mass bar fuel z)).
Proof.
  induction fuel as [|k IH]; intros z H; cbn [search_loop]; [exact H|]. destruct (oEQL _ _); [exact H|]. apply IH. destruct (step_sm z) as [-> ->]. reflexivity.
Qed.
Definition start : search := {| h_cent := 0; h_new := 3 / 2; h_prev := 1; sa := 0; sb := 0; increase := true; bisection := false; sm := Some 0 |}.
Lemma loop_start fuel : EQL bar 0 = false -> sm (search_loop mass bar (S fuel) start) = mass (h_cent (search_loop mass bar (S fuel) start)).
Proof.
  intros H. cbn [search_loop]. assert (E : oEQL (sm start) bar = false). { cbn. apply EQL_niff. apply EQL_niff in H. rewrite Rabs_minus_sym. exact H. }
  rewrite E. apply loop_sm. destruct (step_sm start) as [-> ->]. reflexivity.
Qed.
(** ** convergence *)
Definition try_h (j : nat) : R := 3 / 2 * (5 / 4) ^ j.
Definition lower (j : nat) : R := match j with O => 1 | S i => try_h i end.
Lemma try_h_S j : try_h (S j) = try_h j + try_h j * (1 / 4). Proof. unfold try_h. cbn [pow]. field. Qed.
Lemma lower_lt j : 1 <= lower j < try_h j.
Proof.
  assert (P : forall j, 3 / 2 <= try_h j). { intros i. unfold try_h. assert (1 <= (5 / 4) ^ i) by (apply pow_R1_Rle; lra). lra. }
  destruct j as [|j]; cbn [lower]; [unfold try_h; cbn; lra|]. rewrite try_h_S. pose proof (P j). lra.
Qed.
Fixpoint it (k : nat) (z : search) : search := match k with O => z | S j => search_step mass bar (it j z) end.
Lemma it_step k z : it k (search_step mass bar z) = it (S k) z.
Proof. induction k as [|k IH]; [reflexivity|]. cbn [it] in *. rewrite IH. reflexivity. Qed.
Lemma loop_stop fuel : forall n z, (n <= fuel)%nat -> (forall i, (i < n)%nat -> oEQL (sm (it i z)) bar = false) -> n = fuel \/ oEQL (sm (it n z)) bar = true ->
  search_loop mass bar fuel z = it n z.
Proof.
  induction fuel as [|k IH]; intros n z Hn H1 H2.
  - assert (n = O) as -> by lia. reflexivity.
  - cbn [search_loop]. destruct n as [|n].
    + destruct H2 as [H2|H2]; [lia|]. cbn [it] in H2. rewrite H2. reflexivity.
    + pose proof (H1 O ltac:(lia)) as H0. cbn [it] in H0. rewrite H0. rewrite (IH n).
      * apply it_step.
      * lia.
      * intros i Hi. rewrite it_step. apply H1. lia.
      * rewrite it_step. destruct H2 as [H2|H2]; [left; lia|right; exact H2].
Qed.
Lemma first_stop n z : oEQL (sm (it n z)) bar = true -> exists k, (k <= n)%nat /\ oEQL (sm (it k z)) bar = true /\ forall i, (i < k)%nat -> oEQL (sm (it i z)) bar = false.
Proof.
  induction n as [n IH] using lt_wf_ind. intros H.
  assert (D : (exists i, (i < n)%nat /\ oEQL (sm (it i z)) bar = true) \/ forall i, (i < n)%nat -> oEQL (sm (it i z)) bar = false).
  { clear. induction n as [|n [(i & Hi & E)|A]]; [right; lia|left; exists i; split; [lia|exact E]|]. destruct (oEQL (sm (it n z)) bar) eqn:E; [left; exists n; split; [lia|exact E]|].
    right. intros i Hi. destruct (Nat.eq_dec i n) as [->|]; [exact E|apply A; lia]. }
  destruct D as [(i & Hi & E)|A]; [|exists n; auto]. destruct (IH i Hi E) as (k & Hk & R). exists k. split; [lia|exact R].
Qed.
Variable f : R -> R.
Definition rising (j : nat) (z : search) : Prop := h_new z = try_h j /\ h_prev z = lower j /\ increase z = true /\ bisection z = false.
Lemma rise j : (forall i, (i < j)%nat -> mass (try_h i) = Some (f (try_h i)) /\ LSS (f (try_h i)) bar = true) -> rising j (it j start).
Proof.
  induction j as [|j IH]; intros H.
  - unfold rising, start, it, try_h, lower. cbn. repeat split. lra.
  - destruct (IH ltac:(intros; apply H; lia)) as (Z1 & Z2 & Z3 & Z4). destruct (H j ltac:(lia)) as [M1 LS].
    cbn [it]. set (z := it j start) in *. unfold search_step. cbn [increase sm h_cent h_new bisection sa sb h_prev]. rewrite Z1, Z3, M1. cbn [oLSS]. rewrite LS. cbn [bisection]. rewrite Z4.
    unfold rising. cbn [increase sm h_cent h_new bisection sa sb h_prev]. repeat split. symmetry. apply try_h_S.
Qed.
(** a tried point of the bisection that starts from [lower j, try_h j] *)
Definition grid (j : nat) (x : R) : Prop := exists q n : nat, x = lower j + INR q / 2 ^ n * (try_h j - lower j).
Lemma grid_mid j x y : grid j x -> grid j y -> grid j (x + 1 / 2 * (y - x)).
Proof.
  intros (q & n & ->) (q' & n' & ->). exists (q * 2 ^ n' + q' * 2 ^ n)%nat, (S (n + n')). rewrite plus_INR, !mult_INR, !pow_INR. replace (INR 2) with 2 by (cbn; ring). cbn [pow]. rewrite pow_add.
  field. split; apply pow_nonzero; lra.
Qed.
(** t = 0: no tried mass is at exactly the tolerance from the target; t = eps: no assumption *)
Variable t : R.
Hypothesis Ht : 0 <= t <= eps.
Definition fair (x : R) : Prop := t = eps \/ Rabs (f x - bar) <> eps.
(** the target is bracketed by [a,b], and the midpoint is the next to try *)
Definition bracket (j : nat) (a b : R) (z : search) : Prop :=
  sa z = a /\ sb z = b /\ increase z = false /\ bisection z = true /\ h_new z = a + 1 / 2 * (b - a) /\ a <= b /\ f a <= bar + t /\ bar - t <= f b /\ grid j a /\ grid j b.
Lemma turn j : rising j (it j start) -> mass (try_h j) = Some (f (try_h j)) -> LSS (f (try_h j)) bar = false -> EQL (f (try_h j)) bar = false -> f (lower j) <= bar -> fair (try_h j) ->
  exists a, lower j <= a <= try_h j /\ bracket j a (try_h j) (it (S j) start).
Proof.
  intros (Z1 & Z2 & Z3 & Z4) M G Eq Hl Fr. cbn [it]. set (z := it j start) in *. pose proof (lower_lt j) as LT.
  assert (G0 : grid j (lower j)) by (exists O, O; cbn [INR]; field; apply pow_nonzero; lra).
  assert (G1 : grid j (try_h j)) by (exists 1%nat, O; cbn [INR pow]; field).
  assert (P : 0 < eps) by (unfold eps; lra). apply EQL_niff in Eq.
  unfold search_step. cbn [increase sm h_cent h_new bisection sa sb h_prev]. rewrite Z1, Z2, Z3, M. cbn [oLSS oGRT]. rewrite G. unfold LSS in G. apply ltR_niff in G.
  cbn [increase sm h_cent h_new bisection sa sb h_prev]. unfold GRT. destruct (ltR (bar + eps) (f (try_h j))) eqn:GR.
  - apply ltR_iff in GR. exists (lower j). split; [lra|]. unfold bracket. cbn [increase sm h_cent h_new bisection sa sb h_prev]. repeat split; try assumption; lra.
  - apply ltR_niff in GR. exists (try_h j). split; [lra|].
    assert (Ab : Rabs (f (try_h j) - bar) = eps). { apply Rle_antisym; [|lra]. apply Rabs_le. lra. }
    destruct Fr as [Fr|Fr]; [|contradiction]. unfold bracket. cbn [increase sm h_cent h_new bisection sa sb h_prev]. repeat split; try assumption; lra.
Qed.
Lemma bisect_step j a b z : bracket j a b z -> mass (h_new z) = Some (f (h_new z)) -> EQL (f (h_new z)) bar = false -> fair (h_new z) ->
  exists a' b', bracket j a' b' (search_step mass bar z) /\ b' - a' = (b - a) / 2 /\ a <= a' /\ b' <= b.
Proof.
  intros (Z1 & Z2 & Z3 & Z4 & Z5 & Hab & Hfa & Hfb & Ga & Gb) M E Fr. pose proof (grid_mid j a b Ga Gb) as Gc. rewrite <- Z5 in Gc. set (c := h_new z) in *. assert (P : 0 < eps) by (unfold eps; lra).
  apply EQL_niff in E.
  unfold search_step. cbn [increase sm h_cent h_new bisection sa sb h_prev]. fold c. rewrite Z1, Z2, Z3, M. cbn [increase sm h_cent h_new bisection sa sb h_prev oGRT]. rewrite Z4.
  unfold GRT. destruct (ltR (bar + eps) (f c)) eqn:G; cbn [increase sm h_cent h_new bisection sa sb h_prev].
  - apply ltR_iff in G. exists a, c. unfold bracket. cbn [increase sm h_cent h_new bisection sa sb h_prev]. repeat split; try assumption; lra.
  - apply ltR_niff in G. assert (K : f c <= bar + t).
    { destruct Fr as [->|Fr]; [exact G|]. destruct (Rle_dec (f c) bar); [lra|]. rewrite Rabs_pos_eq in E, Fr by lra. exfalso. apply Fr. lra. }
    exists c, b. unfold bracket. cbn [increase sm h_cent h_new bisection sa sb h_prev]. repeat split; try assumption; lra.
Qed.
Variables B L : R.
Hypothesis Hmass : forall h, 1 <= h <= B -> mass h = Some (f h).
Hypothesis Hlip : forall x y, 1 <= x <= B -> 1 <= y <= B -> Rabs (f x - f y) <= L * Rabs (x - y).
Hypothesis Hfair : forall j x, grid j x -> 1 <= x <= B -> fair x.
Lemma bisect_n j k a b : bracket j a b (it k start) -> 1 <= a -> b <= B -> forall n,
  (exists i, (k <= i <= k + n)%nat /\ oEQL (sm (it i start)) bar = true) \/
  (exists a' b', bracket j a' b' (it (k + n) start) /\ b' - a' = (b - a) / 2 ^ n /\ 1 <= a' /\ b' <= B).
Proof.
  intros Hb H1 HB. induction n as [|n IH]; [right; exists a, b; rewrite Nat.add_0_r; cbn [pow]; split; [exact Hb|]; split; [field|split; assumption]|].
  destruct IH as [(i & Hi & E)|(a' & b' & Hb' & W & A1 & B1)]; [left; exists i; split; [lia|exact E]|].
  rewrite Nat.add_succ_r. cbn [it]. set (z := it (k + n) start) in *.
  pose proof Hb' as (Z1 & Z2 & Z3 & Z4 & Z5 & Hab & Hfa & Hfb & Ga & Gb).
  assert (Rng : 1 <= h_new z <= B) by (rewrite Z5; lra).
  assert (Fr : fair (h_new z)) by (apply (Hfair j); [rewrite Z5; apply grid_mid; assumption|exact Rng]).
  pose proof (Hmass _ Rng) as M.
  destruct (EQL (f (h_new z)) bar) eqn:E.
  - left. exists (S (k + n)). split; [lia|]. cbn [it]. fold z. destruct (step_sm z) as [-> _]. rewrite M. exact E.
  - right. destruct (bisect_step j a' b' z Hb' M E Fr) as (a2 & b2 & Hb2 & W2 & A2 & B2). exists a2, b2. split; [exact Hb2|]. split; [rewrite W2, W; cbn [pow]; field; apply pow_nonzero; lra|split; lra].
Qed.
Lemma first_reached k : LSS (f (try_h k)) bar = false -> exists j, (j <= k)%nat /\ LSS (f (try_h j)) bar = false /\ forall i, (i < j)%nat -> LSS (f (try_h i)) bar = true.
Proof.
  induction k as [k IH] using lt_wf_ind. intros H.
  assert (D : (exists i, (i < k)%nat /\ LSS (f (try_h i)) bar = false) \/ forall i, (i < k)%nat -> LSS (f (try_h i)) bar = true).
  { clear. induction k as [|n [(i & Hi & E)|A]]; [right; lia|left; exists i; split; [lia|exact E]|]. destruct (LSS (f (try_h n)) bar) eqn:E; [|left; exists n; split; [lia|exact E]].
    right. intros i Hi. destruct (Nat.eq_dec i n) as [->|]; [exact E|apply A; lia]. }
  destruct D as [(i & Hi & E)|A]; [|exists k; auto]. destruct (IH i Hi E) as (j & Hj & R). exists j. split; [lia|exact R].
Qed.
Lemma try_h_mono i j : (i <= j)%nat -> try_h i <= try_h j.
Proof. induction 1 as [|j _ IH]; [lra|]. rewrite try_h_S. pose proof (lower_lt j). lra. Qed.
Lemma lower_mono j k : (j <= k)%nat -> lower j <= try_h k.
Proof. intros H. pose proof (lower_lt j). pose proof (try_h_mono j k H). lra. Qed.
Lemma search_close fuel k n : f 1 <= bar -> try_h k <= B -> bar - eps <= f (try_h k) -> 0 <= L -> L * try_h k / 2 ^ n < eps -> (S k + n < fuel)%nat ->
  exists v, sm (search_loop mass bar fuel start) = Some v /\ Rabs (v - bar) < t + eps.
Proof.
  intros H1 HB Hk HL Hn Hf. assert (P : 0 < eps) by (unfold eps; lra).
  assert (ST : forall i, (i <= fuel)%nat -> oEQL (sm (it i start)) bar = true -> exists v, sm (search_loop mass bar fuel start) = Some v /\ Rabs (v - bar) < t + eps).
  { intros i Hi E. destruct (first_stop _ _ E) as (j & Hj & E2 & A). rewrite (loop_stop fuel j start); [|lia|exact A|right; exact E2].
    destruct (sm (it j start)) as [v|]; [|discriminate E2]. exists v. split; [reflexivity|]. apply EQL_iff in E2. lra. }
  destruct (first_reached k) as (j & Hj & G & A); [unfold LSS; apply ltR_niff; exact Hk|].
  assert (MM : forall i, (i <= j)%nat -> mass (try_h i) = Some (f (try_h i))).
  { intros i Hi. apply Hmass. pose proof (lower_lt i). pose proof (try_h_mono i k ltac:(lia)). lra. }
  assert (Rj : rising j (it j start)) by (apply rise; intros i Hi; split; [apply MM; lia|apply A; exact Hi]).
  destruct (EQL (f (try_h j)) bar) eqn:E.
  { apply (ST (S j)); [lia|]. cbn [it]. destruct (step_sm (it j start)) as [-> _]. destruct Rj as (-> & _). rewrite (MM j) by lia. exact E. }
  assert (Fl : f (lower j) <= bar).
  { destruct j as [|i]; cbn [lower]; [exact H1|]. specialize (A i ltac:(lia)). unfold LSS in A. apply ltR_iff in A. lra. }
  pose proof (lower_lt j) as LT. pose proof (try_h_mono j k Hj) as TM.
  assert (Fr : fair (try_h j)) by (apply (Hfair j); [exists 1%nat, O; cbn [INR pow]; field|lra]).
  destruct (turn j Rj (MM j ltac:(lia)) G E Fl Fr) as (a & Ha & BR).
  assert (Key : forall d, fuel = (S (S j + d))%nat -> L * try_h k / 2 ^ (S d) < eps -> exists v, sm (search_loop mass bar fuel start) = Some v /\ Rabs (v - bar) < t + eps).
  { intros d Ef W0.
    destruct (bisect_n j (S j) a (try_h j) BR ltac:(lra) ltac:(lra) d) as [(i & Hi & Ei)|(a' & b' & Hb' & W & A1 & B1)]; [apply (ST i); [lia|exact Ei]|].
    destruct (oEQL (sm (search_loop mass bar fuel start)) bar) eqn:EL.
    { destruct (sm (search_loop mass bar fuel start)) as [v|]; [|discriminate EL]. exists v. split; [reflexivity|]. apply EQL_iff in EL. lra. }
    assert (NS : forall i, (i <= fuel)%nat -> oEQL (sm (it i start)) bar = false).
    { intros i Hi. destruct (oEQL (sm (it i start)) bar) eqn:Ei; [|reflexivity]. destruct (first_stop _ _ Ei) as (i2 & Hi2 & E2 & A2).
      rewrite (loop_stop fuel i2 start) in EL; [congruence|lia|exact A2|right; exact E2]. }
    rewrite (loop_stop fuel fuel start); [|lia|intros i Hi; apply NS; lia|left; reflexivity].
    rewrite Ef. cbn [it]. set (z := it (S j + d) start) in *. destruct (step_sm z) as [-> _].
    destruct Hb' as (Z1 & Z2 & Z3 & Z4 & Z5 & Hab & Hfa & Hfb & Ga & Gb).
    assert (Rng : 1 <= h_new z <= B) by (rewrite Z5; lra). rewrite (Hmass _ Rng). exists (f (h_new z)). split; [reflexivity|].
    assert (La : Rabs (f (h_new z) - f a') <= L * ((b' - a') / 2)) by (replace ((b' - a') / 2) with (Rabs (h_new z - a')) by (rewrite Rabs_pos_eq by lra; lra); apply Hlip; lra).
    assert (Lb : Rabs (f (h_new z) - f b') <= L * ((b' - a') / 2)) by (replace ((b' - a') / 2) with (Rabs (h_new z - b')) by (rewrite Rabs_left1 by lra; lra); apply Hlip; lra).
    assert (PW : 0 < 2 ^ d) by (apply pow_lt; lra).
    assert (Sm : L * ((b' - a') / 2) < eps).
    { rewrite W. eapply Rle_lt_trans; [|exact W0]. cbn [pow]. replace (L * ((try_h j - a) / 2 ^ d / 2)) with (L * (try_h j - a) * / (2 * 2 ^ d)) by (field; lra). unfold Rdiv. apply Rmult_le_compat_r; [left; apply Rinv_0_lt_compat; lra|]. apply Rmult_le_compat_l; lra. }
    unfold Rabs in *. destruct (Rcase_abs (f (h_new z) - f a')); destruct (Rcase_abs (f (h_new z) - f b')); destruct (Rcase_abs (f (h_new z) - bar)); lra. }
  apply (Key (fuel - S (S j))%nat); [lia|]. eapply Rle_lt_trans; [|exact Hn]. unfold Rdiv. apply Rmult_le_compat_l; [apply Rmult_le_pos; lra|].
  apply Rinv_le_contravar; [apply pow_lt; lra|]. apply Rle_pow; [lra|lia].
Qed.
End Search.
(** ** the whole search *)
Lemma search_report mass bar hc m st b : TOV_search mass bar = Star_of hc m st b ->
  mass hc = Some m /\ (st = false <-> Rabs (m - bar) < eps) /\ b = (if st then m else bar).
Proof.
  unfold TOV_search. destruct (EQL bar 0) eqn:E0; [discriminate|]. cbv zeta. change {| h_cent := 0; h_new := 3 / 2; h_prev := 1; sa := 0; sb := 0; increase := true; bisection := false; sm := Some 0 |} with start.
  pose proof (loop_start mass bar 999 E0) as H. revert H. generalize (search_loop mass bar 1000 start). intros z H. destruct (sm z) as [v|]; [|discriminate].
  destruct (EQL v bar) eqn:E; intros [= <- <- <- <-]; (split; [exact (eq_sym H)|]); (split; [|reflexivity]).
  - apply EQL_iff in E. split; [intros _; exact E|reflexivity].
  - apply EQL_niff in E. split; [discriminate|lra].
Qed.
Lemma search_none mass bar : TOV_search mass bar = NoStar <-> Rabs bar < eps.
Proof.
  unfold TOV_search. destruct (EQL bar 0) eqn:E.
  - apply EQL_iff in E. rewrite Rminus_0_r in E. split; auto.
  - apply EQL_niff in E. rewrite Rminus_0_r in E. split; [|lra]. cbv zeta. destruct (sm _) as [v|]; [destruct (EQL v bar)|]; discriminate.
Qed.
(** failure: only for a star whose mass is not a number *)
Lemma search_failed mass bar : TOV_search mass bar = Failed -> exists hc, mass hc = None.
Proof.
  unfold TOV_search. destruct (EQL bar 0) eqn:E0; [discriminate|]. cbv zeta. change {| h_cent := 0; h_new := 3 / 2; h_prev := 1; sa := 0; sb := 0; increase := true; bisection := false; sm := Some 0 |} with start.
  pose proof (loop_start mass bar 999 E0) as H. revert H. generalize (search_loop mass bar 1000 start). intros z H. destruct (sm z) as [v|] eqn:E; [destruct (EQL v bar); discriminate|].
  intros _. exists (h_cent z). symmetry. exact H.
Qed.
Lemma search_converges mass bar f t B L k n : eps <= bar -> 0 <= t <= eps -> (forall h, 1 <= h <= B -> mass h = Some (f h)) ->
  (forall x y, 1 <= x <= B -> 1 <= y <= B -> Rabs (f x - f y) <= L * Rabs (x - y)) ->
  (forall j x, grid j x -> 1 <= x <= B -> fair bar f t x) -> f 1 <= bar -> try_h k <= B -> bar - eps <= f (try_h k) -> 0 <= L -> L * try_h k / 2 ^ n < eps -> (S k + n < 1000)%nat ->
  exists hc m st b, TOV_search mass bar = Star_of hc m st b /\ Rabs (m - bar) < t + eps.
Proof.
  intros Hb Ht Hm Hl Hfair H1 HB Hk HL Hn Hf. assert (P : 0 < eps) by (unfold eps; lra).
  destruct (search_close mass bar f t Ht B L Hm Hl Hfair 1000 k n H1 HB Hk HL Hn Hf) as (v & E & A).
  unfold TOV_search. assert (E0 : EQL bar 0 = false) by (apply EQL_niff; rewrite Rminus_0_r, Rabs_pos_eq by lra; exact Hb). rewrite E0. cbv zeta.
  change {| h_cent := 0; h_new := 3 / 2; h_prev := 1; sa := 0; sb := 0; increase := true; bisection := false; sm := Some 0 |} with start.
  revert E. generalize (search_loop mass bar 1000 start). intros z E. rewrite E. destruct (EQL v bar); eexists _, _, _, _; (split; [reflexivity|exact A]).
Qed.
(** a target above every mass: the last enthalpy tried is returned, with its mass as the new target *)
Lemma search_above fuel mass bar f : (forall h, 1 <= h -> mass h = Some (f h) /\ f h < bar - eps) -> eps <= bar ->
  sm (search_loop mass bar (S fuel) start) = Some (f (try_h fuel)) /\ h_cent (search_loop mass bar (S fuel) start) = try_h fuel.
Proof.
  intros H Hb. assert (P : 0 < eps) by (unfold eps; lra).
  assert (T1 : forall i, 1 <= try_h i) by (intros i; pose proof (lower_lt i); lra).
  assert (LS : forall i, mass (try_h i) = Some (f (try_h i)) /\ LSS (f (try_h i)) bar = true) by (intros i; destruct (H (try_h i) (T1 i)); split; [assumption|unfold LSS; apply ltR_iff; assumption]).
  assert (ST : forall i, sm (it mass bar (S i) start) = Some (f (try_h i)) /\ h_cent (it mass bar (S i) start) = try_h i).
  { intros i. cbn [it]. destruct (step_sm mass bar (it mass bar i start)) as [-> ->]. destruct (rise mass bar f i) as (-> & _); [intros; apply LS|]. split; [apply LS|reflexivity]. }
  rewrite (loop_stop mass bar (S fuel) (S fuel) start); [apply ST|lia| |left; reflexivity].
  intros [|i] _; [cbn; apply EQL_niff; rewrite Rabs_minus_sym, Rminus_0_r, Rabs_pos_eq by lra; exact Hb|]. destruct (ST i) as [-> _]. cbn [oEQL]. apply EQL_niff. destruct (H (try_h i) (T1 i)). rewrite Rabs_left by lra. lra.
Qed.
Lemma search_above_report mass bar f : (forall h, 1 <= h -> mass h = Some (f h) /\ f h < bar - eps) -> eps <= bar ->
  TOV_search mass bar = Star_of (try_h 999) (f (try_h 999)) true (f (try_h 999)).
Proof.
  intros H Hb. assert (P : 0 < eps) by (unfold eps; lra). destruct (search_above 999 mass bar f H Hb) as [E1 E2].
  unfold TOV_search. assert (E0 : EQL bar 0 = false) by (apply EQL_niff; rewrite Rminus_0_r, Rabs_pos_eq by lra; exact Hb). rewrite E0. cbv zeta.
  change {| h_cent := 0; h_new := 3 / 2; h_prev := 1; sa := 0; sb := 0; increase := true; bisection := false; sm := Some 0 |} with start.
  revert E1 E2. generalize (search_loop mass bar 1000 start). intros z E1 E2. rewrite E1, E2.
  assert (X : EQL (f (try_h 999)) bar = false).
  { generalize 999%nat. intros q. apply EQL_niff. pose proof (lower_lt q). destruct (H (try_h q)); [lra|]. rewrite Rabs_left by lra. lra. }
  rewrite X. reflexivity.
Qed.
