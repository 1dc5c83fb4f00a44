(** Props_Control.v - C147-C155: the control loops of an iteration and the quantities set on a horizon. *)
From Coq Require Import Reals Lra Lia Psatz Ranalysis List.
From Verif Require Import RealBase TensorSpec AdmFinal ObsSpec ControlModel ControlProofs AHProofs.
From Verif Require Base GenAH ObsNormal.
Import Base(outcome, Ok, Abort, UB).
Import ListNotations.
Open Scope R_scope.

(** C147. Start-off of a general Kerr-Schild hole with irreducible mass m and dimensionless spin of length at most 1: the radius is that of the outer horizon
    (r^2 - 2Mr + a^2 = 0, M <= r), whose area is 16 pi m^2, M^2 = m^2 + S^2/(4 m^2) with S = a M, and a/M is the given spin. A spin above 1 by more than ROUND_OFF_ERR stops the program. *)
Theorem C147_kerr_schild : forall m chi, 0 < m -> net_chi chi <= 1 -> exists r M a, start_KSgen m chi = Ok (mkstart r M a) /\
  0 < M /\ a = net_chi chi * M /\ M <= r /\ r*r - 2*M*r + a*a = 0 /\ 4*PI*(r*r + a*a) = 16*PI*(m*m) /\ M*M = m*m + (a*M)*(a*M)/(4*(m*m)).
Proof.
  intros m chi Hm Hc. destruct (KSgen_ok m chi Hm Hc) as (r & M & a & E & A & B & C & D & F & G). exists r, M, a.
  repeat split; auto. rewrite Rmult_assoc, F. ring.
Qed.
Print Assumptions C147_kerr_schild.
Theorem C147_net_spin : forall chi, 0 <= net_chi chi /\ net_chi chi * net_chi chi = chi 0%nat * chi 0%nat + chi 1%nat * chi 1%nat + chi 2%nat * chi 2%nat.
Proof. intros chi. destruct (net_chi_sq chi) as [A B]. split; [exact B|exact A]. Qed.
Print Assumptions C147_net_spin.
Theorem C147_too_large : forall m chi, 1 + ROUND_OFF_ERR < net_chi chi -> start_KSgen m chi = Abort /\ start_Close m chi = Abort.
Proof. exact start_too_large. Qed.
Print Assumptions C147_too_large.
(** Schwarzschild: areal radius 2m in Kerr-Schild and Painleve-Gullstrand coordinates, in isotropic ones the rho with rho (1 + m/(2 rho))^2 = 2m *)
Theorem C147_schwarzschild : forall m, 0 < m -> start_KS m = mkstart (2*m) m 0 /\
  st_chr (start_Iso m) = m /\ st_spin_a (start_Iso m) = 0 /\ let rho := st_radius (start_Iso m) in rho * (1 + m/(2*rho))^2 = 2*m.
Proof. intros m H. repeat split. unfold start_Iso. cbn [st_radius]. field. lra. Qed.
Print Assumptions C147_schwarzschild.
(** The start-off of a hole in a binary stores the irreducible mass as Christodoulou mass, which is wrong for every spinning hole (and disagrees with the stored spin a = chi M) ... *)
Theorem C147_close_refuted : forall m chi, 0 < m -> 0 < net_chi chi <= 1 -> exists a, start_Close m chi = Ok (mkstart (3/2*m) m a) /\
  exists M, 0 < M /\ M*M = m*m + (a*M)*(a*M)/(4*(m*m)) /\ a = net_chi chi * M /\ m < M.
Proof.
  intros m chi Hm Hc. eexists. split; [apply Close_ok; [exact Hm|lra]|]. exists (chr_mass m (net_chi chi)).
  pose proof (Close_mass m chi Hm Hc) as L. repeat split; try lra.
  pose proof (christodoulou m (net_chi chi) Hm ltac:(lra)) as C. cbv zeta in C. rewrite C at 1. f_equal. f_equal. ring.
Qed.
Print Assumptions C147_close_refuted.
(** ... and a spin between 1 and 1 + ROUND_OFF_ERR is accepted and stores values that are not numbers. *)
Theorem C147_nan_refuted : forall m chi, 1 < net_chi chi <= 1 + ROUND_OFF_ERR -> start_KSgen m chi = UB /\ start_Close m chi = UB.
Proof. exact start_nan. Qed.
Print Assumptions C147_nan_refuted.
Lemma ex_chi : net_chi (fun i => match i with 2%nat => 4/5 | _ => 0 end) = 4/5.
Proof. unfold net_chi. replace (_ + _) with ((4/5)*(4/5)) by field. apply sqrt_square. lra. Qed.
Example C147_ex : exists M, 0 < M /\ M*M = 5/4 /\ start_KSgen 1 (fun i => match i with 2%nat => 4/5 | _ => 0 end) = Ok (mkstart (8/5*M) M (4/5*M)).
Proof.
  destruct (C147_kerr_schild 1 (fun i => match i with 2%nat => 4/5 | _ => 0 end) ltac:(lra) ltac:(rewrite ex_chi; lra)) as (r & M & a & E & A & B & C & D & _ & F).
  rewrite ex_chi in B. subst a. exists M. split; [exact A|].
  assert (HH : (r - 8/5*M)*(r - 2/5*M) = 0) by lra.
  assert (Hr : r = 8/5*M) by (apply Rmult_integral in HH; destruct HH; lra).
  assert (P : r*r + (4/5*M)*(4/5*M) = 4).
  { destruct (KSgen_ok 1 (fun i => match i with 2%nat => 4/5 | _ => 0 end) ltac:(lra) ltac:(rewrite ex_chi; lra)) as (r' & M' & a' & E' & _ & _ & _ & _ & X & _).
    rewrite E in E'. injection E' as <- <- <-. lra. }
  split; [rewrite Hr in P; lra|]. rewrite E, Hr. reflexivity.
Qed.

(** C148. Tuning of a hole's radius r towards a target irreducible mass. It does nothing inside the tolerance or with weight 0, else multiplies r by 1 - W (m/target - 1); a raised
    flag means a changed radius, a lowered one a change of at most W ROUND_OFF_ERR. *)
Theorem C148_step : forall target r W tol m,
  (Rabs (m/target - 1) < tol - ROUND_OFF_ERR \/ Rabs (m/target - 1) = tol \/ Rabs W < ROUND_OFF_ERR -> tune_radius target r W tol m = (r, false)) /\
  (tol + ROUND_OFF_ERR <= Rabs (m/target - 1) -> ROUND_OFF_ERR <= Rabs W -> fst (tune_radius target r W tol m) = r * (1 - W*(m/target - 1))) /\
  (snd (tune_radius target r W tol m) = true -> fst (tune_radius target r W tol m) <> r) /\
  (snd (tune_radius target r W tol m) = false -> Rabs (fst (tune_radius target r W tol m) - r) <= Rabs W * ROUND_OFF_ERR).
Proof.
  intros target r W tol m. split; [apply tune_in_tol|]. split; [|split; [apply tune_flag|apply tune_flag0]].
  intros A B. rewrite tune_out by assumption. reflexivity.
Qed.
Print Assumptions C148_step.
(** a hole whose mass is proportional to its radius is tuned: the error never grows, shrinks at least geometrically outside the tolerance, and gets inside it *)
Theorem C148_converges : forall k target W tol r, 0 < target -> ROUND_OFF_ERR <= W <= 1 -> 0 < k -> 0 <= tol -> Rabs (k*r/target - 1) < 1 ->
  forall rs : nat -> R, rs 0%nat = r -> (forall n, rs (S n) = fst (tune_radius target (rs n) W tol (k * rs n))) ->
  (forall n, Rabs (k * rs n/target - 1) <= Rabs (k*r/target - 1)) /\
  (exists rho, 0 <= rho < 1 /\ forall n, (forall m, (m < n)%nat -> tol + ROUND_OFF_ERR <= Rabs (k * rs m/target - 1)) -> Rabs (k * rs n/target - 1) <= rho^n * Rabs (k*r/target - 1)) /\
  exists n, Rabs (k * rs n/target - 1) < tol + ROUND_OFF_ERR.
Proof.
  intros k target W tol r Ht HW Hk Htol H0 rs E0 ES. pose proof ROE_pos.
  assert (E : forall n, rs n = tuned k target W tol r n) by (induction n as [|n IH]; [exact E0|rewrite ES, IH; reflexivity]).
  split; [intros n; rewrite E; apply tuned_err; auto; lra|]. split.
  - destruct (tuned_geometric k target W tol r) as (rho & A & B); auto; try lra. exists rho. split; [exact A|].
    intros n Hn. rewrite E. apply B. intros m Hm. rewrite <- E. apply Hn; exact Hm.
  - destruct (tuned_reaches k target W tol r) as (n & A); auto; try lra. exists n. rewrite E. exact A.
Qed.
Print Assumptions C148_converges.
Example C148_ex : fst (tune_radius 1 2 (1/2) (1/10) (3/2)) = 3/2 /\ Rabs ((3/4)*2/1 - 1) < 1 /\ ROUND_OFF_ERR <= 1/2 <= 1.
Proof.
  assert (Rabs (3/2/1 - 1) = 1/2) as A by (rewrite Rabs_right; lra).
  split; [|split; [rewrite Rabs_right; lra|unfold ROUND_OFF_ERR; lra]].
  rewrite (proj1 (proj2 (C148_step 1 2 (1/2) (1/10) (3/2)))); [field| |]; [rewrite A|rewrite Rabs_right by lra]; unfold ROUND_OFF_ERR; lra.
Qed.

(** C149. Tuning of a hole's spin. The Christodoulou mass satisfies M^2 = m^2 + S^2/(4m^2) and the current spin S/M^2 has length at most 1, whatever S is; Omega is
    changed component by component, only outside the tolerance, in proportion to the deviation and the weight. *)
Theorem C149_spin : forall m s, m <> 0 -> let S2 := s 0%nat * s 0%nat + s 1%nat * s 1%nat + s 2%nat * s 2%nat in
  exists M, 0 <= M /\ M*M = m*m + S2/(4*(m*m)) /\ (forall i, chi_now m s i = s i / (M*M)) /\
  chi_now m s 0 * chi_now m s 0 + chi_now m s 1 * chi_now m s 1 + chi_now m s 2 * chi_now m s 2 <= 1.
Proof.
  intros m s H S2. exists (chr_mass_now m s). split; [apply sqrt_pos|]. split; [exact (chr_now_sq m s H)|]. split; [reflexivity|exact (chi_bound m s H)].
Qed.
Print Assumptions C149_spin.
Theorem C149_step : forall W tol chi om osys m s i,
  (Rabs W < ROUND_OFF_ERR -> tune_chi W tol chi om osys m s i = om i) /\
  (Rabs (chi_now m s i - chi i) <= tol + ROUND_OFF_ERR -> tune_chi W tol chi om osys m s i = om i) /\
  (ROUND_OFF_ERR <= Rabs W -> tol + ROUND_OFF_ERR < Rabs (chi_now m s i - chi i) -> tune_chi W tol chi om osys m s i = om i + W * (chi_now m s i - chi i) * Rabs osys).
Proof. intros. split; [apply chi_off|split; [apply chi_in|apply chi_out]]. Qed.
Print Assumptions C149_step.
Example C149_ex : chi_now 1 (fun i => match i with 2%nat => 2 | _ => 0 end) 2 = 1 /\
  tune_chi (1/2) (1/100) (fun _ => 0) (fun _ => 3) (-(4)) 1 (fun i => match i with 2%nat => 2 | _ => 0 end) 2 = 5 /\
  tune_chi (1/2) (1/100) (fun _ => 0) (fun _ => 3) (-(4)) 1 (fun i => match i with 2%nat => 2 | _ => 0 end) 0 = 3.
Proof.
  destruct (C149_spin 1 (fun i => match i with 2%nat => 2 | _ => 0 end) ltac:(lra)) as (M & _ & HM & E & _). cbn beta iota in HM.
  assert (M2 : M*M = 2) by lra. 
  assert (E2 : chi_now 1 (fun i => match i with 2%nat => 2 | _ => 0 end) 2 = 1) by (rewrite E, M2; field).
  assert (E0 : chi_now 1 (fun i => match i with 2%nat => 2 | _ => 0 end) 0 = 0) by (rewrite E, M2; field).
  split; [exact E2|]. split.
  - rewrite (proj2 (proj2 (C149_step (1/2) (1/100) (fun _ => 0) (fun _ => 3) (-(4)) 1 _ 2))); [rewrite E2; replace (Rabs (-(4))) with 4 by (rewrite Rabs_left; lra); field| |];
      [rewrite Rabs_right by lra|rewrite E2, Rabs_right by lra]; unfold ROUND_OFF_ERR; lra.
  - apply (C149_step (1/2) (1/100) (fun _ => 0) (fun _ => 3) (-(4)) 1 _ 0). rewrite E0. replace (0 - 0) with 0 by ring. rewrite Rabs_R0. unfold ROUND_OFF_ERR. lra.
Qed.

(** C150. Control of the centre of mass: if the linear momentum responds to a shift of the centre by P_x -> P_x + Omega M dy, P_y -> P_y - Omega M dx (a rotating system of
    mass M), one step leaves (1 - W) of it; outside the window (dP, threshold) nothing is changed. *)
Theorem C150_step : forall p W dP thr Om M c0, Om <> 0 -> M <> 0 -> dP + ROUND_OFF_ERR < Rabs p < thr - ROUND_OFF_ERR ->
  p + Om*M*(tune_yCM p W dP thr Om M c0 - c0) = (1-W)*p /\ p - Om*M*(tune_xCM p W dP thr Om M c0 - c0) = (1-W)*p.
Proof. intros. split; [apply yCM_ok|apply xCM_ok]; assumption. Qed.
Print Assumptions C150_step.
Theorem C150_idle : forall p W dP thr Om M c0, Rabs p <= dP + ROUND_OFF_ERR \/ thr - ROUND_OFF_ERR <= Rabs p ->
  tune_yCM p W dP thr Om M c0 = c0 /\ tune_xCM p W dP thr Om M c0 = c0.
Proof. exact CM_idle. Qed.
Print Assumptions C150_idle.
Example C150_ex : tune_yCM (1/10) 1 (1/100) 1 (1/2) 2 3 = 29/10 /\ tune_xCM (1/10) 1 (1/100) 1 (1/2) 2 3 = 31/10.
Proof.
  assert (R1 : Rabs (1/10) = 1/10) by (apply Rabs_right; lra). assert (W1 : 1/100 + ROUND_OFF_ERR < Rabs (1/10) < 1 - ROUND_OFF_ERR) by (rewrite R1; unfold ROUND_OFF_ERR; lra).
  destruct (C150_step (1/10) 1 (1/100) 1 (1/2) 2 3 ltac:(lra) ltac:(lra) W1) as [A B]. lra.
Qed.

(** C151. The Euler constant is left alone when the root finder's residual exceeds the root of its tolerance, else moved by W towards the root; the force balance moves its parameter
    between the old value and the root, by W if they differ by at most a tenth of the old value and by W/10 else. *)
Theorem C151_euler : forall W tol old found res,
  (sqrt tol + ROUND_OFF_ERR < res -> euler_update W tol old found res = old) /\
  (res <= sqrt tol + ROUND_OFF_ERR -> euler_update W tol old found res = old + W*(found - old)).
Proof. intros. split; [apply euler_bad|apply euler_good]. Qed.
Print Assumptions C151_euler.
Theorem C151_force : forall W old found, old <> 0 ->
  (Rabs (found - old) <= Rabs old/10 -> force_update W old found = old + W*(found - old)) /\
  (Rabs old/10 < Rabs (found - old) -> force_update W old found = old + W/10*(found - old)) /\
  (0 <= W <= 1 -> Rmin old found <= force_update W old found <= Rmax old found).
Proof. intros W old found H. split; [apply force_small; exact H|split; [apply force_big; exact H|apply force_between]]. Qed.
Print Assumptions C151_force.
Example C151_ex : force_update (1/2) 1 2 = 21/20 /\ force_update (1/2) 20 21 = 41/2 /\ euler_update (1/2) (1/100) 4 6 (1/20) = 5 /\ euler_update (1/2) (1/100) 4 6 1 = 4.
Proof.
  assert (S : sqrt (1/100) = 1/10) by (replace (1/100) with ((1/10)*(1/10)) by field; apply sqrt_square; lra).
  split; [|split; [|split]].
  - rewrite (proj1 (proj2 (C151_force (1/2) 1 2 ltac:(lra)))); [field|rewrite !Rabs_right by lra; lra].
  - rewrite (proj1 (C151_force (1/2) 20 21 ltac:(lra))); [field|rewrite !Rabs_right by lra; lra].
  - rewrite (proj2 (C151_euler _ _ _ _ _)); [field|rewrite S; unfold ROUND_OFF_ERR; lra].
  - apply (C151_euler _ _ _ _ _). rewrite S. unfold ROUND_OFF_ERR. lra.
Qed.

(** C152. Search for the star's surface along a ray, h d = enthalpy minus one at the signed distance d from the old surface (None outside the patches): an accepted interval
    lies within 5 of the old surface, contains it, lies on the grid at both ends and has h >= 0 at the inner, h <= 0 at the outer end; so for a continuous h the surface lies inside. *)
Theorem C152_interval : forall h a b, bracket h = Some (a, b) ->
  -5 <= a <= 0 /\ 0 <= b <= 5 /\ exists ha hb, h a = Some ha /\ h b = Some hb /\ 0 <= ha /\ hb <= 0.
Proof. exact bracket_sound. Qed.
Print Assumptions C152_interval.
Theorem C152_root : forall f a b, continuity f -> bracket (fun d => Some (f d)) = Some (a, b) -> exists d, a <= d <= b /\ f d = 0.
Proof. exact bracket_root. Qed.
Print Assumptions C152_root.
(** It is found if, on the lattice of steps 1/100, the star reaches in and ends within 500 steps, provided no lattice value lies within ROUND_OFF_ERR of 0 on the wrong side; ... *)
Theorem C152_found : forall h : R -> R,
  (exists k, (k < 500)%nat /\ 0 <= h (- (INR k/100))) -> (exists k, (k < 500)%nat /\ h (INR k/100) <= 0) ->
  (forall k, (k < 500)%nat -> ~ (- ROUND_OFF_ERR <= h (- (INR k/100)) < 0)) -> (forall k, (k < 500)%nat -> ~ (0 < h (INR k/100) <= ROUND_OFF_ERR)) ->
  exists a b, bracket (fun d => Some (h d)) = Some (a, b).
Proof. exact bracket_complete. Qed.
Print Assumptions C152_found.
(** ... without that proviso it is not: the loops stop within ROUND_OFF_ERR of 0, the tests after them compare with 0, so a converged surface interrupts the search. *)
Theorem C152_roundoff_refuted : forall (h : R -> option R) v, h 0 = Some v -> - ROUND_OFF_ERR <= v < 0 \/ 0 < v <= ROUND_OFF_ERR -> bracket h = None.
Proof. intros h v E [H|H]; [exact (bracket_gap h v E H)|exact (bracket_gap_b h v E H)]. Qed.
Print Assumptions C152_roundoff_refuted.
Example C152_ex : (exists a b, bracket (fun d => Some (1 - d)) = Some (a, b) /\ a <= 1 <= b) /\ bracket (fun d => Some (ROUND_OFF_ERR/2 - d)) = None.
Proof.
  pose proof ROE_pos. split.
  - destruct (C152_found (fun d => 1 - d)) as (a & b & E).
    + exists 0%nat. split; [lia|cbn; lra].
    + exists 200%nat. split; [lia|]. rewrite INR_IZR_INZ. cbn. lra.
    + intros k Hk. pose proof (pos_INR k). lra.
    + intros k Hk [A B]. assert (99 < INR k < 100) as [C D].
      { unfold ROUND_OFF_ERR in *. lra. }
      replace 99 with (INR 99) in C by (rewrite INR_IZR_INZ; reflexivity). replace 100 with (INR 100) in D by (rewrite INR_IZR_INZ; reflexivity).
      apply INR_lt in C. apply INR_lt in D. lia.
    + exists a, b. split; [exact E|]. destruct (C152_root (fun d => 1 - d) a b) as (d & Hd & Z); [|exact E|lra].
      apply continuity_minus; [apply continuity_const; intros x y; reflexivity|apply derivable_continuous, derivable_id].
  - apply (C152_roundoff_refuted _ (ROUND_OFF_ERR/2)); [f_equal; ring|right; lra].
Qed.

(** C153. History of the surface searches (None: interrupted): the program stops at the (max+1)-th interrupted search, counted over the whole history and the restored start value;
    until then the radii are those of the last uninterrupted search. *)
Theorem C153_history : forall mfail l st, (nfail st <= mfail)%nat ->
  let interrupted := List.length (filter (fun x : option (R * R * bool) => match x with None => true | _ => false end) l) in
  ((nfail st + interrupted <= mfail)%nat -> exists st', surface_run mfail st l = Ok st' /\ nfail st' = (nfail st + interrupted)%nat) /\
  ((mfail < nfail st + interrupted)%nat -> surface_run mfail st l = Abort).
Proof. intros mfail l st H n. split; [apply run_ok|apply run_abort; exact H]. Qed.
Print Assumptions C153_history.
Theorem C153_radii : forall mfail l st st' lo hi ok, surface_run mfail st l = Ok st' ->
  (forall k, l = repeat None k -> rmin st' = rmin st /\ rmax st' = rmax st) /\
  (forall l1 k, l = l1 ++ Some (lo, hi, ok) :: repeat None k -> rmin st' = lo /\ rmax st' = hi).
Proof.
  intros mfail l st st' lo hi ok H. pose proof (run_radii _ _ _ _ H) as E.
  assert (N : forall k a b, last_radii (repeat None k) a b = (a, b)) by (induction k; intros; [reflexivity|cbn; apply IHk]).
  split.
  - intros k ->. rewrite N in E. injection E as -> ->. split; reflexivity.
  - intros l1 k ->. assert (L : forall l1 a b, last_radii (l1 ++ Some (lo, hi, ok) :: repeat None k) a b = (lo, hi)).
    { induction l0 as [|[[[x y] z]|] l0 IH]; intros; cbn; [apply N|apply IH|apply IH]. }
    rewrite L in E. injection E as -> ->. split; reflexivity.
Qed.
Print Assumptions C153_radii.
(** successes in between do not help: the counter is never reset *)
Theorem C153_reset_refuted : forall mfail st lo hi, (nfail st <= mfail)%nat -> surface_run mfail st (flat_map (fun _ => [Some (lo, hi, true); None]) (seq 0 (S mfail))) = Abort.
Proof.
  intros mfail st lo hi H. apply run_abort; [exact H|]. 
  assert (E : forall l : list nat, fails (flat_map (fun _ => [Some (lo, hi, true); None]) l) = List.length l).
  { induction l as [|x l IH]; [reflexivity|]. unfold fails in *. cbn [flat_map app filter List.length]. rewrite IH. reflexivity. }
  rewrite E, seq_length. lia.
Qed.
Print Assumptions C153_reset_refuted.
Example C153_ex : surface_run 2 (mksurf 0 1 2 true) [None; Some (3, 4, true); None] = Ok (mksurf 2 3 4 false) /\
  surface_run 2 (mksurf 0 1 2 true) [None; Some (3, 4, true); None; Some (5, 6, true); None] = Abort.
Proof. split; reflexivity. Qed.

(** C154. The vector s set on the horizon is a positive multiple of the position relative to the centre, of unit length in the conformal metric, and dbh_sConf is
    its derivative along the coordinate axes if the derivative of the norm is. *)
Theorem C154_unit : forall (g : nat -> nat -> R) (x : nat -> R),
  (forall v, 0 < v 0%nat * v 0%nat + v 1%nat * v 1%nat + v 2%nat * v 2%nat -> 0 < dot (sy g) v v) ->
  0 < x 0%nat * x 0%nat + x 1%nat * x 1%nat + x 2%nat * x 2%nat -> let s := sConf (bh__n g x) x in
  dot (sy g) s s = 1 /\ exists k, 0 < k /\ forall i, s i = k * x i.
Proof. intros g x PD Hx s. split; [exact (sConf_unit g x PD Hx)|exact (sConf_outward g x PD Hx)]. Qed.
Print Assumptions C154_unit.
Theorem C154_derivative : forall (N : (nat -> R) -> R) (dN x : nat -> R) i j,
  0 < x 0%nat * x 0%nat + x 1%nat * x 1%nat + x 2%nat * x 2%nat -> N x <> 0 -> (i < 3)%nat -> (j < 3)%nat ->
  let moved h := fun k => x k + (if Nat.eqb k j then h else 0) in
  derivable_pt_lim (fun h => N (moved h)) 0 (dN j) -> N (moved 0) = N x ->
  derivable_pt_lim (fun h => sConf (N (moved h)) (moved h) i) 0 (dsConf (N x) dN x i j).
Proof. intros N dN x i j Hx HN Hi Hj moved D E. exact (dsConf_ok N dN x i j Hx HN Hi Hj D E). Qed.
Print Assumptions C154_derivative.
(** the shift set on the horizon: rotation Omega x r plus the lapse along the physical unit normal S = s/psi^2, so that gamma(beta - Omega x r, S) = alpha *)
Theorem C154_shift : forall g ap psi s Om x, psi <> 0 -> dot (sy g) s s = 1 ->
  (forall i, (i < 3)%nat -> beta_ibc ap psi s Om x i = cross Om x i + ap/psi * (s i / psi^2)) /\
  dot (fun i j => psi ^ 4 * sy g i j) (fun i => beta_ibc ap psi s Om x i - cross Om x i) (fun i => s i / psi ^ 2) = ap/psi.
Proof.
  intros g ap psi s Om x Hp H. split; [|exact (beta_normal g ap psi s Om x Hp H)].
  intros i Hi. unfold beta_ibc. cbv zeta. rewrite (proj1 (OmegaXr_cross Om x i Hi)). field. exact Hp.
Qed.
Print Assumptions C154_shift.
(** the spin vector field of a star is the rotation Omega x r, tangent to the spheres and orthogonal to Omega *)
Theorem C154_spin_field : forall Om x, (forall i, (i < 3)%nat -> W_spin Om x i = cross Om x i) /\
  sum3 (fun i => W_spin Om x i * x i) = 0 /\ sum3 (fun i => W_spin Om x i * Om i) = 0.
Proof.
  intros Om x. split; [intros i Hi; apply OmegaXr_cross; exact Hi|]. destruct (cross_ortho Om x) as [A B].
  split; [rewrite <- A|rewrite <- B]; unfold sum3; rewrite !(fun i Hi => proj2 (OmegaXr_cross Om x i Hi)) by lia; reflexivity.
Qed.
Print Assumptions C154_spin_field.
(** s is normal to the sphere when the conformal metric is a multiple of the flat one, but not for every metric. *)
Theorem C154_normal_partial : forall f x t, 0 < f -> 0 < x 0%nat * x 0%nat + x 1%nat * x 1%nat + x 2%nat * x 2%nat ->
  x 0%nat * t 0%nat + x 1%nat * t 1%nat + x 2%nat * t 2%nat = 0 ->
  dot (sy (fun i j => f * delta i j)) (sConf (bh__n (fun i j => f * delta i j) x) x) t = 0.
Proof. exact sConf_normal_flat. Qed.
Print Assumptions C154_normal_partial.
Theorem C154_normal_refuted : exists (g : nat -> nat -> R) (x t : nat -> R),
  (forall v, 0 < v 0%nat * v 0%nat + v 1%nat * v 1%nat + v 2%nat * v 2%nat -> 0 < dot (sy g) v v) /\
  0 < x 0%nat * x 0%nat + x 1%nat * x 1%nat + x 2%nat * x 2%nat /\ x 0%nat * t 0%nat + x 1%nat * t 1%nat + x 2%nat * t 2%nat = 0 /\
  dot (sy g) (sConf (bh__n g x) x) t <> 0.
Proof. exact sConf_not_normal. Qed.
Print Assumptions C154_normal_refuted.
Example C154_ex : let x := fun i => match i with 0%nat => 3 | 1%nat => 4 | _ => 0 end in
  dot (sy ObsNormal.skew_g) (sConf (bh__n ObsNormal.skew_g x) x) (sConf (bh__n ObsNormal.skew_g x) x) = 1 /\ W_spin (fun i => delta i 2) x 0 = -(4).
Proof.
  intros x. split; [|unfold W_spin, delta, x; cbn; ring]. apply C154_unit; [|unfold x; lra].
  intros v H. unfold dot, sum3, sy, ObsNormal.skew_g. cbn [Nat.leb]. nra.
Qed.

(** C155. The expansion of the horizon: psi^3/4 times D_i S^i + K_ij S^i S^j - K in the physical geometry, for every conformal data set and unit vector field s
    (S = s/psi^2, with derivatives by the product rule); the reported number is the largest absolute value over the nodes. *)
Theorem C155_expansion : forall c s ds, conf_ok c -> dot (sy (cg c)) s s = 1 ->
  GenAH.Theta (GenAH.mk (cA c) (cG c) s ds (cdpsi c) (cg c) (cpsi c) (cK c))
  = cpsi c ^ 3 / 4 *
    (DivV (Gam c) (fun i => s i / cpsi c ^ 2) (fun i k => ds i k / cpsi c ^ 2 - 2 * s i * cdpsi c k / cpsi c ^ 3)
     + sum3 (fun i => sum3 (fun j => Kd c i j * (s i / cpsi c ^ 2) * (s j / cpsi c ^ 2))) - cK c).
Proof. exact expansion_ok. Qed.
Print Assumptions C155_expansion.
Theorem C155_maximum : forall l, 0 <= max_expansion l /\ (forall E, In E l -> Rabs (GenAH.Theta E) <= max_expansion l) /\
  (max_expansion l = 0 \/ exists E, In E l /\ max_expansion l = Rabs (GenAH.Theta E)).
Proof. exact max_expansion_spec. Qed.
Print Assumptions C155_maximum.
(** Schwarzschild in isotropic coordinates at rho = 1/2 (psi = 1 + 1/(2 rho) = 2, dpsi = -2 along x, s = e_x, ds = diag(0,2,2)): the expansion vanishes; K = 3 changes it to -4 *)
Example C155_ex : let s := fun i => delta i 0 in let ds := fun i k => match i, k with 1%nat, 1%nat => 2 | 2%nat, 2%nat => 2 | _, _ => 0 end in
  let dpsi := fun i => match i with 0%nat => -(2) | _ => 0 end in
  let c k := mkconf delta delta (fun _ _ _ => 0) (fun _ _ _ => 0) (fun _ _ _ => 0) (fun _ _ _ _ => 0) 2 dpsi (fun _ _ => 0) 1 (fun _ _ => 0) (fun _ _ _ => 0) k (fun _ => 0) 1 0 1 (fun _ => 0) in
  let E k := GenAH.mk (cA (c k)) (cG (c k)) s ds (cdpsi (c k)) (cg (c k)) (cpsi (c k)) (cK (c k)) in
  (forall k, conf_ok (c k)) /\ dot (sy delta) s s = 1 /\ GenAH.Theta (E 0) = 0 /\ max_expansion [E 0; E 3] = 4.
Proof.
  intros s ds dpsi c E. assert (T0 : GenAH.Theta (E 0) = 0) by (unfold GenAH.Theta, GenAH.DisConfI, E, c, s, ds, dpsi, delta; cbn; field).
  assert (T3 : GenAH.Theta (E 3) = -(4)) by (unfold GenAH.Theta, GenAH.DisConfI, E, c, s, ds, dpsi, delta; cbn; field).
  split; [|split; [unfold dot, sum3, sy, s, delta; cbn; ring|split; [exact T0|]]].
  - intros k. unfold conf_ok, c. cbn [cg cig cdg cdig cG cA cpsi cap].
    split; [|split; [|split; [|split; [|split; [|split]]]]]; [| | | | |lra|lra].
    + intros i j Hi Hj. idx i; idx j; unfold sum3, sy, delta; cbn; ring.
    + intros i j Hi Hj. idx i; idx j; unfold sum3, sy, delta; cbn; ring.
    + intros i j l Hi Hj Hl. unfold syd, sum3. repeat (destruct (Nat.leb _ _)); ring.
    + intros k0 i j Hk Hi Hj. unfold syl, Christoffel, syd, sum3. repeat (destruct (Nat.leb _ _)); field.
    + unfold sum3, sy. cbn. ring.
  - unfold max_expansion. cbn [fold_left]. rewrite T0, T3, Rabs_R0. replace (Rabs (-(4))) with 4 by (rewrite Rabs_left; lra).
    destruct (ltR_spec 0 0); [lra|]. destruct (ltR_spec 0 4); lra.
Qed.
