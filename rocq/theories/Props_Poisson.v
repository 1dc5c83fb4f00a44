(** Props_Poisson.v - C173-C174: the project Poisson0, D^2 alpha + 3 (r^2 + 1)^(-5/2) = 0 with alpha = (r^2 + 1)^(-1/2) on the boundary. *)
From Verif Require TextModel SewModel SewSpec.
From Verif Require Import RealBase XctsSpec PoissonModel PoissonProofs.
Open Scope R_scope.

(** The layout the solver sets up: the first [Oi] of [NS] subdomain points are the inner mesh, the points from [Oi] to [NS] are the nodes of the boundary subfaces [bcs] (repetitions allowed),
    the remaining [NI] are interface points; [inv] numbers all [nn] nodes and [map] inverts it; the patch of a boundary subface is flagged. *)
Definition schur_layout (P : ppatch) (S : schur) (bcs : list (list nat)) : Prop :=
  (Oi S <= NS S)%nat /\ (NS S + NI S = nn P)%nat /\
  (forall i, (i < nn P)%nat -> (inv_ S i < nn P)%nat) /\ (forall i, (i < NS S)%nat -> map_ S (inv_ S i) = i) /\
  (forall i, (Oi S <= i < NS S)%nat -> In (inv_ S i) (concat bcs)) /\ (forall n, In n (concat bcs) -> exists i, (Oi S <= i < NS S)%nat /\ n = inv_ S i) /\
  ((Oi S < NS S)%nat -> outerB P = true \/ innerB P = true).
(** [d] is the second derivative of [h] at [a] *)
Definition second_derivative (h : R -> R) (a d : R) : Prop := exists g, (forall t, derivable_pt_lim h t (g t)) /\ derivable_pt_lim g a d.
(** the exact solution *)
Definition exact (p : R * R * R) : R := let '(x, y, z) := p in 1 / sqrt (x ^ 2 + y ^ 2 + z ^ 2 + 1).
(** [xx], [yy], [zz] are the second derivatives of the exact solution at [p] *)
Definition exact_derivatives (p : R * R * R) (xx yy zz : R) : Prop :=
  let '(x, y, z) := p in
  second_derivative (fun s => exact (s, y, z)) x xx /\ second_derivative (fun s => exact (x, s, z)) y yy /\ second_derivative (fun s => exact (x, y, s)) z zz.

(** C173. The residual of the exact solution is the error of the numerical derivatives in the inner mesh and zero on the boundary. *)
Theorem C173_residual : forall P S bcs axx ayy azz xx yy zz, schur_layout P S bcs ->
  (forall n, (n < nn P)%nat -> exact_derivatives (xyz P n) (xx n) (yy n) (zz n)) ->
  let F := make_f P S bcs axx ayy azz (fun n => exact (xyz P n)) in
  forall i, (i < NS S)%nat ->
    ((i < Oi S)%nat -> F i = (axx (inv_ S i) - xx (inv_ S i)) + (ayy (inv_ S i) - yy (inv_ S i)) + (azz (inv_ S i) - zz (inv_ S i))) /\
    ((Oi S <= i)%nat -> F i = 0).
Proof.
  intros P S bcs axx ayy azz xx yy zz HL HD F i Hi. unfold F. rewrite (make_f_val P S bcs) by assumption. cbv zeta.
  destruct HL as (L1 & L2 & L3 & _). specialize (L3 i ltac:(lia)). specialize (HD _ L3).
  destruct (xyz P (inv_ S i)) as [[x y] z] eqn:E.
  destruct (Nat.ltb_spec i (Oi S)); split; intros; try lia.
  - destruct HD as (H1 & H2 & H3). pose proof (laplace x y z _ _ _ H1 H2 H3). lra.
  - rewrite pow12 by apply q2_pos. unfold exact, q2. unfold Rdiv. rewrite Rmult_1_l. ring.
Qed.
Print Assumptions C173_residual.
(** The exact solution does have second derivatives everywhere, and they satisfy the equation. *)
Theorem C173_solution : forall p, (exists xx yy zz, exact_derivatives p xx yy zz) /\
  (forall xx yy zz, exact_derivatives p xx yy zz -> let '(x, y, z) := p in xx + yy + zz + 3 * Rpower (x ^ 2 + y ^ 2 + z ^ 2 + 1) (- (5 / 2)) = 0).
Proof.
  intros [[x y] z]. split.
  - destruct (second_alpha x y z) as ((a & A) & (b & B) & (c & C)). exists a, b, c. split; [exact A|split; [exact B|exact C]].
  - intros xx yy zz (H1 & H2 & H3). exact (laplace x y z _ _ _ H1 H2 H3).
Qed.
Print Assumptions C173_solution.
(** On the boundary the residual vanishes exactly for fields having the boundary values. *)
Theorem C173_boundary : forall P S bcs axx ayy azz u, schur_layout P S bcs ->
  (forall i, (Oi S <= i < NS S)%nat -> make_f P S bcs axx ayy azz u i = 0) <-> (forall n, In n (concat bcs) -> u n = exact (xyz P n)).
Proof.
  intros P S bcs axx ayy azz u HL.
  assert (K : forall i, (Oi S <= i < NS S)%nat -> make_f P S bcs axx ayy azz u i = u (inv_ S i) - exact (xyz P (inv_ S i))).
  { intros i Hi. rewrite (make_f_val P S bcs) by (assumption || lia). cbv zeta. destruct (Nat.ltb_spec i (Oi S)); [lia|].
    rewrite pow12 by apply q2_pos. destruct (xyz P (inv_ S i)) as [[x y] z]. unfold exact, q2. unfold Rdiv. rewrite Rmult_1_l. reflexivity. }
  destruct HL as (L1 & L2 & L3 & L4 & L5 & L6 & L7). split.
  - intros H n Hn. apply L6 in Hn. destruct Hn as [i [Hi ->]]. specialize (H i Hi). rewrite K in H by exact Hi. lra.
  - intros H i Hi. rewrite K by exact Hi. rewrite H by auto. ring.
Qed.
Print Assumptions C173_boundary.
(** The first guess is off the exact solution by exp(-r)/10, and the reference of the analysis is the exact solution. *)
Theorem C173_guess : forall x y z, let r := sqrt (x ^ 2 + y ^ 2 + z ^ 2) in
  alpha_real (x, y, z) = exact (x, y, z) /\
  initial_data_alpha (x, y, z) - exact (x, y, z) = exp (- r) / 10 /\ 0 < initial_data_alpha (x, y, z) - exact (x, y, z) <= 1 / 10.
Proof.
  intros x y z r. split; [reflexivity|].
  assert (E : initial_data_alpha (x, y, z) - exact (x, y, z) = exp (- r) / 10) by (unfold initial_data_alpha, exact, r; lra).
  split; [exact E|]. rewrite E. pose proof (exp_pos (- r)). assert (exp (- r) <= exp 0).
  { assert (0 <= r) by apply sqrt_pos. destruct (Req_dec r 0) as [->|]; [rewrite Ropp_0; lra|]. left. apply exp_increasing. lra. }
  rewrite exp_0 in *. lra.
Qed.
Print Assumptions C173_guess.

(** C174. With derivatives taken by the matrices [D 0], [D 3], [D 5] (xx, yy, zz), the matrices given to the solver are the derivatives of the residual by the subdomain values (B) and by the interface values (E^T). *)
Theorem C174_jacobian : forall P S bcs (D : nat -> nat -> nat -> R) u, schur_layout P S bcs ->
  (forall i j, (i < nn P)%nat -> (j < nn P)%nat -> inv_ S i = inv_ S j -> i = j) ->
  let dd a v n := Rsum (nn P) (fun l => D a n l * v l) in
  let F v := make_f P S bcs (dd 0%nat v) (dd 3%nat v) (dd 5%nat v) v in
  let moved n t := fun m => if Nat.eqb m n then u m + t else u m in
  let '(B, Et) := making_B_and_E P S D in
  (forall i j, (i < NS S)%nat -> (j < NS S)%nat -> derivable_pt_lim (fun t => F (moved (inv_ S j) t) i) 0 (B i j)) /\
  (forall k i, (i < NS S)%nat -> (k < NI S)%nat -> derivable_pt_lim (fun t => F (moved (inv_ S (NS S + k)%nat) t) i) 0 (Et k i)).
Proof. intros P S bcs D u HL INJ. exact (jac_thm P S bcs D u HL INJ). Qed.
Print Assumptions C174_jacobian.
(** The residual changes exactly by the Jacobian times the step, however large: a step that solves the linear system solves the equation. *)
Theorem C174_newton : forall P S bcs (D : nat -> nat -> nat -> R) u d, schur_layout P S bcs ->
  (forall i j, (i < nn P)%nat -> (j < nn P)%nat -> inv_ S i = inv_ S j -> i = j) ->
  let dd a v n := Rsum (nn P) (fun l => D a n l * v l) in
  let F v := make_f P S bcs (dd 0%nat v) (dd 3%nat v) (dd 5%nat v) v in
  let '(B, Et) := making_B_and_E P S D in
  let J i := Rsum (NS S) (fun j => B i j * d (inv_ S j)) + Rsum (NI S) (fun k => Et k i * d (inv_ S (NS S + k)%nat)) in
  (forall i, (i < NS S)%nat -> F (fun n => u n + d n) i = F u i + J i) /\
  ((forall i, (i < NS S)%nat -> J i = - F u i) -> forall i, (i < NS S)%nat -> F (fun n => u n + d n) i = 0).
Proof.
  intros P S bcs D u d HL INJ dd F. pose proof (newton_thm P S bcs D u d HL INJ) as N. cbv zeta in N.
  destruct (making_B_and_E P S D) as [B Et]. cbv zeta.
  assert (Q : forall i, (i < NS S)%nat -> F (fun n => u n + d n) i = F u i +
    (Rsum (NS S) (fun j => B i j * d (inv_ S j)) + Rsum (NI S) (fun k => Et k i * d (inv_ S (NS S + k)%nat)))).
  { intros i Hi. rewrite <- Rplus_assoc. exact (N i Hi). }
  split; [exact Q|]. intros H i Hi. rewrite Q, H by exact Hi. ring.
Qed.
Print Assumptions C174_newton.

(** The layout is the one the solver makes: the numbering of C87 has it, whatever the subfaces, as long as boundary subfaces consist of nodes of the faces and the patch is flagged when one of them is there. *)
Theorem C174_layout : forall (T : Type) n0 n1 n2 (P : ppatch) (sfs : list (SewModel.sface T)) (m : SewModel.smap),
  SewSpec.numbering n0 n1 n2 (nn P) sfs m ->
  let bnd (sf : SewModel.sface T) := orb (SewModel.f_outerB sf) (SewModel.f_innerB sf) in
  (forall sf n, In sf sfs -> bnd sf = true -> In n (SewModel.f_id sf) -> (n < nn P)%nat /\ SewSpec.on_face n0 n1 n2 n) ->
  (forall sf, In sf sfs -> bnd sf = true -> outerB P = true \/ innerB P = true) ->
  let S := mkS (SewModel.s_Oi m) (SewModel.s_NS m) (SewModel.s_NI m) (fun i => nth i (SewModel.s_map m) 0%nat) (fun i => nth i (SewModel.s_inv m) 0%nat) in
  schur_layout P S (List.map SewModel.f_id (filter bnd sfs)) /\
  (forall i j, (i < nn P)%nat -> (j < nn P)%nat -> inv_ S i = inv_ S j -> i = j).
Proof.
  intros T n0 n1 n2 P sfs m N bnd HF HP S. destruct N as [_ [N1 N2] NI_ NM NIn _ NB _ _].
  assert (CC : forall n, In n (concat (List.map SewModel.f_id (filter bnd sfs))) <-> exists sf, In sf sfs /\ bnd sf = true /\ In n (SewModel.f_id sf)).
  { intros n. rewrite in_concat. split.
    - intros [l [H1 H2]]. apply in_map_iff in H1. destruct H1 as [sf [<- H1]]. apply filter_In in H1. exists sf. tauto.
    - intros [sf [H1 [H2 H3]]]. exists (SewModel.f_id sf). split; [|exact H3]. apply in_map, filter_In. tauto. }
  assert (BB : forall n, SewSpec.on_boundary sfs n <-> exists sf, In sf sfs /\ bnd sf = true /\ In n (SewModel.f_id sf)).
  { intros n. unfold SewSpec.on_boundary, bnd. split; intros [sf [H1 [H2 H3]]]; exists sf; (split; [exact H1|split; [|exact H3]]); apply Bool.orb_true_iff; exact H2. }
  split.
  - unfold schur_layout, S; cbn [Oi NS NI map_ inv_]. repeat split; try assumption.
    + intros i Hi. apply NI_, Hi.
    + intros i Hi. apply NI_. lia.
    + intros i Hi. apply CC, BB. destruct (NI_ i ltac:(lia)) as [Q1 Q2]. apply (NB _ Q1). rewrite Q2. exact Hi.
    + intros n Hn. apply CC in Hn. pose proof Hn as Hb. apply BB in Hb. destruct Hn as [sf [H1 [H2 H3]]]. destruct (HF sf n H1 H2 H3) as [Q1 Q2].
      exists (nth n (SewModel.s_map m) 0%nat). split; [apply NB; tauto|]. symmetry. apply NM, Q1.
    + intros Hlt. destruct (NI_ (SewModel.s_Oi m) ltac:(lia)) as [Q1 Q2].
      assert (Q3 := proj1 (NB _ Q1)). rewrite Q2 in Q3. destruct (Q3 ltac:(lia)) as [_ Q4]. apply BB in Q4. destruct Q4 as [sf [H1 [H2 _]]]. exact (HP sf H1 H2).
  - intros i j Hi Hj E. unfold S in E; cbn [inv_] in E. destruct (NI_ i Hi) as [_ A], (NI_ j Hj) as [_ B]. rewrite <- A, <- B, E. reflexivity.
Qed.
Print Assumptions C174_layout.

(** The hypotheses are met: five nodes in reverse order, two inner, two on the outer boundary (one of them in both subfaces), one on an interface. *)
Definition exP : ppatch := mkPatch 5 (fun n => (INR n, 1, 2)) true false.
Definition exS : schur := mkS 2 4 1 (fun n => 4 - n)%nat (fun i => 4 - i)%nat.
Lemma exL : schur_layout exP exS [[2; 1]; [1]]%nat.
Proof.
  unfold schur_layout; cbn -[Nat.sub]. split; [lia|]. split; [lia|]. split; [intros i Hi; lia|]. split; [intros i Hi; lia|].
  split; [|split; [|intros _; left; reflexivity]].
  - intros i Hi. assert (i = 2 \/ i = 3)%nat as [->| ->] by lia; cbn; auto.
  - intros n H. destruct H as [<-|[<-|[<-|[]]]]; [exists 2%nat|exists 3%nat|exists 3%nat]; cbn; lia.
Qed.
Example C173_residual_ex : forall i, (2 <= i < 4)%nat ->
  make_f exP exS [[2; 1]; [1]]%nat (fun _ => 7) (fun _ => 0) (fun _ => 0) (fun n => exact (xyz exP n)) i = 0.
Proof. intros i Hi. apply (C173_boundary exP exS [[2; 1]; [1]]%nat); [exact exL|reflexivity|exact Hi]. Qed.
Example C174_newton_ex : forall D u d i, (i < 4)%nat ->
  let F v := make_f exP exS [[2; 1]; [1]]%nat (lin 5 (D 0%nat) v) (lin 5 (D 3%nat) v) (lin 5 (D 5%nat) v) v in
  let '(B, Et) := making_B_and_E exP exS D in
  F (fun n => u n + d n) i = F u i + (Rsum 4 (fun j => B i j * d (4 - j)%nat) + Rsum 1 (fun k => Et k i * d (4 - (4 + k))%nat)).
Proof.
  intros D u d i Hi. pose proof (C174_newton exP exS [[2; 1]; [1]]%nat D u d exL) as N. cbv zeta in N |- *.
  destruct (making_B_and_E exP exS D) as [B Et]. apply N; [|exact Hi]. cbn -[Nat.sub]. intros; lia.
Qed.
