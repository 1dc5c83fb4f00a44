(** NewtonExamples.v - a grid of two patches with two nodes each, over the integers: the instance on which the theorems about
    the domain-decomposition solver are exercised. *)
From Coq Require Import ZArith Ring.
From Verif Require Import Base TextModel MatrixModel MatrixSpec SchurModel SchurSpec SewModel SewSpec NewtonModel NewtonSpec.
Open Scope nat_scope.
Notation length := List.length.

(** a solver that tries candidates: exact whatever the candidates are *)
Section Cand.
Context {F : Type} (zero : F) (add mul : F -> F -> F) (eqb : F -> F -> bool) (EQ : forall a b, eqb a b = true -> a = b).
Definition checks (n : nat) (c : ccs F) (b x : list F) : bool :=
  (length x =? n) && forallb (fun r => eqb (sumF zero add n (fun k => mul (dense zero c r k) (ent zero x k))) (ent zero b r)) (seq 0 n).
Definition cand_solver (cands : list (list F)) (m : matrix F) (b : list F) : outcome (list F) :=
  match sto m with
  | CCS c | CCSL c => match find (checks (row m) c b) cands with Some x => Ok x | None => Abort end
  | _ => Abort
  end.
Lemma cand_exact cands : exact_solver zero add mul (cand_solver cands).
Proof.
  intros n c m b Hs Hr Hc Hn V Lb. unfold cand_solver.
  assert (E : match sto m with CCS c | CCSL c => match find (checks (row m) c b) cands with Some x => Ok x | None => Abort end | _ => Abort end =
              match find (checks n c b) cands with Some x => Ok x | None => Abort end) by (rewrite <- Hr; destruct Hs as [-> | ->]; reflexivity).
  rewrite E. destruct (find (checks n c b) cands) as [x|] eqn:EF; [|exact I]. apply find_some in EF. destruct EF as [_ HC]. unfold checks in HC.
  apply andb_true_iff in HC as [H1 H2]. apply Nat.eqb_eq in H1. split; [assumption|]. rewrite forallb_forall in H2. intros r Hr'. apply EQ. apply H2. apply in_seq. lia.
Qed.
End Cand.

Definition zgrt (x l : Z) : bool := (l <? Z.abs x)%Z.
Definition zsolver (cands : list (list Z)) := cand_solver 0%Z Z.add Z.mul Z.eqb cands.
Lemma zsolver_exact cands : exact_solver 0%Z Z.add Z.mul (zsolver cands).
Proof. apply cand_exact. apply Z.eqb_eq. Qed.
Lemma zgrt0 : zgrt 0 0 = false. Proof. reflexivity. Qed.
Lemma z_nothing ps : nothing_dropped 0%Z Z.add Z.sub Z.mul zgrt (drop_limit 0%Z None) ps.
Proof.
  assert (H : forall v, not_dropped 0%Z zgrt 0%Z v) by (intros v E; unfold zgrt in E; apply Z.ltb_ge in E; lia).
  intros p P HP. split; [|split]; intros; [apply H|apply H|]. split; intros; apply H.
Qed.

(** patch 0: nodes 0 (subdomain) and 1 (interface); patch 1: nodes 0 (interface) and 1 (subdomain).  The interface of patch 0 imposes
    equality of the normal derivatives, that of patch 1 continuity. *)
Lemma two {A} (P : nat -> A -> Prop) a b : P 0 a -> P 1 b -> forall p Q, nth_error [a; b] p = Some Q -> P p Q.
Proof. intros Ha Hb [|[|[|p]]] Q E; cbn in E; try discriminate; injection E as <-; assumption. Qed.
Lemma len2 {A} (u : list A) : length u = 2 -> exists a b, u = [a; b].
Proof. destruct u as [|a [|b [|]]]; try discriminate. eauto. Qed.
Section Grid.
Context {F : Type} (zero one : F) (add mul sub : F -> F -> F) (opp : F -> F) (c0 c1 : F).
Context (RT : ring_theory zero one add mul sub opp (@eq F)).
Add Ring FR : RT.
Definition sf0 : sface F := mkSF [1] [0] 1 0 0 true false false true true true [(one, zero, zero)].
Definition sf1 : sface F := mkSF [0] [1] 0 1 0 true false false true true false [].
Definition P0 : ipatch F := mkIP 1 1 [0; 1] [1] [None; Some 0] [sf0].
Definition P1 : ipatch F := mkIP 1 1 [1; 0] [0] [Some 0; None] [sf1].
Definition grid : list (ipatch F) := [P0; P1].
Definition pdz (p d : nat) (u : list F) : list F :=
  if d =? 0 then let s := sub (ent zero u 1) (ent zero u 0) in [s; s] else [zero; zero].
Definition interpz (p : nat) (sf : sface F) (s : nat) (u : list F) : F := ent zero u 0.
Definition d2fz (p d i j : nat) : F := if d =? 0 then (if j =? 0 then opp one else one) else zero.
Definition dinterpz (p : nat) (sf : sface F) (k s j : nat) : F :=
  match k with 0 => if j =? 0 then one else zero | 1 => if j =? 0 then opp one else one | _ => zero end.
(** u(0) + u(1) = c0 on patch 0, u(1) - u(0) = c1 on patch 1 *)
Definition feqz (p : nat) (u : list F) : list F :=
  if p =? 0 then [sub (add (ent zero u 0) (ent zero u 1)) c0] else [sub (sub (ent zero u 1) (ent zero u 0)) c1].
(** B and E^T, in the numbering of each patch *)
Definition Bz (p : nat) (u : list F) : list (list F) := [[one]].
Definition Ez (p : nat) (u : list F) : list (list F) := if p =? 0 then [[one]] else [[opp one]].

Lemma grid_ok : grid_sewn grid.
Proof.
  unfold grid_sewn. refine (two (fun q Q => patch_numbered Q /\ faces_ok grid q Q) P0 P1 _ _).
  - split.
    + constructor; cbn; try lia.
      * repeat constructor; cbn; intuition lia.
      * repeat constructor; cbn; lia.
      * intros [|[|[|i]]] k E; cbn in E; try discriminate. injection E as <-. cbn. lia.
    + constructor.
      * repeat constructor.
      * exists sf0. split; [left; reflexivity|reflexivity].
      * intros a b [<-|[]] [<-|[]] _ _ _ _. reflexivity.
      * intros sf [<-|[]] _. split; [discriminate|]. split; [repeat constructor; cbn; lia|]. split; [intros _; cbn; lia|].
        exists P1. split; [reflexivity|]. intros _. split; [cbn; lia|]. split; [repeat constructor; cbn; lia|]. intros E. discriminate.
  - split.
    + constructor; cbn; try lia.
      * repeat constructor; cbn; intuition lia.
      * repeat constructor; cbn; lia.
      * intros [|[|[|i]]] k E; cbn in E; try discriminate. injection E as <-. cbn. lia.
    + constructor.
      * repeat constructor.
      * exists sf1. split; [left; reflexivity|reflexivity].
      * intros a b [<-|[]] [<-|[]] _ _ _ _. reflexivity.
      * intros sf [<-|[]] _. split; [discriminate|]. split; [repeat constructor; cbn; lia|]. split; [intros E; discriminate|].
        exists P0. split; [reflexivity|]. intros _. split; [cbn; lia|]. split; [repeat constructor; cbn; lia|]. intros _ [|s] Hs; cbn in Hs; [cbn; discriminate|lia].
Qed.
Lemma grid_jac : forall p P, nth_error grid p = Some P -> jacobians_match zero add mul pdz interpz d2fz dinterpz p (i_nn P).
Proof.
  assert (H : forall p, jacobians_match zero add mul pdz interpz d2fz dinterpz p 2).
  { intros p u L. destruct (len2 u L) as (a & b & ->). split; [|split; [|split]].
    - intros [|[|[|d]]] Hd; try lia; reflexivity.
    - intros [|[|[|d]]] [|[|i]] Hd Hi; try lia; cbn; ring.
    - intros sf s. unfold interpz. cbn. ring.
    - intros sf s [|[|[|d]]] Hd; try lia; unfold interpz; cbn; ring. }
  refine (two (fun p P => jacobians_match zero add mul pdz interpz d2fz dinterpz p (i_nn P)) P0 P1 _ _); apply H.
Qed.
Lemma grid_eqs : equations_fit feqz Bz Ez grid.
Proof.
  intros p P u HP. revert p P HP. refine (two (fun p P => length u = i_nn P -> length (feqz p u) = i_NS P /\ shape (i_NS P) (i_NS P) (Bz p u) /\ shape (i_NI P) (i_NS P) (Ez p u)) P0 P1 _ _);
  intros _; (split; [reflexivity|]); split; (split; [reflexivity|repeat constructor]).
Qed.
Lemma grid_sizes : grid_fits grid.
Proof. unfold grid_fits. cbn. split; [lia|]. repeat constructor; cbn; lia. Qed.
Lemma grid_affine : equations_affine zero add sub mul feqz Bz Ez grid.
Proof.
  intros p P u v HP Lu Lv. revert p P HP Lu Lv.
  refine (two (fun p P => length u = i_nn P -> length v = i_nn P -> Bz p u = Bz p v /\ Ez p u = Ez p v /\
    forall r, r < i_NS P -> sub (ent zero (feqz p u) r) (ent zero (feqz p v) r) =
      linear_row zero add mul P (Bz p u) (Ez p u) (map (fun n => sub (ent zero u n) (ent zero v n)) (seq 0 (i_nn P))) r) P0 P1 _ _);
  intros Lu Lv; destruct (len2 u Lu) as (a & b & ->); destruct (len2 v Lv) as (c & d & ->); (split; [reflexivity|]); (split; [reflexivity|]);
  intros [|r] Hr; cbn in Hr; try lia; unfold linear_row, feqz, ent; cbn; ring.
Qed.
End Grid.

Definition zgrid : list (ipatch Z) := grid 0%Z 1%Z.
Definition zpd := pdz 0%Z Z.sub.
Definition zinterp := interpz 0%Z.
Definition zd2f := d2fz 0%Z 1%Z Z.opp.
Definition zdinterp := dinterpz 0%Z 1%Z Z.opp.
Definition zfeq := feqz 0%Z Z.add Z.sub 11%Z 1%Z.
Definition zB := @Bz Z 1%Z.
Definition zE := @Ez Z 1%Z Z.opp.
Lemma ZRT : ring_theory 0%Z 1%Z Z.add Z.mul Z.sub Z.opp eq.
Proof. apply Zth. Qed.
(** the solution is 5, 6 | 6, 7 *)
Definition cands : list (list Z) := [[1]; [-1]; [-8]; [-4; -2]; [8]; [4; 2]]%Z.
Definition us0 : list (list Z) := [[1; 2]; [4; 4]]%Z.
