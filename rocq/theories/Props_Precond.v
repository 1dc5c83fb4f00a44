(** Props_Precond.v - property theorem C37 (matrix inversion by columns and the Gauss-Seidel preconditioner). *)
From Verif Require Import RealBase PrecondModel PrecondProofs.

(** C37. With a linear solver that does solve (the contract of UMFPACK), inverting gives a right inverse, which is
    the inverse; and preconditioning a x = b keeps exactly the set of solutions, for every size, matrix with non-zero diagonal
    and right-hand side. *)
Theorem C37_precondition :
  (forall solve n M, solver_ok solve n M -> forall i c, (i < n)%nat -> (c < n)%nat ->
     Rsum n (fun k => M i k * invert_matrix solve n M k c) = if Nat.eqb i c then 1 else 0) /\
  (forall solve n M, solver_ok solve n M ->
     forall N, (forall i j, (i < n)%nat -> (j < n)%nat -> Rsum n (fun k => N i k * M k j) = if Nat.eqb i j then 1 else 0) ->
     forall i j, (i < n)%nat -> (j < n)%nat -> invert_matrix solve n M i j = N i j) /\
  (forall solve n a b, (forall i, (i < n)%nat -> a i i <> 0) -> solver_ok solve n (lower a) ->
     let '(a', b') := precondition solve n a b in forall x, solves n a b x <-> solves n a' b' x).
Proof. exact (conj invert_right (conj invert_left precondition_equiv)). Qed.
Print Assumptions C37_precondition.
(** The preconditioned matrix is nevertheless not the Gauss-Seidel matrix L^-1 a: rows already replaced are used in the
    later rows.  For this lower triangular a, L^-1 a is the identity, but the entry (1,0) comes out as 1/2. *)
Theorem C37_not_gauss_seidel_refuted :
  solver_ok wit_solve 2 (lower wit_a) /\ (forall i j, (i < 2)%nat -> (j < 2)%nat -> lower wit_a i j = wit_a i j) /\
  fst (precondition wit_solve 2 wit_a (fun _ => 1)) 1%nat 0%nat = /2.
Proof. exact (conj wit_ok (conj wit_lower wit_not)). Qed.
Print Assumptions C37_not_gauss_seidel_refuted.
Example C37_ex : (forall i, (i < 2)%nat -> wit_a i i <> 0) /\ solver_ok wit_solve 2 (lower wit_a) /\
  solves 2 wit_a (fun i => INR i + 2) (fun i => match i with O => 1 | _ => 2 end).
Proof. exact wit_ex. Qed.
