(** PrecondModel.v - matrix inversion by columns and the Gauss-Seidel preconditioner. *)
From Verif Require Import RealBase.

(** A regular (REG_SF) matrix and a vector: A->reg->A[i][j], b[i]. *)
Definition mat := nat -> nat -> R.
Definition vec := nat -> R.
Definition upd (f : vec) (i : nat) (x : R) : vec := fun k => if Nat.eqb k i then x else f k.
Definition upd2 (f : mat) (i j : nat) (x : R) : mat :=
  fun r c => if Nat.eqb r i && Nat.eqb c j then x else f r c.
(** for (i = 0; i < n; ++i) s = body(i,s); *)
Fixpoint loop {S} (n : nat) (body : nat -> S -> S) (s : S) : S :=
  match n with O => s | S m => body m (loop m body s) end.

(** matrix_inversions.c:20-90 invert_matrix.  UMFPACK is not modelled: [solve M e] is what
    umfpack_di_solve(UMFPACK_A,..) returns for the matrix M and right-hand side e.
    The vector ej is reused: its entry c is set to 1 before and to 0 after the solve. *)
Definition invert_matrix (solve : mat -> vec -> vec) (n : nat) (M : mat) : mat :=
  fst (loop n (fun c '(inv, ej) =>
        let ej1 := upd ej c 1 in
        let x := solve M ej1 in
        (loop n (fun r inv => upd2 inv r c (x r)) inv, upd ej1 c 0))
      (fun _ _ => 0, fun _ => 0)).

(** preconditioners.c:24-28: the lower part of a, diagonal included (alloc_matrix zeroes the rest) *)
Definition lower (a : mat) : mat := fun i j => if Nat.leb j i then a i j else 0.

(** preconditioners.c:34-55: rows are overwritten in place, i ascending.  The matrix is square
    (A->row = A->col = n). *)
Definition GS_sweep (n : nat) (invl : mat) (a : mat) (b : vec) : mat * vec :=
  loop n (fun i '(a, b) =>
     let a' := loop n (fun j a => upd2 a i j (Rsum n (fun k => invl i k * a k j))) a in
     let b_new := Rsum n (fun k => invl i k * b k) in
     (a', upd b i b_new)) (a, b).

(** preconditioners.c:11-60 precondition / precondition_GS *)
Definition precondition (solve : mat -> vec -> vec) (n : nat) (a : mat) (b : vec) : mat * vec :=
  GS_sweep n (invert_matrix solve n (lower a)) a b.
