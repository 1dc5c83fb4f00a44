(** PoissonModel.v - the project Poisson0 (Src/Projects/Poissons/Poisson0): the residual and the
    Jacobian handed to the domain-decomposition solver, with the loops of the DDM_SCHUR macros of
    Src/Main/Modules/Includes/maths_equation_solvings_lib.h:108-223.
    Arrays are functions on indices, a write is an update; floating point is exact. *)
From Verif Require Import RealBase XctsSpec.
Open Scope R_scope.

(** f[i] = v and A[i][j] = v *)
Definition wr (f : nat -> R) (i : nat) (v : R) : nat -> R := fun j => if Nat.eqb j i then v else f j.
Definition wr2 (A : nat -> nat -> R) (i j : nat) (v : R) : nat -> nat -> R :=
  fun a b => if (Nat.eqb a i && Nat.eqb b j)%bool then v else A a b.
(** for (i = lo; i < hi; ++i) *)
Definition for_ {S} (lo hi : nat) (body : nat -> S -> S) (s : S) : S := fold_left (fun s i => body i s) (seq lo (hi - lo)) s.

(** the part of DDM_Schur_Complement_T and of the patch that is read; a node is a triple of coordinates *)
Record schur := mkS { Oi : nat; NS : nat; NI : nat; map_ : nat -> nat; inv_ : nat -> nat }.
Record ppatch := mkPatch { nn : nat; xyz : nat -> R * R * R; outerB : bool; innerB : bool }.

(** pow(x,2) + pow(y,2) + pow(z,2) + 1 *)
Definition q2 (p : R * R * R) : R := let '(x, y, z) := p in x ^ 2 + y ^ 2 + z ^ 2 + 1.

(** poisson0_ddm_schur_eq_alpha.c:13-39 eq_alpha; alpha_xx, alpha_yy, alpha_zz are the arrays returned by
    Partial_Derivative; pow with a non-integer exponent is [Rpower] (the base is positive).
    DDM_SCHUR_EQ_OPEN: maths_equation_solvings_lib.h:196-207 *)
Definition eq_alpha (P : ppatch) (S : schur) (axx ayy azz : nat -> R) (F : nat -> R) : nat -> R :=
  for_ 0 (Oi S) (fun schur_ijk F =>
    let ijk := inv_ S schur_ijk in
    wr F schur_ijk (axx ijk + ayy ijk + azz ijk + 3 * Rpower (q2 (xyz P ijk)) (- (5 / 2)))) F.

(** poisson0_ddm_schur_bc.c:13-44 bc_alpha for the boundary condition with the nodes [bc];
    DDM_SCHUR_BC_OPEN: maths_equation_solvings_lib.h:209-224 *)
Definition bc_alpha (P : ppatch) (S : schur) (bc : list nat) (alpha : nat -> R) (F : nat -> R) : nat -> R :=
  let body F ijk := wr F (map_ S ijk) (alpha ijk - Rpower (q2 (xyz P ijk)) (- (1 / 2))) in
  if outerB P then fold_left body bc F
  else if innerB P then fold_left body bc F
  else F.

(** solve_eqs_ddm_schur_complement.c:2198-2207 make_f, :2557-2599 f_in_equation_part and
    f_in_boundary_part; [bcs] are the node lists of the subfaces reaching a boundary in order, alloc_double gives zeros *)
Definition make_f (P : ppatch) (S : schur) (bcs : list (list nat)) (axx ayy azz alpha : nat -> R) : nat -> R :=
  fold_left (fun F bc => bc_alpha P S bc alpha F) bcs (eq_alpha P S axx ayy azz (fun _ => 0)).

(** poisson0_ddm_schur_jacobian_eq.c:13-51 jacobian_eq_alpha; [J2 a ijk lmn] is d3f_dx2du_Jacobian(patch,a,ijk,lmn).
    The result is (schur_B, schur_Et). Macros :117-157 *)
Definition jacobian_eq_alpha (P : ppatch) (S : schur) (J2 : nat -> nat -> nat -> R) (BE : (nat -> nat -> R) * (nat -> nat -> R)) :=
  let '(B, Et) := BE in
  let entry ijk lmn := J2 0%nat ijk lmn + J2 3%nat ijk lmn + J2 5%nat ijk lmn in
  let B := for_ 0 (Oi S) (fun i B => let ijk := inv_ S i in
             for_ 0 (NS S) (fun j B => let lmn := inv_ S j in wr2 B i j (entry ijk lmn)) B) B in
  let Et := if Nat.eqb (NI S) 0 then Et else
             for_ 0 (Oi S) (fun i Et => let ijk := inv_ S i in
               for_ (NS S) (nn P) (fun k Et => let lmn := inv_ S k in wr2 Et (k - NS S) i (entry ijk lmn)) Et) Et in
  (B, Et).

(** poisson0_ddm_schur_jacobian_bc.c:13-66 jacobian_bc_alpha. Macros :160-193 *)
Definition jacobian_bc_alpha (P : ppatch) (S : schur) (BE : (nat -> nat -> R) * (nat -> nat -> R)) :=
  let part BE :=
    let '(B, Et) := BE in
    let B := for_ (Oi S) (NS S) (fun i B => let ijk := inv_ S i in
               for_ 0 (NS S) (fun j B => let lmn := inv_ S j in wr2 B i j (krd ijk lmn)) B) B in
    let Et := if Nat.eqb (NI S) 0 then Et else
               for_ (Oi S) (NS S) (fun i Et => let ijk := inv_ S i in
                 for_ (NS S) (nn P) (fun k Et => let lmn := inv_ S k in wr2 Et (k - NS S) i 0) Et) Et in
    (B, Et) in
  if outerB P then part BE else if innerB P then part BE else BE.

(** solve_eqs_ddm_schur_complement.c:1470-1494 making_B_and_E: zeroed matrices, then the two Jacobian functions *)
Definition making_B_and_E (P : ppatch) (S : schur) (J2 : nat -> nat -> nat -> R) :=
  jacobian_bc_alpha P S (jacobian_eq_alpha P S J2 (fun _ _ => 0, fun _ _ => 0)).

(** poisson0_initial_data.c:11-33 at a node, and poisson0_analyze.c:11-31 alpha_real *)
Definition initial_data_alpha (p : R * R * R) : R :=
  let '(x, y, z) := p in let r2 := x ^ 2 + y ^ 2 + z ^ 2 in 1 / sqrt (r2 + 1) + 1 / 10 * exp (- sqrt r2).
Definition alpha_real (p : R * R * R) : R :=
  let '(x, y, z) := p in 1 / sqrt (x ^ 2 + y ^ 2 + z ^ 2 + 1).
