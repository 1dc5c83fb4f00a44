(** NewtonSpec.v - what one Newton step must do to the fields, independently of how it is computed. *)
From Verif Require Import Base TextModel MatrixModel MatrixSpec SchurModel SchurSpec SewModel SewSpec NewtonModel.

Section Spec.
Context {F : Type} (zero one : F) (add sub mul : F -> F -> F) (opp : F -> F).
Context (pd : nat -> nat -> list F -> list F) (interp : nat -> sface F -> nat -> list F -> F).
Context (feq : nat -> list F -> list F) (Bj Ej : nat -> list F -> list (list F)).
Notation sumF := (sumF zero add).
Notation ent := (ent zero).
Notation entry := (entry zero).

(** the columns and matrices have the sizes the solver allocates *)
Definition equations_fit (ps : list (ipatch F)) : Prop :=
  forall p P u, nth_error ps p = Some P -> List.length u = i_nn P ->
    List.length (feq p u) = i_NS P /\ shape (i_NS P) (i_NS P) (Bj p u) /\ shape (i_NI P) (i_NS P) (Ej p u).
(** the sizes fit the int compressed format *)
Definition grid_fits (ps : list (ipatch F)) : Prop :=
  let N := list_sum (map i_NI ps) in
  (Z.of_nat N < 2147483647)%Z /\
  Forall (fun P => (Z.of_nat (i_NS P) * Z.of_nat (i_NS P) <= 2147483647)%Z /\ (Z.of_nat N * Z.of_nat (i_NS P) <= 2147483647)%Z /\
                   (Z.of_nat N * Z.of_nat (i_NI P) <= 2147483647)%Z) ps.

(** row r of the matrices (B,E) of patch P applied to the field d *)
Definition linear_row (P : ipatch F) (B E : list (list F)) (d : list F) (r : nat) : F :=
  add (sumF (i_NS P) (fun c => mul (entry B r c) (ent d (nth c (i_inv P) 0))))
      (sumF (i_NI P) (fun i => mul (entry E i r) (ent d (nth i (i_Iinv P) 0)))).

(** the fields us' are us - lambda d, where d solves the equations linearised at us: B d + E d = f in every patch, and the
    jumps of d across the interfaces are those of us *)
Definition newton_correction (lambda : F) (ps : list (ipatch F)) (us us' ds : list (list F)) : Prop :=
  fields_fit ps ds /\ fields_fit ps us' /\
  (forall p P, nth_error ps p = Some P ->
     (forall n, n < i_nn P -> ent (nth p us' []) n = sub (ent (nth p us []) n) (mul lambda (ent (nth p ds []) n))) /\
     (forall r, r < i_NS P -> linear_row P (Bj p (nth p us [])) (Ej p (nth p us [])) (nth p ds []) r = ent (feq p (nth p us [])) r)) /\
  make_g_all zero one add mul opp pd interp ps ds = make_g_all zero one add mul opp pd interp ps us.

(** the equations are affine with constant matrices *)
Definition equations_affine (ps : list (ipatch F)) : Prop :=
  forall p P u v, nth_error ps p = Some P -> List.length u = i_nn P -> List.length v = i_nn P ->
    Bj p u = Bj p v /\ Ej p u = Ej p v /\
    forall r, r < i_NS P -> sub (ent (feq p u) r) (ent (feq p v) r) =
      linear_row P (Bj p u) (Ej p u) (map (fun n => sub (ent u n) (ent v n)) (seq 0 (i_nn P))) r.
(** c^k *)
Fixpoint power (c : F) (k : nat) : F := match k with 0 => one | S k => mul c (power c k) end.
End Spec.
