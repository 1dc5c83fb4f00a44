(** MatrixSpec.v - what the matrix properties mean, independently of the conversion code. *)
From Verif Require Import Base TextModel MatrixModel.

Section Spec.
Context {F : Type} (zero : F).

(** a dense matrix of the given shape *)
Definition shape (nr nc : nat) (A : list (list F)) : Prop :=
  List.length A = nr /\ Forall (fun l => List.length l = nc) A.
(** its entry *)
Definition entry (A : list (list F)) (r c : nat) : F := nth c (nth r A []) zero.

(** a compressed column matrix is valid (what umfpack_di_* requires, UMFPACK user guide):
    column pointers from 0 to the number of stored values, non-decreasing, row indices in
    range and strictly increasing in each column. *)
Definition ap (m : ccs F) (c : nat) : Z := nth c (Ap m) 0%Z.
Definition ai (m : ccs F) (i : Z) : Z := nth (Z.to_nat i) (Ai m) 0%Z.
Definition ax (m : ccs F) (i : Z) : F := nth (Z.to_nat i) (Ax m) zero.
Record ccs_valid (nr nc : nat) (m : ccs F) : Prop := {
  v_len   : List.length (Ap m) = nc + 1;
  v_first : ap m 0 = 0%Z;
  v_mono  : forall c, c < nc -> (ap m c <= ap m (c + 1))%Z;
  v_last  : ap m nc = Z.of_nat (List.length (Ax m));
  v_same  : List.length (Ai m) = List.length (Ax m);
  v_range : forall i, (0 <= i < Z.of_nat (List.length (Ai m)))%Z -> (0 <= ai m i < Z.of_nat nr)%Z;
  v_sorted : forall c i, c < nc -> (ap m c <= i)%Z -> (i + 1 < ap m (c + 1))%Z -> (ai m i < ai m (i + 1))%Z }.

(** the dense value a compressed matrix denotes at (r,c): the value stored with row index r
    in column c, zero if there is none *)
Definition dense (m : ccs F) (r c : nat) : F :=
  match find (fun i => ai m i =? Z.of_nat r)%Z (zrange (ap m c) (ap m (c + 1))) with
  | Some i => ax m i
  | None => zero
  end.

(** number of entries of a dense matrix that satisfy a test *)
Definition count (p : F -> bool) (A : list (list F)) : nat := List.length (filter p (List.concat A)).

(** the rows of a matrix one after the other *)
Definition rows_of (A : list (list F)) : list F := List.concat A.
End Spec.

(** init + f 0 * g 0 + f 1 * g 1 + ... + f (n-1) * g (n-1), summed from the left *)
Definition dot {F} (add mul : F -> F -> F) (init : F) (f g : nat -> F) (n : nat) : F :=
  fold_left (fun s k => add s (mul (f k) (g k))) (seq 0 n) init.

(** number of positions (r,c) of an nr x nc matrix that satisfy a test *)
Definition count2 (p : nat -> nat -> bool) (nr nc : nat) : nat :=
  List.length (filter (fun rc => p (fst rc) (snd rc)) (list_prod (seq 0 nr) (seq 0 nc))).

(** the lower right corner of a compressed matrix is stored *)
Definition corner_stored {F} (nr nc : nat) (m : ccs F) : Prop :=
  exists i, (ap m (nc - 1) <= i < ap m nc)%Z /\ ai m i = Z.of_nat (nr - 1).

(** the dense matrix a stack stands for: the first nr[i] rows of each member, a null member
    being that many zero rows *)
Definition stack_rows {F} (zero : F) (Ncol : nat) (s : list (option (matrix F) * nat)) : list (list F) :=
  List.concat (map (fun Sn => match fst Sn with
     | Some m => match sto m with REG a => firstn (snd Sn) a | _ => [] end
     | None => repeat (repeat zero Ncol) (snd Sn)
     end) s).
(** the members are regular matrices with at least nr[i] rows and the common column number *)
Definition stack_ok {F} (Ncol : nat) (s : list (option (matrix F) * nat)) : Prop :=
  Forall (fun Sn => match fst Sn with
     | Some m => match sto m with REG a => shape (row m) Ncol a /\ snd Sn <= row m | _ => False end
     | None => True
     end) s.

(** the value an entry keeps when it is stored in a sparse format: itself above the limit, zero otherwise *)
Definition kept {F} (zero : F) (grt_abs : F -> F -> bool) (lim x : F) : F := if grt_abs x lim then x else zero.

Section Spec2.
Context {F : Type} (zero : F).
(** [repr m A]: matrix m stands for the dense matrix A *)
Definition repr (m : matrix F) (A : list (list F)) : Prop :=
  shape (row m) (col m) A /\
  match sto m with
  | REG B => B = A
  | RMO l => l = List.concat A
  | CCS x => ccs_valid (row m) (col m) x /\ forall r c, (r < row m)%nat -> (c < col m)%nat -> dense zero x r c = entry zero A r c
  | _ => False
  end.
Definition same_format (a b : matrix F) : Prop :=
  match sto a, sto b with REG _, REG _ | CCS _, CCS _ | RMO _, RMO _ => True | _, _ => False end.
Definition is_rmo (a : matrix F) : Prop := match sto a with RMO _ => True | _ => False end.
Definition is_ccs (a : matrix F) : Prop := match sto a with CCS _ => True | _ => False end.
Definition is_reg (a : matrix F) : Prop := match sto a with REG _ => True | _ => False end.

(** reading (r,c) without coarse graining runs past the end of the row indices: the column is the last
    non-empty one and all its stored rows are above r *)
Definition read_oob (m : ccs F) (r c : nat) : bool :=
  (ap m (c + 1) =? Z.of_nat (List.length (Ai m)))%Z &&
  forallb (fun i => ai m i <? Z.of_nat r)%Z (zrange (ap m c) (ap m (c + 1))).
End Spec2.
