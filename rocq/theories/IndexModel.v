(** IndexModel.v - index arithmetic, and the loops that run the 1-d transforms over the lines of a patch.
    Sources: Src/Main/Modules/Includes/utilities_lib.h (macros and inline function), Src/Main/Modules/Utilities/useful_functions.c,
    Src/Main/Modules/Fields/field.c (coeffs_patch_Tn_Extrema_1d, coeffs_patch_Tn_Nodes_1d). *)
From Verif Require Import Base.

(** Uint is 32 bit unsigned: arithmetic modulo 2^32 *)
Definition u32 (z : Z) : Z := (z mod 4294967296)%Z.

Open Scope Z_scope.
(** i_j_to_ij_row_major_order, utilities_lib.h:9 *)
Definition i_j_to_ij (nj i j : Z) : Z := u32 (j + u32 (nj * i)).
(** i_j_k_to_ijk_row_major_order, utilities_lib.h:12-13 *)
Definition i_j_k_to_ijk (n0 n1 n2 i j k : Z) : Z := u32 (k + u32 (n2 * u32 (j + u32 (n1 * i)))).
(** ijk_to_i_j_k_row_major_order, utilities_lib.h:141-149; division by zero is UB *)
Definition ijk_to_i_j_k (l n0 n1 n2 : Z) : outcome (Z * Z * Z) :=
  if (u32 (n2 * n1) =? 0) || (n2 =? 0) then UB
  else let tmp := l mod (u32 (n2 * n1)) in Ok (l / u32 (n2 * n1), tmp / n2, tmp mod n2).
(** ijk_to_i/j/k_row_major_order, useful_functions.c:32-53 *)
Definition ijk_to_i (l n0 n1 n2 : Z) : outcome Z := if u32 (n2 * n1) =? 0 then UB else Ok (l / u32 (n2 * n1)).
Definition ijk_to_j (l n0 n1 n2 : Z) : outcome Z :=
  if (u32 (n2 * n1) =? 0) || (n2 =? 0) then UB else Ok ((l mod u32 (n2 * n1)) / n2).
Definition ijk_to_k (l n0 n1 n2 : Z) : outcome Z :=
  if (u32 (n2 * n1) =? 0) || (n2 =? 0) then UB else Ok ((l mod u32 (n2 * n1)) mod n2).
(** i_j_to_ij_symmetric_row_major_order, utilities_lib.h:36-37, with Uint arguments: (i)-1 wraps for i = 0 *)
Definition i_j_to_ij_symmetric (n i j : Z) : Z :=
  let f a b := u32 (u32 (u32 (n * a) - u32 (a * u32 (a - 1)) / 2) + u32 (b - a)) in
  if j >? i then f i j else f j i.
(** the same macro with int arguments (C division truncates; a*(a-1) is even and not negative) *)
Definition i_j_to_ij_symmetric_int (n i j : Z) : Z :=
  let f a b := n * a - Z.quot (a * (a - 1)) 2 + (b - a) in
  if j >? i then f i j else f j i.
(** total_nodes_patch, useful_functions.c:247-250 *)
Definition total_nodes_patch (n0 n1 n2 : Z) : Z := u32 (u32 (n0 * n1) * n2).
(** IsOnEdge, useful_functions.c:98-113 *)
Definition IsOnEdge (n0 n1 n2 p : Z) : outcome bool :=
  do t <- ijk_to_i_j_k p n0 n1 n2;
  let '(i, j, k) := t in
  let b (x n : Z) := if (x =? u32 (n - 1)) || (x =? 0) then 1 else 0 in
  Ok (b i n0 + b j n1 + b k n2 >? 1).
Close Scope Z_scope.

(** subface_map_invers_id, useful_functions.c:317-328: position of the first id equal to n, None = UINT_MAX *)
Fixpoint subface_map_invers_id (i : nat) (id : list Z) (n : Z) : option nat :=
  match id with
  | [] => None
  | x :: id' => if Z.eqb x n then Some i else subface_map_invers_id (S i) id' n
  end.

(** *** transforms along the lines of a patch (field.c:604-695 and 701-793; both functions have the same loops and differ in
    the 1-d transform).  Arrays are functions from an index; [FT] is the 1-d transform: from the number of points and the
    values on the line to the coefficients. Indices in nat: the patch has fewer than 2^32 points. *)
Section Lines.
Variable A : Type.
Variable FT : nat -> (nat -> A) -> nat -> A.
Definition upd (c : nat -> A) (l : nat) (x : A) : nat -> A := fun m => if Nat.eqb m l then x else c m.
Definition ijk (n0 n1 n2 i j k : nat) : nat := k + n2 * (j + n1 * i).
(** for (i = 0; i < m; ++i) coeffs[pos i] = out[i] *)
Fixpoint store (pos : nat -> nat) (out : nat -> A) (m : nat) (c : nat -> A) : nat -> A :=
  match m with O => c | S q => upd (store pos out q c) (pos q) (out q) end.
(** for (s = 0; s < B; ++s) ... *)
Fixpoint lines (pos : nat -> nat -> nat) (n : nat) (v : nat -> A) (B : nat) (c : nat -> A) : nat -> A :=
  match B with O => c | S s => store (pos s) (FT n (fun i => v (pos s i))) n (lines pos n v s c) end.
(** position on line s of the point number t, per direction *)
Definition line_pos (n0 n1 n2 d s t : nat) : nat :=
  match d with
  | 0 => ijk n0 n1 n2 t (s / n2) (s mod n2)
  | 1 => ijk n0 n1 n2 (s / n2) t (s mod n2)
  | _ => ijk n0 n1 n2 (s / n1) (s mod n1) t
  end.
Definition coeffs_patch_1d (n0 n1 n2 : nat) (d : nat) (v c : nat -> A) : outcome (nat -> A) :=
  match d with
  | 0 => Ok (lines (line_pos n0 n1 n2 0) n0 v (n1 * n2) c)
  | 1 => Ok (lines (line_pos n0 n1 n2 1) n1 v (n2 * n0) c)
  | 2 => Ok (lines (line_pos n0 n1 n2 2) n2 v (n0 * n1) c)
  | _ => Abort
  end.
End Lines.
