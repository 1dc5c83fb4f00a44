(** Props_Index.v - property theorems C27, C28 (index maps), C44 (transforms run over every line once), C45 (edges). *)
From Verif Require Import Base IndexModel IndexProofs.

Open Scope Z_scope.
(** C27. Point (i,j,k) -> linear index -> (i,j,k) and linear index -> point -> linear index are identities on every grid shape
    whose number of points fits in an unsigned int, and the index stays below n0*n1*n2, which is the total number of nodes. *)
Theorem C27_ijk_bijection :
  (forall n0 n1 n2 i j k, n0 * n1 * n2 <= 4294967296 -> n1 * n2 < 4294967296 -> 0 <= i < n0 -> 0 <= j < n1 -> 0 <= k < n2 ->
     ijk_to_i_j_k (i_j_k_to_ijk n0 n1 n2 i j k) n0 n1 n2 = Ok (i, j, k) /\
     ijk_to_i (i_j_k_to_ijk n0 n1 n2 i j k) n0 n1 n2 = Ok i /\ ijk_to_j (i_j_k_to_ijk n0 n1 n2 i j k) n0 n1 n2 = Ok j /\
     ijk_to_k (i_j_k_to_ijk n0 n1 n2 i j k) n0 n1 n2 = Ok k /\
     0 <= i_j_k_to_ijk n0 n1 n2 i j k < n0 * n1 * n2) /\
  (forall n0 n1 n2 l, n0 * n1 * n2 <= 4294967296 -> n1 * n2 < 4294967296 -> 0 <= n0 -> 0 <= n1 -> 0 <= n2 -> 0 <= l < n0 * n1 * n2 ->
     exists i j k, ijk_to_i_j_k l n0 n1 n2 = Ok (i, j, k) /\ 0 <= i < n0 /\ 0 <= j < n1 /\ 0 <= k < n2 /\ i_j_k_to_ijk n0 n1 n2 i j k = l) /\
  (forall n0 n1 n2, 0 <= n0 -> 0 <= n1 -> 0 < n2 -> n0 * n1 * n2 < 4294967296 -> total_nodes_patch n0 n1 n2 = n0 * n1 * n2).
Proof. exact (conj ijk_there_and_back (conj ijk_back_and_there total_nodes)). Qed.
Print Assumptions C27_ijk_bijection.
Example C27_ex : i_j_k_to_ijk 5 6 7 4 3 2 = 191 /\ ijk_to_i_j_k 191 5 6 7 = Ok (4, 3, 2).
Proof. split; reflexivity. Qed.

(** C28. The symmetric pair index: the same for (i,j) and (j,i), different for different unordered pairs, and onto
    0 .. n(n+1)/2-1. The first part is the macro on unsigned arguments, the second on int arguments. *)
Theorem C28_symmetric_pairs :
  (forall n, n * n < 4294967296 ->
     (forall i j, 0 <= i < n -> 0 <= j < n -> 0 <= i_j_to_ij_symmetric n i j < n * (n + 1) / 2) /\
     (forall i j i' j', 0 <= i < n -> 0 <= j < n -> 0 <= i' < n -> 0 <= j' < n ->
        (i_j_to_ij_symmetric n i j = i_j_to_ij_symmetric n i' j' <-> (i = i' /\ j = j') \/ (i = j' /\ j = i'))) /\
     (forall x, 0 <= n -> 0 <= x < n * (n + 1) / 2 -> exists i j, 0 <= i <= j /\ j < n /\ i_j_to_ij_symmetric n i j = x)) /\
  (forall n i j, 0 <= i < n -> 0 <= j < n -> n * n < 4294967296 -> i_j_to_ij_symmetric_int n i j = i_j_to_ij_symmetric n i j).
Proof. exact symmetric_pairs. Qed.
Print Assumptions C28_symmetric_pairs.
Example C28_ex : map (fun p => i_j_to_ij_symmetric 3 (fst p) (snd p)) [(0,0);(0,1);(0,2);(1,1);(1,2);(2,2);(2,1)] = [0;1;2;3;4;5;4].
Proof. reflexivity. Qed.

(** C45. IsOnEdge says whether at least two of the three coordinates are at an end of their range. *)
Theorem C45_edges : forall n0 n1 n2 i j k,
  n0 * n1 * n2 <= 4294967296 -> n1 * n2 < 4294967296 -> n0 < 4294967296 -> 0 <= i < n0 -> 0 <= j < n1 -> 0 <= k < n2 ->
  exists b, IsOnEdge n0 n1 n2 (i_j_k_to_ijk n0 n1 n2 i j k) = Ok b /\
  (b = true <-> ((i = 0 \/ i = n0 - 1) /\ (j = 0 \/ j = n1 - 1)) \/ ((i = 0 \/ i = n0 - 1) /\ (k = 0 \/ k = n2 - 1)) \/
               ((j = 0 \/ j = n1 - 1) /\ (k = 0 \/ k = n2 - 1))).
Proof. exact edge_spec. Qed.
Print Assumptions C45_edges.
Example C45_ex : IsOnEdge 5 6 7 (i_j_k_to_ijk 5 6 7 4 3 6) = Ok true /\ IsOnEdge 5 6 7 (i_j_k_to_ijk 5 6 7 4 3 2) = Ok false.
Proof. split; reflexivity. Qed.
Close Scope Z_scope.

(** C44. The loops of the 1-d coefficient routines apply the 1-d transform to every grid line of the chosen direction, put
    every result at its place, and touch nothing else; a direction above 2 is refused. *)
Theorem C44_line_transform :
  (forall A (FT : nat -> (nat -> A) -> nat -> A) n0 n1 n2 d v c, d < 3 ->
  exists w, coeffs_patch_1d A FT n0 n1 n2 d v c = Ok w /\
  (forall i j k, i < n0 -> j < n1 -> k < n2 ->
     w (ijk n0 n1 n2 i j k) =
     match d with
     | 0 => FT n0 (fun t => v (ijk n0 n1 n2 t j k)) i
     | 1 => FT n1 (fun t => v (ijk n0 n1 n2 i t k)) j
     | _ => FT n2 (fun t => v (ijk n0 n1 n2 i j t)) k
     end) /\
  (forall x, n0 * n1 * n2 <= x -> w x = c x)) /\
  (forall A (FT : nat -> (nat -> A) -> nat -> A) n0 n1 n2 d v c, 3 <= d -> coeffs_patch_1d A FT n0 n1 n2 d v c = Abort).
Proof. exact line_transform_all. Qed.
Print Assumptions C44_line_transform.
Example C44_ex : exists w, coeffs_patch_1d nat (fun n x i => x (n - 1 - i)) 2 3 4 1 (fun l => l) (fun _ => 99) = Ok w /\
  map w (seq 0 26) = [8;9;10;11;4;5;6;7;0;1;2;3;20;21;22;23;16;17;18;19;12;13;14;15;99;99].
Proof. eexists. split; [reflexivity|]. vm_compute. reflexivity. Qed.
