(** SewSpec.v - what the numbering of the nodes of a patch must be, and what the interface equations are. *)
From Verif Require Import Base TextModel MatrixModel MatrixSpec SchurModel SchurSpec SewModel.

(** node i of an n0 x n1 x n2 patch lies on one of the six faces *)
Definition on_face (n0 n1 n2 i : nat) : Prop :=
  exists a b c, a < n0 /\ b < n1 /\ c < n2 /\ i = (a * n1 + b) * n2 + c /\
    (a = 0 \/ a = n0 - 1 \/ b = 0 \/ b = n1 - 1 \/ c = 0 \/ c = n2 - 1).

Section Spec.
Context {F : Type}.
Definition on_boundary (sfs : list (sface F)) (i : nat) : Prop :=
  exists sf, In sf sfs /\ (f_outerB sf = true \/ f_innerB sf = true) /\ In i (f_id sf).
Definition on_some_subface (sfs : list (sface F)) (i : nat) : Prop := exists sf, In sf sfs /\ In i (f_id sf).

(** the numbering: map and inv are inverse permutations of the nodes; the nodes off the faces come first in their old
    order, then the nodes of the inner and outer boundary, then the interface nodes; Imap and Iinv are the same
    numbering restricted to the interface *)
Record numbering (n0 n1 n2 nn : nat) (sfs : list (sface F)) (m : smap) : Prop := {
  nb_len : List.length (s_map m) = nn /\ List.length (s_inv m) = nn /\ List.length (s_Imap m) = nn /\ List.length (s_Iinv m) = s_NI m;
  nb_sum : s_Oi m <= s_NS m /\ s_NS m + s_NI m = nn;
  nb_inv : forall k, k < nn -> nth k (s_inv m) 0 < nn /\ nth (nth k (s_inv m) 0) (s_map m) 0 = k;
  nb_map : forall i, i < nn -> nth i (s_map m) 0 < nn /\ nth (nth i (s_map m) 0) (s_inv m) 0 = i;
  nb_inner : forall i, i < nn -> (nth i (s_map m) 0 < s_Oi m <-> ~ on_face n0 n1 n2 i);
  nb_order : forall k l, k < l -> l < s_Oi m -> nth k (s_inv m) 0 < nth l (s_inv m) 0;
  nb_bdry : forall i, i < nn -> (s_Oi m <= nth i (s_map m) 0 < s_NS m <-> on_face n0 n1 n2 i /\ on_boundary sfs i);
  nb_Imap : forall i, i < nn -> nth i (s_Imap m) None = if nth i (s_map m) 0 <? s_NS m then None else Some (nth i (s_map m) 0 - s_NS m);
  nb_Iinv : forall k, k < s_NI m -> nth k (s_Iinv m) 0 = nth (s_NS m + k) (s_inv m) 0 }.
End Spec.

(** *** the interface equations *)
Section Interface.
Context {F : Type} (zero one : F) (add sub mul : F -> F -> F) (opp : F -> F).
Context (pd : nat -> nat -> list F -> list F) (interp : nat -> sface F -> nat -> list F -> F)
        (d2f : nat -> nat -> nat -> nat -> F) (dinterp : nat -> sface F -> nat -> nat -> nat -> F).
Notation sumF := (sumF zero add).

(** the Jacobian functions are the derivatives of the linear operations on a patch with [nn] nodes *)
Definition jacobians_match (p nn : nat) : Prop :=
  forall u, List.length u = nn ->
    (forall d, d < 3 -> List.length (pd p d u) = nn) /\
    (forall d i, d < 3 -> i < nn -> ent zero (pd p d u) i = sumF nn (fun j => mul (d2f p d i j) (ent zero u j))) /\
    (forall sf s, interp p sf s u = sumF nn (fun j => mul (dinterp p sf 0 s j) (ent zero u j))) /\
    (forall sf s d, d < 3 -> interp p sf s (pd p d u) = sumF nn (fun j => mul (dinterp p sf (S d) s j) (ent zero u j))).

Definition i_nn (P : ipatch F) : nat := i_NS P + i_NI P.
Definition is_interface (sf : sface F) : bool := negb (f_innerB sf) && negb (f_outerB sf).
(** the numbering of a patch, as make_map_and_inv makes it *)
Record patch_numbered (P : ipatch F) : Prop := {
  pn_NS : 0 < i_NS P; pn_NI : 0 < i_NI P;
  pn_inv : i_NS P <= List.length (i_inv P); pn_Iinv : List.length (i_Iinv P) = i_NI P;
  pn_Imap : List.length (i_Imap P) = i_nn P;
  pn_nodup : NoDup (firstn (i_NS P) (i_inv P) ++ i_Iinv P);
  pn_lt : Forall (fun i => i < i_nn P) (firstn (i_NS P) (i_inv P) ++ i_Iinv P);
  pn_some : forall i k, nth i (i_Imap P) None = Some k -> k < i_NI P /\ nth k (i_Iinv P) 0 = i }.
(** the interface subfaces of patch q of the grid: they lead to another patch of the grid, the nodes exist, the
    normals and the neighbour's nodes are there when they are needed; a collocated point of a continuity condition that is an
    interface node here is one there too; face and subface number identify a subface *)
Record faces_ok (ps : list (ipatch F)) (q : nat) (Q : ipatch F) : Prop := {
  fo_ext : Forall (fun sf => f_exterF sf = true) (i_faces Q);
  fo_some : exists sf, In sf (i_faces Q) /\ is_interface sf = true;
  fo_key : forall a b, In a (i_faces Q) -> In b (i_faces Q) -> is_interface a = true -> is_interface b = true ->
     f_face a = f_face b -> f_sn a = f_sn b -> a = b;
  fo_face : forall sf, In sf (i_faces Q) -> is_interface sf = true ->
     f_adj sf <> q /\ Forall (fun i => i < i_nn Q) (f_id sf) /\ (f_dn sf = true -> List.length (f_id sf) <= List.length (f_N sf)) /\
     exists A, nth_error ps (f_adj sf) = Some A /\
       (f_touch sf && f_copy sf = true -> List.length (f_id sf) <= List.length (f_adjid sf) /\ Forall (fun i => i < i_nn A) (f_adjid sf) /\
          (f_dn sf = false -> forall s, s < List.length (f_id sf) -> nth (nth s (f_id sf) 0) (i_Imap Q) None <> None ->
             nth (nth s (f_adjid sf) 0) (i_Imap A) None <> None)) }.
Definition grid_sewn (ps : list (ipatch F)) : Prop :=
  forall q Q, nth_error ps q = Some Q -> patch_numbered Q /\ faces_ok ps q Q.

(** one field per patch, with a value at each node *)
Definition fields_fit (ps : list (ipatch F)) (us : list (list F)) : Prop :=
  List.length us = List.length ps /\ forall p P u, nth_error ps p = Some P -> nth_error us p = Some u -> List.length u = i_nn P.

(** the condition imposed at the s-th point of subface sf of patch q: the value there minus the neighbour's value, or the neighbour's
    normal derivative minus the one there.  The neighbour's value is at its own node if the points are collocated, else interpolated. *)
Definition dotN (N : F * F * F) (v : nat -> F) : F := add (add (mul (fst (fst N)) (v 0)) (mul (snd (fst N)) (v 1))) (mul (snd N) (v 2)).
Definition jump (us : list (list F)) (q : nat) (sf : sface F) (s : nat) : F :=
  let a := f_adj sf in let u := nth q us [] in let v := nth a us [] in let N := nth s (f_N sf) (zero, zero, zero) in
  let here w := ent zero w (nth s (f_id sf) 0) in
  let there w := if f_touch sf && f_copy sf then ent zero w (nth s (f_adjid sf) 0) else interp a sf s w in
  if f_dn sf then sub (dotN N (fun d => there (pd a d v))) (dotN N (fun d => here (pd q d u)))
  else sub (here u) (there v).
(** the sum of h over the points of the interface subfaces of Q whose node has interface number i *)
Definition at_interface (Q : ipatch F) (i : nat) (h : sface F -> nat -> F) : F :=
  fold_left (fun t sf => add t (sumF (List.length (f_id sf)) (fun s =>
     match nth (nth s (f_id sf) 0) (i_Imap Q) None with Some k => if k =? i then h sf s else zero | None => zero end))) (filter is_interface (i_faces Q)) zero.

(** the values of a field at the subdomain and at the interface nodes of a patch *)
Definition restrict (P : ipatch F) (u : list F) : list F * list F :=
  (map (fun k => ent zero u (nth k (i_inv P) 0)) (seq 0 (i_NS P)), map (fun k => ent zero u (nth k (i_Iinv P) 0)) (seq 0 (i_NI P))).
End Interface.
