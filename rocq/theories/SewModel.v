(** SewModel.v - numbering of the nodes of a patch and assembly of the interface equations for the
    domain-decomposition solver: Src/Main/Modules/Maths/Equation_Solvings/solve_eqs_ddm_schur_complement.c.

    A subface is given by what the solver reads of it; [f_N] holds the normal vectors that populate_pair
    (:1938-1962) stores in pair->nv - they are computed from the patch, the face and the node of the owner and so are
    the same in the owner's pair and in the copy kept by the neighbour.
    UINT_MAX in Imap is [None]: a patch has fewer than 2^32-1 nodes.  Memory freeing is not modelled except where said. *)
From Verif Require Import Base TextModel MatrixModel IndexModel SchurModel.

Section Sew.
Context {F : Type} (zero one : F) (add sub mul : F -> F -> F) (opp : F -> F).

Record sface := mkSF {
  f_id : list nat; f_adjid : list nat; f_adj : nat; f_face : nat; f_sn : nat;
  f_exterF : bool; f_outerB : bool; f_innerB : bool; f_touch : bool; f_copy : bool; f_dn : bool;
  f_N : list (F * F * F) }.

(** :2746-2758 OnFace *)
Definition OnFace (n0 n1 n2 p : Z) : outcome bool :=
  do t <- ijk_to_i_j_k p n0 n1 n2;
  let '(i, j, k) := t in
  let b (x n : Z) := ((x =? u32 (n - 1)) || (x =? 0))%Z in
  Ok (b i n0 || b j n1 || b k n2).

(** :1993-2118 make_map_and_inv.  map and inv are malloc'ed: their contents are arguments. *)
Record mst := mkMst { m_map : list nat; m_inv : list nat; m_flag : list bool; m_j : nat }.
Definition put (i : nat) (s : mst) : outcome mst :=
  do mp <- wr (m_map s) i (m_j s);
  do iv <- wr (m_inv s) (m_j s) i;
  do fl <- wr (m_flag s) i true;
  Ok (mkMst mp iv fl (m_j s + 1)).
Definition fill_inner (n0 n1 n2 nn : nat) (s : mst) : outcome mst :=
  ofold (fun i s => do o <- OnFace (Z.of_nat n0) (Z.of_nat n1) (Z.of_nat n2) (Z.of_nat i);
                    if o then Ok s else put i s) (seq 0 nn) s.
Definition fill_boundary (sfs : list sface) (s : mst) : outcome mst :=
  ofold (fun sf s =>
    if f_outerB sf || f_innerB sf then
      ofold (fun i s => do b <- rd (m_flag s) i; if b then Ok s else put i s) (f_id sf) s
    else Ok s) sfs s.
Definition fill_interface (sfs : list sface) (s : mst * (list (option nat) * list nat * nat)) : outcome (mst * (list (option nat) * list nat * nat)) :=
  ofold (fun sf s =>
    if negb (f_exterF sf) then Abort
    else if f_innerB sf then Ok s
    else if f_outerB sf then Ok s
    else ofold (fun i s =>
      let '(s, (im, ii, j2)) := s in
      do b <- rd (m_flag s) i;
      if b then Ok (s, (im, ii, j2)) else
      do mp <- wr (m_map s) i (m_j s);
      do iv <- wr (m_inv s) (m_j s) i;
      do im' <- wr im i (Some j2);
      do ii' <- wr ii j2 i;
      do fl <- wr (m_flag s) i true;
      Ok (mkMst mp iv fl (m_j s + 1), (im', ii', j2 + 1))) (f_id sf) s) sfs s.
Record smap := mkSmap { s_map : list nat; s_inv : list nat; s_Oi : nat; s_NS : nat; s_NI : nat; s_Imap : list (option nat); s_Iinv : list nat }.
Definition make_map_and_inv (n0 n1 n2 nn : nat) (closed : bool) (sfs : list sface) (map0 inv0 : list nat) : outcome smap :=
  if closed then Abort else
  do s1 <- fill_inner n0 n1 n2 nn (mkMst map0 inv0 (repeat false nn) 0);
  do s2 <- fill_boundary sfs s1;
  let NI := nn - m_j s2 in
  do s3 <- fill_interface sfs (s2, (repeat None nn, repeat 0 NI, 0));
  let '(s3, (im, ii, _)) := s3 in
  if negb (m_j s3 =? nn) then Abort else
  Ok (mkSmap (m_map s3) (m_inv s3) (m_j s1) (m_j s2) NI im ii).

(** what the solver knows of one patch when it makes g, F and C *)
Record ipatch := mkIP { i_NS : nat; i_NI : nat; i_inv : list nat; i_Iinv : list nat; i_Imap : list (option nat); i_faces : list sface }.

(** :1844-1886 make_its_sewing (patch p, its own subfaces) and :1888-1928 make_others_sewing (the subfaces of
    patch2 that touch patch p): the subfaces of the pairs, in order; a null sewing is the empty list *)
Definition sewing_of (p q : nat) (faces : list sface) : outcome (list sface) :=
  if existsb (fun sf => negb (f_exterF sf)) faces then Abort else
  Ok (filter (fun sf => negb (f_innerB sf) && negb (f_outerB sf) && ((p =? q) || (f_adj sf =? p))) faces).

(** the linear operations on the field of a patch: [pd p d u] is Partial_Derivative of the values u in direction d,
    [interp p sf s v] the interpolation of v (plan_interpolation, execute_interpolation) at the s-th point of subface sf;
    [d2f p d i j] is d2f_dxdu_Jacobian and [dinterp p sf k s j] the function got by get_dInterp_df
    (k = 0: "none", 1,2,3: "x","y","z derivative") *)
Context (pd : nat -> nat -> list F -> list F) (interp : nat -> sface -> nat -> list F -> F)
        (d2f : nat -> nat -> nat -> nat -> F) (dinterp : nat -> sface -> nat -> nat -> nat -> F).
Definition ndot (N : F * F * F) (a b c : F) : F := let '(n0, n1, n2) := N in add (add (mul n0 a) (mul n1 b)) (mul n2 c).
Definition mone : F := opp one.

(** :2273-2331 pg_collocation; pg is calloc'ed and each entry gets one += *)
Definition pg_collocation (p q : nat) (u : list F) (sf : sface) : outcome (list F) :=
  let node := if p =? q then f_id sf else f_adjid sf in
  if f_dn sf then
    let sign := if p =? q then mone else one in
    omap (fun s => do N <- rd (f_N sf) s; do n <- rd node s;
                   do a <- rd (pd p 0 u) n; do b <- rd (pd p 1 u) n; do c <- rd (pd p 2 u) n;
                   Ok (add zero (mul sign (ndot N a b c)))) (seq 0 (List.length (f_id sf)))
  else
    let sign := if p =? q then one else mone in
    omap (fun s => do n <- rd node s; do a <- rd u n; Ok (add zero (mul sign a))) (seq 0 (List.length (f_id sf))).
(** :2337-2469 pg_interpolation *)
Definition pg_interpolation (p q : nat) (u : list F) (sf : sface) : outcome (list F) :=
  if f_dn sf then
    if p =? q then
      omap (fun s => do N <- rd (f_N sf) s; do n <- rd (f_id sf) s;
                     do a <- rd (pd p 0 u) n; do b <- rd (pd p 1 u) n; do c <- rd (pd p 2 u) n;
                     Ok (add zero (mul mone (ndot N a b c)))) (seq 0 (List.length (f_id sf)))
    else
      omap (fun s => do N <- rd (f_N sf) s;
                     Ok (add zero (mul one (ndot N (interp p sf s (pd p 0 u)) (interp p sf s (pd p 1 u)) (interp p sf s (pd p 2 u))))))
           (seq 0 (List.length (f_id sf)))
  else
    if p =? q then omap (fun s => do n <- rd (f_id sf) s; do a <- rd u n; Ok (add zero (mul one a))) (seq 0 (List.length (f_id sf)))
    else omap (fun s => Ok (add zero (mul mone (interp p sf s u)))) (seq 0 (List.length (f_id sf))).
(** :2236-2270 make_pg: the pair of subface sf (owned by patch q) seen by patch p *)
Definition make_pg (p q : nat) (u : list F) (sf : sface) : outcome (list F) :=
  if negb (f_exterF sf) then Abort
  else if f_innerB sf then Abort
  else if f_outerB sf then Abort
  else if f_touch sf && f_copy sf then pg_collocation p q u sf
  else pg_interpolation p q u sf.

(** :1767-1791 mirror_pairs and :1793-1816 find_pair_in_sewing, for a pair of patch p: the same subface in the
    sewing that the adjacent patch keeps for p.  An empty (null) sewing is dereferenced; assert(pair->mirror) *)
Definition find_pair (l : list sface) (sf : sface) : option sface :=
  find (fun s => (f_face s =? f_face sf) && (f_sn s =? f_sn sf)) l.
Definition mirror (p : nat) (faces : list sface) (sf : sface) : outcome sface :=
  do l <- sewing_of (f_adj sf) p faces;
  match l with
  | [] => UB
  | _ => match find_pair l sf with Some m => Ok m | None => Abort end
  end.

(** :1514-1565 make_g for patch q (make_partial_g, :2211-2232, has made the partial g's of every patch).
    When the adjacent patch is the patch itself the pair is its own mirror and its pg is freed twice.
    Without sewing g is not allocated: None. *)
Definition make_g (ps : list (ipatch * list F)) (q : nat) : outcome (option (list F)) :=
  do Qu <- rd ps q;
  let '(Q, uq) := Qu in
  do own <- sewing_of q q (i_faces Q);
  match own with
  | [] => Ok None
  | _ =>
      do g <- ofold (fun sf g =>
          do m <- mirror q (i_faces Q) sf;
          do Au <- rd ps (f_adj sf);
          if f_adj sf =? q then UB else
          do pg1 <- make_pg q q uq sf;
          do pg2 <- make_pg (f_adj sf) q (snd Au) m;
          ofold (fun s g =>
            do n <- rd (f_id sf) s; do im <- rd (i_Imap Q) n;
            match im with
            | None => Ok g
            | Some i => do a <- rd pg1 s; do b <- rd pg2 s; do o <- rd g i; wr g i (add o (add a b))
            end) (seq 0 (List.length (f_id sf))) g) own (repeat zero (i_NI Q));
      Ok (Some g)
  end.

(** the blocks F[q] and C[q] while they are filled: F a row-major array with NS columns, C an array of rows *)
Definition addF (ncol i k : nat) (v : F) (A : list F) : outcome (list F) :=
  do o <- rd A (k + ncol * i); wr A (k + ncol * i) (add o v).
Definition addC (i k : nat) (v : F) (A : list (list F)) : outcome (list (list F)) :=
  do o <- rd2 A i k; wr2z A (Z.of_nat i) k (add o v).
(** the two inner loops of :1115-1138, :1162-1182, :1225-1238, :1310-1330: row i gets vF(node) at the subdomain nodes and
    the same function at the interface nodes *)
Definition add_row (P : ipatch) (i : nat) (v : nat -> F) (FC : list F * list (list F)) : outcome (list F * list (list F)) :=
  let '(A, C) := FC in
  do A' <- ofold (fun k A => do n <- rd (i_inv P) k; addF (i_NS P) i k (v n) A) (seq 0 (i_NS P)) A;
  do C' <- ofold (fun k C => do n <- rd (i_Iinv P) k; addC i k (v n) C) (seq 0 (i_NI P)) C;
  Ok (A', C').

(** :1069-1242 fill_C_F_interpolation: patch p (data P), pair of subface sf owned by patch q (interface map ImapQ) *)
Definition fill_C_F_interpolation (p q : nat) (P : ipatch) (ImapQ : list (option nat)) (sf : sface) (FC : list F * list (list F))
  : outcome (list F * list (list F)) :=
  let np := List.length (f_id sf) in
  if f_dn sf then
    if p =? q then
      ofold (fun s FC => do N <- rd (f_N sf) s; do n <- rd (f_id sf) s; do im <- rd ImapQ n;
        match im with
        | None => Ok FC
        | Some i => add_row P i (fun j => mul mone (ndot N (d2f p 0 n j) (d2f p 1 n j) (d2f p 2 n j))) FC
        end) (seq 0 np) FC
    else
      ofold (fun s FC => do N <- rd (f_N sf) s; do n <- rd (f_id sf) s; do im <- rd ImapQ n;
        match im with
        | None => Ok FC
        | Some i => add_row P i (fun j => mul one (ndot N (dinterp p sf 1 s j) (dinterp p sf 2 s j) (dinterp p sf 3 s j))) FC
        end) (seq 0 np) FC
  else
    if p =? q then
      ofold (fun s (FC : list F * list (list F)) => do n <- rd (f_id sf) s; do im <- rd ImapQ n;
        match im with
        | None => Ok FC
        | Some i => let '(A, C) := FC in do C' <- addC i i one C; Ok (A, C')
        end) (seq 0 np) FC
    else
      ofold (fun s FC => do n <- rd (f_id sf) s; do im <- rd ImapQ n;
        match im with
        | None => Ok FC
        | Some i => add_row P i (fun j => mul mone (dinterp p sf 0 s j)) FC
        end) (seq 0 np) FC.
(** :1245-1368 fill_C_F_collocation; C[i2][UINT_MAX] is out of bounds (:1360-1364) *)
Definition fill_C_F_collocation (p q : nat) (P : ipatch) (ImapQ : list (option nat)) (sf : sface) (FC : list F * list (list F))
  : outcome (list F * list (list F)) :=
  let np := List.length (f_id sf) in
  let node1 := if p =? q then f_id sf else f_adjid sf in
  if f_dn sf then
    let sign := if p =? q then mone else one in
    ofold (fun s FC => do N <- rd (f_N sf) s; do n2 <- rd (f_id sf) s; do im <- rd ImapQ n2;
      match im with
      | None => Ok FC
      | Some i2 => do n <- rd node1 s;
                   add_row P i2 (fun j => mul sign (ndot N (d2f p 0 n j) (d2f p 1 n j) (d2f p 2 n j))) FC
      end) (seq 0 np) FC
  else
    let sign := if p =? q then one else mone in
    ofold (fun s (FC : list F * list (list F)) => do n2 <- rd (f_id sf) s; do im <- rd ImapQ n2;
      match im with
      | None => Ok FC
      | Some i2 => do n1 <- rd node1 s; do im1 <- rd (i_Imap P) n1;
          match im1 with
          | None => UB
          | Some i1 => let '(A, C) := FC in do C' <- addC i2 i1 (mul sign one) C; Ok (A, C')
          end
      end) (seq 0 np) FC.
(** :1029-1066 populate_F_and_C *)
Definition populate_F_and_C (p q : nat) (P : ipatch) (ImapQ : list (option nat)) (sf : sface) (FC : list F * list (list F))
  : outcome (list F * list (list F)) :=
  if negb (f_exterF sf) then Abort
  else if f_innerB sf then Abort
  else if f_outerB sf then Abort
  else if f_touch sf && f_copy sf then fill_C_F_collocation p q P ImapQ sf FC
  else fill_C_F_interpolation p q P ImapQ sf FC.
(** :938-985 making_F_and_C, the blocks of patch p towards patch q.  alloc_matrix returns null for an empty matrix and
    Schur->F[ppn]->col dereferences it. *)
Definition making_F_and_C (ps : list ipatch) (p q : nat) : outcome (option (matrix F) * option (matrix F)) :=
  do P <- rd ps p; do Q <- rd ps q;
  do l <- sewing_of p q (i_faces Q);
  match l with
  | [] => Ok (None, None)
  | _ =>
      if (i_NI Q =? 0) || (i_NS P =? 0) || (i_NI P =? 0) then UB else
      do FC <- ofold (populate_F_and_C p q P (i_Imap Q)) l
                 (repeat zero (i_NI Q * i_NS P), repeat (repeat zero (i_NI P)) (i_NI Q));
      Ok (Some (mkM (i_NI Q) (i_NS P) (RMO (fst FC))), Some (mkM (i_NI Q) (i_NI P) (REG (snd FC))))
  end.
(** the loop over the sewings of patch p, :954-979 *)
Definition F_and_C (ps : list ipatch) (p : nat) : outcome (list (option (matrix F)) * list (option (matrix F))) :=
  do l <- omap (making_F_and_C ps p) (seq 0 (List.length ps));
  Ok (map fst l, map snd l).
(** :990-1027 making_F_and_C_Regular (used by test_Jacobian): F is allocated as REG, so that the row-major array that
    the fill functions write through is null: a null array is the empty list *)
Definition making_F_and_C_Regular (ps : list ipatch) (p q : nat) : outcome (option (list (list F)) * option (list (list F))) :=
  do P <- rd ps p; do Q <- rd ps q;
  do l <- sewing_of p q (i_faces Q);
  match l with
  | [] => Ok (None, None)
  | _ =>
      if (i_NI Q =? 0) || (i_NS P =? 0) || (i_NI P =? 0) then UB else
      do FC <- ofold (populate_F_and_C p q P (i_Imap Q)) l ([], repeat (repeat zero (i_NI P)) (i_NI Q));
      Ok (Some (repeat (repeat zero (i_NS P)) (i_NI Q)), Some (snd FC))
  end.

(** :1628-1655 checks_and_constraints: per patch (outerB, innerB, NI) *)
Definition checks_and_constraints (l : list (bool * bool * nat)) : outcome unit :=
  do c <- ofold (fun t c => let '(o, i, n) := t in if o && i then Abort else Ok (if n =? 0 then c + 1 else c)) l 0;
  if 1 <? c then Abort else Ok tt.
End Sew.
Arguments sface F : clear implicits.
Arguments ipatch F : clear implicits.
