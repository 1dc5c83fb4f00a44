(** MatrixModel.v - matrices of Src/Main/Modules/Maths/Linear_Algebra and the sparse
    reader of Equation_Solvings/dfs_df.c.

    The element type [F] and its operations are parameters: [zero] is 0., [add], [sub]
    and [mul] are the C operators + - *, [grt_abs x l] is GRT(ABSd(x),l), i.e.
    |x| > l + 1e-12 (Core/core_lib.h:27-29, Includes/maths_general_lib.h:13).
    No law is assumed about them here, so the definitions also describe IEEE doubles.

    Arrays are lists; an access outside the list is UB.  Sizes (C "long", never
    negative) are [nat]; the entries of int arrays are [Z] and every cast (int) wraps
    to 32 bits. *)
From Verif Require Import Base TextModel.

(** array access *)
Definition rd {A} (l : list A) (i : nat) : outcome A :=
  match nth_error l i with Some x => Ok x | None => UB end.
Definition rdz {A} (l : list A) (z : Z) : outcome A :=
  if (z <? 0)%Z then UB else rd l (Z.to_nat z).
Fixpoint wr {A} (l : list A) (i : nat) (x : A) : outcome (list A) :=
  match l, i with
  | [], _ => UB
  | _ :: t, O => Ok (x :: t)
  | h :: t, S j => do t' <- wr t j x; Ok (h :: t')
  end.
Definition wrz {A} (l : list A) (z : Z) (x : A) : outcome (list A) :=
  if (z <? 0)%Z then UB else wr l (Z.to_nat z) x.

(** for (i = ...; ...; ++i) body, the loop variable running over a list of values *)
Fixpoint ofold {I S} (f : I -> S -> outcome S) (l : list I) (s : S) : outcome S :=
  match l with
  | [] => Ok s
  | i :: l' => do s' <- f i s; ofold f l' s'
  end.
(** lo, lo+1, ..., hi-1 *)
Definition zrange (lo hi : Z) : list Z := map (fun k => (lo + Z.of_nat k)%Z) (seq 0 (Z.to_nat (hi - lo))).

(** (int)x for a long x, two's complement as gcc does *)
Definition wrap_int (z : Z) : Z := ((z + 2147483648) mod 4294967296 - 2147483648)%Z.
(** a long stays a long *)
Definition wrap_long (z : Z) : Z := z.

Section Mat.
Context {F : Type} (zero : F) (add sub mul : F -> F -> F) (grt_abs : F -> F -> bool).

(** maths_linear_algebra_lib.h:200-224, member ccs (and ccs_long): a null pointer Ai/Ax is
    the empty list; cg is (Ap_cg, i_cg), None while those are null. *)
Record ccs := mkCcs { Ap : list Z; Ai : list Z; Ax : list F; cg : option (list Z * list Z) }.

(** maths_linear_algebra_lib.h:175-259: the format flags and the data of that format.
    OTHER stands for the formats no modelled function implements (tri, crs, tri_l,
    crs_l, none): every function below reaches Error0 on them. *)
Inductive store :=
| REG (A : list (list F))
| RMO (A : list F)
| CCS (m : ccs)
| CCSL (m : ccs)
| OTHER.
Record matrix := mkM { row : nat; col : nat; sto : store }.

Definition rd2 (m : list (list F)) (r c : nat) : outcome F := do l <- rd m r; rd l c.
Definition wr2z (m : list (list F)) (r : Z) (c : nat) (x : F) : outcome (list (list F)) :=
  do l <- rdz m r; do l' <- wr l c x; wrz m r l'.

(** matrix_memory_managers.c:12-60 alloc_matrix for REG_SF and RMO_SF; rmo allocates
    (Uint)(row*col) entries, so the size wraps at 2^32. *)
Definition alloc_reg (r c : nat) : list (list F) := repeat (repeat zero c) r.
Definition alloc_rmo (r c : nat) : list F :=
  repeat zero (Z.to_nat (Z.of_nat r * Z.of_nat c mod 4294967296)).

(** the growing arrays of convert_*2ccs; [tn] is tNN0 *)
Record build := mkB { bAp : list Z; bAi : list Z; bAx : list F; tn : Z }.
Definition push (cast : Z -> Z) (b : build) (r : Z) (x : F) : build :=
  mkB (bAp b) (bAi b ++ [cast r]) (bAx b ++ [x]) (tn b + 1).
Definition set_Ap (cast : Z -> Z) (b : build) (c : nat) : outcome build :=
  do a <- wr (bAp b) (c + 1) (cast (tn b)); Ok (mkB a (bAi b) (bAx b) (tn b)).
Definition start (nc : nat) : build := mkB (repeat 0%Z (nc + 1)) [] [] 0.
Definition finish (b : build) : ccs := mkCcs (bAp b) (bAi b) (bAx b) None.

(** matrix_conversions.c:429-463 convert_reg2ccs (cast = wrap_int) and
    :467-501 convert_reg2ccs_long (cast = wrap_long) *)
Definition convert_reg2ccs (cast : Z -> Z) (nr nc : nat) (m : list (list F)) (lim : F) : outcome ccs :=
  do b <- ofold (fun c b =>
     do b <- ofold (fun r b =>
        do x <- rd2 m r c;
        if grt_abs x lim then do y <- rd2 m r c; Ok (push cast b (Z.of_nat r) y) else Ok b)
        (seq 0 nr) b;
     set_Ap cast b c) (seq 0 nc) (start nc);
  Ok (finish b).

(** matrix_conversions.c:504-539 convert_rmo2ccs; i_j_to_ij(Nc,r,c) = c + Nc*r
    (Includes/utilities_lib.h:9,24) *)
Definition convert_rmo2ccs (nr nc : nat) (m : list F) (lim : F) : outcome ccs :=
  do b <- ofold (fun c b =>
     do b <- ofold (fun r b =>
        do x <- rd m (c + nc * r);
        if grt_abs x lim then Ok (push wrap_int b (Z.of_nat r) x) else Ok b)
        (seq 0 nr) b;
     set_Ap wrap_int b c) (seq 0 nc) (start nc);
  Ok (finish b).

(** matrix_conversions.c:289-305 convert_ccs2reg, :308-324 convert_ccs_long2reg *)
Definition convert_ccs2reg (nc : nat) (m : ccs) (a : list (list F)) : outcome (list (list F)) :=
  ofold (fun c a =>
    do lo <- rd (Ap m) c; do hi <- rd (Ap m) (c + 1);
    ofold (fun i a => do r <- rdz (Ai m) i; do x <- rdz (Ax m) i; wr2z a r c x) (zrange lo hi) a)
    (seq 0 nc) a.

(** matrix_conversions.c:330-344 copy_reg2reg: note the guard, which returns when there
    IS something to copy. *)
Definition copy_reg2reg (nr nc : nat) (m1 m2 : list (list F)) : outcome (list (list F)) :=
  if negb (nr =? 0) && negb (nc =? 0) then Ok m2
  else ofold (fun r a => ofold (fun c a => do x <- rd2 m1 r c; wr2z a (Z.of_nat r) c x) (seq 0 nc) a)
         (seq 0 nr) m2.

(** matrix_conversions.c:351-384 copy_ccs2ccs, :390-423 copy_ccs_long2ccs_long.
    The coarse-graining arrays are not copied. *)
Definition copy_ccs2ccs (nc : nat) (m : ccs) : outcome ccs :=
  do n <- rd (Ap m) nc;
  if (n <? 0)%Z then UB else
  do s <- ofold (fun c s =>
    let '(ap, ai, ax) := s in
    do lo <- rd (Ap m) c; do ap' <- wr ap c lo; do hi <- rd (Ap m) (c + 1);
    do p <- ofold (fun i p =>
       let '(ai, ax) := p in
       do r <- rdz (Ai m) i; do ai' <- wrz ai i r;
       do x <- rdz (Ax m) i; do ax' <- wrz ax i x; Ok (ai', ax')) (zrange lo hi) (ai, ax);
    Ok (ap', fst p, snd p))
    (seq 0 nc) (repeat 0%Z (nc + 1), repeat 0%Z (Z.to_nat n), repeat zero (Z.to_nat n));
  let '(ap, ai, ax) := s in
  do ap' <- wr ap nc n;
  Ok (mkCcs ap' ai ax None).

(** the value of parameter matrix_ccs_drop_below, None when there is none *)
Definition drop_limit (p : option F) : F := match p with Some l => l | None => zero end.

(** matrix_conversions.c:91-145 cast_matrix_ccs; the null result is None *)
Definition cast_matrix_ccs (p : option F) (m : matrix) : outcome (option matrix) :=
  if (row m =? 0) || (col m =? 0) then Ok None else
  match sto m with
  | REG a => do x <- convert_reg2ccs wrap_int (row m) (col m) a (drop_limit p); Ok (Some (mkM (row m) (col m) (CCS x)))
  | CCS x => do y <- copy_ccs2ccs (col m) x; Ok (Some (mkM (row m) (col m) (CCS y)))
  | RMO a => do x <- convert_rmo2ccs (row m) (col m) a (drop_limit p); Ok (Some (mkM (row m) (col m) (CCS x)))
  | _ => Abort
  end.

(** matrix_conversions.c:187-233 cast_matrix_ccs_long *)
Definition cast_matrix_ccs_long (p : option F) (m : matrix) : outcome (option matrix) :=
  if (row m =? 0) || (col m =? 0) then Ok None else
  match sto m with
  | REG a => do x <- convert_reg2ccs wrap_long (row m) (col m) a (drop_limit p); Ok (Some (mkM (row m) (col m) (CCSL x)))
  | CCSL x => do y <- copy_ccs2ccs (col m) x; Ok (Some (mkM (row m) (col m) (CCSL y)))
  | _ => Abort
  end.

(** matrix_conversions.c:152-177 cast_matrix_rmo *)
Definition cast_matrix_rmo (m : matrix) : outcome (option matrix) :=
  if (row m =? 0) || (col m =? 0) then Ok None else
  match sto m with
  | REG a =>
      do x <- ofold (fun r d => ofold (fun c d => do x <- rd2 a r c; wr d (c + col m * r) x) (seq 0 (col m)) d)
                (seq 0 (row m)) (alloc_rmo (row m) (col m));
      Ok (Some (mkM (row m) (col m) (RMO x)))
  | _ => Abort
  end.

(** matrix_conversions.c:244-286 cast_matrix_reg *)
Definition cast_matrix_reg (m : matrix) : outcome (option matrix) :=
  if (row m =? 0) || (col m =? 0) then Ok None else
  match sto m with
  | REG a => do x <- copy_reg2reg (row m) (col m) a (alloc_reg (row m) (col m)); Ok (Some (mkM (row m) (col m) (REG x)))
  | CCS y => do x <- convert_ccs2reg (col m) y (alloc_reg (row m) (col m)); Ok (Some (mkM (row m) (col m) (REG x)))
  | CCSL y => do x <- convert_ccs2reg (col m) y (alloc_reg (row m) (col m)); Ok (Some (mkM (row m) (col m) (REG x)))
  | _ => Abort
  end.

(** matrix_conversions.c:18-81 compress_stack2ccs.  [s] is the stack S with the row
    counts nr[i] beside each member; a null member is None, one that is not in regular
    format has a null reg->A.  assert(Nrow < INT_MAX); alloc_matrix returns null when
    Nrow or Ncol is 0 and the null is dereferenced at the end.  Freeing the stack
    (flag YES) is not modelled. *)
Definition compress_stack2ccs (s : list (option matrix * nat)) (Nrow Ncol : nat) : outcome matrix :=
  if (Z.of_nat Nrow >=? 2147483647)%Z then Abort else
  do bR <- ofold (fun c b =>
     do bR <- ofold (fun (Sn : option matrix * nat) (bR : build * Z) =>
        let '(b, R) := bR in
        let '(Si, n) := Sn in
        do b' <- match Si with
                 | None => Ok b
                 | Some m =>
                     match sto m with
                     | REG a =>
                       ofold (fun r b =>
                         do x <- rd2 a r c;
                         if grt_abs x zero
                         then do y <- rd2 a r c; Ok (push wrap_int b (Z.of_nat r + R) y) else Ok b)
                         (seq 0 n) b
                     | _ => if n =? 0 then Ok b else UB
                     end
                 end;
        Ok (b', (R + Z.of_nat n)%Z)) s (b, 0%Z);
     set_Ap wrap_int (fst bR) c) (seq 0 Ncol) (start Ncol);
  if (Nrow =? 0) || (Ncol =? 0) then UB
  else Ok (mkM Nrow Ncol (CCS (finish bR))).

(** dfs_df.c:949-966 read_matrix_entry_ccs without CCS_READER_OPTIMIZE.  The loop tests
    Ai[i] <= r BEFORE i < i_max, so it reads Ai[i_max].  [n] counts the remaining rounds. *)
Fixpoint read_loop (m : ccs) (r i : Z) (n : nat) : outcome F :=
  do a <- rdz (Ai m) i;
  if (a <=? r)%Z then
    match n with
    | O => Ok zero                                     (* i < i_max fails *)
    | S n' => if (a =? r)%Z then rdz (Ax m) i else read_loop m r (i + 1) n'
    end
  else Ok zero.
Definition read_plain (m : ccs) (r c : nat) : outcome F :=
  do hi <- rd (Ap m) (c + 1); do lo <- rd (Ap m) c;
  read_loop m (Z.of_nat r) lo (Z.to_nat (hi - lo)).

(** dfs_df.c:916-943 read_matrix_entry_ccs with CCS_READER_OPTIMIZE.
    [find_slice]: the while loop, n = i_i_max - i_i rounds at most. *)
Fixpoint find_slice (m : ccs) (icg : list Z) (r ii : Z) (n : nat) : outcome Z :=
  match n with
  | O => Ok ii
  | S n' => do e <- rdz icg (ii + 1); do a <- rdz (Ai m) (e - 1);
            if (r <=? a)%Z then Ok ii else find_slice m icg r (ii + 1) n'
  end.
Fixpoint scan (m : ccs) (r : Z) (l : list Z) : outcome F :=
  match l with
  | [] => Ok zero
  | i :: l' => do a <- rdz (Ai m) i; if (a =? r)%Z then rdz (Ax m) i else scan m r l'
  end.
Definition read_cg (m : ccs) (r c : nat) : outcome F :=
  match cg m with
  | None => UB
  | Some (apcg, icg) =>
      do hi <- rd apcg (c + 1); do lo <- rd apcg c;
      do ii <- find_slice m icg (Z.of_nat r) lo (Z.to_nat (hi - 1 - lo));
      do imax <- rdz icg (ii + 1); do i0 <- rdz icg ii;
      scan m (Z.of_nat r) (zrange i0 imax)
  end.

(** dfs_df.c:2064-2100 coarse_grain_Ap_ccs_matrix.  assert(Nslice) is Nslice <> 0; the
    caller passes the integer parameter matrix_ccs_reader_split or 1; a negative one is not
    modelled.  The counter i_i is an int: more than INT_MAX slices overflow it (UB). *)
Definition coarse_grain (nc Nslice : nat) (m : ccs) : outcome ccs :=
  if Nslice =? 0 then Abort else
  if (Z.of_nat nc * Z.of_nat Nslice >? 2147483647)%Z then UB else
  do s <- ofold (fun c s =>
     let '(apcg, icg, ii) := s in
     do hi <- rd (Ap m) (c + 1); do lo <- rd (Ap m) c;
     if (hi - lo <? Z.of_nat Nslice)%Z then Abort else
     let q := Z.quot (hi - lo) (Z.of_nat Nslice) in
     do apcg' <- wr apcg c (Z.of_nat ii);
     do p <- ofold (fun k (p : list Z * nat) => let '(icg, ii) := p in
                do icg' <- wr icg ii (lo + Z.of_nat k * q)%Z; Ok (icg', S ii)) (seq 0 Nslice) (icg, ii);
     Ok (apcg', fst p, snd p))
     (seq 0 nc) (repeat 0%Z (nc + 1), repeat 0%Z (nc * Nslice + 1), 0);
  let '(apcg, icg, ii) := s in
  do e <- rd (Ap m) nc;
  do icg' <- wr icg ii e;
  do apcg' <- wr apcg nc (Z.of_nat ii);
  Ok (mkCcs (Ap m) (Ai m) (Ax m) (Some (apcg', icg'))).

(** matrix_arithmetic.c:265-343 CCSOpCCS; [reader] is whichever read_matrix_entry_ccs is
    compiled in, [op] the operator chosen by '+' or '-' (None: another character, Error0).
    Evaluation order of the two reads is unspecified in C; both are pure. Error0 comes after
    the two shape tests. *)
Definition CCSOpCCS (reader : ccs -> nat -> nat -> outcome F) (op : option (F -> F -> F))
           (r2 c2 : nat) (m2 : ccs) (r1 c1 : nat) (m1 : ccs) : outcome matrix :=
  if negb (r2 =? r1) then Abort else
  if negb (c2 =? c1) then Abort else
  match op with
  | None => Abort
  | Some f =>
    do b <- ofold (fun c b =>
       do b <- ofold (fun r b =>
          do x2 <- reader m2 r c; do x1 <- reader m1 r c;
          let ax := f x2 x1 in
          if grt_abs ax zero then Ok (push wrap_int b (Z.of_nat r) ax) else Ok b) (seq 0 r2) b;
       set_Ap wrap_int b c) (seq 0 c2) (start c2);
    if (r2 =? 0) || (c2 =? 0) then UB                  (* res is null *)
    else Ok (mkM r2 c2 (CCS (finish b)))
  end.
Definition ccs_op (o : ascii) : option (F -> F -> F) :=
  if ascii_dec o "+"%char then Some add else if ascii_dec o "-"%char then Some sub else None.

(** matrix_arithmetic.c:16-89 matrix_by_vector; flags INITIALIZE / NOT_INITIALIZE / other.
    A null m, v or b (Error0) is not modelled. *)
Inductive vflag := INITIALIZE | NOT_INITIALIZE | OTHER_FLAG.
Definition mv_body (rdm : nat -> nat -> outcome F) (nr nc : nat) (v b : list F) : outcome (list F) :=
  ofold (fun r b => ofold (fun c b =>
     do s <- rd b r; do a <- rdm r c; do x <- rd v c; wr b r (add s (mul a x))) (seq 0 nc) b) (seq 0 nr) b.
Definition matrix_by_vector (m : matrix) (v b : list F) (fl : vflag) : outcome (list F) :=
  if (row m =? 0) || (col m =? 0) then Abort else
  do b <- match fl with
          | INITIALIZE => ofold (fun r b => wr b r zero) (seq 0 (row m)) b
          | NOT_INITIALIZE => Ok b
          | OTHER_FLAG => Abort
          end;
  match sto m with
  | REG a => mv_body (rd2 a) (row m) (col m) v b
  | RMO a => mv_body (fun r c => rd a (c + col m * r)) (row m) (col m) v b
  | _ => Abort
  end.

(** D[r][c] += x and D[i] += x *)
Definition acc2 (d : list (list F)) (r : Z) (c : nat) (x : F) : outcome (list (list F)) :=
  do l <- rdz d r; do s <- rd l c; wr2z d r c (add s x).
Definition acc1 (d : list F) (i : nat) (x : F) : outcome (list F) :=
  do s <- rd d i; wr d i (add s x).

(** matrix_arithmetic.c:102-258 matrix_by_matrix, one definition per format pair *)
(* :140-150 *)
Definition mm_reg_reg (ar bc br : nat) (A B : list (list F)) (D : list (list F)) :=
  ofold (fun r D => ofold (fun c D => ofold (fun i D =>
    do x <- rd2 A r i; do y <- rd2 B i c; acc2 D (Z.of_nat r) c (mul x y)) (seq 0 br) D) (seq 0 bc) D) (seq 0 ar) D.
(* :151-167 *)
Definition mm_ccs_ccs (bc : nat) (a b : ccs) (D : list (list F)) :=
  ofold (fun c D =>
    do lo <- rd (Ap b) c; do hi <- rd (Ap b) (c + 1);
    ofold (fun r D =>
      do k <- rdz (Ai b) r; do lo' <- rdz (Ap a) k; do hi' <- rdz (Ap a) (k + 1);
      ofold (fun i D =>
        do r' <- rdz (Ai a) i; do x <- rdz (Ax a) i; do y <- rdz (Ax b) r;
        acc2 D r' c (mul x y)) (zrange lo' hi') D) (zrange lo hi) D) (seq 0 bc) D.
(* :180-195 *)
Definition mmt_reg_reg (ar br bc : nat) (A B D : list (list F)) :=
  ofold (fun r D => ofold (fun c D => ofold (fun i D =>
    do x <- rd2 A r i; do y <- rd2 B c i; acc2 D (Z.of_nat r) c (mul x y)) (seq 0 bc) D) (seq 0 br) D) (seq 0 ar) D.
(* :203-212 *)
Definition mmt_rmo_rmo_rmo (ar br bc : nat) (A B D : list F) :=
  ofold (fun r D => ofold (fun c D => ofold (fun i D =>
    do x <- rd A (i + bc * r); do y <- rd B (i + bc * c); acc1 D (c + br * r) (mul x y)) (seq 0 bc) D) (seq 0 br) D) (seq 0 ar) D.
(* :220-230 *)
Definition mmt_rmo_rmo_reg (ar br bc : nat) (A B : list F) (D : list (list F)) :=
  ofold (fun r D => ofold (fun c D => ofold (fun i D =>
    do x <- rd A (i + bc * r); do y <- rd B (i + bc * c); acc2 D (Z.of_nat r) c (mul x y)) (seq 0 bc) D) (seq 0 br) D) (seq 0 ar) D.
(* :233-253: D is row major with br columns; a negative Ai makes a negative index (UB) *)
Definition mmt_ccs_ccs_rmo (ac br : nat) (a b : ccs) (D : list F) :=
  ofold (fun c D =>
    do lo <- rd (Ap a) c; do hi <- rd (Ap a) (c + 1);
    ofold (fun l1 D =>
      do r <- rdz (Ai a) l1;
      do lo' <- rd (Ap b) c; do hi' <- rd (Ap b) (c + 1);
      ofold (fun l2 D =>
        do k <- rdz (Ai b) l2; do x <- rdz (Ax a) l1; do y <- rdz (Ax b) l2;
        let idx := (k + Z.of_nat br * r)%Z in
        if (idx <? 0)%Z then UB else acc1 D (Z.to_nat idx) (mul x y)) (zrange lo' hi') D) (zrange lo hi) D)
    (seq 0 ac) D.

Definition matrix_by_matrix (a b : matrix) (result : option matrix) (dir : str) : outcome matrix :=
  if (row a =? 0) || (col a =? 0) then Abort else
  if (row b =? 0) || (col b =? 0) then Abort else
  if strcmp_i (Some (S_ "a*b")) (Some dir) then
    if negb (col a =? row b) then Abort else
    match result with
    | Some _ => Abort
    | None =>
      match sto a, sto b with
      | REG A, REG B => do D <- mm_reg_reg (row a) (col b) (row b) A B (alloc_reg (row a) (col b));
                        Ok (mkM (row a) (col b) (REG D))
      | CCS A, CCS B => do D <- mm_ccs_ccs (col b) A B (alloc_reg (row a) (col b));
                        Ok (mkM (row a) (col b) (REG D))
      | _, _ => Abort
      end
    end
  else if strcmp_i (Some (S_ "a*Transpose(b)")) (Some dir) then
    if negb (col a =? col b) then Abort else
    match sto a, sto b with
    | REG A, REG B =>
        match result with
        | Some _ => Abort
        | None => do D <- mmt_reg_reg (row a) (row b) (col b) A B (alloc_reg (row a) (row b));
                  Ok (mkM (row a) (row b) (REG D))
        end
    | RMO A, RMO B =>
        match result with
        | Some d => match sto d with
                    | RMO D => do D' <- mmt_rmo_rmo_rmo (row a) (row b) (col b) A B D;
                               Ok (mkM (row d) (col d) (RMO D'))
                    | _ => Abort
                    end
        | None => do D <- mmt_rmo_rmo_reg (row a) (row b) (col b) A B (alloc_reg (row a) (row b));
                  Ok (mkM (row a) (row b) (REG D))
        end
    | CCS A, CCS B =>
        match result with
        | Some d => match sto d with
                    | RMO D => do D' <- mmt_ccs_ccs_rmo (col a) (row b) A B D;
                               Ok (mkM (row d) (col d) (RMO D'))
                    | _ => Abort
                    end
        | None => Abort
        end
    | _, _ => Abort
    end
  else Abort.

End Mat.
Arguments ccs F : clear implicits.
Arguments store F : clear implicits.
Arguments matrix F : clear implicits.
Arguments build F : clear implicits.
