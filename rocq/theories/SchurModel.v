(** SchurModel.v - one linear solve of the domain-decomposition (Schur complement) Newton
    solver: Src/Main/Modules/Maths/Equation_Solvings/solve_eqs_ddm_schur_complement.c.

    The element type and its operations are parameters as in MatrixModel.v, and the matrix
    routines called here are the ones modelled there.  UMFPACK itself is a parameter
    [solver a b] (one right-hand side): nothing is assumed about it in this file.
    The OpenMP loops over patches are modelled as sequential loops: each iteration writes only
    the Schur structure of its own patch.  Memory freeing, timing and printing are not modelled. *)
From Verif Require Import Base TextModel MatrixModel.

(** for (...) out[i] = f(in[i]) *)
Fixpoint omap {A B} (f : A -> outcome B) (l : list A) : outcome (list B) :=
  match l with
  | [] => Ok []
  | a :: t => do b <- f a; do r <- omap f t; Ok (b :: r)
  end.

Section Schur.
Context {F : Type} (zero : F) (add sub mul : F -> F -> F) (grt_abs : F -> F -> bool).
(** parameter matrix_ccs_drop_below; settings->umfpack_size (0: int, else long); UMFPACK;
    and the contents of memory that realloc has just handed out *)
Context (drop : option F) (long : bool) (solver : matrix F -> list F -> outcome (list F)) (junkz : Z) (junk : F).

(** what one patch brings to the linear solve (DDM_Schur_Complement_T,
    Includes/maths_equation_solvings_lib.h): the numbers of subdomain and interface points, the matrices B (NS x NS)
    and E^T (NI x NS) filled by the Jacobian functions, the columns f and g, and one pair of blocks
    F, C per patch of the grid (null when the patches share no subface). *)
Record spatch := mkP {
  sNS : nat; sNI : nat;
  sB : list (list F); sET : list (list F);
  sf : list F; sg : list F;
  sF : list (option (matrix F)); sC : list (option (matrix F)) }.

(** :1378-1466 making_E_prime_and_f_prime.  E_Trans = alloc_matrix(REG_SF,NI,NS) of making_B_and_E
    (:1486) is null when NI or NS is 0 and S->E_Trans->row dereferences it.  direct_solver_series_umfpack
    is one [solver] call per right-hand side, in order.  E_Trans_prime_IS_CCS_FORMAT is 1
    (solve_eqs_ddm_schur_complement.h:31-32). *)
Definition making_E_prime_and_f_prime (p : spatch) : outcome (matrix F * list F) :=
  if (sNS p =? 0) || (sNI p =? 0) then UB else
  do a <- (if long then cast_matrix_ccs_long zero grt_abs drop (mkM (sNS p) (sNS p) (REG (sB p)))
           else cast_matrix_ccs zero grt_abs drop (mkM (sNS p) (sNS p) (REG (sB p))));
  match a with
  | None => UB
  | Some a =>
      do bs <- omap (fun i => rd (sET p) i) (seq 0 (sNI p));
      do xs <- omap (solver a) (bs ++ [sf p]);
      do fp <- rd xs (sNI p);
      do e <- cast_matrix_ccs zero grt_abs drop (mkM (sNI p) (sNS p) (REG xs));
      match e with
      | None => UB
      | Some e => Ok (e, fp)
      end
  end.

(** :904-935 making_F_by_f_prime; &F_by_f_prime[R] is the array from R on *)
Definition making_F_by_f_prime (NIp : list nat) (p : spatch) (fp : list F) : outcome (list F) :=
  do dR <- ofold (fun (FN : option (matrix F) * nat) (dR : list F * nat) =>
      let '(d, R) := dR in
      let '(Fo, n) := FN in
      do d' <- match Fo with
               | None => Ok d
               | Some m => do t <- matrix_by_vector zero add mul m fp (skipn R d) NOT_INITIALIZE;
                           Ok (firstn R d ++ t)
               end;
      Ok (d', R + n)) (combine (sF p) NIp) (repeat zero (list_sum NIp), 0);
  Ok (fst dR).

(** :793-899 making_F_by_E_prime, the branch without BLAS (:877-889) *)
Definition F_by_E_prime (e : matrix F) (Fo : option (matrix F)) : outcome (option (matrix F)) :=
  match Fo with
  | None => Ok None
  | Some m =>
      do fc <- cast_matrix_ccs zero grt_abs drop m;
      match fc with
      | None => UB
      | Some fc =>
          match sto fc, sto e with
          | CCS a, CCS b =>
              do n1 <- rd (Ap a) (col fc);
              do n2 <- rd (Ap b) (col e);
              if (n1 =? 0)%Z || (n2 =? 0)%Z then Ok None else
              do d <- matrix_by_matrix zero add mul fc e
                        (Some (mkM (row fc) (row e) (RMO (alloc_rmo zero (row fc) (row e))))) (S_ "a*transpose(b)");
              Ok (Some d)
          | _, _ => UB
          end
      end
  end.

(** :536-622 making_sub_S_matrix, one member of the stack: C - FE'.  In the branch without C (:589-603)
    stack[p]->reg->A is the null pointer of a row-major matrix and is written through. *)
Definition stack_member (fe c : option (matrix F)) : outcome (option (matrix F)) :=
  match fe, c with
  | Some a, Some b =>
      if negb ((row a =? row b) && (col a =? col b)) then Abort else
      match sto a, sto b with
      | RMO l, REG m =>
          do d <- ofold (fun r d => ofold (fun c d =>
                do y <- rd2 m r c; do x <- rd l (c + col a * r);
                wr2z d (Z.of_nat r) c (sub y x)) (seq 0 (col a)) d) (seq 0 (row a))
                (alloc_reg zero (row a) (col a));
          Ok (Some (mkM (row a) (col a) (REG d)))
      | _, _ => Abort
      end
  | Some a, None => match sto a with RMO _ => UB | _ => Abort end
  | None, Some b => match sto b with REG _ => Ok (Some b) | _ => Abort end
  | None, None => Ok None
  end.
Definition making_sub_S_matrix (NIp : list nat) (NI : nat) (FE C : list (option (matrix F))) : outcome (matrix F) :=
  do st <- omap (fun fc => stack_member (fst fc) (snd fc)) (combine FE C);
  compress_stack2ccs zero grt_abs (combine st NIp) (list_sum NIp) NI.

(** :626-677 compute_S_CCS_long: the column blocks one after the other.  [realloc]: the old
    contents, then junk; a request for 0 bytes frees a non-null pointer and returns null, which
    IsNull turns into an abort. *)
Definition resize {A} (j : A) (l : list A) (n : nat) : list A := firstn n l ++ repeat j (n - List.length l).
Record sacc := mkS { aAp : list Z; aAi : list Z; aAx : list F; aR : nat; annz : Z; anull : bool }.
Definition S_block (sub1 : matrix F) (s : sacc) : outcome sacc :=
  match sto sub1 with
  | CCS m =>
      do n1 <- rd (Ap m) (col sub1);
      do aRv <- rd (aAp s) (aR s);
      let sz := (aRv + n1)%Z in
      if (sz <? 0)%Z then Abort else
      if (sz =? 0)%Z && negb (anull s) then Abort else
      let ai0 := resize junkz (aAi s) (Z.to_nat sz) in
      let ax0 := resize junk (aAx s) (Z.to_nat sz) in
      do t <- ofold (fun i (t : list Z * (list Z * list F)) =>
          let '(ap, (ai, ax)) := t in
          do lo <- rd (Ap m) i;
          do ap' <- wr ap (i + aR s) (lo + annz s)%Z;
          do hi <- rd (Ap m) (i + 1);
          do u <- ofold (fun j (u : list Z * list F) =>
              let '(ai, ax) := u in
              do x <- rdz (Ai m) j; do ai' <- wrz ai (annz s + j) x;
              do y <- rdz (Ax m) j; do ax' <- wrz ax (annz s + j) y; Ok (ai', ax')) (zrange lo hi) (ai, ax);
          Ok (ap', u)) (seq 0 (col sub1)) (aAp s, (ai0, ax0));
      let '(ap, (ai, ax)) := t in
      let R := aR s + col sub1 in
      let nnz := (annz s + n1)%Z in
      do ap' <- wr ap R nnz;
      Ok (mkS ap' ai ax R nnz false)
  | _ => UB
  end.
Definition compute_S_CCS_long (NIp : list nat) (subS : list (matrix F)) : outcome (matrix F) :=
  let N := list_sum NIp in
  do s <- ofold S_block subS (mkS (repeat 0%Z (N + 1)) [] [] 0 0 true);
  if N =? 0 then UB else Ok (mkM N N (CCSL (mkCcs (aAp s) (aAi s) (aAx s) None))).

(** :740-788 compute_g_prime: the sum of the F_by_f_prime's, accumulated in that of patch 0, then g - that *)
Definition compute_g_prime (NIp : list nat) (Ffs gs : list (list F)) : outcome (list F) :=
  match Ffs with
  | [] => UB
  | Ff :: rest =>
      do d <- ofold (fun Ffp d => ofold (fun i d =>
                 do s <- rd d i; do t <- rd Ffp i; wr d i (add s t)) (seq 0 (list_sum NIp)) d) rest Ff;
      do dR <- ofold (fun (gN : list F * nat) (dR : list F * nat) =>
          let '(d, R) := dR in let '(g, n) := gN in
          do d' <- ofold (fun i d => do gi <- rd g i; do s <- rd d (R + i); wr d (R + i) (sub gi s)) (seq 0 n) d;
          Ok (d', R + n)) (combine gs NIp) (d, 0);
      Ok (fst dR)
  end.

(** :474-520 solve_Sy_g_prime: y of all patches; Schur->y = &y[R] is the array from R on *)
Fixpoint y_pointers (NIp : list nat) (y : list F) : list (list F) :=
  match NIp with
  | [] => []
  | n :: t => y :: y_pointers t (skipn n y)
  end.

(** :429-470 compute_x, the CCS branch *)
Definition compute_x (NS : nat) (e : matrix F) (fp y : list F) : outcome (list F) :=
  match sto e with
  | CCS m =>
      ofold (fun c x =>
        do lo <- rd (Ap m) c; do hi <- rd (Ap m) (c + 1);
        do Ey <- ofold (fun i s => do a <- rdz (Ax m) i; do r <- rdz (Ai m) i; do v <- rdz y r;
                                   Ok (add s (mul a v))) (zrange lo hi) zero;
        do f <- rd fp c; wr x c (sub f Ey)) (seq 0 (col e)) (repeat zero NS)
  | _ => UB
  end.

(** solve_field :214-305, the multi-patch body between the residual check and update_field.
    Returns x and the pointer y of each patch. *)
Definition schur_step (ps : list spatch) : outcome (list (list F * list F)) :=
  let NIp := map sNI ps in
  do ef <- omap making_E_prime_and_f_prime ps;
  do Ffs <- omap (fun pe => making_F_by_f_prime NIp (fst pe) (snd (snd pe))) (combine ps ef);
  do subS <- omap (fun pe => do FE <- omap (F_by_E_prime (fst (snd pe))) (sF (fst pe));
                             making_sub_S_matrix NIp (sNI (fst pe)) FE (sC (fst pe))) (combine ps ef);
  do gp <- compute_g_prime NIp Ffs (map sg ps);
  do Sm <- compute_S_CCS_long NIp subS;
  do y <- solver Sm gp;
  let ys := y_pointers NIp y in
  do xs <- omap (fun pey => compute_x (sNS (fst (fst pey))) (fst (snd (fst pey))) (snd (snd (fst pey))) (snd pey))
             (combine (combine ps ef) ys);
  Ok (combine xs ys).

(** :2760-2783 solve_Bx_f, the single-patch solve (always int format) *)
Definition solve_Bx_f (p : spatch) : outcome (list F) :=
  do a <- cast_matrix_ccs zero grt_abs drop (mkM (sNS p) (sNS p) (REG (sB p)));
  match a with
  | None => UB
  | Some a => solver a (sf p)
  end.

(** :336-371 update_field: u_new and u_bckup (last_sol); inv has at least NS entries, Iinv NI.
    alloc_double is calloc: the backup starts at 0. *)
Definition upd_loop (lambda : F) (inv : list nat) (n : nat) (x : list F) (ub : list F * list F) : outcome (list F * list F) :=
  ofold (fun s (ub : list F * list F) =>
    let '(u, b) := ub in
    do node <- rd inv s;
    do o <- rd u node; do b' <- wr b node o;
    do xs <- rd x s; do u' <- wr u node (sub o (mul lambda xs)); Ok (u', b')) (seq 0 n) ub.
Definition update_field (lambda : F) (NS NI : nat) (inv Iinv : list nat) (x y u : list F) : outcome (list F * list F) :=
  do ub <- upd_loop lambda inv NS x (u, repeat zero (List.length u));
  upd_loop lambda Iinv NI y ub.
(** :374-399 update_field_single_patch *)
Definition update_field_single_patch (lambda : F) (NS : nat) (inv : list nat) (x u : list F) : outcome (list F * list F) :=
  upd_loop lambda inv NS x (u, repeat zero (List.length u)).
End Schur.
Arguments spatch F : clear implicits.
Arguments sacc F : clear implicits.
