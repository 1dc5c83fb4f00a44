(** Props_Matrix.v - property theorems C29-C35 and C46 (matrix formats, sums, products, sparse lookup).

    F is the element type.  [grt_abs x l] is GRT(ABSd(x),l); nothing is assumed about it, about zero or about the
    operations unless a theorem says so, so C29-C31, C33-C35 and C46 also cover IEEE doubles. *)
From Verif Require Import Base TextModel MatrixModel MatrixSpec MatrixProofs MatrixConvert MatrixRead MatrixMul MatrixFinal.
Local Open Scope nat_scope.

(** examples use integers: |x| > l *)
Definition gZ (x l : Z) : bool := (l <? Z.abs x)%Z.
Definition exA : list (list Z) := [[5; 0; -1]; [0; 0; 7]; [2; 0; 9]]%Z.
Definition exM : ccs Z := mkCcs [0; 2; 2; 5]%Z [0; 2; 0; 1; 2]%Z [5; 2; -1; 7; 9]%Z None.
(* no entry stored in the lower right corner *)
Definition exN : ccs Z := mkCcs [0; 2; 2; 4]%Z [0; 2; 0; 1]%Z [5; 2; -1; 7]%Z None.
Lemma exM_valid : ccs_valid 3 3 exM.
Proof.
  constructor; try reflexivity.
  - intros [|[|[|c]]] H; vm_compute; try discriminate; lia.
  - intros i Hi. change (Z.of_nat (List.length (Ai exM))) with 5%Z in Hi.
    assert (K : (i = 0 \/ i = 1 \/ i = 2 \/ i = 3 \/ i = 4)%Z) by lia. destruct K as [-> | [-> | [-> | [-> | ->]]]]; vm_compute; split; congruence.
  - intros c i Hc H1 H2. destruct c as [|[|[|c]]]; [| | |lia]; cbn in H1, H2.
    + assert (i = 0%Z) as -> by lia. reflexivity.
    + lia.
    + assert (K : (i = 2 \/ i = 3)%Z) by lia. destruct K as [-> | ->]; reflexivity.
Qed.
Lemma exN_valid : ccs_valid 3 3 exN.
Proof.
  constructor; try reflexivity.
  - intros [|[|[|c]]] H; vm_compute; try discriminate; lia.
  - intros i Hi. change (Z.of_nat (List.length (Ai exN))) with 4%Z in Hi.
    assert (K : (i = 0 \/ i = 1 \/ i = 2 \/ i = 3)%Z) by lia. destruct K as [-> | [-> | [-> | ->]]]; vm_compute; split; congruence.
  - intros c i Hc H1 H2. destruct c as [|[|[|c]]]; [| | |lia]; cbn in H1, H2.
    + assert (i = 0%Z) as -> by lia. reflexivity.
    + lia.
    + assert (i = 2%Z) as -> by lia. reflexivity.
Qed.

(** C29. Dense (regular or row major) -> compressed column -> dense: the entries above the limit come back unchanged,
    the others are zero.  The int format needs at most INT_MAX kept entries, the long one has no limit.  Casting a
    compressed matrix to compressed copies it, and any valid compressed matrix is expanded to the matrix it denotes. *)
Theorem C29_round_trip : forall (F : Type) (zero : F) (grt_abs : F -> F -> bool) (p : option F) nr nc A,
  shape nr nc A -> 0 < nr -> 0 < nc ->
  ((Z.of_nat nr <= 2147483648)%Z -> (Z.of_nat (count (fun x => grt_abs x (drop_limit zero p)) A) <= 2147483647)%Z ->
   exists m,
    cast_matrix_ccs zero grt_abs p (mkM nr nc (REG A)) = Ok (Some (mkM nr nc (CCS m))) /\
    cast_matrix_ccs zero grt_abs p (mkM nr nc (RMO (rows_of A))) = Ok (Some (mkM nr nc (CCS m))) /\
    cast_matrix_reg zero (mkM nr nc (CCS m)) = Ok (Some (mkM nr nc (REG (map (map (kept zero grt_abs (drop_limit zero p))) A))))) /\
  (exists m,
    cast_matrix_ccs_long zero grt_abs p (mkM nr nc (REG A)) = Ok (Some (mkM nr nc (CCSL m))) /\
    cast_matrix_reg zero (mkM nr nc (CCSL m)) = Ok (Some (mkM nr nc (REG (map (map (kept zero grt_abs (drop_limit zero p))) A))))).
Proof. exact @round_trip_both. Qed.
Print Assumptions C29_round_trip.
Theorem C29_copy : forall (F : Type) (zero : F) (grt_abs : F -> F -> bool) p nr nc m,
  ccs_valid nr nc m -> 0 < nr -> 0 < nc ->
  cast_matrix_ccs zero grt_abs p (mkM nr nc (CCS m)) = Ok (Some (mkM nr nc (CCS (mkCcs (Ap m) (Ai m) (Ax m) None)))) /\
  cast_matrix_ccs_long zero grt_abs p (mkM nr nc (CCSL m)) = Ok (Some (mkM nr nc (CCSL (mkCcs (Ap m) (Ai m) (Ax m) None)))).
Proof. exact @copy_same. Qed.
Print Assumptions C29_copy.
Theorem C29_expand : forall (F : Type) (zero : F) nr nc m, ccs_valid nr nc m -> 0 < nr -> 0 < nc ->
  exists B, cast_matrix_reg zero (mkM nr nc (CCS m)) = Ok (Some (mkM nr nc (REG B))) /\ shape nr nc B /\
    forall r c, r < nr -> c < nc -> entry zero B r c = dense zero m r c.
Proof. exact @dense_of_valid. Qed.
Print Assumptions C29_expand.
Example C29_ex : shape 3 3 exA /\ cast_matrix_ccs 0%Z gZ None (mkM 3 3 (REG exA)) = Ok (Some (mkM 3 3 (CCS exM))) /\
  cast_matrix_reg 0%Z (mkM 3 3 (CCS exM)) = Ok (Some (mkM 3 3 (REG exA))) /\
  (* with the limit 2, the entries -1 and 2 are dropped *)
  count (fun x => gZ x 2) exA = 3 /\ map (map (kept 0%Z gZ 2%Z)) exA = [[5; 0; 0]; [0; 0; 7]; [0; 0; 9]]%Z.
Proof. repeat split; repeat constructor. Qed.

(** C30. What the conversions produce is a valid compressed matrix. *)
Theorem C30_valid : forall (F : Type) (zero : F) (grt_abs : F -> F -> bool) p nr nc A m2 s x,
  shape nr nc A -> 0 < nr -> 0 < nc -> (Z.of_nat nr <= 2147483648)%Z ->
  (Z.of_nat (count (fun x => grt_abs x (drop_limit zero p)) A) <= 2147483647)%Z ->
  ccs_valid nr nc m2 ->
  (cast_matrix_ccs zero grt_abs p (mkM nr nc (REG A)) = Ok (Some x) \/
   cast_matrix_ccs zero grt_abs p (mkM nr nc (RMO (rows_of A))) = Ok (Some x) \/
   cast_matrix_ccs zero grt_abs p (mkM nr nc (CCS m2)) = Ok (Some x) \/
   cast_matrix_ccs_long zero grt_abs p (mkM nr nc (REG A)) = Ok (Some x) \/
   cast_matrix_ccs_long zero grt_abs p (mkM nr nc (CCSL m2)) = Ok (Some x) \/
   (grt_abs zero zero = false /\ stack_ok nc s /\ stack_rows zero nc s = A /\ list_sum (map snd s) = nr /\ (Z.of_nat nr < 2147483647)%Z /\ p = None /\
      compress_stack2ccs zero grt_abs s nr nc = Ok x)) ->
  exists m, (sto x = CCS m \/ sto x = CCSL m) /\ row x = nr /\ col x = nc /\ ccs_valid nr nc m.
Proof. exact @produced_valid. Qed.
Print Assumptions C30_valid.
(** ... but with more than INT_MAX kept entries the cast to int wraps and an invalid matrix is returned without an error;
    such matrices exist. *)
Theorem C30_too_many_entries_refuted : forall (F : Type) (zero : F) (grt_abs : F -> F -> bool) p nr nc A,
  shape nr nc A -> 0 < nr -> 0 < nc -> (Z.of_nat nr <= 2147483648)%Z ->
  (2147483647 < Z.of_nat (count (fun x => grt_abs x (drop_limit zero p)) A))%Z ->
  exists m, cast_matrix_ccs zero grt_abs p (mkM nr nc (REG A)) = Ok (Some (mkM nr nc (CCS m))) /\ ~ ccs_valid nr nc m.
Proof. exact @too_many_entries. Qed.
Print Assumptions C30_too_many_entries_refuted.
Theorem C30_too_many_exist : forall (F : Type) (grt_abs : F -> F -> bool) (x lim : F) n, grt_abs x lim = true ->
  shape 1 n [repeat x n] /\ count (fun x => grt_abs x lim) [repeat x n] = n.
Proof. exact @too_many_exist. Qed.
Print Assumptions C30_too_many_exist.
Example C30_ex : exists x, cast_matrix_ccs 0%Z gZ (Some 2%Z) (mkM 3 3 (REG exA)) = Ok (Some x) /\
  sto x = CCS (mkCcs [0; 1; 1; 3]%Z [0; 1; 2]%Z [5; 7; 9]%Z None).
Proof. eexists. split; reflexivity. Qed.

(** C31. CCSOpCCS with '+' or '-' is entrywise, entries at or below the limit becoming 0 - when the lower right entry of
    both matrices is stored (plain lookup) or both are coarse grained (optimised lookup). *)
Theorem C31_entrywise_partial : forall (F : Type) (zero : F) (add sub : F -> F -> F) (grt_abs : F -> F -> bool) o f nr nc m2 m1,
  ccs_op add sub o = Some f -> 0 < nr -> 0 < nc ->
  ccs_valid nr nc m2 -> ccs_valid nr nc m1 -> (Z.of_nat nr <= 2147483648)%Z ->
  (Z.of_nat (count2 (fun r c => grt_abs (f (dense zero m2 r c) (dense zero m1 r c)) zero) nr nc) <= 2147483647)%Z ->
  forall reader,
  (reader = read_plain zero /\ corner_stored nr nc m2 /\ corner_stored nr nc m1 \/
   reader = read_cg zero /\ (exists n2 m2', coarse_grain nc n2 m2' = Ok m2 /\ ccs_valid nr nc m2') /\
                            (exists n1 m1', coarse_grain nc n1 m1' = Ok m1 /\ ccs_valid nr nc m1')) ->
  exists m, CCSOpCCS zero grt_abs reader (ccs_op add sub o) nr nc m2 nr nc m1 = Ok (mkM nr nc (CCS m)) /\ ccs_valid nr nc m /\
    forall r c, r < nr -> c < nc -> dense zero m r c = kept zero grt_abs zero (f (dense zero m2 r c) (dense zero m1 r c)).
Proof. exact @ccs_op_correct. Qed.
Print Assumptions C31_entrywise_partial.
(** a different shape or another operator character is refused *)
Theorem C31_refuses : forall (F : Type) (zero : F) (add sub : F -> F -> F) (grt_abs : F -> F -> bool) reader o nr nc m2 nr' nc' m1,
  nr <> nr' \/ nc <> nc' \/ ccs_op add sub o = None ->
  CCSOpCCS zero grt_abs reader (ccs_op add sub o) nr nc m2 nr' nc' m1 = Abort.
Proof. exact @ccs_op_refuses. Qed.
Print Assumptions C31_refuses.
(** the plain lookup runs past the end of the arrays as soon as one lower right entry is not stored *)
Theorem C31_corner_refuted : forall (F : Type) (zero : F) (add sub : F -> F -> F) (grt_abs : F -> F -> bool) o f nr nc m2 m1,
  ccs_op add sub o = Some f -> 0 < nr -> 0 < nc ->
  ccs_valid nr nc m2 -> ccs_valid nr nc m1 -> ~ corner_stored nr nc m2 \/ ~ corner_stored nr nc m1 ->
  CCSOpCCS zero grt_abs (read_plain zero) (ccs_op add sub o) nr nc m2 nr nc m1 = UB.
Proof. exact @ccs_op_corner_ub. Qed.
Print Assumptions C31_corner_refuted.
Example C31_ex : ccs_valid 3 3 exM /\ corner_stored 3 3 exM /\
  CCSOpCCS 0%Z gZ (read_plain 0%Z) (ccs_op Z.add Z.sub "+"%char) 3 3 exM 3 3 exM =
    Ok (mkM 3 3 (CCS (mkCcs [0; 2; 2; 5] [0; 2; 0; 1; 2] [10; 4; -2; 14; 18] None)))%Z /\
  ccs_valid 3 3 exN /\ CCSOpCCS 0%Z gZ (read_plain 0%Z) (ccs_op Z.add Z.sub "-"%char) 3 3 exM 3 3 exN = UB.
Proof. split; [exact exM_valid|]. split; [exists 4%Z; split; [cbn; lia|reflexivity]|]. split; [reflexivity|]. split; [exact exN_valid|reflexivity]. Qed.

(** C32. Products.  The laws are those of the reals: s+0=s, 0*x=0, x*0=0 (used for the sparse operands only). *)
Theorem C32_matrix_by_vector : forall (F : Type) (zero : F) (add mul : F -> F -> F) m A v b fl,
  (sto m = REG A \/ sto m = RMO (rows_of A)) -> shape (row m) (col m) A -> 0 < row m -> 0 < col m ->
  col m <= List.length v -> row m <= List.length b -> fl <> OTHER_FLAG ->
  exists b', matrix_by_vector zero add mul m v b fl = Ok b' /\ List.length b' = List.length b /\
    (forall r, r < row m -> nth r b' zero =
       dot add mul (match fl with INITIALIZE => zero | _ => nth r b zero end) (entry zero A r) (fun c => nth c v zero) (col m)) /\
    (forall r, row m <= r -> nth r b' zero = nth r b zero).
Proof. exact @matrix_by_vector_ok. Qed.
Print Assumptions C32_matrix_by_vector.
Theorem C32_product : forall (F : Type) (zero : F) (add mul : F -> F -> F),
  (forall s, add s zero = s) -> (forall x, mul zero x = zero) -> (forall x, mul x zero = zero) ->
  forall a b A B (dir : str), repr zero a A -> repr zero b B -> same_format a b -> ~ is_rmo a ->
  0 < row a -> 0 < col a -> 0 < col b -> col a = row b ->
  map tolower dir = map tolower (S_ "a*b") ->
  exists d D, matrix_by_matrix zero add mul a b None dir = Ok d /\ row d = row a /\ col d = col b /\ sto d = REG D /\ repr zero d D /\
    forall r c, r < row a -> c < col b -> entry zero D r c = dot add mul zero (entry zero A r) (fun k => entry zero B k c) (col a).
Proof. exact @product_ab. Qed.
Print Assumptions C32_product.
Theorem C32_product_transposed : forall (F : Type) (zero : F) (add mul : F -> F -> F) a b A B (dir : str),
  repr zero a A -> repr zero b B -> same_format a b -> ~ is_ccs a ->
  0 < row a -> 0 < col a -> 0 < row b -> col a = col b ->
  map tolower dir = map tolower (S_ "a*Transpose(b)") ->
  exists d D, matrix_by_matrix zero add mul a b None dir = Ok d /\ row d = row a /\ col d = row b /\ sto d = REG D /\ repr zero d D /\
    forall r c, r < row a -> c < row b -> entry zero D r c = dot add mul zero (entry zero A r) (entry zero B c) (col a).
Proof. exact @product_abt. Qed.
Print Assumptions C32_product_transposed.
Theorem C32_product_transposed_into : forall (F : Type) (zero : F) (add mul : F -> F -> F),
  (forall s, add s zero = s) -> (forall x, mul zero x = zero) -> (forall x, mul x zero = zero) ->
  forall a b A B d0 D0 (dir : str), repr zero a A -> repr zero b B -> same_format a b -> ~ is_reg a ->
  repr zero d0 D0 -> is_rmo d0 -> row d0 = row a -> col d0 = row b ->
  0 < row a -> 0 < col a -> 0 < row b -> col a = col b ->
  map tolower dir = map tolower (S_ "a*Transpose(b)") ->
  exists d D, matrix_by_matrix zero add mul a b (Some d0) dir = Ok d /\ row d = row a /\ col d = row b /\ is_rmo d /\ repr zero d D /\
    forall r c, r < row a -> c < row b -> entry zero D r c = dot add mul (entry zero D0 r c) (entry zero A r) (entry zero B c) (col a).
Proof. exact @product_abt_acc. Qed.
Print Assumptions C32_product_transposed_into.
Example C32_ex :
  matrix_by_vector 0%Z Z.add Z.mul (mkM 2 3 (REG [[1;2;3];[4;5;6]]%Z)) [1;0;2]%Z [100;100]%Z INITIALIZE = Ok [7;16]%Z /\
  matrix_by_vector 0%Z Z.add Z.mul (mkM 2 3 (RMO [1;2;3;4;5;6]%Z)) [1;0;2]%Z [100;100]%Z NOT_INITIALIZE = Ok [107;116]%Z /\
  matrix_by_matrix 0%Z Z.add Z.mul (mkM 3 3 (CCS exM)) (mkM 3 3 (CCS exM)) None (S_ "A*B") =
    matrix_by_matrix 0%Z Z.add Z.mul (mkM 3 3 (REG exA)) (mkM 3 3 (REG exA)) None (S_ "a*b") /\
  matrix_by_matrix 0%Z Z.add Z.mul (mkM 3 3 (REG exA)) (mkM 3 3 (REG exA)) None (S_ "a*b") =
    Ok (mkM 3 3 (REG [[23;0;-14];[14;0;63];[28;0;79]]%Z)) /\
  matrix_by_matrix 0%Z Z.add Z.mul (mkM 1 2 (RMO [1;2]%Z)) (mkM 2 2 (RMO [3;4;5;6]%Z)) (Some (mkM 1 2 (RMO [10;20]%Z))) (S_ "a*transpose(b)") =
    Ok (mkM 1 2 (RMO [21;37]%Z)).
Proof. repeat split; reflexivity. Qed.

(** C33. "Casting a regular matrix to regular format copies it" is false for every matrix that has a non-zero entry: the
    result is the zero matrix (inverted guard in copy_reg2reg). *)
Theorem C33_regular_copy_refuted : forall (F : Type) (zero : F) nr nc A, 0 < nr -> 0 < nc ->
  cast_matrix_reg zero (mkM nr nc (REG A)) = Ok (Some (mkM nr nc (REG (repeat (repeat zero nc) nr)))).
Proof. exact @reg_to_reg_zero. Qed.
Print Assumptions C33_regular_copy_refuted.
Example C33_ex : cast_matrix_reg 0%Z (mkM 2 2 (REG [[1;2];[3;4]]%Z)) = Ok (Some (mkM 2 2 (REG [[0;0];[0;0]]%Z))).
Proof. reflexivity. Qed.

(** C34. Stacking: the compressed result is the dense stack (null members are zero rows) with the entries at or below 0
    dropped; Nrow is the sum of the row counts. *)
Theorem C34_stack : forall (F : Type) (zero : F) (grt_abs : F -> F -> bool) Ncol s,
  grt_abs zero zero = false -> 0 < Ncol -> stack_ok Ncol s ->
  let A := stack_rows zero Ncol s in let Nrow := list_sum (map snd s) in
  0 < Nrow -> (Z.of_nat Nrow < 2147483647)%Z -> (Z.of_nat (count (fun x => grt_abs x zero) A) <= 2147483647)%Z ->
  exists m, compress_stack2ccs zero grt_abs s Nrow Ncol = Ok (mkM Nrow Ncol (CCS m)) /\ ccs_valid Nrow Ncol m /\
    cast_matrix_reg zero (mkM Nrow Ncol (CCS m)) = Ok (Some (mkM Nrow Ncol (REG (map (map (kept zero grt_abs zero)) A)))).
Proof. exact @stack_correct. Qed.
Print Assumptions C34_stack.
Definition exS : list (option (matrix Z) * nat) :=
  [(Some (mkM 2 2 (REG [[1;0];[0;2]]%Z)), 2); (None, 1); (Some (mkM 2 2 (REG [[3;4];[5;6]]%Z)), 1)].
Example C34_ex : stack_ok 2 exS /\ stack_rows 0%Z 2 exS = [[1;0];[0;2];[0;0];[3;4]]%Z /\
  compress_stack2ccs 0%Z gZ exS 4 2 = Ok (mkM 4 2 (CCS (mkCcs [0;2;4] [0;3;1;3] [1;3;2;4] None)))%Z.
Proof. split; [repeat constructor|split; reflexivity]. Qed.

(** C35. Lookup of entry (r,c).  The plain variant returns the dense entry exactly when it does not run past the end of the
    index array; the coarse-grained one always does, for every number of slices the coarse graining accepts (it refuses 0 and
    more slices than some column has entries). *)
Theorem C35_lookup_partial : forall (F : Type) (zero : F) nr nc m r c, ccs_valid nr nc m -> c < nc ->
  read_plain zero m r c = if read_oob m r c then UB else Ok (dense zero m r c).
Proof. exact @read_plain_ok. Qed.
Print Assumptions C35_lookup_partial.
Theorem C35_lookup_coarse : forall (F : Type) (zero : F) nr nc m r c, ccs_valid nr nc m -> r < nr -> c < nc ->
  forall N, (Z.of_nat nc * Z.of_nat N <= 2147483647)%Z ->
  if (N =? 0) || existsb (fun c => ap m (c + 1) - ap m c <? Z.of_nat N)%Z (seq 0 nc) then coarse_grain nc N m = Abort
  else exists m', coarse_grain nc N m = Ok m' /\ read_cg zero m' r c = Ok (dense zero m r c).
Proof. exact @reader_cg. Qed.
Print Assumptions C35_lookup_coarse.
Theorem C35_past_the_end_refuted : exists (m : ccs Z) r c, ccs_valid 3 3 m /\ r < 3 /\ c < 3 /\ read_plain 0%Z m r c = UB.
Proof. exact (ex_intro _ exN (ex_intro _ 2 (ex_intro _ 2 (conj exN_valid (conj (le_n 3) (conj (le_n 3) eq_refl)))))). Qed.
Print Assumptions C35_past_the_end_refuted.
Theorem C35_not_coarse_grained_refuted : forall (F : Type) (zero : F) m r c, cg m = None -> read_cg zero m r c = UB.
Proof. exact @reader_cg_null. Qed.
Print Assumptions C35_not_coarse_grained_refuted.
(* a matrix that can be coarse grained with 2 slices *)
Definition exP : ccs Z := mkCcs [0; 2; 5]%Z [0; 2; 0; 1; 2]%Z [5; 2; -1; 7; 9]%Z None.
Example C35_ex : read_plain 0%Z exM 1 2 = Ok 7%Z /\ read_plain 0%Z exM 1 1 = Ok 0%Z /\
  (do m <- coarse_grain 2 2 exP; read_cg 0%Z m 2 1) = Ok 9%Z /\ (do m <- coarse_grain 2 2 exP; read_cg 0%Z m 1 0) = Ok 0%Z /\
  coarse_grain 2 3 exP = Abort.
Proof. repeat split; reflexivity. Qed.

(** C46. Casting a regular matrix to row major keeps every entry, as long as the number of entries fits in 32 bits ... *)
Theorem C46_row_major_partial : forall (F : Type) (zero : F) nr nc A, shape nr nc A -> 0 < nr -> 0 < nc ->
  (Z.of_nat nr * Z.of_nat nc < 4294967296)%Z ->
  cast_matrix_rmo zero (mkM nr nc (REG A)) = Ok (Some (mkM nr nc (RMO (rows_of A)))).
Proof. exact @cast_rmo_ok. Qed.
Print Assumptions C46_row_major_partial.
(** ... from there on the allocation size wraps and the copy writes past the block *)
Theorem C46_row_major_refuted : forall (F : Type) (zero : F) nr nc A, shape nr nc A -> (4294967296 <= Z.of_nat nr * Z.of_nat nc)%Z ->
  cast_matrix_rmo zero (mkM nr nc (REG A)) = UB.
Proof. exact @cast_rmo_overflow. Qed.
Print Assumptions C46_row_major_refuted.
Example C46_ex : cast_matrix_rmo 0%Z (mkM 2 3 (REG [[1;2;3];[4;5;6]]%Z)) = Ok (Some (mkM 2 3 (RMO [1;2;3;4;5;6]%Z))).
Proof. reflexivity. Qed.
