(** SchurSpec.v - what one linear step of the Newton solver must achieve, independently of how
    it is computed: the block system

        B_p x_p + E_p y_p                       = f_p     for every patch p
        sum over p of (F_p[q] x_p + C_p[q] y_p) = g_q     for every patch q

    (solve_eqs_ddm_schur_complement.c, pr_intro :3212-3246). *)
From Verif Require Import Base TextModel MatrixModel MatrixSpec SchurModel.

Section Spec.
Context {F : Type} (zero : F) (add sub mul : F -> F -> F).

(** h 0 + h 1 + ... + h (n-1) *)
Definition sumF (n : nat) (h : nat -> F) : F := fold_left (fun s k => add s (h k)) (seq 0 n) zero.
Definition ent (v : list F) (k : nat) : F := nth k v zero.

(** entry (i,j) of block q of a patch; a null block is zero *)
Definition block_entry (l : list (option (matrix F))) (q i j : nat) : F :=
  match nth_error l q with
  | Some (Some m) =>
      match sto m with
      | RMO a => nth (j + col m * i) a zero
      | REG a => entry zero a i j
      | _ => zero
      end
  | _ => zero
  end.

(** the data of one Newton step are consistent: every patch has subdomain and interface points, the arrays have
    the sizes the solver allocates, and the blocks towards patch q are both null or both allocated with NI_q rows *)
Definition block_ok (NIq NS NI : nat) (Fo Co : option (matrix F)) : Prop :=
  (Fo = None /\ Co = None) \/
  (exists A A', Fo = Some (mkM NIq NS (RMO (List.concat A))) /\ shape NIq NS A /\
                Co = Some (mkM NIq NI (REG A')) /\ shape NIq NI A').
Record patch_ok (NIp : list nat) (p : spatch F) : Prop := {
  k_NS : 0 < sNS p;
  k_NI : 0 < sNI p;
  k_B : shape (sNS p) (sNS p) (sB p);
  k_ET : shape (sNI p) (sNS p) (sET p);
  k_f : List.length (sf p) = sNS p;
  k_g : List.length (sg p) = sNI p;
  k_F : List.length (sF p) = List.length NIp;
  k_C : List.length (sC p) = List.length NIp;
  k_blocks : forall q n Fo Co, nth_error NIp q = Some n -> nth_error (sF p) q = Some Fo -> nth_error (sC p) q = Some Co ->
     block_ok n (sNS p) (sNI p) Fo Co }.

(** all index arithmetic fits a 32-bit int (INT_MAX = 2^31-1): what the int compressed format can hold *)
Definition sizes_ok (ps : list (spatch F)) : Prop :=
  (Z.of_nat (list_sum (map sNI ps)) < 2147483647)%Z /\
  Forall (fun p => (Z.of_nat (sNS p) * Z.of_nat (sNS p) <= 2147483647)%Z /\
                   (Z.of_nat (list_sum (map sNI ps)) * Z.of_nat (sNS p) <= 2147483647)%Z /\
                   (Z.of_nat (list_sum (map sNI ps)) * Z.of_nat (sNI p) <= 2147483647)%Z) ps.

(** the entries with which the patch blocks enter the two families of equations *)
Definition sub_row (p : spatch F) (x y : list F) (r : nat) : F :=
  add (sumF (sNS p) (fun c => mul (entry zero (sB p) r c) (ent x c)))
      (sumF (sNI p) (fun i => mul (entry zero (sET p) i r) (ent y i))).
Definition interface_row (ps : list (spatch F)) (xy : list (list F * list F)) (q i : nat) : F :=
  fold_left (fun s pxy =>
     let '(p, (x, y)) := pxy in
     add s (add (sumF (sNS p) (fun k => mul (block_entry (sF p) q i k) (ent x k)))
                (sumF (sNI p) (fun k => mul (block_entry (sC p) q i k) (ent y k))))) (combine ps xy) zero.

Definition solves_block_system (ps : list (spatch F)) (xy : list (list F * list F)) : Prop :=
  List.length xy = List.length ps /\
  (forall p P x y, nth_error ps p = Some P -> nth_error xy p = Some (x, y) ->
     List.length x = sNS P /\ sNI P <= List.length y /\
     forall r, r < sNS P -> sub_row P x y r = ent (sf P) r) /\
  (forall q Q i, nth_error ps q = Some Q -> i < sNI Q -> interface_row ps xy q i = ent (sg Q) i).

(** entries dropped by the sparse format.  A value v counts as dropped when it is below the limit and not zero.  X stands for
    the solution of B X = E, which the algorithm stores in the sparse format too. *)
Context (grt_abs : F -> F -> bool) (lim : F).
Definition not_dropped (l v : F) : Prop := grt_abs v l = false -> v = zero.
Definition nothing_dropped (ps : list (spatch F)) : Prop :=
  forall p P, nth_error ps p = Some P ->
    (forall r c, r < sNS P -> c < sNS P -> not_dropped lim (entry zero (sB P) r c)) /\
    (forall q Q i k, nth_error ps q = Some Q -> i < sNI Q -> k < sNS P -> not_dropped lim (block_entry (sF P) q i k)) /\
    (forall X, (forall i r, i < sNI P -> r < sNS P -> sumF (sNS P) (fun k => mul (entry zero (sB P) r k) (entry zero X i k)) = entry zero (sET P) i r) ->
       (forall i k, i < sNI P -> k < sNS P -> not_dropped lim (entry zero X i k)) /\
       (forall q Q i j, nth_error ps q = Some Q -> i < sNI Q -> j < sNI P ->
          not_dropped zero (sub (block_entry (sC P) q i j) (sumF (sNS P) (fun k => mul (block_entry (sF P) q i k) (entry zero X j k)))))).

(** the block system up to the dropped entries: with X_p the solution of B^ X_p = E_p (B^ what is stored of B), the equations hold
    except for the terms that come from dropped entries of B, X, F and C - F^ X^ *)
Definition solves_with_drops (ps : list (spatch F)) (xy : list (list F * list F)) : Prop :=
  let st := kept zero grt_abs lim in
  List.length xy = List.length ps /\ exists Xs : list (list (list F)),
  (forall p P x y, nth_error ps p = Some P -> nth_error xy p = Some (x, y) ->
     List.length x = sNS P /\ sNI P <= List.length y /\
     (forall i r, i < sNI P -> r < sNS P -> sumF (sNS P) (fun k => mul (st (entry zero (sB P) r k)) (entry zero (nth p Xs []) i k)) = entry zero (sET P) i r) /\
     forall r, r < sNS P -> sub_row P x y r = add (ent (sf P) r)
        (add (sumF (sNS P) (fun c => mul (sub (entry zero (sB P) r c) (st (entry zero (sB P) r c))) (ent x c)))
             (sumF (sNI P) (fun i => mul (sumF (sNS P) (fun c => mul (st (entry zero (sB P) r c)) (sub (entry zero (nth p Xs []) i c) (st (entry zero (nth p Xs []) i c))))) (ent y i))))) /\
  (forall q Q i, nth_error ps q = Some Q -> i < sNI Q -> interface_row ps xy q i = add (ent (sg Q) i)
     (sumF (List.length ps) (fun p => let P := nth p ps (mkP 0 0 [] [] [] [] [] []) in let X := nth p Xs [] in
        sumF (sNI P) (fun j =>
          let D := sub (block_entry (sC P) q i j) (sumF (sNS P) (fun k => mul (st (block_entry (sF P) q i k)) (st (entry zero X j k)))) in
          mul (sub (sub D (kept zero grt_abs zero D))
                   (sumF (sNS P) (fun k => mul (sub (block_entry (sF P) q i k) (st (block_entry (sF P) q i k))) (st (entry zero X j k)))))
              (ent (snd (nth p xy ([], []))) j))))).

(** the linear solver: on a valid square compressed matrix it never runs into undefined behaviour, and what it
    returns solves the system *)
Definition exact_solver (solver : matrix F -> list F -> outcome (list F)) : Prop :=
  forall n c m b, sto m = CCS c \/ sto m = CCSL c -> row m = n -> col m = n -> 0 < n -> ccs_valid n n c -> List.length b = n ->
    match solver m b with
    | Ok x => List.length x = n /\ forall r, r < n -> sumF n (fun k => mul (dense zero c r k) (ent x k)) = ent b r
    | Abort => True
    | UB => False
    end.
End Spec.
