(** TransferModel.v - carrying fields from an old grid to a new one.
    Models interpolate_fields_from_old_grid_to_new_grid, Src/Main/Modules/Utilities/useful_functions.c:832-990.
    SIMPLIFICATIONS: positions [pos], patch coordinates [crd] and the numbers [V] are any types; the search of the patches
    (x_in_which_patch, x_in_which_patch_force, X_of_x: CubedModel.v) and the interpolation f_of_X (SpectralModel.v) are given
    functions; the coefficients made before are a cache of f_of_X and left out; null arguments (the function returns) too. *)
From Verif Require Import Base TextModel.
Open Scope list_scope.
Section Transfer.
Variables pos crd V : Type.
(** a patch: name, the positions of its nodes, its fields: None not there, Some None without values *)
Record patch := mkpatch { p_name : str; p_nodes : list pos; p_fld : str -> option (option (list V)) }.
Definition setf (p : patch) (f : str) (v : list V) : patch :=
  mkpatch (p_name p) (p_nodes p) (fun g => if str_eqb f g then Some (Some v) else p_fld p g).
Fixpoint omap {A B} (g : A -> outcome B) (l : list A) : outcome (list B) :=
  match l with [] => Ok [] | a :: l => do b <- g a; do r <- omap g l; Ok (b :: r) end.
(** the loops over the fields and the patches of the new grid, each with what belongs to it ([A]): Ind, then the values *)
Definition put1 {A} (value : A -> patch -> str -> outcome (list V)) (f : str) (q : A * patch) : outcome (A * patch) :=
  match p_fld (snd q) f with
  | None => Abort
  | Some _ => do v <- value (fst q) (snd q) f; Ok (fst q, setf (snd q) f v)
  end.
Fixpoint put_all {A} (value : A -> patch -> str -> outcome (list V)) (names : list str) (l : list (A * patch)) : outcome (list (A * patch)) :=
  match names with [] => Ok l | f :: names => do l <- omap (put1 value f) l; put_all value names l end.

(** interpolation, :855-936.  [find x]: a patch of the old grid with x in it; [X_of k x] the coordinates there;
    [force x] a patch near x with coordinates *)
Variable find : pos -> option nat.
Variable X_of : nat -> pos -> crd.
Variable force : pos -> option (nat * crd).
Variable interp : nat -> list V -> crd -> V.
Definition point (x : pos) : outcome (nat * crd) :=
  match find x with
  | Some k => Ok (k, X_of k x)
  | None => match force x with Some q => Ok q | None => Abort end
  end.
(** the value at a point found; a patch number that does not exist is a wild pointer *)
Definition at_point (ogrid : list patch) (f : str) (q : nat * crd) : outcome V :=
  match nth_error ogrid (fst q) with
  | None => UB
  | Some o => match p_fld o f with None => Abort | Some None => UB | Some (Some v) => Ok (interp (fst q) v (snd q)) end
  end.
Definition has_values (f : str) (o : patch) : outcome unit :=
  match p_fld o f with Some (Some _) => Ok tt | _ => Abort end.
Definition interpolate (ogrid ngrid : list patch) (names : list str) : outcome (list patch) :=
  do pts <- omap (fun p => omap point (p_nodes p)) ngrid;
  do _ <- omap (fun f => omap (has_values f) ogrid) names;
  do l <- put_all (fun q _ f => omap (at_point ogrid f) q) names (combine pts ngrid);
  Ok (map snd l).
(** copy, :938-981; [assert] stops the program; strcmp with a null pointer is undefined *)
Definition copied (o p : patch) (f : str) : outcome (list V) :=
  match p_fld o f with
  | None | Some None => Abort
  | Some (Some v) =>
    if negb (Nat.eqb (List.length (p_nodes p)) (List.length (p_nodes o))) then Abort
    else match strchr (p_name p) "_"%char, strchr (p_name o) "_"%char with
         | Some (_, a), Some (_, b) => if str_eqb a b then Ok v else Abort
         | _, _ => UB
         end
  end.
Definition copy (ogrid ngrid : list patch) (names : list str) : outcome (list patch) :=
  if negb (Nat.eqb (List.length ngrid) (List.length ogrid)) then Abort
  else do l <- put_all copied names (combine ogrid ngrid); Ok (map snd l).
(** the third argument *)
Definition transfer (ogrid ngrid : list patch) (field_names : str) (mode : Z) : outcome (list patch) :=
  do names <- read_separated_items field_names ","%char;
  if Z.eqb mode 0 then interpolate ogrid ngrid names else if Z.eqb mode 1 then copy ogrid ngrid names else Abort.
End Transfer.
