(** RegionModel.v - which patches of a grid cover a region:
      manifold: coordinate_utilities.c  collect_patches 767-804, IsItCovering 833-892; dictionary coordinate_utilities.h:54-66
      tags of a patch: cubed_spherical_coordinate.c:517-532, cartesian_coordinate.c:231-252 *)
From Verif Require Import Base TextModel.

(** Grid_Kind_T *)
Inductive kind := K_SCS_BHNS | K_SCS_NSNS | K_SCS_BHBH | K_SCS_SNS | K_SCS_SBH | K_CS_BHNS | K_CS_NSNS | K_Box | K_UNDEFINED.
Definition kind_eqb (a b : kind) : bool :=
  match a, b with
  | K_SCS_BHNS, K_SCS_BHNS | K_SCS_NSNS, K_SCS_NSNS | K_SCS_BHBH, K_SCS_BHBH | K_SCS_SNS, K_SCS_SNS | K_SCS_SBH, K_SCS_SBH
  | K_CS_BHNS, K_CS_BHNS | K_CS_NSNS, K_CS_NSNS | K_Box, K_Box | K_UNDEFINED, K_UNDEFINED => true
  | _, _ => false
  end.
(** grid->kind == A || grid->kind == B || ... *)
Definition kind_in (k : kind) (l : list kind) : bool := existsb (kind_eqb k) l.

(** set_grid_kind, coordinate_utilities.c:916-950 *)
Definition set_grid_kind (s : str) : outcome kind :=
  let is (x : string) := strcmp_i (Some s) (Some (S_ x)) in
  if is "SplitCubedSpherical(BH+NS)"%string then Ok K_SCS_BHNS
  else if is "SplitCubedSpherical(NS+NS)"%string then Ok K_SCS_NSNS
  else if is "SplitCubedSpherical(BH+BH)"%string then Ok K_SCS_BHBH
  else if is "SplitCubedSpherical(NS)"%string then Ok K_SCS_SNS
  else if is "SplitCubedSpherical(BH)"%string then Ok K_SCS_SBH
  else if is "CubedSpherical(BH+NS)"%string then Ok K_CS_BHNS
  else if is "CubedSpherical(NS+NS)"%string then Ok K_CS_NSNS
  else if is "box"%string then Ok K_Box
  else Abort.

(** what the functions read of a patch: name, CoordSysInfo->region, number of nodes in the third direction *)
Record patch := mkpatch { p_name : str; p_region : str; p_n2 : nat }.

Definition paren (t : str) : str := "("%char :: t ++ [")"%char].
(** cubed_spherical_coordinate.c:517-532: the tags of layer d2 of nsd2 layers of the object obj *)
Definition cs_region (obj : str) (nsd2 d2 : nat) : str :=
  if (nsd2 =? 1)%nat then paren obj ++ paren (obj ++ S_ "_OB") ++ paren (obj ++ S_ "_IB")
  else if (d2 =? nsd2 - 1)%nat then paren obj ++ paren (obj ++ S_ "_OB")
  else if (d2 =? 0)%nat then paren obj ++ paren (obj ++ S_ "_IB")
  else paren obj.
(** cartesian_coordinate.c:231-252: boxes; region is the object or filling_box, dir left/right/center, obj the box's name *)
Definition box_region (region dir obj : str) : outcome str :=
  let is (x : string) := strcmp_i (Some region) (Some (S_ x)) in
  if is "NS"%string || is "BH"%string || is "NS1"%string || is "NS2"%string || is "BH1"%string || is "BH2"%string
  then Ok (paren region ++ paren (dir ++ S_ "_" ++ region) ++ paren (dir ++ S_ "_" ++ obj))
  else if is "filling_box"%string then Ok (paren region)
  else Abort.

(** coordinate_utilities.h:54-66 *)
Definition dictionary : list str := map S_
  ["BH_around"; "BH_around_IB"; "BH_around_OB"; "BH1_around"; "BH1_around_IB"; "BH1_around_OB"; "BH2_around"; "BH2_around_IB"; "BH2_around_OB";
   "NS_around"; "NS_around_IB"; "NS_around_OB"; "NS1_around"; "NS1_around_IB"; "NS1_around_OB"; "NS2_around"; "NS2_around_IB"; "NS2_around_OB";
   "NS_OB"; "NS1_OB"; "NS2_OB"; "outermost"; "outermost_IB"; "outermost_OB"; "filling_box";
   "left_central_box"; "right_central_box"; "center_central_box"; "NS"; "NS1"; "NS2"; "BH"; "BH1"; "BH2"]%string.
Definition tags (l : list str) : str := List.concat (map paren l).
Definition Dictionary_SCS : str := tags dictionary.

Definition found (s pat : str) : bool := match strstr s pat with Some _ => true | None => false end.
(** the loop of IsItCovering, coordinate_utilities.c:851-883; s[999] of :844 holds "(item)" and its NUL *)
Fixpoint covering_loop (p : patch) (reg : list str) : outcome bool :=
  match reg with
  | [] => Ok false
  | r :: rest =>
    if found r (S_ "grid") then if str_eqb (p_name p) r then Ok true else covering_loop p rest
    else if (999 <=? List.length r + 2)%nat then UB
    else if negb (found Dictionary_SCS (paren r)) then Abort
    else if found (p_region p) (paren r) then Ok true
    else covering_loop p rest
  end.
(** IsItCovering, coordinate_utilities.c:833-892; an empty region string gives a null list, which is dereferenced *)
Definition IsItCovering (k : kind) (p : patch) (region : str) : outcome bool :=
  do reg <- read_separated_items region ","%char;
  if kind_in k [K_SCS_BHNS; K_SCS_NSNS; K_SCS_BHBH; K_SCS_SNS; K_SCS_SBH]
  then match reg with [] => UB | _ => covering_loop p reg end
  else Abort.
(** collect_patches, coordinate_utilities.c:767-804 *)
Fixpoint collect_loop (k : kind) (all : bool) (region : str) (l : list patch) : outcome (list patch) :=
  match l with
  | [] => Ok []
  | p :: r => do b <- (if all then Ok true else IsItCovering k p region);
              do rest <- collect_loop k all region r;
              Ok (if b then p :: rest else rest)
  end.
Definition collect_patches (k : kind) (g : list patch) (region : str) : outcome (list patch) :=
  do ps <- collect_loop k (str_eqb region (S_ ".*")) region g;
  match ps with [] => Abort | _ => Ok ps end.
