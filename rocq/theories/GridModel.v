(** GridModel.v - which patches a split cubed spherical grid is made of (names, regions):
      manifold: cubed_spherical_coordinate.c  fill_patches_Split_CubedSpherical_grid 133-407, populate_CS_patch_SplitCS 411-640,
                set_object_name_split_CS 3099-3115; cartesian_coordinate.c  populate_box_patch_SplitCS 182-306; manifold_header.h:84-108.
    Only the name, region and number of nodes of a patch are kept; USE_SCS_FILLING_BOX is 0 (cubed_spherical_coordinate.h:13), so the code under it is left out. *)
From Verif Require Import Base TextModel RegionModel.
Open Scope string_scope.

(** FLAG_T, Core/typdef_data.h:21-31 *)
Inductive side := UP | DOWN | LEFT | RIGHT | BACK | FRONT | CENTER | NONE.
(** StrSide, manifold_header.h:92-96; NONE is the null pointer *)
Definition StrSide (s : side) : option string :=
  match s with UP => Some "up" | DOWN => Some "down" | LEFT => Some "left" | RIGHT => Some "right" | BACK => Some "back" | FRONT => Some "front" | CENTER => Some "center" | NONE => None end.
(** manifold_header.h:99-107 *)
Definition SCS_ObjType : list string :=
  ["NS"; "BH"; "NS_around"; "BH_around"; "NS1"; "BH1"; "NS1_around"; "BH1_around"; "NS2"; "BH2"; "NS2_around"; "BH2_around"; "central_box"; "filling_box"; "outermost"].
(** set_object_name_split_CS, cubed_spherical_coordinate.c:3099-3115 *)
Definition set_object_name (t : string) : outcome string :=
  match find (fun o => strcmp_i (Some (S_ o)) (Some (S_ t))) SCS_ObjType with Some o => Ok o | None => Abort end.

(** gn: grid number; na, nb, nc: number of splits in the three directions; n2: nodes in the third direction *)
Record splits := mksplits { gn : N; na : nat; nb : nat; nc : nat; nodes_c : nat }.
(** SCS_par_name, manifold_header.h:86-88, PATCH_NAME_PRT_P_ "grid%u_", SCS_suffix "_X%uY%uZ%u" *)
Definition SCS_name (sp : splits) (dir obj sd : string) (d0 d1 d2 : nat) : str :=
  (S_ "grid" ++ dec_N (gn sp) ++ S_ "_" ++ S_ dir ++ S_ "_" ++ S_ obj ++ S_ "_" ++ S_ sd ++ S_ "_X" ++ dec_N (N.of_nat d0) ++ S_ "Y" ++ dec_N (N.of_nat d1) ++ S_ "Z" ++ dec_N (N.of_nat d2))%list.
Definition opt_str (o : option string) : outcome string := match o with Some s => Ok s | None => UB end.
(** the objects accepted at cubed_spherical_coordinate.c:500-513 *)
Definition cs_objects : list string :=
  ["NS"; "NS1"; "NS2"; "BH"; "BH1"; "BH2"; "NS_around"; "NS1_around"; "NS2_around"; "BH_around"; "BH1_around"; "BH2_around"; "outermost"].
(** cubed_spherical_coordinate.c:476-483 *)
Definition skipped (dir0 : side) (outermost : bool) (s : side) : bool :=
  match dir0, s with LEFT, RIGHT | RIGHT, LEFT => outermost | _, _ => false end.
(** for (d0..) for (d1..) for (d2..) *)
Definition grid3 {A} (sp : splits) (f : nat -> nat -> nat -> list A) : list A :=
  flat_map (fun d0 => flat_map (fun d1 => flat_map (fun d2 => f d0 d1 d2) (seq 0 (nc sp))) (seq 0 (nb sp))) (seq 0 (na sp)).
Definition six : list side := [UP; DOWN; LEFT; RIGHT; BACK; FRONT].
Definition cs_patch (sp : splits) (dir obj : string) (d0 d1 d2 : nat) (s : side) : list patch :=
  match StrSide s with Some sd => [mkpatch (SCS_name sp dir obj sd d0 d1 d2) (cs_region (S_ obj) (nc sp) d2) (nodes_c sp)] | None => [] end.
(** populate_CS_patch_SplitCS, cubed_spherical_coordinate.c:411-640 *)
Definition populate_CS (sp : splits) (obj0 : string) (dir0 : side) : outcome (list patch) :=
  do obj <- set_object_name obj0;
  let ot := String.eqb obj "outermost" in
  do dir <- (match dir0 with NONE => if ot then Ok "NA" else UB | _ => opt_str (StrSide dir0) end);
  match dir0 with
  | LEFT | RIGHT | CENTER | NONE =>
    if existsb (fun o => strcmp_i (Some (S_ obj)) (Some (S_ o))) cs_objects
    then Ok (grid3 sp (fun d0 d1 d2 => flat_map (cs_patch sp dir obj d0 d1 d2) (filter (fun s => negb (skipped dir0 ot s)) six)))
    else Abort
  | _ => Abort
  end.
(** populate_box_patch_SplitCS, cartesian_coordinate.c:182-306 *)
Definition populate_box (sp : splits) (obj0 : string) (dir0 : side) (region : string) : outcome (list patch) :=
  do obj <- set_object_name obj0;
  do dir <- opt_str (StrSide dir0);
  do reg <- box_region (S_ region) (S_ dir) (S_ obj);
  Ok (grid3 sp (fun d0 d1 d2 => [mkpatch (SCS_name sp dir obj dir d0 d1 d2) reg (nodes_c sp)])).
Definition concat_o (l : list (outcome (list patch))) : outcome (list patch) :=
  fold_right (fun x r => do a <- x; do b <- r; Ok (a ++ b)%list) (Ok []) l.
(** the parameters grid_set_NS, grid_set_NS1, grid_set_BH, grid_set_BH1, grid_set_BH2; outer: grid_outermost_radius is not 0 *)
Record setup := mksetup { set_NS : str; set_NS1 : str; set_BH : str; set_BH1 : str; set_BH2 : str; outer : bool }.
Definition cmps (s : str) (x : string) : bool := strcmp_i (Some s) (Some (S_ x)).
Definition cmpss (s : str) (x : string) : bool := strstr_i (Some s) (Some (S_ x)).
Definition outermosts (sp : splits) (u : setup) (l : list side) : list (outcome (list patch)) :=
  if outer u then map (populate_CS sp "outermost") l else [].
Definition other (s : side) : side := match s with LEFT => RIGHT | _ => LEFT end.
(** strstr_i(par,"excised") ? NO : strstr_i(par,"filled") ? YES : error *)
Definition bh_filled (s : str) : outcome bool := if cmpss s "excised" then Ok false else if cmpss s "filled" then Ok true else Abort.
Definition bhbh_filled (u : setup) : outcome bool :=
  if cmpss (set_BH1 u) "excised" && cmpss (set_BH2 u) "excised" then Ok false
  else if cmpss (set_BH1 u) "filled" && cmpss (set_BH2 u) "filled" then Ok true else Abort.
Definition black_hole (sp : splits) (filled : bool) (o : string) (s : side) : list (outcome (list patch)) :=
  if filled then [populate_CS sp o s; populate_box sp "central_box" s o] else [].
(** fill_patches_Split_CubedSpherical_grid, cubed_spherical_coordinate.c:133-407 *)
Definition fill_patches (k : kind) (sp : splits) (u : setup) : outcome (list patch) :=
  match k with
  | K_SCS_BHNS =>
    let ns := if cmps (set_NS u) "left" then LEFT else RIGHT in
    do filled <- bh_filled (set_BH u);
    concat_o ([populate_box sp "central_box" ns "NS"; populate_CS sp "NS" ns; populate_CS sp "NS_around" ns; populate_CS sp "BH_around" (other ns)]
      ++ outermosts sp u [LEFT; RIGHT] ++ black_hole sp filled "BH" (other ns))
  | K_SCS_NSNS =>
    let s1 := if cmps (set_NS1 u) "left" then LEFT else RIGHT in
    concat_o ([populate_box sp "central_box" s1 "NS1"; populate_box sp "central_box" (other s1) "NS2";
      populate_CS sp "NS1" s1; populate_CS sp "NS1_around" s1; populate_CS sp "NS2" (other s1); populate_CS sp "NS2_around" (other s1)]
      ++ outermosts sp u [LEFT; RIGHT])
  | K_SCS_BHBH =>
    let s1 := if cmpss (set_BH1 u) "left" then LEFT else RIGHT in
    do filled <- bhbh_filled u;
    concat_o ([populate_CS sp "BH1_around" s1; populate_CS sp "BH2_around" (other s1)]
      ++ outermosts sp u [LEFT; RIGHT] ++ black_hole sp filled "BH1" s1 ++ black_hole sp filled "BH2" (other s1))
  | K_SCS_SBH =>
    if cmpss (set_BH u) "center" then
      do filled <- bh_filled (set_BH u);
      concat_o ([populate_CS sp "BH_around" CENTER] ++ outermosts sp u [NONE] ++ black_hole sp filled "BH" CENTER)
    else Abort
  | K_SCS_SNS =>
    if cmps (set_NS u) "center" then
      concat_o ([populate_CS sp "NS_around" CENTER; populate_CS sp "NS" CENTER; populate_box sp "central_box" CENTER "NS"] ++ outermosts sp u [NONE])
    else Abort
  | _ => Abort
  end.
(** innerB = 1, cubed_spherical_coordinate.c:196-210, 318-340, 372-385: the surface of the excised holes *)
Definition inner_boundary (k : kind) (u : setup) (g : list patch) : outcome (list patch) :=
  match k with
  | K_SCS_BHNS | K_SCS_SBH => do f <- bh_filled (set_BH u); if f then Ok [] else collect_patches k g (S_ "BH_around_IB")
  | K_SCS_BHBH => do f <- bhbh_filled u; if f then Ok [] else
      do a <- collect_patches k g (S_ "BH1_around_IB"); do b <- collect_patches k g (S_ "BH2_around_IB"); Ok (a ++ b)%list
  | _ => Ok []
  end.
