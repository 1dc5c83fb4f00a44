(** GridSpec.v - what a split cubed spherical grid is made of, as an inventory, and the region tags of a patch. *)
From Verif Require Import Base TextModel RegionModel GridModel.
Open Scope string_scope.

(** the words between parentheses of a region string *)
Fixpoint words_from (cur : option str) (s : str) : list str :=
  match s with
  | [] => []
  | c :: r => match cur with
              | None => if Ascii.eqb c "("%char then words_from (Some []) r else words_from None r
              | Some w => if Ascii.eqb c ")"%char then w :: words_from None r else words_from (Some (w ++ [c])%list) r
              end
  end.
Definition words (p : patch) : list str := words_from None (p_region p).
(** the object a patch belongs to: its first tag *)
Definition owner (p : patch) : str := hd [] (words p).

(** a piece of the grid: six (or five) cubed spheres around an object, or a box inside it; both in na x nb x nc parts *)
Inductive segment := Spheres (dir obj : string) (sides : list side) | CentralBox (dir obj : string).
Definition seg_object (s : segment) : string := match s with Spheres _ o _ => o | CentralBox _ o => o end.
Definition dir_name (left : bool) : string := if left then "left" else "right".
Definition all6 : list side := [UP; DOWN; LEFT; RIGHT; BACK; FRONT].
(** the outermost half around the left object has no right side and vice versa *)
Definition halves (outer : bool) : list segment :=
  if outer then [Spheres "left" "outermost" [UP; DOWN; LEFT; BACK; FRONT]; Spheres "right" "outermost" [UP; DOWN; RIGHT; BACK; FRONT]] else [].
Definition whole (outer : bool) : list segment := if outer then [Spheres "NA" "outermost" all6] else [].
Definition star (d o : string) : list segment := [CentralBox d o; Spheres d o all6].
Definition hole (filled : bool) (d o : string) : list segment := if filled then [Spheres d o all6; CentralBox d o] else [].
(** first: the star, the first star or the first hole is on the left; filled: the holes are filled; outer: there is an outermost region *)
Definition inventory (k : kind) (first filled outer : bool) : list segment :=
  match k with
  | K_SCS_BHNS => star (dir_name first) "NS" ++ [Spheres (dir_name first) "NS_around" all6; Spheres (dir_name (negb first)) "BH_around" all6]
      ++ halves outer ++ hole filled (dir_name (negb first)) "BH"
  | K_SCS_NSNS => [CentralBox (dir_name first) "NS1"; CentralBox (dir_name (negb first)) "NS2"; Spheres (dir_name first) "NS1" all6; Spheres (dir_name first) "NS1_around" all6;
      Spheres (dir_name (negb first)) "NS2" all6; Spheres (dir_name (negb first)) "NS2_around" all6] ++ halves outer
  | K_SCS_BHBH => [Spheres (dir_name first) "BH1_around" all6; Spheres (dir_name (negb first)) "BH2_around" all6]
      ++ halves outer ++ hole filled (dir_name first) "BH1" ++ hole filled (dir_name (negb first)) "BH2"
  | K_SCS_SNS => [Spheres "center" "NS_around" all6; Spheres "center" "NS" all6; CentralBox "center" "NS"] ++ whole outer
  | K_SCS_SBH => [Spheres "center" "BH_around" all6] ++ whole outer ++ hole filled "center" "BH"
  | _ => []
  end.
Definition side_name (s : side) : string := match StrSide s with Some x => x | None => "" end.
(** the patches of a piece *)
Definition seg_patches (sp : splits) (s : segment) : list patch :=
  match s with
  | Spheres dir obj l => grid3 sp (fun d0 d1 d2 => map (fun sd => mkpatch (SCS_name sp dir obj (side_name sd) d0 d1 d2) (cs_region (S_ obj) (nc sp) d2) (nodes_c sp)) l)
  | CentralBox dir obj => grid3 sp (fun d0 d1 d2 => [mkpatch (SCS_name sp dir "central_box" dir d0 d1 d2)
      (paren (S_ obj) ++ paren (S_ (dir ++ "_" ++ obj)%string) ++ paren (S_ (dir ++ "_central_box")%string))%list (nodes_c sp)])
  end.
