(** ObsDispModel.v - obs_calculate.c: which patches, faces, normals and formula a quantity and a method stand for.
    The if/else chains are generated (GenObsDisp.v); here are the loops around them.  Reading fields, computing metric and normal values is
    elsewhere (GenObs*.v, ObsNormal.v); an item records which metric fills g00..g22 and which one normalises n. *)
From Verif Require Import Base TextModel RegionModel GenObsDisp.
Open Scope string_scope.

(** struct items_S: the patch, the surface K = const if surface_integration_flg is set, the metric of the area or volume element, the metric of the normal *)
Record item := mkitem { it_patch : patch; it_face : option face; it_metric : metric; it_normal : option metric }.
(** the index K of the surface, obs_calculate.c: K = 0 or K = patch->n[2]-1 *)
Definition face_index (p : patch) (f : face) : nat := match f with First => 0 | Last => p_n2 p - 1 end.

(** patchesI = collect_patches(grid,region,&NI), or none *)
Definition collected (k : kind) (g : list patch) (r : option str) : outcome (list patch) :=
  match r with None => Ok [] | Some s => collect_patches k g s end.
Fixpoint omap {A B} (f : A -> outcome B) (l : list A) : outcome (list B) :=
  match l with [] => Ok [] | a :: r => do b <- f a; do bs <- omap f r; Ok (b :: bs) end.
(** the body common to calc_ADM_P 1362-2217, calc_ADM_J 548-1358, calc_ADM_mass 2754-3259 and calc_Kommar_mass 2220-2751:
    volume items first, surface items after them, then the formula *)
Definition run (k : kind) (g : list patch) (mt : metric) (coll : outcome (option str * option str)) (volcheck : outcome unit)
  (surf : patch -> outcome (option (face * metric))) (form : outcome formula) : outcome (list item * formula) :=
  do vs <- coll;
  do ps1 <- collected k g (fst vs);
  do ps2 <- collected k g (snd vs);
  do it1 <- omap (fun p => do _ <- volcheck; Ok (mkitem p None mt None)) ps1;
  do it2 <- omap (fun p => do s <- surf p; Ok (mkitem p (option_map fst s) mt (option_map snd s))) ps2;
  do f <- form;
  Ok (it1 ++ it2, f)%list.
Definition calc_ADM_P (k : kind) (g : list patch) (q m : str) (n1 : bool) : outcome (list item * formula) :=
  run k g Phys (collect_P k q m n1) (volcheck_P k q) (fun p => surf_P k q m n1 (IsItCovering k p)) (formula_P k m).
Definition calc_ADM_J (k : kind) (g : list patch) (q m : str) (n1 : bool) : outcome (list item * formula) :=
  run k g Phys (collect_J k q m n1) (volcheck_J k q) (fun p => surf_J k q m n1 (IsItCovering k p)) (formula_J k m).
(** IsConf, obs_calculate.c:2759-2763, and psi4 = (IsConf ? 1. : psi^4) *)
Definition IsConf (m : str) : bool := is m "S+V,default" || is m "V_obj,default" || is m "S+V,conformal".
Definition calc_ADM_mass (k : kind) (g : list patch) (q m : str) (n1 : bool) : outcome (list item * formula) :=
  run k g (if IsConf m then Conf else Phys) (collect_M k q m n1) (volcheck_M k q) (fun p => surf_M k q m n1 (IsItCovering k p)) (formula_M k m).
Definition calc_Kommar_mass (k : kind) (g : list patch) (q m : str) (n1 : bool) : outcome (list item * formula) :=
  run k g Phys (collect_K k q m n1) (volcheck_K k q) (fun p => surf_K k q m n1 (IsItCovering k p)) (formula_K k m).

(** obs_calculate, obs_calculate.c:26-66: the first prefix found inside the quantity decides; the last four functions are not modelled here *)
Inductive plan := Items (r : list item * formula) | Other (s : string).
Definition obs_calculate (k : kind) (g : list patch) (q m : str) (n1 : bool) : outcome plan :=
  let IFss (x : string) := strstr_i (Some q) (Some (S_ x)) in
  let items (r : outcome (list item * formula)) := do x <- r; Ok (Items x) in
  if IFss "ADM(P)|" then items (calc_ADM_P k g q m n1)
  else if IFss "ADM(J)|" then items (calc_ADM_J k g q m n1)
  else if IFss "ADM(M)|" then items (calc_ADM_mass k g q m n1)
  else if IFss "Komar(M)|" then items (calc_Kommar_mass k g q m n1)
  else if IFss "Irreducible(M)|" then Ok (Other "calc_irreducible_BH_mass")
  else if IFss "Baryonic(M)|" then Ok (Other "calc_baryonic_mass")
  else if IFss "CM|" then Ok (Other "calc_CM")
  else if IFss "Spin|" then Ok (Other "calc_spin")
  else Abort.
