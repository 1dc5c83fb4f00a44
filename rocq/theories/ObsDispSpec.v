(** ObsDispSpec.v - what the quantities and methods of the global observables are supposed to mean, as tables:
    for a quantity and a method, the regions whose patches are integrated over, the boundary surfaces that are integrated over with the side of the
    patch they lie on, the metric of the area, volume element and normal, and the formula. *)
From Verif Require Import Base TextModel RegionModel GenObsDisp ObsDispModel.
Open Scope string_scope.

Record row := mkrow { r_quantity : string; r_method : string; r_volume : list string; r_surface : list (string * face); r_metric : metric; r_formula : formula }.
(** n1: the outermost region is not split radially; then "outermost_OB" is integrated on its outer face without a volume, else on its inner face
    together with the volume of these patches *)
Section T.
  Variable n1 : bool.
  Let OB (s : string) := (s, Last).  (* outer boundary of the region: last node *)
  Let IB (s : string) := (s, First). (* inner boundary: first node *)
  Let inf := [("outermost_OB", Last)].
  Let split_surf := [("outermost_OB", if n1 then Last else First)].
  Let split_vol := if n1 then [] else ["outermost_OB"].
  Let Pd q m s := mkrow q m [] s Phys F_obs_ADM_P_S_default.
  Let Pos q := mkrow q "S+V,Ossokine" split_vol split_surf Phys F_obs_ADM_P_Stokes_SV_Ossokine.
  Let Pra q v s := mkrow q "S+V,Rashti" v s Phys F_obs_ADM_P_Stokes_SV_Rashti.
  Let Pco q v s := mkrow q "S+V,constraint" v s Phys F_obs_ADM_P_Stokes_SV_constraint.
  Definition rows_P : list row := [
    Pd "ADM(P)|BHNS" "S_inf,default" inf; Pos "ADM(P)|BHNS";
    Pra "ADM(P)|BHNS" ["outermost"; "filling_box"; "NS_around"; "NS"; "BH_around"] [IB "BH_around_IB"];
    Pco "ADM(P)|BHNS" ["outermost"; "filling_box"; "NS_around"; "BH_around"] [IB "NS_around_IB"; IB "BH_around_IB"];
    Pd "ADM(P)|BHNS" "S_obj1+S_obj2,default" [IB "BH_around_IB"; OB "NS_OB"];
    Pd "ADM(P)|BHBH" "S_inf,default" inf; Pos "ADM(P)|BHBH";
    Pra "ADM(P)|BHBH" ["outermost"; "filling_box"; "BH1_around"; "BH2_around"] [IB "BH1_around_IB"; IB "BH2_around_IB"];
    Pco "ADM(P)|BHBH" ["outermost"; "filling_box"; "NS_around"; "BH_around"] [IB "BH1_around_IB"; IB "BH2_around_IB"];
    Pd "ADM(P)|BHBH" "S_obj1+S_obj2,default" [IB "BH1_around_IB"; IB "BH2_around_IB"];
    Pd "ADM(P)|NSNS" "S_inf,default" inf; Pos "ADM(P)|NSNS";
    Pra "ADM(P)|NSNS" ["outermost"; "filling_box"; "NS1_around"; "NS1"; "NS2_around"; "NS2"] [];
    Pco "ADM(P)|NSNS" ["outermost"; "filling_box"; "NS1_around"; "NS1"; "NS2_around"; "NS2"] [IB "NS1_around_IB"; IB "NS2_around_IB"];
    Pd "ADM(P)|NSNS" "S_obj1+S_obj2,default" [OB "NS1_OB"; OB "NS2_OB"];
    Pd "ADM(P)|SNS" "S_inf,default" inf; Pos "ADM(P)|SNS";
    Pra "ADM(P)|SNS" ["outermost"; "filling_box"; "NS_around"; "NS"] [];
    Pco "ADM(P)|SNS" ["outermost"; "filling_box"; "NS_around"; "NS"] [IB "NS_around_IB"];
    Pd "ADM(P)|SNS" "S_obj,default" [OB "NS_OB"];
    Pd "ADM(P)|NS" "S_obj,default" [OB "NS_OB"]; Pd "ADM(P)|NS1" "S_obj,default" [OB "NS1_OB"]; Pd "ADM(P)|NS2" "S_obj,default" [OB "NS2_OB"];
    Pd "ADM(P)|BH" "S_obj,default" [IB "BH_around_IB"]; Pd "ADM(P)|BH1" "S_obj,default" [IB "BH1_around_IB"]; Pd "ADM(P)|BH2" "S_obj,default" [IB "BH2_around_IB"];
    Pd "ADM(P)|SBH" "S_inf,default" inf; Pos "ADM(P)|SBH";
    Pra "ADM(P)|SBH" ["outermost"; "BH_around"] [IB "BH_around_IB"] ].
  Let Jd q m s := mkrow q m [] s Phys F_obs_ADM_J_S_default.
  Let Jos q := mkrow q "S+V,Ossokine" [] split_surf Phys F_obs_ADM_J_Stokes_SV_Ossokine.
  Let Jco q v s := mkrow q "S+V,constraint" v s Phys F_obs_ADM_J_Stokes_SV_constraint.
  Definition rows_J : list row := [
    Jd "ADM(J)|BHNS" "S_inf,default" inf; Jos "ADM(J)|BHNS";
    Jco "ADM(J)|BHNS" ["outermost"; "filling_box"; "NS_around"; "BH_around"] [IB "NS_around_IB"; IB "BH_around_IB"];
    Jd "ADM(J)|BHNS" "S_obj1+S_obj2,default" [IB "BH_around_IB"; OB "NS_OB"];
    Jd "ADM(J)|BHBH" "S_inf,default" inf; Jos "ADM(J)|BHBH";
    Jco "ADM(J)|BHBH" ["outermost"; "filling_box"; "BH1_around"; "BH2_around"] [IB "BH1_around_IB"; IB "BH2_around_IB"];
    Jd "ADM(J)|BHBH" "S_obj1+S_obj2,default" [IB "BH1_around_IB"; IB "BH2_around_IB"];
    Jd "ADM(J)|NSNS" "S_inf,default" inf; Jos "ADM(J)|NSNS";
    Jco "ADM(J)|NSNS" ["outermost"; "filling_box"; "NS1_around"; "NS2_around"] [IB "NS1_around_IB"; IB "NS2_around_IB"];
    Jd "ADM(J)|NSNS" "S_obj1+S_obj2,default" [OB "NS1_OB"; OB "NS2_OB"];
    Jd "ADM(J)|SNS" "S_inf,default" inf; Jos "ADM(J)|SNS";
    Jco "ADM(J)|SNS" ["outermost"; "filling_box"; "NS_around"] [IB "NS_around_IB"];
    Jd "ADM(J)|SNS" "S_obj,default" [OB "NS_OB"];
    Jd "ADM(J)|NS" "S_obj,default" [OB "NS_OB"]; Jd "ADM(J)|NS1" "S_obj,default" [OB "NS1_OB"]; Jd "ADM(J)|NS2" "S_obj,default" [OB "NS2_OB"];
    Jd "ADM(J)|BH" "S_obj,default" [IB "BH_around_IB"]; Jd "ADM(J)|BH1" "S_obj,default" [IB "BH1_around_IB"]; Jd "ADM(J)|BH2" "S_obj,default" [IB "BH2_around_IB"];
    Jd "ADM(J)|SBH" "S_inf,default" inf; Jos "ADM(J)|SBH" ].
  Let Mi q m v s := mkrow q m v s Conf F_obs_ADM_mass_SV_isotropic.
  Let Mc q v s := mkrow q "S+V,conformal" v s Conf F_obs_ADM_mass_SV_conformal.
  Let Ms q := mkrow q "S_inf,default" [] inf Phys F_obs_ADM_mass_S2.
  Definition rows_M : list row :=
    let vBHNS := ["outermost"; "filling_box"; "NS"; "NS_around"; "BH_around"] in
    let vBHBH := ["outermost"; "filling_box"; "BH1_around"; "BH2_around"] in
    let sBHBH := [IB "BH1_around_IB"; IB "BH2_around_IB"] in
    let vNSNS := ["outermost"; "filling_box"; "NS1"; "NS1_around"; "NS2"; "NS2_around"] in
    let vSNS := ["outermost"; "filling_box"; "NS"; "NS_around"] in [
    Mi "ADM(M)|BHNS" "S+V,default" vBHNS [IB "BH_around_IB"]; Mc "ADM(M)|BHNS" vBHNS [IB "BH_around_IB"]; Ms "ADM(M)|BHNS";
    Mi "ADM(M)|BHBH" "S+V,default" vBHBH sBHBH; Mc "ADM(M)|BHBH" vBHBH sBHBH; Ms "ADM(M)|BHBH";
    Mi "ADM(M)|NSNS" "S+V,default" vNSNS []; Mc "ADM(M)|NSNS" vNSNS []; Ms "ADM(M)|NSNS";
    Mi "ADM(M)|SNS" "S+V,default" vSNS []; Mc "ADM(M)|SNS" vSNS []; Ms "ADM(M)|SNS";
    Mi "ADM(M)|NS" "V_obj,default" ["NS"] []; Mi "ADM(M)|NS1" "V_obj,default" ["NS1"] []; Mi "ADM(M)|NS2" "V_obj,default" ["NS2"] [];
    Mi "ADM(M)|SBH" "S+V,default" ["outermost"; "BH_around"] [IB "BH_around_IB"]; Ms "ADM(M)|SBH" ].
  Let Ko q m v s := mkrow q m v s Phys F_obs_Komar_mass.
  Let Kany q s := map (fun m => Ko q m [] s) ["S+V,default"; "S_obj,default"; "S_inf,default"; "V_obj,default"].
  Definition rows_K : list row := [
    Ko "Komar(M)|BHNS" "S+V,default" ["NS"] [IB "BH_around_IB"]; Ko "Komar(M)|BHNS" "S_inf,default" [] split_surf;
    Ko "Komar(M)|BHBH" "S+V,default" [] [IB "BH1_around_IB"; IB "BH2_around_IB"]; Ko "Komar(M)|BHBH" "S_inf,default" [] split_surf;
    Ko "Komar(M)|NSNS" "S+V,default" ["NS1"; "NS2"] []; Ko "Komar(M)|NSNS" "S_inf,default" [] split_surf;
    Ko "Komar(M)|SNS" "S+V,default" ["NS"] []; Ko "Komar(M)|SNS" "S_inf,default" [] split_surf;
    Ko "Komar(M)|NS" "V_obj,default" ["NS"] []; Ko "Komar(M)|NS" "S_obj,default" [] [OB "NS_OB"];
    Ko "Komar(M)|NS1" "V_obj,default" ["NS1"] []; Ko "Komar(M)|NS1" "S_obj,default" [] [OB "NS1_OB"];
    Ko "Komar(M)|NS2" "V_obj,default" ["NS2"] []; Ko "Komar(M)|NS2" "S_obj,default" [] [OB "NS2_OB"];
    Ko "Komar(M)|SBH" "S_obj,default" [] [IB "BH_around_IB"]; Ko "Komar(M)|SBH" "S_inf,default" [] split_surf ]
    ++ Kany "Komar(M)|BH" [IB "BH_around_IB"] ++ Kany "Komar(M)|BH1" [IB "BH1_around_IB"] ++ Kany "Komar(M)|BH2" [IB "BH2_around_IB"].
End T.

(** case-insensitive choice of the row *)
Definition row_for (rows : list row) (q m : str) : option row := find (fun r => is q (r_quantity r) && is m (r_method r)) rows.
(** the items of a row on a grid whose patches carry the tags T: first the volume patches, then the surface patches, in grid order, each once;
    a region without patches stops the program *)
Section E.
  Variable T : patch -> list str.
  Definition has (l : list string) (p : patch) : bool :=
    existsb (fun t => if in_dec (list_eq_dec ascii_dec) (S_ t) (T p) then true else false) l.
  Fixpoint face_of (l : list (string * face)) (p : patch) : option face :=
    match l with [] => None | (t, f) :: r => if has [t] p then Some f else face_of r p end.
  Definition items_of_row (g : list patch) (r : row) : list item :=
    (map (fun p => mkitem p None (r_metric r) None) (filter (has (r_volume r)) g)
     ++ map (fun p => mkitem p (face_of (r_surface r) p) (r_metric r) (Some (r_metric r))) (filter (has (map fst (r_surface r))) g))%list.
  Definition empty_region (g : list patch) (l : list string) : bool := match l with [] => false | _ => negb (existsb (has l) g) end.
  Definition expected (g : list patch) (r : row) : outcome (list item * formula) :=
    if empty_region g (r_volume r) || empty_region g (map fst (r_surface r)) then Abort else Ok (items_of_row g r, r_formula r).
  Definition by_table (g : list patch) (rows : list row) (q m : str) : outcome (list item * formula) :=
    match row_for rows q m with Some r => expected g r | None => Abort end.
End E.
