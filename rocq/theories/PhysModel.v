(** PhysModel.v - the physics manager: commands, the objects of a system and their regions.
    Models Src/Main/Modules/Physics/phys_main.c and the parameter words of Physics/Star/star_main.c, BlackHole/bh_main.c and
    StressEnergy_Tensor/Tij_main.c.
    SIMPLIFICATIONS: a C function is its name; strings have no NUL; the return value of the function called is passed on
    unchanged; memory handling (free_physics) is left out. *)
From Verif Require Import Base TextModel TextToolsModel RegionModel GenCmd.
Open Scope list_scope.

(** *** physics_main, phys_main.c:14-100, followed by the switch of the module's main function: number of the command ->
    the function called.  Errors stop the program. *)
Definition lookup {A} (n : string) (l : list (string * A)) : option A :=
  match find (fun e => String.eqb (fst e) n) l with Some e => Some (snd e) | None => None end.
Definition physics_main (cmd : nat) : outcome string :=
  match nth_error cmd_names cmd with
  | None => Abort
  | Some c =>
    match lookup c physics_switch with
    | None => Abort
    | Some m => match lookup m module_switches with
                | None => Abort
                | Some sw => match lookup c sw with None => Abort | Some f => Ok f end
                end
    end
  end.
(** phys->cmd, set at :20 and reset at :97 (CMD_UNDEFINED = 0) whatever it was *)
Definition cmd_after (cmd before : nat) : outcome nat := do _ <- physics_main cmd; Ok 0.

(** *** init_physics, phys_main.c:105-372 *)
(** Com_Obj_T, physics_lib.h:186-200 *)
Inductive obj := OBJ_UNDEFINED | NS | NS1 | NS2 | BH | BH1 | BH2 | BHNS | BHBH | NSNS | SNS | SBH.
Inductive side := LEFT | RIGHT | CENTER | NONE.
(** Physics_T, physics_lib.h:206-236: type, ctype, stype, sys, ssys, pos *)
Record phys := mkphys { ph_type : obj; ph_ctype : obj; ph_stype : string; ph_sys : obj; ph_ssys : string; ph_pos : side }.
(** :130-172 *)
Definition system_of (project : str) : outcome (obj * string) :=
  let is (x : string) := strcmp_i (Some project) (Some (S_ x)) in
  if is "BH_NS_binary_initial_data"%string then Ok (BHNS, "BHNS"%string)
  else if is "NS_NS_binary_initial_data"%string then Ok (NSNS, "NSNS"%string)
  else if is "BH_BH_binary_initial_data"%string then Ok (BHBH, "BHBH"%string)
  else if is "Single_BH_initial_data"%string then Ok (SBH, "SBH"%string)
  else if is "Single_NS_initial_data"%string then Ok (SNS, "SNS"%string)
  else if is "Modules_Test"%string then Ok (OBJ_UNDEFINED, "OBJ_UNDEFINED"%string)
  else if is "TOV_Star"%string then Ok (OBJ_UNDEFINED, "OBJ_UNDEFINED"%string)
  else Abort.
(** the chains of strstr_i on grid_set_... *)
Definition side3 (v : str) : outcome side :=
  let sub (x : string) := strstr_i (Some v) (Some (S_ x)) in
  if sub "left"%string then Ok LEFT else if sub "right"%string then Ok RIGHT else if sub "center"%string then Ok CENTER else Abort.
Definition side2 (v : str) : outcome side :=
  let sub (x : string) := strstr_i (Some v) (Some (S_ x)) in
  if sub "left"%string then Ok LEFT else if sub "right"%string then Ok RIGHT else Abort.
Definition side1 (v : str) : outcome side :=
  if strstr_i (Some v) (Some (S_ "center")) then Ok CENTER else Abort.
(** the parameters: Pgets of a name that is not there stops the program *)
Definition Pgets_n (get : string -> option str) (n : string) : outcome str := match get n with Some v => Ok v | None => Abort end.
Definition init_physics (get : string -> option str) (type : obj) : outcome phys :=
  do prj <- Pgets_n get "project";
  do s <- system_of prj;
  let '(sys, ssys) := s in
  let at_side (f : str -> outcome side) (key : string) (ctype : obj) (stype : string) :=
    do v <- Pgets_n get key; do p <- f v; Ok (mkphys type ctype stype sys ssys p) in
  match type with
  | NS => at_side side3 "grid_set_NS"%string NS "NS"%string
  | NS1 => at_side side2 "grid_set_NS1"%string NS "NS1"%string
  | NS2 => at_side side2 "grid_set_NS2"%string NS "NS2"%string
  | BH => at_side side3 "grid_set_BH"%string BH "BH"%string
  | BH1 => at_side side2 "grid_set_BH1"%string BH "BH1"%string
  | BH2 => at_side side2 "grid_set_BH2"%string BH "BH2"%string
  | SBH => at_side side1 "grid_set_BH"%string SBH "SBH"%string
  | SNS => at_side side1 "grid_set_NS"%string SNS "SNS"%string
  | BHNS => Ok (mkphys type BHNS "BHNS" sys ssys NONE)
  | BHBH => Ok (mkphys type BHBH "BHBH" sys ssys NONE)
  | NSNS => Ok (mkphys type NSNS "NSNS" sys ssys NONE)
  | OBJ_UNDEFINED => Abort
  end.

(** *** phys_autoindex_stype, phys_main.c:410-464.  stemp has 99 characters (physics_lib.h:7) and the replacement is written
    into it piece by piece; on a grid of kind [k] for the physics [ph]. *)
Definition phys_autoindex_stype (k : kind) (ph : phys) (s : str) : outcome str :=
  let has (x : string) := found s (S_ x) in
  if str_eqb s (S_ ".*") then Ok s
  else if negb (has "NS"%string) && negb (has "BH"%string) then Ok s
  else if has "NS"%string && has "BH"%string then if kind_eqb k K_SCS_BHNS then Ok s else Abort
  else if has "BH1"%string && has "BH2"%string then if kind_eqb k K_SCS_BHBH then Ok s else Abort
  else if has "NS1"%string && has "NS2"%string then if kind_eqb k K_SCS_NSNS then Ok s else Abort
  else if match ph_type ph with NS | BH => true | _ => false end
          || existsb (ch_eqb "1"%char) s || existsb (ch_eqb "2"%char) s then Ok s
  else match ph_ctype ph with
       | NS | BH =>
         do r <- regex_replace (rx_either (S_ "NS") (S_ "BH")) (S_ (ph_stype ph)) s;
         if Nat.ltb (List.length (snd r)) 99 then Ok (snd r) else UB
       | _ => Abort
       end.
(** *** mygrid, phys_main.c:471-494: the patches of the grid made *)
Definition mygrid (k : kind) (g : list patch) (ph : phys) (region : str) : outcome (list patch) :=
  do r <- phys_autoindex_stype k ph region; collect_patches k g r.

(** *** the words of the module parameters: [par] the parameters with the module's prefix, [get] those of the object *)
Section Words.
Variable par get : string -> option str.
(** Pcmps and IF_sval: the parameter must exist *)
Definition is_p (src : string -> option str) (n w : string) : outcome bool := do v <- Pgets_n src n; Ok (strcmp_i (Some v) (Some (S_ w))).
(** star_main.c:64-204: the five actions and adding fields differ in the function called *)
Definition star_checked {A} (r : outcome A) : outcome A :=
  do t <- is_p par "type" "NS";
  if t then
    do f <- is_p par "NS_fluid" "ideal_fluid";
    do c <- (if f then is_p par "NS_gConf" "general" else Ok false);
    if f && c then r else Abort
  else Abort.
Definition star_action (cmd : string) : outcome string :=
  if String.eqb cmd "STAR_TUNE_EULER_CONST" then
    star_checked (do c <- is_p get "Euler_const_criteria" "fix_baryonic_mass";
                  if c then Ok "star_NS_ifluid_gConf_find_EulerC_fix_baryon_mass"%string else Abort)
  else if String.eqb cmd "STAR_EXTRAPOLATE_MATTERS" then star_checked (Ok "star_NS_idealfluid_extrapolate_matter_fields"%string)
  else if String.eqb cmd "STAR_FIND_SURFACE" then star_checked (Ok "star_NS_find_star_surface"%string)
  else if String.eqb cmd "STAR_TUNE_FORCE_BALANCE" then star_checked (Ok "star_NS_idealfluid_gConf_force_balance"%string)
  else if String.eqb cmd "STAR_TUNE_CENTER" then star_checked (Ok "star_NS_keep_center_fixed"%string)
  else if String.eqb cmd "STAR_ADD_FIELDS" then star_checked (Ok "star_NS_idealfluid_gConf_add_fields"%string)
  (* star_main.c:334-346 *)
  else if String.eqb cmd "STAR_START" then do c <- is_p get "start_off" "TOV"; if c then Ok "star_start_off_TOV"%string else Abort
  else Abort.
(** bh_main.c:156-251 *)
Definition bh_action (cmd : string) : outcome string :=
  let surface (l : list (string * string)) :=
    do v <- Pgets_n get "surface_type";
    match find (fun e => strcmp_i (Some v) (Some (S_ (fst e)))) l with Some e => Ok (snd e) | None => Abort end in
  if String.eqb cmd "BH_TUNE_RADIUS" then
    do c <- is_p get "tune_BH_radius_criteria" "fix_irreducible_mass";
    if c then surface [("perfect_s2", "bh_tune_BH_radius_irreducible_mass_perfect_s2")]%string else Abort
  else if String.eqb cmd "BH_TUNE_SPIN" then Ok "bh_tune_BH_chi_simple"%string
  else if String.eqb cmd "BH_FIND_SURFACE" then
    surface [("perfect_s2", "bh_find_bh_surface_perfect_s2"); ("KerrSchild_s2", "bh_find_bh_surface_KerrSchild_s2")]%string
  else if String.eqb cmd "BH_START" then
    do v <- Pgets_n get "start_off";
    let is (x : string) := strcmp_i (Some v) (Some (S_ x)) in
    if is "KerrSchild"%string then
      surface [("perfect_s2", "bh_start_off_KerrSchild_perfect_s2"); ("KerrSchild_s2", "bh_start_off_KerrSchild_general_s2")]%string
    else if is "CloseKerrSchild"%string then surface [("perfect_s2", "bh_start_off_CloseKerrSchild_perfect_s2")]%string
    else if is "IsoSchild"%string then surface [("perfect_s2", "bh_start_off_IsoSchild_perfect_s2")]%string
    else if is "PGSchild"%string then surface [("perfect_s2", "bh_start_off_PGSchild_perfect_s2")]%string
    else Abort
  else Abort.
(** Tij_main.c:74-111: updating and adding the fields *)
Definition Tij_action (cmd : string) : outcome string :=
  let decomposed (r : string) :=
    do d <- is_p par "NS_decomposition" "XCTS";
    do c <- (if d then is_p par "NS_gConf" "general" else Ok false);
    if d && c then Ok r else Abort in
  if String.eqb cmd "STRESS_ENERGY_ADD_FIELDS" then decomposed "Tij_NS_idealfluid_XCTS_gConf_add_fields"%string
  else if String.eqb cmd "STRESS_ENERGY_UPDATE" then
    do f <- is_p par "fluid" "NS_ideal_fluid"; if f then decomposed "Tij_NS_idealfluid_XCTS_gConf_update"%string else Abort
  else Abort.
End Words.
