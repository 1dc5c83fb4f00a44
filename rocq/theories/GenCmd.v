(** GENERATED by tools/cmdtab.py from Src/Main/Modules/Includes/physics_lib.h, Physics/phys_main.c and the main files of its modules. *)
From Coq Require Import String List.
Import ListNotations.
Open Scope string_scope.
(** enum CMD_T, physics_lib.h:122: the position in the list is the number *)
Definition cmd_names : list string := [
  "CMD_UNDEFINED";
  "STAR_TUNE_EULER_CONST";
  "STAR_TUNE_FORCE_BALANCE";
  "STAR_TUNE_CENTER";
  "STAR_EXTRAPOLATE_MATTERS";
  "STAR_START";
  "STAR_SET_PARAMS";
  "STAR_ADD_FIELDS";
  "STAR_FIND_SURFACE";
  "STRESS_ENERGY_UPDATE";
  "STRESS_ENERGY_SET_PARAMS";
  "STRESS_ENERGY_ADD_FIELDS";
  "BH_TUNE_RADIUS";
  "BH_TUNE_SPIN";
  "BH_FILL";
  "BH_FIND_SURFACE";
  "BH_START";
  "BH_SET_PARAMS";
  "BH_ADD_FIELDS";
  "BH_UPDATE_sConf";
  "BH_UPDATE_INNER_BC";
  "FREE_DATA_SET_PARAMS";
  "FREE_DATA_ADD_FIELDS";
  "FREE_DATA_POPULATE";
  "SYS_SET_PARAMS";
  "SYS_ADD_FIELDS";
  "SYS_TUNE_P_ADM";
  "SYS_INITIALIZE_FIELDS";
  "ADM_SET_PARAMS";
  "ADM_ADD_FIELDS";
  "ADM_UPDATE_Kij";
  "ADM_UPDATE_KIJ";
  "ADM_UPDATE_gij";
  "ADM_UPDATE_AConfIJ";
  "ADM_UPDATE_beta";
  "ADM_UPDATE_B1I";
  "ADM_COMPUTE_CONSTRAINTS";
  "ADM_DOCTEST";
  "OBSERVE_SET_PARAMS";
  "OBSERVE_ADD_FIELDS";
  "EQ_SET_PARAMS";
  "EQ_ADD_FIELDS";
  "EQ_SOLVE";
  "CMD_END"].
(** the switch of physics_main, phys_main.c:14: command, module *)
Definition physics_switch : list (string * string) := [
  ("STAR_TUNE_EULER_CONST", "star_main");
  ("STAR_TUNE_FORCE_BALANCE", "star_main");
  ("STAR_TUNE_CENTER", "star_main");
  ("STAR_FIND_SURFACE", "star_main");
  ("STAR_START", "star_main");
  ("STAR_ADD_FIELDS", "star_main");
  ("STAR_SET_PARAMS", "star_main");
  ("STAR_EXTRAPOLATE_MATTERS", "star_main");
  ("STRESS_ENERGY_UPDATE", "Tij_main");
  ("STRESS_ENERGY_SET_PARAMS", "Tij_main");
  ("STRESS_ENERGY_ADD_FIELDS", "Tij_main");
  ("BH_FIND_SURFACE", "bh_main");
  ("BH_TUNE_RADIUS", "bh_main");
  ("BH_TUNE_SPIN", "bh_main");
  ("BH_FILL", "bh_main");
  ("BH_START", "bh_main");
  ("BH_SET_PARAMS", "bh_main");
  ("BH_ADD_FIELDS", "bh_main");
  ("BH_UPDATE_sConf", "bh_main");
  ("BH_UPDATE_INNER_BC", "bh_main");
  ("FREE_DATA_SET_PARAMS", "fd_main");
  ("FREE_DATA_ADD_FIELDS", "fd_main");
  ("FREE_DATA_POPULATE", "fd_main");
  ("SYS_SET_PARAMS", "sys_main");
  ("SYS_ADD_FIELDS", "sys_main");
  ("SYS_TUNE_P_ADM", "sys_main");
  ("SYS_INITIALIZE_FIELDS", "sys_main");
  ("ADM_SET_PARAMS", "adm_main");
  ("ADM_ADD_FIELDS", "adm_main");
  ("ADM_UPDATE_Kij", "adm_main");
  ("ADM_UPDATE_KIJ", "adm_main");
  ("ADM_UPDATE_gij", "adm_main");
  ("ADM_UPDATE_B1I", "adm_main");
  ("ADM_UPDATE_beta", "adm_main");
  ("ADM_UPDATE_AConfIJ", "adm_main");
  ("ADM_COMPUTE_CONSTRAINTS", "adm_main");
  ("ADM_DOCTEST", "adm_main");
  ("OBSERVE_SET_PARAMS", "observe_main");
  ("OBSERVE_ADD_FIELDS", "observe_main");
  ("EQ_SET_PARAMS", "eq_main");
  ("EQ_ADD_FIELDS", "eq_main");
  ("EQ_SOLVE", "eq_main")].
(** the switches of the modules: command, function called *)
Definition module_switches : list (string * list (string * string)) := [
 (* Physics/Star/star_main.c:12 *) ("star_main", [
  ("STAR_TUNE_EULER_CONST", "tune_star_Euler_constant");
  ("STAR_EXTRAPOLATE_MATTERS", "extrapolate_star_matter");
  ("STAR_FIND_SURFACE", "find_star_surface");
  ("STAR_TUNE_FORCE_BALANCE", "tune_star_force_balance_equation");
  ("STAR_TUNE_CENTER", "tune_star_center");
  ("STAR_SET_PARAMS", "set_star_params");
  ("STAR_ADD_FIELDS", "add_star_fields");
  ("STAR_START", "start_off_star")]);
 (* Physics/StressEnergy_Tensor/Tij_main.c:12 *) ("Tij_main", [
  ("STRESS_ENERGY_UPDATE", "update_stress_energy_tensor");
  ("STRESS_ENERGY_SET_PARAMS", "set_stress_energy_params");
  ("STRESS_ENERGY_ADD_FIELDS", "add_stress_energy_tensor_fields")]);
 (* Physics/BlackHole/bh_main.c:12 *) ("bh_main", [
  ("BH_TUNE_RADIUS", "tune_black_hole_radius");
  ("BH_TUNE_SPIN", "tune_black_hole_spin");
  ("BH_FIND_SURFACE", "find_black_hole_surface");
  ("BH_FILL", "bh_fill_inside_black_hole");
  ("BH_START", "start_off_black_hole");
  ("BH_SET_PARAMS", "set_black_hole_params");
  ("BH_ADD_FIELDS", "add_black_hole_fields");
  ("BH_UPDATE_sConf", "update_conformal_normal_vector_on_AH");
  ("BH_UPDATE_INNER_BC", "update_inner_BC_values")]);
 (* Physics/Free_Data/fd_main.c:12 *) ("fd_main", [
  ("FREE_DATA_SET_PARAMS", "set_free_data_params");
  ("FREE_DATA_ADD_FIELDS", "add_free_data_fields");
  ("FREE_DATA_POPULATE", "populate_free_data")]);
 (* Physics/System/sys_main.c:13 *) ("sys_main", [
  ("SYS_SET_PARAMS", "set_system_params");
  ("SYS_ADD_FIELDS", "add_system_fields");
  ("SYS_TUNE_P_ADM", "tune_system_ADM_momenta");
  ("SYS_INITIALIZE_FIELDS", "initialize_fields")]);
 (* Physics/ADM/adm_main.c:12 *) ("adm_main", [
  ("ADM_SET_PARAMS", "set_adm_params");
  ("ADM_ADD_FIELDS", "add_adm_fields");
  ("ADM_COMPUTE_CONSTRAINTS", "compute_ham_and_mom_constrains");
  ("ADM_UPDATE_AConfIJ", "compute_AConfIJ");
  ("ADM_UPDATE_KIJ", "compute_adm_KIJ");
  ("ADM_UPDATE_Kij", "compute_adm_Kij");
  ("ADM_UPDATE_gij", "compute_adm_gij");
  ("ADM_UPDATE_B1I", "compute_B1I");
  ("ADM_UPDATE_beta", "compute_beta");
  ("ADM_DOCTEST", "preform_adm_doctest")]);
 (* Physics/Observe/obs_main.c:111 *) ("observe_main", [
  ("OBSERVE_SET_PARAMS", "set_observe_params");
  ("OBSERVE_ADD_FIELDS", "add_observe_fields")]);
 (* Physics/Equation/eq_main.c:11 *) ("eq_main", [
  ("EQ_SET_PARAMS", "set_equation_params");
  ("EQ_ADD_FIELDS", "add_equation_fields");
  ("EQ_SOLVE", "solve_equation")])].
