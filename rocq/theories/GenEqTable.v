(** GENERATED by tools/eqtab.py from Src/Main/Modules/Physics/Equation/eq_main.c. *)
From Coq Require Import String List.
Import ListNotations.
Open Scope string_scope.
(** Src/Main/Modules/Physics/Equation/eq_main.c:131-338: every call add_eq(&db,function,"name"), in the order of the text.  The number is the database:
    0 field equations, 1 boundary conditions, 2 Jacobians of the field equations, 3 Jacobians of the boundary conditions. *)
Definition add_eq_calls : list (nat * string * string) := [
  (0, "eq_XCTS_curve_T1_ddm_eq_phi", "eq_XCTS_curve_Type1_ddm_phi");
  (1, "eq_XCTS_curve_T1_ddm_bc_phi", "bc_XCTS_curve_Type1_ddm_phi");
  (2, "eq_XCTS_curve_T1_ddm_jacobian_eq_phi", "jacobian_eq_XCTS_curve_Type1_ddm_phi");
  (3, "eq_XCTS_curve_T1_ddm_jacobian_bc_phi", "jacobian_bc_XCTS_curve_Type1_ddm_phi");
  (0, "eq_XCTS_curve_T1_ddm_eq_phi", "eq_XCTS_curve_Type1_ddm_phi1");
  (1, "eq_XCTS_curve_T1_ddm_bc_phi", "bc_XCTS_curve_Type1_ddm_phi1");
  (2, "eq_XCTS_curve_T1_ddm_jacobian_eq_phi", "jacobian_eq_XCTS_curve_Type1_ddm_phi1");
  (3, "eq_XCTS_curve_T1_ddm_jacobian_bc_phi", "jacobian_bc_XCTS_curve_Type1_ddm_phi1");
  (0, "eq_XCTS_curve_T1_ddm_eq_phi", "eq_XCTS_curve_Type1_ddm_phi2");
  (1, "eq_XCTS_curve_T1_ddm_bc_phi", "bc_XCTS_curve_Type1_ddm_phi2");
  (2, "eq_XCTS_curve_T1_ddm_jacobian_eq_phi", "jacobian_eq_XCTS_curve_Type1_ddm_phi2");
  (3, "eq_XCTS_curve_T1_ddm_jacobian_bc_phi", "jacobian_bc_XCTS_curve_Type1_ddm_phi2");
  (0, "eq_XCTS_curve_T2_ddm_eq_phi", "eq_XCTS_curve_Type2_ddm_phi");
  (1, "eq_XCTS_curve_T1_ddm_bc_phi", "bc_XCTS_curve_Type2_ddm_phi");
  (2, "eq_XCTS_curve_T1_ddm_jacobian_eq_phi", "jacobian_eq_XCTS_curve_Type2_ddm_phi");
  (3, "eq_XCTS_curve_T1_ddm_jacobian_bc_phi", "jacobian_bc_XCTS_curve_Type2_ddm_phi");
  (0, "eq_XCTS_curve_T2_ddm_eq_phi", "eq_XCTS_curve_Type2_ddm_phi1");
  (1, "eq_XCTS_curve_T1_ddm_bc_phi", "bc_XCTS_curve_Type2_ddm_phi1");
  (2, "eq_XCTS_curve_T1_ddm_jacobian_eq_phi", "jacobian_eq_XCTS_curve_Type2_ddm_phi1");
  (3, "eq_XCTS_curve_T1_ddm_jacobian_bc_phi", "jacobian_bc_XCTS_curve_Type2_ddm_phi1");
  (0, "eq_XCTS_curve_T2_ddm_eq_phi", "eq_XCTS_curve_Type2_ddm_phi2");
  (1, "eq_XCTS_curve_T1_ddm_bc_phi", "bc_XCTS_curve_Type2_ddm_phi2");
  (2, "eq_XCTS_curve_T1_ddm_jacobian_eq_phi", "jacobian_eq_XCTS_curve_Type2_ddm_phi2");
  (3, "eq_XCTS_curve_T1_ddm_jacobian_bc_phi", "jacobian_bc_XCTS_curve_Type2_ddm_phi2");
  (0, "eq_XCTS_curve_T2_ddm_eq_phi", "eq_XCTS_curve_Type3_ddm_phi");
  (1, "eq_XCTS_curve_T3_ddm_bc_phi", "bc_XCTS_curve_Type3_ddm_phi");
  (2, "eq_XCTS_curve_T1_ddm_jacobian_eq_phi", "jacobian_eq_XCTS_curve_Type3_ddm_phi");
  (3, "eq_XCTS_curve_T3_ddm_jacobian_bc_phi", "jacobian_bc_XCTS_curve_Type3_ddm_phi");
  (0, "eq_XCTS_curve_T2_ddm_eq_phi", "eq_XCTS_curve_Type3_ddm_phi1");
  (1, "eq_XCTS_curve_T3_ddm_bc_phi", "bc_XCTS_curve_Type3_ddm_phi1");
  (2, "eq_XCTS_curve_T1_ddm_jacobian_eq_phi", "jacobian_eq_XCTS_curve_Type3_ddm_phi1");
  (3, "eq_XCTS_curve_T3_ddm_jacobian_bc_phi", "jacobian_bc_XCTS_curve_Type3_ddm_phi1");
  (0, "eq_XCTS_curve_T2_ddm_eq_phi", "eq_XCTS_curve_Type3_ddm_phi2");
  (1, "eq_XCTS_curve_T3_ddm_bc_phi", "bc_XCTS_curve_Type3_ddm_phi2");
  (2, "eq_XCTS_curve_T1_ddm_jacobian_eq_phi", "jacobian_eq_XCTS_curve_Type3_ddm_phi2");
  (3, "eq_XCTS_curve_T3_ddm_jacobian_bc_phi", "jacobian_bc_XCTS_curve_Type3_ddm_phi2");
  (0, "eq_XCTS_curve_T1_ddm_eq_phi", "eq_XCTS_curve_Type4_ddm_phi");
  (1, "eq_XCTS_curve_T3_ddm_bc_phi", "bc_XCTS_curve_Type4_ddm_phi");
  (2, "eq_XCTS_curve_T1_ddm_jacobian_eq_phi", "jacobian_eq_XCTS_curve_Type4_ddm_phi");
  (3, "eq_XCTS_curve_T3_ddm_jacobian_bc_phi", "jacobian_bc_XCTS_curve_Type4_ddm_phi");
  (0, "eq_XCTS_curve_T1_ddm_eq_phi", "eq_XCTS_curve_Type4_ddm_phi1");
  (1, "eq_XCTS_curve_T3_ddm_bc_phi", "bc_XCTS_curve_Type4_ddm_phi1");
  (2, "eq_XCTS_curve_T1_ddm_jacobian_eq_phi", "jacobian_eq_XCTS_curve_Type4_ddm_phi1");
  (3, "eq_XCTS_curve_T3_ddm_jacobian_bc_phi", "jacobian_bc_XCTS_curve_Type4_ddm_phi1");
  (0, "eq_XCTS_curve_T1_ddm_eq_phi", "eq_XCTS_curve_Type4_ddm_phi2");
  (1, "eq_XCTS_curve_T3_ddm_bc_phi", "bc_XCTS_curve_Type4_ddm_phi2");
  (2, "eq_XCTS_curve_T1_ddm_jacobian_eq_phi", "jacobian_eq_XCTS_curve_Type4_ddm_phi2");
  (3, "eq_XCTS_curve_T3_ddm_jacobian_bc_phi", "jacobian_bc_XCTS_curve_Type4_ddm_phi2");
  (0, "eq_XCTS_curve_exc_T1_ddm_eq_psi", "eq_XCTS_curve_excision_Type1_ddm_psi");
  (1, "eq_XCTS_curve_exc_T1_ddm_bc_psi", "bc_XCTS_curve_excision_Type1_ddm_psi");
  (2, "eq_XCTS_curve_exc_T1_ddm_jacobian_eq_psi", "jacobian_eq_XCTS_curve_excision_Type1_ddm_psi");
  (3, "eq_XCTS_curve_exc_T1_ddm_jacobian_bc_psi", "jacobian_bc_XCTS_curve_excision_Type1_ddm_psi");
  (0, "eq_XCTS_curve_exc_T1_ddm_eq_alphaPsi", "eq_XCTS_curve_excision_Type1_ddm_alphaPsi");
  (1, "eq_XCTS_curve_exc_T1_ddm_bc_alphaPsi", "bc_XCTS_curve_excision_Type1_ddm_alphaPsi");
  (2, "eq_XCTS_curve_exc_T1_ddm_jacobian_eq_alphaPsi", "jacobian_eq_XCTS_curve_excision_Type1_ddm_alphaPsi");
  (3, "eq_XCTS_curve_exc_T1_ddm_jacobian_bc_alphaPsi", "jacobian_bc_XCTS_curve_excision_Type1_ddm_alphaPsi");
  (0, "eq_XCTS_curve_exc_T1_ddm_eq_alphaPsi", "eq_XCTS_curve_excision_Type2_ddm_alphaPsi");
  (1, "eq_XCTS_curve_exc_T2_ddm_bc_alphaPsi", "bc_XCTS_curve_excision_Type2_ddm_alphaPsi");
  (2, "eq_XCTS_curve_exc_T1_ddm_jacobian_eq_alphaPsi", "jacobian_eq_XCTS_curve_excision_Type2_ddm_alphaPsi");
  (3, "eq_XCTS_curve_exc_T2_ddm_jacobian_bc_alphaPsi", "jacobian_bc_XCTS_curve_excision_Type2_ddm_alphaPsi");
  (0, "eq_XCTS_curve_exc_T1_ddm_eq_B0_U0", "eq_XCTS_curve_excision_Type1_ddm_B0_U0");
  (1, "eq_XCTS_curve_exc_T1_ddm_bc_B0_U0", "bc_XCTS_curve_excision_Type1_ddm_B0_U0");
  (2, "eq_XCTS_curve_exc_T1_ddm_jacobian_eq_B0_U0", "jacobian_eq_XCTS_curve_excision_Type1_ddm_B0_U0");
  (3, "eq_XCTS_curve_exc_T1_ddm_jacobian_bc_B0_U0", "jacobian_bc_XCTS_curve_excision_Type1_ddm_B0_U0");
  (0, "eq_XCTS_curve_exc_T1_ddm_eq_B0_U1", "eq_XCTS_curve_excision_Type1_ddm_B0_U1");
  (1, "eq_XCTS_curve_exc_T1_ddm_bc_B0_U1", "bc_XCTS_curve_excision_Type1_ddm_B0_U1");
  (2, "eq_XCTS_curve_exc_T1_ddm_jacobian_eq_B0_U1", "jacobian_eq_XCTS_curve_excision_Type1_ddm_B0_U1");
  (3, "eq_XCTS_curve_exc_T1_ddm_jacobian_bc_B0_U1", "jacobian_bc_XCTS_curve_excision_Type1_ddm_B0_U1");
  (0, "eq_XCTS_curve_exc_T1_ddm_eq_B0_U2", "eq_XCTS_curve_excision_Type1_ddm_B0_U2");
  (1, "eq_XCTS_curve_exc_T1_ddm_bc_B0_U2", "bc_XCTS_curve_excision_Type1_ddm_B0_U2");
  (2, "eq_XCTS_curve_exc_T1_ddm_jacobian_eq_B0_U2", "jacobian_eq_XCTS_curve_excision_Type1_ddm_B0_U2");
  (3, "eq_XCTS_curve_exc_T1_ddm_jacobian_bc_B0_U2", "jacobian_bc_XCTS_curve_excision_Type1_ddm_B0_U2");
  (0, "eq_XCTS_curve_exc_T1_ddm_eq_B0_U0", "eq_XCTS_flat_excision_Type1_ddm_B0_U0");
  (1, "eq_XCTS_curve_exc_T1_ddm_bc_B0_U0", "bc_XCTS_flat_excision_Type1_ddm_B0_U0");
  (2, "eq_XCTS_flat_exc_T1_ddm_jacobian_eq_B0_U0", "jacobian_eq_XCTS_flat_excision_Type1_ddm_B0_U0");
  (3, "eq_XCTS_curve_exc_T1_ddm_jacobian_bc_B0_U0", "jacobian_bc_XCTS_flat_excision_Type1_ddm_B0_U0");
  (0, "eq_XCTS_curve_exc_T1_ddm_eq_B0_U1", "eq_XCTS_flat_excision_Type1_ddm_B0_U1");
  (1, "eq_XCTS_curve_exc_T1_ddm_bc_B0_U1", "bc_XCTS_flat_excision_Type1_ddm_B0_U1");
  (2, "eq_XCTS_flat_exc_T1_ddm_jacobian_eq_B0_U1", "jacobian_eq_XCTS_flat_excision_Type1_ddm_B0_U1");
  (3, "eq_XCTS_curve_exc_T1_ddm_jacobian_bc_B0_U1", "jacobian_bc_XCTS_flat_excision_Type1_ddm_B0_U1");
  (0, "eq_XCTS_curve_exc_T1_ddm_eq_B0_U2", "eq_XCTS_flat_excision_Type1_ddm_B0_U2");
  (1, "eq_XCTS_curve_exc_T1_ddm_bc_B0_U2", "bc_XCTS_flat_excision_Type1_ddm_B0_U2");
  (2, "eq_XCTS_flat_exc_T1_ddm_jacobian_eq_B0_U2", "jacobian_eq_XCTS_flat_excision_Type1_ddm_B0_U2");
  (3, "eq_XCTS_curve_exc_T1_ddm_jacobian_bc_B0_U2", "jacobian_bc_XCTS_flat_excision_Type1_ddm_B0_U2")].
(** Src/Main/Modules/Physics/Equation/eq_main.c:99-106: the default of the parameter "EQ_<field>" *)
Definition eq_defaults : list (string * string) := [
  ("phi", "XCTS_curve_Type2_DDM,NS");
  ("phi1", "XCTS_curve_Type2_DDM,NS1");
  ("phi2", "XCTS_curve_Type2_DDM,NS2");
  ("psi", "XCTS_curve_excision_Type1_DDM,.*");
  ("alphaPsi", "XCTS_curve_excision_Type1_DDM,.*");
  ("B0_U0", "XCTS_curve_excision_Type1_DDM,.*");
  ("B0_U1", "XCTS_curve_excision_Type1_DDM,.*");
  ("B0_U2", "XCTS_curve_excision_Type1_DDM,.*")].
