(** FluidModel.v - the parts of the fluid update the translator does not handle: NaN tests, coordinates of the node. *)
From Verif Require Import RealBase.
From Verif Require GenEnthalpy GenMass.

(** Tij_NS_ifluid_xcts_gConf_enthalpy.c:44-94.  The formulas (GenEnthalpy) give a finite real exactly when psi, alphaPsi <> 0 and
    both radicands are >= 0; otherwise some step is NaN or infinite, h is not finite and h = 1 is stored.  Simplified: doubles are
    reals, so overflow does not occur. *)
Definition disc_ent (E : GenEnthalpy.env) : R :=
  - 4 * (GenEnthalpy.alpha E) ^ 4 * (GenEnthalpy.uW E) ^ 2 + (GenEnthalpy.b E) ^ 2.
Definition finite_ent (E : GenEnthalpy.env) : bool :=
  negb (if Req_EM_T (GenEnthalpy.psi E) 0 then true else false) && negb (if Req_EM_T (GenEnthalpy.alphaPsi E) 0 then true else false)
  && (if Rle_dec 0 (disc_ent E) then true else false) && (if Rle_dec 0 (GenEnthalpy.h2 E) then true else false).
Definition enthalpy_new (E : GenEnthalpy.env) : R := if finite_ent E then GenEnthalpy.h E else 1.

(** star_NS_baryonic_gConf_mass.c:99-111: the same formulas; rho0 and u0 are 0 where h is not finite or LSSEQL(h,1).
    [rho0_of] is the rest mass density of the EoS. *)
Definition finite_mass (E : GenMass.env) : bool :=
  negb (if Req_EM_T (GenMass.psi E) 0 then true else false) && negb (if Req_EM_T (GenMass.alphaPsi E) 0 then true else false)
  && (if Rle_dec 0 (- 4 * (GenMass.alpha E) ^ 4 * (GenMass.uW E) ^ 2 + (GenMass.b E) ^ 2) then true else false)
  && (if Rle_dec 0 (GenMass.h2 E) then true else false).
Definition mass_integrand (rho0_of : R -> R) (E : GenMass.env) : R :=
  if negb (finite_mass E) || LSSEQL (GenMass.h E) 1 then 0 * 0 * GenMass.alpha E * GenMass.psi6 E
  else rho0_of (GenMass.h E) * GenMass.u0 E * GenMass.alpha E * GenMass.psi6 E.

(** macros_lib.h:227-250, RELAX_UPDATE_FUNC at one node: old value present or not (null v) *)
Definition relax_update (w : R) (old : option R) (new : R) : R :=
  match old with Some o => w * new + (1 - w) * o | None => new end.

(** star_NS.c:425-446 W_spin_vector_idealfluid at the node with coordinates x *)
Definition W_spin (Om C x : nat -> R) (i : nat) : R :=
  let X := x 0%nat - C 0%nat in let Y := x 1%nat - C 1%nat in let Z := x 2%nat - C 2%nat in
  match i with
  | 0%nat => Om 1%nat * Z - Om 2%nat * Y
  | 1%nat => Om 2%nat * X - Om 0%nat * Z
  | _ => Om 0%nat * Y - Om 1%nat * X
  end.

(** adm_updates.c:308-332 adm_update_B1I_inspiral: B1^i at the node with coordinates x *)
Definition B1_inspiral (Omega Vr D : R) (CM x : nat -> R) (i : nat) : R :=
  match i with
  | 0%nat => Omega * (- x 1%nat + CM 1%nat) + Vr * (x 0%nat - CM 0%nat) / D
  | 1%nat => Omega * (x 0%nat - CM 0%nat) + Vr * (x 1%nat - CM 1%nat) / D
  | _ => Vr * (x 2%nat - CM 2%nat) / D
  end.
(** adm_updates.c:334-359: stored first derivatives (i: component, a: axis) *)
Definition dB1_inspiral (Omega Vr D : R) (i a : nat) : R :=
  match i, a with
  | 0%nat, 2%nat => 0 | 0%nat, 1%nat => - Omega | 0%nat, 0%nat => Vr / D
  | 1%nat, 2%nat => 0 | 1%nat, 1%nat => Vr / D | 1%nat, 0%nat => Omega
  | 2%nat, 2%nat => Vr / D
  | _, _ => 0
  end.
(** adm_updates.c:361-381: stored second derivatives *)
Definition ddB1_inspiral (i a b : nat) : R := 0.

(** star_NS_ifluid_gConf_dLnGamma.c:108-110 and star_NS_ifluid_gConf_force_bal.c:158-164: the value handed to the root finder, from the
    interpolated G, dG, Gtilda, dGtilda.  Simplified: interpolation and differentiation at the star's centre are exact. *)
Definition dLnGamma (dG G : R) : R := dG / G.
Definition force_residual (dgt gt dlng : R) : R := dgt / gt + 2 * dlng.

(** star_NS.c:521-522, 620-626 (weights of the updated parameter): a change by more than 10 % is softened *)
Definition force_update (w old new : R) : R :=
  let w1 := if Rlt_dec (1 / 10) (Rabs (1 - new / old)) then w * (1 / 10) else w in
  w1 * new + (1 - w1) * old.
