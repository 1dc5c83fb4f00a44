(** ObsReportModel.v - from the items to the reported number: obs_calculate.c obs_integral_SV 3262-3330 and the end of the obs_*.c files;
    define_spin_JRP 404-438, Rc_BH 442-545; obs_BH_irreducible_mass_CS.c:69-82.
    S i, V i stand for the value of the surface or volume integral of the integrand on item i (execute_integration; properties C61-C68). *)
From Coq Require Import Reals.
From Verif Require Import Base RegionModel GenObsDisp ObsDispModel.
Open Scope R_scope.

(** obs_integral_SV, obs_calculate.c:3262-3330; sS, sV are the names of the integrands, None is the null pointer: patch->fields[Ind(0)] *)
Definition Sign (c : ascii) : R := if Ascii.eqb c "+"%char then 1 else -1.
Definition sign_ok (c : ascii) : bool := Ascii.eqb c "+"%char || Ascii.eqb c "-"%char.
Definition one_item (S V : option (item -> R)) (sS sV : ascii) (i : item) : outcome R :=
  match it_face i with
  | Some _ => match S with Some f => Ok (Sign sS * f i + Sign sV * 0) | None => UB end
  | None => match V with Some f => Ok (Sign sS * 0 + Sign sV * f i) | None => UB end
  end.
Fixpoint sum_items (f : item -> outcome R) (acc : R) (l : list item) : outcome R :=
  match l with [] => Ok acc | i :: r => do x <- f i; sum_items f (acc + x) r end.
Definition obs_integral_SV (S V : option (item -> R)) (sS sV : ascii) (l : list item) : outcome R :=
  if sign_ok sS && sign_ok sV then match l with [] => Abort | _ => sum_items (one_item S V sS sV) 0 l end else Abort.
Definition oscale (x : outcome R) (d : R) : outcome R := do y <- x; Ok (y / d).
(** the last lines of obs_ADM_P_S_default.c:142, obs_ADM_P_Stokes_Ossokine.c:289, obs_ADM_P_Stokes_Rashti.c:367, obs_ADM_P_Stokes_constraint.c:451,
    obs_ADM_J_S_default.c:174, obs_ADM_J_Stokes_Ossokine.c:127, obs_ADM_J_Stokes_constraint.c:719, obs_ADM_mass_SV_conformal.c:127,
    obs_ADM_mass_SV_isotropic.c:66-162, obs_ADM_mass_S2.c:56-127, obs_Komar_mass.c:103-225 *)
Definition report (F : formula) (S V : item -> R) (l : list item) : outcome R :=
  match F with
  | F_obs_ADM_P_S_default | F_obs_ADM_J_S_default | F_obs_ADM_J_Stokes_SV_Ossokine => oscale (obs_integral_SV (Some S) None "+"%char "+"%char l) (8 * PI)
  | F_obs_ADM_P_Stokes_SV_Ossokine => oscale (obs_integral_SV (Some S) (Some V) "+"%char "-"%char l) (8 * PI)
  | F_obs_ADM_P_Stokes_SV_Rashti | F_obs_ADM_P_Stokes_SV_constraint | F_obs_ADM_J_Stokes_SV_constraint => oscale (obs_integral_SV (Some S) (Some V) "+"%char "+"%char l) (8 * PI)
  | F_obs_ADM_mass_SV_conformal => obs_integral_SV (Some S) (Some V) "+"%char "+"%char l
  | F_obs_ADM_mass_SV_isotropic => oscale (sum_items (fun i => Ok (match it_face i with Some _ => S i | None => V i end)) 0 l) (-2 * PI)
  | F_obs_ADM_mass_S2 => oscale (sum_items (fun i => match it_face i with Some _ => Ok (S i) | None => Abort end) 0 l) (16 * PI)
  | F_obs_Komar_mass => sum_items (fun i => Ok (match it_face i with Some _ => S i / (4 * PI) | None => V i end)) 0 l
  | NoFormula => Abort
  end.

(** define_spin_JRP, obs_calculate.c:404-438 *)
Definition spin_JRP (J Rc P : R * R * R) : R * R * R :=
  let '(J0, J1, J2) := J in let '(R0, R1, R2) := Rc in let '(P0, P1, P2) := P in
  (J0 - (- P1 * R2 + P2 * R1), J1 - (P0 * R2 - P2 * R0), J2 - (- P0 * R1 + P1 * R0)).
(** Rc_BH, obs_calculate.c:442-545: the integral over a patch's surface as a sum over its nodes with weights (Spectral integration; C61-C68) *)
Definition node := (R * R * R * R)%type. (* x, y, z, weight *)
Definition nx (n : node) : R := fst (fst (fst n)).
Definition ny (n : node) : R := snd (fst (fst n)).
Definition nz (n : node) : R := snd (fst n).
Definition nw (n : node) : R := snd n.
Definition surf_int (f : node -> R) (p : list node) : R := fold_left (fun a n => a + nw n * f n) p 0.
Definition all_int (f : node -> R) (ps : list (list node)) : R := fold_left (fun a p => a + surf_int f p) ps 0.
Definition Rc_BH (CM : R * R * R) (AH_area : R) (ps : list (list node)) : R * R * R :=
  let '(x_CM, y_CM, z_CM) := CM in
  (all_int (fun n => nx n - x_CM) ps / AH_area, all_int (fun n => ny n - y_CM) ps / AH_area, all_int (fun n => nz n - z_CM) ps / AH_area).
(** obs_BH_irreducible_mass_CS.c:69-82 *)
Definition A_AH (ps : list (list node)) : R := all_int (fun _ => 1) ps.
Definition irreducible_mass (ps : list (list node)) : R := sqrt (A_AH ps / (16 * PI)).
