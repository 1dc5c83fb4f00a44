(** ControlModel.v - the control loops of an iteration: black hole radius and spin, centre of mass,
    star surface search, Euler constant, force balance, and the vectors set on a horizon.
    Models Physics/BlackHole/bh_bh.c, bh_expansion_of_AH.c, Physics/System/sys_tune.c,
    Physics/Star/star_NS.c and star_NS_surface.c (all in Src/Main/Modules).
    SIMPLIFICATIONS: a double is an exact real; parameters are arguments, a Setd is a component of the
    result; printing is left out; a quotient is Coq's, so the theorems assume that divisors are not 0. *)
From Verif Require Import RealBase TensorSpec.
From Verif Require Base GenAH.
Import Base(outcome, Ok, Abort, UB, obind).
Open Scope R_scope.

(** ** Start-off parameters *)
(** What bh_start_off_* stores: perfect_S2_radius (= min_radius = max_radius), Christodoulou_mass, spin_a.
    UB stands for storing a value that is not a number (sqrt of a negative number). *)
Record bh_start := mkstart { st_radius : R; st_chr : R; st_spin_a : R }.
(** bh_bh.c:15-43 bh_start_off_KerrSchild_perfect_s2 and bh_bh.c:151-177 (Painleve-Gullstrand) *)
Definition start_KS (irr : R) : bh_start := mkstart (2*irr) irr 0.
(** bh_bh.c:122-147 bh_start_off_IsoSchild_perfect_s2 *)
Definition start_Iso (irr : R) : bh_start := mkstart (1/2*irr) irr 0.
(** bh_bh.c:56-58, 96-98: net dimensionless spin and Christodoulou mass *)
Definition net_chi (chi : nat -> R) : R := sqrt (chi 0%nat * chi 0%nat + chi 1%nat * chi 1%nat + chi 2%nat * chi 2%nat).
Definition chr_mass (irr chi : R) : R := irr * sqrt (2 / (1 + sqrt (1 - chi*chi))).
(** bh_bh.c:47-84 bh_start_off_CloseKerrSchild_perfect_s2 (Setd("Christodoulou_mass",bh_irr_mass) at :73) *)
Definition start_Close (irr : R) (chi : nat -> R) : outcome bh_start :=
  let c := net_chi chi in
  if GRT c 1 then Abort else if ltR (1 - c*c) 0 then UB else Ok (mkstart (3/2*irr) irr (c * chr_mass irr c)).
(** bh_bh.c:89-120 bh_start_off_KerrSchild_general_s2; the radius there is only printed. *)
Definition start_KSgen (irr : R) (chi : nat -> R) : outcome bh_start :=
  let c := net_chi chi in
  if GRT c 1 then Abort else if ltR (1 - c*c) 0 then UB else
  Ok (mkstart (chr_mass irr c * (1 + sqrt (1 - c*c))) (chr_mass irr c) (c * chr_mass irr c)).

(** ** Black hole radius *)
(** bh_bh.c:254-297 bh_tune_BH_radius_irreducible_mass_perfect_s2: new radius (stored in min_radius,
    max_radius and perfect_S2_radius) and the flag did_BH_surface_change?. *)
Definition tune_dr (target r W tol irr : R) : R :=
  let dM := Rabs (irr/target - 1) in
  let dr := - r * (irr/target - 1) in
  let dr := if EQL W 0 then 0 else dr in
  if LSSEQL dM tol then 0 else dr.
Definition tune_radius (target r W tol irr : R) : R * bool :=
  let dr := tune_dr target r W tol irr in (r + W*dr, negb (EQL dr 0)).

(** ** Black hole spin *)
(** bh_bh.c:319-328: Christodoulou mass and current dimensionless spin *)
Definition chr_mass_now (irr : R) (s : nat -> R) : R :=
  let net := sqrt (s 0%nat * s 0%nat + s 1%nat * s 1%nat + s 2%nat * s 2%nat) in
  sqrt (irr*irr + net*net/(4*(irr*irr))).
Definition chi_now (irr : R) (s : nat -> R) (i : nat) : R := s i / (chr_mass_now irr s * chr_mass_now irr s).
(** bh_bh.c:300-357 bh_tune_BH_chi_simple: the new Omega_x, Omega_y, Omega_z *)
Definition tune_chi (W tol : R) (chi omega : nat -> R) (omega_sys irr : R) (s : nat -> R) (i : nat) : R :=
  if EQL W 0 then omega i
  else let d := chi_now irr s i - chi i in
       if GRT (Rabs d) tol then omega i + W*d*Rabs omega_sys else omega i.

(** ** Normal and boundary values on the horizon *)
(** bh_bh.c:474-480 and 514-518: n^i = x^i/r *)
Definition rad (x : nat -> R) : R := sqrt (x 0%nat * x 0%nat + x 1%nat * x 1%nat + x 2%nat * x 2%nat).
Definition nhat (x : nat -> R) (i : nat) : R := x i / rad x.
(** bh_bh.c:482-488: bh__n = sqrt(N2) *)
Definition bh__n (g : nat -> nat -> R) (x : nat -> R) : R :=
  let n := nhat x in
  sqrt (g 0%nat 0%nat * n 0%nat ^ 2 + 2 * g 0%nat 1%nat * n 0%nat * n 1%nat + 2 * g 0%nat 2%nat * n 0%nat * n 2%nat
        + g 1%nat 1%nat * n 1%nat ^ 2 + 2 * g 1%nat 2%nat * n 1%nat * n 2%nat + g 2%nat 2%nat * n 2%nat ^ 2).
(** bh_bh.c:521-523 *)
Definition sConf (N : R) (x : nat -> R) (i : nat) : R := nhat x i / N.
(** bh_bh.c:525-540: dn[i][j] and dbh_sConf_UiDj; [dN j] is the spectral derivative of bh__n. *)
Definition dsConf (N : R) (dN x : nat -> R) (i j : nat) : R :=
  let dn := ((if Nat.eqb i j then 1 else 0) - nhat x i * nhat x j) / rad x in
  (dn - nhat x i * dN j / N) / N.
(** bh_bh.c:585-600 set_beta_inner_bc_alpha_omegaXr; x is relative to the centre of the hole *)
Definition OmegaXr (Om x : nat -> R) (i : nat) : R :=
  match i with
  | 0%nat => Om 1%nat * x 2%nat - Om 2%nat * x 1%nat
  | 1%nat => - Om 0%nat * x 2%nat + Om 2%nat * x 0%nat
  | _ => Om 0%nat * x 1%nat - Om 1%nat * x 0%nat
  end.
Definition beta_ibc (alphaPsi psi : R) (s Om x : nat -> R) (i : nat) : R :=
  let alpha := alphaPsi/psi in let S := s i / psi^2 in OmegaXr Om x i + S*alpha.
(** star_NS.c:425-445 W_spin_vector_idealfluid; x is relative to the centre of the star *)
Definition W_spin (Om x : nat -> R) (i : nat) : R :=
  match i with
  | 0%nat => Om 1%nat * x 2%nat - Om 2%nat * x 1%nat
  | 1%nat => Om 2%nat * x 0%nat - Om 0%nat * x 2%nat
  | _ => Om 0%nat * x 1%nat - Om 1%nat * x 0%nat
  end.
(** bh_expansion_of_AH.c:154-160: maximum of |Theta| over the nodes *)
Definition max_expansion (nodes : list GenAH.env) : R :=
  fold_left (fun m E => let t := Rabs (GenAH.Theta E) in if ltR m t then t else m) nodes 0.

(** ** Centre of mass (sys_tune.c) *)
(** sys_tune.c:128-150 Px_ADM_is0_by_y_CM: new y_CM *)
Definition tune_yCM (px W dP thr Omega M y0 : R) : R :=
  let dy := - px/(Omega*M) in
  if GRT (Rabs px) dP && LSS (Rabs px) thr then y0 + dy*W else y0.
(** sys_tune.c:153-175 Py_ADM_is0_by_x_CM: new x_CM *)
Definition tune_xCM (py W dP thr Omega M x0 : R) : R :=
  let dx := py/(Omega*M) in
  if GRT (Rabs py) dP && LSS (Rabs py) thr then x0 + dx*W else x0.

(** ** Star *)
(** star_NS.c:286-294: update of the Euler constant from the root found and its residual *)
Definition euler_update (W tolerance guess found residual : R) : R :=
  if GRT residual (sqrt tolerance) then guess else W*found + (1-W)*guess.
(** star_NS.c:596-611: update of x_CM, y_CM or the angular velocity by the force balance equation *)
Definition force_update (W old found : R) : R :=
  let W1 := if ltR (1/10) (Rabs (1 - found/old)) then W*(1/10) else W in
  W1*found + (1-W1)*old.

(** star_NS_surface.c:965-1004: the function whose root is sought.  [h d] is the enthalpy minus one
    at the signed distance d along the ray, None where no patch is found: then DBL_MAX is returned and
    the root finder is interrupted. *)
Definition DBL_MAX : R := 2^1023.
Definition hval (h : R -> option R) (d : R) : R := match h d with Some v => v | None => DBL_MAX end.
Definition hmiss (h : R -> option R) (d : R) : bool := match h d with Some _ => false | None => true end.
(** star_NS_surface.c:775-783: [while (LSS(Fa,0) && iincr < Nincr) { a -= incr_a; ... }], n rounds left *)
Fixpoint search_a (h : R -> option R) (n : nat) (a : R) : R :=
  match n with
  | O => a
  | S n => if LSS (hval h a) 0 then search_a h n (a - 1/100) else a
  end.
(** star_NS_surface.c:791-800 *)
Fixpoint search_b (h : R -> option R) (n : nat) (b : R) : R :=
  match n with
  | O => b
  | S n => if GRT (hval h b) 0 then search_b h n (b + 1/100) else b
  end.
(** star_NS_surface.c:771-811 and root_finders.c:163-200: the interval on which the bisection starts
    iterating, or None: the search for this ray was interrupted, which ends the whole surface search.
    bisect clears root->interrupt and evaluates the function at a again, so what is left of the
    interrupts of the two loops is whether a itself misses the grid. *)
Definition bracket (h : R -> option R) : option (R * R) :=
  let a := search_a h 500 0 in
  if ltR (hval h a) 0 then None
  else let b := search_b h 500 0 in
       if ltR 0 (hval h b) then None
       else if hmiss h a then None else Some (a, b).
(** star_NS_surface.c:855-890 and 948: one surface search of the iteration.  State: number of failures
    so far and the radii; [found] is None for an interrupted search. *)
Record surf := mksurf { nfail : nat; rmin : R; rmax : R; worked : bool }.
Definition surface_step (mfail : nat) (st : surf) (found : option (R * R * bool)) : outcome surf :=
  match found with
  | None => if (mfail <? S (nfail st))%nat then Abort else Ok (mksurf (S (nfail st)) (rmin st) (rmax st) false)
  | Some (lo, hi, ok) => Ok (mksurf (nfail st) lo hi ok)
  end.
Fixpoint surface_run (mfail : nat) (st : surf) (l : list (option (R * R * bool))) : outcome surf :=
  match l with
  | nil => Ok st
  | f :: l => obind (surface_step mfail st f) (fun st => surface_run mfail st l)
  end.
